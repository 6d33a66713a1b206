(** S_Two.v -- what a modem hears on the bus (C126). *)
From Verif Require Import Base M_Message M_Tx D_Tx.

(** Line events: the bus becomes busy or free, a byte, a damaged byte. *)
Inductive heard : Set := HBusy | HFree | HByte (c : Z) | HErr.
(** What a schedule of Updates says about the bus, the line being busy before it iff [b]. *)
Fixpoint hears (b : bool) (l : list (Z * tx_ev)) : list heard :=
  match l with
  | [] => []
  | (_, Update busy re rv c) :: t =>
      (if Bool.eqb busy b then [] else [if busy then HBusy else HFree]) ++
      (if re then [HErr] else if rv then [HByte c] else []) ++ hears busy t
  | _ :: t => hears b t
  end.
(** The completed busy periods of the bus: what was heard between busy and free. *)
Fixpoint periods (acc : list heard) (l : list heard) : list (list heard) :=
  match l with
  | [] => []
  | HBusy :: t => periods [] t
  | HFree :: t => acc :: periods [] t
  | x :: t => periods (acc ++ [x]) t
  end.
(** Bytes are heard only while the line is busy. *)
Definition real_ev (e : Z * tx_ev) : Prop := match snd e with Update false true _ _ | Update false _ true _ => False | _ => True end.

(** A successful transmission: [m] is accepted by the idle machine (after [l1], at [tw]), [l2] goes on to the first moment the
    machine is idle again; Error() is then false and did not return true meanwhile. *)
Definition succeeds (j1 j2 : list Z) (l1 : list (Z * tx_ev)) (tw : Z) (m : message) (l2 : list (Z * tx_ev)) : Prop :=
  (exists s o, tx_run j1 j2 l1 = Ok (s, o) /\ tx_is_idle (fst s) = true) /\
  busy_during j1 j2 (l1 ++ [(tw, Wake m)]) l2 /\
  exists t h o, tx_run j1 j2 ((l1 ++ [(tw, Wake m)]) ++ l2) = Ok ((t, h), o) /\ tx_is_idle t = true /\
    t_err t = false /\ ~ In (Some true) (skipn (length (l1 ++ [(tw, Wake m)])) o).
