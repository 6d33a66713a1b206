(** S_Tx.v -- an undisturbed transmission, as the bus and the main loop see it; independent of the states
    of the transmit state machine. *)
From Verif Require Import Base M_Message M_Tx D_Tx.

(** Every poll (Update call) of a schedule satisfies P (time, line busy, receive error, byte received);
    the report of a failed transmission (ClearRx) does not occur. *)
Definition polls (P : Z -> bool -> bool -> bool -> Prop) (l : list (Z * tx_ev)) : Prop :=
  Forall (fun e => match snd e with Update b re rv _ => P (fst e) b re rv | ClearRx _ => False | _ => True end) l.

(** The first poll of the echo comes before [limit], every poll before the limit set by the byte (or the
    line becoming busy) before it, at most 4 ms later; so does the poll at [u] that follows. *)
Fixpoint steady (begun : bool) (limit : Z) (l : list (Z * tx_ev)) (u : Z) : Prop :=
  match l with
  | [] => begun = true /\ u < limit
  | (v, Update _ _ rv _) :: r => v < limit /\ steady true (if negb begun || rv then v + 4000 else limit) r u
  | _ :: r => steady begun limit r u
  end.

(** A transmission of [m], requested at time [tw], is undisturbed:
    - the line becomes free within 34 ms (seen at u0);
    - it stays free until the data is sent, at u1, 32 ms later or more;
    - within 2 ms the line becomes busy; the bytes received are the bytes of [m], without error,
      none more than 4 ms after the one before, the line being busy all the time;
    - at most 4 ms after the last byte the line is free again (seen at u2). *)
Definition undisturbed (tw : Z) (m : message) (l : list (Z * tx_ev)) : Prop :=
  exists waiting u0 power u1 start echo u2 re0 rv0 c0 re1 rv1 c1 c2,
    l = waiting ++ (u0, Update false re0 rv0 c0) :: power ++ (u1, Update false re1 rv1 c1) :: start ++ echo ++ [(u2, Update false false false c2)] /\
    polls (fun u busy _ _ => busy = true /\ u < tw + 34000) waiting /\ u0 < tw + 34000 /\
    polls (fun u busy _ _ => busy = false /\ u < u0 + 32000) power /\ u0 + 32000 <= u1 /\
    polls (fun u busy re rv => busy = false /\ re = false /\ rv = false /\ u < u1 + 2000) start /\
    polls (fun u busy re _ => busy = true /\ re = false) echo /\
    echoes echo = tx_bytes m /\ steady false (u1 + 2000) echo u2.
