(** S_Loop.v -- the main loop keeps up with the receiver while it transmits. *)
From Verif Require Import Base M_Core1 S_Core1 M_Core0 S_Core0.

(** The iteration was told something about the line. *)
Definition told (i : inp0) : bool := match log_event (event_of i) with [] => false | _ => true end.
(** The iterations up to (and including) the next news all take place before [limit]; then 4 ms after these
    news, and so on. *)
Fixpoint prompt (limit : Z) (l : list inp0) : Prop :=
  match l with
  | [] => True
  | i :: r => in_now i < limit /\ prompt (if told i then in_now i + 4000 else limit) r
  end.
