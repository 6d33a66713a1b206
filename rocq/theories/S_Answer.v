(** S_Answer.v -- what it takes for a transmission to get onto the bus (C106, C107). *)
From Verif Require Import Base M_Core1 M_Core0 S_Core0 D_Core0.

(** Iteration [i], after the history [l], starts a transmission; [ls] and then [k] are the iterations that follow.
    The line is given free within 34 ms, at iteration [j], and is not claimed until [k], at least 32 ms later. *)
Definition granted (b : boot) (l : list inp0) (i : inp0) (ls : list inp0) (k : inp0) : Prop :=
  exists w j la, i :: ls = w ++ j :: la /\
    (forall x q y, w = x ++ q :: y -> busy_since (b_now b) (l ++ x ++ [q]) <> None /\ in_now q < in_now i + 34000) /\
    busy_since (b_now b) (l ++ w ++ [j]) = None /\ in_now j < in_now i + 34000 /\
    Forall (fun q => ev_busy (event_of q) = false /\ in_now q < in_now j + 32000) la /\
    ev_busy (event_of k) = false /\ in_now j + 32000 <= in_now k.
