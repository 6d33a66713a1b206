(** S_TxDma.v -- specification for C121: the DMA channel that feeds the transmitter. *)
From Verif Require Import Base M_Pio S_Pio S_TxHw.

(** The DMA channel was started in cycle [from] and reacts within [R] cycles: if from some cycle on (not before [from]) there is room in the 8-deep FIFO
    for [R] cycles and not everything is delivered, then something is delivered in these [R] cycles. *)
Definition fed_promptly (R from : nat) (sched : list (list Z)) : Prop :=
  forall x w y, sched = x ++ w ++ y -> (from <= length x)%nat -> length w = R -> concat (w ++ y) <> [] ->
    (forall w1 w2, w = w1 ++ w2 -> (length (p_tx (after (x ++ w1))) < 8)%nat) -> concat w <> [].
(** Nothing is delivered before. *)
Definition started_at (from : nat) (sched : list (list Z)) : Prop := concat (firstn from sched) = [].
