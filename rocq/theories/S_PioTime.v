(** S_PioTime.v -- specification of the exact timing of the transmitter (p1p2_uart_tx.pio), independent of its program.
    Cycles of the PIO clock are counted from 0, the cycle in which the state machine starts. *)
From Verif Require Import Base S_Pio S_PioRate.

(** A character keeps the transmitter busy for 175 cycles. *)
Definition char_cycles : Z := 175.
(** Cycles in which the start pulses of the characters begin: one cycle after the character has reached the FIFO, but not before the
    transmitter is [ready], that is, free again. *)
Fixpoint starts (ready : Z) (arr : list Z) : list Z :=
  match arr with [] => [] | a :: t => let s := Z.max (a + 1) ready in s :: starts (s + char_cycles) t end.
(** The pauses between characters with these starts, [pos]: the cycle from which on the line is free. *)
Fixpoint pauses (pos : Z) (st : list Z) : list nat :=
  match st with [] => [] | s :: t => Z.to_nat (s - pos) :: pauses (s + char_cycles) t end.
(** Characters, each with the cycle in which its start pulse begins, on a line that is otherwise idle. *)
Definition line_of (st : list Z) (bs : list Z) : list Z := waves (combine (pauses 0 st) bs).
(** The first start pulse can begin in cycle 2. *)
Definition first_ready : Z := 2.
