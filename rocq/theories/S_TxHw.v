(** S_TxHw.v -- specification for C120: what the software sees of the transmitter while p1p2_uart_tx.pio runs. *)
From Verif Require Import Base M_Pio M_Tx.

(** uart_pio.cpp:49-53, UARTPio::Transmitting(), read off the registers of the PIO: [dma] are the bytes the DMA channel still has to deliver. *)
Definition reports_transmitting (p : pio) (dma : list Z) : bool :=
  p_irq p || negb (match p_tx p with [] => true | _ => false end) || match dma with [] => false | _ => true end.
(** The state of the PIO after some cycles, one list of arriving words per cycle. *)
Definition after (sched : list (list Z)) : pio := snd (tx_run pio_init sched).
(** The DMA channel delivers a word only while the 8-deep FIFO has room (DREQ). *)
Definition never_full (sched : list (list Z)) : Prop :=
  forall x a y, sched = x ++ a :: y -> (length (p_tx (after x)) + length a <= 8)%nat.
(** In its last cycle the PIO took a word from the FIFO. *)
Definition just_pulled (sched : list (list Z)) : Prop :=
  exists x a v q, sched = x ++ [a] /\ p_tx (after x) ++ a = v :: q /\ p_tx (after sched) = q.
