(** T_TxHw.v -- property C120: Transmitting() against the running PIO program. *)
From Verif Require Import Base M_Pio M_Tx S_Pio S_TxHw P_Pio P_TxHw.

(** C120 is false: Transmitting() can answer "no" although a byte is about to be sent and nothing more arrives: the byte has been pulled, the flag is set one cycle later. *)
Theorem C120_transmitting_refuted : exists sched, reports_transmitting (after sched) [] = false /\
  map line_level (fst (tx_run (after sched) [[]])) = [1].
Proof. exists [[]; [165]]. split; reflexivity. Qed.
Print Assumptions C120_transmitting_refuted.
(** What holds.  While a pulse is on the line the answer is "yes". *)
Theorem C120_pulse_partial : forall sched dma, sched <> [] -> line_level (p_pins (after sched)) <> 0 -> reports_transmitting (after sched) dma = true.
Proof. intros sched dma H P. unfold reports_transmitting. rewrite (pulse_flag sched H P). reflexivity. Qed.
Print Assumptions C120_pulse_partial.
Example C120_pulse_ex : line_level (p_pins (after ([[]; [165]] ++ repeat [] 3))) = 1.
Proof. reflexivity. Qed.
(** If the answer is "no", then either the last cycle was a pull, or the line stays idle for as long as nothing new arrives. *)
Theorem C120_no_partial : forall sched rest, reports_transmitting (after sched) [] = false -> concat rest = [] ->
  just_pulled sched \/ Forall (fun l => line_level l = 0) (fst (tx_run (after sched) rest)).
Proof.
  intros sched rest R. unfold reports_transmitting in R. rewrite orb_false_r in R. apply orb_false_iff in R as (I & T). apply silent_or_pulled; [exact I|].
  destruct (p_tx (after sched)); [reflexivity|discriminate].
Qed.
Print Assumptions C120_no_partial.
(** So two answers "no" in a row, one PIO cycle apart, can be relied on. *)
Theorem C120_twice_partial : forall sched rest, reports_transmitting (after sched) [] = false -> reports_transmitting (after (sched ++ [[]])) [] = false -> concat rest = [] ->
  Forall (fun l => line_level l = 0) (fst (tx_run (after (sched ++ [[]])) rest)).
Proof.
  intros sched rest R1 R2 C. destruct (C120_no_partial _ rest R2 C) as [(x & a & v & q & E & Q & _)|S]; [exfalso|exact S].
  apply app_inj_tail in E as (<- & <-). rewrite app_nil_r in Q. unfold reports_transmitting in R1. rewrite Q in R1. destruct (p_irq (after sched)); discriminate.
Qed.
Print Assumptions C120_twice_partial.
Example C120_twice_ex : reports_transmitting (after ([[]; [165]] ++ repeat [] 200)) [] = false /\ reports_transmitting (after (([[]; [165]] ++ repeat [] 200) ++ [[]])) [] = false.
Proof. split; vm_compute; reflexivity. Qed.
(** The flag is set for exactly 173 of the 175 cycles a character takes, whatever arrives meanwhile; the start pulse begins with it. *)
Theorem C120_flag_partial : forall x t bs, Forall2 word_of bs (concat x) -> just_pulled x ->
  (t <> [] -> (length t <= 173)%nat -> p_irq (after (x ++ t)) = true) /\
  (length t = 174%nat -> p_irq (after (x ++ t)) = false).
Proof.
  intros x t bs W J. assert (F : Forall isword (concat x)).
  { clear J. induction W; constructor; auto. eexists; eassumption. }
  split; [exact (flag_held x t F J)|exact (flag_released x t F J)].
Qed.
Print Assumptions C120_flag_partial.
Example C120_flag_ex : Forall2 word_of [165] (concat [[]; [165]]) /\ just_pulled [[]; [165]] /\ p_irq (after ([[]; [165]] ++ repeat [] 173)) = true.
Proof.
  split; [repeat constructor; lia|]. split; [|vm_compute; reflexivity]. exists [[]], [165], 165, []. repeat split.
Qed.
(** The events by which the model of the state machine lets the hardware move (DMA, pull, start, done) cover every run of the PIO program: for each schedule of
    arrivals there are events, some for each cycle, after which DMA channel, FIFO, flag and hence Transmitting() are those of the PIO. *)
Theorem C120_events_cover : forall sched error_flag rest amplifier, never_full sched ->
  exists es, length es = length sched /\ forall k, (k <= length sched)%nat ->
    let h := fold_left hw_step (concat (firstn k es)) (HW error_flag (concat sched ++ rest) [] SmIdle amplifier) in
    hw_dma h = concat (skipn k sched) ++ rest /\ hw_txf h = p_tx (after (firstn k sched)) /\ hw_irq h = p_irq (after (firstn k sched)) /\
    hw_transmitting h = reports_transmitting (after (firstn k sched)) (concat (skipn k sched) ++ rest) /\ hw_error h = error_flag /\ hw_shutdown h = amplifier.
Proof. exact events_cover. Qed.
Print Assumptions C120_events_cover.
Example C120_events_ex : never_full [[]; [165]; [60]; []] /\ reports_transmitting (after [[]; [165]; [60]; []]) [] = true.
Proof.
  split; [|reflexivity]. intros x a y E. destruct x as [|? [|? [|? [|? x]]]]; cbn [app] in E.
  - injection E as <- _. vm_compute. lia.
  - injection E as <- <- _. vm_compute. lia.
  - injection E as <- <- <- _. vm_compute. lia.
  - injection E as <- <- <- <- _. vm_compute. lia.
  - injection E as _ _ _ _ E. destruct x; discriminate.
Qed.
