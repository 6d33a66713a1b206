(** T_PioRate.v -- property theorems C109 (latency of the sample converter) and C110 (it keeps up with the ADC). *)
From Verif Require Import Base M_Pio M_Clock S_Pio S_PioRate P_Pio P_PioTc P_PioRate.

(** C109, as documented: whatever was converted before (then a pause), a sample takes 29 to 36 cycles when it is negated (the first, third,
    ... one) and 33 otherwise.  FALSE: the value 0 takes 38 cycles. *)
Theorem C109_latency_refuted : ~ forall sched bs n b w, Forall2 word_of bs (concat sched) -> (62 * length bs + 2 <= n)%nat -> word_of b w ->
  exists c, documented_latency (Nat.even (length bs)) c /\ latency (sched ++ repeat [] n) w c.
Proof.
  intros H. destruct (H [] [] 2%nat 0 0) as (c & (C1 & C2) & L); [constructor|cbn; lia|split; [lia|auto]|].
  pose proof (latency_is [] [] 2 0 0 ltac:(constructor) ltac:(cbn; lia) ltac:(split; [lia|auto])) as K.
  assert (c = 38) by (apply (latency_unique _ _ c 38 ltac:(lia) ltac:(lia) L); exact K). lia.
Qed.
Print Assumptions C109_latency_refuted.
(** What holds: 30 to 38 cycles, 38 for the value 0 only, all others at most 36; the samples that are not negated take 33. *)
Theorem C109_latency_partial : forall sched bs n b w, Forall2 word_of bs (concat sched) -> (62 * length bs + 2 <= n)%nat -> word_of b w ->
  exists c, latency (sched ++ repeat [] n) w c /\
    (if Nat.even (length bs) then 30 <= c <= 38 /\ (b <> 0 -> c <= 36) /\ (b = 0 -> c = 38) else c = 33).
Proof.
  intros sched bs n b w H Hn Hb. exists (lat (Nat.even (length bs)) b). split; [apply latency_is; auto|].
  destruct (Nat.even (length bs)); cbn [lat]; auto. destruct (latA_range b (proj1 Hb)) as (A & B). split; auto. split; auto. intros ->. reflexivity.
Qed.
Print Assumptions C109_latency_partial.
(** The sample 200 (11001000b), arriving third, takes 33 cycles; the sample 0 in its place takes 38. *)
Example C109_ex : latency ([[7; 200]] ++ repeat [] 126) 200 33 /\ latency ([[7; 200]] ++ repeat [] 126) 0 38 /\ ~ latency ([[7; 200]] ++ repeat [] 126) 0 36.
Proof.
  assert (W : words (concat [[7; 200]]) [7; 200]) by (cbn; repeat constructor; lia).
  assert (L1 := latency_is [[7; 200]] [7; 200] 126 200 200 W ltac:(cbn; lia) ltac:(split; [lia|auto])).
  assert (L2 := latency_is [[7; 200]] [7; 200] 126 0 0 W ltac:(cbn; lia) ltac:(split; [lia|auto])).
  split; [exact L1|]. split; [exact L2|]. intros L. assert (36 = 38) by (apply (latency_unique _ _ 36 38 ltac:(lia) ltac:(lia) L); exact L2). lia.
Qed.

(** C110: if words arrive at least 40 cycles apart - in particular when each reaches the converter at most 369 cycles after its conversion,
    at the ADC's rate - then at no time more than one word waits (the hardware FIFO holds four), and 39 cycles after any moment
    every word that had arrived by then is delivered, in order and converted as specified. *)
Theorem C110_keeps_pace : forall sched bs, apart 40 (arrivals 0 sched) -> Forall2 word_of bs (concat sched) ->
  (length (waiting sched) <= 1)%nat /\ delivered (sched ++ repeat [] 39) = tc_spec true bs.
Proof. exact pace. Qed.
Print Assumptions C110_keeps_pace.
Theorem C110_at_adc_rate : forall sched bs t0 d, from_adc conversion_time t0 d (arrivals 0 sched) -> d <= 369 -> Forall2 word_of bs (concat sched) ->
  (length (waiting sched) <= 1)%nat /\ delivered (sched ++ repeat [] 39) = tc_spec true bs.
Proof.
  intros sched bs t0 d H Hd. apply pace. eapply from_adc_apart; [|exact H]. change conversion_time with 314000. lia.
Qed.
Print Assumptions C110_at_adc_rate.
(** Four conversions of 408.85 cycles each, with delays of 0, 150, 0 and 3 cycles. *)
Definition c110_sched : list (list Z) := [[0]] ++ repeat [] 558 ++ [[255]] ++ repeat [] 258 ++ [[1]] ++ repeat [] 411 ++ [[128 * 16843009]] ++ repeat [] 30.
Example C110_ex : from_adc conversion_time 0 369 (arrivals 0 c110_sched) /\ Forall2 word_of [0; 255; 1; 128] (concat c110_sched) /\
  delivered (c110_sched ++ repeat [] 39) = [0; 255; 65535; 128].
Proof.
  assert (F : from_adc conversion_time 0 369 (arrivals 0 c110_sched)).
  { assert (E : arrivals 0 c110_sched = [0; 559; 818; 1230]) by (vm_compute; reflexivity). rewrite E. change conversion_time with 314000.
    intros [|[|[|[|i]]]] a Ha; cbn in Ha; try (injection Ha as <-; lia). destruct i; discriminate. }
  assert (W : Forall2 word_of [0; 255; 1; 128] (concat c110_sched)).
  { replace (concat c110_sched) with [0; 255; 1; 128 * 16843009] by (vm_compute; reflexivity). repeat (apply Forall2_cons; [split; [lia|auto]|]). constructor. }
  split; [exact F|]. split; [exact W|]. exact (proj2 (C110_at_adc_rate _ _ _ _ F ltac:(lia) W)).
Qed.
