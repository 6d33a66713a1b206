(** T_AdcReset.v -- property theorems C123 (what a reset of the ADC does to the measured voltage). *)
From Verif Require Import Base M_Adc M_Pio M_AdcReset S_Pio S_Adc S_AdcReset D_Adc P_PioTc P_AdcReset.

(** After any history of the converter with any number of resets at any cycles (whatever words it was given before): at most one
    word that belongs to no conversion, then every second word negated, the others unchanged, in order; the first one is negated
    exactly if the number of words taken so far is even -- a reset does not restart the program. *)
Theorem C123_converter_partial : forall segs sched bs n,
  Forall2 word_of bs (concat sched) -> (62 * length bs + 100 <= n)%nat ->
  exists e tr sf, (length e <= 1)%nat /\ Forall (fun w => -256 <= s16 w <= 255) e /\
    tc_run (after_resets pio_init segs) (sched ++ repeat [] n) = (tr, sf) /\
    p_rx sf = e ++ tc_spec (Nat.even (taken pio_init segs)) bs /\ p_tx sf = [].
Proof. exact converter_resets. Qed.
Print Assumptions C123_converter_partial.

(** Constant inputs: after any history of resets, with [c] conversions made so far, of which the converter has taken all but
    [c - taken], every value from the fourth on is floor((q - p) * gain / 256) if the number of conversions that got lost is even,
    and floor((p - q) * gain / 256) if it is odd. *)
Theorem C123_sign_partial : forall gain mem p q segs c n sched l rest,
  length mem = 256%nat /\ Forall sample_range mem -> 0 <= gain <= 65535 -> 0 <= p < 256 -> 0 <= q < 256 ->
  (taken pio_init segs <= c)%nat ->
  Forall2 word_of (conversions p q c n) (concat sched) ->
  sampled l ++ rest = map s16 (p_rx (snd (tc_run (after_resets pio_init segs) sched))) ->
  Z.of_nat (samples l) < BLOCK ->
  exists a outs, mrun adc_event (adc_start mem gain) l = Ok (a, outs) /\
    forall k i pend, nth_error (snd (spec_run view0 l)) k = Some (Some (Data i pend)) -> 3 <= i -> pend <= 254 ->
      exists e, nth_error outs k = Some (Some (Some ((if Nat.even (c - taken pio_init segs) then q - p else p - q) * gain / 256, e))).
Proof. exact differential_resets. Qed.
Print Assumptions C123_sign_partial.

(** REFUTED: the conversion that ends while Stop empties the ADC's FIFO (adc.cpp:170) never reaches the converter; after such a
    reset the voltage comes out with the opposite sign: here 975 mV before and -975 mV after it. *)
Definition c123_one : list (list Z) := [100] :: repeat [] 70.
Definition c123_sched : list (list Z) := [100] :: repeat [] 70 ++ [[150]; [100]] ++ repeat [] 70 ++ [[150]] ++ repeat [] 140.
Definition c123_before : list adc_ev := map Sample [-100; 150; -100; 150] ++ repeat (Poll true) 4.
Definition c123_after : list adc_ev := map Sample [100; -150; 100; -150] ++ repeat (Poll true) 4.
Theorem C123_sign_refuted : exists p q segs c n sched l,
  0 <= p < 256 /\ 0 <= q < 256 /\ (taken pio_init segs + 1 = c)%nat /\
  Forall2 word_of (conversions p q c n) (concat sched) /\
  sampled l = map s16 (p_rx (snd (tc_run (after_resets pio_init segs) sched))) /\
  exists a outs, mrun adc_event (adc_start (repeat 0 256) firmware_gain) l = Ok (a, outs) /\
    nth_error (snd (spec_run view0 l)) 7 = Some (Some (Data 3 1)) /\
    nth_error outs 7 = Some (Some (Some (-975, false))) /\ (q - p) * firmware_gain / 256 = 975.
Proof.
  exists 100, 150, [c123_one], 2%nat, 4%nat, c123_sched, c123_after.
  split; [lia|]. split; [lia|]. split; [vm_compute; reflexivity|]. split.
  - cbn. repeat constructor; unfold word_of; lia.
  - split; [vm_compute; reflexivity|]. eexists _, _. split; [vm_compute; reflexivity|]. split; [vm_compute; reflexivity|]. split; [vm_compute; reflexivity|vm_compute; reflexivity].
Qed.
Print Assumptions C123_sign_refuted.

(** Without a loss the sign stays; a reset in the middle of a conversion leaves a word of its own in the ring. *)
Example C123_ex : taken pio_init [c123_one ++ [[150]] ++ repeat [] 70] = 2%nat /\
  Forall2 word_of (conversions 100 150 2 4) (concat c123_sched) /\
  sampled c123_before = map s16 (p_rx (snd (tc_run (after_resets pio_init [c123_one ++ [[150]] ++ repeat [] 70]) c123_sched))) /\
  (exists a outs, mrun adc_event (adc_start (repeat 9 256) firmware_gain) c123_before = Ok (a, outs) /\
    nth_error (snd (spec_run view0 c123_before)) 7 = Some (Some (Data 3 1)) /\ nth_error outs 7 = Some (Some (Some (975, false)))).
Proof.
  split; [vm_compute; reflexivity|]. split; [cbn; repeat constructor; unfold word_of; lia|]. split; [vm_compute; reflexivity|].
  eexists _, _. split; [vm_compute; reflexivity|]. split; [vm_compute; reflexivity|vm_compute; reflexivity].
Qed.
Example C123_ex_spurious : taken pio_init [[100] :: repeat [] 28] = 1%nat /\
  exists w, map s16 (p_rx (snd (tc_run (after_resets pio_init [[100] :: repeat [] 28]) (repeat [] 70 ++ [[150]] ++ repeat [] 70)))) = [w; 150] /\ w <> -100.
Proof. split; [vm_compute; reflexivity|]. eexists. split; [vm_compute; reflexivity|discriminate]. Qed.
