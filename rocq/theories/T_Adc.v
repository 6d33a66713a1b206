(** T_Adc.v -- property theorems C27..C29, C71 (ADC ring). *)
From Verif Require Import Base M_Adc M_Pio S_Pio S_Adc D_Adc P_PioTc P_Adc.

(** C27: for every interleaving of DMA transfers and polls from a start of the ADC (Start or Reset),
    including block restarts, nothing is undefined and every poll result is right in the sense of
    [poll_ok]: samples are handed out one per poll, in order, without gap or repeat within a block;
    the value is exact when at most 254 samples are pending; an overrun is flagged. *)
Theorem C27_adc_in_order : forall mem gain l,
  length mem = 256%nat /\ Forall sample_range mem -> 0 <= gain <= 65535 -> Forall ev_range l ->
  exists a' outs, mrun adc_event (adc_start mem gain) l = Ok (a', outs) /\
    Forall2 (poll_ok gain mem (transferred (fst (spec_run view0 l)))) (snd (spec_run view0 l)) outs /\
    (Forall poll_clean l -> Forall2 poll_exact (snd (spec_run view0 l)) outs).
Proof. exact adc_history. Qed.
Print Assumptions C27_adc_in_order.
(** ... and Error() followed by Reset() is such a start. *)
Theorem C27_reset_is_start : forall a,
  adc_reset (fst (adc_read_error a)) = adc_start (rg_data (ad_ring a)) (ad_gain a).
Proof. reflexivity. Qed.
Print Assumptions C27_reset_is_start.

Example C27_ex : let l := [Sample 10; Sample (-3); Poll true; Sample 12; Poll true; Poll true; Poll true] in
  exists a', mrun adc_event (adc_start (repeat 0 256) firmware_gain) l =
    Ok (a', [None; None; Some (Some (97, false)); None; Some (Some (175, false)); Some (Some (156, false)); Some None]) /\
  snd (spec_run view0 l) = [None; None; Some (Data 0 2); None; Some (Data 1 2); Some (Data 2 1); Some Nothing] /\
  value_at firmware_gain (repeat 0 256) [10; -3; 12] 2 = 156.
Proof. cbv zeta. ex_solve. Qed.

(** C28 is false: with exactly 255 samples pending the value is computed from an overwritten sample
    and no error is flagged. *)
Theorem C28_overwrite_refuted : exists l mem gain a outs k i v,
  length mem = 256%nat /\ Forall ev_range l /\ mrun adc_event (adc_start mem gain) l = Ok (a, outs) /\
  nth_error (snd (spec_run view0 l)) k = Some (Some (Data i 255)) /\
  nth_error outs k = Some (Some (Some (v, false))) /\
  v <> value_at gain mem (transferred (fst (spec_run view0 l))) i.
Proof.
  exists (Sample 0 :: Sample 0 :: Poll true :: Poll true :: repeat (Sample 0) 254 ++ [Sample 1000; Poll true]),
    (repeat 0 256), firmware_gain.
  eexists _, _, 259%nat, _, _. split; [reflexivity|].
  split. { apply Forall_forall. intros e He. cbn in He. repeat destruct He as [<-|He]; cbn; unfold sample_range; try lia; auto; contradiction. }
  split; [vm_compute; reflexivity|]. split; [vm_compute; reflexivity|]. split; [vm_compute; reflexivity|]. vm_compute. discriminate.
Qed.
Print Assumptions C28_overwrite_refuted.
(** That is the only case: an unflagged wrong value happens only with exactly 255 samples pending. *)
Theorem C28_overwrite_partial : forall mem gain l,
  length mem = 256%nat /\ Forall sample_range mem -> 0 <= gain <= 65535 -> Forall ev_range l ->
  exists a' outs, mrun adc_event (adc_start mem gain) l = Ok (a', outs) /\
    Forall2 (fun x r => forall i p v e, x = Some (Data i p) -> r = Some (Some (v, e)) ->
       v <> value_at gain mem (transferred (fst (spec_run view0 l))) i -> e = false -> p = 255)
      (snd (spec_run view0 l)) outs.
Proof. exact adc_partial. Qed.
Print Assumptions C28_overwrite_partial.
(** 256 pending: flagged. *)
Example C28_ex : exists a outs, mrun adc_event (adc_start (repeat 0 256) firmware_gain)
    (repeat (Sample 7) 256 ++ [Poll true]) = Ok (a, outs) /\ nth_error outs 256 = Some (Some (Some (273, true))).
Proof. ex_solve. Qed.

(** C29 is false at every restart: when the transfer count has reached zero, at least one transferred
    sample has not been handed out; the next poll hands out nothing and skips it for ever ... *)
Theorem C29_restart_refuted : forall mem gain l a outs c,
  length mem = 256%nat /\ Forall sample_range mem -> 0 <= gain <= 65535 -> Forall ev_range l ->
  mrun adc_event (adc_start mem gain) l = Ok (a, outs) -> left (fst (spec_run view0 l)) = 0 ->
  let v := fst (spec_run view0 l) in
  exists a', adc_event a (Poll c) = Ok (a', Some None) /\
    (Z.of_nat (delivered outs) < count v) /\ next (fst (spec_step v (Poll c))) = count v.
Proof. exact restart_loses. Qed.
Print Assumptions C29_restart_refuted.
(** ... and restarts happen: a block of 2^28 samples never yields 2^28 values, however often one polls. *)
Theorem C29_block_refuted : forall mem gain, length mem = 256%nat /\ Forall sample_range mem -> 0 <= gain <= 65535 ->
  exists l v, fst (spec_run view0 l) = v /\ Forall ev_range l /\ count v = BLOCK /\
  forall k, exists a outs, mrun adc_event (adc_start mem gain) (l ++ repeat (Poll true) k) = Ok (a, outs) /\
    Z.of_nat (delivered outs) < BLOCK.
Proof.
  intros mem gain. apply (block_loss_gen (Z.to_nat (BLOCK - 1)) mem gain).
  rewrite Z2Nat.id; [|apply Z.leb_le; reflexivity]. apply Z.sub_add.
Qed.
Print Assumptions C29_block_refuted.
(** What holds: within a block (fewer than 2^28 samples) nothing is lost -- with enough polls there are
    exactly as many values as samples. *)
Theorem C29_restart_partial : forall mem gain l k,
  length mem = 256%nat /\ Forall sample_range mem -> 0 <= gain <= 65535 -> Forall ev_range l ->
  Z.of_nat (samples l) < BLOCK -> (samples l <= k)%nat ->
  exists a outs, mrun adc_event (adc_start mem gain) (l ++ repeat (Poll true) k) = Ok (a, outs) /\ delivered outs = samples l.
Proof. exact block_complete. Qed.
Print Assumptions C29_restart_partial.

(** C71: constant inputs p (inverted channel) and q, converted by the PIO program and handed to the
    ring in any interleaving with the polls, give the differential voltage (q - p) * gain / 256 from
    the third value on (as long as at most 254 samples are pending), at both sampling phases. *)
Theorem C71_differential : forall gain mem p q n sched l rest,
  length mem = 256%nat /\ Forall sample_range mem -> 0 <= gain <= 65535 -> 0 <= p < 256 -> 0 <= q < 256 ->
  Forall2 word_of (altern p q n) (concat sched) ->
  sampled l ++ rest = map s16 (p_rx (snd (tc_run pio_init sched))) ->
  Z.of_nat (samples l) < BLOCK ->
  exists a outs, mrun adc_event (adc_start mem gain) l = Ok (a, outs) /\
    forall k i pend, nth_error (snd (spec_run view0 l)) k = Some (Some (Data i pend)) -> 2 <= i -> pend <= 254 ->
      exists e, nth_error outs k = Some (Some (Some ((q - p) * gain / 256, e))).
Proof.
  intros gain mem p q n sched l rest Hm Hg Hp Hq Hw Hs Hb.
  destruct (tc_prefix sched (altern p q n) Hw) as (r2 & E2).
  apply (differential_run gain mem p q n l (rest ++ map s16 r2)); auto. rewrite app_assoc, Hs, <- map_app, E2. reflexivity.
Qed.
Print Assumptions C71_differential.
Definition c71_sched : list (list Z) := [100] :: repeat [] 70 ++ [[150]; [100]] ++ repeat [] 70 ++ [[150]] ++ repeat [] 140.
Definition c71_l : list adc_ev := [Sample (-100); Sample 150; Poll true; Sample (-100); Poll true; Poll true; Sample 150; Poll true].
Example C71_ex : Forall2 word_of (altern 100 150 4) (concat c71_sched) /\
  sampled c71_l = map s16 (p_rx (snd (tc_run pio_init c71_sched))) /\
  nth_error (snd (spec_run view0 c71_l)) 7 = Some (Some (Data 3 1)) /\
  exists a outs, mrun adc_event (adc_start (repeat 9 256) firmware_gain) c71_l = Ok (a, outs) /\
    nth_error outs 7 = Some (Some (Some (975, false))).
Proof.
  split; [|split; [vm_compute; reflexivity|split; [vm_compute; reflexivity|ex_solve]]].
  cbn. repeat constructor; unfold word_of; first [lia | reflexivity | (split; [lia|reflexivity]) | idtac].
Qed.

(** C82: the error flag of every value is set exactly when 256 or more samples were pending, or a block restart
    since the previous value found the companion DMA channel unfinished; reading it clears it. *)
Theorem C82_adc_error_exact : forall mem gain l,
  length mem = 256%nat /\ Forall sample_range mem -> 0 <= gain <= 65535 -> Forall ev_range l ->
  exists a' outs, mrun adc_event (adc_start mem gain) l = Ok (a', outs) /\
    map (fun r => match r with Some (Some (_, e)) => Some e | _ => None end) outs = flags view0 false l.
Proof. exact adc_flags_start. Qed.
Print Assumptions C82_adc_error_exact.
(** 300 samples in one go: the first 45 values are flagged, the others are not. *)
Example C82_ex : let l := repeat (Sample 5) 300 ++ repeat (Poll true) 300 in
  Forall ev_range l /\
  flags view0 false l = repeat None 300 ++ repeat (Some true) 45 ++ repeat (Some false) 255.
Proof.
  split; [|vm_compute; reflexivity]. apply Forall_app. split; apply Forall_forall; intros e H; apply repeat_spec in H; subst; cbn; unfold sample_range; auto; lia.
Qed.
(** The other cause: a block restart that found the companion channel unfinished. *)
Example C82_ex_restart : flags (View [] 0 0) false [Poll false; Sample 1; Poll true; Sample 2; Poll true] = [None; None; Some true; None; Some false].
Proof. vm_compute. reflexivity. Qed.
