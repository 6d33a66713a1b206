(** P_SystemTimed.v -- the complete firmware in real time, from the line in continuous time to the host (C105). *)
From Verif Require Import Base M_ShiftReg M_Dsp M_Uart P_Uart M_Fifo M_Message S_Message D_Message M_Tx D_Tx M_HostUart D_Host S_Host M_Led M_Adc S_Dsp S_Pio M_Core1 S_Core1 D_Core1 P_Core1 P_Core1Chain S_Adc D_Adc P_Adc D_Core1Adc P_Core1Adc
  M_Core0 S_Core0 D_Core0 P_Core0 P_Core0Run P_Core0Rx P_Core0Busy P_Core0Main M_System S_System S_SysTime P_System P_SystemRx S_Front S_Slow S_Analog P_FrontAdc P_Front P_AnaLine P_Analog P_SystemLine P_SystemAnalog P_SysTime P_SysQuiet.

(** ** Part of a line *)
Lemma digitised_firstn n us : forall V rs m, digitised n V us rs -> digitised n V (firstn m us) (firstn m rs).
Proof. induction us as [|u us IH]; intros V [|r rs] [|m] H; cbn in *; try tauto. destruct H. split; auto. Qed.
Lemma converted_firstn p m N l : (m <= N)%nat -> firstn m (converted p N l) = converted p m l.
Proof. intros H. unfold converted. rewrite firstn_map. f_equal. replace N with (m + (N - m))%nat by lia. rewrite seq_app, firstn_app, seq_length, Nat.sub_diag, firstn_O, app_nil_r. apply firstn_all2. rewrite seq_length. lia. Qed.
Lemma volts_firstn n last till l : Forall (signal_ok 628000 n) l -> forall from k x, spaced last from till l -> (match nth_error l k with Some s => x < sg_start s | None => True end) -> volts (firstn k l) x = volts l x.
Proof.
  induction 1 as [|s l H Hl IH]; intros from k x HS Hx; [destruct k; reflexivity|]. cbn [spaced] in HS. destruct HS as (H1 & H2). destruct k as [|k]; cbn [firstn volts nth_error] in *.
  - destruct (Z.leb_spec (sg_start s) x); [lia|]. cbn [andb]. symmetry. apply (volts_early n last till x l Hl (sg_end s) H2). destruct H as (_ & ? & ? & _). unfold sg_end. nia.
  - rewrite (IH _ k x H2 Hx). reflexivity.
Qed.
Lemma converted_part n last till l p m N from k : Forall (signal_ok 628000 n) l -> spaced last from till l -> (m <= N)%nat -> 0 <= p -> (match nth_error l k with Some s => p * (Z.of_nat m - 1) < sg_start s | None => True end) ->
  firstn m (converted p N l) = converted p m (firstn k l).
Proof.
  intros Hl HS Hm Hp Hk. rewrite converted_firstn by exact Hm. unfold converted. apply map_ext_in. intros i Hi. apply in_seq in Hi. symmetry. apply (volts_firstn n last till l Hl from); [exact HS|].
  destruct (nth_error l k); [|exact I]. eapply Z.le_lt_trans; [|exact Hk]. apply Z.mul_le_mono_nonneg_l; lia.
Qed.
Lemma values_firstn g mem T T' : firstn (length T) (values g mem (T ++ T')) = values g mem T.
Proof.
  unfold values. rewrite firstn_map, app_length, seq_app, firstn_app, seq_length, Nat.sub_diag, firstn_O, app_nil_r, firstn_all2 by (rewrite seq_length; lia).
  apply map_ext_in. intros i Hi. apply in_seq in Hi. apply value_at_prefix. lia.
Qed.
Lemma values_length g mem T : length (values g mem T) = length T. Proof. unfold values. rewrite map_length, seq_length. reflexivity. Qed.
Lemma mrun_firstn {S I O} (f : S -> I -> res (S * O)) l m s s' os : mrun f s l = Ok (s', os) -> exists s1, mrun f s (firstn m l) = Ok (s1, firstn m os).
Proof.
  intros E. rewrite <- (firstn_skipn m l), mrun_app in E. bstep E. destruct x as (s1 & o1). bstep E. destruct x as (s2 & o2). injection E as _ <-. exists s1. rewrite E0. do 2 f_equal.
  pose proof (mrun_length _ _ _ _ _ E0) as L. rewrite firstn_app. rewrite firstn_length in L. destruct (Nat.le_gt_cases m (length l)) as [H|H].
  - rewrite Nat.min_l in L by lia. rewrite <- L, Nat.sub_diag, firstn_O, app_nil_r, firstn_all. reflexivity.
  - rewrite Nat.min_r in L by lia. assert (Ls : length o2 = 0%nat) by (rewrite (mrun_length _ _ _ _ _ E1), skipn_length; lia). destruct o2; [|discriminate]. rewrite firstn_nil, app_nil_r, firstn_all2 by lia. reflexivity.
Qed.

(** What was told after [m] conversions of the line, [k] packets being over and the next one not yet begun. *)
Lemma told_after e0 mem garb q n V l raw s s2 evs : Forall (fun x => -255 <= x <= 255) mem -> Forall (fun x => -255 <= x <= 255) (garb ++ raw) ->
  0 <= n <= 410 -> (5000 <= q)%nat -> Forall (signal_ok 628000 n) l -> spaced (410 * 314000) (314000 * Z.of_nat q) (314000 * Z.of_nat (length raw)) l ->
  digitised n V (converted 314000 (length raw) l) raw -> Z.of_nat (length (garb ++ raw)) < 3900000000 ->
  core1_new e0 = Ok s -> mrun core1_sample s (values firmware_gain mem (garb ++ raw)) = Ok (s2, evs) ->
  exists old, forall k m, (k <= length l)%nat -> (m <= length raw)%nat -> spaced (410 * 314000) (314000 * Z.of_nat q) (314000 * Z.of_nat m) (firstn k l) ->
    (match nth_error l k with Some s => 314000 * (Z.of_nat m - 1) < sg_start s | None => True end) ->
    log_of (firstn (length garb + m) evs) = (old ++ [LFree]) ++ flat_map packet_log (map sg_bytes (firstn k l)).
Proof.
  intros Hmem HT Hn Hq Hl HS HD HLT Ek Ev. pose proof (mrun_length _ _ _ _ _ Ev) as Lev. rewrite values_length, app_length in Lev.
  destruct (analog_free e0 mem garb q n V l raw Hmem HT Hn Hq Hl HS HD HLT) as (s0 & s1 & s3 & es1 & es2 & old & D1 & D2 & D3 & D4 & _). rewrite Ek in D1. injection D1 as <-.
  destruct (mrun_firstn _ _ (length garb + q) _ _ _ Ev) as (s1' & Q1). rewrite D2 in Q1. injection Q1 as _ Q1.
  exists old. intros k m Hk Hm Hsp Hst. assert (Hl' : Forall (signal_ok 628000 n) (firstn k l)) by (rewrite <- (firstn_skipn k l) in Hl; apply Forall_app in Hl; apply Hl).
  pose proof (spaced_till n _ _ Hl' _ Hsp) as Hqm. assert (Hqm' : (q <= m)%nat) by lia.
  assert (Lr : length (firstn m raw) = m) by (rewrite firstn_length; lia).
  assert (HT' : Forall (fun x => -255 <= x <= 255) (garb ++ firstn m raw)).
  { apply Forall_app in HT as (T1 & T2). apply Forall_app. split; [exact T1|]. rewrite <- (firstn_skipn m raw) in T2. apply Forall_app in T2. apply T2. }
  assert (HD' : digitised n V (converted 314000 (length (firstn m raw)) (firstn k l)) (firstn m raw)).
  { rewrite Lr. rewrite <- (converted_part n _ _ l 314000 m (length raw) _ k Hl HS Hm ltac:(lia) Hst). apply digitised_firstn. exact HD. }
  assert (HLT' : Z.of_nat (length (garb ++ firstn m raw)) < 3900000000) by (rewrite app_length in *; lia). rewrite <- Lr in Hsp.
  destruct (analog_free e0 mem garb q n V (firstn k l) (firstn m raw) Hmem HT' Hn Hq Hl' Hsp HD' HLT') as (s0' & t1 & t2 & fs1 & fs2 & old' & F1 & F2 & F3 & F4 & F5). rewrite Ek in F1. injection F1 as <-.
  assert (Ea : mrun core1_sample s (values firmware_gain mem (garb ++ firstn m raw)) = Ok (t2, fs1 ++ fs2)) by (rewrite <- (firstn_skipn (length garb + q) (values _ _ _)), mrun_app, F2; cbn [bind]; rewrite F3; reflexivity).
  assert (Ga : length (garb ++ firstn m raw) = (length garb + m)%nat) by (rewrite app_length, Lr; reflexivity).
  assert (Va : values firmware_gain mem (garb ++ firstn m raw) = firstn (length garb + m) (values firmware_gain mem (garb ++ raw))).
  { symmetry. rewrite <- Ga. replace (garb ++ raw) with ((garb ++ firstn m raw) ++ skipn m raw) by (rewrite <- app_assoc, firstn_skipn; reflexivity). apply values_firstn. }
  destruct (mrun_firstn _ _ (length garb + m) _ _ _ Ev) as (s4 & Q2). rewrite <- Va, Ea in Q2. injection Q2 as _ Q2. rewrite <- Q2.
  assert (E1 : fs1 = es1).
  { rewrite Q1. pose proof (mrun_length _ _ _ _ _ F2) as L1. rewrite firstn_length, values_length, Ga in L1. apply (f_equal (firstn (length garb + q))) in Q2. rewrite firstn_firstn, Nat.min_l in Q2 by lia. rewrite <- Q2.
    rewrite firstn_app. replace (length garb + q - length fs1)%nat with 0%nat by lia. rewrite firstn_O, app_nil_r. rewrite firstn_all2 by lia. reflexivity. }
  unfold log_of. rewrite flat_map_app. fold (log_of fs1) (log_of fs2). rewrite F5, E1, D4. reflexivity.
Qed.

(** ** Where the packets begin and end *)
Lemma spaced_cut n last till l : Forall (signal_ok 628000 n) l -> forall from k s, spaced last from till l -> nth_error l k = Some s -> forall t, sg_start s - 880000000 + last <= t -> spaced last from t (firstn k l).
Proof.
  induction 1 as [|u l H Hl IH]; intros from k s HS Hk t Ht; [destruct k; discriminate|]. cbn [spaced] in HS. destruct HS as (H1 & H2). destruct k as [|k]; cbn [nth_error firstn spaced] in *.
  - injection Hk as ->. lia.
  - split; [exact H1|]. eapply IH; eauto.
Qed.
Lemma spaced_through n last till l : Forall (signal_ok 628000 n) l -> forall from k s, spaced last from till l -> nth_error l k = Some s -> forall t, sg_end s + last <= t -> spaced last from t (firstn (k + 1) l).
Proof.
  induction 1 as [|u l H Hl IH]; intros from k s HS Hk t Ht; [destruct k; discriminate|]. cbn [spaced] in HS. destruct HS as (H1 & H2). destruct k as [|k]; cbn [nth_error firstn spaced Nat.add] in *.
  - injection Hk as ->. split; [exact H1|]. cbn [spaced]. lia.
  - split; [exact H1|]. eapply IH; eauto.
Qed.
Lemma spaced_next n till l : Forall (signal_ok 628000 n) l -> forall from k s, spaced (410 * 314000) from till l -> nth_error l k = Some s -> from + 880000000 <= sg_start s /\ sg_start s <= sg_end s /\
  sg_end s + 410 * 314000 <= till /\ match nth_error l (k + 1) with Some u => sg_end s + 880000000 <= sg_start u | None => True end.
Proof.
  induction 1 as [|u l H Hl IH]; intros from k s HS Hk; [destruct k; discriminate|]. cbn [spaced] in HS. destruct HS as (H1 & H2). pose proof (spaced_till n till l Hl _ H2) as Ht.
  assert (He : sg_start u <= sg_end u) by (destruct H as (_ & A1 & A2 & _); unfold sg_end; nia).
  destruct k as [|k]; cbn [nth_error Nat.add] in *.
  - injection Hk as <-. split; [exact H1|]. split; [exact He|]. split; [exact Ht|]. destruct l as [|v l]; [exact I|]. cbn [nth_error]. cbn [spaced] in H2. apply H2.
  - destruct (IH _ _ _ H2 Hk) as (A & Bb & C & D). split; [lia|auto].
Qed.

Lemma timed_to_host b mem e0 l s outs garb q n V sigs raw t0 sl w : boot_ok b -> length mem = 256%nat -> Forall (fun x => -255 <= x <= 255) mem -> Forall sys_ok l -> input_ok (text (sys_loop_inputs l)) ->
  sys_run b mem e0 l = Ok (s, outs) -> keeps_up l -> Z.of_nat (length (dma_samples l)) < BLOCK ->
  Forall (fun x => ~ overflow_in (snd x)) (loops outs) -> k_queue (y_link s) = [] -> k_ferr (y_link s) = false ->
  0 <= b_now b -> in_time (b_now b) (sys_loop_inputs l) -> real_time 314000 t0 sl w 0 0 l -> t0 <= 96000 * 4000000000000 -> Z.of_nat w <= 15000 -> sl <= 480000000 ->
  dma_samples l = garb ++ raw -> 0 <= n <= 410 -> (5000 <= q)%nat -> Forall (signal_ok 628000 n) sigs -> spaced (410 * 314000) (314000 * Z.of_nat q) (314000 * Z.of_nat (length raw)) sigs ->
  Forall (fun u => (length (sg_bytes u) <= 31)%nat) sigs -> digitised n V (converted 314000 (length raw) sigs) raw ->
  exists o c, map described (rx_reports (concat (map snd (loops outs)))) = o ++ map (fun u => (R_packet, (0, sg_bytes u))) sigs /\
    map content (to_ctrl (concat (map snd (loops outs)))) = c ++ map (fun u => (0, sg_bytes u)) sigs.
Proof.
  intros B Lm Rm F T E K Hs No Hq Hf H0 Hti RT Ht0 Hw Hsl ET Hn H5 Hb Hsp H31 HD. assert (K' := K). destruct K' as (K1 & K2).
  destruct (adc_keeps mem firmware_gain (sys_adc l) (conj Lm (range_wider _ Rm)) ltac:(vm_compute; split; discriminate) (sys_ev_range l F) ltac:(rewrite samples_length, dma_sampled; exact Hs) K1 K2) as (a & rs & Ra & U & Gv & La).
  rewrite dma_sampled, ET in Gv. pose proof (dma_ok l F) as HT. rewrite ET in HT. assert (Hs' := Hs). rewrite ET in Hs'.
  destruct (sys_split b mem e0 l s outs F E) as (k0 & rs' & evs & lo & o0 & A1 & A2 & A3 & _ & _ & _ & _ & A8). rewrite Ra in A2. injection A2 as -> <-.
  assert (P : no_news (c1_pend (y_c1 s)) = true).
  { pose proof (produced_last rs evs (mrun_length _ _ _ _ _ A3) La) as X. assert (Y : last (ev_none :: produced rs evs) ev_none = ev_none) by (destruct (produced rs evs); [reflexivity|exact X]). rewrite <- A8, last_last in Y. rewrite Y. reflexivity. }
  pose proof (mrun_length _ _ _ _ _ A3) as Lev. rewrite Gv, values_length, app_length in Lev. assert (A3' := A3). rewrite Gv in A3'.
  assert (HB : Z.of_nat (length (garb ++ raw)) < 3900000000) by (unfold BLOCK in Hs'; lia).
  destruct (told_after e0 mem garb q n V sigs raw k0 _ evs Rm HT Hn H5 Hb Hsp HD HB A1 A3') as (old & Told).
  set (nth_sig := fun k => nth k sigs (SIGNAL 0 0 0 0 [])).
  set (Ks := fun k => (length garb + if (k <? length sigs)%nat then Z.to_nat (sg_start (nth_sig k) / 314000) else length raw)%nat).
  set (Ke := fun k => (length garb + Z.to_nat ((sg_end (nth_sig k) + 313999) / 314000 + 410))%nat).
  assert (Lp : length (map pk_of sigs) = length sigs) by apply map_length.
  assert (Nth : forall k, (k < length sigs)%nat -> nth_error sigs k = Some (nth_sig k)) by (intros k Hk; apply nth_error_nth'; exact Hk).
  assert (Facts : forall k, (k < length sigs)%nat -> 314000 * Z.of_nat q + 880000000 <= sg_start (nth_sig k) /\ sg_start (nth_sig k) <= sg_end (nth_sig k) /\ sg_end (nth_sig k) + 410 * 314000 <= 314000 * Z.of_nat (length raw)).
  { intros k Hk. destruct (spaced_next n _ sigs Hb _ k _ Hsp (Nth k Hk)) as (X1 & X2 & X3 & _). auto. }
  assert (Hlog : forall k, (k <= length sigs)%nat -> log_of (firstn (Ks k) evs) = (old ++ [LFree]) ++ flat_map one_packet (firstn k (map pk_of sigs))).
  { intros k Hk. rewrite firstn_map, pk_of_log. unfold Ks. destruct (Nat.ltb_spec k (length sigs)) as [Hlt|Hge].
    - destruct (Facts k Hlt) as (X1 & X2 & X3). pose proof (Z.div_mod (sg_start (nth_sig k)) 314000 ltac:(lia)) as Dm. pose proof (Z.mod_pos_bound (sg_start (nth_sig k)) 314000 ltac:(lia)) as Mb.
      apply Told; [lia|lia| |rewrite (Nth k Hlt); lia]. apply (spaced_cut n _ _ sigs Hb _ k _ Hsp (Nth k Hlt)). lia.
    - assert (k = length sigs) by lia. subst k. apply Told; [lia|lia|rewrite firstn_all; exact Hsp|]. rewrite (proj2 (nth_error_None sigs (length sigs))) by lia. exact I. }
  assert (Hend : forall k, (k < length sigs)%nat -> log_of (firstn (Ke k) evs) = (old ++ [LFree]) ++ flat_map one_packet (firstn (k + 1) (map pk_of sigs)) /\ (Ke k <= Ks k + Z.to_nat 11242)%nat).
  { intros k Hk. destruct (Facts k Hk) as (X1 & X2 & X3). pose proof (Z.div_mod (sg_end (nth_sig k) + 313999) 314000 ltac:(lia)) as Dm. pose proof (Z.mod_pos_bound (sg_end (nth_sig k) + 313999) 314000 ltac:(lia)) as Mb. split.
    - rewrite firstn_map, pk_of_log. unfold Ke. destruct (spaced_next n _ sigs Hb _ k _ Hsp (Nth k Hk)) as (_ & _ & _ & X4). apply Told; [lia|lia| |].
      + apply (spaced_through n _ _ sigs Hb _ k _ Hsp (Nth k Hk)). lia.
      + destruct (nth_error sigs (k + 1)); [lia|exact I].
    - unfold Ke, Ks. replace (k <? length sigs)%nat with true by (symmetry; apply Nat.ltb_lt; exact Hk).
      pose proof (Z.div_mod (sg_start (nth_sig k)) 314000 ltac:(lia)) as Dm2. pose proof (Z.mod_pos_bound (sg_start (nth_sig k)) 314000 ltac:(lia)) as Mb2.
      rewrite Forall_forall in Hb, H31. assert (Hin : In (nth_sig k) sigs) by (apply nth_In; exact Hk). destruct (Hb _ Hin) as (_ & _ & _ & _ & Y1). specialize (H31 _ Hin). unfold sg_end in *. lia. }
  destruct (packets_timed b mem e0 l s outs rs evs k0 314000 t0 sl w (Z.to_nat 11242) Ks Ke old (map pk_of sigs) B Lm Rm F T E K Hs No Hq Hf P A1 Ra U A3 RT H0 Hti) as (o & c & X1 & X2).
  - clear - RT Ht0 Hsl Hs. apply Forall_forall. intros i Hi. unfold sys_loop_inputs in Hi. apply in_flat_map in Hi as (y & Hy & Hi). destruct y; cbn in Hi; try contradiction. destruct Hi as [->|[]]. apply in_split in Hy as (l1 & l2 & ->).
    pose proof (real_time_clock _ _ _ _ _ _ _ _ _ RT ltac:(lia)) as C. rewrite dma_app, app_length in Hs. unfold BLOCK in Hs. lia.
  - rewrite <- (firstn_all (map pk_of sigs)), Lp. rewrite <- (Hlog (length sigs) ltac:(lia)). unfold Ks. rewrite Nat.ltb_irrefl, firstn_all2 by lia. reflexivity.
  - rewrite Forall_map. exact H31.
  - rewrite Lp. exact Hlog.
  - rewrite Lp. unfold Ks. rewrite Nat.ltb_irrefl. lia.
  - rewrite Lp. exact Hend.
  - lia.
  - lia.
  - rewrite !map_map in X1, X2. eauto.
Qed.
