(** P_SlowRecover.v -- the receive chain recovers from any disturbance; slowly sampled line (C99, C102). *)
From Verif Require Import Base M_ShiftReg M_Dsp M_Uart M_Pio M_Core1 S_Containers S_Dsp S_Line S_Pio S_Core1 S_Noise S_Slow D_Uart D_Chain D_Core1
  P_Containers P_Dsp P_Uart P_UartRun P_UartErr P_Pio P_PioTc P_Chain P_Core1 P_Core1Chain P_NoiseDet P_NoiseChar P_NoiseRun P_Noise P_Recover P_LineLog
  P_SlowDet P_SlowChar P_SlowRun P_Slow.

Lemma recovered_slow e0 gs qs pkts ys : bounded 1000000 gs -> bounded 599 qs -> (400 <= length qs)%nat ->
  Z.of_nat (length gs + length qs) < 2000000000 -> heard_slow pkts ys -> Z.of_nat (length ys) < 2000000000 ->
  exists c c1 c2 es1 es2, lchain_new e0 = Ok c /\ mrun lchain_step c (gs ++ qs) = Ok (c1, es1) /\ mrun lchain_step c1 ys = Ok (c2, es2) /\
    ls_busy (lc_ls c1) = false /\ busy_end true (log_of es1) = false /\ log_of es2 = flat_map packet_log pkts.
Proof.
  intros Bg Bq Lq Lt H Ly.
  destruct (hs_level pkts ys H) as (zs & n & R1 & L & Bd & N1 & N2 & K).
  destruct (level_any 1000000 gs ltac:(lia) Bg 0 ltac:(left; reflexivity)) as (st & zg & Rg & Sg & Bzg & Lg).
  destruct (level_settles qs st Sg Bq ltac:(destruct qs; [cbn in Lq; lia|discriminate])) as (zq & Rq & Szq & Lzq).
  set (ZZ := zg ++ zq ++ zs).
  assert (BZ : bounded 130000000 ZZ).
  { unfold ZZ, bounded. apply Forall_app. split; [eapply Forall_impl; [|exact Bzg]; cbn beta; intros; lia|].
    apply Forall_app. split; [eapply Forall_impl; [|exact Szq]; unfold small; cbn beta; intros; lia|eapply Forall_impl; [|exact Bd]; cbn beta; intros; lia]. }
  destruct (det_stream ZZ BZ) as (b & b' & Eb & R2).
  set (e := Z.of_nat (length zg + length zq)).
  assert (AZ : agree (zat ZZ) 0 ZZ).
  { intros i Hi. unfold zat. destruct (Z.ltb_spec (0 + Z.of_nat i) 0); [lia|]. f_equal. lia. }
  apply agree_app in AZ as (_ & AZ). apply agree_app in AZ as (AQ & AS).
  replace (0 + Z.of_nat (length zg) + Z.of_nat (length zq)) with e in AS by (unfold e; lia).
  assert (LZ : Z.of_nat (length ZZ) = e + Z.of_nat (length zs)) by (unfold ZZ, e; rewrite !app_length; lia).
  assert (SQ : forall i, Z.of_nat (length zg) <= i < e -> small (zat ZZ i)).
  { intros i Hi. replace i with (0 + Z.of_nat (length zg) + Z.of_nat (Z.to_nat (i - Z.of_nat (length zg)))) by lia.
    rewrite AQ by (unfold e in Hi; lia). rewrite Forall_forall in Szq. apply Szq, nth_In. unfold e in Hi; lia. }
  assert (L0 : lead (zat ZZ) e).
  { intros i Hi. apply SQ. unfold e in *; lia. }
  assert (Bz : bnd (zat ZZ) e).
  { intros i Hi. destruct (Z_lt_ge_dec i (Z.of_nat (length ZZ))) as [C|C]; [|rewrite zat_over by lia; lia].
    replace i with (e + Z.of_nat (Z.to_nat (i - e))) by lia. rewrite AS by lia. unfold bounded in Bd. rewrite Forall_forall in Bd. apply Bd, nth_In. lia. }
  destruct (K (zat ZZ) e AS Bz L0) as (css & M & Hp & Hg0 & D3 & D4).
  { intros i Hi. rewrite zat_over by lia. unfold small; lia. }
  set (D := det (zat ZZ)) in *.
  assert (DQ : forall i, Z.of_nat (length zg) + 16 <= i < e -> D i = 0).
  { intros i Hi. apply (det_quiet 1700 1700 (zat ZZ) i 1); try lia; [intros; apply SQ; lia|left; apply SQ; lia]. }
  (* split the detector stream *)
  set (n0 := (length zg + 16)%nat). set (n2 := (length zq - 16 - 170)%nat). set (N := length zs).
  assert (EN : length ZZ = (n0 + (170 + n2) + N)%nat) by (unfold ZZ, n0, n2, N; rewrite !app_length; lia).
  assert (Ee : e = Z.of_nat (n0 + (170 + n2))) by (unfold e, n0, n2; lia).
  rewrite EN, dseq_app in R2. rewrite Z.add_0_l, <- Ee in R2.
  assert (RL1 : mrun (lv_update (fun z => z)) lv_new (gs ++ qs) = Ok (0, zg ++ zq)).
  { rewrite mrun_app. unfold lv_new. rewrite Rg; cbn [bind]. rewrite Rq. reflexivity. }
  assert (exists b1, mrun bit_update b (zg ++ zq) = Ok (b1, dseq D 0 (n0 + (170 + n2))) /\ mrun bit_update b1 zs = Ok (b', dseq D e N)) as (b1 & RB1 & RB2).
  { assert (EZ : ZZ = (zg ++ zq) ++ zs) by (unfold ZZ; rewrite app_assoc; reflexivity). rewrite EZ, mrun_app in R2.
    destruct (mrun bit_update b (zg ++ zq)) as [[b1 o1]|] eqn:Q1; cbn [bind] in R2; [|discriminate].
    destruct (mrun bit_update b1 zs) as [[b2 o2]|] eqn:Q2; cbn [bind] in R2; [|discriminate]. injection R2 as -> E.
    apply app_inj_length in E as (-> & ->); [eauto|]. rewrite (mrun_length _ _ _ _ _ Q1), dseq_length, app_length. unfold n0, n2. lia. }
  exists (LChain lv_new b (ls_new e0)). unfold lchain_new. rewrite Eb. cbn [bind].
  (* the byte receiver and the tracker on garbage and quiet *)
  destruct (line_of_uart (dseq D 0 (n0 + (170 + n2))) (ls_new e0) (ua_new_safe _)) as (m & Em & HU).
  rewrite !dseq_app in Em. apply map_sym_split in Em as (m1 & m2 & -> & Em1 & Em). apply map_sym_split in Em as (m3 & m4 & -> & Em3 & Em4).
  assert (M1 : length m1 = n0) by (rewrite <- (map_length sym_of), Em1, dseq_length; auto).
  assert (M3 : length m3 = 170%nat) by (rewrite <- (map_length sym_of), Em3, dseq_length; auto).
  assert (M4 : length m4 = n2) by (rewrite <- (map_length sym_of), Em4, dseq_length; auto).
  assert (Q3 : quiet m3) by (apply (quiet_dseq D m3 _ _ Em3); intros; apply DQ; unfold n0, n2, e in *; lia).
  assert (Q4 : quiet m4) by (apply (quiet_dseq D m4 _ _ Em4); intros; apply DQ; unfold n0, n2, e in *; lia).
  destruct (ua_run_inv m1 _ _ ua_inv_new) as (u1 & o1 & U1 & V1 & _).
  destruct (ua_recover m3 u1 _ V1 Q3 ltac:(lia) ltac:(cbn [app]; rewrite map_length; unfold n0 in *; lia)) as (u2 & o2 & k & U2 & I2 & Hk).
  cbn [app] in Hk, V1. rewrite map_length in Hk.
  destruct (ua_run_inv m3 _ _ V1) as (u2' & o2' & U2' & V2 & _). rewrite U2 in U2'. injection U2' as <- <-.
  destruct (idle_run m4 u2 k I2 Q4 ltac:(lia) ltac:(unfold n0, n2 in *; lia)) as (u3 & U3 & I3).
  pose proof (idle_flags m4 u2 k I2 Q4 ltac:(lia) ltac:(unfold n0, n2 in *; lia)) as F4.
  destruct (ua_run_inv m4 _ _ V2) as (u3' & o3' & U3' & V3 & _). rewrite U3 in U3'. injection U3' as <- <-.
  assert (UU : mrun ua_call (ua_new PARITY_EVEN) (m1 ++ m3 ++ m4) = Ok (u3, o1 ++ o2 ++ repeat None (length m4))).
  { rewrite mrun_app, U1; cbn [bind]. rewrite mrun_app, U2; cbn [bind]. rewrite U3. reflexivity. }
  destruct (HU u3 _ UU) as (s1 & es1 & RS1 & Eu & T1). cbn [ls_uart ls_busy ls_idle ls_new] in T1.
  rewrite (rflags_app m1 _ _ _ _ U1), (rflags_app m3 _ _ _ _ U2) in T1.
  rewrite combine_app in T1 by (rewrite (rflags_length _ _ _ _ U1); symmetry; eapply mrun_length; eauto).
  rewrite combine_app in T1 by (rewrite (rflags_length _ _ _ _ U2); symmetry; eapply mrun_length; eauto).
  rewrite F4, combine_repeat, M4 in T1. fold (nones n2) in T1. rewrite app_assoc in T1.
  set (X := combine (rflags (ua_new PARITY_EVEN) m1) o1 ++ combine (rflags u1 m3) o2) in T1.
  assert (S1 : ls_busy s1 = false /\ 0 <= ls_idle s1 <= 176 /\ busy_end true (log_of es1) = false).
  { pose proof (trun_busy (X ++ nones n2) (true, IDLE_SAMPLES)) as TB. rewrite T1 in TB. cbn [fst snd] in TB.
    pose proof (trun_range (X ++ nones n2) (true, IDLE_SAMPLES) ltac:(cbn; unfold IDLE_SAMPLES; lia)) as TR. rewrite T1 in TR. cbn [fst snd] in TR.
    rewrite <- TB. rewrite trun_app in T1. pose proof (trun_range X (true, IDLE_SAMPLES) ltac:(cbn; unfold IDLE_SAMPLES; lia)) as TX.
    destruct (trun (true, IDLE_SAMPLES) X) as [[b2 i2] l2]. cbn [fst snd] in TX. rewrite trun_gap in T1 by (cbn; lia).
    unfold gapw in T1. cbn [fst snd] in T1. destruct b2.
    - destruct (Z.leb_spec (Z.of_nat n2) i2); [unfold n2 in *; lia|]. injection T1 as A B C. rewrite <- A. auto.
    - injection T1 as A B C. rewrite <- A. auto. }
  destruct S1 as (S1 & S2 & S3).
  assert (ls_safe : ua_safe (ls_uart s1)) by (rewrite Eu; eapply ua_inv_safe; eauto).
  destruct (line_of_uart (dseq D e N) s1 ls_safe) as (m5 & Em5 & HU5).
  assert (Hg : sgaps_from (k + Z.of_nat (length m4)) (concat css)).
  { apply Forall_forall. intros x Hx. pose proof (send_gap _ e x (splaced_lens _ _ _ D3) Hx) as Xg. rewrite D4 in Xg. unfold n0, n2 in *. lia. }
  rewrite Eu in HU5.
  destruct (suart_line_n D (concat css) (k + Z.of_nat (length m4)) e e N m5 u3 _ D3 Hg ltac:(lia) V3 I3 ltac:(lia) Em5) as (u5 & o5 & U5 & Ob).
  { rewrite D4. unfold N. lia. } { rewrite D4. unfold n0, n2, N in *. lia. }
  destruct (HU5 u5 _ U5) as (s2 & es2 & RS2 & _ & T2). rewrite S1, Ob in T2.
  exists (LChain 0 b1 s1), (LChain 0 b' s2), es1, es2.
  split; [reflexivity|]. split; [eapply lchain_split; cbn [lc_level lc_bit lc_ls]; eauto|].
  split; [eapply lchain_split; cbn [lc_level lc_bit lc_ls]; eauto|]. split; [exact S1|]. split; [exact S3|].
  pose proof (spackets_quiet (e + Z.of_nat N) css e e (false, ls_idle s1) Hp (splaced_lens _ _ _ D3) ltac:(cbn [snd]; lia) ltac:(lia)
    ltac:(rewrite D4; unfold N; lia)) as PQ.
  rewrite T2 in PQ. cbn [snd pre fst app] in PQ. rewrite PQ. rewrite <- M. rewrite !flat_map_concat_map, map_map. f_equal. apply map_ext.
  intros p. unfold spacket_log, packet_log. rewrite map_map. reflexivity.
Qed.
Lemma recovered_slow_free e0 gs qs pkts ys : bounded 1000000 gs -> bounded 599 qs -> (400 <= length qs)%nat ->
  Z.of_nat (length gs + length qs) < 2000000000 -> heard_slow pkts ys -> Z.of_nat (length ys) < 2000000000 ->
  exists c c1 c2 es1 es2 old, lchain_new e0 = Ok c /\ mrun lchain_step c (gs ++ qs) = Ok (c1, es1) /\ mrun lchain_step c1 ys = Ok (c2, es2) /\
    log_of es1 = old ++ [LFree] /\ log_of es2 = flat_map packet_log pkts.
Proof.
  intros Bg Bq Lq Lt H Ly. destruct (recovered_slow e0 gs qs pkts ys Bg Bq Lq Lt H Ly) as (c & c1 & c2 & es1 & es2 & A1 & A2 & A3 & A4 & _ & A5).
  destruct (free_last lchain_step (fun c => ls_busy (lc_ls c)) _ _ _ _ lchain_log A2 (lchain_new_busy _ _ A1) A4) as (old & Eo). exists c, c1, c2, es1, es2, old. auto.
Qed.
