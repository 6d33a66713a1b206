(** P_Analog.v -- from the line in continuous time to the decoded packets, at the firmware's clock (C102). *)
From Verif Require Import Base M_Dsp M_Adc M_Core1 D_Core1 S_Adc S_Containers S_Dsp S_Pio S_Core1 S_Noise S_Slow S_Front S_Analog P_Dsp P_Core1 P_Core1Chain P_PioTc P_FrontDc P_NoiseDet P_NoiseChar P_Noise P_FrontPulse P_Chain P_FrontChar P_FrontLine P_FrontAdc P_Recover P_LineLog P_Front
  P_SlowRecover P_AnaPulse P_AnaTrain P_AnaLine.

Lemma converted_nth p n l i : 0 <= i < Z.of_nat n -> nth (Z.to_nat i) (converted p n l) 0 = volts l (p * i).
Proof.
  intros Hi. unfold converted. rewrite (nth_indep _ 0 (volts l (p * Z.of_nat 0))) by (rewrite map_length, seq_length; lia).
  rewrite (map_nth (fun i => volts l (p * Z.of_nat i))). rewrite seq_nth by lia. do 2 f_equal. lia.
Qed.
Lemma spaced_earlier last f f' till l : f' <= f -> spaced last f till l -> spaced last f' till l.
Proof. destruct l as [|s l]; cbn [spaced]; intros; [lia|]. destruct H0. split; [lia|auto]. Qed.

Lemma analog_received e0 mem garb q n V l raw : Forall (fun x => -255 <= x <= 255) mem -> Forall (fun x => -255 <= x <= 255) (garb ++ raw) ->
  0 <= n <= 410 -> (5000 <= q)%nat -> Forall (signal_ok 628000 n) l -> spaced (410 * 314000) (314000 * Z.of_nat q) (314000 * Z.of_nat (length raw)) l ->
  digitised n V (converted 314000 (length raw) l) raw -> Z.of_nat (length (garb ++ raw)) < 3900000000 ->
  exists s s1 s2 es1 es2, core1_new e0 = Ok s /\ mrun core1_sample s (firstn (length garb + q) (values firmware_gain mem (garb ++ raw))) = Ok (s1, es1) /\
    mrun core1_sample s1 (skipn (length garb + q) (values firmware_gain mem (garb ++ raw))) = Ok (s2, es2) /\
    ls_busy (k_ls s1) = false /\ busy_end true (log_of es1) = false /\ log_of es2 = flat_map packet_log (map sg_bytes l).
Proof.
  intros Hmem HT Hn Hq Hl HSp HD HLT.
  set (T := garb ++ raw) in *. set (xs := values firmware_gain mem T). set (G := Z.of_nat (length garb)). set (L1 := (length garb + q)%nat).
  pose proof (spaced_till n _ _ Hl _ HSp) as Htill.
  assert (LT : length T = (length garb + length raw)%nat) by (unfold T; apply app_length).
  assert (LX : length xs = length T) by apply values_length.
  assert (Bx : bounded 12000 xs).
  { unfold bounded, xs, values. apply Forall_forall. intros x Hx. apply in_map_iff in Hx as (i & <- & _). apply value_bound; auto. }
  set (U := Uf garb (converted 314000 (length raw) l)). set (F := Ff mem garb raw). set (B := Bf F). set (Y := Yf F).
  set (N := Nof n). assert (HN : 3840 <= N <= 24750) by (unfold N, Nof; lia).
  assert (HFb : forall k, -16000 <= F k <= 16000). { intros k. unfold F, Ff. apply fir_spec_bound. apply bounded_firstn. exact Bx. }
  set (k0 := (G + 9) / 2). set (k1 := (Z.of_nat (length T) + 1) / 2). set (n1 := (Z.of_nat L1 + 1) / 2).
  assert (Hk0 : G + 8 <= 2 * k0 <= G + 9). { unfold k0. pose proof (Z.div_mod (G + 9) 2 ltac:(lia)). pose proof (Z.mod_pos_bound (G + 9) 2 ltac:(lia)). lia. }
  pose proof (half_range (Z.of_nat (length T))) as Hk1. fold k1 in Hk1. pose proof (half_range (Z.of_nat L1)) as Hn1. fold n1 in Hn1.
  assert (EL1 : Z.of_nat L1 = G + Z.of_nat q) by (unfold L1, G; lia).
  assert (HG : 0 <= G) by (unfold G; lia).
  assert (HF : forall k, k0 <= k < k1 -> near N 1 (csum U (2 * k)) (F k)).
  { intros k Hk. apply (F_near mem garb (converted 314000 (length raw) l) raw n V); auto; try lia; fold T; fold G; lia. }
  assert (HB : forall k, k0 <= k < k1 -> brel (B k) (F k) (B (k + 1))). { intros k Hk. unfold B. rewrite Bf_next by lia. apply bnext_rel. }
  assert (HY : forall k, k0 <= k < k1 -> yrel (B k) (F k) (Y k)). { intros k Hk. apply yout_rel. }
  assert (HUv : forall i, G <= i < Z.of_nat (length T) -> U i = volts l (314000 * (i - G))).
  { intros i Hi. unfold U, Uf. fold G. destruct (Z.ltb_spec i G); [lia|]. rewrite converted_nth by lia. reflexivity. }
  assert (HZ : zeros U 0 (Z.of_nat L1)).
  { intros i Hi. destruct (Z_lt_ge_dec i G) as [C|C]; [unfold U, Uf; fold G; destruct (Z.ltb_spec i G); [auto|lia]|].
    rewrite HUv by lia. apply (volts_early n _ _ _ _ Hl _ HSp). lia. }
  assert (HFq : forall k, k0 <= k < n1 -> -N <= 256 * F k <= N).
  { intros k Hk. apply (F_quiet U F N k0 k1 HF); [lia|]. eapply zeros_sub; eauto; lia. }
  pose proof (Bf_bound F k0 ltac:(intros; apply HFb) k0 ltac:(lia)) as HB0. fold B in HB0.
  pose proof (quiet_settles F B N 15 k0) as HS. change (128 * Z.of_nat 15) with 1920 in HS. change (128 * 2 ^ Z.of_nat 15) with 4194304 in HS.
  specialize (HS ltac:(intros; apply HFq; lia) ltac:(intros; apply HB; lia) ltac:(lia)).
  assert (HBs : forall k, k0 + 1921 <= k <= n1 -> - (N + 127) <= B k <= N + 127).
  { intros k Hk. apply (quiet_keeps F B N (- (N + 127)) (N + 127) (k0 + 1921) (Z.to_nat (n1 - (k0 + 1921)))); try lia.
    - intros; apply HFq; lia.
    - intros; apply HB; lia.
    - replace (k0 + 1921) with (k0 + 1920 + 1) by lia. auto. }
  (* the line *)
  assert (EA : (Z.of_nat L1 - 3 + 4) / 2 = n1) by (unfold n1; f_equal; lia).
  assert (EC : convG G (314000 * (Z.of_nat q - 3)) = Z.of_nat L1 - 3).
  { unfold convG. pose proof (div_bounds (314000 * (Z.of_nat q - 3) + 313999) 314000 ltac:(lia)). lia. }
  destruct (analog_heard U F B Y n k0 k1 G (Z.of_nat (length T)) ltac:(lia) HF HB HY eq_refl l Hl (314000 * (Z.of_nat q - 3))) as (m & Hh & Em'); rewrite ?EC.
  { replace (Z.of_nat (length T) - G) with (Z.of_nat (length raw)) by (unfold G; lia). eapply spaced_earlier; eauto. lia. }
  { pose proof (half_range (Z.of_nat L1 - 3)). lia. }
  { lia. }
  { eapply zeros_sub; eauto; lia. }
  { intros i Hi. apply HUv. lia. }
  { rewrite EA. exists 1, 0. split; [left; auto|]. split; [lia|]. fold N. split; [lia|]. unfold BI. pose proof (HBs n1 ltac:(lia)). lia. }
  rewrite EC, EA in Hh, Em'.
  (* garbage and quiet *)
  set (g0 := Z.to_nat (n1 - 400)).
  assert (Eg0 : Z.to_nat n1 = (g0 + 400)%nat) by (unfold g0; lia).
  assert (HQ : bounded 599 (dseq Y (Z.of_nat g0) 400)).
  { apply Forall_forall. intros y Hy. apply (In_nth _ _ 0) in Hy as (i & Hi & <-). rewrite dseq_length in Hi. rewrite dseq_nth by auto.
    set (k := Z.of_nat g0 + Z.of_nat i). assert (Hk : k0 + 1921 <= k < n1) by (unfold k, g0; lia).
    pose proof (HBs k ltac:(lia)). pose proof (HFq k ltac:(lia)). pose proof (HY k ltac:(lia)) as Hy. unfold yrel in Hy. lia. }
  assert (HGb : bounded 1000000 (dseq Y 0 g0)).
  { apply Forall_forall. intros y Hy. apply (In_nth _ _ 0) in Hy as (i & Hi & <-). rewrite dseq_length in Hi. rewrite dseq_nth by auto.
    set (k := 0 + Z.of_nat i). pose proof (HFb k). pose proof (Bf_bound F k ltac:(intros; apply HFb) k ltac:(unfold k; lia)) as Hb. pose proof (yout_rel (Bf F k) (F k)) as Hy. fold (Yf F k) in Hy. fold Y in Hy. unfold yrel in Hy. lia. }
  destruct (recovered_slow e0 (dseq Y 0 g0) (dseq Y (Z.of_nat g0) 400) (map sg_bytes l) (dseq Y n1 m) HGb HQ) as (c & c1 & c2 & es1 & es2 & Ec & R1 & R2 & S1 & S2 & S3); auto.
  { rewrite !dseq_length. unfold g0. lia. } { rewrite dseq_length. lia. }
  replace (dseq Y 0 g0 ++ dseq Y (Z.of_nat g0) 400) with (dseq Y 0 (Z.to_nat n1)) in R1 by (rewrite Eg0, dseq_app; auto).
  (* the core *)
  destruct (core1_new_inv e0) as (s & Es & (_ & Hfir & Hrs & Hdc & _)).
  assert (ES : chain_of s = c /\ k_dc s = dc_new).
  { unfold core1_new in Es. unfold lchain_new in Ec. destruct (fir_new (repeat 0 14)); cbn [bind] in Es; [|discriminate].
    destruct bit_new; cbn [bind] in *; [|discriminate]. injection Es as <-. injection Ec as <-. auto. }
  destruct ES as (ES & ED). exists s.
  assert (HFf : forall k, F k = fir_spec (firstn (Z.to_nat (2 * k + 1)) xs)) by reflexivity.
  destruct (dc_dseq F (Z.to_nat n1) 0 dc_new ltac:(lia) ltac:(intros; apply HFb) dc_new_inv ltac:(reflexivity)) as (d1 & D1 & Hd1 & Bd1).
  destruct (dc_dseq F m n1 d1 ltac:(lia) ltac:(intros; apply HFb) Hd1) as (d2 & D2 & _ & _).
  { rewrite Bd1. f_equal. lia. }
  fold Y in D1, D2.
  assert (Lf : length (firstn L1 xs) = L1) by (rewrite firstn_length; lia).
  assert (Lsk : length (skipn L1 xs) = (length T - L1)%nat) by (rewrite skipn_length; lia).
  destruct (core1_split (firstn L1 xs) [] s (dseq Y 0 (Z.to_nat n1)) d1 c1 es1) as (s1 & es1' & Q1 & O1 & C1 & Dc1 & F1 & Rs1); auto.
  { apply bounded_firstn. auto. }
  { rewrite ED. pose proof (sel_dseq xs F (firstn L1 xs) HFf [] (skipn L1 xs)) as E. cbn [length app Nat.add] in E. change (length (@nil Z)) with 0%nat; rewrite E by (rewrite firstn_skipn; auto).
    rewrite Lf. change ((Z.of_nat 0 + 1) / 2) with 0. fold n1. rewrite Z.sub_0_r. exact D1. }
  { rewrite ES. exact R1. }
  cbn [app] in F1, Rs1.
  destruct (core1_split (skipn L1 xs) (firstn L1 xs) s1 (dseq Y n1 m) d2 c2 es2) as (s2 & es2' & Q2 & O2 & _ & _ & _ & _); auto.
  { rewrite firstn_skipn. auto. }
  { rewrite Dc1. rewrite (sel_dseq xs F (skipn L1 xs) HFf (firstn L1 xs) []) by (rewrite app_nil_r, firstn_skipn; auto).
    rewrite Lf, Lsk. fold n1. replace (L1 + (length T - L1))%nat with (length T) by lia. fold k1. replace (Z.to_nat (k1 - n1)) with m by lia. exact D2. }
  { rewrite C1. exact R2. }
  exists s1, s2, es1', es2'. split; [auto|]. split; [exact Q1|]. split; [exact Q2|]. split; [|split].
  - rewrite <- C1 in S1. exact S1.
  - rewrite O1. exact S2.
  - rewrite O2, S3. reflexivity.
Qed.

(** ... and the last thing told before is that the line is free. *)
Lemma analog_free e0 mem garb q n V l raw : Forall (fun x => -255 <= x <= 255) mem -> Forall (fun x => -255 <= x <= 255) (garb ++ raw) ->
  0 <= n <= 410 -> (5000 <= q)%nat -> Forall (signal_ok 628000 n) l -> spaced (410 * 314000) (314000 * Z.of_nat q) (314000 * Z.of_nat (length raw)) l ->
  digitised n V (converted 314000 (length raw) l) raw -> Z.of_nat (length (garb ++ raw)) < 3900000000 ->
  exists s s1 s2 es1 es2 old, core1_new e0 = Ok s /\ mrun core1_sample s (firstn (length garb + q) (values firmware_gain mem (garb ++ raw))) = Ok (s1, es1) /\
    mrun core1_sample s1 (skipn (length garb + q) (values firmware_gain mem (garb ++ raw))) = Ok (s2, es2) /\
    log_of es1 = old ++ [LFree] /\ log_of es2 = flat_map packet_log (map sg_bytes l).
Proof.
  intros Hmem HT Hn Hq Hl HS HD HLT. destruct (analog_received e0 mem garb q n V l raw Hmem HT Hn Hq Hl HS HD HLT) as (s & s1 & s2 & es1 & es2 & A1 & A2 & A3 & A4 & _ & A5).
  destruct (free_last core1_sample (fun c => ls_busy (k_ls c)) _ _ _ _ core1_log A2 (core1_new_busy _ _ A1) A4) as (old & Eo). exists s, s1, s2, es1, es2, old. auto.
Qed.
