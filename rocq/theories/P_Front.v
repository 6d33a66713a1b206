(** P_Front.v -- from the ADC samples to the decoded packets (C94). *)
From Verif Require Import Base M_Dsp M_Adc M_Core1 D_Core1 S_Adc S_Containers S_Dsp S_Pio S_Core1 S_Noise S_Front P_Dsp P_Core1 P_Core1Chain P_PioTc P_FrontDc P_NoiseDet P_NoiseChar P_Noise P_FrontPulse P_Chain P_FrontChar P_FrontLine P_FrontAdc P_Recover P_LineLog.

Definition bump (l : list burst) : list burst := match l with [] => [] | b :: t => BURST (3 + bu_idle b) (bu_amp b) (bu_packet b) :: t end.
Definition bump_tail (l : list burst) (tail : nat) : nat := match l with [] => (3 + tail)%nat | _ => tail end.
Lemma bump_voltage l tail : voltage (bump l) (bump_tail l tail) = repeat 0 3 ++ voltage l tail.
Proof. destruct l as [|b l]; reflexivity. Qed.
Lemma bump_ok n l : Forall (burst_ok n) l -> Forall (burst_ok n) (bump l).
Proof. destruct l as [|b l]; intros H; [constructor|]. inversion H; subst. constructor; auto. Qed.
Lemma bump_packets l : map bu_packet (bump l) = map bu_packet l. Proof. destruct l; reflexivity. Qed.

Lemma value_bound mem T i : Forall (fun x => -255 <= x <= 255) mem -> Forall (fun x => -255 <= x <= 255) T -> -12000 <= value_at firmware_gain mem T i <= 12000.
Proof.
  intros Hm HT. assert (HS : forall j, -255 <= sample_at mem T j <= 255).
  { assert (HN : forall (l : list Z) j, Forall (fun x => -255 <= x <= 255) l -> -255 <= nth j l 0 <= 255).
    { intros lst j Hl. destruct (Nat.lt_ge_cases j (length lst)); [rewrite Forall_forall in Hl; apply Hl, nth_In; auto|rewrite nth_overflow by auto; lia]. }
    intros j. unfold sample_at. destruct (j <? 0); apply HN; auto. }
  unfold value_at, diff_value. rewrite gain_value. pose proof (HS i). pose proof (HS (i - 2)). pose proof (HS (i - 1)).
  set (a := sample_at mem T i) in *. set (b := sample_at mem T (i - 2)) in *. set (y := sample_at mem T (i - 1)) in *.
  pose proof (Z.quot_rem' (a + b) 2). pose proof (Z.rem_bound_abs (a + b) 2 ltac:(lia)).
  set (s := Z.quot (a + b) 2) in *. set (rm := Z.rem (a + b) 2) in *. clearbody s rm a b y.
  pose proof (Z.div_mod ((s + y) * 4992) 256 ltac:(lia)). pose proof (Z.mod_pos_bound ((s + y) * 4992) 256 ltac:(lia)). lia.
Qed.

Lemma regap_packets l pkts : Forall2 regap l pkts -> flat_map one_packet pkts = flat_map one_packet l.
Proof.
  induction 1 as [|p p' l pkts (H1 & H2 & _) _ IH]; [auto|]. cbn [flat_map]. rewrite IH. f_equal. unfold one_packet, pk_bytes. rewrite H1, H2. auto.
Qed.
Lemma regap_all (P P' : packet -> Prop) l pkts : Forall2 regap l pkts -> Forall P l -> Forall P' pkts -> forall R : packet -> Prop, (forall p p', regap p p' -> P p -> P' p' -> R p') -> Forall R pkts.
Proof. induction 1; intros H1 H2 R HR; [constructor|]. inversion H1; inversion H2; subst. constructor; eauto. Qed.
Lemma inner_gap r : fold_right (fun (gb : nat * Z) n => 6 + Z.of_nat (fst gb) + n) 0 r <= 172 -> Forall (fun c : nat * Z => Z.of_nat (fst c) <= 172) r.
Proof.
  induction r as [|(g & b) r IH]; cbn [fold_right fst]; intros H; constructor.
  - cbn [fst]. assert (0 <= fold_right (fun (gb : nat * Z) n => 6 + Z.of_nat (fst gb) + n) 0 r); [|lia]. clear. induction r as [|(g & b) r IH]; cbn [fold_right fst]; lia.
  - apply IH. lia.
Qed.

Lemma front_received e0 mem garb q n V l tail raw : Forall (fun x => -255 <= x <= 255) mem -> Forall (fun x => -255 <= x <= 255) (garb ++ raw) ->
  0 <= n <= 410 -> (5000 <= q)%nat -> (410 <= tail)%nat -> Forall (burst_ok n) l -> digitised n V (repeat 0 q ++ voltage l tail) raw ->
  Z.of_nat (length (garb ++ raw)) < 3900000000 ->
  exists s s1 s2 es1 es2, core1_new e0 = Ok s /\ mrun core1_sample s (firstn (length garb + q) (values firmware_gain mem (garb ++ raw))) = Ok (s1, es1) /\
    mrun core1_sample s1 (skipn (length garb + q) (values firmware_gain mem (garb ++ raw))) = Ok (s2, es2) /\
    ls_busy (k_ls s1) = false /\ busy_end true (log_of es1) = false /\ log_of es2 = flat_map one_packet (map bu_packet l).
Proof.
  intros Hmem HT Hn Hq Ht Hl HD HLT.
  set (T := garb ++ raw) in *. set (xs := values firmware_gain mem T). set (G := Z.of_nat (length garb)). set (L1 := (length garb + q)%nat).
  pose proof (digitised_length _ _ _ _ HD) as HL. rewrite app_length, repeat_length in HL.
  assert (LT : length T = (L1 + length (voltage l tail))%nat) by (unfold T, L1; rewrite app_length; lia).
  assert (LX : length xs = length T) by apply values_length.
  assert (Bx : bounded 12000 xs).
  { unfold bounded, xs, values. apply Forall_forall. intros x Hx. apply in_map_iff in Hx as (i & <- & _). apply value_bound; auto. }
  set (U := Uf garb (repeat 0 q ++ voltage l tail)). set (F := Ff mem garb raw). set (B := Bf F). set (Y := Yf F).
  set (N := Nof n). assert (HN : 3840 <= N <= 24750) by (unfold N, Nof; lia).
  assert (HFb : forall k, -16000 <= F k <= 16000). { intros k. unfold F, Ff. apply fir_spec_bound. apply bounded_firstn. exact Bx. }
  set (k0 := (G + 9) / 2). set (k1 := (Z.of_nat (length T) + 1) / 2). set (n1 := (Z.of_nat L1 + 1) / 2).
  assert (Hk0 : G + 8 <= 2 * k0 <= G + 9). { unfold k0. pose proof (Z.div_mod (G + 9) 2 ltac:(lia)). pose proof (Z.mod_pos_bound (G + 9) 2 ltac:(lia)). lia. }
  pose proof (half_range (Z.of_nat (length T))) as Hk1. fold k1 in Hk1. pose proof (half_range (Z.of_nat L1)) as Hn1. fold n1 in Hn1.
  assert (EL1 : Z.of_nat L1 = G + Z.of_nat q) by (unfold L1, G; lia).
  assert (HG : 0 <= G) by (unfold G; lia).
  assert (HF : forall k, k0 <= k < k1 -> near N 1 (csum U (2 * k)) (F k)).
  { intros k Hk. apply (F_near mem garb (repeat 0 q ++ voltage l tail) raw n V); auto; try lia; fold T; fold G; lia. }
  assert (HB : forall k, k0 <= k < k1 -> brel (B k) (F k) (B (k + 1))). { intros k Hk. unfold B. rewrite Bf_next by lia. apply bnext_rel. }
  assert (HY : forall k, k0 <= k < k1 -> yrel (B k) (F k) (Y k)). { intros k Hk. apply yout_rel. }
  assert (HZ : zeros U 0 (Z.of_nat L1)).
  { intros i Hi. unfold U, Uf. fold G. destruct (Z.ltb_spec i G); [auto|]. rewrite app_nth1 by (rewrite repeat_length; lia). apply nth_repeat. }
  assert (HFq : forall k, k0 <= k < n1 -> -N <= 256 * F k <= N).
  { intros k Hk. apply (F_quiet U F N k0 k1 HF); [lia|]. eapply zeros_sub; eauto; lia. }
  pose proof (Bf_bound F k0 ltac:(intros; apply HFb) k0 ltac:(lia)) as HB0. fold B in HB0.
  pose proof (quiet_settles F B N 15 k0) as HS. change (128 * Z.of_nat 15) with 1920 in HS. change (128 * 2 ^ Z.of_nat 15) with 4194304 in HS.
  specialize (HS ltac:(intros; apply HFq; lia) ltac:(intros; apply HB; lia) ltac:(lia)).
  assert (HBs : forall k, k0 + 1921 <= k <= n1 -> - (N + 127) <= B k <= N + 127).
  { intros k Hk. apply (quiet_keeps F B N (- (N + 127)) (N + 127) (k0 + 1921) (Z.to_nat (n1 - (k0 + 1921)))); try lia.
    - intros; apply HFq; lia.
    - intros; apply HB; lia.
    - replace (k0 + 1921) with (k0 + 1920 + 1) by lia. auto. }
  (* the line *)
  assert (EA : (Z.of_nat L1 - 3 + 4) / 2 = n1) by (unfold n1; f_equal; lia).
  destruct (line_heard U F B Y n k0 k1 ltac:(lia) HF HB HY (bump l) (bump_tail l tail)) with (A := Z.of_nat L1 - 3) as (pkts & m & Hh & Em & Hr & Hg).
  { destruct l; cbn [bump_tail]; lia. }
  { apply bump_ok; auto. }
  { pose proof (half_range (Z.of_nat L1 - 3)). lia. }
  { rewrite bump_voltage, app_length, repeat_length. unfold k1. apply Z.div_le_mono; lia. }
  { rewrite bump_voltage, app_length, repeat_length. lia. }
  { eapply zeros_sub; eauto; lia. }
  { rewrite bump_voltage. intros i Hi. rewrite app_length, repeat_length in Hi. unfold U, Uf. fold G. destruct (Z.ltb_spec (Z.of_nat L1 - 3 + Z.of_nat i) G); [lia|].
    destruct (Nat.lt_ge_cases i 3) as [H3|H3].
    - rewrite !app_nth1 by (rewrite repeat_length; lia). rewrite !nth_repeat. auto.
    - rewrite !app_nth2 by (rewrite repeat_length; lia). rewrite !repeat_length. f_equal. lia. }
  { rewrite EA. exists 1, 0. split; [left; auto|]. split; [lia|]. fold N. split; [lia|]. unfold BI. pose proof (HBs n1 ltac:(lia)). lia. }
  rewrite EA in Hh, Em. rewrite bump_voltage, app_length, repeat_length in Em, Hg. rewrite bump_packets in Hr.
  assert (Em' : n1 + Z.of_nat m = k1) by (rewrite Em; unfold k1; f_equal; lia).
  (* garbage and quiet *)
  set (g0 := Z.to_nat (n1 - 400)).
  assert (Eg0 : Z.to_nat n1 = (g0 + 400)%nat) by (unfold g0; lia).
  assert (HQ : bounded 599 (dseq Y (Z.of_nat g0) 400)).
  { apply Forall_forall. intros y Hy. apply (In_nth _ _ 0) in Hy as (i & Hi & <-). rewrite dseq_length in Hi. rewrite dseq_nth by auto.
    set (k := Z.of_nat g0 + Z.of_nat i). assert (Hk : k0 + 1921 <= k < n1) by (unfold k, g0; lia).
    pose proof (HBs k ltac:(lia)). pose proof (HFq k ltac:(lia)). pose proof (HY k ltac:(lia)) as Hy. unfold yrel in Hy. lia. }
  assert (HGb : bounded 1000000 (dseq Y 0 g0)).
  { apply Forall_forall. intros y Hy. apply (In_nth _ _ 0) in Hy as (i & Hi & <-). rewrite dseq_length in Hi. rewrite dseq_nth by auto.
    set (k := 0 + Z.of_nat i). pose proof (HFb k). pose proof (Bf_bound F k ltac:(intros; apply HFb) k ltac:(unfold k; lia)) as Hb. pose proof (yout_rel (Bf F k) (F k)) as Hy. fold (Yf F k) in Hy. fold Y in Hy. unfold yrel in Hy. lia. }
  destruct (recovered e0 (dseq Y 0 g0) (dseq Y (Z.of_nat g0) 400) pkts (dseq Y n1 m) HGb HQ) as (c & c1 & c2 & es1 & es2 & Ec & R1 & R2 & S1 & S2 & S3); auto.
  { rewrite !dseq_length. unfold g0. lia. } { rewrite dseq_length. lia. }
  { apply (regap_all (fun p => exists b, bu_packet b = p /\ burst_ok n b) (fun p => 2 * Z.of_nat (pk_gap p) <= Z.of_nat (3 + length (voltage l tail))) _ _ Hr); auto.
    - apply Forall_forall. intros p Hp. apply in_map_iff in Hp as (b & <- & Hb). exists b. split; auto. rewrite Forall_forall in Hl. auto.
    - intros p p' (E1 & E2 & E3) (b & Eb & (_ & _ & Hi & Hby)) Hgap. rewrite Eb in *. unfold pk_chars in *. rewrite E1, E2. inversion Hby; subst. constructor.
      + cbn [fst snd] in *. split; [lia|auto].
      + apply Forall_forall. intros c Hc. split; [|rewrite Forall_forall in *; auto]. unfold inner_quiet in Hi. apply inner_gap in Hi. rewrite Forall_forall in Hi. specialize (Hi c Hc). cbv beta in Hi. lia. }
  { apply (regap_all (fun p => exists b, bu_packet b = p /\ burst_ok n b) (fun _ => True) _ _ Hr).
    - apply Forall_forall. intros p Hp. apply in_map_iff in Hp as (b & <- & Hb). exists b. split; auto. rewrite Forall_forall in Hl. auto.
    - apply Forall_forall. auto.
    - intros p p' (E1 & E2 & E3) (b & Eb & (_ & _ & Hi & Hby)) _. rewrite Eb in *. split; [auto|]. unfold inner_quiet in *. rewrite E2. auto. }
  replace (dseq Y 0 g0 ++ dseq Y (Z.of_nat g0) 400) with (dseq Y 0 (Z.to_nat n1)) in R1 by (rewrite Eg0, dseq_app; auto).
  (* the core *)
  destruct (core1_new_inv e0) as (s & Es & (_ & Hfir & Hrs & Hdc & _)).
  assert (ES : chain_of s = c /\ k_dc s = dc_new).
  { unfold core1_new in Es. unfold lchain_new in Ec. destruct (fir_new (repeat 0 14)); cbn [bind] in Es; [|discriminate].
    destruct bit_new; cbn [bind] in *; [|discriminate]. injection Es as <-. injection Ec as <-. auto. }
  destruct ES as (ES & ED). exists s.
  assert (HFf : forall k, F k = fir_spec (firstn (Z.to_nat (2 * k + 1)) xs)) by reflexivity.
  destruct (dc_dseq F (Z.to_nat n1) 0 dc_new ltac:(lia) ltac:(intros; apply HFb) dc_new_inv ltac:(reflexivity)) as (d1 & D1 & Hd1 & Bd1).
  destruct (dc_dseq F m n1 d1 ltac:(lia) ltac:(intros; apply HFb) Hd1) as (d2 & D2 & _ & _).
  { rewrite Bd1. f_equal. lia. }
  fold Y in D1, D2.
  assert (Lf : length (firstn L1 xs) = L1) by (rewrite firstn_length; lia).
  assert (Lsk : length (skipn L1 xs) = (length T - L1)%nat) by (rewrite skipn_length; lia).
  destruct (core1_split (firstn L1 xs) [] s (dseq Y 0 (Z.to_nat n1)) d1 c1 es1) as (s1 & es1' & Q1 & O1 & C1 & Dc1 & F1 & Rs1); auto.
  { apply bounded_firstn. auto. }
  { rewrite ED. pose proof (sel_dseq xs F (firstn L1 xs) HFf [] (skipn L1 xs)) as E. cbn [length app Nat.add] in E. change (length (@nil Z)) with 0%nat; rewrite E by (rewrite firstn_skipn; auto).
    rewrite Lf. change ((Z.of_nat 0 + 1) / 2) with 0. fold n1. rewrite Z.sub_0_r. exact D1. }
  { rewrite ES. exact R1. }
  cbn [app] in F1, Rs1.
  destruct (core1_split (skipn L1 xs) (firstn L1 xs) s1 (dseq Y n1 m) d2 c2 es2) as (s2 & es2' & Q2 & O2 & _ & _ & _ & _); auto.
  { rewrite firstn_skipn. auto. }
  { rewrite Dc1. rewrite (sel_dseq xs F (skipn L1 xs) HFf (firstn L1 xs) []) by (rewrite app_nil_r, firstn_skipn; auto).
    rewrite Lf, Lsk. fold n1. replace (L1 + (length T - L1))%nat with (length T) by lia. fold k1. replace (Z.to_nat (k1 - n1)) with m by lia. exact D2. }
  { rewrite C1. exact R2. }
  exists s1, s2, es1', es2'. split; [auto|]. split; [exact Q1|]. split; [exact Q2|]. split; [|split].
  - rewrite <- C1 in S1. exact S1.
  - rewrite O1. exact S2.
  - rewrite O2, S3. apply regap_packets. exact Hr.
Qed.

(** ... and the last thing told before is that the line is free. *)
Lemma front_free e0 mem garb q n V l tail raw : Forall (fun x => -255 <= x <= 255) mem -> Forall (fun x => -255 <= x <= 255) (garb ++ raw) ->
  0 <= n <= 410 -> (5000 <= q)%nat -> (410 <= tail)%nat -> Forall (burst_ok n) l -> digitised n V (repeat 0 q ++ voltage l tail) raw ->
  Z.of_nat (length (garb ++ raw)) < 3900000000 ->
  exists s s1 s2 es1 es2 old, core1_new e0 = Ok s /\ mrun core1_sample s (firstn (length garb + q) (values firmware_gain mem (garb ++ raw))) = Ok (s1, es1) /\
    mrun core1_sample s1 (skipn (length garb + q) (values firmware_gain mem (garb ++ raw))) = Ok (s2, es2) /\
    log_of es1 = old ++ [LFree] /\ log_of es2 = flat_map one_packet (map bu_packet l).
Proof.
  intros Hmem HT Hn Hq Ht Hl HD HLT. destruct (front_received e0 mem garb q n V l tail raw Hmem HT Hn Hq Ht Hl HD HLT) as (s & s1 & s2 & es1 & es2 & A1 & A2 & A3 & A4 & _ & A5).
  destruct (free_last core1_sample (fun c => ls_busy (k_ls c)) _ _ _ _ core1_log A2 (core1_new_busy _ _ A1) A4) as (old & Eo). exists s, s1, s2, es1, es2, old. auto.
Qed.
