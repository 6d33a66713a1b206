(** P_AnaTrain.v -- a train of alternating pulses as the DC blocker puts it out (C102). *)
From Verif Require Import Base M_Dsp S_Dsp S_Pio S_Core1 S_Noise S_Slow S_Front P_Dsp P_FrontDc P_NoiseDet P_FrontPulse P_FrontChar P_FrontLine P_Chain P_NoiseChar P_NoiseChar P_Noise P_AnaPulse.

(** Between the conversions [i0] and [i1] there are alternating pulses of amplitude [a], the first one [tau], and the next one after [i1] is [tau']. *)
Inductive train (U : Z -> Z) (a : Z) : Z -> Z -> Z -> Z -> Prop :=
| tr_quiet : forall tau i0 i1, i0 <= i1 -> zeros U i0 i1 -> train U a tau i0 i1 tau
| tr_pulse : forall tau i0 i1 tau' t (sh : bool), i0 <= t -> zeros U i0 t -> (forall i, t <= i < t + (if sh then 15 else 16) -> U i = a * tau) ->
    zeros U (t + (if sh then 15 else 16)) (t + 31) -> train U a (- tau) (t + 31) i1 tau' -> train U a tau i0 i1 tau'.
Lemma train_le U a tau i0 i1 tau' : train U a tau i0 i1 tau' -> i0 <= i1.
Proof. induction 1; lia. Qed.
Lemma train_zeros U a tau i1 i2 tau' i0 : i0 <= i1 -> zeros U i0 i1 -> train U a tau i1 i2 tau' -> train U a tau i0 i2 tau'.
Proof.
  intros H Hz HT. inversion HT; subst.
  - apply tr_quiet; [lia|]. eapply zeros_join; eauto.
  - apply (tr_pulse U a tau i0 i2 tau' t sh); auto; [lia|]. eapply zeros_join; eauto.
Qed.
Lemma train_join U a tau i0 i1 tau' i2 tau2 : train U a tau i0 i1 tau' -> train U a tau' i1 i2 tau2 -> train U a tau i0 i2 tau2.
Proof. induction 1; intros HT; [eapply train_zeros; eauto|]. eapply tr_pulse; eauto. Qed.

Section TRAIN.
Variables (U F B Y : Z -> Z) (N k0 k1 : Z).
Hypothesis HN : 0 <= N.
Hypothesis HF : forall k, k0 <= k < k1 -> near N 1 (csum U (2 * k)) (F k).
Hypothesis HB : forall k, k0 <= k < k1 -> brel (B k) (F k) (B (k + 1)).
Hypothesis HY : forall k, k0 <= k < k1 -> yrel (B k) (F k) (Y k).

Definition BI2 (tau a k : Z) : Prop := - (65536 * (N + 127)) - 156000 * a <= 65536 * (tau * B k) <= 65536 * (N + 127).
Lemma BI2_BI tau a k : 0 <= a -> BI2 tau a k -> BI B N tau a k.
Proof using. unfold BI2, BI. lia. Qed.
Lemma BI2_quiet tau a k n : sgn1 tau -> 0 <= a -> k0 <= k -> k + Z.of_nat n <= k1 -> zeros U (2 * k - 8) (2 * (k + Z.of_nat n) - 1) -> BI2 tau a k ->
  forall i, k <= i <= k + Z.of_nat n -> BI2 tau a i.
Proof using HF HB HN.
  intros Hs Ha Hk. induction n as [|n IH]; intros Hk1 Hz H0 i Hi; [replace i with k by lia; auto|].
  rewrite Nat2Z.inj_succ in *. destruct (Z_le_gt_dec i (k + Z.of_nat n)).
  - apply IH; try lia; auto. eapply zeros_sub; eauto; lia.
  - assert (Hj : BI2 tau a (k + Z.of_nat n)) by (apply IH; try lia; auto; eapply zeros_sub; eauto; lia).
    replace i with (k + Z.of_nat n + 1) by lia. set (j := k + Z.of_nat n) in *.
    pose proof (F_quiet U F N k0 k1 HF j ltac:(lia) ltac:(eapply zeros_sub; eauto; lia)) as Hf. pose proof (HB j ltac:(lia)) as Hb.
    unfold BI2, brel, sgn1 in *. destruct Hs as [->| ->]; lia.
Qed.

Variable a : Z.
Hypothesis Ha : 0 < a.
Hypothesis HP : 1700 <= Plow a N.
Hypothesis HE : 0 <= Ehigh2 a N.
Hypothesis Hidle : 277394 * a + 65536 * (2 * N + 382) <= 65536 * (599 * 256).
(** The ideal line at detector sample [k]. *)
Definition ideal (k : Z) : Z := Z.sgn (U (2 * k - 3)).
Definition ok (k : Z) : Prop := within (Plow a N) (Qhigh2 a N) (ideal (k - 1)) (ideal k) (Y k) /\ (ideal k = 0 -> ideal (k - 1) * Y k <= Ehigh2 a N).
Lemma ok_quiet tau k : sgn1 tau -> k0 <= k < k1 -> zeros U (2 * k - 8) (2 * k + 1) -> BI2 tau a k -> ok k.
Proof using HF HY Ha HE Hidle.
  intros Hs Hk Hz H. pose proof (BI_out U F B Y N k0 k1 HF HY tau a k Hs ltac:(lia) Hidle Hk Hz (BI2_BI tau a k ltac:(lia) H)) as HO.
  unfold ok, ideal. rewrite !Hz by lia. cbn [Z.sgn]. unfold within. cbn [Z.eqb]. split; [auto|]. lia.
Qed.
Lemma quiet_ok tau k n : sgn1 tau -> k0 <= k -> k <= n <= k1 -> zeros U (2 * k - 8) (2 * n - 1) -> BI2 tau a k -> BI2 tau a n /\ forall i, k <= i < n -> ok i.
Proof using HF HB HY HN Ha HE Hidle.
  intros Hs Hk Hn Hz H. pose proof (BI2_quiet tau a k (Z.to_nat (n - k)) Hs ltac:(lia) Hk ltac:(lia) ltac:(rewrite Z2Nat.id by lia; eapply zeros_sub; eauto; lia) H) as HQ.
  rewrite Z2Nat.id in HQ by lia. split; [apply HQ; lia|]. intros i Hi. apply (ok_quiet tau); auto; [lia| |apply HQ; lia]. eapply zeros_sub; eauto; lia.
Qed.

Lemma pulse_ok tau t sh : sgn1 tau -> k0 <= (t + 1) / 2 -> (t + 1) / 2 + 13 <= k1 -> zeros U (t - 8) t -> (forall i, t <= i < t + (if sh : bool then 15 else 16) -> U i = a * tau) ->
  zeros U (t + (if sh then 15 else 16)) (t + 31) -> BI2 tau a ((t + 1) / 2) ->
  BI2 (- tau) a ((t + 1) / 2 + 13) /\ forall i, (t + 1) / 2 <= i < (t + 1) / 2 + 13 -> ok i.
Proof using HF HB HY Ha HP HE Hidle.
  intros Hs Hk0 Hk1 H0 H1 H2 HI.
  assert (HC := fun q => csum_pulse2 U t (a * tau) q sh H0 H1 H2).
  assert (Hm : t <= 2 * ((t + 1) / 2) <= t + 1) by (pose proof (div_bounds (t + 1) 2 ltac:(lia)); lia).
  assert (H5 : U (2 * ((t + 1) / 2) - 5) = 0) by (apply H0; lia).
  set (m := (t + 1) / 2) in *. clearbody m. set (par := Z.odd t) in *. clearbody par.
  pose (F' := fun k => tau * F k). pose (B' := fun k => tau * B k). pose (Y' := fun k => tau * Y k).
  assert (HB' : forall q, 0 <= q < 13 -> brel (B' (m + q)) (F' (m + q)) (B' (m + q + 1))).
  { intros q Hq. pose proof (HB (m + q) ltac:(lia)) as H. unfold brel, B', F', sgn1 in *. destruct Hs as [->| ->]; lia. }
  assert (HY' : forall q, 0 <= q < 13 -> yrel (B' (m + q)) (F' (m + q)) (Y' (m + q))).
  { intros q Hq. pose proof (HY (m + q) ltac:(lia)) as H. unfold yrel, B', F', Y', sgn1 in *. destruct Hs as [->| ->]; lia. }
  assert (HS' : forall q, (q < 13)%nat -> near N a (nth q (gtab2 par sh) 0) (F' (m + Z.of_nat q))).
  { intros q Hq. pose proof (HF (m + Z.of_nat q) ltac:(lia)) as H. destruct (HC q Hq) as (E & _). rewrite E in H. unfold near, F', sgn1 in *. destruct Hs as [->| ->]; lia. }
  assert (HO : orb2 B' N m par sh a 0).
  { unfold orb2, BI2, B' in *. change (Z.of_nat 0) with 0. rewrite Z.add_0_r. destruct par, sh; cbn [nth ltab2 htab2]; lia. }
  split.
  - pose proof (orbit2 F' B' N m HB' par sh a ltac:(lia) HS' HO 13 ltac:(lia)) as H13. unfold orb2 in H13. change (Z.of_nat 13) with 13 in H13. unfold BI2. unfold B' in H13.
    destruct par, sh; cbn [nth ltab2 htab2] in H13; unfold sgn1 in Hs; destruct Hs as [->| ->]; lia.
  - intros i Hi. set (q := Z.to_nat (i - m)). assert (Hq : (q < 13)%nat) by lia. replace i with (m + Z.of_nat q) by lia.
    pose proof (pulse_out2 F' B' Y' N m HB' HY' par sh a q ltac:(lia) Hidle HP HE HS' HO Hq) as (W1 & W2).
    assert (I1 : forall p, (p < 13)%nat -> ideal (m + Z.of_nat p) = tau * nth p (wtab2 par sh) 0).
    { intros p Hp. destruct (HC p Hp) as (_ & E). unfold ideal. rewrite E. rewrite !Z.sgn_mul, (Z.sgn_pos a) by lia. rewrite Z.mul_1_l. f_equal.
      - unfold sgn1 in Hs. destruct Hs as [->| ->]; reflexivity.
      - clear. destruct par, sh; do 13 (destruct p as [|p]; [reflexivity|]); destruct p; reflexivity. }
    assert (I2 : ideal (m + Z.of_nat q - 1) = tau * prev2 par sh q).
    { destruct q as [|p]; cbn [prev2].
      - unfold ideal. replace (2 * (m + Z.of_nat 0 - 1) - 3) with (2 * m - 5) by lia. rewrite H5. cbn. lia.
      - rewrite <- I1 by lia. f_equal. lia. }
    unfold ok. rewrite I2, (I1 q Hq). unfold Y' in W1, W2. clear - W1 W2 Hs. unfold sgn1 in Hs. destruct Hs as [->| ->].
    + rewrite !Z.mul_1_l in *. auto.
    + apply within_opp in W1. replace (- (-1 * Y (m + Z.of_nat q))) with (Y (m + Z.of_nat q)) in W1 by lia.
      replace (-1 * prev2 par sh q) with (- prev2 par sh q) by lia. replace (-1 * nth q (wtab2 par sh) 0) with (- nth q (wtab2 par sh) 0) by lia. split; [auto|].
      intros Hz. etransitivity; [|apply W2; lia]. lia.
Qed.

Lemma train_out tau i0 i1 tau' : train U a tau i0 i1 tau' -> sgn1 tau -> zeros U (i0 - 8) i0 -> BI2 tau a ((i0 + 1) / 2) -> k0 <= (i0 + 1) / 2 -> (i1 + 1) / 2 <= k1 ->
  zeros U (i1 - 8) i1 /\ BI2 tau' a ((i1 + 1) / 2) /\ forall k, (i0 + 1) / 2 <= k < (i1 + 1) / 2 -> ok k.
Proof using HF HB HY HN Ha HP HE Hidle.
  induction 1 as [tau i0 i1 Hi Hz|tau i0 i1 tau' t sh Hi Hz Hp Hz2 HT IH]; intros Hs Hz0 HI Hk0 Hk1.
  - pose proof (half_range i0). pose proof (half_range i1). assert (HZ : zeros U (i0 - 8) i1) by (eapply zeros_join; eauto). split; [eapply zeros_sub; eauto; lia|].
    apply quiet_ok; auto; [|eapply zeros_sub; eauto; lia]. split; [apply Z.div_le_mono; lia|lia].
  - pose proof (train_le _ _ _ _ _ _ HT) as Hle. pose proof (half_range i0). pose proof (half_range i1). pose proof (half_range t). pose proof (half_range (t + 31)).
    assert (Hq1 : (i0 + 1) / 2 <= (t + 1) / 2) by (apply Z.div_le_mono; lia). assert (Hq2 : (t + 31 + 1) / 2 <= (i1 + 1) / 2) by (apply Z.div_le_mono; lia).
    destruct (quiet_ok tau ((i0 + 1) / 2) ((t + 1) / 2)) as (I1 & O1); auto; [lia|apply (zeros_sub U (i0 - 8) t); [eapply zeros_join; eauto|lia|lia]|].
    destruct (pulse_ok tau t sh) as (I2 & O2); auto; [lia|lia|apply (zeros_sub U (i0 - 8) t); [eapply zeros_join; eauto|lia|lia]|].
    assert (Hs' : sgn1 (- tau)) by (unfold sgn1 in *; lia).
    destruct (quiet_ok (- tau) ((t + 1) / 2 + 13) ((t + 31 + 1) / 2)) as (I3 & O3); auto; [lia|lia|eapply zeros_sub; [exact Hz2|destruct sh; lia|lia]|].
    destruct IH as (Z4 & I4 & O4); auto; [eapply zeros_sub; [exact Hz2|destruct sh; lia|lia]|lia|].
    split; [auto|]. split; [auto|]. intros k Hk. destruct (Z_lt_ge_dec k ((t + 1) / 2)); [apply O1; lia|]. destruct (Z_lt_ge_dec k ((t + 1) / 2 + 13)); [apply O2; lia|].
    destruct (Z_lt_ge_dec k ((t + 31 + 1) / 2)); [apply O3; lia|apply O4; lia].
Qed.
End TRAIN.
