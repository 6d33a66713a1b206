(** P_FrontDc.v -- the baseline of the DC blocker under a train of alternating pulses (C94). *)
From Verif Require Import Base M_Dsp S_Dsp P_Dsp.

(** With the baseline B (in 1/256 mV) the DC blocker gives (256 f - B)/256 and moves B by 1/128 of the difference; [brel] and
    [yrel] are these up to rounding, symmetric in sign. *)
Definition brel (B f B' : Z) : Prop := -127 <= 128 * (B' - B) - (256 * f - B) <= 127.
Definition yrel (B f y : Z) : Prop := -255 <= 256 * y - (256 * f - B) <= 255.
Lemma brel_opp B f B' : brel B f B' -> brel (- B) (- f) (- B'). Proof. unfold brel. lia. Qed.
Lemma yrel_opp B f y : yrel B f y -> yrel (- B) (- f) (- y). Proof. unfold yrel. lia. Qed.

Definition bnext (B f : Z) : Z := B - (B - 256 * f) / 128.
Definition yout (B f : Z) : Z := (256 * f - B) / 256.
Lemma bnext_rel B f : brel B f (bnext B f).
Proof. unfold brel, bnext. pose proof (Z.div_mod (B - 256 * f) 128 ltac:(lia)). pose proof (Z.mod_pos_bound (B - 256 * f) 128 ltac:(lia)). lia. Qed.
Lemma yout_rel B f : yrel B f (yout B f).
Proof. unfold yrel, yout. pose proof (Z.div_mod (256 * f - B) 256 ltac:(lia)). pose proof (Z.mod_pos_bound (256 * f - B) 256 ltac:(lia)). lia. Qed.

(** ** Quiet *)
Section QUIET.
Variables (F B : Z -> Z) (N : Z).
Hypothesis HN : 0 <= N.
Lemma quiet_step lo hi b f b' : -N <= 256 * f <= N -> lo <= - N - 127 -> N + 127 <= hi -> lo <= b <= hi -> brel b f b' -> lo <= b' <= hi.
Proof. unfold brel. lia. Qed.
Lemma quiet_keeps lo hi k n : (forall i, k <= i < k + Z.of_nat n -> -N <= 256 * F i <= N) -> (forall i, k <= i < k + Z.of_nat n -> brel (B i) (F i) (B (i + 1))) ->
  lo <= - N - 127 -> N + 127 <= hi -> lo <= B k <= hi -> forall i, k <= i <= k + Z.of_nat n -> lo <= B i <= hi.
Proof.
  intros HF HB Hl Hh H0. induction n as [|n IH]; intros i Hi; [replace i with k by lia; auto|].
  rewrite Nat2Z.inj_succ in *. destruct (Z_le_gt_dec i (k + Z.of_nat n)).
  - apply IH; try lia; intros; [apply HF|apply HB]; lia.
  - replace i with (k + Z.of_nat n + 1) by lia. apply (quiet_step lo hi (B (k + Z.of_nat n)) (F (k + Z.of_nat n))); auto; [apply HF; lia| |apply HB; lia].
    apply IH; try lia; intros; [apply HF|apply HB]; lia.
Qed.
(** In 128 samples the excess over N is halved. *)
Lemma quiet_halves M k : 1 <= M -> (forall i, k <= i < k + 128 -> -N <= 256 * F i <= N) -> (forall i, k <= i < k + 128 -> brel (B i) (F i) (B (i + 1))) ->
  - (N + 256 * M) <= B k <= N + 256 * M -> - (N + 128 * M) <= B (k + 128) <= N + 128 * M.
Proof.
  intros HM HF HB H0.
  assert (K : forall n, (n <= 128)%nat -> - (N + Z.max (128 * M) (256 * M - Z.of_nat n * M)) <= B (k + Z.of_nat n) <= N + Z.max (128 * M) (256 * M - Z.of_nat n * M)).
  { induction n as [|n IH]; intros Hn; [replace (k + Z.of_nat 0) with k by lia; lia|].
    specialize (IH ltac:(lia)). specialize (HF (k + Z.of_nat n) ltac:(lia)). specialize (HB (k + Z.of_nat n) ltac:(lia)).
    replace (k + Z.of_nat (S n)) with (k + Z.of_nat n + 1) by lia. unfold brel in HB.
    set (b := B (k + Z.of_nat n)) in *. set (b' := B (k + Z.of_nat n + 1)) in *. clearbody b b'.
    rewrite Nat2Z.inj_succ. set (m := Z.of_nat n) in *. assert (0 <= m < 128) by lia. clearbody m. clear Hn.
    set (f := F (k + m)) in *. clearbody f.
    assert (X : Z.max (128 * M) (256 * M - Z.succ m * M) = Z.max (128 * M) (256 * M - m * M - M)) by (f_equal; ring). rewrite X. clear X.
    set (mM := m * M) in *. clearbody mM. lia. }
  specialize (K 128%nat ltac:(lia)). change (Z.of_nat 128) with 128 in K. lia.
Qed.
Lemma quiet_settles j : forall k, (forall i, k <= i < k + 128 * Z.of_nat j + 1 -> -N <= 256 * F i <= N) ->
  (forall i, k <= i < k + 128 * Z.of_nat j + 1 -> brel (B i) (F i) (B (i + 1))) ->
  - (N + 128 * 2 ^ Z.of_nat j) <= B k <= N + 128 * 2 ^ Z.of_nat j -> - (N + 127) <= B (k + 128 * Z.of_nat j + 1) <= N + 127.
Proof.
  induction j as [|j IH]; intros k HF HB H0.
  - change (Z.of_nat 0) with 0 in *. change (2 ^ 0) with 1 in H0. specialize (HF k ltac:(lia)). specialize (HB k ltac:(lia)).
    replace (k + 128 * 0 + 1) with (k + 1) by lia. unfold brel in HB. lia.
  - rewrite Nat2Z.inj_succ, Z.pow_succ_r in * by lia.
    pose proof (quiet_halves (2 ^ Z.of_nat j) k ltac:(pose proof (Z.pow_pos_nonneg 2 (Z.of_nat j)); lia) ltac:(intros; apply HF; lia) ltac:(intros; apply HB; lia) ltac:(lia)) as H1.
    replace (k + 128 * Z.succ (Z.of_nat j) + 1) with (k + 128 + 128 * Z.of_nat j + 1) by lia.
    apply IH; [intros; apply HF; lia|intros; apply HB; lia|lia].
Qed.
End QUIET.
