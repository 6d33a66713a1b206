(** P_NoiseDet.v -- the bit detector on a disturbed pulse (C92). *)
From Verif Require Import Base M_ShiftReg M_Dsp S_Containers S_Dsp P_Containers P_Dsp.

Definition dval (h a : Z) : Z := if 4921 <=? h - a then h - a else if 4921 <=? - h - a then h + a else 0.
Definition hsum (z : Z -> Z) (n : Z) : Z :=
  z (n-14) + z (n-13) + z (n-12) + z (n-11) + z (n-10) + z (n-9) + z (n-8).
Definition asum (z : Z -> Z) (n : Z) : Z :=
  Z.abs (z (n-15)) + Z.abs (z (n-5)) + Z.abs (z (n-4)) + Z.abs (z (n-3)) + Z.abs (z (n-2)) + Z.abs (z (n-1)) + Z.abs (z n).
Definition det (z : Z -> Z) (n : Z) : Z := dval (hsum z n) (asum z n).

Lemma det_opp z n : det (fun i => - z i) n = - det z n.
Proof.
  unfold det, dval. assert (E : asum (fun i => - z i) n = asum z n) by (unfold asum; rewrite !Z.abs_opp; reflexivity).
  rewrite E. assert (F : hsum (fun i => - z i) n = - hsum z n) by (unfold hsum; lia). rewrite F.
  assert (0 <= asum z n) by (unfold asum; lia).
  repeat match goal with |- context [?a <=? ?b] => destruct (Z.leb_spec a b); try lia end.
Qed.

Definition small (x : Z) : Prop := -61 <= x <= 61.
(** A pulse of positive polarity at [t]. *)
Record pulse (P Q : Z) (z : Z -> Z) (t : Z) : Prop := {
  pu_before : forall k, -7 <= k < 0 -> small (z (t + k));
  pu_first : -61 <= z (t + 0) <= Q;
  pu_top : forall k, 0 < k < 8 -> P <= z (t + k) <= Q;
  pu_last : -61 <= z (t + 8) <= Q;
  pu_after : forall k, 8 < k < 16 -> small (z (t + k));
  pu_next : (forall k, 16 <= k < 24 -> small (z (t + k))) \/
            (-61 <= - z (t + 16) <= Q /\ forall k, 16 < k < 24 -> P <= - z (t + k) <= Q) }.

Ltac norm_idx t := repeat match goal with
  | |- context [t + ?a - ?b] => let k := eval compute in (a - b) in replace (t + a - b) with (t + k) by lia end.
Section P.
  Variables P Q : Z.
  Variable z : Z -> Z.
  Variable t : Z.
  Hypothesis HP : 1700 <= P.
  Hypothesis HR : 20 * Q <= 27 * P.
  Hypothesis H : pulse P Q z t.
  Lemma p_b k : -7 <= k < 0 -> -61 <= z (t + k) <= 61. Proof. apply (pu_before _ _ _ _ H). Qed.
  Lemma p_f : -61 <= z (t + 0) <= Q. Proof. apply (pu_first _ _ _ _ H). Qed.
  Lemma p_t k : 0 < k < 8 -> P <= z (t + k) <= Q. Proof. apply (pu_top _ _ _ _ H). Qed.
  Lemma p_l : -61 <= z (t + 8) <= Q. Proof. apply (pu_last _ _ _ _ H). Qed.
  Lemma p_a k : 8 < k < 16 -> -61 <= z (t + k) <= 61. Proof. apply (pu_after _ _ _ _ H). Qed.
  Lemma p_n k : 16 <= k < 24 -> -Q <= z (t + k) <= 61.
  Proof.
    intros Hk. destruct (pu_next _ _ _ _ H) as [F|(F & G)]; [specialize (F k Hk); unfold small in F; pose proof (p_t 1 ltac:(lia)); lia|].
    destruct (Z.eq_dec k 16) as [->|]; [lia|]. specialize (G k ltac:(lia)). lia.
  Qed.
  Ltac fact1 k := first
    [ let E := fresh in assert (E : 0 < k < 8) by lia; pose proof (p_t k E); clear E
    | let E := fresh in assert (E : -7 <= k < 0) by lia; pose proof (p_b k E); clear E
    | let E := fresh in assert (E : 8 < k < 16) by lia; pose proof (p_a k E); clear E
    | let E := fresh in assert (E : 16 <= k < 24) by lia; pose proof (p_n k E); clear E
    | let E := fresh in assert (E : k = 0) by lia; pose proof p_f; clear E
    | let E := fresh in assert (E : k = 8) by lia; pose proof p_l; clear E ].
  Ltac all_facts := repeat match goal with |- context [z (t + ?k)] =>
    let v := fresh "v" in fact1 k; set (v := z (t + k)) in *; clearbody v end.
  Ltac abs1 x :=
    assert (0 <= Z.abs x) by apply Z.abs_nonneg;
    first [ let E := fresh in assert (E : 0 <= x) by lia; pose proof (Z.abs_eq x E); clear E
          | assert (Z.abs x <= 61) by lia
          | assert (Z.abs x <= Q) by lia | idtac ];
    let a := fresh "a" in set (a := Z.abs x) in *; clearbody a.
  Ltac all_abs := repeat match goal with |- context [Z.abs ?x] => abs1 x end.

  Lemma H15 : P <= Q. Proof. pose proof (p_t 1 ltac:(lia)). lia. Qed.
  Ltac prep := unfold hsum, asum; norm_idx t; all_facts; pose proof H15; clear H; all_abs.

  Lemma mid15 : 4921 <= hsum z (t + 15) - asum z (t + 15). Proof. prep. lia. Qed.
  Lemma mid13 : 4921 <= hsum z (t + 13) - asum z (t + 13). Proof. prep. lia. Qed.
  Lemma mid14 : 4921 <= hsum z (t + 14) - asum z (t + 14). Proof. prep. lia. Qed.
  Lemma mid16 : 4921 <= hsum z (t + 16) - asum z (t + 16). Proof. prep. lia. Qed.
  Ltac cases_k k := let go n := (destruct (Z.eq_dec k n) as [->|]) in
    go 9; [|go 10; [|go 11; [|go 12; [|go 17; [|go 18; [|go 19; [|go 20; [|go 21; [|go 22; [|go 23; [|lia]]]]]]]]]]].
  Lemma less k : 9 <= k <= 12 \/ 17 <= k <= 23 -> hsum z (t + k) - asum z (t + k) < hsum z (t + 15) - asum z (t + 15).
  Proof. intros Hk. cases_k k; clear Hk; prep; lia. Qed.
  Lemma hpos k : 9 <= k <= 23 -> -1000 <= hsum z (t + k) <= 7 * Q.
  Proof.
    intros Hk. destruct (Z.eq_dec k 13) as [->|]; [prep; lia|]. destruct (Z.eq_dec k 14) as [->|]; [prep; lia|].
    destruct (Z.eq_dec k 15) as [->|]; [prep; lia|]. destruct (Z.eq_dec k 16) as [->|]; [prep; lia|].
    cases_k k; clear Hk; prep; lia.
  Qed.
  Lemma apos n : 0 <= asum z n. Proof. unfold asum; lia. Qed.
  Lemma det_pulse :
    (forall k, 9 <= k <= 23 -> 0 <= det z (t + k) <= 7 * Q) /\
    (forall k, 13 <= k <= 16 -> 4921 <= det z (t + k)) /\
    (forall k, 9 <= k <= 12 \/ 17 <= k <= 23 -> det z (t + k) < det z (t + 15)).
  Proof.
    pose proof mid15 as M. pose proof H15.
    split; [|split]; intros k Hk.
    - pose proof (hpos k Hk). pose proof (apos (t + k)). unfold det, dval.
      repeat match goal with |- context [?a <=? ?b] => destruct (Z.leb_spec a b); try lia end.
    - unfold det, dval.
      assert (4921 <= hsum z (t + k) - asum z (t + k)).
      { destruct (Z.eq_dec k 13) as [->|]; [apply mid13|]. destruct (Z.eq_dec k 14) as [->|]; [apply mid14|].
        destruct (Z.eq_dec k 15) as [->|]; [apply mid15|]. destruct (Z.eq_dec k 16) as [->|]; [apply mid16|lia]. }
      repeat match goal with |- context [?a <=? ?b] => destruct (Z.leb_spec a b); try lia end.
    - pose proof (less k Hk). pose proof (hpos k ltac:(lia)). pose proof (apos (t + k)). unfold det, dval.
      repeat match goal with |- context [?a <=? ?b] => destruct (Z.leb_spec a b); try lia end.
  Qed.
End P.

(** Nothing where there is no pulse: the high window is quiet, except perhaps that a pulse has just begun. *)
Lemma det_quiet P Q z n s : 1700 <= P -> 20 * Q <= 27 * P -> (s = 1 \/ s = -1) ->
  (forall i, n - 15 <= i <= n - 9 -> small (z i)) ->
  (small (z (n - 8)) \/ (-61 <= s * z (n - 8) <= Q /\ forall i, n - 8 < i < n -> P <= s * z i <= Q)) ->
  det z n = 0.
Proof.
  intros HP HR Hs H0 H1. unfold det, dval.
  assert (A : 0 <= asum z n) by (unfold asum; lia).
  pose proof (H0 (n - 14) ltac:(lia)) as G14. pose proof (H0 (n - 13) ltac:(lia)) as G13. pose proof (H0 (n - 12) ltac:(lia)) as G12.
  pose proof (H0 (n - 11) ltac:(lia)) as G11. pose proof (H0 (n - 10) ltac:(lia)) as G10. pose proof (H0 (n - 9) ltac:(lia)) as G9.
  unfold small in *.
  assert (B : (-427 <= hsum z n <= 427) \/ (5 * P <= asum z n /\ -Q - 366 <= hsum z n <= Q + 366)).
  { destruct H1 as [H1|(H1 & H2)]; [left; unfold hsum; lia|]. right.
    pose proof (H2 (n - 1) ltac:(lia)). pose proof (H2 (n - 2) ltac:(lia)). pose proof (H2 (n - 3) ltac:(lia)).
    pose proof (H2 (n - 4) ltac:(lia)). pose proof (H2 (n - 5) ltac:(lia)).
    unfold hsum, asum. destruct Hs as [-> | ->]; lia. }
  repeat match goal with |- context [?a <=? ?b] => destruct (Z.leb_spec a b); try lia end.
Qed.

(** ** The detector run as a function of the sample index *)
Definition zat (l : list Z) (i : Z) : Z := if i <? 0 then 0 else nth (Z.to_nat i) l 0.
Lemma zat_app_l a b i : i < Z.of_nat (length a) -> zat (a ++ b) i = zat a i.
Proof. intros H. unfold zat. destruct (Z.ltb_spec i 0); auto. rewrite app_nth1; auto. lia. Qed.
Lemma zat_app_r a b i : Z.of_nat (length a) <= i -> zat (a ++ b) i = zat b (i - Z.of_nat (length a)).
Proof.
  intros H. unfold zat. destruct (Z.ltb_spec i 0); [lia|]. destruct (Z.ltb_spec (i - Z.of_nat (length a)) 0); [lia|].
  rewrite app_nth2 by lia. f_equal. lia.
Qed.
Lemma zat_over l i : Z.of_nat (length l) <= i -> zat l i = 0.
Proof. intros H. unfold zat. destruct (Z.ltb_spec i 0); auto. rewrite nth_overflow; auto. lia. Qed.

Lemma nth_skipn_z (l : list Z) n i : nth i (skipn n l) 0 = nth (n + i) l 0.
Proof. revert l; induction n as [|n IH]; intros [|x l]; cbn [skipn nth Nat.add]; auto; destruct i; reflexivity. Qed.
Lemma nth_lastn16 zs k j : (k < length zs)%nat -> (j < 16)%nat ->
  nth j (lastn 16 (repeat 0 16 ++ firstn (S k) zs)) 0 = zat zs (Z.of_nat k - 15 + Z.of_nat j).
Proof.
  intros Hk Hj. unfold lastn. rewrite nth_skipn_z, app_length, repeat_length, firstn_length.
  replace (16 + Nat.min (S k) (length zs) - 16 + j)%nat with (S k + j)%nat by lia.
  unfold zat. destruct (Z.ltb_spec (Z.of_nat k - 15 + Z.of_nat j) 0).
  - rewrite app_nth1 by (rewrite repeat_length; lia). apply nth_repeat.
  - rewrite app_nth2 by (rewrite repeat_length; lia). rewrite repeat_length.
    replace (Z.to_nat (Z.of_nat k - 15 + Z.of_nat j)) with (S k + j - 16)%nat by lia.
    rewrite <- (firstn_skipn (S k) zs) at 2. rewrite app_nth1; auto. rewrite firstn_length. lia.
Qed.
Lemma list16 (l : list Z) : length l = 16%nat -> l = map (fun j => nth j l 0) (seq 0 16).
Proof. intros H. do 17 (destruct l as [|? l]; [discriminate H || reflexivity|]). discriminate H. Qed.
Lemma mf_spec_det zs k : (k < length zs)%nat -> mf_spec (firstn (S k) zs) = det (zat zs) (Z.of_nat k).
Proof.
  intros Hk. unfold mf_spec. set (w := lastn 16 _).
  assert (Lw : length w = 16%nat) by (unfold w; rewrite lastn_length; auto; rewrite app_length, repeat_length; lia).
  assert (E : w = map (fun j => zat zs (Z.of_nat k - 15 + Z.of_nat j)) (seq 0 16)).
  { rewrite (list16 w Lw). apply map_ext_in. intros j Hj. apply in_seq in Hj. apply nth_lastn16; lia. }
  rewrite E. cbn [map seq]. unfold mf, det, dval, mf_high, mf_abs, hsum, asum. cbn [skipn firstn map sumZ fold_right nth].
  set (K := Z.of_nat k). set (f := zat zs).
  replace (K - 15 + Z.of_nat 0) with (K - 15) by lia.
  repeat match goal with |- context [K - 15 + Z.of_nat ?j] =>
    let m := eval compute in (15 - Z.of_nat j) in
    first [ constr_eq m 0; replace (K - 15 + Z.of_nat j) with K by lia | replace (K - 15 + Z.of_nat j) with (K - m) by lia ] end.
  repeat match goal with |- context [f ?x] => let v := fresh "v" in set (v := f x); clearbody v end.
  replace (v + (v0 + (v1 + (v2 + (v3 + (v4 + (v5 + 0))))))) with (v + v0 + v1 + v2 + v3 + v4 + v5) by lia.
  rewrite !Z.add_0_r, !Z.add_assoc. reflexivity.
Qed.

(** A stretch of a function. *)
Fixpoint dseq (D : Z -> Z) (c : Z) (n : nat) : list Z := match n with O => [] | S m => D c :: dseq D (c + 1) m end.
Lemma dseq_length D n : forall c, length (dseq D c n) = n. Proof. induction n; intros; cbn; auto. Qed.
Lemma dseq_app D a b : forall c, dseq D c (a + b) = dseq D c a ++ dseq D (c + Z.of_nat a) b.
Proof.
  induction a as [|a IH]; intros c; [cbn [dseq app Nat.add]; f_equal; lia|]. cbn [Nat.add dseq app]. rewrite IH. do 2 f_equal.
  f_equal. lia.
Qed.
Lemma dseq_nth D n i : forall c, (i < n)%nat -> nth i (dseq D c n) 0 = D (c + Z.of_nat i).
Proof.
  revert i; induction n as [|n IH]; intros [|i] c H; cbn [dseq nth]; try lia; [f_equal; lia|]. rewrite IH by lia. f_equal. lia.
Qed.
Lemma pointwise_dseq (f : list Z -> Z) D zs ds : pointwise f zs ds ->
  (forall k, (k < length zs)%nat -> f (firstn (S k) zs) = D (Z.of_nat k)) -> ds = dseq D 0 (length zs).
Proof.
  intros (L & H) HD. apply nth_error_ext. intros k. destruct (Nat.lt_ge_cases k (length zs)) as [Hk|Hk].
  - rewrite H, HD by auto. symmetry. rewrite (nth_error_nth' _ 0) by (rewrite dseq_length; auto). f_equal. apply dseq_nth; auto.
  - rewrite !(proj2 (nth_error_None _ _)); auto; [rewrite dseq_length; auto|lia].
Qed.
Lemma det_stream zs : bounded 130000000 zs ->
  exists b b', bit_new = Ok b /\ mrun bit_update b zs = Ok (b', dseq (det (zat zs)) 0 (length zs)).
Proof.
  intros H. destruct (bit_correct zs H) as (b & b' & ys & E1 & E2 & Pw). exists b, b'. split; auto. rewrite E2.
  rewrite (pointwise_dseq _ _ _ _ Pw (mf_spec_det zs)). reflexivity.
Qed.
