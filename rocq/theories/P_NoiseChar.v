(** P_NoiseChar.v -- one disturbed character at the bit detector (C92). *)
From Verif Require Import Base M_ShiftReg M_Dsp S_Containers S_Dsp S_Line S_Pio P_Containers P_Dsp P_Uart P_UartErr P_Pio P_PioTc P_NoiseDet.

(** ** A strongest phase exists *)
Lemma exists_dominant w p : (p < 8)%nat -> 0 < strength w p -> exists ph, dominant w ph.
Proof.
  intros Hp Hs.
  assert (G : forall n, (n <= 8)%nat -> (forall q, (q < n)%nat -> strength w q <= 0) \/
     exists ph, (ph < n)%nat /\ 0 < strength w ph /\ (forall q, (q < ph)%nat -> strength w q < strength w ph) /\
       (forall q, (ph < q < n)%nat -> strength w q <= strength w ph)).
  { induction n as [|n IH]; intros Hn; [left; intros; lia|].
    destruct (IH ltac:(lia)) as [IH0|(ph & H1 & H2 & H3 & H4)].
    - destruct (Z.le_gt_cases (strength w n) 0) as [L|L].
      + left. intros q Hq. destruct (Nat.eq_dec q n) as [->|]; auto. apply IH0; lia.
      + right. exists n. split; [lia|]. split; [lia|]. split; [|intros; lia]. intros q Hq. specialize (IH0 q Hq). lia.
    - right. destruct (Z.le_gt_cases (strength w n) (strength w ph)) as [L|L].
      + exists ph. split; [lia|]. split; auto. split; auto. intros q Hq. destruct (Nat.eq_dec q n) as [->|]; auto. apply H4; lia.
      + exists n. split; [lia|]. split; [lia|]. split; [|intros; lia]. intros q Hq.
        destruct (Nat.lt_trichotomy q ph) as [C|[->|C]]; auto; [specialize (H3 q C); lia|specialize (H4 q ltac:(lia)); lia]. }
  destruct (G 8%nat ltac:(lia)) as [C|(ph & H1 & H2 & H3 & H4)]; [specialize (C p Hp); lia|].
  exists ph. split; auto.
Qed.

(** ** Facts about the symbols of a character, either polarity *)
Definition sy (sg b : Z) : list Z := map (Z.mul sg) (char_symbols b).
Lemma nth_scale0 sg l i : nth i (map (Z.mul sg) l) 0 = sg * nth i l 0.
Proof. rewrite <- (Z.mul_0_r sg) at 1. apply map_nth. Qed.
Definition sy_check (b : Z) : bool :=
  let l := char_symbols b in
  Nat.eqb (length l) 11 && (nth 0 l 0 =? 1) && (nth 10 l 0 =? 0) &&
  forallb (fun a => (a =? 0) || (a =? 1) || (a =? -1)) l &&
  forallb (fun m => (nth m l 0 * nth (S m) l 0 =? 0) || (nth m l 0 * nth (S m) l 0 =? -1)) (seq 0 10).
Lemma sy_check_all : forallb (fun n => sy_check (Z.of_nat n)) (seq 0 256) = true.
Proof. vm_cast_no_check (eq_refl true). Qed.
Definition sgn1 (sg : Z) : Prop := sg = 1 \/ sg = -1.
Record sy_facts (l : list Z) : Prop := {
  sf_len : length l = 11%nat;
  sf_start : nth 0 l 0 <> 0;
  sf_stop : nth 10 l 0 = 0;
  sf_unit : forall m, nth m l 0 = 0 \/ sgn1 (nth m l 0);
  sf_alt : forall m, (m < 10)%nat -> nth m l 0 <> 0 -> nth (S m) l 0 = 0 \/ nth (S m) l 0 = - nth m l 0 }.
Lemma sy_ok sg b : sgn1 sg -> 0 <= b < 256 -> sy_facts (sy sg b).
Proof.
  intros Hs Hb. pose proof (forallb_byte _ b sy_check_all Hb) as H. cbv beta in H. rewrite Z2Nat.id in H by lia.
  unfold sy_check in H. cbv zeta in H. rewrite !andb_true_iff in H. destruct H as ((((H1 & H2) & H3) & H4) & H5).
  apply Nat.eqb_eq in H1. apply Z.eqb_eq in H2, H3. rewrite forallb_forall in H4, H5.
  assert (U : forall m, nth m (char_symbols b) 0 = 0 \/ sgn1 (nth m (char_symbols b) 0)).
  { intros m. destruct (Nat.lt_ge_cases m 11) as [L|L]; [|left; apply nth_overflow; lia].
    specialize (H4 (nth m (char_symbols b) 0) ltac:(apply nth_In; lia)). unfold sgn1.
    rewrite !orb_true_iff, !Z.eqb_eq in H4. tauto. }
  constructor; unfold sy.
  - rewrite map_length; auto.
  - rewrite nth_scale0, H2. destruct Hs as [-> | ->]; lia.
  - rewrite nth_scale0, H3. lia.
  - intros m. rewrite nth_scale0. unfold sgn1 in *. destruct (U m) as [-> |[-> | ->]], Hs as [-> | ->]; cbn; auto.
  - intros m Hm. rewrite !nth_scale0. specialize (H5 m ltac:(apply in_seq; lia)).
    rewrite orb_true_iff, !Z.eqb_eq in H5. unfold sgn1 in *.
    destruct (U m) as [-> |[E | E]], (U (S m)) as [-> |[F | F]]; rewrite ?E, ?F in *; destruct Hs as [-> | ->]; lia.
Qed.
Lemma alternating_opp l : alternating l -> alternating (map Z.opp l).
Proof. induction l as [|a [|c t] IH]; cbn [map alternating] in *; auto. intros (H1 & H2). split; [lia|]. apply IH; auto. Qed.
Lemma filter_opp l : filter nonzero (map Z.opp l) = map Z.opp (filter nonzero l).
Proof. induction l as [|a t IH]; cbn [map filter]; auto. rewrite IH. destruct a; reflexivity. Qed.
Lemma ones_opp l : ones (map Z.opp l) = ones l.
Proof. unfold ones. induction l as [|a t IH]; cbn [map filter]; auto. destruct a; cbn [Z.opp Z.eqb length]; auto. Qed.
Lemma frame_ok_opp s d : frame_ok s d -> frame_ok (map Z.opp s) d.
Proof.
  intros [F1 F2 F3 F4 F5 F6 F7].
  assert (N : forall i, nth i (map Z.opp s) 0 = - nth i s 0) by (intros; change 0 with (- 0) at 1; apply map_nth).
  constructor; auto.
  - rewrite map_length; auto.
  - rewrite N. lia.
  - intros i Hi. rewrite N, F4 by auto. lia.
  - rewrite skipn_map, firstn_map, ones_opp. auto.
  - rewrite N. lia.
  - rewrite filter_opp. apply alternating_opp; auto.
Qed.
Lemma sy_frame sg b : sgn1 sg -> 0 <= b < 256 -> frame_ok (sy sg b) b.
Proof.
  intros [-> | ->] Hb; unfold sy.
  - rewrite (map_ext (Z.mul 1) (fun x => x)), map_id by (intros; lia). apply char_symbols_ok; auto.
  - rewrite (map_ext (Z.mul (-1)) Z.opp) by (intros; lia). apply frame_ok_opp, char_symbols_ok; auto.
Qed.

(** ** The character *)
Definition zrel (P Q s j v : Z) : Prop :=
  if (s =? 0) || (8 <? j) then small v else if (j =? 0) || (j =? 8) then -61 <= s * v <= Q else P <= s * v <= Q.
Lemma zrel_small P Q s j v : zrel P Q s j v -> s = 0 \/ 8 < j -> small v.
Proof. unfold zrel. intros H [-> | C]; [exact H|]. destruct (Z.ltb_spec 8 j); [|lia]. rewrite orb_true_r in H. exact H. Qed.
Lemma zrel_edge P Q s j v : zrel P Q s j v -> s <> 0 -> j = 0 \/ j = 8 -> -61 <= s * v <= Q.
Proof. unfold zrel. intros H Hs Hj. destruct (Z.eqb_spec s 0); [lia|]. destruct Hj as [-> | ->]; exact H. Qed.
Lemma zrel_top P Q s j v : zrel P Q s j v -> s <> 0 -> 0 < j < 8 -> P <= s * v <= Q.
Proof.
  unfold zrel. intros H Hs Hj. destruct (Z.eqb_spec s 0); [lia|]. destruct (Z.ltb_spec 8 j); [lia|].
  destruct (Z.eqb_spec j 0); [lia|]. destruct (Z.eqb_spec j 8); [lia|]. exact H.
Qed.
Definition lead (z : Z -> Z) (t : Z) : Prop := forall i, t - 15 <= i < t -> small (z i).
Definition chr (P Q : Z) (l : list Z) (z : Z -> Z) (t : Z) : Prop :=
  forall m j, 0 <= m <= 10 -> 0 <= j < 16 -> 16 * m + j < 175 -> zrel P Q (nth (Z.to_nat m) l 0) j (z (t + 16 * m + j)).

Lemma det_ext f g n : (forall i, f i = g i) -> det f n = det g n.
Proof. intros H. unfold det, hsum, asum. rewrite !H. reflexivity. Qed.

Section C.
  Variables P Q : Z.
  Variable l : list Z.
  Variable z : Z -> Z.
  Variable t : Z.
  Hypothesis HP : 1700 <= P.
  Hypothesis HR : 20 * Q <= 27 * P.
  Hypothesis HQ : Q <= 4681.
  Hypothesis Hl : sy_facts l.
  Hypothesis Hlead : lead z t.
  Hypothesis Hchr : chr P Q l z t.
  Notation s m := (nth (Z.to_nat m) l 0).
  Notation D := (det z).

  (** Seven quiet samples before each symbol. *)
  Lemma c_before m k : 0 <= m <= 10 -> -7 <= k < 0 -> small (z (t + 16 * m + k)).
  Proof using Hlead Hchr.
    intros Hm Hk. destruct (Z.eq_dec m 0) as [->|N]; [apply Hlead; lia|].
    replace (t + 16 * m + k) with (t + 16 * (m - 1) + (16 + k)) by lia.
    eapply zrel_small; [apply Hchr; lia|]. right; lia.
  Qed.
  Lemma c_pulse m : 0 <= m <= 9 -> s m <> 0 -> pulse P Q (fun i => s m * z i) (t + 16 * m).
  Proof using Hlead Hchr Hl.
    intros Hm Hs. pose proof (sf_unit _ Hl (Z.to_nat m)) as U.
    assert (V : forall v, small v -> small (s m * v)).
    { intros v Hv. unfold small, sgn1 in *. destruct U as [U|[-> | ->]]; lia. }
    assert (C : forall j, 0 <= j < 16 -> zrel P Q (s m) j (z (t + 16 * m + j))) by (intros; apply Hchr; lia).
    assert (Cn : forall j, 0 <= j < 15 -> zrel P Q (s (m + 1)) j (z (t + 16 * m + (16 + j)))).
    { intros j Hj. replace (t + 16 * m + (16 + j)) with (t + 16 * (m + 1) + j) by lia. apply Hchr; lia. }
    pose proof (sf_alt _ Hl (Z.to_nat m) ltac:(lia) Hs) as A.
    replace (S (Z.to_nat m)) with (Z.to_nat (m + 1)) in A by lia.
    constructor.
    - intros k Hk. apply V, c_before; lia.
    - eapply zrel_edge; [apply C; lia|auto|auto].
    - intros k Hk. eapply zrel_top; [apply C; lia|auto|auto].
    - eapply zrel_edge; [apply C; lia|auto|auto].
    - intros k Hk. apply V. eapply zrel_small; [apply C; lia|lia].
    - destruct A as [A|A].
      + left. intros k Hk. apply V. replace k with (16 + (k - 16)) by lia. eapply zrel_small; [apply Cn; lia|lia].
      + right. split.
        * pose proof (Cn 0 ltac:(lia)) as G. apply zrel_edge in G; auto; [|lia]. rewrite A in G.
          change (16 + 0) with 16 in G. lia.
        * intros k Hk. pose proof (Cn (k - 16) ltac:(lia)) as G. apply zrel_top in G; [|lia|lia]. rewrite A in G.
          replace (16 + (k - 16)) with k in G by lia. lia.
  Qed.
  Lemma s_det m n : s m = 0 \/ det (fun i => s m * z i) n = s m * D n.
  Proof using Hl.
    destruct (sf_unit _ Hl (Z.to_nat m)) as [U|[U|U]]; auto; right; rewrite U.
    - rewrite (det_ext (fun i => 1 * z i) z) by (intros; lia). lia.
    - rewrite (det_ext (fun i => -1 * z i) (fun i => - z i)) by (intros; lia). rewrite det_opp. lia.
  Qed.
  Lemma c_hit m : 0 <= m <= 9 -> s m <> 0 ->
    (forall k, 9 <= k <= 23 -> 0 <= s m * D (t + 16 * m + k) <= 7 * Q) /\
    (forall k, 13 <= k <= 16 -> 4921 <= s m * D (t + 16 * m + k)) /\
    (forall k, 9 <= k <= 12 \/ 17 <= k <= 23 -> s m * D (t + 16 * m + k) < s m * D (t + 16 * m + 15)).
  Proof using HP HR Hlead Hchr Hl.
    intros Hm Hs. destruct (det_pulse P Q _ _ HP HR (c_pulse m Hm Hs)) as (A & B & C).
    assert (E : forall n, det (fun i => s m * z i) n = s m * D n) by (intros n; destruct (s_det m n); [easy|auto]).
    split; [|split]; intros k Hk; rewrite <- !E; auto.
  Qed.
  (** No pulse: nothing. *)
  Lemma c_edge m : 0 <= m <= 9 -> D (t + 16 * m + 8) = 0.
  Proof using HP HR Hlead Hchr Hl.
    intros Hm. destruct (Z.eq_dec (s m) 0) as [E|E].
    - apply (det_quiet P Q z _ 1 HP HR (or_introl eq_refl)).
      + intros i Hi. replace i with (t + 16 * m + (i - t - 16 * m)) by lia. apply c_before; lia.
      + left. replace (t + 16 * m + 8 - 8) with (t + 16 * m + 0) by lia. eapply zrel_small; [apply Hchr; lia|lia].
    - destruct (sf_unit _ Hl (Z.to_nat m)) as [U|U]; [easy|].
      apply (det_quiet P Q z _ (s m) HP HR U).
      + intros i Hi. replace i with (t + 16 * m + (i - t - 16 * m)) by lia. apply c_before; lia.
      + right. split.
        * replace (t + 16 * m + 8 - 8) with (t + 16 * m + 0) by lia. eapply zrel_edge; [apply Hchr; lia|auto|auto].
        * intros i Hi. replace i with (t + 16 * m + (i - t - 16 * m)) by lia. eapply zrel_top; [apply Hchr; lia|auto|lia].
  Qed.
  Lemma c_miss m k : 0 <= m <= 9 -> s m = 0 -> 9 <= k <= 23 -> D (t + 16 * m + k) = 0.
  Proof using HP HR Hlead Hchr Hl.
    intros Hm E Hk. apply (det_quiet P Q z _ 1 HP HR (or_introl eq_refl)).
    - intros i Hi. destruct (Z_lt_ge_dec i (t + 16 * m)).
      + replace i with (t + 16 * m + (i - t - 16 * m)) by lia. apply c_before; lia.
      + replace i with (t + 16 * m + (i - t - 16 * m)) by lia. eapply zrel_small; [apply Hchr; lia|lia].
    - left. replace (t + 16 * m + k - 8) with (t + 16 * m + (k - 8)) by lia. eapply zrel_small; [apply Hchr; lia|lia].
  Qed.
  Lemma c_early n : t <= n <= t + 8 -> D n = 0.
  Proof using HP HR Hlead Hchr Hl.
    intros Hn. destruct (Z.eq_dec n (t + 8)) as [->|N]; [replace (t + 8) with (t + 16 * 0 + 8) by lia; apply c_edge; lia|].
    apply (det_quiet P Q z _ 1 HP HR (or_introl eq_refl)); [|left]; intros; apply Hlead; lia.
  Qed.
  (** The stop symbol. *)
  Lemma c_stop m k : m = 10 -> 8 <= k < 23 -> D (t + 16 * m + k) = 0.
  Proof using HP HR Hlead Hchr Hl.
    intros -> Hk. pose proof (sf_stop _ Hl) as E. change 10%nat with (Z.to_nat 10) in E.
    apply (det_quiet P Q z _ 1 HP HR (or_introl eq_refl)).
    - intros i Hi. destruct (Z_lt_ge_dec i (t + 160)).
      + replace i with (t + 16 * 10 + (i - t - 160)) by lia. apply c_before; lia.
      + replace i with (t + 16 * 10 + (i - t - 160)) by lia. eapply zrel_small; [apply Hchr; lia|lia].
    - left. replace (t + 16 * 10 + k - 8) with (t + 16 * 10 + (k - 8)) by lia. eapply zrel_small; [apply Hchr; lia|lia].
  Qed.
  (** Magnitudes and signs at a relative position. *)
  Lemma c_sgn m k : 0 <= m <= 10 -> 13 <= k <= 16 -> Z.sgn (D (t + 16 * m + k)) = s m.
  Proof using HP HR Hlead Hchr Hl.
    intros Hm Hk. destruct (Z.eq_dec m 10) as [->|N].
    - rewrite (c_stop 10 k) by lia. symmetry. apply (sf_stop _ Hl).
    - destruct (Z.eq_dec (s m) 0) as [E|E]; [rewrite c_miss by (auto; lia); auto|].
      destruct (c_hit m ltac:(lia) E) as (_ & B & _). specialize (B k Hk).
      destruct (sf_unit _ Hl (Z.to_nat m)) as [U|[U|U]]; [easy| |]; rewrite U in *; lia.
  Qed.
  Lemma c_abs m k : 0 <= m <= 10 -> 9 <= k <= 12 \/ 17 <= k <= 20 ->
    Z.abs (D (t + 16 * m + k)) <= Z.abs (D (t + 16 * m + 15)) /\ (s m <> 0 -> Z.abs (D (t + 16 * m + k)) < Z.abs (D (t + 16 * m + 15))).
  Proof using HP HR Hlead Hchr Hl.
    intros Hm Hk. destruct (Z.eq_dec m 10) as [->|N].
    - rewrite !(c_stop 10) by lia. split; [lia|]. intros C. destruct C. apply (sf_stop _ Hl).
    - destruct (Z.eq_dec (s m) 0) as [E|E]; [rewrite !c_miss by (auto; lia); split; [lia|easy]|].
      destruct (c_hit m ltac:(lia) E) as (A & B & C).
      specialize (A k ltac:(lia)). specialize (B 15 ltac:(lia)). specialize (C k ltac:(lia)).
      destruct (sf_unit _ Hl (Z.to_nat m)) as [U|[U|U]]; [easy| |]; rewrite U in *; lia.
  Qed.
  Lemma c_range n : t <= n < t + 183 -> Z.abs (D n) <= 32767.
  Proof using HP HR HQ Hlead Hchr Hl.
    intros Hn. destruct (Z_le_gt_dec n (t + 8)); [rewrite c_early by lia; lia|].
    set (m := (n - t - 8) / 16). set (k := (n - t - 8) mod 16 + 8).
    assert (E : n = t + 16 * m + k) by (unfold m, k; pose proof (Z.div_mod (n - t - 8) 16 ltac:(lia)); lia).
    assert (Hm : 0 <= m <= 10) by (unfold m; split; [apply Z.div_pos; lia|apply Z.lt_succ_r, Z.div_lt_upper_bound; lia]).
    assert (Hk : 8 <= k <= 23) by (unfold k; pose proof (Z.mod_pos_bound (n - t - 8) 16 ltac:(lia)); lia).
    clearbody m k. subst n. destruct (Z.eq_dec m 10) as [->|N]; [rewrite c_stop by lia; lia|].
    destruct (Z.eq_dec k 8) as [->|]; [rewrite c_edge by lia; lia|].
    destruct (Z.eq_dec (s m) 0) as [E0|E0]; [rewrite c_miss by (auto; lia); lia|].
    destruct (c_hit m ltac:(lia) E0) as (A & _ & _). specialize (A k ltac:(lia)).
    destruct (sf_unit _ Hl (Z.to_nat m)) as [U|[U|U]]; [easy| |]; rewrite U in *; lia.
  Qed.
  (** First detected sample. *)
  Lemma c_first : exists f, 9 <= f <= 13 /\ D (t + f) <> 0 /\ forall i, 0 <= i < f -> D (t + i) = 0.
  Proof using HP HR Hlead Hchr Hl.
    assert (N13 : D (t + 13) <> 0).
    { destruct (c_hit 0 ltac:(lia) (sf_start _ Hl)) as (_ & B & _). specialize (B 13 ltac:(lia)).
      replace (t + 16 * 0 + 13) with (t + 13) in B by lia. lia. }
    assert (Z9 : forall i, 0 <= i < 9 -> D (t + i) = 0) by (intros; apply c_early; lia).
    destruct (Z.eq_dec (D (t + 9)) 0) as [E9|E9].
    2:{ exists 9. split; [lia|]. split; auto. }
    assert (Z10 : forall i, 0 <= i < 10 -> D (t + i) = 0) by (intros i Hi; destruct (Z.eq_dec i 9) as [->|]; auto; apply Z9; lia).
    destruct (Z.eq_dec (D (t + 10)) 0) as [E10|E10].
    2:{ exists 10. split; [lia|]. split; auto. }
    assert (Z11 : forall i, 0 <= i < 11 -> D (t + i) = 0) by (intros i Hi; destruct (Z.eq_dec i 10) as [->|]; auto; apply Z10; lia).
    destruct (Z.eq_dec (D (t + 11)) 0) as [E11|E11].
    2:{ exists 11. split; [lia|]. split; auto. }
    assert (Z12 : forall i, 0 <= i < 12 -> D (t + i) = 0) by (intros i Hi; destruct (Z.eq_dec i 11) as [->|]; auto; apply Z11; lia).
    destruct (Z.eq_dec (D (t + 12)) 0) as [E12|E12].
    2:{ exists 12. split; [lia|]. split; auto. }
    exists 13. split; [lia|]. split; auto. intros i Hi; destruct (Z.eq_dec i 12) as [->|]; auto; apply Z12; lia.
  Qed.

  (** The window the receiver looks at. *)
  Lemma c_symbols f p : (p < 8)%nat ->
    symbols (dseq D (t + f) 168) p = map (fun m => D (t + 16 * Z.of_nat m + (f + Z.of_nat p))) (seq 0 11).
  Proof using.
    intros Hp. unfold symbols. apply map_ext_in. intros m Hm. apply in_seq in Hm. rewrite dseq_nth by lia. f_equal. lia.
  Qed.
  Lemma c_frame f b : 9 <= f <= 13 -> frame_ok l b ->
    exists ph, dominant (dseq D (t + f) 168) ph /\ frame_ok (symbols (dseq D (t + f) 168) ph) b.
  Proof using HP HR Hlead Hchr Hl.
    intros Hf Fr. set (w := dseq D (t + f) 168).
    set (S := fun r => fold_right (fun a b => Z.abs a + b) 0 (map (fun m => D (t + 16 * Z.of_nat m + r)) (seq 0 11))).
    assert (St : forall p, (p < 8)%nat -> strength w p = if D (t + (f + Z.of_nat p)) =? 0 then 0 else S (f + Z.of_nat p)).
    { intros p Hp. unfold strength, w. rewrite c_symbols by auto. rewrite dseq_nth by lia.
      replace (t + f + Z.of_nat p) with (t + (f + Z.of_nat p)) by lia. reflexivity. }
    assert (Sp : forall r, 0 <= S r). { intros r. unfold S. generalize (seq 0 11). intros ms. induction ms as [|m ms IH]; cbn [map fold_right]; lia. }
    assert (Slt : forall r, 9 <= r <= 12 \/ 17 <= r <= 20 -> S r < S 15).
    { intros r Hr. unfold S. cbn [seq map fold_right].
      pose proof (c_abs 0 r ltac:(lia) Hr) as (_ & A0). specialize (A0 (sf_start _ Hl)).
      pose proof (fun m H => proj1 (c_abs m r H Hr)) as A.
      pose proof (A 1 ltac:(lia)). pose proof (A 2 ltac:(lia)). pose proof (A 3 ltac:(lia)). pose proof (A 4 ltac:(lia)).
      pose proof (A 5 ltac:(lia)). pose proof (A 6 ltac:(lia)). pose proof (A 7 ltac:(lia)). pose proof (A 8 ltac:(lia)).
      pose proof (A 9 ltac:(lia)). pose proof (A 10 ltac:(lia)). clear A.
      cbn [Z.of_nat Pos.of_succ_nat Pos.succ].
      repeat match goal with |- context [Z.abs ?x] => let v := fresh "v" in set (v := Z.abs x) in *; clearbody v end. lia. }
    assert (N15 : D (t + 15) <> 0).
    { pose proof (c_sgn 0 15 ltac:(lia) ltac:(lia)) as E. replace (t + 16 * 0 + 15) with (t + 15) in E by lia.
      intros C. rewrite C in E. apply (sf_start _ Hl). symmetry. exact E. }
    set (pc := Z.to_nat (15 - f)).
    assert (Hpc : (pc < 8)%nat /\ f + Z.of_nat pc = 15) by (unfold pc; lia). destruct Hpc as (Hpc & Epc).
    assert (Spc : strength w pc = S 15).
    { rewrite St, Epc by auto. destruct (Z.eqb_spec (D (t + 15)) 0); [easy|reflexivity]. }
    assert (Pos : 0 < S 15). { pose proof (Sp 12). specialize (Slt 12 ltac:(lia)). lia. }
    destruct (exists_dominant w pc Hpc ltac:(lia)) as (ph & Hd). exists ph. split; auto.
    destruct Hd as (Hph & D1 & D2 & D3).
    assert (Max : S 15 <= strength w ph).
    { rewrite <- Spc. destruct (Nat.lt_trichotomy pc ph) as [C|[->|C]]; [specialize (D2 pc C); lia|lia|apply D3; lia]. }
    assert (R : 13 <= f + Z.of_nat ph <= 16).
    { destruct (Z_le_gt_dec 13 (f + Z.of_nat ph)), (Z_le_gt_dec (f + Z.of_nat ph) 16); try lia; exfalso;
        rewrite St in Max by auto; pose proof (Slt (f + Z.of_nat ph) ltac:(lia));
        destruct (D (t + (f + Z.of_nat ph)) =? 0); lia. }
    apply frame_ok_sgn. unfold w. rewrite c_symbols by auto. rewrite map_map.
    replace (map _ _) with l; [exact Fr|].
    apply list_ext0; [rewrite map_length, seq_length; apply (sf_len _ Hl)|]. intros i.
    destruct (Nat.lt_ge_cases i 11) as [L|L].
    - symmetry. etransitivity.
      + apply (nth_indep _ 0 (Z.sgn (D (t + 16 * Z.of_nat 0 + (f + Z.of_nat ph))))). rewrite map_length, seq_length; auto.
      + rewrite (map_nth (fun x => Z.sgn (D (t + 16 * Z.of_nat x + (f + Z.of_nat ph))))), seq_nth by auto. cbn [Nat.add].
        rewrite c_sgn by lia. rewrite Nat2Z.id. reflexivity.
    - rewrite !nth_overflow; auto; rewrite ?map_length, ?seq_length, ?(sf_len _ Hl); auto.
  Qed.
End C.
