(** P_SlowChar.v -- one character of a line that is sampled a little too slowly, at the bit detector (C98). *)
From Verif Require Import Base M_ShiftReg M_Dsp S_Containers S_Dsp S_Line S_Pio P_Containers P_Dsp P_Uart P_UartErr P_Pio P_PioTc P_NoiseDet P_NoiseChar P_SlowDet.

(** The character with symbols [l] at [t]; from symbol [M + 1] on everything comes one sample early. *)
Record slowchar (P Q E : Z) (l : list Z) (z : Z -> Z) (t M : Z) : Prop := {
  sc_M : 0 <= M;
  sc_A : forall m, 0 <= m <= 9 -> m <= M -> nth (Z.to_nat m) l 0 <> 0 -> pulseA P Q E (fun i => nth (Z.to_nat m) l 0 * z i) (t + 16 * m);
  sc_B : forall m, 0 <= m <= 9 -> M < m -> nth (Z.to_nat m) l 0 <> 0 -> pulseB P Q (fun i => nth (Z.to_nat m) l 0 * z i) (t + 16 * m - 1);
  sc_0 : forall m k, 0 <= m <= 10 -> nth (Z.to_nat m) l 0 = 0 -> -5 <= k <= 12 -> small (z (t + 16 * m + k)) }.

Lemma det_A8 P Q E w t : 1700 <= P -> 20 * Q <= 27 * P -> pulseA P Q E w t -> det w (t + 8) = 0.
Proof.
  intros HP HR [Pb Pf Pt Pl Pa Pn]. unfold small in *.
  pose proof (Pb (-6) ltac:(lia)). pose proof (Pb (-5) ltac:(lia)). pose proof (Pb (-4) ltac:(lia)). pose proof (Pb (-3) ltac:(lia)).
  pose proof (Pb (-2) ltac:(lia)). pose proof (Pb (-1) ltac:(lia)).
  pose proof (Pt 3 ltac:(lia)). pose proof (Pt 4 ltac:(lia)). pose proof (Pt 5 ltac:(lia)). pose proof (Pt 6 ltac:(lia)).
  unfold det, dval.
  assert (A : 4 * P <= asum w (t + 8)).
  { unfold asum. replace (t + 8 - 5) with (t + 3) by lia. replace (t + 8 - 4) with (t + 4) by lia.
    replace (t + 8 - 3) with (t + 5) by lia. replace (t + 8 - 2) with (t + 6) by lia. lia. }
  assert (B : - Q - 500 <= hsum w (t + 8) <= Q + 500).
  { unfold hsum. replace (t + 8 - 14) with (t + -6) by lia. replace (t + 8 - 13) with (t + -5) by lia. replace (t + 8 - 12) with (t + -4) by lia.
    replace (t + 8 - 11) with (t + -3) by lia. replace (t + 8 - 10) with (t + -2) by lia. replace (t + 8 - 9) with (t + -1) by lia.
    replace (t + 8 - 8) with (t + 0) by lia. lia. }
  repeat match goal with |- context [?a <=? ?b] => destruct (Z.leb_spec a b); try lia end.
Qed.

Section C.
  Variables P Q Ef : Z.
  Variable l : list Z.
  Variable z : Z -> Z.
  Variables t M : Z.
  Hypothesis HP : 1700 <= P.
  Hypothesis HR : 20 * Q <= 27 * P.
  Hypothesis HE : 0 <= Ef <= Q.
  Hypothesis HS : Q + 2 * Ef + 680 <= 4 * P.
  Hypothesis HQ : Q <= 4681.
  Hypothesis Hl : sy_facts l.
  Hypothesis Hlead : lead z t.
  Hypothesis Hc : slowchar P Q Ef l z t M.
  Notation s m := (nth (Z.to_nat m) l 0).
  Notation D := (det z).

  Lemma d_det m n : s m = 0 \/ det (fun i => s m * z i) n = s m * D n.
  Proof using Hl.
    destruct (sf_unit _ Hl (Z.to_nat m)) as [U|[U|U]]; auto; right; rewrite U.
    - rewrite (det_ext (fun i => 1 * z i) z) by (intros; lia). lia.
    - rewrite (det_ext (fun i => -1 * z i) (fun i => - z i)) by (intros; lia). rewrite det_opp. lia.
  Qed.
  Definition goodm (m : Z) : Prop :=
    (forall r, 9 <= r <= 20 -> 0 <= s m * D (t + 16 * m + r)) /\ (forall r, 13 <= r <= 15 -> 4921 <= s m * D (t + 16 * m + r)) /\
    (forall r, 9 <= r <= 12 -> s m * D (t + 16 * m + r) < s m * D (t + 16 * m + 13)) /\
    2 * (s m * D (t + 16 * m + 16)) < s m * D (t + 16 * m + 14) + s m * D (t + 16 * m + 15) /\
    (forall r, 17 <= r <= 20 -> s m * D (t + 16 * m + r) < s m * D (t + 16 * m + 15)).
  Lemma d_hit m : 0 <= m <= 9 -> s m <> 0 -> goodm m.
  Proof using HP HR HE HS Hl Hc.
    intros Hm Hs.
    assert (E : forall n, det (fun i => s m * z i) n = s m * D n) by (intros n; destruct (d_det m n); [easy|auto]).
    unfold goodm. destruct (Z_le_gt_dec m M) as [C|C].
    - destruct (det_A P Q Ef _ _ HP HR HE HS (sc_A _ _ _ _ _ _ _ Hc m Hm C Hs)) as (A & B & X & Y & W).
      split; [|split; [|split; [|split]]]; [intros r Hr|intros r Hr|intros r Hr| |intros r Hr]; rewrite <- !E; auto.
    - assert (C' : M < m) by lia. destruct (det_B P Q _ _ HP HR (sc_B _ _ _ _ _ _ _ Hc m Hm C' Hs)) as (A & B & X & Y & W).
      assert (F : forall r, t + 16 * m + r = t + 16 * m - 1 + (r + 1)) by (intros; lia).
      split; [|split; [|split; [|split]]]; [intros r Hr|intros r Hr|intros r Hr| |intros r Hr]; rewrite <- !E, ?(F r).
      + apply A; lia.
      + apply B; lia.
      + rewrite (F 13). apply X; lia.
      + rewrite (F 14), (F 15), (F 16). exact Y.
      + rewrite (F 15). apply W; lia.
  Qed.
  Lemma d_miss m r : 0 <= m <= 10 -> s m = 0 -> 9 <= r <= 20 -> D (t + 16 * m + r) = 0.
  Proof using Hc.
    intros Hm E Hr. apply det_nothing. intros i Hi. replace i with (t + 16 * m + (i - t - 16 * m)) by lia.
    apply (sc_0 _ _ _ _ _ _ _ Hc); auto; lia.
  Qed.
  Lemma d_start : pulseA P Q Ef (fun i => s 0 * z i) (t + 0).
  Proof using Hl Hc. apply (sc_A _ _ _ _ _ _ _ Hc 0); [lia|apply (sc_M _ _ _ _ _ _ _ Hc)|apply (sf_start _ Hl)]. Qed.
  Lemma d_early i : 0 <= i < 9 -> D (t + i) = 0.
  Proof using HP HR HE HS Hl Hlead Hc.
    intros Hi. destruct (Z.eq_dec i 8) as [->|N]; [|apply det_nothing; intros j Hj; apply Hlead; lia].
    pose proof (sf_start _ Hl) as S0. pose proof (det_A8 P Q Ef _ _ HP HR d_start) as K.
    replace (t + 0 + 8) with (t + 8) in K by lia.
    destruct (d_det 0 (t + 8)) as [C|E]; [easy|]. rewrite E in K. apply Z.mul_eq_0 in K as [K|K]; [easy|exact K].
  Qed.
  Lemma d_sgn m r : 0 <= m <= 10 -> 13 <= r <= 15 -> Z.sgn (D (t + 16 * m + r)) = s m.
  Proof using HP HR HE HS Hl Hc.
    intros Hm Hr. destruct (Z.eq_dec (s m) 0) as [E|E]; [rewrite d_miss by (auto; lia); auto|].
    assert (Hm9 : 0 <= m <= 9).
    { destruct (Z.eq_dec m 10) as [->|]; [|lia]. destruct E. apply (sf_stop _ Hl). }
    destruct (d_hit m Hm9 E) as (_ & B & _). specialize (B r Hr).
    destruct (sf_unit _ Hl (Z.to_nat m)) as [U|[U|U]]; [easy| |]; rewrite U in *; lia.
  Qed.
  Lemma d_abs m : 0 <= m <= 10 ->
    (s m = 0 /\ forall r, 9 <= r <= 20 -> Z.abs (D (t + 16 * m + r)) = 0) \/
    (s m <> 0 /\ (forall r, 9 <= r <= 12 -> Z.abs (D (t + 16 * m + r)) < Z.abs (D (t + 16 * m + 13))) /\
     2 * Z.abs (D (t + 16 * m + 16)) < Z.abs (D (t + 16 * m + 14)) + Z.abs (D (t + 16 * m + 15)) /\
     (forall r, 17 <= r <= 20 -> Z.abs (D (t + 16 * m + r)) < Z.abs (D (t + 16 * m + 15)))).
  Proof using HP HR HE HS Hl Hc.
    intros Hm. destruct (Z.eq_dec (s m) 0) as [E|E].
    - left. split; auto. intros r Hr. rewrite d_miss by auto. reflexivity.
    - right. split; auto.
      assert (Hm9 : 0 <= m <= 9).
      { destruct (Z.eq_dec m 10) as [->|]; [|lia]. destruct E. apply (sf_stop _ Hl). }
      destruct (d_hit m Hm9 E) as (A & B & X & Y & W).
      assert (F : forall r, 9 <= r <= 20 -> Z.abs (D (t + 16 * m + r)) = s m * D (t + 16 * m + r)).
      { intros r Hr. specialize (A r Hr). destruct (sf_unit _ Hl (Z.to_nat m)) as [U|[U|U]]; [easy| |]; rewrite U in *; lia. }
      split; [|split]; [intros r Hr| |intros r Hr]; rewrite !F by lia; auto.
  Qed.
  Lemma d_first : exists f, 9 <= f <= 13 /\ D (t + f) <> 0 /\ forall i, 0 <= i < f -> D (t + i) = 0.
  Proof using HP HR HE HS Hlead Hl Hc.
    assert (N13 : D (t + 13) <> 0).
    { destruct (d_hit 0 ltac:(lia) (sf_start _ Hl)) as (_ & B & _). specialize (B 13 ltac:(lia)).
      replace (t + 16 * 0 + 13) with (t + 13) in B by lia. lia. }
    assert (Z9 : forall i, 0 <= i < 9 -> D (t + i) = 0) by (apply d_early).
    destruct (Z.eq_dec (D (t + 9)) 0) as [E9|E9].
    2:{ exists 9. split; [lia|]. split; auto. }
    assert (Z10 : forall i, 0 <= i < 10 -> D (t + i) = 0) by (intros i Hi; destruct (Z.eq_dec i 9) as [->|]; auto; apply Z9; lia).
    destruct (Z.eq_dec (D (t + 10)) 0) as [E10|E10].
    2:{ exists 10. split; [lia|]. split; auto. }
    assert (Z11 : forall i, 0 <= i < 11 -> D (t + i) = 0) by (intros i Hi; destruct (Z.eq_dec i 10) as [->|]; auto; apply Z10; lia).
    destruct (Z.eq_dec (D (t + 11)) 0) as [E11|E11].
    2:{ exists 11. split; [lia|]. split; auto. }
    assert (Z12 : forall i, 0 <= i < 12 -> D (t + i) = 0) by (intros i Hi; destruct (Z.eq_dec i 11) as [->|]; auto; apply Z11; lia).
    destruct (Z.eq_dec (D (t + 12)) 0) as [E12|E12].
    2:{ exists 12. split; [lia|]. split; auto. }
    exists 13. split; [lia|]. split; auto. intros i Hi; destruct (Z.eq_dec i 12) as [->|]; auto; apply Z12; lia.
  Qed.

  (** The window the receiver looks at. *)
  Definition Sm (r : Z) : Z := fold_right (fun a b => Z.abs a + b) 0 (map (fun m => D (t + 16 * Z.of_nat m + r)) (seq 0 11)).
  Lemma Sm_nonneg r : 0 <= Sm r.
  Proof using. unfold Sm. generalize (seq 0 11). intros ms. induction ms as [|m ms IH]; cbn [map fold_right]; lia. Qed.
  Ltac absall := repeat match goal with |- context [Z.abs ?x] => let v := fresh "v" in set (v := Z.abs x) in *; clearbody v end.
  Ltac use_abs m := destruct (d_abs m ltac:(lia)) as [(? & ?)|(? & ? & ? & ?)].
  Lemma Sm_sum (f : Z -> Z) (g : Z -> Z) : (forall m, 0 <= m <= 10 -> f m <= g m) -> f 0 < g 0 ->
    fold_right (fun m a => f (Z.of_nat m) + a) 0 (seq 0 11) < fold_right (fun m a => g (Z.of_nat m) + a) 0 (seq 0 11).
  Proof using.
    intros H0 H1. cbn [seq fold_right Z.of_nat Pos.of_succ_nat Pos.succ].
    pose proof (H0 1 ltac:(lia)). pose proof (H0 2 ltac:(lia)). pose proof (H0 3 ltac:(lia)). pose proof (H0 4 ltac:(lia)). pose proof (H0 5 ltac:(lia)).
    pose proof (H0 6 ltac:(lia)). pose proof (H0 7 ltac:(lia)). pose proof (H0 8 ltac:(lia)). pose proof (H0 9 ltac:(lia)). pose proof (H0 10 ltac:(lia)). lia.
  Qed.
  Lemma Sm_as r : Sm r = fold_right (fun m a => Z.abs (D (t + 16 * Z.of_nat m + r)) + a) 0 (seq 0 11).
  Proof using. reflexivity. Qed.
  Lemma d_nz0 : s 0 <> 0. Proof using Hl. apply (sf_start _ Hl). Qed.
  Lemma Sm_low r : 9 <= r <= 12 -> Sm r < Sm 13.
  Proof using HP HR HE HS Hl Hc.
    intros Hr. rewrite !Sm_as. apply (Sm_sum (fun m => Z.abs (D (t + 16 * m + r))) (fun m => Z.abs (D (t + 16 * m + 13)))).
    - intros m Hm. destruct (d_abs m Hm) as [(_ & A)|(_ & A & _)]; [rewrite !A by lia; lia|specialize (A r Hr); lia].
    - destruct (d_abs 0 ltac:(lia)) as [(C & _)|(_ & A & _)]; [destruct (d_nz0 C)|apply A; auto].
  Qed.
  Lemma Sm_high r : 17 <= r <= 20 -> Sm r < Sm 15.
  Proof using HP HR HE HS Hl Hc.
    intros Hr. rewrite !Sm_as. apply (Sm_sum (fun m => Z.abs (D (t + 16 * m + r))) (fun m => Z.abs (D (t + 16 * m + 15)))).
    - intros m Hm. destruct (d_abs m Hm) as [(_ & A)|(_ & _ & _ & A)]; [rewrite !A by lia; lia|specialize (A r Hr); lia].
    - destruct (d_abs 0 ltac:(lia)) as [(C & _)|(_ & _ & _ & A)]; [destruct (d_nz0 C)|apply A; auto].
  Qed.
  Lemma fold_lin (f g h : nat -> Z) (ms : list nat) : (forall m, 2 * f m = g m + h m) ->
    2 * fold_right (fun m a => f m + a) 0 ms = fold_right (fun m a => g m + a) 0 ms + fold_right (fun m a => h m + a) 0 ms.
  Proof using. intros H. induction ms as [|m ms IH]; cbn [fold_right]; [lia|]. pose proof (H m). lia. Qed.
  Lemma Sm_16 : 2 * Sm 16 < Sm 14 + Sm 15.
  Proof using HP HR HE HS Hl Hc.
    rewrite !Sm_as.
    pose proof (Sm_sum (fun m => 2 * Z.abs (D (t + 16 * m + 16))) (fun m => Z.abs (D (t + 16 * m + 14)) + Z.abs (D (t + 16 * m + 15)))) as K.
    cbv beta in K.
    assert (K1 : forall m, 0 <= m <= 10 -> 2 * Z.abs (D (t + 16 * m + 16)) <= Z.abs (D (t + 16 * m + 14)) + Z.abs (D (t + 16 * m + 15))).
    { intros m Hm. destruct (d_abs m Hm) as [(_ & A)|(_ & _ & A & _)]; [rewrite !A by lia; lia|lia]. }
    assert (K2 : 2 * Z.abs (D (t + 16 * 0 + 16)) < Z.abs (D (t + 16 * 0 + 14)) + Z.abs (D (t + 16 * 0 + 15))).
    { destruct (d_abs 0 ltac:(lia)) as [(C & _)|(_ & _ & A & _)]; [destruct (d_nz0 C)|exact A]. }
    specialize (K K1 K2). clear K1 K2. revert K. generalize (seq 0 11). intros ms K.
    assert (E1 : forall ns, fold_right (fun m a => 2 * Z.abs (D (t + 16 * Z.of_nat m + 16)) + a) 0 ns = 2 * fold_right (fun m a => Z.abs (D (t + 16 * Z.of_nat m + 16)) + a) 0 ns).
    { induction ns as [|n ns IH]; cbn [fold_right]; lia. }
    assert (E2 : forall ns, fold_right (fun m a => Z.abs (D (t + 16 * Z.of_nat m + 14)) + Z.abs (D (t + 16 * Z.of_nat m + 15)) + a) 0 ns =
       fold_right (fun m a => Z.abs (D (t + 16 * Z.of_nat m + 14)) + a) 0 ns + fold_right (fun m a => Z.abs (D (t + 16 * Z.of_nat m + 15)) + a) 0 ns).
    { induction ns as [|n ns IH]; cbn [fold_right]; lia. }
    rewrite E1, E2 in K. exact K.
  Qed.
  Lemma d_frame f b : 9 <= f <= 13 -> frame_ok l b ->
    exists ph, dominant (dseq D (t + f) 168) ph /\ frame_ok (symbols (dseq D (t + f) 168) ph) b.
  Proof using HP HR HE HS Hl Hc.
    intros Hf Fr. set (w := dseq D (t + f) 168).
    assert (St : forall p, (p < 8)%nat -> strength w p = if D (t + (f + Z.of_nat p)) =? 0 then 0 else Sm (f + Z.of_nat p)).
    { intros p Hp. unfold strength, w. rewrite c_symbols by auto. rewrite dseq_nth by lia.
      replace (t + f + Z.of_nat p) with (t + (f + Z.of_nat p)) by lia. reflexivity. }
    assert (Ng : forall r, 13 <= r <= 15 -> D (t + r) <> 0).
    { intros r Hr. pose proof (d_sgn 0 r ltac:(lia) Hr) as E. replace (t + 16 * 0 + r) with (t + r) in E by lia.
      intros C. rewrite C in E. apply d_nz0. symmetry. exact E. }
    assert (Pos : 0 < Sm 13). { pose proof (Sm_nonneg 12). pose proof (Sm_low 12 ltac:(lia)). lia. }
    assert (Sg : forall r, 13 <= r <= 15 -> strength w (Z.to_nat (r - f)) = Sm r).
    { intros r Hr. rewrite St by lia. replace (f + Z.of_nat (Z.to_nat (r - f))) with r by lia.
      destruct (Z.eqb_spec (D (t + r)) 0) as [C|_]; [destruct (Ng r Hr C)|reflexivity]. }
    destruct (exists_dominant w (Z.to_nat (13 - f)) ltac:(lia)) as (ph & Hd); [rewrite Sg by lia; exact Pos|]. exists ph. split; auto.
    destruct Hd as (Hph & D1 & D2 & D3).
    assert (Max : forall r, 13 <= r <= 15 -> Sm r <= strength w ph).
    { intros r Hr. rewrite <- (Sg r Hr). set (pc := Z.to_nat (r - f)). assert (pc < 8)%nat by (unfold pc; lia).
      destruct (Nat.lt_trichotomy pc ph) as [C|[->|C]]; [specialize (D2 pc C); lia|lia|apply D3; lia]. }
    assert (R : 13 <= f + Z.of_nat ph <= 15).
    { rewrite St in Max, D1 by auto. destruct (D (t + (f + Z.of_nat ph)) =? 0); [lia|].
      pose proof (Max 13 ltac:(lia)). pose proof (Max 14 ltac:(lia)). pose proof (Max 15 ltac:(lia)).
      set (r := f + Z.of_nat ph) in *. assert (9 <= r <= 20) by (unfold r; lia).
      destruct (Z_le_gt_dec r 12); [pose proof (Sm_low r ltac:(lia)); lia|].
      destruct (Z_le_gt_dec 17 r); [pose proof (Sm_high r ltac:(lia)); lia|].
      destruct (Z.eq_dec r 16) as [E|]; [rewrite E in *; pose proof Sm_16; lia|lia]. }
    apply frame_ok_sgn. unfold w. rewrite c_symbols by auto. rewrite map_map.
    replace (map _ _) with l; [exact Fr|].
    apply list_ext0; [rewrite map_length, seq_length; apply (sf_len _ Hl)|]. intros i.
    destruct (Nat.lt_ge_cases i 11) as [L|L].
    - symmetry. etransitivity.
      + apply (nth_indep _ 0 (Z.sgn (D (t + 16 * Z.of_nat 0 + (f + Z.of_nat ph))))). rewrite map_length, seq_length; auto.
      + rewrite (map_nth (fun x => Z.sgn (D (t + 16 * Z.of_nat x + (f + Z.of_nat ph))))), seq_nth by auto. cbn [Nat.add].
        rewrite d_sgn by lia. rewrite Nat2Z.id. reflexivity.
    - rewrite !nth_overflow; auto; rewrite ?map_length, ?seq_length, ?(sf_len _ Hl); auto.
  Qed.
End C.
