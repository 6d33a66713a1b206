(** P_Slow.v -- packets on a line that is sampled a little too slowly are received (C99). *)
From Verif Require Import Base M_ShiftReg M_Dsp M_Uart M_Pio M_Core1 S_Containers S_Dsp S_Line S_Pio S_Core1 S_Noise S_Slow D_Uart D_Chain D_Core1
  P_Containers P_Dsp P_Uart P_UartRun P_UartErr P_Pio P_PioTc P_Chain P_Core1 P_Core1Chain P_NoiseDet P_NoiseChar P_NoiseRun P_Noise
  P_SlowDet P_SlowChar P_SlowRun.

(** ** Skipped places *)
Definition dropat {A} (q : nat) (l : list A) : list A := firstn q l ++ skipn (S q) l.
Lemma dropat_over {A} (q : nat) (l : list A) : (length l <= q)%nat -> dropat q l = l.
Proof. intros H. unfold dropat. rewrite firstn_all2, skipn_all2 by lia. apply app_nil_r. Qed.
Lemma dropat_nth q (l : list Z) : forall k, nth k (dropat q l) 0 = if (k <? q)%nat then nth k l 0 else nth (S k) l 0.
Proof.
  revert q; induction l as [|a l IH]; intros q k.
  - unfold dropat. rewrite firstn_nil, skipn_nil. destruct (k <? q)%nat, k; reflexivity.
  - destruct q as [|q]; [reflexivity|]. destruct k as [|k]; [reflexivity|].
    change (dropat (S q) (a :: l)) with (a :: dropat q l). cbn [nth]. rewrite IH. reflexivity.
Qed.
Lemma dropat_length {A} q (l : list A) : length (dropat q l) = if (q <? length l)%nat then pred (length l) else length l.
Proof.
  unfold dropat. rewrite app_length, firstn_length, skipn_length. destruct (Nat.ltb_spec q (length l)); lia.
Qed.
Lemma dropat_map {A B} (f : A -> B) q l : map f (dropat q l) = dropat q (map f l).
Proof. unfold dropat. rewrite map_app, firstn_map, skipn_map. reflexivity. Qed.

Lemma thinned_same n ws vs : thinned n ws vs -> (length ws <= n)%nat -> vs = ws.
Proof.
  induction 1 as [n|n w ws vs H IH|w ws vs H IH]; cbn [length]; intros L; [reflexivity| |lia]. rewrite IH; [reflexivity|lia].
Qed.
Lemma thinned_one n ws vs : thinned n ws vs -> (length ws <= 175)%nat -> exists q, vs = dropat q ws.
Proof.
  induction 1 as [n|n w ws vs H IH|w ws vs H IH]; cbn [length]; intros L.
  - exists 0%nat. reflexivity.
  - destruct IH as (q & ->); [lia|]. exists (S q). reflexivity.
  - exists 0%nat. apply thinned_same in H; [subst; reflexivity|lia].
Qed.
Lemma thinned_app a b : forall n vs, thinned n (a ++ b) vs -> exists m v1 v2, vs = v1 ++ v2 /\ thinned n a v1 /\ thinned m b v2.
Proof.
  induction a as [|w a IH]; intros n vs H; cbn [app] in H.
  - exists n, [], vs. split; [reflexivity|]. split; [constructor|exact H].
  - inversion H as [|? ? ? vs' H'|? ? ? H']; subst; destruct (IH _ _ H') as (m & v1 & v2 & -> & H1 & H2).
    + exists m, (w :: v1), v2. split; [reflexivity|]. split; [constructor; auto|auto].
    + exists m, v1, v2. split; [reflexivity|]. split; [constructor; auto|auto].
Qed.
Lemma thinned_zeros n g vs : thinned n (repeat 0 g) vs -> exists g', vs = repeat 0 g' /\ (g' <= g)%nat.
Proof.
  revert n vs; induction g as [|g IH]; intros n vs H; cbn [repeat] in H.
  - inversion H; subst. exists 0%nat. auto.
  - inversion H as [|? ? ? vs' H'|? ? ? H']; subst; destruct (IH _ _ H') as (g' & -> & L).
    + exists (S g'). split; [reflexivity|lia].
    + exists g'. split; [reflexivity|lia].
Qed.

(** ** A character with one place skipped *)
Definition cw (sg b : Z) (q : nat) : list Z := dropat q (map (Z.mul sg) (char_wave_short b)).
Definition Wv (sg b : Z) (e : Z) : Z := if (0 <=? e) && (e <? 175) then nth (Z.to_nat e) (map (Z.mul sg) (char_wave_short b)) 0 else 0.
Definition Xv (sg b : Z) (q e : Z) : Z := if e <? q then Wv sg b e else Wv sg b (e + 1).
Lemma Wv_s sg b m e : sgn1 sg -> 0 <= b < 256 -> 0 <= m <= 10 -> 16 * m <= e < 16 * m + 8 -> Wv sg b e = nth (Z.to_nat m) (sy sg b) 0.
Proof.
  intros Hs Hb Hm He. destruct (wave_ok sg b Hs Hb) as [_ _ _ _ _ WN]. unfold Wv.
  destruct (Z.leb_spec 0 e), (Z.ltb_spec e 175); try lia. cbn [andb]. rewrite WN by lia.
  replace (Nat.modulo (Z.to_nat e) 16) with (Z.to_nat (e - 16 * m)) by (apply Nat.mod_unique with (q := Z.to_nat m); lia).
  replace (Nat.div (Z.to_nat e) 16) with (Z.to_nat m) by (apply Nat.div_unique with (r := Z.to_nat (e - 16 * m)); lia).
  destruct (Nat.ltb_spec (Z.to_nat (e - 16 * m)) 8); [reflexivity|lia].
Qed.
Lemma Wv_z sg b m e : sgn1 sg -> 0 <= b < 256 -> 16 * m - 8 <= e < 16 * m -> Wv sg b e = 0.
Proof.
  intros Hs Hb He. destruct (wave_ok sg b Hs Hb) as [_ _ _ _ _ WN]. unfold Wv.
  destruct (Z.leb_spec 0 e), (Z.ltb_spec e 175); try reflexivity. cbn [andb]. rewrite WN by lia.
  replace (Nat.modulo (Z.to_nat e) 16) with (Z.to_nat (e - 16 * (m - 1))) by (apply Nat.mod_unique with (q := Z.to_nat (m - 1)); lia).
  destruct (Nat.ltb_spec (Z.to_nat (e - 16 * (m - 1))) 8); [lia|reflexivity].
Qed.
Lemma Wv_neg sg b e : e < 0 -> Wv sg b e = 0.
Proof. intros H. unfold Wv. destruct (Z.leb_spec 0 e); [lia|reflexivity]. Qed.
Lemma Wv_over sg b e : 175 <= e -> Wv sg b e = 0.
Proof. intros H. unfold Wv. destruct (Z.ltb_spec e 175); [lia|]. rewrite andb_false_r. reflexivity. Qed.
Lemma Xv_nth sg b q k : sgn1 sg -> 0 <= b < 256 -> nth k (cw sg b q) 0 = Xv sg b (Z.of_nat q) (Z.of_nat k).
Proof.
  intros Hs Hb. destruct (wave_ok sg b Hs Hb) as [_ _ _ _ WL _]. unfold cw. rewrite dropat_nth. unfold Xv.
  assert (E : forall i, nth i (map (Z.mul sg) (char_wave_short b)) 0 = Wv sg b (Z.of_nat i)).
  { intros i. unfold Wv. destruct (Z.leb_spec 0 (Z.of_nat i)); [|lia]. destruct (Z.ltb_spec (Z.of_nat i) 175); cbn [andb].
    - rewrite Nat2Z.id. reflexivity.
    - apply nth_overflow. lia. }
  rewrite !E. destruct (Nat.ltb_spec k q), (Z.ltb_spec (Z.of_nat k) (Z.of_nat q)); try (exfalso; lia); [reflexivity|]. f_equal. lia.
Qed.
Lemma Xv_neg sg b q e : sgn1 sg -> 0 <= b < 256 -> 0 <= q -> e < 0 -> Xv sg b q e = 0.
Proof.
  intros Hs Hb Hq H. unfold Xv. destruct (Z.ltb_spec e q); [|lia]. apply Wv_neg; auto.
Qed.
Lemma cw_len sg b q : sgn1 sg -> 0 <= b < 256 -> length (cw sg b q) = if (q <? 175)%nat then 174%nat else 175%nat.
Proof. intros Hs Hb. unfold cw. rewrite dropat_length. rewrite (wf_len _ _ _ (wave_ok sg b Hs Hb)). reflexivity. Qed.

Section One.
  Variables sg b : Z.
  Variable q : nat.
  Hypothesis Hs : sgn1 sg.
  Hypothesis Hb : 0 <= b < 256.
  Notation W := (Wv sg b).
  Notation X := (Xv sg b (Z.of_nat q)).
  Notation s m := (nth (Z.to_nat m) (sy sg b) 0).
  Lemma Ws m e : 0 <= m <= 10 -> 16 * m <= e < 16 * m + 8 -> W e = s m. Proof using Hs Hb. apply Wv_s; auto. Qed.
  Lemma Wz m e : 16 * m - 8 <= e < 16 * m -> W e = 0. Proof using Hs Hb. apply Wv_z; auto. Qed.
  (** Each place belongs to a symbol. *)
  Lemma place e : 0 <= e < 176 -> exists m, 0 <= m <= 10 /\ 16 * m <= e < 16 * m + 16.
  Proof using. intros He. exists (e / 16). pose proof (Z.div_mod e 16 ltac:(lia)). pose proof (Z.mod_pos_bound e 16 ltac:(lia)). lia. Qed.
  Ltac valX := unfold Xv; repeat match goal with |- context [?a <? ?c] => destruct (Z.ltb_spec a c); try (exfalso; lia) end.
  Ltac knownW m := repeat match goal with
    | |- context [Wv sg b ?e] => first [ rewrite (Ws m e) by lia | rewrite (Wz m e) by lia | rewrite (Wz (m + 1) e) by lia
                                | rewrite (Wv_neg sg b e) by lia | rewrite (Wv_over sg b e) by lia | rewrite (Ws (m + 1) e) by lia ] end.
  Lemma X_gapped e : 0 <= e -> X e = 0 \/ X e = X (e - 1) \/ (X (e - 1) = 0 /\ X (e - 2) = 0).
  Proof using Hs Hb.
    intros He. destruct (Z_lt_ge_dec e 175) as [L|L].
    - destruct (place e ltac:(lia)) as (m & Hm & B).
      destruct (Z_le_gt_dec (16 * m + 8) e); [destruct (Z_lt_ge_dec e (16 * m + 15)); [valX; knownW m; auto|valX; knownW m; auto]|].
      destruct (Z.eq_dec e (16 * m)) as [->|]; [valX; knownW m; auto|].
      destruct (Z.eq_dec e (16 * m + 7)) as [->|]; [valX; knownW m; auto|]. valX; knownW m; auto.
    - left. valX; apply Wv_over; lia.
  Qed.
  Lemma X_end e : 168 <= e -> X e = 0.
  Proof using Hs Hb. intros He. destruct (Z_lt_ge_dec e 175); [valX; apply (Wz 11); lia|valX; apply Wv_over; lia]. Qed.
  Lemma X_unit e : 0 <= e -> X e = 0 \/ sgn1 (X e).
  Proof using Hs Hb.
    assert (U : forall e, W e = 0 \/ sgn1 (W e)).
    { intros e'. destruct (Z_lt_ge_dec e' 0); [left; apply Wv_neg; auto|]. destruct (Z_lt_ge_dec e' 175); [|left; apply Wv_over; lia].
      destruct (place e' ltac:(lia)) as (m & Hm & B). destruct (Z_le_gt_dec (16 * m + 8) e'); [left; apply (Wz (m + 1)); lia|].
      rewrite (Ws m) by lia. apply (sf_unit _ (sy_ok sg b Hs Hb)). }
    intros He. valX; apply U.
  Qed.

  (** ** The character at the bit detector *)
  Variables P Q Ef : Z.
  Variable z : Z -> Z.
  Variable t : Z.
  Hypothesis HP0 : 0 <= P.
  Hypothesis HQ : 61 <= Q.
  Hypothesis Hl : lead z t.
  Hypothesis HF : forall k, 0 <= k < (if (q <? 175)%nat then 174 else 175) -> withinE 61 P Q (X (k - 1)) (X k) (z (t + k)).
  Hypothesis HFl : forall k, 0 <= k < (if (q <? 175)%nat then 174 else 175) -> X k = 0 -> X (k - 1) * z (t + k) <= Ef.
  Lemma drop k : 0 <= k < 174 -> X k = 0 -> X (k - 1) * z (t + k) <= Ef.
  Proof using HFl. intros Hk. apply HFl. clear - Hk. destruct (q <? 175)%nat; lia. Qed.
  Lemma look k : 0 <= k < 174 -> withinE 61 P Q (X (k - 1)) (X k) (z (t + k)).
  Proof using HF. intros Hk. apply HF. clear - Hk. destruct (q <? 175)%nat; lia. Qed.
  Ltac zero_at m k := let L := fresh "L" in pose proof (look k ltac:(lia)) as L; revert L; valX; knownW m; unfold withinE; cbn [Z.eqb]; intros L.
  Lemma unit_small (u v : Z) : u = 0 \/ sgn1 u -> small v -> small (u * v).
  Proof using. unfold sgn1, small. intros [->|[->| ->]] H; lia. Qed.
  Ltac su := match goal with SU : ?u = 0 \/ sgn1 ?u, Ns : ?u <> 0 |- _ => revert SU Ns; generalize u; let v := fresh "u" in intros v SU Ns; unfold sgn1, small in *;
     destruct SU as [->|[->| ->]]; [easy| |]; cbn [Z.eqb]; intros; lia end.
  Definition Mq : Z := if (q <? 175)%nat then Z.of_nat q / 16 else 10.
  (** Behind a pulse: nothing, or a pulse the other way. *)
  Lemma near m k : 0 <= m <= 9 -> s m <> 0 -> 16 * m + 15 <= k <= 16 * m + 21 -> - Q <= s m * z (t + k) <= 61.
  Proof using Hs Hb HP0 HQ HF.
    intros Hm Ns Hk. pose proof (sy_ok sg b Hs Hb) as SF.
    assert (V : forall e, 16 * m + 8 <= e <= 16 * m + 23 -> W e = 0 \/ W e = - s m).
    { intros e He. destruct (Z_lt_ge_dec e (16 * m + 16)); [left; apply (Wz (m + 1)); lia|]. rewrite (Ws (m + 1)) by lia.
      pose proof (sf_alt _ SF (Z.to_nat m) ltac:(lia) Ns) as A. replace (S (Z.to_nat m)) with (Z.to_nat (m + 1)) in A by lia. exact A. }
    pose proof (look k ltac:(lia)) as L. pose proof (sf_unit _ SF (Z.to_nat m)) as SU.
    assert (V1 : X k = 0 \/ X k = - s m) by (valX; apply V; lia).
    assert (V2 : X (k - 1) = 0 \/ X (k - 1) = - s m) by (valX; apply V; lia).
    revert L V1 V2. generalize (X k), (X (k - 1)). intros x y L V1 V2.
    revert SU Ns V1 V2. generalize (s m). intros u SU Ns V1 V2. unfold withinE, sgn1 in *.
    destruct SU as [->|[->| ->]]; [easy| |]; destruct V1 as [->| ->], V2 as [->| ->]; cbn [Z.eqb Z.opp] in L; lia.
  Qed.
  Lemma char_slow : slowchar P Q Ef (sy sg b) z t Mq.
  Proof using Hs Hb HP0 HQ Hl HF HFl.
    pose proof (sy_ok sg b Hs Hb) as SF.
    assert (HM : 0 <= Mq) by (unfold Mq; destruct (q <? 175)%nat; [apply Z.div_pos; lia|lia]).
    assert (MA : forall m, 0 <= m <= 9 -> m <= Mq -> 16 * m <= Z.of_nat q).
    { intros m Hm. unfold Mq. destruct (Nat.ltb_spec q 175); [|lia]. pose proof (Z.div_mod (Z.of_nat q) 16 ltac:(lia)).
      pose proof (Z.mod_pos_bound (Z.of_nat q) 16 ltac:(lia)). lia. }
    assert (MB : forall m, 0 <= m <= 9 -> Mq < m -> Z.of_nat q < 16 * m).
    { intros m Hm. unfold Mq. destruct (Nat.ltb_spec q 175); [|lia]. pose proof (Z.div_mod (Z.of_nat q) 16 ltac:(lia)).
      pose proof (Z.mod_pos_bound (Z.of_nat q) 16 ltac:(lia)). lia. }
    assert (US : forall m, s m = 0 \/ sgn1 (s m)) by (intros m; apply (sf_unit _ SF)).
    constructor; auto.
    - intros m Hm HMm Ns. pose proof (US m) as SU. specialize (MA m Hm HMm). clear MB. constructor.
      + intros k Hk. destruct (Z_le_gt_dec 0 (16 * m + k)); [|apply unit_small; [exact SU|apply Hl; lia]].
        replace (t + 16 * m + k) with (t + (16 * m + k)) by lia. zero_at m (16 * m + k); (apply unit_small; [exact SU|exact L]).
      + replace (t + 16 * m + 0) with (t + (16 * m)) by lia. zero_at m (16 * m); revert L; su.
      + intros k Hk. replace (t + 16 * m + k) with (t + (16 * m + k)) by lia. zero_at m (16 * m + k); revert L; su.
      + replace (t + 16 * m + 7) with (t + (16 * m + 7)) by lia. replace (t + 16 * m + 8) with (t + (16 * m + 8)) by lia.
        destruct (Z_le_gt_dec (16 * m + 8) (Z.of_nat q)); [left|right]; (split; [zero_at m (16 * m + 7); revert L; su|]); [|zero_at m (16 * m + 8); revert L; su].
        assert (E0 : X (16 * m + 8) = 0) by (valX; apply (Wz (m + 1)); lia).
        assert (E1 : X (16 * m + 8 - 1) = s m) by (valX; apply (Ws m); lia).
        pose proof (drop (16 * m + 8) ltac:(lia) E0) as L1. rewrite E1 in L1.
        split; [|exact L1]. zero_at m (16 * m + 8); revert L; su.
      + intros k Hk. replace (t + 16 * m + k) with (t + (16 * m + k)) by lia. zero_at m (16 * m + k); (apply unit_small; [exact SU|exact L]).
      + intros k Hk. replace (t + 16 * m + k) with (t + (16 * m + k)) by lia. apply (near m _ Hm Ns); lia.
    - intros m Hm HMm Ns. pose proof (US m) as SU. specialize (MB m Hm HMm). clear MA. constructor.
      + intros k Hk. replace (t + 16 * m - 1 + k) with (t + (16 * m - 1 + k)) by lia. zero_at m (16 * m - 1 + k); (apply unit_small; [exact SU|exact L]).
      + replace (t + 16 * m - 1 + 0) with (t + (16 * m - 1)) by lia. zero_at m (16 * m - 1); revert L; su.
      + intros k Hk. replace (t + 16 * m - 1 + k) with (t + (16 * m - 1 + k)) by lia. zero_at m (16 * m - 1 + k); revert L; su.
      + replace (t + 16 * m - 1 + 8) with (t + (16 * m - 1 + 8)) by lia. zero_at m (16 * m - 1 + 8); revert L; su.
      + intros k Hk. replace (t + 16 * m - 1 + k) with (t + (16 * m - 1 + k)) by lia. zero_at m (16 * m - 1 + k); (apply unit_small; [exact SU|exact L]).
      + intros k Hk. replace (t + 16 * m - 1 + k) with (t + (16 * m - 1 + k)) by lia. apply (near m _ Hm Ns); lia.
    - intros m k Hm E Hk. assert (N0 : 1 <= m).
      { destruct (Z.eq_dec m 0) as [->|]; [|lia]. destruct (sf_start _ SF). exact E. }
      replace (t + 16 * m + k) with (t + (16 * m + k)) by lia. unfold small.
      assert (V : forall e, 16 * m - 7 <= e <= 16 * m + 14 -> W e = 0).
      { intros e He. destruct (Z_lt_ge_dec e (16 * m)); [apply (Wz m); lia|]. destruct (Z_lt_ge_dec e (16 * m + 8)); [rewrite (Ws m) by lia; exact E|apply (Wz (m + 1)); lia]. }
      pose proof (look (16 * m + k) ltac:(lia)) as L. revert L. valX; rewrite !V by lia; cbn [withinE Z.eqb]; unfold withinE; cbn [Z.eqb]; auto.
  Qed.
  Lemma tail_quiet k : 153 <= k < (if (q <? 175)%nat then 174 else 175) -> small (z (t + k)).
  Proof using Hs Hb HF.
    clear HFl. intros Hk. pose proof (sf_stop _ (sy_ok sg b Hs Hb)) as E.
    assert (V : forall e, 152 <= e -> W e = 0).
    { intros e He. destruct (Z_lt_ge_dec e 160); [apply (Wz 10); lia|]. destruct (Z_lt_ge_dec e 168); [rewrite (Ws 10) by lia; exact E|].
      destruct (Z_lt_ge_dec e 176); [apply (Wz 11); lia|apply Wv_over; lia]. }
    pose proof (HF k ltac:(destruct (q <? 175)%nat; lia)) as L. revert L. valX; rewrite !V by lia; unfold withinE; cbn [Z.eqb]; auto.
  Qed.
End One.

(** ** The slowly sampled line without disturbance *)
Definition qch : Set := nat * Z * nat.
Definition qc_gap (c : qch) : nat := fst (fst c).
Definition qc_byte (c : qch) : Z := snd (fst c).
Fixpoint sw (sg : Z) (cs : list qch) : list Z :=
  match cs with [] => [] | (g, b, q) :: r => repeat 0 g ++ cw sg b q ++ sw sg r end.
Lemma thinned_waves sg cs : forall n vs, bytes_ok cs -> thinned n (waves cs) vs ->
  exists ds, map (Z.mul sg) vs = sw sg ds /\ map qc_byte ds = map snd cs /\ Forall2 (fun d c => (qc_gap d <= fst c)%nat) ds cs.
Proof.
  induction cs as [|[g b] r IH]; intros n vs Hb H; cbn [waves] in H.
  - inversion H; subst. exists []. split; [reflexivity|]. split; [reflexivity|constructor].
  - inversion Hb as [|? ? B1 B2]; subst. cbn [snd] in B1.
    apply thinned_app in H as (m & v1 & v2 & -> & H1 & H2). apply thinned_app in H2 as (m' & v3 & v4 & -> & H3 & H4).
    apply thinned_zeros in H1 as (g' & -> & Hg).
    apply thinned_one in H3 as (q & ->).
    2:{ pose proof (wf_len _ _ _ (wave_ok 1 b (or_introl eq_refl) B1)) as L. rewrite map_length in L. lia. }
    destruct (IH _ _ B2 H4) as (ds & E & M & F). exists ((g', b, q) :: ds). split; [|split].
    + cbn [sw]. rewrite !map_app, zeros_scale, dropat_map, E. reflexivity.
    + cbn [map]. f_equal. exact M.
    + constructor; auto.
Qed.
Lemma gapped_nth ws : forall pp p, (forall k, (k < length ws)%nat -> nth k ws 0 = 0 \/ nth k ws 0 = nth k (p :: ws) 0 \/
    (nth k (p :: ws) 0 = 0 /\ nth k (pp :: p :: ws) 0 = 0)) -> gapped pp p ws = true.
Proof.
  induction ws as [|w wt IH]; intros pp p H; [reflexivity|]. cbn [gapped]. rewrite IH.
  - pose proof (H 0%nat ltac:(cbn; lia)) as K. cbn [nth] in K. destruct K as [->|[->|(-> & ->)]]; rewrite ?Z.eqb_refl; rewrite ?orb_true_r; reflexivity.
  - intros k Hk. specialize (H (S k) ltac:(cbn [length]; lia)). exact H.
Qed.
Lemma fin_nth ws : forall pp p, fin pp p ws = (nth (length ws) (pp :: p :: ws) 0, nth (length ws) (p :: ws) 0).
Proof. induction ws as [|w wt IH]; intros pp p; [reflexivity|]. cbn [fin length]. rewrite IH. reflexivity. Qed.
Lemma nth_pre0 (l : list Z) f k : (forall k, nth k l 0 = f (Z.of_nat k)) -> f (-1) = 0 -> nth k (0 :: l) 0 = f (Z.of_nat k - 1).
Proof. intros H H0. destruct k as [|k]; [symmetry; exact H0|]. cbn [nth]. rewrite H. f_equal. lia. Qed.
Lemma cw_shape sg b q : sgn1 sg -> 0 <= b < 256 ->
  gapped 0 0 (cw sg b q) = true /\ fin 0 0 (cw sg b q) = (0, 0) /\ units (cw sg b q) /\ last (cw sg b q) 0 = 0.
Proof.
  intros Hs Hb. set (X := Xv sg b (Z.of_nat q)).
  assert (N : forall k, nth k (cw sg b q) 0 = X (Z.of_nat k)) by (intros k; apply Xv_nth; auto).
  assert (XN : forall e, e < 0 -> X e = 0) by (intros e He; apply Xv_neg; auto; lia).
  assert (N1 : forall k, nth k (0 :: cw sg b q) 0 = X (Z.of_nat k - 1)) by (intros k; apply nth_pre0; auto; apply XN; lia).
  assert (N2 : forall k, nth k (0 :: 0 :: cw sg b q) 0 = X (Z.of_nat k - 2)).
  { intros k. destruct k as [|k]; [symmetry; apply XN; lia|]. change (nth (S k) (0 :: 0 :: cw sg b q) 0) with (nth k (0 :: cw sg b q) 0).
    rewrite N1. f_equal. lia. }
  pose proof (cw_len sg b q Hs Hb) as L.
  assert (F : fin 0 0 (cw sg b q) = (0, 0)).
  { rewrite fin_nth, N1, N2, L. unfold X. rewrite !X_end; auto; destruct (q <? 175)%nat; lia. }
  split; [|split; [exact F|split]].
  - apply gapped_nth. intros k Hk. rewrite N, N1, N2. apply X_gapped; auto; lia.
  - apply Forall_forall. intros x Hx. apply In_nth with (d := 0) in Hx as (k & Hk & <-). rewrite N. apply X_unit; auto; lia.
  - assert (G : forall l p, last l p = snd (fin 0 p l)).
    { assert (G0 : forall l pp p, last l p = snd (fin pp p l)).
      { induction l as [|a l IH]; intros pp p; [reflexivity|]. rewrite last_cons. cbn [fin]. apply IH. }
      intros; apply G0. }
    rewrite G, F. reflexivity.
Qed.
Definition qbytes (ds : list qch) : Prop := Forall (fun d => 0 <= qc_byte d < 256) ds.
Lemma units_zeros g : units (repeat 0 g).
Proof. induction g; constructor; auto. Qed.
Lemma sw_shape sg ds : sgn1 sg -> qbytes ds ->
  gapped 0 0 (sw sg ds) = true /\ fin 0 0 (sw sg ds) = (0, 0) /\ units (sw sg ds).
Proof.
  intros Hs. induction ds as [|[[g b] q] t IH]; intros Hb; [split; [reflexivity|split; [reflexivity|constructor]]|].
  inversion Hb as [|? ? B1 B2]; subst. cbn in B1. destruct (IH B2) as (G & F & U). cbn [sw].
  destruct (cw_shape sg b q Hs B1) as (W1 & W2 & W3 & _). destruct (zeros_fin g) as (Z1 & Z2).
  split; [|split].
  - rewrite gapped_app, Z1, Z2. cbn [fst snd andb]. rewrite gapped_app, W1, W2. exact G.
  - rewrite fin_app, Z1. cbn [fst snd]. rewrite fin_app, W2. exact F.
  - apply Forall_app. split; [apply units_zeros|]. apply Forall_app. split; auto.
Qed.

(** ** The slowly sampled line at the bit detector *)
Lemma char_facts P Q sg b q z t zs : sgn1 sg -> 0 <= b < 256 -> followsE 61 P Q 0 (cw sg b q) zs -> agree z t zs ->
  forall k, 0 <= k < (if (q <? 175)%nat then 174 else 175) ->
  withinE 61 P Q (Xv sg b (Z.of_nat q) (k - 1)) (Xv sg b (Z.of_nat q) k) (z (t + k)).
Proof.
  intros Hs Hb F A k Hk. pose proof (followsE_length _ _ _ _ _ _ F) as L. rewrite cw_len in L by auto.
  assert (Lk : (Z.to_nat k < length (cw sg b q))%nat) by (rewrite cw_len by auto; destruct (q <? 175)%nat; lia).
  pose proof (followsE_nth _ _ _ _ _ _ (Z.to_nat k) F Lk) as W.
  rewrite (nth_pre0 _ (Xv sg b (Z.of_nat q)) _ (fun k => Xv_nth sg b q k Hs Hb) (Xv_neg sg b (Z.of_nat q) (-1) Hs Hb ltac:(lia) ltac:(lia))) in W.
  rewrite cw_len in Lk by auto. pose proof (A (Z.to_nat k) ltac:(lia)) as EA. rewrite Xv_nth in W by auto. rewrite <- EA, Z2Nat.id in W by lia. exact W.
Qed.
Definition bnd (z : Z -> Z) (e : Z) : Prop := forall i, e <= i -> -4681 <= z i <= 4681.
Lemma falls_app E a b x y : length a = length x -> forall p, falls E p (a ++ b) (x ++ y) -> falls E p a x /\ falls E (last a p) b y.
Proof.
  revert x. induction a as [|w a IH]; intros [|v x] L p H; try discriminate; [split; [exact I|exact H]|].
  cbn [app falls] in *. destruct H as (H1 & H2). destruct (IH x ltac:(cbn in L; lia) w H2) as (A & B).
  split; [split; auto|]. rewrite last_cons. exact B.
Qed.
Lemma falls_nth E ws : forall p ys k, falls E p ws ys -> (k < length ws)%nat -> (k < length ys)%nat -> nth k ws 0 = 0 -> nth k (p :: ws) 0 * nth k ys 0 <= E.
Proof.
  induction ws as [|w ws IH]; intros p [|y ys] k H L1 L2 Z0; try (cbn in *; lia). destruct H as (H1 & H2). destruct k as [|k]; [apply H1, Z0|].
  exact (IH w ys k H2 ltac:(cbn in *; lia) ltac:(cbn in *; lia) Z0).
Qed.
Lemma follows_falls P Q ws : 0 <= Q -> forall p ys, follows P Q p ws ys -> falls Q p ws ys.
Proof.
  intros HQ. induction ws as [|w ws IH]; intros p [|y ys] H; cbn [follows falls] in *; auto. destruct H as (H1 & H2). split; [|auto].
  intros ->. unfold within in H1. cbn [Z.eqb] in H1. destruct (Z.eqb_spec p 0); [subst; lia|lia].
Qed.
Lemma level_falls E ws : 1 <= E -> forall p st ys st' zs, (p = 0 \/ sgn1 p) -> units ws -> mrun (lv_update (fun z => z)) st ys = Ok (st', zs) -> falls E p ws ys -> falls E p ws zs.
Proof.
  intros HE. induction ws as [|w ws IH]; intros p st ys st' zs Up U R H; [exact I|]. destruct ys as [|y ys]; [injection R as _ <-; exact I|].
  cbn [mrun] in R. destruct (lv_update (fun z => z) st y) as [[s1 z]|] eqn:E1; cbn [bind] in R; [|discriminate].
  destruct (mrun (lv_update (fun z => z)) s1 ys) as [[s2 zs']|] eqn:E2; cbn [bind] in R; [|discriminate]. injection R as _ <-.
  inversion U as [|? ? U1 U2]; subst. destruct H as (H1 & H2). split; [|eapply IH; eauto]. intros W. specialize (H1 W).
  assert (Ez : z = y \/ z = y * 26 / 256).
  { unfold lv_update in E1. destruct (lv_next st y =? 0).
    - destruct (chk32 (y * 26)) eqn:C; cbn [bind] in E1; [|discriminate]. injection E1 as _ <-. right. unfold chk32 in C.
      match type of C with (if ?c then _ else _) = _ => destruct c; [|discriminate] end. injection C as <-. apply asr8.
    - injection E1 as _ <-. auto. }
  destruct Ez as [->| ->]; [exact H1|]. pose proof (Z.div_mod (y * 26) 256 ltac:(lia)). pose proof (Z.mod_pos_bound (y * 26) 256 ltac:(lia)).
  unfold sgn1 in Up. destruct Up as [->|[->| ->]]; lia.
Qed.
Lemma char_falls E sg b q z t zs : sgn1 sg -> 0 <= b < 256 -> falls E 0 (cw sg b q) zs -> length zs = length (cw sg b q) -> agree z t zs ->
  forall k, 0 <= k < (if (q <? 175)%nat then 174 else 175) -> Xv sg b (Z.of_nat q) k = 0 -> Xv sg b (Z.of_nat q) (k - 1) * z (t + k) <= E.
Proof.
  intros Hs Hb F L A k Hk X0.
  assert (Lk : (Z.to_nat k < length (cw sg b q))%nat) by (rewrite cw_len by auto; destruct (q <? 175)%nat; lia).
  pose proof (falls_nth E _ 0 zs (Z.to_nat k) F Lk ltac:(lia)) as W. rewrite Xv_nth in W by auto.
  rewrite (nth_pre0 _ (Xv sg b (Z.of_nat q)) _ (fun k => Xv_nth sg b q k Hs Hb) (Xv_neg sg b (Z.of_nat q) (-1) Hs Hb ltac:(lia) ltac:(lia))) in W.
  pose proof (A (Z.to_nat k) ltac:(lia)) as EA. rewrite <- EA, Z2Nat.id in W by lia. exact (W X0).
Qed.
Definition qlen (q : nat) : Z := if (q <? 175)%nat then 174 else 175.
Lemma small_zeros P Q g zs z e : followsE 61 P Q 0 (repeat 0 g) zs -> agree z e zs -> forall i, e <= i < e + Z.of_nat g -> small (z i).
Proof.
  intros F A i Hi. pose proof (followsE_length _ _ _ _ _ _ F) as L. rewrite repeat_length in L.
  apply follows_zeros in F. rewrite Forall_forall in F. apply F.
  replace i with (e + Z.of_nat (Z.to_nat (i - e))) by lia. rewrite A by lia. apply nth_In. lia.
Qed.
Lemma char_tail P Q sg b q z t zs : sgn1 sg -> 0 <= b < 256 -> followsE 61 P Q 0 (cw sg b q) zs -> agree z t zs -> 
  forall k, 153 <= k < qlen q -> small (z (t + k)).
Proof.
  intros Hs Hb F A k Hk. eapply (tail_quiet sg b q Hs Hb P Q z t); [|exact Hk]. eapply char_facts; eauto.
Qed.
Lemma char_ch P Q Ef sg b q z t zs : sgn1 sg -> 0 <= b < 256 -> clear_fall P Q Ef -> followsE 61 P Q 0 (cw sg b q) zs -> falls Ef 0 (cw sg b q) zs -> agree z t zs -> lead z t ->
  bnd z t -> det z (t + qlen q + 8) = 0 -> exists f, ch_ok (det z) t b f.
Proof.
  intros Hs Hb (HP & HR & HQ & HE & HS) F Fl A Hl Bz Hn. pose proof (sy_ok sg b Hs Hb) as SF.
  assert (SC : slowchar P Q Ef (sy sg b) z t (Mq q)).
  { apply char_slow; auto; try lia; [eapply char_facts; eauto|eapply char_falls; eauto]. eapply followsE_length; eauto. }
  assert (HE' : 0 <= Ef <= Q) by lia.
  destruct (d_first P Q Ef _ z t _ ltac:(lia) HR HE' HS SF Hl SC) as (f & Ff & Nf & Zf). exists f. constructor; auto.
  - intros i Hi. unfold qlen in Hn. destruct (Z.eq_dec i 182) as [->|].
    + destruct (q <? 175)%nat eqn:Eq; [replace (t + 182) with (t + 174 + 8) by lia; exact Hn|].
      apply det_nothing. intros j Hj. replace j with (t + (j - t)) by lia. eapply char_tail; eauto. unfold qlen. rewrite Eq. lia.
    + apply det_nothing. intros j Hj. replace j with (t + (j - t)) by lia. eapply char_tail; eauto. unfold qlen. destruct (q <? 175)%nat; lia.
  - intros i Hi. pose proof (det_bound z (t + i) 4681) as DB. enough (Z.abs (det z (t + i)) <= 7 * 4681) by lia. apply DB. intros j Hj.
    destruct (Z_lt_ge_dec j t); [pose proof (Hl j ltac:(lia)) as S0; unfold small in S0; lia|apply Bz; lia].
  - apply (d_frame P Q Ef _ z t _ ltac:(lia) HR HE' HS SF SC f b Ff). apply sy_frame; auto.
Qed.
Lemma det_gap z e t : lead z e -> (forall i, e <= i < t -> small (z i)) -> forall i, e <= i < t -> det z i = 0.
Proof.
  intros L H i Hi. apply det_nothing. intros j Hj. destruct (Z_lt_ge_dec j e); [apply L; lia|apply H; lia].
Qed.
Lemma lead_gap z e t : lead z e -> e <= t -> (forall i, e <= i < t -> small (z i)) -> lead z t.
Proof. intros L Ht H i Hi. destruct (Z_lt_ge_dec i e); [apply L; lia|apply H; lia]. Qed.
Lemma lead_after P Q sg z ds : sgn1 sg -> qbytes ds -> forall e zs, followsE 61 P Q 0 (sw sg ds) zs -> agree z e zs -> lead z e ->
  lead z (e + Z.of_nat (length zs)).
Proof.
  intros Hs. induction ds as [|[[g b] q] r IH]; intros Hb e zs F A L.
  - destruct zs; [|easy]. cbn [length Z.of_nat]. rewrite Z.add_0_r. exact L.
  - inversion Hb as [|? ? B1 B2]; subst. cbn in B1. cbn [sw] in F.
    apply followsE_app in F as (z1 & zs' & -> & F1 & F). rewrite last_zeros in F. apply followsE_app in F as (z2 & z3 & -> & F2 & F3).
    destruct (cw_shape sg b q Hs B1) as (_ & _ & _ & W). rewrite W in F3.
    apply agree_app in A as (A1 & A). apply agree_app in A as (A2 & A3).
    pose proof (followsE_length _ _ _ _ _ _ F2) as L2. rewrite cw_len in L2 by auto.
    assert (L2' : Z.of_nat (length z2) = qlen q) by (rewrite L2; unfold qlen; destruct (q <? 175)%nat; reflexivity).
    rewrite !app_length. replace (e + Z.of_nat (length z1 + (length z2 + length z3))) with (e + Z.of_nat (length z1) + Z.of_nat (length z2) + Z.of_nat (length z3)) by lia.
    apply IH; auto. rewrite L2'. intros i Hi. replace i with (e + Z.of_nat (length z1) + (i - (e + Z.of_nat (length z1)))) by lia.
    eapply char_tail; eauto. unfold qlen in *. destruct (q <? 175)%nat; lia.
Qed.
Lemma placed_pre P Q Ef sg z ds tl : sgn1 sg -> clear_fall P Q Ef -> qbytes ds -> forall e zs, bnd z e ->
  followsE 61 P Q 0 (sw sg ds) zs -> falls Ef 0 (sw sg ds) zs -> agree z e zs -> lead z e ->
  splaced (det z) (e + Z.of_nat (length zs)) tl ->
  exists cs, map sc_byte cs = map qc_byte ds /\ map sc_gap cs = map qc_gap ds /\ splaced (det z) e (cs ++ tl) /\
    send e cs = e + Z.of_nat (length zs).
Proof.
  intros Hs Hc. induction ds as [|[[g b] q] r IH]; intros Hb e zs Bz F Fl A L K.
  - destruct zs; [|easy]. cbn [length Z.of_nat] in K. rewrite Z.add_0_r in K.
    exists []. split; [reflexivity|]. split; [reflexivity|]. split; [exact K|cbn; lia].
  - inversion Hb as [|? ? B1 B2]; subst. cbn in B1. cbn [sw] in F.
    apply followsE_app in F as (z1 & zs' & -> & F1 & F). rewrite last_zeros in F. apply followsE_app in F as (z2 & z3 & -> & F2 & F3).
    destruct (cw_shape sg b q Hs B1) as (_ & _ & _ & W). rewrite W in F3.
    apply agree_app in A as (A1 & A). apply agree_app in A as (A2 & A3).
    pose proof (followsE_length _ _ _ _ _ _ F1) as L1. pose proof (followsE_length _ _ _ _ _ _ F2) as L2.
    cbn [sw] in Fl. apply falls_app in Fl as (_ & Fl); [|symmetry; exact L1]. rewrite last_zeros in Fl. apply falls_app in Fl as (Fl2 & Fl3); [|symmetry; exact L2].
    rewrite W in Fl3. rewrite repeat_length in L1. rewrite cw_len in L2 by auto.
    assert (L2' : Z.of_nat (length z2) = qlen q) by (rewrite L2; unfold qlen; destruct (q <? 175)%nat; reflexivity).
    rewrite L1 in *. rewrite L2' in *. set (t := e + Z.of_nat g) in *.
    assert (Lq : 174 <= qlen q <= 175) by (unfold qlen; destruct (q <? 175)%nat; lia).
    assert (Sz : forall i, e <= i < t -> small (z i)) by (eapply small_zeros; eauto).
    assert (Lt : lead z t) by (apply (lead_gap z e t); auto; unfold t; lia).
    assert (L3 : lead z (t + qlen q)).
    { intros i Hi. replace i with (t + (i - t)) by lia. eapply char_tail; eauto. lia. }
    assert (Ee : e + Z.of_nat (length (z1 ++ z2 ++ z3)) = t + qlen q + Z.of_nat (length z3)).
    { rewrite !app_length, L1. unfold t. lia. }
    rewrite Ee in *.
    assert (Bt : bnd z t) by (intros i Hi; apply Bz; unfold t in Hi; lia). assert (Bt2 : bnd z (t + qlen q)) by (intros i Hi; apply Bt; lia).
    destruct (IH B2 (t + qlen q) z3 Bt2 F3 Fl3 A3 L3 K) as (cs & M1 & M2 & S1 & S2).
    destruct (char_ch P Q Ef sg b q z t z2 Hs B1 Hc F2 Fl2 A2 Lt Bt) as (f & Hf).
    { apply (splaced_early _ _ _ S1); lia. }
    exists (SCH g b f (qlen q) :: cs). cbn [map sc_byte sc_gap]. split; [rewrite M1; reflexivity|]. split; [rewrite M2; reflexivity|].
    cbn [app splaced send sc_byte sc_gap sc_at sc_len]. fold t. split; [|exact S2].
    split; [|split; [exact Hf|split; [exact Lq|exact S1]]].
    apply det_gap; auto.
Qed.
Lemma send_gap cs : forall e x, slens cs -> In x cs -> Z.of_nat (sc_gap x) + 174 * Z.of_nat (length cs) <= send e cs - e.
Proof.
  induction cs as [|c r IH]; intros e x H Hx; [destruct Hx|]. inversion H as [|? ? (H1 & _) H2]; subst. cbn [send length].
  destruct Hx as [->|Hx].
  - pose proof (send_ge r (e + Z.of_nat (sc_gap x) + sc_len x) H2). lia.
  - specialize (IH (e + Z.of_nat (sc_gap c) + sc_len c) x H2 Hx). lia.
Qed.
Lemma slens_app a b : slens (a ++ b) <-> slens a /\ slens b. Proof. apply Forall_app. Qed.

Lemma within_bound P Q ws zs : Q <= 4681 -> 0 <= P -> units ws -> forall p, (p = 0 \/ sgn1 p) -> followsE 61 P Q p ws zs -> bounded 4681 zs.
Proof.
  intros HQ HP. revert zs. induction ws as [|w wt IH]; intros [|y yt] U p Up F; cbn [followsE] in F; try easy; [constructor|].
  destruct F as (F1 & F2). inversion U as [|? ? U1 U2]; subst. constructor; [|eapply IH; eauto].
  unfold withinE, sgn1 in *. destruct U1 as [->|[->| ->]], Up as [->|[->| ->]]; cbn [Z.eqb] in F1; lia.
Qed.
Lemma small_bounded zs : Forall small zs -> bounded 4681 zs.
Proof. intros H. eapply Forall_impl; [|exact H]. unfold small. cbn. intros; lia. Qed.
Lemma agree_small z e zs : agree z e zs -> Forall small zs -> forall i, e <= i < e + Z.of_nat (length zs) -> small (z i).
Proof.
  intros A S i Hi. rewrite Forall_forall in S. apply S. replace i with (e + Z.of_nat (Z.to_nat (i - e))) by lia.
  rewrite A by lia. apply nth_In. lia.
Qed.

Lemma hs_level pkts ys : heard_slow pkts ys -> exists zs n,
  mrun (lv_update (fun z => z)) 0 ys = Ok (0, zs) /\ length zs = length ys /\ bounded 4681 zs /\
  (200 <= n <= length zs)%nat /\ Z.of_nat n < 4294960000 /\
  forall z e, agree z e zs -> bnd z e -> lead z e -> (forall i, e + Z.of_nat (length zs) <= i -> small (z i)) ->
  exists css, map (map sc_byte) css = pkts /\ Forall spacket_ok css /\ sgaps_from 1 (concat css) /\
    splaced (det z) e (concat css) /\ send e (concat css) = e + Z.of_nat (length zs - n).
Proof.
  induction 1 as [ys L1 L2 B|idle b r ys pkts rest G1 G2 GB Hby (sg & P & Q & Ef & n0 & vs & Hs & Hc & Ht & F & Fl & Hlen) H IH].
  - destruct (level_quiet_run ys B) as (zs & E & S & L). exists zs, (length ys). split; [exact E|]. split; [exact L|].
    split; [apply small_bounded; exact S|]. split; [lia|]. split; [exact L2|].
    intros z e A Bz Le T. exists []. split; [reflexivity|]. split; [constructor|]. split; [constructor|]. cbn [concat splaced send].
    rewrite L, Nat.sub_diag. split; [|lia]. intros i Hi. apply det_nothing. intros j Hj.
    destruct (Z_lt_ge_dec j e); [apply Le; lia|]. destruct (Z_lt_ge_dec j (e + Z.of_nat (length zs))); [|apply T; lia].
    apply (agree_small z e zs); auto; lia.
  - destruct IH as (zs & n & E & L & Bd & N1 & N2 & K).
    destruct (level_quiet_run idle GB) as (z0 & E0 & S0 & L0).
    assert (Bk : bytes_ok ((0%nat, b) :: r)).
    { inversion Hby as [|? ? B1 B2]; subst. constructor; [exact B1|]. rewrite Forall_map in B2. exact B2. }
    destruct (thinned_waves sg _ _ _ Bk Ht) as (ds & Ev & Mb & Mg). rewrite Ev in F, Fl.
    assert (Hq : qbytes ds).
    { apply (Forall_map qc_byte (fun x => 0 <= x < 256) ds). rewrite Mb. exact Hby. }
    destruct (sw_shape sg ds Hs Hq) as (G & Fi & U). pose proof Hc as (HP & HR & HQ & HE & _).
    destruct (level_run_E P Q _ HP HQ U 0 0 0 ys (or_introl eq_refl) (or_introl eq_refl) G eq_refl (follows_E _ _ _ _ _ F))
      as (st & z1 & E1 & S1 & F1).
    rewrite Fi in S1. cbn in S1. subst st.
    pose proof (level_falls Ef _ ltac:(lia) 0 0 ys 0 z1 (or_introl eq_refl) U E1 Fl) as Fl1.
    assert (L1 : length z1 = length ys).
    { rewrite (followsE_length _ _ _ _ _ _ F1). symmetry. apply (followsE_length _ _ _ _ _ _ (follows_E _ _ _ _ _ F)). }
    exists (z0 ++ z1 ++ zs), n.
    split; [rewrite mrun_app, E0; cbn [bind]; rewrite mrun_app, E1; cbn [bind]; rewrite E; reflexivity|]. split; [rewrite !app_length; lia|].
    split; [|split; [rewrite !app_length; lia|split; [exact N2|]]].
    + apply bounded_app. split; [apply small_bounded; exact S0|]. apply bounded_app. split; [|exact Bd].
      eapply within_bound with (p := 0); [exact HQ| |exact U|auto|exact F1]. lia.
    + intros z e A Bz Le T. apply agree_app in A as (A0 & A). apply agree_app in A as (A1 & A2).
      set (t := e + Z.of_nat (length z0)) in *.
      assert (Sz : forall i, e <= i < t -> small (z i)) by (apply agree_small with (zs := z0); auto).
      assert (Lt : lead z t) by (apply (lead_gap z e t); auto; unfold t; lia).
      assert (Ll : Z.of_nat (length (z0 ++ z1 ++ zs)) = Z.of_nat (length z0) + Z.of_nat (length z1) + Z.of_nat (length zs)) by (rewrite !app_length; lia).
      pose proof (lead_after P Q sg z ds Hs Hq t z1 F1 A1 Lt) as L3.
      assert (Bt : bnd z t) by (intros i Hi; apply Bz; unfold t in Hi; lia).
      assert (Bt2 : bnd z (t + Z.of_nat (length z1))) by (intros i Hi; apply Bt; lia).
      destruct (K z (t + Z.of_nat (length z1)) A2 Bt2 L3) as (css & M & Ok1 & Ok2 & Sp & Se).
      { intros i Hi. apply T. unfold t in *. lia. }
      destruct (placed_pre P Q Ef sg z ds (concat css) Hs Hc Hq t z1 Bt F1 Fl1 A1 Lt Sp) as (cs & M1 & M2 & S1 & S2).
      destruct ds as [|[[g' b'] q'] dr]; [discriminate Mb|]. cbn [map qc_byte qc_gap fst snd] in *. injection Mb as -> Mb.
      inversion Mg as [|? ? ? ? Mg1 Mg2]; subst. cbn in Mg1. assert (g' = 0%nat) by lia. subst g'.
      destruct cs as [|[g'' b'' f w] cr]; [discriminate M1|]. cbn [map sc_byte sc_gap] in *. injection M1 as -> M1. injection M2 as -> M2.
      assert (SL : slens (SCH 0 b f w :: cr)) by (apply splaced_lens in S1; apply slens_app in S1; apply S1).
      assert (Sn : send 0 (SCH 0 b f w :: cr) = Z.of_nat (length z1)).
      { pose proof (send_shift (SCH 0 b f w :: cr) 0 t) as X. rewrite Z.add_0_l, S2 in X. lia. }
      assert (Lr : length cr = length r).
      { transitivity (length (map sc_byte cr)); [symmetry; apply map_length|]. rewrite M1, Mb. apply map_length. }
      assert (Hsn : send 0 (SCH 0 b f w :: cr) <= 169 * Z.of_nat (S (length cr)) + 177) by (rewrite Sn, L1, Lr; lia).
      exists ((SCH (length z0) b f w :: cr) :: css). split; [|split; [|split; [|split]]].
      * cbn [map sc_byte]. rewrite M1, Mb. reflexivity.
      * constructor; [|exact Ok1]. cbn [spacket_ok sc_gap sc_byte sc_at sc_len]. split; [lia|exact Hsn].
      * cbn [concat app]. constructor; [cbn [sc_gap]; lia|]. apply Forall_app. split; [|exact Ok2].
        apply Forall_forall. intros x Hx. pose proof (send_gap _ 0 x SL (or_intror Hx)) as X. cbn [length] in X. lia.
      * cbn [concat app splaced sc_gap sc_byte sc_at sc_len] in *. fold t. destruct S1 as (_ & S1). rewrite Z.add_0_r in S1.
        split; [apply det_gap; auto|exact S1].
      * cbn [concat app send sc_gap sc_len] in *. fold t. rewrite Z.add_0_r in S2. rewrite send_app, S2, Se.
        rewrite !app_length in *. unfold t. lia.
Qed.

Lemma zat_bnd zs : bounded 4681 zs -> bnd (zat zs) 0.
Proof.
  intros B i _. unfold zat. destruct (i <? 0); [lia|]. destruct (Nat.lt_ge_cases (Z.to_nat i) (length zs)) as [L|L].
  - unfold bounded in B. rewrite Forall_forall in B. apply B, nth_In; auto.
  - rewrite nth_overflow by auto. lia.
Qed.
Lemma line_of_splaced e0 ys zs cs : mrun (lv_update (fun z => z)) 0 ys = Ok (0, zs) -> bounded 4681 zs -> splaced (det (zat zs)) 0 cs -> sgaps_from 0 cs ->
  send 0 cs + 9 <= Z.of_nat (length zs) -> Z.of_nat (length zs) - send 0 cs < 4294967000 ->
  exists c c' es, lchain_new e0 = Ok c /\ mrun lchain_step c ys = Ok (c', es) /\
    log_of es = snd (trun (true, 176) (sobs 1 0 cs (Z.of_nat (length zs)))).
Proof.
  intros R1 Bd Sp Hg0 S1 S2. pose proof (send_ge cs 0 (splaced_lens _ _ _ Sp)) as S0.
  destruct (det_stream zs) as (b & b' & Eb & R2).
  { eapply Forall_impl; [|exact Bd]. cbn. intros; lia. }
  set (D := det (zat zs)) in *. set (N := length zs) in *.
  exists (LChain lv_new b (ls_new e0)). unfold lchain_new. rewrite Eb. cbn [bind].
  destruct (line_of_uart (dseq D 0 N) (ls_new e0) (ua_new_safe _)) as (m & Em & HU).
  assert (D0 : D 0 = 0) by (pose proof (splaced_early _ _ _ Sp 0 ltac:(lia)) as X; exact X).
  assert (exists u outs, mrun ua_call (ua_new PARITY_EVEN) m = Ok (u, outs) /\
     combine (rflags (ua_new PARITY_EVEN) m) outs = (true, None) :: sobs 1 0 cs (Z.of_nat N)) as (u & outs & R3 & Ob).
  { clear HU. destruct m as [|[[x o] e] m].
    - apply (f_equal (@length _)) in Em. rewrite dseq_length in Em. cbn in Em. lia.
    - assert (EN : N = S (N - 1)) by lia. rewrite EN in Em. cbn [dseq map] in Em. injection Em as Ex Em.
      change (sym_of (x, o, e)) with x in Ex. rewrite D0 in Ex. subst x.
      destruct (new_first PARITY_EVEN 0 o e eq_refl) as (u0 & F0 & I0).
      assert (F01 : mrun ua_call (ua_new PARITY_EVEN) [(0, o, e)] = Ok (u0, [None])) by (cbn [mrun]; rewrite F0; reflexivity).
      destruct (suart_line_n D cs 0 0 1 (N - 1) m u0 _ Sp Hg0 ltac:(lia) (ua_inv_after _ _ _ F01) I0 ltac:(lia) Em ltac:(lia) ltac:(lia))
        as (u1 & os & R & Rep).
      cbn [mrun rflags]. rewrite F0; cbn [bind]. rewrite R; cbn [bind]. eexists _, _. split; [reflexivity|]. cbn [combine].
      rewrite Rep. replace (1 + Z.of_nat (N - 1)) with (Z.of_nat N) by lia. reflexivity. }
  destruct (HU u outs R3) as (s' & es & R4 & _ & T). cbn [ls_uart ls_busy ls_idle ls_new] in T. change IDLE_SAMPLES with 176 in T.
  eexists _, es. split; [reflexivity|]. split.
  - eapply lchain_split; cbn [lc_level lc_bit lc_ls]; [exact R1|exact R2|exact R4].
  - rewrite Ob in T. cbn [trun tlog andb negb app] in T.
    destruct (trun (true, 176) (sobs 1 0 cs (Z.of_nat N))) as [s2 l2]. injection T as _ T. rewrite <- T. reflexivity.
Qed.
Lemma agree_zat zs : agree (zat zs) 0 zs.
Proof. intros i Hi. unfold zat. destruct (Z.ltb_spec (0 + Z.of_nat i) 0); [lia|]. f_equal. lia. Qed.
Lemma lead_zat zs : lead (zat zs) 0.
Proof. intros i Hi. unfold zat. destruct (Z.ltb_spec i 0); [unfold small; lia|lia]. Qed.
Lemma slow_packets e0 pkts ys : heard_slow pkts ys ->
  exists c c' es, lchain_new e0 = Ok c /\ mrun lchain_step c ys = Ok (c', es) /\ log_of es = LFree :: flat_map packet_log pkts.
Proof.
  intros H. destruct (hs_level pkts ys H) as (zs & n & R1 & L & Bd & N1 & N2 & K).
  destruct (K (zat zs) 0 (agree_zat zs) (zat_bnd zs Bd) (lead_zat zs)) as (css & M & Hp & Hg & Sp & Se).
  { intros i Hi. rewrite zat_over by lia. unfold small; lia. }
  assert (Hg0 : sgaps_from 0 (concat css)) by (eapply Forall_impl; [|exact Hg]; cbn beta; intros; lia).
  destruct (line_of_splaced e0 ys zs (concat css) R1 Bd Sp Hg0 ltac:(rewrite Se; lia) ltac:(rewrite Se; lia)) as (c & c' & es & E1 & E2 & E3).
  exists c, c', es. split; [exact E1|]. split; [exact E2|]. rewrite E3.
  rewrite (spackets_quiet (Z.of_nat (length zs)) css 0 1 (true, 176) Hp (splaced_lens _ _ _ Sp) ltac:(cbn [snd]; lia) ltac:(lia) ltac:(rewrite Se; lia)).
  unfold pre. cbn [fst app]. f_equal. rewrite <- M. rewrite !flat_map_concat_map, map_map. f_equal. apply map_ext.
  intros p. unfold spacket_log, packet_log. rewrite map_map. reflexivity.
Qed.
