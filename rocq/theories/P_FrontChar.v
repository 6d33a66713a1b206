(** P_FrontChar.v -- characters and packets on the line as the DC blocker puts them out (C94). *)
From Verif Require Import Base M_Dsp S_Dsp S_Pio S_Core1 S_Noise S_Front P_Dsp P_PioTc P_FrontDc P_NoiseDet P_NoiseChar P_Noise P_FrontPulse P_Pio P_Chain.

(** ** [follows] *)
Lemma within_opp P Q p w y : within P Q p w y -> within P Q (- p) (- w) (- y).
Proof.
  unfold within. replace (- w =? 0) with (w =? 0) by (destruct (Z.eqb_spec w 0), (Z.eqb_spec (- w) 0); auto; lia).
  replace (- p =? 0) with (p =? 0) by (destruct (Z.eqb_spec p 0), (Z.eqb_spec (- p) 0); auto; lia).
  rewrite !Z.mul_opp_opp. destruct (w =? 0), (p =? 0); auto; lia.
Qed.
Lemma follows_fn P Q Y ws : forall prev m, (forall q, (q < length ws)%nat -> within P Q (match q with O => prev | S p => nth p ws 0 end) (nth q ws 0) (Y (m + Z.of_nat q))) ->
  follows P Q prev ws (dseq Y m (length ws)).
Proof.
  induction ws as [|w ws IH]; intros prev m H; cbn [length dseq follows]; [auto|]. split.
  - specialize (H 0%nat ltac:(cbn; lia)). cbn in H. rewrite Z.add_0_r in H. auto.
  - apply IH. intros q Hq. specialize (H (S q) ltac:(cbn; lia)). cbn [nth] in H. replace (m + 1 + Z.of_nat q) with (m + Z.of_nat (S q)) by lia.
    destruct q; exact H.
Qed.
Lemma last_cons (w : Z) a : forall prev, last (w :: a) prev = last a w.
Proof. revert w. induction a as [|x a IH]; intros w prev; [auto|]. transitivity (last (x :: a) prev); [reflexivity|]. rewrite IH. symmetry. apply IH. Qed.
Lemma follows_join P Q a b : forall prev ys zs, follows P Q prev a ys -> follows P Q (last a prev) b zs -> follows P Q prev (a ++ b) (ys ++ zs).
Proof.
  induction a as [|w a IH]; intros prev [|y ys] zs Ha Hb; cbn [follows app] in *; try tauto.
  destruct Ha as (H1 & H2). split; auto. apply IH; auto. rewrite <- (last_cons w a prev). auto.
Qed.
Lemma follows_drop P Q a b prev ys zs : length a = length ys -> follows P Q prev (a ++ b) (ys ++ zs) -> follows P Q (last a prev) b zs.
Proof.
  revert prev ys. induction a as [|w a IH]; intros prev [|y ys] L H; cbn [follows app length] in *; try lia; [auto|].
  destruct H as (_ & H). specialize (IH w ys ltac:(lia) H). rewrite last_cons. auto.
Qed.

(** ** What the ADC and the filter make of the line *)
Definition csum (U : Z -> Z) (i : Z) : Z :=
  -2339 * U i + -2861 * U (i - 1) + 11279 * U (i - 2) + 36098 * U (i - 3) + 48594 * U (i - 4) + 36098 * U (i - 5) + 11279 * U (i - 6)
  + -2861 * U (i - 7) + -2339 * U (i - 8).
Definition zeros (U : Z -> Z) (a b : Z) : Prop := forall i, a <= i < b -> U i = 0.
Lemma zeros_sub U a b c d : zeros U a b -> a <= c -> d <= b -> zeros U c d. Proof. unfold zeros. intros H ? ? i ?. apply H. lia. Qed.
Lemma zeros_join U a b c : zeros U a b -> zeros U b c -> zeros U a c.
Proof. unfold zeros. intros H1 H2 i ?. destruct (Z_lt_ge_dec i b); [apply H1|apply H2]; lia. Qed.
Lemma csum_zeros U i : zeros U (i - 8) (i + 1) -> csum U i = 0.
Proof. unfold zeros, csum. intros H. rewrite !H by lia. lia. Qed.
Lemma csum_pulse U t v q : zeros U (t - 8) t -> (forall i, t <= i < t + 16 -> U i = v) -> zeros U (t + 16) (t + 32) -> (q < 16)%nat ->
  csum U (2 * ((t + 1) / 2 + Z.of_nat q)) = v * nth q (gtab (Z.odd t)) 0.
Proof.
  intros H0 H1 H2 Hq.
  assert (HV : forall d, -8 <= d < 32 -> U (t + d) = if (0 <=? d) && (d <? 16) then v else 0).
  { intros d Hd. destruct (Z.leb_spec 0 d), (Z.ltb_spec d 16); cbn [andb]; [apply H1; lia|apply H2; lia|apply H0; lia|lia]. }
  set (pz := if Z.odd t then 1 else 0).
  assert (E : 2 * ((t + 1) / 2) = t + pz).
  { unfold pz. pose proof (Zdiv2_odd_eqn t) as E. pose proof (Z.div_mod (t + 1) 2 ltac:(lia)). pose proof (Z.mod_pos_bound (t + 1) 2 ltac:(lia)). destruct (Z.odd t); lia. }
  rewrite Z.mul_add_distr_l, E. unfold csum. unfold pz. clear pz E H0 H1 H2.
  replace (t + (if Z.odd t then 1 else 0) + 2 * Z.of_nat q) with (t + ((if Z.odd t then 1 else 0) + 2 * Z.of_nat q)) by lia.
  rewrite <- !Z.add_sub_assoc. revert Hq.
  destruct (Z.odd t); do 16 (destruct q as [|q];
    [intros _; cbn [nth gtab]; rewrite !HV by lia;
     repeat match goal with |- context [if ?c then v else 0] => let x := eval compute in c in change c with x; cbv iota end; lia|]); lia.
Qed.

Lemma follows_zeros_fn P Q Y n : forall k, (forall i, k <= i < k + Z.of_nat n -> -599 <= Y i <= 599) -> follows P Q 0 (repeat 0 n) (dseq Y k n).
Proof.
  induction n as [|n IH]; intros k H; cbn [repeat dseq follows]; [auto|]. split; [unfold within; cbn; apply H; lia|apply IH; intros; apply H; lia].
Qed.
Lemma last_zeros0 g : last (repeat 0 g) 0 = 0. Proof. apply last_zeros. Qed.
Lemma twice_app a b : twice (a ++ b) = twice a ++ twice b. Proof. apply flat_map_app. Qed.
Lemma twice_length a : length (twice a) = (2 * length a)%nat. Proof. induction a as [|x a IH]; [auto|]. cbn [twice flat_map length app]. fold (twice a). lia. Qed.
Lemma twice_repeat v n : twice (repeat v n) = repeat v (2 * n).
Proof. induction n as [|n IH]; [auto|]. replace (2 * S n)%nat with (S (S (2 * n))) by lia. cbn [repeat twice flat_map app]. fold (twice (repeat v n)). rewrite IH. auto. Qed.
Lemma map_repeat_z c v n : map (Z.mul c) (repeat v n) = repeat (c * v) n.
Proof. induction n; cbn [repeat map]; congruence. Qed.
Lemma agree_repeat U t v n : agree U t (repeat v n) -> forall i, t <= i < t + Z.of_nat n -> U i = v.
Proof. intros H i Hi. specialize (H (Z.to_nat (i - t)) ltac:(rewrite repeat_length; lia)). rewrite Z2Nat.id in H by lia. replace (t + (i - t)) with i in H by lia.
  rewrite H, (nth_indep _ 0 v) by (rewrite repeat_length; lia). apply nth_repeat. Qed.

Lemma half_up t g : (t + 2 * g + 1) / 2 = (t + 1) / 2 + g.
Proof. replace (t + 2 * g + 1) with (t + 1 + g * 2) by ring. apply Z.div_add. lia. Qed.

Section FRONT.
Variables (U F B Y : Z -> Z) (N k0 k1 : Z).
Hypothesis HN : 0 <= N.
Hypothesis HF : forall k, k0 <= k < k1 -> near N 1 (csum U (2 * k)) (F k).
Hypothesis HB : forall k, k0 <= k < k1 -> brel (B k) (F k) (B (k + 1)).
Hypothesis HY : forall k, k0 <= k < k1 -> yrel (B k) (F k) (Y k).

Lemma F_quiet k : k0 <= k < k1 -> zeros U (2 * k - 8) (2 * k + 1) -> -N <= 256 * F k <= N.
Proof. intros Hk Hz. specialize (HF k Hk). rewrite csum_zeros in HF by auto. unfold near in HF. lia. Qed.
(** The next pulse is [tau], the pulses have amplitude [a]. *)
Definition BI (tau a k : Z) : Prop := - (65536 * (N + 127)) - 159744 * a <= 65536 * (tau * B k) <= 65536 * (N + 127).
Lemma BI_quiet tau a k n : sgn1 tau -> 0 <= a -> k0 <= k -> k + Z.of_nat n <= k1 -> zeros U (2 * k - 8) (2 * (k + Z.of_nat n) - 1) -> BI tau a k ->
  forall i, k <= i <= k + Z.of_nat n -> BI tau a i.
Proof.
  intros Hs Ha Hk. induction n as [|n IH]; intros Hk1 Hz H0 i Hi; [replace i with k by lia; auto|].
  rewrite Nat2Z.inj_succ in *. destruct (Z_le_gt_dec i (k + Z.of_nat n)).
  - apply IH; try lia; auto. eapply zeros_sub; eauto; lia.
  - assert (Hj : BI tau a (k + Z.of_nat n)) by (apply IH; try lia; auto; eapply zeros_sub; eauto; lia).
    replace i with (k + Z.of_nat n + 1) by lia. set (j := k + Z.of_nat n) in *.
    pose proof (F_quiet j ltac:(lia) ltac:(eapply zeros_sub; eauto; lia)) as Hf. pose proof (HB j ltac:(lia)) as Hb.
    unfold BI, brel, sgn1 in *. destruct Hs as [->| ->]; lia.
Qed.
Lemma BI_out tau a k : sgn1 tau -> 0 <= a -> 277394 * a + 65536 * (2 * N + 382) <= 65536 * (599 * 256) -> k0 <= k < k1 -> zeros U (2 * k - 8) (2 * k + 1) -> BI tau a k -> -599 <= Y k <= 599.
Proof.
  intros Hs Ha Hb Hk Hz H. pose proof (F_quiet k Hk Hz). specialize (HY k Hk). unfold BI, yrel, sgn1 in *. destruct Hs as [->| ->]; lia.
Qed.

Variables (a : Z) (par : bool).
Hypothesis Ha : 0 <= a.
Hypothesis Hclear : clear (Plow a N) (Qhigh a N).
Hypothesis Hidle : 277394 * a + 65536 * (2 * N + 382) <= 65536 * (599 * 256).
Let P := Plow a N.
Let Q := Qhigh a N.
Let e := eoff par.

Lemma quiet_cps (X : Prop) tau t g W n : sgn1 tau -> Z.odd t = par -> zeros U (t - 8) (t + 2 * Z.of_nat g) -> k0 <= (t + 1) / 2 -> (t + 1) / 2 + Z.of_nat g <= k1 -> BI tau a ((t + 1) / 2) ->
  (BI tau a ((t + 1) / 2 + Z.of_nat g) -> follows P Q 0 W (dseq Y ((t + 1) / 2 + Z.of_nat g) n) /\ X) ->
  follows P Q 0 (repeat 0 g ++ W) (dseq Y ((t + 1) / 2) (g + n)) /\ X.
Proof.
  intros Hs Hp Hz Hk0 Hk1 H0 HW. set (m := (t + 1) / 2) in *.
  assert (Hm : t <= 2 * m <= t + 1) by (unfold m; pose proof (Z.div_mod (t + 1) 2 ltac:(lia)); pose proof (Z.mod_pos_bound (t + 1) 2 ltac:(lia)); lia).
  pose proof (BI_quiet tau a m g Hs Ha Hk0 Hk1 ltac:(eapply zeros_sub; eauto; lia) H0) as HI.
  destruct HW as (HW & HX); [apply HI; lia|]. split; [|exact HX].
  rewrite dseq_app. apply follows_join.
  - apply follows_zeros_fn. intros i Hi. apply (BI_out tau a); auto; [lia| |apply HI; lia]. eapply zeros_sub; eauto; lia.
  - rewrite last_zeros0. apply HW.
Qed.

Definition twave (l : list Z) : list Z := map (Z.mul a) (twice l).
Lemma symbol_cps (X : Prop) tau s t W n : sgn1 tau -> (s = 0 \/ s = tau) -> Z.odd t = par -> zeros U (t - 8) t -> agree U t (twave (symbol_wave s)) ->
  k0 <= (t + 1) / 2 -> (t + 1) / 2 + 16 <= k1 -> BI tau a ((t + 1) / 2) ->
  (BI (if s =? 0 then tau else - tau) a ((t + 1) / 2 + 16) -> zeros U (t + 24) (t + 32) -> follows P Q 0 (repeat 0 e ++ W) (dseq Y ((t + 1) / 2 + 16) n) /\ X) ->
  follows P Q 0 (repeat 0 e ++ symbol_wave s ++ W) (dseq Y ((t + 1) / 2) (16 + n)) /\ X.
Proof.
  intros Hs Hss Hp Hz HU Hk0 Hk1 H0 HW.
  assert (HE : (e <= 8)%nat) by (unfold e; destruct par; cbn; lia).
  assert (HU1 : forall i, t <= i < t + 16 -> U i = a * s).
  { unfold twave, symbol_wave in HU. rewrite twice_app, !twice_repeat, map_app, !map_repeat_z in HU. apply agree_app in HU as (HU & _). intros i Hi. apply (agree_repeat _ _ _ _ HU). lia. }
  assert (HU2 : zeros U (t + 16) (t + 32)).
  { unfold twave, symbol_wave in HU. rewrite twice_app, !twice_repeat, map_app, !map_repeat_z in HU. apply agree_app in HU as (_ & HU). rewrite Z.mul_0_r in HU.
    intros i Hi. apply (agree_repeat _ _ _ _ HU). rewrite repeat_length. lia. }
  assert (HS : forall q, (q < 16)%nat -> near N (a * s) (nth q (gtab par) 0) (F ((t + 1) / 2 + Z.of_nat q))).
  { intros q Hq. pose proof (HF ((t + 1) / 2 + Z.of_nat q) ltac:(lia)) as H. rewrite (csum_pulse U t (a * s) q Hz HU1 HU2 Hq), Hp in H. unfold near in *. lia. }
  assert (EL : repeat 0 e ++ symbol_wave s ++ W = (repeat 0 e ++ repeat s 8 ++ repeat 0 (8 - e)) ++ repeat 0 e ++ W).
  { unfold symbol_wave. replace (repeat 0 8) with (repeat 0 (8 - e) ++ repeat 0 e) by (rewrite <- repeat_app; f_equal; lia). rewrite <- !app_assoc. auto. }
  rewrite EL, dseq_app. clear EL.
  set (m := (t + 1) / 2) in *. assert (Hm : t <= 2 * m <= t + 1) by (unfold m; pose proof (Z.div_mod (t + 1) 2 ltac:(lia)); pose proof (Z.mod_pos_bound (t + 1) 2 ltac:(lia)); lia).
  clearbody m. change (Z.of_nat 16) with 16.
  assert (HL : last (repeat 0 e ++ repeat s 8 ++ repeat 0 (8 - e)) 0 = 0) by (unfold e; destruct par; reflexivity).
  destruct (Z.eqb_spec s 0) as [->|Hn].
  - assert (HBI : BI tau a (m + 16)).
    { apply (BI_quiet tau a m 16 Hs Ha); auto; [|lia]. rewrite Z.mul_0_r in HU1. apply (zeros_sub U (t - 8) (t + 32)); try lia. apply (zeros_join U _ (t + 16)); auto. apply (zeros_join U _ t); auto. }
    destruct (HW HBI ltac:(eapply zeros_sub; eauto; lia)) as (HW' & HX). split; [|exact HX]. clear HW. apply follows_join.
    + replace (repeat 0 e ++ repeat 0 8 ++ repeat 0 (8 - e)) with (repeat 0 16) by (rewrite <- !repeat_app; f_equal; lia). apply follows_zeros_fn.
      intros i Hi. apply (BI_out tau a); auto; [lia| |].
      * rewrite Z.mul_0_r in HU1. apply (zeros_sub U (t - 8) (t + 32)); try lia. apply (zeros_join U _ (t + 16)); auto. apply (zeros_join U _ t); auto.
      * apply (BI_quiet tau a m 16 Hs Ha); auto; [|lia]. rewrite Z.mul_0_r in HU1. apply (zeros_sub U (t - 8) (t + 32)); try lia. apply (zeros_join U _ (t + 16)); auto. apply (zeros_join U _ t); auto.
    + rewrite HL. exact HW'.
  - destruct Hss as [->| ->]; [lia|].
    assert (HPQ : 1700 <= Plow a N) by (unfold clear in Hclear; lia).
    pose (F' := fun k => tau * F k). pose (B' := fun k => tau * B k). pose (Y' := fun k => tau * Y k).
    assert (HB' : forall q, 0 <= q < 16 -> brel (B' (m + q)) (F' (m + q)) (B' (m + q + 1))).
    { intros q Hq. pose proof (HB (m + q) ltac:(lia)) as H. unfold brel, B', F', sgn1 in *. destruct Hs as [->| ->]; lia. }
    assert (HY' : forall q, 0 <= q < 16 -> yrel (B' (m + q)) (F' (m + q)) (Y' (m + q))).
    { intros q Hq. pose proof (HY (m + q) ltac:(lia)) as H. unfold yrel, B', F', Y', sgn1 in *. destruct Hs as [->| ->]; lia. }
    assert (HS' : forall q, (q < 16)%nat -> near N a (nth q (gtab par) 0) (F' (m + Z.of_nat q))).
    { intros q Hq. specialize (HS q Hq). unfold near, F' in *. destruct Hs as [->| ->]; lia. }
    assert (HO : orb B' N m par a 0).
    { unfold orb, BI, B' in *. change (Z.of_nat 0) with 0. rewrite Z.add_0_r. destruct par; cbn [nth ltab htab]; lia. }
    assert (HBI : BI (- tau) a (m + 16)).
    { pose proof (orbit F' B' N m HB' par a Ha HS' HO 16 ltac:(lia)) as H16. unfold orb in H16. change (Z.of_nat 16) with 16 in H16. unfold BI. unfold B' in H16.
      destruct par; cbn [nth ltab htab] in H16; unfold sgn1 in Hs; destruct Hs as [->| ->]; lia. }
    destruct (HW HBI ltac:(eapply zeros_sub; eauto; lia)) as (HWW & HX). split; [|exact HX]. clear HW. apply follows_join.
    + assert (EW : repeat 0 e ++ repeat tau 8 ++ repeat 0 (8 - e) = map (Z.mul tau) (wq par)).
      { unfold e, wq. destruct par; cbn [eoff Nat.sub repeat app map]; rewrite Z.mul_0_r, Z.mul_1_r; auto. }
      rewrite EW. replace 16%nat with (length (map (Z.mul tau) (wq par))) by (rewrite map_length; destruct par; auto).
      apply follows_fn. rewrite map_length. intros q Hq. assert (Hq' : (q < 16)%nat) by (destruct par; cbn in Hq; lia).
      pose proof (pulse_out F' B' Y' N m HB' HY' par a q Ha Hidle HPQ HS' HO Hq') as HW'.
      assert (E0 : forall p, nth p (map (Z.mul tau) (wq par)) 0 = tau * nth p (wq par) 0).
      { intros p. rewrite <- (Z.mul_0_r tau) at 1. apply map_nth. }
      replace (match q with O => 0 | S p => nth p (map (Z.mul tau) (wq par)) 0 end) with (tau * prevq par q) by (destruct q; cbn [prevq]; rewrite ?E0; lia).
      rewrite E0. unfold Y' in HW'. fold P Q in HW'. unfold sgn1 in Hs. destruct Hs as [->| ->].
      * rewrite !Z.mul_1_l in *. auto.
      * apply within_opp in HW'. replace (- (-1 * Y (m + Z.of_nat q))) with (Y (m + Z.of_nat q)) in HW' by lia.
        replace (-1 * prevq par q) with (- prevq par q) by lia. replace (-1 * nth q (wq par) 0) with (- nth q (wq par) 0) by lia. auto.
    + rewrite HL. exact HWW.
Qed.

Fixpoint nextp (tau : Z) (bits : list bool) : Z := match bits with [] => tau | true :: t => nextp tau t | false :: t => nextp (- tau) t end.
Lemma odd_up t g : Z.odd (t + 2 * g) = Z.odd t. Proof. apply Z.odd_add_mul_2. Qed.
Lemma twave_app x y : twave (x ++ y) = twave x ++ twave y. Proof. unfold twave. rewrite twice_app. apply map_app. Qed.
Lemma twave_length x : length (twave x) = (2 * length x)%nat. Proof. unfold twave. rewrite map_length. apply twice_length. Qed.
Lemma bits_cps (X : Prop) bits : forall tau t W n, sgn1 tau -> Z.odd t = par -> zeros U (t - 8) t -> agree U t (twave (flat_map symbol_wave (ami tau bits))) ->
  k0 <= (t + 1) / 2 -> (t + 1) / 2 + 16 * Z.of_nat (length bits) <= k1 -> BI tau a ((t + 1) / 2) ->
  (BI (nextp tau bits) a ((t + 1) / 2 + 16 * Z.of_nat (length bits)) -> zeros U (t + 32 * Z.of_nat (length bits) - 8) (t + 32 * Z.of_nat (length bits)) ->
     follows P Q 0 (repeat 0 e ++ W) (dseq Y ((t + 1) / 2 + 16 * Z.of_nat (length bits)) n) /\ X) ->
  follows P Q 0 (repeat 0 e ++ flat_map symbol_wave (ami tau bits) ++ W) (dseq Y ((t + 1) / 2) (16 * length bits + n)) /\ X.
Proof.
  induction bits as [|b bits IH]; intros tau t W n Hs Hp Hz HU Hk0 Hk1 H0 HW.
  - cbn [length ami flat_map app nextp] in *. change (Z.of_nat 0) with 0 in *. rewrite !Z.mul_0_r, !Z.add_0_r in HW. apply HW; auto.
  - cbn [length] in *. rewrite Nat2Z.inj_succ in *.
    assert (EB : exists s, ami tau (b :: bits) = s :: ami (if s =? 0 then tau else - tau) bits /\ (s = 0 \/ s = tau) /\ nextp tau (b :: bits) = nextp (if s =? 0 then tau else - tau) bits).
    { destruct b; [exists 0; auto|exists tau]. unfold sgn1 in Hs. destruct (Z.eqb_spec tau 0); [lia|]. auto. }
    destruct EB as (s & E1 & Hss & E2). rewrite E1, E2 in *. clear E1 E2. cbn [flat_map] in *. rewrite twave_app in HU. apply agree_app in HU as (HU1 & HU2).
    rewrite <- app_assoc. replace (16 * S (length bits) + n)%nat with (16 + (16 * length bits + n))%nat by lia.
    apply (symbol_cps X tau s t); auto; [lia|]. intros HBI HZ.
    rewrite twave_length in HU2. replace (t + Z.of_nat (2 * length (symbol_wave s))) with (t + 2 * 16) in HU2 by (unfold symbol_wave; rewrite app_length, !repeat_length; lia).
    specialize (IH (if s =? 0 then tau else - tau) (t + 2 * 16) W n). rewrite half_up, odd_up in IH. apply IH; auto.
    + unfold sgn1 in *. destruct (s =? 0); lia.
    + eapply zeros_sub; eauto; lia.
    + lia.
    + lia.
    + intros HBI' HZ'. replace ((t + 1) / 2 + 16 + 16 * Z.of_nat (length bits)) with ((t + 1) / 2 + 16 * Z.succ (Z.of_nat (length bits))) in * by lia.
      apply HW; auto. eapply zeros_sub; eauto; lia.
Qed.

Lemma firstn_ami n : forall tau bits, firstn n (ami tau bits) = ami tau (firstn n bits).
Proof. induction n as [|n IH]; intros tau [|[] bits]; cbn [firstn ami]; auto; f_equal; apply IH. Qed.
Lemma ami_scale sg bits : forall tau, map (Z.mul sg) (ami tau bits) = ami (sg * tau) bits.
Proof. induction bits as [|[] bits IH]; intros tau; cbn [ami map]; auto; [rewrite Z.mul_0_r; f_equal; auto|f_equal; rewrite IH; f_equal; lia]. Qed.
Lemma symbols_scale sg l : map (Z.mul sg) (flat_map symbol_wave l) = flat_map symbol_wave (map (Z.mul sg) l).
Proof. induction l as [|s l IH]; cbn [flat_map map]; auto. rewrite map_app, IH. f_equal. unfold symbol_wave. rewrite map_app, !map_repeat_z, Z.mul_0_r. auto. Qed.
Lemma nextp_scale sg bits : forall tau, nextp (sg * tau) bits = sg * nextp tau bits.
Proof. induction bits as [|[] bits IH]; intros tau; cbn [nextp]; auto. rewrite <- IH. f_equal. lia. Qed.
Lemma nextp_check : forallb (fun n => (nextp 1 (firstn 10 (char_bits (Z.of_nat n))) =? 1) && (length (firstn 10 (char_bits (Z.of_nat n))) =? 10)%nat) (seq 0 256) = true.
Proof. vm_compute. reflexivity. Qed.
Lemma char_parts sg b : 0 <= b < 256 -> exists bits, length bits = 10%nat /\ map (Z.mul sg) (char_wave_short b) = flat_map symbol_wave (ami sg bits) ++ repeat 0 15 /\ nextp sg bits = sg.
Proof.
  intros Hb. exists (firstn 10 (char_bits b)). pose proof (forallb_byte _ b nextp_check Hb) as H. cbv beta in H. rewrite Z2Nat.id in H by lia. apply andb_true_iff in H as (H1 & H2).
  apply Z.eqb_eq in H1. apply Nat.eqb_eq in H2. split; [auto|]. split.
  - rewrite char_short_eq by auto. unfold char_symbols. rewrite map_app, symbols_scale, firstn_ami, ami_scale, Z.mul_1_r, zeros_scale. auto.
  - rewrite <- (Z.mul_1_r sg) at 1. rewrite nextp_scale, H1. lia.
Qed.

Lemma twave_zeros g : twave (repeat 0 g) = repeat 0 (2 * g). Proof. unfold twave. rewrite twice_repeat, map_repeat_z, Z.mul_0_r. auto. Qed.
Lemma chars_cps (X : Prop) sg cs : sgn1 sg -> forall t n, bytes_ok cs -> Z.odd t = par -> zeros U (t - 8) t -> agree U t (twave (map (Z.mul sg) (waves cs))) ->
  k0 <= (t + 1) / 2 -> (t + 1) / 2 + Z.of_nat (length (waves cs)) <= k1 -> BI sg a ((t + 1) / 2) ->
  (BI sg a ((t + 1) / 2 + Z.of_nat (length (waves cs))) -> zeros U (t + 2 * Z.of_nat (length (waves cs)) - 8) (t + 2 * Z.of_nat (length (waves cs))) ->
     follows P Q 0 (repeat 0 e) (dseq Y ((t + 1) / 2 + Z.of_nat (length (waves cs))) n) /\ X) ->
  follows P Q 0 (repeat 0 e ++ map (Z.mul sg) (waves cs)) (dseq Y ((t + 1) / 2) (length (waves cs) + n)) /\ X.
Proof.
  intros Hs. induction cs as [|(g & b) cs IH]; intros t n Hby Hp Hz HU Hk0 Hk1 H0 HW.
  - cbn [waves length map app] in *. change (Z.of_nat 0) with 0 in *. rewrite Z.mul_0_r, !Z.add_0_r in HW. rewrite app_nil_r. apply HW; auto.
  - apply Forall_cons_iff in Hby as (Hb & Hby). cbn [snd] in Hb. cbn [waves] in *.
    destruct (char_parts sg b Hb) as (bits & HL & EC & EN).
    assert (LC : length (char_wave_short b) = 175%nat) by (apply char_balanced; auto).
    rewrite !app_length, repeat_length, LC in *. rewrite !map_app, zeros_scale, EC in *. rewrite !twave_app in HU. rewrite !twave_zeros in HU.
    apply agree_app in HU as (HU0 & HU). rewrite repeat_length in HU.
    rewrite <- !app_assoc in HU. apply agree_app in HU as (HU1 & HU). apply agree_app in HU as (HU2 & HU3). rewrite twave_length in HU2, HU3. rewrite repeat_length in HU3.
    set (L := length (waves cs)) in *.
    assert (LW : length (flat_map symbol_wave (ami sg bits)) = 160%nat).
    { apply (f_equal (@length Z)) in EC. rewrite map_length, app_length, repeat_length, LC in EC. lia. }
    rewrite LW in *.
    assert (HE : (e <= 8)%nat) by (unfold e; destruct par; cbn; lia).
    replace (repeat 0 e ++ repeat 0 g ++ (flat_map symbol_wave (ami sg bits) ++ repeat 0 15) ++ map (Z.mul sg) (waves cs))
      with (repeat 0 g ++ repeat 0 e ++ flat_map symbol_wave (ami sg bits) ++ (repeat 0 (15 - e) ++ repeat 0 e ++ map (Z.mul sg) (waves cs))).
    2:{ rewrite (app_assoc (repeat 0 (15 - e))), <- repeat_app. replace (15 - e + e)%nat with 15%nat by lia.
        rewrite (app_assoc (repeat 0 g)), (app_assoc (repeat 0 e)), <- !repeat_app. rewrite (Nat.add_comm g e), <- !app_assoc. auto. }
    assert (HZ0 : zeros U (t - 8) (t + 2 * Z.of_nat g)) by (apply (zeros_join U _ t); auto; intros i Hi; apply (agree_repeat _ _ _ _ HU0); lia).
    replace (g + (175 + L) + n)%nat with (g + (16 * length bits + (15 + (L + n))))%nat by lia.
    apply (quiet_cps X sg t g); auto; [lia|]. intros HB1.
    pose proof (bits_cps X bits sg (t + 2 * Z.of_nat g) (repeat 0 (15 - e) ++ repeat 0 e ++ map (Z.mul sg) (waves cs)) (15 + (L + n))) as HC.
    rewrite half_up, odd_up, HL, EN in HC. rewrite HL. apply HC; auto; clear HC.
    + eapply zeros_sub; eauto; lia.
    + replace (t + Z.of_nat (2 * g)) with (t + 2 * Z.of_nat g) in HU1 by lia. auto.
    + lia.
    + change (16 * Z.of_nat 10) with 160. lia.
    + change (16 * Z.of_nat 10) with 160. change (32 * Z.of_nat 10) with 320. intros HB2 HZ2.
      rewrite app_assoc, <- repeat_app. replace (e + (15 - e))%nat with 15%nat by lia.
      pose proof (quiet_cps X sg (t + 2 * (Z.of_nat g + 160)) 15 (repeat 0 e ++ map (Z.mul sg) (waves cs)) (L + n)) as HC.
      assert (HZ3 : zeros U (t + 2 * (Z.of_nat g + 160) - 8) (t + 2 * (Z.of_nat g + 160) + 2 * Z.of_nat 15)).
      { apply (zeros_join U _ (t + 2 * (Z.of_nat g + 160))); [eapply zeros_sub; eauto; lia|]. intros i Hi. apply (agree_repeat _ _ _ _ HU2). lia. }
      rewrite half_up, odd_up in HC. rewrite Z.add_assoc in HC. apply HC; auto; clear HC; [lia|lia|]. intros HB3.
      specialize (IH (t + 2 * (Z.of_nat g + 175)) n Hby). rewrite half_up, odd_up in IH. change (Z.of_nat 15) with 15 in *.
      replace ((t + 1) / 2 + Z.of_nat g + 160 + 15) with ((t + 1) / 2 + (Z.of_nat g + 175)) in * by lia. apply IH; auto; clear IH.
      * eapply zeros_sub; eauto; lia.
      * match type of HU3 with agree _ ?x _ => replace x with (t + 2 * (Z.of_nat g + 175)) in HU3 by lia end. auto.
      * lia.
      * lia.
      * intros HB4 HZ4. destruct HW as (HW1 & HW2).
        -- match type of HB4 with BI _ _ ?x => match goal with |- BI _ _ ?y => replace y with x by lia end end. auto.
        -- eapply zeros_sub; eauto; lia.
        -- split; [|exact HW2]. match type of HW1 with follows _ _ _ _ (dseq _ ?x _) => match goal with |- follows _ _ _ _ (dseq _ ?y _) => replace y with x by lia end end. exact HW1.
Qed.
End FRONT.
