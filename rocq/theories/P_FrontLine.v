(** P_FrontLine.v -- packets on the line as the DC blocker puts them out (C94). *)
From Verif Require Import Base M_Dsp S_Dsp S_Pio S_Core1 S_Noise S_Front P_Dsp P_PioTc P_FrontDc P_NoiseDet P_NoiseChar P_Noise P_FrontPulse P_Pio P_Chain P_FrontChar.

(** The same packet after another gap. *)
Definition regap (p p' : packet) : Prop := pk_first p' = pk_first p /\ pk_rest p' = pk_rest p /\ (177 <= pk_gap p')%nat.

Lemma voltage_head n U A l tail : Forall (burst_ok n) l -> (410 <= tail)%nat -> agree U A (voltage l tail) -> zeros U A (A + 4).
Proof.
  intros Hl Ht HU i Hi. destruct l as [|b l]; cbn [voltage] in HU.
  - apply (agree_repeat _ _ _ _ HU). lia.
  - apply Forall_cons_iff in Hl as ((_ & Hg & _) & _). destruct (bu_packet b) as [g f r]. cbn [pk_gap pk_chars pk_first pk_rest waves] in *.
    rewrite twice_app, twice_repeat, map_app, map_repeat_z, Z.mul_0_r, <- !app_assoc, (app_assoc (repeat 0 (bu_idle b))), <- repeat_app in HU. apply agree_app in HU as (HU & _).
    apply (agree_repeat _ _ _ _ HU). lia.
Qed.
Lemma half_range t : t <= 2 * ((t + 1) / 2) <= t + 1.
Proof. pose proof (Z.div_mod (t + 1) 2 ltac:(lia)). pose proof (Z.mod_pos_bound (t + 1) 2 ltac:(lia)). lia. Qed.
Lemma delta_eq t : (t + 4) / 2 = (t + 1) / 2 + Z.of_nat (eoff (Z.odd t)).
Proof.
  pose proof (half_range t). pose proof (Zdiv2_odd_eqn t) as E. pose proof (Z.div_mod (t + 4) 2 ltac:(lia)). pose proof (Z.mod_pos_bound (t + 4) 2 ltac:(lia)).
  destruct (Z.odd t); cbn [eoff Z.of_nat]; lia.
Qed.
Lemma delta_up t g : (t + 2 * g + 4) / 2 = (t + 4) / 2 + g.
Proof. replace (t + 2 * g + 4) with (t + 4 + g * 2) by ring. apply Z.div_add. lia. Qed.

Section LINE.
Variables (U F B Y : Z -> Z) (n k0 k1 : Z).
Let N := Nof n.
Hypothesis Hn : 0 <= n.
Hypothesis HF : forall k, k0 <= k < k1 -> near N 1 (csum U (2 * k)) (F k).
Hypothesis HB : forall k, k0 <= k < k1 -> brel (B k) (F k) (B (k + 1)).
Hypothesis HY : forall k, k0 <= k < k1 -> yrel (B k) (F k) (Y k).

Definition BS (k : Z) : Prop := exists sg a, sgn1 sg /\ 0 <= a <= 27500 /\ 277394 * a + 65536 * (2 * N + 382) <= 65536 * (599 * 256) /\ BI B N sg a k.

Lemma quiet_stretch k m : k0 <= k -> k <= m <= k1 -> zeros U (2 * k - 8) (2 * m - 1) -> BS k ->
  BS m /\ (forall i, k <= i < m -> -599 <= Y i <= 599) /\ (k + 1281 <= m -> - (N + 127) <= B m <= N + 127).
Proof.
  intros Hk Hm Hz (sg & a & Hs & Ha & Hb & HI).
  assert (HN : 0 <= N) by (unfold N, Nof; lia).
  pose proof (BI_quiet U F B N k0 k1 HF HB sg a k (Z.to_nat (m - k)) Hs ltac:(lia) Hk ltac:(lia) ltac:(rewrite Z2Nat.id by lia; eapply zeros_sub; eauto; lia) HI) as HQ.
  rewrite Z2Nat.id in HQ by lia. split; [|split].
  - exists sg, a. repeat split; try lia; auto. all: apply HQ; lia.
  - intros i Hi. apply (BI_out U F B Y N k0 k1 HF HY sg a); auto; try lia; [|apply HQ; lia]. eapply zeros_sub; eauto; lia.
  - intros Hj.
    assert (HFq : forall i, k <= i < m -> -N <= 256 * F i <= N) by (intros i Hi; apply (F_quiet U F N k0 k1 HF); [lia|]; eapply zeros_sub; eauto; lia).
    assert (HBq : forall i, k <= i < m -> brel (B i) (F i) (B (i + 1))) by (intros; apply HB; lia).
    pose proof (quiet_settles F B N 10 k) as HS. change (128 * Z.of_nat 10) with 1280 in HS. change (128 * 2 ^ Z.of_nat 10) with 131072 in HS.
    assert (H1 : - (N + 127) <= B (k + 1280 + 1) <= N + 127).
    { apply HS; [intros; apply HFq; lia|intros; apply HBq; lia|]. unfold BI, sgn1 in HI. destruct Hs as [->| ->]; lia. }
    apply (quiet_keeps F B N (- (N + 127)) (N + 127) (k + 1281) (Z.to_nat (m - (k + 1281)))); try lia.
    + intros; apply HFq; lia.
    + intros; apply HBq; lia.
    + replace (k + 1281) with (k + 1280 + 1) by lia. auto.
Qed.

Lemma line_heard l tail : (410 <= tail)%nat -> Forall (burst_ok n) l -> forall A, k0 <= (A + 1) / 2 -> (A + Z.of_nat (length (voltage l tail)) + 1) / 2 <= k1 ->
  Z.of_nat (length (voltage l tail)) < 4000000000 -> zeros U (A - 8) A -> agree U A (voltage l tail) -> BS ((A + 4) / 2) ->
  exists pkts m, heard pkts (dseq Y ((A + 4) / 2) m) /\ (A + 4) / 2 + Z.of_nat m = (A + Z.of_nat (length (voltage l tail)) + 1) / 2 /\
    Forall2 regap (map bu_packet l) pkts /\ Forall (fun p => 2 * Z.of_nat (pk_gap p) <= Z.of_nat (length (voltage l tail))) pkts.
Proof.
  intros Ht. induction l as [|bu l IH]; intros Hl A Hk0 Hk1 HL Hz HU HS.
  - cbn [voltage] in *. rewrite repeat_length in *. pose proof (half_range A) as HA. pose proof (half_range (A + Z.of_nat tail)) as HA'.
    pose proof (Z.div_mod (A + 4) 2 ltac:(lia)). pose proof (Z.mod_pos_bound (A + 4) 2 ltac:(lia)).
    exists [], (Z.to_nat ((A + Z.of_nat tail + 1) / 2 - (A + 4) / 2)). split; [|split; [lia|split; constructor]].
    assert (HZ : zeros U (A - 8) (A + Z.of_nat tail)) by (apply (zeros_join U _ A); auto; intros i Hi; apply (agree_repeat _ _ _ _ HU); lia).
    destruct (quiet_stretch ((A + 4) / 2) ((A + Z.of_nat tail + 1) / 2)) as (_ & HQ & _); auto; try lia; [eapply zeros_sub; eauto; lia|].
    apply heard_quiet.
    + rewrite dseq_length. lia.
    + rewrite dseq_length. lia.
    + unfold bounded. apply Forall_forall. intros y Hy. apply (In_nth _ _ 0) in Hy as (i & Hi & <-). rewrite dseq_length in Hi. rewrite dseq_nth by auto. apply HQ. lia.
  - apply Forall_cons_iff in Hl as ((Hst & Hg & Hiq & Hby) & Hl). specialize (IH Hl).
    destruct bu as [idle amp [g f r]]. cbn [bu_idle bu_amp bu_packet pk_gap pk_chars pk_first pk_rest voltage] in *.
    destruct (strong_clear n (Z.abs amp) Hst) as (Hcl & Hid). fold N in Hcl, Hid.
    set (a := Z.abs amp) in *. set (sg := if amp <? 0 then -1 else 1).
    assert (Hsg : sgn1 sg) by (unfold sgn1, sg; destruct (amp <? 0); lia).
    assert (Eamp : amp = a * sg) by (unfold a, sg; destruct (Z.ltb_spec amp 0); lia).
    assert (Ha : 0 <= a <= 27500) by (unfold strong in Hst; lia).
    change (pk_chars (PK g f r)) with ((g, f) :: r) in *. cbn [waves] in *. set (W := waves ((0%nat, f) :: r)).
    assert (EW : char_wave_short f ++ waves r = W) by reflexivity.
    rewrite EW in *.
    assert (EV : repeat 0 idle ++ map (Z.mul amp) (twice (repeat 0 g ++ W)) ++ voltage l tail = repeat 0 (idle + 2 * g) ++ twave a (map (Z.mul sg) W) ++ voltage l tail).
    { rewrite twice_app, twice_repeat, map_app, map_repeat_z, Z.mul_0_r, repeat_app, <- !app_assoc. do 3 f_equal. unfold twave.
      unfold twice. rewrite flat_map_concat_map, (flat_map_concat_map _ (map _ W)), map_map, !concat_map, !map_map. f_equal. apply map_ext. intros w. cbn [map]. rewrite Eamp. f_equal; [|f_equal]; lia. }
    rewrite EV in *. clear EV. rewrite !app_length, repeat_length, twave_length, map_length in *.
    set (L := length W) in *. set (LV := length (voltage l tail)) in *.
    apply agree_app in HU as (HU0 & HU). rewrite repeat_length in HU. apply agree_app in HU as (HU1 & HU2). rewrite twave_length, map_length in HU2. fold L in HU2.
    set (t := A + Z.of_nat (idle + 2 * g)) in *.
    assert (HtA : t = A + Z.of_nat (idle + 2 * g)) by reflexivity.
    assert (HZ : zeros U (A - 8) t) by (apply (zeros_join U _ A); auto; intros i Hi; apply (agree_repeat _ _ _ _ HU0); lia).
    assert (HLV : 410 <= Z.of_nat LV).
    { unfold LV. destruct l as [|[i2 a2 [g2 f2 r2]] l']; cbn [voltage bu_idle bu_amp bu_packet pk_chars waves pk_gap pk_first pk_rest]; [|change (pk_chars (PK g2 f2 r2)) with ((g2, f2) :: r2); cbn [waves]].
      - rewrite repeat_length. lia.
      - apply Forall_cons_iff in Hl as ((_ & Hg2 & _) & _). cbn [bu_packet pk_gap] in Hg2. rewrite !app_length, map_length, twice_length, app_length, !repeat_length. lia. }
    pose proof (half_range A). pose proof (half_range t) as Hmt. set (m := (t + 1) / 2) in *.
    pose proof (delta_eq A) as EdA. pose proof (delta_eq t) as Edt. fold m in Edt.
    assert (Heb : forall x, Z.of_nat (eoff x) = 1 \/ Z.of_nat (eoff x) = 2) by (intros []; cbn; lia).
    pose proof (Heb (Z.odd A)). pose proof (Heb (Z.odd t)).
    assert (Hk1' : m + Z.of_nat L + 3 <= k1).
    { pose proof (half_range (A + Z.of_nat (idle + 2 * g + (2 * L + LV)))). unfold t in Hmt. lia. }
    destruct (quiet_stretch ((A + 4) / 2) m) as (_ & HQ & Hset); try lia; auto; [eapply zeros_sub; eauto; lia|].
    specialize (Hset ltac:(lia)).
    assert (HBm : BI B N sg a m) by (unfold BI, sgn1 in *; destruct Hsg as [->| ->]; lia).
    replace (t + Z.of_nat (2 * L)) with (t + 2 * Z.of_nat L) in HU2 by lia.
    assert (HZh : zeros U (t + 2 * Z.of_nat L) (t + 2 * Z.of_nat L + 4)) by (eapply voltage_head; eauto).
    assert (HN : 0 <= N) by (unfold N, Nof; lia).
    assert (HC : follows (Plow a N) (Qhigh a N) 0 (repeat 0 (eoff (Z.odd t)) ++ map (Z.mul sg) W) (dseq Y m (L + eoff (Z.odd t))) /\
      (BI B N sg a (m + Z.of_nat L + Z.of_nat (eoff (Z.odd t))) /\ zeros U (t + 2 * Z.of_nat L - 8) (t + 2 * Z.of_nat L)) /\
      (forall i, m <= i < m + Z.of_nat (eoff (Z.odd t)) -> -599 <= Y i <= 599)).
    { destruct (chars_cps U F B Y N k0 k1 HF HB HY a (Z.odd t) ltac:(lia) Hcl Hid
       (BI B N sg a (m + Z.of_nat L + Z.of_nat (eoff (Z.odd t))) /\ zeros U (t + 2 * Z.of_nat L - 8) (t + 2 * Z.of_nat L)) sg ((0%nat, f) :: r) Hsg t (eoff (Z.odd t))) as (HC1 & HC2).
      - apply Forall_cons_iff in Hby as (Hb1 & Hb2). constructor; auto.
      - auto.
      - apply (zeros_sub U (A - 8) t); auto; lia.
      - exact HU1.
      - fold m. lia.
      - fold m. fold W. fold L. lia.
      - exact HBm.
      - fold m. fold W. fold L. intros HB1 HZ1.
        assert (HZ2 : zeros U (t + 2 * Z.of_nat L - 8) (t + 2 * Z.of_nat L + 4)) by (eapply zeros_join; eauto).
        pose proof (BI_quiet U F B N k0 k1 HF HB sg a (m + Z.of_nat L) (eoff (Z.odd t)) Hsg ltac:(lia) ltac:(lia) ltac:(lia) ltac:(eapply zeros_sub; eauto; lia) HB1) as HQe.
        split; [|split; [apply HQe; lia|auto]]. apply follows_zeros_fn. intros i Hi. apply (BI_out U F B Y N k0 k1 HF HY sg a); auto; try lia; [eapply zeros_sub; eauto; lia|apply HQe; lia].
      - split; [exact HC1|]. split; [exact HC2|].
        intros i Hi. rewrite Nat.add_comm, dseq_app in HC1.
        assert (HLW : (1 <= L)%nat) by (unfold L; rewrite <- EW; rewrite app_length; replace (length (char_wave_short f)) with 175%nat; [lia|symmetry; apply char_balanced; apply Forall_cons_iff in Hby as (Hb1 & _); exact Hb1]).
        pose proof (fun p ys => followsE_app 599 (Plow a N) (Qhigh a N) (repeat 0 (eoff (Z.odd t))) (map (Z.mul sg) W) p ys) as _.
        revert HC1 Hi. clear. intros HC1 Hi. revert HC1. destruct (Z.odd t); cbn [eoff repeat dseq app Z.of_nat] in *.
        + intros (H1 & _). unfold within in H1. cbn in H1. replace i with m by lia. auto.
        + intros (H1 & H2 & _). unfold within in H1, H2. cbn in H1, H2. assert (Hc : i = m \/ i = m + 1) by lia. destruct Hc as [->| ->]; auto. }
    destruct HC as (HCf & (HBe & HZe) & HYe).
    destruct (IH (t + 2 * Z.of_nat L)) as (pkts & mm & Hh & Em & Hr & Hgb); clear IH.
    { rewrite half_up. fold m. lia. }
    { unfold t. replace (A + Z.of_nat (idle + 2 * g) + 2 * Z.of_nat L + Z.of_nat LV) with (A + Z.of_nat (idle + 2 * g + (2 * L + LV))) by lia. auto. }
    { lia. }
    { auto. }
    { auto. }
    { rewrite delta_up, Edt. exists sg, a. split; [auto|]. split; [auto|]. split; [auto|]. replace (m + Z.of_nat (eoff (Z.odd t)) + Z.of_nat L) with (m + Z.of_nat L + Z.of_nat (eoff (Z.odd t))) by lia. auto. }
    rewrite delta_up in Hh, Em.
    set (g' := Z.to_nat ((t + 4) / 2 - (A + 4) / 2)).
    assert (Eg : (A + 4) / 2 + Z.of_nat g' = (t + 4) / 2) by (unfold g'; lia).
    exists (PK g' f r :: pkts), (g' + L + mm)%nat. split; [|split; [|split]].
    + rewrite dseq_app. replace ((A + 4) / 2 + Z.of_nat (g' + L)) with ((t + 4) / 2 + Z.of_nat L) by lia.
      apply (heard_packet _ sg (Plow a N) (Qhigh a N)); auto.
      cbn [pk_chars pk_gap pk_first pk_rest waves]. rewrite EW, map_app, zeros_scale, dseq_app. apply follows_join.
      * apply follows_zeros_fn. intros i Hi. destruct (Z_lt_ge_dec i m); [apply HQ; lia|apply HYe; lia].
      * rewrite last_zeros0, Eg, Edt. rewrite Nat.add_comm, dseq_app in HCf. apply follows_drop in HCf; [|rewrite repeat_length, dseq_length; auto]. rewrite last_zeros0 in HCf. exact HCf.
    + replace (A + Z.of_nat (idle + 2 * g + (2 * L + LV))) with (t + 2 * Z.of_nat L + Z.of_nat LV) by lia. lia.
    + constructor; [|auto]. unfold regap. cbn [pk_first pk_rest pk_gap]. split; [auto|]. split; [auto|]. lia.
    + constructor; [cbn [pk_gap]; lia|]. eapply Forall_impl; [|exact Hgb]. cbv beta. intros p Hp. lia.
Qed.
End LINE.
