(** P_AnaLine.v -- packets on the line in continuous time, converted by the firmware's clock, as the DC blocker puts them out (C102). *)
From Verif Require Import Base M_Dsp M_Clock S_Dsp S_Pio S_Core1 S_Noise S_Clock S_Slow S_Front S_Analog P_Dsp P_PioTc P_FrontDc P_NoiseDet P_NoiseChar P_Noise P_FrontPulse P_Pio P_Chain
  P_FrontChar P_FrontLine P_Clock P_AnaPulse P_AnaTrain.

(** ** Conversions and the sender's cycles *)
Section CONV.
Variables (U : Z -> Z) (G start c a : Z).
Hypothesis Hc : 624432 <= c <= 628000.
(** The first conversion in cycle [p]; the cycle at a conversion. *)
Definition Tn (p : Z) : Z := G + (start + c * p + 313999) / 314000.
Definition Dn (i : Z) : Z := (314000 * (i - G) - start) / c.
Lemma Tn_spec p i : Tn p <= i <-> start + c * p <= 314000 * (i - G).
Proof using. unfold Tn. pose proof (div_bounds (start + c * p + 313999) 314000 ltac:(lia)). split; intros; lia. Qed.
Lemma Tn_Dn p i : Tn p <= i <-> p <= Dn i.
Proof using Hc.
  rewrite Tn_spec. unfold Dn. pose proof (div_bounds (314000 * (i - G) - start) c ltac:(lia)). set (d := (314000 * (i - G) - start) / c) in *. clearbody d. split; intros H1; nia.
Qed.
Lemma Tn_8 p : Tn (p + 8) = Tn p + 15 \/ Tn (p + 8) = Tn p + 16.
Proof using Hc.
  unfold Tn. pose proof (div_bounds (start + c * p + 313999) 314000 ltac:(lia)). pose proof (div_bounds (start + c * (p + 8) + 313999) 314000 ltac:(lia)). lia.
Qed.
Lemma Tn_16 p : Tn p + 31 <= Tn (p + 16).
Proof using Hc.
  unfold Tn. pose proof (div_bounds (start + c * p + 313999) 314000 ltac:(lia)). pose proof (div_bounds (start + c * (p + 16) + 313999) 314000 ltac:(lia)). lia.
Qed.
Lemma Tn_mono p q : p <= q -> Tn p <= Tn q.
Proof using Hc. intros H. unfold Tn. assert ((start + c * p + 313999) / 314000 <= (start + c * q + 313999) / 314000) by (apply Z.div_le_mono; nia). lia. Qed.

Definition carries (p : Z) (l : list Z) : Prop := forall i, Tn p <= i < Tn (p + Z.of_nat (length l)) -> U i = a * nth (Z.to_nat (Dn i - p)) l 0.
Lemma carries_app p x y : carries p (x ++ y) -> carries p x /\ carries (p + Z.of_nat (length x)) y.
Proof using Hc.
  unfold carries. rewrite app_length, Nat2Z.inj_add. intros H. split; intros i Hi.
  - pose proof (Tn_Dn p i). pose proof (Tn_Dn (p + Z.of_nat (length x)) i). pose proof (Tn_mono (p + Z.of_nat (length x)) (p + (Z.of_nat (length x) + Z.of_nat (length y))) ltac:(lia)).
    rewrite H by lia. rewrite app_nth1 by lia. auto.
  - rewrite <- Z.add_assoc in Hi. pose proof (Tn_Dn (p + Z.of_nat (length x)) i). pose proof (Tn_mono p (p + Z.of_nat (length x)) ltac:(lia)).
    rewrite H by lia. rewrite app_nth2 by lia. do 2 f_equal. lia.
Qed.
Lemma carries_repeat p v n i : carries p (repeat v n) -> Tn p <= i < Tn (p + Z.of_nat n) -> U i = a * v.
Proof using Hc.
  unfold carries. rewrite repeat_length. intros H Hi. rewrite H by auto. pose proof (Tn_Dn p i). pose proof (Tn_Dn (p + Z.of_nat n) i).
  rewrite (nth_indep _ 0 v) by (rewrite repeat_length; lia). rewrite nth_repeat. auto.
Qed.
Lemma carries_zeros p n : carries p (repeat 0 n) -> zeros U (Tn p) (Tn (p + Z.of_nat n)).
Proof using Hc. intros H i Hi. rewrite (carries_repeat _ _ _ _ H Hi). lia. Qed.

Lemma symbol_train tau s p : (s = 0 \/ s = tau) -> sgn1 tau -> carries p (symbol_wave s) -> train U a tau (Tn p) (Tn (p + 16)) (if s =? 0 then tau else - tau).
Proof using Hc.
  intros Hss Hs HC. unfold symbol_wave in HC. apply carries_app in HC as (H1 & H2). rewrite repeat_length in H2. apply carries_zeros in H2.
  pose proof (fun i => carries_repeat _ _ _ i H1) as H1'. change (Z.of_nat 8) with 8 in *. replace (p + 8 + 8) with (p + 16) in H2 by lia.
  pose proof (Tn_16 p). destruct (Z.eqb_spec s 0) as [->|Hn].
  - apply tr_quiet; [lia|]. apply (zeros_join U _ (Tn (p + 8))); auto. intros i Hi. rewrite H1' by lia. lia.
  - destruct Hss as [->| ->]; [lia|]. destruct (Tn_8 p) as [E|E]; rewrite E in *.
    + apply (tr_pulse U a tau _ _ _ (Tn p) true); [lia|intros i Hi; lia|intros; apply H1'; lia|eapply zeros_sub; eauto; lia|].
      apply tr_quiet; [lia|]. eapply zeros_sub; eauto; lia.
    + apply (tr_pulse U a tau _ _ _ (Tn p) false); [lia|intros i Hi; lia|intros; apply H1'; lia|eapply zeros_sub; eauto; lia|].
      apply tr_quiet; [lia|]. eapply zeros_sub; eauto; lia.
Qed.
Lemma symbol_len s : length (symbol_wave s) = 16%nat.
Proof using. unfold symbol_wave. rewrite app_length, !repeat_length. auto. Qed.
Lemma bits_train bits : forall tau p, sgn1 tau -> carries p (flat_map symbol_wave (ami tau bits)) -> train U a tau (Tn p) (Tn (p + 16 * Z.of_nat (length bits))) (nextp tau bits).
Proof using Hc.
  induction bits as [|b bits IH]; intros tau p Hs HC.
  - cbn [length nextp]. rewrite Z.mul_0_r, Z.add_0_r. apply tr_quiet; [lia|]. intros i Hi. lia.
  - assert (EB : exists s, ami tau (b :: bits) = s :: ami (if s =? 0 then tau else - tau) bits /\ (s = 0 \/ s = tau) /\ nextp tau (b :: bits) = nextp (if s =? 0 then tau else - tau) bits).
    { destruct b; [exists 0; auto|exists tau]. unfold sgn1 in Hs. destruct (Z.eqb_spec tau 0); [lia|]. auto. }
    destruct EB as (s & E1 & Hss & E2). rewrite E1, E2 in *. cbn [flat_map] in HC. apply carries_app in HC as (H1 & H2). rewrite symbol_len in H2. change (Z.of_nat 16) with 16 in H2.
    eapply train_join; [apply (symbol_train tau s p); auto|]. cbn [length]. rewrite Nat2Z.inj_succ. replace (p + 16 * Z.succ (Z.of_nat (length bits))) with (p + 16 + 16 * Z.of_nat (length bits)) by lia.
    apply IH; auto. unfold sgn1 in *. destruct (s =? 0); lia.
Qed.
Lemma chars_train sg cs : sgn1 sg -> forall p, bytes_ok cs -> carries p (map (Z.mul sg) (waves cs)) -> train U a sg (Tn p) (Tn (p + Z.of_nat (length (waves cs)))) sg.
Proof using Hc.
  intros Hs. induction cs as [|(g & b) cs IH]; intros p Hby HC.
  - cbn [waves length]. change (Z.of_nat 0) with 0. rewrite Z.add_0_r. apply tr_quiet; [lia|]. intros i Hi; lia.
  - apply Forall_cons_iff in Hby as (Hb & Hby). cbn [snd] in Hb. cbn [waves] in *. destruct (char_parts 0 0 true sg b Hb) as (bits & HL & EC & EN).
    assert (LC : length (char_wave_short b) = 175%nat) by (apply char_balanced; auto).
    assert (LW : length (flat_map symbol_wave (ami sg bits)) = 160%nat).
    { apply (f_equal (@length Z)) in EC. rewrite map_length, app_length, repeat_length, LC in EC. lia. }
    rewrite !app_length, repeat_length, LC in *. rewrite !map_app, zeros_scale, EC in HC.
    apply carries_app in HC as (H0 & HC). rewrite repeat_length in HC. rewrite <- app_assoc in HC. apply carries_app in HC as (H1 & HC). rewrite LW in HC. apply carries_app in HC as (H2 & H3). rewrite repeat_length in H3.
    pose proof (Tn_mono p (p + Z.of_nat g) ltac:(lia)).
    apply (train_zeros U a sg (Tn (p + Z.of_nat g))); [lia|apply carries_zeros; auto|].
    pose proof (bits_train bits sg _ Hs H1) as HT. rewrite EN, HL in HT. eapply train_join; [exact HT|]. clear HT. change (16 * Z.of_nat 10) with 160. change (Z.of_nat 160) with 160 in *. change (Z.of_nat 15) with 15 in *.
    apply (train_zeros U a sg (Tn (p + Z.of_nat g + 160 + 15))); [apply Tn_mono; lia|exact (carries_zeros _ 15 H2)|].
    specialize (IH _ Hby H3). replace (p + Z.of_nat (g + (175 + length (waves cs)))) with (p + Z.of_nat g + 160 + 15 + Z.of_nat (length (waves cs))) by lia. exact IH.
Qed.
End CONV.

(** ** Voltages *)
Lemma volts_early n last till x l : Forall (signal_ok 628000 n) l -> forall from, spaced last from till l -> x < from + 880000000 -> volts l x = 0.
Proof.
  induction 1 as [|s l (_ & H1 & H2 & _) Hl IH]; intros from HS Hx; cbn [volts spaced] in *; [auto|]. destruct HS as (HS1 & HS2).
  destruct (Z.leb_spec (sg_start s) x); [lia|]. cbn [andb]. apply (IH _ HS2). unfold sg_end. nia.
Qed.
Lemma spaced_till n till l : Forall (signal_ok 628000 n) l -> forall from, spaced (410 * 314000) from till l -> from + 410 * 314000 <= till.
Proof.
  induction 1 as [|s l (_ & H1 & H2 & _) Hl IH]; intros from HS; cbn [spaced] in *; [auto|]. destruct HS as (HS1 & HS2). specialize (IH _ HS2). unfold sg_end in *. nia.
Qed.

Lemma falls_fn E Y ws : forall prev m, (forall q, (q < length ws)%nat -> nth q ws 0 = 0 -> (match q with O => prev | S p => nth p ws 0 end) * Y (m + Z.of_nat q) <= E) ->
  falls E prev ws (dseq Y m (length ws)).
Proof.
  induction ws as [|w ws IH]; intros prev m H; cbn [length dseq falls]; [auto|]. split.
  - specialize (H 0%nat ltac:(cbn; lia)). cbn [nth] in H. change (Z.of_nat 0) with 0 in H. rewrite Z.add_0_r in H. auto.
  - apply IH. intros q Hq Hz. specialize (H (S q) ltac:(cbn; lia) Hz). cbn [nth] in H. replace (m + 1 + Z.of_nat q) with (m + Z.of_nat (S q)) by lia.
    destruct q; exact H.
Qed.
Lemma half4 t : t + 3 <= 2 * ((t + 4) / 2) <= t + 4. Proof. pose proof (div_bounds (t + 4) 2 ltac:(lia)). lia. Qed.
Lemma half_add3 t : (t + 3 + 1) / 2 = (t + 4) / 2. Proof. f_equal. lia. Qed.
Lemma map_mul_nth sg (l : list Z) k : nth k (map (Z.mul sg) l) 0 = sg * nth k l 0.
Proof. rewrite <- (Z.mul_0_r sg) at 1. apply map_nth. Qed.

(** The first conversion at or after time [x]. *)
Definition convG (G x : Z) : Z := G + (x + 313999) / 314000.
Lemma convG_spec G x i : convG G x <= i <-> x <= 314000 * (i - G).
Proof. unfold convG. pose proof (div_bounds (x + 313999) 314000 ltac:(lia)). split; intros; lia. Qed.

Section LINE2.
Variables (U F B Y : Z -> Z) (n k0 k1 G NT : Z).
Let N := Nof n.
Hypothesis Hn : 0 <= n.
Hypothesis HF : forall k, k0 <= k < k1 -> near N 1 (csum U (2 * k)) (F k).
Hypothesis HB : forall k, k0 <= k < k1 -> brel (B k) (F k) (B (k + 1)).
Hypothesis HY : forall k, k0 <= k < k1 -> yrel (B k) (F k) (Y k).
Hypothesis HNT : (NT + 1) / 2 = k1.
Local Notation conv := (convG G).
Local Notation conv_spec := (convG_spec G).

Lemma analog_heard l : Forall (signal_ok 628000 n) l -> forall from, spaced (410 * 314000) from (314000 * (NT - G)) l -> k0 <= (conv from + 1) / 2 -> NT - conv from < 4000000000 ->
  zeros U (conv from - 8) (conv from) -> (forall i, conv from <= i < NT -> U i = volts l (314000 * (i - G))) -> BS B n ((conv from + 4) / 2) ->
  exists m, heard_slow (map sg_bytes l) (dseq Y ((conv from + 4) / 2) m) /\ (conv from + 4) / 2 + Z.of_nat m = k1.
Proof using Hn HF HB HY HNT.
  assert (HN : 0 <= N) by (unfold N, Nof; lia).
  induction 1 as [|s l Hok Hl IH]; intros from HS Hk0 HL Hz HU HBS.
  - cbn [spaced volts map] in *. set (A := conv from) in *. assert (HA : A + 410 <= NT) by (pose proof (conv_spec from (NT - 410)); fold A in H; lia).
    pose proof (half_range A). pose proof (half_range NT). pose proof (half4 A).
    assert (HZ : zeros U (A - 8) NT) by (apply (zeros_join U _ A); auto).
    destruct (quiet_stretch U F B Y n k0 k1 Hn HF HB HY ((A + 4) / 2) k1) as (_ & HQ & _); auto; try lia; [eapply zeros_sub; eauto; lia|].
    exists (Z.to_nat (k1 - (A + 4) / 2)). split; [|lia]. apply hs_quiet.
    + rewrite dseq_length. lia.
    + rewrite dseq_length. lia.
    + apply Forall_forall. intros y Hy. apply (In_nth _ _ 0) in Hy as (i & Hi & <-). rewrite dseq_length in Hi. rewrite dseq_nth by auto. apply HQ. lia.
  - pose proof Hok as (Hst & Hc1 & Hc2 & Hby & Hlen). cbn [spaced] in HS. destruct HS as (HS1 & HS2).
    pose proof (spaced_till n _ _ Hl _ HS2) as Htill.
    destruct (strong_clear2 n (Z.abs (sg_amp s)) Hst) as (Hcl & Hid). fold N in Hcl, Hid.
    set (a := Z.abs (sg_amp s)) in *. set (sg := if sg_amp s <? 0 then -1 else 1).
    assert (Hsg : sgn1 sg) by (unfold sgn1, sg; destruct (sg_amp s <? 0); lia).
    assert (Eamp : sg_amp s = a * sg) by (unfold a, sg; destruct (Z.ltb_spec (sg_amp s) 0); lia).
    assert (Ha : 0 < a <= 27500) by (unfold strong in Hst; lia).
    set (c := sg_cycle s) in *. set (start := sg_start s) in *. assert (Hc : 624432 <= c <= 628000) by lia.
    set (W := sg_line s) in *. set (L := Z.of_nat (length W)) in *.
    assert (Eend : sg_end s = start + c * L) by reflexivity.
    set (A := conv from) in *.
    pose (T0 := Tn G start c 0). pose (Te := Tn G start c (0 + L)).
    assert (ET : conv (sg_end s) = Te) by (unfold Te, Tn, convG; rewrite Eend; do 3 f_equal; lia).
    assert (HbW : bytes_ok ((0%nat, sg_first s) :: sg_rest s)).
    { unfold sg_bytes in Hby. apply Forall_cons_iff in Hby as (Hb1 & Hb2). constructor; [exact Hb1|]. rewrite Forall_map in Hb2. exact Hb2. }
    assert (Hunits : forall k, nth k W 0 = 0 \/ nth k W 0 = 1 \/ nth k W 0 = -1).
    { intros k. destruct (Nat.lt_ge_cases k (length W)); [|rewrite nth_overflow by lia; auto].
      pose proof (waves_shape 1 _ (or_introl eq_refl) HbW) as (_ & _ & Hu). apply units_unitl in Hu. unfold units in Hu. rewrite Forall_map, Forall_forall in Hu.
      specialize (Hu (nth k W 0) (nth_In _ _ H)). rewrite Z.mul_1_l in Hu. unfold sgn1 in Hu. lia. }
    assert (HLW : 175 <= L).
    { unfold L, W, sg_line. cbn [waves repeat app]. rewrite app_length. apply Forall_cons_iff in Hby as (Hb1 & _). replace (length (char_wave_short (sg_first s))) with 175%nat; [lia|]. symmetry. apply char_balanced. exact Hb1. }
    assert (HT0 : A + 2801 <= T0).
    { pose proof (conv_spec from (T0 - 2801)) as X1. fold A in X1. pose proof (Tn_spec G start c 0 T0) as X2. fold T0 in X2. lia. }
    assert (HT0e : T0 <= Te) by (apply (Tn_mono G start c Hc); lia).
    assert (HTN : Te + 410 <= NT).
    { pose proof (Tn_spec G start c (0 + L) (NT - 410)) as X1. fold Te in X1. rewrite Eend in Htill. lia. }
    (* the voltages *)
    assert (UZ : zeros U (A - 8) T0).
    { apply (zeros_join U _ A); auto. intros i Hi. rewrite HU by lia. cbn [volts]. fold start.
      pose proof (Tn_spec G start c 0 i) as X1. fold T0 in X1. destruct (Z.leb_spec start (314000 * (i - G))); [lia|]. cbn [andb].
      apply (volts_early n _ _ _ _ Hl _ HS2). rewrite Eend. nia. }
    assert (UC : carries U G start c a 0 (map (Z.mul sg) W)).
    { intros i Hi. rewrite map_length in Hi. fold L in Hi. fold T0 Te in Hi. rewrite HU by lia. cbn [volts]. fold start. fold c. fold W. rewrite Eend.
      pose proof (Tn_spec G start c 0 i) as X1. fold T0 in X1. pose proof (Tn_spec G start c (0 + L) i) as X2. fold Te in X2.
      destruct (Z.leb_spec start (314000 * (i - G))); [|lia]. destruct (Z.ltb_spec (314000 * (i - G)) (start + c * L)); [|lia]. cbn [andb].
      rewrite map_mul_nth, Z.sub_0_r. unfold Dn. rewrite Eamp. lia. }
    assert (UE : forall i, Te <= i < NT -> U i = volts l (314000 * (i - G))).
    { intros i Hi. rewrite HU by lia. cbn [volts]. fold start. rewrite Eend. pose proof (Tn_spec G start c (0 + L) i) as X2. fold Te in X2.
      destruct (Z.ltb_spec (314000 * (i - G)) (start + c * L)); [lia|]. rewrite andb_false_r. auto. }
    assert (UZe : zeros U Te (Te + 3)).
    { intros i Hi. rewrite UE by lia. apply (volts_early n _ _ _ _ Hl _ HS2). rewrite Eend. pose proof (Tn_spec G start c (0 + L) (Te - 1)) as X. fold Te in X. rewrite Z.add_0_l in X. lia. }
    pose proof (chars_train U G start c a Hc sg _ Hsg 0 HbW UC) as HT. change (length (waves ((0%nat, sg_first s) :: sg_rest s))) with (length W) in HT. fold L in HT. fold T0 Te in HT.
    pose proof (half_range A). pose proof (half4 A). pose proof (half_range T0). pose proof (half4 T0). pose proof (half4 Te). pose proof (half_range Te). pose proof (half_range NT).
    set (kA := (A + 4) / 2) in *. set (m := (T0 + 1) / 2) in *. set (ks := (T0 + 4) / 2) in *. set (ke := (Te + 4) / 2) in *.
    destruct (quiet_stretch U F B Y n k0 k1 Hn HF HB HY kA m) as (_ & HQ & Hset); auto; [lia|lia|eapply zeros_sub; [exact UZ|lia|lia]|]. specialize (Hset ltac:(lia)). fold N in Hset.
    assert (HBm : BI2 B N sg a m) by (unfold BI2, sgn1 in *; destruct Hsg as [->| ->]; lia).
    assert (HPE : 1700 <= Plow a N /\ 0 <= Ehigh2 a N) by (unfold clear_fall in Hcl; lia).
    destruct (train_out U F B Y N k0 k1 HN HF HB HY a ltac:(lia) (proj1 HPE) (proj2 HPE) Hid sg T0 Te sg HT Hsg) as (Z1 & _ & _); [eapply zeros_sub; [exact UZ|lia|lia]|exact HBm|fold m; lia|lia|].
    destruct (train_out U F B Y N k0 k1 HN HF HB HY a ltac:(lia) (proj1 HPE) (proj2 HPE) Hid sg T0 (Te + 3) sg) as (_ & HBe & Hok2).
    { eapply train_join; [exact HT|]. apply tr_quiet; [lia|auto]. }
    { auto. } { eapply zeros_sub; [exact UZ|lia|lia]. } { exact HBm. } { fold m. lia. } { rewrite half_add3. fold ke. lia. }
    rewrite half_add3 in HBe, Hok2. fold ke in HBe, Hok2. fold m in Hok2.
    destruct (IH (sg_end s)) as (mm & Hh & Em); rewrite ?ET; auto.
    { lia. } { lia. }
    { exists sg, a. split; [auto|]. split; [lia|]. split; [exact Hid|]. apply BI2_BI; [lia|exact HBe]. }
    rewrite ET in Hh, Em. fold ke in Hh, Em.
    assert (I0 : forall k, kA <= k < ks -> ideal U k = 0) by (intros k Hk; unfold ideal; rewrite UZ by lia; reflexivity).
    assert (I1 : ideal U (ks - 1) = 0) by (apply I0; lia).
    (* what the detector should read *)
    set (tau := 314000 * (2 * ks - 3 - G) - start).
    assert (Htau : 0 <= tau < 628000).
    { unfold tau. pose proof (Tn_spec G start c 0 (2 * ks - 3)) as X1. pose proof (Tn_spec G start c 0 (2 * ks - 5)) as X2. fold T0 in X1, X2. lia. }
    set (vs := reads c 628000 tau W).
    pose proof (reads_at c 628000 ltac:(lia) ltac:(lia) W tau Htau) as HR. fold vs in HR.
    assert (Hin : forall q, 0 <= q -> (q < Z.of_nat (length vs) <-> ks + q < ke)).
    { intros q Hq. destruct (HR q Hq) as (X1 & _). rewrite X1. fold L. pose proof (Tn_spec G start c (0 + L) (2 * (ks + q) - 3)) as X2. fold Te in X2. unfold tau. lia. }
    assert (Lvs : Z.of_nat (length vs) = ke - ks).
    { assert (ks <= ke) by (apply Z.div_le_mono; lia). pose proof (Hin (Z.of_nat (length vs)) ltac:(lia)). pose proof (Hin (ke - ks) ltac:(lia)). lia. }
    assert (Ivs : forall q, (q < length vs)%nat -> ideal U (ks + Z.of_nat q) = sg * nth q vs 0).
    { intros q Hq. destruct (HR (Z.of_nat q) ltac:(lia)) as (_ & X). specialize (X ltac:(lia)). rewrite Nat2Z.id in X. rewrite X.
      unfold ideal. pose proof (Hin (Z.of_nat q) ltac:(lia)) as Hq'. rewrite (UC (2 * (ks + Z.of_nat q) - 3)) by (rewrite map_length; fold L; fold T0 Te; lia).
      rewrite map_mul_nth, Z.sub_0_r. unfold Dn. replace (314000 * (2 * (ks + Z.of_nat q) - 3 - G) - start) with (tau + 628000 * Z.of_nat q) by (unfold tau; lia).
      rewrite Z.sgn_mul, (Z.sgn_pos a), Z.mul_1_l by lia. destruct (Hunits (Z.to_nat ((tau + 628000 * Z.of_nat q) / c))) as [E|[E|E]]; rewrite E; unfold sgn1 in Hsg; destruct Hsg as [->| ->]; reflexivity. }
    assert (Ld : dseq Y ks (length vs) = dseq Y ks (length (map (Z.mul sg) vs))) by (rewrite map_length; auto).
    assert (Iq : forall q, (q < length (map (Z.mul sg) vs))%nat -> (match q with O => 0 | S p => nth p (map (Z.mul sg) vs) 0 end) = ideal U (ks + Z.of_nat q - 1) /\ nth q (map (Z.mul sg) vs) 0 = ideal U (ks + Z.of_nat q)).
    { intros q Hq. rewrite map_length in Hq. split; [|rewrite map_mul_nth, Ivs; auto]. destruct q as [|p].
      - change (Z.of_nat 0) with 0. rewrite Z.add_0_r, I1. auto.
      - rewrite map_mul_nth, <- Ivs by lia. f_equal. lia. }
    exists (Z.to_nat (ks - kA) + (length vs + mm))%nat. split; [|lia].
    rewrite dseq_app, dseq_app. replace (kA + Z.of_nat (Z.to_nat (ks - kA))) with ks by lia. replace (ks + Z.of_nat (length vs)) with ke by lia.
    cbn [map]. unfold sg_bytes at 1. apply hs_packet; auto.
    + rewrite dseq_length. lia.
    + rewrite dseq_length. lia.
    + apply Forall_forall. intros y Hy. apply (In_nth _ _ 0) in Hy as (i & Hi & <-). rewrite dseq_length in Hi. rewrite dseq_nth by auto.
      destruct (Z_lt_ge_dec (kA + Z.of_nat i) m); [apply HQ; lia|]. destruct (Hok2 (kA + Z.of_nat i) ltac:(lia)) as (Hw & _). rewrite !I0 in Hw by lia. unfold within in Hw. cbn [Z.eqb] in Hw. exact Hw.
    + exists sg, (Plow a N), (Qhigh2 a N), (Ehigh2 a N), 0%nat, vs. split; [exact Hsg|]. split; [exact Hcl|]. split; [|split; [|split]].
      * apply reads_thinned; auto; lia.
      * rewrite Ld. apply follows_fn. intros q Hq. destruct (Iq q Hq) as (-> & ->). rewrite map_length in Hq. apply Hok2. lia.
      * rewrite Ld. apply falls_fn. intros q Hq. destruct (Iq q Hq) as (-> & ->). rewrite map_length in Hq. apply Hok2. lia.
      * rewrite dseq_length. assert (Elb : Z.of_nat (length (sg_bytes s)) = 1 + Z.of_nat (length (sg_rest s))) by (unfold sg_bytes; cbn [length]; rewrite map_length; lia). rewrite Elb in Hlen.
        destruct (reads_length c 628000 ltac:(lia) ltac:(lia) W tau Htau) as [X|X]; fold vs in X; [|rewrite X; cbn [length]; lia]. fold L in X, Hlen. lia.
Qed.
End LINE2.
