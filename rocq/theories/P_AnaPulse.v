(** P_AnaPulse.v -- one symbol on the line, converted by the firmware's clock, as the DC blocker puts it out (C102). *)
From Verif Require Import Base M_Dsp S_Dsp S_Pio S_Core1 S_Noise S_Slow S_Front P_Dsp P_FrontDc P_NoiseDet P_FrontPulse P_FrontChar P_Chain.

(** A pulse of 16 ([short]: 15) conversions, seen every second conversion; [par]: it starts at an odd one. *)
Definition gtab2 (par short : bool) : list Z :=
  match par, short with
  | false, true => [-2339;6079;90771;138148;132948;132948;132948;132948;138148;90771;6079;-2339;0]
  | false, false => [-2339;6079;90771;138148;132948;132948;132948;132948;135287;126869;42177;-5200;0]
  | true, true => [-5200;42177;126869;135287;132948;132948;132948;135287;126869;42177;-5200;0;0]
  | true, false => [-5200;42177;126869;135287;132948;132948;132948;132948;138148;90771;6079;-2339;0]
  end.
(** The ideal line there, and the baseline before. *)
Definition wtab2 (par short : bool) : list Z :=
  match par, short with
  | false, true => [0;0;1;1;1;1;1;1;1;0;0;0;0]
  | false, false => [0;0;1;1;1;1;1;1;1;1;0;0;0]
  | true, true => [0;1;1;1;1;1;1;1;1;0;0;0;0]
  | true, false => [0;1;1;1;1;1;1;1;1;0;0;0;0]
  end.
Definition htab2 (par short : bool) : list Z :=
  match par, short with
  | false, true => [0;-356;573;14397;35331;55309;75131;94798;114312;134465;147243;147019;145515;144379]
  | false, false => [0;-356;573;14397;35331;55309;75131;94798;114312;134030;152311;157547;155524;154309]
  | true, true => [0;-792;5640;24924;45340;65240;84985;104575;124369;142726;148037;146089;144948;143816]
  | true, false => [0;-792;5640;24924;45340;65240;84985;104575;124012;144090;156793;156495;154917;153707]
  end.
Definition ltab2 (par short : bool) : list Z :=
  match par, short with
  | false, true => [-156000;-155138;-153000;-137977;-115854;-94696;-73703;-52874;-32208;-10911;3002;3904;3517;3489]
  | false, false => [-156000;-155138;-153000;-137977;-115854;-94696;-73703;-52874;-32208;-11347;8069;14431;13526;13420]
  | true, true => [-156000;-155574;-147934;-127451;-105846;-84766;-63850;-43098;-22152;-2652;3794;2972;2948;2924]
  | true, false => [-156000;-155574;-147934;-127451;-105846;-84766;-63850;-43098;-22508;-1287;12551;13379;12918;12817]
  end.

Definition Qhigh2 (a N : Z) : Z := (2831863 * a + 65536 * (2 * N + 382)) / 16777216.
Definition Ehigh2 (a N : Z) : Z := (1780946 * a + 65536 * (2 * N + 382)) / 16777216.
Lemma div_bounds x d : 0 < d -> d * (x / d) <= x < d * (x / d) + d.
Proof. intros H. pose proof (Z.div_mod x d ltac:(lia)). pose proof (Z.mod_pos_bound x d H). lia. Qed.
Lemma strong_clear2 n a : strong n a -> clear_fall (Plow a (Nof n)) (Qhigh2 a (Nof n)) (Ehigh2 a (Nof n)) /\ 277394 * a + 65536 * (2 * Nof n + 382) <= 65536 * (599 * 256).
Proof.
  unfold strong, clear_fall, Plow, Qhigh2, Ehigh2, Nof. intros (H0 & H1 & H2 & H3 & H4).
  pose proof (div_bounds (2339915 * a - 65536 * (2 * (51 * n + 3840) + 382)) 16777216 ltac:(lia)).
  pose proof (div_bounds (2831863 * a + 65536 * (2 * (51 * n + 3840) + 382)) 16777216 ltac:(lia)).
  pose proof (div_bounds (1780946 * a + 65536 * (2 * (51 * n + 3840) + 382)) 16777216 ltac:(lia)).
  lia.
Qed.

Section PULSE2.
Variables (F B Y : Z -> Z) (N m : Z).
Hypothesis HN : 0 <= N.
Hypothesis HB : forall q, 0 <= q < 13 -> brel (B (m + q)) (F (m + q)) (B (m + q + 1)).
Hypothesis HY : forall q, 0 <= q < 13 -> yrel (B (m + q)) (F (m + q)) (Y (m + q)).

Definition orb2 (par sh : bool) (a : Z) (q : nat) : Prop :=
  - (65536 * (N + 127)) + nth q (ltab2 par sh) 0 * a <= 65536 * B (m + Z.of_nat q) <= 65536 * (N + 127) + nth q (htab2 par sh) 0 * a.

Lemma orb2_next par sh a q : 0 <= a -> (q < 13)%nat -> near N a (nth q (gtab2 par sh) 0) (F (m + Z.of_nat q)) -> orb2 par sh a q -> orb2 par sh a (S q).
Proof using HB.
  intros Ha Hq. unfold near, orb2. specialize (HB (Z.of_nat q) ltac:(lia)). replace (m + Z.of_nat (S q)) with (m + Z.of_nat q + 1) by lia.
  unfold brel in HB. set (b := B (m + Z.of_nat q)) in *. set (b' := B (m + Z.of_nat q + 1)) in *. set (f := F (m + Z.of_nat q)) in *.
  clearbody b b' f. revert Hq HB.
  destruct par, sh; do 13 (destruct q as [|q]; [cbn [nth gtab2 htab2 ltab2]; intros _ HB; lia|]); lia.
Qed.
Lemma orbit2 par sh a : 0 <= a -> (forall q, (q < 13)%nat -> near N a (nth q (gtab2 par sh) 0) (F (m + Z.of_nat q))) -> orb2 par sh a 0 ->
  forall q, (q <= 13)%nat -> orb2 par sh a q.
Proof using HB. intros Ha HF H0. induction q as [|q IH]; intros Hq; [auto|]. apply orb2_next; [lia|lia|apply HF; lia|apply IH; lia]. Qed.

Definition prev2 (par sh : bool) (q : nat) : Z := match q with O => 0 | S p => nth p (wtab2 par sh) 0 end.
Lemma pulse_out2 par sh a q : 0 <= a -> 277394 * a + 65536 * (2 * N + 382) <= 65536 * (599 * 256) -> 1700 <= Plow a N -> 0 <= Ehigh2 a N ->
  (forall q, (q < 13)%nat -> near N a (nth q (gtab2 par sh) 0) (F (m + Z.of_nat q))) -> orb2 par sh a 0 -> (q < 13)%nat ->
  within (Plow a N) (Qhigh2 a N) (prev2 par sh q) (nth q (wtab2 par sh) 0) (Y (m + Z.of_nat q)) /\
  (nth q (wtab2 par sh) 0 = 0 -> prev2 par sh q * Y (m + Z.of_nat q) <= Ehigh2 a N).
Proof using HB HY.
  intros Ha Hi HP HE HF H0 Hq. pose proof (orbit2 par sh a Ha HF H0 q ltac:(lia)) as HO. specialize (HF q Hq). specialize (HY (Z.of_nat q) ltac:(lia)).
  assert (HP' : 1700 * 16777216 <= 2339915 * a - 65536 * (2 * N + 382)).
  { unfold Plow in HP. pose proof (div_bounds (2339915 * a - 65536 * (2 * N + 382)) 16777216 ltac:(lia)). lia. }
  unfold orb2 in HO. unfold near in HF. unfold yrel in HY. clear HB H0.
  set (b := B (m + Z.of_nat q)) in *. set (y := Y (m + Z.of_nat q)) in *. set (f := F (m + Z.of_nat q)) in *. clearbody b y f.
  revert Hq HF HO. unfold within.
  destruct par, sh; do 13 (destruct q as [|q];
    [cbn [nth gtab2 htab2 ltab2 wtab2 prev2 Z.eqb Pos.eqb]; rewrite ?Z.mul_1_l, ?Z.mul_0_l; intros _ HF HO; split;
      [split; first [lia | apply div_lo; lia | apply div_hi; lia]|first [discriminate | intros _; first [exact HE | apply div_hi; lia]]]|]); lia.
Qed.
End PULSE2.

Lemma csum_pulse2 U t v q sh : zeros U (t - 8) t -> (forall i, t <= i < t + (if sh : bool then 15 else 16) -> U i = v) -> zeros U (t + (if sh then 15 else 16)) (t + 31) -> (q < 13)%nat ->
  csum U (2 * ((t + 1) / 2 + Z.of_nat q)) = v * nth q (gtab2 (Z.odd t) sh) 0 /\
  U (2 * ((t + 1) / 2 + Z.of_nat q) - 3) = v * nth q (wtab2 (Z.odd t) sh) 0.
Proof.
  intros H0 H1 H2 Hq.
  assert (HV : forall d, -8 <= d < 31 -> U (t + d) = if (0 <=? d) && (d <? (if sh then 15 else 16)) then v else 0).
  { intros d Hd. destruct (Z.leb_spec 0 d), (Z.ltb_spec d (if sh then 15 else 16)); cbn [andb]; [apply H1; lia|apply H2; lia|apply H0; lia|destruct sh; lia]. }
  set (pz := if Z.odd t then 1 else 0).
  assert (E : 2 * ((t + 1) / 2) = t + pz).
  { unfold pz. pose proof (Zdiv2_odd_eqn t) as E. pose proof (div_bounds (t + 1) 2 ltac:(lia)). destruct (Z.odd t); lia. }
  rewrite Z.mul_add_distr_l, E. unfold csum. unfold pz. clear pz E H0 H1 H2.
  replace (t + (if Z.odd t then 1 else 0) + 2 * Z.of_nat q) with (t + ((if Z.odd t then 1 else 0) + 2 * Z.of_nat q)) by lia.
  rewrite <- !Z.add_sub_assoc. revert Hq.
  destruct (Z.odd t), sh; do 13 (destruct q as [|q];
    [intros _; cbn [nth gtab2 wtab2]; rewrite !HV by lia;
     repeat match goal with |- context [if ?c then v else 0] => let x := eval compute in c in change c with x; cbv iota end; split; lia|]); lia.
Qed.
