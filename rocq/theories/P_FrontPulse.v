(** P_FrontPulse.v -- one symbol on the line as the DC blocker puts it out (C94). *)
From Verif Require Import Base M_Dsp S_Dsp S_Pio S_Core1 S_Noise S_Front P_Dsp P_FrontDc P_NoiseDet.

(** FIR and ADC together weigh the last nine line voltages with these. *)
Definition ctab : list Z := [-2339; -2861; 11279; 36098; 48594; 36098; 11279; -2861; -2339].
(** A pulse of 16 ADC samples seen every second sample; [par]: it starts at an odd sample. *)
Definition gtab (par : bool) : list Z :=
  if par then [-5200; 42177; 126869; 135287; 132948; 132948; 132948; 132948; 138148; 90771; 6079; -2339; 0; 0; 0; 0]
  else [-2339; 6079; 90771; 138148; 132948; 132948; 132948; 132948; 135287; 126869; 42177; -5200; 0; 0; 0; 0].
Definition eoff (par : bool) : nat := if par then 1 else 2.

Definition near (N v g f : Z) : Prop := - (131072 * N) <= 131072 * (256 * f) - 39 * (v * g) <= 131072 * N.
Lemma near_opp N v g f : near N v g f -> near N (- v) g (- f). Proof. unfold near. rewrite Z.mul_opp_l. lia. Qed.

Definition Plow (a N : Z) : Z := (2339915 * a - 65536 * (2 * N + 382)) / 16777216.
Definition Qhigh (a N : Z) : Z := (2835520 * a + 65536 * (2 * N + 382)) / 16777216.
Definition Nof (n : Z) : Z := 51 * n + 3840.

Lemma strong_clear n a : strong n a -> clear (Plow a (Nof n)) (Qhigh a (Nof n)) /\ 277394 * a + 65536 * (2 * Nof n + 382) <= 65536 * (599 * 256).
Proof.
  unfold strong, clear, Plow, Qhigh, Nof. intros (H0 & H1 & H2 & H3 & H4).
  pose proof (Z.div_mod (2339915 * a - 65536 * (2 * (51 * n + 3840) + 382)) 16777216 ltac:(lia)).
  pose proof (Z.mod_pos_bound (2339915 * a - 65536 * (2 * (51 * n + 3840) + 382)) 16777216 ltac:(lia)).
  pose proof (Z.div_mod (2835520 * a + 65536 * (2 * (51 * n + 3840) + 382)) 16777216 ltac:(lia)).
  pose proof (Z.mod_pos_bound (2835520 * a + 65536 * (2 * (51 * n + 3840) + 382)) 16777216 ltac:(lia)).
  lia.
Qed.

Section PULSE.
Variables (F B Y : Z -> Z) (N m : Z).
Hypothesis HN : 0 <= N.
Hypothesis HB : forall q, 0 <= q < 16 -> brel (B (m + q)) (F (m + q)) (B (m + q + 1)).
Hypothesis HY : forall q, 0 <= q < 16 -> yrel (B (m + q)) (F (m + q)) (Y (m + q)).

Definition htab (par : bool) : list Z :=
  if par then [0;-792;5640;24924;45340;65240;84985;104575;124012;144090;156793;156495;154917;154917;154917;154917;154917]
  else [0;-356;573;14397;35331;55309;75131;94798;114312;134030;152311;157547;155524;155524;155524;155524;155524].
Definition ltab (par : bool) : list Z :=
  if par then [-159744;-159289;-151620;-131108;-109474;-88365;-67421;-46641;-26023;-4774;9091;9946;9511;0;0;0;0]
  else [-159744;-158853;-156686;-141634;-119482;-98295;-77274;-56417;-35723;-14834;4609;10998;10119;0;0;0;0].
Definition orb (par : bool) (a : Z) (q : nat) : Prop :=
  - (65536 * (N + 127)) + nth q (ltab par) 0 * a <= 65536 * B (m + Z.of_nat q) <= 65536 * (N + 127) + nth q (htab par) 0 * a.

Lemma orb_next par a q : 0 <= a -> (q < 16)%nat -> near N a (nth q (gtab par) 0) (F (m + Z.of_nat q)) -> orb par a q -> orb par a (S q).
Proof.
  intros Ha Hq. unfold near, orb. specialize (HB (Z.of_nat q) ltac:(lia)). replace (m + Z.of_nat (S q)) with (m + Z.of_nat q + 1) by lia.
  unfold brel in HB. set (b := B (m + Z.of_nat q)) in *. set (b' := B (m + Z.of_nat q + 1)) in *. set (f := F (m + Z.of_nat q)) in *.
  clearbody b b' f. clear HY. revert Hq HB.
  destruct par; do 16 (destruct q as [|q]; [cbn [nth gtab htab ltab]; intros _ HB; lia|]); lia.
Qed.
Lemma orbit par a : 0 <= a -> (forall q, (q < 16)%nat -> near N a (nth q (gtab par) 0) (F (m + Z.of_nat q))) -> orb par a 0 ->
  forall q, (q <= 16)%nat -> orb par a q.
Proof. intros Ha HF H0. induction q as [|q IH]; intros Hq; [auto|]. apply orb_next; [lia|lia|apply HF; lia|apply IH; lia]. Qed.

(** The ideal line around the pulse, as the detector should see it. *)
Definition wq (par : bool) : list Z := repeat 0 (eoff par) ++ repeat 1 8 ++ repeat 0 (8 - eoff par).
Definition prevq (par : bool) (q : nat) : Z := match q with O => 0 | S p => nth p (wq par) 0 end.
Lemma div_lo x y D : 0 < D -> x <= D * y -> x / D <= y.
Proof. intros. apply Z.div_le_upper_bound; lia. Qed.
Lemma div_hi x y D : 0 < D -> D * y <= x -> y <= x / D.
Proof. intros. apply Z.div_le_lower_bound; lia. Qed.
Lemma pulse_out par a q : 0 <= a -> 277394 * a + 65536 * (2 * N + 382) <= 65536 * (599 * 256) -> 1700 <= Plow a N ->
  (forall q, (q < 16)%nat -> near N a (nth q (gtab par) 0) (F (m + Z.of_nat q))) -> orb par a 0 -> (q < 16)%nat ->
  within (Plow a N) (Qhigh a N) (prevq par q) (nth q (wq par) 0) (Y (m + Z.of_nat q)).
Proof.
  intros Ha Hi HP HF H0 Hq. pose proof (orbit par a Ha HF H0 q ltac:(lia)) as HO. specialize (HF q Hq). specialize (HY (Z.of_nat q) ltac:(lia)).
  assert (HP' : 1700 * 16777216 <= 2339915 * a - 65536 * (2 * N + 382)).
  { unfold Plow in HP. pose proof (Z.div_mod (2339915 * a - 65536 * (2 * N + 382)) 16777216 ltac:(lia)).
    pose proof (Z.mod_pos_bound (2339915 * a - 65536 * (2 * N + 382)) 16777216 ltac:(lia)). lia. }
  unfold orb in HO. unfold near in HF. unfold yrel in HY. clear HB.
  set (b := B (m + Z.of_nat q)) in *. set (y := Y (m + Z.of_nat q)) in *. set (f := F (m + Z.of_nat q)) in *. clearbody b y f.
  revert Hq HF HO. unfold within.
  destruct par; do 16 (destruct q as [|q];
    [cbn [nth gtab htab ltab wq eoff repeat app Nat.sub prevq Z.eqb Pos.eqb]; rewrite ?Z.mul_1_l; intros _ HF HO; split;
      first [lia | apply div_lo; lia | apply div_hi; lia]|]); lia.
Qed.
End PULSE.
