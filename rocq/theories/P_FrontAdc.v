(** P_FrontAdc.v -- ADC, FIR filter, resampler and DC blocker on a line (C94). *)
From Verif Require Import Base M_Dsp M_Adc M_Core1 D_Core1 S_Adc S_Containers S_Dsp S_Pio S_Core1 S_Noise S_Front P_Dsp P_Core1 P_Core1Chain P_PioTc P_FrontDc P_NoiseDet P_NoiseChar P_Noise P_FrontPulse P_Chain P_FrontChar P_FrontLine P_Recover.

Lemma gain_value : firmware_gain = 4992. Proof. vm_compute. reflexivity. Qed.

(** ** ADC *)
Lemma digitised_length n : forall us V rs, digitised n V us rs -> length us = length rs.
Proof. induction us as [|u us IH]; intros V [|r rs] H; cbn in *; try tauto. f_equal. eapply IH. apply H. Qed.
Lemma digitised_three n : forall us V rs i, digitised n V us rs -> (i + 2 < length us)%nat -> exists c,
  -n <= 256 * nth i rs 0 - (c + nth i us 0) <= n /\ -n <= 256 * nth (i + 1) rs 0 - (- c + nth (i + 1) us 0) <= n /\ -n <= 256 * nth (i + 2) rs 0 - (c + nth (i + 2) us 0) <= n.
Proof.
  induction us as [|u us IH]; intros V [|r rs] i H Hi; cbn [digitised length] in *; try tauto; try lia.
  destruct H as (H0 & H). destruct i as [|i].
  - destruct us as [|u1 [|u2 us]]; cbn [length] in Hi; try lia. destruct rs as [|r1 [|r2 rs]]; cbn [digitised] in H; try tauto.
    destruct H as (H1 & H2 & _). rewrite Z.opp_involutive in H2. exists V. cbn [Nat.add nth]. auto.
  - cbn [Nat.add nth]. apply (IH (- V)); auto. lia.
Qed.

Section ADC.
Variables (mem garb us raw : list Z) (n V : Z).
Hypothesis Hn : 0 <= n.
Hypothesis HD : digitised n V us raw.
Let T := garb ++ raw.
Let G := Z.of_nat (length garb).
Definition Uf (i : Z) : Z := if i <? Z.of_nat (length garb) then 0 else nth (Z.to_nat (i - Z.of_nat (length garb))) us 0.
Let xf (i : Z) : Z := value_at firmware_gain mem T i.

Lemma adc_near i : G + 2 <= i -> i < Z.of_nat (length T) -> - (156 * n + 11008) <= 1024 * xf i - 39 * (Uf i + 2 * Uf (i - 1) + Uf (i - 2)) <= 156 * n + 11008.
Proof.
  intros H1 H2. pose proof (digitised_length _ _ _ _ HD) as HL. unfold T in H2. rewrite app_length in H2.
  destruct (digitised_three n us V raw (Z.to_nat (i - 2 - G)) HD) as (c & C0 & C1 & C2); [unfold G in *; lia|].
  unfold xf, value_at, diff_value, sample_at, Uf. fold G. rewrite gain_value.
  destruct (Z.ltb_spec i 0); [unfold G in *; lia|]. destruct (Z.ltb_spec (i - 2) 0); [unfold G in *; lia|]. destruct (Z.ltb_spec (i - 1) 0); [unfold G in *; lia|].
  destruct (Z.ltb_spec i G); [lia|]. destruct (Z.ltb_spec (i - 1) G); [lia|]. destruct (Z.ltb_spec (i - 2) G); [lia|].
  unfold T. rewrite !app_nth2 by (unfold G in *; lia).
  replace (Z.to_nat i - length garb)%nat with (Z.to_nat (i - 2 - G) + 2)%nat by (unfold G in *; lia).
  replace (Z.to_nat (i - 1) - length garb)%nat with (Z.to_nat (i - 2 - G) + 1)%nat by (unfold G in *; lia).
  replace (Z.to_nat (i - 2) - length garb)%nat with (Z.to_nat (i - 2 - G)) by (unfold G in *; lia).
  replace (Z.to_nat (i - G)) with (Z.to_nat (i - 2 - G) + 2)%nat by (unfold G in *; lia).
  replace (Z.to_nat (i - 1 - G)) with (Z.to_nat (i - 2 - G) + 1)%nat by (unfold G in *; lia).
  set (k := Z.to_nat (i - 2 - G)) in *. set (r0 := nth k raw 0) in *. set (r1 := nth (k + 1) raw 0) in *. set (r2 := nth (k + 2) raw 0) in *.
  set (u0 := nth k us 0) in *. set (u1 := nth (k + 1) us 0) in *. set (u2 := nth (k + 2) us 0) in *.
  replace (Z.to_nat (i - 2 - G)) with k by reflexivity. fold r0. fold u0.
  pose proof (Z.quot_rem' (r2 + r0) 2) as E1. pose proof (Z.rem_bound_abs (r2 + r0) 2 ltac:(lia)) as E2.
  set (s := Z.quot (r2 + r0) 2) in *. set (rm := Z.rem (r2 + r0) 2) in *. clearbody s rm r0 r1 r2 u0 u1 u2.
  pose proof (Z.div_mod ((s + r1) * 4992) 256 ltac:(lia)). pose proof (Z.mod_pos_bound ((s + r1) * 4992) 256 ltac:(lia)). lia.
Qed.

(** ** FIR *)
Let xs := values firmware_gain mem T.
Lemma values_length : length xs = length T. Proof. unfold xs, values. rewrite map_length, seq_length. auto. Qed.
Lemma values_nth i : 0 <= i < Z.of_nat (length T) -> nth (Z.to_nat i) xs 0 = xf i.
Proof.
  intros Hi. unfold xs, values. rewrite (nth_indep _ 0 (xf (Z.of_nat 0))) by (rewrite map_length, seq_length; lia).
  rewrite (map_nth (fun i => value_at firmware_gain mem T (Z.of_nat i))). rewrite seq_nth by lia. unfold xf. f_equal. lia.
Qed.
Lemma list7 (l : list Z) i : (i + 6 < length l)%nat -> firstn (i + 7) l = firstn i l ++ [nth i l 0; nth (i + 1) l 0; nth (i + 2) l 0; nth (i + 3) l 0; nth (i + 4) l 0; nth (i + 5) l 0; nth (i + 6) l 0].
Proof.
  revert i. induction l as [|x l IH]; intros i Hi; cbn [length] in Hi; [lia|]. destruct i as [|i].
  - do 6 (destruct l as [|? l]; cbn [length] in Hi; [lia|]). reflexivity.
  - cbn [Nat.add firstn nth app]. f_equal. apply IH. lia.
Qed.
Definition Ff (k : Z) : Z := fir_spec (firstn (Z.to_nat (2 * k + 1)) (values firmware_gain mem (garb ++ raw))).
Lemma F_near k : G + 8 <= 2 * k -> 2 * k < Z.of_nat (length T) -> near (Nof n) 1 (csum Uf (2 * k)) (Ff k).
Proof.
  intros H1 H2. unfold Ff. fold T. fold xs. set (i := 2 * k) in *.
  assert (Hi : 0 <= i) by (unfold G in H1; lia). assert (Hi6 : 0 <= i - 6) by (unfold G in H1; lia).
  replace (Z.to_nat (i + 1)) with (Z.to_nat (i - 6) + 7)%nat by lia.
  rewrite list7 by (rewrite values_length; lia). rewrite fir_spec_window by reflexivity.
  replace (Z.to_nat (i - 6) + 1)%nat with (Z.to_nat (i - 5)) by lia. replace (Z.to_nat (i - 6) + 2)%nat with (Z.to_nat (i - 4)) by lia.
  replace (Z.to_nat (i - 6) + 3)%nat with (Z.to_nat (i - 3)) by lia. replace (Z.to_nat (i - 6) + 4)%nat with (Z.to_nat (i - 2)) by lia.
  replace (Z.to_nat (i - 6) + 5)%nat with (Z.to_nat (i - 1)) by lia. replace (Z.to_nat (i - 6) + 6)%nat with (Z.to_nat i) by lia.
  rewrite !values_nth by lia. cbn [dot taps].
  pose proof (adc_near i ltac:(lia) ltac:(lia)) as A0. pose proof (adc_near (i - 1) ltac:(lia) ltac:(lia)) as A1. pose proof (adc_near (i - 2) ltac:(lia) ltac:(lia)) as A2.
  pose proof (adc_near (i - 3) ltac:(lia) ltac:(lia)) as A3. pose proof (adc_near (i - 4) ltac:(lia) ltac:(lia)) as A4. pose proof (adc_near (i - 5) ltac:(lia) ltac:(lia)) as A5.
  pose proof (adc_near (i - 6) ltac:(lia) ltac:(lia)) as A6.
  rewrite <- !Z.sub_add_distr in *. cbn [Z.add Pos.add Pos.succ Pos.add_carry] in *.
  unfold near, Nof, csum. clearbody xf. clear - A0 A1 A2 A3 A4 A5 A6 Hn.
  pose proof (Uf i) as _.
  set (x0 := xf i) in *. set (x1 := xf (i - 1)) in *. set (x2 := xf (i - 2)) in *. set (x3 := xf (i - 3)) in *. set (x4 := xf (i - 4)) in *. set (x5 := xf (i - 5)) in *. set (x6 := xf (i - 6)) in *.
  set (v0 := Uf i) in *. set (v1 := Uf (i - 1)) in *. set (v2 := Uf (i - 2)) in *. set (v3 := Uf (i - 3)) in *. set (v4 := Uf (i - 4)) in *. set (v5 := Uf (i - 5)) in *. set (v6 := Uf (i - 6)) in *.
  set (v7 := Uf (i - 7)) in *. set (v8 := Uf (i - 8)) in *. clearbody x0 x1 x2 x3 x4 x5 x6 v0 v1 v2 v3 v4 v5 v6 v7 v8.
  match goal with |- context [?d / 32768] => set (D := d) end.
  pose proof (Z.div_mod D 32768 ltac:(lia)). pose proof (Z.mod_pos_bound D 32768 ltac:(lia)). unfold D in *. lia.
Qed.
End ADC.

(** ** DC blocker *)
Fixpoint Bn (F : Z -> Z) (k : nat) : Z := match k with O => 0 | S j => bnext (Bn F j) (F (Z.of_nat j)) end.
Definition Bf (F : Z -> Z) (k : Z) : Z := Bn F (Z.to_nat k).
Definition Yf (F : Z -> Z) (k : Z) : Z := yout (Bf F k) (F k).
Lemma Bf_next F k : 0 <= k -> Bf F (k + 1) = bnext (Bf F k) (F k).
Proof. intros H. unfold Bf. replace (Z.to_nat (k + 1)) with (S (Z.to_nat k)) by lia. cbn [Bn]. rewrite Z2Nat.id by lia. auto. Qed.
Lemma dc_dseq F n : forall c d, 0 <= c -> (forall k, c <= k < c + Z.of_nat n -> -16000 <= F k <= 16000) -> dc_inv d -> dc_x d - 254 * dc_y d / 256 = Bf F c ->
  exists d', mrun dc_update d (dseq F c n) = Ok (d', dseq (Yf F) c n) /\ dc_inv d' /\ dc_x d' - 254 * dc_y d' / 256 = Bf F (c + Z.of_nat n).
Proof.
  induction n as [|n IH]; intros c d Hc HF Hd HB; cbn [dseq mrun].
  - exists d. split; [reflexivity|]. split; [auto|]. rewrite HB. f_equal. lia.
  - destruct (dc_step d (F c) Hd ltac:(apply HF; lia)) as (d1 & E & Hd1 & Ey & Ex). rewrite E; cbn [bind].
    destruct (IH (c + 1) d1 ltac:(lia) ltac:(intros; apply HF; lia) Hd1) as (d2 & E2 & Hd2 & HB2).
    { rewrite Bf_next, Ex by auto. unfold bnext. replace (dc_y d1) with (256 * F c - Bf F c) by lia. set (b := Bf F c). set (f := F c).
      pose proof (Z.div_mod (254 * (256 * f - b)) 256 ltac:(lia)). pose proof (Z.mod_pos_bound (254 * (256 * f - b)) 256 ltac:(lia)).
      pose proof (Z.div_mod (b - 256 * f) 128 ltac:(lia)). pose proof (Z.mod_pos_bound (b - 256 * f) 128 ltac:(lia)). lia. }
    rewrite E2; cbn [bind]. exists d2. split; [|split; [auto|rewrite HB2; f_equal; lia]].
    do 2 f_equal. f_equal. unfold Yf, yout. f_equal. lia.
Qed.
Lemma Bf_bound F c : (forall k, 0 <= k < c -> -16000 <= F k <= 16000) -> forall k, 0 <= k <= c -> -4096127 <= Bf F k <= 4096127.
Proof.
  intros HF k Hk. apply (quiet_keeps F (Bf F) 4096000 (-4096127) 4096127 0 (Z.to_nat k)); try lia.
  - intros i Hi. specialize (HF i ltac:(lia)). lia.
  - intros i Hi. rewrite Bf_next by lia. apply bnext_rel.
  - unfold Bf. cbn. lia.
Qed.

(** ** The chain of core 1 taken apart *)
Fixpoint firs (h xs : list Z) : list Z := match xs with [] => [] | x :: t => fir_spec (h ++ [x]) :: firs (h ++ [x]) t end.
Fixpoint sel (odd : bool) (l : list Z) : list Z := match l with [] => [] | v :: t => if odd then sel false t else v :: sel true t end.
Definition chain_of (s : core1) : lchain := LChain (k_lv s) (k_bit s) (k_ls s).
Definition oddn (n : nat) : bool := Z.odd (Z.of_nat n).
Lemma core1_split xs : forall h s ys d c es, fir_inv h (k_fir s) -> bounded 12000 (h ++ xs) -> k_rs s = RS (if oddn (length h) then 1 else 0) 1 ->
  mrun dc_update (k_dc s) (sel (oddn (length h)) (firs h xs)) = Ok (d, ys) -> mrun lchain_step (chain_of s) ys = Ok (c, es) ->
  exists s' es', mrun core1_sample s xs = Ok (s', es') /\ log_of es' = log_of es /\ chain_of s' = c /\ k_dc s' = d /\ fir_inv (h ++ xs) (k_fir s') /\
    k_rs s' = RS (if oddn (length (h ++ xs)) then 1 else 0) 1.
Proof.
  induction xs as [|x xs IH]; intros h s ys d c es Hf Hb Hr Hd Hl.
  - cbn [firs sel mrun] in *. injection Hd as <- <-. cbn [mrun] in Hl. injection Hl as <- <-. rewrite app_nil_r in *. exists s, []. auto 8.
  - assert (Hx : -12000 <= x <= 12000). { apply bounded_app in Hb as (_ & Hb). inversion Hb; auto. }
    assert (Hb1 : bounded 12000 (h ++ [x])). { apply bounded_app in Hb as (Hb0 & Hb). apply bounded_app. split; [auto|]. constructor; [lia|constructor]. }
    destruct (fir_step h (k_fir s) x Hf ltac:(lia)) as (f' & Ef & Hf').
    assert (EO : oddn (length (h ++ [x])) = negb (oddn (length h))).
    { unfold oddn. rewrite app_length. cbn [length]. rewrite Nat2Z.inj_add. change (Z.of_nat 1) with 1. rewrite Z.odd_add. cbn. destruct (Z.odd (Z.of_nat (length h))); auto. }
    assert (EA : h ++ x :: xs = (h ++ [x]) ++ xs) by (rewrite <- app_assoc; auto). rewrite EA in *.
    cbn [firs sel] in Hd. cbn [mrun]. unfold core1_sample at 1. rewrite Ef; cbn [bind]. rewrite Hr. destruct (oddn (length h)) eqn:O.
    + unfold rs_update. cbn [rs_counter rs_n Z.eqb bind].
      destruct (IH (h ++ [x]) (C1 f' (RS 0 1) (k_dc s) (k_lv s) (k_bit s) (k_ls s)) ys d c es) as (s' & es' & E & L & R); auto.
      { rewrite EO. reflexivity. } { rewrite EO. exact Hd. }
      cbn [Z.add Pos.add Pos.succ]. change (u32 2) with 2. cbn [Z.ltb Z.compare Pos.compare Pos.compare_cont]. rewrite E; cbn [bind]. exists s', (ev_none :: es'). split; [reflexivity|]. split; [|exact R]. cbn [log_of flat_map]. exact L.
    + unfold rs_update. cbn [rs_counter rs_n Z.eqb]. cbn [mrun] in Hd.
      destruct (dc_update (k_dc s) (fir_spec (h ++ [x]))) as [[d1 y]|] eqn:Ed; cbn [bind] in Hd; [|discriminate].
      destruct (mrun dc_update d1 (sel true (firs (h ++ [x]) xs))) as [[d2 ys']|] eqn:Ed2; cbn [bind] in Hd; [|discriminate]. injection Hd as <- <-.
      cbn [mrun] in Hl. destruct (lchain_step (chain_of s) y) as [[c1 e]|] eqn:Ec; cbn [bind] in Hl; [|discriminate].
      destruct (mrun lchain_step c1 ys') as [[c2 es2]|] eqn:Ec2; cbn [bind] in Hl; [|discriminate]. injection Hl as <- <-.
      cbn [bind]. unfold lchain_step, chain_of in Ec. cbn [lc_level lc_bit lc_ls] in Ec.
      destruct (lv_update (fun z => z) (k_lv s) y) as [[lv hy]|]; cbn [bind] in *; [|discriminate].
      destruct (bit_update (k_bit s) hy) as [[b bd]|]; cbn [bind] in *; [|discriminate].
      destruct (line_step (k_ls s) bd) as [[ls e1]|]; cbn [bind] in *; [|discriminate]. injection Ec as <- <-.
      destruct (IH (h ++ [x]) (C1 f' (RS 1 1) d1 lv b ls) ys' d2 c2 es2) as (s' & es' & E & L & R); auto.
      { rewrite EO. reflexivity. } { rewrite EO. exact Ed2. }
      cbn [Z.add Pos.add Pos.succ]. change (u32 1) with 1. cbn [Z.ltb Z.compare Pos.compare Pos.compare_cont]. rewrite E; cbn [bind]. exists s', (e1 :: es'). split; [reflexivity|]. split; [|exact R]. cbn [log_of flat_map]. f_equal. exact L.
Qed.

(** The samples the DC blocker gets, as a function of the index. *)
Lemma sel_dseq X F xs : (forall k, F k = fir_spec (firstn (Z.to_nat (2 * k + 1)) X)) -> forall h t, X = h ++ xs ++ t ->
  sel (oddn (length h)) (firs h xs) = dseq F ((Z.of_nat (length h) + 1) / 2) (Z.to_nat ((Z.of_nat (length h + length xs) + 1) / 2 - (Z.of_nat (length h) + 1) / 2)).
Proof.
  intros HF. induction xs as [|x xs IH]; intros h t EX.
  - cbn [firs sel length]. rewrite Nat.add_0_r, Z.sub_diag. reflexivity.
  - cbn [firs sel length].
    assert (EO : oddn (length (h ++ [x])) = negb (oddn (length h))).
    { unfold oddn. rewrite app_length. cbn [length]. rewrite Nat2Z.inj_add. change (Z.of_nat 1) with 1. rewrite Z.odd_add. cbn. destruct (Z.odd (Z.of_nat (length h))); auto. }
    specialize (IH (h ++ [x]) t ltac:(rewrite EX; rewrite <- app_assoc; reflexivity)). rewrite EO in IH. rewrite app_length in IH. cbn [length] in IH.
    replace (length h + 1 + length xs)%nat with (length h + S (length xs))%nat in IH by lia.
    pose proof (Zdiv2_odd_eqn (Z.of_nat (length h))) as EZ. fold (oddn (length h)) in EZ.
    pose proof (half_range (Z.of_nat (length h))) as H1. pose proof (half_range (Z.of_nat (length h + 1))) as H2. pose proof (half_range (Z.of_nat (length h + S (length xs)))) as H3.
    set (m := (Z.of_nat (length h + S (length xs)) + 1) / 2) in *. set (a := (Z.of_nat (length h) + 1) / 2) in *. set (b := (Z.of_nat (length h + 1) + 1) / 2) in *.
    destruct (oddn (length h)); cbn [negb] in IH.
    + replace b with a in IH by lia. exact IH.
    + replace b with (a + 1) in IH by lia. replace (Z.to_nat (m - a)) with (S (Z.to_nat (m - (a + 1)))) by lia. cbn [dseq]. f_equal; [|exact IH].
      rewrite HF. f_equal. replace (Z.to_nat (2 * a + 1)) with (length h + 1)%nat by lia. rewrite EX, firstn_app_2. reflexivity.
Qed.
