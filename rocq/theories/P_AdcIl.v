(** P_AdcIl.v -- the ADC ring with DMA transfers while Update runs. *)
From Verif Require Import Base M_Adc M_AdcIl S_Pio S_Adc S_AdcIl D_Adc D_AdcIl P_Adc.

Definition arr (a : adc) (w : list Z) : adc := ADC (ring_writes (ad_ring a) w) (ad_tc a) (ad_off a) (ad_error a) (ad_gain a).

Lemma arr_nil a : arr a [] = a.
Proof. destruct a. reflexivity. Qed.
Lemma arr_app a w w' : arr (arr a w) w' = arr a (w ++ w').
Proof. unfold arr, ring_writes. cbn [ad_ring ad_tc ad_off ad_error ad_gain]. rewrite fold_left_app. reflexivity. Qed.
Lemma add_app v w w' : add v (w ++ w') = add (add v w) w'.
Proof. unfold add. apply fold_left_app. Qed.

Lemma arr_inv mem gain w : forall v a, adc_inv mem gain v a -> ring_rng a -> Forall sample_range w ->
  adc_inv mem gain (add v w) (arr a w) /\ ring_rng (arr a w).
Proof.
  induction w as [|x t IH]; intros v a I R F.
  - rewrite arr_nil. auto.
  - inversion F as [|? ? F1 F2]; subst. destruct (sample_step mem gain v a x I F1) as (a1 & S1 & I1 & _).
    cbn [adc_event] in S1. inversion S1 as [E1]. clear S1. rewrite <- E1 in I1.
    change (x :: t) with ([x] ++ t). rewrite add_app, <- arr_app. apply IH; auto.
    intros y Hy. cbn [arr ad_ring ring_writes fold_left] in Hy. unfold ring_write in Hy.
    destruct (rg_tc (ad_ring a) =? 0); [apply R; auto|]. cbn [rg_data] in Hy. apply in_upd in Hy as [->|Hy]; auto.
Qed.

Lemma add_next w : forall v, next (add v w) = next v.
Proof.
  induction w as [|x t IH]; intros v; [reflexivity|]. change (x :: t) with ([x] ++ t). rewrite add_app, IH. cbn. destruct (left v =? 0); reflexivity.
Qed.
Lemma add_sum w : forall v, count (add v w) + left (add v w) = count v + left v.
Proof.
  induction w as [|x t IH]; intros v; [reflexivity|]. change (x :: t) with ([x] ++ t). rewrite add_app, IH. cbn.
  destruct (left v =? 0); [reflexivity|]. unfold count. cbn [transferred left]. rewrite app_length. cbn [length]. lia.
Qed.
Lemma add_ext w : forall v, exists X, transferred (add v w) = transferred v ++ X.
Proof.
  induction w as [|x t IH]; intros v; [exists []; cbn; rewrite app_nil_r; reflexivity|].
  change (x :: t) with ([x] ++ t). rewrite add_app. destruct (IH (add v [x])) as (X & E). rewrite E. cbn.
  destruct (left v =? 0); [eauto|]. cbn [transferred]. rewrite <- app_assoc. eauto.
Qed.

(** The three cells Update reads. *)
Lemma cell mem gain v a i : adc_inv mem gain v a -> ring_rng a ->
  exists x, aget (rg_data (ad_ring a)) (Z.to_nat (u8 i)) = Ok x /\ sample_range x /\
    (forall j, i mod 256 = j mod 256 -> count v - 256 <= j < count v -> x = sample_at mem (transferred v) j).
Proof.
  intros I R. destruct I. rewrite adc_len_aget by auto. eexists. split; [reflexivity|]. split.
  - apply R. apply nth_In. pose proof (Z.mod_pos_bound i 256). lia.
  - intros j E Hj. rewrite E. auto.
Qed.

Lemma poll_il mem gain v a c w1 w2 w3 w4 : Forall sample_range mem -> ring_rng a -> adc_inv mem gain v a -> gain_ok gain ->
  Forall sample_range (w1 ++ w2 ++ w3 ++ w4) ->
  exists a' r, il_event a (IPoll c w1 w2 w3 w4) = Ok (a', Some r) /\ adc_inv mem gain (fst (il_step v (IPoll c w1 w2 w3 w4))) a' /\ ring_rng a' /\
    match snd (il_step v (IPoll c w1 w2 w3 w4)) with
    | Some INone => r = None /\ ad_error a' = (ad_error a || ((left v =? 0) && negb c))
    | Some (IData i p0 p1) => exists val err, r = Some (val, err) /\ 0 <= i < count (fst (il_step v (IPoll c w1 w2 w3 w4))) /\
        (p1 <= 254 -> val = value_at gain mem (transferred (fst (il_step v (IPoll c w1 w2 w3 w4)))) i) /\
        err = ((256 <=? p0) || (ad_error a || ((left v =? 0) && negb c))) /\ ad_error a' = false
    | None => False
    end.
Proof.
  intros Hmem Hr I Hg F. apply Forall_app in F as (F1 & F). pose proof F as F234. apply Forall_app in F as (F2 & F). apply Forall_app in F as (F3 & F4).
  assert (Lz : let v1 := if left v =? 0 then add (View (transferred v) (count v) BLOCK) w1 else v in left v1 = 0 -> 1 < count v1 - next v1).
  { cbv zeta. destruct (Z.eqb_spec (left v) 0) as [E|E]; [|lia]. pose proof (add_sum w1 (View (transferred v) (count v) BLOCK)) as S.
    rewrite add_next. intros Z0. rewrite Z0 in S. cbn [left next] in *. change (count (View _ _ BLOCK)) with (count v) in S. unfold BLOCK in *. lia. }
  cbv zeta in Lz.
  (* the state after a possible restart *)
  assert (A : exists a1, adc_inv mem gain (if left v =? 0 then add (View (transferred v) (count v) BLOCK) w1 else v) a1 /\ ring_rng a1 /\
    ad_error a1 = (ad_error a || ((left v =? 0) && negb c)) /\
    il_begin c w1 a = a1).
  { unfold il_begin. rewrite (ai_hw _ _ _ _ I). destruct (Z.eqb_spec (left v) 0) as [E|E].
    - destruct (poll_step mem gain v a c Hmem Hr I Hg) as (a0 & r & S1 & I0 & R0 & M).
      cbn [adc_event] in S1. unfold adc_poll, adc_update in S1. rewrite (ai_hw _ _ _ _ I) in S1. cbn [spec_step] in I0, M. rewrite E in S1, I0, M. cbn [Z.eqb fst snd] in S1, I0, M.
      cbv zeta in S1. change (ad_tc (adc_dma_restart _)) with TC_INIT in S1. change (rg_tc (ad_ring (adc_dma_restart _))) with TC_INIT in S1.
      rewrite Z.eqb_refl in S1. cbn [bind] in S1. inversion S1 as [[E0 Er]]. clear S1.
      destruct (arr_inv mem gain w1 _ _ I0 R0 F1) as (I1 & R1). exists (arr a0 w1). split; [exact I1|]. split; [exact R1|].
      destruct M as (_ & Me). split; [cbn [arr ad_error]; rewrite Me; reflexivity|]. rewrite <- E0. reflexivity.
    - exists a. cbn [andb]. rewrite orb_false_r. auto. }
  destruct A as (a1 & I1 & R1 & Er & Ea). cbn [il_event]. unfold adc_poll_il, adc_update_il. cbv zeta. rewrite Ea. clear Ea. cbn [il_step].
  set (v1 := if left v =? 0 then add (View (transferred v) (count v) BLOCK) w1 else v) in *. clearbody v1. cbv zeta.
  rewrite (ai_hw _ _ _ _ I1), (ai_tc _ _ _ _ I1). pose proof (ai_next _ _ _ _ I1) as Nx. pose proof (ai_left _ _ _ _ I1) as Lf. pose proof (ai_pend _ _ _ _ I1) as Pd.
  replace (left v1 + (count v1 - next v1) =? left v1) with (next v1 =? count v1).
  2:{ destruct (Z.eqb_spec (next v1) (count v1)), (Z.eqb_spec (left v1 + (count v1 - next v1)) (left v1)); auto; lia. }
  destruct (Z.eqb_spec (next v1) (count v1)) as [En|En].
  - cbn [bind]. eexists _, _. split; [reflexivity|]. cbn [fst snd]. auto.
  - rewrite (u32_id (left v1 + (count v1 - next v1) - left v1)) by (unfold BLOCK in *; lia).
    replace (left v1 + (count v1 - next v1) - left v1) with (count v1 - next v1) by lia.
    rewrite land_high by (unfold BLOCK in *; lia).
    destruct (arr_inv mem gain w2 _ _ I1 R1 F2) as (I2 & R2). destruct (arr_inv mem gain w3 _ _ I2 R2 F3) as (I3 & R3). destruct (arr_inv mem gain w4 _ _ I3 R3 F4) as (I4 & R4).
    change (ring_writes (ad_ring a1) w2) with (ad_ring (arr a1 w2)).
    change (ring_writes (ad_ring (arr a1 w2)) w3) with (ad_ring (arr (arr a1 w2) w3)).
    change (ring_writes (ad_ring (arr (arr a1 w2) w3)) w4) with (ad_ring (arr (arr (arr a1 w2) w3) w4)).
    destruct (cell mem gain _ _ (ad_off a1 - 0) I2 R2) as (x1 & G1 & X1 & V1).
    destruct (cell mem gain _ _ (ad_off a1 - 2) I3 R3) as (x2 & G2 & X2 & V2).
    destruct (cell mem gain _ _ (ad_off a1 - 1) I4 R4) as (y & G3 & X3 & V3).
    rewrite G1. cbn [bind]. rewrite G2. cbn [bind]. rewrite G3. cbn [bind]. clear G1 G2 G3.
    unfold sample_range in X1, X2, X3.
    assert (Q : -16000 <= Z.quot (x1 + x2) 2 <= 16000).
    { split; [change (-16000) with (Z.quot (-32000) 2)|change 16000 with (Z.quot 32000 2)]; apply Z.quot_le_mono; lia. }
    rewrite (s16_id (Z.quot (x1 + x2) 2)) by lia. rewrite s16_id by lia.
    rewrite (ai_gain _ _ _ _ I1). unfold gain_ok in Hg. rewrite chk32_ok by nia. cbn [bind adc_read_error].
    eexists _, _. split; [reflexivity|]. cbn [fst snd ad_ring ad_error].
    set (w := w2 ++ w3 ++ w4) in *.
    assert (Ea : arr (arr (arr a1 w2) w3) w4 = arr a1 w) by (rewrite !arr_app; reflexivity).
    assert (Ew : add (add (add v1 w2) w3) w4 = add v1 w) by (unfold w; rewrite !add_app; reflexivity).
    rewrite Ea, Ew in I4. rewrite Ea in R4 |- *.
    destruct (add_ext w v1) as (X & HX). pose proof (add_next w v1) as HN.
    assert (HC : count v1 <= count (add v1 w)) by (unfold count; rewrite HX, app_length; lia).
    split; [|split; [exact R4|]].
    + destruct (add v1 w) as [T n lf] eqn:Ev. cbn [transferred next left] in *. destruct I4 as [L1 L2 L3 L4 L5 Llag L6 L7 L8 L9 L10 L11 L12].
      unfold count in *. cbn [transferred next left] in *. cbn [arr ad_ring ad_tc ad_off ad_gain ad_error] in *.
      constructor; cbn [ad_ring ad_tc ad_off ad_gain next left transferred]; unfold count; cbn [transferred]; auto; try lia.
      * pose proof (add_sum w v1) as S. rewrite Ev in S. unfold count in S. cbn [left transferred] in S. lia.
      * pose proof (add_sum w v1) as S. rewrite Ev in S. unfold count in S. cbn [left transferred] in S. rewrite u32_id by (unfold BLOCK in *; lia). lia.
      * unfold u8. rewrite (ai_off _ _ _ _ I1), Zplus_mod_idemp_l, HN. reflexivity.
    + eexists _, _. split; [reflexivity|]. cbn [transferred next left]. unfold count at 1. cbn [transferred]. fold (count (add v1 w)). split; [lia|]. split; [|split; [|reflexivity]].
      * intros Hp. rewrite asr_div by lia. change (2 ^ 8) with 256. unfold value_at, diff_value.
        destruct (add_ext w2 v1) as (Xa & HXa). destruct (add_ext w3 (add v1 w2)) as (Xb & HXb). destruct (add_ext w4 (add (add v1 w2) w3)) as (Xc & HXc).
        assert (C2 : count v1 <= count (add v1 w2)) by (unfold count; rewrite HXa, app_length; lia).
        assert (C3 : count (add v1 w2) <= count (add (add v1 w2) w3)) by (unfold count; rewrite HXb, app_length; lia).
        assert (C4 : count (add (add v1 w2) w3) <= count (add v1 w)) by (unfold count; rewrite <- Ew, HXc, app_length; lia).
        pose proof (ai_off _ _ _ _ I1) as Of.
        assert (P : forall T' Y j, T' = transferred v1 ++ Y -> j < count v1 -> sample_at mem T' j = sample_at mem (transferred v1) j).
        { intros T' Y j -> Hj. unfold sample_at. destruct (Z.ltb_spec j 0); auto. rewrite app_nth1; auto. unfold count in Hj. lia. }
        rewrite (V1 (next v1)); [|rewrite Of, Z.sub_0_r, Z.mod_mod by lia; reflexivity|lia].
        rewrite (V2 (next v1 - 2)); [|rewrite Of, Zminus_mod_idemp_l; reflexivity|lia].
        rewrite (V3 (next v1 - 1)); [|rewrite Of, Zminus_mod_idemp_l; reflexivity|rewrite Ew; lia].
        rewrite Ew.
        rewrite (P (transferred (add v1 w2)) Xa) by (auto; lia).
        rewrite (P (transferred (add (add v1 w2) w3)) (Xa ++ Xb)) by (try lia; rewrite HXb, HXa, app_assoc; reflexivity).
        rewrite !(P (transferred (add v1 w)) X) by (auto; lia). reflexivity.
      * rewrite Er. rewrite <- Z.leb_antisym. destruct (256 <=? count v1 - next v1); reflexivity.
Qed.

Lemma il_step_ext v e : exists X, transferred (fst (il_step v e)) = transferred v ++ X.
Proof.
  destruct e as [x|c w1 w2 w3 w4]; cbn [il_step]; [apply (add_ext [x])|].
  set (v1 := if left v =? 0 then _ else v). assert (E : exists X, transferred v1 = transferred v ++ X).
  { unfold v1. destruct (left v =? 0); [|exists []; rewrite app_nil_r; reflexivity]. destruct (add_ext w1 (View (transferred v) (count v) BLOCK)) as (X & ->). eauto. }
  clearbody v1. destruct E as (X & E). destruct (next v1 =? count v1); cbn [fst transferred]; [eauto|].
  destruct (add_ext (w2 ++ w3 ++ w4) v1) as (Y & ->). rewrite E, <- app_assoc. eauto.
Qed.
Lemma il_run_ext l : forall v, exists X, transferred (fst (il_run v l)) = transferred v ++ X.
Proof.
  induction l as [|e t IH]; intros v; cbn [il_run]; [exists []; cbn; rewrite app_nil_r; auto|].
  destruct (il_step_ext v e) as (X & HX). destruct (il_step v e) as [v1 o]. cbn [fst] in HX.
  destruct (IH v1) as (Y & HY). destruct (il_run v1 t) as [v2 os]. cbn [fst] in *. rewrite HY, HX, <- app_assoc. eauto.
Qed.

Lemma il_runs mem gain l : Forall sample_range mem -> gain_ok gain -> forall v a,
  adc_inv mem gain v a -> ring_rng a -> Forall il_range l ->
  exists a' outs, mrun il_event a l = Ok (a', outs) /\
    adc_inv mem gain (fst (il_run v l)) a' /\ ring_rng a' /\
    Forall2 (il_ok gain mem (transferred (fst (il_run v l)))) (snd (il_run v l)) outs /\
    (Forall il_clean l -> ad_error a = false -> Forall2 il_exact (snd (il_run v l)) outs).
Proof.
  intros Hmem Hg. induction l as [|e t IH]; intros v a I R He; cbn [mrun il_run].
  - eexists _, _. split; [reflexivity|]. cbn. auto.
  - inversion He as [|? ? H1 H2]; subst.
    pose proof (il_run_ext t (fst (il_step v e))) as HX. destruct e as [x|c w1 w2 w3 w4].
    + destruct (arr_inv mem gain [x] v a I R ltac:(constructor; [exact H1|constructor])) as (I1 & R1).
      cbn [il_event bind]. change (ADC (ring_write (ad_ring a) x) (ad_tc a) (ad_off a) (ad_error a) (ad_gain a)) with (arr a [x]).
      cbn [il_step fst] in *.
      destruct (IH (add v [x]) (arr a [x]) I1 R1 H2) as (a2 & outs & R2 & I2 & Rg2 & F & G). rewrite R2; cbn [bind].
      destruct (il_run (add v [x]) t) as [v2 os]. cbn [fst snd] in *.
      eexists _, _. split; [reflexivity|]. split; auto. split; auto. split.
      * constructor; [exact Logic.I|exact F].
      * intros Hc Ha. inversion Hc; subst. constructor; [exact Logic.I|]. apply G; auto.
    + destruct (poll_il mem gain v a c w1 w2 w3 w4 Hmem R I Hg H1) as (a1 & r & S1 & I1 & R1 & Hm). rewrite S1; cbn [bind].
      destruct (il_step v (IPoll c w1 w2 w3 w4)) as [v1 o] eqn:E. cbn [fst snd] in I1, Hm, HX.
      destruct (IH v1 a1 I1 R1 H2) as (a2 & outs & R2 & I2 & Rg2 & F & G). rewrite R2; cbn [bind].
      destruct (il_run v1 t) as [v2 os]. cbn [fst snd] in *. destruct HX as (X & HX).
      eexists _, _. split; [reflexivity|]. split; auto. split; auto.
      destruct o as [[|i p0 p1]|]; [|destruct Hm as (val & err & -> & Hi & Hv & Herr & Ha1)|contradiction].
      * destruct Hm as (-> & Hkeep). split.
        -- constructor; [exact Logic.I|exact F].
        -- intros Hc Ha. inversion Hc as [|? ? Hc1 Hc2]; subst. constructor; [exact Logic.I|]. apply G; auto. rewrite Hkeep, Ha. cbn in Hc1. rewrite Hc1. apply andb_false_r.
      * split.
        -- constructor; [|exact F]. cbn [il_ok]. split.
           ++ intros Hle. rewrite HX, value_ext by (unfold count in Hi; lia). auto.
           ++ intros Hge. rewrite Herr. destruct (Z.leb_spec 256 p0); [reflexivity|lia].
        -- intros Hc Ha. inversion Hc as [|? ? Hc1 Hc2]; subst. constructor; [|apply G; auto].
           cbn [il_exact]. rewrite Ha. cbn in Hc1. rewrite Hc1, andb_false_r. apply orb_false_r.
Qed.

Lemma il_history mem gain l : length mem = 256%nat /\ Forall sample_range mem -> gain_ok gain -> Forall il_range l ->
  exists a' outs, mrun il_event (adc_start mem gain) l = Ok (a', outs) /\
    Forall2 (il_ok gain mem (transferred (fst (il_run view0 l)))) (snd (il_run view0 l)) outs /\
    (Forall il_clean l -> Forall2 il_exact (snd (il_run view0 l)) outs).
Proof.
  intros (L & Hm) Hg He.
  destruct (il_runs mem gain l Hm Hg view0 (adc_start mem gain) (adc_inv_start mem gain L)) as (a' & outs & R & _ & _ & F & G); auto.
  - intros x Hx. rewrite Forall_forall in Hm. apply Hm. exact Hx.
  - eexists _, _. split; [exact R|]. split; auto.
Qed.
