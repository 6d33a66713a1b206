(** P_Adc.v -- proofs about the ADC ring (C27-C29). *)
From Verif Require Import Base M_Adc S_Pio S_Adc D_Adc.

Definition gain_ok (g : Z) : Prop := 0 <= g <= 65535.

Record adc_inv (mem : list Z) (gain : Z) (v : view) (a : adc) : Prop := {
  ai_len : length (rg_data (ad_ring a)) = 256%nat;
  ai_left : 0 <= left v <= BLOCK;
  ai_blk : (count v + left v) mod BLOCK = 0;
  ai_next : 0 <= next v <= count v;
  ai_pend : count v - next v <= BLOCK - left v;
  ai_lag : left v = 0 -> next v < count v;
  ai_hw : rg_tc (ad_ring a) = left v;
  ai_tc : ad_tc a = left v + (count v - next v);
  ai_wr : rg_wr (ad_ring a) = Z.to_nat (count v mod 256);
  ai_off : ad_off a = next v mod 256;
  ai_gain : ad_gain a = gain;
  ai_rng : Forall sample_range (transferred v);
  ai_ring : forall i, count v - 256 <= i < count v -> nth (Z.to_nat (i mod 256)) (rg_data (ad_ring a)) 0 = sample_at mem (transferred v) i }.

Lemma nth_upd_eq {A} (l : list A) i x d : (i < length l)%nat -> nth i (upd l i x) d = x.
Proof. intros H. apply nth_error_nth. apply nth_error_upd_eq; auto. Qed.
Lemma nth_upd_neq {A} (l : list A) i j x d : i <> j -> nth j (upd l i x) d = nth j l d.
Proof. intros H. rewrite !nth_nth_default, !nth_default_eq || idtac. revert i j H; induction l as [|a t IH]; intros [|i] [|j] H; cbn; auto; try congruence. Qed.

Lemma count_app T x n l : count (View (T ++ [x]) n l) = Z.of_nat (length T) + 1.
Proof. unfold count. cbn [transferred]. rewrite app_length. cbn. lia. Qed.

Lemma mod256_neq i j : i mod 256 <> j mod 256 -> Z.to_nat (i mod 256) <> Z.to_nat (j mod 256).
Proof. pose proof (Z.mod_pos_bound i 256). pose proof (Z.mod_pos_bound j 256). lia. Qed.

Lemma adc_inv_start mem gain : length mem = 256%nat -> adc_inv mem gain view0 (adc_start mem gain).
Proof.
  intros H. unfold adc_start, adc_dma_restart, view0. constructor; cbn [ad_ring rg_data rg_tc rg_wr ad_tc ad_off ad_gain left next transferred];
    unfold count; cbn [transferred length Z.of_nat]; try reflexivity; try (unfold BLOCK; lia); auto; try lia.
  - intros i Hi. unfold sample_at. destruct (Z.ltb_spec i 0); [|lia]. f_equal.
    f_equal. replace i with (256 + i + (-1) * 256) at 1 by lia. rewrite Z_mod_plus_full, Z.mod_small; lia.
Qed.

Lemma sample_step mem gain v a x : adc_inv mem gain v a -> sample_range x ->
  exists a', adc_event a (Sample x) = Ok (a', None) /\ adc_inv mem gain (fst (spec_step v (Sample x))) a' /\ ad_error a' = ad_error a.
Proof.
  intros I Hx. destruct I as [L1 L2 L3 L4 L5 Llag L6 L7 L8 L9 L10 L11 L12]. cbn [adc_event]. eexists. split; [reflexivity|]. split; [|reflexivity].
  cbn [spec_step fst]. unfold ring_write. rewrite L6. destruct (Z.eqb_spec (left v) 0) as [E|E].
  - constructor; cbn [ad_ring ad_tc ad_off ad_gain]; auto.
  - destruct v as [T n lf]. unfold count in *. cbn [transferred next left] in *.
    constructor; cbn [ad_ring ad_tc ad_off ad_gain rg_data rg_tc rg_wr next left transferred]; rewrite ?count_app; auto; try lia.
    + rewrite upd_length; auto.
    + rewrite <- L3. f_equal. lia.
    + rewrite L8. rewrite <- (Zplus_mod_idemp_l (Z.of_nat (length T)) 1 256).
      pose proof (Z.mod_pos_bound (Z.of_nat (length T)) 256 ltac:(lia)).
      apply Nat2Z.inj. rewrite Nat2Z.inj_mod, Nat2Z.inj_add, !Z2Nat.id by (try apply Z.mod_pos_bound; lia). reflexivity.
    + apply Forall_app; split; auto.
    + intros i Hi. rewrite L8. destruct (Z.eq_dec i (Z.of_nat (length T))) as [->|Hne].
      * rewrite nth_upd_eq. 2:{ rewrite L1. pose proof (Z.mod_pos_bound (Z.of_nat (length T)) 256 ltac:(lia)). lia. }
        unfold sample_at. destruct (Z.ltb_spec (Z.of_nat (length T)) 0); [lia|]. rewrite Nat2Z.id, app_nth2, Nat.sub_diag by lia. reflexivity.
      * rewrite nth_upd_neq.
        -- rewrite L12 by lia. unfold sample_at. destruct (Z.ltb_spec i 0); auto. rewrite app_nth1 by lia. reflexivity.
        -- apply mod256_neq. intros Em.
           assert ((Z.of_nat (length T) - i) mod 256 = 0) by (rewrite Zminus_mod, Em, Z.sub_diag; reflexivity).
           rewrite Z.mod_small in H by lia. lia.
Qed.

Lemma sample_at_range mem T i : Forall sample_range mem -> Forall sample_range T -> sample_range (sample_at mem T i).
Proof.
  intros Hm HT. unfold sample_at. destruct (i <? 0).
  - destruct (nth_in_or_default (Z.to_nat (256 + i)) mem 0) as [H|H]; [rewrite Forall_forall in Hm; auto|rewrite H; unfold sample_range; lia].
  - destruct (nth_in_or_default (Z.to_nat i) T 0) as [H|H]; [rewrite Forall_forall in HT; auto|rewrite H; unfold sample_range; lia].
Qed.

Lemma land_high p : 0 <= p < 4294967296 -> (Z.land p 4294967040 =? 0) = (p <? 256).
Proof.
  intros H. assert (E : Z.land p 4294967040 = 256 * (p / 256)).
  { change 4294967040 with (Z.shiftl (Z.ones 24) 8). rewrite <- (Z.shiftl_mul_pow2 (p / 256) 8 ltac:(lia) : _ = (p/256) * 256) || idtac.
    apply Z.bits_inj'. intros n Hn. rewrite Z.land_spec, Z.shiftl_spec by lia.
    replace (256 * (p / 256)) with (Z.shiftl (Z.shiftr p 8) 8) by (rewrite Z.shiftl_mul_pow2, Z.shiftr_div_pow2 by lia; change (2 ^ 8) with 256; lia).
    rewrite Z.shiftl_spec by lia. destruct (Z.ltb_spec n 8).
    - rewrite !(Z.testbit_neg_r _ (n - 8)) by lia. apply andb_false_r.
    - rewrite Z.shiftr_spec by lia. replace (n - 8 + 8) with n by lia.
      destruct (Z.ltb_spec n 32).
      + rewrite Z.ones_spec_low by lia. apply andb_true_r.
      + rewrite Z.ones_spec_high by lia. rewrite andb_false_r. symmetry.
        apply Z.bits_above_log2; [lia|]. destruct (Z.eq_dec p 0) as [->|]; [cbn; lia|]. apply Z.log2_lt_pow2; [lia|].
        apply Z.lt_le_trans with (2 ^ 32); [lia|]. apply Z.pow_le_mono_r; lia. }
  rewrite E. destruct (Z.ltb_spec p 256).
  - rewrite Z.div_small by lia. reflexivity.
  - apply Z.eqb_neq. assert (1 <= p / 256) by (apply Z.div_le_lower_bound; lia). lia.
Qed.

Lemma adc_len_aget {d : list Z} i : length d = 256%nat -> aget d (Z.to_nat (u8 i)) = Ok (nth (Z.to_nat (i mod 256)) d 0).
Proof.
  intros L. apply aget_ok. unfold u8. apply nth_error_nth'. pose proof (Z.mod_pos_bound i 256 ltac:(lia)). lia.
Qed.

Lemma poll_step mem gain v a c : Forall sample_range mem -> (forall x, In x (rg_data (ad_ring a)) -> sample_range x) ->
  adc_inv mem gain v a -> gain_ok gain ->
  exists a' r, adc_event a (Poll c) = Ok (a', Some r) /\ adc_inv mem gain (fst (spec_step v (Poll c))) a' /\
    (forall x, In x (rg_data (ad_ring a')) -> sample_range x) /\
    match snd (spec_step v (Poll c)) with
    | Some Nothing => r = None /\ ad_error a' = (ad_error a || ((left v =? 0) && negb c))
    | Some (Data i p) => exists val err, r = Some (val, err) /\ 0 <= i < count v /\ p = count v - i /\
        (p <= 254 -> val = value_at gain mem (transferred v) i) /\
        err = ((256 <=? p) || ad_error a) /\ ad_error a' = false
    | None => False
    end.
Proof.
  intros Hmem Hrg I Hg. pose proof I as [L1 L2 L3 L4 L5 Llag L6 L7 L8 L9 L10 L11 L12]. cbn [adc_event]. unfold adc_poll, adc_update.
  rewrite L6. cbn [spec_step]. destruct (Z.eqb_spec (left v) 0) as [E|E].
  - (* restart *)
    set (a1 := adc_dma_restart _). change (ad_tc a1) with TC_INIT. change (rg_tc (ad_ring a1)) with TC_INIT. rewrite Z.eqb_refl.
    cbn [bind]. eexists _, _. split; [reflexivity|]. cbn [fst snd].
    assert (Hc256 : count v mod 256 = 0).
    { rewrite E, Z.add_0_r in L3. apply Z.mod_divide in L3; [|unfold BLOCK; lia]. destruct L3 as (q & Hq).
      rewrite Hq. unfold BLOCK. replace (q * 268435456) with (q * 1048576 * 256) by lia. apply Z_mod_mult. }
    split; [|split; [exact Hrg|split; [reflexivity|subst a1; cbn; destruct c, (ad_error a); reflexivity]]].
    destruct v as [T n lf]. unfold count in *. cbn [transferred next left] in *. rewrite E in L3, L2, L5, Llag. clear E L6 L7 I. clear lf.
    subst a1. constructor; unfold adc_dma_restart; cbn [ad_ring ad_tc ad_off ad_gain rg_data rg_tc rg_wr next left transferred]; unfold count; cbn [transferred];
      auto; try lia; try (unfold BLOCK, TC_INIT; lia).
    + rewrite Z.add_0_r in L3. rewrite Zplus_mod, L3. reflexivity.
  - rewrite L7, L6. replace (left v + (count v - next v) =? left v) with (next v =? count v).
    2:{ destruct (Z.eqb_spec (next v) (count v)), (Z.eqb_spec (left v + (count v - next v)) (left v)); auto; lia. }
    destruct (Z.eqb_spec (next v) (count v)) as [En|En].
    + cbn [bind]. eexists _, _. split; [reflexivity|]. cbn [fst snd]. split; auto. split; auto. split; auto. cbn [andb]. symmetry. apply orb_false_r.
    + rewrite (u32_id (left v + (count v - next v) - left v)) by (unfold BLOCK in *; lia).
      replace (left v + (count v - next v) - left v) with (count v - next v) by lia.
      rewrite land_high by (unfold BLOCK in *; lia).
      rewrite !adc_len_aget by auto. cbn [bind]. rewrite L9.
      assert (E0 : (next v mod 256 - 0) mod 256 = next v mod 256) by (rewrite Z.sub_0_r, Z.mod_mod; lia).
      assert (E2 : (next v mod 256 - 2) mod 256 = (next v - 2) mod 256) by (rewrite Zminus_mod_idemp_l; reflexivity).
      assert (E1 : (next v mod 256 - 1) mod 256 = (next v - 1) mod 256) by (rewrite Zminus_mod_idemp_l; reflexivity).
      rewrite E0, E1, E2. clear E0 E1 E2.
      set (d := rg_data (ad_ring a)) in *.
      assert (R : forall i, sample_range (nth (Z.to_nat (i mod 256)) d 0)).
      { intros i. apply Hrg. apply nth_In. pose proof (Z.mod_pos_bound i 256). lia. }
      set (X1 := nth (Z.to_nat (next v mod 256)) d 0) in *.
      set (X2 := nth (Z.to_nat ((next v - 2) mod 256)) d 0) in *.
      set (Y := nth (Z.to_nat ((next v - 1) mod 256)) d 0) in *.
      pose proof (R (next v)) as R1. pose proof (R (next v - 2)) as R2. pose proof (R (next v - 1)) as R3. fold X1 in R1. fold X2 in R2. fold Y in R3.
      unfold sample_range in R1, R2, R3.
      assert (Q : -16000 <= Z.quot (X1 + X2) 2 <= 16000).
      { split; [change (-16000) with (Z.quot (-32000) 2)|change 16000 with (Z.quot 32000 2)]; apply Z.quot_le_mono; lia. }
      rewrite (s16_id (Z.quot (X1 + X2) 2)) by lia. rewrite s16_id by lia.
      rewrite L10. unfold gain_ok in Hg. rewrite chk32_ok by nia. cbn [bind adc_read_error].
      eexists _, _. split; [reflexivity|]. cbn [fst snd ad_ring ad_error].
      split; [|split; [exact Hrg|]].
      * destruct v as [T n lf]. unfold count in *. cbn [transferred next left] in *.
        constructor; cbn [ad_ring ad_tc ad_off ad_gain next left transferred]; unfold count; cbn [transferred]; auto; try lia.
        -- rewrite u32_id by (unfold BLOCK in *; lia). lia.
        -- unfold u8. rewrite Zplus_mod_idemp_l. reflexivity.
      * eexists _, _. split; [reflexivity|]. split; [lia|]. split; [reflexivity|]. split; [|split; [|reflexivity]].
        -- intros Hp. rewrite asr_div by lia. change (2 ^ 8) with 256. unfold value_at, diff_value.
           rewrite <- !L12 by lia. fold d. reflexivity.
        -- rewrite <- Z.leb_antisym. destruct (256 <=? count v - next v) eqn:El; reflexivity.
Qed.

Lemma spec_ext l : forall v, exists X, transferred (fst (spec_run v l)) = transferred v ++ X.
Proof.
  induction l as [|e t IH]; intros v; cbn [spec_run]; [exists []; cbn; rewrite app_nil_r; auto|].
  destruct (spec_step v e) as [v1 o] eqn:E. destruct (IH v1) as (X & HX). destruct (spec_run v1 t) as [v2 os]. cbn [fst] in *.
  rewrite HX. destruct e as [x|c]; cbn [spec_step] in E.
  - destruct (left v =? 0); inversion E; subst; cbn [transferred]; [eauto|]. rewrite <- app_assoc. eauto.
  - destruct (left v =? 0); [inversion E; subst; cbn [transferred]; eauto|].
    destruct (next v =? count v); inversion E; subst; cbn [transferred]; eauto.
Qed.

Lemma value_ext gain mem T X i : i < Z.of_nat (length T) -> value_at gain mem (T ++ X) i = value_at gain mem T i.
Proof.
  intros H. assert (S : forall j, j <= i -> sample_at mem (T ++ X) j = sample_at mem T j).
  { intros j Hj. unfold sample_at. destruct (Z.ltb_spec j 0); auto. rewrite app_nth1; auto. lia. }
  unfold value_at. rewrite !S by lia. reflexivity.
Qed.

Definition ring_rng (a : adc) : Prop := forall x, In x (rg_data (ad_ring a)) -> sample_range x.

Lemma in_upd {A} (l : list A) i x y : In y (upd l i x) -> y = x \/ In y l.
Proof. revert i; induction l as [|a t IH]; intros [|i]; cbn; intuition. destruct (IH _ H0); auto. Qed.

Lemma adc_run mem gain l : Forall sample_range mem -> gain_ok gain -> forall v a,
  adc_inv mem gain v a -> ring_rng a -> Forall ev_range l ->
  exists a' outs, mrun adc_event a l = Ok (a', outs) /\
    adc_inv mem gain (fst (spec_run v l)) a' /\ ring_rng a' /\
    Forall2 (poll_ok gain mem (transferred (fst (spec_run v l)))) (snd (spec_run v l)) outs /\
    (Forall poll_clean l -> ad_error a = false -> Forall2 poll_exact (snd (spec_run v l)) outs).
Proof.
  intros Hmem Hg. induction l as [|e t IH]; intros v a I R He; cbn [mrun spec_run].
  - eexists _, _. split; [reflexivity|]. cbn. auto.
  - inversion He as [|? ? H1 H2]; subst.
    pose proof (spec_ext t (fst (spec_step v e))) as HX.
    destruct (spec_step v e) as [v1 o] eqn:E. cbn [fst] in HX.
    destruct (spec_run v1 t) as [v2 os] eqn:E2. cbn [fst] in HX. destruct HX as (X & HX).
    destruct e as [x|c].
    + destruct (sample_step mem gain v a x I H1) as (a1 & S1 & I1 & Er). rewrite S1; cbn [bind].
      rewrite E in I1. cbn [fst] in I1.
      assert (R1 : ring_rng a1).
      { cbn [adc_event] in S1. inversion S1; subst a1. intros y Hy. cbn [ad_ring] in Hy. unfold ring_write in Hy.
        destruct (rg_tc (ad_ring a) =? 0); [apply R; auto|]. cbn [rg_data] in Hy. apply in_upd in Hy as [->|Hy]; auto. }
      destruct (IH v1 a1 I1 R1 H2) as (a2 & outs & R2 & I2 & Rg2 & F & G). rewrite R2; cbn [bind]. rewrite E2 in *. cbn [fst snd] in *.
      cbn [spec_step] in E. assert (o = None) by (inversion E; auto). subst o.
      eexists _, _. split; [reflexivity|]. split; auto. split; auto. split.
      * constructor; [exact Logic.I|exact F].
      * intros Hc Ha. inversion Hc; subst. constructor; [exact Logic.I|]. apply G; auto. congruence.
    + destruct (poll_step mem gain v a c Hmem R I Hg) as (a1 & r & S1 & I1 & R1 & Hm). rewrite S1; cbn [bind].
      rewrite E in I1, Hm. cbn [fst snd] in I1, Hm.
      destruct (IH v1 a1 I1 R1 H2) as (a2 & outs & R2 & I2 & Rg2 & F & G). rewrite R2; cbn [bind]. rewrite E2 in *. cbn [fst snd] in *.
      eexists _, _. split; [reflexivity|]. split; auto. split; auto.
      assert (Ht : transferred v1 = transferred v).
      { cbn [spec_step] in E. destruct (left v =? 0); [inversion E; auto|]. destruct (next v =? count v); inversion E; auto. }
      destruct o as [[|i p]|]; [|destruct Hm as (val & err & -> & Hi & Hp & Hv & Herr & Ha1)|contradiction].
      * destruct Hm as (-> & Hkeep). split.
        -- constructor; [exact Logic.I|exact F].
        -- intros Hc Ha. inversion Hc as [|? ? Hc1 Hc2]; subst. constructor; [exact Logic.I|]. apply G; auto. rewrite Hkeep, Ha. cbn in Hc1. rewrite Hc1. apply andb_false_r.
      * split.
        -- constructor; [|exact F]. cbn [poll_ok]. split.
           ++ intros Hle. rewrite HX, Ht, value_ext by (unfold count in Hi; lia). auto.
           ++ intros Hge. rewrite Herr. destruct (Z.leb_spec 256 p); [reflexivity|lia].
        -- intros Hc Ha. inversion Hc as [|? ? Hc1 Hc2]; subst. constructor; [|apply G; auto].
           cbn [poll_exact]. rewrite Ha. apply orb_false_r.
Qed.

Definition mem_ok (mem : list Z) : Prop := length mem = 256%nat /\ Forall sample_range mem.

Lemma adc_history mem gain l : mem_ok mem -> gain_ok gain -> Forall ev_range l ->
  exists a' outs, mrun adc_event (adc_start mem gain) l = Ok (a', outs) /\
    Forall2 (poll_ok gain mem (transferred (fst (spec_run view0 l)))) (snd (spec_run view0 l)) outs /\
    (Forall poll_clean l -> Forall2 poll_exact (snd (spec_run view0 l)) outs).
Proof.
  intros (L & Hm) Hg He.
  destruct (adc_run mem gain l Hm Hg view0 (adc_start mem gain) (adc_inv_start mem gain L)) as (a' & outs & R & _ & _ & F & G); auto.
  - intros x Hx. rewrite Forall_forall in Hm. apply Hm. exact Hx.
  - eexists _, _. split; [exact R|]. split; auto.
Qed.

Lemma Forall2_imp {A B} (R Q : A -> B -> Prop) l1 l2 : (forall a b, R a b -> Q a b) -> Forall2 R l1 l2 -> Forall2 Q l1 l2.
Proof. intros H; induction 1; constructor; auto. Qed.
Lemma Forall2_len {A B} (R : A -> B -> Prop) l1 l2 : Forall2 R l1 l2 -> length l1 = length l2.
Proof. induction 1; cbn; auto. Qed.
Lemma delivered_app a b : delivered (a ++ b) = (delivered a + delivered b)%nat.
Proof. unfold delivered. rewrite filter_app, app_length. reflexivity. Qed.

(** Deliveries are at most the samples consumed. *)
Lemma delivered_next gain mem T l : forall v v' xs outs,
  spec_run v l = (v', xs) -> next v <= count v -> Forall2 (poll_ok gain mem T) xs outs ->
  Z.of_nat (delivered outs) <= next v' - next v /\ next v' <= count v'.
Proof.
  induction l as [|e t IH]; intros v v' xs outs E Hn F; cbn [spec_run] in E.
  - inversion E; subst. inversion F; subst. cbn. lia.
  - destruct (spec_step v e) as [v1 o] eqn:E1. destruct (spec_run v1 t) as [v2 os] eqn:E2. inversion E; subst.
    inversion F as [|? r ? rs Fo Fr]; subst.
    assert (Hstep : next v1 <= count v1 /\ Z.of_nat (delivered [r]) <= next v1 - next v).
    { destruct e as [x|c]; cbn [spec_step] in E1.
      - destruct (left v =? 0); inversion E1; subst; destruct r as [[|]|]; cbn in Fo |- *; try contradiction; try lia.
        unfold count in *; cbn [transferred next] in *. rewrite app_length; cbn [length]. lia.
      - destruct (left v =? 0).
        + inversion E1; subst. destruct r as [[|]|]; cbn in Fo |- *; try contradiction; unfold count in *; cbn [transferred next]; lia.
        + destruct (Z.eqb_spec (next v) (count v)).
          * inversion E1; subst. destruct r as [[|]|]; cbn in Fo |- *; try contradiction; lia.
          * inversion E1; subst. destruct r as [[[? ?]|]|]; cbn in Fo |- *; try contradiction. unfold count in *; cbn [transferred next] in *. lia. }
    destruct Hstep as (H1 & H2). destruct (IH v1 v' os rs E2 H1 Fr) as (H3 & H4). split; auto.
    change (r :: rs) with ([r] ++ rs). rewrite delivered_app. lia.
Qed.

Lemma spec_run_app l1 l2 : forall v, spec_run v (l1 ++ l2) =
  let '(v1, o1) := spec_run v l1 in let '(v2, o2) := spec_run v1 l2 in (v2, o1 ++ o2).
Proof.
  induction l1 as [|e t IH]; intros v; cbn [app spec_run]; [destruct (spec_run v l2); reflexivity|].
  destruct (spec_step v e) as [v1 o]. rewrite IH. destruct (spec_run v1 t) as [v2 o2]. destruct (spec_run v2 l2). reflexivity.
Qed.

(** Whenever the block is exhausted, at least one transferred sample has not been handed out, the
    next poll hands out nothing and skips it for ever. *)
Lemma restart_loses mem gain l a outs c : mem_ok mem -> gain_ok gain -> Forall ev_range l ->
  mrun adc_event (adc_start mem gain) l = Ok (a, outs) -> left (fst (spec_run view0 l)) = 0 ->
  let v := fst (spec_run view0 l) in
  exists a', adc_event a (Poll c) = Ok (a', Some None) /\
    (Z.of_nat (delivered outs) < count v) /\ next (fst (spec_step v (Poll c))) = count v.
Proof.
  intros (L & Hm) Hg He R Hl v.
  destruct (adc_run mem gain l Hm Hg view0 (adc_start mem gain) (adc_inv_start mem gain L)) as (a1 & outs1 & R1 & I1 & Rg & F & _); auto.
  { intros x Hx. rewrite Forall_forall in Hm. apply Hm. exact Hx. }
  rewrite R in R1. inversion R1; subst a1 outs1.
  destruct (poll_step mem gain v a c Hm Rg I1 Hg) as (a' & r & S & _ & _ & Hr). fold v in Hl.
  cbn [spec_step] in Hr |- *. rewrite Hl in *. cbn [Z.eqb snd fst next] in *. destruct Hr as (-> & _).
  exists a'. split; auto. split; auto.
  destruct (spec_run view0 l) as [v' xs] eqn:E. cbn [fst] in v. subst v.
  destruct (delivered_next gain mem _ l view0 v' xs outs E ltac:(cbn; lia) F) as (H1 & _). cbn [next view0] in H1.
  pose proof (ai_lag _ _ _ _ I1 Hl) as H2. cbn [fst] in H2. lia.
Qed.

(** The block does get exhausted, however fast the consumer polls. *)
Definition pairs (M : nat) : list adc_ev := flat_map (fun _ => [Sample 0; Poll true]) (repeat tt M).
Lemma pairs_run M : forall v, next v = count v -> Z.of_nat M < left v ->
  exists v' xs, spec_run v (pairs M) = (v', xs) /\ left v' = left v - Z.of_nat M /\
    count v' = count v + Z.of_nat M /\ next v' = count v'.
Proof.
  induction M as [|M IH]; intros v Hn Hl; cbn [pairs repeat flat_map app spec_run].
  - eexists _, _. split; [reflexivity|]. lia.
  - fold (pairs M). destruct v as [T n lf]. unfold count in *. cbn [transferred next left] in *.
    cbn [spec_step left]. destruct (Z.eqb_spec lf 0); [lia|]. cbn [transferred next left spec_step].
    destruct (Z.eqb_spec (lf - 1) 0); [lia|]. unfold count at 1. cbn [transferred]. rewrite app_length. cbn [length].
    destruct (Z.eqb_spec n (Z.of_nat (length T + 1))); [lia|].
    edestruct (IH (View (T ++ [0]) (n + 1) (lf - 1))) as (v' & xs & E & H1 & H2 & H3);
      [unfold count; cbn [transferred next]; rewrite app_length; cbn [length]; lia | cbn [left]; lia|].
    rewrite E. eexists _, _. split; [reflexivity|]. cbn [left] in *. unfold count in *. cbn [transferred] in *.
    rewrite app_length in H2; cbn [length] in H2. lia.
Qed.

Lemma pairs_range M : Forall ev_range (pairs M).
Proof.
  unfold pairs. induction M; cbn [repeat flat_map app]; [constructor|].
  constructor; [cbn; unfold sample_range; lia|]. constructor; [cbn; auto|]. exact IHM.
Qed.

Lemma polls_nothing k : forall v, left v <> 0 -> next v = count v ->
  spec_run v (repeat (Poll true) k) = (v, repeat (Some Nothing) k).
Proof.
  induction k as [|k IH]; intros v Hl Hn; cbn [repeat spec_run spec_step]; auto.
  destruct (Z.eqb_spec (left v) 0); [contradiction|]. destruct (Z.eqb_spec (next v) (count v)); [|contradiction].
  rewrite IH by auto. reflexivity.
Qed.

Lemma nothing_delivers gain mem T k outs : Forall2 (poll_ok gain mem T) (repeat (Some Nothing) k) outs -> delivered outs = 0%nat.
Proof.
  revert outs; induction k as [|k IH]; intros outs F; cbn [repeat] in F; inversion F as [|? r ? rs H1 H2]; subst; auto.
  destruct r as [[|]|]; cbn in H1; try contradiction. cbn. apply (IH rs H2).
Qed.

Lemma block_loss_gen M mem gain : Z.of_nat M + 1 = BLOCK -> mem_ok mem -> gain_ok gain ->
  exists l v, fst (spec_run view0 l) = v /\ Forall ev_range l /\ count v = BLOCK /\
  forall k, exists a outs, mrun adc_event (adc_start mem gain) (l ++ repeat (Poll true) k) = Ok (a, outs) /\
    Z.of_nat (delivered outs) < BLOCK.
Proof.
  intros HM Hm Hg. exists (pairs M ++ [Sample 0]).
  destruct (pairs_run M view0 eq_refl ltac:(cbn [left view0]; lia)) as (v1 & xs1 & E1 & H1 & H2 & H3).
  cbn [left view0] in H1. change (count view0) with 0 in H2.
  assert (E2 : exists v2, spec_run view0 (pairs M ++ [Sample 0]) = (v2, xs1 ++ [None]) /\ left v2 = 0 /\ count v2 = BLOCK).
  { rewrite spec_run_app, E1. cbn [spec_run spec_step]. destruct (Z.eqb_spec (left v1) 0); [lia|].
    eexists. split; [reflexivity|]. cbn [left]. split; [lia|]. unfold count in *. cbn [transferred]. rewrite app_length; cbn [length]. lia. }
  destruct E2 as (v2 & E2 & Hl & Hc). exists v2. rewrite E2.
  assert (Hr : Forall ev_range (pairs M ++ [Sample 0])).
  { apply Forall_app. split; [apply pairs_range|]. constructor; [cbn; unfold sample_range; lia|constructor]. }
  split; [reflexivity|]. split; [exact Hr|]. split; [exact Hc|]. intros k.
  assert (Hr2 : Forall ev_range ((pairs M ++ [Sample 0]) ++ repeat (Poll true) k)).
  { apply Forall_app. split; auto. apply Forall_forall. intros e He. apply repeat_spec in He. subst. exact Logic.I. }
  destruct (adc_history mem gain _ Hm Hg Hr2) as (a & outs & R & F & _). exists a, outs. split; [exact R|].
  destruct (adc_history mem gain _ Hm Hg Hr) as (a0 & outs0 & R0 & _ & _).
  pose proof (restart_loses mem gain _ a0 outs0 true Hm Hg Hr R0) as Hlose. rewrite E2 in Hlose. cbn [fst] in Hlose.
  destruct (Hlose Hl) as (a1 & S1 & HD & _). rewrite Hc in HD.
  rewrite mrun_app, R0 in R. cbn [bind] in R.
  destruct (mrun adc_event a0 (repeat (Poll true) k)) as [[a2 outs2]|] eqn:R2; cbn [bind] in R; [|discriminate].
  inversion R; subst. rewrite delivered_app.
  cut (delivered outs2 = 0%nat); [lia|].
  rewrite spec_run_app, E2 in F.
  set (T := transferred _) in F. clearbody T.
  assert (E3 : snd (spec_run v2 (repeat (Poll true) k)) = repeat (Some Nothing) k).
  { destruct k as [|k]; [reflexivity|]. cbn [repeat spec_run spec_step]. rewrite Hl. cbn [Z.eqb].
    rewrite polls_nothing; [reflexivity|cbn [left]; unfold BLOCK; lia|reflexivity]. }
  destruct (spec_run v2 (repeat (Poll true) k)) as [v3 xs3]. cbn [snd] in *. subst xs3.
  apply Forall2_app_inv_l in F as (o1 & o2 & F1 & F2 & Eo).
  assert (o2 = outs2).
  { apply (f_equal (skipn (length outs0))) in Eo. rewrite skipn_app, skipn_all, Nat.sub_diag in Eo. cbn [skipn app] in Eo.
    rewrite Eo. rewrite skipn_app.
    assert (L : length o1 = length outs0).
    { apply mrun_length in R0. apply Forall2_len in F1. rewrite <- F1, R0.
      assert (length (snd (spec_run view0 (pairs M ++ [Sample 0]))) = length (pairs M ++ [Sample 0])) as <-; [|rewrite E2; reflexivity].
      clear. generalize view0. induction (pairs M ++ [Sample 0]) as [|e t IH]; intros v; cbn [spec_run]; auto.
      destruct (spec_step v e) as [v1 o]. specialize (IH v1). destruct (spec_run v1 t). cbn in *. lia. }
    rewrite L, Nat.sub_diag, <- L, skipn_all. reflexivity. }
  subst o2. exact (nothing_delivers gain mem T k outs2 F2).
Qed.

(** ** Differential value of constant inputs (with the PIO negation of every second sample) *)
Lemma s16_u16_neg a : 0 <= a < 256 -> s16 (u16 (- a)) = - a.
Proof.
  intros H. unfold s16, u16. destruct (Z.eq_dec a 0) as [->|]; [reflexivity|].
  replace (- a) with (65536 - a + (-1) * 65536) by lia. rewrite Z_mod_plus_full, (Z.mod_small (65536 - a)) by lia.
  replace (65536 - a + 32768) with (32768 - a + 1 * 65536) by lia. rewrite Z_mod_plus_full, Z.mod_small; lia.
Qed.
Lemma altern_nth n : forall p q i, 0 <= p < 256 -> 0 <= q < 256 -> (i < n)%nat ->
  nth i (map s16 (tc_spec true (altern p q n))) 0 = (if Nat.even i then - p else q) /\
  nth i (map s16 (tc_spec false (altern q p n))) 0 = (if Nat.even i then q else - p).
Proof.
  induction n as [|n IH]; intros p q i Hp Hq Hi; [lia|]. cbn [altern tc_spec map negb].
  destruct i as [|i].
  - cbn [nth Nat.even]. rewrite s16_u16_neg, s16_id by lia. auto.
  - cbn [nth]. destruct (IH p q i Hp Hq ltac:(lia)) as (E1 & E2). rewrite E1, E2.
    rewrite Nat.even_succ, <- Nat.negb_even. destruct (Nat.even i); auto.
Qed.
Lemma tc_spec_length l : forall neg, length (tc_spec neg l) = length l.
Proof. induction l; intros; cbn; auto. Qed.
Lemma altern_length n : forall p q, length (altern p q n) = n.
Proof. induction n; intros; cbn; auto. Qed.

Lemma constant_input gain mem p q n i : 0 <= p < 256 -> 0 <= q < 256 -> 2 <= i < Z.of_nat n ->
  value_at gain mem (map s16 (tc_spec true (altern p q n))) i = (q - p) * gain / 256.
Proof.
  intros Hp Hq Hi. unfold value_at, sample_at, diff_value.
  destruct (Z.ltb_spec i 0); [lia|]. destruct (Z.ltb_spec (i - 2) 0); [lia|]. destruct (Z.ltb_spec (i - 1) 0); [lia|].
  rewrite (proj1 (altern_nth n p q (Z.to_nat i) Hp Hq ltac:(lia))).
  rewrite (proj1 (altern_nth n p q (Z.to_nat (i - 2)) Hp Hq ltac:(lia))).
  rewrite (proj1 (altern_nth n p q (Z.to_nat (i - 1)) Hp Hq ltac:(lia))).
  replace (Z.to_nat i) with (S (S (Z.to_nat (i - 2)))) by lia. replace (Z.to_nat (i - 1)) with (S (Z.to_nat (i - 2))) by lia.
  set (m := Z.to_nat (i - 2)). rewrite !Nat.even_succ, Nat.odd_succ, <- Nat.negb_even. f_equal. f_equal.
  destruct (Nat.even m); cbn [negb].
  - replace (- p + - p) with (- p * 2) by lia. rewrite Z.quot_mul by lia. lia.
  - replace (q + q) with (q * 2) by lia. rewrite Z.quot_mul by lia. lia.
Qed.

Lemma adc_partial mem gain l : mem_ok mem -> gain_ok gain -> Forall ev_range l ->
  exists a' outs, mrun adc_event (adc_start mem gain) l = Ok (a', outs) /\ Forall2 (fun x r => forall i p v e, x = Some (Data i p) -> r = Some (Some (v, e)) ->
       v <> value_at gain mem (transferred (fst (spec_run view0 l))) i -> e = false -> p = 255)
      (snd (spec_run view0 l)) outs.
Proof.
  intros Hm Hg He. destruct (adc_history mem gain l Hm Hg He) as (a & outs & R & F & _). exists a, outs. split; auto.
  eapply Forall2_imp; [|exact F]. intros x r H i p v e -> -> Hv ->. cbn in H. destruct H as (H1 & H2).
  destruct (Z.le_gt_cases p 254); [contradiction (Hv (H1 H))|]. destruct (Z.le_gt_cases 256 p); [discriminate (H2 H0)|]. lia.
Qed.

(** ** Nothing is lost within a block *)
Lemma no_loss_run gain mem T l : forall v v' xs outs, spec_run v l = (v', xs) ->
  next v <= count v -> Z.of_nat (samples l) < left v -> Forall2 (poll_ok gain mem T) xs outs ->
  Z.of_nat (delivered outs) = next v' - next v /\ count v' = count v + Z.of_nat (samples l) /\ next v' <= count v' /\
  left v' = left v - Z.of_nat (samples l).
Proof.
  induction l as [|e t IH]; intros v v' xs outs E Hn Hl F; cbn [spec_run] in E.
  - inversion E; subst. inversion F; subst. cbn. lia.
  - destruct (spec_step v e) as [v1 o] eqn:E1. destruct (spec_run v1 t) as [v2 os] eqn:E2. inversion E; subst.
    inversion F as [|? r ? rs Fo Fr]; subst. change (r :: rs) with ([r] ++ rs). rewrite delivered_app.
    destruct e as [x|c]; cbn [spec_step] in E1; unfold samples in *; cbn [filter length] in *.
    + destruct (Z.eqb_spec (left v) 0); [lia|]. inversion E1; subst.
      destruct (IH _ _ _ _ E2 ltac:(unfold count in *; cbn [transferred next] in *; rewrite app_length; cbn [length]; lia) ltac:(cbn [left]; lia) Fr) as (H1 & H2 & H3 & H4).
      unfold count in *; cbn [transferred next left] in *. rewrite app_length in *; cbn [length] in *.
      destruct r as [[|]|]; cbn in Fo; try contradiction. cbn [delivered filter length]. 
      change (delivered [None]) with 0%nat. lia.
    + destruct (Z.eqb_spec (left v) 0); [lia|]. destruct (Z.eqb_spec (next v) (count v)); inversion E1; subst.
      * destruct (IH _ _ _ _ E2 ltac:(lia) ltac:(lia) Fr) as (H1 & H2 & H3 & H4).
        destruct r as [[|]|]; cbn in Fo; try contradiction. change (delivered [Some None]) with 0%nat. lia.
      * destruct (IH _ _ _ _ E2 ltac:(unfold count in *; cbn [transferred next] in *; lia) ltac:(cbn [left]; lia) Fr) as (H1 & H2 & H3 & H4).
        unfold count in *; cbn [transferred next left] in *.
        destruct r as [[[? ?]|]|]; cbn in Fo; try contradiction. change (delivered [Some (Some (z, b))]) with 1%nat. lia.
Qed.

Lemma polls_reach k : forall v, left v <> 0 -> next v <= count v -> count v - next v <= Z.of_nat k ->
  next (fst (spec_run v (repeat (Poll true) k))) = count v.
Proof.
  induction k as [|k IH]; intros v Hl Hn Hk; cbn [repeat spec_run]; [cbn; lia|].
  cbn [spec_step]. destruct (Z.eqb_spec (left v) 0); [contradiction|]. destruct (Z.eqb_spec (next v) (count v)).
  - specialize (IH v Hl Hn ltac:(lia)). destruct (spec_run v (repeat (Poll true) k)). exact IH.
  - specialize (IH (View (transferred v) (next v + 1) (left v)) Hl). unfold count in *. cbn [transferred next] in IH.
    specialize (IH ltac:(lia) ltac:(lia)). destruct (spec_run _ (repeat (Poll true) k)). exact IH.
Qed.

Lemma samples_app a b : samples (a ++ b) = (samples a + samples b)%nat.
Proof. unfold samples. rewrite filter_app, app_length. reflexivity. Qed.
Lemma samples_polls k : samples (repeat (Poll true) k) = 0%nat.
Proof. induction k; auto. Qed.

Lemma block_complete mem gain l k : mem_ok mem -> gain_ok gain -> Forall ev_range l ->
  Z.of_nat (samples l) < BLOCK -> (samples l <= k)%nat ->
  exists a outs, mrun adc_event (adc_start mem gain) (l ++ repeat (Poll true) k) = Ok (a, outs) /\ delivered outs = samples l.
Proof.
  intros Hm Hg He Hs Hk.
  assert (He2 : Forall ev_range (l ++ repeat (Poll true) k)).
  { apply Forall_app. split; auto. apply Forall_forall. intros e H. apply repeat_spec in H. subst. exact Logic.I. }
  destruct (adc_history mem gain _ Hm Hg He2) as (a & outs & R & F & _). exists a, outs. split; auto.
  destruct (adc_history mem gain _ Hm Hg He) as (a0 & outs0 & R0 & F0 & _).
  destruct (spec_run view0 l) as [v1 xs1] eqn:E1.
  destruct (spec_run view0 (l ++ repeat (Poll true) k)) as [v2 xs2] eqn:E2. cbn [fst snd] in *.
  destruct (no_loss_run _ _ _ _ _ _ _ _ E1 ltac:(cbn; lia) ltac:(cbn [left view0]; lia) F0) as (A1 & A2 & A3 & A4).
  destruct (no_loss_run _ _ _ _ _ _ _ _ E2 ltac:(cbn; lia) ltac:(cbn [left view0]; rewrite samples_app, samples_polls; lia) F) as (B1 & B2 & B3 & B4).
  rewrite samples_app, samples_polls in *. cbn [next left view0] in *. change (count view0) with 0 in *.
  rewrite spec_run_app, E1 in E2.
  pose proof (polls_reach k v1 ltac:(lia) A3 ltac:(lia)) as H. destruct (spec_run v1 (repeat (Poll true) k)) as [v3 o3]. cbn [fst] in H.
  inversion E2; subst. lia.
Qed.

(** ** Differential value through the whole ring *)
Lemma sampled_transferred l : forall v, Z.of_nat (samples l) < left v ->
  transferred (fst (spec_run v l)) = transferred v ++ sampled l.
Proof.
  induction l as [|e t IH]; intros v H; cbn [spec_run]; [cbn; rewrite app_nil_r; reflexivity|].
  destruct e as [x|c]; unfold samples in *; cbn [filter length] in H; cbn [spec_step sampled flat_map app].
  - destruct (Z.eqb_spec (left v) 0); [lia|]. specialize (IH (View (transferred v ++ [x]) (next v) (left v - 1)) ltac:(cbn [left]; lia)).
    destruct (spec_run _ t). cbn [fst transferred] in *. rewrite IH, <- app_assoc. reflexivity.
  - destruct (Z.eqb_spec (left v) 0); [lia|]. destruct (next v =? count v).
    + specialize (IH v H). destruct (spec_run v t). cbn [fst] in *. exact IH.
    + specialize (IH (View (transferred v) (next v + 1) (left v)) H). destruct (spec_run _ t). cbn [fst transferred] in *. exact IH.
Qed.
Lemma sample_at_prefix mem T T' i : i < Z.of_nat (length T) -> sample_at mem (T ++ T') i = sample_at mem T i.
Proof. intros H. unfold sample_at. destruct (Z.ltb_spec i 0); auto. apply app_nth1. lia. Qed.
Lemma value_at_prefix gain mem T T' i : i < Z.of_nat (length T) -> value_at gain mem (T ++ T') i = value_at gain mem T i.
Proof. intros H. unfold value_at. rewrite !sample_at_prefix by lia. reflexivity. Qed.
(** Indices handed out exist. *)
Lemma data_index l : forall v k i p, next v <= count v ->
  nth_error (snd (spec_run v l)) k = Some (Some (Data i p)) -> i < count (fst (spec_run v l)).
Proof.
  assert (Mono : forall l v, count v <= count (fst (spec_run v l))).
  { clear. induction l as [|e t IH]; intros v; cbn [spec_run]; [cbn; lia|]. destruct (spec_step v e) as [v1 o] eqn:E.
    specialize (IH v1). destruct (spec_run v1 t). cbn [fst] in *. assert (count v <= count v1); [|lia]. clear IH.
    destruct e; cbn in E.
    - destruct (left v =? 0); inversion E; subst; unfold count; cbn [transferred]; try lia. rewrite app_length; cbn; lia.
    - destruct (left v =? 0); [inversion E; subst; unfold count; cbn; lia|]. destruct (next v =? count v); inversion E; subst; unfold count; cbn; lia. }
  induction l as [|e t IH]; intros v k i p Hn H; cbn [spec_run] in *; [destruct k; discriminate|].
  destruct (spec_step v e) as [v1 o] eqn:E. pose proof (Mono t v1) as Mt. specialize (IH v1). destruct (spec_run v1 t) as [v2 os]. cbn [fst snd] in *.
  assert (Hv : next v1 <= count v1 /\ forall i p, o = Some (Data i p) -> i < count v1).
  { destruct e; cbn in E.
    - destruct (left v =? 0); inversion E; subst; split; try (intros; discriminate); unfold count in *; cbn [transferred next]; try lia. rewrite app_length; cbn; lia.
    - destruct (left v =? 0); [inversion E; subst; split; [unfold count; cbn; lia|intros; discriminate]|]. destruct (Z.eqb_spec (next v) (count v)); inversion E; subst; (split; [unfold count in *; cbn [transferred next]; lia|]); try (intros; discriminate).
      intros ? ? Ed. inversion Ed; subst. unfold count in *; cbn [transferred]. lia. }
  destruct Hv as (Hv1 & Hv2). destruct k as [|k]; cbn in H; [inversion H; subst; specialize (Hv2 _ _ eq_refl); lia|].
  eapply IH; eauto.
Qed.
Lemma Forall2_nth {A B} (R : A -> B -> Prop) a b : Forall2 R a b -> forall k x, nth_error a k = Some x -> exists y, nth_error b k = Some y /\ R x y.
Proof. induction 1; intros [|k] z Hz; cbn in *; try discriminate; [inversion Hz; subst; eauto|eauto]. Qed.
Lemma altern_range n : forall p q, 0 <= p < 256 -> 0 <= q < 256 -> Forall sample_range (map s16 (tc_spec true (altern p q n))).
Proof.
  intros p q Hp Hq. apply Forall_forall. intros x Hx. apply (In_nth _ _ 0) in Hx as (i & Hi & <-).
  rewrite map_length, tc_spec_length, altern_length in Hi. rewrite (proj1 (altern_nth n p q i Hp Hq Hi)). unfold sample_range. destruct (Nat.even i); lia.
Qed.
Lemma differential_run gain mem p q n l rest : length mem = 256%nat /\ Forall sample_range mem -> 0 <= gain <= 65535 ->
  0 <= p < 256 -> 0 <= q < 256 -> Z.of_nat (samples l) < BLOCK ->
  sampled l ++ rest = map s16 (tc_spec true (altern p q n)) ->
  exists a outs, mrun adc_event (adc_start mem gain) l = Ok (a, outs) /\
    forall k i pend, nth_error (snd (spec_run view0 l)) k = Some (Some (Data i pend)) -> 2 <= i -> pend <= 254 ->
      exists e, nth_error outs k = Some (Some (Some ((q - p) * gain / 256, e))).
Proof.
  intros Hm Hg Hp Hq Hs Ht.
  assert (He : Forall ev_range l).
  { pose proof (altern_range n p q Hp Hq) as R. rewrite <- Ht in R. apply Forall_app in R as (R & _). clear - R.
    induction l as [|[x|c] t IH]; cbn in *; constructor; cbn; auto. - inversion R; auto. - apply IH. inversion R; auto. }
  destruct (adc_history mem gain l Hm Hg He) as (a & outs & R & F & _). exists a, outs. split; auto.
  intros k i pend Hk Hi Hpd. destruct (Forall2_nth _ _ _ F _ _ Hk) as (y & Ey & Hy).
  destruct y as [[[v e]|]|]; cbn in Hy; try contradiction. exists e. rewrite Ey. destruct Hy as (Hy & _). rewrite (Hy Hpd). repeat f_equal.
  pose proof (data_index l view0 k i pend ltac:(cbn; lia) Hk) as Hx.
  rewrite (sampled_transferred l view0) in * by (cbn [left view0]; lia). unfold count in Hx. rewrite (sampled_transferred l view0) in Hx by (cbn [left view0]; lia).
  cbn [transferred view0 app] in *. rewrite <- (value_at_prefix gain mem (sampled l) rest) by lia. rewrite Ht. apply constant_input; auto.
  split; auto. apply (f_equal (@length Z)) in Ht. rewrite app_length, map_length, tc_spec_length, altern_length in Ht. lia.
Qed.

(** ** The error flag of every poll *)
Lemma adc_flags mem gain l : Forall sample_range mem -> gain_ok gain -> forall v a,
  adc_inv mem gain v a -> ring_rng a -> Forall ev_range l ->
  exists a' outs, mrun adc_event a l = Ok (a', outs) /\
    map (fun r => match r with Some (Some (_, e)) => Some e | _ => None end) outs = flags v (ad_error a) l.
Proof.
  intros Hmem Hg. induction l as [|e t IH]; intros v a I R He; cbn [mrun flags].
  - eexists _, _. split; [reflexivity|]. reflexivity.
  - inversion He as [|? ? H1 H2]; subst. destruct e as [x|c].
    + destruct (sample_step mem gain v a x I H1) as (a1 & S1 & I1 & Er). rewrite S1; cbn [bind].
      assert (R1 : ring_rng a1).
      { cbn [adc_event] in S1. inversion S1; subst a1. intros y Hy. cbn [ad_ring] in Hy. unfold ring_write in Hy.
        destruct (rg_tc (ad_ring a) =? 0); [apply R; auto|]. cbn [rg_data] in Hy. apply in_upd in Hy as [->|Hy]; auto. }
      destruct (IH _ a1 I1 R1 H2) as (a2 & outs & R2 & F). rewrite R2; cbn [bind].
      eexists _, _. split; [reflexivity|]. cbn [map]. rewrite F, Er. reflexivity.
    + destruct (poll_step mem gain v a c Hmem R I Hg) as (a1 & r & S1 & I1 & R1 & Hm). rewrite S1; cbn [bind].
      destruct (IH _ a1 I1 R1 H2) as (a2 & outs & R2 & F). rewrite R2; cbn [bind].
      eexists _, _. split; [reflexivity|]. cbn [map]. rewrite F.
      destruct (snd (spec_step v (Poll c))) as [[|i p]|]; [|destruct Hm as (val & err & -> & Hi & Hp & Hv & Herr & Ha1)|contradiction].
      * destruct Hm as (-> & ->). reflexivity.
      * rewrite Ha1, Herr. reflexivity.
Qed.
Lemma adc_flags_start mem gain l : mem_ok mem -> gain_ok gain -> Forall ev_range l ->
  exists a' outs, mrun adc_event (adc_start mem gain) l = Ok (a', outs) /\
    map (fun r => match r with Some (Some (_, e)) => Some e | _ => None end) outs = flags view0 false l.
Proof.
  intros (L & Hm) Hg He. apply (adc_flags mem gain l Hm Hg view0 (adc_start mem gain) (adc_inv_start mem gain L)); auto.
  intros x Hx. rewrite Forall_forall in Hm. apply Hm. exact Hx.
Qed.
