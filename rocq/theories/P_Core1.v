(** P_Core1.v -- proofs about core1's line tracking. *)
From Verif Require Import Base M_ShiftReg M_Dsp M_Uart M_Adc M_Core1 S_Containers S_Dsp S_Line S_Core1 S_Adc D_Uart D_Core1
  P_Containers P_Dsp P_Adc P_Uart P_UartRun P_UartErr.

Definition tr_inv (h : list obs) (s : linest) : Prop :=
  ua_safe (ls_uart s) /\ ls_busy s = busy_after h /\
  (busy_after h = true -> ls_idle s = 176 - quiet_since h /\ quiet_since h <= 176).

Lemma busy_after_app h o : busy_after (h ++ [o]) = if ev_free (snd o) then false else if ev_busy (snd o) then true else busy_after h.
Proof. unfold busy_after. rewrite fold_left_app. reflexivity. Qed.
Lemma quiet_since_app h o : quiet_since (h ++ [o]) = if ev_busy (snd o) then 0 else if fst o then quiet_since h else quiet_since h + 1.
Proof. unfold quiet_since. rewrite fold_left_app. reflexivity. Qed.

Definition rules_at (h : list obs) (r : bool) (e : event) : Prop :=
  (ev_busy e = true <-> busy_after h = false /\ r = true) /\
  (ev_free e = true <-> busy_after h = true /\ r = false /\ quiet_since h = 176) /\
  (busy_after h = true -> quiet_since h <= 176) /\
  (is_byte e = true -> r = true /\ busy_after (h ++ [(r, e)]) = true) /\
  (ev_valid e = true -> ev_error e = false) /\
  (is_byte e = false -> ev_char e = 0) /\ ev_dadc e = false.

(** Update as seen through [ua_call]. *)
Lemma line_step_unfold s p u out : ua_call (ls_uart s) (p, 0, ls_rxerr s) = Ok (u, out) ->
  exists e', line_step s p =
    let r := ua_receiving (ls_uart s) in
    let b := ls_busy s in
    let bz := r && negb b in let fr := negb r && b && negb (0 <? ls_idle s) in
    Ok (LS u (if bz then true else if fr then false else b)
         (if bz then 176 else if negb r && b && (0 <? ls_idle s) then ls_idle s - 1 else ls_idle s) e',
        match out with None => EV 0 false false bz fr false | Some (o, e) => EV o (negb e) e bz fr false end).
Proof.
  unfold ua_call, line_step. intros H.
  destruct (ua_update (ls_uart s) p 0 (ls_rxerr s)) as [[[[u' ret] o'] e']|]; cbn [bind] in H; [|discriminate].
  inversion H; subst. exists e'. cbv zeta.
  destruct (ua_receiving (ls_uart s)), (ls_busy s), (0 <? ls_idle s), ret; reflexivity.
Qed.

Lemma out_receiving u x o e u' r : ua_call u (x, o, e) = Ok (u', Some r) -> ua_receiving u = true.
Proof.
  unfold ua_call, ua_update, ua_receiving. destruct (ua_state u) eqn:St; auto; cbn [bind]; try discriminate.
  destruct (ua_data_case _ _); cbn [bind]; discriminate.
Qed.

Lemma line_obs_step h s p : tr_inv h s ->
  exists s' r e, line_obs s p = Ok (s', (r, e)) /\ tr_inv (h ++ [(r, e)]) s' /\ rules_at h r e.
Proof.
  intros (Hs & Hb & Hi). destruct (ua_call_safe _ (p, 0, ls_rxerr s) Hs) as (u & out & E & Hs' & _).
  destruct (line_step_unfold s p u out E) as (e' & F). unfold line_obs. rewrite F. cbv zeta. cbn [bind].
  eexists _, _, _. split; [reflexivity|].
  assert (Hr : forall r, out = Some r -> ua_receiving (ls_uart s) = true) by (intros r ->; eapply out_receiving; eauto).
  set (r := ua_receiving (ls_uart s)) in *. clearbody r. rewrite Hb.
  assert (Hz : busy_after h = true -> (0 <? ls_idle s) = negb (quiet_since h =? 176)).
  { intros B. destruct (Hi B) as (-> & ?). destruct (Z.ltb_spec 0 (176 - quiet_since h)), (Z.eqb_spec (quiet_since h) 176); cbn; auto; lia. }
  unfold tr_inv, rules_at. rewrite !busy_after_app, !quiet_since_app. unfold is_byte. cbn [fst snd ls_uart ls_busy ls_idle].
  destruct out as [[o e]|].
  - rewrite (Hr _ eq_refl). destruct (busy_after h) eqn:B; [destruct (Hi eq_refl) as (Hi1 & Hi2)|];
      cbn [andb negb ev_free ev_busy ev_valid ev_error ev_char ev_dadc].
    all: repeat match goal with |- _ /\ _ => split | |- _ <-> _ => split end; intros; auto; try congruence; try lia; try tauto;
      try (destruct e; cbn in *; congruence).
  - clear Hr. destruct (busy_after h) eqn:B; [destruct (Hi eq_refl) as (Hi1 & Hi2); rewrite (Hz eq_refl)|]; destruct r;
      try (destruct (Z.eqb_spec (quiet_since h) 176) as [Q|Q]);
      cbn [andb negb orb ev_free ev_busy ev_valid ev_error ev_char ev_dadc].
    all: repeat match goal with |- _ /\ _ => split | |- _ <-> _ => split end; intros; auto; try congruence; try lia; try tauto;
      intuition (try congruence; try lia).
Qed.

Lemma line_run ps : forall h s, tr_inv h s ->
  exists s' tr, mrun line_obs s ps = Ok (s', tr) /\ tr_inv (h ++ tr) s' /\
    forall h1 r e t, tr = h1 ++ (r, e) :: t -> rules_at (h ++ h1) r e.
Proof.
  induction ps as [|p ps IH]; intros h s H; cbn [mrun].
  - eexists _, _. split; [reflexivity|]. rewrite app_nil_r. split; [auto|]. intros [|? ?]; discriminate.
  - destruct (line_obs_step h s p H) as (s1 & r & e & E & H1 & R). rewrite E; cbn [bind].
    destruct (IH _ _ H1) as (s2 & tr & E2 & H2 & R2). rewrite E2; cbn [bind].
    eexists _, _. split; [reflexivity|]. rewrite <- app_assoc in H2. split; [exact H2|].
    intros [|o h1] r' e' t' Eq; inversion Eq; subst.
    + rewrite app_nil_r. exact R.
    + specialize (R2 h1 r' e' t' eq_refl). rewrite <- app_assoc in R2. exact R2.
Qed.
Lemma ls_new_inv e0 : tr_inv [] (ls_new e0).
Proof. split; [apply ua_new_safe|]. cbn. split; auto. intros _. split; [reflexivity|lia]. Qed.

Lemma line_events e0 ps : exists s tr, mrun line_obs (ls_new e0) ps = Ok (s, tr) /\ length tr = length ps /\ line_rules tr.
Proof.
  destruct (line_run ps [] _ (ls_new_inv e0)) as (s & tr & E & _ & R). exists s, tr. split; auto.
  split; [eapply mrun_length; eauto|]. exact R.
Qed.

(** ** The whole chain: no undefined behaviour for any ADC input, same rules *)
Lemma dot_abs B (wb : list Z) : 0 <= B -> forall wa, bounded B wa -> Z.abs (dot wa wb) <= B * abs_sum wb.
Proof.
  intros HB. induction wb as [|c tb IH]; intros [|x ta] Hb; cbn [dot abs_sum fold_right]; try (fold (abs_sum tb)).
  - cbn; lia.
  - cbn; lia.
  - cbn. assert (0 <= abs_sum tb) by (clear; induction tb; cbn; [lia|]; fold (abs_sum tb); lia). nia.
  - inversion Hb; subst. specialize (IH ta H2).
    assert (Z.abs (x * c) <= B * Z.abs c) by (rewrite Z.abs_mul; apply Z.mul_le_mono_nonneg_r; lia). lia.
Qed.
Lemma fir_spec_bound h : bounded 12000 h -> -16000 <= fir_spec h <= 16000.
Proof.
  intros H. unfold fir_spec.
  pose proof (dot_abs 12000 taps ltac:(lia) (lastn 7 (repeat 0 7 ++ h))) as D.
  assert (Hb : bounded 12000 (lastn 7 (repeat 0 7 ++ h))).
  { apply bounded_lastn, bounded_app; split; auto. apply bounded_repeat0; lia. }
  specialize (D Hb). replace (abs_sum taps) with 42593 in D by reflexivity.
  pose proof (Z.div_mod (dot (lastn 7 (repeat 0 7 ++ h)) taps) 32768 ltac:(lia)).
  pose proof (Z.mod_pos_bound (dot (lastn 7 (repeat 0 7 ++ h)) taps) 32768 ltac:(lia)). lia.
Qed.

Definition k_inv (xs : list Z) (odd : bool) (tr : list obs) (s : core1) : Prop :=
  bounded 12000 xs /\ fir_inv xs (k_fir s) /\ k_rs s = RS (if odd then 1 else 0) 1 /\ dc_inv (k_dc s) /\
  (exists l, k_lv s = enc l) /\ (exists hb, bit_inv hb (k_bit s)) /\ tr_inv tr (k_ls s).

Lemma level_out_bound s x : -80000 <= x <= 80000 -> -80000 <= level_out s x <= 80000.
Proof.
  intros H. destruct s; cbn [level_out]; auto.
  pose proof (Z.div_mod (26 * x) 256 ltac:(lia)). pose proof (Z.mod_pos_bound (26 * x) 256 ltac:(lia)). lia.
Qed.
Lemma dc_out_bound d : dc_inv d -> -32001 <= dc_y d / 256 <= 32001.
Proof.
  intros [Ha Hc]. unfold dcB in *. pose proof (Z.div_mod (dc_y d) 256 ltac:(lia)).
  pose proof (Z.mod_pos_bound (dc_y d) 256 ltac:(lia)). lia.
Qed.

Lemma core1_step xs tr s x : -12000 <= x <= 12000 ->
  (k_inv xs true tr s -> exists s' r, core1_obs s x = Ok (s', (r, ev_none)) /\ k_inv (xs ++ [x]) false tr s') /\
  (k_inv xs false tr s -> exists s' r e, core1_obs s x = Ok (s', (r, e)) /\ k_inv (xs ++ [x]) true (tr ++ [(r, e)]) s' /\ rules_at tr r e).
Proof.
  intros Hx.
  assert (P : forall b, k_inv xs b tr s -> bounded 12000 (xs ++ [x]) /\ exists f', fir_update (k_fir s) x = Ok (f', fir_spec (xs ++ [x])) /\ fir_inv (xs ++ [x]) f').
  { intros b (H1 & H2 & _). split; [apply bounded_app; split; auto; constructor; [lia|constructor]|]. apply fir_step; auto; lia. }
  split; intros H; destruct (P _ H) as (Hb & f' & Ef & Hf); destruct H as (_ & _ & Hr & Hd & (l & Hl) & (hb & Hbit) & Ht);
    unfold core1_obs, core1_sample; rewrite Ef; cbn [bind]; rewrite Hr.
  - unfold rs_update. cbn [rs_counter rs_n Z.eqb bind]. eexists _, _. split; [reflexivity|].
    unfold k_inv. cbn [k_fir k_rs k_dc k_lv k_bit k_ls]. eauto 12.
  - unfold rs_update. cbn [rs_counter rs_n Z.eqb]. cbv beta iota.
    destruct (dc_step (k_dc s) _ Hd (fir_spec_bound _ Hb)) as (d' & Ed & Hd' & _). rewrite Ed; cbn [bind].
    pose proof (dc_out_bound d' Hd') as Bd.
    destruct (lv_step l (dc_y d' / 256) ltac:(lia)) as (l' & _ & El). rewrite Hl, El; cbn [bind].
    pose proof (level_out_bound l' (dc_y d' / 256) ltac:(lia)) as Bl.
    destruct (bit_step_hist hb _ (level_out l' (dc_y d' / 256)) Hbit ltac:(lia)) as (b' & Eb & Hbit'). rewrite Eb; cbn [bind].
    destruct (line_obs_step tr (k_ls s) (mf_spec (hb ++ [level_out l' (dc_y d' / 256)])) Ht) as (ls' & r & e & E & Ht' & R).
    unfold line_obs in E. destruct (line_step (k_ls s) _) as [[ls1 e1]|]; cbn [bind] in *; [|discriminate].
    inversion E; subst ls1 e1 r. eexists _, _, _. split; [reflexivity|]. split; [|exact R].
    unfold k_inv. cbn [k_fir k_rs k_dc k_lv k_bit k_ls]. 
    split; [exact Hb|]. split; [exact Hf|]. split; [reflexivity|]. split; [exact Hd'|]. split; [eauto|]. split; [eauto|exact Ht'].
Qed.

Lemma core1_run n : forall xs h tr s, (length xs <= 2 * n)%nat -> k_inv h false tr s -> bounded 12000 xs ->
  exists s' out, mrun core1_obs s xs = Ok (s', out) /\ Forall (fun o => snd o = ev_none) (odds out) /\
    forall h1 r e t, evens out = h1 ++ (r, e) :: t -> rules_at (tr ++ h1) r e.
Proof.
  induction n as [|n IH]; intros xs h tr s L K Hb.
  - destruct xs; [|cbn in L; lia]. eexists _, _. split; [reflexivity|]. split; [constructor|]. intros [|? ?]; discriminate.
  - destruct xs as [|x [|y xs]].
    + eexists _, _. split; [reflexivity|]. split; [constructor|]. intros [|? ?]; discriminate.
    + inversion Hb; subst. destruct (proj2 (core1_step h tr s x ltac:(lia)) K) as (s1 & r & e & E & _ & R).
      cbn [mrun]. rewrite E; cbn [bind]. eexists _, _. split; [reflexivity|]. split; [constructor|].
      intros [|o h1] r' e' t' Eq; inversion Eq; subst; [rewrite app_nil_r; exact R|]. destruct h1; discriminate.
    + inversion Hb as [|? ? Hx Hb1]; subst. inversion Hb1 as [|? ? Hy Hb2]; subst.
      destruct (proj2 (core1_step h tr s x ltac:(lia)) K) as (s1 & r & e & E & K1 & R).
      destruct (proj1 (core1_step _ _ s1 y ltac:(lia)) K1) as (s2 & r2 & E2 & K2).
      cbn [length] in L. destruct (IH xs _ _ s2 ltac:(lia) K2 Hb2) as (s3 & out & E3 & O3 & R3).
      cbn [mrun]. rewrite E; cbn [bind]. rewrite E2; cbn [bind]. rewrite E3; cbn [bind].
      eexists _, _. split; [reflexivity|]. split.
      * cbn. constructor; [reflexivity|]. destruct out; [constructor|]. exact O3.
      * intros [|o h1] r' e' t' Eq; cbn [evens] in Eq; inversion Eq; subst; [rewrite app_nil_r; exact R|].
        specialize (R3 h1 r' e' t' ltac:(auto)). rewrite <- app_assoc in R3. exact R3.
Qed.

Lemma core1_new_inv e0 : exists s, core1_new e0 = Ok s /\ k_inv [] false [] s.
Proof.
  destruct (fir_new_inv (repeat 0 14) eq_refl) as (f & Ef & Hf). destruct bit_new_ok as (b & Eb & Hb).
  unfold core1_new. rewrite Ef; cbn [bind]. rewrite Eb; cbn [bind]. eexists. split; [reflexivity|].
  unfold k_inv. cbn [k_fir k_rs k_dc k_lv k_bit k_ls].
  split; [constructor|]. split; [exact Hf|]. split; [reflexivity|]. split; [apply dc_new_inv|]. split; [exists Idle; reflexivity|].
  split; [|apply ls_new_inv]. exists []. split; [constructor|]. rewrite app_nil_r. unfold lastn.
  rewrite repeat_length, Nat.sub_diag. exact Hb.
Qed.

Lemma core1_events e0 xs : bounded 12000 xs ->
  exists s s' out, core1_new e0 = Ok s /\ mrun core1_obs s xs = Ok (s', out) /\ length out = length xs /\
    line_rules (evens out) /\ Forall (fun o => snd o = ev_none) (odds out).
Proof.
  intros Hb. destruct (core1_new_inv e0) as (s & E & K).
  destruct (core1_run (length xs) xs [] [] s ltac:(lia) K Hb) as (s' & out & R & O & L).
  exists s, s', out. split; auto. split; auto. split; [eapply mrun_length; eauto|]. split; auto.
Qed.

(** ** With the ADC in front *)
Definition ring255 (a : adc) : Prop :=
  length (rg_data (ad_ring a)) = 256%nat /\ Forall (fun x => -255 <= x <= 255) (rg_data (ad_ring a)) /\ ad_gain a = firmware_gain.

Lemma Forall_upd {A} (P : A -> Prop) l i x : Forall P l -> P x -> Forall P (upd l i x).
Proof. intros H Hx. apply Forall_forall. intros y Hy. apply in_upd in Hy as [->|Hy]; auto. rewrite Forall_forall in H; auto. Qed.

Lemma adc_upd_safe c a : ring255 a -> exists a' o, adc_update c a = Ok (a', o) /\ ring255 a' /\
  forall v, o = Some v -> -12000 <= v <= 12000.
Proof.
  intros (L & R & G). unfold adc_update.
  set (a1 := if rg_tc (ad_ring a) =? 0 then _ else _).
  assert (H1 : rg_data (ad_ring a1) = rg_data (ad_ring a) /\ ad_gain a1 = ad_gain a).
  { unfold a1. destruct (rg_tc (ad_ring a) =? 0); auto. }
  destruct H1 as (D1 & G1). clearbody a1.
  assert (I1 : ring255 a1) by (unfold ring255; rewrite D1, G1; auto).
  destruct (ad_tc a1 =? rg_tc (ad_ring a1)).
  - eexists _, _. split; [reflexivity|]. split; auto. discriminate.
  - rewrite !adc_len_aget by (rewrite D1; auto). cbn [bind].
    assert (B : forall i, -255 <= nth (Z.to_nat (i mod 256)) (rg_data (ad_ring a1)) 0 <= 255).
    { intros i. rewrite D1. rewrite Forall_forall in R. apply R. apply nth_In. pose proof (Z.mod_pos_bound i 256). lia. }
    set (X1 := nth _ _ 0). set (X2 := nth _ _ 0). set (Y := nth _ _ 0).
    assert (B1 : -255 <= X1 <= 255) by apply B. assert (B2 : -255 <= X2 <= 255) by apply B. assert (B3 : -255 <= Y <= 255) by apply B.
    clearbody X1 X2 Y.
    assert (Q : -255 <= Z.quot (X1 + X2) 2 <= 255).
    { split; [change (-255) with (Z.quot (-510) 2)|change 255 with (Z.quot 510 2)]; apply Z.quot_le_mono; lia. }
    rewrite (s16_id (Z.quot (X1 + X2) 2)) by lia. rewrite s16_id by lia.
    rewrite G1, G. change firmware_gain with 4992. rewrite chk32_ok by lia. cbn [bind].
    eexists _, _. split; [reflexivity|]. split.
    + unfold ring255. cbn [ad_ring ad_gain]. rewrite D1. auto.
    + intros v E. inversion E; subst. rewrite asr_div by lia. change (2 ^ 8) with 256.
      pose proof (Z.div_mod ((Z.quot (X1 + X2) 2 + Y) * 4992) 256 ltac:(lia)).
      pose proof (Z.mod_pos_bound ((Z.quot (X1 + X2) 2 + Y) * 4992) 256 ltac:(lia)). lia.
Qed.

Definition c1_good (i : c1_input) : Prop := match i with Dma v => -255 <= v <= 255 | Iter _ _ => True end.
Definition c1_inv (s : c1_state) : Prop :=
  ring255 (c1_adc s) /\ exists xs odd tr, k_inv xs odd tr (c1_chain s).

Lemma core1_sample_safe s xs odd tr x : -12000 <= x <= 12000 -> k_inv xs odd tr s ->
  exists s' e xs' odd' tr', core1_sample s x = Ok (s', e) /\ k_inv xs' odd' tr' s'.
Proof.
  intros Hx K. destruct (core1_step xs tr s x Hx) as (A & B). unfold core1_obs in *. destruct odd.
  - destruct (A K) as (s' & r & E & K'). destruct (core1_sample s x) as [[s1 e1]|]; cbn [bind] in E; [|discriminate].
    inversion E; subst. eauto 10.
  - destruct (B K) as (s' & r & e & E & K' & _). destruct (core1_sample s x) as [[s1 e1]|]; cbn [bind] in E; [|discriminate].
    inversion E; subst. eauto 10.
Qed.

Lemma c1_step_safe s i : c1_inv s -> c1_good i -> exists s' l, c1_step s i = Ok (s', l) /\ c1_inv s'.
Proof.
  intros ((L & R & G) & xs & odd & tr & K) Hi. destruct i as [v|ch1 wready]; cbn [c1_step].
  - eexists _, _. split; [reflexivity|]. split; [|cbn; eauto]. unfold ring255, ring_write; cbn [c1_adc ad_ring ad_gain].
    destruct (rg_tc (ad_ring (c1_adc s)) =? 0); auto. cbn [rg_data]. split; [rewrite upd_length; auto|]. split; auto.
    apply Forall_upd; auto.
  - destruct (adc_upd_safe ch1 (c1_adc s) (conj L (conj R G))) as (a1 & o & E & I1 & V). rewrite E; cbn [bind].
    destruct o as [v|].
    + cbn [adc_read_error]. destruct (ad_error a1).
      * unfold core1_iter. destruct (if ev_nonzero _ then _ else _) as [pushed ferr]. cbn [bind].
        eexists _, _. split; [reflexivity|]. split; [|cbn; eauto]. exact I1.
      * unfold core1_iter. destruct (if ev_nonzero _ then _ else _) as [pushed ferr].
        destruct (core1_sample_safe _ _ _ _ v (V v eq_refl) K) as (s' & e & xs' & odd' & tr' & E' & K'). rewrite E'; cbn [bind].
        eexists _, _. split; [reflexivity|]. split; [|cbn; eauto]. exact I1.
    + unfold core1_iter. destruct (if ev_nonzero _ then _ else _) as [pushed ferr]. cbn [bind].
      eexists _, _. split; [reflexivity|]. split; [|cbn; eauto]. exact I1.
Qed.

Lemma mrun_safe {S I O} (f : S -> I -> res (S * O)) (P : S -> Prop) (Q : I -> Prop) :
  (forall s i, P s -> Q i -> exists s' o, f s i = Ok (s', o) /\ P s') ->
  forall l s, P s -> Forall Q l -> exists s' os, mrun f s l = Ok (s', os) /\ P s'.
Proof.
  intros H. induction l as [|i t IH]; intros s Hs Hq; cbn [mrun]; [eauto|]. inversion Hq; subst.
  destruct (H s i Hs H2) as (s1 & o & E & H1). rewrite E; cbn [bind].
  destruct (IH s1 H1 H3) as (s2 & os & E2 & H4). rewrite E2; cbn [bind]. eauto.
Qed.

Lemma c1_safe mem e0 l : length mem = 256%nat -> Forall (fun x => -255 <= x <= 255) mem -> Forall c1_good l ->
  exists s s' outs, c1_start mem e0 = Ok s /\ mrun c1_step s l = Ok (s', outs).
Proof.
  intros L R Hl. destruct (core1_new_inv e0) as (k & E & K). unfold c1_start. rewrite E; cbn [bind].
  destruct (mrun_safe c1_step c1_inv c1_good c1_step_safe l (C1S (adc_start mem firmware_gain) k ev_none)) as (s' & os & R' & _); auto.
  - split; [|cbn; eauto]. unfold ring255. cbn. auto.
  - eauto 10.
Qed.

(** ** The inter-core FIFO *)
Lemma core1_iter_fifo s pend w inp s' pend' pushed ferr : core1_iter s pend w inp = Ok (s', pend', pushed, ferr) ->
  pushed = (if ev_nonzero pend && w then Some pend else None) /\ ferr = ev_nonzero pend && negb w.
Proof.
  unfold core1_iter. destruct (ev_nonzero pend), w; destruct inp as [| |v]; try (destruct (core1_sample s v) as [[? ?]|]);
    cbn [bind]; intros E; inversion E; auto.
Qed.
Lemma ev_nonzero_none e : ev_nonzero e = false <-> e = ev_none.
Proof.
  destruct e as [c v r b f d]. unfold ev_nonzero, ev_none. cbn. split.
  - destruct (Z.eqb_spec c 0), v, r, b, f, d; cbn; try discriminate. subst; auto.
  - intros E; inversion E; reflexivity.
Qed.
Lemma core1_fifo l : forall s pend s' outs, mrun core1_loop (s, pend) l = Ok (s', outs) ->
  (forall e p f, nth_error outs 0 = Some (e, p, f) -> forall i, nth_error l 0 = Some i ->
     (pend = ev_none -> p = None /\ f = false) /\
     (pend <> ev_none -> if fst i then p = Some pend /\ f = false else p = None /\ f = true)) /\
  forall k e p f e' p' f' i, nth_error outs k = Some (e, p, f) -> nth_error outs (S k) = Some (e', p', f') ->
    nth_error l (S k) = Some i ->
     (e = ev_none -> p' = None /\ f' = false) /\
     (e <> ev_none -> if fst i then p' = Some e /\ f' = false else p' = None /\ f' = true).
Proof.
  induction l as [|i t IH]; intros s pend s' outs E; cbn [mrun] in E.
  - inversion E; subst. split; intros; [destruct e; discriminate|]. destruct k; discriminate.
  - unfold core1_loop at 1 in E. cbn [fst snd] in E.
    destruct (core1_iter s pend (fst i) (snd i)) as [[[[s1 pend1] pu] fe]|] eqn:E1; cbn [bind] in E; [|discriminate].
    destruct (mrun core1_loop (s1, pend1) t) as [[s2 os]|] eqn:E2; cbn [bind] in E; [|discriminate]. inversion E; subst.
    destruct (core1_iter_fifo _ _ _ _ _ _ _ _ E1) as (Ep & Ef).
    destruct (IH _ _ _ _ E2) as (H0 & Hk). split.
    + cbn [nth_error]. intros e p f Eq i' Ei. inversion Eq; inversion Ei; subst. split.
      * intros ->. cbn. auto.
      * intros N. destruct (ev_nonzero pend) eqn:Z0; [destruct (fst i'); auto|]. apply ev_nonzero_none in Z0. contradiction.
    + intros [|k] e p f e' p' f' i' A B C; cbn [nth_error] in A, B, C.
      * inversion A; subst. exact (H0 _ _ _ B _ C).
      * exact (Hk _ _ _ _ _ _ _ _ A B C).
Qed.
(** With room in the FIFO at every iteration nothing is lost or reordered. *)
Lemma core1_fifo_ready l : forall s pend s' outs, mrun core1_loop (s, pend) l = Ok (s', outs) ->
  Forall (fun i => fst i = true) l -> Forall (fun o => snd o = false) outs /\
  filter ev_nonzero (pend :: map (fun o => fst (fst o)) outs) =
    flat_map (fun o => match snd (fst o) with Some e => [e] | None => [] end) outs ++ filter ev_nonzero [snd s'].
Proof.
  induction l as [|i t IH]; intros s pend s' outs E F; cbn [mrun] in E.
  - inversion E; subst. split; [constructor|reflexivity].
  - inversion F; subst. unfold core1_loop at 1 in E. cbn [fst snd] in E.
    destruct (core1_iter s pend (fst i) (snd i)) as [[[[s1 pend1] pu] fe]|] eqn:E1; cbn [bind] in E; [|discriminate].
    destruct (mrun core1_loop (s1, pend1) t) as [[s2 os]|] eqn:E2; cbn [bind] in E; [|discriminate]. inversion E; subst.
    destruct (core1_iter_fifo _ _ _ _ _ _ _ _ E1) as (Ep & Ef). rewrite H1 in *.
    destruct (IH _ _ _ _ E2 H2) as (H0 & Hk). split.
    + constructor; auto. cbn. rewrite Ef. apply andb_false_r.
    + cbn [map flat_map fst snd]. rewrite <- app_assoc, <- Hk. rewrite Ep, andb_true_r. cbn [filter].
      destruct (ev_nonzero pend); reflexivity.
Qed.
