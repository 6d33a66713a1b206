(** P_UartErr.v -- single-symbol errors, polarity, idle line. *)
From Verif Require Import Base S_Containers M_ShiftReg D_Containers P_Containers S_Line M_Dsp P_Dsp M_Uart D_Uart P_Uart P_UartRun.

Local Notation BL := 168%nat.

(** ** C16 *)
Lemma dominant_unique w p q : dominant w p -> dominant w q -> p = q.
Proof.
  intros (P1 & P2 & P3 & P4) (Q1 & Q2 & Q3 & Q4).
  destruct (Nat.lt_trichotomy p q) as [L|[L|L]]; auto.
  - specialize (Q3 p L). specialize (P4 q ltac:(lia)). lia.
  - specialize (P3 q L). specialize (Q4 p ltac:(lia)). lia.
Qed.

Lemma alternating_sgn l : alternating (map Z.sgn l) <-> alternating l.
Proof.
  induction l as [|a [|b t] IH]; [cbn; tauto|cbn; tauto|].
  change (Z.sgn a * Z.sgn b < 0 /\ alternating (map Z.sgn (b :: t)) <-> a * b < 0 /\ alternating (b :: t)).
  rewrite IH, <- Z.sgn_mul. split; intros (H1 & H2); split; auto; destruct (Z.sgn_spec (a * b)); lia.
Qed.

Lemma sgn_eqb0 a : (Z.sgn a =? 0) = (a =? 0).
Proof. destruct a; reflexivity. Qed.

Lemma filter_sgn l : filter nonzero (map Z.sgn l) = map Z.sgn (filter nonzero l).
Proof.
  induction l as [|a t IH]; cbn [map filter]; auto. replace (nonzero (Z.sgn a)) with (nonzero a) by (unfold nonzero; rewrite sgn_eqb0; auto).
  destruct (nonzero a); cbn [map]; rewrite IH; auto.
Qed.

Lemma ones_sgn l : ones (map Z.sgn l) = ones l.
Proof.
  unfold ones. induction l as [|a t IH]; cbn [map filter]; auto. rewrite sgn_eqb0.
  destruct (a =? 0); cbn [length]; rewrite IH; auto.
Qed.

Lemma nth_sgn l i : nth i (map Z.sgn l) 0 = Z.sgn (nth i l 0).
Proof. change 0 with (Z.sgn 0) at 1. apply map_nth. Qed.

Lemma sgn0 a : Z.sgn a = 0 <-> a = 0.
Proof. apply Z.sgn_null_iff. Qed.

Lemma frame_ok_sgn s d : frame_ok (map Z.sgn s) d <-> frame_ok s d.
Proof.
  split; intros [F1 F2 F3 F4 F5 F6 F7]; constructor.
  all: rewrite ?map_length, ?nth_sgn, ?filter_sgn, ?skipn_map, ?firstn_map, ?ones_sgn, ?alternating_sgn in *; auto.
  - rewrite sgn0 in F3; auto.
  - intros i Hi. rewrite (F4 i Hi), nth_sgn, sgn0. tauto.
  - apply sgn0; auto.
  - rewrite sgn0; auto.
  - intros i Hi. rewrite (F4 i Hi), nth_sgn, sgn0. tauto.
  - apply sgn0; auto.
Qed.

Lemma ones_app a b : ones (a ++ b) = (ones a + ones b)%nat.
Proof. unfold ones. rewrite filter_app, app_length. reflexivity. Qed.
Lemma ones_le l : (ones l <= length l)%nat.
Proof. unfold ones. induction l as [|a t IH]; cbn; auto. destruct (a =? 0); cbn; lia. Qed.

Lemma ones_all l : ones l = length l -> filter nonzero l = [].
Proof.
  unfold ones. induction l as [|a t IH]; cbn [filter length]; auto. pose proof (ones_le t) as L. unfold ones in L.
  unfold nonzero at 1. destruct (a =? 0); cbn [negb length]; intros H; [apply IH; lia|lia].
Qed.

Lemma alternating_flip l1 a a' l2 :
  Forall (fun x => x <> 0) (l1 ++ a :: l2) -> a * a' < 0 ->
  alternating (l1 ++ a :: l2) -> alternating (l1 ++ a' :: l2) -> l1 = [] /\ l2 = [].
Proof.
  intros Hn Ha. induction l1 as [|b t IH]; intros H1 H2.
  - split; auto. destruct l2 as [|c r]; auto. cbn in H1, H2. inversion Hn; subst.
    inversion H4; subst. exfalso. destruct H1 as (H1 & _), H2 as (H2 & _). nia.
  - exfalso. inversion Hn; subst. cbn [app] in *. destruct t as [|c r].
    + cbn in H1, H2. destruct H1 as (H1 & _), H2 as (H2 & _). nia.
    + destruct H1 as (_ & H1), H2 as (_ & H2). destruct (IH H4 H1 H2). discriminate.
Qed.

Lemma filter_nonzero_Forall l : Forall (fun x => x <> 0) (filter nonzero l).
Proof.
  apply Forall_forall. intros x Hx. apply filter_In in Hx as (_ & Hx). unfold nonzero in Hx.
  destruct (Z.eqb_spec x 0); [discriminate|auto].
Qed.

(** A valid frame has a pulse among its data and parity symbols. *)
Lemma frame_two_pulses s d : frame_ok s d -> exists a b r, filter nonzero s = a :: b :: r.
Proof.
  intros [F1 F2 F3 F4 F5 F6 F7].
  destruct s as [|s0 t]; [discriminate|]. cbn [nth skipn length] in *.
  cbn [filter]. unfold nonzero at 1. destruct (Z.eqb_spec s0 0); [congruence|]. cbn [negb].
  destruct (filter nonzero t) as [|b r] eqn:E; [|eauto]. exfalso.
  assert (ones (firstn 9 t) = 9%nat).
  { assert (Z0 : forall x, In x t -> x = 0).
    { intros x Hx. destruct (Z.eq_dec x 0); auto. exfalso.
      assert (In x (filter nonzero t)); [|rewrite E in H; destruct H].
      apply filter_In. split; auto. unfold nonzero. destruct (Z.eqb_spec x 0); auto. }
    assert (L9 : length (firstn 9 t) = 9%nat) by (rewrite firstn_length; lia).
    rewrite <- L9 at 2. unfold ones. clear F5 F4 F7 E.
    assert (Z1 : forall x, In x (firstn 9 t) -> x = 0).
    { intros x Hx. apply Z0. rewrite <- (firstn_skipn 9 t). apply in_or_app; auto. }
    clear L9. induction (firstn 9 t) as [|a l IH]; auto. cbn [filter].
    rewrite (Z1 a) by (left; auto). cbn [Z.eqb length]. f_equal. apply IH. intros; apply Z1; right; auto. }
  rewrite H in F5. discriminate.
Qed.

Lemma nth_split0 (l : list Z) i : (i < length l)%nat -> l = firstn i l ++ nth i l 0 :: skipn (S i) l.
Proof.
  revert i; induction l as [|a t IH]; intros [|i] H; cbn in *; try lia; auto. f_equal. apply IH; lia.
Qed.

Lemma list_ext0 (a b : list Z) : length a = length b -> (forall i, nth i a 0 = nth i b 0) -> a = b.
Proof.
  intros L H. apply (nth_ext a b 0 0); auto.
Qed.

Lemma one_symbol_not_frame s s' d d' : frame_ok s d -> one_symbol_corrupted s s' -> ~ frame_ok s' d'.
Proof.
  intros Hs (HL & i & Hi & Hne & Heq) Hs'.
  apply frame_ok_sgn in Hs, Hs'.
  set (t := map Z.sgn s) in *. set (t' := map Z.sgn s') in *.
  assert (Lt : length t = 11%nat) by (destruct Hs; auto).
  assert (Lt' : length t' = 11%nat) by (destruct Hs'; auto).
  assert (Hi' : (i < 11)%nat) by (unfold t in Lt; rewrite map_length in Lt; lia).
  set (a := nth i t 0). set (a' := nth i t' 0).
  assert (Ha : a' <> a) by (unfold a, a', t, t'; rewrite !nth_sgn; auto).
  assert (Hj : forall j, j <> i -> nth j t' 0 = nth j t 0).
  { intros j Hj. unfold t, t'. rewrite !nth_sgn. auto. }
  assert (Ha3 : a = 0 \/ a = 1 \/ a = -1).
  { unfold a, t. rewrite nth_sgn. destruct (nth i s 0); auto. }
  assert (Ha3' : a' = 0 \/ a' = 1 \/ a' = -1).
  { unfold a', t'. rewrite nth_sgn. destruct (nth i s' 0); auto. }
  pose proof (nth_split0 t i ltac:(lia)) as Et. pose proof (nth_split0 t' i ltac:(lia)) as Et'.
  fold a in Et. fold a' in Et'.
  assert (E1 : firstn i t' = firstn i t).
  { apply list_ext0; [rewrite !firstn_length; lia|]. intros j.
    destruct (Nat.lt_ge_cases j i).
    - specialize (Hj j ltac:(lia)). rewrite Et, Et' in Hj.
      rewrite !app_nth1 in Hj by (rewrite firstn_length; lia). auto.
    - rewrite !nth_overflow; auto; rewrite firstn_length; lia. }
  assert (E2 : skipn (S i) t' = skipn (S i) t).
  { apply list_ext0; [rewrite !skipn_length; lia|]. intros j.
    specialize (Hj (i + S j)%nat ltac:(lia)). rewrite Et, Et' in Hj.
    rewrite !app_nth2 in Hj by (rewrite firstn_length; lia).
    rewrite !firstn_length in Hj.
    replace (i + S j - Nat.min i (length t))%nat with (S j) in Hj by lia.
    replace (i + S j - Nat.min i (length t'))%nat with (S j) in Hj by lia. cbn [nth] in Hj. auto. }
  rewrite E1, E2 in Et'. set (l1 := firstn i t) in *. set (l2 := skipn (S i) t) in *.
  assert (Ll1 : length l1 = i) by (unfold l1; rewrite firstn_length; lia).
  destruct (Z.eq_dec a 0) as [Z0|NZ]; [|destruct (Z.eq_dec a' 0) as [Z0'|NZ']].
  1,2: destruct Hs as [F1 F2 F3 F4 F5 F6 F7]; destruct Hs' as [G1 G2 G3 G4 G5 G6 G7];
    destruct (Nat.eq_dec i 0) as [->|Ni];
    [ unfold a, a' in *; congruence |];
    destruct (Nat.eq_dec i 10) as [->|Ni10];
    [ unfold a, a' in *; congruence |];
    destruct l1 as [|s0 m1] eqn:El1; [cbn in Ll1; lia|]; cbn [length] in Ll1;
    rewrite Et in F5; rewrite Et' in G5; cbn [app skipn] in F5, G5;
    rewrite !firstn_app in F5, G5;
    replace (9 - length m1)%nat with (S (9 - i)) in F5, G5 by lia; cbn [firstn] in F5, G5;
    rewrite ones_app in F5, G5;
    assert (X : forall z, ones (z :: firstn (9 - i) l2) = ((if (z =? 0)%Z then 1 else 0) + ones (firstn (9 - i) l2))%nat)
      by (intros z; unfold ones; cbn [filter]; destruct (z =? 0); reflexivity);
    rewrite X in F5, G5.
  - rewrite Z0 in F5. destruct (Z.eqb_spec a' 0); [congruence|]. cbn [Z.eqb] in F5.
    rewrite Nat.add_succ_r, Nat.even_succ, <- Nat.negb_even in F5. cbn [Nat.add] in *. rewrite G5 in F5. discriminate.
  - rewrite Z0' in G5. destruct (Z.eqb_spec a 0); [congruence|]. cbn [Z.eqb] in G5.
    rewrite Nat.add_succ_r, Nat.even_succ, <- Nat.negb_even in G5. cbn [Nat.add] in *. rewrite F5 in G5. discriminate.
  - destruct (frame_two_pulses t d Hs) as (p & q & r & Ep).
    assert (Haa : a * a' < 0) by (destruct Ha3 as [|[|]], Ha3' as [|[|]]; try congruence; lia).
    pose proof (fo_alt _ _ Hs) as A1. pose proof (fo_alt _ _ Hs') as A2.
    pose proof (filter_nonzero_Forall t) as Fz.
    rewrite Et in A1, Fz, Ep. rewrite Et' in A2. rewrite filter_app in A1, A2, Fz, Ep. cbn [filter] in A1, A2, Fz, Ep.
    assert (Na : nonzero a = true) by (unfold nonzero; destruct (Z.eqb_spec a 0); [congruence|reflexivity]).
    assert (Na' : nonzero a' = true) by (unfold nonzero; destruct (Z.eqb_spec a' 0); [congruence|reflexivity]).
    rewrite Na in *. rewrite Na' in *.
    destruct (alternating_flip _ _ _ _ Fz Haa A1 A2) as (N1 & N2). rewrite N1, N2 in Ep. discriminate.
Qed.

(** ** C17: polarity *)
Definition negx (x : xt) : xt := XT (- x_last x) (x_prob x) (x_out x) (x_par x) (x_err x).

Lemma opp_eqb0 t : (- t =? 0) = (t =? 0).
Proof. destruct t; reflexivity. Qed.
Lemma same_sign_opp a b : same_sign (- a) (- b) = same_sign a b.
Proof.
  unfold same_sign.
  destruct (Z.ltb_spec 0 (-a)), (Z.ltb_spec 0 (-b)), (Z.ltb_spec (-a) 0), (Z.ltb_spec (-b) 0),
    (Z.ltb_spec 0 a), (Z.ltb_spec 0 b), (Z.ltb_spec a 0), (Z.ltb_spec b 0); cbn; auto; lia.
Qed.

Lemma xp_step_neg b t x : xp_step b (- t) (negx x) = negx (xp_step b t x).
Proof.
  unfold xp_step. cbn [negx x_last x_prob x_out x_par x_err]. rewrite opp_eqb0, same_sign_opp, Z.abs_opp.
  destruct (_ && _), (b =? 9)%nat, (b =? 10)%nat, (t =? 0); reflexivity.
Qed.
Lemma xn_step_neg b t x : xn_step b (- t) (negx x) = negx (xn_step b t x).
Proof.
  unfold xn_step. cbn [negx x_last x_prob x_out x_par x_err]. rewrite opp_eqb0, same_sign_opp, Z.abs_opp.
  destruct (_ && _), (b =? 9)%nat, (t =? 0); reflexivity.
Qed.
Lemma xp_fold_neg l : forall b x, xp_fold b (map Z.opp l) (negx x) = negx (xp_fold b l x).
Proof. induction l as [|t r IH]; intros b x; cbn [map xp_fold]; auto. rewrite xp_step_neg. auto. Qed.
Lemma xn_fold_neg l : forall b x, xn_fold b (map Z.opp l) (negx x) = negx (xn_fold b l x).
Proof. induction l as [|t r IH]; intros b x; cbn [map xn_fold]; auto. rewrite xn_step_neg. auto. Qed.

Lemma nth_opp i l : nth i (map Z.opp l) 0 = - nth i l 0.
Proof. change 0 with (- 0) at 1. apply map_nth. Qed.

Lemma extract_p_neg r r' w ph o e : sr_ok BL r w -> sr_ok BL r' (map Z.opp w) -> (ph < 8)%nat ->
  exists x, extract_data_and_parity r ph o e = Ok x /\ extract_data_and_parity r' ph o e = Ok (negx x).
Proof.
  intros Hr Hr' Hph. unfold extract_data_and_parity.
  rewrite BL_eq, (sr_at_nth BL r w), (sr_at_nth BL r' (map Z.opp w)) by (auto; unfold UART_OVERSAMPLING_RATE; lia).
  cbn [bind]. rewrite nth_opp, opp_eqb0, Z.abs_opp. destruct (_ =? 0); [eexists; split; reflexivity|].
  rewrite (xp_loop_fold r w ph Hr Hph), (xp_loop_fold r' _ ph Hr' Hph) by (cbn; lia).
  eexists. split; [reflexivity|]. rewrite <- xp_fold_neg. cbn [negx x_last x_prob x_out x_par x_err].
  do 2 f_equal. rewrite map_map. apply map_ext. intros j. apply nth_opp.
Qed.
Lemma extract_n_neg r r' w ph o e : sr_ok BL r w -> sr_ok BL r' (map Z.opp w) -> (ph < 8)%nat ->
  exists x, extract_data r ph o e = Ok x /\ extract_data r' ph o e = Ok (negx x).
Proof.
  intros Hr Hr' Hph. unfold extract_data.
  rewrite BL_eq, (sr_at_nth BL r w), (sr_at_nth BL r' (map Z.opp w)) by (auto; unfold UART_OVERSAMPLING_RATE; lia).
  cbn [bind]. rewrite nth_opp, opp_eqb0, Z.abs_opp. destruct (_ =? 0); [eexists; split; reflexivity|].
  rewrite (xn_loop_fold r w ph Hr Hph), (xn_loop_fold r' _ ph Hr' Hph) by (cbn; lia).
  eexists. split; [reflexivity|]. rewrite <- xn_fold_neg. cbn [negx x_last x_prob x_out x_par x_err].
  do 2 f_equal. rewrite map_map. apply map_ext. intros j. apply nth_opp.
Qed.

(** [v] has seen the negated samples of [u]. *)
Definition mirror (u v : uart) : Prop :=
  ua_parity v = ua_parity u /\ ua_counter v = ua_counter u /\ ua_state v = ua_state u /\
  exists w, sr_ok BL (ua_reg u) w /\ sr_ok BL (ua_reg v) (map Z.opp w).

Lemma try_phase_neg u v ph : mirror u v -> (ph < 8)%nat -> try_phase v ph = try_phase u ph.
Proof.
  intros (Hp & Hc & Hs & w & Hr & Hr') Hph. unfold try_phase. rewrite Hp.
  destruct (ua_parity u).
  - destruct (extract_n_neg _ _ w ph 0 false Hr Hr' Hph) as (x & -> & ->). reflexivity.
  - destruct (extract_p_neg _ _ w ph 0 false Hr Hr' Hph) as (x & -> & ->). reflexivity.
  - destruct (extract_p_neg _ _ w ph 0 false Hr Hr' Hph) as (x & -> & ->). reflexivity.
Qed.

Lemma fbp_neg u v : mirror u v -> forall k n b o e, (n + k = 8)%nat -> fbp_loop v n k b o e = fbp_loop u n k b o e.
Proof.
  intros H. induction k as [|k IH]; intros n b o e Hn; cbn [fbp_loop]; auto.
  rewrite (try_phase_neg u v) by (auto; lia). destruct (try_phase u n) as [[[p d] e1]|]; cbn [bind]; auto.
  destruct (_ <? _); apply IH; lia.
Qed.

Lemma s16_opp x : s16 x <> -32768 -> s16 (- x) = - s16 x.
Proof.
  unfold s16. intros H. pose proof (Z.mod_pos_bound (x + 32768) 65536 eq_refl) as Hb.
  pose proof (Z_div_mod_eq_full (x + 32768) 65536) as E. set (m := (x + 32768) mod 65536) in *.
  set (q := (x + 32768) / 65536) in *.
  replace (- x + 32768) with (65536 - m + (- q) * 65536) by lia.
  rewrite Z_mod_plus_full, Z.mod_small by lia. lia.
Qed.

Lemma data_case_neg u v x : mirror u v -> s16 x <> -32768 ->
  exists u' v', ua_data_case u x = Ok u' /\ ua_data_case v (- x) = Ok v' /\ mirror u' v'.
Proof.
  intros (Hp & Hc & Hs & w & Hr & Hr') Hx.
  destruct (ua_data_case_ok u w x Hr) as (r & R & ->).
  destruct (ua_data_case_ok v (map Z.opp w) (- x) Hr') as (r' & R' & ->).
  eexists _, _. split; [reflexivity|]. split; [reflexivity|].
  repeat split; cbn [ua_parity ua_counter ua_state ua_reg]; auto.
  - rewrite Hc; auto.
  - rewrite Hc, Hs; auto.
  - exists (tl w ++ [s16 x]). split; auto. rewrite map_app. cbn [map].
    rewrite s16_opp in R' by auto. destruct w; exact R'.
Qed.

Lemma ua_call_neg u v x o e : mirror u v -> s16 x <> -32768 ->
  exists u' v' out, ua_call u (x, o, e) = Ok (u', out) /\ ua_call v (- x, o, e) = Ok (v', out) /\ mirror u' v'.
Proof.
  intros M Hx. pose proof M as (Hp & Hc & Hs & w & Hr & Hr').
  assert (Ez : zero_level_detect (- x) = zero_level_detect x).
  { unfold zero_level_detect. rewrite s16_opp, opp_eqb0; auto. }
  unfold ua_call, ua_update. rewrite Hs, Ez. destruct (ua_state u) eqn:St.
  - destruct (zero_level_detect x); cbn [negb bind]; eexists _, _, _; (split; [reflexivity|]); (split; [reflexivity|]).
    + exact M.
    + repeat split; auto. exists w; auto.
  - destruct (zero_level_detect x).
    + rewrite Hp. set (u1 := UART _ _ _ (ua_reg u)). set (v1 := UART _ _ _ (ua_reg v)).
      assert (M1 : mirror u1 v1) by (repeat split; auto; exists w; auto).
      destruct (data_case_neg u1 v1 x M1 Hx) as (u' & v' & -> & -> & M'). cbn [bind].
      eexists _, _, _. eauto.
    + destruct (data_case_neg u v x M Hx) as (u' & v' & -> & -> & M'). cbn [bind]. eexists _, _, _. eauto.
  - destruct (data_case_neg u v x M Hx) as (u' & v' & -> & -> & M'). cbn [bind]. eexists _, _, _. eauto.
  - unfold find_best_phase. change (UART_OVERSAMPLING_RATE / 2)%nat with 8%nat.
    rewrite (fbp_neg u v M) by lia.
    destruct (fbp_loop_safe u w Hr 8 0%nat 0 o e eq_refl) as ([[b o1] e1] & ->). cbn [bind].
    eexists _, _, _. split; [reflexivity|]. split; [reflexivity|].
    repeat split; auto. exists w; auto.
Qed.

Definition neg_in (i : Z * Z * bool) : Z * Z * bool := let '(x, o, e) := i in (- x, o, e).

Lemma uart_neg_from l : forall u v, mirror u v -> Forall (fun i => s16 (sym_of i) <> -32768) l ->
  exists u' v' outs, mrun ua_call u l = Ok (u', outs) /\ mrun ua_call v (map neg_in l) = Ok (v', outs) /\ mirror u' v'.
Proof.
  induction l as [|i t IH]; intros u v M H; cbn [map mrun].
  - eexists _, _, _; eauto.
  - destruct i as [[x o] e]. inversion H as [|? ? Hx Ht]; subst. cbn [sym_of fst] in Hx. cbn [neg_in].
    destruct (ua_call_neg u v x o e M Hx) as (u1 & v1 & out & -> & -> & M1). cbn [bind].
    destruct (IH u1 v1 M1 Ht) as (u2 & v2 & os & -> & -> & M2). cbn [bind]. eexists _, _, _; eauto.
Qed.

Lemma mirror_new p : mirror (ua_new p) (ua_new p).
Proof.
  repeat split. exists (repeat 0 BL). cbn [ua_new ua_reg]. rewrite BL_eq. split; [apply sr_new_ok; lia|].
  replace (map Z.opp (repeat 0 BL)) with (repeat 0 BL) by reflexivity. apply sr_new_ok; lia.
Qed.

Lemma uart_polarity p l : Forall (fun i => s16 (sym_of i) <> -32768) l ->
  exists u v outs, mrun ua_call (ua_new p) l = Ok (u, outs) /\ mrun ua_call (ua_new p) (map neg_in l) = Ok (v, outs).
Proof.
  intros H. destruct (uart_neg_from l _ _ (mirror_new p) H) as (u & v & o & E1 & E2 & _). eauto.
Qed.

(** ** C20: idle line *)
Definition quiet (l : list (Z * Z * bool)) : Prop := Forall (fun i => s16 (sym_of i) = 0) l.

(** After [n] zero samples in the waiting state. *)
Definition idle_st (u : uart) (n : Z) : Prop :=
  ua_state u = WAIT_FOR_START /\ ua_counter u = u32 (- n) /\ ua_safe u.

Lemma idle_step u n x o e : idle_st u n -> s16 x = 0 -> 0 <= n -> n + 1 < 4294967296 ->
  exists u', ua_call u (x, o, e) = Ok (u', None) /\ idle_st u' (n + 1).
Proof.
  intros (St & Hc & w & Hr) Hx H0 H1. unfold ua_call, ua_update. rewrite St.
  unfold zero_level_detect. rewrite Hx. cbn [Z.eqb negb].
  destruct (ua_data_case_ok u w x Hr) as (r & R & ->). cbn [bind].
  destruct (u32_neg_pred n H0 H1) as (E1 & E2). rewrite Hc, E1.
  destruct (Z.eqb_spec (u32 (- (n + 1))) 0); [congruence|].
  eexists. split; [reflexivity|]. repeat split; auto. exists (tl w ++ [s16 x]). exact R.
Qed.

Lemma idle_run l : forall u n, idle_st u n -> quiet l -> 0 <= n -> n + Z.of_nat (length l) < 4294967296 ->
  exists u', mrun ua_call u l = Ok (u', repeat None (length l)) /\ idle_st u' (n + Z.of_nat (length l)).
Proof.
  induction l as [|i t IH]; intros u n H Q H0 H1; cbn [mrun length repeat].
  - eexists. split; [reflexivity|]. rewrite Z.add_0_r; auto.
  - destruct i as [[x o] e]. inversion Q as [|? ? Qx Qt]; subst. cbn [sym_of fst length] in *.
    rewrite Nat2Z.inj_succ in H1.
    destruct (idle_step u n x o e H Qx H0 ltac:(lia)) as (u1 & -> & H2). cbn [bind].
    destruct (IH u1 (n + 1) H2 Qt ltac:(lia) ltac:(lia)) as (u2 & -> & H3). cbn [bind].
    eexists. split; [reflexivity|]. rewrite Nat2Z.inj_succ. replace (n + Z.succ (Z.of_nat (length t))) with (n + 1 + Z.of_nat (length t)) by lia. auto.
Qed.

Lemma idle_last u x o e : idle_st u 4294967295 -> s16 x = 0 ->
  exists u', ua_call u (x, o, e) = Ok (u', None) /\ ua_state u' = STOP /\ ua_safe u'.
Proof.
  intros (St & Hc & w & Hr) Hx. unfold ua_call, ua_update. rewrite St.
  unfold zero_level_detect. rewrite Hx. cbn [Z.eqb negb].
  destruct (ua_data_case_ok u w x Hr) as (r & R & ->). cbn [bind]. rewrite Hc.
  change (u32 (u32 (- 4294967295) - 1)) with 0. cbn [Z.eqb].
  eexists. split; [reflexivity|]. split; auto. exists (tl w ++ [s16 x]). exact R.
Qed.

Lemma new_first p x o e : s16 x = 0 -> exists u, ua_call (ua_new p) (x, o, e) = Ok (u, None) /\ idle_st u 0.
Proof.
  intros Hx. unfold ua_call, ua_update. cbn [ua_new ua_state]. unfold zero_level_detect. rewrite Hx. cbn [Z.eqb negb bind].
  eexists. split; [reflexivity|]. repeat split. apply (ua_new_safe p).
Qed.

Lemma stop_step u x o e : ua_state u = STOP -> ua_safe u ->
  exists u' o' e', ua_call u (x, o, e) = Ok (u', Some (o', e')).
Proof.
  intros St (w & Hr). unfold ua_call, ua_update. rewrite St. unfold find_best_phase.
  destruct (fbp_loop_safe u w Hr 8 0%nat 0 o e eq_refl) as ([[b o1] e1] & E).
  change (UART_OVERSAMPLING_RATE / 2)%nat with 8%nat. rewrite E. cbn [bind]. eauto.
Qed.

Lemma quiet_split l n : quiet l -> quiet (firstn n l) /\ quiet (skipn n l).
Proof. intros H. unfold quiet. rewrite <- (firstn_skipn n l) in H. apply Forall_app in H. exact H. Qed.

Lemma uart_idle_upto p l : quiet l -> Z.of_nat (length l) <= 4294967297 ->
  exists u, mrun ua_call (ua_new p) l = Ok (u, repeat None (length l)).
Proof.
  intros Q HL. destruct l as [|[[x o] e] t]; [cbn; eauto|].
  inversion Q as [|? ? Qx Qt]; subst. cbn [sym_of fst length] in *. rewrite Nat2Z.inj_succ in HL.
  destruct (new_first p x o e Qx) as (u1 & E1 & H1). cbn [mrun repeat]. rewrite E1; cbn [bind].
  destruct (Z.le_gt_cases (Z.of_nat (length t)) 4294967295) as [L|L].
  - destruct (idle_run t u1 0 H1 Qt ltac:(lia) ltac:(lia)) as (u2 & -> & _). cbn [bind]. eauto.
  - assert (Hne : t <> []) by (intros ->; cbn in L; lia).
    destruct (exists_last Hne) as (t1 & [[y oy] ey] & ->). rewrite app_length in *. cbn [length] in *.
    apply Forall_app in Qt as (Q1 & Q2). inversion Q2 as [|? ? Qy _]; subst. cbn [sym_of fst] in Qy.
    rewrite mrun_app.
    destruct (idle_run t1 u1 0 H1 Q1 ltac:(lia) ltac:(lia)) as (u2 & -> & H2). cbn [bind mrun].
    replace (0 + Z.of_nat (length t1)) with 4294967295 in H2 by lia.
    destruct (idle_last u2 y oy ey H2 Qy) as (u3 & -> & _). cbn [bind]. eexists.
    rewrite repeat_app. reflexivity.
Qed.

Lemma quiet_exists N : 0 <= N -> exists t, quiet t /\ Z.of_nat (length t) = N.
Proof.
  intros H. exists (repeat (0, 0, false) (Z.to_nat N)). split.
  - apply Forall_forall. intros i Hi. apply repeat_spec in Hi. subst i. reflexivity.
  - rewrite repeat_length. lia.
Qed.

Lemma uart_idle_reports p : exists l u outs,
  quiet l /\ Z.of_nat (length l) = 4294967298 /\
  mrun ua_call (ua_new p) l = Ok (u, outs) /\ exists k o e, nth_error outs k = Some (Some (o, e)).
Proof.
  destruct (quiet_exists 4294967295 ltac:(lia)) as (t & Qt & Lt).
  set (z := (0, 0, false)).
  destruct (new_first p 0 0 false eq_refl) as (u1 & E1 & H1).
  destruct (idle_run t u1 0 H1 Qt ltac:(lia) ltac:(lia)) as (u2 & E2 & H2).
  replace (0 + Z.of_nat (length t)) with 4294967295 in H2 by lia.
  destruct (idle_last u2 0 0 false H2 eq_refl) as (u3 & E3 & S3 & Sf).
  destruct (stop_step u3 0 0 false S3 Sf) as (u4 & o & e & E4).
  exists (z :: t ++ [z; z]), u4, (None :: repeat None (length t) ++ [None; Some (o, e)]).
  split. { constructor; [reflexivity|]. apply Forall_app. split; [exact Qt|]. apply Forall_forall; intros i [<-|[<-|[]]]; reflexivity. }
  split. { cbn [length]. rewrite app_length. cbn [length]. lia. }
  split.
  - unfold z. cbn [mrun]. rewrite E1; cbn [bind]. rewrite mrun_app, E2; cbn [bind mrun].
    rewrite E3; cbn [bind]. rewrite E4. reflexivity.
  - exists (S (length t + 1)), o, e. cbn [nth_error]. rewrite nth_error_app2 by (rewrite repeat_length; lia).
    rewrite repeat_length. replace (length t + 1 - length t)%nat with 1%nat by lia. reflexivity.
Qed.

(** ** Final statements *)
Lemma uart_sound l : exists u outs, mrun ua_call (ua_new PARITY_EVEN) l = Ok (u, outs) /\
  forall k o, nth_error outs k = Some (Some (o, false)) ->
    (BL <= k)%nat /\
    let w := map s16 (lastn BL (map sym_of (firstn k l))) in
    exists ph, dominant w ph /\ frame_ok (symbols w ph) o.
Proof.
  destruct (ua_run_inv l _ [] ua_inv_new) as (u & outs & E & _ & H). exists u, outs. split; auto.
  intros k o Hk. destruct (H _ _ _ Hk) as (L & _ & F). split; auto. apply F; auto.
Qed.

Lemma uart_reports_need_pulse l u outs : mrun ua_call (ua_new PARITY_EVEN) l = Ok (u, outs) ->
  (Z.of_nat (length l) <= 4294967296) ->
  forall k o e, nth_error outs k = Some (Some (o, e)) ->
    (BL <= k)%nat /\ exists i, nth_error l (k - BL) = Some i /\ s16 (sym_of i) <> 0.
Proof.
  intros E HL k o e Hk.
  destruct (ua_run_inv l _ [] ua_inv_new) as (u' & outs' & E' & _ & H). rewrite E in E'. inversion E'; subst u' outs'.
  destruct (H _ _ _ Hk) as (L & S & _). cbn [length app] in *. split; [lia|].
  assert (Hkl : (k < length l)%nat).
  { rewrite <- (mrun_length _ _ _ _ _ E). apply nth_error_Some. congruence. }
  unfold started in S. rewrite map_length, firstn_length, Nat.min_l in S by lia.
  destruct S as [S|S]; [|lia].
  destruct (nth_error l (k - BL)) as [i|] eqn:Ei; [|apply nth_error_None in Ei; lia].
  exists i. split; auto.
  assert (X : nth_error (map sym_of (firstn k l)) (k - BL) = Some (sym_of i)).
  { apply map_nth_error. rewrite nth_error_firstn. bdestr; auto; lia. }
  apply nth_error_nth with (d := 0) in X. rewrite X in S. exact S.
Qed.

Lemma wfs_of_receiving u : ua_receiving u = false -> ua_state u = WAIT_FOR_START.
Proof. unfold ua_receiving. destruct (ua_state u); congruence. Qed.

Lemma uart_frame h u outs frame x o0 e0 y o1 e1 :
  mrun ua_call (ua_new PARITY_EVEN) h = Ok (u, outs) -> ua_receiving u = false ->
  length frame = 167%nat -> s16 x <> 0 ->
  let w := map s16 (x :: map sym_of frame) in
  exists u' o e, mrun ua_call u ((x, o0, e0) :: frame ++ [(y, o1, e1)]) =
      Ok (u', repeat None 168 ++ [Some (o, e)]) /\
    (forall p d, dominant w p -> frame_ok (symbols w p) d -> e = false /\ o = d) /\
    (forall p s d, dominant w p -> frame_ok s d -> one_symbol_corrupted s (symbols w p) -> e = true).
Proof.
  intros E Hrec Lf Hx w. apply wfs_of_receiving in Hrec.
  destruct (ua_run_inv h _ [] ua_inv_new) as (u0 & outs0 & E0 & Hi & _). rewrite E in E0. inversion E0; subst u0 outs0.
  destruct (uart_frame_gen u _ x o0 e0 frame y o1 e1 Hi Hrec Hx Lf) as (u' & o & e & E1 & F1 & F2).
  exists u', o, e. split; auto. split; [intros p d Dp Fp; exact (F2 p Dp d Fp)|].
  intros p s d D Fs C. destruct e; auto. exfalso.
  destruct (F1 eq_refl) as (q & Dq & Fq). fold w in Dq, Fq. rewrite (dominant_unique w q p Dq D) in Fq.
  exact (one_symbol_not_frame _ _ _ _ Fs C Fq).
Qed.

Lemma uart_frame_decoded h u outs frame x o0 e0 y o1 e1 p d :
  mrun ua_call (ua_new PARITY_EVEN) h = Ok (u, outs) -> ua_receiving u = false ->
  length frame = 167%nat -> s16 x <> 0 ->
  let w := map s16 (x :: map sym_of frame) in
  dominant w p -> frame_ok (symbols w p) d ->
  exists u', mrun ua_call u ((x, o0, e0) :: frame ++ [(y, o1, e1)]) =
      Ok (u', repeat None 168 ++ [Some (d, false)]).
Proof.
  intros E Hrec Lf Hx w D F.
  destruct (uart_frame h u outs frame x o0 e0 y o1 e1 E Hrec Lf Hx) as (u' & o & e & E1 & F1 & _).
  destruct (F1 p d D F) as (-> & ->). eauto.
Qed.

Lemma uart_corrupted_flagged h u outs frame x o0 e0 y o1 e1 p s d :
  mrun ua_call (ua_new PARITY_EVEN) h = Ok (u, outs) -> ua_receiving u = false ->
  length frame = 167%nat -> s16 x <> 0 ->
  let w := map s16 (x :: map sym_of frame) in
  dominant w p -> frame_ok s d -> one_symbol_corrupted s (symbols w p) ->
  exists u' o, mrun ua_call u ((x, o0, e0) :: frame ++ [(y, o1, e1)]) =
      Ok (u', repeat None 168 ++ [Some (o, true)]).
Proof.
  intros E Hrec Lf Hx w D F C.
  destruct (uart_frame h u outs frame x o0 e0 y o1 e1 E Hrec Lf Hx) as (u' & o & e & E1 & _ & F2).
  rewrite (F2 p s d D F C) in E1. eauto.
Qed.

(** Without any dominant phase (no start pulse among the first eight samples is impossible here,
    but a lost start pulse at the right phase leaves another one) nothing is claimed. *)
Lemma print_parity_ub p l u outs : mrun ua_call (ua_new p) l = Ok (u, outs) -> p <> PARITY_NONE ->
  ua_print_shiftreg u = UB AssertFailed.
Proof.
  intros E Hp. destruct (uart_safe_from l _ (ua_new_safe p)) as (u' & o & E' & S & P). rewrite E in E'. inversion E'; subst u' o.
  cbn [ua_new ua_parity] in P. unfold ua_print_shiftreg. rewrite P.
  destruct S as (w & Hr).
  assert (S' : ua_safe (UART PARITY_EVEN 0 STOP (ua_reg u))) by (exists w; exact Hr).
  destruct p; [congruence| |]; apply print_loop_oob; auto; cbn; lia.
Qed.

Lemma print_none_ok l u outs : mrun ua_call (ua_new PARITY_NONE) l = Ok (u, outs) ->
  exists vs, ua_print_shiftreg u = Ok vs /\ length vs = 160%nat.
Proof.
  intros E. destruct (uart_safe_from l _ (ua_new_safe PARITY_NONE)) as (u' & o & E' & S & P). rewrite E in E'. inversion E'; subst u' o.
  cbn [ua_new ua_parity] in P. unfold ua_print_shiftreg. rewrite P. destruct S as (w & Hr).
  change (UART_OVERSAMPLING_RATE * UART_BITS_NO_PARITY)%nat with 160%nat.
  rewrite (print_loop_ok _ w Hr) by lia. eexists. split; [reflexivity|].
  pose proof Hr as (_ & Lw & _). cbn [skipn]. rewrite firstn_length. lia.
Qed.
