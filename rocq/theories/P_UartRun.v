(** P_UartRun.v -- proofs about whole runs of the UART receiver. *)
From Verif Require Import Base S_Containers M_ShiftReg D_Containers P_Containers S_Line M_Dsp P_Dsp M_Uart D_Uart P_Uart.

Local Notation BL := 168%nat.

Lemma s16_window_shift w x : s16_window w -> s16_window (tl w ++ [s16 x]).
Proof.
  intros H. unfold s16_window in *. apply Forall_app. split.
  - destruct w; cbn; auto. inversion H; auto.
  - constructor; auto. apply s16_range.
Qed.

Lemma s16_window_map l : s16_window (map s16 l).
Proof. induction l; cbn; constructor; auto. apply s16_range. Qed.

Lemma s16_window_lastn n l : s16_window l -> s16_window (lastn n l).
Proof.
  unfold s16_window, lastn. intros H. apply Forall_forall. intros x Hx. rewrite Forall_forall in H.
  apply H. rewrite <- (firstn_skipn (length l - n) l). apply in_or_app; auto.
Qed.

Lemma ua_data_case_ok u w p : sr_ok BL (ua_reg u) w ->
  exists r, sr_ok BL r (tl w ++ [s16 p]) /\
    ua_data_case u p = Ok (UART (ua_parity u) (u32 (ua_counter u - 1))
       (if u32 (ua_counter u - 1) =? 0 then STOP else ua_state u) r).
Proof.
  intros H. unfold ua_data_case. rewrite BL_eq.
  destruct (sr_update_null_ok BL (ua_reg u) w (s16 p) H) as (r & E & Hr). rewrite E. cbn [bind]. eauto.
Qed.

(** ** C18: no undefined behaviour *)
Definition ua_safe (u : uart) : Prop := exists w, sr_ok BL (ua_reg u) w.

Lemma ua_new_safe p : ua_safe (ua_new p).
Proof. exists (repeat 0 BL). cbn [ua_new ua_reg]. rewrite BL_eq. apply sr_new_ok. lia. Qed.

Lemma try_phase_safe u w ph : sr_ok BL (ua_reg u) w -> (ph < 8)%nat -> exists r, try_phase u ph = Ok r.
Proof.
  intros Hr Hph. unfold try_phase.
  assert (A : forall o e, exists x, extract_data_and_parity (ua_reg u) ph o e = Ok x).
  { intros o e. unfold extract_data_and_parity.
    rewrite BL_eq, (sr_at_nth BL _ w) by (auto; unfold UART_OVERSAMPLING_RATE; lia). cbn [bind].
    destruct (_ =? 0); [eauto|]. rewrite (xp_loop_fold _ w ph Hr Hph) by (cbn; lia). eauto. }
  assert (B : forall o e, exists x, extract_data (ua_reg u) ph o e = Ok x).
  { intros o e. unfold extract_data.
    rewrite BL_eq, (sr_at_nth BL _ w) by (auto; unfold UART_OVERSAMPLING_RATE; lia). cbn [bind].
    destruct (_ =? 0); [eauto|]. rewrite (xn_loop_fold _ w ph Hr Hph) by (cbn; lia). eauto. }
  destruct (ua_parity u).
  - destruct (B 0 false) as (x & ->). cbn; eauto.
  - destruct (A 0 false) as (x & ->). cbn; eauto.
  - destruct (A 0 false) as (x & ->). cbn; eauto.
Qed.

Lemma fbp_loop_safe u w : sr_ok BL (ua_reg u) w ->
  forall k n best o e, (n + k = 8)%nat -> exists r, fbp_loop u n k best o e = Ok r.
Proof.
  intros Hr. induction k as [|k IH]; intros n best o e Hn; cbn [fbp_loop]; eauto.
  destruct (try_phase_safe u w n Hr ltac:(lia)) as ([[p d] e1] & ->). cbn [bind].
  destruct (_ <? _); apply IH; lia.
Qed.

Lemma ua_call_safe u i : ua_safe u -> exists u' o, ua_call u i = Ok (u', o) /\ ua_safe u' /\ ua_parity u' = ua_parity u.
Proof.
  intros (w & Hr). destruct i as [[x o] e]. unfold ua_call, ua_update.
  destruct (ua_state u) eqn:St.
  - destruct (zero_level_detect x); cbn [bind negb]; eexists _, _; (split; [reflexivity|]); cbn; (split; [exists w; exact Hr|reflexivity]).
  - set (u1 := if zero_level_detect x then _ else u).
    assert (H1 : ua_reg u1 = ua_reg u /\ ua_parity u1 = ua_parity u) by (subst u1; destruct (zero_level_detect x); auto).
    destruct H1 as (H1 & H2). rewrite <- H1 in Hr.
    destruct (ua_data_case_ok u1 w x Hr) as (r & Hr' & E). rewrite E. cbn [bind].
    eexists _, _. split; [reflexivity|]. cbn. split; [eexists; eauto|auto].
  - destruct (ua_data_case_ok u w x Hr) as (r & Hr' & E). rewrite E. cbn [bind].
    eexists _, _. split; [reflexivity|]. cbn. split; [eexists; eauto|auto].
  - unfold find_best_phase. destruct (fbp_loop_safe u w Hr 8 0%nat 0 o e eq_refl) as ([[b o1] e1] & E).
    change (UART_OVERSAMPLING_RATE / 2)%nat with 8%nat. rewrite E. cbn [bind].
    eexists _, _. split; [reflexivity|]. cbn. split; [exists w; exact Hr|auto].
Qed.

Lemma uart_safe_from l : forall u, ua_safe u ->
  exists u' outs, mrun ua_call u l = Ok (u', outs) /\ ua_safe u' /\ ua_parity u' = ua_parity u.
Proof.
  induction l as [|i t IH]; intros u H; cbn [mrun].
  - eauto.
  - destruct (ua_call_safe u i H) as (u1 & o & E & H1 & P1). rewrite E; cbn [bind].
    destruct (IH u1 H1) as (u2 & os & E2 & H2 & P2). rewrite E2; cbn [bind].
    eexists _, _. split; [reflexivity|]. split; auto. congruence.
Qed.

Lemma uart_no_ub p l : exists u outs, mrun ua_call (ua_new p) l = Ok (u, outs).
Proof. destruct (uart_safe_from l (ua_new p) (ua_new_safe p)) as (u & o & E & _). eauto. Qed.

(** ** C19: PrintShiftreg *)
Lemma print_loop_oob r : ua_safe (UART PARITY_EVEN 0 STOP r) ->
  forall k b, (b <= BL)%nat -> (BL < b + k)%nat -> print_loop r b k = UB AssertFailed.
Proof.
  intros (w & Hr). cbn [ua_reg] in Hr. induction k as [|k IH]; intros b Hb Hk; [lia|]. cbn [print_loop].
  destruct (Nat.eq_dec b BL) as [->|].
  - rewrite BL_eq. unfold sr_at, assert_. cbn [Nat.ltb Nat.leb]. reflexivity.
  - rewrite BL_eq, (sr_at_nth BL r w) by (auto; lia). cbn [bind]. rewrite IH by lia. reflexivity.
Qed.
Lemma print_loop_ok r w : sr_ok BL r w ->
  forall k b, (b + k <= BL)%nat -> print_loop r b k = Ok (firstn k (skipn b w)).
Proof.
  intros Hr. induction k as [|k IH]; intros b Hk; cbn [print_loop]; auto.
  rewrite BL_eq, (sr_at_nth BL r w) by (auto; lia). cbn [bind]. rewrite IH by lia. cbn [bind].
  pose proof Hr as (_ & Lw & _).
  rewrite (skipn_nth_cons w b (nth b w 0)) by (apply nth_error_nth'; lia). reflexivity.
Qed.

(** ** C14: soundness *)
Definition zsym (x : Z) : Prop := s16 x = 0.

(** The sample 168 before the end is a pulse (or 2^32 samples have been seen). *)
Definition started (h : list Z) : Prop :=
  s16 (nth (length h - BL) h 0) <> 0 \/ 4294967296 <= Z.of_nat (length h).

Definition ua_inv (u : uart) (h : list Z) : Prop :=
  ua_parity u = PARITY_EVEN /\
  exists w, sr_ok BL (ua_reg u) w /\ s16_window w /\
  match ua_state u with
  | WAIT_FOR_IDLE => ua_counter u = 0
  | WAIT_FOR_START => exists pre h1 h2, h = h1 ++ h2 /\ length pre = BL /\ Z.of_nat (length h2) < 4294967296 /\
      ua_counter u = u32 (- Z.of_nat (length h2)) /\ w = lastn BL (pre ++ map s16 h2)
  | DATA => exists pre h1 h2 m, h = h1 ++ h2 /\ length pre = BL /\ (m <= length h2)%nat /\ (1 <= m < BL)%nat /\
      ua_counter u = 168 - Z.of_nat m /\ w = lastn BL (pre ++ map s16 h2) /\ s16 (nth (length h - m) h 0) <> 0
  | STOP => ua_counter u = 0 /\ (BL <= length h)%nat /\ w = map s16 (lastn BL h) /\ started h
  end.

Lemma window_full pre h1 h2 : (BL <= length h2)%nat ->
  lastn BL (pre ++ map s16 h2) = map s16 (lastn BL (h1 ++ h2)).
Proof.
  intros H. rewrite lastn_lastn_app by (rewrite map_length; auto).
  rewrite lastn_map. f_equal. rewrite lastn_lastn_app; auto.
Qed.

Lemma u32_neg_pred n : 0 <= n -> n + 1 < 4294967296 -> u32 (u32 (- n) - 1) = u32 (- (n + 1)) /\ u32 (- (n + 1)) <> 0.
Proof.
  intros H0 H1. split.
  - unfold u32. rewrite Zminus_mod_idemp_l. f_equal. lia.
  - unfold u32. rewrite Z.mod_opp_l_nz by (try lia; rewrite Z.mod_small; lia). rewrite Z.mod_small; lia.
Qed.

Definition frame_seen (h : list Z) (o : Z) : Prop :=
  exists ph, dominant (map s16 (lastn BL h)) ph /\ frame_ok (symbols (map s16 (lastn BL h)) ph) o.

Lemma ua_step_inv u h x o0 e0 : ua_inv u h ->
  exists u' out, ua_call u (x, o0, e0) = Ok (u', out) /\ ua_inv u' (h ++ [x]) /\
    (forall o e, out = Some (o, e) -> ua_state u = STOP /\ (BL <= length h)%nat /\ started h /\ (e = false -> frame_seen h o)).
Proof.
  intros (Hp & w & Hr & Hs & Hm). unfold ua_call, ua_update.
  destruct (ua_state u) eqn:St.
  - destruct (zero_level_detect x) eqn:Ez; cbn [bind negb]; eexists _, _; (split; [reflexivity|]);
      (split; [|discriminate]).
    + split; auto. exists w. rewrite St. auto.
    + split; [exact Hp|]. exists w. cbn [ua_state ua_reg ua_counter]. split; [exact Hr|]. split; [exact Hs|].
      exists w, (h ++ [x]), []. rewrite !app_nil_r. cbn [length map]. pose proof Hr as (_ & Lw & _).
      split; [reflexivity|]. split; [exact Lw|]. split; [lia|]. split; [rewrite Hm; reflexivity|].
      unfold lastn. rewrite Lw, Nat.sub_diag. reflexivity.
  - destruct Hm as (pre & h1 & h2 & -> & Lp & L2 & Hc & Hw).
    assert (Hw' : tl w ++ [s16 x] = lastn BL (pre ++ map s16 (h2 ++ [x]))).
    { rewrite map_app. subst w. apply shift_window; auto. lia. }
    destruct (zero_level_detect x) eqn:Ez.
    + rewrite Hp. set (u1 := UART _ _ _ _). assert (Hr1 : sr_ok BL (ua_reg u1) w) by exact Hr.
      destruct (ua_data_case_ok u1 w x Hr1) as (r & Hr' & E). rewrite E. cbn [bind].
      change (u32 (ua_counter u1 - 1)) with 167.
      eexists _, _. split; [reflexivity|]. split; [|discriminate].
      split; [reflexivity|]. exists (tl w ++ [s16 x]). split; auto. split; [apply s16_window_shift; auto|].
      cbn [ua_state ua_counter Z.eqb]. exists pre, h1, (h2 ++ [x]), 1%nat. rewrite !app_length, app_assoc. cbn [length].
      repeat split; auto; try lia.
      rewrite app_nth2 by (rewrite app_length; lia). rewrite app_length.
      replace (length h1 + length h2 + 1 - 1 - (length h1 + length h2))%nat with 0%nat by lia. cbn [nth].
      unfold zero_level_detect in Ez. destruct (Z.eqb_spec (s16 x) 0); [discriminate|auto].
    + destruct (ua_data_case_ok u w x Hr) as (r & Hr' & E). rewrite E. cbn [bind].
      eexists _, _. split; [reflexivity|]. split; [|discriminate].
      split; [cbn; auto|]. exists (tl w ++ [s16 x]). split; auto. split; [apply s16_window_shift; auto|].
      cbn [ua_state ua_counter].
      destruct (Z.eq_dec (Z.of_nat (length h2) + 1) 4294967296) as [El|El].
      * assert (Ec : u32 (ua_counter u - 1) = 0).
        { rewrite Hc. unfold u32. rewrite Zminus_mod_idemp_l.
          replace (- Z.of_nat (length h2) - 1) with ((-1) * 4294967296) by lia. apply Z_mod_mult. }
        rewrite Ec. cbn [Z.eqb]. split; auto. unfold started. rewrite !app_length. cbn [length]. split; [lia|].
        split; [|right; lia].
        rewrite Hw', <- app_assoc. apply window_full. rewrite app_length; cbn [length]; lia.
      * rewrite Hc. destruct (u32_neg_pred (Z.of_nat (length h2)) ltac:(lia) ltac:(lia)) as (E1 & E2).
        rewrite E1. destruct (Z.eqb_spec (u32 (- (Z.of_nat (length h2) + 1))) 0); [congruence|].
        rewrite St. exists pre, h1, (h2 ++ [x]). rewrite app_length, app_assoc. cbn [length].
        repeat split; auto; try lia. f_equal. lia.
  - destruct Hm as (pre & h1 & h2 & m & -> & Lp & L2 & Lm & Hc & Hw & Hnz). rewrite app_length in Hnz.
    assert (Hw' : tl w ++ [s16 x] = lastn BL (pre ++ map s16 (h2 ++ [x]))).
    { rewrite map_app. subst w. apply shift_window; auto. lia. }
    destruct (ua_data_case_ok u w x Hr) as (r & Hr' & E). rewrite E. cbn [bind].
    eexists _, _. split; [reflexivity|]. split; [|discriminate].
    split; [cbn; auto|]. exists (tl w ++ [s16 x]). split; auto. split; [apply s16_window_shift; auto|].
    cbn [ua_state ua_counter]. rewrite Hc, u32_id by lia.
    destruct (Z.eqb_spec (168 - Z.of_nat m - 1) 0).
    + split; [lia|]. unfold started. rewrite !app_length; cbn [length]. split; [lia|]. split.
      * rewrite Hw', <- app_assoc. apply window_full. rewrite app_length; cbn [length]; lia.
      * left. rewrite app_nth1 by (rewrite app_length; lia).
        replace (length h1 + length h2 + 1 - BL)%nat with (length h1 + length h2 - m)%nat by lia. auto.
    + rewrite St. exists pre, h1, (h2 ++ [x]), (S m). rewrite !app_length, app_assoc. cbn [length].
      repeat split; auto; try lia. rewrite app_nth1 by (rewrite app_length; lia).
      replace (length h1 + length h2 + 1 - S m)%nat with (length h1 + length h2 - m)%nat by lia. auto.
  - destruct Hm as (Hc & Lh & Hw & Hstd).
    destruct (find_best_phase_even u w o0 e0 Hp Hr Hs) as (o & e & E & Hf & _). rewrite E. cbn [bind].
    eexists _, _. split; [reflexivity|]. split.
    + split; [cbn; auto|]. exists w. cbn. auto.
    + intros o1 e1 Eo. inversion Eo; subst o1 e1. split; auto. split; auto. split; auto.
      intros He. destruct (Hf He) as (p & D & F). exists p. subst w. auto.
Qed.

Lemma ua_inv_new : ua_inv (ua_new PARITY_EVEN) [].
Proof.
  split; [reflexivity|]. exists (repeat 0 BL). cbn [ua_new ua_reg ua_state ua_counter]. rewrite BL_eq.
  split; [apply sr_new_ok; lia|]. split; auto.
  apply Forall_forall. intros x Hx. apply repeat_spec in Hx. lia.
Qed.

Lemma ua_run_inv l : forall u h, ua_inv u h ->
  exists u' outs, mrun ua_call u l = Ok (u', outs) /\ ua_inv u' (h ++ map sym_of l) /\
    forall k o e, nth_error outs k = Some (Some (o, e)) ->
      (BL <= length h + k)%nat /\ started (h ++ map sym_of (firstn k l)) /\
      (e = false -> frame_seen (h ++ map sym_of (firstn k l)) o).
Proof.
  induction l as [|i t IH]; intros u h H; cbn [mrun map].
  - eexists _, _. split; [reflexivity|]. rewrite app_nil_r. split; auto.
    intros [|k] o e Hk; discriminate.
  - destruct i as [[x o0] e0].
    destruct (ua_step_inv u h x o0 e0 H) as (u1 & out & E & H1 & Ho). rewrite E; cbn [bind].
    destruct (IH u1 _ H1) as (u2 & os & E2 & H2 & Ho2). rewrite E2; cbn [bind].
    eexists _, _. split; [reflexivity|]. split.
    + rewrite <- app_assoc in H2. exact H2.
    + intros [|k] o e Hk; cbn [nth_error firstn map] in *.
      * inversion Hk; subst out. destruct (Ho _ _ eq_refl) as (_ & L & F0 & F). rewrite app_nil_r. split; [lia|auto].
      * destruct (Ho2 _ _ _ Hk) as (L & F0 & F). rewrite app_length in L; cbn in L. split; [lia|].
        rewrite <- app_assoc in F0, F. split; [exact F0|exact F].
Qed.

(** ** C15, C16: complete frames *)
Lemma ua_wfs_run u h : ua_inv u h -> ua_state u = WAIT_FOR_START ->
  forall x o0 e0, s16 x <> 0 ->
  exists u1, ua_call u (x, o0, e0) = Ok (u1, None) /\
    ua_state u1 = DATA /\ ua_counter u1 = 167 /\ ua_parity u1 = PARITY_EVEN /\
    exists w pre, sr_ok BL (ua_reg u1) w /\ w = lastn BL (pre ++ [s16 x]) /\ length pre = BL.
Proof.
  intros (Hp & w & Hr & Hs & Hm) St x o0 e0 Hx. unfold ua_call, ua_update. rewrite St.
  unfold zero_level_detect. destruct (Z.eqb_spec (s16 x) 0); [congruence|]. cbn [negb]. rewrite Hp.
  set (u1 := UART _ _ _ _). assert (Hr1 : sr_ok BL (ua_reg u1) w) by exact Hr.
  destruct (ua_data_case_ok u1 w x Hr1) as (r & Hr' & E). rewrite E. cbn [bind].
  eexists. split; [reflexivity|]. cbn. repeat split; auto.
  exists (tl w ++ [s16 x]), w. pose proof Hr as (_ & Lw & _). split; [exact Hr'|]. split; [|exact Lw].
  symmetry. etransitivity; [symmetry; exact (shift_window BL w [] (s16 x) Lw ltac:(lia))|]. f_equal. f_equal.
  unfold lastn. rewrite app_nil_r, Lw, Nat.sub_diag. reflexivity.
Qed.

Lemma ua_data_run : forall l u w pre h,
  ua_parity u = PARITY_EVEN -> ua_state u = DATA -> ua_counter u = 168 - Z.of_nat (length h) -> (1 <= length h)%nat ->
  sr_ok BL (ua_reg u) w -> w = lastn BL (pre ++ map s16 h) -> length pre = BL ->
  (length h + length l = BL)%nat -> l <> [] ->
  exists u', mrun ua_call u l = Ok (u', repeat None (length l)) /\ ua_state u' = STOP /\ ua_parity u' = PARITY_EVEN /\
    sr_ok BL (ua_reg u') (map s16 (h ++ map sym_of l)).
Proof.
  induction l as [|i t IH]; intros u w pre h Hp St Hc H1 Hr Hw Lp HL Hne; [congruence|].
  destruct i as [[x o0] e0]. cbn [mrun length repeat map]. unfold ua_call at 1, ua_update. rewrite St.
  destruct (ua_data_case_ok u w x Hr) as (r & Hr' & E). rewrite E. cbn [bind].
  cbn [length] in HL.
  assert (Hw' : tl w ++ [s16 x] = lastn BL (pre ++ map s16 (h ++ [x]))).
  { rewrite map_app. subst w. apply shift_window; auto. lia. }
  rewrite Hc, u32_id by lia. destruct t as [|i2 t].
  - cbn [length] in HL. destruct (Z.eqb_spec (168 - Z.of_nat (length h) - 1) 0); [|lia].
    cbn [mrun bind length repeat]. eexists. split; [reflexivity|]. cbn [ua_state ua_parity ua_reg map sym_of fst].
    split; [reflexivity|]. split; [exact Hp|]. rewrite Hw' in Hr'. rewrite lastn_lastn_app in Hr' by (rewrite map_length, app_length; cbn; lia).
    replace (lastn BL (map s16 (h ++ [x]))) with (map s16 (h ++ [x])) in Hr'; auto.
    unfold lastn. rewrite map_length, app_length; cbn [length].
    replace (length h + 1 - BL)%nat with 0%nat by lia. reflexivity.
  - destruct (Z.eqb_spec (168 - Z.of_nat (length h) - 1) 0); [cbn [length] in HL; lia|].
    edestruct (IH (UART (ua_parity u) (168 - Z.of_nat (length h) - 1) (ua_state u) r) (tl w ++ [s16 x]) pre (h ++ [x]))
      as (u' & E' & S' & P' & R'); auto.
    + cbn [ua_counter]. rewrite app_length; cbn [length]; lia.
    + rewrite app_length; lia.
    + rewrite app_length; cbn [length] in *; lia.
    + discriminate.
    + rewrite E'. cbn [bind]. eexists. split; [reflexivity|]. split; [exact S'|]. split; [exact P'|].
      rewrite <- app_assoc in R'. exact R'.
Qed.

Lemma uart_frame_gen u h x o0 e0 mid y o1 e1 :
  ua_inv u h -> ua_state u = WAIT_FOR_START -> s16 x <> 0 -> length mid = 167%nat ->
  let w := map s16 (x :: map sym_of mid) in
  exists u' o e, mrun ua_call u ((x, o0, e0) :: mid ++ [(y, o1, e1)]) =
      Ok (u', repeat None 168 ++ [Some (o, e)]) /\
    (e = false -> exists p, dominant w p /\ frame_ok (symbols w p) o) /\
    (forall p, dominant w p -> (forall d, frame_ok (symbols w p) d -> e = false /\ o = d)).
Proof.
  intros Hi St Hx Lm w. cbn [mrun].
  destruct (ua_wfs_run u h Hi St x o0 e0 Hx) as (u1 & E1 & S1 & C1 & P1 & w1 & pre & R1 & W1 & Lp).
  rewrite E1; cbn [bind]. rewrite mrun_app.
  destruct (ua_data_run mid u1 w1 pre [x] P1 S1 ltac:(rewrite C1; reflexivity) ltac:(cbn; lia) R1 W1 Lp
    ltac:(cbn [length]; lia) ltac:(intros ->; discriminate)) as (u2 & E2 & S2 & P2 & R2).
  rewrite E2; cbn [bind]. cbn [mrun]. unfold ua_call, ua_update. rewrite S2.
  cbn [app] in R2. fold w in R2.
  destruct (find_best_phase_even u2 w o1 e1 P2 R2 (s16_window_map _)) as (o & e & E & F1 & F2 & _).
  rewrite E; cbn [bind]. exists (UART (ua_parity u2) (ua_counter u2) WAIT_FOR_IDLE (ua_reg u2)), o, e.
  split; [|split; auto]. rewrite Lm. reflexivity.
Qed.
