(** P_UartPrint.v -- what PrintShiftreg prints (C19). *)
From Verif Require Import Base S_Containers M_ShiftReg D_Containers P_Containers S_Line M_Dsp P_Dsp M_Uart D_Uart P_Uart P_UartRun.
Local Notation BL := 168%nat.

(** The symbols that go through the register: those of the calls made while the receiver waits for a start bit or takes in a frame. *)
Fixpoint taken_in (u : uart) (l : list (Z * Z * bool)) : list Z :=
  match l with
  | [] => []
  | i :: r => (match ua_state u with WAIT_FOR_START | DATA => [s16 (sym_of i)] | _ => [] end) ++
      match ua_call u i with Ok (u', _) => taken_in u' r | UB _ => [] end
  end.

Lemma lastn_tl (w : list Z) x : length w = BL -> lastn BL (w ++ [x]) = tl w ++ [x].
Proof.
  intros H. unfold lastn. rewrite app_length, H. replace (BL + length [x] - BL)%nat with 1%nat by (cbn [length]; lia). destruct w as [|a w]; [cbn [length] in H; lia|]. reflexivity.
Qed.
Lemma lastn_len (w : list Z) : length w = BL -> lastn BL w = w.
Proof. intros H. unfold lastn. rewrite H, Nat.sub_diag. reflexivity. Qed.
Lemma lastn_lastn (a b : list Z) : (BL <= length a)%nat -> lastn BL (lastn BL a ++ b) = lastn BL (a ++ b).
Proof.
  intros H. unfold lastn. rewrite !app_length, skipn_length. replace (length a - (length a - BL) + length b - BL)%nat with (length b) by lia.
  rewrite !skipn_app. rewrite skipn_length. replace (length b - (length a - (length a - BL)))%nat with (length b - BL)%nat by lia.
  rewrite skipn_skipn. f_equal; f_equal; lia.
Qed.
Lemma call_reg u i w u' o : sr_ok BL (ua_reg u) w -> ua_call u i = Ok (u', o) ->
  ua_parity u' = ua_parity u /\ sr_ok BL (ua_reg u') (lastn BL (w ++ match ua_state u with WAIT_FOR_START | DATA => [s16 (sym_of i)] | _ => [] end)).
Proof.
  intros Hr. assert (Lw : length w = BL) by apply Hr. destruct i as [[x oo] e]. unfold ua_call, ua_update, sym_of. cbn [fst].
  destruct (ua_state u) eqn:St.
  - destruct (zero_level_detect x); cbn [bind negb]; intros H; injection H as <- <-; cbn; rewrite app_nil_r, lastn_len by exact Lw; auto.
  - set (u1 := if zero_level_detect x then _ else u).
    assert (H1 : ua_reg u1 = ua_reg u /\ ua_parity u1 = ua_parity u) by (subst u1; destruct (zero_level_detect x); auto).
    destruct H1 as (H1 & H2). rewrite <- H1 in Hr.
    destruct (ua_data_case_ok u1 w x Hr) as (r & Hr' & E). rewrite E. cbn [bind]. intros H; injection H as <- <-. cbn. rewrite lastn_tl by exact Lw. auto.
  - destruct (ua_data_case_ok u w x Hr) as (r & Hr' & E). rewrite E. cbn [bind]. intros H; injection H as <- <-. cbn. rewrite lastn_tl by exact Lw. auto.
  - destruct (find_best_phase u oo e) as [[o1 e1]|k]; [|discriminate]. cbn [bind]. intros H; injection H as <- <-. cbn. rewrite app_nil_r, lastn_len by exact Lw. auto.
Qed.

Lemma run_reg l : forall u w u' os, sr_ok BL (ua_reg u) w -> mrun ua_call u l = Ok (u', os) ->
  ua_parity u' = ua_parity u /\ sr_ok BL (ua_reg u') (lastn BL (w ++ taken_in u l)).
Proof.
  induction l as [|i l IH]; intros u w u' os Hr; cbn [mrun taken_in].
  - intros H; injection H as <- _. assert (Lw : length w = BL) by apply Hr. rewrite app_nil_r, lastn_len by exact Lw. auto.
  - destruct (ua_call u i) as [[u1 o]|k] eqn:E; [|discriminate]. cbn [bind]. destruct (mrun ua_call u1 l) as [[u2 os2]|k] eqn:E2; [|discriminate]. cbn [bind].
    intros H; injection H as <- _. destruct (call_reg u i w u1 o Hr E) as (P1 & R1). destruct (IH u1 _ u2 os2 R1 E2) as (P2 & R2). assert (Lw : length w = BL) by apply Hr.
    split; [congruence|]. rewrite app_assoc. rewrite <- lastn_lastn by (rewrite app_length; lia). exact R2.
Qed.

Lemma print_content l u outs : mrun ua_call (ua_new PARITY_NONE) l = Ok (u, outs) ->
  ua_print_shiftreg u = Ok (firstn 160 (lastn 168 (repeat 0 168 ++ taken_in (ua_new PARITY_NONE) l))).
Proof.
  intros E. assert (R0 : sr_ok BL (ua_reg (ua_new PARITY_NONE)) (repeat 0 BL)) by (cbn [ua_new ua_reg]; rewrite BL_eq; apply sr_new_ok; lia).
  destruct (run_reg l _ _ u outs R0 E) as (P & R). cbn [ua_new ua_parity] in P. unfold ua_print_shiftreg. rewrite P.
  change (UART_OVERSAMPLING_RATE * UART_BITS_NO_PARITY)%nat with 160%nat. rewrite (print_loop_ok _ _ R) by lia. reflexivity.
Qed.
