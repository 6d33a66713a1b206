(** P_Tx.v -- the transmit state machine (C45-C52, C73). *)
From Verif Require Import Base M_Message M_Tx D_Tx P_Ctrl.

(** ** One Update, as a relation *)
Definition data_phase (s : tx_st) : Prop := s = T_STARTED \/ s = T_CHECK_DATA.
Definition after_byte (t : txsm) : tx_st :=
  if t_off t + 1 =? Z.of_nat (m_length (t_tx t)) then T_WAIT_IDLE else T_CHECK_DATA.
Definition hw_after (s : tx_st) (h : pio_hw) : pio_hw := match s with T_WAIT_IDLE => hw_clear_fifo h | _ => h end.

Inductive ucase (now : Z) (busy rxerr rxvalid : bool) (c : Z) (t : txsm) (h : pio_hw) : txsm -> pio_hw -> Prop :=
| U_abort : (t_wait t <= now /\ timeout_is_error (t_st t) = true) \/ line_is_error t busy = true ->
    ucase now busy rxerr rxvalid c t h
      (set_err (enter now (set_rx_status t (if busy then STATUS_ERR_BUS_COLLISION else STATUS_ERR_NO_FRAMING)) T_IDLE))
      (hw_enable_shutdown h true)
| U_stay : (t_wait t <= now -> timeout_is_error (t_st t) = false) -> (t_st t = T_WAIT_POWERON -> now < t_wait t /\ busy = false) ->
    (data_phase (t_st t) -> rxerr = false /\ rxvalid = false /\ (t_st t = T_STARTED -> busy = false) /\ (t_st t = T_CHECK_DATA -> busy = true)) ->
    (t_st t = T_WAIT_IDLE -> busy = true) ->
    ucase now busy rxerr rxvalid c t h t h
| U_free : t_st t = T_WAIT_LINEFREE -> now < t_wait t -> busy = false -> hw_transmitting h = false -> t_off t = 0 ->
    ucase now busy rxerr rxvalid c t h (enter now t T_WAIT_POWERON) (hw_enable_shutdown h false)
| U_send : t_st t = T_WAIT_POWERON -> t_wait t <= now -> busy = false ->
    ucase now busy rxerr rxvalid c t h (enter now t T_STARTED)
      (HW false (tx_bytes (t_tx t)) (hw_txf h) (hw_sm h) (hw_shutdown h))
| U_busy : t_st t = T_STARTED -> now < t_wait t -> busy = true -> rxerr = false -> rxvalid = false ->
    ucase now busy rxerr rxvalid c t h (enter now t T_CHECK_DATA) h
| U_good rx : data_phase (t_st t) -> now < t_wait t -> rxerr = false -> rxvalid = true ->
    nth_error (m_data (t_tx t)) (Z.to_nat (t_off t)) = Some c -> msg_append (t_rx t) c = Ok rx ->
    ucase now busy rxerr rxvalid c t h
      (enter now (TX (t_tx t) rx (t_st t) (t_wait t) (t_off t + 1) (t_err t)) (after_byte t)) (hw_after (after_byte t) h)
| U_bad b rx : data_phase (t_st t) -> now < t_wait t -> rxerr = false -> rxvalid = true ->
    nth_error (m_data (t_tx t)) (Z.to_nat (t_off t)) = Some b -> b <> c -> msg_append (t_rx t) b = Ok rx ->
    ucase now busy rxerr rxvalid c t h
      (set_err (enter now (TX (t_tx t) (MSG (if m_status rx =? 0 then 21 else m_status rx) (m_time rx) (m_data rx) (m_length rx))
         (t_st t) (t_wait t) (t_off t + 1) (t_err t)) T_WAIT_IDLE)) (hw_clear_fifo h)
| U_rxerr : data_phase (t_st t) -> now < t_wait t -> rxerr = true ->
    ucase now busy rxerr rxvalid c t h (set_err (enter now (set_rx_status t STATUS_ERR_PARITY) T_WAIT_IDLE)) (hw_clear_fifo h)
| U_end : t_st t = T_WAIT_IDLE -> now < t_wait t -> busy = false ->
    ucase now busy rxerr rxvalid c t h (enter now t T_IDLE) (hw_enable_shutdown h true).

(** What is needed for an Update to be defined. *)
Record tx_safe (t : txsm) (h : pio_hw) : Prop := {
  sf_err : hw_error h = false;
  sf_tx : tx_msg_ok (t_tx t) \/ t_st t = T_IDLE;
  sf_rx : length (m_data (t_rx t)) = 32%nat;
  sf_dma : t_st t = T_WAIT_POWERON -> hw_dma h = [];
  sf_off : data_phase (t_st t) -> 0 <= t_off t < 32 }.

Lemma copy_bytes m : length (m_data m) = 32%nat -> (m_length m <= 32)%nat -> exists d, copy_loop (m_data m) 0 (m_length m) (repeat 0 32) = Ok d /\ firstn (m_length m) d = tx_bytes m.
Proof.
  intros L Ll. destruct (copy_loop_ok (m_data m) (m_length m) 0 (repeat 0 32) ltac:(lia) ltac:(rewrite repeat_length; lia)) as (d & E & _ & F).
  exists d. split; auto.
Qed.
Lemma append_ok m b : length (m_data m) = 32%nat -> exists m', msg_append m b = Ok m' /\ length (m_data m') = 32%nat /\ m_status m' = m_status m /\ m_time m' = m_time m.
Proof.
  intros L. unfold msg_append. destruct (Nat.ltb_spec (m_length m) MAX_PACKET_SIZE).
  - rewrite aset_ok by (unfold MAX_PACKET_SIZE in *; lia). cbn [bind]. eexists. split; [reflexivity|]. cbn. rewrite upd_length. auto.
  - eauto.
Qed.

Lemma update_cases now busy rxerr rxvalid c t h : tx_safe t h ->
  exists t' h', tx_update pico now t h busy rxerr rxvalid c = Ok (t', h') /\ ucase now busy rxerr rxvalid c t h t' h'.
Proof.
  intros [He Htx Hrx Hdma Hoff]. unfold tx_update.
  destruct (st_is_error now t || line_is_error t busy) eqn:Ea.
  - cbn [change_state bind]. eexists _, _. split; [reflexivity|]. apply U_abort.
    apply orb_prop in Ea as [Ea|Ea]; [left|right; auto]. unfold st_is_error, timed_out in Ea. apply andb_prop in Ea as (E1 & E2). split; auto. lia.
  - apply orb_false_elim in Ea as (Ea & El).
    assert (Hto : t_wait t <= now -> timeout_is_error (t_st t) = false).
    { intros H. unfold st_is_error, timed_out in Ea. destruct (Z.leb_spec (t_wait t) now); [|lia]. exact Ea. }
    assert (Hnow : timeout_is_error (t_st t) = true -> now < t_wait t).
    { intros H. destruct (Z.lt_ge_cases now (t_wait t)); auto. rewrite Hto in H by lia. discriminate. }
    set (X := if tx_is_idle t then (h, false) else hw_read_error h).
    assert (EX : X = (h, false)).
    { unfold X. destruct (tx_is_idle t); auto. unfold hw_read_error. rewrite He. destruct h; cbn in *; subst; reflexivity. }
    rewrite EX. cbn [bind].
    unfold line_is_error, busy_is_error, free_is_error in El.
    (* the data phase *)
    assert (Hbyte : forall a, t_tx a = t_tx t -> t_rx a = t_rx t -> t_off a = t_off t -> t_err a = t_err t -> data_phase (t_st t) -> rxerr = false -> rxvalid = true ->
      exists b rx t2 h2 coll, check_data_case pico now a h rxerr rxvalid c false = Ok (t2, h2, coll) /\
        nth_error (m_data (t_tx t)) (Z.to_nat (t_off t)) = Some b /\ msg_append (t_rx t) b = Ok rx /\ coll = negb (b =? c) /\
        t2 = enter now (TX (t_tx t) rx (t_st t) (t_wait t) (t_off t + 1) (t_err t)) (after_byte t) /\ h2 = hw_after (after_byte t) h).
    { intros a E1 E2 E3 E4 Hd -> ->. destruct (Hoff Hd) as (O1 & O2). destruct Htx as [(Ld & Ll & Bd)|Hi]; [|destruct Hd; congruence].
      unfold check_data_case. rewrite E1, E2, E3, E4.
      destruct (nth_error (m_data (t_tx t)) (Z.to_nat (t_off t))) as [b|] eqn:Eb; [|apply nth_error_None in Eb; lia].
      unfold aget. rewrite Eb. cbn [bind]. destruct (append_ok (t_rx t) b Hrx) as (rx & Er & _). rewrite Er. cbn [bind].
      assert (Eo : u32 (t_off t + 1) = t_off t + 1) by (apply u32_id; lia). rewrite Eo. fold (after_byte t).
      exists b, rx. unfold after_byte. destruct (t_off t + 1 =? Z.of_nat (m_length (t_tx t))); cbn [change_state bind];
        eexists _, _, _; (split; [reflexivity|]); (split; [reflexivity|]); (split; [exact Er|]); cbn [as_char char_signed pico];
        destruct (b =? c); (split; [reflexivity|split; reflexivity]). }
    assert (Hfin : forall a, t_tx a = t_tx t -> t_rx a = t_rx t -> t_off a = t_off t -> t_err a = t_err t -> data_phase (t_st t) -> rxerr = false -> rxvalid = true ->
      exists t' h', (let* (t1, h1, coll) := check_data_case pico now a h rxerr rxvalid c false in
        if coll then let* (t2, h2) := change_state now t1 h1 T_WAIT_IDLE in
          Ok (set_err (if m_status (t_rx t2) =? 0 then set_rx_status t2 21 else t2), h2)
        else Ok (t1, h1)) = Ok (t', h') /\ ucase now busy rxerr rxvalid c t h t' h').
    { intros a E1 E2 E3 E4 Hd Re Rv. destruct (Hbyte a E1 E2 E3 E4 Hd Re Rv) as (b & rx & t2 & h2 & coll & -> & Eb & Er & -> & -> & ->). cbn [bind].
      assert (Hw : now < t_wait t) by (apply Hnow; destruct Hd as [-> | ->]; reflexivity).
      destruct (Z.eqb_spec b c) as [->|Hne]; cbn [negb].
      - eexists _, _. split; [reflexivity|]. apply U_good; auto.
      - cbn [change_state bind]. eexists _, _. split; [reflexivity|]. 
        replace (hw_clear_fifo (hw_after (after_byte t) h)) with (hw_clear_fifo h) by (unfold hw_after; destruct (after_byte t); reflexivity).
        assert (G := U_bad now busy rxerr rxvalid c t h b rx Hd Hw Re Rv Eb Hne Er).
        unfold enter, set_rx_status, set_err in *. cbn [t_rx t_tx t_st t_wait t_off t_err m_status] in *.
        destruct (m_status rx =? 0) eqn:Es; [exact G|]. destruct rx; exact G. }
    destruct (t_st t) eqn:Est; cbn [timeout_is_error] in *.
    + cbn [bind]. eexists _, _. split; [reflexivity|]. apply U_stay; rewrite Est; auto; try discriminate. intros [H|H]; discriminate.
    + specialize (Hnow eq_refl). destruct (negb busy && negb (hw_transmitting h) && (t_off t =? 0)) eqn:Ec.
      * apply andb_prop in Ec as (Ec & E3). apply andb_prop in Ec as (E1 & E2). apply negb_true_iff in E1, E2. apply Z.eqb_eq in E3.
        cbn [change_state bind]. eexists _, _. split; [reflexivity|]. apply U_free; auto.
      * cbn [bind]. eexists _, _. split; [reflexivity|]. apply U_stay; rewrite Est; auto; try discriminate. intros [H|H]; discriminate.
    + destruct busy; [discriminate|]. unfold timed_out. destruct (Z.leb_spec (t_wait t) now) as [Hw|Hw].
      * unfold change_state, hw_send, hw_data_waiting. rewrite (Hdma eq_refl). destruct Htx as [(Ld & Ll & Bd)|Hi]; [|congruence].
        destruct (Nat.ltb_spec 32 (m_length (t_tx t))); [lia|]. destruct (copy_bytes (t_tx t) Ld Ll) as (d & Ed & Fd). rewrite Ed. cbn [bind].
        eexists _, _. split; [reflexivity|]. rewrite Fd, He. apply U_send; auto.
      * cbn [bind]. eexists _, _. split; [reflexivity|]. apply U_stay; rewrite Est; auto; try discriminate. intros [H|H]; discriminate.
    + assert (Hd : data_phase T_STARTED) by (left; reflexivity). specialize (Hnow eq_refl).
      destruct rxerr.
      * cbn [bind]. assert (G := U_rxerr now busy true rxvalid c t h). rewrite Est in G. specialize (G Hd Hnow eq_refl).
        destruct rxvalid; cbn [check_data_case bind change_state]; eexists _, _; (split; [reflexivity|]); exact G.
      * destruct rxvalid.
        -- rewrite orb_true_r. cbn [change_state bind].
           exact (Hfin (enter now t T_CHECK_DATA) eq_refl eq_refl eq_refl eq_refl Hd eq_refl eq_refl).
        -- rewrite orb_false_r. destruct busy; cbn [change_state bind].
           ++ eexists _, _. split; [reflexivity|]. apply U_busy; auto.
           ++ eexists _, _. split; [reflexivity|]. apply U_stay; rewrite Est; auto; try discriminate. intros _. repeat split; auto; discriminate.
    + assert (Hd : data_phase T_CHECK_DATA) by (right; reflexivity). specialize (Hnow eq_refl). destruct busy; [|discriminate].
      destruct rxerr.
      * cbn [check_data_case bind change_state]. assert (G := U_rxerr now true true rxvalid c t h). rewrite Est in G. specialize (G Hd Hnow eq_refl).
        eexists _, _; (split; [reflexivity|]); exact G.
      * destruct rxvalid.
        -- exact (Hfin t eq_refl eq_refl eq_refl eq_refl Hd eq_refl eq_refl).
        -- cbn [check_data_case bind]. eexists _, _. split; [reflexivity|]. apply U_stay; rewrite Est; auto; try discriminate. intros _. repeat split; auto; discriminate.
    + specialize (Hnow eq_refl). destruct busy; cbn [negb].
      * cbn [bind]. eexists _, _. split; [reflexivity|]. apply U_stay; rewrite Est; auto; try discriminate. intros [H|H]; discriminate.
      * cbn [change_state bind]. eexists _, _. split; [reflexivity|]. apply U_end; auto.
Qed.
