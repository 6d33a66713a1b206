(** P_Core0Led.v -- what the main loop tells the LEDs (C112-C115). *)
From Verif Require Import Base S_Containers D_Containers P_Containers M_Fifo M_Message S_Message D_Message P_Message
  M_Standalone S_Crc S_Ctrl D_Ctrl M_Tx D_Tx P_Tx P_TxRun P_TxHist M_HostUart D_Host S_Host M_Led S_Led P_Led M_Core1 M_Core0 S_Core0 D_Core0 P_Core0 P_Core0Run P_Core0Rx P_Core0Busy P_Core0Main P_Core0Feed P_Core0Bus P_Core0Fail S_Core0Led.

Definition led_of (a : act) : list led_event := match a with A_led e => [e] | _ => [] end.
Definition late_of (a : act) : bool := match a with A_report R_timeout _ _ _ _ => true | _ => false end.
Definition dark (l : list act) : Prop := flat_map led_of l = [] /\ existsb late_of l = false.
Lemma dark_app a b : dark a -> dark b -> dark (a ++ b).
Proof. unfold dark. intros (A & A') (B & B'). rewrite flat_map_app, existsb_app, A, A', B, B'. auto. Qed.
Lemma dark_hw es : dark (map A_hw es).
Proof. induction es as [|e es IH]; [split; reflexivity|exact IH]. Qed.
Lemma leds_map es : flat_map led_of (map A_led es) = es /\ existsb late_of (map A_led es) = false.
Proof. induction es as [|e es (IH & IH')]; [split; reflexivity|]. cbn. rewrite IH. auto. Qed.
Lemma report_dark w now bud h m h' m' l : report w now bud h m = Ok (h', m', l) -> flat_map led_of l = [] /\ existsb late_of l = match w with R_timeout => true | _ => false end.
Proof. unfold report. intros E. bstep E. destruct x as ((h1 & m1) & o1). injection E as <- <- <-. destruct w; split; reflexivity. Qed.
Lemma failure_dark now bud f sm h c sm' h' c' l : failure_part now bud f sm h c = Ok (sm', h', c', l) -> dark l.
Proof.
  unfold failure_part. destruct f; [|intros E; injection E as <- <- <- <-; split; reflexivity]. intros E. bstep E. destruct x as ((s1 & h1) & l1). bstep E. rename x into own.
  injection E as <- <- <- <-. apply dark_app; [|destruct own; split; reflexivity]. clear E1. destruct (negb _).
  - bstep E0. destruct x as ((h2 & m2) & l2). injection E0 as <- <- <-. apply report_dark in E. apply dark_app; [exact E|split; reflexivity].
  - injection E0 as <- <- <-. split; reflexivity.
Qed.
Lemma end_dark now bud e rx c h rx' c' h' l : packet_end now bud e rx c h = Ok (rx', c', h', l) -> dark l.
Proof.
  unfold packet_end. destruct (_ && _); [|intros E; injection E as <- <- <- <-; split; reflexivity]. intros E. bstep E. bstep E. destruct x0 as ((h1 & m1) & l1).
  injection E as <- <- <- <-. apply report_dark in E1. apply (dark_app [_]); [split; reflexivity|exact E1].
Qed.
Lemma full_dark now bud rx h rx' h' l : packet_overflow now bud rx h = Ok (rx', h', l) -> dark l.
Proof.
  unfold packet_overflow. destruct (msg_overflow rx); [|intros E; injection E as <- <- <-; split; reflexivity]. intros E. bstep E. destruct x as ((h1 & m1) & l1).
  injection E as <- <- <-. apply report_dark in E0. exact E0.
Qed.
Lemma tail_dark p now junk sm hw c h busy e sm' hw' c' h' l : tail_part p now junk sm hw c h busy e = Ok (sm', hw', c', h', l) -> dark l.
Proof.
  unfold tail_part. intros E. bstep E. destruct x as ((((s1 & w1) & c1) & h1) & l1). bstep E. destruct x as (s2 & w2). injection E as <- <- <- <- <-.
  apply dark_app; [|split; reflexivity]. clear E1. revert E0. unfold transmit_part. destruct (tx_is_idle sm); [|intros E; injection E as <- <- <- <- <-; split; reflexivity].
  destruct (host_has_data h).
  - intros E. bstep E. destruct x. bstep E. destruct x. injection E as <- <- <- <- <-. split; reflexivity.
  - destruct (ctrl_has_tx c).
    + intros E. bstep E. destruct x. bstep E. destruct x. injection E as <- <- <- <- <-. split; reflexivity.
    + intros E; injection E as <- <- <- <- <-; split; reflexivity.
Qed.

(** One iteration. *)
Lemma iter_leds s i s' l : hw_error (fold_left hw_step (in_hw i) (z_hw s)) = false -> core0_iter pico s i = Ok (s', l) ->
  flat_map led_of l = calls_for (tx_is_transmitting (z_sm s)) (t_err (z_sm s)) (existsb late_of l) i.
Proof.
  intros Hh E. unfold core0_iter, led_calls in E. cbv zeta iota beta in E. unfold tx_error in E.
  bstep E. destruct x as (h1 & o1). destruct (led_head _ _ (in_fifoerr i) _) as (hw1 & es1) eqn:Eh.
  assert (Hes : es1 = if tx_is_transmitting (z_sm s) then [EvActivityTx] else if in_fifoerr i then [EvInternalError] else if t_err (z_sm s) then [EvErrorTx] else []).
  { clear - Hh Eh. unfold led_head, hw_read_error in Eh. rewrite Hh in Eh. change (tx_is_transmitting {| t_tx := t_tx (z_sm s); t_rx := t_rx (z_sm s); t_st := t_st (z_sm s); t_wait := t_wait (z_sm s); t_off := t_off (z_sm s); t_err := false |}) with (tx_is_transmitting (z_sm s)) in Eh.
    destruct (tx_is_transmitting (z_sm s)); [injection Eh as <- <-; reflexivity|]. destruct (in_fifoerr i); [injection Eh as <- <-; reflexivity|]. cbv iota beta in Eh.
    destruct (t_err (z_sm s)); injection Eh as <- <-; reflexivity. }
  clear Eh.
  set (la := map A_hw (in_hw i) ++ _) in E.
  assert (Ula : flat_map led_of la = timers i ++ es1 /\ existsb late_of la = false).
  { unfold la. destruct (dark_hw (in_hw i)) as (A & A'). destruct (leds_map (led_ticks (in_ticks i))) as (B & B'). destruct (leds_map es1) as (C & C').
    rewrite !flat_map_app, !existsb_app, A, A', B, B', C, C'. split; reflexivity. }
  clearbody la. bstep E. destruct x as ((((rx2 & since2) & h2) & led2) & l2).
  assert (U2 : flat_map led_of l2 = if existsb late_of l2 then [EvInternalError] else []).
  { destruct (busy_timeout _ _ _); [|injection E1 as <- <- <- <- <-; reflexivity]. bstep E1. destruct x as ((h' & m') & l'). injection E1 as <- <- <- <- <-.
    apply report_dark in E2 as (A & A'). cbn [flat_map existsb led_of late_of app orb]. rewrite A, A'. reflexivity. }
  clear E1. bstep E. destruct x as ((rx3 & h3) & l3).
  assert (U3 : dark l3).
  { destruct (in_fifoerr i); [|injection E1 as <- <- <-; split; reflexivity]. bstep E1. destruct x as ((h' & m') & l'). injection E1 as <- <- <-. apply report_dark in E2. exact E2. }
  clear E1. bstep E. destruct x as (((sm4 & h4) & c4) & l4). apply failure_dark in E1.
  assert (FA : forall r v, flat_map led_of r = v -> existsb late_of r = false ->
    flat_map led_of (la ++ l2 ++ l3 ++ l4 ++ r) = timers i ++ es1 ++ (if existsb late_of (la ++ l2 ++ l3 ++ l4 ++ r) then [EvInternalError] else []) ++ v).
  { intros r v Hr Hr'. destruct Ula as (A & A'), U3 as (C & C'), E1 as (D & D'). rewrite !flat_map_app, !existsb_app, A, A', U2, C, C', D, D', Hr, Hr', !orb_false_r. cbn [orb app]. rewrite <- !app_assoc. reflexivity. }
  unfold calls_for. rewrite <- Hes. clear Hes. unfold event_of.
  destruct (in_event i) as [e|].
  - bstep E. rename x into rx5. bstep E. destruct x as (((rx6 & c6) & h6) & l6). apply end_dark in E3. bstep E. destruct x as ((rx7 & h7) & l7). apply full_dark in E4.
    destruct (line_state (in_now i) e (z_busy s) since2) as (busy & since).
    bstep E. destruct x as ((((sm10 & hw10) & c9) & h9) & l9). apply tail_dark in E5. injection E as <- <-.
    destruct E3 as (A & A'), E4 as (B & B'), E5 as (C & C'). destruct (leds_map (led_event_part e)) as (D & D').
    apply FA; rewrite ?flat_map_app, ?existsb_app, ?A, ?A', ?B, ?B', ?C, ?C', ?D, ?D'; [|reflexivity]. cbn [app]. rewrite app_nil_r. reflexivity.
  - change (for_event ev_none) with (@nil led_event). destruct (negb (z_busy s) && _).
    + injection E as <- <-. specialize (FA [] [] eq_refl eq_refl). rewrite !(app_nil_r l4) in FA. exact FA.
    + bstep E. destruct x as ((((sm10 & hw10) & c9) & h9) & l9). apply tail_dark in E2 as (A & A'). injection E as <- <-. apply FA; assumption.
Qed.
Lemma leds_stamp now l : leds (map (pair now) l) = flat_map led_of l.
Proof. unfold leds. induction l as [|a l IH]; [reflexivity|]. cbn [map flat_map]. rewrite IH. reflexivity. Qed.
Lemma late_stamp now l : too_long (map (pair now) l) = existsb late_of l.
Proof. unfold too_long, rx_reports. induction l as [|a l IH]; [reflexivity|]. cbn [map flat_map snd existsb]. rewrite existsb_app, IH. f_equal. destruct a; try reflexivity. destruct why; reflexivity. Qed.
Lemma step_leds b l i s o s' log : boot_ok b -> Forall in_ok l -> input_ok (text l) -> core0_run b l = Ok (s, o) -> core0_step s i = Ok (s', log) ->
  leds log = calls_for (tx_is_transmitting (z_sm s)) (t_err (z_sm s)) (too_long log) i.
Proof.
  intros B F T E Es. destruct (run_good b l B F T) as (c & s1 & logs & _ & Er & I & _). rewrite E in Er. injection Er as <- <-.
  unfold core0_step in Es. bstep Es. destruct x as (s1 & a). injection Es as <- <-. rewrite leds_stamp, late_stamp.
  apply (iter_leds s i s1 a); [|exact E0]. destruct I as [[Gt _ _] _ _]. cbn [parts_of p_tx] in Gt. apply hw_fold_good with (es := in_hw i) in Gt. exact (iv_err _ _ (proj1 Gt)).
Qed.
Lemma calls_led b l i s o s' log : boot_ok b -> Forall in_ok l -> input_ok (text l) -> core0_run b l = Ok (s, o) -> core0_step s i = Ok (s', log) ->
  exists t h r, tx_run (b_j1 b) (b_j2 b) (flat_map tx_part (concat o)) = Ok ((t, h), r) /\
    leds log = calls_for (tx_is_transmitting t) (snd (tx_error t)) (too_long log) i.
Proof.
  intros B F T E Es. destruct (parts_run b l s o B F T E) as ((Rt & _) & _). exists (z_sm s), (z_hw s), (flat_map tx_part_out (concat o)). split; [exact Rt|].
  eapply step_leds; eauto.
Qed.

(** ** How a failed transmission ends *)
Definition K (t : txsm) : Prop := match t_st t with T_IDLE | T_WAIT_IDLE => True | _ => m_status (t_rx t) = 0 end.
Definition J (t : txsm) : Prop := t_err t = true -> t_st t = T_IDLE \/ (t_st t = T_WAIT_IDLE /\ (m_status (t_rx t) = 21 \/ m_status (t_rx t) = 3)).
Lemma append_status m b m' : msg_append m b = Ok m' -> m_status m' = m_status m.
Proof. unfold msg_append. destruct (_ <? _)%nat; [|intros E; injection E as <-; reflexivity]. intros E. bstep E. injection E as <-. reflexivity. Qed.
Lemma change_shape now t h s t' h' : change_state now t h s = Ok (t', h') -> t' = enter now t s.
Proof. unfold change_state. intros E. bstep E. injection E as <- _. reflexivity. Qed.
(** After a data comparison. *)
Definition after_check (t1 : txsm) (coll : bool) : Prop :=
  t_err t1 = false /\ if coll then m_status (t_rx t1) = 0 \/ m_status (t_rx t1) = 3 else K t1.
Lemma check_shape p now t h re rv c coll t1 h1 c1 : t_err t = false -> (coll = true -> re = true) -> m_status (t_rx t) = 0 \/ (re = true) ->
  check_data_case p now t h re rv c coll = Ok (t1, h1, c1) -> (coll = false -> K t) -> after_check t1 c1 \/ (re = false /\ rv = false /\ t1 = t /\ c1 = coll).
Proof.
  intros He Hc Hs E Hk. unfold check_data_case in E. destruct re.
  - injection E as <- <- <-. left. split; [exact He|]. right. reflexivity.
  - destruct rv; [|injection E as <- <- <-; right; auto]. destruct Hs as [Hs|Hs]; [|discriminate]. left.
    bstep E. rename x into b. bstep E. rename x into rx. bstep E. destruct x as (t2 & h2). injection E as <- <- <-. apply append_status in E1. apply change_shape in E2 as ->.
    split; [exact He|]. destruct coll; [specialize (Hc eq_refl); discriminate|]. destruct (negb (b =? as_char p c)).
    + left. cbn. congruence.
    + unfold K. cbn [enter t_st t_rx]. destruct (_ =? _); [exact I|]. cbn. congruence.
Qed.
Lemma update_shape p now t h busy re rv c t' h' : t_err t = false -> K t -> tx_update p now t h busy re rv c = Ok (t', h') -> J t' /\ K t'.
Proof.
  intros He Hk E. unfold tx_update in E. destruct (st_is_error now t || line_is_error t busy).
  { bstep E. destruct x as (t2 & h2). injection E as <- <-. apply change_shape in E0 as ->. split; [intros _; left; reflexivity|exact I]. }
  destruct (if tx_is_idle t then (h, false) else hw_read_error h) as (h0 & uerr). destruct uerr.
  { bstep E. destruct x as (t2 & h2). injection E as <- <-. apply change_shape in E0 as ->. split; [intros _; left; reflexivity|exact I]. }
  bstep E. destruct x as ((t1 & h1) & coll).
  assert (A : after_check t1 coll).
  { clear E. destruct (t_st t) eqn:Est.
    - injection E0 as <- <- <-. split; auto.
    - destruct (_ && _ && _); [|injection E0 as <- <- <-; split; auto]. bstep E0. destruct x as (a & b). injection E0 as <- <- <-. apply change_shape in E as ->. split; [exact He|]. unfold K in *. rewrite Est in Hk. exact Hk.
    - destruct (M_Tx.timed_out now t); [|injection E0 as <- <- <-; split; auto]. bstep E0. destruct x as (a & b). injection E0 as <- <- <-. apply change_shape in E as ->. split; [exact He|]. unfold K in *. rewrite Est in Hk. exact Hk.
    - assert (Hs : m_status (t_rx t) = 0) by (unfold K in Hk; rewrite Est in Hk; exact Hk).
      bstep E0. destruct x as ((a & b) & cl).
      assert (B : t_err a = false /\ (if cl then re = true /\ m_status (t_rx a) = 3 else re = false /\ m_status (t_rx a) = 0 /\ K a)).
      { clear E0. destruct re.
        - injection E as <- <- <-. split; [exact He|]. cbn. auto.
        - destruct (busy || rv).
          + bstep E. destruct x as (a' & b'). injection E as <- <- <-. apply change_shape in E0 as ->. split; [exact He|]. split; [reflexivity|]. split; [exact Hs|]. exact Hs.
          + injection E as <- <- <-. split; [exact He|]. auto. }
      clear E. destruct B as (Ba & Bc). destruct rv.
      + destruct cl.
        * destruct Bc as (-> & Bs). apply check_shape in E0; [|exact Ba|reflexivity|right; reflexivity|discriminate]. destruct E0 as [E0|(Hx & _)]; [exact E0|discriminate].
        * destruct Bc as (-> & Bs & Bk). apply check_shape in E0; [|exact Ba|discriminate|left; exact Bs|auto]. destruct E0 as [E0|(_ & Hx & _)]; [exact E0|discriminate].
      + injection E0 as <- <- <-. split; [exact Ba|]. destruct cl; [right; apply Bc|apply Bc].
    - assert (Hs : m_status (t_rx t) = 0) by (unfold K in Hk; rewrite Est in Hk; exact Hk).
      apply check_shape in E0; [|exact He|discriminate|left; exact Hs|auto]. destruct E0 as [E0|(-> & -> & -> & ->)]; [exact E0|]. split; [exact He|exact Hk].
    - destruct (negb busy); [|injection E0 as <- <- <-; split; auto]. bstep E0. destruct x as (a & b). injection E0 as <- <- <-. apply change_shape in E as ->. split; [exact He|]. exact I. }
  clear E0. destruct A as (Ae & A). destruct coll.
  - bstep E. destruct x as (t2 & h2). injection E as <- <-. apply change_shape in E0 as ->. cbn [enter t_rx t_st]. split; [|cbn; destruct (m_status (t_rx t1) =? 0); exact I].
    intros _. right. destruct A as [A|A]; rewrite A; cbn [Z.eqb]; cbn; auto.
  - injection E as <- <-. split; [|exact A]. intros H. congruence.
Qed.
Lemma wake_shape' now t h m t' h' : t_err t = false -> K t -> tx_wake now t h m = Ok (t', h') -> t_err t' = false /\ K t'.
Proof.
  intros He Hk E. unfold tx_wake in E. destruct (tx_is_idle t); [|injection E as <- <-; auto]. apply change_shape in E as ->. split; [reflexivity|]. reflexivity.
Qed.
Lemma tail_shape' p now junk sm hw c h busy e sm' hw' c' h' l : t_err sm = false -> K sm -> tail_part p now junk sm hw c h busy e = Ok (sm', hw', c', h', l) -> J sm' /\ K sm'.
Proof.
  intros He Hk E. unfold tail_part in E. bstep E. destruct x as ((((s1 & w1) & c1) & h1) & l1). bstep E. destruct x as (s2 & w2). injection E as <- <- <- <- <-.
  assert (A : t_err s1 = false /\ K s1).
  { clear E1. unfold transmit_part in E0. destruct (tx_is_idle sm); [|injection E0 as <- <- <- <- <-; auto]. destruct (host_has_data h).
    - bstep E0. destruct x. bstep E0. destruct x. injection E0 as <- <- <- <- <-. eapply wake_shape'; eauto.
    - destruct (ctrl_has_tx c); [|injection E0 as <- <- <- <- <-; auto]. bstep E0. destruct x. bstep E0. destruct x. injection E0 as <- <- <- <- <-. eapply wake_shape'; eauto. }
  destruct A as (A & A'). eapply update_shape; eauto.
Qed.
Lemma failure_shape now bud f sm h c sm' h' c' l : K sm -> failure_part now bud f sm h c = Ok (sm', h', c', l) -> K sm' /\ t_err sm' = t_err sm.
Proof.
  unfold failure_part. destruct f; [|intros Hk E; injection E as <- <- <- <-; auto]. intros Hk E. bstep E. destruct x as ((s1 & h1) & l1). bstep E. injection E as <- <- <- <-. clear E1 x.
  destruct (negb _); [|injection E0 as <- <- <-; auto]. bstep E0. destruct x as ((h2 & m2) & l2). injection E0 as <- <- <-. split; [|reflexivity]. unfold K, tx_clear_rx in *. cbn [t_st t_rx m_status]. destruct (t_st sm); auto.
Qed.
Lemma iter_shape p s i s' l : K (z_sm s) -> core0_iter p s i = Ok (s', l) -> J (z_sm s') /\ K (z_sm s').
Proof.
  intros Hk E. unfold core0_iter, led_calls in E. cbv zeta iota beta in E. unfold tx_error in E.
  bstep E. destruct x as (h1 & o1). destruct (led_head _ _ (in_fifoerr i) _) as (hw1 & es1).
  bstep E. destruct x as ((((rx2 & since2) & h2) & led2) & l2). clear E1. bstep E. destruct x as ((rx3 & h3) & l3). clear E1.
  bstep E. destruct x as (((sm4 & h4) & c4) & l4). apply failure_shape in E1; [|exact Hk]. destruct E1 as (Hk4 & He4). cbn [t_err] in He4.
  destruct (in_event i) as [e|].
  - bstep E. rename x into rx5. bstep E. destruct x as (((rx6 & c6) & h6) & l6). bstep E. destruct x as ((rx7 & h7) & l7).
    destruct (line_state (in_now i) e (z_busy s) since2) as (busy & since).
    bstep E. destruct x as ((((sm10 & hw10) & c9) & h9) & l9). injection E as <- <-. eapply tail_shape'; eauto.
  - destruct (negb (z_busy s) && _).
    + injection E as <- <-. split; [|exact Hk4]. intros H. cbn in H. congruence.
    + bstep E. destruct x as ((((sm10 & hw10) & c9) & h9) & l9). injection E as <- <-. eapply tail_shape'; eauto.
Qed.
Lemma run_shape b l s o : core0_run b l = Ok (s, o) -> J (z_sm s) /\ K (z_sm s).
Proof.
  revert s o. induction l as [|i l IH] using rev_ind; intros s o E.
  - unfold core0_run in E. bstep E. cbn in E. injection E as <- <-. unfold core0_boot in E0. bstep E0. injection E0 as <-. split; [intros H; discriminate|exact I].
  - apply run_snoc' in E as (s0 & o0 & log & -> & E & Es & _). unfold core0_step in Es. bstep Es. destruct x as (s1 & a). injection Es as <- <-. eapply iter_shape; [|exact E0]. apply (IH _ _ E).
Qed.

(** ** Failed transmissions and internal errors *)
Lemma step_fail s i s' log : core0_step s i = Ok (s', log) ->
  fail_reports log = if t_err (z_sm s) && negb (m_status (t_rx (z_sm s)) =? 3) then [t_rx (z_sm s)] else [].
Proof. intros Es. unfold core0_step in Es. bstep Es. destruct x as (s1 & a). injection Es as <- <-. rewrite fails_stamp. eapply iter_fail; eauto. Qed.
Lemma in_calls sn f lt i e : In e (calls_for sn f lt i) <->
  In e (timers i) \/ In e (if sn then [EvActivityTx] else if in_fifoerr i then [EvInternalError] else if f then [EvErrorTx] else []) \/
  In e (if lt then [EvInternalError] else []) \/ In e (for_event (event_of i)).
Proof. unfold calls_for. rewrite !in_app_iff. reflexivity. Qed.
Lemma failure_shown b l i s o s' log m : boot_ok b -> Forall in_ok l -> input_ok (text l) -> core0_run b l = Ok (s, o) -> core0_step s i = Ok (s', log) ->
  In m (fail_reports log) -> m_status m <> 21 -> in_fifoerr i = false -> In EvErrorTx (leds log).
Proof.
  intros B F T E Es Hm Hs Hf. rewrite (step_leds _ _ _ _ _ _ _ B F T E Es). rewrite (step_fail _ _ _ _ Es) in Hm. destruct (run_shape _ _ _ _ E) as (Hj & _).
  destruct (t_err (z_sm s)) eqn:Ee; [|contradiction]. destruct (Z.eqb_spec (m_status (t_rx (z_sm s))) 3) as [H3|H3]; [contradiction|]. cbn in Hm. destruct Hm as [<-|[]].
  apply in_calls. right. left. rewrite Hf. unfold tx_is_transmitting, tx_is_idle. destruct (Hj Ee) as [->|(_ & [H|H])]; [left; reflexivity|congruence|congruence].
Qed.
Lemma timers_no i e : In e (timers i) -> e = EvTick500 \/ e = EvTick100.
Proof. unfold timers. intros H. apply in_map_iff in H as (x & <- & _). destruct x; auto. Qed.
Lemma error_tx_true b l i s o s' log : boot_ok b -> Forall in_ok l -> input_ok (text l) -> core0_run b l = Ok (s, o) -> core0_step s i = Ok (s', log) ->
  In EvErrorTx (leds log) -> t_err (z_sm s) = true /\ tx_is_idle (z_sm s) = true /\ in_fifoerr i = false.
Proof.
  intros B F T E Es. rewrite (step_leds _ _ _ _ _ _ _ B F T E Es), in_calls. unfold for_event, tx_is_transmitting. destruct (tx_is_idle (z_sm s)), (in_fifoerr i), (t_err (z_sm s)), (too_long log), (ev_error (event_of i)), (ev_valid (event_of i)), (ev_dadc (event_of i));
    cbn; intros [H|H]; try (apply timers_no in H as [H|H]; discriminate); intuition discriminate.
Qed.
Lemma internal_shown b l i s o s' log : boot_ok b -> Forall in_ok l -> input_ok (text l) -> core0_run b l = Ok (s, o) -> core0_step s i = Ok (s', log) ->
  internal_error i log -> (in_fifoerr i = true -> tx_is_idle (z_sm s) = true \/ too_long log = true \/ ev_dadc (event_of i) = true) -> In EvInternalError (leds log).
Proof.
  intros B F T E Es H Hf. rewrite (step_leds _ _ _ _ _ _ _ B F T E Es), in_calls. right. 
  assert (L : too_long log = true -> In EvInternalError (if too_long log then [EvInternalError] else [])) by (intros ->; left; reflexivity).
  assert (D : ev_dadc (event_of i) = true -> In EvInternalError (for_event (event_of i))) by (intros Hd; unfold for_event; rewrite Hd; apply in_or_app; right; left; reflexivity).
  destruct H as [H|[H|H]]; [right; left; auto|right; right; auto|]. destruct (Hf H) as [Hi|[Hl|Hd]]; [|right; left; auto|right; right; auto].
  left. unfold tx_is_transmitting. rewrite Hi, H. left. reflexivity.
Qed.
Lemma internal_true b l i s o s' log : boot_ok b -> Forall in_ok l -> input_ok (text l) -> core0_run b l = Ok (s, o) -> core0_step s i = Ok (s', log) ->
  In EvInternalError (leds log) -> internal_error i log.
Proof.
  intros B F T E Es. rewrite (step_leds _ _ _ _ _ _ _ B F T E Es), in_calls. unfold internal_error, for_event. destruct (tx_is_transmitting (z_sm s)), (in_fifoerr i), (t_err (z_sm s)), (too_long log), (ev_error (event_of i)), (ev_valid (event_of i)), (ev_dadc (event_of i));
    cbn; intros [H|H]; try (apply timers_no in H as [H|H]; discriminate); intuition discriminate.
Qed.

(** ** The panel *)
Definition told_by_loop (e : led_event) : Prop := e = EvActivityTx \/ e = EvActivityRx \/ e = EvErrorTx \/ e = EvErrorRx \/ e = EvInternalError.
Lemma calls_split sn f lt i : exists c, calls_for sn f lt i = timers i ++ c /\ Forall told_by_loop c.
Proof.
  unfold calls_for. eexists. split; [reflexivity|]. unfold for_event, told_by_loop.
  repeat (apply Forall_app; split); [destruct sn, (in_fifoerr i), f|destruct lt|destruct (ev_error (event_of i)), (ev_valid (event_of i))|destruct (ev_dadc (event_of i))]; repeat (apply Forall_cons || apply Forall_nil); auto 6.
Qed.
Definition iter_log (i : inp0) (log : list (Z * act)) : Prop := exists c, leds log = timers i ++ c /\ Forall told_by_loop c.
Lemma logs_split b l : forall s o, boot_ok b -> Forall in_ok l -> input_ok (text l) -> core0_run b l = Ok (s, o) -> Forall2 iter_log l o.
Proof.
  induction l as [|i l IH] using rev_ind; intros s o B F T E.
  - unfold core0_run in E. bstep E. cbn in E. injection E as <- <-. constructor.
  - apply run_snoc' in E as (s0 & o0 & log & -> & E & Es & _).
    assert (F' : Forall in_ok l) by (apply Forall_app in F; apply F). assert (T' : input_ok (text l)) by (rewrite text_app in T; apply input_ok_prefix in T; exact T).
    apply Forall2_app; [eapply IH; eauto|]. constructor; [|constructor]. unfold iter_log. rewrite (step_leds _ _ _ _ _ _ _ B F' T' E Es). apply calls_split.
Qed.
Lemma no_500_timers i : no_500 i -> no_update (timers i).
Proof. unfold no_500, no_update, timers. intros H. apply Forall_map. eapply Forall_impl; [|exact H]. cbn. intros a ->. discriminate. Qed.
Lemma told_update c : Forall told_by_loop c -> no_update c.
Proof. apply Forall_impl. intros e [-> |[-> |[-> |[-> | ->]]]]; discriminate. Qed.
Lemma no_500_leds l o : Forall2 iter_log l o -> Forall no_500 l -> no_update (leds (concat o)).
Proof.
  induction 1 as [|i log l o (c & Hc & Ht) _ IH]; intros F; [constructor|]. inversion F; subst. cbn [concat]. unfold leds in *. rewrite flat_map_app. apply Forall_app. split; [|apply IH; assumption].
  unfold leds in Hc. rewrite Hc. apply Forall_app. split; [apply no_500_timers; auto|apply told_update; auto].
Qed.
Definition not_tick (e : led_event) : bool := match e with EvTick100 | EvTick500 => false | _ => true end.
Lemma filter_sub {A} (f g : A -> bool) l : (forall x, f x = true -> g x = true) -> filter f (filter g l) = filter f l.
Proof. intros H. induction l as [|x l IH]; [reflexivity|]. cbn. destruct (g x) eqn:Eg; cbn; rewrite IH; [reflexivity|]. destruct (f x) eqn:Ef; [|reflexivity]. rewrite (H _ Ef) in Eg. discriminate. Qed.
Lemma existsb_sub {A} (f g : A -> bool) l : (forall x, f x = true -> g x = true) -> existsb f (filter g l) = existsb f l.
Proof. intros H. induction l as [|x l IH]; [reflexivity|]. cbn. destruct (g x) eqn:Eg; cbn; rewrite IH; [reflexivity|]. destruct (f x) eqn:Ef; [|reflexivity]. rewrite (H _ Ef) in Eg. discriminate. Qed.
Lemma panel_ticks evs : documented_panel (filter not_tick evs) = documented_panel evs.
Proof.
  unfold documented_panel, last_of, S_Led.seen. rewrite !filter_sub, !existsb_sub; [reflexivity|..]; intros []; cbn; congruence.
Qed.
Lemma timers_ticks i : filter not_tick (timers i) = [].
Proof. unfold timers. induction (in_ticks i) as [|x t IH]; [reflexivity|]. cbn. destruct x; exact IH. Qed.
Lemma at_500_timers i : at_500 i -> exists p, timers i = p ++ [EvTick500] /\ no_update p /\ filter not_tick p = [].
Proof.
  intros (p & E & F). exists (map (fun b : bool => if b then EvTick500 else EvTick100) p). unfold timers. rewrite E, map_app. split; [reflexivity|]. split.
  - apply Forall_map. eapply Forall_impl; [|exact F]. cbn. intros a ->. discriminate.
  - clear E. induction F as [|x p Hx _ IH]; [reflexivity|]. subst. exact IH.
Qed.
Lemma F2_len {A B} (R : A -> B -> Prop) a b : Forall2 R a b -> length a = length b.
Proof. induction 1; cbn; congruence. Qed.
Lemma app_cut {A} (a b c d : list A) : length a = length c -> a ++ b = c ++ d -> a = c /\ b = d.
Proof. revert c. induction a as [|x a IH]; intros [|y c] L E; try discriminate; [auto|]. injection E as <- E. destruct (IH c ltac:(cbn in L; lia) E) as (-> & ->). auto. Qed.
Lemma panel_window b pre w j rest s opre ow oj orest : boot_ok b -> Forall in_ok (pre ++ w ++ j :: rest) -> input_ok (text (pre ++ w ++ j :: rest)) ->
  core0_run b (pre ++ w ++ j :: rest) = Ok (s, opre ++ ow ++ oj :: orest) -> length opre = length pre -> length ow = length w ->
  window pre w -> at_500 j -> Forall no_500 rest -> panel_of (z_led s) = documented_panel (leds (concat ow)).
Proof.
  intros B F T E Lp Lw W Hj Hr. destruct (parts_run b _ s _ B F T E) as (_ & _ & _ & El). pose proof (logs_split b _ _ _ B F T E) as L.
  apply Forall2_app_inv_l in L as (o1 & o2 & L1 & L2 & Eo). assert (o1 = opre /\ o2 = ow ++ oj :: orest) as (-> & ->).
  { assert (Hl : length o1 = length opre) by (rewrite Lp; symmetry; exact (F2_len _ _ _ L1)).
    apply app_cut; auto. }
  clear Eo. apply Forall2_app_inv_l in L2 as (o1 & o2 & L2 & L3 & Eo). assert (o1 = ow /\ o2 = oj :: orest) as (-> & ->).
  { assert (Hl : length o1 = length ow) by (rewrite Lw; symmetry; exact (F2_len _ _ _ L2)).
    apply app_cut; auto. }
  clear Eo. inversion L3 as [|? ? ? ? (cj & Ecj & Tj) L4]; subst. fold (leds (concat (opre ++ ow ++ oj :: orest))) in El. rewrite !concat_app in El. cbn [concat] in El. unfold leds in El. rewrite !flat_map_app in El. fold (leds (concat opre)) (leds (concat ow)) (leds oj) (leds (concat orest)) in El.
  destruct (at_500_timers j Hj) as (pj & Ej & Nj & Fj). rewrite Ecj, Ej in El. pose proof (no_500_leds _ _ L4 Hr) as Nr.
  assert (Nl : no_update (cj ++ leds (concat orest))) by (apply Forall_app; split; [apply told_update|]; assumption).
  assert (G : exists p q, leds (concat opre) ++ leds (concat ow) = p ++ q /\ no_update q /\ (p = [] \/ exists p', p = p' ++ [EvTick500]) /\ filter not_tick q = filter not_tick (leds (concat ow))).
  { destruct W as [(-> & W)|(i0 & w' & -> & W0 & W)].
    - inversion L1; subst. exists [], (leds (concat ow)). split; [reflexivity|]. split; [apply (no_500_leds _ _ L2 W)|]. auto.
    - inversion L2 as [|? l0 ? ow' (c0 & Ec0 & T0) L5]; subst. destruct (at_500_timers i0 W0) as (p0 & E0 & N0 & F0). cbn [concat]. unfold leds at 2. rewrite flat_map_app. fold (leds l0) (leds (concat ow')).
      exists ((leds (concat opre) ++ p0) ++ [EvTick500]), (c0 ++ leds (concat ow')). split; [rewrite Ec0, E0, <- !app_assoc; reflexivity|].
      split; [apply Forall_app; split; [apply told_update; exact T0|apply (no_500_leds _ _ L5 W)]|]. split; [eauto|].
      unfold leds at 2. cbn [concat]. rewrite flat_map_app. fold (leds l0) (leds (concat ow')). rewrite !filter_app, Ec0, filter_app, (timers_ticks i0). reflexivity. }
  destruct G as (p & q & Epq & Nq & Hp & Fq). rewrite El.
  replace (leds (concat opre) ++ leds (concat ow) ++ ((pj ++ [EvTick500]) ++ cj) ++ leds (concat orest)) with ((p ++ (q ++ pj) ++ [EvTick500]) ++ (cj ++ leds (concat orest)))
    by (rewrite (app_assoc (leds (concat opre))), Epq, <- !app_assoc; reflexivity).
  fold (lm_run ((p ++ (q ++ pj) ++ [EvTick500]) ++ cj ++ leds (concat orest))). rewrite led_stays by exact Nl. rewrite led_panel; [|apply Forall_app; split; assumption|exact Hp].
  rewrite <- (panel_ticks (q ++ pj)), <- (panel_ticks (leds (concat ow))), filter_app, Fj, app_nil_r, Fq. reflexivity.
Qed.

Lemma last_in f evs e : last_of f evs = Some e -> In e evs.
Proof. unfold last_of. destruct (rev (filter f evs)) as [|x r] eqn:E; [discriminate|]. intros H. injection H as ->. assert (In e (filter f evs)) by (apply in_rev; rewrite E; left; reflexivity). apply filter_In in H. apply H. Qed.
Lemma last_none f evs : last_of f evs = None -> forall e, In e evs -> f e = false.
Proof. unfold last_of. destruct (rev (filter f evs)) as [|x r] eqn:E; [|discriminate]. intros _ e H. destruct (f e) eqn:Ef; [|reflexivity]. assert (X : In e (rev (filter f evs))) by (apply -> in_rev; apply filter_In; auto). rewrite E in X. contradiction. Qed.
Lemma panel_internal evs : ~ In EvBusError evs -> In EvInternalError evs -> documented_panel evs = (Off, Fast, Off).
Proof.
  intros N H. unfold documented_panel. destruct (last_of is_fatal evs) as [e|] eqn:E.
  - pose proof (last_in _ _ _ E). pose proof (last_is _ _ _ E) as X. destruct e; try discriminate; [reflexivity|contradiction].
  - pose proof (last_none _ _ E _ H). discriminate.
Qed.
Lemma panel_failure evs : ~ In EvBusError evs -> In EvErrorTx evs ->
  documented_panel evs = (Off, Fast, Fast) \/ (documented_panel evs = (Fast, Fast, Off) /\ In EvErrorRx evs) \/ (documented_panel evs = (Off, Fast, Off) /\ In EvInternalError evs).
Proof.
  intros N H. unfold documented_panel. destruct (last_of is_fatal evs) as [e|] eqn:E.
  - pose proof (last_in _ _ _ E). pose proof (last_is _ _ _ E) as X. destruct e; try discriminate; [auto|contradiction].
  - destruct (last_of is_failure evs) as [e|] eqn:E2.
    + pose proof (last_in _ _ _ E2). pose proof (last_is _ _ _ E2) as X. destruct e; try discriminate; auto.
    + pose proof (last_none _ _ E2 _ H). discriminate.
Qed.
Lemma panel_collision evs : documented_panel evs = (Off, Fast, Fast) -> In EvErrorTx evs.
Proof.
  unfold documented_panel. destruct (last_of is_fatal evs) as [e|] eqn:E; [destruct e; discriminate|]. destruct (last_of is_failure evs) as [e|] eqn:E2.
  - pose proof (last_in _ _ _ E2) as H. pose proof (last_is _ _ _ E2) as X. destruct e; try discriminate. intros _. exact H.
  - destruct (S_Led.seen _ evs), (S_Led.seen _ evs); discriminate.
Qed.
Lemma panel_system evs : ~ In EvBusError evs -> documented_panel evs = (Off, Fast, Off) -> In EvInternalError evs.
Proof.
  intros N. unfold documented_panel. destruct (last_of is_fatal evs) as [e|] eqn:E.
  - pose proof (last_in _ _ _ E) as H. pose proof (last_is _ _ _ E) as X. destruct e; try discriminate; auto.
  - destruct (last_of is_failure evs) as [e|] eqn:E2; [pose proof (last_is _ _ _ E2) as X; destruct e; discriminate|]. destruct (S_Led.seen _ evs), (S_Led.seen _ evs); discriminate.
Qed.
Lemma panel_idle evs : documented_panel evs = (Off, On, Off) -> filter not_tick evs = [].
Proof.
  unfold documented_panel. destruct (last_of is_fatal evs) as [e|] eqn:E; [destruct e; discriminate|]. destruct (last_of is_failure evs) as [e|] eqn:E2; [destruct e; discriminate|].
  unfold S_Led.seen. intros H. destruct (existsb (fun e => match e with EvActivityRx => true | _ => false end) evs) eqn:E3; [discriminate|]. destruct (existsb (fun e => match e with EvActivityTx => true | _ => false end) evs) eqn:E4; [discriminate|].
  pose proof (last_none _ _ E) as A. pose proof (last_none _ _ E2) as B. clear - A B E3 E4.
  induction evs as [|e evs IH]; [reflexivity|]. cbn [existsb] in E3, E4. apply orb_false_iff in E3 as (E3 & E3'), E4 as (E4 & E4').
  pose proof (A e (or_introl eq_refl)). pose proof (B e (or_introl eq_refl)). cbn [filter]. rewrite IH; auto using in_cons. destruct e; cbn in *; congruence.
Qed.
(** The panel with only TX active: nothing was received. *)
Lemma panel_tx evs : documented_panel evs = (Off, On, Slow) -> Forall (fun e => e = EvActivityTx \/ not_tick e = false) evs.
Proof.
  unfold documented_panel. destruct (last_of is_fatal evs) as [e|] eqn:E; [destruct e; discriminate|]. destruct (last_of is_failure evs) as [e|] eqn:E2; [destruct e; discriminate|].
  unfold S_Led.seen. intros H. destruct (existsb (fun e => match e with EvActivityRx => true | _ => false end) evs) eqn:E3; [discriminate|].
  pose proof (last_none _ _ E) as A. pose proof (last_none _ _ E2) as B. clear - A B E3. apply Forall_forall. intros e He. specialize (A e He). specialize (B e He).
  destruct e; try discriminate; auto. exfalso. assert (X : existsb (fun e => match e with EvActivityRx => true | _ => false end) evs = true) by (apply existsb_exists; exists EvActivityRx; auto). congruence.
Qed.
Lemma iter_log_bus w ow : Forall2 iter_log w ow -> ~ In EvBusError (leds (concat ow)).
Proof.
  induction 1 as [|i log l o (c & Hc & Ht) _ IH]; [intros []|]. cbn [concat]. unfold leds in *. rewrite flat_map_app, in_app_iff. intros [H|H]; [|auto].
  rewrite Hc in H. apply in_app_or in H as [H|H]; [apply timers_no in H as [H|H]; discriminate|]. rewrite Forall_forall in Ht. destruct (Ht _ H) as [X|[X|[X|[X|X]]]]; discriminate.
Qed.
(** An iteration in a history. *)
Lemma run_at b l1 k l2 s o1 log o2 : boot_ok b -> Forall in_ok (l1 ++ k :: l2) -> input_ok (text (l1 ++ k :: l2)) -> core0_run b (l1 ++ k :: l2) = Ok (s, o1 ++ log :: o2) -> length o1 = length l1 ->
  exists s1 s2, core0_run b l1 = Ok (s1, o1) /\ core0_step s1 k = Ok (s2, log) /\ Forall in_ok l1 /\ input_ok (text l1).
Proof.
  revert s o2. induction l2 as [|i l2 IH] using rev_ind; intros s o2 B F T E L.
  - assert (F' : Forall in_ok l1) by (apply Forall_app in F; apply F). assert (T' : input_ok (text l1)) by (rewrite text_app in T; apply input_ok_prefix in T; exact T).
    assert (Lo := E). unfold core0_run in Lo. bstep Lo. apply mrun_length in Lo. rewrite !app_length in Lo. cbn in Lo. destruct o2; [|cbn in Lo; lia].
    apply run_snoc in E as (s1 & E1 & E2). exists s1, s. auto.
  - assert (Lo := E). unfold core0_run in Lo. bstep Lo. apply mrun_length in Lo. rewrite !app_length in Lo. cbn in Lo. rewrite app_length in Lo. cbn in Lo. clear x E0.
    destruct (exists_last (l := o2)) as (o2' & lg & ->); [intros ->; cbn in Lo; lia|]. replace (l1 ++ k :: l2 ++ [i]) with ((l1 ++ k :: l2) ++ [i]) in * by (rewrite <- app_assoc; reflexivity).
    replace (o1 ++ log :: o2' ++ [lg]) with ((o1 ++ log :: o2') ++ [lg]) in E by (rewrite <- app_assoc; reflexivity).
    apply run_snoc in E as (s1 & E1 & _). apply (IH s1 o2'); auto; [apply Forall_app in F; apply F|]. rewrite text_app in T. apply input_ok_prefix in T. exact T.
Qed.
(** SM.Error() is called in every iteration. *)
Lemma error_logged p s i s' l : core0_iter p s i = Ok (s', l) -> In (A_error (t_err (z_sm s))) l.
Proof.
  intros E. unfold core0_iter, led_calls, tx_error in E. cbv zeta iota beta in E. bstep E. destruct x as (h1 & o1). destruct (led_head _ _ (in_fifoerr i) _) as (hw1 & es1).
  set (la := map A_hw (in_hw i) ++ _) in E. assert (Hla : In (A_error (t_err (z_sm s))) la) by (apply in_or_app; right; apply in_or_app; right; cbn; auto). clearbody la.
  bstep E. destruct x as ((((rx2 & since2) & h2) & led2) & l2). bstep E. destruct x as ((rx3 & h3) & l3). bstep E. destruct x as (((sm4 & h4) & c4) & l4).
  destruct (in_event i).
  - bstep E. bstep E. destruct x0 as (((rx6 & c6) & h6) & l6). bstep E. destruct x0 as ((rx7 & h7) & l7). destruct (line_state _ _ _ _). bstep E. destruct x0 as ((((sm10 & hw10) & c9) & h9) & l9). injection E as <- <-. apply in_or_app; auto.
  - destruct (negb (z_busy s) && _); [injection E as <- <-; apply in_or_app; auto|]. bstep E. destruct x as ((((sm10 & hw10) & c9) & h9) & l9). injection E as <- <-. apply in_or_app; auto.
Qed.
Lemma error_rx_true b l i s o s' log : boot_ok b -> Forall in_ok l -> input_ok (text l) -> core0_run b l = Ok (s, o) -> core0_step s i = Ok (s', log) ->
  In EvErrorRx (leds log) -> ev_error (event_of i) = true.
Proof.
  intros B F T E Es. rewrite (step_leds _ _ _ _ _ _ _ B F T E Es), in_calls. unfold for_event. destruct (tx_is_transmitting (z_sm s)), (in_fifoerr i), (t_err (z_sm s)), (too_long log), (ev_error (event_of i)), (ev_valid (event_of i)), (ev_dadc (event_of i));
    cbn; intros [H|H]; try (apply timers_no in H as [H|H]; discriminate); intuition discriminate.
Qed.

(** Everything about one window. *)
Section Window.
Variables (b : boot) (pre w : list inp0) (j : inp0) (rest : list inp0) (s : core0) (opre ow : list (list (Z * act))) (oj : list (Z * act)) (orest : list (list (Z * act))).
Hypothesis B : boot_ok b.
Hypothesis F : Forall in_ok (pre ++ w ++ j :: rest).
Hypothesis T : input_ok (text (pre ++ w ++ j :: rest)).
Hypothesis E : core0_run b (pre ++ w ++ j :: rest) = Ok (s, opre ++ ow ++ oj :: orest).
Hypothesis Lp : length opre = length pre.
Hypothesis Lw : length ow = length w.
Hypothesis W : window pre w.
Hypothesis Hj : at_500 j.
Hypothesis Hr : Forall no_500 rest.
Lemma win_log : Forall2 iter_log w ow.
Proof using B F T E Lp Lw.
  pose proof (logs_split b _ _ _ B F T E) as L. apply Forall2_app_inv_l in L as (o1 & o2 & L1 & L2 & Eo). apply app_cut in Eo as (-> & <-); [|rewrite Lp; exact (F2_len _ _ _ L1)].
  apply Forall2_app_inv_l in L2 as (o1' & o2 & L2 & L3 & Eo). apply app_cut in Eo as (-> & _); [exact L2|rewrite Lw; exact (F2_len _ _ _ L2)].
Qed.
Lemma win_at w1 k w2 o1 log o2 : w = w1 ++ k :: w2 -> ow = o1 ++ log :: o2 -> length o1 = length w1 ->
  exists s1 s2, core0_run b (pre ++ w1) = Ok (s1, opre ++ o1) /\ core0_step s1 k = Ok (s2, log) /\ Forall in_ok (pre ++ w1) /\ input_ok (text (pre ++ w1)).
Proof using B F T E Lp Lw.
  intros Ew Eo L. assert (F' := F). assert (T' := T). assert (E' := E). rewrite Ew in F', T', E'. rewrite Eo in E'.
  rewrite <- app_assoc in F', T', E'. cbn [app] in F', T', E'. rewrite <- app_assoc in E'. cbn [app] in E'. rewrite (app_assoc pre) in F', T', E'. rewrite (app_assoc opre) in E'.
  apply (run_at b (pre ++ w1) k (w2 ++ j :: rest) s (opre ++ o1) log (o2 ++ oj :: orest)); auto. rewrite !app_length. lia.
Qed.
Lemma win_in e : In e (leds (concat ow)) -> exists w1 k w2 o1 log o2, w = w1 ++ k :: w2 /\ ow = o1 ++ log :: o2 /\ length o1 = length w1 /\ In e (leds log).
Proof using Lw.
  clear - Lw. revert w Lw. induction ow as [|l0 o IH]; intros w Lw H; [contradiction|]. destruct w as [|i w']; [discriminate|]. cbn [concat] in H. unfold leds in H. rewrite flat_map_app in H. apply in_app_or in H as [H|H].
  - exists [], i, w', [], l0, o. auto.
  - destruct (IH w' ltac:(cbn in Lw; lia) H) as (w1 & k & w2 & o1 & log & o2 & -> & -> & L & Hi). exists (i :: w1), k, w2, (l0 :: o1), log, o2. repeat split; auto. cbn. lia.
Qed.
Lemma win_has e w1 k w2 o1 log o2 : w = w1 ++ k :: w2 -> ow = o1 ++ log :: o2 -> In e (leds log) -> In e (leds (concat ow)).
Proof using. intros _ Eo H. rewrite Eo. unfold leds. rewrite concat_app, flat_map_app. apply in_or_app. right. cbn [concat]. rewrite flat_map_app. apply in_or_app. left. exact H. Qed.
Lemma win_panel : panel_of (z_led s) = documented_panel (leds (concat ow)).
Proof using B F T E Lp Lw W Hj Hr. eapply panel_window; eauto. Qed.
Lemma win_bus : ~ In EvBusError (leds (concat ow)).
Proof using B F T E Lp Lw. eapply iter_log_bus. exact win_log. Qed.

Lemma win_internal_true : In EvInternalError (leds (concat ow)) -> occurs w ow internal_error.
Proof using B F T E Lp Lw.
  intros H. destruct (win_in _ H) as (w1 & k & w2 & o1 & log & o2 & Ew & Eo & L & Hi). destruct (win_at _ _ _ _ _ _ Ew Eo L) as (s1 & s2 & E1 & E2 & F1 & T1).
  exists w1, k, w2, o1, log, o2. repeat split; auto. eapply internal_true; eauto.
Qed.
Lemma win_error_rx_true : In EvErrorRx (leds (concat ow)) -> occurs w ow (fun k _ => ev_error (event_of k) = true).
Proof using B F T E Lp Lw.
  intros H. destruct (win_in _ H) as (w1 & k & w2 & o1 & log & o2 & Ew & Eo & L & Hi). destruct (win_at _ _ _ _ _ _ Ew Eo L) as (s1 & s2 & E1 & E2 & F1 & T1).
  exists w1, k, w2, o1, log, o2. repeat split; auto. eapply error_rx_true; eauto.
Qed.
Lemma win_error_tx_true : In EvErrorTx (leds (concat ow)) -> occurs w ow (fun k log => In (in_now k, A_error true) log).
Proof using B F T E Lp Lw.
  intros H. destruct (win_in _ H) as (w1 & k & w2 & o1 & log & o2 & Ew & Eo & L & Hi). destruct (win_at _ _ _ _ _ _ Ew Eo L) as (s1 & s2 & E1 & E2 & F1 & T1).
  exists w1, k, w2, o1, log, o2. repeat split; auto. destruct (error_tx_true _ _ _ _ _ _ _ B F1 T1 E1 E2 Hi) as (He & _). unfold core0_step in E2. bstep E2. destruct x as (s3 & a). injection E2 as <- <-.
  apply error_logged in E0. rewrite He in E0. apply in_map. exact E0.
Qed.
Lemma win_failure w1 k w2 o1 log o2 m : w = w1 ++ k :: w2 -> ow = o1 ++ log :: o2 -> length o1 = length w1 -> In m (fail_reports log) -> m_status m <> 21 -> in_fifoerr k = false ->
  panel_of (z_led s) = (Off, Fast, Fast) \/ (panel_of (z_led s) = (Fast, Fast, Off) /\ occurs w ow (fun k _ => ev_error (event_of k) = true)) \/ (panel_of (z_led s) = (Off, Fast, Off) /\ occurs w ow internal_error).
Proof using B F T E Lp Lw W Hj Hr.
  intros Ew Eo L Hm Hs Hf. destruct (win_at _ _ _ _ _ _ Ew Eo L) as (s1 & s2 & E1 & E2 & F1 & T1). pose proof (failure_shown _ _ _ _ _ _ _ _ B F1 T1 E1 E2 Hm Hs Hf) as Hi.
  apply (win_has _ _ _ _ _ _ _ Ew Eo) in Hi. rewrite win_panel. destruct (panel_failure _ win_bus Hi) as [X|[(X & Y)|(X & Y)]]; [auto|right; left|right; right]; split; auto; [apply win_error_rx_true|apply win_internal_true]; exact Y.
Qed.
Lemma win_internal w1 k w2 o1 log o2 : w = w1 ++ k :: w2 -> ow = o1 ++ log :: o2 -> length o1 = length w1 -> internal_error k log ->
  (in_fifoerr k = true -> too_long log = true \/ ev_dadc (event_of k) = true \/ exists s1 o', core0_run b (pre ++ w1) = Ok (s1, o') /\ tx_is_idle (z_sm s1) = true) ->
  panel_of (z_led s) = (Off, Fast, Off).
Proof using B F T E Lp Lw W Hj Hr.
  intros Ew Eo L Hm Hs. destruct (win_at _ _ _ _ _ _ Ew Eo L) as (s1 & s2 & E1 & E2 & F1 & T1). rewrite win_panel. apply panel_internal; [exact win_bus|].
  apply (win_has _ _ _ _ _ _ _ Ew Eo). eapply internal_shown; eauto. intros H. destruct (Hs H) as [X|[X|(s3 & o' & X & Y)]]; auto. rewrite E1 in X. injection X as <- _. auto.
Qed.
Lemma win_idle : panel_of (z_led s) = (Off, On, Off) -> forall w1 k w2 o1 log o2, w = w1 ++ k :: w2 -> ow = o1 ++ log :: o2 -> length o1 = length w1 ->
  nothing_happened k log /\ exists s1 o', core0_run b (pre ++ w1) = Ok (s1, o') /\ tx_is_idle (z_sm s1) = true.
Proof using B F T E Lp Lw W Hj Hr.
  intros H w1 k w2 o1 log o2 Ew Eo L. destruct (win_at _ _ _ _ _ _ Ew Eo L) as (s1 & s2 & E1 & E2 & F1 & T1). rewrite win_panel in H. apply panel_idle in H.
  assert (Hc : filter not_tick (leds log) = []).
  { rewrite Eo, concat_app in H. cbn [concat] in H. unfold leds in H. rewrite !flat_map_app, !filter_app in H. apply app_eq_nil in H as (_ & H). apply app_eq_nil in H as (H & _). exact H. }
  rewrite (step_leds _ _ _ _ _ _ _ B F1 T1 E1 E2) in Hc. unfold calls_for in Hc. rewrite !filter_app in Hc. apply app_eq_nil in Hc as (_ & Hc). apply app_eq_nil in Hc as (H1 & Hc). apply app_eq_nil in Hc as (H2 & H3).
  unfold nothing_happened. rewrite (step_fail _ _ _ _ E2). unfold tx_is_transmitting in H1. destruct (tx_is_idle (z_sm s1)) eqn:Ei; [|discriminate]. destruct (in_fifoerr k); [discriminate|]. destruct (t_err (z_sm s1)); [discriminate|].
  destruct (too_long log); [discriminate|]. unfold for_event in H3. destruct (ev_error (event_of k)), (ev_valid (event_of k)), (ev_dadc (event_of k)); try discriminate. split; [repeat split|]. eauto.
Qed.
Lemma win_tx_only : panel_of (z_led s) = (Off, On, Slow) -> forall w1 k w2 o1 log o2, w = w1 ++ k :: w2 -> ow = o1 ++ log :: o2 -> length o1 = length w1 ->
  ev_valid (event_of k) = false /\ ev_error (event_of k) = false /\ ev_dadc (event_of k) = false /\ too_long log = false.
Proof using B F T E Lp Lw W Hj Hr.
  intros H w1 k w2 o1 log o2 Ew Eo L. destruct (win_at _ _ _ _ _ _ Ew Eo L) as (s1 & s2 & E1 & E2 & F1 & T1). rewrite win_panel in H. apply panel_tx in H. rewrite Forall_forall in H.
  assert (Hc : forall e, In e (leds log) -> e = EvActivityTx \/ not_tick e = false) by (intros e He; apply H; apply (win_has _ _ _ _ _ _ _ Ew Eo He)).
  rewrite (step_leds _ _ _ _ _ _ _ B F1 T1 E1 E2) in Hc.
  assert (A : forall e, In e (for_event (event_of k)) -> e = EvActivityTx \/ not_tick e = false) by (intros e He; apply Hc, in_calls; auto).
  assert (A' : forall e, In e (if too_long log then [EvInternalError] else []) -> e = EvActivityTx \/ not_tick e = false) by (intros e He; apply Hc, in_calls; auto).
  unfold for_event in A. destruct (ev_error (event_of k)), (ev_valid (event_of k)), (ev_dadc (event_of k)), (too_long log); auto; exfalso;
  first [destruct (A' EvInternalError ltac:(cbn; auto)); discriminate | destruct (A EvErrorRx ltac:(cbn; auto)); discriminate | destruct (A EvActivityRx ltac:(cbn; auto)); discriminate | destruct (A EvInternalError ltac:(cbn; auto)); discriminate].
Qed.
End Window.
