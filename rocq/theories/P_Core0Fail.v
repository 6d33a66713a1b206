(** P_Core0Fail.v -- failed transmissions are reported (C87). *)
From Verif Require Import Base S_Containers D_Containers P_Containers M_Fifo M_Message S_Message D_Message P_Message P_MessageParse
  M_Standalone S_Crc S_Ctrl D_Ctrl P_Ctrl M_Tx D_Tx P_Tx P_TxRun P_TxHist M_HostUart D_Host S_Host P_Host P_HostProps M_Led M_Core1 M_Core0 S_Core0 D_Core0 P_Core0 P_Core0Run P_Core0Rx P_Core0Busy P_Core0Main P_Core0Feed P_Core0Bus.

Definition fail_of (a : act) : list message := match a with A_report R_txfail _ m _ _ => [m] | _ => [] end.
Definition no_fail (l : list act) : Prop := flat_map fail_of l = [].
Lemma no_fail_app a b : no_fail a -> no_fail b -> no_fail (a ++ b).
Proof. unfold no_fail. intros A B. rewrite flat_map_app, A, B. reflexivity. Qed.
Lemma no_fail_led es : no_fail (map A_led es).
Proof. induction es as [|e es IH]; [reflexivity|exact IH]. Qed.
Lemma no_fail_hw es : no_fail (map A_hw es).
Proof. induction es as [|e es IH]; [reflexivity|exact IH]. Qed.
Lemma report_fail w now bud h m h' m' l : report w now bud h m = Ok (h', m', l) -> w <> R_txfail -> no_fail l.
Proof. unfold report. intros E H. bstep E. destruct x as ((h1 & m1) & o1). injection E as <- <- <-. destruct w; try reflexivity. congruence. Qed.
Lemma failure_fail now bud f sm h c sm' h' c' l : failure_part now bud f sm h c = Ok (sm', h', c', l) ->
  flat_map fail_of l = if f && negb (m_status (t_rx sm) =? 3) then [t_rx sm] else [].
Proof.
  unfold failure_part. destruct f; [|intros E; injection E as <- <- <- <-; reflexivity]. intros E. bstep E. destruct x as ((s1 & h1) & l1). bstep E. rename x into own.
  injection E as <- <- <- <-. rewrite flat_map_app. replace (flat_map fail_of (if own then [A_collision] else [])) with (@nil message) by (destruct own; reflexivity). rewrite app_nil_r.
  change STATUS_ERR_PARITY with 3 in E0. cbn [andb]. destruct (negb _).
  - bstep E0. destruct x as ((h2 & m2) & l2). injection E0 as <- <- <-. unfold report in E. bstep E. destruct x as ((h3 & m3) & o3). injection E as <- <- <-. reflexivity.
  - injection E0 as <- <- <-. reflexivity.
Qed.
Lemma end_fail now bud e rx c h rx' c' h' l : packet_end now bud e rx c h = Ok (rx', c', h', l) -> no_fail l.
Proof.
  unfold packet_end. destruct (_ && _); [|intros E; injection E as <- <- <- <-; reflexivity]. intros E. bstep E. bstep E. destruct x0 as ((h1 & m1) & l1).
  injection E as <- <- <- <-. apply (no_fail_app [_]); [reflexivity|eapply report_fail; eauto; discriminate].
Qed.
Lemma full_fail now bud rx h rx' h' l : packet_overflow now bud rx h = Ok (rx', h', l) -> no_fail l.
Proof.
  unfold packet_overflow. destruct (msg_overflow rx); [|intros E; injection E as <- <- <-; reflexivity]. intros E. bstep E. destruct x as ((h1 & m1) & l1).
  injection E as <- <- <-. eapply report_fail; eauto; discriminate.
Qed.
Lemma tail_fail p now junk sm hw c h busy e sm' hw' c' h' l : tail_part p now junk sm hw c h busy e = Ok (sm', hw', c', h', l) -> no_fail l.
Proof.
  unfold tail_part. intros E. bstep E. destruct x as ((((s1 & w1) & c1) & h1) & l1). bstep E. destruct x as (s2 & w2). injection E as <- <- <- <- <-.
  apply no_fail_app; [|reflexivity]. clear E1. revert E0. unfold transmit_part. destruct (tx_is_idle sm); [|intros E; injection E as <- <- <- <- <-; reflexivity].
  destruct (host_has_data h).
  - intros E. bstep E. destruct x. bstep E. destruct x. injection E as <- <- <- <- <-. reflexivity.
  - destruct (ctrl_has_tx c).
    + intros E. bstep E. destruct x. bstep E. destruct x. injection E as <- <- <- <- <-. reflexivity.
    + intros E; injection E as <- <- <- <- <-; reflexivity.
Qed.
Lemma iter_fail p s i s' l : core0_iter p s i = Ok (s', l) ->
  flat_map fail_of l = if t_err (z_sm s) && negb (m_status (t_rx (z_sm s)) =? 3) then [t_rx (z_sm s)] else [].
Proof.
  intros E. unfold core0_iter, led_calls in E. cbv zeta iota beta in E. unfold tx_error in E.
  bstep E. destruct x as (h1 & o1). destruct (led_head _ _ (in_fifoerr i) _) as (hw1 & es1).
  set (la := map A_hw (in_hw i) ++ _) in E.
  assert (Ula : no_fail la). { apply no_fail_app; [apply no_fail_hw|]. apply no_fail_app; [apply no_fail_led|]. apply no_fail_app; [reflexivity|apply no_fail_led]. }
  clearbody la. bstep E. destruct x as ((((rx2 & since2) & h2) & led2) & l2).
  assert (U2 : no_fail l2).
  { destruct (busy_timeout _ _ _); [|injection E1 as <- <- <- <- <-; reflexivity]. bstep E1. destruct x as ((h' & m') & l'). injection E1 as <- <- <- <- <-.
    apply (no_fail_app [_]); [reflexivity|eapply report_fail; eauto; discriminate]. }
  clear E1. bstep E. destruct x as ((rx3 & h3) & l3).
  assert (U3 : no_fail l3).
  { destruct (in_fifoerr i); [|injection E1 as <- <- <-; reflexivity]. bstep E1. destruct x as ((h' & m') & l'). injection E1 as <- <- <-. eapply report_fail; eauto; discriminate. }
  bstep E. destruct x as (((sm4 & h4) & c4) & l4). apply failure_fail in E2. cbn [t_rx] in E2. rewrite <- E2.
  assert (FA : forall r, no_fail r -> flat_map fail_of (la ++ l2 ++ l3 ++ l4 ++ r) = flat_map fail_of l4).
  { intros r Hr. rewrite !flat_map_app. unfold no_fail in *. rewrite Ula, U2, U3, Hr, app_nil_r. reflexivity. }
  destruct (in_event i) as [e|].
  - bstep E. rename x into rx5. clear E3. bstep E. destruct x as (((rx6 & c6) & h6) & l6). apply end_fail in E3. bstep E. destruct x as ((rx7 & h7) & l7). apply full_fail in E4.
    destruct (line_state (in_now i) e (z_busy s) since2) as (busy & since).
    bstep E. destruct x as ((((sm10 & hw10) & c9) & h9) & l9). apply tail_fail in E5. injection E as <- <-.
    apply FA. repeat (apply no_fail_app; auto). apply no_fail_led.
  - destruct (negb (z_busy s) && _).
    + injection E as <- <-. rewrite <- (FA [] eq_refl). rewrite !app_nil_r. reflexivity.
    + bstep E. destruct x as ((((sm10 & hw10) & c9) & h9) & l9). apply tail_fail in E3. injection E as <- <-. apply FA. exact E3.
Qed.
Lemma fails_stamp now l : fail_reports (map (pair now) l) = flat_map fail_of l.
Proof. unfold fail_reports. induction l as [|a l IH]; [reflexivity|]. cbn [map flat_map snd]. rewrite IH. destruct a; reflexivity. Qed.

Lemma failure_reported b l i s o s' log : boot_ok b -> Forall in_ok l -> input_ok (text l) -> core0_run b l = Ok (s, o) -> core0_step s i = Ok (s', log) ->
  exists t h r, tx_run (b_j1 b) (b_j2 b) (flat_map tx_part (concat o)) = Ok ((t, h), r) /\
    fail_reports log = if t_err t && negb (m_status (t_rx t) =? 3) then [t_rx t] else [].
Proof.
  intros B F T E Es. destruct (parts_run b l s o B F T E) as ((Rt & _) & _). exists (z_sm s), (z_hw s), (flat_map tx_part_out (concat o)). split; [exact Rt|].
  unfold core0_step in Es. bstep Es. destruct x as (s1 & a). injection Es as <- <-. rewrite fails_stamp. eapply iter_fail; eauto.
Qed.

(** ** Receive errors are reported by the receive path *)
Definition bad_report (o : outs) : Prop := exists w r, In (w, r) (fst o) /\ fst r <> 0.
Lemma flush_bad b w st r : st <> 0 -> (fst r <> 0 -> fst (fst (flush_if b w st r)) <> 0 \/ exists x, In x (snd (flush_if b w st r)) /\ fst (snd x) <> 0).
Proof. intros H Hr. unfold flush_if. destruct b; cbn; [right; eexists; split; [left; reflexivity|exact H]|left; exact Hr]. Qed.
(** Once the status is bad, or after an error event, it stays bad or is reported; a line-free event reports it. *)
Lemma iter_bad x i : (fst (fst x) <> 0 \/ (ev_error (event_of i) = true /\ ev_dadc (event_of i) = false)) ->
  bad_report (snd (a_iter x i)) \/ (fst (fst (fst (a_iter x i))) <> 0 /\ line_free i = false).
Proof.
  destruct x as ((st & bs) & (bz & since)). cbn [fst]. intros H. unfold a_iter. set (tm := busy_timeout _ _ _). clearbody tm. unfold rx_iter.
  destruct (flush_if tm R_timeout 4 (st, bs)) as (r1 & o1) eqn:E1. destruct (flush_if (in_fifoerr i) R_fifo 2 r1) as (r2 & o2) eqn:E2.
  set (r3 := (status_after (fst r2) (event_of i), snd r2 ++ byte_of (event_of i))).
  assert (H3 : (exists y, In y (o1 ++ o2) /\ fst (snd y) <> 0) \/ fst r3 <> 0).
  { destruct H as [H|(He & Hd)]; [|right; unfold r3, status_after; cbn [fst]; rewrite He, Hd; discriminate].
    destruct (flush_bad tm R_timeout 4 (st, bs) ltac:(lia) H) as [A|(y & A & A')]; rewrite E1 in A; cbn [fst snd] in A; [|left; exists y; split; [apply in_or_app; auto|exact A']].
    destruct (flush_bad (in_fifoerr i) R_fifo 2 r1 ltac:(lia) A) as [A2|(y & A2 & A')]; rewrite E2 in A2; cbn [fst snd] in A2; [|left; exists y; split; [apply in_or_app; auto|exact A']].
    right. unfold r3, status_after. cbn [fst]. destruct (ev_dadc _); [discriminate|]. destruct (ev_error _); [discriminate|exact A2]. }
  destruct (flush_if (line_free i && _) R_packet (fst r3) r3) as (r4 & o4) eqn:E4. destruct (flush_if (length (snd r4) =? 32)%nat R_full 2 r4) as (r5 & o5) eqn:E5.
  cbn [fst snd]. unfold bad_report. cbn [fst].
  destruct H3 as [((w & r) & Hy & Hs)|H3].
  { left. exists w, r. split; [|exact Hs]. rewrite (app_assoc o1 o2). apply in_or_app. left. exact Hy. }
  destruct (flush_bad (line_free i && ((0 <? length (snd r3))%nat || negb (fst r3 =? 0))) R_packet (fst r3) r3 H3 H3) as [A|((w & r) & A & A')]; rewrite E4 in A; cbn [fst snd] in A;
    [|left; exists w, r; split; [rewrite (app_assoc o1 o2); apply in_or_app; right; apply in_or_app; auto|exact A']].
  assert (Lf : line_free i = false).
  { destruct (line_free i); [|reflexivity]. exfalso. cbn [andb] in E4. replace (negb (fst r3 =? 0)) with true in E4 by (symmetry; apply negb_true_iff, Z.eqb_neq; exact H3). rewrite orb_true_r in E4. cbn in E4. injection E4 as <- <-. apply A. reflexivity. }
  destruct (flush_bad (length (snd r4) =? 32)%nat R_full 2 r4 ltac:(lia) A) as [A2|((w & r) & A2 & A')]; rewrite E5 in A2; cbn [fst snd] in A2.
  - right. auto.
  - left. exists w, r. split; [rewrite (app_assoc o1 o2); apply in_or_app; right; apply in_or_app; auto|exact A'].
Qed.
Lemma run_bad l : forall x, fst (fst x) <> 0 -> (exists j, In j l /\ line_free j = true) -> Exists bad_report (snd (a_run x l)).
Proof.
  induction l as [|i l IH]; intros x H (j & Hj & Hf); [contradiction|]. cbn [a_run]. destruct (iter_bad x i (or_introl H)) as [A|(A & Lf)]; destruct (a_iter x i) as (y & o); cbn [fst snd] in A.
  - destruct (a_run y l) as (z & os). cbn [snd]. left. exact A.
  - destruct Hj as [->|Hj]; [congruence|]. specialize (IH y A ltac:(eauto)). destruct (a_run y l) as (z & os). right. exact IH.
Qed.
Lemma error_reported b l1 i l2 s o1 log o2 : boot_ok b -> Forall in_ok (l1 ++ i :: l2) -> input_ok (text (l1 ++ i :: l2)) ->
  core0_run b (l1 ++ i :: l2) = Ok (s, o1 ++ log :: o2) -> length o1 = length l1 ->
  ev_error (event_of i) = true -> ev_dadc (event_of i) = false -> (exists j, In j (i :: l2) /\ line_free j = true) ->
  exists w m, In (w, m) (rx_reports (concat (log :: o2))) /\ m_status m <> 0.
Proof.
  intros B F T E L He Hd Hj. destruct (run_good b _ B F T) as (c & s' & logs & _ & Er & _ & _ & A & _). rewrite E in Er. injection Er as <- <-.
  rewrite a_run_app in A. destruct (a_run (x0 (b_now b)) l1) as (y & q1) eqn:A1. destruct (a_run y (i :: l2)) as (z & q2) eqn:A2. injection A as _ A.
  assert (Lq : length q1 = length l1) by (rewrite <- (a_run_length l1 (x0 (b_now b))), A1; reflexivity).
  rewrite map_app in A. apply app_eq_app in A as (m0 & [(Ex & Ey)|(Ex & Ey)]).
  - assert (m0 = []) by (apply (f_equal (@length _)) in Ex; rewrite app_length, map_length in Ex; destruct m0; [reflexivity|cbn in Ex; lia]). subst m0. cbn in Ey.
    enough (X : Exists bad_report q2).
    { rewrite <- Ey in X. change (seen log :: map seen o2) with (map seen (log :: o2)) in X. apply Exists_exists in X as (oo & Hin & w & r & Hr & Hs). apply in_map_iff in Hin as (lg & <- & Hin).
      cbn [seen fst] in Hr. apply in_map_iff in Hr as ((w' & m) & Ew & Hm). injection Ew as -> <-. exists w, m. split; [|exact Hs].
      unfold rx_reports in *. apply in_flat_map in Hm as (e & H1 & H2). apply in_flat_map. exists e. split; [apply in_concat; eauto|exact H2]. }
    cbn [a_run] in A2. destruct (iter_bad y i (or_intror (conj He Hd))) as [X|(X & Lf)]; destruct (a_iter y i) as (y1 & oo); cbn [fst snd] in X; destruct (a_run y1 l2) as (z1 & q3) eqn:A3; injection A2 as _ <-.
    + left. exact X.
    + right. change q3 with (snd (z1, q3)). rewrite <- A3. apply run_bad; [exact X|]. destruct Hj as (j & [->|Hj] & Hf); [congruence|eauto].
  - assert (m0 = []) by (apply (f_equal (@length _)) in Ex; rewrite app_length, map_length in Ex; destruct m0; [reflexivity|cbn in Ex; lia]). subst m0. cbn in Ey.
    enough (X : Exists bad_report q2).
    { rewrite Ey in X. change (seen log :: map seen o2) with (map seen (log :: o2)) in X. apply Exists_exists in X as (oo & Hin & w & r & Hr & Hs). apply in_map_iff in Hin as (lg & <- & Hin).
      cbn [seen fst] in Hr. apply in_map_iff in Hr as ((w' & m) & Ew & Hm). injection Ew as -> <-. exists w, m. split; [|exact Hs].
      unfold rx_reports in *. apply in_flat_map in Hm as (e & H1 & H2). apply in_flat_map. exists e. split; [apply in_concat; eauto|exact H2]. }
    cbn [a_run] in A2. destruct (iter_bad y i (or_intror (conj He Hd))) as [X|(X & Lf)]; destruct (a_iter y i) as (y1 & oo); cbn [fst snd] in X; destruct (a_run y1 l2) as (z1 & q3) eqn:A3; injection A2 as _ <-.
    + left. exact X.
    + right. change q3 with (snd (z1, q3)). rewrite <- A3. apply run_bad; [exact X|]. destruct Hj as (j & [->|Hj] & Hf); [congruence|eauto].
Qed.

(** ** At most two failures per transmission *)
Definition weight (t : txsm) : nat := ((if t_err t then 1 else 0) + match t_st t with T_IDLE => 0 | T_WAIT_IDLE => 1 | _ => 2 end)%nat.
Definition wakes_in (e : Z * tx_ev) : nat := match snd e with Wake _ => 1 | _ => 0 end.
Definition count_true (o : list (option bool)) : nat := length (filter (fun x => match x with Some true => true | _ => false end) o).
Lemma after_weight t : (match after_byte t with T_IDLE => 0 | T_WAIT_IDLE => 1 | _ => 2 end <= 2)%nat.
Proof. destruct (after_byte t); lia. Qed.
Lemma event_weight t h e t' h' o : tx_inv t h -> ev_ok 1 e -> tx_event pico (t, h) e = Ok ((t', h'), o) ->
  (count_true [o] + weight t' <= weight t + 2 * wakes_in e)%nat.
Proof.
  intros I He E. destruct e as (now & [m|busy re rv c|x| |time]); cbn [tx_event] in *; unfold wakes_in; cbn [snd].
  - destruct (wake_cases now t h m) as (t1 & h1 & E1 & -> & C). rewrite E1 in E. cbn [bind] in E. injection E as <- <- <-. cbn. destruct C as [(Hi & ->)|(Hi & ->)]; unfold weight; cbn; lia.
  - destruct (update_cases now busy re rv c t h (inv_safe _ _ I)) as (t1 & h1 & E1 & U). rewrite E1 in E. cbn [bind] in E. injection E as <- <- <-. cbn [count_true filter length plus].
    assert (Hh : hw_error h = false) by exact (iv_err _ _ I).
    destruct U as [Ha|H1 H2 H3 H4|Hs Hw Hb Ht Ho|Hs Hw Hb|Hs Hw Hb Hx Hv|rx Hd Hw Hx Hv Hn Hr|b rx Hd Hw Hx Hv Hn Hne Hr|Hd Hw Hx|Hs Hw Hb]; unfold weight; cbn [set_err enter set_rx_status t_err t_st].
    + assert (Hn : t_st t <> T_IDLE) by (intros Hi; unfold line_is_error in Ha; rewrite Hi in Ha; destruct Ha as [(_ & Ha)|Ha]; [discriminate|destruct busy; discriminate]).
      destruct (t_st t); try congruence; destruct (t_err t); lia.
    + lia.
    + rewrite Hs. lia.
    + rewrite Hs. lia.
    + rewrite Hs. lia.
    + pose proof (after_weight t). destruct Hd as [-> | ->]; lia.
    + destruct Hd as [-> | ->]; destruct (t_err t); lia.
    + destruct Hd as [-> | ->]; destruct (t_err t); lia.
    + rewrite Hs. lia.
  - injection E as <- <- <-. cbn. lia.
  - unfold tx_error in E. injection E as <- <- <-. unfold weight. cbn. destruct (t_err t); cbn; lia.
  - injection E as <- <- <-. unfold weight. cbn. lia.
Qed.
Lemma count_app a b : count_true (a ++ b) = (count_true a + count_true b)%nat.
Proof. unfold count_true. rewrite filter_app, app_length. reflexivity. Qed.
Lemma run_weight l : forall t h t' h' o, tx_inv t h -> Forall (ev_ok 1) l -> mrun (tx_event pico) (t, h) l = Ok ((t', h'), o) ->
  (count_true o + weight t' <= weight t + 2 * fold_right (fun e n => wakes_in e + n) 0 l)%nat.
Proof.
  induction l as [|e l IH]; intros t h t' h' o I F E; cbn [mrun] in E; [injection E as <- <- <-; cbn; lia|]. inversion F; subst.
  destruct (event_inv t h e I ltac:(auto)) as (t1 & h1 & o1 & E1 & I1). rewrite E1 in E. cbn [bind] in E. bstep E. destruct x as (s2 & o2). injection E as -> <-.
  pose proof (event_weight t h e t1 h1 o1 I ltac:(auto) E1) as W. specialize (IH _ _ _ _ _ I1 ltac:(auto) E0). cbn [fold_right].
  change (o1 :: o2) with ([o1] ++ o2). rewrite count_app. lia.
Qed.
Lemma wakes_count log : fold_right (fun e n => wakes_in e + n)%nat 0%nat (flat_map tx_part log) = length (wakes log).
Proof.
  induction log as [|(u & a) log IH]; [reflexivity|]. cbn [flat_map wakes snd]. fold (wakes log).
  destruct a; cbn [tx_part snd app fold_right wakes_in length]; rewrite ?IH; reflexivity.
Qed.
Lemma fails_le b l s o : core0_run b l = Ok (s, o) -> (length (fail_reports (concat o)) <= count_true (flat_map tx_part_out (concat o)))%nat.
Proof.
  revert s o. induction l as [|i l IH] using rev_ind; intros s o E.
  - unfold core0_run in E. bstep E. cbn in E. injection E as <- <-. cbn. lia.
  - apply run_snoc' in E as (s0 & o0 & log & -> & E & Es & _). specialize (IH _ _ E). rewrite concat_app. cbn [concat]. rewrite app_nil_r. unfold fail_reports in *. rewrite !flat_map_app, app_length, count_app.
    enough (length (fail_reports log) <= count_true (flat_map tx_part_out log))%nat by (unfold fail_reports in *; lia). clear IH E.
    unfold core0_step in Es. bstep Es. destruct x as (s1 & a). injection Es as <- <-. rewrite fails_stamp, (iter_fail _ _ _ _ _ E).
    destruct (t_err (z_sm s0)) eqn:Ee; [|cbn; lia]. enough (1 <= count_true (flat_map tx_part_out (map (pair (in_now i)) a)))%nat by (destruct (true && _); cbn; lia).
    assert (Hin : In (A_error true) a).
    { clear - E Ee. unfold core0_iter, led_calls, tx_error in E. rewrite Ee in E. cbv zeta iota beta in E. bstep E. destruct x as (h1 & o1). destruct (led_head _ _ (in_fifoerr i) _) as (hw1 & es1).
      set (la := map A_hw (in_hw i) ++ _) in E. assert (Hla : In (A_error true) la) by (apply in_or_app; right; apply in_or_app; right; cbn; auto). clearbody la.
      bstep E. destruct x as ((((rx2 & since2) & h2) & led2) & l2). bstep E. destruct x as ((rx3 & h3) & l3). bstep E. destruct x as (((sm4 & h4) & c4) & l4).
      destruct (in_event i).
      - bstep E. bstep E. destruct x0 as (((rx6 & c6) & h6) & l6). bstep E. destruct x0 as ((rx7 & h7) & l7). destruct (line_state _ _ _ _). bstep E. destruct x0 as ((((sm10 & hw10) & c9) & h9) & l9). injection E as <- <-. apply in_or_app; auto.
      - destruct (negb (z_busy s0) && _); [injection E as <- <-; apply in_or_app; auto|]. bstep E. destruct x as ((((sm10 & hw10) & c9) & h9) & l9). injection E as <- <-. apply in_or_app; auto. }
    apply in_split in Hin as (u & v & ->). rewrite map_app, flat_map_app, count_app. cbn [map flat_map tx_part_out snd app]. change (Some true :: flat_map tx_part_out (map (pair (in_now i)) v)) with ([Some true] ++ flat_map tx_part_out (map (pair (in_now i)) v)).
    rewrite count_app. cbn. lia.
Qed.
Lemma fails_bound b l s o : boot_ok b -> Forall in_ok l -> input_ok (text l) -> core0_run b l = Ok (s, o) -> (length (fail_reports (concat o)) <= 2 * length (wakes (concat o)))%nat.
Proof.
  intros B F T E. pose proof (fails_le _ _ _ _ E) as L. destruct (parts_run b l s o B F T E) as ((Rt & At & _) & _).
  unfold tx_run in Rt. pose proof (new_inv (b_j1 b) (b_j2 b)) as N. destruct (tx_new hw_new (b_j1 b) (b_j2 b)) as (t0 & h0) eqn:E0. apply run_weight in Rt; [|apply N; apply B|exact At].
  rewrite wakes_count in Rt. injection E0 as <- _. cbn in Rt. lia.
Qed.
