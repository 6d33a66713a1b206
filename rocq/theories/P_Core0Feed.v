(** P_Core0Feed.v -- what the main loop tells the transmit state machine (C85). *)
From Verif Require Import Base S_Containers D_Containers P_Containers M_Fifo M_Message S_Message D_Message P_Message P_MessageParse
  M_Standalone S_Crc S_Ctrl D_Ctrl P_Ctrl M_Tx D_Tx P_Tx P_TxRun M_HostUart D_Host S_Host P_Host P_HostProps M_Led M_Core1 M_Core0 S_Core0 D_Core0 P_Core0 P_Core0Run P_Core0Busy.

(** The updates among some calls. *)
Definition upd_of (a : act) : list (bool * bool * bool * Z) := match a with A_update b re rv c => [(b, re, rv, c)] | _ => [] end.
Definition no_upd (l : list act) : Prop := flat_map upd_of l = [].
Lemma no_upd_app a b : no_upd a -> no_upd b -> no_upd (a ++ b).
Proof. unfold no_upd. intros A B. rewrite flat_map_app, A, B. reflexivity. Qed.
Lemma no_upd_led es : no_upd (map A_led es).
Proof. induction es as [|e es IH]; [reflexivity|exact IH]. Qed.
Lemma no_upd_hw es : no_upd (map A_hw es).
Proof. induction es as [|e es IH]; [reflexivity|exact IH]. Qed.
Lemma report_upd w now bud h m h' m' l : report w now bud h m = Ok (h', m', l) -> no_upd l.
Proof. unfold report. intros E. bstep E. destruct x as ((h1 & m1) & o1). injection E as <- <- <-. reflexivity. Qed.
Lemma failure_upd now bud f sm h c sm' h' c' l : failure_part now bud f sm h c = Ok (sm', h', c', l) -> no_upd l.
Proof.
  unfold failure_part. destruct f; [|intros E; injection E as <- <- <- <-; reflexivity]. intros E. bstep E. destruct x as ((s1 & h1) & l1). bstep E. rename x into own.
  injection E as <- <- <- <-. apply no_upd_app; [|destruct own; reflexivity]. destruct (negb _).
  - bstep E0. destruct x as ((h2 & m2) & l2). injection E0 as <- <- <-. apply no_upd_app; [eapply report_upd; eauto|reflexivity].
  - injection E0 as <- <- <-. reflexivity.
Qed.
Lemma end_upd now bud e rx c h rx' c' h' l : packet_end now bud e rx c h = Ok (rx', c', h', l) -> no_upd l.
Proof.
  unfold packet_end. destruct (_ && _); [|intros E; injection E as <- <- <- <-; reflexivity]. intros E. bstep E. bstep E. destruct x0 as ((h1 & m1) & l1).
  injection E as <- <- <- <-. apply (no_upd_app [_]); [reflexivity|eapply report_upd; eauto].
Qed.
Lemma full_upd now bud rx h rx' h' l : packet_overflow now bud rx h = Ok (rx', h', l) -> no_upd l.
Proof.
  unfold packet_overflow. destruct (msg_overflow rx); [|intros E; injection E as <- <- <-; reflexivity]. intros E. bstep E. destruct x as ((h1 & m1) & l1).
  injection E as <- <- <-. eapply report_upd; eauto.
Qed.
Lemma transmit_upd now junk sm hw c h sm' hw' c' h' l : transmit_part now junk sm hw c h = Ok (sm', hw', c', h', l) -> no_upd l.
Proof.
  unfold transmit_part. destruct (tx_is_idle sm); [|intros E; injection E as <- <- <- <- <-; reflexivity].
  destruct (host_has_data h).
  - intros E. bstep E. destruct x. bstep E. destruct x. injection E as <- <- <- <- <-. reflexivity.
  - destruct (ctrl_has_tx c).
    + intros E. bstep E. destruct x. bstep E. destruct x. injection E as <- <- <- <- <-. reflexivity.
    + intros E; injection E as <- <- <- <- <-; reflexivity.
Qed.
Lemma tail_upd p now junk sm hw c h busy e sm' hw' c' h' l : tail_part p now junk sm hw c h busy e = Ok (sm', hw', c', h', l) ->
  exists l0, l = l0 ++ [A_update busy (ev_error e) (ev_valid e) (ev_char e)] /\ no_upd l0.
Proof.
  unfold tail_part. intros E. bstep E. destruct x as ((((s1 & w1) & c1) & h1) & l1). bstep E. destruct x as (s2 & w2). injection E as <- <- <- <- <-.
  exists l1. split; [reflexivity|]. eapply transmit_upd; eauto.
Qed.
Lemma flush_upd (b : bool) w now bud h rx rx2 h2 l2 (m0 : message) :
  (if b then let* (h', rx', l) := report w now bud h m0 in Ok (msg_clear rx', h', l) else Ok (rx, h, [])) = Ok (rx2, h2, l2) -> no_upd l2.
Proof.
  destruct b; [|intros E; injection E as <- <- <-; reflexivity]. intros E. bstep E. destruct x as ((h1 & m1) & l1). injection E as <- <- <-. eapply report_upd; eauto.
Qed.

(** One iteration: it updates the transmitter last, unless there is no event and the line is free. *)
Definition fed (s : core0) (i : inp0) : event := match in_event i with Some e => e | None => z_ev s end.
Lemma line_state_busy now e busy since since' : fst (line_state now e busy since) = fst (line_state now e busy since').
Proof. unfold line_state. destruct (ev_free e && busy); [reflexivity|]. destruct (ev_busy e && negb busy); reflexivity. Qed.
Lemma iter_feed p s i s' l : core0_iter p s i = Ok (s', l) ->
  z_busy s' = fst (line_state (in_now i) (event_of i) (z_busy s) (z_since s)) /\
  exists l0, no_upd l0 /\
  ((l = l0 ++ [A_update (z_busy s') (ev_error (fed s i)) (ev_valid (fed s i)) (ev_char (fed s i))] /\ z_ev s' = ev_none) \/
   (l = l0 /\ in_event i = None /\ z_busy s = false /\ z_busy s' = false /\ z_ev s' = z_ev s)).
Proof.
  intros E. unfold core0_iter, led_calls in E. cbv zeta iota beta in E.
  bstep E. destruct x as (h1 & o1). destruct (tx_error (z_sm s)) as (sm1 & txfail). destruct (led_head sm1 _ (in_fifoerr i) txfail) as (hw1 & es1).
  set (la := map A_hw (in_hw i) ++ _) in E.
  assert (Ula : no_upd la). { apply no_upd_app; [apply no_upd_hw|]. apply no_upd_app; [apply no_upd_led|]. apply no_upd_app; [reflexivity|apply no_upd_led]. }
  clearbody la. bstep E. destruct x as ((((rx2 & since2) & h2) & led2) & l2).
  assert (U2 : no_upd l2).
  { destruct (busy_timeout _ _ _); [|injection E1 as <- <- <- <- <-; reflexivity]. bstep E1. destruct x as ((h' & m') & l'). injection E1 as <- <- <- <- <-.
    apply (no_upd_app [_]); [reflexivity|eapply report_upd; eauto]. }
  clear E1. bstep E. destruct x as ((rx3 & h3) & l3). apply flush_upd in E1. bstep E. destruct x as (((sm4 & h4) & c4) & l4). apply failure_upd in E2.
  assert (U4 : no_upd (la ++ l2 ++ l3 ++ l4)) by (repeat apply no_upd_app; auto).
  unfold fed, event_of. destruct (in_event i) as [e|].
  - bstep E. rename x into rx5. clear E3. bstep E. destruct x as (((rx6 & c6) & h6) & l6). apply end_upd in E3. bstep E. destruct x as ((rx7 & h7) & l7). apply full_upd in E4.
    destruct (line_state (in_now i) e (z_busy s) since2) as (busy & since) eqn:Els.
    bstep E. destruct x as ((((sm10 & hw10) & c9) & h9) & l9). apply tail_upd in E5 as (l0 & -> & U9). injection E as <- <-. cbn [z_busy z_ev].
    split; [rewrite (line_state_busy _ _ _ _ since2), Els; reflexivity|].
    exists ((la ++ l2 ++ l3 ++ l4) ++ l6 ++ l7 ++ map A_led (led_event_part e) ++ l0). split; [repeat (apply no_upd_app; auto); apply no_upd_led|]. left. split; [|reflexivity].
    rewrite <- !app_assoc. reflexivity.
  - assert (Lb : fst (line_state (in_now i) ev_none (z_busy s) (z_since s)) = z_busy s) by reflexivity.
    destruct (negb (z_busy s) && _) eqn:C.
    + injection E as <- <-. cbn [z_busy z_ev]. split; [reflexivity|]. exists (la ++ l2 ++ l3 ++ l4). split; [exact U4|]. right. split; [reflexivity|]. split; [reflexivity|].
      apply andb_true_iff in C as (C & _). destruct (z_busy s); [discriminate|]. auto.
    + bstep E. destruct x as ((((sm10 & hw10) & c9) & h9) & l9). apply tail_upd in E3 as (l0 & -> & U9). injection E as <- <-. cbn [z_busy z_ev].
      split; [reflexivity|]. exists ((la ++ l2 ++ l3 ++ l4) ++ l0). split; [apply no_upd_app; auto|]. left. split; [|reflexivity]. rewrite <- !app_assoc. reflexivity.
Qed.

(** ** Histories *)
Lemma run_snoc b l i s' o log : core0_run b (l ++ [i]) = Ok (s', o ++ [log]) -> exists s, core0_run b l = Ok (s, o) /\ core0_step s i = Ok (s', log).
Proof.
  unfold core0_run. intros E. bstep E. rewrite E0. cbn [bind]. rewrite mrun_app in E. bstep E. destruct x0 as (s1 & o1). rewrite E1.
  cbn [bind mrun] in E. bstep E. destruct x0 as (s2 & o2). bstep E2. destruct x0 as (s3 & o3). cbn [bind] in E2. injection E2 as <- <-. injection E as <- Eo.
  apply app_inj_tail in Eo as (<- & <-). exists s1. auto.
Qed.
Lemma upd_stamp now l : updates (map (pair now) l) = flat_map upd_of l.
Proof. unfold updates. induction l as [|a l IH]; [reflexivity|]. cbn [map flat_map snd]. rewrite IH. destruct a; reflexivity. Qed.
Definition is_busy (t : Z) (l : list inp0) : bool := match busy_since t l with Some _ => true | None => false end.
Lemma is_busy_snoc t l i : is_busy t (l ++ [i]) = fst (line_state (in_now i) (event_of i) (is_busy t l) 0).
Proof.
  unfold is_busy. rewrite busy_since_snoc. unfold line_step0, line_state. destruct (busy_since t l); destruct (ev_free (event_of i)), (ev_busy (event_of i)); reflexivity.
Qed.
Lemma feed_inv b : forall l s o, core0_run b l = Ok (s, o) ->
  z_busy s = is_busy (b_now b) l /\ z_ev s = match l with [] => b_ev b | _ => ev_none end.
Proof.
  induction l as [|i l IH] using rev_ind; intros s o E.
  - unfold core0_run in E. bstep E. cbn in E. injection E as <- <-. unfold core0_boot in E0. bstep E0. injection E0 as <-. cbn. auto.
  - assert (L := E). unfold core0_run in L. bstep L. apply mrun_length in L. rewrite app_length in L. cbn in L.
    destruct (exists_last (l := o)) as (o' & log & ->); [intros ->; cbn in L; lia|].
    apply run_snoc in E as (s0 & E & Es). destruct (IH _ _ E) as (B & V). unfold core0_step in Es. bstep Es. destruct x0 as (s1 & a). injection Es as <- <-.
    apply iter_feed in E1 as (B1 & l0 & _ & C). rewrite is_busy_snoc, <- B. split; [rewrite B1; apply line_state_busy|].
    replace (match l ++ [i] with [] => b_ev b | _ => ev_none end) with ev_none by (destruct l; reflexivity).
    destruct C as [(_ & C)|(_ & _ & Bf & _ & C)]; [exact C|]. rewrite C, V. destruct l; [|reflexivity]. exfalso. rewrite B in Bf. discriminate.
Qed.
Lemma informed b l i s o log : core0_run b (l ++ [i]) = Ok (s, o ++ [log]) ->
  let e := match in_event i with Some e => e | None => match l with [] => b_ev b | _ => ev_none end end in
  updates log = [(is_busy (b_now b) (l ++ [i]), ev_error e, ev_valid e, ev_char e)] \/
  (updates log = [] /\ in_event i = None /\ is_busy (b_now b) (l ++ [i]) = false).
Proof.
  intros E. destruct (feed_inv b _ _ _ E) as (Bs & _). apply run_snoc in E as (s0 & E & Es). destruct (feed_inv b _ _ _ E) as (B & V).
  unfold core0_step in Es. bstep Es. destruct x as (s1 & a). injection Es as <- <-. apply iter_feed in E0 as (B1 & l0 & U & C). rewrite upd_stamp, <- Bs.
  destruct C as [(-> & _)|(-> & Hn & _ & B2 & _)].
  - left. rewrite flat_map_app, U. cbn. unfold fed. rewrite V. reflexivity.
  - right. auto.
Qed.
