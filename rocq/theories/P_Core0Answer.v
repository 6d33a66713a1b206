(** P_Core0Answer.v -- what the host types and what the controller answers goes out on the bus (C106, C107). *)
From Verif Require Import Base M_Fifo M_Message S_Message D_Message M_Standalone S_Crc S_Ctrl D_Ctrl P_Ctrl P_CtrlProps M_Tx D_Tx S_Tx P_Tx P_TxRun P_TxHist P_TxLive M_HostUart D_Host S_Host P_Host P_HostProps M_Led M_Core1 M_Core0 S_Core0 D_Core0
  P_Core0 P_Core0Run P_Core0Main P_Core0Bus P_Core0Fail P_Core0Feed P_Core0Live P_Core0Loop S_Answer.

(** ** One iteration, cut where the controller receives and where a transmission is started *)
Definition loud (a : act) : bool := match a with A_receive _ | A_wake _ => true | _ => false end.
Definition calm (l : list act) : Prop := Forall (fun a => loud a = false) l.
Lemma calm_app a b : calm a -> calm b -> calm (a ++ b).
Proof. intros A B. apply Forall_app. auto. Qed.
Lemma calm_leds es : calm (map A_led es).
Proof. apply Forall_forall. intros x Hx. apply in_map_iff in Hx as (y & <- & _). reflexivity. Qed.
Lemma calm_hws es : calm (map A_hw es).
Proof. apply Forall_forall. intros x Hx. apply in_map_iff in Hx as (y & <- & _). reflexivity. Qed.

(** Calls on the controller and on the host, in a list. *)
Definition runs_c (now : Z) (l : list act) (c c' : ctrl) : Prop := exists o, mrun ctrl_call c (flat_map ctrl_part (stamp now l)) = Ok (c', o).
Definition runs_h (now : Z) (l : list act) (h h' : host) : Prop := exists o, mrun host_step h (flat_map host_part (stamp now l)) = Ok (h', o).
Lemma runs_c_app now a b c c1 c2 : runs_c now a c c1 -> runs_c now b c1 c2 -> runs_c now (a ++ b) c c2.
Proof. intros (o1 & H1) (o2 & H2). exists (o1 ++ o2). rewrite stamp_app, flat_map_app. eapply mrun_seq; eauto. Qed.
Lemma runs_h_app now a b h h1 h2 : runs_h now a h h1 -> runs_h now b h1 h2 -> runs_h now (a ++ b) h h2.
Proof. intros (o1 & H1) (o2 & H2). exists (o1 ++ o2). rewrite stamp_app, flat_map_app. eapply mrun_seq; eauto. Qed.
Lemma runs_c_nil now l c : flat_map ctrl_part (stamp now l) = [] -> runs_c now l c c.
Proof. intros H. exists []. rewrite H. reflexivity. Qed.
Lemma runs_h_nil now l h : flat_map host_part (stamp now l) = [] -> runs_h now l h h.
Proof. intros H. exists []. rewrite H. reflexivity. Qed.
Lemma led_silent now es : flat_map ctrl_part (stamp now (map A_led es)) = [] /\ flat_map host_part (stamp now (map A_led es)) = [].
Proof. split; induction es as [|e es IH]; auto. Qed.
Lemma hw_silent now es : flat_map ctrl_part (stamp now (map A_hw es)) = [] /\ flat_map host_part (stamp now (map A_hw es)) = [].
Proof. split; induction es as [|e es IH]; auto. Qed.

Lemma send_msgs bud h m h' out : host_send bud h m = Ok (h', out) -> h_msgs h' = h_msgs h.
Proof.
  unfold host_send. intros E. bstep E. bstep E. destruct x0 as (f & cpl). destruct cpl; cbn [negb] in E.
  - bstep E. rename x0 into h1. bstep E. rename x0 into h2. bstep E. destruct x0 as (f2 & o2). injection E as <- <-.
    assert (T : forall c a b, send_term c a = Ok b -> h_msgs b = h_msgs a).
    { clear. intros c a b. unfold send_term. destruct (ff_full _); intros E; [injection E as <-; reflexivity|]. bstep E. destruct x as (f0 & u0). injection E as <-. reflexivity. }
    cbn [set_tx h_msgs]. rewrite (T _ _ _ E3), (T _ _ _ E2). reflexivity.
  - injection E as <- <-. reflexivity.
Qed.
Lemma report_facts w now bud h m h' m' l : report w now bud h m = Ok (h', m', l) ->
  calm l /\ (forall c, runs_c now l c c) /\ runs_h now l h h' /\ h_msgs h' = h_msgs h.
Proof.
  unfold report. intros E. bstep E. destruct x as ((h1 & m1) & o1). injection E as <- <- <-.
  split; [repeat constructor|]. split; [intros c; apply runs_c_nil; reflexivity|]. split.
  - eexists. cbn [stamp map flat_map host_part snd fst app mrun host_step]. rewrite E0. reflexivity.
  - unfold host_update_and_send in E0. bstep E0. destruct x as (h2 & o2). injection E0 as <- _ _. apply send_msgs in E. exact E.
Qed.
Lemma failure_facts now bud f sm h c sm' h' c' l : failure_part now bud f sm h c = Ok (sm', h', c', l) ->
  calm l /\ runs_c now l c c' /\ runs_h now l h h' /\ h_msgs h' = h_msgs h /\ tx_is_idle sm' = tx_is_idle sm.
Proof.
  unfold failure_part. destruct f; [|intros E; injection E as <- <- <- <-; split; [constructor|]; split; [apply runs_c_nil; reflexivity|]; split; [apply runs_h_nil; reflexivity|]; auto].
  intros E. bstep E. destruct x as ((sm1 & h1) & l1). bstep E. rename x into own. injection E as <- <- <- <-.
  assert (X : calm l1 /\ (forall c, runs_c now l1 c c) /\ runs_h now l1 h h1 /\ h_msgs h1 = h_msgs h /\ tx_is_idle sm1 = tx_is_idle sm).
  { destruct (negb _).
    - bstep E0. destruct x as ((h2 & m2) & l2). injection E0 as <- <- <-. apply report_facts in E as (A1 & A2 & A3 & A4).
      split; [apply calm_app; [exact A1|repeat constructor]|]. split; [intros c0; eapply runs_c_app; [apply A2|apply runs_c_nil; reflexivity]|].
      split; [eapply runs_h_app; [exact A3|apply runs_h_nil; reflexivity]|]. split; [exact A4|reflexivity].
    - injection E0 as <- <- <-. split; [constructor|]. split; [intros; apply runs_c_nil; reflexivity|]. split; [apply runs_h_nil; reflexivity|]. auto. }
  destruct X as (A1 & A2 & A3 & A4 & A5). split; [apply calm_app; [exact A1|destruct own; repeat constructor]|].
  split; [eapply runs_c_app; [apply A2|]; destruct own; [eexists; reflexivity|apply runs_c_nil; reflexivity]|].
  split; [eapply runs_h_app; [exact A3|apply runs_h_nil; destruct own; reflexivity]|]. auto.
Qed.

Record cut (s : core0) (i : inp0) (la : list act) (h1 : host) (sm4 : txsm) (c4 : ctrl) (h4 : host) : Prop := {
  cut_check : exists o1, host_check pico (in_now i) (in_junk i) (in_budget i) (in_chars i) (z_host s) = Ok (h1, o1);
  cut_calm : calm la;
  cut_c : runs_c (in_now i) la (z_ctrl s) c4;
  cut_h : runs_h (in_now i) la (z_host s) h4;
  cut_msgs : h_msgs h4 = h_msgs h1;
  cut_idle : tx_is_idle sm4 = tx_is_idle (z_sm s) }.
Lemma iter_cut s i s' l : core0_iter pico s i = Ok (s', l) -> exists la h1 sm4 hw4 c4 h4, cut s i la h1 sm4 c4 h4 /\
  ((in_event i = None /\ l = la /\ host_has_data h4 = false /\ ctrl_has_tx c4 = false) \/
   (exists busy e x l9, in_event i = None /\ l = la ++ l9 /\ z_host s' = snd x /\ tail_part pico (in_now i) (in_junk i) sm4 hw4 c4 h4 busy e = Ok (x, l9)) \/
   (exists e lm c6 h7 busy x l9, in_event i = Some e /\ l = la ++ lm ++ l9 /\ z_host s' = snd x /\ h_msgs h7 = h_msgs h4 /\
      tail_part pico (in_now i) (in_junk i) sm4 hw4 c6 h7 busy e = Ok (x, l9) /\
      ((calm lm /\ c6 = c4) \/ (exists rx lr, ev_free e = true /\ lm = A_receive rx :: lr /\ calm lr /\ ctrl_receive c4 rx = Ok c6)))).
Proof.
  intros E. unfold core0_iter, led_calls in E. cbv zeta iota beta in E. set (now := in_now i) in *.
  bstep E. destruct x as (h1 & o1). destruct (tx_error (z_sm s)) as (sm1 & txf) eqn:Et. destruct (led_head _ _ (in_fifoerr i) _) as (hw1 & es1).
  set (la := map A_hw (in_hw i) ++ _) in E.
  assert (A1 : calm la /\ runs_c now la (z_ctrl s) (ctrl_check now (z_ctrl s)) /\ runs_h now la (z_host s) h1).
  { destruct (hw_silent now (in_hw i)) as (Wc & Wh). destruct (led_silent now (led_ticks (in_ticks i))) as (Lc & Lh). destruct (led_silent now es1) as (Mc & Mh). unfold la. split; [|split].
    - apply calm_app; [apply calm_hws|]. apply calm_app; [apply calm_leds|]. apply (calm_app [_; _; _]); [repeat constructor|apply calm_leds].
    - eapply runs_c_app; [apply runs_c_nil; exact Wc|]. eapply runs_c_app; [apply runs_c_nil; exact Lc|]. apply (runs_c_app now [_; _; _] _ _ (ctrl_check now (z_ctrl s))); [eexists; reflexivity|apply runs_c_nil; exact Mc].
    - eapply runs_h_app; [apply runs_h_nil; exact Wh|]. eapply runs_h_app; [apply runs_h_nil; exact Lh|]. apply (runs_h_app now [_; _; _] _ _ h1); [|apply runs_h_nil; exact Mh].
      eexists. cbn [stamp map flat_map host_part snd fst app mrun host_step]. fold now. rewrite E0. reflexivity. }
  clearbody la. bstep E. destruct x as ((((rx2 & since2) & h2) & led2) & l2).
  assert (A2 : calm l2 /\ (forall c, runs_c now l2 c c) /\ runs_h now l2 h1 h2 /\ h_msgs h2 = h_msgs h1).
  { destruct (busy_timeout _ _ _); [|injection E1 as <- <- <- <- <-; split; [constructor|]; split; [intros; apply runs_c_nil; reflexivity|]; split; [apply runs_h_nil; reflexivity|reflexivity]].
    bstep E1. destruct x as ((h' & m') & l'). injection E1 as <- <- <- <- <-. apply report_facts in E2 as (B1 & B2 & B3 & B4).
    split; [apply (calm_app [_]); [repeat constructor|exact B1]|]. split; [intros c; apply (runs_c_app now [_] _ _ c); [apply runs_c_nil; reflexivity|apply B2]|].
    split; [apply (runs_h_app now [_] _ _ h1); [apply runs_h_nil; reflexivity|exact B3]|exact B4]. }
  clear E1. bstep E. destruct x as ((rx3 & h3) & l3).
  assert (A3 : calm l3 /\ (forall c, runs_c now l3 c c) /\ runs_h now l3 h2 h3 /\ h_msgs h3 = h_msgs h2).
  { destruct (in_fifoerr i); [|injection E1 as <- <- <-; split; [constructor|]; split; [intros; apply runs_c_nil; reflexivity|]; split; [apply runs_h_nil; reflexivity|reflexivity]].
    bstep E1. destruct x as ((h' & m') & l'). injection E1 as <- <- <-. apply report_facts in E2. exact E2. }
  clear E1. bstep E. destruct x as (((sm4 & h4) & c4) & l4). apply failure_facts in E1 as (F1 & F2 & F3 & F4 & F5).
  destruct A1 as (A11 & A12 & A13). destruct A2 as (A21 & A22 & A23 & A24). destruct A3 as (A31 & A32 & A33 & A34).
  exists (la ++ l2 ++ l3 ++ l4), h1, sm4, hw1, c4, h4. split.
  { constructor.
    - eexists. exact E0.
    - repeat (apply calm_app; [assumption|]). assumption.
    - eapply runs_c_app; [exact A12|]. eapply runs_c_app; [apply A22|]. eapply runs_c_app; [apply A32|]. exact F2.
    - eapply runs_h_app; [exact A13|]. eapply runs_h_app; [exact A23|]. eapply runs_h_app; [exact A33|]. exact F3.
    - congruence.
    - rewrite F5. unfold tx_error in Et. injection Et as <- _. reflexivity. }
  destruct (in_event i) as [e|].
  - right. right. bstep E. rename x into rx5. clear E1. bstep E. destruct x as (((rx6 & c6) & h6) & l6). bstep E. destruct x as ((rx7 & h7) & l7).
    destruct (line_state now e (z_busy s) since2) as (busy & since). bstep E. destruct x as ((((sm10 & hw10) & c9) & h9) & l9). injection E as <- <-.
    assert (A7 : calm l7 /\ h_msgs h7 = h_msgs h6).
    { unfold packet_overflow in E2. destruct (msg_overflow rx6); [|injection E2 as <- <- <-; split; [constructor|reflexivity]]. bstep E2. destruct x as ((h' & m') & l'). injection E2 as <- <- <-. apply report_facts in E. tauto. }
    destruct A7 as (A71 & A72). exists e, (l6 ++ l7 ++ map A_led (led_event_part e)), c6, h7, busy, (sm10, hw10, c9, h9), l9. split; [reflexivity|]. split; [rewrite <- !app_assoc; reflexivity|]. split; [reflexivity|].
    unfold packet_end in E1. destruct (ev_free e && _) eqn:Ef.
    + bstep E1. bstep E1. destruct x0 as ((h' & m') & l'). injection E1 as <- <- <- <-. apply report_facts in E4 as (B1 & B2 & B3 & B4). split; [congruence|]. split; [exact E3|]. right. exists rx5, (l' ++ l7 ++ map A_led (led_event_part e)).
      apply andb_prop in Ef as (Ef & _). split; [exact Ef|]. split; [reflexivity|]. split; [|exact E]. apply calm_app; [exact B1|]. apply calm_app; [exact A71|apply calm_leds].
    + injection E1 as <- <- <- <-. split; [congruence|]. split; [exact E3|]. left. split; [|reflexivity]. apply (calm_app []); [constructor|]. apply calm_app; [exact A71|apply calm_leds].
  - destruct (negb (z_busy s) && _) eqn:Ei.
    + left. injection E as _ <-. split; [reflexivity|]. split; [reflexivity|]. apply andb_prop in Ei as (_ & Ei). apply andb_prop in Ei as (Ei & _). apply andb_prop in Ei as (Ei1 & Ei2).
      destruct (host_has_data h4); [discriminate Ei2|]. destruct (ctrl_has_tx c4); [discriminate Ei1|]. auto.
    + right. left. bstep E. destruct x as ((((sm10 & hw10) & c9) & h9) & l9). injection E as <- <-. exists (z_busy s), (z_ev s), (sm10, hw10, c9, h9), l9. split; [reflexivity|]. split; [rewrite <- !app_assoc; reflexivity|]. split; [reflexivity|exact E1].
Qed.

(** ** The packet in a log *)
Definition is_receive (a : act) : bool := match a with A_receive _ => true | _ => false end.
Lemma calm_receive l : calm l -> Forall (fun a => is_receive a = false) l.
Proof. intros H. eapply Forall_impl; [|exact H]. intros []; cbn; congruence. Qed.
Lemma tail_shape p now junk sm hw c h busy e x l : tail_part p now junk sm hw c h busy e = Ok (x, l) ->
  Forall (fun a => is_receive a = false) l /\
  (tx_is_idle sm = true ->
    (host_has_data h = true -> exists h' m, host_pop junk h = Ok (h', m) /\ snd x = h' /\ l = [A_pop junk m; A_wake m; A_update busy (ev_error e) (ev_valid e) (ev_char e)]) /\
    (host_has_data h = false -> ctrl_has_tx c = true ->
      exists c' m, ctrl_tx_answer c (msg_new junk) = Ok (c', m) /\ l = [A_answer (msg_new junk) m; A_wake m; A_update busy (ev_error e) (ev_valid e) (ev_char e)])).
Proof.
  unfold tail_part, transmit_part. intros E. bstep E. destruct x0 as ((((sm9 & hw9) & c9) & h9) & l9). bstep E. destruct x0 as (sm10 & hw10). injection E as <- <-.
  destruct (tx_is_idle sm).
  - destruct (host_has_data h) eqn:Hh.
    + bstep E0. destruct x as (h' & m). bstep E0. destruct x as (sm' & hw'). injection E0 as _ _ _ <- <-. split; [repeat constructor|]. intros _. split; [|discriminate]. intros _. exists h', m. auto.
    + destruct (ctrl_has_tx c) eqn:Hc.
      * bstep E0. destruct x as (c' & m). bstep E0. destruct x as (sm' & hw'). injection E0 as _ _ _ _ <-. split; [repeat constructor|]. intros _. split; [discriminate|]. intros _ _. exists c', m. auto.
      * injection E0 as _ _ _ _ <-. split; [repeat constructor|]. intros _. split; discriminate.
  - injection E0 as _ _ _ _ <-. split; [repeat constructor|]. discriminate.
Qed.
Lemma one_receive now la rx l2 : Forall (fun a => is_receive a = false) la -> Forall (fun a => is_receive a = false) l2 ->
  forall pre t m post, stamp now (la ++ A_receive rx :: l2) = pre ++ (t, A_receive m) :: post -> pre = stamp now la /\ t = now /\ m = rx /\ post = stamp now l2.
Proof.
  intros Fa F2. revert Fa. induction la as [|a la IH]; intros Fa pre t m post E.
  - destruct pre as [|p pre]; cbn in E; [injection E as <- <- <-; auto|]. injection E as _ E. exfalso. rewrite Forall_forall in F2.
    assert (H : In (t, A_receive m) (stamp now l2)) by (unfold stamp; rewrite E; apply in_or_app; right; left; reflexivity). apply in_map_iff in H as (a & Ea & H). injection Ea as _ ->. specialize (F2 _ H). discriminate.
  - inversion Fa as [|? ? Ha Fa2]; subst. destruct pre as [|p pre]; cbn in E; [injection E as _ -> _; discriminate|]. injection E as <- E. destruct (IH Fa2 pre t m post E) as (-> & -> & -> & ->). auto.
Qed.
Lemma no_receive now l pre t m post : Forall (fun a => is_receive a = false) l -> stamp now l = pre ++ (t, A_receive m) :: post -> False.
Proof.
  intros F E. assert (H : In (t, A_receive m) (stamp now l)) by (rewrite E; apply in_or_app; right; left; reflexivity). apply in_map_iff in H as (a & Ea & H). injection Ea as _ ->.
  rewrite Forall_forall in F. specialize (F _ H). discriminate.
Qed.
Lemma calm_wakes now l : calm l -> wakes (stamp now l) = [].
Proof. induction 1 as [|a l Ha F IH]; [reflexivity|]. destruct a; cbn in *; try discriminate; exact IH. Qed.
Lemma wakes_app a b : wakes (a ++ b) = wakes a ++ wakes b.
Proof. apply flat_map_app. Qed.

(** The controller's state up to what determines its behaviour is determined by the calls. *)
Lemma step_det now c s1 s2 s1' s2' o1 o2 : k_phase s1 = k_phase s2 -> k_since s1 = k_since s2 -> k_addr s1 = k_addr s2 -> step now c s1 s1' o1 -> step now c s2 s2' o2 ->
  k_phase s1' = k_phase s2' /\ k_since s1' = k_since s2' /\ k_addr s1' = k_addr s2'.
Proof.
  intros Hp Ht Ha S1 S2. destruct c as [|p| |]; cbn [step] in *.
  - destruct S1 as (_ & S1), S2 as (_ & S2). rewrite Hp, Ht, Ha in S1. destruct (_ <=? now); subst; cbn; auto.
  - destruct S1 as (_ & A1 & B1), S2 as (_ & A2 & B2). destruct (Nat.le_gt_cases (p_len p) 3) as [L|L]; [rewrite (A1 L), (A2 L); auto|]. specialize (B1 L). specialize (B2 L). rewrite Hp, Ha, Ht in B1.
    destruct (k_phase s2) eqn:P2.
    + rewrite B1, B2. repeat split; congruence.
    + destruct B1 as (B1 & C1), B2 as (B2 & C2).
      assert (N : ~ ~ (k_phase s1' = k_phase s2' /\ k_since s1' = k_since s2' /\ k_addr s1' = k_addr s2')).
      { intros N. assert (X : ~ conflict (k_addr s2) p) by (intros X; apply N; rewrite (B1 X), (B2 X); cbn; auto). apply N. rewrite (C1 X), (C2 X). repeat split; congruence. }
      assert (D : forall a b : phase, {a = b} + {a <> b}) by decide equality. destruct (D (k_phase s1') (k_phase s2')); [|tauto]. destruct (Z.eq_dec (k_since s1') (k_since s2')); [|tauto]. destruct (Z.eq_dec (k_addr s1') (k_addr s2')); tauto.
    + destruct B1 as (B1 & C1), B2 as (B2 & C2).
      assert (N : ~ ~ (k_phase s1' = k_phase s2' /\ k_since s1' = k_since s2' /\ k_addr s1' = k_addr s2')).
      { intros N. assert (X : ~ request (k_addr s2) p) by (intros X; apply N; destruct (B1 X) as (? & _ & ->), (B2 X) as (? & _ & ->); cbn; auto). apply N. rewrite (C1 X), (C2 X). cbn. auto. }
      assert (D : forall a b : phase, {a = b} + {a <> b}) by decide equality. destruct (D (k_phase s1') (k_phase s2')); [|tauto]. destruct (Z.eq_dec (k_since s1') (k_since s2')); [|tauto]. destruct (Z.eq_dec (k_addr s1') (k_addr s2')); tauto.
  - destruct S1 as (_ & ->), S2 as (_ & ->). cbn. auto.
  - destruct S1 as (_ & ->), S2 as (_ & ->). cbn. auto.
Qed.
Lemma steps_det : forall h s1 s2 s1' s2' o1 o2, k_phase s1 = k_phase s2 -> k_since s1 = k_since s2 -> k_addr s1 = k_addr s2 -> steps s1 h s1' o1 -> steps s2 h s2' o2 ->
  k_phase s1' = k_phase s2' /\ k_since s1' = k_since s2' /\ k_addr s1' = k_addr s2'.
Proof.
  induction h as [|(u & c) h IH]; intros s1 s2 s1' s2' o1 o2 Hp Ht Ha S1 S2; inversion S1; inversion S2; subst; auto.
  edestruct (step_det u c s1 s2) as (A & B & C); eauto.
Qed.

(** ** The answer *)
Lemma answered b l i s o s' log pre t m post k os : boot_ok b -> Forall in_ok (l ++ [i]) -> input_ok (text (l ++ [i])) ->
  core0_run b l = Ok (s, o) -> core0_step s i = Ok (s', log) -> log = pre ++ (t, A_receive m) :: post ->
  steps (controller0 (b_ctrl b)) (map fst (flat_map ctrl_part (concat o ++ pre))) k os -> k_phase k = Operation -> request (k_addr k) (packet_of m) -> tx_is_idle (z_sm s) = true ->
  exists a, wakes log = [a] /\ (answer (k_addr k) (packet_of m) (payload a) \/ In (in_now i, A_pop (in_junk i) a) log) /\ line_free i = true /\ in_event i <> None.
Proof.
  intros B F T E Es Hl St Ph Rq Hi.
  assert (E' : core0_run b (l ++ [i]) = Ok (s', o ++ [log])).
  { clear - E Es. unfold core0_run in *. bstep E. rewrite E0. cbn [bind]. rewrite mrun_app, E. cbn [bind mrun]. rewrite Es. reflexivity. }
  assert (F0 := F). apply Forall_app in F0 as (F0 & Fi). inversion Fi as [|? ? (Fj & _) _]; subst. assert (T0 := T). rewrite text_app in T0. apply input_ok_prefix in T0.
  destruct (parts_run b l s o B F0 T0 E) as (_ & (Rc & Oc) & _). destruct (parts_run b (l ++ [i]) s' _ B F T E') as (_ & (_ & Oc') & _).
  unfold core0_step in Es. bstep Es. destruct x as (s1 & al). injection Es as <- Ea. change (map (pair (in_now i)) al) with (stamp (in_now i) al) in Ea.
  destruct (iter_cut _ _ _ _ E0) as (la & h1 & sm4 & hw4 & c4 & h4 & [K1 K2 K3 K4 K5 K6] & C). pose proof (calm_receive _ K2) as K2'.
  destruct C as [(_ & -> & _)|[(busy & e & x & l9 & _ & -> & _ & Et)|(e & lm & c6 & h7 & busy & x & l9 & Ev & -> & _ & Hm & Et & Cm)]].
  - exfalso. eapply no_receive; [exact K2'|exact Ea].
  - exfalso. destruct (tail_shape _ _ _ _ _ _ _ _ _ _ _ Et) as (F9 & _). eapply no_receive; [|exact Ea]. apply Forall_app. auto.
  - destruct (tail_shape _ _ _ _ _ _ _ _ _ _ _ Et) as (F9 & Sh). destruct Cm as [(Cm & _)|(rx & lr & Ef & -> & Cr & Er)].
    + exfalso. eapply no_receive; [|exact Ea]. apply Forall_app. split; [auto|]. apply Forall_app. split; [apply calm_receive; exact Cm|exact F9].
    + cbn [app] in Ea. destruct (one_receive (in_now i) la rx (lr ++ l9) K2' ltac:(apply Forall_app; split; [apply calm_receive; exact Cr|exact F9]) _ _ _ _ Ea) as (-> & -> & -> & ->).
      rewrite K6 in Sh. destruct (Sh Hi) as (Sp & Sa). clear Sh.
      destruct K3 as (oc & Rl).
      assert (Rc4 : ctrl_run (b_ctrl b) (flat_map ctrl_part (concat o ++ stamp (in_now i) la)) = Ok (c4, flat_map ctrl_part_out (concat o) ++ oc)).
      { rewrite flat_map_app. unfold ctrl_run in *. bstep Rc. rewrite E1. cbn [bind]. rewrite mrun_app, Rc. cbn [bind]. rewrite Rl. reflexivity. }
      rewrite concat_app in Oc'. cbn [concat] in Oc'. rewrite app_nil_r, app_assoc, flat_map_app in Oc'. apply Forall_app in Oc' as (Oc4 & Or). cbn [flat_map ctrl_part snd fst] in Or. inversion Or as [|? ? (Or1 & _) _]; subst.
      cbn in Or1.
      destruct (request_answered _ _ _ _ (packet_of rx) (msg_new (in_junk i)) Oc4 Rc4 Or1 (proj1 Fj)) as (k2 & os2 & St2 & Ka & An).
      destruct (steps_det _ _ _ _ _ _ _ eq_refl eq_refl eq_refl St2 St) as (D1 & _ & D3). rewrite D1, D3 in An. destruct (An Ph Rq) as (ca & cb & ma & A1 & A2 & A3 & A4 & _).
      rewrite <- receive_packet in A1. rewrite Er in A1. injection A1 as <-.
      assert (Wp : wakes (stamp (in_now i) (la ++ A_receive rx :: lr)) = []).
      { unfold stamp. rewrite map_app, wakes_app. change (map (pair (in_now i)) la) with (stamp (in_now i) la). rewrite (calm_wakes _ _ K2). apply (calm_wakes (in_now i) lr). exact Cr. }
      assert (Lf : line_free i = true) by (unfold line_free, event_of; rewrite Ev; exact Ef). assert (Ln : in_event i <> None) by congruence.
      replace (stamp (in_now i) la ++ (in_now i, A_receive rx) :: stamp (in_now i) (lr ++ l9)) with (stamp (in_now i) (la ++ A_receive rx :: lr) ++ stamp (in_now i) l9)
        by (unfold stamp; rewrite <- map_app, <- app_assoc; cbn [app]; rewrite (map_app _ la); reflexivity).
      rewrite wakes_app, Wp. cbn [app].
      destruct (host_has_data h7) eqn:Hh.
      * destruct (Sp eq_refl) as (h' & mp & Ep & _ & ->). exists mp. split; [reflexivity|]. split; [|auto]. right. apply in_or_app. right. left. reflexivity.
      * destruct (Sa eq_refl A2) as (c' & mm & Em & ->). rewrite A3 in Em. injection Em as _ <-. exists ma. split; [reflexivity|]. split; [|auto]. left. exact A4.
Qed.

(** ** A typed line *)
Lemma has_msgs h h' : h_msgs h = h_msgs h' -> host_has_data h = host_has_data h'.
Proof. unfold host_has_data. intros ->. reflexivity. Qed.
Lemma pop_msgs junk junk' h h' x y m1 m2 : h_msgs h = h_msgs h' -> host_has_data h = true -> host_pop junk h = Ok (x, m1) -> host_pop junk' h' = Ok (y, m2) -> m1 = m2.
Proof.
  unfold host_has_data, host_pop. intros Em Hd E1 E2. rewrite <- Em in E2. unfold ff_empty in *. destruct (ff_len (h_msgs h)) as [|n] eqn:El; [discriminate Hd|]. cbn in E1, E2.
  bstep E1. destruct x0 as (q & om). bstep E2. destruct x0 as (q2 & om2). injection E1 as _ <-. injection E2 as _ <-. rewrite E in E0. injection E0 as _ <-. 
  unfold ff_pop in E. rewrite El in E. cbn in E. bstep E. injection E as _ <-. reflexivity.
Qed.
Lemma first_pending h m r : pending h = m :: r -> host_has_data h = true /\ exists h', host_pop [] h = Ok (h', m).
Proof. unfold pending. cbn [drain]. destruct (host_has_data h); [|discriminate]. destruct (host_pop [] h) as [(h' & m')|]; [|discriminate]. intros E. injection E as -> _. eauto. Qed.
Lemma drain_msgs n : forall h h', h_msgs h = h_msgs h' -> drain n h = drain n h'.
Proof.
  induction n as [|n IH]; intros h h' Em; [reflexivity|]. cbn [drain]. rewrite (has_msgs _ _ Em). unfold host_pop. rewrite <- Em. destruct (host_has_data h'); [|reflexivity]. destruct (ff_empty (h_msgs h)); [|destruct (ff_pop 8 (h_msgs h)) as [(q & om)|]].
  - cbn. f_equal. apply IH. exact Em.
  - cbn. f_equal. apply IH. reflexivity.
  - reflexivity.
Qed.
Lemma drain_more n : forall h, (length (drain n h) < n)%nat -> drain (S n) h = drain n h.
Proof.
  induction n as [|n IH]; intros h L; [lia|]. cbn [drain] in L. change (drain (S (S n)) h) with (if host_has_data h then match host_pop [] h with Ok (h', m) => m :: drain (S n) h' | UB _ => [] end else []).
  change (drain (S n) h) with (if host_has_data h then match host_pop [] h with Ok (h', m) => m :: drain n h' | UB _ => [] end else []).
  destruct (host_has_data h); [|reflexivity]. destruct (host_pop [] h) as [(h' & m)|]; [|reflexivity]. f_equal. apply IH. cbn in L. lia.
Qed.
Lemma pop_pending junk h h' m r a : pending h = m :: r -> (length r <= 7)%nat -> host_pop junk h = Ok (h', a) -> a = m /\ pending h' = r.
Proof.
  intros Ep L Eh. destruct (first_pending _ _ _ Ep) as (Hd & h2 & E2). pose proof (pop_msgs _ _ _ _ _ _ _ _ eq_refl Hd Eh E2) as ->. split; [reflexivity|].
  unfold pending in Ep. change (drain 9 h) with (if host_has_data h then match host_pop [] h with Ok (h', m) => m :: drain 8 h' | UB _ => [] end else []) in Ep. rewrite Hd, E2 in Ep. assert (Er : drain 8 h2 = r) by congruence.
  unfold pending. assert (Em : h_msgs h' = h_msgs h2).
  { unfold host_pop in Eh, E2. destruct (ff_empty (h_msgs h)); [congruence|]. bstep Eh. bstep E2. rewrite E in E0. injection E0 as <-. destruct x as (q & om). injection Eh as <- _. injection E2 as <- _. reflexivity. }
  rewrite (drain_msgs 9 h' h2 Em), <- Er. apply drain_more. rewrite Er. lia.
Qed.
Lemma typed_line b l i s o s' log line nl m : boot_ok b -> Forall in_ok (l ++ [i]) -> input_ok (text (l ++ [i])) ->
  core0_run b l = Ok (s, o) -> core0_step s i = Ok (s', log) -> received (z_host s) = [] -> (length (pending (z_host s)) < 8)%nat ->
  in_chars i = line ++ [nl] -> Forall is_char line -> no_nl line -> is_nl nl = true -> (length line < 128)%nat -> line_message (in_junk i) line = Some m -> tx_is_idle (z_sm s) = true ->
  exists a, wakes log = [a] /\ In (in_now i, A_pop (in_junk i) a) log /\ pending (z_host s) ++ [m] = a :: pending (z_host s').
Proof.
  intros B F T E Es Hr Hp Hc Hch Hn Hnl Hlen Hm Hi.
  assert (F0 := F). apply Forall_app in F0 as (F0 & Fi). inversion Fi as [|? ? (Fj & _) _]; subst. assert (T0 := T). rewrite text_app in T0. apply input_ok_prefix in T0.
  destruct (parts_run b l s o B F0 T0 E) as (_ & _ & ((ho & Rh & _) & Oh) & _).
  unfold core0_step in Es. bstep Es. destruct x as (s1 & al). injection Es as <- <-. change (map (pair (in_now i)) al) with (stamp (in_now i) al).
  destruct (iter_cut _ _ _ _ E0) as (la & h1 & sm4 & hw4 & c4 & h4 & [(o1 & K1) K2 K3 K4 K5 K6] & C).
  assert (P1 : pending h1 = pending (z_host s) ++ [m]).
  { assert (Ex : host_step (z_host s) (in_now i, OpCheck (in_budget i) (in_junk i) (line ++ [nl])) = Ok (h1, OWritten o1)) by (cbn [host_step]; rewrite <- Hc, K1; reflexivity).
    exact (below_eight _ _ _ _ _ _ _ _ _ _ Oh Rh Hr (proj1 Fj) Hch Hn Hnl Hlen Hm Hp Ex). }
  assert (Q : exists a r, pending (z_host s) ++ [m] = a :: r /\ (length r <= 7)%nat).
  { destruct (pending (z_host s)) as [|a r]; [exists m, []; cbn; split; [auto|lia]|]. exists a, (r ++ [m]). split; [reflexivity|]. rewrite app_length. cbn in *. lia. }
  destruct Q as (a & r & Ea & La). rewrite Ea in P1 |- *.
  assert (D : forall h, h_msgs h = h_msgs h1 -> host_has_data h = true /\ pending h = a :: r).
  { intros h Em. split; [|unfold pending; rewrite (drain_msgs 9 h h1 Em); exact P1]. rewrite (has_msgs _ _ Em). destruct (first_pending _ _ _ P1). assumption. }
  destruct C as [(_ & _ & Hd & _)|[(busy & e & x & l9 & _ & -> & Hz & Et)|(e & lm & c6 & h7 & busy & x & l9 & Ev & -> & Hz & Hm7 & Et & Cm)]].
  - destruct (D h4 K5). congruence.
  - destruct (tail_shape _ _ _ _ _ _ _ _ _ _ _ Et) as (F9 & Sh). rewrite K6 in Sh. destruct (Sh Hi) as (Sp & _). destruct (D h4 K5) as (D1 & D2). destruct (Sp D1) as (h' & mp & Ep & Eq & ->).
    destruct (pop_pending _ _ _ _ _ _ D2 La Ep) as (-> & Hr'). rewrite Hz, Eq, Hr'. exists a. unfold stamp. rewrite map_app, wakes_app. change (map (pair (in_now i)) la) with (stamp (in_now i) la). rewrite (calm_wakes _ _ K2). split; [reflexivity|].
    split; [apply in_or_app; right; left; reflexivity|reflexivity].
  - destruct (tail_shape _ _ _ _ _ _ _ _ _ _ _ Et) as (F9 & Sh). rewrite K6 in Sh. destruct (Sh Hi) as (Sp & _). destruct (D h7 ltac:(congruence)) as (D1 & D2). destruct (Sp D1) as (h' & mp & Ep & Eq & ->).
    destruct (pop_pending _ _ _ _ _ _ D2 La Ep) as (-> & Hr'). rewrite Hz, Eq, Hr'. exists a. unfold stamp. rewrite !map_app, !wakes_app. change (map (pair (in_now i)) la) with (stamp (in_now i) la). rewrite (calm_wakes _ _ K2).
    assert (Wm : wakes (map (pair (in_now i)) lm) = []).
    { destruct Cm as [(Cm & _)|(rx & lr & _ & -> & Cr & _)]; [apply (calm_wakes (in_now i)); exact Cm|]. apply (calm_wakes (in_now i) lr). exact Cr. }
    rewrite Wm. split; [reflexivity|]. split; [apply in_or_app; right; apply in_or_app; right; left; reflexivity|reflexivity].
Qed.

(** ** Getting onto the bus *)
Lemma handed_run t h tw m waiting u0 re0 rv0 c0 power u1 re1 rv1 c1 : tx_inv t h -> t_st t = T_IDLE -> at_rest h -> tx_msg_ok m -> (1 <= m_length m)%nat ->
  polls (fun u busy _ _ => busy = true /\ u < tw + 34000) waiting -> u0 < tw + 34000 -> polls (fun u busy _ _ => busy = false /\ u < u0 + 32000) power -> u0 + 32000 <= u1 ->
  exists ta t' h', tx_event pico (t, h) (tw, Wake m) = Ok ((ta, h), None) /\
    safe_run live (ta, h) (waiting ++ (u0, Update false re0 rv0 c0) :: power ++ [(u1, Update false re1 rv1 c1)]) (t', h') /\ hw_dma h' = tx_bytes m.
Proof.
  intros I Hs Hq Mo M1 Pw H0 Pp H1.
  set (ta := TX m (msg_clear (t_rx t)) T_WAIT_LINEFREE (tw + 34000) 0 false).
  assert (Ew : tx_event pico (t, h) (tw, Wake m) = Ok ((ta, h), None)).
  { cbn [tx_event]. unfold tx_wake, tx_is_idle. rewrite Hs. reflexivity. }
  assert (Ia : tx_inv ta h).
  { destruct (event_inv t h (tw, Wake m) I (conj Mo M1)) as (t1 & h1 & o1 & E1 & I1). rewrite Ew in E1. injection E1 as <- <- _. exact I1. }
  pose proof (waiting_phase (tw + 34000) waiting ta h Ia eq_refl eq_refl Hq Pw) as Er1.
  assert (E0 : tx_event pico (ta, h) (u0, Update false re0 rv0 c0) = Ok ((enter u0 ta T_WAIT_POWERON, hw_enable_shutdown h false), None)).
  { cbn [tx_event]. rewrite (wait_line u0 ta h false re0 rv0 c0 Ia eq_refl H0 (rest_quiet h Hq)). reflexivity. }
  set (tb := enter u0 ta T_WAIT_POWERON) in *. set (hb := hw_enable_shutdown h false) in *.
  assert (Ib : tx_inv tb hb).
  { eapply ucase_inv; [exact Ia|]. apply (U_free u0 false re0 rv0 c0 ta h); auto using rest_quiet. }
  pose proof (power_phase (u0 + 32000) power tb hb Ib eq_refl eq_refl Hq Pp) as Er2.
  assert (E1 : tx_event pico (tb, hb) (u1, Update false re1 rv1 c1) = Ok ((enter u1 tb T_STARTED, HW false (tx_bytes m) (hw_txf hb) (hw_sm hb) (hw_shutdown hb)), None)).
  { cbn [tx_event]. destruct (update_cases u1 false re1 rv1 c1 tb hb (inv_safe _ _ Ib)) as (t' & h' & -> & U). cbn [bind].
    inversion U as [Ha|A1 A2 A3 A4|A1 A2 A3 A4 A5|A1 A2 A3|A1 A2 A3 A4 A5|rx A1 A2 A3 A4 A5 A6|b rx A1 A2 A3 A4 A5 A6 A7|A1 A2 A3|A1 A2 A3]; subst; auto;
      try (exfalso; cbn in *; discriminate); try (exfalso; destruct A1; discriminate).
    - exfalso. cbn in Ha. destruct Ha as [(_ & Ha)|Ha]; discriminate.
    - exfalso. destruct (A2 eq_refl) as (A & _). change (u1 < u0 + 32000) in A. lia. }
  assert (La : live (ta, h)) by (apply quiet_live; auto; discriminate). assert (Lb : live (tb, hb)) by (apply quiet_live; auto; discriminate).
  eexists ta, _, _. split; [exact Ew|]. split.
  - eapply sr_app; [exact Er1|]. eapply sr_cons; [exact La|exact E0|discriminate|]. eapply sr_app; [exact Er2|]. eapply sr_cons; [exact Lb|exact E1|discriminate|]. constructor.
  - reflexivity.
Qed.
Lemma heard_polls b (P : Z -> bool -> bool -> bool -> Prop) l ls :
  (forall x i y, ls = x ++ i :: y -> P (in_now i) (is_busy (b_now b) (l ++ x ++ [i])) (ev_error (event_of i)) (ev_valid (event_of i))) -> polls P (heard b l ls).
Proof. intros H. apply polls_filter; [apply heard_plain|]. rewrite heard_filter. apply polls_all. exact H. Qed.
Lemma polls_app P a b : polls P a -> polls P b -> polls P (a ++ b).
Proof. intros. apply Forall_app. auto. Qed.
Lemma hw_polls P now (es : list hw_event) : polls P (map (fun x => (now, Hw x)) es).
Proof. apply Forall_forall. intros x Hx. apply in_map_iff in Hx as (y & <- & _). exact Logic.I. Qed.
Definition poll_or (b : boot) (l : list inp0) (i : inp0) : list (Z * tx_ev) := map (fun x => (in_now i, Hw x)) (in_hw i) ++ [(in_now i, ReadError)].
Lemma heard_one b l j r : heard b l (j :: r) = poll_or b l j ++ poll_of b l j :: heard b (l ++ [j]) r.
Proof. unfold poll_or. cbn [heard]. rewrite <- app_assoc. reflexivity. Qed.
Lemma or_polls P b l j : polls P (poll_or b l j).
Proof. apply polls_app; [apply hw_polls|]. repeat constructor. Qed.
Lemma sent_firmware b l i ls k s o s' log m : boot_ok b -> Forall in_ok (l ++ i :: ls ++ [k]) -> input_ok (text (l ++ i :: ls ++ [k])) -> core0_run b l = Ok (s, o) -> core0_step s i = Ok (s', log) ->
  In m (wakes log) -> at_rest (z_hw s) -> l <> [] \/ in_event i <> None -> granted b l i ls k ->
  exists s2 o2, core0_run b (l ++ i :: ls ++ [k]) = Ok (s2, o ++ log :: o2) /\ hw_dma (z_hw s2) = payload m /\ wakes (concat o2) = [] /\ fail_reports (concat o2) = [].
Proof.
  intros B F T E Es Hm Hq Hn (w & j & la & Ei & Gw & Gj & Gt & Ga & Gk & Gl).
  set (rs := ls ++ [k]) in *. change (i :: rs) with ([i] ++ rs) in F, T. rewrite app_assoc in F, T.
  assert (F0 := F). apply Forall_app in F0 as (F0 & _). assert (T0 := T). rewrite text_app in T0. apply input_ok_prefix in T0.
  destruct (live_start b l i s o s' log m B F0 T0 E Es Hm Hq Hn) as (t & r & q & El & Rq & Hi).
  assert (E' : core0_run b (l ++ [i]) = Ok (s', o ++ [log])).
  { clear - E Es. unfold core0_run in *. bstep E. rewrite E0. cbn [bind]. rewrite mrun_app, E. cbn [bind mrun]. rewrite Es. reflexivity. }
  destruct (parts_run b (l ++ [i]) s' _ B F0 T0 E') as ((Rt & At & _) & _). rewrite concat_app, flat_map_app in Rt, At. cbn [concat] in Rt, At. rewrite app_nil_r, El, app_assoc in Rt, At.
  assert (L2 : length (b_j2 b) = 32%nat) by apply B.
  apply Forall_app in At as (At & Aw). inversion Aw as [|? ? Aw1 _]; subst. cbn in Aw1. destruct Aw1 as (Mo & M1). pose proof (run_inv_eq _ _ _ _ _ _ L2 At Rq) as I.
  assert (Hs : t_st t = T_IDLE) by (unfold tx_is_idle in Hi; destruct (t_st t); congruence).
  assert (Nb : forall x, busy_since (b_now b) x = None -> is_busy (b_now b) x = false) by (intros x Hx; unfold is_busy; rewrite Hx; reflexivity).
  assert (Yb : forall x, busy_since (b_now b) x <> None -> is_busy (b_now b) x = true) by (intros x Hx; unfold is_busy; destruct (busy_since (b_now b) x); congruence).
  assert (La : forall x, Forall (fun q => ev_busy (event_of q) = false) x -> is_busy (b_now b) ((l ++ w ++ [j]) ++ x) = false) by (intros x Hx; apply free_stays; auto).
  (* what the transmitter hears *)
  assert (X : exists waiting power, poll_of b l i :: heard b (l ++ [i]) rs =
     waiting ++ (in_now j, Update false (ev_error (event_of j)) (ev_valid (event_of j)) (ev_char (event_of j))) :: power ++ [(in_now k, Update false (ev_error (event_of k)) (ev_valid (event_of k)) (ev_char (event_of k)))] /\
     polls (fun u busy _ _ => busy = true /\ u < in_now i + 34000) waiting /\ polls (fun u busy _ _ => busy = false /\ u < in_now j + 32000) power).
  { assert (Hh : poll_or b l i ++ poll_of b l i :: heard b (l ++ [i]) rs = heard b l (w ++ j :: la ++ [k])).
    { rewrite <- heard_one. unfold rs. rewrite app_comm_cons, Ei, <- app_assoc. reflexivity. }
    rewrite heard_app, heard_one in Hh. rewrite (heard_app b la) in Hh. rewrite (heard_one b _ k []) in Hh. change (heard b _ []) with (@nil (Z * tx_ev)) in Hh.
    assert (Pj : poll_of b (l ++ w) j = (in_now j, Update false (ev_error (event_of j)) (ev_valid (event_of j)) (ev_char (event_of j)))).
    { unfold poll_of. rewrite <- app_assoc, (Nb _ Gj). reflexivity. }
    assert (Pk : poll_of b (((l ++ w) ++ [j]) ++ la) k = (in_now k, Update false (ev_error (event_of k)) (ev_valid (event_of k)) (ev_char (event_of k)))).
    { unfold poll_of. replace ((((l ++ w) ++ [j]) ++ la) ++ [k]) with ((l ++ w ++ [j]) ++ la ++ [k]) by (rewrite <- !app_assoc; reflexivity). rewrite La; [reflexivity|]. apply Forall_app. split; [eapply Forall_impl; [|exact Ga]; intros ? (Y & _); exact Y|repeat constructor; exact Gk]. }
    rewrite Pj, Pk in Hh.
    set (power := heard b ((l ++ w) ++ [j]) la ++ poll_or b (((l ++ w) ++ [j]) ++ la) k) in *.
    assert (Pp : polls (fun u busy _ _ => busy = false /\ u < in_now j + 32000) power).
    { apply polls_app; [|apply or_polls]. apply heard_polls. intros x q0 y Ex. rewrite Ex in Ga. change (q0 :: y) with ([q0] ++ y) in Ga. rewrite app_assoc in Ga. apply Forall_app in Ga as (Ga & _).
      split; [|apply Forall_app in Ga as (_ & Ga); inversion Ga; tauto]. rewrite <- (app_assoc l w). apply La. eapply Forall_impl; [|exact Ga]; intros ? (Y & _); exact Y. }
    destruct w as [|w0 w].
    - injection Ei as -> ->. exists [], power. cbn [app heard] in Hh. rewrite app_nil_r in Hh. apply app_inv_head in Hh. split; [rewrite Hh; unfold power; rewrite app_nil_r; cbn [app]; rewrite <- !app_assoc; reflexivity|]. split; [constructor|exact Pp].
    - injection Ei as -> Els. exists (poll_of b l w0 :: heard b (l ++ [w0]) w ++ poll_or b (l ++ w0 :: w) j), power.
      rewrite heard_one in Hh. rewrite <- app_assoc in Hh. apply app_inv_head in Hh. split.
      { rewrite Hh. cbn [app]. f_equal. rewrite <- !app_assoc. f_equal. f_equal. unfold power. cbn [app]. f_equal. rewrite <- !app_assoc. reflexivity. }
      split; [|exact Pp].
      assert (Pw : polls (fun u busy _ _ => busy = true /\ u < in_now w0 + 34000) (heard b l (w0 :: w))).
      { apply heard_polls. intros x q0 y Ex. destruct (Gw x q0 y Ex) as (G1 & G2). split; [apply Yb; exact G1|exact G2]. }
      rewrite heard_one in Pw. apply Forall_app in Pw as (_ & Pw). change (poll_of b l w0 :: heard b (l ++ [w0]) w ++ poll_or b (l ++ w0 :: w) j) with ((poll_of b l w0 :: heard b (l ++ [w0]) w) ++ poll_or b (l ++ w0 :: w) j).
      apply polls_app; [exact Pw|apply or_polls]. }
  destruct X as (waiting & power & Eh & Pw & Pp).
  destruct (handed_run t (z_hw s) (in_now i) m waiting (in_now j) (ev_error (event_of j)) (ev_valid (event_of j)) (ev_char (event_of j)) power (in_now k) (ev_error (event_of k)) (ev_valid (event_of k)) (ev_char (event_of k))
    I Hs Hq Mo M1 Pw Gt Pp Gl) as (ta & t' & h' & Ew & Er & R).
  rewrite <- Eh in Er.
  change (poll_of b l i :: heard b (l ++ [i]) rs) with ([poll_of b l i] ++ heard b (l ++ [i]) rs) in Er. apply sr_split in Er as (sa & Er1 & Er2).
  destruct (sr_run _ _ _ _ Er1) as (o1 & Eo1 & _). unfold tx_run in Rq, Rt. rewrite mrun_app, Rq in Rt. cbn [bind] in Rt.
  remember [poll_of b l i] as pl eqn:Epl. cbn [mrun] in Rt. rewrite Ew in Rt. cbn [bind] in Rt. rewrite Eo1 in Rt. cbn [bind] in Rt. injection Rt as -> _.
  destruct (live_iters b rs (l ++ [i]) s' (o ++ [log]) (t', h') B F T E' ltac:(destruct l; discriminate) Er2) as (s2 & o2 & E2 & Es2 & Hf & Hw).
  exists s2, o2. rewrite <- !app_assoc in E2. split; [exact E2|]. injection Es2 as _ ->. auto.
Qed.

(** ** Packets are handed over at line-free events only *)
Lemma receive_free s i s' log t m : core0_step s i = Ok (s', log) -> In (t, A_receive m) log -> line_free i = true /\ t = in_now i.
Proof.
  intros Es H. unfold core0_step in Es. bstep Es. destruct x as (s1 & al). injection Es as <- <-. change (map (pair (in_now i)) al) with (stamp (in_now i) al) in H.
  apply in_map_iff in H as (a & Ea & Ha). injection Ea as <- ->. split; [|reflexivity].
  destruct (iter_cut _ _ _ _ E) as (la & h1 & sm4 & hw4 & c4 & h4 & [K1 K2 K3 K4 K5 K6] & C). pose proof (calm_receive _ K2) as K2'. rewrite Forall_forall in K2'.
  destruct C as [(_ & -> & _)|[(busy & e & x & l9 & _ & -> & _ & Et)|(e & lm & c6 & h7 & busy & x & l9 & Ev & -> & _ & Hm & Et & Cm)]].
  - specialize (K2' _ Ha). discriminate.
  - exfalso. destruct (tail_shape _ _ _ _ _ _ _ _ _ _ _ Et) as (F9 & _). rewrite Forall_forall in F9. apply in_app_or in Ha as [Ha|Ha]; [specialize (K2' _ Ha)|specialize (F9 _ Ha)]; discriminate.
  - unfold line_free, event_of. rewrite Ev. destruct Cm as [(Cm & _)|(rx & lr & Ef & _)]; [|exact Ef]. exfalso. destruct (tail_shape _ _ _ _ _ _ _ _ _ _ _ Et) as (F9 & _).
    pose proof (calm_receive _ Cm) as Cm'. rewrite Forall_forall in F9, Cm'. apply in_app_or in Ha as [Ha|Ha]; [specialize (K2' _ Ha); discriminate|]. apply in_app_or in Ha as [Ha|Ha]; [specialize (Cm' _ Ha)|specialize (F9 _ Ha)]; discriminate.
Qed.
Lemma in_to_ctrl m l : In m (to_ctrl l) -> exists t, In (t, A_receive m) l.
Proof. unfold to_ctrl. intros H. apply in_flat_map in H as ((t & a) & Hi & Hm). exists t. destruct a; cbn in Hm; try contradiction. destruct Hm as [->|[]]. exact Hi. Qed.
Lemma run_len b l s o : core0_run b l = Ok (s, o) -> length o = length l.
Proof. intros E. unfold core0_run in E. bstep E. apply mrun_length in E. exact E. Qed.
Lemma no_packet_before b l1 : forall l2 s o1 o2, core0_run b (l1 ++ l2) = Ok (s, o1 ++ o2) -> length o1 = length l1 -> Forall (fun j => line_free j = false) l2 -> to_ctrl (concat o2) = [].
Proof.
  induction l2 as [|i l2 IH] using rev_ind; intros s o1 o2 E L F.
  - rewrite app_nil_r in E. apply run_len in E. rewrite app_length in E. assert (length o2 = 0%nat) by lia. destruct o2; [reflexivity|discriminate].
  - rewrite app_assoc in E. destruct (run_snoc' _ _ _ _ _ E) as (s0 & o0 & log & Eo & E0 & Es & _). apply Forall_app in F as (F & Fi). inversion Fi as [|? ? Hi _]; subst.
    destruct o2 as [|x o2] using rev_ind.
    { exfalso. apply run_len in E0. apply run_len in E. rewrite app_nil_r in *. rewrite Eo, app_length in L. rewrite app_length in E0. cbn in L. lia. }
    clear IHo2. rewrite app_assoc in Eo. apply app_inj_tail in Eo as (<- & <-). rewrite concat_app. unfold to_ctrl in *. rewrite flat_map_app, (IH _ _ _ E0 L F). cbn [app concat]. rewrite app_nil_r.
    change (to_ctrl x = []). destruct (to_ctrl x) as [|m r] eqn:Ex; [reflexivity|]. exfalso. destruct (in_to_ctrl m x) as (t & Ht); [rewrite Ex; left; reflexivity|]. destruct (receive_free _ _ _ _ _ _ Es Ht). congruence.
Qed.
