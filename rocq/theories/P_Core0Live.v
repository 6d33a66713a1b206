(** P_Core0Live.v -- an undisturbed transmission succeeds, main loop included (C96). *)
From Verif Require Import Base S_Containers D_Containers P_Containers M_Fifo M_Message S_Message D_Message P_Message P_MessageParse
  M_Standalone S_Crc S_Ctrl D_Ctrl P_Ctrl M_Tx D_Tx S_Tx P_Tx P_TxRun P_TxHist P_TxLive M_HostUart D_Host S_Host P_Host P_HostProps M_Led M_Core1 M_Core0 S_Core0 D_Core0 P_Core0 P_Core0Run P_Core0Rx P_Core0Busy P_Core0Main P_Core0Feed P_Core0Bus P_Core0Fail.

(** ** Schedules and their polls *)
Definition is_upd (e : Z * tx_ev) : bool := match snd e with Update _ _ _ _ => true | _ => false end.
Definition plain (l : list (Z * tx_ev)) : Prop := Forall (fun e => match snd e with ClearRx _ => False | _ => True end) l.
Lemma filter_split {A} (f : A -> bool) l : forall a b, filter f l = a ++ b -> exists x y, l = x ++ y /\ filter f x = a /\ filter f y = b.
Proof.
  induction l as [|c l IH]; intros a b E; cbn [filter] in E.
  - symmetry in E. apply app_eq_nil in E as (-> & ->). exists [], []. auto.
  - destruct (f c) eqn:Ec.
    + destruct a as [|d a]; cbn [app] in E.
      * exists [], (c :: l). split; [reflexivity|]. split; [reflexivity|]. cbn [filter]. rewrite Ec. exact E.
      * injection E as <- E. destruct (IH _ _ E) as (x & y & -> & Hx & Hy). exists (c :: x), y. split; [reflexivity|]. split; [cbn [filter]; rewrite Ec, Hx; reflexivity|exact Hy].
    + destruct (IH _ _ E) as (x & y & -> & Hx & Hy). exists (c :: x), y. split; [reflexivity|]. split; [cbn [filter]; rewrite Ec; exact Hx|exact Hy].
Qed.
Lemma filter_split1 {A} (f : A -> bool) l : forall a e b, filter f l = a ++ e :: b -> exists x y, l = x ++ e :: y /\ filter f x = a /\ filter f y = b.
Proof.
  intros a e b E. change (e :: b) with ([e] ++ b) in E. rewrite app_assoc in E. apply filter_split in E as (x & y & -> & Hx & Hy). revert Hx. revert a.
  induction x as [|c x IH]; intros a Hx; cbn [filter] in Hx; [destruct a; discriminate|]. destruct (f c) eqn:Ec.
  - destruct a as [|d a]; cbn [app] in Hx.
    + injection Hx as -> Hx. exists [], (x ++ y). split; [reflexivity|]. split; [reflexivity|]. rewrite filter_app, Hx, Hy. reflexivity.
    + injection Hx as <- Hx. destruct (IH _ Hx) as (p & q & Ep & Hp & Hq). exists (c :: p), q. cbn [app]. rewrite Ep. split; [reflexivity|]. cbn [filter]. rewrite Ec, Hp. auto.
  - destruct (IH _ Hx) as (p & q & Ep & Hp & Hq). exists (c :: p), q. cbn [app]. rewrite Ep. split; [reflexivity|]. cbn [filter]. rewrite Ec. auto.
Qed.
Lemma polls_filter P l : plain l -> polls P (filter is_upd l) -> polls P l.
Proof.
  unfold polls. induction 1 as [|e l He F IH]; intros H; [constructor|]. cbn [filter] in H. unfold is_upd in H at 1. destruct e as (u & [m|b re rv c|x| |t]); cbn [snd fst] in *; try contradiction;
    constructor; cbn [snd]; auto; inversion H; subst; auto.
Qed.
Lemma echoes_filter l : echoes (filter is_upd l) = echoes l.
Proof.
  unfold echoes. induction l as [|e l IH]; [reflexivity|]. cbn [filter]. unfold is_upd at 1. destruct e as (u & [m|b re rv c|x| |t]); cbn [snd flat_map]; auto. rewrite IH. reflexivity.
Qed.
Lemma steady_filter u l : forall begun limit, steady begun limit (filter is_upd l) u -> steady begun limit l u.
Proof.
  induction l as [|e l IH]; intros begun limit H; [exact H|]. cbn [filter] in H. unfold is_upd in H at 1. destruct e as (v & [m|b re rv c|x| |t]); cbn [snd steady] in *; auto. destruct H. auto.
Qed.
Lemma plain_app a b : plain (a ++ b) <-> plain a /\ plain b.
Proof. apply Forall_app. Qed.
Lemma undisturbed_filter tw m l : plain l -> undisturbed tw m (filter is_upd l) -> (exists x u, l = x ++ [u] /\ is_upd u = true) -> undisturbed tw m l.
Proof.
  intros Pl (waiting & u0 & power & u1 & start & echo & u2 & re0 & rv0 & c0 & re1 & rv1 & c1 & c2 & E & Pw & H0 & Pp & H1 & Ps & Pe & Ee & Ts) (z & ul & El & Hu).
  apply filter_split1 in E as (x0 & y0 & -> & Hw & E). apply filter_split1 in E as (x1 & y1 & -> & Hp & E). apply filter_split in E as (x2 & y2 & -> & Hs & E).
  apply filter_split1 in E as (x3 & y3 & -> & He & E). 
  assert (y3 = []).
  { destruct y3 as [|a y3] using rev_ind; [reflexivity|]. exfalso. clear IHy3.
    replace (x0 ++ (u0, Update false re0 rv0 c0) :: x1 ++ (u1, Update false re1 rv1 c1) :: x2 ++ x3 ++ (u2, Update false false false c2) :: y3 ++ [a])
      with ((x0 ++ (u0, Update false re0 rv0 c0) :: x1 ++ (u1, Update false re1 rv1 c1) :: x2 ++ x3 ++ (u2, Update false false false c2) :: y3) ++ [a]) in El
      by (repeat (rewrite <- app_assoc; cbn [app]); reflexivity).
    apply app_inj_tail in El as (_ & ->). rewrite filter_app in E. cbn [filter] in E. rewrite Hu in E. destruct (filter is_upd y3); discriminate. }
  subst y3. apply plain_app in Pl as (L0 & L1). inversion L1 as [|? ? _ L2]; subst. apply plain_app in L2 as (L2 & L3). inversion L3 as [|? ? _ L4]; subst.
  apply plain_app in L4 as (L4 & L5). apply plain_app in L5 as (L5 & _).
  exists x0, u0, x1, u1, x2, x3, u2, re0, rv0, c0, re1, rv1, c1, c2. split; [reflexivity|].
  split; [apply polls_filter; auto|]. split; [exact H0|]. split; [apply polls_filter; auto|]. split; [exact H1|]. split; [apply polls_filter; auto|]. split; [apply polls_filter; auto|].
  split; [rewrite <- echoes_filter; exact Ee|apply steady_filter; exact Ts].
Qed.

(** ** What one iteration does to a working transmitter *)
Definition tx_of (a : act) : list tx_ev :=
  match a with A_hw x => [Hw x] | A_error _ => [ReadError] | A_clear t => [ClearRx t] | A_wake m => [Wake m] | A_update b re rv c => [Update b re rv c] | _ => [] end.
Lemma tx_of_stamp now l : flat_map tx_part (map (pair now) l) = map (pair now) (flat_map tx_of l).
Proof. induction l as [|a l IH]; [reflexivity|]. cbn [map flat_map]. rewrite IH, map_app. f_equal. destruct a; reflexivity. Qed.
Lemma tx_of_led es : flat_map tx_of (map A_led es) = [].
Proof. induction es as [|e es IH]; [reflexivity|exact IH]. Qed.
Lemma tx_of_hw es : flat_map tx_of (map A_hw es) = map Hw es.
Proof. induction es as [|e es IH]; [reflexivity|]. cbn. rewrite IH. reflexivity. Qed.
Lemma report_tx w now bud h m h' m' l : report w now bud h m = Ok (h', m', l) -> flat_map tx_of l = [].
Proof. unfold report. intros E. bstep E. destruct x as ((h1 & m1) & o1). injection E as <- <- <-. reflexivity. Qed.
Lemma end_tx now bud e rx c h rx' c' h' l : packet_end now bud e rx c h = Ok (rx', c', h', l) -> flat_map tx_of l = [].
Proof.
  unfold packet_end. destruct (_ && _); [|intros E; injection E as <- <- <- <-; reflexivity]. intros E. bstep E. bstep E. destruct x0 as ((h1 & m1) & l1).
  injection E as <- <- <- <-. apply report_tx in E1. exact E1.
Qed.
Lemma full_tx now bud rx h rx' h' l : packet_overflow now bud rx h = Ok (rx', h', l) -> flat_map tx_of l = [].
Proof.
  unfold packet_overflow. destruct (msg_overflow rx); [|intros E; injection E as <- <- <-; reflexivity]. intros E. bstep E. destruct x as ((h1 & m1) & l1).
  injection E as <- <- <-. eapply report_tx; eauto.
Qed.
Lemma tail_tx p now junk sm hw c h busy e sm' hw' c' h' l : tail_part p now junk sm hw c h busy e = Ok (sm', hw', c', h', l) -> tx_is_idle sm = false ->
  l = [A_update busy (ev_error e) (ev_valid e) (ev_char e)].
Proof.
  unfold tail_part, transmit_part. intros E H. rewrite H in E. cbn [bind] in E. bstep E. destruct x as (s2 & w2). injection E as <- <- <- <- <-. reflexivity.
Qed.
Lemma iter_tx p s i s' l : core0_iter p s i = Ok (s', l) -> tx_is_idle (z_sm s) = false -> t_err (z_sm s) = false ->
  flat_map tx_of l = map Hw (in_hw i) ++ [ReadError; Update (z_busy s') (ev_error (fed s i)) (ev_valid (fed s i)) (ev_char (fed s i))].
Proof.
  intros E Hi He. unfold core0_iter, led_calls in E. cbv zeta iota beta in E. unfold tx_error in E. rewrite He in E.
  bstep E. destruct x as (h1 & o1). destruct (led_head _ _ (in_fifoerr i) _) as (hw1 & es1).
  set (la := map A_hw (in_hw i) ++ _) in E.
  assert (Ula : flat_map tx_of la = map Hw (in_hw i) ++ [ReadError]).
  { unfold la. rewrite !flat_map_app, tx_of_hw, !tx_of_led. cbn. rewrite ?app_nil_r. reflexivity. }
  clearbody la. bstep E. destruct x as ((((rx2 & since2) & h2) & led2) & l2).
  assert (U2 : flat_map tx_of l2 = []).
  { destruct (busy_timeout _ _ _); [|injection E1 as <- <- <- <- <-; reflexivity]. bstep E1. destruct x as ((h' & m') & l'). injection E1 as <- <- <- <- <-.
    apply report_tx in E2. exact E2. }
  clear E1. bstep E. destruct x as ((rx3 & h3) & l3).
  assert (U3 : flat_map tx_of l3 = []).
  { destruct (in_fifoerr i); [|injection E1 as <- <- <-; reflexivity]. bstep E1. destruct x as ((h' & m') & l'). injection E1 as <- <- <-. eapply report_tx; eauto. }
  clear E1. unfold failure_part in E. cbn [bind] in E. set (sm1 := TX _ _ _ _ _ _) in E.
  assert (H1 : tx_is_idle sm1 = false) by exact Hi. clearbody sm1.
  unfold fed. destruct (in_event i) as [e|].
  - bstep E. rename x into rx5. clear E1. bstep E. destruct x as (((rx6 & c6) & h6) & l6). apply end_tx in E1. bstep E. destruct x as ((rx7 & h7) & l7). apply full_tx in E2.
    destruct (line_state (in_now i) e (z_busy s) since2) as (busy & since).
    bstep E. destruct x as ((((sm10 & hw10) & c9) & h9) & l9). apply tail_tx in E3; [|exact H1]. injection E as <- <-. subst l9. cbn [z_busy].
    rewrite !flat_map_app, Ula, U2, U3, E1, E2, tx_of_led. cbn. rewrite <- app_assoc. reflexivity.
  - rewrite H1 in E. rewrite !andb_false_r in E. bstep E. destruct x as ((((sm10 & hw10) & c9) & h9) & l9). apply tail_tx in E1; [|exact H1]. injection E as <- <-. subst l9. cbn [z_busy].
    rewrite !flat_map_app, Ula, U2, U3. cbn. rewrite <- app_assoc. reflexivity.
Qed.

(** ** Histories *)
Definition poll_of (b : boot) (l : list inp0) (i : inp0) : Z * tx_ev :=
  (in_now i, Update (is_busy (b_now b) (l ++ [i])) (ev_error (event_of i)) (ev_valid (event_of i)) (ev_char (event_of i))).
(** The polls of the iterations [ls] that follow [l]. *)
Fixpoint polls_of (b : boot) (l ls : list inp0) : list (Z * tx_ev) :=
  match ls with [] => [] | i :: r => poll_of b l i :: polls_of b (l ++ [i]) r end.
(** ... and all that the transmitter sees. *)
Fixpoint heard (b : boot) (l ls : list inp0) : list (Z * tx_ev) :=
  match ls with [] => [] | i :: r => map (fun x => (in_now i, Hw x)) (in_hw i) ++ (in_now i, ReadError) :: poll_of b l i :: heard b (l ++ [i]) r end.
Lemma heard_plain b ls : forall l, plain (heard b l ls).
Proof.
  induction ls as [|i ls IH]; intros l; [constructor|]. cbn [heard]. apply plain_app. split.
  - apply Forall_forall. intros x Hx. apply in_map_iff in Hx as (y & <- & _). exact Logic.I.
  - constructor; [exact Logic.I|]. constructor; [exact Logic.I|]. apply IH.
Qed.
Lemma heard_filter b ls : forall l, filter is_upd (heard b l ls) = polls_of b l ls.
Proof.
  induction ls as [|i ls IH]; intros l; [reflexivity|]. cbn [heard polls_of]. rewrite filter_app. cbn [filter is_upd poll_of snd].
  replace (filter is_upd (map (fun x => (in_now i, Hw x)) (in_hw i))) with (@nil (Z * tx_ev)) by (induction (in_hw i); auto).
  cbn [app]. f_equal. apply IH.
Qed.
Lemma heard_app b x : forall l y, heard b l (x ++ y) = heard b l x ++ heard b (l ++ x) y.
Proof.
  induction x as [|i x IH]; intros l y; [rewrite app_nil_r; reflexivity|]. cbn [app heard]. rewrite IH, <- !app_assoc. cbn [app]. reflexivity.
Qed.
Lemma heard_last b l ls : ls <> [] -> exists x u, heard b l ls = x ++ [u] /\ is_upd u = true.
Proof.
  intros H. destruct ls as [|i ls] using rev_ind; [congruence|]. rewrite heard_app. cbn [heard]. eexists (heard b l ls ++ map _ _ ++ [_]), _. split; [rewrite <- !app_assoc; reflexivity|reflexivity].
Qed.


(** One iteration while the transmitter works. *)
Lemma live_iter b l s o i s2 : boot_ok b -> Forall in_ok (l ++ [i]) -> input_ok (text (l ++ [i])) -> core0_run b l = Ok (s, o) -> l <> [] ->
  safe_run live (z_sm s, z_hw s) (heard b l [i]) s2 ->
  exists s' log, core0_step s i = Ok (s', log) /\ core0_run b (l ++ [i]) = Ok (s', o ++ [log]) /\ (z_sm s', z_hw s') = s2 /\ fail_reports log = [] /\ wakes log = [].
Proof.
  intros B F T E N R. destruct (main_safe b (l ++ [i]) B F T) as (s' & o' & E'). destruct (run_snoc' _ _ _ _ _ E') as (s0 & o0 & log & -> & E0 & Es & _).
  rewrite E in E0. injection E0 as <- <-. exists s', log. split; [exact Es|]. split; [exact E'|].
  assert (Lv : live (z_sm s, z_hw s)). { cbn [heard] in R. destruct (in_hw i); cbn [map app] in R; eapply sr_head; exact R. }
  destruct Lv as (Li & Le). cbn [fst] in Li, Le.
  assert (F0 := F). apply Forall_app in F0 as (F0 & _). assert (T0 := T). rewrite text_app in T0. apply input_ok_prefix in T0.
  destruct (parts_run b l s o B F0 T0 E) as ((Rt & _) & _). destruct (parts_run b (l ++ [i]) s' _ B F T E') as ((Rt2 & _) & _).
  destruct (feed_inv b _ _ _ E') as (Bs & _). destruct (feed_inv b _ _ _ E) as (_ & V).
  unfold core0_step in Es. bstep Es. destruct x as (s1 & a). injection Es as <- <-.
  pose proof (iter_tx _ _ _ _ _ E0 Li Le) as Ht. pose proof (iter_fail _ _ _ _ _ E0) as Hf. rewrite Le in Hf. cbn [andb] in Hf.
  assert (Ef : fed s i = event_of i).
  { unfold fed, event_of. rewrite V. destruct l; [congruence|reflexivity]. }
  rewrite Ef, Bs in Ht.
  assert (Hh : flat_map tx_part (map (pair (in_now i)) a) = heard b l [i]).
  { rewrite tx_of_stamp, Ht. cbn [heard]. rewrite map_app, map_map. reflexivity. }
  rewrite concat_app, flat_map_app in Rt2. cbn [concat] in Rt2. rewrite app_nil_r, Hh in Rt2. unfold tx_run in Rt, Rt2. rewrite mrun_app, Rt in Rt2. cbn [bind] in Rt2.
  destruct (sr_run _ _ _ _ R) as (oo & Eo & _). rewrite Eo in Rt2. cbn [bind] in Rt2. injection Rt2 as -> _. split; [reflexivity|].
  split; [rewrite fails_stamp; exact Hf|].
  assert (W : forall x, flat_map tx_part x = heard b l [i] -> wakes x = []).
  { intros x Hx. assert (G : forall m, In m (wakes x) -> exists t, In (t, Wake m) (heard b l [i])).
    { intros m Hm. rewrite <- Hx. unfold wakes in Hm. apply in_flat_map in Hm as ((t & ac) & H1 & H2). exists t. apply in_flat_map. exists (t, ac). split; [exact H1|].
      cbn [snd] in H2. destruct ac; cbn in *; try contradiction. destruct H2 as [->|[]]. left. reflexivity. }
    destruct (wakes x) as [|m r]; [reflexivity|]. exfalso. destruct (G m (or_introl eq_refl)) as (t & Ht2). cbn [heard] in Ht2. apply in_app_or in Ht2 as [Ht2|[Ht2|[Ht2|[]]]].
    - apply in_map_iff in Ht2 as (y & Hy & _). discriminate.
    - discriminate.
    - discriminate. }
  apply W. exact Hh.
Qed.
Lemma live_iters b ls : forall l s o s2, boot_ok b -> Forall in_ok (l ++ ls) -> input_ok (text (l ++ ls)) -> core0_run b l = Ok (s, o) -> l <> [] ->
  safe_run live (z_sm s, z_hw s) (heard b l ls) s2 ->
  exists s' o', core0_run b (l ++ ls) = Ok (s', o ++ o') /\ (z_sm s', z_hw s') = s2 /\ fail_reports (concat o') = [] /\ wakes (concat o') = [].
Proof.
  induction ls as [|i ls IH]; intros l s o s2 B F T E N R.
  - exists s, []. rewrite !app_nil_r. split; [exact E|]. inversion R; subst. auto.
  - change (i :: ls) with ([i] ++ ls) in *. rewrite app_assoc in F, T. rewrite heard_app in R. apply sr_split in R as (s1 & R1 & R2).
    assert (F0 := F). apply Forall_app in F0 as (F0 & _). assert (T0 := T). rewrite text_app in T0. apply input_ok_prefix in T0.
    destruct (live_iter b l s o i s1 B F0 T0 E N R1) as (s' & log & _ & E' & Es & Hf & Hw). rewrite <- Es in R2.
    destruct (IH (l ++ [i]) s' (o ++ [log]) s2 B F T E' ltac:(destruct l; discriminate) R2) as (s'' & o' & E'' & Es2 & Hf2 & Hw2).
    exists s'', (log :: o'). rewrite <- !app_assoc in E''. rewrite app_assoc. split; [rewrite <- app_assoc; exact E''|]. split; [exact Es2|].
    cbn [concat]. unfold fail_reports, wakes in *. rewrite !flat_map_app, Hf, Hw, Hf2, Hw2. auto.
Qed.

(** The iteration that starts the transmission. *)
Lemma quiet_hw l : forall t h t' h' o, mrun (tx_event pico) (t, h) l = Ok ((t', h'), o) -> Forall not_wake l -> Forall not_update l -> at_rest h -> h' = h.
Proof.
  induction l as [|(u & e) l IH]; intros t h t' h' o E W U Q; cbn [mrun] in E; [injection E as _ <- _; reflexivity|].
  bstep E. destruct x as ((t1 & h1) & o1). bstep E. destruct x as ((t2 & h2) & o2). injection E as -> -> _. inversion W as [|? ? W1 W2]; subst. inversion U as [|? ? U1 U2]; subst.
  assert (h1 = h).
  { destruct e as [m|b re rv c|x| |t3]; cbn in W1, U1; try contradiction; cbn [tx_event] in E0.
    - injection E0 as _ <- _. apply hw_quiet. exact Q.
    - unfold tx_error in E0. injection E0 as _ <- _. reflexivity.
    - injection E0 as _ <- _. reflexivity. }
  subst h1. eapply IH; eauto.
Qed.
Lemma live_start b l i s o s' log m : boot_ok b -> Forall in_ok (l ++ [i]) -> input_ok (text (l ++ [i])) -> core0_run b l = Ok (s, o) -> core0_step s i = Ok (s', log) ->
  In m (wakes log) -> at_rest (z_hw s) -> l <> [] \/ in_event i <> None ->
  exists t r q, flat_map tx_part log = q ++ [(in_now i, Wake m); poll_of b l i] /\
    tx_run (b_j1 b) (b_j2 b) (flat_map tx_part (concat o) ++ q) = Ok ((t, z_hw s), r) /\ tx_is_idle t = true.
Proof.
  intros B F T E Es Hm Hq Hn. destruct (step_shape b l i s o s' log B F T E Es) as (c & q & l2 & mid & Ec & El & Q & Mq & W & Mv).
  assert (F0 := F). apply Forall_app in F0 as (F0 & _). assert (T0 := T). rewrite text_app in T0. apply input_ok_prefix in T0.
  destruct (parts_run b l s o B F0 T0 E) as ((Rt & _) & _).
  assert (E' : core0_run b (l ++ [i]) = Ok (s', o ++ [log])).
  { clear - E Es. unfold core0_run in *. bstep E. rewrite E0. cbn [bind]. rewrite mrun_app, E. cbn [bind mrun]. rewrite Es. reflexivity. }
  destruct (feed_inv b _ _ _ E') as (Bs & _). destruct (feed_inv b _ _ _ E) as (_ & V).
  assert (Ef : fed s i = event_of i).
  { unfold fed, event_of. rewrite V. destruct (in_event i); [reflexivity|]. destruct l; [destruct Hn; congruence|reflexivity]. }
  unfold core0_step in Es. bstep Es. destruct x as (s1 & a). injection Es as <- Ea. apply iter_feed in E0 as (_ & l0 & U & C).
  destruct (moves_start b c _ mid Ec Mq) as ((r1 & R1) & _ & _). rewrite flat_map_app in R1.
  assert (Hw : forall bz re rv ch x, l2 = x ++ [A_wake m; A_update bz re rv ch] -> flat_map tx_of x = [] ->
    exists r, flat_map tx_part log = flat_map tx_part (stamp (in_now i) q) ++ [(in_now i, Wake m); poll_of b l i] /\
      tx_run (b_j1 b) (b_j2 b) (flat_map tx_part (concat o) ++ flat_map tx_part (stamp (in_now i) q)) = Ok ((fst (p_tx mid), z_hw s), r)).
  { intros bz re rv ch x E2 Hx. rewrite E2 in El. rewrite <- stamp_app in El. rewrite <- Ea in El.
    assert (Inj : forall u v, map (pair (in_now i)) u = stamp (in_now i) v -> u = v).
    { clear. intros u v H. unfold stamp in H. revert v H. induction u as [|p u IH]; intros [|p2 v] H; try discriminate; [reflexivity|]. cbn in H. injection H as -> H. f_equal. auto. }
    apply Inj in El. rewrite app_assoc in El.
    destruct C as [(C & _)|(C & _)].
    - rewrite C in El. change [A_wake m; A_update bz re rv ch] with ([A_wake m] ++ [A_update bz re rv ch]) in El. rewrite app_assoc in El. apply app_inj_tail in El as (El & Eu).
      injection Eu as <- <- <- <-. rewrite El in U, C. 
      assert (Uq : no_upd q). { unfold no_upd in *. rewrite !flat_map_app in U. apply app_eq_nil in U as (U & _). apply app_eq_nil in U as (U & _). exact U. }
      assert (Ep : exists ho, p_tx mid = (fst (p_tx mid), z_hw s) /\ ho = r1).
      { exists r1. split; [|reflexivity]. unfold tx_run in R1, Rt. rewrite mrun_app, Rt in R1. cbn [bind] in R1. bstep R1. destruct x0 as ((t3 & h3) & o3). injection R1 as R1 _.
        apply quiet_hw in E0; [|apply quiet_tx; exact Q|apply no_upd_tx; exact Uq|exact Hq]. subst h3. rewrite <- R1. reflexivity. }
      destruct Ep as (_ & Ep & _). exists r1. rewrite <- Ep. split; [|exact R1].
      rewrite <- Ea, C, tx_of_stamp, !flat_map_app. cbn [flat_map tx_of app]. rewrite Hx, app_nil_r. unfold stamp. rewrite tx_of_stamp, <- app_assoc. cbn [app]. rewrite map_app. cbn [map].
      unfold poll_of. rewrite Bs, Ef. reflexivity.
    - exfalso. rewrite C in El. rewrite El in U. unfold no_upd in U. rewrite !flat_map_app in U. apply app_eq_nil in U as (_ & U). discriminate. }
  rewrite El in Hm. unfold wakes in Hm. rewrite flat_map_app in Hm. change (flat_map _ (stamp (in_now i) q)) with (wakes (stamp (in_now i) q)) in Hm. rewrite (quiet_wakes _ _ Q) in Hm. cbn [app] in Hm.
  destruct W as [(-> & _)|(bz & re & rv & ch & W)]; [destruct Hm|].
  destruct W as [(-> & _)|[(m0 & h' & E2 & Id & _)|(m0 & c' & E2 & Id & _)]].
  - destruct Hm.
  - rewrite E2 in Hm. cbn in Hm. destruct Hm as [->|[]]. destruct (Hw bz re rv ch [A_pop (in_junk i) m] E2 eq_refl) as (r & H1 & H2).
    exists (fst (p_tx mid)), r, (flat_map tx_part (stamp (in_now i) q)). auto.
  - rewrite E2 in Hm. cbn in Hm. destruct Hm as [->|[]]. destruct (Hw bz re rv ch [A_answer (msg_new (in_junk i)) m] E2 eq_refl) as (r & H1 & H2).
    exists (fst (p_tx mid)), r, (flat_map tx_part (stamp (in_now i) q)). auto.
Qed.

Lemma live_firmware b l i ls s o s' log m : boot_ok b -> Forall in_ok (l ++ i :: ls) -> input_ok (text (l ++ i :: ls)) -> core0_run b l = Ok (s, o) -> core0_step s i = Ok (s', log) ->
  In m (wakes log) -> at_rest (z_hw s) -> l <> [] \/ in_event i <> None -> undisturbed (in_now i) m (polls_of b l (i :: ls)) ->
  exists s2 o2, core0_run b (l ++ i :: ls) = Ok (s2, o ++ log :: o2) /\ fail_reports (concat o2) = [] /\ wakes (concat o2) = [] /\
    tx_is_idle (z_sm s2) = true /\ t_err (z_sm s2) = false /\ tx_done (z_sm s2) = true /\ m_status (t_rx (z_sm s2)) = 0 /\ payload (t_rx (z_sm s2)) = payload m /\
    hw_shutdown (z_hw s2) = true /\ hw_dma (z_hw s2) = [] /\ hw_txf (z_hw s2) = [].
Proof.
  intros B F T E Es Hm Hq Hn U. change (i :: ls) with ([i] ++ ls) in F, T. rewrite app_assoc in F, T.
  assert (F0 := F). apply Forall_app in F0 as (F0 & _). assert (T0 := T). rewrite text_app in T0. apply input_ok_prefix in T0.
  destruct (live_start b l i s o s' log m B F0 T0 E Es Hm Hq Hn) as (t & r & q & El & Rq & Hi).
  assert (E' : core0_run b (l ++ [i]) = Ok (s', o ++ [log])).
  { clear - E Es. unfold core0_run in *. bstep E. rewrite E0. cbn [bind]. rewrite mrun_app, E. cbn [bind mrun]. rewrite Es. reflexivity. }
  destruct (parts_run b (l ++ [i]) s' _ B F0 T0 E') as ((Rt & At & _) & _). rewrite concat_app, flat_map_app in Rt, At. cbn [concat] in Rt, At. rewrite app_nil_r, El, app_assoc in Rt, At.
  assert (L2 : length (b_j2 b) = 32%nat) by apply B.
  apply Forall_app in At as (At & Aw). inversion Aw as [|? ? Aw1 _]; subst. cbn in Aw1. destruct Aw1 as (Mo & M1). pose proof (run_inv_eq _ _ _ _ _ _ L2 At Rq) as I.
  assert (Hs : t_st t = T_IDLE) by (unfold tx_is_idle in Hi; destruct (t_st t); congruence).
  assert (Ul : undisturbed (in_now i) m (poll_of b l i :: heard b (l ++ [i]) ls)).
  { apply undisturbed_filter.
    - constructor; [exact Logic.I|apply heard_plain].
    - cbn [filter is_upd poll_of snd]. rewrite heard_filter. exact U.
    - destruct ls as [|j ls]; [exists [], (poll_of b l i); split; reflexivity|]. destruct (heard_last b (l ++ [i]) (j :: ls) ltac:(discriminate)) as (x & u & -> & Hu).
      exists (poll_of b l i :: x), u. split; [reflexivity|exact Hu]. }
  destruct (undisturbed_run t (z_hw s) (in_now i) m _ I Hs Hq Mo M1 Ul) as (ta & t' & h' & Ew & Er & R).
  change (poll_of b l i :: heard b (l ++ [i]) ls) with ([poll_of b l i] ++ heard b (l ++ [i]) ls) in Er. apply sr_split in Er as (sa & Er1 & Er2).
  destruct (sr_run _ _ _ _ Er1) as (o1 & Eo1 & _). unfold tx_run in Rq, Rt. rewrite mrun_app, Rq in Rt. cbn [bind] in Rt. 
  remember [poll_of b l i] as pl eqn:Epl. cbn [mrun] in Rt. rewrite Ew in Rt. cbn [bind] in Rt. rewrite Eo1 in Rt. cbn [bind] in Rt. injection Rt as -> _.
  destruct (live_iters b ls (l ++ [i]) s' (o ++ [log]) (t', h') B F T E' ltac:(destruct l; discriminate) Er2) as (s2 & o2 & E2 & Es2 & Hf & Hw).
  exists s2, o2. rewrite <- !app_assoc in E2. split; [exact E2|]. split; [exact Hf|]. split; [exact Hw|]. injection Es2 as -> ->.
  destruct R as (R1 & R2 & R3 & R4 & R5 & R6). repeat (split; [assumption|]). exact R6.
Qed.
