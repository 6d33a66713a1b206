(** P_Core0Bus.v -- the firmware as a whole puts data on the bus only when the line was free long enough (C86). *)
From Verif Require Import Base S_Containers D_Containers P_Containers M_Fifo M_Message S_Message D_Message P_Message P_MessageParse
  M_Standalone S_Crc S_Ctrl D_Ctrl P_Ctrl M_Tx D_Tx P_Tx P_TxRun P_TxHist M_HostUart D_Host S_Host P_Host P_HostProps M_Led M_Core1 M_Core0 S_Core0 D_Core0 P_Core0 P_Core0Run P_Core0Busy P_Core0Main P_Core0Feed.

(** ** The transmitter without Update *)
Definition not_update (e : Z * tx_ev) : Prop := match snd e with Update _ _ _ _ => False | _ => True end.
Definition not_wake (e : Z * tx_ev) : Prop := match snd e with Wake _ => False | _ => True end.
Lemma hw_step_dma h e : (length (hw_dma (hw_step h e)) <= length (hw_dma h))%nat.
Proof.
  destruct e; cbn [hw_step].
  - destruct (hw_dma h) as [|x t] eqn:E; [rewrite E; auto|]. destruct (_ <? _)%nat; cbn; [lia|rewrite E; cbn; lia].
  - destruct (hw_txf h); auto. destruct (hw_sm h); auto.
  - destruct (hw_sm h); auto.
  - destruct (hw_sm h); auto.
Qed.
Lemma quiet_dma l : forall t h t' h' o, mrun (tx_event pico) (t, h) l = Ok ((t', h'), o) -> Forall not_update l -> (length (hw_dma h') <= length (hw_dma h))%nat.
Proof.
  induction l as [|(now & e) l IH]; intros t h t' h' o E F; cbn [mrun] in E; [injection E as <- <- <-; lia|].
  inversion F as [|? ? F1 F2]; subst. bstep E. destruct x as ((t1 & h1) & o1). bstep E. destruct x as (s2 & o2). injection E as -> <-. 
  apply IH in E1; [|exact F2]. enough (length (hw_dma h1) <= length (hw_dma h))%nat by lia. clear - E0 F1.
  destruct e as [m| |x| |tm]; cbn [tx_event] in E0.
  - unfold tx_wake, change_state in E0. destruct (tx_is_idle t); cbn [bind] in E0; injection E0 as <- <- <-; auto.
  - contradiction.
  - injection E0 as <- <- <-. apply hw_step_dma.
  - unfold tx_error in E0. injection E0 as <- <- <-. auto.
  - injection E0 as <- <- <-. auto.
Qed.
Lemma tx_keeps t h e t' h' o : tx_inv t h -> ev_ok 1 e -> not_wake e -> tx_event pico (t, h) e = Ok ((t', h'), o) -> t_tx t' = t_tx t.
Proof.
  intros I He W E. destruct e as (now & [m|busy re rv c|x| |time]); cbn [tx_event] in *.
  - contradiction.
  - destruct (update_cases now busy re rv c t h (inv_safe _ _ I)) as (t1 & h1 & E1 & U). rewrite E1 in E. cbn [bind] in E. injection E as <- <- <-.
    destruct U; reflexivity.
  - injection E as <- <- <-. reflexivity.
  - unfold tx_error in E. injection E as <- <- <-. reflexivity.
  - injection E as <- <- <-. reflexivity.
Qed.
Lemma quiet_keeps l : forall t h t' h' o, tx_inv t h -> Forall (ev_ok 1) l -> Forall not_wake l -> mrun (tx_event pico) (t, h) l = Ok ((t', h'), o) -> t_tx t' = t_tx t /\ tx_inv t' h'.
Proof.
  induction l as [|e l IH]; intros t h t' h' o I F W E; cbn [mrun] in E; [injection E as <- <- <-; auto|].
  inversion F; inversion W; subst. destruct (event_inv t h e I ltac:(auto)) as (t1 & h1 & o1 & E1 & I1). rewrite E1 in E. cbn [bind] in E.
  bstep E. destruct x as (s2 & o2). injection E as -> <-. apply IH in E0 as (A & B); auto. rewrite A. split; [eapply tx_keeps; eauto|exact B].
Qed.
Lemma quiet_tx now q : quiet q -> Forall not_wake (flat_map tx_part (stamp now q)).
Proof. induction 1 as [|a q H Q IH]; [constructor|]. cbn [stamp map flat_map]. fold (stamp now q). apply Forall_app. split; [|exact IH]. destruct a; repeat constructor. contradiction. Qed.
Lemma no_upd_tx now l : no_upd l -> Forall not_update (flat_map tx_part (stamp now l)).
Proof.
  induction l as [|a l IH]; intros H; [constructor|]. cbn [stamp map flat_map]. fold (stamp now l). unfold no_upd in H. cbn [flat_map] in H. apply app_eq_nil in H as (H1 & H2).
  apply Forall_app. split; [|auto]. destruct a; repeat constructor. discriminate.
Qed.

(** ** The message being transmitted is the last one started *)
Lemma wakes_app a b : wakes (a ++ b) = wakes a ++ wakes b.
Proof. apply flat_map_app. Qed.
Lemma quiet_wakes now q : quiet q -> wakes (stamp now q) = [].
Proof. induction 1 as [|a q H Q IH]; [reflexivity|]. cbn [stamp map wakes flat_map snd]. fold (stamp now q). unfold wakes in IH. rewrite IH. destruct a; try reflexivity. contradiction. Qed.
Lemma run_snoc' b l i s' o' : core0_run b (l ++ [i]) = Ok (s', o') -> exists s o log, o' = o ++ [log] /\ core0_run b l = Ok (s, o) /\ core0_step s i = Ok (s', log) /\ length o = length l.
Proof.
  intros E. assert (L := E). unfold core0_run in L. bstep L. apply mrun_length in L. rewrite app_length in L. cbn in L.
  destruct (exists_last (l := o')) as (o & log & ->); [intros ->; cbn in L; lia|]. rewrite app_length in L. cbn in L. apply run_snoc in E as (s & A & B). exists s, o, log. repeat split; auto. lia.
Qed.
Lemma step_wakes b l i s o s' log : boot_ok b -> Forall in_ok (l ++ [i]) -> input_ok (text (l ++ [i])) -> core0_run b l = Ok (s, o) -> core0_step s i = Ok (s', log) ->
  (wakes log = [] /\ t_tx (z_sm s') = t_tx (z_sm s)) \/ (exists m, wakes log = [m] /\ t_tx (z_sm s') = m).
Proof.
  intros B F T E Es. pose proof (step_shape b l i s o s' log B F T E Es) as (c & q & l2 & mid & Ec & -> & Q & Mq & W & Ml).
  assert (F' := F). apply Forall_app in F' as (F' & _). rewrite text_app in T. pose proof (input_ok_prefix _ _ T) as T'.
  destruct (run_good b l B F' T') as (c' & s0 & logs & Ec' & Er & [[(It & _) _ _] _ _] & M & _). rewrite E in Er. injection Er as <- <-. cbn [parts_of p_tx fst snd] in It.
  rewrite Ec in Ec'. injection Ec' as <-. pose proof (moves_cut _ _ _ _ _ Mq M) as Mq'.
  destruct Mq' as [Eq _ _ _ (Aq & _ & _)]. destruct Ml as [El _ _ _ (Al & _ & _)]. cbn [parts_of p_tx] in *. destruct (p_tx mid) as (tm & hm) eqn:Em.
  apply quiet_keeps in Eq as (Kq & Im); auto; [|apply quiet_tx; exact Q].
  rewrite wakes_app, (quiet_wakes _ _ Q). cbn [app].
  destruct W as [(-> & _)|(bz & re & rv & ch & W)].
  - left. split; [reflexivity|]. cbn in El. injection El as Et _. rewrite <- Et. exact Kq.
  - assert (Wk : forall m x, l2 = x ++ [A_wake m; A_update bz re rv ch] -> flat_map tx_part (stamp (in_now i) x) = [] -> tx_is_idle tm = true -> t_tx (z_sm s') = m).
    { intros m x -> Ex Id. rewrite stamp_app, flat_map_app, Ex in El, Al. cbn [stamp map flat_map tx_part snd fst app] in El, Al.
      inversion Al as [|? ? A1 A2]; subst. destruct (event_inv tm hm (in_now i, Wake m) Im A1) as (t1 & h1 & o1 & E1 & I1).
      cbn [mrun] in El. rewrite E1 in El. cbn [bind] in El. bstep El. destruct x0 as (s2 & o2). injection El as -> _.
      bstep E0. destruct x0 as ((t3 & h3) & o3). cbn [bind] in E0. injection E0 as Et3 _ _. rewrite <- Et3. inversion A2; subst.
      rewrite (tx_keeps _ _ _ _ _ _ I1 ltac:(eassumption) I E2). cbn [tx_event] in E1. unfold tx_wake in E1. rewrite Id in E1. cbn [change_state bind] in E1. injection E1 as <- _ _. reflexivity. }
    destruct W as [(-> & _)|[(m & h' & -> & Id & _)|(m & c' & -> & Id & _)]].
    + left. split; [reflexivity|]. apply quiet_keeps in El as (K & _); auto; [congruence|]. cbn. constructor; [exact I|constructor].
    + right. rewrite Em in Id. exists m. split; [reflexivity|]. apply (Wk m [A_pop (in_junk i) m]); auto.
    + right. rewrite Em in Id. exists m. split; [reflexivity|]. apply (Wk m [A_answer (msg_new (in_junk i)) m]); auto.
Qed.
Lemma last_wake b : boot_ok b -> forall l s o, Forall in_ok l -> input_ok (text l) -> core0_run b l = Ok (s, o) ->
  (wakes (concat o) = [] -> t_tx (z_sm s) = msg_new (b_j1 b)) /\ (forall p m, wakes (concat o) = p ++ [m] -> t_tx (z_sm s) = m).
Proof.
  intros B. induction l as [|i l IH] using rev_ind; intros s o F T E.
  - unfold core0_run in E. bstep E. cbn in E. injection E as <- <-. unfold core0_boot in E0. bstep E0. injection E0 as <-. cbn. split; [reflexivity|]. intros [|w p] m H; discriminate.
  - apply run_snoc' in E as (s0 & o0 & log & -> & E & Es & _). assert (F' := F). apply Forall_app in F' as (F' & _). assert (T' := T). rewrite text_app in T'. apply input_ok_prefix in T'.
    destruct (IH _ _ F' T' E) as (A & C). rewrite concat_app, wakes_app. cbn [concat]. rewrite app_nil_r.
    destruct (step_wakes b l i s0 o0 s log B F T E Es) as [(-> & ->)|(m & -> & ->)].
    + rewrite app_nil_r. auto.
    + split; [intros H; apply app_eq_nil in H as (_ & H); discriminate|]. intros p m' H. apply app_inj_tail in H as (_ & H). auto.
Qed.

(** ** Bus access *)
Lemma updates_app a b : updates (a ++ b) = updates a ++ updates b.
Proof. apply flat_map_app. Qed.
Lemma in_updates (log : list (Z * act)) t b re rv c : In (t, Update b re rv c) (flat_map tx_part log) -> In (b, re, rv, c) (updates log) /\ In t (map fst log).
Proof.
  induction log as [|(u & a) log IH]; cbn [flat_map updates map fst snd]; [contradiction|]. fold (updates log). intros H. apply in_app_or in H as [H|H].
  - destruct a; cbn in H; try contradiction; destruct H as [H|[]]; try discriminate. injection H as -> -> -> -> ->. split; [left; reflexivity|left; reflexivity].
  - apply IH in H as (A & C). split; [apply in_or_app; right; exact A|right; exact C].
Qed.
Lemma updates_in (log : list (Z * act)) b re rv c : In (b, re, rv, c) (updates log) -> exists t, In (t, Update b re rv c) (flat_map tx_part log).
Proof.
  induction log as [|(u & a) log IH]; cbn [flat_map updates snd]; [contradiction|]. fold (updates log). intros H. apply in_app_or in H as [H|H].
  - destruct a; cbn in H; try contradiction; destruct H as [H|[]]. injection H as -> -> -> ->. exists u. left. reflexivity.
  - apply IH in H as (t & H). exists t. apply in_or_app; right; exact H.
Qed.
(** Where in a list of logs an event lies. *)
Lemma locate (os : list (list (Z * act))) : forall la e lb, flat_map tx_part (concat os) = la ++ e :: lb ->
  exists o1 lg o2 xa xb, os = o1 ++ lg :: o2 /\ flat_map tx_part lg = xa ++ e :: xb /\ lb = xb ++ flat_map tx_part (concat o2).
Proof.
  induction os as [|lg os IH]; intros la e lb H; cbn [concat] in H; [destruct la; discriminate|]. rewrite flat_map_app in H.
  destruct (Nat.lt_ge_cases (length la) (length (flat_map tx_part lg))) as [C|C].
  - exists [], lg, os, la, (skipn (S (length la)) (flat_map tx_part lg)). split; [reflexivity|].
    assert (X : flat_map tx_part lg = la ++ e :: skipn (S (length la)) (flat_map tx_part lg)).
    { generalize (flat_map tx_part (concat os)) H C. generalize (flat_map tx_part lg). clear. intros x y. revert x. induction la as [|a la IHl]; intros [|b x] H C; cbn in *; try lia.
      - injection H as -> _. reflexivity.
      - injection H as -> H. f_equal. apply IHl; auto. lia. }
    split; [exact X|]. rewrite X in H. rewrite <- app_assoc in H. apply app_inv_head in H. cbn [app] in H. injection H as H. exact (eq_sym H).
  - assert (X : exists la', la = flat_map tx_part lg ++ la' /\ flat_map tx_part (concat os) = la' ++ e :: lb).
    { generalize (flat_map tx_part (concat os)) H C. generalize (flat_map tx_part lg). clear. intros x y. revert la. induction x as [|b x IHx]; intros [|a la] H C; cbn in *; try lia.
      - exists []. auto. - exists (a :: la). auto. - injection H as -> H. destruct (IHx _ H ltac:(lia)) as (la' & -> & E). exists la'. auto. }
    destruct X as (la' & -> & X). destruct (IH _ _ _ X) as (o1 & lg' & o2 & xa & xb & -> & A & C'). exists (lg :: o1), lg', o2, xa, xb. auto.
Qed.
Lemma run_prefix b l1 l2 s o : core0_run b (l1 ++ l2) = Ok (s, o) -> exists s1 o1 o2, o = o1 ++ o2 /\ core0_run b l1 = Ok (s1, o1) /\ length o1 = length l1.
Proof.
  revert s o. induction l2 as [|i l2 IH] using rev_ind; intros s o E.
  - rewrite app_nil_r in E. exists s, o, []. rewrite app_nil_r. split; [reflexivity|]. split; [exact E|]. unfold core0_run in E. bstep E. eapply mrun_length; eauto.
  - rewrite app_assoc in E. apply run_snoc' in E as (s0 & o0 & log & -> & E & _ & _). destruct (IH _ _ E) as (s1 & o1 & o2 & -> & A & C). exists s1, o1, (o2 ++ [log]). rewrite <- app_assoc. auto.
Qed.

Lemma bus_access b l i s o s' log : boot_ok b -> Forall in_ok (l ++ [i]) -> input_ok (text (l ++ [i])) -> core0_run b l = Ok (s, o) -> core0_step s i = Ok (s', log) ->
  (length (hw_dma (z_hw s)) < length (hw_dma (z_hw s')))%nat ->
  (exists p m, wakes (concat o) = p ++ [m] /\ hw_dma (z_hw s') = tx_bytes m) /\
  exists l1 j l2, l = l1 ++ j :: l2 /\ in_now j + 32000 <= in_now i /\
    forall p q, l2 ++ [i] = p ++ q -> busy_since (b_now b) (l1 ++ j :: p) = None.
Proof.
  intros B F T E Es D. assert (F' := F). apply Forall_app in F' as (F' & Fi). assert (T' := T). rewrite text_app in T'. apply input_ok_prefix in T'.
  assert (Esnoc : core0_run b (l ++ [i]) = Ok (s', o ++ [log])).
  { clear - E Es. unfold core0_run in *. bstep E. rewrite E0. cbn [bind]. rewrite mrun_app, E. cbn [bind mrun]. rewrite Es. reflexivity. }
  destruct (parts_run b l s o B F' T' E) as ((Rt & At & _) & _ & _ & _).
  destruct (parts_run b (l ++ [i]) s' (o ++ [log]) B F T Esnoc) as ((Rt2 & At2 & _) & _ & _ & _).
  destruct (run_good b (l ++ [i]) B F T) as (c & s2 & logs & _ & Er & _ & _ & _ & Fs). rewrite Esnoc in Er. injection Er as <- <-.
  assert (Es' := Es). unfold core0_step in Es'. bstep Es'. destruct x as (s1 & a). injection Es' as <- El. apply iter_feed in E0 as (_ & l0 & U & C).
  rewrite concat_app, flat_map_app in Rt2, At2. cbn [concat] in Rt2, At2. rewrite app_nil_r, <- El in Rt2, At2. change (map (pair (in_now i)) a) with (stamp (in_now i) a) in Rt2, At2.
  assert (L2 : length (b_j2 b) = 32%nat) by apply B.
  destruct C as [(-> & _)|(-> & _)].
  2:{ exfalso. unfold tx_run in Rt, Rt2. rewrite mrun_app, Rt in Rt2. cbn [bind] in Rt2. bstep Rt2. destruct x as ((t3 & h3) & o3). injection Rt2 as -> -> _.
      apply quiet_dma in E0; [lia|apply no_upd_tx; exact U]. }
  rewrite stamp_app, !flat_map_app in Rt2, At2. cbn [stamp map flat_map tx_part snd fst app] in Rt2, At2.
  set (z := fed s i) in *. set (bz := z_busy s1) in *. rewrite app_assoc in Rt2, At2.
  assert (Hmid : exists tm hm om, tx_run (b_j1 b) (b_j2 b) (flat_map tx_part (concat o) ++ flat_map tx_part (stamp (in_now i) l0)) = Ok ((tm, hm), om)).
  { apply Forall_app in At2 as (A1 & _). destruct (run_inv (b_j1 b) (b_j2 b) _ L2 A1) as (t & h & oo & Eo & _); eauto. }
  destruct Hmid as (tm & hm & om & Emid).
  assert (Dm : (length (hw_dma hm) <= length (hw_dma (z_hw s)))%nat).
  { unfold tx_run in Rt, Emid. rewrite mrun_app, Rt in Emid. cbn [bind] in Emid. bstep Emid. destruct x as ((t3 & h3) & o3). injection Emid as -> -> _. apply quiet_dma in E0; [lia|apply no_upd_tx; exact U]. }
  destruct (start_on_free_line _ _ _ _ _ _ _ _ _ _ _ L2 At2 Emid Rt2 ltac:(lia)) as (Hd & re & rv & ch & la & t0 & re0 & rv0 & c0 & lb & sx & ox & Hev & Hl & _ & _ & Hsaw & Ht).
  (* the earlier free update lies in a log of o *)
  assert (NU := no_upd_tx (in_now i) l0 U).
  assert (Hl' : exists lb', flat_map tx_part (concat o) = la ++ (t0, Update false re0 rv0 c0) :: lb' /\ Forall saw_free lb').
  { clear - Hl Hsaw NU. revert Hl. generalize (flat_map tx_part (concat o)) as x. generalize dependent (flat_map tx_part (stamp (in_now i) l0)). intros y NU x. revert la.
    induction x as [|e x IH]; intros la Hl; cbn [app] in Hl.
    - exfalso. rewrite Hl in NU. apply Forall_app in NU as (_ & NU). inversion NU; subst. exact H1.
    - destruct la as [|e' la]; cbn [app] in Hl |- *.
      + injection Hl as -> Hl. exists x. split; [reflexivity|]. rewrite <- Hl in Hsaw. apply Forall_app in Hsaw. apply Hsaw.
      + injection Hl as -> Hl. destruct (IH _ Hl) as (lb' & -> & Q). exists lb'. auto. }
  destruct Hl' as (lb' & Hlo & Hsaw'). destruct (locate o _ _ _ Hlo) as (o1 & lg & o2 & xa & xb & -> & Hlg & ->).
  apply Forall_app in Hsaw' as (_ & Hsaw').
  split.
  - assert (Hw : wakes log = []). (* the machine was waiting for power *)
    { destruct (step_wakes b l i s (o1 ++ lg :: o2) s1 log B F T E Es) as [(W & _)|(m & W & _)]; [exact W|exfalso].
      destruct (queue_clean _ _ _ _ _ _ _ _ _ _ L2 At2 Emid Rt2) as (_ & _ & _ & Q). destruct (Q ltac:(lia)) as (Hst & _).
      destruct (step_shape b l i s (o1 ++ lg :: o2) s1 log B F T E Es) as (c2 & q & l2 & mid & Ec2 & Elog & Q2 & Mq & Wsh & _).
      destruct Wsh as [(-> & _)|(bz2 & re2 & rv2 & ch2 & Wsh)].
      { rewrite Elog, wakes_app, (quiet_wakes _ _ Q2) in W. discriminate. }
      assert (H2 : exists x m0, l2 = x ++ [A_wake m0; A_update bz2 re2 rv2 ch2] /\ length x = 1%nat /\ quiet x /\ flat_map tx_part (stamp (in_now i) x) = []).
      { destruct Wsh as [(-> & _)|[(m0 & h' & -> & _)|(m0 & c' & -> & _)]].
        - rewrite Elog, wakes_app, (quiet_wakes _ _ Q2) in W. discriminate.
        - exists [A_pop (in_junk i) m0], m0. repeat split; repeat constructor.
        - exists [A_answer (msg_new (in_junk i)) m0], m0. repeat split; repeat constructor. }
      destruct H2 as (x & m0 & -> & _ & Qx & Ex). rewrite <- El in Elog. change (map (pair (in_now i)) (l0 ++ [A_update bz (ev_error z) (ev_valid z) (ev_char z)])) with (stamp (in_now i) (l0 ++ [A_update bz (ev_error z) (ev_valid z) (ev_char z)])) in Elog.
      rewrite <- stamp_app in Elog. assert (Ei : l0 ++ [A_update bz (ev_error z) (ev_valid z) (ev_char z)] = q ++ x ++ [A_wake m0; A_update bz2 re2 rv2 ch2]).
      { unfold stamp in Elog. clear - Elog. revert Elog. generalize (l0 ++ [A_update bz (ev_error z) (ev_valid z) (ev_char z)]) (q ++ x ++ [A_wake m0; A_update bz2 re2 rv2 ch2]). intros u. induction u as [|a u IH]; intros [|a' v] H; try discriminate; auto. cbn in H. injection H as -> H. f_equal. auto. }
      change [A_wake m0; A_update bz2 re2 rv2 ch2] with ([A_wake m0] ++ [A_update bz2 re2 rv2 ch2]) in Ei. rewrite !app_assoc in Ei. apply app_inj_tail in Ei as (-> & _).
      rewrite !stamp_app, !flat_map_app, Ex in Emid. cbn [stamp map flat_map tx_part snd fst app] in Emid. rewrite app_nil_r, app_assoc in Emid.
      unfold tx_run in Emid. rewrite mrun_app in Emid. bstep Emid. destruct x0 as ((t5 & h5) & o5). cbn [bind mrun] in Emid. bstep Emid. destruct x0 as ((t6 & h6) & o6). injection Emid as -> -> _.
      bstep E1. destruct x0 as ((t7 & h7) & o7). cbn [bind] in E1. injection E1 as -> -> _. cbn [tx_event] in E2. 
      destruct (wake_cases (in_now i) t5 h5 m0) as (t8 & h8 & E8 & -> & C8). rewrite E8 in E2. cbn [bind] in E2. injection E2 as -> -> _.
      destruct Mq as [Mq _ _ _ _]. rewrite flat_map_app in Mq. change (p_tx (start_parts b c2)) with (tx_new hw_new (b_j1 b) (b_j2 b)) in Mq. rewrite Mq in E0. injection E0 as Ep _.
      assert (Id : tx_is_idle t5 = true).
      { destruct Wsh as [(Ew & _)|[(m1 & h' & _ & Id & _)|(m1 & c' & _ & Id & _)]]; [destruct x as [|? [|? ?]]; discriminate| |]; rewrite Ep in Id; exact Id. }
      destruct C8 as [(_ & ->)|(Hi & _)]; [cbn in Hst; discriminate|unfold tx_is_idle in Id; destruct (t_st t5); congruence]. }
    destruct (last_wake b B l s (o1 ++ lg :: o2) F' T' E) as (W0 & W1). destruct (step_wakes b l i s (o1 ++ lg :: o2) s1 log B F T E Es) as [(_ & Ht1)|(m & W & _)]; [|congruence].
    assert (Etx : t_tx tm = t_tx (z_sm s1)).
    { assert (A1 := At2). apply Forall_app in A1 as (A1 & A2). pose proof (run_inv_eq _ _ _ _ _ _ L2 A1 Emid) as Im. unfold tx_run in Emid, Rt2.
      rewrite mrun_app, Emid in Rt2. cbn [bind mrun] in Rt2. bstep Rt2. destruct x as ((t3 & h3) & o3). injection Rt2 as -> -> _. bstep E0. destruct x as ((t4 & h4) & o4). cbn [bind] in E0. injection E0 as -> -> _.
      inversion A2; subst. symmetry. eapply tx_keeps; eauto. exact I. }
    destruct (wakes (concat (o1 ++ lg :: o2))) as [|w0 ws0] eqn:Ew.
    + exfalso. rewrite Hd, Etx, Ht1, (W0 eq_refl) in D. unfold tx_bytes in D. cbn in D. lia.
    + destruct (exists_last (l := w0 :: ws0)) as (p & m & Epm); [discriminate|]. exists p, m. split; [exact Epm|]. rewrite Hd, Etx, Ht1. f_equal. apply (W1 p m). exact Epm.
  - (* the iterations *)
    assert (Lo : length (o1 ++ lg :: o2) = length l) by (unfold core0_run in E; bstep E; eapply mrun_length; eauto).
    rewrite app_length in Lo. cbn in Lo.
    destruct (nth_error l (length o1)) as [j|] eqn:Ej; [|apply nth_error_None in Ej; lia].
    apply nth_error_split in Ej as (l1 & l2 & -> & Hl1). exists l1, j, l2. split; [reflexivity|].
    assert (Tj : t0 = in_now j).
    { clear - Fs Hl1 Hlg. rewrite <- !app_assoc in Fs. cbn [app] in Fs. revert o1 Hl1 Fs. induction l1 as [|k l1 IH]; intros [|g o1] Hl1 Fs; cbn in Hl1; try discriminate.
      - cbn [app] in Fs. inversion Fs as [|? ? ? ? (a & Ha) _]; subst. assert (In (t0, Update false re0 rv0 c0) (flat_map tx_part (stamp (in_now j) a))) as H by (rewrite Hlg; apply in_or_app; right; left; reflexivity).
        apply in_updates in H as (_ & H). unfold stamp in H. rewrite map_map in H. apply in_map_iff in H as (x & Hx & _). exact (eq_sym Hx).
      - cbn [app] in Fs. inversion Fs; subst. eapply IH; [|eassumption]. lia. }
    split; [lia|].
    (* the line is free after iteration j and after every later one *)
    assert (Free : forall l3 k s3 o3 lg3, core0_run b (l3 ++ [k]) = Ok (s3, o3 ++ [lg3]) -> (forall x, In x (updates lg3) -> fst (fst (fst x)) = false) -> busy_since (b_now b) (l3 ++ [k]) = None).
    { intros l3 k s3 o3 lg3 E3 H3. pose proof (informed b l3 k s3 o3 lg3 E3) as I3. cbv zeta in I3. unfold is_busy in I3. destruct (busy_since (b_now b) (l3 ++ [k])); [|reflexivity]. exfalso.
      destruct I3 as [I3|(_ & _ & I3)]; [|discriminate]. specialize (H3 _ ltac:(rewrite I3; left; reflexivity)). discriminate. }
    intros p q Hpq. destruct (exists_last (l := j :: p)) as (p' & k & Ek); [discriminate|]. rewrite Ek. rewrite app_assoc.
    assert (Er : exists s3 o3 lg3 o4, core0_run b ((l1 ++ p') ++ [k]) = Ok (s3, o3 ++ [lg3]) /\ (o1 ++ lg :: o2) ++ [log] = (o3 ++ [lg3]) ++ o4 /\ length o3 = length (l1 ++ p')).
    { replace ((l1 ++ j :: l2) ++ [i]) with (((l1 ++ p') ++ [k]) ++ q) in Esnoc.
      2:{ rewrite <- !app_assoc. cbn [app]. rewrite Hpq. f_equal. change (p' ++ k :: q) with (p' ++ [k] ++ q). rewrite app_assoc, <- Ek. reflexivity. }
      apply run_prefix in Esnoc as (s3 & o3 & o4 & Eo & E3 & L3). apply run_snoc' in E3 as (s4 & o5 & lg5 & -> & E5 & E6 & L5). exists s3, o5, lg5, o4.
      split; [|split; [exact Eo|exact L5]]. unfold core0_run in *. bstep E5. rewrite E0. cbn [bind]. rewrite mrun_app, E5. cbn [bind mrun]. rewrite E6. reflexivity. }
    destruct Er as (s3 & o3 & lg3 & o4 & E3 & Eo & L3). apply (Free _ _ _ _ _ E3).
    (* lg3 is lg, one of o2, or log *)
    assert (Hin : p' = [] /\ lg3 = lg \/ In lg3 (o2 ++ [log])).
    { destruct p' as [|j' p'].
      - left. split; [reflexivity|]. rewrite app_nil_r in L3. assert (length o3 = length o1) by lia. rewrite <- !app_assoc in Eo. cbn [app] in Eo.
        apply (f_equal (fun x => nth_error x (length o1))) in Eo. rewrite nth_error_app2 in Eo by lia. rewrite Nat.sub_diag in Eo. cbn in Eo. rewrite nth_error_app2 in Eo by lia. rewrite H, Nat.sub_diag in Eo. cbn in Eo. congruence.
      - right. rewrite app_length in L3. cbn in L3. rewrite <- !app_assoc in Eo. cbn [app] in Eo. apply nth_error_In with (n := (length o3 - length o1 - 1)%nat).
        apply (f_equal (fun x => nth_error x (length o3))) in Eo. rewrite nth_error_app2 in Eo by lia. rewrite (nth_error_app2 o3) in Eo by lia. rewrite Nat.sub_diag in Eo. cbn [nth_error] in Eo.
        replace (length o3 - length o1)%nat with (S (length o3 - length o1 - 1)) in Eo by lia. exact Eo. }
    intros (((bx & rex) & rvx) & cx) Hx. cbn [fst].
    destruct Hin as [(-> & ->)|Hin].
    + (* lg: exactly one update *)
      rewrite app_nil_r in E3. pose proof (informed b l1 k s3 o3 lg E3) as I3. cbv zeta in I3.
      assert (Hlgu : In (false, re0, rv0, c0) (updates lg)) by (apply (in_updates lg t0); rewrite Hlg; apply in_or_app; right; left; reflexivity).
      destruct I3 as [I3|(I3 & _)]; rewrite I3 in *; [|contradiction]. destruct Hlgu as [Hu|[]]. destruct Hx as [Hx|[]]. congruence.
    + apply in_app_or in Hin as [Hin|[<-|[]]].
      * apply updates_in in Hx as (t & Hx). rewrite Forall_forall in Hsaw'. assert (In (t, Update bx rex rvx cx) (flat_map tx_part (concat o2))) as H by (apply in_flat_map in Hx as (e & A1 & A2); apply in_flat_map; exists e; split; [apply in_concat; eauto|exact A2]).
        specialize (Hsaw' _ H). exact Hsaw'.
      * rewrite <- El, upd_stamp, flat_map_app, U in Hx. cbn in Hx. destruct Hx as [Hx|[]]. injection Hx as <- _ _ _. unfold bz in *. injection Hev as Hb _ _ _. exact Hb.
Qed.
