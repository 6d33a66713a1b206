(** P_Core0Cut.v -- a transmission whose echo is cut by a line-free event fails (C97). *)
From Verif Require Import Base S_Containers D_Containers P_Containers M_Fifo M_Message S_Message D_Message P_Message P_MessageParse
  M_Standalone S_Crc S_Ctrl D_Ctrl P_Ctrl M_Tx D_Tx S_Tx P_Tx P_TxRun P_TxHist P_TxLive M_HostUart D_Host S_Host P_Host P_HostProps M_Led M_Core1 S_Core1 M_Core0 S_Core0 D_Core0 P_Core0 P_Core0Run P_Core0Rx P_Core0Busy P_Core0Main P_Core0Feed P_Core0Bus P_Core0Fail P_Core0Live.

(** ** One iteration of a transmitter in the data phase *)
Lemma data_hw es : forall now t h s o, mrun (tx_event pico) (t, h) (map (fun x => (now, Hw x)) es) = Ok (s, o) -> fst s = t.
Proof.
  induction es as [|e es IH]; intros now t h s o E; cbn [map mrun] in E; [injection E as <- _; reflexivity|]. bstep E. destruct x as (s1 & o1). cbn [tx_event] in E0. injection E0 as <- <-.
  bstep E. destruct x as (s2 & o2). injection E as <- _. eapply IH; eauto.
Qed.
Lemma data_update t h now b re rv c t' h' o : tx_inv t h -> data_phase (t_st t) -> t_err t = false -> tx_event pico (t, h) (now, Update b re rv c) = Ok ((t', h'), o) ->
  (Z.to_nat (t_off t) + (if rv then 1 else 0) < m_length (t_tx t))%nat ->
  t_err t' = true \/ (t_err t' = false /\ t_tx t' = t_tx t /\ data_phase (t_st t') /\ Z.to_nat (t_off t') = (Z.to_nat (t_off t) + (if rv then 1 else 0))%nat /\
    (t_st t = T_CHECK_DATA -> b = true) /\ (t_st t = T_CHECK_DATA \/ b = true \/ rv = true -> t_st t' = T_CHECK_DATA)).
Proof.
  intros I D He E Hl. assert (Hc : t_st t = T_CHECK_DATA -> b = false -> t_err t' = true) by (intros X ->; apply (free_aborts _ _ _ _ _ _ _ _ _ X E)).
  assert (Hoff : 0 <= t_off t).
  { destruct D as [D|D]; [rewrite (iv_zero _ _ I) by auto; lia|apply (iv_chk _ _ I D)]. }
  assert (Cb : t_err t' = true \/ (t_st t = T_CHECK_DATA -> b = true)) by (destruct b; [right; auto|]; destruct D as [D|D]; [right; intros; congruence|left; auto]).
  destruct Cb as [Cb|Cb]; [left; exact Cb|].
  apply event_cases in E; [|exact I]. inversion E as [| |? ? ? ? ? ? U| | |]; subst. clear E Hc.
  inversion U as [Ha|A1 A2 A3 A4|A1 A2 A3 A4 A5|A1 A2 A3|A1 A2 A3 A4 A5|rx A1 A2 A3 A4 A5 A6|by_ rx A1 A2 A3 A4 A5 A6 A7|A1 A2 A3|A1 A2 A3]; subst; try (exfalso; destruct D; congruence); try (left; reflexivity); right.
  - destruct (A3 D) as (-> & -> & B1 & B2). split; [exact He|]. split; [reflexivity|]. split; [exact D|]. split; [lia|]. split; [exact Cb|].
    intros [C|[->|C]]; [exact C| |discriminate]. destruct D as [D|D]; [specialize (B1 D); discriminate|exact D].
  - split; [exact He|]. split; [reflexivity|]. split; [right; reflexivity|]. split; [cbn; lia|]. split; [exact Cb|reflexivity].
  - assert (Ea : after_byte t = T_CHECK_DATA).
    { unfold after_byte. destruct (Z.eqb_spec (t_off t + 1) (Z.of_nat (m_length (t_tx t)))) as [Eq|_]; [exfalso; lia|reflexivity]. }
    rewrite Ea. split; [exact He|]. split; [reflexivity|]. split; [right; reflexivity|]. split; [cbn; lia|]. split; [exact Cb|reflexivity].
Qed.
Lemma data_iter b l i s o s' log m : boot_ok b -> Forall in_ok (l ++ [i]) -> input_ok (text (l ++ [i])) -> core0_run b l = Ok (s, o) -> core0_step s i = Ok (s', log) -> l <> [] ->
  data_phase (t_st (z_sm s)) -> t_err (z_sm s) = false -> t_tx (z_sm s) = m ->
  let e := event_of i in let bz := is_busy (b_now b) (l ++ [i]) in
  (Z.to_nat (t_off (z_sm s)) + (if ev_valid e then 1 else 0) < m_length m)%nat ->
  t_err (z_sm s') = true \/
  (t_err (z_sm s') = false /\ t_tx (z_sm s') = m /\ data_phase (t_st (z_sm s')) /\ Z.to_nat (t_off (z_sm s')) = (Z.to_nat (t_off (z_sm s)) + (if ev_valid e then 1 else 0))%nat /\
    (t_st (z_sm s) = T_CHECK_DATA -> bz = true) /\ (t_st (z_sm s) = T_CHECK_DATA \/ bz = true \/ ev_valid e = true -> t_st (z_sm s') = T_CHECK_DATA)).
Proof.
  intros B F T E Es N D He Hm e bz Hl. subst e bz.
  assert (E' : core0_run b (l ++ [i]) = Ok (s', o ++ [log])).
  { clear - E Es. unfold core0_run in *. bstep E. rewrite E0. cbn [bind]. rewrite mrun_app, E. cbn [bind mrun]. rewrite Es. reflexivity. }
  assert (F0 := F). apply Forall_app in F0 as (F0 & _). assert (T0 := T). rewrite text_app in T0. apply input_ok_prefix in T0.
  destruct (parts_run b l s o B F0 T0 E) as ((Rt & At & _) & _). destruct (parts_run b (l ++ [i]) s' _ B F T E') as ((Rt2 & At2 & _) & _).
  destruct (feed_inv b _ _ _ E') as (Bs & _). destruct (feed_inv b _ _ _ E) as (_ & V).
  assert (Ef : fed s i = event_of i) by (unfold fed, event_of; rewrite V; destruct l; [congruence|reflexivity]).
  unfold core0_step in Es. bstep Es. destruct x as (s1 & a). injection Es as <- <-.
  assert (Li : tx_is_idle (z_sm s) = false) by (unfold tx_is_idle; destruct D as [D|D]; rewrite D; reflexivity).
  pose proof (iter_tx _ _ _ _ _ E0 Li He) as Ht. rewrite Ef, Bs in Ht.
  assert (Hh : flat_map tx_part (map (pair (in_now i)) a) = heard b l [i]).
  { rewrite tx_of_stamp, Ht. cbn [heard]. rewrite map_app, map_map. reflexivity. }
  assert (L2 : length (b_j2 b) = 32%nat) by apply B. pose proof (run_inv_eq _ _ _ _ _ _ L2 At Rt) as I.
  rewrite concat_app, flat_map_app in Rt2, At2. cbn [concat] in Rt2, At2. rewrite app_nil_r, Hh in Rt2, At2. unfold tx_run in Rt, Rt2. rewrite mrun_app, Rt in Rt2. cbn [bind] in Rt2.
  bstep Rt2. destruct x as (s3 & o3). injection Rt2 as -> _. cbn [heard] in E1. rewrite mrun_app in E1. bstep E1. destruct x as ((t4 & h4) & o4). pose proof (data_hw _ _ _ _ _ _ E2) as X. cbn [fst] in X. subst t4.
  apply Forall_app in At2 as (_ & At2). cbn [heard] in At2. apply Forall_app in At2 as (At2 & _).
  assert (I4 : tx_inv (z_sm s) h4).
  { destruct (run_inv_from (z_sm s, z_hw s) _ I At2) as (t5 & h5 & o5 & E5 & I5). rewrite E2 in E5. injection E5 as <- <- _. exact I5. }
  bstep E1. destruct x as (s5 & o5). injection E1 as Q1 _. subst s5. cbn [mrun] in E3. bstep E3. destruct x as (s6 & o6). cbn [tx_event] in E1. unfold tx_error in E1. injection E1 as <- _.
  bstep E3. destruct x as (s7 & o7). injection E3 as Q3 _. subst s7. bstep E1. destruct x as (s8 & o8). injection E1 as Q4 _. subst s8.
  change (TX (t_tx (z_sm s)) (t_rx (z_sm s)) (t_st (z_sm s)) (t_wait (z_sm s)) (t_off (z_sm s)) false) with (fst (tx_error (z_sm s))) in E3.
  assert (Eq : fst (tx_error (z_sm s)) = z_sm s) by (unfold tx_error; cbn [fst]; destruct (z_sm s); cbn in He; subst; reflexivity).
  rewrite Eq in E3. subst m. exact (data_update _ _ _ _ _ _ _ _ _ _ I4 D He E3 Hl).
Qed.

(** ** Histories *)
Definition valid_count (ls : list inp0) : nat := length (filter (fun i => ev_valid (event_of i)) ls).
Lemma data_iters b ls : forall l s o m, boot_ok b -> Forall in_ok (l ++ ls) -> input_ok (text (l ++ ls)) -> core0_run b l = Ok (s, o) -> l <> [] ->
  data_phase (t_st (z_sm s)) -> t_err (z_sm s) = false -> t_tx (z_sm s) = m -> (Z.to_nat (t_off (z_sm s)) + valid_count ls < m_length m)%nat ->
  (exists ls1 ls2 s2 o2, ls = ls1 ++ ls2 /\ core0_run b (l ++ ls1) = Ok (s2, o ++ o2) /\ t_err (z_sm s2) = true) \/
  (exists s2 o2, core0_run b (l ++ ls) = Ok (s2, o ++ o2) /\ t_err (z_sm s2) = false /\ t_tx (z_sm s2) = m /\ data_phase (t_st (z_sm s2)) /\
    Z.to_nat (t_off (z_sm s2)) = (Z.to_nat (t_off (z_sm s)) + valid_count ls)%nat /\
    (t_st (z_sm s) = T_CHECK_DATA \/ (exists x i y, ls = x ++ i :: y /\ is_busy (b_now b) (l ++ x ++ [i]) = true) -> t_st (z_sm s2) = T_CHECK_DATA)).
Proof.
  induction ls as [|i ls IH]; intros l s o m B F T E N D He Hm Hl.
  - right. exists s, []. rewrite !app_nil_r. unfold valid_count. cbn. repeat (split; [solve [auto]|]). intros [C|(x & i & y & C & _)]; [exact C|destruct x; discriminate].
  - change (i :: ls) with ([i] ++ ls) in F, T. rewrite app_assoc in F, T.
    assert (F0 := F). apply Forall_app in F0 as (F0 & _). assert (T0 := T). rewrite text_app in T0. apply input_ok_prefix in T0.
    destruct (main_safe b (l ++ [i]) B F0 T0) as (s' & o' & E'). destruct (run_snoc' _ _ _ _ _ E') as (s0 & o0 & log & -> & E0 & Es & _).
    rewrite E in E0. injection E0 as <- <-.
    assert (Ev : valid_count (i :: ls) = ((if ev_valid (event_of i) then 1 else 0) + valid_count ls)%nat) by (unfold valid_count; cbn [filter]; destruct (ev_valid (event_of i)); reflexivity).
    rewrite Ev in *. destruct (data_iter b l i s o s' log m B F0 T0 E Es N D He Hm ltac:(cbv zeta; lia)) as [X|(X1 & X2 & X3 & X4 & X5 & X6)].
    + left. exists [i], ls, s', [log]. auto.
    + destruct (IH (l ++ [i]) s' (o ++ [log]) m B F T E' ltac:(destruct l; discriminate) X3 X1 X2 ltac:(lia)) as [(ls1 & ls2 & s2 & o2 & -> & E2 & H2)|(s2 & o2 & E2 & Y1 & Y2 & Y3 & Y4 & Y5)].
      * left. exists (i :: ls1), ls2, s2, (log :: o2). rewrite <- !app_assoc in E2. auto.
      * right. exists s2, (log :: o2). rewrite <- !app_assoc in E2. split; [exact E2|]. split; [exact Y1|]. split; [exact Y2|]. split; [exact Y3|]. split; [lia|].
        intros [C|(x & j & y & C & Hb)]; [apply Y5; left; apply X6; auto|]. apply Y5. destruct x as [|x0 x]; cbn [app] in C; injection C as <- C.
        -- left. apply X6. right. left. exact Hb.
        -- right. exists x, j, y. split; [exact C|]. rewrite <- app_assoc. exact Hb.
Qed.

(** The line after some events. *)
Lemma busy_stays b : forall ls l, is_busy b l = true -> Forall (fun i => line_free i = false) ls -> is_busy b (l ++ ls) = true.
Proof.
  induction ls as [|i ls IH]; intros l H F; [rewrite app_nil_r; exact H|]. inversion F; subst. change (i :: ls) with ([i] ++ ls). rewrite app_assoc. apply IH; [|assumption].
  rewrite is_busy_snoc, H. unfold line_state. unfold line_free in *. rewrite H2. cbn. rewrite andb_false_r. reflexivity.
Qed.
Lemma busy_told b l i : ev_busy (event_of i) = true -> line_free i = false -> is_busy b (l ++ [i]) = true.
Proof. intros Hb Hf. rewrite is_busy_snoc. unfold line_state, line_free in *. rewrite Hf, Hb. cbn. destruct (is_busy b l); reflexivity. Qed.
Lemma logs_bytes bs : forall ls, log_of (map event_of ls) = map (fun c => LByte c false) bs ->
  Forall (fun i => line_free i = false) ls /\ valid_count ls = length bs.
Proof.
  intros ls. revert bs. induction ls as [|i ls IH]; intros bs E.
  - cbn in E. destruct bs; [|discriminate]. split; [constructor|reflexivity].
  - unfold log_of in E. cbn [map flat_map] in E. unfold log_event in E at 1. unfold valid_count. cbn [filter].
    destruct (ev_free (event_of i)) eqn:Ef; [destruct bs; discriminate|]. destruct (ev_busy (event_of i)); [destruct bs; discriminate|]. unfold is_byte in E.
    destruct (ev_valid (event_of i)) eqn:Ev; cbn [orb app] in E.
    + destruct bs as [|c bs]; [discriminate|]. cbn [map] in E. injection E as _ _ E. destruct (IH bs E) as (F & L). unfold valid_count in L. split; [constructor; auto|]. cbn [length]. rewrite L. reflexivity.
    + destruct (ev_error (event_of i)) eqn:Ee; cbn [app] in E.
      * exfalso. destruct bs as [|c bs]; [discriminate|]. cbn [map] in E. injection E as _ E1 _. congruence.
      * destruct (IH bs E) as (F & L). split; [constructor; auto|exact L].
Qed.
Lemma logs_packet bs : forall ls, log_of (map event_of ls) = LBusy :: map (fun c => LByte c false) bs ->
  Forall (fun i => line_free i = false) ls /\ valid_count ls = length bs /\ exists x i y, ls = x ++ i :: y /\ ev_busy (event_of i) = true.
Proof.
  induction ls as [|i ls IH]; intros E; [discriminate|]. unfold log_of in E. cbn [map flat_map] in E. unfold log_event in E at 1.
  destruct (ev_free (event_of i)) eqn:Ef; [discriminate|]. unfold valid_count. cbn [filter].
  destruct (ev_busy (event_of i)) eqn:Eb; cbn [app] in E.
  - injection E as E. change ((if is_byte (event_of i) then [LByte (ev_char (event_of i)) (ev_error (event_of i))] else []) ++ flat_map log_event (map event_of ls) = map (fun c => LByte c false) bs) in E.
    assert (X : exists bs2 : list Z, Forall (fun i => line_free i = false) ls /\ valid_count ls = length bs2 /\ length bs = ((if ev_valid (event_of i) then 1 else 0) + length bs2)%nat).
    { unfold is_byte in E. destruct (ev_valid (event_of i)) eqn:Ev; cbn [orb app] in E.
      - destruct bs as [|c bs]; [discriminate|]. cbn [map] in E. injection E as _ _ E. destruct (logs_bytes bs ls E) as (F & L). exists bs. auto.
      - destruct (ev_error (event_of i)) eqn:Ee; cbn [app] in E.
        + exfalso. destruct bs as [|c bs]; [discriminate|]. cbn [map] in E. injection E as _ E1 _. congruence.
        + destruct (logs_bytes bs ls E) as (F & L). exists bs. auto. }
    destruct X as (bs2 & F & L & Lb). split; [constructor; auto|]. split.
    + unfold valid_count in L. destruct (ev_valid (event_of i)); cbn [length]; lia.
    + exists [], i, ls. auto.
  - destruct (is_byte (event_of i)) eqn:Ei; [discriminate|]. cbn [app] in E. destruct (IH E) as (F & L & x & j & y & -> & Hj). split; [constructor; auto|]. split.
    + unfold is_byte in Ei. apply orb_false_iff in Ei as (-> & _). exact L.
    + exists (i :: x), j, y. auto.
Qed.

(** The state after the data was handed over. *)
Lemma send_state t h e t' h' o : tx_inv t h -> ev_ok 1 e -> tx_event pico (t, h) e = Ok ((t', h'), o) -> (length (hw_dma h) < length (hw_dma h'))%nat ->
  t_st t' = T_STARTED /\ t_off t' = 0 /\ t_err t' = false.
Proof.
  intros I Ok E Hl. destruct e as (now & ev). pose proof (event_inv t h (now, ev) I Ok) as (t1 & h1 & o1 & E1 & I1). rewrite E in E1. injection E1 as <- <- _.
  apply event_cases in E; [|exact I]. inversion E as [m Hi|m Hi|busy re rv c t2 h2 U|x0| |]; subst; try lia.
  - inversion U as [Ha|H1 H2 H3 H4|Hs' Hw Hb Ht Ho|Hs' Hw Hb|Hs' Hw Hb He Hv|rx Hd Hw He Hv Hn Hr|b rx Hd Hw He Hv Hn Hne Hr|Hd Hw He|Hs' Hw Hb]; subst; cbn in Hl; try lia.
    + split; [reflexivity|]. cbn [enter t_off t_err]. split; [apply (iv_zero _ _ I); auto|]. destruct (quiet_live t h I ltac:(congruence) ltac:(congruence)) as (_ & X). exact X.
    + unfold after_byte in Hl. destruct (_ =? _); cbn in Hl; lia.
  - exfalso. destruct h as [er d f q sd]. destruct x0; cbn in Hl; [destruct d; [|destruct (length f <? 8)%nat]|destruct f; [|destruct q]|destruct q|destruct q]; cbn in Hl; lia.
Qed.
Lemma hand_over b l i s o s' log : boot_ok b -> Forall in_ok (l ++ [i]) -> input_ok (text (l ++ [i])) -> core0_run b l = Ok (s, o) -> core0_step s i = Ok (s', log) ->
  (length (hw_dma (z_hw s)) < length (hw_dma (z_hw s')))%nat -> core0_run b (l ++ [i]) = Ok (s', o ++ [log]) /\ t_st (z_sm s') = T_STARTED /\ t_off (z_sm s') = 0 /\ t_err (z_sm s') = false.
Proof.
  intros B F T E Es D. assert (F' := F). apply Forall_app in F' as (F' & Fi). assert (T' := T). rewrite text_app in T'. apply input_ok_prefix in T'.
  assert (Esnoc : core0_run b (l ++ [i]) = Ok (s', o ++ [log])).
  { clear - E Es. unfold core0_run in *. bstep E. rewrite E0. cbn [bind]. rewrite mrun_app, E. cbn [bind mrun]. rewrite Es. reflexivity. }
  split; [exact Esnoc|].
  destruct (parts_run b l s o B F' T' E) as ((Rt & At & _) & _ & _ & _).
  destruct (parts_run b (l ++ [i]) s' (o ++ [log]) B F T Esnoc) as ((Rt2 & At2 & _) & _ & _ & _).
  assert (Es' := Es). unfold core0_step in Es'. bstep Es'. destruct x as (s1 & a). injection Es' as <- El. apply iter_feed in E0 as (_ & l0 & U & C).
  rewrite concat_app, flat_map_app in Rt2, At2. cbn [concat] in Rt2, At2. rewrite app_nil_r, <- El in Rt2, At2. change (map (pair (in_now i)) a) with (stamp (in_now i) a) in Rt2, At2.
  assert (L2 : length (b_j2 b) = 32%nat) by apply B.
  destruct C as [(-> & _)|(-> & _)].
  2:{ exfalso. unfold tx_run in Rt, Rt2. rewrite mrun_app, Rt in Rt2. cbn [bind] in Rt2. bstep Rt2. destruct x as ((t3 & h3) & o3). injection Rt2 as -> -> _.
      apply quiet_dma in E0; [lia|apply no_upd_tx; exact U]. }
  rewrite stamp_app, !flat_map_app in Rt2, At2. cbn [stamp map flat_map tx_part snd fst app] in Rt2, At2.
  set (z := fed s i) in *. set (bz := z_busy s1) in *. rewrite app_assoc in Rt2, At2.
  apply P_TxHist.run_snoc in Rt2 as ((tm & hm) & om & x & Emid & Ev & _). apply Forall_app in At2 as (A1 & A2). inversion A2 as [|? ? A3 _]; subst.
  pose proof (run_inv_eq _ _ _ _ _ _ L2 A1 Emid) as I.
  assert (Dm : (length (hw_dma hm) <= length (hw_dma (z_hw s)))%nat).
  { unfold tx_run in Rt, Emid. rewrite mrun_app, Rt in Emid. cbn [bind] in Emid. bstep Emid. destruct x0 as ((t3 & h3) & o3). injection Emid as -> -> _. apply quiet_dma in E0; [lia|apply no_upd_tx; exact U]. }
  eapply send_state; [exact I|exact A3|exact Ev|lia].
Qed.

Lemma cut_firmware b l i ls k s o s' log p m bs : boot_ok b -> Forall in_ok (l ++ i :: ls ++ [k]) -> input_ok (text (l ++ i :: ls ++ [k])) ->
  core0_run b l = Ok (s, o) -> core0_step s i = Ok (s', log) -> (length (hw_dma (z_hw s)) < length (hw_dma (z_hw s')))%nat ->
  wakes (concat (o ++ [log])) = p ++ [m] ->
  log_of (map event_of ls) = LBusy :: map (fun c => LByte c false) bs -> (length bs < length (payload m))%nat -> line_free k = true ->
  exists ls1 ls2 s2 o2, ls ++ [k] = ls1 ++ ls2 /\ core0_run b (l ++ i :: ls1) = Ok (s2, o ++ log :: o2) /\ t_err (z_sm s2) = true.
Proof.
  intros B F T E Es D W Hg Hb Hk.
  replace (l ++ i :: ls ++ [k]) with ((l ++ [i]) ++ ls ++ [k]) in F, T by (rewrite <- app_assoc; reflexivity).
  assert (F1 := F). apply Forall_app in F1 as (F1 & _). assert (T1 := T). rewrite text_app in T1. apply input_ok_prefix in T1.
  destruct (hand_over b l i s o s' log B F1 T1 E Es D) as (E' & Hs & Ho & He). destruct (last_wake b B (l ++ [i]) s' (o ++ [log]) F1 T1 E') as (_ & Hm). specialize (Hm p m W).
  assert (Lm : (length (payload m) <= m_length m)%nat) by (unfold payload; rewrite firstn_length; lia).
  destruct (logs_packet bs ls Hg) as (Fl & Vc & x & j & y & Els & Hj).
  rewrite app_assoc in F, T. assert (F2 := F). apply Forall_app in F2 as (F2 & _). assert (T2 := T). rewrite text_app in T2. apply input_ok_prefix in T2.
  destruct (data_iters b ls (l ++ [i]) s' (o ++ [log]) m B F2 T2 E' ltac:(destruct l; discriminate) (or_introl Hs) He Hm ltac:(rewrite Ho; cbn; lia)) as
    [(ls1 & ls2 & s2 & o2 & -> & E2 & H2)|(s2 & o2 & E2 & Y1 & Y2 & Y3 & Y4 & Y5)].
  - exists ls1, (ls2 ++ [k]), s2, o2. rewrite <- !app_assoc in E2. rewrite <- app_assoc. auto.
  - assert (Jb : is_busy (b_now b) ((l ++ [i]) ++ x ++ [j]) = true).
    { rewrite app_assoc. apply busy_told; [exact Hj|]. rewrite Forall_forall in Fl. apply Fl. rewrite Els. apply in_or_app. right. left. reflexivity. }
    assert (Cs : t_st (z_sm s2) = T_CHECK_DATA) by (apply Y5; right; exists x, j, y; auto).
    assert (Bl : is_busy (b_now b) ((l ++ [i]) ++ ls) = true).
    { rewrite Els. change (j :: y) with ([j] ++ y). rewrite (app_assoc x), app_assoc. apply busy_stays; [exact Jb|].
      rewrite Els in Fl. apply Forall_app in Fl as (_ & Fl). inversion Fl; auto. }
    assert (Bk : is_busy (b_now b) (((l ++ [i]) ++ ls) ++ [k]) = false).
    { rewrite is_busy_snoc, Bl. unfold line_state, line_free in *. rewrite Hk. reflexivity. }
    destruct (main_safe b (((l ++ [i]) ++ ls) ++ [k]) B F T) as (s3 & o3 & E3). destruct (run_snoc' _ _ _ _ _ E3) as (s0 & o0 & lg & -> & E0 & Ek & _).
    rewrite E2 in E0. injection E0 as <- <-.
    assert (X : t_err (z_sm s3) = true).
    { destruct (parts_run b _ s2 _ B F2 T2 E2) as ((Rt & At & _) & _). destruct (parts_run b _ s3 _ B F T E3) as ((Rt2 & At2 & _) & _).
      destruct (feed_inv b _ _ _ E3) as (Bs & _). unfold core0_step in Ek. bstep Ek. destruct x0 as (s4 & a). injection Ek as <- <-.
      assert (Li : tx_is_idle (z_sm s2) = false) by (unfold tx_is_idle; rewrite Cs; reflexivity).
      pose proof (iter_tx _ _ _ _ _ E0 Li Y1) as Ht. rewrite Bs, Bk in Ht.
      rewrite concat_app, flat_map_app in Rt2. cbn [concat] in Rt2. rewrite app_nil_r, tx_of_stamp, Ht, map_app in Rt2. unfold tx_run in Rt, Rt2. rewrite mrun_app, Rt in Rt2. cbn [bind] in Rt2.
      bstep Rt2. destruct x0 as (s5 & o5). injection Rt2 as Q _. subst s5. rewrite mrun_app in E1. bstep E1. destruct x0 as ((t6 & h6) & o6).
      rewrite map_map in E4. pose proof (data_hw _ _ _ _ _ _ E4) as Q. cbn [fst] in Q. subst t6.
      bstep E1. destruct x0 as (s7 & o7). injection E1 as Q _. subst s7. cbn [map mrun] in E5. bstep E5. destruct x0 as (s8 & o8). cbn [tx_event] in E1. unfold tx_error in E1. injection E1 as <- _.
      bstep E5. destruct x0 as (s9 & o9). injection E5 as Q _. subst s9. bstep E1. destruct x0 as (s10 & o10). injection E1 as Q _. subst s10. apply free_aborts in E5; [apply E5|exact Cs]. }
    exists (ls ++ [k]), [], s3, (o2 ++ [lg]). rewrite app_nil_r. split; [reflexivity|]. split; [|exact X].
    rewrite <- !app_assoc in E3. exact E3.
Qed.

(** The packet is found cut wherever the log is. *)
Lemma log_split ls : forall pre rest, log_of (map event_of ls) = pre ++ LFree :: rest -> ~ In LFree pre ->
  exists x k y, ls = x ++ k :: y /\ log_of (map event_of x) = pre /\ line_free k = true.
Proof.
  induction ls as [|i ls IH]; intros pre rest E Hp; [destruct pre; discriminate|]. unfold log_of in E. cbn [map flat_map] in E. fold (log_of (map event_of ls)) in E.
  destruct (ev_free (event_of i)) eqn:Ef.
  - unfold log_event in E at 1. rewrite Ef in E. cbn [app] in E. destruct pre as [|q pre]; [|cbn [app] in E; injection E as <- _; exfalso; apply Hp; left; reflexivity].
    exists [], i, ls. auto.
  - set (le := log_event (event_of i)) in E. assert (Hle : ~ In LFree le).
    { unfold le, log_event. rewrite Ef. destruct (ev_busy (event_of i)), (is_byte (event_of i)); cbn; intuition discriminate. }
    assert (X : exists pre2, pre = le ++ pre2 /\ log_of (map event_of ls) = pre2 ++ LFree :: rest).
    { clear -E Hle. generalize dependent (log_of (map event_of ls)). intros g. revert pre. induction le as [|a le IHl]; intros pre E; [exists pre; auto|].
      destruct pre as [|q pre]; cbn [app] in E; injection E as -> E; [exfalso; apply Hle; left; reflexivity|]. destruct (IHl ltac:(intros C; apply Hle; right; exact C) _ E) as (p2 & -> & E2). exists p2. auto. }
    destruct X as (pre2 & -> & E2). destruct (IH _ _ E2 ltac:(intros C; apply Hp; apply in_or_app; auto)) as (x & k & y & -> & Hx & Hk).
    exists (i :: x), k, y. split; [reflexivity|]. split; [|exact Hk]. unfold log_of in *. cbn [map flat_map]. rewrite Hx. reflexivity.
Qed.
