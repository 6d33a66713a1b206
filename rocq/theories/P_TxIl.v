(** P_TxIl.v -- proofs for C127: Updates with hardware activity inside are serial ones. *)
From Verif Require Import Base M_Message M_Tx D_Tx M_TxIl S_TxIl.

Lemma events_app h a b : hw_events h (a ++ b) = hw_events (hw_events h a) b.
Proof. apply fold_left_app. Qed.
Lemma events_cons h x g : hw_events h (x :: g) = hw_events (hw_step h x) g.
Proof. reflexivity. Qed.
Lemma events_one h x : hw_events h [x] = hw_step h x.
Proof. reflexivity. Qed.

(** Fields the hardware does not touch. *)
Definition upd_flags (h : pio_hw) (e s : bool) : pio_hw := HW e (hw_dma h) (hw_txf h) (hw_sm h) s.
Lemma step_flags h e s x : hw_step (upd_flags h e s) x = upd_flags (hw_step h x) e s.
Proof. destruct h as [e0 d f m s0]. destruct x; cbn; [destruct d; [|destruct (length f <? 8)%nat]|destruct f, m|destruct m|destruct m]; reflexivity. Qed.
Lemma events_flags g : forall h e s, hw_events (upd_flags h e s) g = upd_flags (hw_events h g) e s.
Proof. induction g as [|x g IH]; intros h e s; [reflexivity|]. rewrite events_cons. rewrite step_flags. apply IH. Qed.
Lemma step_keeps h x : hw_error (hw_step h x) = hw_error h /\ hw_shutdown (hw_step h x) = hw_shutdown h.
Proof. destruct h as [e0 d f m s0]. destruct x; cbn; [destruct d; [|destruct (length f <? 8)%nat]|destruct f, m|destruct m|destruct m]; auto. Qed.
Lemma events_keep g : forall h, hw_error (hw_events h g) = hw_error h /\ hw_shutdown (hw_events h g) = hw_shutdown h.
Proof. induction g as [|x g IH]; intros h; [auto|]. rewrite events_cons. destruct (step_keeps h x) as [<- <-]. apply IH. Qed.
Lemma shutdown_flags h b : hw_enable_shutdown h b = upd_flags h (hw_error h) b.
Proof. destruct h; reflexivity. Qed.
Lemma shutdown_events h b g : hw_events (hw_enable_shutdown h b) g = hw_enable_shutdown (hw_events h g) b.
Proof. rewrite !shutdown_flags, events_flags. f_equal. symmetry. apply events_keep. Qed.
Lemma read_flags h : hw_read_error h = (upd_flags h false (hw_shutdown h), hw_error h).
Proof. destruct h; reflexivity. Qed.
Lemma read_events h g : hw_read_error (hw_events h g) = (hw_events (fst (hw_read_error h)) g, snd (hw_read_error h)).
Proof. rewrite !read_flags. cbn [fst snd]. rewrite events_flags. destruct (events_keep g h) as [E1 E2]. rewrite E1, E2. reflexivity. Qed.

(** Without the DMA. *)
Definition no_dma (g : list hw_event) : list hw_event := filter (fun e => match e with HwDma => false | _ => true end) g.
Lemma sublist_refl {A} (l : list A) : sublist l l.
Proof. induction l; constructor; auto. Qed.
Lemma sublist_app {A} (a b c d : list A) : sublist a b -> sublist c d -> sublist (a ++ c) (b ++ d).
Proof. intros H K. induction H; cbn [app]; [|constructor; auto|constructor; auto]. induction b; cbn [app]; [exact K|constructor; auto]. Qed.
Lemma no_dma_sub g : sublist (no_dma g) g.
Proof. induction g as [|x g IH]; [constructor|]. cbn. destruct x; constructor; auto. Qed.

(** A channel that has nothing to transfer stays like that. *)
Lemma dma_empty g : forall h, hw_dma h = [] -> hw_dma (hw_events h g) = [].
Proof.
  induction g as [|x g IH]; intros h D; [exact D|]. rewrite events_cons. apply IH.
  destruct h as [e0 d f m s0]. cbn in D. subst d. destruct x; cbn; [|destruct f, m|destruct m|destruct m]; reflexivity.
Qed.
Lemma dma_still_back g : forall h, ~ In HwDma g -> hw_dma (hw_events h g) = hw_dma h.
Proof.
  induction g as [|x g IH]; intros h N; [reflexivity|]. rewrite events_cons. cbn in N. rewrite IH by tauto.
  destruct h as [e0 d f m s0]. destruct x; cbn; [tauto|destruct f, m|destruct m|destruct m]; reflexivity.
Qed.
Lemma txf_empty g : forall h, hw_dma h = [] -> hw_txf h = [] -> hw_txf (hw_events h g) = [].
Proof.
  induction g as [|x g IH]; intros h D T; [exact T|]. rewrite events_cons.
  destruct h as [e0 d f m s0]. cbn in D, T. subst d f. apply IH; destruct x; cbn; destruct m; reflexivity.
Qed.
Lemma abort_step h x : hw_step (HW (hw_error h) [] (hw_txf h) (hw_sm h) (hw_shutdown h)) x =
  match x with
  | HwDma => HW (hw_error h) [] (hw_txf h) (hw_sm h) (hw_shutdown h)
  | _ => let h' := hw_step h x in HW (hw_error h') [] (hw_txf h') (hw_sm h') (hw_shutdown h')
  end.
Proof. destruct h as [e0 d f m s0]. destruct x; cbn; [|destruct f, m|destruct m|destruct m]; reflexivity. Qed.
Lemma clear_il h g : hw_clear_fifo_il h g = hw_clear_fifo (hw_events h (no_dma g)).
Proof.
  unfold hw_clear_fifo_il, hw_clear_fifo.
  assert (H : forall h, hw_events (HW (hw_error h) [] (hw_txf h) (hw_sm h) (hw_shutdown h)) g =
    let h' := hw_events h (no_dma g) in HW (hw_error h') [] (hw_txf h') (hw_sm h') (hw_shutdown h')).
  { clear h. induction g as [|x g IH]; intros h; [reflexivity|]. rewrite events_cons, abort_step. cbn [no_dma filter]. destruct x; [|rewrite events_cons..]; apply IH. }
  rewrite H. reflexivity.
Qed.
Lemma clear_again h g g2 : hw_clear_fifo_il (hw_events (hw_clear_fifo h) g) g2 = hw_events (hw_clear_fifo h) (g ++ no_dma g2).
Proof.
  rewrite clear_il, <- events_app. unfold hw_clear_fifo at 1.
  assert (D : hw_dma (hw_events (hw_clear_fifo h) (g ++ no_dma g2)) = []) by (apply dma_empty; reflexivity).
  assert (T : hw_txf (hw_events (hw_clear_fifo h) (g ++ no_dma g2)) = []) by (apply txf_empty; reflexivity).
  destruct (hw_events (hw_clear_fifo h) (g ++ no_dma g2)) as [e0 d f m s0]. cbn in *. subst. reflexivity.
Qed.
Lemma clear_events h g : exists h', hw_clear_fifo (hw_events (hw_clear_fifo h) g) = h' /\ hw_events (hw_clear_fifo h) g = h'.
Proof.
  eexists. split; [reflexivity|]. 
  assert (D : hw_dma (hw_events (hw_clear_fifo h) g) = []) by (apply dma_empty; reflexivity).
  assert (T : hw_txf (hw_events (hw_clear_fifo h) g) = []) by (apply txf_empty; reflexivity).
  destruct (hw_events (hw_clear_fifo h) g) as [e0 d f m s0]. cbn in *. subst. reflexivity.
Qed.
Lemma clear_twice h : hw_clear_fifo (hw_clear_fifo h) = hw_clear_fifo h.
Proof. reflexivity. Qed.

(** Send. *)
Lemma send_il h m g : hw_send_il h m g =
  if hw_data_waiting h then (let* h' := hw_send h m in Ok (hw_events h' g)) else hw_send (hw_events h g) m.
Proof.
  unfold hw_send_il, hw_send. destruct (hw_data_waiting h) eqn:D.
  - cbn [bind]. change (HW true (hw_dma h) (hw_txf h) (hw_sm h) (hw_shutdown h)) with (upd_flags h true (hw_shutdown h)). rewrite events_flags.
    destruct (events_keep g h) as [_ E]. unfold upd_flags. rewrite E. reflexivity.
  - assert (E : hw_data_waiting (hw_events h g) = false).
    { unfold hw_data_waiting in *. destruct (hw_dma h) eqn:Dh; [|discriminate]. rewrite dma_empty by exact Dh. reflexivity. }
    rewrite E. reflexivity.
Qed.

(** Transmitting. *)
Lemma quiet_point g : forall h, hw_irq h = false -> hw_txf (hw_events h g) = [] -> hw_dma (hw_events h g) = [] ->
  exists a b, g = a ++ b /\ hw_transmitting (hw_events h a) = false.
Proof.
  induction g as [|x g IH] using rev_ind; intros h I T D.
  - exists [], []. split; [reflexivity|]. cbn in *. unfold hw_transmitting, hw_data_waiting. rewrite I, T, D. reflexivity.
  - rewrite events_app, events_one in T, D.
    destruct (hw_txf (hw_events h g)) as [|t0 tt] eqn:Tg; [destruct (hw_dma (hw_events h g)) as [|d0 dd] eqn:Dg|].
    + destruct (IH h I Tg Dg) as (a & b & -> & H). exists a, (b ++ [x]). rewrite app_assoc. auto.
    + exfalso. destruct (hw_events h g) as [e0 d f m s0]. cbn in Tg, Dg. subst. destruct x, m; cbn in T, D; discriminate.
    + exists (g ++ [x]), []. split; [rewrite app_nil_r; reflexivity|]. rewrite events_app, events_one.
      destruct (hw_events h g) as [e0 d f m s0]. cbn in Tg. subst.
      destruct x; cbn in T, D |- *.
      * exfalso. destruct d; [discriminate|]. match type of T with context [if ?c then _ else _] => destruct c end; cbn in T; [|discriminate]. destruct tt; discriminate.
      * destruct m; cbn in *; [|discriminate|discriminate]. subst. reflexivity.
      * destruct m; cbn in T, D; discriminate.
      * destruct m; cbn in T, D; discriminate.
Qed.
Lemma transmitting_il h g : ~ In HwDma (g_fifo g) ->
  exists a b, sublist (a ++ b) (g_flag g ++ g_fifo g) /\
    hw_transmitting_il h g = (hw_events (hw_events h a) b, hw_transmitting (hw_events h a)).
Proof.
  intros N. unfold hw_transmitting_il. destruct (hw_irq h) eqn:I.
  - exists [], []. split; [constructor|]. cbn. unfold hw_transmitting. rewrite I. reflexivity.
  - destruct (hw_txf (hw_events h (g_flag g))) as [|t0 tt] eqn:T; cbn [negb].
    + destruct (hw_data_waiting (hw_events (hw_events h (g_flag g)) (g_fifo g))) eqn:W.
      * exists (g_flag g ++ g_fifo g), []. rewrite app_nil_r. split; [apply sublist_refl|]. rewrite events_app. unfold hw_transmitting. rewrite W, orb_true_r. reflexivity.
      * assert (D : hw_dma (hw_events h (g_flag g)) = []).
        { unfold hw_data_waiting in W. rewrite dma_still_back in W by exact N. destruct (hw_dma (hw_events h (g_flag g))); [reflexivity|discriminate]. }
        destruct (quiet_point (g_flag g) h I T D) as (a & b & E & Q). exists a, (b ++ g_fifo g).
        split; [rewrite app_assoc, <- E; apply sublist_refl|]. rewrite Q, events_app, <- (events_app h a b), <- E. reflexivity.
    + exists (g_flag g), []. rewrite app_nil_r. split; [rewrite <- (app_nil_r (g_flag g)) at 1; apply sublist_app; [apply sublist_refl|constructor]|].
      unfold hw_transmitting. rewrite T. cbn. rewrite orb_true_r. reflexivity.
Qed.

(** The end of Update, after the switch (tx_statemachine.hpp:141-146). *)
Definition finish (now : Z) (r : res (txsm * pio_hw * bool)) : res (txsm * pio_hw) :=
  let* (t1, h1, coll) := r in
  if coll then
    let* (t2, h2) := change_state now t1 h1 T_WAIT_IDLE in
    let t3 := if m_status (t_rx t2) =? 0 then set_rx_status t2 21 else t2 in
    Ok (set_err t3, h2)
  else Ok (t1, h1).
Definition finish_il (now : Z) (g : gaps) (r : res (txsm * pio_hw * bool)) : res (txsm * pio_hw) :=
  let* (t1, h1, coll) := r in
  if coll then
    let* (t2, h2) := change_state_il now t1 (hw_events h1 (g_mid g)) T_WAIT_IDLE (g_send g) (g_abort2 g) in
    let t3 := if m_status (t_rx t2) =? 0 then set_rx_status t2 21 else t2 in
    Ok (set_err t3, h2)
  else Ok (t1, h1).
(** Followed by hardware events. *)
Definition then_hw (r : res (txsm * pio_hw)) (b : list hw_event) : res (txsm * pio_hw) :=
  let* (t', h') := r in Ok (t', hw_events h' b).
Lemma then_nil r : then_hw r [] = r.
Proof. destruct r as [[t h]|k]; reflexivity. Qed.

Lemma finish_coll now g t h : exists a, sublist a (g_mid g ++ g_abort2 g) /\
  finish_il now g (Ok (t, h, true)) = finish now (Ok (t, hw_events h a, true)).
Proof.
  exists (g_mid g ++ no_dma (g_abort2 g)). split; [apply sublist_app; [apply sublist_refl|apply no_dma_sub]|].
  unfold finish_il, finish, change_state_il, change_state. cbn [bind]. rewrite clear_il, events_app. reflexivity.
Qed.
Lemma sub_end {A} (a b : list A) c : sublist a b -> sublist a (c ++ b).
Proof. intros H. induction c; cbn [app]; [exact H|constructor; auto]. Qed.
Lemma in_gaps_tail g a : sublist a (g_abort g ++ g_mid g ++ g_abort2 g) -> sublist a (in_gaps g).
Proof. intros H. unfold in_gaps. do 3 apply sub_end. exact H. Qed.

Lemma check_tail p now t h re rv c coll0 g : exists a b, sublist (a ++ b) (g_abort g ++ g_mid g ++ g_abort2 g) /\
  finish_il now g (check_data_case_il p now t h re rv c coll0 g) = then_hw (finish now (check_data_case p now t (hw_events h a) re rv c coll0)) b.
Proof.
  assert (COLL : forall t0, exists a, sublist (a ++ []) (g_abort g ++ g_mid g ++ g_abort2 g) /\ finish_il now g (Ok (t0, h, true)) = finish now (Ok (t0, hw_events h a, true))).
  { intros t0. destruct (finish_coll now g t0 h) as (a & S & E). exists a. rewrite app_nil_r. split; [apply sub_end, S|exact E]. }
  assert (NONE : sublist (@nil hw_event ++ []) (g_abort g ++ g_mid g ++ g_abort2 g)) by constructor.
  unfold check_data_case_il, check_data_case. destruct re.
  { destruct (COLL (set_rx_status t STATUS_ERR_PARITY)) as (a & S & E). exists a, []. rewrite then_nil. auto. }
  destruct rv.
  2:{ destruct coll0; [|exists [], []; rewrite then_nil; auto]. destruct (COLL t) as (a & S & E). exists a, []. rewrite then_nil. auto. }
  destruct (aget (m_data (t_tx t)) (Z.to_nat (t_off t))) as [b0|k]; cbn [bind]; [|exists [], []; auto].
  destruct (msg_append (t_rx t) b0) as [rx|k]; cbn [bind]; [|exists [], []; auto].
  set (t1 := TX (t_tx t) rx (t_st t) (t_wait t) (u32 (t_off t + 1)) (t_err t)).
  set (coll := if negb (b0 =? as_char p c) then true else coll0). clearbody t1 coll.
  destruct (u32 (t_off t + 1) =? Z.of_nat (m_length (t_tx t))).
  - unfold change_state_il, change_state. cbn [bind]. rewrite clear_il. destruct coll.
    + exists (no_dma (g_abort g)), (g_mid g ++ no_dma (g_abort2 g)). split.
      { rewrite <- ?app_assoc. apply sublist_app; [apply no_dma_sub|]. apply sublist_app; [apply sublist_refl|apply no_dma_sub]. }
      unfold finish_il, finish, change_state_il, change_state, then_hw. cbn [bind]. rewrite clear_again, clear_twice. reflexivity.
    + exists (no_dma (g_abort g)), []. rewrite then_nil, app_nil_r. split; [|reflexivity].
      rewrite <- (app_nil_r (no_dma (g_abort g))). apply sublist_app; [apply no_dma_sub|constructor].
  - unfold change_state_il, change_state. cbn [bind]. destruct coll.
    + destruct (COLL (enter now t1 T_CHECK_DATA)) as (a & S & E). exists a, []. rewrite then_nil. auto.
    + exists [], []. rewrite then_nil. auto.
Qed.

Lemma update_il p now t h busy re rv c g : ~ In HwDma (g_fifo g) ->
  exists a b, sublist (a ++ b) (in_gaps g) /\
    tx_update_il p now t h busy re rv c g = then_hw (tx_update p now t (hw_events h a) busy re rv c) b.
Proof.
  intros N. assert (NONE : sublist (@nil hw_event ++ []) (in_gaps g)) by constructor.
  unfold tx_update_il, tx_update. destruct (st_is_error now t || line_is_error t busy).
  { exists [], []. rewrite then_nil. auto. }
  destruct (tx_is_idle t) eqn:I.
  { exists [], []. rewrite then_nil. split; [exact NONE|]. unfold tx_is_idle in I. destruct (t_st t); try discriminate. reflexivity. }
  destruct (hw_error h) eqn:Er.
  { exists [], []. rewrite then_nil. cbn [hw_events fold_left]. rewrite read_flags, Er. auto. }
  assert (R : forall a, hw_read_error (hw_events h a) = (hw_events (upd_flags h false (hw_shutdown h)) a, false)).
  { intros a. rewrite read_events, read_flags, Er. reflexivity. }
  rewrite read_flags, Er. set (h0 := upd_flags h false (hw_shutdown h)) in *.
  destruct (t_st t) eqn:St.
  - unfold tx_is_idle in I. rewrite St in I. discriminate.
  - destruct busy; cbn [negb].
    { exists [], []. rewrite then_nil, R. auto. }
    destruct (transmitting_il h0 g N) as (a & b & S & E). rewrite E. exists a, b.
    assert (S' : sublist (a ++ b) (in_gaps g)).
    { unfold in_gaps. rewrite app_assoc. rewrite <- (app_nil_r (a ++ b)). apply sublist_app; [exact S|constructor]. }
    split; [exact S'|]. rewrite R. cbn [negb andb]. destruct (negb (hw_transmitting (hw_events h0 a)) && (t_off t =? 0)); [|reflexivity].
    unfold change_state_il, change_state, then_hw. cbn [bind]. rewrite shutdown_events. reflexivity.
  - destruct (timed_out now t).
    2:{ exists [], []. rewrite then_nil, R. auto. }
    unfold change_state_il. rewrite send_il. destruct (hw_data_waiting h0) eqn:W.
    + exists [], (g_send g). split.
      { cbn [app]. unfold in_gaps. do 2 apply sub_end. rewrite <- (app_nil_r (g_send g)) at 1. apply sublist_app; [apply sublist_refl|constructor]. }
      rewrite R. cbn [hw_events fold_left]. fold (hw_events h0). unfold change_state, then_hw. destruct (hw_send h0 (t_tx t)) as [h'|k]; reflexivity.
    + exists (g_send g), []. split.
      { rewrite app_nil_r. unfold in_gaps. do 2 apply sub_end. rewrite <- (app_nil_r (g_send g)) at 1. apply sublist_app; [apply sublist_refl|constructor]. }
      rewrite R, then_nil. unfold change_state. destruct (hw_send (hw_events h0 (g_send g)) (t_tx t)) as [h'|k]; reflexivity.
  - destruct re.
    + destruct rv.
      * destruct (check_tail p now (set_rx_status t STATUS_ERR_PARITY) h0 true true c true g) as (a & b & S & E).
        exists a, b. split; [apply in_gaps_tail, S|]. rewrite R. exact E.
      * destruct (finish_coll now g (set_rx_status t STATUS_ERR_PARITY) h0) as (a & S & E). exists a, []. rewrite app_nil_r, then_nil.
        split; [apply in_gaps_tail, sub_end, S|]. rewrite R. exact E.
    + destruct (busy || rv) eqn:Bz.
      * unfold change_state_il, change_state. cbn [bind]. destruct rv.
        -- destruct (check_tail p now (enter now t T_CHECK_DATA) h0 false true c false g) as (a & b & S & E).
           exists a, b. split; [apply in_gaps_tail, S|]. rewrite R. exact E.
        -- exists [], []. rewrite then_nil, R. auto.
      * cbn [bind]. destruct rv; [destruct busy; discriminate|]. exists [], []. rewrite then_nil, R. auto.
  - destruct (check_tail p now t h0 re rv c false g) as (a & b & S & E). exists a, b. split; [apply in_gaps_tail, S|]. rewrite R. exact E.
  - destruct busy; cbn [negb]; exists [], []; rewrite then_nil, R; auto.
Qed.

Lemma hw_pad p now a : forall t h, exists o, mrun (tx_event p) (t, h) (map (fun x => (now, Hw x)) a) = Ok ((t, hw_events h a), o) /\ answers o = [].
Proof.
  induction a as [|x a IH]; intros t h; [exists []; auto|]. cbn [map mrun tx_event bind]. destruct (IH t (hw_step h x)) as (o & -> & A). eexists. split; [reflexivity|]. exact A.
Qed.
Lemma answers_app a b : answers (a ++ b) = answers a ++ answers b.
Proof. apply flat_map_app. Qed.

(** Whatever an interrupted run does - also if it is undefined - a serial one does. *)
Lemma serialise p l : Forall dma_still l -> forall s, exists l', serial l l' /\
  match mrun (tx_ievent p) s l with
  | Ok (s', o) => exists o', mrun (tx_event p) s l' = Ok (s', o') /\ answers o' = answers o
  | UB k => mrun (tx_event p) s l' = UB k
  end.
Proof.
  induction 1 as [|[now e] l D F IH]; intros s; [exists []; split; [constructor|]; exists []; auto|].
  destruct e as [ev|busy re rv c g].
  - cbn [mrun tx_ievent fst snd]. destruct (tx_event p s (now, ev)) as [[s1 o1]|k] eqn:E.
    + destruct (IH s1) as (l' & S & H). exists ((now, ev) :: l'). split; [constructor; exact S|]. cbn [bind mrun]. rewrite E. cbn [bind].
      destruct (mrun (tx_ievent p) s1 l) as [[s2 o2]|k] eqn:E2; cbn [bind].
      * destruct H as (o' & -> & A). eexists. split; [reflexivity|]. cbn. f_equal. exact A.
      * rewrite H. reflexivity.
    + destruct (IH s) as (l' & S & _). exists ((now, ev) :: l'). split; [constructor; exact S|]. cbn [bind mrun]. rewrite E. reflexivity.
  - cbn in D. destruct s as [t h]. destruct (update_il p now t h busy re rv c g D) as (a & b & Sub & E).
    cbn [mrun tx_ievent fst snd]. rewrite E. destruct (hw_pad p now a t h) as (oa & Ea & Aa).
    destruct (tx_update p now t (hw_events h a) busy re rv c) as [[t1 h1]|k] eqn:Eu; cbn [then_hw bind].
    + destruct (IH (t1, hw_events h1 b)) as (l' & S & H). eexists. split; [apply se_during; [exact Sub|exact S]|].
      destruct (hw_pad p now b t1 h1) as (ob & Eb & Ab).
      rewrite mrun_app, Ea. cbn [bind mrun tx_event]. rewrite Eu. cbn [bind]. rewrite mrun_app, Eb. cbn [bind].
      destruct (mrun (tx_ievent p) (t1, hw_events h1 b) l) as [[s2 o2]|k] eqn:E2; cbn [bind].
      * destruct H as (o' & -> & A). cbn [bind]. eexists. split; [reflexivity|]. rewrite answers_app, Aa. cbn [app answers flat_map]. fold (answers (ob ++ o')). rewrite answers_app, Ab. exact A.
      * rewrite H. reflexivity.
    + destruct (IH (t, h)) as (l' & S & _). eexists. split; [apply se_during; [exact Sub|exact S]|].
      rewrite mrun_app, Ea. cbn [bind mrun tx_event]. rewrite Eu. reflexivity.
Qed.

Lemma serial_ok l l' : serial l l' -> Forall iev_ok l -> Forall (ev_ok 1) l'.
Proof.
  assert (H : forall now a, Forall (ev_ok 1) (map (fun x => (now, Hw x)) a)) by (intros now a; apply Forall_forall; intros x I; apply in_map_iff in I; destruct I as (y & <- & _); exact I).
  induction 1 as [|now ev l l' S IH|now busy re rv c g a b l l' Sub S IH]; intros F; [constructor|inversion F; subst..].
  - constructor; auto.
  - apply Forall_app. split; [apply H|]. constructor; [assumption|]. apply Forall_app. auto.
Qed.
