(** P_TxClk.v -- retiming: every run with separate clock readings is, but for the deadline, a run of M_Tx (C133). *)
From Verif Require Import Base M_Message M_Tx D_Tx M_TxClk P_Ctrl P_Tx P_TxRun P_TxHist.

Definition setw (w : Z) (t : txsm) : txsm := TX (t_tx t) (t_rx t) (t_st t) w (t_off t) (t_err t).
Definition sim {A} (x y : txsm * pio_hw * A) : Prop := exists w, y = (setw w (fst (fst x)), snd (fst x), snd x).
Definition sim2 (x y : txsm * pio_hw) : Prop := exists w, y = (setw w (fst x), snd x).
Definition rsim {A} (R : A -> A -> Prop) (x y : res A) : Prop :=
  match x, y with Ok a, Ok b => R a b | UB a, UB b => a = b | _, _ => False end.
Lemma rsim_bind {A B} (R : A -> A -> Prop) (Q : B -> B -> Prop) x y f g :
  rsim R x y -> (forall a b, R a b -> rsim Q (f a) (g b)) -> rsim Q (bind x f) (bind y g).
Proof. destruct x, y; cbn; intros H K; try contradiction; auto. Qed.
Lemma rsim_refl {A} (x : res A) : rsim eq x x.
Proof. destruct x; cbn; auto. Qed.

Lemma cs_sim n n' t w h s : rsim sim2 (change_state n t h s) (change_state n' (setw w t) h s).
Proof.
  unfold change_state. eapply rsim_bind with (R := eq).
  - destruct s; cbn [setw t_tx]; apply rsim_refl.
  - intros a b <-. eexists. unfold enter, setw. cbn. reflexivity.
Qed.
Lemma cs3_sim n n' t w h s c : rsim sim (let* (a, b) := change_state n t h s in Ok (a, b, c)) (let* (a, b) := change_state n' (setw w t) h s in Ok (a, b, c : bool)).
Proof. eapply rsim_bind; [apply cs_sim|]. intros (a, b) y (w' & ->). exists w'. reflexivity. Qed.
Lemma sim_intro w t h c : rsim (@sim bool) (Ok (t, h, c)) (Ok (setw w t, h, c)).
Proof. exists w. reflexivity. Qed.
Lemma chk_sim p n n' t w h re rv c k : rsim sim (check_data_case p n t h re rv c k) (check_data_case p n' (setw w t) h re rv c k).
Proof.
  unfold check_data_case. destruct re; [exists w; reflexivity|]. destruct rv; [|apply sim_intro].
  cbn [t_tx t_off t_rx t_err setw].
  eapply rsim_bind; [apply rsim_refl|]. intros b ? <-. eapply rsim_bind; [apply rsim_refl|]. intros rx ? <-.
  cbn zeta. exact (cs3_sim n n' (TX (t_tx t) rx (t_st t) (t_wait t) (u32 (t_off t + 1)) (t_err t)) w h _ _).
Qed.

(** A reading of the clock with a given answer. *)
Definition pick (late : bool) (w : Z) : Z := if late then w else w - 1.
Lemma pick_ok b w t : timed_out (pick b w) (setw w t) = b.
Proof. unfold timed_out, pick. cbn [t_wait setw]. destruct b; [apply Z.leb_refl|]. apply Z.leb_gt. lia. Qed.

Lemma update_sim p r t w h busy re rv c :
  exists n, rsim sim2 (tx_update_clk p r t h busy re rv c) (tx_update p n (setw w t) h busy re rv c).
Proof.
  exists (pick (match t_st t with T_WAIT_POWERON => timed_out (r_timedout r) t | _ => timed_out (r_error r) t end) w).
  set (n := pick _ w).
  assert (E : st_is_error n (setw w t) = st_is_error (r_error r) t).
  { unfold st_is_error, n. rewrite pick_ok. cbn [t_st setw]. destruct (t_st t); cbn [timeout_is_error]; rewrite ?Bool.andb_false_r, ?Bool.andb_true_r; reflexivity. }
  assert (T : t_st t = T_WAIT_POWERON -> timed_out n (setw w t) = timed_out (r_timedout r) t).
  { intros H. unfold n. rewrite pick_ok, H. reflexivity. }
  clearbody n. unfold tx_update_clk, tx_update. rewrite E.
  change (line_is_error (setw w t) busy) with (line_is_error t busy).
  destruct (st_is_error (r_error r) t || line_is_error t busy).
  { cbn zeta. change (set_rx_status (setw w t) ?s) with (setw w (set_rx_status t s)). eapply rsim_bind; [apply cs_sim|].
    intros (a, b) y (w' & ->). exists w'. reflexivity. }
  change (tx_is_idle (setw w t)) with (tx_is_idle t).
  destruct (if tx_is_idle t then (h, false) else hw_read_error h) as (h0, ue).
  destruct ue.
  { change (set_rx_status (setw w t) ?s) with (setw w (set_rx_status t s)). eapply rsim_bind; [apply cs_sim|].
    intros (a, b) y (w' & ->). exists w'. reflexivity. }
  eapply rsim_bind with (R := @sim bool).
  - change (t_st (setw w t)) with (t_st t). change (t_off (setw w t)) with (t_off t). destruct (t_st t).
    + apply sim_intro.
    + destruct (_ && _); [apply cs3_sim|apply sim_intro].
    + rewrite T by reflexivity. clear T E. destruct (timed_out (r_timedout r) t); [apply cs3_sim|apply sim_intro].
    + eapply rsim_bind with (R := @sim bool).
      * destruct re; [exists w; reflexivity|]. destruct (busy || rv); [apply cs3_sim|apply sim_intro].
      * intros ((a, b), k) y (w' & ->). cbn [fst snd]. destruct rv; [apply chk_sim|apply sim_intro].
    + apply chk_sim.
    + destruct (negb busy); [apply cs3_sim|apply sim_intro].
  - intros ((a, b), k) y (w' & ->). cbn [fst snd]. destruct k; [|exists w'; reflexivity].
    eapply rsim_bind; [apply cs_sim|]. intros (a2, b2) y (w2 & ->). cbn [fst snd]. cbn zeta.
    change (t_rx (setw w2 a2)) with (t_rx a2). destruct (m_status (t_rx a2) =? 0); exists w2; reflexivity.
Qed.

Lemma event_sim p r ev t w h :
  exists n, rsim (fun x y => snd y = snd x /\ sim2 (fst x) (fst y)) (tx_event_clk p (t, h) (r, ev)) (tx_event p (setw w t, h) (n, ev)).
Proof.
  destruct ev as [m|busy re rv c|x| |tm].
  - exists 0. cbn [tx_event_clk tx_event]. unfold tx_wake. change (tx_is_idle (setw w t)) with (tx_is_idle t).
    destruct (tx_is_idle t); [|split; [reflexivity|exists w; reflexivity]]. cbn. split; [reflexivity|]. eexists. reflexivity.
  - destruct (update_sim p r t w h busy re rv c) as (n & H). exists n. cbn [tx_event_clk tx_event].
    eapply rsim_bind; [exact H|]. intros a b K. split; [reflexivity|exact K].
  - exists 0. cbn. split; [reflexivity|]. exists w. reflexivity.
  - exists 0. cbn. split; [reflexivity|]. exists w. reflexivity.
  - exists 0. cbn. split; [reflexivity|]. exists w. reflexivity.
Qed.

(** Runs. *)
Lemma mrun_app1 {S0 E0 O0} (f : S0 -> E0 -> res (S0 * O0)) s l e : 
  mrun f s (l ++ [e]) = (let* (s', o) := mrun f s l in let* (s2, x) := f s' e in Ok (s2, o ++ [x])).
Proof.
  revert s; induction l as [|a l IH]; intros s; cbn [mrun app bind].
  - destruct (f s e) as [(s2, x)|]; reflexivity.
  - destruct (f s a) as [(s2, x)|]; [|reflexivity]. cbn [bind]. rewrite IH. destruct (mrun f s2 l) as [(s3, o3)|]; [|reflexivity]. cbn [bind].
    destruct (f s3 e) as [(s4, x4)|]; reflexivity.
Qed.

(** The retimed schedule: the same events; after every prefix the same state but for the deadline, and the same answers. *)
Lemma retime j1 j2 l : length j2 = 32%nat -> Forall (evc_ok 1) l ->
  exists l', length l' = length l /\ map snd l' = map snd l /\ Forall (ev_ok 1) l' /\
    forall k, exists t w h o, tx_run_clk j1 j2 (firstn k l) = Ok ((t, h), o) /\ tx_run j1 j2 (firstn k l') = Ok ((setw w t, h), o).
Proof.
  intros L. induction l as [|(r, ev) l IH] using rev_ind; intros F.
  { exists []. split; [reflexivity|]. split; [reflexivity|]. split; [constructor|]. intros k. rewrite !firstn_nil. eexists _, 0, _, _. split; reflexivity. }
  apply Forall_app in F. destruct F as (F & F1). destruct (IH F) as (l' & Le & Ms & F' & K). inversion F1 as [|? ? He _]; subst.
  destruct (K (length l)) as (t & w & h & o & E1 & E2). rewrite firstn_all in E1. rewrite <- Le, firstn_all in E2.
  destruct (event_sim pico r ev t w h) as (n & Hs).
  assert (Fn : Forall (ev_ok 1) (l' ++ [(n, ev)])).
  { apply Forall_app. split; [exact F'|]. constructor; [|constructor]. exact He. }
  exists (l' ++ [(n, ev)]). split; [rewrite !app_length; cbn; lia|]. split; [rewrite !map_app, Ms; reflexivity|]. split; [exact Fn|].
  intros k. destruct (Nat.le_gt_cases k (length l)) as [Hk|Hk].
  - rewrite !firstn_app. replace (k - length l)%nat with 0%nat by lia. replace (k - length l')%nat with 0%nat by lia. rewrite !firstn_O, !app_nil_r. apply K.
  - rewrite !firstn_all2 by (rewrite app_length; cbn; lia).
    destruct (run_inv j1 j2 (l' ++ [(n, ev)]) L Fn) as (t3 & h3 & o3 & E3 & _).
    assert (E3' := E3). unfold tx_run in E3'. rewrite mrun_app1 in E3'. unfold tx_run in E2. rewrite E2 in E3'. cbn [bind] in E3'.
    unfold tx_run_clk in *. rewrite mrun_app1, E1. cbn [bind].
    destruct (tx_event_clk pico (t, h) (r, ev)) as [((t1, h1), x1)|u1]; destruct (tx_event pico (setw w t, h) (n, ev)) as [(s2, x2)|u2]; cbn [rsim] in Hs; try contradiction; [|discriminate].
    cbn [fst snd] in Hs. destruct Hs as (Hx & (w' & Hy)). cbn [fst snd] in Hy. subst s2. subst x2. cbn [bind] in *.
    exists t1, w', h1, (o ++ [x1]). split; [reflexivity|]. rewrite E3. symmetry. exact E3'.
Qed.

(** With one reading per Update it is M_Tx. *)
Lemma update_clk_one p n t h busy re rv c : tx_update_clk p (one_reading n) t h busy re rv c = tx_update p n t h busy re rv c.
Proof. reflexivity. Qed.

(** The times of one Update. *)
Lemma cs_inv n t h s t2 h2 : change_state n t h s = Ok (t2, h2) ->
  t2 = enter n t s /\ (s <> T_STARTED -> hw_dma h2 = hw_dma h \/ hw_dma h2 = []) /\ (s = T_STARTED -> hw_send h (t_tx t) = Ok h2).
Proof.
  unfold change_state. destruct s; cbn [bind]; intros E; try (injection E as <- <-; split; [reflexivity|split; intros H; [cbn; auto|discriminate]]).
  destruct (hw_send h (t_tx t)) as [x|]; cbn [bind] in E; [|discriminate]. injection E as <- <-. split; [reflexivity|]. split; [intros H; contradiction|reflexivity].
Qed.
Lemma chk_inv p n t h re rv c k t2 h2 k2 : check_data_case p n t h re rv c k = Ok (t2, h2, k2) ->
  ((t_st t2 = t_st t /\ t_wait t2 = t_wait t /\ h2 = h /\ t_off t2 = t_off t) \/ ((t_st t2 = T_CHECK_DATA \/ t_st t2 = T_WAIT_IDLE) /\ t_wait t2 = n + timeout_for (t_st t2) /\ t_off t2 = u32 (t_off t + 1))) /\
  (hw_dma h2 = hw_dma h \/ hw_dma h2 = []).
Proof.
  unfold check_data_case. destruct re; [intros E; injection E as <- <- <-; split; auto|]. destruct rv; [|intros E; injection E as <- <- <-; split; auto].
  destruct (aget _ _) as [b|]; cbn [bind]; [|discriminate]. destruct (msg_append _ _) as [rx|]; cbn [bind]; [|discriminate]. cbn zeta.
  match goal with |- context [change_state ?n ?t ?h ?s] => destruct (change_state n t h s) as [(a, b')|] eqn:E end; cbn [bind]; [|discriminate].
  intros Q. injection Q as <- <- <-. apply cs_inv in E. destruct E as (-> & D & _).
  destruct (_ =? _); (split; [right|apply D; discriminate]); cbn; auto.
Qed.
Inductive clk_case (r : readings) (busy : bool) (t : txsm) (h : pio_hw) (t' : txsm) (h' : pio_hw) : Prop :=
| CkIdle : t_st t' = T_IDLE -> hw_dma h' = hw_dma h \/ hw_dma h' = [] -> clk_case r busy t h t' h'
| CkStay : t_st t <> T_IDLE -> t_st t' = t_st t -> t_wait t' = t_wait t -> (if busy then t_st t <> T_WAIT_POWERON else True) ->
    (match t_st t with T_WAIT_POWERON => r_timedout r | _ => r_error r end) < t_wait t -> hw_dma h' = hw_dma h -> t_off t' = t_off t -> clk_case r busy t h t' h'
| CkPower : t_st t = T_WAIT_LINEFREE -> t_st t' = T_WAIT_POWERON -> t_wait t' = r_enter r + 32000 -> busy = false -> hw_transmitting h = false -> hw_dma h' = hw_dma h -> r_error r < t_wait t -> clk_case r busy t h t' h'
| CkStart h0 : t_st t = T_WAIT_POWERON -> t_st t' = T_STARTED -> t_wait t' = r_enter r + 2000 -> busy = false -> t_wait t <= r_timedout r ->
    hw_dma h0 = hw_dma h -> hw_send h0 (t_tx t) = Ok h' -> t_tx t' = t_tx t -> clk_case r busy t h t' h'
| CkNext n : In n [r_enter r; r_next r; r_collision r] -> t_st t' = T_CHECK_DATA \/ t_st t' = T_WAIT_IDLE -> t_wait t' = n + 4000 ->
    hw_dma h' = hw_dma h \/ hw_dma h' = [] ->
    t_st t = T_STARTED \/ t_st t = T_CHECK_DATA -> r_error r < t_wait t -> (t_st t = T_CHECK_DATA -> t_st t' = T_CHECK_DATA -> t_off t' = u32 (t_off t + 1)) -> clk_case r busy t h t' h'.
Lemma update_clk_cases p r t h busy re rv c t' h' : tx_update_clk p r t h busy re rv c = Ok (t', h') -> clk_case r busy t h t' h'.
Proof.
  unfold tx_update_clk. destruct (st_is_error (r_error r) t || line_is_error t busy) eqn:Er.
  { cbn zeta. match goal with |- context [change_state ?n ?t ?h ?s] => destruct (change_state n t h s) as [(a, b)|] eqn:E end; cbn [bind]; [|discriminate].
    intros Q. injection Q as <- <-. apply cs_inv in E. destruct E as (-> & D & _). apply CkIdle; [reflexivity|apply D; discriminate]. }
  apply Bool.orb_false_iff in Er. destruct Er as (Er & El).
  assert (W : t_st t <> T_IDLE -> t_st t <> T_WAIT_POWERON -> r_error r < t_wait t).
  { intros H1 H2. unfold st_is_error, timed_out in Er. destruct (Z.leb_spec (t_wait t) (r_error r)); [|assumption]. destruct (t_st t); try contradiction; discriminate. }
  assert (P : t_st t = T_WAIT_POWERON -> busy = false).
  { intros H. unfold line_is_error in El. destruct busy; [|reflexivity]. rewrite H in El. discriminate. }
  clear Er El.
  destruct (if tx_is_idle t then (h, false) else hw_read_error h) as (h0, ue) eqn:Eh.
  assert (D0 : hw_dma h0 = hw_dma h /\ hw_transmitting h0 = hw_transmitting h).
  { destruct (tx_is_idle t); [injection Eh as <- <-|unfold hw_read_error in Eh; injection Eh as <- <-]; split; reflexivity. }
  destruct D0 as (D0 & T0). clear Eh. destruct ue.
  { match goal with |- context [change_state ?n ?t ?h ?s] => destruct (change_state n t h s) as [(a, b)|] eqn:E end; cbn [bind]; [|discriminate].
    intros Q. injection Q as <- <-. apply cs_inv in E. destruct E as (-> & D & _). apply CkIdle; [reflexivity|]. rewrite <- D0. apply D; discriminate. }
  destruct (t_st t) eqn:Es.
  - cbn [bind]. intros Q. injection Q as <- <-. apply CkIdle; [exact Es|left; exact D0].
  - destruct (negb busy && negb (hw_transmitting h0) && (t_off t =? 0)) eqn:Eb.
    + apply Bool.andb_true_iff in Eb. destruct Eb as (Eb & _). apply Bool.andb_true_iff in Eb. destruct Eb as (Eb & Et).
      apply Bool.negb_true_iff in Eb, Et. cbn [change_state bind]. intros Q. injection Q as <- <-.
      apply CkPower; [exact Es|reflexivity|reflexivity|exact Eb|congruence|exact D0|apply W; discriminate].
    + cbn [bind]. intros Q. injection Q as <- <-. apply CkStay; [congruence|congruence|reflexivity|rewrite Es; destruct busy; [discriminate|exact I]|rewrite Es; apply W; discriminate|exact D0|reflexivity].
  - destruct (timed_out (r_timedout r) t) eqn:Et.
    + destruct (change_state (r_enter r) t h0 T_STARTED) as [(a, b)|] eqn:E; cbn [bind]; [|discriminate].
      intros Q. injection Q as <- <-. apply cs_inv in E. destruct E as (-> & _ & D). apply Z.leb_le in Et.
      apply (CkStart _ _ _ _ _ _ h0); [exact Es|reflexivity|reflexivity|auto|exact Et|exact D0|auto|reflexivity].
    + cbn [bind]. intros Q. injection Q as <- <-. apply Z.leb_gt in Et.
      apply CkStay; [congruence|congruence|reflexivity|rewrite P by reflexivity; exact I|rewrite Es; exact Et|exact D0|reflexivity].
  - assert (WW : r_error r < t_wait t) by (apply W; discriminate). clear W.
    assert (A : forall a b k, (if re then Ok (set_rx_status t STATUS_ERR_PARITY, h0, true)
              else if busy || rv then let* (a, b) := change_state (r_enter r) t h0 T_CHECK_DATA in Ok (a, b, false) else Ok (t, h0, false)) = Ok (a, b, k) ->
       (t_st a = T_STARTED /\ t_wait a = t_wait t /\ b = h0 /\ t_off a = t_off t) \/ (t_st a = T_CHECK_DATA /\ t_wait a = r_enter r + 4000 /\ b = h0)).
    { intros a b k Q. destruct re; [injection Q as <- <- <-; left; auto|]. destruct (busy || rv); [|injection Q as <- <- <-; left; auto].
      cbn [change_state bind] in Q. injection Q as <- <- <-. right. auto. }
    match goal with |- context [bind (bind ?x ?f) ?g] => destruct x as [((a, b), k)|] eqn:Ex end; cbn [bind]; [|discriminate].
    specialize (A _ _ _ eq_refl). clear Ex.
    assert (A2 : forall a2 b2 k2, (if rv then check_data_case p (r_next r) a b re rv c k else Ok (a, b, k)) = Ok (a2, b2, k2) ->
      (hw_dma b2 = hw_dma h \/ hw_dma b2 = []) /\
      ((t_st a2 = T_STARTED /\ t_wait a2 = t_wait t /\ b2 = h0 /\ t_off a2 = t_off t) \/
       (exists n, In n [r_enter r; r_next r; r_collision r] /\ (t_st a2 = T_CHECK_DATA \/ t_st a2 = T_WAIT_IDLE) /\ t_wait a2 = n + 4000))).
    { intros a2 b2 k2 Q. assert (Db : b = h0) by (destruct A as [(_ & _ & X & _)|(_ & _ & X)]; exact X). subst b. destruct rv.
      - apply chk_inv in Q. destruct Q as (Q & D). split; [rewrite <- D0; exact D|]. destruct Q as [(Q1 & Q2 & Q3 & Q4)|(Q1 & Q2 & Q4)].
        + destruct A as [(A1 & A2 & _ & A4)|(A1 & A2 & _)]; [left; rewrite Q1, Q2, Q4; auto|right]. exists (r_enter r). split; [left; reflexivity|]. split; [left; congruence|congruence].
        + right. exists (r_next r). split; [right; left; reflexivity|]. split; [exact Q1|]. rewrite Q2. destruct Q1 as [-> | ->]; reflexivity.
      - injection Q as <- <- <-. split; [left; exact D0|]. destruct A as [(A1 & A2 & _ & A4)|(A1 & A2 & _)]; [left; auto|right].
        exists (r_enter r). split; [left; reflexivity|]. auto. }
    clear A. destruct (if rv then _ else _) as [((a2, b2), k2)|]; cbn [bind]; [|discriminate]. specialize (A2 _ _ _ eq_refl). destruct A2 as (D & A2).
    destruct k2.
    + destruct (change_state (r_collision r) a2 b2 T_WAIT_IDLE) as [(a3, b3)|] eqn:E; cbn [bind]; [|discriminate]. apply cs_inv in E. destruct E as (-> & D3 & _).
      cbn zeta. intros Q. injection Q as <- <-. apply CkNext with (n := r_collision r); [right; right; left; reflexivity| | | | | |].
      * right. destruct (m_status _ =? 0); reflexivity.
      * destruct (m_status _ =? 0); reflexivity.
      * destruct D3 as [D3|D3]; [discriminate| |right; exact D3]. rewrite D3. exact D.
      * left; exact Es.
      * exact WW.
      * intros _ K. exfalso. destruct (m_status _ =? 0); discriminate K.
    + intros Q. injection Q as <- <-. destruct A2 as [(A1 & A2 & -> & A4)|(n & A1 & A2 & A3)].
      * apply CkStay; [congruence|congruence|exact A2|rewrite Es; destruct busy; [discriminate|exact I]|rewrite Es; exact WW|exact D0|exact A4].
      * apply CkNext with (n := n); auto. intros K. congruence.
  - assert (WW : r_error r < t_wait t) by (apply W; discriminate). clear W.
    destruct (check_data_case p (r_next r) t h0 re rv c false) as [((a2, b2), k2)|] eqn:E; cbn [bind]; [|discriminate].
    apply chk_inv in E. rewrite Es, D0 in E. destruct E as (Q & D). destruct k2.
    + destruct (change_state (r_collision r) a2 b2 T_WAIT_IDLE) as [(a3, b3)|] eqn:E; cbn [bind]; [|discriminate]. apply cs_inv in E. destruct E as (-> & D3 & _).
      cbn zeta. intros Q2. injection Q2 as <- <-. apply CkNext with (n := r_collision r); [right; right; left; reflexivity| | | | | |].
      * right. destruct (m_status _ =? 0); reflexivity.
      * destruct (m_status _ =? 0); reflexivity.
      * destruct D3 as [D3|D3]; [discriminate| |right; exact D3]. rewrite D3. exact D.
      * right; exact Es.
      * exact WW.
      * intros _ K. exfalso. destruct (m_status _ =? 0); discriminate K.
    + intros Q2. injection Q2 as <- <-. destruct Q as [(A1 & A2 & -> & A4)|(A1 & A2 & A4)].
      * apply CkStay; [congruence|congruence|exact A2|rewrite Es; destruct busy; [discriminate|exact I]|rewrite Es; exact WW|exact D0|exact A4].
      * apply CkNext with (n := r_next r); [right; left; reflexivity|exact A1| |exact D|right; exact Es|exact WW|intros _ _; exact A4]. rewrite A2. destruct A1 as [-> | ->]; reflexivity.
  - destruct (negb busy).
    + cbn [change_state bind]. intros Q. injection Q as <- <-. apply CkIdle; [reflexivity|left; exact D0].
    + cbn [bind]. intros Q. injection Q as <- <-. apply CkStay; [congruence|congruence|reflexivity|rewrite Es; destruct busy; [discriminate|exact I]|rewrite Es; apply W; discriminate|exact D0|reflexivity].
Qed.
