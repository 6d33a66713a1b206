(** P_Core0Il.v -- proofs for C128. *)
From Verif Require Import Base M_Fifo M_Message M_Standalone M_Tx D_Tx M_HostUart M_Led M_Core1 M_Core0 D_Core0 M_TxIl S_TxIl P_TxIl M_Core0Il S_Core0Il.

Definition fin_skip (s1 : mid) (hw : pio_hw) : core0 :=
  C0 (md_rx s1) (md_busy s1) (md_since s1) (md_sm s1) hw (md_ctrl s1) (md_host s1) (md_led s1) (md_ev s1).

(** The model of M_Core0, cut in the same way. *)
Lemma iter_pre p s i : core0_iter p s i =
  let '(sm1, txfail) := tx_error (z_sm s) in
  let '(hw1, es1) := led_head sm1 (hw_events (z_hw s) (in_hw i)) (in_fifoerr i) txfail in
  let* m := core0_pre p s i es1 in
  if md_skip m then Ok (fin_skip m hw1, map A_hw (in_hw i) ++ md_log m)
  else
    let* (sm10, hw10, c9, h9, l9) := tail_part p (in_now i) (in_junk i) (md_sm m) hw1 (md_ctrl m) (md_host m) (md_busy m) (md_ev m) in
    Ok (C0 (md_rx m) (md_busy m) (md_since m) sm10 hw10 c9 h9 (md_led m) ev_none, map A_hw (in_hw i) ++ md_log m ++ l9).
Proof.
  unfold core0_iter, core0_pre, hw_events.
  destruct (tx_error (z_sm s)) as [sm1 txfail].
  destruct (led_calls (z_led s) (led_ticks (in_ticks i))) as [led0 l0].
  destruct (led_head sm1 (fold_left hw_step (in_hw i) (z_hw s)) (in_fifoerr i) txfail) as [hw1 es1].
  destruct (host_check p (in_now i) (in_junk i) (in_budget i) (in_chars i) (z_host s)) as [[h1 o1]|k]; [|reflexivity]. cbn [bind].
  destruct (led_calls led0 es1) as [led1 l1].
  match goal with |- bind ?x _ = bind (bind ?y _) _ => change y with x; destruct x as [[[[[rx2 since2] h2] led2] l2]|k]; [|reflexivity] end. cbn [bind].
  match goal with |- bind ?x _ = bind (bind ?y _) _ => change y with x; destruct x as [[[rx3 h3] l3]|k]; [|reflexivity] end. cbn [bind].
  destruct (failure_part (in_now i) (in_budget i) txfail sm1 h3 (ctrl_check (in_now i) (z_ctrl s))) as [[[[sm4 h4] c4] l4]|k]; [|reflexivity]. cbn [bind].
  destruct (in_event i) as [e|].
  - destruct (merge_event rx3 e) as [rx5|k]; [|reflexivity]. cbn [bind].
    destruct (packet_end (in_now i) (in_budget i) e rx5 c4 h4) as [[[[rx6 c6] h6] l6]|k]; [|reflexivity]. cbn [bind].
    destruct (packet_overflow (in_now i) (in_budget i) rx6 h6) as [[[rx7 h7] l7]|k]; [|reflexivity]. cbn [bind].
    destruct (line_state (in_now i) e (z_busy s) since2) as [busy since].
    destruct (led_calls led2 (led_event_part e)) as [led8 l8]. cbn [bind md_skip md_sm md_ctrl md_host md_busy md_ev md_rx md_since md_led md_log].
    destruct (tail_part p (in_now i) (in_junk i) sm4 hw1 c6 h7 busy e) as [[[[[sm10 hw10] c9] h9] l9]|k]; [|reflexivity]. cbn [bind].
    rewrite <- !app_assoc. reflexivity.
  - cbn [bind md_skip md_sm md_ctrl md_host md_busy md_ev md_rx md_since md_led md_log].
    destruct (negb (z_busy s) && (negb (ctrl_has_tx c4) && negb (host_has_data h4) && tx_is_idle sm4)).
    + unfold fin_skip. cbn [md_skip md_sm md_ctrl md_host md_busy md_ev md_rx md_since md_led md_log]. rewrite <- !app_assoc. reflexivity.
    + destruct (tail_part p (in_now i) (in_junk i) sm4 hw1 c4 h4 (z_busy s) (z_ev s)) as [[[[[sm10 hw10] c9] h9] l9]|k]; [|reflexivity]. cbn [bind].
      rewrite <- !app_assoc. reflexivity.
Qed.

Lemma led_head_events sm h f t g : led_head sm (hw_events h g) f t = (hw_events (fst (led_head sm h f t)) g, snd (led_head sm h f t)).
Proof.
  unfold led_head. destruct (tx_is_transmitting sm); [reflexivity|]. destruct f; [reflexivity|]. rewrite read_events.
  destruct (hw_read_error h) as [h' []]; cbn [fst snd]; [reflexivity|]. destruct t; reflexivity.
Qed.
Lemma transmit_events now junk sm h c ho g : transmit_part now junk sm (hw_events h g) c ho =
  (let* (sm9, hw9, c9, h9, l) := transmit_part now junk sm h c ho in Ok (sm9, hw_events hw9 g, c9, h9, l)).
Proof.
  unfold transmit_part, tx_wake, change_state. destruct (tx_is_idle sm) eqn:I; [|reflexivity].
  destruct (host_has_data ho).
  - destruct (host_pop junk ho) as [[h' m]|k]; [|reflexivity]. cbn [bind]. reflexivity.
  - destruct (ctrl_has_tx c); [|reflexivity]. destruct (ctrl_tx_answer c (msg_new junk)) as [[c' m]|k]; reflexivity.
Qed.
Lemma pre_hw p s i hw es1 : core0_pre p s (IN0 (in_now i) (in_chars i) (in_budget i) (in_fifoerr i) (in_event i) hw (in_ticks i) (in_junk i)) es1 = core0_pre p s i es1.
Proof. reflexivity. Qed.
Lemma pre_and p s g i es1 : core0_pre p (and_hw s g) i es1 = core0_pre p s i es1.
Proof. reflexivity. Qed.

Definition with_in (i : inp0) (hw : list hw_event) : inp0 := IN0 (in_now i) (in_chars i) (in_budget i) (in_fifoerr i) (in_event i) hw (in_ticks i) (in_junk i).
Lemma and_hw_nil s : and_hw s [] = s.
Proof. destruct s; reflexivity. Qed.

(** The log of the program has no hardware events in it. *)
Definition softb (e : act) : bool := match e with A_hw _ => false | _ => true end.
Lemma soft_id l : forallb softb l = true -> filter softb l = l.
Proof. induction l as [|x l IH]; [reflexivity|]. cbn [forallb filter]. intros H. apply andb_prop in H. destruct H as [-> H]. rewrite IH by exact H. reflexivity. Qed.
Lemma soft_hw g l : filter softb (map A_hw g ++ l) = filter softb l.
Proof. induction g as [|x g IH]; [reflexivity|]. exact IH. Qed.
Lemma soft_led es : forallb softb (map A_led es) = true.
Proof. induction es; [reflexivity|assumption]. Qed.
Lemma soft_report why now bud h m h' m' l : report why now bud h m = Ok (h', m', l) -> forallb softb l = true.
Proof. unfold report. destruct (host_update_and_send now bud h m) as [[[x y] z]|k]; [|discriminate]. cbn [bind]. intros H. injection H as _ _ <-. reflexivity. Qed.
Lemma soft_failure now bud t sm h c sm' h' c' l : failure_part now bud t sm h c = Ok (sm', h', c', l) -> forallb softb l = true.
Proof.
  unfold failure_part. destruct t; [|intros H; injection H as _ _ _ <-; reflexivity].
  destruct (negb (m_status (t_rx sm) =? STATUS_ERR_PARITY)).
  - destruct (report R_txfail now bud h (t_rx sm)) as [[[h2 rx'] l2]|k] eqn:R; [|discriminate]. cbn [bind]. apply soft_report in R.
    destruct (is_tx_answer c (t_tx (tx_clear_rx sm (m_time rx')))) as [own|k]; [|discriminate]. cbn [bind]. intros H. injection H as _ _ _ <-.
    rewrite !forallb_app, R. destruct own; reflexivity.
  - cbn [bind]. destruct (is_tx_answer c (t_tx sm)) as [own|k]; [|discriminate]. cbn [bind]. intros H. injection H as _ _ _ <-. destruct own; reflexivity.
Qed.
Lemma soft_end now bud e rx c h rx' c' h' l : packet_end now bud e rx c h = Ok (rx', c', h', l) -> forallb softb l = true.
Proof.
  unfold packet_end. match goal with |- context [if ?b then _ else _] => destruct b end; [|intros H; injection H as _ _ _ <-; reflexivity].
  destruct (ctrl_receive c rx) as [c2|k]; [|discriminate]. cbn [bind]. destruct (report R_packet now bud h rx) as [[[h2 rx2] l2]|k] eqn:R; [|discriminate]. cbn [bind].
  apply soft_report in R. intros H. injection H as _ _ _ <-. exact R.
Qed.
Lemma soft_overflow now bud rx h rx' h' l : packet_overflow now bud rx h = Ok (rx', h', l) -> forallb softb l = true.
Proof.
  unfold packet_overflow. destruct (msg_overflow rx); [|intros H; injection H as _ _ <-; reflexivity].
  destruct (report R_full now bud h (set_status rx STATUS_ERR_OVERFLOW)) as [[[h2 rx2] l2]|k] eqn:R; [|discriminate]. cbn [bind].
  apply soft_report in R. intros H. injection H as _ _ <-. exact R.
Qed.
Lemma soft_pre p s i es m : core0_pre p s i es = Ok m -> forallb softb (md_log m) = true.
Proof.
  unfold core0_pre, led_calls. destruct (host_check p (in_now i) (in_junk i) (in_budget i) (in_chars i) (z_host s)) as [[h1 o1]|k]; [|discriminate]. cbn [bind].
  destruct (tx_error (z_sm s)) as [sm1 txfail].
  match goal with |- bind ?x _ = _ -> _ => destruct x as [[[[[rx2 since2] h2] led2] l2]|k] eqn:E2; [|discriminate] end. cbn [bind].
  assert (S2 : forallb softb l2 = true).
  { destruct (busy_timeout (in_now i) (z_busy s) (z_since s)).
    - match type of E2 with bind ?x _ = _ => destruct x as [[[hx rx'] l]|k] eqn:R; [|discriminate] end. cbn [bind] in E2. apply soft_report in R. injection E2 as _ _ _ _ <-. exact R.
    - injection E2 as _ _ _ _ <-. reflexivity. }
  clear E2. match goal with |- bind ?x _ = _ -> _ => destruct x as [[[rx3 h3] l3]|k] eqn:E3; [|discriminate] end. cbn [bind].
  assert (S3 : forallb softb l3 = true).
  { destruct (in_fifoerr i).
    - match type of E3 with bind ?x _ = _ => destruct x as [[[hx rx'] l]|k] eqn:R; [|discriminate] end. cbn [bind] in E3. apply soft_report in R. injection E3 as _ _ <-. exact R.
    - injection E3 as _ _ <-. reflexivity. }
  clear E3. destruct (failure_part (in_now i) (in_budget i) txfail sm1 h3 (ctrl_check (in_now i) (z_ctrl s))) as [[[[sm4 h4] c4] l4]|k] eqn:E4; [|discriminate]. cbn [bind].
  apply soft_failure in E4. destruct (in_event i) as [e|].
  - destruct (merge_event rx3 e) as [rx5|k]; [|discriminate]. cbn [bind].
    destruct (packet_end (in_now i) (in_budget i) e rx5 c4 h4) as [[[[rx6 c6] h6] l6]|k] eqn:E6; [|discriminate]. cbn [bind]. apply soft_end in E6.
    destruct (packet_overflow (in_now i) (in_budget i) rx6 h6) as [[[rx7 h7] l7]|k] eqn:E7; [|discriminate]. cbn [bind]. apply soft_overflow in E7.
    destruct (line_state (in_now i) e (z_busy s) since2) as [busy since]. intros H. injection H as <-. cbn [md_log].
    rewrite !forallb_app. cbn [app forallb softb]. rewrite !soft_led, S2, S3, E4, E6, E7. reflexivity.
  - intros H. injection H as <-. cbn [md_log]. rewrite !forallb_app. cbn [app forallb softb]. rewrite !soft_led, S2, S3, E4. reflexivity.
Qed.
Lemma soft_tail now junk sm h c ho sm9 hw9 c9 h9 l : transmit_part now junk sm h c ho = Ok (sm9, hw9, c9, h9, l) -> forallb softb l = true.
Proof.
  unfold transmit_part. destruct (tx_is_idle sm); [|intros H; injection H as _ _ _ _ <-; reflexivity]. destruct (host_has_data ho).
  - destruct (host_pop junk ho) as [[h' m]|k]; [|discriminate]. cbn [bind]. destruct (tx_wake now sm h m) as [[a b]|k]; [|discriminate]. cbn [bind]. intros H; injection H as _ _ _ _ <-; reflexivity.
  - destruct (ctrl_has_tx c); [|intros H; injection H as _ _ _ _ <-; reflexivity]. destruct (ctrl_tx_answer c (msg_new junk)) as [[c' m]|k]; [|discriminate]. cbn [bind].
    destruct (tx_wake now sm h m) as [[a b]|k]; [|discriminate]. cbn [bind]. intros H; injection H as _ _ _ _ <-; reflexivity.
Qed.

(** One iteration, carried over hardware events [r] included. *)
Lemma iter_il p s r i g : ~ In HwDma (g_fifo (lg_update g)) ->
  exists a b, sublist (a ++ b) (lg_mid g ++ in_gaps (lg_update g) ++ lg_end g) /\
    core0_iter_il p (and_hw s r) i g =
    (let* (s', l) := core0_iter p s (with_in i (r ++ in_hw i ++ a)) in
     Ok (and_hw s' b, filter softb l)).
Proof.
  intros N. unfold core0_iter_il.
  assert (ITER : forall a, core0_iter p s (with_in i (r ++ in_hw i ++ a)) =
    let '(sm1, txfail) := tx_error (z_sm s) in
    let '(hw1, es1) := led_head sm1 (hw_events (hw_events (z_hw s) r) (in_hw i)) (in_fifoerr i) txfail in
    let* m := core0_pre p s i es1 in
    if md_skip m then Ok (fin_skip m (hw_events hw1 a), map A_hw (r ++ in_hw i ++ a) ++ md_log m)
    else
      let* (sm10, hw10, c9, h9, l9) := tail_part p (in_now i) (in_junk i) (md_sm m) (hw_events hw1 a) (md_ctrl m) (md_host m) (md_busy m) (md_ev m) in
      Ok (C0 (md_rx m) (md_busy m) (md_since m) sm10 hw10 c9 h9 (md_led m) ev_none, map A_hw (r ++ in_hw i ++ a) ++ md_log m ++ l9)).
  { intros a. rewrite iter_pre. unfold with_in. cbn [in_now in_chars in_budget in_fifoerr in_event in_hw in_ticks in_junk].
    destruct (tx_error (z_sm s)) as [sm1 txfail]. rewrite !events_app, led_head_events.
    destruct (led_head sm1 (hw_events (hw_events (z_hw s) r) (in_hw i)) (in_fifoerr i) txfail) as [hw1 es1]. cbn [fst snd]. rewrite pre_hw. reflexivity. }
  change (z_sm (and_hw s r)) with (z_sm s). change (z_hw (and_hw s r)) with (hw_events (z_hw s) r).
  destruct (tx_error (z_sm s)) as [sm1 txfail].
  destruct (led_head sm1 (hw_events (hw_events (z_hw s) r) (in_hw i)) (in_fifoerr i) txfail) as [hw1 es1]. rewrite pre_and.
  destruct (core0_pre p s i es1) as [m|k] eqn:Pre.
  2:{ exists [], []. split; [constructor|]. rewrite ITER. reflexivity. }
  cbn [bind] in *. apply soft_pre in Pre. destruct (md_skip m).
  { exists (lg_mid g), (lg_end g). split.
    { apply sublist_app; [apply sublist_refl|]. apply sub_end, sublist_refl. }
    rewrite ITER. cbn [bind]. rewrite soft_hw, soft_id by exact Pre. reflexivity. }
  unfold tail_part_il. rewrite transmit_events.
  destruct (transmit_part (in_now i) (in_junk i) (md_sm m) hw1 (md_ctrl m) (md_host m)) as [[[[[sm9 hw9] c9] h9] l9]|k] eqn:Tr; cbn [bind].
  2:{ exists [], []. split; [constructor|]. rewrite ITER. unfold tail_part. cbn [hw_events fold_left]. rewrite Tr. reflexivity. }
  destruct (update_il p (in_now i) sm9 (hw_events hw9 (lg_mid g)) (md_busy m) (ev_error (md_ev m)) (ev_valid (md_ev m)) (ev_char (md_ev m)) (lg_update g) N) as (a & b & Sub & E).
  exists (lg_mid g ++ a), (b ++ lg_end g). split.
  { rewrite <- app_assoc. apply sublist_app; [apply sublist_refl|]. rewrite app_assoc. apply sublist_app; [exact Sub|apply sublist_refl]. }
  rewrite E, ITER. unfold tail_part. rewrite transmit_events, Tr. cbn [bind]. rewrite events_app.
  destruct (tx_update p (in_now i) sm9 (hw_events (hw_events hw9 (lg_mid g)) a) (md_busy m) (ev_error (md_ev m)) (ev_valid (md_ev m)) (ev_char (md_ev m))) as [[sm10 hw10]|k]; cbn [then_hw bind]; [|reflexivity].
  rewrite soft_hw. assert (S9 : forallb softb (md_log m ++ l9 ++ [A_update (md_busy m) (ev_error (md_ev m)) (ev_valid (md_ev m)) (ev_char (md_ev m))]) = true).
  { rewrite !forallb_app, Pre, (soft_tail _ _ _ _ _ _ _ _ _ _ _ Tr). reflexivity. }
  rewrite soft_id by exact S9. unfold and_hw. cbn [z_rx z_busy z_since z_sm z_hw z_ctrl z_host z_led z_ev]. rewrite events_app. reflexivity.
Qed.

Lemma program_map t l : program (map (pair t) l) = map (pair t) (filter softb l).
Proof. induction l as [|x l IH]; [reflexivity|]. cbn [map program filter snd]. destruct x; cbn [softb map]; first [exact IH | f_equal; exact IH]. Qed.

(** Histories. *)
Lemma run_il l : Forall still l -> forall s r, exists l' rest, Forall2 but_hw l l' /\ sublist (flat_map in_hw l' ++ rest) (r ++ flat_map all_hw l) /\
  match mrun core0_istep (and_hw s r) l with
  | Ok (s', o) => exists s2 o2, mrun core0_step s l' = Ok (s2, o2) /\ s' = and_hw s2 rest /\ map program o2 = o
  | UB k => mrun core0_step s l' = UB k
  end.
Proof.
  induction 1 as [|[i g] l D F IH]; intros s r.
  { exists [], r. split; [constructor|]. split; [rewrite app_nil_r; apply sublist_refl|]. cbn [mrun]. exists s, []. auto. }
  destruct (iter_il pico s r i g D) as (a & b & Sub & E). cbn [mrun]. unfold core0_istep at 1. cbn [fst snd]. rewrite E.
  assert (SUB : forall l2 rest, sublist (l2 ++ rest) (b ++ flat_map all_hw l) -> sublist (((r ++ in_hw i ++ a) ++ l2) ++ rest) (r ++ all_hw (i, g) ++ flat_map all_hw l)).
  { intros l2 rest S. rewrite <- !app_assoc. apply sublist_app; [apply sublist_refl|]. unfold all_hw at 1. cbn [fst snd]. rewrite <- !app_assoc.
    apply sublist_app; [apply sublist_refl|].
    assert (T : forall (A : Type) (x y z : list A), sublist x y -> sublist y z -> sublist x z).
    { clear. intros A x y z H1 H2. revert x H1. induction H2 as [b|e a b S IH|e a b S IH]; intros x H1; [inversion H1; constructor| |constructor; auto].
      inversion H1; subst; constructor; auto. }
    apply (T _ _ (a ++ (b ++ flat_map all_hw l))); [apply sublist_app; [apply sublist_refl|exact S]|].
    rewrite app_assoc. rewrite !app_assoc. rewrite <- (app_assoc (lg_mid g)). apply sublist_app; [exact Sub|apply sublist_refl]. }
  destruct (core0_iter pico s (with_in i (r ++ in_hw i ++ a))) as [[s1 log]|k] eqn:Ei; cbn [bind].
  - destruct (IH s1 b) as (l' & rest & F2 & S & H). exists (with_in i (r ++ in_hw i ++ a) :: l'), rest.
    split; [constructor; [eexists; reflexivity|exact F2]|]. split; [cbn [flat_map]; apply SUB, S|].
    cbn [mrun]. unfold core0_step at 1 3. rewrite Ei. cbn [bind].
    destruct (mrun core0_istep (and_hw s1 b) l) as [[s2 o2]|k]; cbn [bind].
    + destruct H as (s3 & o3 & -> & -> & <-). cbn [bind]. exists s3, (map (pair (in_now i)) log :: o3). split; [reflexivity|]. split; [reflexivity|].
      cbn [map]. rewrite program_map. reflexivity.
    + rewrite H. reflexivity.
  - destruct (IH s b) as (l' & rest & F2 & S & _). exists (with_in i (r ++ in_hw i ++ a) :: l'), rest.
    split; [constructor; [eexists; reflexivity|exact F2]|]. split; [cbn [flat_map]; apply SUB, S|].
    cbn [mrun]. unfold core0_step at 1. rewrite Ei. reflexivity.
Qed.

Lemma flat_program {B} (f : Z * act -> list B) o : (forall t x, f (t, A_hw x) = []) -> flat_map f (concat (map program o)) = flat_map f (concat o).
Proof.
  intros H. assert (L : forall l, flat_map f (program l) = flat_map f l).
  { induction l as [|[t x] l IH]; [reflexivity|]. cbn [program filter snd flat_map]. destruct x; cbn [flat_map]; try (f_equal; exact IH). rewrite H. exact IH. }
  induction o as [|l o IH]; [reflexivity|]. cbn [map concat]. rewrite !flat_map_app, L, IH. reflexivity.
Qed.
Lemma but_hw_ok l l' : Forall2 but_hw l l' -> Forall in_ok (map fst l) -> Forall in_ok l'.
Proof.
  induction 1 as [|x i l l' (hw & ->) F IH]; intros K; [constructor|]. inversion K; subst. constructor; [|auto]. exact H1.
Qed.
Lemma but_hw_text l l' : Forall2 but_hw l l' -> text l' = text (map fst l).
Proof. induction 1 as [|x i l l' (hw & ->) F IH]; [reflexivity|]. cbn [text flat_map map]. unfold text in IH. rewrite IH. reflexivity. Qed.
