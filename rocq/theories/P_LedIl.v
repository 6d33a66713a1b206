(** P_LedIl.v -- interrupted LED calls. *)
From Verif Require Import Base M_Led M_LedIl S_Led S_LedIl P_Led.

Lemma panels_app a : forall m b, panels m (a ++ b) = panels m a ++ panels (fold_left lm_step a m) b.
Proof. induction a as [|e t IH]; intros m b; [reflexivity|]. cbn [panels app fold_left]. rewrite IH, app_assoc. reflexivity. Qed.
Lemma led_il_snoc b l : forall m x, led_il_run b m (l ++ [x]) =
  let '(m1, p) := led_il_run b m l in let '(m2, q) := led_il_step b m1 x in (m2, p ++ q).
Proof.
  induction l as [|y t IH]; intros m x; cbn [led_il_run app].
  - destruct (led_il_step b m x) as [m2 q]. rewrite app_nil_r. reflexivity.
  - destruct (led_il_step b m y) as [m1 p]. rewrite IH. destruct (led_il_run b m1 t) as [m2 q]. destruct (led_il_step b m2 x) as [m3 r].
    rewrite app_assoc. reflexivity.
Qed.
Lemma window_snoc h e : forall w, window w (h ++ [e]) = match e with EvTick500 => [] | _ => window w h ++ [e] end.
Proof. induction h as [|a t IH]; intros w; [destruct e; reflexivity|]. destruct a; cbn [app window]; apply IH. Qed.

(** What newState says about the window. *)
Lemma new_window h : (lm_new (lm_run h) = LM_TX -> In EvActivityTx (window [] h)) /\ (lm_new (lm_run h) = LM_RX -> In EvActivityRx (window [] h)).
Proof.
  induction h as [|e h IH] using rev_ind; [split; intros H; discriminate|].
  rewrite window_snoc. unfold lm_run in *. rewrite fold_left_app. cbn [fold_left]. set (m := fold_left lm_step h lm_init) in *. clearbody m.
  destruct IH as (I1 & I2).
  destruct e; cbn [lm_step lm_new lm_note]; split; intros H; rewrite ?in_app_iff; cbn [In];
    try (destruct (lm_new m) eqn:E; try discriminate H; solve [auto|left; auto]);
    try (left; apply I1; exact H); try (left; apply I2; exact H).
  all: try (destruct (lm_pattern (lm_new m)) as [[? ?] ?]; discriminate H).
Qed.

(** newState after timer callbacks. *)
Lemma ticks_new g : Forall is_tick g -> forall m,
  (In EvTick500 g /\ lm_new (fold_left lm_step g m) = LM_IDLE) \/ (~ In EvTick500 g /\ lm_new (fold_left lm_step g m) = lm_new m).
Proof.
  induction 1 as [|e t [->| ->] F IH]; intros m; cbn [fold_left]; [right; auto| |].
  - destruct (IH (lm_step m EvTick100)) as [(H1 & H2)|(H1 & H2)]; [left|right]; split; auto; [right; auto|]. intros [H|H]; [discriminate|auto].
  - left. split; [left; auto|]. assert (E : lm_new (lm_step m EvTick500) = LM_IDLE) by (cbn; destruct (lm_pattern (lm_new m)) as [[? ?] ?]; reflexivity).
    destruct (IH (lm_step m EvTick500)) as [(_ & H2)|(_ & H2)]; congruence.
Qed.

(** One call. *)
Lemma call_explained b l h m e g1 g2 : m = lm_run h -> explains b l h -> ~ is_tick e -> Forall is_tick (g1 ++ g2) ->
  exists k, explains b (l ++ [ICall e g1 g2]) (h ++ k) /\ lm_call b m e g1 g2 = fold_left lm_step k m /\ panels m (g1 ++ g2) = panels m k.
Proof.
  intros Em X Ne F. apply Forall_app in F as (F1 & F2). pose proof (new_window h) as (W1 & W2). rewrite <- Em in *. unfold lm_call.
  set (m1 := fold_left lm_step g1 m) in *. set (m2 := fold_left lm_step g2 m1) in *.
  assert (Em2 : fold_left lm_step (g1 ++ g2) m = m2) by (rewrite fold_left_app; reflexivity).
  (* before the callbacks *)
  assert (First : lm_step m e = m ->
    exists k, explains b (l ++ [ICall e g1 g2]) (h ++ k) /\ m2 = fold_left lm_step k m /\ panels m (g1 ++ g2) = panels m k).
  { intros Hs. exists ([] ++ [e] ++ g1 ++ g2). split; [apply ex_call; auto|]. cbn [app fold_left panels]. rewrite Hs, Em2. split; [reflexivity|].
    destruct e; try reflexivity. exfalso. apply Ne. right. reflexivity. }
  assert (NoP : forall x, ~ is_tick x -> forall y, panels y [x] = []) by (intros x Hx y; destruct x; try reflexivity; exfalso; apply Hx; solve [left; reflexivity|right; reflexivity]).
  (* after the callbacks *)
  assert (Last : forall w, lm_note (lm_new m2) e = w ->
    exists k, explains b (l ++ [ICall e g1 g2]) (h ++ k) /\ LMGR (lm_state m2) w (lm_r m2) (lm_t m2) (lm_p m2) = fold_left lm_step k m /\ panels m (g1 ++ g2) = panels m k).
  { intros w Hw. exists ((g1 ++ g2) ++ [e] ++ []). split; [apply ex_call; auto; rewrite app_nil_r; reflexivity|]. rewrite app_nil_r.
    rewrite fold_left_app, Em2, (panels_app (g1 ++ g2) m [e]), (NoP e Ne), app_nil_r. split; [|reflexivity]. cbn [fold_left]. rewrite <- Hw.
    destruct e; try reflexivity; exfalso; apply Ne; solve [left; reflexivity|right; reflexivity]. }
  assert (Stale : forall e' w, other e = Some e' -> In e' (window [] h) -> In EvTick500 (g1 ++ g2) -> lm_note (lm_note (lm_new m2) e') e = w ->
    exists k, explains b (l ++ [ICall e g1 g2]) (h ++ k) /\ LMGR (lm_state m2) w (lm_r m2) (lm_t m2) (lm_p m2) = fold_left lm_step k m /\ panels m (g1 ++ g2) = panels m k).
  { intros e' w Ho Hin H5 Hw. exists (g1 ++ g2 ++ [e'; e]). split; [eapply ex_stale; eauto|]. rewrite app_assoc, fold_left_app, Em2, (panels_app (g1 ++ g2) m [e'; e]). rewrite <- Hw.
    destruct e; cbn in Ho; try discriminate Ho; inversion Ho; subst e'; cbn [panels lm_step app]; rewrite app_nil_r; split; reflexivity. }
  assert (Lost : forall e', b = true -> other e = Some e' -> In e' (window [] h) -> In EvTick500 g1 ->
    exists k, explains b (l ++ [ICall e g1 g2]) (h ++ k) /\ m2 = fold_left lm_step k m /\ panels m (g1 ++ g2) = panels m k).
  { intros e' Hb Ho Hin H5. exists (g1 ++ g2). split; [eapply ex_lost; eauto|]. rewrite Em2. auto. }
  assert (Eta : forall n, n = lm_new m -> LMGR (lm_state m) n (lm_r m) (lm_t m) (lm_p m) = m) by (intros n ->; destruct m; reflexivity).
  assert (T1 := ticks_new g1 F1 m). assert (T2 := ticks_new g2 F2 m1). fold m1 in T1. fold m2 in T2.
  assert (V : lm_new m2 = LM_IDLE /\ In EvTick500 (g1 ++ g2) \/ lm_new m2 = lm_new m).
  { destruct T2 as [(H1 & H2)|(H1 & H2)]; [left; split; auto; apply in_or_app; auto|]. destruct T1 as [(H3 & H4)|(H3 & H4)]; [left; split; [congruence|apply in_or_app; auto]|right; congruence]. }
  assert (V2 : In EvTick500 g1 -> lm_new m2 = LM_IDLE).
  { intros H5. destruct T2 as [(H1 & H2)|(H1 & H2)]; [auto|]. destruct T1 as [(H3 & H4)|(H3 & H4)]; [congruence|contradiction]. }
  clearbody m2. assert (V1 : (lm_new m1 = LM_IDLE /\ In EvTick500 g1) \/ lm_new m1 = lm_new m) by tauto. clear T1 T2. clearbody m1.
  destruct e; try (exfalso; apply Ne; solve [left; reflexivity|right; reflexivity]); cbn [lm_decide].
  all: try (apply Last; reflexivity).
  - destruct (lm_new m) eqn:En.
    3:{ assert (HS : exists k, explains b (l ++ [ICall EvActivityRx g1 g2]) (h ++ k) /\ LMGR (lm_state m2) LM_RX_TX (lm_r m2) (lm_t m2) (lm_p m2) = fold_left lm_step k m /\ panels m (g1 ++ g2) = panels m k).
      { destruct V as [(V & H5)|V]; [apply (Stale EvActivityTx); auto; rewrite V; reflexivity|apply Last; rewrite V; reflexivity]. }
      destruct b; [|exact HS]. destruct V1 as [(V1 & H5)|V1]; rewrite V1; [|exact HS]. apply (Lost EvActivityTx); auto. }
    1:{ apply Last. destruct V as [(V & _)|V]; rewrite V; reflexivity. }
    all: assert (Hs : lm_step m EvActivityRx = m) by (cbn [lm_step lm_note]; rewrite En; apply Eta; auto); apply First in Hs;
      destruct b; [destruct V1 as [(V1 & _)|V1]; rewrite V1|]; exact Hs.
  - destruct (lm_new m) eqn:En.
    2:{ assert (HS : exists k, explains b (l ++ [ICall EvActivityTx g1 g2]) (h ++ k) /\ LMGR (lm_state m2) LM_RX_TX (lm_r m2) (lm_t m2) (lm_p m2) = fold_left lm_step k m /\ panels m (g1 ++ g2) = panels m k).
      { destruct V as [(V & H5)|V]; [apply (Stale EvActivityRx); auto; rewrite V; reflexivity|apply Last; rewrite V; reflexivity]. }
      destruct b; [|exact HS]. destruct V1 as [(V1 & H5)|V1]; rewrite V1; [|exact HS]. apply (Lost EvActivityRx); auto. }
    1:{ apply Last. destruct V as [(V & _)|V]; rewrite V; reflexivity. }
    all: assert (Hs : lm_step m EvActivityTx = m) by (cbn [lm_step lm_note]; rewrite En; apply Eta; auto); apply First in Hs;
      destruct b; [destruct V1 as [(V1 & _)|V1]; rewrite V1|]; exact Hs.
  - destruct (lm_new m) eqn:En.
    5:{ assert (Hs : lm_step m EvErrorRx = m) by (cbn [lm_step lm_note]; rewrite En; apply Eta; auto). apply First in Hs.
        assert (HL : lm_new m2 = LM_IDLE -> exists k, explains b (l ++ [ICall EvErrorRx g1 g2]) (h ++ k) /\ LMGR (lm_state m2) LM_RX_ERROR (lm_r m2) (lm_t m2) (lm_p m2) = fold_left lm_step k m /\ panels m (g1 ++ g2) = panels m k).
        { intros Hi. apply Last. rewrite Hi. reflexivity. }
        destruct b; [|exact Hs]. destruct V1 as [(V1 & H5)|V1]; rewrite V1; [|exact Hs]. apply HL. tauto. }
    5:{ assert (Hs : lm_step m EvErrorRx = m) by (cbn [lm_step lm_note]; rewrite En; apply Eta; auto). apply First in Hs. exact Hs. }
    all: assert (HL : lm_note (lm_new m2) EvErrorRx = LM_RX_ERROR) by (destruct V as [(V & _)|V]; rewrite V; reflexivity); apply Last in HL;
      destruct b; [destruct V1 as [(V1 & _)|V1]; rewrite V1|]; exact HL.
  - destruct (lm_new m) eqn:En.
    5:{ assert (Hs : lm_step m EvErrorTx = m) by (cbn [lm_step lm_note]; rewrite En; apply Eta; auto). apply First in Hs.
        assert (HL : lm_new m2 = LM_IDLE -> exists k, explains b (l ++ [ICall EvErrorTx g1 g2]) (h ++ k) /\ LMGR (lm_state m2) LM_TX_ERROR (lm_r m2) (lm_t m2) (lm_p m2) = fold_left lm_step k m /\ panels m (g1 ++ g2) = panels m k).
        { intros Hi. apply Last. rewrite Hi. reflexivity. }
        destruct b; [|exact Hs]. destruct V1 as [(V1 & H5)|V1]; rewrite V1; [|exact Hs]. apply HL. tauto. }
    5:{ assert (Hs : lm_step m EvErrorTx = m) by (cbn [lm_step lm_note]; rewrite En; apply Eta; auto). apply First in Hs. exact Hs. }
    all: assert (HL : lm_note (lm_new m2) EvErrorTx = LM_TX_ERROR) by (destruct V as [(V & _)|V]; rewrite V; reflexivity); apply Last in HL;
      destruct b; [destruct V1 as [(V1 & _)|V1]; rewrite V1|]; exact HL.
Qed.

Lemma il_explained b l : Forall il_wf l -> exists h, explains b l h /\ led_il_run b lm_init l = (lm_run h, panels lm_init h).
Proof.
  induction l as [|x l IH] using rev_ind; intros F; [exists []; split; [constructor|reflexivity]|].
  apply Forall_app in F as (F & Fx). inversion Fx as [|? ? Hx _]; subst. destruct (IH F) as (h & X & R). rewrite led_il_snoc, R.
  destruct x as [e|e g1 g2]; cbn [led_il_step].
  - exists (h ++ [e]). split; [apply ex_tick; auto|]. rewrite panels_app. unfold lm_run. rewrite fold_left_app. reflexivity.
  - destruct Hx as (Ne & Fg). destruct (call_explained b l h _ e g1 g2 eq_refl X Ne Fg) as (k & Xk & E1 & E2).
    exists (h ++ k). split; [exact Xk|]. rewrite E1, E2, panels_app. unfold lm_run. rewrite fold_left_app. reflexivity.
Qed.

(** Panels are the documented ones. *)
Lemma windows_panels h : forall pre w, no_update w -> pre = [] \/ (exists p, pre = p ++ [EvTick500]) ->
  panels (lm_run (pre ++ w)) h = map documented_panel (windows w h).
Proof.
  induction h as [|e t IH]; intros pre w Nw Hp; [reflexivity|]. cbn [panels windows].
  assert (Eq : lm_step (lm_run (pre ++ w)) e = lm_run (pre ++ w ++ [e])) by (unfold lm_run; rewrite !fold_left_app; reflexivity).
  assert (G : e <> EvTick500 -> panels (lm_run (pre ++ w ++ [e])) t = map documented_panel (windows (w ++ [e]) t)).
  { intros Ne. apply IH; auto. apply Forall_app. split; auto. }
  destruct e; try (rewrite Eq; cbn [app]; apply G; discriminate).
  rewrite Eq. cbn [app map]. rewrite (led_panel pre w) by auto. f_equal.
  specialize (IH (pre ++ w ++ [EvTick500]) [] ltac:(constructor) ltac:(right; exists (pre ++ w); rewrite app_assoc; reflexivity)).
  rewrite app_nil_r in IH. exact IH.
Qed.

Lemma il_documented b l : Forall il_wf l -> exists h, explains b l h /\ snd (led_il_run b lm_init l) = map documented_panel (windows [] h).
Proof.
  intros F. destruct (il_explained b l F) as (h & X & R). exists h. split; [exact X|]. rewrite R. cbn [snd].
  apply (windows_panels h [] []); [constructor|left; reflexivity].
Qed.

Lemma times_app e a b : times e (a ++ b) = (times e a + times e b)%nat.
Proof. unfold times. rewrite filter_app, app_length. reflexivity. Qed.
Lemma calls_app e a b : calls e (a ++ b) = (calls e a + calls e b)%nat.
Proof. unfold calls. rewrite filter_app, app_length. reflexivity. Qed.
Lemma times_ticks e g : ~ is_tick e -> Forall is_tick g -> times e g = 0%nat.
Proof.
  intros Ne. induction 1 as [|x t H F IH]; [reflexivity|]. unfold times in *. cbn [filter].
  destruct (led_event_eqb e x) eqn:E; [|exact IH]. exfalso. apply Ne. destruct H as [-> | ->]; destruct e; try discriminate E; [left|right]; reflexivity.
Qed.
Lemma times_calls b l h e : explains b l h -> Forall il_wf l -> ~ is_tick e ->
  (other e = None -> times e h = calls e l) /\ (b = false -> (calls e l <= times e h)%nat).
Proof.
  intros X F Ne.
  assert (T0 : forall g, Forall is_tick g -> times e g = 0%nat) by (intros; apply times_ticks; auto).
  induction X as [|l h x X IH|l h x g1 g2 k1 k2 X IH Ek|l h x e' g1 g2 X IH Ho Hin H5|l h x e' g1 g2 Hb X IH Ho Hin H5]; [auto|..].
  all: apply Forall_app in F as (F & Fx); inversion Fx as [|? ? Hx _]; subst; specialize (IH F); rewrite calls_app.
  - rewrite times_app. cbn in Hx. rewrite (T0 [x]) by (constructor; auto). change (calls e [ITick x]) with 0%nat. split; intros H; apply IH in H; lia.
  - destruct Hx as (Nx & Fg). rewrite Ek in Fg. apply Forall_app in Fg as (G1 & G2). rewrite !times_app, (T0 k1), (T0 k2) by auto.
    change (calls e [ICall x g1 g2]) with (length (filter (fun y => match y with ICall e' _ _ => led_event_eqb e e' | _ => false end) [ICall x g1 g2])).
    unfold times at 2 4. cbn [filter]. destruct (led_event_eqb e x); cbn [length]; split; intros H; apply IH in H; lia.
  - destruct Hx as (Nx & Fg). apply Forall_app in Fg as (G1 & G2). rewrite !times_app, (T0 g1), (T0 g2) by auto.
    split; intros He; pose proof He as H; apply IH in H.
    + assert (Hc : calls e [ICall x g1 g2] = 0%nat /\ times e [e'; x] = 0%nat).
      { destruct x; cbn in Ho; try discriminate Ho; inversion Ho; subst e'; destruct e; try (split; reflexivity); exfalso.
        all: discriminate He. }
      lia.
    + unfold calls at 2, times at 2. cbn [filter]. destruct (led_event_eqb e e'), (led_event_eqb e x); cbn [length]; lia.
  - destruct Hx as (Nx & Fg). apply Forall_app in Fg as (G1 & G2). rewrite !times_app, (T0 g1), (T0 g2) by auto.
    split; intros H; [|discriminate H]. assert (Hc : calls e [ICall x g1 g2] = 0%nat).
    { unfold calls. cbn [filter]. destruct (led_event_eqb e x) eqn:E; [|reflexivity]. destruct x; cbn in Ho; try discriminate Ho; destruct e; try discriminate E; discriminate H. }
    apply IH in H. lia.
Qed.
