(** P_LineLog.v -- bytes are told between line-busy and line-free only; the state of the line is what was told last. *)
From Verif Require Import Base M_ShiftReg M_Dsp M_Uart M_Core1 D_Core1 S_Dsp S_Pio S_Core1 S_Noise P_Core0 P_Noise P_Recover.

Fixpoint wf_log (b : bool) (l : list logline) : Prop :=
  match l with [] => True | LFree :: t => wf_log false t | LBusy :: t => wf_log true t | LByte _ _ :: t => b = true /\ wf_log true t end.
Lemma wf_log_app a c : forall b, wf_log b (a ++ c) <-> wf_log b a /\ wf_log (busy_end b a) c.
Proof.
  induction a as [|[| |x e] a IH]; intros b; cbn [app wf_log busy_end]; [tauto|apply IH|apply IH|]. rewrite IH. split; [intros (-> & H1 & H2)|intros ((-> & H1) & H2)]; auto.
Qed.
Lemma line_step_log s p s' e : line_step s p = Ok (s', e) -> wf_log (ls_busy s) (log_event e) /\ busy_end (ls_busy s) (log_event e) = ls_busy s'.
Proof.
  unfold line_step, ua_receiving, log_event, is_byte. intros E.
  destruct (ua_state (ls_uart s)) eqn:St, (ls_busy s) eqn:Eb; cbn [negb] in E; try destruct (0 <? ls_idle s); bstep E; destruct x as (((u & ret) & out) & err);
  (destruct ret; [|cbn [negb] in E; injection E as <- <-; cbn; auto]);
  unfold ua_update in E0; rewrite St in E0; try discriminate; try (bstep E0; discriminate); cbn [negb] in E; injection E as <- <-; destruct err; cbn; auto.
Qed.
Lemma lchain_log s x s' e : lchain_step s x = Ok (s', e) -> wf_log (ls_busy (lc_ls s)) (log_event e) /\ busy_end (ls_busy (lc_ls s)) (log_event e) = ls_busy (lc_ls s').
Proof. unfold lchain_step. intros E. bstep E. destruct x0. bstep E. destruct x0. bstep E. destruct x0. injection E as <- <-. cbn [lc_ls]. eapply line_step_log; eauto. Qed.
Lemma core1_log s x s' e : core1_sample s x = Ok (s', e) -> wf_log (ls_busy (k_ls s)) (log_event e) /\ busy_end (ls_busy (k_ls s)) (log_event e) = ls_busy (k_ls s').
Proof.
  unfold core1_sample. intros E. bstep E. destruct x0 as (f & fd). destruct (rs_update (k_rs s) fd) as (r & [v|]); [|injection E as <- <-; cbn; auto].
  bstep E. destruct x0. bstep E. destruct x0. bstep E. destruct x0. bstep E. destruct x0. injection E as <- <-. cbn [k_ls]. eapply line_step_log; eauto.
Qed.
Lemma run_log {A} (f : A -> Z -> res (A * event)) (bz : A -> bool) :
  (forall s x s' e, f s x = Ok (s', e) -> wf_log (bz s) (log_event e) /\ busy_end (bz s) (log_event e) = bz s') ->
  forall l s s' es, mrun f s l = Ok (s', es) -> wf_log (bz s) (log_of es) /\ busy_end (bz s) (log_of es) = bz s'.
Proof.
  intros H. induction l as [|x l IH]; intros s s' es E; cbn [mrun] in E; [injection E as <- <-; cbn; auto|].
  bstep E. destruct x0 as (s1 & e). bstep E. destruct x0 as (s2 & es2). injection E as -> <-. destruct (H _ _ _ _ E0) as (A1 & A2). destruct (IH _ _ _ E1) as (B1 & B2).
  cbn [log_of flat_map]. fold (log_of es2). rewrite wf_log_app, busy_end_app, A2. auto.
Qed.
Lemma closed_log l : forall b, wf_log b l -> busy_end b l = false -> (l = [] /\ b = false) \/ exists old, l = old ++ [LFree].
Proof.
  induction l as [|[| |c e] l IH]; intros b W E; cbn [wf_log busy_end] in *; [auto|..].
  - destruct (IH _ W E) as [(-> & _)|(o & ->)]; right; [exists []; reflexivity|exists (LFree :: o); reflexivity].
  - destruct (IH _ W E) as [(-> & X)|(o & ->)]; [discriminate|right; exists (LBusy :: o); reflexivity].
  - destruct W as (-> & W). destruct (IH _ W E) as [(-> & X)|(o & ->)]; [discriminate|right; exists (LByte c e :: o); reflexivity].
Qed.
Lemma free_last {A} (f : A -> Z -> res (A * event)) (bz : A -> bool) l s s' es :
  (forall s x s' e, f s x = Ok (s', e) -> wf_log (bz s) (log_event e) /\ busy_end (bz s) (log_event e) = bz s') ->
  mrun f s l = Ok (s', es) -> bz s = true -> bz s' = false -> exists old, log_of es = old ++ [LFree].
Proof.
  intros H E B B'. destruct (run_log f bz H l s s' es E) as (W & X). rewrite B, B' in *. destruct (closed_log _ _ W X) as [(_ & ?)|]; [discriminate|auto].
Qed.
Lemma core1_new_busy e0 s : core1_new e0 = Ok s -> ls_busy (k_ls s) = true.
Proof. unfold core1_new. intros E. bstep E. bstep E. injection E as <-. reflexivity. Qed.
Lemma lchain_new_busy e0 s : lchain_new e0 = Ok s -> ls_busy (lc_ls s) = true.
Proof. unfold lchain_new. intros E. bstep E. injection E as <-. reflexivity. Qed.
(** C93 with the log of the disturbance: the last thing told is that the line is free. *)
Lemma recovered_free e0 gs qs pkts ys : bounded 1000000 gs -> bounded 599 qs -> (400 <= length qs)%nat ->
  Z.of_nat (length gs + length qs) < 2000000000 -> heard pkts ys -> Z.of_nat (length ys) < 2000000000 ->
  Forall (fun p => Forall (fun c => Z.of_nat (fst c) < 2000000000 /\ 0 <= snd c < 256) (pk_chars p)) pkts ->
  Forall (fun p => (177 <= pk_gap p)%nat /\ inner_quiet p <= 172) pkts ->
  exists c c1 c2 es1 es2 old, lchain_new e0 = Ok c /\ mrun lchain_step c (gs ++ qs) = Ok (c1, es1) /\ mrun lchain_step c1 ys = Ok (c2, es2) /\
    log_of es1 = old ++ [LFree] /\ log_of es2 = flat_map one_packet pkts.
Proof.
  intros Bg Bq Lq Lt H Ly Hok Hp. destruct (recovered e0 gs qs pkts ys Bg Bq Lq Lt H Ly Hok Hp) as (c & c1 & c2 & es1 & es2 & A1 & A2 & A3 & A4 & _ & A5).
  destruct (free_last lchain_step (fun c => ls_busy (lc_ls c)) _ _ _ _ lchain_log A2 (lchain_new_busy _ _ A1) A4) as (old & Eo). exists c, c1, c2, es1, es2, old. auto.
Qed.
