(** P_System.v -- the inter-core queue and the receive path (C88-C90). *)
From Verif Require Import Base M_Fifo M_Message S_Message D_Message P_Message M_Tx D_Tx P_Tx P_TxRun M_HostUart D_Host S_Host M_Led M_Adc M_Core1 S_Core1 D_Core1 P_Core1 S_Adc D_Adc D_Core1Adc P_Core1Adc
  M_Core0 S_Core0 D_Core0 P_Core0 P_Core0Run P_Core0Rx P_Core0Busy P_Core0Main M_System S_System.

(** ** Core 0 and the queue *)
Lemma duo_parts l : forall k c k' c' outs, mrun duo_step (k, c) l = Ok ((k', c'), outs) ->
  mrun core0_step c (map fst (loops outs)) = Ok (c', map snd (loops outs)) /\
  map outside (map fst (loops outs)) = map outside (loop_inputs l) /\
  k_queue k ++ admitted (length (k_queue k)) l = taken (map fst (loops outs)) ++ k_queue k' /\
  ((length (k_queue k) <= 8)%nat -> (length (k_queue k') <= 8)%nat).
Proof.
  induction l as [|x l IH]; intros k c k' c' outs E; cbn [mrun] in E.
  { injection E as <- <- <-. cbn. rewrite app_nil_r. auto. }
  bstep E. destruct x0 as ((k1 & c1) & o1). bstep E. destruct x0 as (s2 & o2). injection E as -> <-. apply IH in E1 as (A & B & C & D). clear IH.
  destruct x as [e| |i]; cbn [duo_step] in E0.
  - injection E0 as <- <- <-. cbn [loops flat_map app loop_inputs admitted]. fold (loops o2) (loop_inputs l). split; [exact A|]. split; [exact B|].
    unfold link_news, link_room, FIFO_DEPTH in *. rewrite no_news_nonzero. destruct (ev_nonzero e); cbn [negb]; [|split; assumption].
    destruct (Nat.ltb_spec (length (k_queue k)) 8) as [Hq|Hq]; cbn [k_queue] in *.
    + rewrite app_length in C, D. cbn [length] in C, D. rewrite Nat.add_1_r in C, D. rewrite <- app_assoc in C. split; [exact C|]. intros _. apply D. lia.
    + split; assumption.
  - injection E0 as <- <- <-. cbn [loops flat_map app loop_inputs admitted]. auto.
  - unfold link_take in E0. bstep E0. destruct x as (c2 & log). injection E0 as <- <- <-. cbn [loops flat_map app loop_inputs admitted map fst snd]. fold (loops o2) (loop_inputs l).
    cbn [mrun]. rewrite E. cbn [bind]. rewrite A. cbn [bind]. split; [reflexivity|]. split; [f_equal; exact B|]. cbn [k_queue] in C, D.
    unfold taken. cbn [flat_map linked in_event]. fold (taken (map fst (loops o2))).
    destruct (k_queue k) as [|e q]; cbn [hd_error tl length pred app] in *; [auto|]. split; [f_equal; exact C|]. intros H. apply D. lia.
Qed.
Lemma duo_app l1 l2 s : mrun duo_step s (l1 ++ l2) = let* (s1, o1) := mrun duo_step s l1 in let* (s2, o2) := mrun duo_step s1 l2 in Ok (s2, o1 ++ o2).
Proof. apply mrun_app. Qed.
Lemma loops_app {A} (a b : list (option A)) : loops (a ++ b) = loops a ++ loops b.
Proof. apply flat_map_app. Qed.
Lemma in_ok_outside i f e : (match e with Some e => is_byte8 (ev_char e) | None => True end) -> in_ok (outside i) -> in_ok (linked i f e).
Proof. unfold in_ok, outside, linked. cbn. tauto. Qed.

(** Only bytes travel through the queue. *)
Lemma admitted_ok l : forall n, Forall news_ok l -> Forall (fun e => is_byte8 (ev_char e)) (admitted n l).
Proof.
  induction l as [|x l IH]; intros n F; [constructor|]. inversion F; subst. destruct x; cbn [admitted]; auto. destruct (no_news e); auto. destruct (n <? 8)%nat; auto.
Qed.
Lemma taken_ok is : Forall (fun i => in_ok (outside i)) is -> Forall (fun e => is_byte8 (ev_char e)) (taken is) -> Forall in_ok is.
Proof.
  induction is as [|i t IH]; intros F G; [constructor|]. inversion F; subst. unfold taken in G. cbn [flat_map] in G. apply Forall_app in G as (G1 & G2). constructor; [|apply IH; auto].
  destruct i as [n cs b f e hw tk j]. unfold in_ok, outside, linked in *. cbn in *. destruct H1 as (A & B & _). split; [exact A|]. split; [exact B|]. destruct e; [inversion G1; auto|exact I].
Qed.
Lemma text_outside a : forall b, map outside a = map outside b -> text a = text b.
Proof.
  induction a as [|i a IH]; intros [|j b] H; try discriminate; [reflexivity|]. cbn [map] in H. pose proof (f_equal (hd (outside i)) H) as H1. apply (f_equal (@tl _)) in H. cbn [hd tl] in *.
  cbn [text flat_map]. fold (text a) (text b). rewrite (IH b H). f_equal. apply (f_equal in_chars) in H1. exact H1.
Qed.
Lemma ok_outside a : forall b, map outside a = map outside b -> Forall (fun i => in_ok (outside i)) b -> Forall (fun i => in_ok (outside i)) a.
Proof.
  induction a as [|i a IH]; intros [|j b] H F; try discriminate; [constructor|]. cbn [map] in H. pose proof (f_equal (hd (outside i)) H) as H1. apply (f_equal (@tl _)) in H. cbn [hd tl] in *.
  inversion F; subst. constructor; [rewrite H1; auto|eauto].
Qed.
Lemma loop_ok l : Forall news_ok l -> Forall (fun i => in_ok (outside i)) (loop_inputs l).
Proof. induction 1 as [|x l H F IH]; [constructor|]. destruct x; cbn [loop_inputs flat_map app]; auto. Qed.
Lemma loop_inputs_app a b : loop_inputs (a ++ b) = loop_inputs a ++ loop_inputs b.
Proof. apply flat_map_app. Qed.

(** A run of core 0 and the queue is a run of core 0, with admissible inputs. *)
Lemma duo_core0 b l k c outs : Forall news_ok l -> duo_run b l = Ok ((k, c), outs) ->
  let its := loops outs in
  core0_run b (map fst its) = Ok (c, map snd its) /\ Forall in_ok (map fst its) /\ map outside (map fst its) = map outside (loop_inputs l) /\
  text (map fst its) = text (loop_inputs l) /\ taken (map fst its) ++ k_queue k = admitted 0 l /\ (length (k_queue k) <= 8)%nat.
Proof.
  intros F E. unfold duo_run, duo_start in E. bstep E. bstep E0. injection E0 as <-. apply duo_parts in E as (A & B & C & D). cbn [k_queue link_new app length] in C, D. cbv zeta.
  split; [unfold core0_run; rewrite E1; exact A|]. split.
  - apply taken_ok; [eapply ok_outside; [exact B|apply loop_ok; exact F]|]. pose proof (admitted_ok l 0 F) as G. rewrite C in G. apply Forall_app in G. apply G.
  - split; [exact B|]. split; [apply text_outside; exact B|]. split; [symmetry; exact C|]. apply D. lia.
Qed.
Lemma duo_total b l : boot_ok b -> Forall news_ok l -> input_ok (text (loop_inputs l)) -> exists k c outs, duo_run b l = Ok ((k, c), outs).
Proof.
  intros B. induction l as [|x l IH] using rev_ind; intros F T.
  - destruct (main_safe b [] B ltac:(constructor) T) as (s & o & E). unfold core0_run in E. unfold duo_run, duo_start. bstep E. rewrite E0. cbn. eauto.
  - apply Forall_app in F as (F & Fx). assert (T' := T). rewrite loop_inputs_app, text_app in T'. apply input_ok_prefix in T'. destruct (IH F T') as (k & c & outs & E).
    assert (E' := E). unfold duo_run in E'. bstep E'. unfold duo_run. rewrite E0. cbn [bind]. rewrite mrun_app, E'. cbn [bind mrun]. destruct x as [e| |i]; cbn [duo_step bind]; eauto.
    destruct (link_take k) as ((f & e) & k') eqn:Ek.
    destruct (duo_core0 b l k c outs F E) as (A & Fo & _ & Tx & Q & _).
    assert (Ok' : in_ok (linked i f e)).
    { inversion Fx; subst. apply in_ok_outside; [|auto]. unfold link_take in Ek. injection Ek as _ <- _. destruct (k_queue k) as [|e q] eqn:Eq; [exact I|]. cbn.
      pose proof (admitted_ok l 0 F) as G. rewrite <- Q in G. apply Forall_app in G as (_ & G). inversion G; auto. }
    destruct (main_safe b (map fst (loops outs) ++ [linked i f e]) B) as (s & o & Es).
    { apply Forall_app. split; [exact Fo|constructor; [exact Ok'|constructor]]. }
    { rewrite text_app, Tx. rewrite loop_inputs_app, text_app in T. exact T. }
    unfold core0_run in A, Es. bstep A. rewrite E1 in Es. cbn [bind] in Es. rewrite mrun_app, A in Es. cbn [bind mrun] in Es. bstep Es. destruct x1 as (s1 & o1). bstep E2. destruct x1 as (s2 & o2). rewrite E3. cbn [bind]. eauto.
Qed.

(** ** Nothing is lost silently *)
Lemma admitted_lost l : forall n, exists marks, length marks = length (all_news l) /\
  admitted n l = map fst (filter snd (combine (all_news l) marks)) /\ lost n l = map fst (filter (fun x => negb (snd x)) (combine (all_news l) marks)).
Proof.
  induction l as [|x l IH]; intros n; [exists []; auto|]. destruct x as [e| |i]; cbn [admitted lost all_news flat_map app]; fold (all_news l); [|apply IH|apply IH].
  destruct (no_news e); [apply IH|]. destruct (n <? 8)%nat.
  - destruct (IH (S n)) as (m & L & A & B). exists (true :: m). cbn [length app combine filter snd negb map fst]. rewrite L, A, B. auto.
  - destruct (IH n) as (m & L & A & B). exists (false :: m). cbn [length app combine filter snd negb map fst]. rewrite L, A, B. auto.
Qed.
Lemma all_taken l : forall n, lost n l = [] -> admitted n l = all_news l.
Proof.
  induction l as [|x l IH]; intros n H; [reflexivity|]. destruct x as [e| |i]; cbn [admitted lost all_news flat_map app] in *; fold (all_news l); [|eauto|eauto].
  destruct (no_news e); [eauto|]. destruct (n <? 8)%nat; [cbn [app]; f_equal; eauto|discriminate].
Qed.

(** The overflow report of an iteration. *)
Lemma a_overflow x i : In R_fifo (map fst (fst (snd (a_iter x i)))) <-> in_fifoerr i = true.
Proof.
  destruct x as (r & (bz & since)). unfold a_iter. set (t := busy_timeout _ _ _). clearbody t. unfold rx_iter.
  destruct (flush_if t R_timeout 4 r) as (r1 & o1) eqn:E1. destruct (flush_if (in_fifoerr i) R_fifo 2 r1) as (r2 & o2) eqn:E2.
  set (r3 := (status_after (fst r2) (event_of i), snd r2 ++ byte_of (event_of i))).
  destruct (flush_if (line_free i && _) R_packet (fst r3) r3) as (r4 & o4) eqn:E4. destruct (flush_if (length (snd r4) =? 32)%nat R_full 2 r4) as (r5 & o5) eqn:E5.
  cbn [fst snd]. rewrite !map_app, !in_app_iff. unfold flush_if in *.
  assert (H1 : ~ In R_fifo (map fst o1)) by (destruct t; injection E1 as _ <-; cbn; intuition discriminate).
  assert (H4 : ~ In R_fifo (map fst o4)) by (destruct (line_free i && _); injection E4 as _ <-; cbn; intuition discriminate).
  assert (H5 : ~ In R_fifo (map fst o5)) by (destruct (length (snd r4) =? 32)%nat; injection E5 as _ <-; cbn; intuition discriminate).
  destruct (in_fifoerr i); injection E2 as _ <-; cbn; intuition discriminate.
Qed.
Lemma step_overflow b l i s o s' log : boot_ok b -> Forall in_ok (l ++ [i]) -> input_ok (text (l ++ [i])) -> core0_run b l = Ok (s, o) -> core0_step s i = Ok (s', log) ->
  overflow_in log <-> in_fifoerr i = true.
Proof.
  intros B F T E Es. assert (Er : core0_run b (l ++ [i]) = Ok (s', o ++ [log])).
  { unfold core0_run in *. bstep E. rewrite E0. cbn [bind]. rewrite mrun_app, E. cbn [bind mrun]. rewrite Es. reflexivity. }
  destruct (run_good b _ B F T) as (c & s1 & logs & _ & Er' & _ & _ & A & _). rewrite Er in Er'. injection Er' as <- <-.
  rewrite a_run_app in A. destruct (a_run (x0 (b_now b)) l) as (y & p1). cbn [a_run] in A. pose proof (a_overflow y i) as X. destruct (a_iter y i) as (z & p2). cbn [snd] in X.
  injection A as _ A. rewrite map_app in A. cbn [map] in A. apply app_inj_tail in A as (_ & ->). cbn [seen fst] in X. rewrite map_map in X. unfold overflow_in. exact X.
Qed.
Lemma a_run_overflow l : forall x, Forall2 (fun i o => In R_fifo (map fst (fst o)) <-> in_fifoerr i = true) l (snd (a_run x l)).
Proof.
  induction l as [|i l IH]; intros x; cbn [a_run]; [constructor|]. pose proof (a_overflow x i). destruct (a_iter x i) as (y & o). specialize (IH y). destruct (a_run y l) as (z & os). cbn [snd] in *. constructor; auto.
Qed.
Lemma run_overflow b l s o : boot_ok b -> Forall in_ok l -> input_ok (text l) -> core0_run b l = Ok (s, o) ->
  Forall2 (fun i log => overflow_in log <-> in_fifoerr i = true) l o.
Proof.
  intros B F T E. destruct (run_good b l B F T) as (c & s1 & logs & _ & Er & _ & _ & A & _). rewrite E in Er. injection Er as <- <-.
  pose proof (a_run_overflow l (x0 (b_now b))) as X. rewrite A in X. cbn [snd] in X. clear - X. revert o X. induction l as [|i l IH]; intros [|lg o] X; inversion X; subst; constructor; auto.
  cbn [seen fst] in H2. rewrite map_map in H2. exact H2.
Qed.
Lemma duo_overflow b l k c outs : boot_ok b -> Forall news_ok l -> input_ok (text (loop_inputs l)) -> duo_run b l = Ok ((k, c), outs) ->
  Forall (fun x => overflow_in (snd x) <-> in_fifoerr (fst x) = true) (loops outs).
Proof.
  intros B F T E. destruct (duo_core0 b l k c outs F E) as (A & Fo & _ & Tx & _). rewrite <- Tx in T. pose proof (run_overflow b _ _ _ B Fo T A) as X.
  clear - X. induction (loops outs) as [|x t IH]; cbn [map] in X; [constructor|]. inversion X; subst. constructor; auto.
Qed.

(** The flag stays up until core 0 has seen it. *)
Lemma flag_kept l : forall k c k' c' outs, mrun duo_step (k, c) l = Ok ((k', c'), outs) -> k_ferr k = true -> loop_inputs l = [] ->
  k_ferr k' = true /\ (k_tested k <> Some false -> k_tested k' <> Some false).
Proof.
  induction l as [|x l IH]; intros k c k' c' outs E Hf Hl; cbn [mrun] in E; [injection E as <- <- <-; auto|].
  bstep E. destruct x0 as ((k1 & c1) & o1). bstep E. destruct x0 as (s2 & o2). injection E as -> <-. destruct x as [e| |i]; cbn [duo_step loop_inputs flat_map app] in *.
  - injection E0 as <- <- <-. assert (F1 : k_ferr (link_news k e) = true /\ k_tested (link_news k e) = k_tested k) by (unfold link_news; destruct (ev_nonzero e); [destruct (link_room k)|]; auto).
    destruct F1 as (F1 & F2). apply IH in E1 as (A & C); auto. rewrite F2 in C. auto.
  - injection E0 as <- <- <-. apply IH in E1 as (A & C); auto. cbn in C. split; [exact A|]. intros _. apply C. rewrite Hf. discriminate.
  - discriminate.
Qed.
Lemma flag_seen : forall l k c k' c' outs, mrun duo_step (k, c) l = Ok ((k', c'), outs) -> k_ferr k = true ->
  (k_tested k <> Some false -> (1 <= length (loop_inputs l))%nat -> Exists (fun x => in_fifoerr (fst x) = true) (firstn 1 (loops outs))) /\
  ((2 <= length (loop_inputs l))%nat -> Exists (fun x => in_fifoerr (fst x) = true) (firstn 2 (loops outs))).
Proof.
  assert (FL : forall l, (1 <= length (loop_inputs l))%nat -> exists p i q, l = p ++ Loop i :: q /\ loop_inputs p = []).
  { clear. induction l as [|x l IH]; intros H; [cbn in H; lia|]. destruct x; [destruct IH as (p & i & q & -> & Hp); [exact H|]; exists (News e :: p), i, q; auto| |exists [], i, l; auto].
    destruct IH as (p & i & q & -> & Hp); [exact H|]. exists (Test :: p), i, q; auto. }
  assert (Nil : forall l s s' outs, mrun duo_step s l = Ok (s', outs) -> loop_inputs l = [] -> loops outs = []).
  { clear. induction l as [|x l IH]; intros s s' outs E Hl; cbn [mrun] in E; [injection E as <- <-; reflexivity|]. bstep E. destruct x0 as (s1 & o1). bstep E. destruct x0 as (s2 & o2). injection E as -> <-.
    destruct s as (k & c). destruct x; cbn [duo_step loop_inputs flat_map app] in *; try discriminate; injection E0 as <- <-; cbn [loops flat_map app]; eapply IH; eauto. }
  (* one step: the first Loop *)
  assert (One : forall l k c k' c' outs, mrun duo_step (k, c) l = Ok ((k', c'), outs) -> k_ferr k = true -> (1 <= length (loop_inputs l))%nat ->
    exists i lg rest q k1 c1, loops outs = (i, lg) :: rest /\ (k_tested k <> Some false -> in_fifoerr i = true) /\
      (in_fifoerr i = true \/ (k_ferr k1 = true /\ k_tested k1 = None /\ exists o2, mrun duo_step (k1, c1) q = Ok ((k', c'), o2) /\ rest = loops o2 /\ S (length (loop_inputs q)) = length (loop_inputs l)))).
  { intros l k c k' c' outs E Hf Hl. destruct (FL l Hl) as (p & i & q & -> & Hp). rewrite mrun_app in E. bstep E. destruct x as ((k0 & c0) & o0). cbn [mrun] in E.
    assert (N := Nil _ _ _ _ E0 Hp). destruct (flag_kept p _ _ _ _ _ E0 Hf Hp) as (A & C). bstep E. destruct x as (s3 & o3). bstep E1. destruct x as ((k1 & c1) & o4). bstep E1. destruct x as (s5 & o5). injection E1 as <- <-. injection E as -> <-.
    cbn [duo_step] in E2. unfold link_take in E2. bstep E2. destruct x as (c2 & log). injection E2 as <- <- <-.
    rewrite loops_app, N. cbn [app loops flat_map]. fold (loops o5). eexists _, log, (loops o5), q, (LK (tl (k_queue k0)) (k_ferr k0) None), c2. split; [reflexivity|]. cbn [linked in_fifoerr]. split.
    - intros H. specialize (C H). destruct (k_tested k0) as [[|]|]; congruence.
    - destruct (k_tested k0) as [[|]|] eqn:Et; [auto| |auto]. right. cbn [k_ferr k_tested]. split; [exact A|]. split; [reflexivity|]. exists o5. cbv iota in E3. split; [exact E3|]. split; [reflexivity|].
      rewrite loop_inputs_app, Hp. reflexivity. }
  intros l k c k' c' outs E Hf. split.
  - intros Ht Hl. destruct (One l k c k' c' outs E Hf Hl) as (i & lg & rest & q & k1 & c1 & -> & H & _). cbn. left. apply H. exact Ht.
  - intros Hl. destruct (One l k c k' c' outs E Hf ltac:(lia)) as (i & lg & rest & q & k1 & c1 & -> & _ & [H|(Hf1 & Ht1 & o2 & E2 & -> & Lq)]); [left; exact H|].
    destruct (One q k1 c1 k' c' o2 E2 Hf1 ltac:(lia)) as (i2 & lg2 & rest2 & q2 & k3 & c3 & -> & H & _). right. left. apply H. congruence.
Qed.
Lemma testing_link l : forall k c k' c' outs, mrun duo_step (k, c) l = Ok ((k', c'), outs) ->
  fold_left (fun b x => match x with Test => true | Loop _ => false | News _ => b end) l (match k_tested k with Some _ => true | None => false end) = match k_tested k' with Some _ => true | None => false end.
Proof.
  induction l as [|x l IH]; intros k c k' c' outs E; cbn [mrun] in E; [injection E as <- <- <-; reflexivity|].
  bstep E. destruct x0 as ((k1 & c1) & o1). bstep E. destruct x0 as (s2 & o2). injection E as -> <-. apply IH in E1. cbn [fold_left]. rewrite <- E1. f_equal. destruct x as [e| |i]; cbn [duo_step] in E0.
  - injection E0 as <- <- <-. unfold link_news. destruct (ev_nonzero e); [destruct (link_room k)|]; reflexivity.
  - injection E0 as <- <- <-. reflexivity.
  - unfold link_take in E0. bstep E0. destruct x. injection E0 as <- <- <-. reflexivity.
Qed.
Lemma lost_app l : forall n l2, exists m, lost n (l ++ l2) = lost n l ++ lost m l2.
Proof.
  induction l as [|x l IH]; intros n l2; [exists n; reflexivity|]. destruct x as [e| |i]; cbn [app lost]; auto. destruct (no_news e); auto. destruct (n <? 8)%nat; auto. destruct (IH n l2) as (m & ->). exists m. reflexivity.
Qed.
Lemma lost_full l : forall k c k' c' outs e, mrun duo_step (k, c) l = Ok ((k', c'), outs) -> lost (length (k_queue k)) (l ++ [News e]) <> lost (length (k_queue k)) l ->
  ev_nonzero e = true /\ link_room k' = false.
Proof.
  induction l as [|x l IH]; intros k c k' c' outs e E H; cbn [mrun] in E.
  - injection E as <- <- <-. cbn [app lost] in H. rewrite no_news_nonzero in H. unfold link_room, FIFO_DEPTH. destruct (ev_nonzero e); [|exfalso; apply H; reflexivity]. destruct (_ <? 8)%nat; [exfalso; apply H; reflexivity|auto].
  - bstep E. destruct x0 as ((k1 & c1) & o1). bstep E. destruct x0 as (s2 & o2). injection E as -> <-. apply (IH _ _ _ _ _ e E1). clear IH E1. intros X. apply H. clear H. destruct x as [e'| |i]; cbn [duo_step app lost] in *.
    + injection E0 as <- <- <-. unfold link_news, link_room, FIFO_DEPTH in X. rewrite no_news_nonzero. destruct (ev_nonzero e'); cbn [negb]; [|exact X]. destruct (length (k_queue k) <? 8)%nat; cbn [k_queue] in X.
      * rewrite app_length in X. cbn [length] in X. rewrite Nat.add_1_r in X. exact X.
      * f_equal. exact X.
    + injection E0 as <- <- <-. exact X.
    + unfold link_take in E0. bstep E0. destruct x. injection E0 as <- <- <-. cbn [k_queue] in X. replace (pred (length (k_queue k))) with (length (tl (k_queue k))) by (destruct (k_queue k); reflexivity). exact X.
Qed.
Lemma app_inj_len {A} (a : list A) : forall b c d, length a = length b -> a ++ c = b ++ d -> a = b /\ c = d.
Proof. induction a as [|x a IH]; intros [|y b] c d L H; try discriminate; [auto|]. cbn in *. injection H as -> H. destruct (IH b c d ltac:(lia) H) as (-> & ->). auto. Qed.
Lemma drop_reported b l1 e l2 k c o1 o2 : boot_ok b -> Forall news_ok (l1 ++ News e :: l2) -> input_ok (text (loop_inputs (l1 ++ News e :: l2))) ->
  duo_run b (l1 ++ News e :: l2) = Ok ((k, c), o1 ++ o2) -> length o1 = length l1 -> lost 0 (l1 ++ [News e]) <> lost 0 l1 ->
  (if testing l1 then 2 else 1) <= Z.of_nat (length (loop_inputs l2)) ->
  Exists (fun x => overflow_in (snd x)) (firstn (if testing l1 then 2 else 1) (loops o2)).
Proof.
  intros B F T E Lo Hlost Hn. pose proof (duo_overflow b _ k c _ B F T E) as Ov. rewrite loops_app in Ov. apply Forall_app in Ov as (_ & Ov).
  unfold duo_run in E. bstep E. unfold duo_start in E0. bstep E0. injection E0 as <-. rewrite mrun_app in E. bstep E. destruct x as ((k1 & c1) & oo1). bstep E. destruct x as (s2 & oo2). injection E as -> Eo.
  assert (L1 : length oo1 = length l1) by (eapply mrun_length; eauto).
  assert (oo1 = o1 /\ oo2 = o2) as (-> & ->). { apply app_inj_len; [lia|exact Eo]. }
  cbn [mrun duo_step bind] in E2. bstep E2. destruct x as (s3 & o3). injection E2 as -> <-.
  destruct (lost_full l1 link_new _ k1 c1 o1 e E0 Hlost) as (Hnz & Hroom). 
  pose proof (testing_link l1 link_new _ k1 c1 o1 E0) as Ht. change (fold_left _ l1 _) with (testing l1) in Ht.
  assert (Kf : k_ferr (link_news k1 e) = true /\ k_tested (link_news k1 e) = k_tested k1) by (unfold link_news; rewrite Hnz, Hroom; auto). destruct Kf as (Kf & Kt).
  destruct (flag_seen l2 _ _ _ _ _ E Kf) as (S1 & S2). rewrite Kt in S1. cbn [loops flat_map app] in Ov |- *. fold (loops o3) in Ov |- *.
  assert (Imp : forall n, Exists (fun x => in_fifoerr (fst x) = true) (firstn n (loops o3)) -> Exists (fun x => overflow_in (snd x)) (firstn n (loops o3))).
  { intros n H. apply Exists_exists in H as (x & Hx & Hf). apply Exists_exists. exists x. split; [exact Hx|]. rewrite Forall_forall in Ov. apply Ov; [|exact Hf]. rewrite <- (firstn_skipn n). apply in_or_app; auto. }
  rewrite Ht in *. destruct (k_tested k1); apply Imp; [apply S2|apply S1; [discriminate|]]; lia.
Qed.

(** ** The receive path without loss *)
Definition e_step (r : rxs) (e : event) : rxs * list (reason * rxs) * list rxs :=
  let r3 := (status_after (fst r) e, snd r ++ byte_of e) in
  let done := ev_free e && ((0 <? length (snd r3))%nat || negb (fst r3 =? 0)) in
  let '(r4, o4) := flush_if done R_packet (fst r3) r3 in
  let '(r5, o5) := flush_if (length (snd r4) =? 32)%nat R_full 2 r4 in
  (r5, o4 ++ o5, if done then [r3] else []).
Fixpoint e_run (r : rxs) (es : list event) : rxs * list (reason * rxs) * list rxs :=
  match es with
  | [] => (r, [], [])
  | e :: t => let '(r1, o, c) := e_step r e in let '(r2, os, cs) := e_run r1 t in (r2, o ++ os, c ++ cs)
  end.
Lemma e_step_short r e : (length (snd r) < 32)%nat -> (length (snd (fst (fst (e_step r e)))) < 32)%nat.
Proof.
  intros H. unfold e_step. set (r3 := (_, _)). assert (L : (length (snd r3) <= 32)%nat) by (unfold r3; cbn [snd]; rewrite app_length; unfold byte_of; destruct (_ && _); cbn [length]; lia). clearbody r3.
  destruct (ev_free e && _); unfold flush_if; cbn [fst snd length]; [change (0 =? 32)%nat with false; cbn [fst snd length]; lia|]. destruct (Nat.eqb_spec (length (snd r3)) 32); cbn [fst snd length]; lia.
Qed.
Lemma a_iter_events r ls i : in_fifoerr i = false -> calm (snd (a_iter (r, ls) i)) -> (length (snd r) < 32)%nat ->
  exists ls', a_iter (r, ls) i = match in_event i with Some e => (fst (fst (e_step r e)), ls', (snd (fst (e_step r e)), snd (e_step r e))) | None => (r, ls', ([], [])) end.
Proof.
  intros Hf Hc Hr. destruct (iter_plain i r ls _ Hf Hc eq_refl) as (ls' & E). exists ls'. rewrite E. unfold rx_iter. rewrite Hf. cbn [flush_if app].
  unfold line_free, event_of. destruct (in_event i) as [e|].
  - unfold e_step. set (r3 := (status_after (fst r) e, snd r ++ byte_of e)). destruct (flush_if (ev_free e && _) R_packet (fst r3) r3) as (r4 & o4). destruct (flush_if (length (snd r4) =? 32)%nat R_full 2 r4) as (r5 & o5). reflexivity.
  - cbn [ev_none ev_free ev_dadc ev_error status_after byte_of ev_valid andb negb orb flush_if fst snd]. rewrite app_nil_r.
    destruct (Nat.eqb_spec (length (snd r)) 32); [lia|]. destruct r; reflexivity.
Qed.
Lemma a_run_events is : forall r ls, nothing_lost is -> Forall calm (snd (a_run (r, ls) is)) -> (length (snd r) < 32)%nat ->
  exists ls', fst (a_run (r, ls) is) = (fst (fst (e_run r (taken is))), ls') /\
    flat_map fst (snd (a_run (r, ls) is)) = snd (fst (e_run r (taken is))) /\ flat_map snd (snd (a_run (r, ls) is)) = snd (e_run r (taken is)).
Proof.
  induction is as [|i is IH]; intros r ls Hn Hc Hr; [exists ls; auto|]. inversion Hn; subst. cbn [a_run] in *.
  assert (C1 : calm (snd (a_iter (r, ls) i))) by (destruct (a_iter (r, ls) i) as (y & o); destruct (a_run y is); inversion Hc; auto).
  destruct (a_iter_events r ls i H1 C1 Hr) as (ls1 & E). rewrite E in Hc |- *. unfold taken. cbn [flat_map]. fold (taken is). destruct (in_event i) as [e|].
  - specialize (IH (fst (fst (e_step r e))) ls1 H2). cbn [app e_run]. pose proof (e_step_short r e Hr) as Hr1. destruct (e_step r e) as ((r1 & o) & c). cbn [fst snd] in *.
    destruct (a_run (r1, ls1) is) as (y & os). cbn [snd fst] in *. inversion Hc as [|? ? _ Hc']; subst. destruct (IH Hc' Hr1) as (ls' & A & B & C). exists ls'. cbn [flat_map fst snd]. rewrite B, C, A.
    destruct (e_run r1 (taken is)) as ((r2 & os2) & cs2). auto.
  - specialize (IH r ls1 H2). cbn [app]. destruct (a_run (r, ls1) is) as (y & os). cbn [snd fst] in *. inversion Hc as [|? ? _ Hc']; subst. destruct (IH Hc' Hr) as (ls' & A & B & C). exists ls'. cbn [flat_map fst snd app]. auto.
Qed.
Lemma e_run_app a : forall r b, e_run r (a ++ b) = let '(r1, o1, c1) := e_run r a in let '(r2, o2, c2) := e_run r1 b in (r2, o1 ++ o2, c1 ++ c2).
Proof.
  induction a as [|e a IH]; intros r b; cbn [app e_run]; [destruct (e_run r b) as ((? & ?) & ?); reflexivity|]. destruct (e_step r e) as ((r1 & o) & c). rewrite IH.
  destruct (e_run r1 a) as ((r2 & o2) & c2). destruct (e_run r2 b) as ((r3 & o3) & c3). rewrite !app_assoc. reflexivity.
Qed.
Lemma ev_bytes_app a b : ev_bytes (a ++ b) = ev_bytes a ++ ev_bytes b.
Proof. apply flat_map_app. Qed.
Lemma e_run_body es : forall r, Forall (fun e => ev_free e = false) es -> (length (snd r ++ ev_bytes es) <= 31)%nat ->
  e_run r es = ((fold_left status_after es (fst r), snd r ++ ev_bytes es), [], []).
Proof.
  induction es as [|e es IH]; intros r F L; cbn [e_run].
  - cbn. rewrite app_nil_r. destruct r; reflexivity.
  - inversion F; subst. change (e :: es) with ([e] ++ es) in L. rewrite ev_bytes_app, app_assoc in L. replace (ev_bytes [e]) with (byte_of e) in L by (cbn; rewrite app_nil_r; reflexivity).
    unfold e_step. rewrite H1. cbn [andb flush_if fst snd]. destruct (Nat.eqb_spec (length (snd r ++ byte_of e)) 32); [rewrite app_length in L; lia|]. cbn [flush_if].
    rewrite IH; [|auto|exact L]. cbn [app fst snd fold_left ev_bytes flat_map]. rewrite <- app_assoc. reflexivity.
Qed.
Definition st_rxs (s : stretch) : list rxs := map snd (st_report s).
Lemma e_run_stretch s : st_ok s -> e_run (0, []) (st_events s) = ((0, []), st_report s, st_rxs s).
Proof.
  intros (F & Hf & L). unfold st_events in *. rewrite ev_bytes_app in L. rewrite e_run_app, e_run_body; [|exact F|cbn [snd app]; rewrite app_length in L; lia]. cbn [e_run app fst snd].
  unfold e_step. rewrite Hf. cbn [andb fst snd]. unfold st_rxs, st_report, st_events, ev_status. rewrite ev_bytes_app, fold_left_app. replace (ev_bytes [st_end s]) with (byte_of (st_end s)) in * by (cbn; rewrite app_nil_r; reflexivity).
  cbn [fold_left]. set (bs := ev_bytes (st_body s) ++ byte_of (st_end s)) in *. set (st := status_after _ _).
  destruct bs as [|b0 bs]; cbn [length Nat.ltb Nat.leb orb].
  - destruct (Z.eqb_spec st 0) as [Hz|Hz]; cbn [negb flush_if fst snd length Nat.eqb app map].
    + rewrite Hz. reflexivity.
    + destruct st; try reflexivity. congruence.
  - cbn [flush_if fst snd length Nat.eqb app map]. reflexivity.
Qed.
Lemma e_run_stretches segs : Forall st_ok segs -> e_run (0, []) (concat (map st_events segs)) = ((0, []), flat_map st_report segs, flat_map st_rxs segs).
Proof.
  induction 1 as [|s segs H F IH]; [reflexivity|]. cbn [map concat flat_map]. rewrite e_run_app, e_run_stretch by exact H. rewrite IH. reflexivity.
Qed.
(** Without loss the flag is never raised. *)
Lemma no_flag l : forall k c k' c' outs, mrun duo_step (k, c) l = Ok ((k', c'), outs) -> lost (length (k_queue k)) l = [] -> k_ferr k = false -> k_tested k <> Some true ->
  nothing_lost (map fst (loops outs)).
Proof.
  induction l as [|x l IH]; intros k c k' c' outs E Hl Hf Ht; cbn [mrun] in E; [injection E as <- <- <-; constructor|].
  bstep E. destruct x0 as ((k1 & c1) & o1). bstep E. destruct x0 as (s2 & o2). injection E as -> <-. destruct x as [e| |i]; cbn [duo_step lost] in *.
  - injection E0 as <- <- <-. cbn [loops flat_map app]. rewrite no_news_nonzero in Hl. unfold link_news, link_room, FIFO_DEPTH in E1. destruct (ev_nonzero e); cbn [negb] in Hl; [|eapply IH; eauto].
    destruct (length (k_queue k) <? 8)%nat; [|discriminate]. eapply IH in E1; eauto. cbn [k_queue]. rewrite app_length, Nat.add_1_r. exact Hl.
  - injection E0 as <- <- <-. cbn [loops flat_map app]. eapply IH in E1; eauto. cbn. congruence.
  - unfold link_take in E0. bstep E0. destruct x as (c2 & lg). injection E0 as <- <- <-. cbn [loops flat_map app map fst]. fold (loops o2).
    assert (S : match k_tested k with Some b => b | None => k_ferr k end = false) by (destruct (k_tested k) as [[|]|]; congruence). rewrite S in *.
    constructor; [reflexivity|]. eapply IH in E1; eauto; cbn [k_queue k_tested k_ferr]; [|discriminate]. replace (length (tl (k_queue k))) with (pred (length (k_queue k))) by (destruct (k_queue k); reflexivity). exact Hl.
Qed.
Lemma received_exactly b l k c outs segs rest : boot_ok b -> Forall news_ok l -> input_ok (text (loop_inputs l)) -> duo_run b l = Ok ((k, c), outs) ->
  lost 0 l = [] -> no_timeout (map snd (loops outs)) -> taken (map fst (loops outs)) = concat (map st_events segs) ++ rest -> Forall st_ok segs ->
  Forall (fun e => ev_free e = false) rest -> (length (ev_bytes rest) <= 31)%nat ->
  map described (rx_reports (concat (map snd (loops outs)))) = flat_map st_report segs /\
  map content (to_ctrl (concat (map snd (loops outs)))) = map snd (flat_map st_report segs).
Proof.
  intros B F T E Hl Hc Ht Fs Fr Lr. destruct (duo_core0 b l k c outs F E) as (A & Fo & _ & Tx & _). rewrite <- Tx in T.
  assert (NL : nothing_lost (map fst (loops outs))).
  { unfold duo_run in E. bstep E. unfold duo_start in E0. bstep E0. injection E0 as <-. eapply no_flag; eauto. discriminate. }
  destruct (run_good b _ B Fo T) as (c0 & s1 & logs & _ & Er & _ & _ & Ar & _). rewrite A in Er. injection Er as <- <-.
  pose proof (fun A B => a_run_events (map fst (loops outs)) (fst (x0 (b_now b))) (snd (x0 (b_now b))) NL A B) as X. rewrite <- surjective_pairing, Ar in X. change (fst (x0 (b_now b))) with ((0, []) : rxs) in X. cbn [fst snd] in X.
  destruct (X (calm_seen _ Hc) ltac:(cbn; lia)) as (ls' & _ & R1 & R2). rewrite flat_seen_1 in R1. rewrite flat_seen_2 in R2. rewrite R1, R2, Ht, e_run_app, e_run_stretches by exact Fs.
  rewrite (e_run_body rest (0, []) Fr) by exact Lr. cbn [fst snd]. rewrite !app_nil_r. split; [reflexivity|]. unfold st_rxs. clear. induction segs as [|s t IH]; [reflexivity|]. cbn [flat_map]. rewrite map_app, IH. reflexivity.
Qed.

(** A loss that is never reported leaves the flag up. *)
Lemma lost_flag l : forall k c k' c' outs, mrun duo_step (k, c) l = Ok ((k', c'), outs) -> k_ferr k = true \/ lost (length (k_queue k)) l <> [] ->
  k_ferr k' = true \/ Exists (fun x => in_fifoerr (fst x) = true) (loops outs).
Proof.
  induction l as [|x l IH]; intros k c k' c' outs E H; cbn [mrun] in E; [injection E as <- <- <-; destruct H as [H|H]; [auto|cbn in H; congruence]|].
  bstep E. destruct x0 as ((k1 & c1) & o1). bstep E. destruct x0 as (s2 & o2). injection E as -> <-. destruct x as [e| |i]; cbn [duo_step lost] in *.
  - injection E0 as <- <- <-. cbn [loops flat_map app]. apply (IH _ _ _ _ _ E1). rewrite no_news_nonzero in H. unfold link_news, link_room, FIFO_DEPTH. destruct (ev_nonzero e); cbn [negb] in H; [|exact H].
    destruct (length (k_queue k) <? 8)%nat; cbn [k_ferr k_queue]; [|auto]. rewrite app_length, Nat.add_1_r. exact H.
  - injection E0 as <- <- <-. cbn [loops flat_map app]. apply (IH _ _ _ _ _ E1). exact H.
  - unfold link_take in E0. bstep E0. destruct x as (c2 & lg). injection E0 as <- <- <-. cbn [loops flat_map app]. fold (loops o2).
    destruct (match k_tested k with Some b => b | None => k_ferr k end) eqn:S; [right; left; reflexivity|].
    destruct (IH _ _ _ _ _ E1) as [X|X]; [|left; exact X|right; right; exact X]. cbn [k_ferr k_queue]. replace (length (tl (k_queue k))) with (pred (length (k_queue k))) by (destruct (k_queue k); reflexivity). exact H.
Qed.
Lemma never_lost b l k c outs : boot_ok b -> Forall news_ok l -> input_ok (text (loop_inputs l)) -> duo_run b l = Ok ((k, c), outs) ->
  k_ferr k = false -> Forall (fun x => ~ overflow_in (snd x)) (loops outs) -> lost 0 l = [].
Proof.
  intros B F T E Hf Hn. pose proof (duo_overflow b l k c outs B F T E) as Ov. unfold duo_run in E. bstep E. unfold duo_start in E0. bstep E0. injection E0 as <-.
  destruct (lost 0 l) as [|e t] eqn:El; [reflexivity|]. exfalso. destruct (lost_flag l _ _ _ _ _ E) as [X|X]; [right; cbn [link_new k_queue length]; congruence|congruence|].
  apply Exists_exists in X as (y & Hy & Hy2). rewrite Forall_forall in Ov, Hn. apply (Hn y Hy). apply Ov; auto.
Qed.

Lemma received_run b l k c outs : boot_ok b -> Forall news_ok l -> input_ok (text (loop_inputs l)) -> duo_run b l = Ok ((k, c), outs) ->
  lost 0 l = [] -> no_timeout (map snd (loops outs)) ->
  map described (rx_reports (concat (map snd (loops outs)))) = snd (fst (e_run (0, []) (taken (map fst (loops outs))))) /\
  map content (to_ctrl (concat (map snd (loops outs)))) = snd (e_run (0, []) (taken (map fst (loops outs)))).
Proof.
  intros B F T E Hl Hc. destruct (duo_core0 b l k c outs F E) as (A & Fo & _ & Tx & _). rewrite <- Tx in T.
  assert (NL : nothing_lost (map fst (loops outs))).
  { unfold duo_run in E. bstep E. unfold duo_start in E0. bstep E0. injection E0 as <-. eapply no_flag; eauto. discriminate. }
  destruct (run_good b _ B Fo T) as (c0 & s1 & logs & _ & Er & _ & _ & Ar & _). rewrite A in Er. injection Er as <- <-.
  pose proof (fun A B => a_run_events (map fst (loops outs)) (fst (x0 (b_now b))) (snd (x0 (b_now b))) NL A B) as X. rewrite <- surjective_pairing, Ar in X. change (fst (x0 (b_now b))) with ((0, []) : rxs) in X. cbn [fst snd] in X.
  destruct (X (calm_seen _ Hc) ltac:(cbn; lia)) as (ls' & _ & R1 & R2). rewrite flat_seen_1 in R1. rewrite flat_seen_2 in R2. auto.
Qed.

(** ** What is reported depends on the log of the events only *)
Definition lg_step (r : rxs) (x : logline) : rxs * list (reason * rxs) * list rxs :=
  match x with
  | LFree => e_step r (EV 0 false false false true false)
  | LBusy => (r, [], [])
  | LByte c err => e_step r (EV c (negb err) err false false false)
  end.
Fixpoint lg_run (r : rxs) (es : list logline) : rxs * list (reason * rxs) * list rxs :=
  match es with
  | [] => (r, [], [])
  | e :: t => let '(r1, o, c) := lg_step r e in let '(r2, os, cs) := lg_run r1 t in (r2, o ++ os, c ++ cs)
  end.
Definition plain_event (e : event) : Prop := ev_dadc e = false /\ (ev_free e = true -> is_byte e = false) /\ (ev_valid e = true -> ev_error e = false).
Lemma lg_event r e : (length (snd r) < 32)%nat -> plain_event e -> e_step r e = lg_run r (log_event e).
Proof.
  intros H (Hd & Hf & Hv). destruct e as [c v er b f d]. unfold log_event, is_byte in *. cbn [ev_dadc ev_free ev_valid ev_error ev_busy ev_char] in *. subst d.
  assert (N : forall e, ev_free e = false -> status_after (fst r) e = fst r -> byte_of e = [] -> e_step r e = (r, [], [])).
  { intros e A B C. unfold e_step. rewrite A, B, C. cbn [andb flush_if]. rewrite app_nil_r. cbn [snd]. destruct (Nat.eqb_spec (length (snd r)) 32); [lia|]. destruct r; reflexivity. }
  destruct f; [rewrite Hf by reflexivity; destruct v, er; try discriminate (Hf eq_refl); destruct b; cbn [app lg_run lg_step]|].
  - change (e_step r (EV c false false true true false)) with (e_step r (EV 0 false false false true false)). destruct (e_step r _) as ((? & ?) & ?); rewrite !app_nil_r; reflexivity.
  - change (e_step r (EV c false false false true false)) with (e_step r (EV 0 false false false true false)). destruct (e_step r _) as ((? & ?) & ?); rewrite !app_nil_r; reflexivity.
  - destruct v, er; try discriminate (Hv eq_refl); cbn [orb]; destruct b; cbn [app lg_run lg_step];
      try (match goal with |- context [e_step r (EV c ?v ?e true false false)] => change (e_step r (EV c v e true false false)) with (e_step r (EV c v e false false false)) end);
      try (destruct (e_step r _) as ((? & ?) & ?); cbn [negb]; rewrite ?app_nil_r; reflexivity); apply N; reflexivity.
Qed.
Lemma lg_run_app a : forall r b, lg_run r (a ++ b) = let '(r1, o1, c1) := lg_run r a in let '(r2, o2, c2) := lg_run r1 b in (r2, o1 ++ o2, c1 ++ c2).
Proof.
  induction a as [|e a IH]; intros r b; cbn [app lg_run]; [destruct (lg_run r b) as ((? & ?) & ?); reflexivity|]. destruct (lg_step r e) as ((r1 & o) & c). rewrite IH.
  destruct (lg_run r1 a) as ((r2 & o2) & c2). destruct (lg_run r2 b) as ((r3 & o3) & c3). rewrite !app_assoc. reflexivity.
Qed.
Lemma lg_events es : forall r, (length (snd r) < 32)%nat -> Forall plain_event es -> e_run r es = lg_run r (log_of es).
Proof.
  induction es as [|e es IH]; intros r H F; [reflexivity|]. inversion F; subst. cbn [e_run log_of flat_map]. fold (log_of es). rewrite lg_run_app, <- (lg_event r e) by assumption.
  pose proof (e_step_short r e H) as H'. destruct (e_step r e) as ((r1 & o) & c). cbn [fst] in H'. rewrite (IH r1 H') by assumption. reflexivity.
Qed.
Lemma log_no_news e : no_news e = true -> log_event e = [].
Proof. unfold no_news, log_event, is_byte. destruct (ev_valid e), (ev_error e), (ev_busy e), (ev_free e); cbn; rewrite ?andb_false_r; try discriminate. reflexivity. Qed.
Lemma log_only_news es : log_of (only_news es) = log_of es.
Proof.
  unfold log_of, only_news. induction es as [|e es IH]; [reflexivity|]. cbn [filter flat_map]. destruct (no_news e) eqn:N; cbn [negb flat_map]; rewrite IH; [rewrite (log_no_news e N)|]; reflexivity.
Qed.
Lemma lg_bytes bs : forall r, fst r = 0 -> (length (snd r ++ bs) <= 31)%nat -> lg_run r (map (fun b => LByte b false) bs) = ((0, snd r ++ bs), [], []).
Proof.
  induction bs as [|b bs IH]; intros (st & d) H0 L; cbn [fst snd] in *; subst st; cbn [map lg_run]; [rewrite app_nil_r; reflexivity|].
  assert (S1 : lg_step (0, d) (LByte b false) = ((0, d ++ [b]), [], [])).
  { cbn [lg_step negb]. unfold e_step. cbn. destruct (Nat.eqb_spec (length (d ++ [b])) 32) as [X|X]; [|reflexivity]. rewrite app_length in *. cbn [length] in *. lia. }
  rewrite S1, IH; cbn [fst snd]; [rewrite <- app_assoc; reflexivity|reflexivity|rewrite <- app_assoc; exact L].
Qed.
Lemma lg_packet p : (length (pk_bytes p) <= 31)%nat -> lg_run (0, []) (one_packet p) = ((0, []), [(R_packet, (0, pk_bytes p))], [(0, pk_bytes p)]).
Proof.
  intros L. unfold one_packet. cbn [lg_run lg_step]. rewrite lg_run_app, lg_bytes by (auto). unfold pk_bytes. cbn [snd app lg_run lg_step]. unfold e_step. cbn -[Nat.eqb]. rewrite !app_nil_r. reflexivity.
Qed.
Lemma lg_packets pkts : Forall (fun p => (length (pk_bytes p) <= 31)%nat) pkts ->
  lg_run (0, []) (LFree :: flat_map one_packet pkts) = ((0, []), map (fun p => (R_packet, (0, pk_bytes p))) pkts, map (fun p => (0, pk_bytes p)) pkts).
Proof.
  intros F. change (LFree :: flat_map one_packet pkts) with ([LFree] ++ flat_map one_packet pkts). rewrite lg_run_app. change (lg_run (0, []) [LFree]) with (((0, []) : rxs), [] : list (reason * rxs), [] : list rxs). cbv iota beta.
  induction F as [|p t H F IH]; [reflexivity|]. cbn [flat_map map]. rewrite lg_run_app, lg_packet by exact H. destruct (lg_run (0, []) (flat_map one_packet t)) as ((r & o) & c). injection IH as -> -> ->. reflexivity.
Qed.

(** ** No false alarm: overflow reports are at most as many as losses *)
Definition flag_up (k : link) : nat := if k_ferr k then 1 else 0.
Lemma reports_lost l : forall k c k' c' outs, mrun duo_step (k, c) l = Ok ((k', c'), outs) -> (k_tested k = Some true -> k_ferr k = true) ->
  (length (filter (fun x => in_fifoerr (fst x)) (loops outs)) + flag_up k' <= length (lost (length (k_queue k)) l) + flag_up k)%nat.
Proof.
  induction l as [|x l IH]; intros k c k' c' outs E T; cbn [mrun] in E; [injection E as <- _ <-; cbn; lia|].
  bstep E. destruct x0 as ((k1 & c1) & o). bstep E. destruct x0 as ((k2 & c2) & os). injection E as -> -> <-. destruct x as [e| |i]; cbn [duo_step] in E0.
  - injection E0 as <- <- <-. specialize (IH _ _ _ _ _ E1). change (loops (None :: os)) with (loops os). cbn [lost]. rewrite no_news_nonzero. unfold link_news, link_room, FIFO_DEPTH in *.
    destruct (ev_nonzero e); cbn [negb]; [|apply IH; exact T].
    destruct (length (k_queue k) <? 8)%nat; cbn [k_queue k_ferr k_tested flag_up length] in *; [rewrite app_length in IH; cbn [length] in IH; rewrite Nat.add_1_r in IH; apply IH; exact T|]. specialize (IH ltac:(auto)). destruct (k_ferr k); lia.
  - injection E0 as <- <- <-. specialize (IH _ _ _ _ _ E1). change (loops (None :: os)) with (loops os). cbn [lost]. apply IH. cbn. congruence.
  - unfold link_take in E0. bstep E0. destruct x as (c3 & log). injection E0 as <- <- <-. specialize (IH _ _ _ _ _ E1). cbn [k_tested k_queue] in IH. specialize (IH ltac:(discriminate)). cbn [loops flat_map app filter fst linked in_fifoerr]. fold (loops os).
    unfold flag_up in *. cbn [k_ferr] in IH. cbn [lost]. replace (length (tl (k_queue k))) with (pred (length (k_queue k))) in IH by (destruct (k_queue k); reflexivity).
    destruct (k_tested k) as [[|]|]; [rewrite (T eq_refl) in *; cbn [length] in *; lia|exact IH|]. destruct (k_ferr k); cbn [length] in *; lia.
Qed.
Definition fifo_count (o : list (reason * rxs)) : nat := length (filter (fun w => match w with R_fifo => true | _ => false end) (map fst o)).
Lemma fifo_count_app a b : fifo_count (a ++ b) = (fifo_count a + fifo_count b)%nat.
Proof. unfold fifo_count. rewrite map_app, filter_app, app_length. reflexivity. Qed.
Lemma a_count x i : fifo_count (fst (snd (a_iter x i))) = if in_fifoerr i then 1%nat else 0%nat.
Proof.
  destruct x as (r & (bz & since)). unfold a_iter. set (t := busy_timeout _ _ _). clearbody t. unfold rx_iter.
  destruct (flush_if t R_timeout 4 r) as (r1 & o1) eqn:E1. destruct (flush_if (in_fifoerr i) R_fifo 2 r1) as (r2 & o2) eqn:E2.
  set (r3 := (status_after (fst r2) (event_of i), snd r2 ++ byte_of (event_of i))).
  destruct (flush_if (line_free i && _) R_packet (fst r3) r3) as (r4 & o4) eqn:E4. destruct (flush_if (length (snd r4) =? 32)%nat R_full 2 r4) as (r5 & o5) eqn:E5.
  cbn [fst snd]. rewrite !fifo_count_app. unfold flush_if in *.
  assert (H1 : fifo_count o1 = 0%nat) by (destruct t; injection E1 as _ <-; reflexivity).
  assert (H4 : fifo_count o4 = 0%nat) by (destruct (line_free i && _); injection E4 as _ <-; reflexivity).
  assert (H5 : fifo_count o5 = 0%nat) by (destruct (length (snd r4) =? 32)%nat; injection E5 as _ <-; reflexivity).
  rewrite H1, H4, H5. destruct (in_fifoerr i); injection E2 as _ <-; reflexivity.
Qed.
Lemma a_run_count l : forall x, fifo_count (flat_map fst (snd (a_run x l))) = length (filter in_fifoerr l).
Proof.
  induction l as [|i l IH]; intros x; [reflexivity|]. cbn [a_run]. pose proof (a_count x i) as C. destruct (a_iter x i) as (y & o). specialize (IH y). destruct (a_run y l) as (z & os). cbn [snd fst flat_map filter] in *.
  rewrite fifo_count_app, C, IH. destruct (in_fifoerr i); reflexivity.
Qed.
Lemma reports_bounded b l k c outs : boot_ok b -> Forall news_ok l -> input_ok (text (loop_inputs l)) -> duo_run b l = Ok ((k, c), outs) ->
  (length (filter (fun x => match fst x with R_fifo => true | _ => false end) (rx_reports (concat (map snd (loops outs))))) <= length (lost 0 l))%nat.
Proof.
  intros B F T E. destruct (duo_core0 b l k c outs F E) as (A & Fo & _ & Tx & _). rewrite <- Tx in T.
  destruct (run_good b _ B Fo T) as (c0 & s1 & logs & _ & Er & _ & _ & Ar & _). rewrite A in Er. injection Er as <- <-.
  pose proof (a_run_count (map fst (loops outs)) (x0 (b_now b))) as X. rewrite Ar in X. cbn [snd] in X. rewrite flat_seen_1 in X.
  assert (Y : forall o, length (filter (fun x : reason * message => match fst x with R_fifo => true | _ => false end) o) = fifo_count (map described o)).
  { clear. unfold fifo_count. induction o as [|(w & m) o IH]; [reflexivity|]. cbn [map filter fst described]. destruct w; cbn [length]; auto. }
  rewrite Y, X. unfold duo_run, duo_start in E. bstep E. bstep E0. injection E0 as <-. pose proof (reports_lost l _ _ _ _ _ E ltac:(discriminate)) as Z1. cbn [link_new k_queue length flag_up k_ferr] in Z1.
  replace (length (filter in_fifoerr (map fst (loops outs)))) with (length (filter (fun x => in_fifoerr (fst x)) (loops outs))); [unfold flag_up in Z1; cbn in Z1; lia|].
  clear. induction (loops outs) as [|x t IH]; [reflexivity|]. cbn [map filter]. destruct (in_fifoerr (fst x)); cbn [length]; auto.
Qed.
