(** P_Core0Busy.v -- the time-out of a busy line (C68). *)
From Verif Require Import Base M_Message D_Message M_HostUart M_Core1 M_Core0 S_Core0 D_Core0 P_Core0 P_Core0Run P_Core0Rx.

Definition outs : Set := (list (reason * rxs) * list rxs)%type.
Definition timed_out (o : outs) : Prop := In R_timeout (map fst (fst o)).
Lemma timeout_iff r b since i : timed_out (snd (a_iter (r, (b, since)) i)) <-> busy_timeout (in_now i) b since = true.
Proof.
  unfold timed_out, a_iter. destruct (busy_timeout (in_now i) b since).
  - split; [reflexivity|]. intros _. unfold rx_iter, flush_if.
    destruct (in_fifoerr i); destruct (line_free i && _); destruct (length _ =? 32)%nat; cbn; auto.
  - split; [|discriminate]. unfold rx_iter, flush_if.
    destruct (in_fifoerr i); destruct (line_free i && _); destruct (length _ =? 32)%nat; cbn; intuition discriminate.
Qed.
Definition limit : Z := (4294967296 - 500) * 1000.
Fixpoint last_time (t : Z) (l : list inp0) : Z := match l with [] => t | i :: r => last_time (in_now i) r end.
Lemma in_time_app l1 : forall t l2, in_time t (l1 ++ l2) <-> in_time t l1 /\ in_time (last_time t l1) l2.
Proof. induction l1 as [|i l1 IH]; intros t l2; cbn; [tauto|]. rewrite IH. tauto. Qed.
Lemma last_time_app l1 : forall t l2, last_time t (l1 ++ l2) = last_time (last_time t l1) l2.
Proof. induction l1 as [|i l1 IH]; intros t l2; cbn; auto. Qed.
Lemma last_time_ge l : forall t, in_time t l -> t <= last_time t l.
Proof. induction l as [|i l IH]; intros t H; cbn in *; [lia|]. destruct H as (A & B). specialize (IH _ B). lia. Qed.
Lemma ms_small now : 0 <= now -> now < limit -> ms_since_boot now = now / 1000 /\ 0 <= now / 1000 < 4294967296 - 500.
Proof.
  unfold limit, ms_since_boot, u32. intros H0 H. assert (0 <= now / 1000 < 4294967296 - 500).
  { split; [apply Z.div_pos; lia|]. apply Z.div_lt_upper_bound; lia. }
  split; [|assumption]. apply Z.mod_small. lia.
Qed.

Definition was (l : list inp0) (os : list outs) (k : nat) (j : inp0) : Prop := nth_error l k = Some j /\ exists o, nth_error os k = Some o /\ timed_out o.
Definition busy_inv (t0 : Z) (l : list inp0) (os : list outs) (b : bool) (since : Z) : Prop :=
  match busy_since t0 l with
  | Some t => b = true /\ t / 1000 <= since <= last_time t0 l / 1000 /\ 0 <= t /\ (since = t / 1000 \/ exists k j, was l os k j /\ since = in_now j / 1000) /\
      (forall k j, was l os k j -> in_now j / 1000 <= since)
  | None => b = false /\ forall k j, was l os k j -> in_now j / 1000 <= last_time t0 l / 1000
  end.
Lemma was_app l os i o k j : length l = length os -> was (l ++ [i]) (os ++ [o]) k j -> was l os k j \/ (j = i /\ timed_out o).
Proof.
  intros L (A & o' & B & T). destruct (Nat.lt_ge_cases k (length l)) as [H|H].
  - left. rewrite nth_error_app1 in A by lia. rewrite nth_error_app1 in B by lia. split; eauto.
  - right. rewrite nth_error_app2 in A by lia. rewrite nth_error_app2 in B by lia. rewrite L in A. destruct (k - length os)%nat as [|n].
    + cbn in A, B. injection A as ->. injection B as ->. auto.
    + cbn in A. destruct n; discriminate.
Qed.
Lemma was_old l os i o k j : was l os k j -> was (l ++ [i]) (os ++ [o]) k j.
Proof.
  intros (A & o' & B & T). split; [rewrite nth_error_app1; auto; apply nth_error_Some; congruence|]. exists o'. split; [|exact T]. rewrite nth_error_app1; auto. apply nth_error_Some; congruence.
Qed.
Lemma was_new l os i o : length l = length os -> timed_out o -> was (l ++ [i]) (os ++ [o]) (length l) i.
Proof. intros L T. split; [rewrite nth_error_app2, Nat.sub_diag by lia; reflexivity|]. exists o. split; [|exact T]. rewrite L, nth_error_app2, Nat.sub_diag by lia. reflexivity. Qed.
Lemma busy_since_snoc t0 l i : busy_since t0 (l ++ [i]) = line_step0 (busy_since t0 l) i.
Proof. unfold busy_since. rewrite fold_left_app. reflexivity. Qed.
Lemma timeout_plain now b since : 0 <= now -> now < limit -> 0 <= since < 4294967296 - 500 -> busy_timeout now b since = true <-> b = true /\ since + 500 < now / 1000.
Proof.
  intros H0 H1 H2. unfold busy_timeout. destruct (ms_small now H0 H1) as (-> & _). unfold LINE_BUSY_TIMEOUT_MS, u32. rewrite Z.mod_small by lia.
  rewrite andb_true_iff, Z.ltb_lt. reflexivity.
Qed.

Lemma busy_run t0 l : 0 <= t0 -> in_time t0 l -> last_time t0 l < limit ->
  forall r since0, since0 = ms_since_boot t0 -> 
  let '((_, (b, since)), os) := a_run (r, (true, since0)) l in busy_inv t0 l os b since.
Proof.
  intros H0. induction l as [|i l IH] using rev_ind; intros Ht Hl r since0 Es.
  - cbn [a_run]. subst since0. cbn [last_time] in Hl. destruct (ms_small t0 H0 Hl) as (-> & B). unfold busy_inv, busy_since. cbn [fold_left last_time]. split; [reflexivity|]. split; [lia|]. split; [lia|]. split; [auto|].
    intros [|k] j (A & _); discriminate.
  - apply in_time_app in Ht as (Ht & Hi & _). rewrite last_time_app in Hl. cbn [last_time] in Hl. assert (G := last_time_ge l t0 Ht).
    assert (IH' := IH Ht ltac:(lia) r since0 Es). clear IH. rewrite a_run_app. pose proof (a_run_length l (r, (true, since0))) as L.
    destruct (a_run (r, (true, since0)) l) as ((r1 & (b & since)) & os). cbn [snd] in L. assert (LL : length l = length os) by lia. cbn [a_run].
    pose proof (timeout_iff r1 b since i) as TI. unfold a_iter in *. set (tt := busy_timeout (in_now i) b since) in *. clearbody tt.
    destruct (rx_iter tt i r1) as ((r2 & o) & c). cbn [snd] in TI.
    destruct (ms_small (in_now i) ltac:(lia) Hl) as (Em & Bm). rewrite Em. 
    assert (LT : last_time t0 l / 1000 <= in_now i / 1000) by (apply Z.div_le_mono; lia).
    destruct (line_state (in_now i) (event_of i) b (if tt then in_now i / 1000 else since)) as (b2 & since2) eqn:El.
    unfold busy_inv in *. rewrite busy_since_snoc. rewrite last_time_app. cbn [last_time].
    assert (ALL : forall k j, was (l ++ [i]) (os ++ [(o, c)]) k j -> (forall k j, was l os k j -> in_now j / 1000 <= last_time t0 l / 1000) -> in_now j / 1000 <= in_now i / 1000).
    { intros k j W Old. apply (was_app _ _ _ _ _ _ LL) in W as [W|(-> & _)]; [apply Old in W; lia|lia]. }
    unfold line_state in El. destruct (busy_since t0 l) as [t|]; cbn [line_step0].
    + destruct IH' as (-> & Hs & Ht0 & Hm & Ha).
      assert (Old : forall k j, was l os k j -> in_now j / 1000 <= last_time t0 l / 1000) by (intros k j W; apply Ha in W; lia).
      rewrite andb_true_r, andb_false_r in El. destruct (ev_free (event_of i)).
      * injection El as <- <-. split; [reflexivity|]. intros k j W. eauto.
      * injection El as <- <-. split; [reflexivity|]. split; [destruct tt; lia|]. split; [exact Ht0|]. destruct tt eqn:Ett.
        -- split; [right; exists (length l), i; split; [apply was_new; [exact LL|apply TI; reflexivity]|reflexivity]|]. intros k j W. eauto.
        -- split; [destruct Hm as [Hm|(k & j & W & E)]; [auto|right; exists k, j; split; [apply was_old; exact W|exact E]]|].
           intros k j W. apply (was_app _ _ _ _ _ _ LL) in W as [W|(-> & T)]; [eauto|apply TI in T; discriminate].
    + destruct IH' as (-> & Old). rewrite andb_false_r, andb_true_r in El. destruct (ev_busy (event_of i)).
      * injection El as <- <-. rewrite Em. split; [reflexivity|]. split; [lia|]. split; [lia|]. split; [auto|]. intros k j W. eauto.
      * injection El as <- <-. split; [reflexivity|]. intros k j W. eauto.
Qed.

Lemma busy_exact t0 l i : 0 <= t0 -> in_time t0 (l ++ [i]) -> in_now i < limit ->
  let '(x, os) := a_run (x0 t0) l in
  timed_out (snd (a_iter x i)) <->
  exists t, busy_since t0 l = Some t /\ t / 1000 + 500 < in_now i / 1000 /\ forall k j, was l os k j -> in_now j / 1000 + 500 < in_now i / 1000.
Proof.
  intros H0 Ht Hl. apply in_time_app in Ht as (Ht & Hi & _). assert (G := last_time_ge l t0 Ht).
  pose proof (busy_run t0 l H0 Ht ltac:(lia) (0, []) _ eq_refl) as I. change (let (p, os) := a_run (x0 t0) l in let (_, p0) := p in let (b, since) := p0 in busy_inv t0 l os b since) in I. destruct (a_run (x0 t0) l) as ((r1 & (b & since)) & os).
  rewrite timeout_iff. unfold busy_inv in I. destruct (busy_since t0 l) as [t|].
  - destruct I as (-> & Hs & Ht0 & Hm & Ha).
    assert (LT : last_time t0 l / 1000 <= in_now i / 1000) by (apply Z.div_le_mono; lia).
    destruct (ms_small (in_now i) ltac:(lia) Hl) as (_ & Bm). assert (0 <= t / 1000) by (apply Z.div_pos; lia).
    rewrite timeout_plain by lia. split.
    + intros (_ & H'). exists t. split; [reflexivity|]. split; [lia|]. intros k j W. apply Ha in W. lia.
    + intros (t' & E & A & B). injection E as <-. split; [reflexivity|]. destruct Hm as [->|(k & j & W & ->)]; [lia|eauto].
  - destruct I as (-> & _). split; [|intros (t & E & _); discriminate]. cbn. discriminate.
Qed.
