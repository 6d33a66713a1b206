(** P_Core0Loop.v -- a transmission whose echo is told as one packet succeeds (C97, positive half). *)
From Verif Require Import Base S_Containers D_Containers P_Containers M_Fifo M_Message S_Message D_Message P_Message P_MessageParse
  M_Standalone S_Crc S_Ctrl D_Ctrl P_Ctrl M_Tx D_Tx S_Tx P_Tx P_TxRun P_TxHist P_TxLive M_HostUart D_Host S_Host P_Host P_HostProps M_Led M_Core1 S_Core1 M_Core0 S_Core0 D_Core0 P_Core0 P_Core0Run P_Core0Rx P_Core0Busy P_Core0Main P_Core0Feed P_Core0Bus P_Core0Fail P_Core0Live P_Core0Cut S_Loop.

Lemma polls_of_app b x : forall l y, polls_of b l (x ++ y) = polls_of b l x ++ polls_of b (l ++ x) y.
Proof.
  induction x as [|i x IH]; intros l y; [rewrite app_nil_r; reflexivity|]. cbn [app polls_of]. rewrite IH, <- !app_assoc. reflexivity.
Qed.
Lemma free_stays t : forall ls l, is_busy t l = false -> Forall (fun i => ev_busy (event_of i) = false) ls -> is_busy t (l ++ ls) = false.
Proof.
  induction ls as [|i ls IH]; intros l H F; [rewrite app_nil_r; exact H|]. inversion F; subst. change (i :: ls) with ([i] ++ ls). rewrite app_assoc. apply IH; [|assumption].
  rewrite is_busy_snoc, H. unfold line_state. rewrite H2, andb_false_r. reflexivity.
Qed.
(** The three parts of the log of a packet. *)
Lemma log_nil ls : log_of (map event_of ls) = [] -> Forall (fun i => told i = false /\ ev_busy (event_of i) = false /\ ev_free (event_of i) = false /\ ev_valid (event_of i) = false /\ ev_error (event_of i) = false) ls.
Proof.
  unfold log_of. induction ls as [|i ls IH]; intros E; [constructor|]. cbn [map flat_map] in E. apply app_eq_nil in E as (E1 & E2). constructor; [|auto].
  unfold told. rewrite E1. unfold log_event, is_byte in E1. destruct (ev_free (event_of i)), (ev_busy (event_of i)), (ev_valid (event_of i)), (ev_error (event_of i)); try discriminate; auto.
Qed.
Lemma busy_split bs : forall ls, log_of (map event_of ls) = LBusy :: map (fun c => LByte c false) bs ->
  exists st j r, ls = st ++ j :: r /\ log_of (map event_of st) = [] /\ ev_busy (event_of j) = true.
Proof.
  induction ls as [|i ls IH]; intros E; [discriminate|]. unfold log_of in E. cbn [map flat_map] in E.
  destruct (ev_busy (event_of i)) eqn:Eb; [exists [], i, ls; auto|].
  unfold log_event in E at 1. rewrite Eb in E. destruct (ev_free (event_of i)) eqn:Ef; [discriminate|]. destruct (is_byte (event_of i)) eqn:Ei; [discriminate|]. cbn [app] in E.
  destruct (IH E) as (st & j & r & -> & Hs & Hj). exists (i :: st), j, r. split; [reflexivity|]. split; [|exact Hj]. unfold log_of in *. cbn [map flat_map]. rewrite Hs. unfold log_event. rewrite Ef, Eb, Ei. reflexivity.
Qed.
Lemma echo_bytes b : forall ls bs, (log_of (map event_of ls) = map (fun c => LByte c false) bs \/ log_of (map event_of ls) = LBusy :: map (fun c => LByte c false) bs) ->
  Forall (fun i => line_free i = false /\ ev_error (event_of i) = false) ls /\ forall l, echoes (polls_of b l ls) = bs.
Proof.
  induction ls as [|i ls IH]; intros bs E.
  - destruct E as [E|E]; [|discriminate]. destruct bs; [|discriminate]. split; [constructor|reflexivity].
  - unfold log_of in E. cbn [map flat_map] in E. fold (log_of (map event_of ls)) in E. set (g := log_of (map event_of ls)) in *. unfold log_event, is_byte in E. unfold line_free.
    assert (X : exists bs2, (g = map (fun c => LByte c false) bs2 \/ g = LBusy :: map (fun c => LByte c false) bs2) /\ bs = (if ev_valid (event_of i) then [ev_char (event_of i)] else []) ++ bs2 /\
      ev_free (event_of i) = false /\ ev_error (event_of i) = false).
    { destruct (ev_free (event_of i)); [destruct E as [E|E]; [destruct bs|]; discriminate|].
      destruct (ev_busy (event_of i)); cbn [app] in E.
      - destruct E as [E|E]; [destruct bs; discriminate|]. injection E as E. destruct (ev_valid (event_of i)); cbn [orb app] in E.
        + destruct bs as [|c bs]; [discriminate|]. cbn [map] in E. injection E as -> Ee E. exists bs. auto.
        + destruct (ev_error (event_of i)); cbn [app] in E; [exfalso; destruct bs; [discriminate|]; cbn [map] in E; injection E; congruence|]. exists bs. auto.
      - destruct (ev_valid (event_of i)); cbn [orb app] in E.
        + destruct E as [E|E]; [|discriminate]. destruct bs as [|c bs]; [discriminate|]. cbn [map] in E. injection E as -> Ee E. exists bs. auto.
        + destruct (ev_error (event_of i)); cbn [app] in E; [exfalso; destruct E as [E|E]; [destruct bs|]; try discriminate; cbn [map] in E; injection E; congruence|]. exists bs. auto. }
    destruct X as (bs2 & G & -> & Hf & He). destruct (IH bs2 G) as (F & Ec). split; [constructor; auto|]. intros l. cbn [polls_of echoes flat_map poll_of snd].
    change (flat_map _ (polls_of b (l ++ [i]) ls)) with (echoes (polls_of b (l ++ [i]) ls)). rewrite Ec. destruct (ev_valid (event_of i)); reflexivity.
Qed.

Lemma polls_all b (P : Z -> bool -> bool -> bool -> Prop) : forall ls l,
  (forall x i y, ls = x ++ i :: y -> P (in_now i) (is_busy (b_now b) (l ++ x ++ [i])) (ev_error (event_of i)) (ev_valid (event_of i))) -> polls P (polls_of b l ls).
Proof.
  induction ls as [|i ls IH]; intros l H; [constructor|]. cbn [polls_of]. constructor.
  - cbn [snd poll_of fst]. apply (H [] i ls eq_refl).
  - apply IH. intros x j y ->. specialize (H (i :: x) j y eq_refl). rewrite <- app_assoc. exact H.
Qed.
Lemma prompt_app x : forall limit y, prompt limit (x ++ y) -> prompt limit x /\ (Forall (fun i => told i = false) x -> prompt limit y).
Proof.
  induction x as [|i x IH]; intros limit y H; [split; [exact Logic.I|auto]|]. cbn [app prompt] in *. destruct H as (H1 & H2). destruct (IH _ _ H2) as (A & B). split; [auto|].
  intros F. inversion F as [|? ? Hn Hr]; subst. rewrite Hn in B. apply B. assumption.
Qed.
Lemma prompt_before x : forall limit, prompt limit x -> Forall (fun i => told i = false) x -> Forall (fun i => in_now i < limit) x.
Proof. induction x as [|i x IH]; intros limit H F; [constructor|]. cbn [prompt] in H. inversion F as [|? ? Hn Hr]; subst. destruct H as (H1 & H2). rewrite Hn in H2. constructor; auto. Qed.
Lemma prompt_steady b k : forall r l limit, Forall (fun i => line_free i = false /\ ev_busy (event_of i) = false /\ ev_error (event_of i) = false) r ->
  prompt limit (r ++ [k]) -> steady true limit (polls_of b l r) (in_now k).
Proof.
  induction r as [|i r IH]; intros l limit F H; cbn [app prompt] in H.
  - cbn. split; [reflexivity|lia].
  - inversion F as [|? ? (Hf & Hb & He) F2]; subst. cbn [polls_of steady poll_of]. destruct H as (H1 & H2). split; [exact H1|]. cbn [negb orb].
    replace (ev_valid (event_of i)) with (told i); [apply IH; auto|]. unfold told, log_event, is_byte, line_free in *. rewrite Hf, Hb, He, orb_false_r. destruct (ev_valid (event_of i)); reflexivity.
Qed.
Lemma no_more_busy bs r : log_of (map event_of r) = map (fun c => LByte c false) bs -> Forall (fun i => ev_busy (event_of i) = false) r.
Proof.
  revert bs. induction r as [|i r IH]; intros bs E; [constructor|]. unfold log_of in E. cbn [map flat_map] in E.
  assert (X : forall g bs, log_event (event_of i) ++ g = map (fun c => LByte c false) bs -> ev_busy (event_of i) = false /\ exists bs2, g = map (fun c => LByte c false) bs2).
  { clear. intros g bs E. unfold log_event in E. destruct (ev_free (event_of i)); [destruct bs; discriminate|]. destruct (ev_busy (event_of i)); [destruct bs; discriminate|]. split; [reflexivity|].
    destruct (is_byte (event_of i)); cbn [app] in E; [|eauto]. destruct bs as [|c bs]; [discriminate|]. cbn [map] in E. injection E as _ _ E. eauto. }
  destruct (X _ _ E) as (Hb & bs2 & E2). constructor; [exact Hb|]. eapply IH; eauto.
Qed.

Lemma loop_undisturbed b l i la k lb f m : is_busy (b_now b) (l ++ [i]) = false ->
  Forall (fun j => ev_busy (event_of j) = false /\ in_now j < in_now i + 32000) la -> ev_busy (event_of k) = false -> in_now i + 32000 <= in_now k ->
  log_of (map event_of lb) = LBusy :: map (fun c => LByte c false) (payload m) -> log_event (event_of f) = [LFree] -> prompt (in_now k + 2000) (lb ++ [f]) ->
  undisturbed (in_now i) m (polls_of b l (i :: la ++ k :: lb ++ [f])).
Proof.
  intros Hi Ha Hk Ht Hg Hf Hp. destruct (busy_split _ _ Hg) as (st & j & r & -> & Hs & Hj).
  unfold log_of in Hg. rewrite map_app, flat_map_app in Hg. fold (log_of (map event_of st)) in Hg. rewrite Hs in Hg. cbn [app] in Hg. fold (log_of (map event_of (j :: r))) in Hg.
  destruct (echo_bytes b (j :: r) (payload m) (or_intror Hg)) as (Fe & Ee). pose proof (log_nil _ Hs) as Fs.
  assert (Hr : exists bs2, log_of (map event_of r) = map (fun c => LByte c false) bs2).
  { unfold log_of in Hg. cbn [map flat_map] in Hg. unfold log_event in Hg at 1. rewrite Hj in Hg. destruct (ev_free (event_of j)); [discriminate|]. cbn [app] in Hg. injection Hg as Hg.
    destruct (is_byte (event_of j)); cbn [app] in Hg; [|eauto]. destruct (payload m) as [|c bs]; [discriminate|]. cbn [map] in Hg. injection Hg as _ _ Hg. eauto. }
  destruct Hr as (bs2 & Hr). pose proof (no_more_busy _ _ Hr) as Fb.
  assert (Hff : line_free f = true /\ ev_valid (event_of f) = false /\ ev_error (event_of f) = false).
  { unfold line_free. unfold log_event, is_byte in Hf. destruct (ev_free (event_of f)), (ev_busy (event_of f)), (ev_valid (event_of f)), (ev_error (event_of f)); try discriminate; auto. }
  destruct Hff as (Hf1 & Hf2 & Hf3).
  (* the line *)
  assert (La : is_busy (b_now b) ((l ++ [i]) ++ la ++ [k]) = false).
  { apply free_stays; [exact Hi|]. apply Forall_app. split; [eapply Forall_impl; [|exact Ha]; intros ? (H & _); exact H|repeat constructor; exact Hk]. }
  rewrite <- app_assoc in Hp. cbn [app] in Hp. destruct (prompt_app _ _ _ Hp) as (P1 & P2). assert (Ft : Forall (fun i => told i = false) st) by (eapply Forall_impl; [|exact Fs]; intros ? X; cbv beta in X |- *; tauto).
  specialize (P2 Ft). pose proof (prompt_before _ _ P1 Ft) as P3. cbn [prompt] in P2. destruct P2 as (P4 & P5).
  set (l3 := (l ++ [i]) ++ la ++ [k]) in *. set (l4 := l3 ++ st). set (l5 := l4 ++ [j]).
  assert (Eq : polls_of b l (i :: la ++ k :: (st ++ j :: r) ++ [f]) =
    [] ++ (in_now i, Update false (ev_error (event_of i)) (ev_valid (event_of i)) (ev_char (event_of i))) :: polls_of b (l ++ [i]) la ++
      (in_now k, Update false (ev_error (event_of k)) (ev_valid (event_of k)) (ev_char (event_of k))) :: polls_of b l3 st ++ polls_of b l4 (j :: r) ++ [(in_now f, Update false false false (ev_char (event_of f)))]).
  { cbn [app polls_of]. unfold poll_of at 1. rewrite Hi. f_equal. rewrite polls_of_app. f_equal. cbn [polls_of]. unfold poll_of at 1. replace (((l ++ [i]) ++ la) ++ [k]) with l3 by (unfold l3; first [apply app_assoc|symmetry; apply app_assoc]).
    rewrite La. f_equal. rewrite <- app_assoc. rewrite polls_of_app. f_equal. fold l4. rewrite (polls_of_app b (j :: r) l4 [f]).
    f_equal. cbn [polls_of]. unfold poll_of. rewrite Hf2, Hf3.
    rewrite (is_busy_snoc _ (l4 ++ j :: r) f). unfold line_state. unfold line_free in Hf1. rewrite Hf1.
    assert (Bz : is_busy (b_now b) (l4 ++ j :: r) = true).
    { change (j :: r) with ([j] ++ r). rewrite app_assoc. apply busy_stays; [apply busy_told; [exact Hj|inversion Fe; tauto]|]. inversion Fe as [|? ? _ Fe2]; subst. eapply Forall_impl; [|exact Fe2]; intros ? X; cbv beta in X |- *; tauto. }
    rewrite Bz. reflexivity. }
  exists [], (in_now i), (polls_of b (l ++ [i]) la), (in_now k), (polls_of b l3 st), (polls_of b l4 (j :: r)), (in_now f), (ev_error (event_of i)), (ev_valid (event_of i)), (ev_char (event_of i)),
    (ev_error (event_of k)), (ev_valid (event_of k)), (ev_char (event_of k)), (ev_char (event_of f)).
  split; [exact Eq|]. split; [constructor|]. split; [lia|]. split.
  { apply polls_all. intros x q y E. rewrite E in Ha. apply Forall_app in Ha as (Ha & Hb). inversion Hb as [|? ? (H1 & H2) _]; subst. split; [|exact H2].
    apply free_stays; [exact Hi|]. apply Forall_app. split; [eapply Forall_impl; [|exact Ha]; intros ? (H & _); exact H|repeat constructor; exact H1]. }
  split; [exact Ht|]. split.
  { apply polls_all. intros x q y E. rewrite E in Fs, P3. apply Forall_app in Fs as (Fs1 & Fs2). inversion Fs2 as [|? ? (H1 & H2 & H3 & H4 & H5) _]; subst. apply Forall_app in P3 as (_ & P3). inversion P3; subst.
    split; [|auto]. apply free_stays; [exact La|]. apply Forall_app. split; [eapply Forall_impl; [|exact Fs1]; intros ? X; cbv beta in X |- *; tauto|repeat constructor; exact H2]. }
  split.
  { apply polls_all. intros x q y E. assert (Fx : Forall (fun i => line_free i = false /\ ev_error (event_of i) = false) (x ++ [q])).
    { rewrite E in Fe. change (q :: y) with ([q] ++ y) in Fe. rewrite app_assoc in Fe. apply Forall_app in Fe. apply Fe. }
    split; [|apply Forall_app in Fx as (_ & Fx); inversion Fx; tauto].
    destruct x as [|x0 x]; cbn [app] in E; injection E as <- E.
    - cbn [app]. apply busy_told; [exact Hj|]. inversion Fx; tauto.
    - cbn [app] in *. change (j :: x ++ [q]) with ([j] ++ (x ++ [q])). rewrite app_assoc. inversion Fx as [|? ? (H1 & _) Fx2]; subst. apply busy_stays; [apply busy_told; auto|]. eapply Forall_impl; [|exact Fx2]; intros ? X; cbv beta in X |- *; tauto. }
  split; [apply Ee|].
  cbn [polls_of steady poll_of]. split; [exact P4|]. cbn [negb orb]. replace (told j) with true in P5 by (unfold told, log_event; rewrite Hj; destruct (ev_free (event_of j)); reflexivity).
  apply prompt_steady; [|exact P5]. inversion Fe as [|? ? _ Fe2]; subst. rewrite Forall_forall in *. intros x Hx. destruct (Fe2 x Hx). auto.
Qed.
Lemma log_last lb f pre : log_of (map event_of (lb ++ [f])) = pre ++ [LFree] -> told f = true -> log_of (map event_of lb) = pre /\ log_event (event_of f) = [LFree].
Proof.
  unfold log_of. rewrite map_app, flat_map_app. cbn [map flat_map]. rewrite app_nil_r. set (g := flat_map log_event (map event_of lb)). clearbody g. intros E T.
  assert (X : log_event (event_of f) = [LFree]).
  { unfold told, log_event, is_byte in *. destruct (ev_free (event_of f)), (ev_busy (event_of f)), (ev_valid (event_of f) || ev_error (event_of f)); cbn [app] in *; try discriminate; auto; exfalso;
      match type of E with ?g ++ ?y = _ => let y' := eval cbn in (removelast y) in let z := eval cbn in (last y LFree) in change y with (y' ++ [z]) in E end; rewrite app_assoc in E; apply app_inj_tail in E as (_ & E); discriminate. }
  rewrite X in E. apply app_inj_tail in E as (E & _). auto.
Qed.
