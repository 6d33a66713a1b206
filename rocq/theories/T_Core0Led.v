(** T_Core0Led.v -- property theorems C112-C115 (what the LEDs show of the running firmware). *)
From Verif Require Import Base M_Fifo M_Message S_Message D_Message M_Standalone S_Crc S_Ctrl D_Ctrl M_Tx D_Tx M_HostUart D_Host S_Host M_Led S_Led M_Core1 M_Core0 S_Core0 D_Core0 S_Core0Led
  P_Core0 P_Core0Run P_Core0Rx P_Core0Busy P_Core0Main P_Core0Feed P_Core0Bus P_Core0Fail P_Core0Led T_Core0 T_Core0Bus.

Definition blink (now : Z) : inp0 := IN0 now [] 8 false None [] [true] zeros.
Lemma blink_ok now : in_ok (blink now).
Proof. split; [apply zeros_ok|]. split; [constructor|exact I]. Qed.
Lemma blink_at now : at_500 (blink now).
Proof. exists []. split; [reflexivity|constructor]. Qed.
Definition lost (now : Z) : inp0 := IN0 now [] 8 true None [] [] zeros.
Lemma lost_ok now : in_ok (lost now).
Proof. split; [apply zeros_ok|]. split; [constructor|exact I]. Qed.
(** From the start of the firmware to the first update of the panel. *)
Lemma first_window w now s ow : Forall in_ok w -> (length (text w) <= 64)%nat -> Forall no_500 w -> (exists oj, core0_run boot0 (w ++ [blink now]) = Ok (s, ow ++ [oj])) -> length ow = length w -> shows boot0 [] w ow s.
Proof.
  intros Fw Tw Nw (oj & E) Lw. exists (blink now), [], [], oj, []. split; [exact boot0_ok|]. cbn [app]. split; [apply Forall_app; split; [exact Fw|constructor; [apply blink_ok|constructor]]|].
  split; [apply short_input; rewrite text_app; cbn; rewrite app_nil_r; exact Tw|]. split; [exact E|]. split; [reflexivity|]. split; [exact Lw|]. split; [left; auto|]. split; [apply blink_at|constructor].
Qed.
Ltac no500 := repeat (apply Forall_cons; [apply Forall_nil|]); apply Forall_nil.

(** C112: if a transmission fails, the panel shows an error at its next update. *)
(** Refuted: 00 11 is transmitted; the first byte is read back as 01, a collision, which is reported to the
    host; the line becomes free again; the panel shows an undisturbed exchange of data. *)
Definition ex112 : list inp0 := ex86 ++ [calm_iter 52000; tell 52500 Busy; tell 53500 (Byte 1 false); calm_iter 54000; tell 55000 Free; calm_iter 56000].
Theorem C112_failure_shown_refuted : exists b w ow s, shows b [] w ow s /\ map content (fail_reports (concat ow)) = [(21, [0])] /\ panel_of (z_led s) = (Slow, On, Slow).
Proof.
  destruct (core0_run boot0 (ex112 ++ [blink 500000])) as [(s & o)|] eqn:E; [|vm_compute in E; discriminate].
  exists boot0, ex112, (removelast o), s. split.
  - apply (first_window ex112 500000); [unfold ex112, ex86; in_oks|vm_compute; lia|unfold ex112, ex86; no500| |vm_compute in E; injection E as _ <-; vm_compute; reflexivity].
    exists (last o []). rewrite E. do 2 f_equal. apply app_removelast_last. intros ->. vm_compute in E. discriminate.
  - vm_compute in E. injection E as <- <-. split; vm_compute; reflexivity.
Qed.
Print Assumptions C112_failure_shown_refuted.
(** Weaker: a failure that is reported with another status than 21 (a byte that differs), in an iteration in
    which no data is lost between the cores: the panel shows a collision, or another error that happened in
    the same window. *)
Theorem C112_failure_shown_partial : forall b pre w ow s m, shows b pre w ow s ->
  occurs w ow (fun k log => In m (fail_reports log) /\ m_status m <> 21 /\ in_fifoerr k = false) ->
  panel_of (z_led s) = (Off, Fast, Fast) \/
  (panel_of (z_led s) = (Fast, Fast, Off) /\ occurs w ow (fun k _ => ev_error (event_of k) = true)) \/
  (panel_of (z_led s) = (Off, Fast, Off) /\ occurs w ow internal_error).
Proof.
  intros b pre w ow s m (j & rest & opre & oj & orest & B & F & T & E & Lp & Lw & W & Hj & Hr) (w1 & k & w2 & o1 & log & o2 & Ew & Eo & L & Hm & Hs & Hf). eapply win_failure; eauto.
Qed.
Print Assumptions C112_failure_shown_partial.
(** ... and a collision is shown only if a transmission failed. *)
Theorem C112_collision_true : forall b pre w ow s, shows b pre w ow s -> panel_of (z_led s) = (Off, Fast, Fast) ->
  occurs w ow (fun k log => In (in_now k, A_error true) log).
Proof.
  intros b pre w ow s (j & rest & opre & oj & orest & B & F & T & E & Lp & Lw & W & Hj & Hr) P. eapply win_error_tx_true; eauto. eapply panel_collision. rewrite <- P. symmetry. eapply win_panel; eauto.
Qed.
Print Assumptions C112_collision_true.
(** The line becomes busy while the amplifier is switched on. *)
Definition ex112b : list inp0 := ex86 ++ [tell 51500 Busy; calm_iter 51600; tell 52000 Free].
Example C112_ex : exists ow s, shows boot0 [] ex112b ow s /\ map content (fail_reports (concat ow)) = [(1, [])] /\ panel_of (z_led s) = (Off, Fast, Fast) /\
  existsb (fun e => match e with (_, A_error true) => true | _ => false end) (concat ow) = true.
Proof.
  destruct (core0_run boot0 (ex112b ++ [blink 500000])) as [(s & o)|] eqn:E; [|vm_compute in E; discriminate].
  exists (removelast o), s. split.
  - apply (first_window ex112b 500000); [unfold ex112b, ex86; in_oks|vm_compute; lia|unfold ex112b, ex86; no500| |vm_compute in E; injection E as _ <-; vm_compute; reflexivity].
    exists (last o []). rewrite E. do 2 f_equal. apply app_removelast_last. intros ->. vm_compute in E. discriminate.
  - vm_compute in E. injection E as <- <-. split; [vm_compute; reflexivity|]. split; vm_compute; reflexivity.
Qed.

(** C113: an internal error (the line busy for too long, an ADC error, data lost between the cores) is shown as
    such at the next update of the panel. *)
(** Refuted: data lost between the cores while a transmission is in progress; the panel shows a normal
    transmission. *)
Definition ex113 : list inp0 := ex86 ++ [lost 51999].
Theorem C113_internal_shown_refuted : exists b w ow s, shows b [] w ow s /\ occurs w ow internal_error /\ panel_of (z_led s) = (Off, On, Slow).
Proof.
  destruct (core0_run boot0 (ex113 ++ [blink 500000])) as [(s & o)|] eqn:E; [|vm_compute in E; discriminate].
  exists boot0, ex113, (removelast o), s. split.
  - apply (first_window ex113 500000); [unfold ex113, ex86; apply Forall_app; split; [in_oks|constructor; [apply lost_ok|constructor]]|vm_compute; lia|unfold ex113, ex86; no500| |vm_compute in E; injection E as _ <-; vm_compute; reflexivity].
    exists (last o []). rewrite E. do 2 f_equal. apply app_removelast_last. intros ->. vm_compute in E. discriminate.
  - vm_compute in E. injection E as <- <-. split; [|vm_compute; reflexivity].
    exists ex86, (lost 51999), []. eexists [_; _; _; _], _, []. split; [reflexivity|]. split; [vm_compute; reflexivity|]. split; [reflexivity|]. right. right. reflexivity.
Qed.
Print Assumptions C113_internal_shown_refuted.
(** Weaker: always, except for data lost while a transmission is in progress. *)
Theorem C113_internal_shown_partial : forall b pre w ow s, shows b pre w ow s ->
  (exists w1 k w2 o1 log o2, w = w1 ++ k :: w2 /\ ow = o1 ++ log :: o2 /\ length o1 = length w1 /\
    (too_long log = true \/ ev_dadc (event_of k) = true \/ (in_fifoerr k = true /\ not_sending b (pre ++ w1)))) ->
  panel_of (z_led s) = (Off, Fast, Off).
Proof.
  intros b pre w ow s (j & rest & opre & oj & orest & B & F & T & E & Lp & Lw & W & Hj & Hr) (w1 & k & w2 & o1 & log & o2 & Ew & Eo & L & H). eapply win_internal; eauto.
  - unfold internal_error. tauto.
  - intros Hf. destruct H as [H|[H|(_ & s1 & o' & H)]]; [auto|auto|]. right. right. eauto.
Qed.
Print Assumptions C113_internal_shown_partial.
(** ... and an internal error is shown only if there was one. *)
Theorem C113_internal_true : forall b pre w ow s, shows b pre w ow s -> panel_of (z_led s) = (Off, Fast, Off) -> occurs w ow internal_error.
Proof.
  intros b pre w ow s (j & rest & opre & oj & orest & B & F & T & E & Lp & Lw & W & Hj & Hr) P. eapply win_internal_true; eauto. eapply panel_system; [eapply win_bus; eauto|]. rewrite <- P. symmetry. eapply win_panel; eauto.
Qed.
Print Assumptions C113_internal_true.
(** The line is busy from the start for more than 500 ms. *)
Definition ex113b : list inp0 := [calm_iter 100000; calm_iter 507000].
Example C113_ex : exists ow s, shows boot0 [] ex113b ow s /\ existsb too_long ow = true /\ panel_of (z_led s) = (Off, Fast, Off).
Proof.
  destruct (core0_run boot0 (ex113b ++ [blink 508000])) as [(s & o)|] eqn:E; [|vm_compute in E; discriminate].
  exists (removelast o), s. split.
  - apply (first_window ex113b 508000); [unfold ex113b; in_oks|vm_compute; lia|unfold ex113b; no500| |vm_compute in E; injection E as _ <-; vm_compute; reflexivity].
    exists (last o []). rewrite E. do 2 f_equal. apply app_removelast_last. intros ->. vm_compute in E. discriminate.
  - vm_compute in E. injection E as <- <-. split; vm_compute; reflexivity.
Qed.

(** C114: the panel "TX only", which the document calls impossible, is never shown. *)
(** Refuted: a panel update between the start of a transmission and its first byte on the line. *)
Theorem C114_tx_only_refuted : exists b w ow s, shows b [] w ow s /\ concat (map (fun k => match in_event k with Some e => [(ev_valid e, ev_error e, ev_dadc e)] | None => [] end) w) = [(false, false, false)] /\
  length (wakes (concat ow)) = 1%nat /\ fail_reports (concat ow) = [] /\ panel_of (z_led s) = (Off, On, Slow).
Proof.
  destruct (core0_run boot0 (ex86 ++ [blink 51999])) as [(s & o)|] eqn:E; [|vm_compute in E; discriminate].
  exists boot0, ex86, (removelast o), s. split.
  - apply (first_window ex86 51999); [unfold ex86; in_oks|vm_compute; lia|unfold ex86; no500| |vm_compute in E; injection E as _ <-; vm_compute; reflexivity].
    exists (last o []). rewrite E. do 2 f_equal. apply app_removelast_last. intros ->. vm_compute in E. discriminate.
  - vm_compute in E. injection E as <- <-. repeat split; vm_compute; reflexivity.
Qed.
Print Assumptions C114_tx_only_refuted.
(** Weaker: only if nothing at all was received in the window. *)
Theorem C114_tx_only_partial : forall b pre w ow s, shows b pre w ow s -> panel_of (z_led s) = (Off, On, Slow) ->
  throughout w ow (fun _ k log => ev_valid (event_of k) = false /\ ev_error (event_of k) = false /\ ev_dadc (event_of k) = false /\ too_long log = false).
Proof.
  intros b pre w ow s (j & rest & opre & oj & orest & B & F & T & E & Lp & Lw & W & Hj & Hr) P w1 k w2 o1 log o2 Ew Eo L. eapply win_tx_only; eauto.
Qed.
Print Assumptions C114_tx_only_partial.

(** C115: in every iteration, the LEDs are told exactly what happened: a transmission is in progress, or data
    was lost between the cores, or a transmission has just failed; the line was busy for too long; a byte was received,
    with or without an error; an ADC error. *)
Theorem C115_calls : forall b l i s o s' log, boot_ok b -> Forall in_ok l -> input_ok (text l) -> core0_run b l = Ok (s, o) -> core0_step s i = Ok (s', log) ->
  exists t h r, tx_run (b_j1 b) (b_j2 b) (flat_map tx_part (concat o)) = Ok ((t, h), r) /\
    leds log = calls_for (tx_is_transmitting t) (snd (tx_error t)) (too_long log) i.
Proof. exact calls_led. Qed.
Print Assumptions C115_calls.
Example C115_ex : match core0_run boot0 ex112 with
  | Ok (_, o) => map leds o = [[]; []; [EvActivityTx]; [EvActivityTx]; [EvActivityTx]; [EvActivityTx]; [EvActivityTx; EvActivityRx]; [EvActivityTx]; [EvActivityTx]; []]
  | UB _ => False
  end.
Proof. vm_compute. reflexivity. Qed.
(** ... and the panel is the documented one for the calls of the window. *)
Theorem C115_panel : forall b pre w ow s, shows b pre w ow s -> panel_of (z_led s) = documented_panel (leds (concat ow)).
Proof. intros b pre w ow s (j & rest & opre & oj & orest & B & F & T & E & Lp & Lw & W & Hj & Hr). eapply win_panel; eauto. Qed.
Print Assumptions C115_panel.
(** The idle panel can be trusted: nothing was received, nothing was being transmitted, nothing failed. *)
Theorem C115_idle : forall b pre w ow s, shows b pre w ow s -> panel_of (z_led s) = (Off, On, Off) ->
  throughout w ow (fun w1 k log => nothing_happened k log /\ not_sending b (pre ++ w1)).
Proof.
  intros b pre w ow s (j & rest & opre & oj & orest & B & F & T & E & Lp & Lw & W & Hj & Hr) P w1 k w2 o1 log o2 Ew Eo L. eapply win_idle; eauto.
Qed.
Print Assumptions C115_idle.
Example C115_idle_ex : exists ow s, shows boot0 [] [tell 10000 Free; calm_iter 20000] ow s /\ panel_of (z_led s) = (Off, On, Off).
Proof.
  destruct (core0_run boot0 ([tell 10000 Free; calm_iter 20000] ++ [blink 500000])) as [(s & o)|] eqn:E; [|vm_compute in E; discriminate].
  exists (removelast o), s. split.
  - apply (first_window _ 500000); [in_oks|vm_compute; lia|no500| |vm_compute in E; injection E as _ <-; vm_compute; reflexivity].
    exists (last o []). rewrite E. do 2 f_equal. apply app_removelast_last. intros ->. vm_compute in E. discriminate.
  - vm_compute in E. injection E as <- _. vm_compute. reflexivity.
Qed.
