(** T_Core0Bus.v -- property theorems C85-C87 (the main loop and the transmitter). *)
From Verif Require Import Base M_Fifo M_Message S_Message D_Message M_Standalone S_Crc S_Ctrl D_Ctrl M_Tx D_Tx M_HostUart D_Host S_Host M_Led M_Core1 M_Core0 S_Core0 D_Core0
  P_Core0 P_Core0Run P_Core0Rx P_Core0Busy P_Core0Main P_Core0Feed P_Core0Bus P_Core0Fail T_Core0.

(** The line is busy after a history, according to its events. *)
Definition line_busy (b : boot) (l : list inp0) : bool := match busy_since (b_now b) l with Some _ => true | None => false end.

(** C85: after the first iteration, every iteration with an event, and every iteration while the line is busy,
    tells the transmit state machine exactly once, and exactly, the state of the line after this iteration and
    what this iteration's event says about a received byte (nothing, if there was no event): a byte is never told
    twice and never lost. *)
Theorem C85_transmitter_informed : forall b l i s o log, core0_run b (l ++ [i]) = Ok (s, o ++ [log]) -> l <> [] \/ in_event i <> None ->
  let e := event_of i in
  updates log = [(line_busy b (l ++ [i]), ev_error e, ev_valid e, ev_char e)] \/
  (updates log = [] /\ in_event i = None /\ line_busy b (l ++ [i]) = false).
Proof.
  intros b l i s o log E H. pose proof (informed b l i s o log E) as X. cbv zeta in *. unfold event_of. change (line_busy b) with (is_busy (b_now b)).
  destruct (in_event i); [exact X|]. destruct l; [destruct H; congruence|exact X].
Qed.
Print Assumptions C85_transmitter_informed.
Example C85_ex : match core0_run boot0 [tell 10000 Free; tell 20000 Busy; calm_iter 20500; tell 21000 (Byte 7 false); calm_iter 21500; tell 30000 Free; calm_iter 31000] with
  | Ok (_, o) => map updates o = [[(false, false, false, 0)]; [(true, false, false, 0)]; [(true, false, false, 0)]; [(true, false, true, 7)]; [(true, false, false, 0)]; [(false, false, false, 0)]; []]
  | UB _ => False
  end.
Proof. vm_compute. reflexivity. Qed.
(** C85, refuted for the very first iteration: Core1Data is not initialised; without an event the transmitter is
    told what happens to be in memory, here a byte that was never received. *)
Theorem C85_first_refuted : exists b i s log, boot_ok b /\ in_ok i /\ in_event i = None /\
  core0_run b [i] = Ok (s, [log]) /\ updates log = [(true, false, true, 165)].
Proof.
  exists (BOOT 0 5000 zeros zeros zeros (EV 165 true false false false false)), (calm_iter 6000).
  destruct (core0_run (BOOT 0 5000 zeros zeros zeros (EV 165 true false false false false)) [calm_iter 6000]) as [(s & o)|] eqn:E; [|vm_compute in E; discriminate].
  exists s, (nth 0 o []). split; [|split; [apply calm_iter_ok|split; [reflexivity|]]].
  - split; [apply zeros_ok|]. split; [apply zeros_ok|]. split; [apply zeros_ok|]. unfold is_byte8; cbn; lia.
  - vm_compute in E. injection E as <- <-. split; vm_compute; reflexivity.
Qed.
Print Assumptions C85_first_refuted.

(** C86: whenever an iteration hands data to the transmitter, it is exactly the bytes of the message whose
    transmission was started last, and the line has been free, according to the events of the receiver, after
    some iteration at least 32 ms ago and after every iteration since then, the present one included. *)
Theorem C86_bus_access : forall b l i s o s' log, boot_ok b -> Forall in_ok (l ++ [i]) -> input_ok (text (l ++ [i])) ->
  core0_run b l = Ok (s, o) -> core0_step s i = Ok (s', log) ->
  (length (hw_dma (z_hw s)) < length (hw_dma (z_hw s')))%nat ->
  (exists p m, wakes (concat o) = p ++ [m] /\ hw_dma (z_hw s') = payload m) /\
  exists l1 j l2, l = l1 ++ j :: l2 /\ in_now j + 32000 <= in_now i /\
    forall p q, l2 ++ [i] = p ++ q -> line_busy b (l1 ++ j :: p) = false.
Proof.
  intros b l i s o s' log B F T E Es D. destruct (bus_access b l i s o s' log B F T E Es D) as (A & l1 & j & l2 & -> & Hn & Hf).
  split; [exact A|]. exists l1, j, l2. split; [reflexivity|]. split; [exact Hn|]. intros p q H. unfold line_busy. rewrite (Hf p q H). reflexivity.
Qed.
Print Assumptions C86_bus_access.
(** A typed message is handed over 32 ms after the line was seen free. *)
Definition ex86 : list inp0 := [tell 10000 Free; typed 20000 [48; 48; 49; 49; 13]; calm_iter 30000; calm_iter 51999].
Example C86_ex : Forall in_ok (ex86 ++ [calm_iter 52000]) /\ input_ok (text (ex86 ++ [calm_iter 52000])) /\
  match core0_run boot0 ex86, core0_run boot0 (ex86 ++ [calm_iter 52000]) with
  | Ok (s, o), Ok (s', o') => hw_dma (z_hw s) = [] /\ hw_dma (z_hw s') = [0; 17] /\ map payload (wakes (concat o)) = [[0; 17]]
  | _, _ => False
  end.
Proof. split; [unfold ex86; in_oks|]. split; [apply short_input; vm_compute; lia|]. vm_compute. auto. Qed.

(** C87: a failed transmission is reported to the host in the next iteration, by exactly one report, which shows
    the bytes transmitted so far and the status of the failure -- except failures by a receive error (status 3). *)
Theorem C87_failure_reported : forall b l i s o s' log, boot_ok b -> Forall in_ok l -> input_ok (text l) -> core0_run b l = Ok (s, o) -> core0_step s i = Ok (s', log) ->
  exists t h r, tx_run (b_j1 b) (b_j2 b) (flat_map tx_part (concat o)) = Ok ((t, h), r) /\
    fail_reports log = if snd (tx_error t) && negb (m_status (t_rx t) =? 3) then [t_rx t] else [].
Proof. exact failure_reported. Qed.
Print Assumptions C87_failure_reported.
(** ... and those are reported by the receive path: after an event with an error and up to the next line-free
    event, something is reported with a status that is not 0. *)
Theorem C87_rx_error_reported : forall b l1 i l2 s o1 log o2, boot_ok b -> Forall in_ok (l1 ++ i :: l2) -> input_ok (text (l1 ++ i :: l2)) ->
  core0_run b (l1 ++ i :: l2) = Ok (s, o1 ++ log :: o2) -> length o1 = length l1 ->
  ev_error (event_of i) = true -> ev_dadc (event_of i) = false -> (exists j, In j (i :: l2) /\ line_free j = true) ->
  exists w m, In (w, m) (rx_reports (concat (log :: o2))) /\ m_status m <> 0.
Proof. exact error_reported. Qed.
Print Assumptions C87_rx_error_reported.
(** The transmission of 00 11; the first byte is read back as 01; the line stays busy for 5 ms. *)
Definition ex87 : list inp0 := ex86 ++ [calm_iter 52000; tell 52500 Busy; tell 53500 (Byte 1 false); calm_iter 54000; calm_iter 58000; calm_iter 58500].
Example C87_ex : Forall in_ok ex87 /\ input_ok (text ex87) /\
  match core0_run boot0 ex87 with
  | Ok (_, o) => map (fun log => map content (fail_reports log)) o = [[]; []; []; []; []; []; []; [(21, [0])]; []; [(1, [])]]
  | UB _ => False
  end.
Proof. split; [unfold ex87, ex86; in_oks|]. split; [apply short_input; vm_compute; lia|]. vm_compute. reflexivity. Qed.
Example C87_rx_ex :
  let l := ex86 ++ [calm_iter 52000; tell 52500 Busy; tell 53500 (Byte 1 true); calm_iter 54000; tell 55000 Free] in
  Forall in_ok l /\ input_ok (text l) /\
  match core0_run boot0 l with
  | Ok (_, o) => fail_reports (concat o) = [] /\ map described (rx_reports (concat o)) = [(R_packet, (3, [1]))]
  | UB _ => False
  end.
Proof. cbv zeta. split; [unfold ex86; in_oks|]. split; [apply short_input; vm_compute; lia|]. vm_compute. auto. Qed.
(** C87, refuted: one failed transmission is reported twice (ex87): a mismatch, and then the line busy for more
    than 4 ms afterwards. *)
Theorem C87_once_refuted : exists s o, boot_ok boot0 /\ Forall in_ok ex87 /\ input_ok (text ex87) /\ core0_run boot0 ex87 = Ok (s, o) /\
  length (wakes (concat o)) = 1%nat /\ length (fail_reports (concat o)) = 2%nat.
Proof.
  destruct (core0_run boot0 ex87) as [(s & o)|] eqn:E; [|vm_compute in E; discriminate]. exists s, o. split; [exact boot0_ok|].
  split; [unfold ex87, ex86; in_oks|]. split; [apply short_input; vm_compute; lia|]. split; [reflexivity|].
  vm_compute in E. injection E as _ <-. split; vm_compute; reflexivity.
Qed.
Print Assumptions C87_once_refuted.
(** C87, weaker: a transmission causes at most two reports. *)
Theorem C87_twice_partial : forall b l s o, boot_ok b -> Forall in_ok l -> input_ok (text l) -> core0_run b l = Ok (s, o) ->
  (length (fail_reports (concat o)) <= 2 * length (wakes (concat o)))%nat.
Proof. exact fails_bound. Qed.
Print Assumptions C87_twice_partial.
