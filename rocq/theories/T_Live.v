(** T_Live.v -- property theorems C96 (an undisturbed transmission succeeds), C97 (which messages can be transmitted). *)
From Verif Require Import Base M_Fifo M_Message S_Message D_Message M_Standalone S_Crc S_Ctrl D_Ctrl M_Tx D_Tx S_Tx M_HostUart D_Host S_Host M_Led M_Core1 M_Core0 S_Core0 D_Core0
  S_Pio S_Core1 D_Core1 S_Loop P_TxLive P_Core0Live P_Core0Cut P_Core0Loop T_Tx T_Core0 T_Core0Bus T_Core1.

(** C96: a transmission that is started while the machine is idle and the transmit hardware is at rest, and that
    is undisturbed (S_Tx.v: a quiet line, then the echo of the message), ends idle and without error; Error()
    never returns true; the copy of the received data is the message, with status 0; the line driver is off and
    nothing is left to send. *)
Theorem C96_undisturbed : forall j1 j2 l1 tw m l2 s o, length j2 = 32%nat -> Forall (ev_ok 1) (l1 ++ [(tw, Wake m)]) ->
  tx_run j1 j2 l1 = Ok (s, o) -> tx_is_idle (fst s) = true -> at_rest (snd s) -> undisturbed tw m l2 ->
  exists t h o', tx_run j1 j2 (l1 ++ (tw, Wake m) :: l2) = Ok ((t, h), o ++ o') /\ ~ In (Some true) o' /\
    tx_is_idle t = true /\ t_err t = false /\ tx_done t = true /\ m_status (t_rx t) = 0 /\ tx_bytes (t_rx t) = tx_bytes m /\
    hw_shutdown h = true /\ hw_dma h = [] /\ hw_txf h = [].
Proof. exact undisturbed_succeeds. Qed.
Print Assumptions C96_undisturbed.
Example C96_ex : undisturbed 0 ex_msg (skipn 1 ex_sched).
Proof.
  exists [], 100, [(20000, Update false false false 0)], 32100, [(32200, Hw HwDma); (32300, Hw HwPull); (32310, Hw HwStart)],
    [(32400, Update true false false 0); (33000, Update true false true 64); (33050, Hw HwDone); (33100, Hw HwDma); (33200, Hw HwPull); (33210, Hw HwStart); (34200, Update true false true 7); (34300, Hw HwDone); (35000, Update true false false 0)],
    36000, false, false, 0, false, false, 0, 0.
  split; [reflexivity|]. unfold polls. split; [constructor|]. split; [lia|]. split; [repeat (constructor; [cbn; lia|]); constructor|]. split; [lia|].
  split; [repeat (constructor; [exact I|]); constructor|]. split; [repeat (constructor; [cbn; auto|]); constructor|]. split; [reflexivity|]. cbn. lia.
Qed.

(** What the iterations [ls], after the history [l], tell the transmitter about the line: one poll each. *)
Fixpoint line_polls (b : boot) (l ls : list inp0) : list (Z * tx_ev) :=
  match ls with
  | [] => []
  | i :: r => (in_now i, Update (line_busy b (l ++ [i])) (ev_error (event_of i)) (ev_valid (event_of i)) (ev_char (event_of i))) :: line_polls b (l ++ [i]) r
  end.
(** C96, for the main loop: a transmission of [m] started by iteration [i], while the transmit hardware is at
    rest, is undisturbed according to the events of the receiver from [i] on.  Then it succeeds: at the end the transmitter
    is idle without an error, has received the message with status 0, the driver is off and nothing is left to send;
    no failed transmission is reported to the host, and no other transmission was started meanwhile. *)
Theorem C96_firmware : forall b l i ls s o s' log m, boot_ok b -> Forall in_ok (l ++ i :: ls) -> input_ok (text (l ++ i :: ls)) ->
  core0_run b l = Ok (s, o) -> core0_step s i = Ok (s', log) -> In m (wakes log) ->
  at_rest (z_hw s) -> l <> [] \/ in_event i <> None -> undisturbed (in_now i) m (line_polls b l (i :: ls)) ->
  exists s2 o2, core0_run b (l ++ i :: ls) = Ok (s2, o ++ log :: o2) /\ fail_reports (concat o2) = [] /\ wakes (concat o2) = [] /\
    tx_is_idle (z_sm s2) = true /\ t_err (z_sm s2) = false /\ tx_done (z_sm s2) = true /\ m_status (t_rx (z_sm s2)) = 0 /\ payload (t_rx (z_sm s2)) = payload m /\
    hw_shutdown (z_hw s2) = true /\ hw_dma (z_hw s2) = [] /\ hw_txf (z_hw s2) = [].
Proof. exact live_firmware. Qed.
Print Assumptions C96_firmware.
(** 00 11 is typed, transmitted and read back. *)
Definition ex96 : list inp0 :=
  [calm_iter 30000; calm_iter 51999; calm_iter 52000; tell 52500 Busy; tell 53500 (Byte 0 false); calm_iter 54000; tell 54500 (Byte 17 false); calm_iter 55000; tell 56500 Free].
Definition ex96_start : inp0 := typed 20000 [48; 48; 49; 49; 13].
Example C96_firmware_ex : Forall in_ok ([tell 10000 Free] ++ ex96_start :: ex96) /\ input_ok (text ([tell 10000 Free] ++ ex96_start :: ex96)) /\
  match core0_run boot0 [tell 10000 Free] with
  | Ok (s, o) => at_rest (z_hw s) /\
    match core0_step s ex96_start with
    | Ok (s', log) => exists m, wakes log = [m] /\ payload m = [0; 17] /\ undisturbed 20000 m (line_polls boot0 [tell 10000 Free] (ex96_start :: ex96))
    | UB _ => False
    end
  | UB _ => False
  end.
Proof.
  split; [unfold ex96; in_oks|]. split; [apply short_input; vm_compute; lia|].
  destruct (core0_run boot0 [tell 10000 Free]) as [(s & o)|] eqn:E; [|vm_compute in E; discriminate]. vm_compute in E. injection E as <- <-. split; [split; [|split]; reflexivity|].
  match goal with |- match ?X with _ => _ end => let v := eval vm_compute in X in change X with v end. cbv iota.
  match goal with |- exists m, wakes ?X = _ /\ _ => let v := eval vm_compute in (wakes X) in match v with [?m] => exists m end end. split; [vm_compute; reflexivity|]. split; [reflexivity|].
  match goal with |- undisturbed _ _ ?X => let v := eval vm_compute in X in change X with v end.
  exists [], 20000, [(30000, Update false false false 0); (51999, Update false false false 0)], 52000, [],
    [(52500, Update true false false 0); (53500, Update true false true 0); (54000, Update true false false 0); (54500, Update true false true 17); (55000, Update true false false 0)],
    56500, false, false, 0, false, false, 0, 0.
  split; [reflexivity|]. unfold polls. split; [constructor|]. split; [lia|]. split; [repeat (constructor; [cbn; lia|]); constructor|]. split; [lia|].
  split; [constructor|]. split; [repeat (constructor; [cbn; auto|]); constructor|]. split; [reflexivity|]. cbn. lia.
Qed.

(** C97: which messages can be transmitted at all.  A transmission fails if its echo is interrupted by a line-free
    event: iteration [i] hands the data of [m] to the transmitter; [ls] are told busy and fewer bytes than [m] has,
    then [k] is told that the line is free.  The error flag is set then or was set before. *)
Theorem C97_cut_echo_fails : forall b l i ls k s o s' log p m bs, boot_ok b -> Forall in_ok (l ++ i :: ls ++ [k]) -> input_ok (text (l ++ i :: ls ++ [k])) ->
  core0_run b l = Ok (s, o) -> core0_step s i = Ok (s', log) -> (length (hw_dma (z_hw s)) < length (hw_dma (z_hw s')))%nat ->
  wakes (concat (o ++ [log])) = p ++ [m] ->
  log_of (map event_of ls) = LBusy :: map (fun c => LByte c false) bs -> (length bs < length (payload m))%nat -> line_free k = true ->
  exists ls1 ls2 s2 o2, ls ++ [k] = ls1 ++ ls2 /\ core0_run b (l ++ i :: ls1) = Ok (s2, o ++ log :: o2) /\ t_err (z_sm s2) = true.
Proof. exact cut_firmware. Qed.
Print Assumptions C97_cut_echo_fails.

(** 31 bytes are typed and transmitted; after 29 of them the receiver says that the line is free. *)
Definition ex97 : list inp0 := [tell 10000 Free; typed 20000 (repeat 48 62 ++ [13]); calm_iter 30000; calm_iter 51999].
Definition ex97_echo : list inp0 := tell 52500 Busy :: map (fun n => tell (53500 + 1200 * Z.of_nat n) (Byte 0 false)) (seq 0 29).
Example C97_cut_ex : Forall in_ok (ex97 ++ calm_iter 52000 :: ex97_echo ++ [tell 88500 Free]) /\ input_ok (text (ex97 ++ calm_iter 52000 :: ex97_echo ++ [tell 88500 Free])) /\
  log_of (map event_of ex97_echo) = LBusy :: map (fun c => LByte c false) (repeat 0 29) /\
  match core0_run boot0 ex97 with
  | Ok (s, o) => match core0_step s (calm_iter 52000) with
    | Ok (s', log) => hw_dma (z_hw s) = [] /\ hw_dma (z_hw s') = repeat 0 31 /\ map payload (wakes (concat (o ++ [log]))) = [repeat 0 31]
    | UB _ => False
    end
  | UB _ => False
  end /\
  match core0_run boot0 (ex97 ++ calm_iter 52000 :: ex97_echo ++ [tell 88500 Free]) with
  | Ok (s2, _) => t_err (z_sm s2) = true /\ m_status (t_rx (z_sm s2)) = 4 /\ payload (t_rx (z_sm s2)) = repeat 0 29
  | UB _ => False
  end.
Proof. split; [unfold ex97, ex97_echo; in_oks|]. split; [apply short_input; vm_compute; lia|]. vm_compute. auto 10. Qed.

(** C97, refuted: no message of 31 or 32 bytes can be transmitted, whatever the timing: the receive core ([es]: its
    events for the waveform of the message, any gaps) cuts the echo (C65), and the transmitter takes this for a fault. *)
Theorem C97_long_message_refuted : forall e0 A pk tail c c' es b l i ls s o s' log p m, 1400 <= A <= 4681 ->
  Forall (fun c => Z.of_nat (fst c) < 4294967000 /\ 0 <= snd c < 256) (pk_chars pk) ->
  (177 <= pk_gap pk)%nat -> (200 <= tail)%nat -> Z.of_nat tail < 4294967000 ->
  lchain_new e0 = Ok c -> mrun lchain_step c (map (Z.mul A) (waves (pk_chars pk) ++ repeat 0 tail)) = Ok (c', es) ->
  boot_ok b -> Forall in_ok (l ++ i :: ls) -> input_ok (text (l ++ i :: ls)) ->
  core0_run b l = Ok (s, o) -> core0_step s i = Ok (s', log) -> (length (hw_dma (z_hw s)) < length (hw_dma (z_hw s')))%nat ->
  wakes (concat (o ++ [log])) = p ++ [m] -> payload m = pk_bytes pk -> (31 <= length (payload m))%nat ->
  log_of es = LFree :: log_of (map event_of ls) ->
  exists ls1 ls2 s2 o2, ls = ls1 ++ ls2 /\ core0_run b (l ++ i :: ls1) = Ok (s2, o ++ log :: o2) /\ t_err (z_sm s2) = true.
Proof.
  intros e0 A pk tail c c' es b l i ls s o s' log p m HA Hp Hg Ht1 Ht2 Ec Er B F T E Es D W Hm L Hl. rewrite Hm in L.
  destruct (C65_one_packet_refuted e0 A pk tail HA Hp Hg Ht1 Ht2 L) as (c0 & c1 & es0 & b1 & x & b2 & more & Ec0 & Er0 & Eb & _ & El).
  rewrite Ec in Ec0. injection Ec0 as <-. rewrite Er in Er0. injection Er0 as <- <-. rewrite Hl in El. injection El as El.
  change (LBusy :: map (fun b => LByte b false) b1 ++ LFree :: LBusy :: LByte x false :: more) with ((LBusy :: map (fun b => LByte b false) b1) ++ LFree :: LBusy :: LByte x false :: more) in El.
  apply log_split in El as (y & k & z & -> & Hy & Hk).
  - replace (l ++ i :: y ++ k :: z) with ((l ++ i :: y ++ [k]) ++ z) in F, T by (rewrite <- !app_assoc; cbn [app]; rewrite <- app_assoc; reflexivity).
    apply Forall_app in F as (F & _). rewrite P_Core0Run.text_app in T. apply P_Core0Run.input_ok_prefix in T.
    assert (Lb : (length b1 < length (payload m))%nat) by (rewrite Hm, Eb, app_length; cbn; lia).
    destruct (cut_firmware b l i y k s o s' log p m b1 B F T E Es D W Hy Lb Hk) as (ls1 & ls2 & s2 & o2 & Eq & R).
    exists ls1, (ls2 ++ z), s2, o2. split; [|exact R]. rewrite app_assoc, <- Eq, <- app_assoc. reflexivity.
  - cbn. intros [C|C]; [discriminate|]. apply in_map_iff in C as (? & C & _). discriminate.
Qed.
Print Assumptions C97_long_message_refuted.

(** C97, guarded: a message with at most 176 not-receiving samples inside its waveform (26 bytes at the nominal
    timing, 29 at the shortest) is transmitted successfully: the transmission is started by [i] on a free line with
    the hardware at rest; no other busy event comes before the data is sent, by [k]; then the main loop is told, promptly, what
    the receive core makes of the waveform. *)
Theorem C97_short_message_partial : forall e0 A pk tail c c' es b l i la k lb f s o s' log m, 1400 <= A <= 4681 ->
  Forall (fun c => Z.of_nat (fst c) < 4294967000 /\ 0 <= snd c < 256) (pk_chars pk) ->
  (177 <= pk_gap pk)%nat -> (200 <= tail)%nat -> Z.of_nat tail < 4294967000 -> inner_quiet pk <= 176 ->
  lchain_new e0 = Ok c -> mrun lchain_step c (map (Z.mul A) (waves (pk_chars pk) ++ repeat 0 tail)) = Ok (c', es) ->
  boot_ok b -> Forall in_ok (l ++ i :: la ++ k :: lb ++ [f]) -> input_ok (text (l ++ i :: la ++ k :: lb ++ [f])) ->
  core0_run b l = Ok (s, o) -> core0_step s i = Ok (s', log) -> In m (wakes log) -> payload m = pk_bytes pk ->
  at_rest (z_hw s) -> l <> [] \/ in_event i <> None -> line_busy b (l ++ [i]) = false ->
  Forall (fun j => ev_busy (event_of j) = false /\ in_now j < in_now i + 32000) la -> ev_busy (event_of k) = false -> in_now i + 32000 <= in_now k ->
  log_of es = LFree :: log_of (map event_of (lb ++ [f])) -> told f = true -> prompt (in_now k + 2000) (lb ++ [f]) ->
  exists s2 o2, core0_run b (l ++ i :: la ++ k :: lb ++ [f]) = Ok (s2, o ++ log :: o2) /\ fail_reports (concat o2) = [] /\ wakes (concat o2) = [] /\
    tx_is_idle (z_sm s2) = true /\ t_err (z_sm s2) = false /\ tx_done (z_sm s2) = true /\ m_status (t_rx (z_sm s2)) = 0 /\ payload (t_rx (z_sm s2)) = payload m.
Proof.
  intros e0 A pk tail c c' es b l i la k lb f s o s' log m HA Hp Hg Ht1 Ht2 Hq Ec Er B F T E Es Hm Hpm Hh Hn Hi Hla Hk Htk Hl Hf Hpr.
  destruct (C65_one_packet_partial e0 A [pk] tail HA ltac:(constructor; [exact Hp|constructor]) ltac:(constructor; [auto|constructor]) Ht1 Ht2) as (c0 & c1 & es0 & Ec0 & Er0 & El).
  rewrite Ec in Ec0. injection Ec0 as <-. cbn [flat_map] in Er0, El. rewrite !app_nil_r in Er0. rewrite app_nil_r in El. rewrite Er in Er0. injection Er0 as <- <-. rewrite Hl in El. injection El as El.
  unfold one_packet in El. rewrite app_comm_cons in El. apply log_last in El as (El & Ef); [|exact Hf]. rewrite <- Hpm in El.
  pose proof (loop_undisturbed b l i la k lb f m Hi Hla Hk Htk El Ef Hpr) as U.
  destruct (live_firmware b l i (la ++ k :: lb ++ [f]) s o s' log m B F T E Es Hm Hh Hn U) as (s2 & o2 & R1 & R2 & R3 & R4 & R5 & R6 & R7 & R8 & _).
  exists s2, o2. auto 10.
Qed.
Print Assumptions C97_short_message_partial.
Example C97_short_ex : let pk := PK 177 0 [(1%nat, 17)] in
  inner_quiet pk = 7 /\ pk_bytes pk = [0; 17] /\ ex96 = [calm_iter 30000; calm_iter 51999] ++ calm_iter 52000 :: skipn 3 ex96 /\
  log_of (map event_of (skipn 3 ex96)) = one_packet pk /\ told (last ex96 (calm_iter 0)) = true /\ prompt (52000 + 2000) (skipn 3 ex96) /\
  line_busy boot0 [tell 10000 Free; ex96_start] = false.
Proof. vm_compute. auto 20. Qed.
