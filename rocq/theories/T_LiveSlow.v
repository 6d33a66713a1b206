(** T_LiveSlow.v -- property theorem C97 at the actual clocks of the firmware (C98). *)
From Verif Require Import Base M_Fifo M_Message S_Message D_Message M_Standalone S_Crc S_Ctrl D_Ctrl M_Tx D_Tx S_Tx M_HostUart D_Host S_Host M_Led M_Core1 M_Core0 S_Core0 D_Core0
  S_Pio S_Core1 D_Core1 S_Loop M_Clock S_Clock S_Noise S_Slow S_Dsp P_TxLive P_Core0Live P_Core0Cut P_Core0Loop P_SlowOwn P_Core0Woken T_Core0 T_Core0Bus T_Live.

(** C97, at the actual clocks: every message can be transmitted, whatever its length.  The transmission of [m] is started by [i] on a free
    line with the hardware at rest; no other busy event comes before the data is sent, by [k]; the line then carries the waveform of [m],
    sent without pause, which the receive core reads with its own clock ([tau], [vs]), in either polarity and with disturbance ([ys]), and the
    main loop is told, promptly, what the receive core makes of it ([es]). *)
Theorem C97_actual_clocks : forall e0 tau vs sg P Q idle ys tail c c' es b l i la k lb f s o s' log m,
  0 <= tau < sample_time -> read_at pio_cycle_time sample_time tau (waves (map (fun b => (0%nat, b)) (payload m))) vs ->
  sg = 1 \/ sg = -1 -> clear6 P Q -> follows P Q 0 (map (Z.mul sg) vs) ys ->
  (177 <= length idle)%nat -> Z.of_nat (length idle) < 4294960000 -> bounded 599 idle ->
  (200 <= length tail)%nat -> Z.of_nat (length tail) < 4294960000 -> bounded 599 tail ->
  lchain_new e0 = Ok c -> mrun lchain_step c (idle ++ ys ++ tail) = Ok (c', es) ->
  boot_ok b -> Forall in_ok (l ++ i :: la ++ k :: lb ++ [f]) -> input_ok (text (l ++ i :: la ++ k :: lb ++ [f])) ->
  core0_run b l = Ok (s, o) -> core0_step s i = Ok (s', log) -> In m (wakes log) ->
  at_rest (z_hw s) -> l <> [] \/ in_event i <> None -> line_busy b (l ++ [i]) = false ->
  Forall (fun j => ev_busy (event_of j) = false /\ in_now j < in_now i + 32000) la -> ev_busy (event_of k) = false -> in_now i + 32000 <= in_now k ->
  log_of es = LFree :: log_of (map event_of (lb ++ [f])) -> told f = true -> prompt (in_now k + 2000) (lb ++ [f]) ->
  exists s2 o2, core0_run b (l ++ i :: la ++ k :: lb ++ [f]) = Ok (s2, o ++ log :: o2) /\ fail_reports (concat o2) = [] /\ wakes (concat o2) = [] /\
    tx_is_idle (z_sm s2) = true /\ t_err (z_sm s2) = false /\ tx_done (z_sm s2) = true /\ m_status (t_rx (z_sm s2)) = 0 /\ payload (t_rx (z_sm s2)) = payload m.
Proof.
  intros e0 tau vs sg P Q idle ys tail c c' es b l i la k lb f s o s' log m Ht R Hs Hc Fo I1 I2 I3 T1 T2 T3 Ec Er B F T E Es Hm Hh Hn Hi Hla Hk Htk Hl Hf Hpr.
  assert (Hb : (1 <= length (payload m) <= 32)%nat /\ Forall (fun x => 0 <= x < 256) (payload m)).
  { assert (F1 := F). assert (T1' := T). change (i :: la ++ k :: lb ++ [f]) with ([i] ++ (la ++ k :: lb ++ [f])) in F1, T1'. rewrite app_assoc in F1, T1'.
    apply Forall_app in F1 as (F1 & _). rewrite P_Core0Run.text_app in T1'. apply P_Core0Run.input_ok_prefix in T1'. eapply woken_ok; eauto. }
  destruct Hb as (Hb1 & Hb2).
  destruct (own_received e0 (payload m) tau vs sg P Q idle ys tail ltac:(lia) Hb2 Ht R Hs Hc Fo I1 I2 I3 T1 T2 T3) as (c0 & c1 & es0 & Ec0 & Er0 & El).
  rewrite Ec in Ec0. injection Ec0 as <-. rewrite Er in Er0. injection Er0 as <- <-. rewrite Hl in El. injection El as El.
  rewrite app_comm_cons in El. apply log_last in El as (El & Ef); [|exact Hf].
  pose proof (loop_undisturbed b l i la k lb f m Hi Hla Hk Htk El Ef Hpr) as U.
  destruct (live_firmware b l i (la ++ k :: lb ++ [f]) s o s' log m B F T E Es Hm Hh Hn U) as (s2 & o2 & R1 & R2 & R3 & R4 & R5 & R6 & R7 & R8 & _).
  exists s2, o2. auto 10.
Qed.
Print Assumptions C97_actual_clocks.
(** 00 11, received and told to the loop as in [ex96]. *)
Definition ex97c_vs : list Z := P_Clock.reads 624999 628000 1000 (waves [(0%nat, 0); (0%nat, 17)]).
Example C97_actual_ex : read_at pio_cycle_time sample_time 1000 (waves (map (fun b => (0%nat, b)) [0; 17])) ex97c_vs /\ length ex97c_vs = 349%nat /\
  clear6 2000 2000 /\ follows 2000 2000 0 (map (Z.mul 1) ex97c_vs) (map (Z.mul 2000) ex97c_vs) /\
  (exists c c' es, lchain_new true = Ok c /\ mrun lchain_step c (repeat 0 177 ++ map (Z.mul 2000) ex97c_vs ++ repeat 0 200) = Ok (c', es) /\
    log_of es = LFree :: log_of (map event_of (skipn 3 ex96))) /\
  ex96 = [calm_iter 30000; calm_iter 51999] ++ calm_iter 52000 :: skipn 3 ex96 /\
  told (last ex96 (calm_iter 0)) = true /\ prompt (52000 + 2000) (skipn 3 ex96) /\ line_busy boot0 [tell 10000 Free; ex96_start] = false.
Proof.
  assert (R : read_at pio_cycle_time sample_time 1000 (waves (map (fun b => (0%nat, b)) [0; 17])) ex97c_vs).
  { change pio_cycle_time with 624999. change sample_time with 628000. apply P_Clock.reads_at; lia. }
  split; [exact R|]. split; [vm_compute; reflexivity|]. split; [unfold clear6; lia|].
  assert (Fo : follows 2000 2000 0 (map (Z.mul 1) ex97c_vs) (map (Z.mul 2000) ex97c_vs)) by (apply P_Noise.followsb_ok; vm_compute; reflexivity).
  split; [exact Fo|]. split; [|vm_compute; auto 20].
  assert (B0 : forall n, bounded 599 (repeat 0 n)) by (intros n; apply Forall_forall; intros x Hx; apply repeat_spec in Hx; lia).
  assert (Hb : Forall (fun b => 0 <= b < 256) [0; 17]) by (constructor; [lia|]; constructor; [lia|constructor]).
  assert (Ht : 0 <= 1000 < sample_time) by (change sample_time with 628000; lia).
  assert (Hc : clear6 2000 2000) by (unfold clear6; lia).
  destruct (own_received true [0; 17] 1000 ex97c_vs 1 2000 2000 (repeat 0 177) (map (Z.mul 2000) ex97c_vs) (repeat 0 200)
    ltac:(cbn [length]; lia) Hb Ht R (or_introl eq_refl) Hc Fo ltac:(rewrite repeat_length; lia) ltac:(rewrite repeat_length; lia) (B0 _)
    ltac:(rewrite repeat_length; lia) ltac:(rewrite repeat_length; lia) (B0 _)) as (c & c' & es & E1 & E2 & E3).
  exists c, c', es. split; [exact E1|]. split; [exact E2|]. rewrite E3. reflexivity.
Qed.
