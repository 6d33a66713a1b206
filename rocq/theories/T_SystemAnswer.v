(** T_SystemAnswer.v -- property theorem C108 (a request on the line is answered). *)
From Verif Require Import Base M_Fifo M_Message D_Message M_Standalone S_Crc S_Ctrl D_Ctrl M_Tx M_HostUart M_Led M_Adc M_Clock S_Dsp S_Pio M_Core1 S_Core1 D_Core1 S_Adc D_Adc D_Core1Adc S_Front S_Slow S_Analog
  M_Core0 S_Core0 D_Core0 M_System S_System S_SysTime P_System P_SystemRx P_SystemTimed P_SystemAnswer P_Recover T_Core0 T_Front T_SystemLine T_Analog T_SystemTimed.

(** C108: the line, the schedule and the clocks as in C105; [u] is any one of the packets on the line.  Then some iteration [i] of the main loop hands
    exactly the bytes of [u] to the controller, in the order of the packets ([c]: what it was given before the first of them).  If at that time the
    controller - according to its documented state machine, run over the calls made so far - is in operation, [u] is a request to its
    address and the transmitter is idle, this iteration starts exactly one transmission: of the answer specified for it, or of a
    line typed before by the host. *)
Theorem C108_request_on_the_line : forall b mem e0 l s outs garb q n V sigs raw t0 sl w sg1 u sg2,
  boot_ok b -> length mem = 256%nat -> Forall (fun x => -255 <= x <= 255) mem -> Forall sys_ok l -> input_ok (text (sys_loop_inputs l)) ->
  sys_run b mem e0 l = Ok (s, outs) -> keeps_up l -> Z.of_nat (length (dma_samples l)) < BLOCK ->
  Forall (fun x => ~ overflow_in (snd x)) (loops outs) -> k_queue (y_link s) = [] -> k_ferr (y_link s) = false ->
  0 <= b_now b -> in_time (b_now b) (sys_loop_inputs l) -> real_time conversion_time t0 sl w 0 0 l ->
  t0 <= 96000 * 4000000000000 -> Z.of_nat w <= 15000 -> sl <= 480000000 ->
  dma_samples l = garb ++ raw -> 0 <= n <= 410 -> (5000 <= q)%nat -> Forall (signal_ok sample_time n) sigs ->
  spaced (410 * conversion_time) (conversion_time * Z.of_nat q) (conversion_time * Z.of_nat (length raw)) sigs ->
  Forall (fun u => (length (sg_bytes u) <= 31)%nat) sigs -> digitised n V (converted conversion_time (length raw) sigs) raw ->
  sigs = sg1 ++ u :: sg2 ->
  exists c h1 i log h2 s0 s1 pre m post, loops outs = h1 ++ (i, log) :: h2 /\ core0_run b (map fst h1) = Ok (s0, map snd h1) /\ core0_step s0 i = Ok (s1, log) /\
    log = pre ++ (in_now i, A_receive m) :: post /\ m_status m = 0 /\ payload m = sg_bytes u /\
    map content (to_ctrl (concat (map snd h1) ++ pre)) = c ++ map (fun u => (0, sg_bytes u)) sg1 /\
    (tx_is_idle (z_sm s0) = true -> forall k os, steps (controller0 (b_ctrl b)) (map fst (flat_map ctrl_part (concat (map snd h1) ++ pre))) k os ->
      k_phase k = Operation -> request (k_addr k) (packet_of m) ->
      exists a, wakes log = [a] /\ (answer (k_addr k) (packet_of m) (payload a) \/ In (in_now i, A_pop (in_junk i) a) log)).
Proof.
  intros b mem e0 l s outs garb q n V sigs raw t0 sl w sg1 u sg2 B Lm Rm F T E K Hs No Hq Hf H0 Hti RT Ht0 Hw Hsl ET Hn H5 Hb Hsp H31 HD Eu.
  destruct (timed_to_host b mem e0 l s outs garb q n V sigs raw t0 sl w B Lm Rm F T E K Hs No Hq Hf H0 Hti RT Ht0 Hw Hsl ET Hn H5 Hb Hsp H31 HD) as (_ & c & _ & C).
  destruct (sys_core0 b mem e0 l s outs F T E) as (R & I & Tx).
  rewrite Eu, map_app, app_assoc in C. cbn [map] in C. apply map_eq_app in C as (ms1 & r & Ec & C1 & C2). apply map_eq_cons in C2 as (m & ms2 & -> & Cm & _).
  destruct (system_answered b (loops outs) (y_c0 s) ms1 m ms2 B I Tx R Ec) as (h1 & i & log & h2 & s0 & s1 & pre & post & A1 & A2 & A3 & A4 & A5 & A6).
  exists c, h1, i, log, h2, s0, s1, pre, m, post. unfold content in Cm. injection Cm as Cm1 Cm2. rewrite A5. auto 10.
Qed.
Print Assumptions C108_request_on_the_line.
(** The line and schedule of C105_ex. *)
Example C108_ex : exists s outs h1 i log h2 s0 s1 pre m post, sys_run boot0 (repeat 0 256) true (clocked 0 (ex_noise ++ ex_time_raw)) = Ok (s, outs) /\
  loops outs = h1 ++ (i, log) :: h2 /\ core0_run boot0 (map fst h1) = Ok (s0, map snd h1) /\ core0_step s0 i = Ok (s1, log) /\
  log = pre ++ (in_now i, A_receive m) :: post /\ payload m = [64; 17].
Proof.
  destruct C105_ex as (s & outs & o & c & E & _ & C).
  assert (T : input_ok (text (sys_loop_inputs (clocked 0 (ex_noise ++ ex_time_raw))))) by (rewrite clocked_text; apply short_input; cbn; lia).
  assert (F : Forall sys_ok (clocked 0 (ex_noise ++ ex_time_raw))) by (apply clocked_ok; apply (proj1 C102_ex)).
  destruct (sys_core0 _ _ _ _ _ _ F T E) as (R & I & Tx). apply map_eq_app in C as (ms1 & r & Ec & C1 & C2). apply map_eq_cons in C2 as (m & ms2 & -> & Cm & _).
  destruct (system_answered boot0 (loops outs) (y_c0 s) ms1 m ms2 boot0_ok I Tx R Ec) as (h1 & i & log & h2 & s0 & s1 & pre & post & A1 & A2 & A3 & A4 & _).
  exists s, outs, h1, i, log, h2, s0, s1, pre, m, post. unfold content in Cm. injection Cm as _ Cm2. auto 10.
Qed.
