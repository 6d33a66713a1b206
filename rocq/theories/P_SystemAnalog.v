(** P_SystemAnalog.v -- the complete firmware from the line in continuous time to the host (C104). *)
From Verif Require Import Base M_ShiftReg M_Dsp M_Uart P_Uart M_Fifo M_Message S_Message D_Message M_Tx D_Tx M_HostUart D_Host S_Host M_Led M_Adc S_Dsp S_Pio M_Core1 S_Core1 D_Core1 P_Core1 P_Core1Chain S_Adc D_Adc P_Adc D_Core1Adc P_Core1Adc
  M_Core0 S_Core0 D_Core0 P_Core0 P_Core0Run P_Core0Rx P_Core0Busy P_Core0Main M_System S_System P_System P_SystemRx S_Front S_Slow S_Analog P_FrontAdc P_Front P_Analog P_SystemLine.

Definition pk_of (s : signal) : packet := PK 0 (sg_first s) (sg_rest s).
Lemma pk_of_bytes s : pk_bytes (pk_of s) = sg_bytes s. Proof. reflexivity. Qed.
Lemma pk_of_log l : flat_map one_packet (map pk_of l) = flat_map packet_log (map sg_bytes l).
Proof. induction l as [|s l IH]; [reflexivity|]. cbn [map flat_map]. rewrite IH. reflexivity. Qed.

Lemma analog_to_host b mem e0 l s outs garb q n V sigs raw : boot_ok b -> length mem = 256%nat -> Forall (fun x => -255 <= x <= 255) mem -> Forall sys_ok l -> input_ok (text (sys_loop_inputs l)) ->
  sys_run b mem e0 l = Ok (s, outs) -> keeps_up l -> Z.of_nat (length (dma_samples l)) < BLOCK ->
  Forall (fun x => ~ overflow_in (snd x)) (loops outs) -> no_timeout (map snd (loops outs)) -> k_queue (y_link s) = [] -> k_ferr (y_link s) = false ->
  dma_samples l = garb ++ raw -> 0 <= n <= 410 -> (5000 <= q)%nat -> Forall (signal_ok 628000 n) sigs -> spaced (410 * 314000) (314000 * Z.of_nat q) (314000 * Z.of_nat (length raw)) sigs ->
  Forall (fun u => (length (sg_bytes u) <= 31)%nat) sigs -> digitised n V (converted 314000 (length raw) sigs) raw ->
  exists o c, map described (rx_reports (concat (map snd (loops outs)))) = o ++ map (fun u => (R_packet, (0, sg_bytes u))) sigs /\
    map content (to_ctrl (concat (map snd (loops outs)))) = c ++ map (fun u => (0, sg_bytes u)) sigs.
Proof.
  intros B Lm Rm F T E (K1 & K2) Hs No Nt Hq Hf ET Hn H5 Hb Hsp H31 HD.
  destruct (adc_keeps mem firmware_gain (sys_adc l) (conj Lm (range_wider _ Rm)) ltac:(vm_compute; split; discriminate) (sys_ev_range l F) ltac:(rewrite samples_length, dma_sampled; exact Hs) K1 K2) as (a & rs & Ra & U & Gv & La).
  rewrite dma_sampled, ET in Gv.
  assert (F2 := F). pose proof (dma_ok l F2) as HT. rewrite ET in HT, Hs.
  destruct (sys_split b mem e0 l s outs F E) as (k1 & rs' & evs' & lo & o0 & A1 & A2 & A3 & _ & _ & _ & _ & A8). rewrite Ra in A2. injection A2 as -> <-.
  assert (P : no_news (c1_pend (y_c1 s)) = true).
  { pose proof (produced_last rs evs' (mrun_length _ _ _ _ _ A3) La) as X. assert (Y : last (ev_none :: produced rs evs') ev_none = ev_none) by (destruct (produced rs evs'); [reflexivity|exact X]). rewrite <- A8, last_last in Y. rewrite Y. reflexivity. }
  destruct (packets_to_host_after b mem e0 l s outs rs B Lm Rm F T E Ra U No Nt Hq Hf P) as (k0 & evs & C1 & C2 & C3).
  destruct (analog_free e0 mem garb q n V sigs raw Rm HT Hn H5 Hb Hsp HD ltac:(unfold BLOCK in Hs; lia)) as (s0 & s1 & s2 & es1 & es2 & old & D1 & D2 & D3 & D4 & D5).
  rewrite C1 in D1. injection D1 as <-. rewrite Gv, <- (firstn_skipn (length garb + q) (values firmware_gain mem (garb ++ raw))), mrun_app, D2 in C2. cbn [bind] in C2. rewrite D3 in C2. cbn [bind] in C2. injection C2 as _ <-.
  destruct (C3 old (map pk_of sigs)) as (o & c & X1 & X2).
  - unfold log_of. rewrite flat_map_app. fold (log_of es1) (log_of es2). rewrite D4, D5, pk_of_log. reflexivity.
  - rewrite Forall_map. exact H31.
  - rewrite map_map in X1, X2. eauto.
Qed.
