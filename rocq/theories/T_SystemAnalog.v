(** T_SystemAnalog.v -- property theorem C104 (the complete firmware, from the line in continuous time to the host). *)
From Verif Require Import Base M_Fifo M_Message M_Tx M_HostUart M_Led M_Adc M_Clock S_Dsp S_Pio M_Core1 S_Core1 D_Core1 S_Adc D_Adc D_Core1Adc S_Front S_Slow S_Analog
  M_Core0 S_Core0 D_Core0 M_System S_System P_System P_SystemRx P_SystemLine P_SystemAnalog P_Recover T_Core0 T_Front T_SystemLine T_Analog.

(** C104: for every interleaving [l] of the DMA and the two cores in which core 1 keeps up with the ADC, core 0 reported no overflow of the
    queue and no time-out and nothing is left waiting: if the ADC samples are any disturbance [garb] followed by the conversions, at the firmware's clock, of
    a quiet line (16 ms) and the packets [sigs] of senders with clocks of their own (as in C102), then -- after whatever was reported for the
    disturbance -- exactly these packets are reported to the host and handed to the controller, in order, each complete and with status 0. *)
Theorem C104_time_to_host : forall b mem e0 l s outs garb q n V sigs raw,
  boot_ok b -> length mem = 256%nat -> Forall (fun x => -255 <= x <= 255) mem -> Forall sys_ok l -> input_ok (text (sys_loop_inputs l)) ->
  sys_run b mem e0 l = Ok (s, outs) -> keeps_up l -> Z.of_nat (length (dma_samples l)) < BLOCK ->
  Forall (fun x => ~ overflow_in (snd x)) (loops outs) -> no_timeout (map snd (loops outs)) -> k_queue (y_link s) = [] -> k_ferr (y_link s) = false ->
  dma_samples l = garb ++ raw -> 0 <= n <= 410 -> (5000 <= q)%nat -> Forall (signal_ok sample_time n) sigs ->
  spaced (410 * conversion_time) (conversion_time * Z.of_nat q) (conversion_time * Z.of_nat (length raw)) sigs ->
  Forall (fun u => (length (sg_bytes u) <= 31)%nat) sigs -> digitised n V (converted conversion_time (length raw) sigs) raw ->
  exists o c, map described (rx_reports (concat (map snd (loops outs)))) = o ++ map (fun u => (R_packet, (0, sg_bytes u))) sigs /\
    map content (to_ctrl (concat (map snd (loops outs)))) = c ++ map (fun u => (0, sg_bytes u)) sigs.
Proof. exact analog_to_host. Qed.
Print Assumptions C104_time_to_host.

(** The line of C102_ex, with one iteration of either core per ADC sample. *)
Example C104_ex : exists s outs o c, sys_run boot0 (repeat 0 256) true (steady (ex_noise ++ ex_time_raw)) = Ok (s, outs) /\
  map described (rx_reports (concat (map snd (loops outs)))) = o ++ [(R_packet, (0, [64; 17]))] /\
  map content (to_ctrl (concat (map snd (loops outs)))) = c ++ [(0, [64; 17])].
Proof.
  destruct C102_ex as (H1 & H2 & H4 & H3 & _).
  assert (Hn : Z.of_nat (length (ex_noise ++ ex_time_raw)) < BLOCK).
  { unfold ex_noise, ex_time_raw, ex_time_ideal, converted. rewrite app_length, map_length, convert_length, map_length, !seq_length. reflexivity. }
  pose proof (steady_ok _ H1) as Hl. pose proof (steady_text (ex_noise ++ ex_time_raw)) as Ht. pose proof (steady_served (ex_noise ++ ex_time_raw)) as Hs. pose proof (steady_keeps _ Hn) as Hk.
  pose proof (steady_dma (ex_noise ++ ex_time_raw)) as Hd. destruct (steady_early (S (length (ex_noise ++ ex_time_raw)))) as (He1 & He2). rewrite <- steady_loops in He1, He2.
  assert (H31 : Forall (fun u => (length (sg_bytes u) <= 31)%nat) [ex_signal]) by (constructor; [cbn; lia|constructor]).
  generalize dependent (steady (ex_noise ++ ex_time_raw)). intros l Hl Ht Hs Hk Hd He1 He2. generalize dependent ex_noise. generalize dependent ex_time_raw. intros raw H4 H3 noise H1 Hn Hd.
  assert (Hi : input_ok (text (sys_loop_inputs l))) by (rewrite Ht; apply short_input; cbn; lia).
  assert (Hm : Forall (fun x => -255 <= x <= 255) (repeat 0 256)) by (apply (boundedb_ok 255); vm_compute; reflexivity).
  assert (Lm : length (repeat 0 256) = 256%nat) by apply repeat_length. rewrite <- Hd in Hn.
  destruct (sys_total boot0 (repeat 0 256) true l boot0_ok Lm Hm Hl Hi) as (s & outs & E).
  destruct (C95_no_overflow boot0 (repeat 0 256) true l s outs boot0_ok Hl Hi E Hs) as (A1 & A2 & A3).
  assert (A4 : no_timeout (map snd (loops outs))) by (apply (sys_early boot0 (repeat 0 256) true l s outs boot0_ok Hl Hi E); [vm_compute; discriminate|vm_compute; reflexivity|exact He1|exact He2]).
  assert (N1 : 0 <= 198 <= 410) by lia. assert (N2 : (5000 <= 5000)%nat) by apply Nat.le_refl.
  destruct (C104_time_to_host boot0 (repeat 0 256) true l s outs noise 5000 198 25500 [ex_signal] raw boot0_ok Lm Hm Hl Hi E Hk Hn A1 A4 A2 A3 Hd N1 N2 H2 H4 H31 H3) as (o & c & X1 & X2).
  exists s, outs, o, c. split; [exact E|]. split; [exact X1|exact X2].
Qed.
