(** T_Analog.v -- property theorems C102 (from the line in continuous time to its packets, at the firmware's clocks) and C103 (recovery). *)
From Verif Require Import Base M_Dsp M_Adc M_Core1 M_Clock S_Adc S_Dsp S_Pio S_Core1 S_Noise S_Slow S_Front S_Analog D_Core1 P_Recover P_LineLog P_Slow P_SlowRecover P_Analog T_Front T_Recover T_Slow.

(** C102: packets arrive on the line at any times, each from a sender with a clock of its own (9554 to 9608 baud), of any strong amplitude and either
    polarity; the ADC converts the line at its own rate, on any common voltage [V] and with every sample off by up to [n].  Whatever it
    converted before ([garb]), and whatever its buffer held, once the line has been quiet for [q] >= 5000 conversions (16 ms) the receive core has
    reported the line free, and then it reports exactly the packets of the line. *)
Theorem C102_time_to_packets : forall e0 mem garb q n V l raw, Forall (fun x => -255 <= x <= 255) mem -> Forall (fun x => -255 <= x <= 255) (garb ++ raw) ->
  0 <= n <= 410 -> (5000 <= q)%nat -> Forall (signal_ok sample_time n) l ->
  spaced (410 * conversion_time) (conversion_time * Z.of_nat q) (conversion_time * Z.of_nat (length raw)) l ->
  digitised n V (converted conversion_time (length raw) l) raw -> Z.of_nat (length (garb ++ raw)) < 3900000000 ->
  exists s s1 s2 es1 es2 old, core1_new e0 = Ok s /\ mrun core1_sample s (firstn (length garb + q) (values firmware_gain mem (garb ++ raw))) = Ok (s1, es1) /\
    mrun core1_sample s1 (skipn (length garb + q) (values firmware_gain mem (garb ++ raw))) = Ok (s2, es2) /\
    log_of es1 = old ++ [LFree] /\ log_of es2 = flat_map packet_log (map sg_bytes l).
Proof. exact analog_free. Qed.
Print Assumptions C102_time_to_packets.
(** The firmware's own sender and an exact one are among them. *)
Theorem C102_senders : forall cycle, cycle = pio_cycle_time \/ cycle = bit_time / 16 -> 175 * sample_time <= 176 * cycle /\ cycle <= sample_time.
Proof. intros cycle [->| ->]; split; vm_compute; discriminate. Qed.
Print Assumptions C102_senders.

(** One packet (64 17) of an exact sender, wires swapped, after 16 ms and 9.17 ms of quiet, beginning between two conversions. *)
Definition ex_signal : signal := SIGNAL (5000 * conversion_time + 880000000 + 123456) 625000 (-16000) 64 [(1%nat, 17)].
Definition ex_time_ideal : list Z := converted conversion_time (4000 + 4915) [ex_signal].
Definition ex_time_raw : list Z := convert 0 25500 ex_time_ideal.
Lemma convert_length us : forall k V, length (convert k V us) = length us.
Proof. induction us as [|u us IH]; intros k V; cbn [convert length]; auto. Qed.
Lemma convert_digitised us : forall k V, digitised 198 V us (convert k V us).
Proof.
  induction us as [|u us IH]; intros k V; cbn [convert digitised]; auto. split; [|apply IH]. pose proof (P_AnaPulse.div_bounds (V + u + ((k * 7919) mod 141 - 70) + 128) 256 ltac:(lia)).
  pose proof (Z.mod_pos_bound (k * 7919) 141 ltac:(lia)). lia.
Qed.
Lemma convert_range us : forall k V, -26000 <= V <= 26000 -> Forall (fun u => -30000 <= u <= 30000) us -> Forall (fun x => -255 <= x <= 255) (convert k V us).
Proof.
  induction us as [|u us IH]; intros k V HV Hu; cbn [convert]; constructor; inversion Hu; subst; [|apply IH; auto; lia].
  pose proof (P_AnaPulse.div_bounds (V + u + ((k * 7919) mod 141 - 70) + 128) 256 ltac:(lia)). pose proof (Z.mod_pos_bound (k * 7919) 141 ltac:(lia)). lia.
Qed.
Lemma ex_volts x : -30000 <= volts [ex_signal] x <= 30000.
Proof.
  cbn [volts]. destruct ((sg_start ex_signal <=? x) && (x <? sg_end ex_signal)); [|lia]. change (sg_amp ex_signal) with (-16000).
  pose proof (P_Noise.waves_shape 1 [(0%nat, 64); (1%nat, 17)] (or_introl eq_refl)) as (_ & _ & Hu); [constructor; [cbn; lia|]; constructor; [cbn; lia|constructor]|].
  apply P_Noise.units_unitl in Hu. unfold P_Noise.units in Hu. rewrite Forall_map, Forall_forall in Hu. set (k := Z.to_nat ((x - sg_start ex_signal) / sg_cycle ex_signal)). clearbody k.
  change (sg_line ex_signal) with (waves [(0%nat, 64); (1%nat, 17)]). destruct (nth_in_or_default k (waves [(0%nat, 64); (1%nat, 17)]) 0) as [H| ->]; [|lia].
  specialize (Hu _ H). unfold P_NoiseChar.sgn1 in Hu. lia.
Qed.
Lemma ex_signal_ok : signal_ok sample_time 198 ex_signal.
Proof.
  unfold signal_ok, strong. split; [cbn [ex_signal sg_amp Z.abs]; lia|]. split; [vm_compute; discriminate|]. split; [vm_compute; discriminate|].
  split; [unfold sg_bytes, ex_signal; cbn [sg_first sg_rest map snd]; repeat constructor; lia|]. vm_compute. discriminate.
Qed.
Example C102_ex : Forall (fun x => -255 <= x <= 255) (ex_noise ++ ex_time_raw) /\ Forall (signal_ok sample_time 198) [ex_signal] /\
  spaced (410 * conversion_time) (conversion_time * Z.of_nat 5000) (conversion_time * Z.of_nat (length ex_time_raw)) [ex_signal] /\
  digitised 198 25500 (converted conversion_time (length ex_time_raw) [ex_signal]) ex_time_raw /\
  exists s s1 s2 es1 es2, core1_new true = Ok s /\ mrun core1_sample s (firstn (200 + 5000) (values firmware_gain (repeat 0 256) (ex_noise ++ ex_time_raw))) = Ok (s1, es1) /\
    mrun core1_sample s1 (skipn (200 + 5000) (values firmware_gain (repeat 0 256) (ex_noise ++ ex_time_raw))) = Ok (s2, es2) /\
    log_of es2 = [LBusy; LByte 64 false; LByte 17 false; LFree].
Proof.
  assert (LR : length ex_time_raw = (4000 + 4915)%nat) by (unfold ex_time_raw, ex_time_ideal, converted; rewrite convert_length, map_length, seq_length; reflexivity).
  assert (H1 : Forall (fun x => -255 <= x <= 255) (ex_noise ++ ex_time_raw)).
  { apply Forall_app. split; [apply (boundedb_ok 255); vm_compute; reflexivity|]. apply convert_range; [lia|]. apply Forall_map, Forall_forall. intros i _. apply ex_volts. }
  assert (H2 : Forall (signal_ok sample_time 198) [ex_signal]) by (constructor; [exact ex_signal_ok|constructor]).
  assert (H3 : digitised 198 25500 ex_time_ideal ex_time_raw) by apply convert_digitised.
  unfold ex_time_ideal in H3. rewrite <- LR in H3.
  assert (H4 : spaced (410 * conversion_time) (conversion_time * Z.of_nat 5000) (conversion_time * Z.of_nat (length ex_time_raw)) [ex_signal]).
  { rewrite LR. cbn [spaced]. split; vm_compute; discriminate. }
  split; [exact H1|]. split; [exact H2|]. split; [exact H4|]. split; [exact H3|].
  assert (LG : length ex_noise = 200%nat) by (unfold ex_noise; rewrite map_length, seq_length; reflexivity).
  destruct (C102_time_to_packets true (repeat 0 256) ex_noise 5000 198 25500 [ex_signal] ex_time_raw) as (s & s1 & s2 & es1 & es2 & old & E1 & E2 & E3 & _ & E4); auto; try lia.
  { apply (boundedb_ok 255). vm_compute. reflexivity. }
  { rewrite app_length, LR, LG. reflexivity. }
  rewrite LG in E2, E3. exists s, s1, s2, es1, es2. auto.
Qed.

(** C103: recovery (C93) when the line is sampled a little too slowly (the mask of C99, wider): whatever was on the line before ([gs]), once it
    has been quiet for 400 samples the line has been reported free and everything from there on is received. *)
Theorem C103_recovery_slow : forall e0 gs qs pkts ys, bounded 1000000 gs -> bounded 599 qs -> (400 <= length qs)%nat ->
  Z.of_nat (length gs + length qs) < 2000000000 -> heard_slow pkts ys -> Z.of_nat (length ys) < 2000000000 ->
  exists c c1 c2 es1 es2 old, lchain_new e0 = Ok c /\ mrun lchain_step c (gs ++ qs) = Ok (c1, es1) /\ mrun lchain_step c1 ys = Ok (c2, es2) /\
    log_of es1 = old ++ [LFree] /\ log_of es2 = flat_map packet_log pkts.
Proof. exact recovered_slow_free. Qed.
Print Assumptions C103_recovery_slow.
(** The frame cut off at both ends and the noise of C93_ex; then the slowly sampled, disturbed line of C99_ex. *)
Example C103_ex : bounded 1000000 ex_garbage /\ bounded 599 ex_quiet /\ heard_slow [[64; 3]] ex99_line /\
  exists c c1 c2 es1 es2, lchain_new true = Ok c /\ mrun lchain_step c (ex_garbage ++ ex_quiet) = Ok (c1, es1) /\ mrun lchain_step c1 ex99_line = Ok (c2, es2) /\
    log_of es2 = [LBusy; LByte 64 false; LByte 3 false; LFree].
Proof.
  destruct C93_ex as (H1 & H2 & _). pose proof C99_ex as (_ & _ & _ & H3 & _). split; [exact H1|]. split; [exact H2|]. split; [exact H3|].
  assert (LQ : length ex_quiet = 400%nat) by (unfold ex_quiet; rewrite map_length, seq_length; reflexivity).
  assert (LG : Z.of_nat (length ex_garbage + length ex_quiet) < 2000000000) by (vm_compute; reflexivity).
  assert (LL : Z.of_nat (length ex99_line) < 2000000000) by (vm_compute; reflexivity).
  destruct (C103_recovery_slow true ex_garbage ex_quiet [[64; 3]] ex99_line H1 H2 ltac:(rewrite LQ; apply Nat.le_refl) LG H3 LL) as (c & c1 & c2 & es1 & es2 & old & E1 & E2 & E3 & _ & E5).
  exists c, c1, c2, es1, es2. auto.
Qed.
