(** T_SystemTimed.v -- property theorem C105 (the complete firmware in real time). *)
From Verif Require Import Base M_Fifo M_Message M_Tx M_HostUart M_Led M_Adc M_Clock S_Dsp S_Pio M_Core1 S_Core1 D_Core1 S_Adc D_Adc D_Core1Adc S_Front S_Slow S_Analog
  M_Core0 S_Core0 D_Core0 M_System S_System S_SysTime P_System P_SystemRx P_SystemLine P_SystemAnalog P_SystemTimed P_Recover T_Core0 T_Front T_SystemLine T_Analog.

(** C105: as C104, but that the main loop never gives a packet up by its time-out (500 ms) is now a conclusion: it suffices that the main loop runs at least once
    in [w] conversions (49 ms) and that its microsecond clock agrees with the ADC's to within 5 ms. *)
Theorem C105_real_time_to_host : forall b mem e0 l s outs garb q n V sigs raw t0 sl w,
  boot_ok b -> length mem = 256%nat -> Forall (fun x => -255 <= x <= 255) mem -> Forall sys_ok l -> input_ok (text (sys_loop_inputs l)) ->
  sys_run b mem e0 l = Ok (s, outs) -> keeps_up l -> Z.of_nat (length (dma_samples l)) < BLOCK ->
  Forall (fun x => ~ overflow_in (snd x)) (loops outs) -> k_queue (y_link s) = [] -> k_ferr (y_link s) = false ->
  0 <= b_now b -> in_time (b_now b) (sys_loop_inputs l) -> real_time conversion_time t0 sl w 0 0 l ->
  t0 <= 96000 * 4000000000000 -> Z.of_nat w <= 15000 -> sl <= 480000000 ->
  dma_samples l = garb ++ raw -> 0 <= n <= 410 -> (5000 <= q)%nat -> Forall (signal_ok sample_time n) sigs ->
  spaced (410 * conversion_time) (conversion_time * Z.of_nat q) (conversion_time * Z.of_nat (length raw)) sigs ->
  Forall (fun u => (length (sg_bytes u) <= 31)%nat) sigs -> digitised n V (converted conversion_time (length raw) sigs) raw ->
  exists o c, map described (rx_reports (concat (map snd (loops outs)))) = o ++ map (fun u => (R_packet, (0, sg_bytes u))) sigs /\
    map content (to_ctrl (concat (map snd (loops outs)))) = c ++ map (fun u => (0, sg_bytes u)) sigs.
Proof. exact timed_to_host. Qed.
Print Assumptions C105_real_time_to_host.

(** One iteration of either core per ADC sample, the main loop reading the microsecond clock at that conversion (the first at 5 ms). *)
Definition at_us (k : nat) : Z := 5000 + conversion_time * Z.of_nat k / 96000.
Fixpoint clocked (k : nat) (vs : list Z) : list sys_in :=
  match vs with
  | [] => [Y_core1 true; Y_core0 (calm_iter (at_us k))]
  | v :: t => Y_dma v :: Y_core1 true :: Y_core0 (calm_iter (at_us k)) :: clocked (S k) t
  end.
Lemma clocked_dma vs : forall k, dma_samples (clocked k vs) = vs.
Proof. induction vs as [|v vs IH]; intros k; [reflexivity|]. unfold dma_samples in *. cbn [clocked flat_map app]. f_equal. apply IH. Qed.
Lemma clocked_served vs : forall k, served 0 (clocked k vs).
Proof. induction vs as [|v vs IH]; intros k; cbn [clocked served pred]; (split; [lia|]); [reflexivity|apply IH]. Qed.
Lemma clocked_ok vs : forall k, Forall (fun x => -255 <= x <= 255) vs -> Forall sys_ok (clocked k vs).
Proof.
  induction vs as [|v vs IH]; intros k H; cbn [clocked]; [constructor; [exact I|constructor; [apply calm_iter_ok|constructor]]|].
  inversion H; subst. constructor; [assumption|]. constructor; [exact I|]. constructor; [apply calm_iter_ok|]. apply IH. assumption.
Qed.
Lemma clocked_text vs : forall k, text (sys_loop_inputs (clocked k vs)) = [].
Proof. induction vs as [|v vs IH]; intros k; [reflexivity|]. unfold sys_loop_inputs in *. cbn [clocked flat_map app]. cbn [text]. apply IH. Qed.
Lemma clocked_adc vs : forall k, sys_adc (clocked k vs) = sys_adc (steady vs).
Proof.
  assert (X : sys_adc (steady vs) = flat_map (fun x => [S_Adc.Sample x; Poll true]) vs ++ [Poll true]).
  { unfold steady, sys_adc. rewrite flat_map_app. cbn [flat_map app tick]. f_equal. induction vs as [|v vs IH]; [reflexivity|]. cbn [flat_map app tick]. rewrite IH. reflexivity. }
  rewrite X. clear X. induction vs as [|v vs IH]; intros k; [reflexivity|]. unfold sys_adc in *. cbn [clocked flat_map app]. rewrite IH. reflexivity.
Qed.
Lemma clocked_keeps vs k : Z.of_nat (length vs) < BLOCK -> keeps_up (clocked k vs).
Proof. intros H. pose proof (steady_keeps vs H) as X. unfold keeps_up in *. rewrite clocked_adc. exact X. Qed.
Lemma at_us_mono k : at_us k <= at_us (S k).
Proof. unfold at_us. change conversion_time with 314000. pose proof (Z.div_le_mono (314000 * Z.of_nat k) (314000 * Z.of_nat (S k)) 96000 ltac:(lia) ltac:(lia)). lia. Qed.
Lemma clocked_time vs : forall k t, t <= at_us k -> in_time t (sys_loop_inputs (clocked k vs)).
Proof.
  unfold sys_loop_inputs. induction vs as [|v vs IH]; intros k t H; cbn [clocked flat_map app in_time]; [split; [exact H|exact I]|]. split; [exact H|]. apply IH. apply at_us_mono.
Qed.
(** The clock read is within 5 us of the conversion. *)
Lemma clocked_real vs : forall k, real_time conversion_time (5000 * 96000) 480000 1 k 0 (clocked k vs).
Proof.
  assert (X : forall k j, (j <= 1)%nat -> Z.abs (96000 * in_now (calm_iter (at_us k)) - (5000 * 96000 + conversion_time * Z.of_nat (k + j))) <= 480000).
  { intros k j Hj. change (in_now (calm_iter (at_us k))) with (at_us k). unfold at_us. change conversion_time with 314000. pose proof (Z.div_mod (314000 * Z.of_nat k) 96000 ltac:(lia)). pose proof (Z.mod_pos_bound (314000 * Z.of_nat k) 96000 ltac:(lia)). lia. }
  induction vs as [|v vs IH]; intros k; cbn [clocked real_time].
  - split; [|exact I]. pose proof (X k 0%nat) as Y. rewrite Nat.add_0_r in Y. apply Y. lia.
  - split; [lia|]. split; [|apply IH]. pose proof (X k 1%nat) as Y. rewrite Nat.add_1_r in Y. apply Y. lia.
Qed.

(** The line of C102_ex. *)
Example C105_ex : exists s outs o c, sys_run boot0 (repeat 0 256) true (clocked 0 (ex_noise ++ ex_time_raw)) = Ok (s, outs) /\
  map described (rx_reports (concat (map snd (loops outs)))) = o ++ [(R_packet, (0, [64; 17]))] /\
  map content (to_ctrl (concat (map snd (loops outs)))) = c ++ [(0, [64; 17])].
Proof.
  destruct C102_ex as (H1 & H2 & H4 & H3 & _).
  assert (Hn : Z.of_nat (length (ex_noise ++ ex_time_raw)) < BLOCK).
  { unfold ex_noise, ex_time_raw, ex_time_ideal, converted. rewrite app_length, map_length, convert_length, map_length, !seq_length. reflexivity. }
  pose proof (clocked_ok _ 0 H1) as Hl. pose proof (clocked_text (ex_noise ++ ex_time_raw) 0) as Ht. pose proof (clocked_served (ex_noise ++ ex_time_raw) 0) as Hs. pose proof (clocked_keeps _ 0 Hn) as Hk.
  pose proof (clocked_dma (ex_noise ++ ex_time_raw) 0) as Hd. pose proof (clocked_real (ex_noise ++ ex_time_raw) 0) as Hr.
  assert (B0 : b_now boot0 <= at_us 0) by (vm_compute; discriminate). pose proof (clocked_time (ex_noise ++ ex_time_raw) 0 _ B0) as Hti.
  assert (H31 : Forall (fun u => (length (sg_bytes u) <= 31)%nat) [ex_signal]) by (constructor; [cbn; lia|constructor]).
  generalize dependent (clocked 0 (ex_noise ++ ex_time_raw)). intros l Hl Ht Hs Hk Hd Hr Hti. generalize dependent ex_noise. generalize dependent ex_time_raw. intros raw H4 H3 noise H1 Hn Hd.
  assert (Hi : input_ok (text (sys_loop_inputs l))) by (rewrite Ht; apply short_input; cbn; lia).
  assert (Hm : Forall (fun x => -255 <= x <= 255) (repeat 0 256)) by (apply (boundedb_ok 255); vm_compute; reflexivity).
  assert (Lm : length (repeat 0 256) = 256%nat) by apply repeat_length. rewrite <- Hd in Hn.
  destruct (sys_total boot0 (repeat 0 256) true l boot0_ok Lm Hm Hl Hi) as (s & outs & E).
  destruct (C95_no_overflow boot0 (repeat 0 256) true l s outs boot0_ok Hl Hi E Hs) as (A1 & A2 & A3).
  assert (N1 : 0 <= 198 <= 410) by lia. assert (N2 : (5000 <= 5000)%nat) by apply Nat.le_refl.
  assert (N3 : 0 <= b_now boot0) by (vm_compute; discriminate). assert (N4 : 5000 * 96000 <= 96000 * 4000000000000) by lia. assert (N5 : Z.of_nat 1 <= 15000) by lia. assert (N6 : 480000 <= 480000000) by lia.
  destruct (C105_real_time_to_host boot0 (repeat 0 256) true l s outs noise 5000 198 25500 [ex_signal] raw (5000 * 96000) 480000 1 boot0_ok Lm Hm Hl Hi E Hk Hn A1 A2 A3 N3 Hti Hr N4 N5 N6 Hd N1 N2 H2 H4 H31 H3) as (o & c & X1 & X2).
  exists s, outs, o, c. split; [exact E|]. split; [exact X1|exact X2].
Qed.
