(** T_System.v -- property theorems C88-C91 (the two cores together). *)
From Verif Require Import Base M_Fifo M_Message M_Tx M_HostUart M_Led M_Adc S_Pio M_Core1 S_Core1 D_Core1 S_Adc D_Adc D_Core1Adc
  M_Core0 S_Core0 D_Core0 M_System S_System P_System P_SystemRx T_Core0.

(** C88: for every interleaving of the cores the main loop takes the events in order; at most 8 wait, and what is
    lost is exactly what found 8 waiting ([marks]: which events found a place). *)
Theorem C88_queue : forall b l k c outs, Forall news_ok l -> duo_run b l = Ok ((k, c), outs) ->
  taken (map fst (loops outs)) ++ k_queue k = admitted 0 l /\ (length (k_queue k) <= 8)%nat /\
  map outside (map fst (loops outs)) = map outside (loop_inputs l) /\
  exists marks, length marks = length (all_news l) /\
    admitted 0 l = map fst (filter snd (combine (all_news l) marks)) /\ lost 0 l = map fst (filter (fun x => negb (snd x)) (combine (all_news l) marks)).
Proof.
  intros b l k c outs F E. destruct (duo_core0 b l k c outs F E) as (_ & _ & A & _ & B & C). split; [exact B|]. split; [exact C|]. split; [exact A|]. apply admitted_lost.
Qed.
Print Assumptions C88_queue.
(** Every loss is reported to the host by the next iteration of the main loop -- by the one after it if an iteration was
    past its test of the flag already. *)
Theorem C88_loss_reported : forall b l1 e l2 k c o1 o2, boot_ok b -> Forall news_ok (l1 ++ News e :: l2) -> input_ok (text (loop_inputs (l1 ++ News e :: l2))) ->
  duo_run b (l1 ++ News e :: l2) = Ok ((k, c), o1 ++ o2) -> length o1 = length l1 -> lost 0 (l1 ++ [News e]) <> lost 0 l1 ->
  (if testing l1 then 2 else 1) <= Z.of_nat (length (loop_inputs l2)) ->
  Exists (fun x => overflow_in (snd x)) (firstn (if testing l1 then 2 else 1) (loops o2)).
Proof. exact drop_reported. Qed.
Print Assumptions C88_loss_reported.
(** No false alarm: there are at most as many overflow reports as losses. *)
Theorem C88_no_false_alarm : forall b l k c outs, boot_ok b -> Forall news_ok l -> input_ok (text (loop_inputs l)) -> duo_run b l = Ok ((k, c), outs) ->
  (length (filter (fun x => match fst x with R_fifo => true | _ => false end) (rx_reports (concat (map snd (loops outs))))) <= length (lost 0 l))%nat.
Proof. exact reports_bounded. Qed.
Print Assumptions C88_no_false_alarm.
Definition bytes_news (n : nat) : list duo_in := map (fun c => News (Byte (Z.of_nat c) false)) (seq 1 n).
(** Nine bytes before the main loop gets to its first iteration: the ninth is lost, and the first iteration says so. *)
Example C88_ex : lost 0 (bytes_news 9) <> lost 0 (bytes_news 8) /\ testing (bytes_news 8) = false /\
  match duo_run boot0 (bytes_news 9 ++ [Loop (calm_iter 10000); Loop (calm_iter 11000)]) with
  | Ok ((k, c), outs) => taken (map fst (loops outs)) = [Byte 1 false; Byte 2 false] /\ length (k_queue k) = 6%nat /\
      map (fun x => map fst (rx_reports (snd x))) (loops outs) = [[R_fifo]; []]
  | UB _ => False
  end.
Proof. split; [vm_compute; congruence|]. split; [reflexivity|]. vm_compute. auto. Qed.
(** ... but a loss between the test of the flag and its clearing is not noticed by any later test: here byte 10 is lost after the
    iteration has seen the flag (raised for byte 9); no iteration reports an overflow that it has tested for after this loss. *)
Theorem C88_noticed_refuted : exists l1 e l2 k c outs, Forall news_ok (l1 ++ News e :: l2) /\ lost 0 (l1 ++ [News e]) <> lost 0 l1 /\
  duo_run boot0 (l1 ++ News e :: Loop (calm_iter 10000) :: l2) = Ok ((k, c), outs) /\ testing l1 = true /\ loop_inputs l1 = [] /\
  (3 <= length (loop_inputs l2))%nat /\ Forall (fun x => ~ overflow_in (snd x)) (tl (loops outs)) /\ k_ferr k = false.
Proof.
  exists (bytes_news 9 ++ [Test]), (Byte 10 false), [Test; Loop (calm_iter 11000); Test; Loop (calm_iter 12000); Test; Loop (calm_iter 13000)].
  destruct (duo_run boot0 ((bytes_news 9 ++ [Test]) ++ News (Byte 10 false) :: Loop (calm_iter 10000) :: [Test; Loop (calm_iter 11000); Test; Loop (calm_iter 12000); Test; Loop (calm_iter 13000)]))
    as [((k & c) & outs)|] eqn:E; [|vm_compute in E; discriminate].
  exists k, c, outs. split.
  { unfold bytes_news. cbn [seq map app]. repeat (apply Forall_cons; [first [exact I|exact (calm_iter_ok _)|vm_compute; split; congruence]|]). apply Forall_nil. }
  split; [vm_compute; congruence|]. split; [reflexivity|]. split; [reflexivity|]. split; [reflexivity|]. split; [vm_compute; lia|].
  vm_compute in E. injection E as <- <- <-. split; [|reflexivity].
  cbn [loops flat_map app tl]. repeat (apply Forall_cons; [vm_compute; intuition discriminate|]). apply Forall_nil.
Qed.
Print Assumptions C88_noticed_refuted.

(** C89, refuted: a packet reported with status 0 may lack a byte.  The overflow report made for the lost byte 9 closes what
    was collected before it; the packet with the gap itself is then reported as good. *)
Definition ex89 : list duo_in := News Busy :: bytes_news 9 ++ map (fun t => Loop (calm_iter t)) [10000; 11000; 12000; 13000; 14000; 15000; 16000; 17000; 18000]
  ++ [News (Byte 10 false); News Free; Loop (calm_iter 20000); Loop (calm_iter 21000)].
Theorem C89_complete_refuted : exists l k c outs, Forall news_ok l /\ input_ok (text (loop_inputs l)) /\ duo_run boot0 l = Ok ((k, c), outs) /\
  ev_bytes (all_news l) = [1; 2; 3; 4; 5; 6; 7; 8; 9; 10] /\ no_timeout (map snd (loops outs)) /\
  map described (rx_reports (concat (map snd (loops outs)))) = [(R_fifo, (2, [])); (R_packet, (0, [1; 2; 3; 4; 5; 6; 7; 10]))].
Proof.
  exists ex89. destruct (duo_run boot0 ex89) as [((k & c) & outs)|] eqn:E; [|vm_compute in E; discriminate]. exists k, c, outs.
  split.
  { unfold ex89, bytes_news. cbn [seq map app]. repeat (apply Forall_cons; [first [exact I|exact (calm_iter_ok _)|vm_compute; split; congruence]|]). apply Forall_nil. }
  split; [apply short_input; vm_compute; lia|]. split; [reflexivity|]. split; [reflexivity|].
  vm_compute in E. injection E as <- <- <-. split; [|vm_compute; reflexivity].
  unfold no_timeout. cbn [loops flat_map app map snd]. repeat (apply Forall_cons; [vm_compute; intuition discriminate|]). apply Forall_nil.
Qed.
Print Assumptions C89_complete_refuted.
(** C89, guarded: without loss in the queue and without time-out the reports are exactly the stretches between line-free events,
    each with its bytes and the documented status, and the controller gets the same packets. *)
Theorem C89_complete_partial : forall b l k c outs segs rest, boot_ok b -> Forall news_ok l -> input_ok (text (loop_inputs l)) -> duo_run b l = Ok ((k, c), outs) ->
  lost 0 l = [] -> no_timeout (map snd (loops outs)) -> taken (map fst (loops outs)) = concat (map st_events segs) ++ rest -> Forall st_ok segs ->
  Forall (fun e => ev_free e = false) rest -> (length (ev_bytes rest) <= 31)%nat ->
  map described (rx_reports (concat (map snd (loops outs)))) = flat_map st_report segs /\
  map content (to_ctrl (concat (map snd (loops outs)))) = map snd (flat_map st_report segs).
Proof. exact received_exactly. Qed.
Print Assumptions C89_complete_partial.
Example C89_ex : st_ok (ST [Busy; Byte 64 false; Byte 0 true] Free) /\ st_report (ST [Busy; Byte 64 false; Byte 0 true] Free) = [(R_packet, (3, [64; 0]))] /\
  st_report (ST [] Free) = [] /\
  match duo_run boot0 [News Free; News Busy; Loop (calm_iter 10000); News (Byte 64 false); News (Byte 0 true); Test; Loop (calm_iter 11000); News Free; Loop (calm_iter 12000); Loop (calm_iter 13000); Loop (calm_iter 14000)] with
  | Ok ((k, c), outs) => taken (map fst (loops outs)) = concat (map st_events [ST [] Free; ST [Busy; Byte 64 false; Byte 0 true] Free]) ++ [] /\
      map described (rx_reports (concat (map snd (loops outs)))) = [(R_packet, (3, [64; 0]))]
  | UB _ => False
  end.
Proof. split; [split; [repeat constructor|split; [reflexivity|vm_compute; lia]]|]. split; [reflexivity|]. split; [reflexivity|]. vm_compute. auto. Qed.

(** C90: the complete firmware -- ADC, DMA, both cores, the queue -- never runs into undefined behaviour, for every interleaving and
    every admissible input. *)
Theorem C90_firmware_safe : forall b mem e0 l, boot_ok b -> length mem = 256%nat -> Forall (fun x => -255 <= x <= 255) mem -> Forall sys_ok l -> input_ok (text (sys_loop_inputs l)) ->
  exists s outs, sys_run b mem e0 l = Ok (s, outs).
Proof. exact sys_total. Qed.
Print Assumptions C90_firmware_safe.
(** ... and it is the ADC, the decoder chain and the main loop with its queue, each on what the one before it gave: so all
    theorems about these parts hold in it. *)
Theorem C90_firmware_parts : forall b mem e0 l s outs, Forall sys_ok l -> sys_run b mem e0 l = Ok (s, outs) ->
  exists k0 rs evs lo o0, core1_new e0 = Ok k0 /\ mrun adc_guarded (adc_start mem firmware_gain) (sys_adc l) = Ok (c1_adc (y_c1 s), rs) /\
    mrun core1_sample k0 (S_Core1.good rs) = Ok (c1_chain (y_c1 s), evs) /\
    duo_run b lo = Ok ((y_link s, y_c0 s), o0) /\ loops o0 = loops outs /\ loop_inputs lo = sys_loop_inputs l /\ Forall news_ok lo /\
    told lo ++ [c1_pend (y_c1 s)] = ev_none :: produced rs evs.
Proof. exact sys_split. Qed.
Print Assumptions C90_firmware_parts.
(** 257 samples before the receive core gets to run: the overrun travels through the queue to the main loop. *)
Definition ex90 : list sys_in := repeat (Y_dma 1) 257 ++ [Y_core1 true; Y_dma 1; Y_core1 true; Y_test; Y_core1 true; Y_core0 (calm_iter 10000); Y_core0 (calm_iter 11000)].
Example C90_ex : Forall sys_ok ex90 /\
  match sys_run boot0 (repeat 0 256) true ex90 with
  | Ok (s, outs) => map (fun x => in_event (fst x)) (loops outs) = [Some adc_fault; None] /\ k_queue (y_link s) = []
  | UB _ => False
  end.
Proof.
  split; [|vm_compute; auto]. unfold ex90. apply Forall_app. split; [apply Forall_forall; intros x H; apply repeat_spec in H; subst; cbn; lia|].
  repeat (apply Forall_cons; [first [exact I|exact (calm_iter_ok _)|cbn; lia]|]). apply Forall_nil.
Qed.

(** C91: whatever packets the decoder's events spell are reported to the host and the controller exactly, in order and with status 0,
    through every interleaving in which the ADC was never overrun, no overflow and no time-out was reported and nothing is left waiting. *)
Theorem C91_decoded_to_host : forall b mem e0 l s outs rs, boot_ok b -> length mem = 256%nat -> Forall (fun x => -255 <= x <= 255) mem -> Forall sys_ok l -> input_ok (text (sys_loop_inputs l)) ->
  sys_run b mem e0 l = Ok (s, outs) ->
  mrun adc_guarded (adc_start mem firmware_gain) (sys_adc l) = Ok (c1_adc (y_c1 s), rs) ->
  no_fault rs -> Forall (fun x => ~ overflow_in (snd x)) (loops outs) -> no_timeout (map snd (loops outs)) ->
  k_queue (y_link s) = [] -> k_ferr (y_link s) = false -> no_news (c1_pend (y_c1 s)) = true ->
  exists k0 evs, core1_new e0 = Ok k0 /\ mrun core1_sample k0 (S_Core1.good rs) = Ok (c1_chain (y_c1 s), evs) /\
    forall pkts, log_of evs = LFree :: flat_map one_packet pkts -> Forall (fun p => (length (pk_bytes p) <= 31)%nat) pkts ->
    map described (rx_reports (concat (map snd (loops outs)))) = map (fun p => (R_packet, (0, pk_bytes p))) pkts /\
    map content (to_ctrl (concat (map snd (loops outs)))) = map (fun p => (0, pk_bytes p)) pkts.
Proof. exact packets_to_host. Qed.
Print Assumptions C91_decoded_to_host.
(** One character 65 on the line, sampled with two transfers per 1/16 bit and 80 ADC steps of amplitude: every hypothesis is met. *)
Definition sampled (a : Z) (w : list Z) : list sys_in := flat_map (fun v => [Y_dma (a * v); Y_dma (a * v); Y_core1 true; Y_core1 true]) w.
Definition ex91 : list sys_in := sampled 80 (repeat 0 190 ++ char_wave 65 ++ repeat 0 190) ++ map (fun t => Y_core0 (calm_iter (10000 + 1000 * t))) [1; 2; 3; 4; 5].
Definition quiet_log (o : list (Z * act)) : bool := forallb (fun r => match r with R_packet => true | _ => false end) (map fst (rx_reports o)).
Definition faultless (rs : list (option (option (Z * bool)))) : bool := forallb (fun r => match r with Some (Some (_, true)) => false | _ => true end) rs.
Example C91_ex : exists s outs rs k0 evs, sys_run boot0 (repeat 0 256) true ex91 = Ok (s, outs) /\
  mrun adc_guarded (adc_start (repeat 0 256) firmware_gain) (sys_adc ex91) = Ok (c1_adc (y_c1 s), rs) /\ faultless rs = true /\
  forallb (fun x => quiet_log (snd x)) (loops outs) = true /\ k_queue (y_link s) = [] /\ k_ferr (y_link s) = false /\ no_news (c1_pend (y_c1 s)) = true /\
  core1_new true = Ok k0 /\ mrun core1_sample k0 (S_Core1.good rs) = Ok (c1_chain (y_c1 s), evs) /\ log_of evs = LFree :: flat_map one_packet [PK 0 65 []] /\
  map described (rx_reports (concat (map snd (loops outs)))) = [(R_packet, (0, [65]))].
Proof.
  eexists _, _, _, _, _. split; [vm_compute; reflexivity|]. split; [vm_compute; reflexivity|]. split; [vm_compute; reflexivity|]. split; [vm_compute; reflexivity|].
  split; [vm_compute; reflexivity|]. split; [vm_compute; reflexivity|]. split; [vm_compute; reflexivity|]. split; [vm_compute; reflexivity|]. split; [vm_compute; reflexivity|]. split; vm_compute; reflexivity.
Qed.
