(** T_Core1.v -- property theorems C64, C65, C75, C76 (the receive core). *)
From Verif Require Import Base M_ShiftReg M_Dsp M_Uart M_Adc M_Core1 S_Dsp S_Pio S_Core1 D_Core1 P_Core1 P_Core1Chain S_Adc D_Adc D_Core1Adc P_Core1Adc.

(** C64: for every stream of bit-detector values (and every initial content of the uninitialised rx_error). *)
Theorem C64_line_events : forall e0 ps, exists s tr,
  mrun line_obs (ls_new e0) ps = Ok (s, tr) /\ length tr = length ps /\ line_rules tr.
Proof. exact line_events. Qed.
Print Assumptions C64_line_events.
(** ... and for the complete chain on every stream of ADC values (mV): every second sample is decimated
    away and produces nothing, the others obey the rules. *)
Theorem C64_core1_events : forall e0 xs, bounded 12000 xs -> exists s s' out,
  core1_new e0 = Ok s /\ mrun core1_obs s xs = Ok (s', out) /\ length out = length xs /\
  line_rules (evens out) /\ Forall (fun o => snd o = ev_none) (odds out).
Proof. exact core1_events. Qed.
Print Assumptions C64_core1_events.
(** The line goes free on the 178th zero after reset, and busy again one sample after the pulse. *)
Example C64_ex : exists s tr, mrun line_obs (ls_new true) (repeat 0 180 ++ [5000; 5000; 0]) = Ok (s, tr) /\
  map (fun o => (ev_busy (snd o), ev_free (snd o))) (skipn 176 tr) =
    [(false, false); (false, true); (false, false); (false, false); (false, false); (true, false); (false, false)] /\
  busy_after tr = true.
Proof. eexists _, _. split; [vm_compute; reflexivity|]. split; vm_compute; reflexivity. Qed.

(** C65, refuted: a packet of 31 or more bytes is always cut in two, whatever the gaps: the line-free
    event is raised after some of its bytes [b1], and a new packet begins with the next byte [x]. *)
Theorem C65_one_packet_refuted : forall e0 A p tail, 1400 <= A <= 4681 ->
  Forall (fun c => Z.of_nat (fst c) < 4294967000 /\ 0 <= snd c < 256) (pk_chars p) ->
  (177 <= pk_gap p)%nat -> (200 <= tail)%nat -> Z.of_nat tail < 4294967000 ->
  (31 <= length (pk_bytes p))%nat ->
  exists c c' es b1 x b2 more, lchain_new e0 = Ok c /\
    mrun lchain_step c (map (Z.mul A) (waves (pk_chars p) ++ repeat 0 tail)) = Ok (c', es) /\
    pk_bytes p = b1 ++ x :: b2 /\ b1 <> [] /\
    log_of es = LFree :: LBusy :: map (fun b => LByte b false) b1 ++ LFree :: LBusy :: LByte x false :: more.
Proof.
  intros e0 A p tail HA Hp Hg Ht1 Ht2 L. unfold pk_bytes in L. cbn [length] in L. rewrite map_length in L.
  apply packet_split; auto.
  - constructor; [exact Hp|constructor].
  - apply long_packet_quiet. lia.
Qed.
Print Assumptions C65_one_packet_refuted.
(** ... and so is any packet with more than 176 not-receiving samples inside (six per byte plus the gaps;
    at the nominal 176 cycles per character that is 27 bytes). *)
Theorem C65_quiet_refuted : forall e0 A p tail, 1400 <= A <= 4681 ->
  Forall (fun c => Z.of_nat (fst c) < 4294967000 /\ 0 <= snd c < 256) (pk_chars p) ->
  (177 <= pk_gap p)%nat -> (200 <= tail)%nat -> Z.of_nat tail < 4294967000 ->
  176 < inner_quiet p ->
  exists c c' es b1 x b2 more, lchain_new e0 = Ok c /\
    mrun lchain_step c (map (Z.mul A) (waves (pk_chars p) ++ repeat 0 tail)) = Ok (c', es) /\
    pk_bytes p = b1 ++ x :: b2 /\ b1 <> [] /\
    log_of es = LFree :: LBusy :: map (fun b => LByte b false) b1 ++ LFree :: LBusy :: LByte x false :: more.
Proof.
  intros e0 A p tail HA Hp Hg Ht1 Ht2 Q. apply packet_split; auto. constructor; [exact Hp|constructor].
Qed.
Print Assumptions C65_quiet_refuted.
(** C65, guarded: a sequence of packets each with at most 176 not-receiving samples inside and separated by
    at least 177 idle cycles is delivered exactly, each packet between one busy and one free event. *)
Theorem C65_one_packet_partial : forall e0 A pkts tail, 1400 <= A <= 4681 ->
  Forall (fun p => Forall (fun c => Z.of_nat (fst c) < 4294967000 /\ 0 <= snd c < 256) (pk_chars p)) pkts ->
  Forall (fun p => (177 <= pk_gap p)%nat /\ inner_quiet p <= 176) pkts ->
  (200 <= tail)%nat -> Z.of_nat tail < 4294967000 ->
  exists c c' es, lchain_new e0 = Ok c /\
    mrun lchain_step c (map (Z.mul A) (waves (flat_map pk_chars pkts) ++ repeat 0 tail)) = Ok (c', es) /\
    log_of es = LFree :: flat_map one_packet pkts.
Proof. exact packets_delivered. Qed.
Print Assumptions C65_one_packet_partial.
Example C65_ex :
  inner_quiet (PK 177 64 (repeat (0%nat, 255) 29)) = 174 /\ inner_quiet (PK 177 64 (repeat (1%nat, 255) 25)) = 175 /\
  inner_quiet (PK 177 64 (repeat (1%nat, 255) 26)) = 182 /\
  one_packet (PK 200 64 [(1%nat, 0); (3%nat, 17)]) = [LBusy; LByte 64 false; LByte 0 false; LByte 17 false; LFree].
Proof. repeat split. Qed.

(** C75: the complete receive core -- ADC ring, filters, detector, receiver, queue -- never runs into
    undefined behaviour, for every content of the DMA buffer, every 8-bit difference sample stream and
    every timing. *)
Theorem C75_receive_core_safe : forall mem e0 l, length mem = 256%nat -> Forall (fun x => -255 <= x <= 255) mem ->
  Forall (fun i => match i with Dma v => -255 <= v <= 255 | Iter _ _ => True end) l ->
  exists s s' outs, c1_start mem e0 = Ok s /\ mrun c1_step s l = Ok (s', outs).
Proof. exact c1_safe. Qed.
Print Assumptions C75_receive_core_safe.
Example C75_ex : exists s s' outs, c1_start (repeat (-255) 256) true = Ok s /\
  mrun c1_step s (Iter true true :: flat_map (fun _ => [Dma 255; Dma (-255); Iter true false; Iter true true]) (seq 0 50)) = Ok (s', outs).
Proof. eexists _, _, _. split; [vm_compute; reflexivity|]. vm_compute. reflexivity. Qed.

(** C76: every event core 1 produces is pushed in the next iteration, or the FIFO error flag is raised
    then (exactly when the queue has no room); nothing else is pushed. *)
Theorem C76_events_pushed_or_flagged : forall l s s' outs, mrun core1_loop (s, ev_none) l = Ok (s', outs) ->
  (forall e p f, nth_error outs 0 = Some (e, p, f) -> p = None /\ f = false) /\
  forall k e p f e' p' f' i, nth_error outs k = Some (e, p, f) -> nth_error outs (S k) = Some (e', p', f') ->
    nth_error l (S k) = Some i ->
     (e = ev_none -> p' = None /\ f' = false) /\
     (e <> ev_none -> if fst i then p' = Some e /\ f' = false else p' = None /\ f' = true).
Proof.
  intros l s s' outs E. destruct (core1_fifo l _ _ _ _ E) as (H0 & Hk). split; [|exact Hk].
  intros e p f Eo. destruct l as [|i t]; [cbn in E; inversion E; subst; discriminate|].
  exact (proj1 (H0 _ _ _ Eo i eq_refl) eq_refl).
Qed.
Print Assumptions C76_events_pushed_or_flagged.
(** With room at every iteration the pushed events are the produced ones, in order (the one of the last
    iteration is still pending). *)
Theorem C76_nothing_lost : forall l s s' outs, mrun core1_loop (s, ev_none) l = Ok (s', outs) ->
  Forall (fun i => fst i = true) l ->
  Forall (fun o => snd o = false) outs /\
  filter (fun e => ev_nonzero e) (map (fun o => fst (fst o)) outs) =
    flat_map (fun o => match snd (fst o) with Some e => [e] | None => [] end) outs ++ filter (fun e => ev_nonzero e) [snd s'].
Proof. intros l s s' outs E F. exact (core1_fifo_ready l _ _ _ _ E F). Qed.
Print Assumptions C76_nothing_lost.
Example C76_ex : exists k s' outs, core1_new true = Ok k /\
  mrun core1_loop (k, ev_none) [(true, SampleErr); (false, SampleErr); (true, NoSample); (true, NoSample)] = Ok (s', outs) /\
  map (fun o => (snd (fst o), snd o)) outs =
    [(None, false); (None, true); (Some (EV 0 false false false false true), false); (None, false)].
Proof. eexists _, _, _. split; [vm_compute; reflexivity|]. split; vm_compute; reflexivity. Qed.

(** C83: in every schedule of DMA transfers and loop iterations the receive core is the ADC, the decoder chain and
    the queue: exactly the values the ADC hands out unflagged go through the decoder, in order; a flagged value is
    reported instead and the ADC is reset; each iteration pushes the news of the one before, or raises the error. *)
Theorem C83_receive_loop : forall mem e0 l, length mem = 256%nat -> Forall (fun x => -255 <= x <= 255) mem ->
  Forall (fun i => match i with Dma v => -255 <= v <= 255 | Iter _ _ => True end) l ->
  exists k0 s s' outs a' rs k' evs, core1_new e0 = Ok k0 /\ c1_start mem e0 = Ok s /\ mrun c1_step s l = Ok (s', outs) /\
    mrun adc_guarded (adc_start mem firmware_gain) (map adc_part l) = Ok (a', rs) /\
    mrun core1_sample k0 (good rs) = Ok (k', evs) /\
    length (produced rs evs) = length (rooms l) /\
    iterations outs = queued ev_none (rooms l) (produced rs evs).
Proof. exact c1_decomposed. Qed.
Print Assumptions C83_receive_loop.
(** 257 samples before the first iteration: the fault is pushed by the second iteration, then samples are read again. *)
Example C83_ex : exists s s' outs, c1_start (repeat 0 256) true = Ok s /\
  mrun c1_step s (repeat (Dma 1) 257 ++ [Iter true true; Dma 1; Iter true true; Iter true true]) = Ok (s', outs) /\
  iterations outs = [(None, false); (Some adc_fault, false); (None, false)].
Proof. eexists _, _, _. split; [vm_compute; reflexivity|]. split; vm_compute; reflexivity. Qed.
