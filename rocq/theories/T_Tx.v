(** T_Tx.v -- property theorems C45..C52, C73 (transmit state machine). *)
From Verif Require Import Base M_Message M_Tx D_Tx P_Tx P_TxRun P_TxHist.

(** A transmission used in the examples: two bytes, echoed, no error. *)
Definition ex_msg : message := MSG 0 0 ([64; 7] ++ repeat 0 30) 2.
Definition ex_sched : list (Z * tx_ev) :=
  [(0, Wake ex_msg); (100, Update false false false 0); (20000, Update false false false 0);
   (32100, Update false false false 0); (32200, Hw HwDma); (32300, Hw HwPull); (32310, Hw HwStart); (32400, Update true false false 0);
   (33000, Update true false true 64); (33050, Hw HwDone); (33100, Hw HwDma); (33200, Hw HwPull); (33210, Hw HwStart); (34200, Update true false true 7);
   (34300, Hw HwDone); (35000, Update true false false 0); (36000, Update false false false 0)].
Definition ex_junk : list Z := repeat 0 32.
Lemma ex_msg_ok : tx_msg_ok ex_msg /\ (1 <= m_length ex_msg)%nat.
Proof. split; [|cbn; lia]. split; [reflexivity|]. split; [cbn; lia|]. repeat constructor; lia. Qed.
Ltac sched_ok := repeat (constructor; [first [exact ex_msg_ok | exact I | cbn; lia]|]); constructor.

(** C45: in every reachable state that is idle or waiting for the line, the amplifier is shut down;
    in every other state it is on. *)
Theorem C45_driver_off : forall j1 j2 l t h o,
  length j2 = 32%nat -> Forall (ev_ok 1) l -> tx_run j1 j2 l = Ok ((t, h), o) ->
  (hw_shutdown h = true <-> t_st t = T_IDLE \/ t_st t = T_WAIT_LINEFREE).
Proof.
  intros j1 j2 l t h o L F E. pose proof (run_inv_eq _ _ _ _ _ _ L F E) as I. split; [|apply (iv_off _ _ I)].
  intros H. pose proof (iv_on _ _ I) as O. destruct (t_st t); auto; exfalso; rewrite O in H by discriminate; discriminate.
Qed.
Print Assumptions C45_driver_off.
Example C45_ex : exists t h o, tx_run ex_junk ex_junk (firstn 4 ex_sched) = Ok ((t, h), o) /\ t_st t = T_STARTED /\ hw_shutdown h = false.
Proof. ex_solve. Qed.

(** C46: whenever an event gives the transmitter data, it is an Update that sees the line free, the data
    is the message of the running transmission, and there was an earlier Update, at least 32 ms before,
    that saw the line free with nothing being transmitted, and every Update in between saw it free. *)
Theorem C46_free_line : forall j1 j2 l now ev t h o t' h' o',
  length j2 = 32%nat -> Forall (ev_ok 1) (l ++ [(now, ev)]) ->
  tx_run j1 j2 l = Ok ((t, h), o) -> tx_run j1 j2 (l ++ [(now, ev)]) = Ok ((t', h'), o') ->
  (length (hw_dma h) < length (hw_dma h'))%nat ->
  hw_dma h' = tx_bytes (t_tx t) /\
  exists re rv c la t0 re0 rv0 c0 lb s0 o0, ev = Update false re rv c /\ l = la ++ (t0, Update false re0 rv0 c0) :: lb /\
    tx_run j1 j2 la = Ok (s0, o0) /\ hw_transmitting (snd s0) = false /\ Forall saw_free lb /\ t0 + 32000 <= now.
Proof. exact start_on_free_line. Qed.
Print Assumptions C46_free_line.
Example C46_ex : exists t h o t' h' o', tx_run ex_junk ex_junk (firstn 3 ex_sched) = Ok ((t, h), o) /\
  tx_run ex_junk ex_junk (firstn 4 ex_sched) = Ok ((t', h'), o') /\ hw_dma h = [] /\ hw_dma h' = [64; 7].
Proof. ex_solve. Qed.

(** C47: take any transmission of a message m (of 1..32 bytes) started when the machine was idle, up to
    its first return to idle (after l2).  If the error flag is not set then and no Error() call returned
    true meanwhile, then m was handed to the empty transmitter (after ha) and afterwards (in hb) the bytes received
    are exactly the bytes of m, no receive error was seen, and the line was seen busy without interruption. *)
Theorem C47_echo : forall j1 j2 l1 tw m l2 t h o,
  length j2 = 32%nat -> Forall (ev_ok 1) (l1 ++ [(tw, Wake m)]) -> Forall (ev_ok 1) l2 ->
  (exists s o, tx_run j1 j2 l1 = Ok (s, o) /\ tx_is_idle (fst s) = true) ->
  busy_during j1 j2 (l1 ++ [(tw, Wake m)]) l2 ->
  tx_run j1 j2 ((l1 ++ [(tw, Wake m)]) ++ l2) = Ok ((t, h), o) -> tx_is_idle t = true ->
  t_err t = false -> ~ In (Some true) (skipn (length (l1 ++ [(tw, Wake m)])) o) ->
  exists ha hb hc, l2 = ha ++ hb ++ hc /\ handed_over j1 j2 ((l1 ++ [(tw, Wake m)]) ++ ha) (tx_bytes m) /\
    echoes hb = tx_bytes m /\ no_rx_error hb /\ line_held hb.
Proof.
  intros j1 j2 l1 tw m l2 t h o L Fb F S B E Hi He Hn.
  destruct (track_run j1 j2 l1 tw m L Fb S l2 F B t h o E) as (_ & _ & T).
  unfold tx_is_idle in Hi. destruct (t_st t) eqn:Es; try discriminate. destruct T as [[T|T]|T]; [congruence|contradiction|exact T].
Qed.
Print Assumptions C47_echo.
Example C47_ex : exists t h o, tx_run ex_junk ex_junk ([] ++ [(0, Wake ex_msg)] ++ skipn 1 ex_sched) = Ok ((t, h), o) /\
  tx_is_idle t = true /\ t_err t = false /\ echoes (skipn 4 ex_sched) = tx_bytes ex_msg.
Proof. ex_solve. Qed.
(** A mismatch (here: 64 comes back as 65) ends with the error flag set. *)
Example C47_ex_bad : exists t h o, tx_run ex_junk ex_junk (firstn 8 ex_sched ++ [(33000, Update true false true 65); (36000, Update false false false 0)]) = Ok ((t, h), o) /\
  tx_is_idle t = true /\ t_err t = true /\ m_status (t_rx t) = 21.
Proof. ex_solve. Qed.

(** C48: if Updates come at least every g microseconds, then by the first Update at or after
    72 ms + 4 ms per byte + g after the start, the machine has been idle again. *)
Theorem C48_terminates : forall j1 j2 l1 tw m g l2 u busy re rv c,
  length j2 = 32%nat -> Forall (ev_ok 1) (l1 ++ [(tw, Wake m)]) ->
  (exists s o, tx_run j1 j2 l1 = Ok (s, o) /\ tx_is_idle (fst s) = true) -> 0 <= g ->
  Forall (ev_ok 1) (l2 ++ [(u, Update busy re rv c)]) ->
  updates_every g tw (l2 ++ [(u, Update busy re rv c)]) ->
  tw + 72000 + 4000 * Z.of_nat (m_length m) + g <= u ->
  exists p q, l2 ++ [(u, Update busy re rv c)] = p ++ q /\ p <> [] /\
    exists s o, tx_run j1 j2 ((l1 ++ [(tw, Wake m)]) ++ p) = Ok (s, o) /\ tx_is_idle (fst s) = true.
Proof. intros. eapply terminates; eauto. Qed.
Print Assumptions C48_terminates.
(** ... and no state outlives its own timeout: after any Update the machine is idle or in a state whose
    deadline is still ahead, a deadline set to at most 34 ms after the state was entered. *)
Theorem C48_no_state_held : forall j1 j2 l now busy re rv c t h o t' h' o',
  length j2 = 32%nat -> Forall (ev_ok 1) (l ++ [(now, Update busy re rv c)]) ->
  tx_run j1 j2 l = Ok ((t, h), o) -> tx_run j1 j2 (l ++ [(now, Update busy re rv c)]) = Ok ((t', h'), o') ->
  tx_is_idle t' = true \/
  (now < t_wait t' /\ ((t_st t' = t_st t /\ t_wait t' = t_wait t) \/ t_wait t' = now + timeout_for (t_st t')) /\ timeout_for (t_st t') <= 34000).
Proof. exact no_state_held. Qed.
Print Assumptions C48_no_state_held.
Example C48_ex : exists t h o, tx_run ex_junk ex_junk [(0, Wake ex_msg); (100, Update false false false 0); (32100, Update false false false 0);
  (32400, Update true false false 0); (33000, Update true false true 64); (37000, Update true false false 0)] = Ok ((t, h), o) /\
  tx_is_idle t = true /\ t_err t = true /\ hw_shutdown h = true /\
  updates_every 32000 0 [(100, Update false false false 0); (32100, Update false false false 0)] .
Proof. do 3 eexists. split; [vm_compute; reflexivity|]. split; [reflexivity|]. split; [reflexivity|]. split; [reflexivity|]. cbn. lia. Qed.

(** C49: WakeAndTransmit on a machine that is not idle has no effect at all ... *)
Theorem C49_wake_ignored : forall now t h m, tx_is_idle t = false -> tx_wake now t h m = Ok (t, h).
Proof. intros now t h m H. unfold tx_wake. rewrite H. reflexivity. Qed.
Print Assumptions C49_wake_ignored.
(** ... and from an accepted WakeAndTransmit(m) until the machine is idle again, whatever happens
    (including further WakeAndTransmit calls), the message being transmitted is m. *)
Theorem C49_message_stable : forall j1 j2 l1 tw m l2 t h o,
  length j2 = 32%nat -> Forall (ev_ok 1) (l1 ++ [(tw, Wake m)]) -> Forall (ev_ok 1) l2 ->
  (exists s o, tx_run j1 j2 l1 = Ok (s, o) /\ tx_is_idle (fst s) = true) ->
  busy_during j1 j2 (l1 ++ [(tw, Wake m)]) l2 ->
  tx_run j1 j2 ((l1 ++ [(tw, Wake m)]) ++ l2) = Ok ((t, h), o) -> t_tx t = m.
Proof. intros j1 j2 l1 tw m l2 t h o L Fb F S B E. apply (track_run j1 j2 l1 tw m L Fb S l2 F B t h o E). Qed.
Print Assumptions C49_message_stable.
Example C49_ex : exists t h o, tx_run ex_junk ex_junk (firstn 5 ex_sched ++ [(32250, Wake (MSG 0 0 (repeat 9 32) 5))]) = Ok ((t, h), o) /\
  t_tx t = ex_msg /\ hw_dma h = [7] /\ hw_txf h = [64].
Proof. ex_solve. Qed.

(** C50 is false for every collision: when the byte that comes back differs from the byte sent, the
    status reported is 21 (decimal), which is not the documented bus collision code 1. *)
Theorem C50_status_refuted : forall j1 j2 l now busy c t h o t' h' o' b,
  length j2 = 32%nat -> Forall (ev_ok 1) (l ++ [(now, Update busy false true c)]) ->
  tx_run j1 j2 l = Ok ((t, h), o) -> tx_run j1 j2 (l ++ [(now, Update busy false true c)]) = Ok ((t', h'), o') ->
  t_st t = T_STARTED \/ (t_st t = T_CHECK_DATA /\ busy = true) -> now < t_wait t ->
  nth_error (tx_bytes (t_tx t)) (Z.to_nat (t_off t)) = Some b -> b <> c ->
  m_status (t_rx t') = 21 /\ m_status (t_rx t') <> STATUS_ERR_BUS_COLLISION.
Proof. exact collision_status. Qed.
Print Assumptions C50_status_refuted.
(** What does hold: the collision is detected, the error flag is set, the transmitter is emptied. *)
Theorem C50_detected_partial : forall j1 j2 l now busy c t h o t' h' o' b,
  length j2 = 32%nat -> Forall (ev_ok 1) (l ++ [(now, Update busy false true c)]) ->
  tx_run j1 j2 l = Ok ((t, h), o) -> tx_run j1 j2 (l ++ [(now, Update busy false true c)]) = Ok ((t', h'), o') ->
  t_st t = T_STARTED \/ (t_st t = T_CHECK_DATA /\ busy = true) -> now < t_wait t ->
  nth_error (tx_bytes (t_tx t)) (Z.to_nat (t_off t)) = Some b -> b <> c ->
  t_err t' = true /\ t_st t' = T_WAIT_IDLE /\ hw_dma h' = [] /\ hw_txf h' = [].
Proof. exact collision_detected. Qed.
Print Assumptions C50_detected_partial.
Example C50_ex : exists t h o t' h' o', tx_run ex_junk ex_junk (firstn 8 ex_sched) = Ok ((t, h), o) /\
  tx_run ex_junk ex_junk (firstn 8 ex_sched ++ [(33000, Update true false true 65)]) = Ok ((t', h'), o') /\
  t_st t = T_CHECK_DATA /\ nth_error (tx_bytes (t_tx t)) (Z.to_nat (t_off t)) = Some 64 /\ t_err t' = true /\ m_status (t_rx t') = 21.
Proof. ex_solve. Qed.

(** C51 is false for a message of Length 0: once started it never compares equal to its length, and
    the 33rd echoed byte is compared with memory behind the message. *)
Theorem C51_memory_refuted : exists l, Forall (ev_ok 0) l /\ tx_run ex_junk ex_junk l = UB OutOfBounds.
Proof.
  exists ([(0, Wake (MSG 0 0 (repeat 0 32) 0)); (100, Update false false false 0); (32100, Update false false false 0)] ++
     repeat (32200, Update true false true 0) 33).
  split; [|vm_compute; reflexivity].
  apply Forall_app. split.
  - constructor; [|repeat constructor; cbn; lia]. split; [split; [reflexivity|split; [cbn; lia|]]|cbn; lia]. cbn [m_data]. apply Forall_forall. intros x H. apply repeat_spec in H. lia.
  - apply Forall_forall. intros x H. apply repeat_spec in H. subst. cbn. lia.
Qed.
Print Assumptions C51_memory_refuted.
(** With messages of 1..32 bytes every schedule is defined. *)
Theorem C51_memory_partial : forall j1 j2 l, length j2 = 32%nat -> Forall (ev_ok 1) l -> exists s o, tx_run j1 j2 l = Ok (s, o).
Proof. intros j1 j2 l L F. destruct (run_inv j1 j2 l L F) as (t & h & o & E & _). eauto. Qed.
Print Assumptions C51_memory_partial.
Example C51_ex : Forall (ev_ok 1) ex_sched /\ exists s o, tx_run ex_junk ex_junk ex_sched = Ok (s, o).
Proof.
  split; [|ex_solve]. unfold ex_sched. sched_ok.
Qed.

(** C52 is false: a timeout while data is being sent returns to idle with bytes still queued. *)
Theorem C52_queue_refuted : exists l t h o, Forall (ev_ok 1) l /\ tx_run ex_junk ex_junk l = Ok ((t, h), o) /\
  tx_is_idle t = true /\ t_err t = true /\ hw_dma h <> [] /\ hw_txf h <> [].
Proof.
  exists (firstn 5 ex_sched ++ [(39000, Update false false false 0)]). eexists _, _, _.
  split. { cbn [firstn ex_sched app]. sched_ok. }
  split; [vm_compute; reflexivity|]. split; [reflexivity|]. split; [reflexivity|]. split; discriminate.
Qed.
Print Assumptions C52_queue_refuted.
(** Such a leftover byte can be on the line while the amplifier is already powered up for the next message: the byte left in the FIFO is pulled
    (p1p2_uart_tx.pio:28) and in the one PIO cycle before [irq set] (:31) Transmitting() answers "no" (uart_pio.cpp:49-53), so WAIT_LINEFREE ends. *)
Definition leftover_sched : list (Z * tx_ev) :=
  [(0, Wake (MSG 0 0 ([64] ++ repeat 0 31) 1)); (100, Update false false false 0); (32100, Update false false false 0); (32200, Hw HwDma);
   (39000, Update false false false 0); (39100, Wake ex_msg); (39200, Hw HwPull); (39201, Update false false false 0); (39210, Hw HwStart)].
Theorem C52_leftover_refuted : exists t h o, Forall (ev_ok 1) leftover_sched /\ tx_run ex_junk ex_junk leftover_sched = Ok ((t, h), o) /\ t_st t = T_WAIT_POWERON /\ t_tx t = ex_msg /\ hw_shutdown h = false /\ hw_sm h = SmShifting.
Proof.
  eexists _, _, _. split.
  { unfold leftover_sched. constructor; [split; [split; [reflexivity|split; [cbn; lia|repeat constructor; lia]]|cbn; lia]|]. sched_ok. }
  split; [vm_compute; reflexivity|]. repeat (split; [reflexivity|]). reflexivity.
Qed.
Print Assumptions C52_leftover_refuted.
(** What does hold: when the machine becomes idle from WAIT_IDLE (success, collision, receive error)
    nothing is queued; the queued leftover of an abort never mixes with a later message: whenever the
    amplifier is powered up before sending, DMA and FIFO are empty and no byte is being sent at that moment
    (one may have been pulled, see C52_leftover_refuted); the message is handed over only after 32 ms in that state. *)
Theorem C52_queue_partial : forall j1 j2 l e t h o t' h' o',
  length j2 = 32%nat -> Forall (ev_ok 1) (l ++ [e]) ->
  tx_run j1 j2 l = Ok ((t, h), o) -> tx_run j1 j2 (l ++ [e]) = Ok ((t', h'), o') ->
  (t_st t = T_WAIT_IDLE -> tx_is_idle t' = true -> hw_dma h' = [] /\ hw_txf h' = []) /\
  (t_st t = T_WAIT_POWERON -> hw_dma h = [] /\ hw_txf h = []) /\
  (t_st t = T_WAIT_LINEFREE -> t_st t' = T_WAIT_POWERON -> hw_sm h' <> SmShifting) /\
  ((length (hw_dma h) < length (hw_dma h'))%nat -> t_st t = T_WAIT_POWERON /\ hw_txf h' = []).
Proof. exact queue_clean. Qed.
Print Assumptions C52_queue_partial.
Example C52_ex : exists t h o, tx_run ex_junk ex_junk ex_sched = Ok ((t, h), o) /\ tx_is_idle t = true /\ hw_dma h = [] /\ hw_txf h = [].
Proof. ex_solve. Qed.

(** C73: the transmitter's own error flag ("new data while old data is waiting", "too long") can never
    be raised by the state machine. *)
Theorem C73_no_tx_overrun : forall j1 j2 l t h o,
  length j2 = 32%nat -> Forall (ev_ok 1) l -> tx_run j1 j2 l = Ok ((t, h), o) -> hw_error h = false.
Proof. intros j1 j2 l t h o L F E. apply (iv_err _ _ (run_inv_eq _ _ _ _ _ _ L F E)). Qed.
Print Assumptions C73_no_tx_overrun.
(** Non-vacuity: a second Send while data is waiting would raise it. *)
Example C73_ex : exists h h', hw_send hw_new ex_msg = Ok h /\ hw_send h ex_msg = Ok h' /\ hw_error h' = true.
Proof. ex_solve. Qed.
