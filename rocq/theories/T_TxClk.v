(** T_TxClk.v -- property theorems C133 (the clock is read several times in one Update). *)
From Verif Require Import Base M_Message M_Tx D_Tx M_TxClk D_TxClk P_Ctrl P_Tx P_TxRun P_TxHist P_TxClk P_TxClkRun P_TxClkEcho P_TxClkTerm T_Tx.

(** C133: TxStateMachine::Update reads the clock up to five times; the readings are arbitrary here (they need not even be in order).
    (a) Every schedule with messages of 1..32 bytes is defined, and is, deadline apart, a schedule with one reading per call: the same calls, and after every
    prefix the same messages, state, offset, error flag, transmitter and amplifier, and the same answers of Error(). *)
Theorem C133_retimed : forall j1 j2 l, length j2 = 32%nat -> Forall (evc_ok 1) l ->
  exists l', map snd l' = map snd l /\
    forall k, exists s s' o, tx_run_clk j1 j2 (firstn k l) = Ok (s, o) /\ tx_run j1 j2 (firstn k l') = Ok (s', o) /\ same_but_deadline s s'.
Proof. intros j1 j2 l L F. exact (clk_retimed j1 j2 L l F). Qed.
Print Assumptions C133_retimed.

(** (b) So the amplifier is shut down exactly while the machine is idle or waits for the line (C45). *)
Theorem C133_driver_off : forall j1 j2 l t h o, length j2 = 32%nat -> Forall (evc_ok 1) l -> tx_run_clk j1 j2 l = Ok ((t, h), o) ->
  (hw_shutdown h = true <-> t_st t = T_IDLE \/ t_st t = T_WAIT_LINEFREE).
Proof.
  intros j1 j2 l t h o L F E. destruct (clk_inv j1 j2 L l t h o F E) as (w & I). split; [|apply (iv_off _ _ I)].
  intros H. pose proof (iv_on _ _ I) as O'. cbn in O'. destruct (t_st t); auto; exfalso; rewrite O' in H by discriminate; discriminate.
Qed.
Print Assumptions C133_driver_off.

(** (c) A message is handed over only by an Update that sees the line free; an earlier Update saw it free with nothing being transmitted and every Update in between
    saw it free; TimedOut()'s reading is at least 32 ms later than the reading with which that earlier Update armed the timer, after switching the amplifier on (C46). *)
Theorem C133_free_line : forall j1 j2 l r ev t h o t' h' o', length j2 = 32%nat -> Forall (evc_ok 1) (l ++ [(r, ev)]) ->
  tx_run_clk j1 j2 l = Ok ((t, h), o) -> tx_run_clk j1 j2 (l ++ [(r, ev)]) = Ok ((t', h'), o') ->
  (length (hw_dma h) < length (hw_dma h'))%nat ->
  hw_dma h' = tx_bytes (t_tx t) /\
  exists re rv c la r0 re0 rv0 c0 lb s0 o0, ev = Update false re rv c /\ l = la ++ (r0, Update false re0 rv0 c0) :: lb /\
    tx_run_clk j1 j2 la = Ok (s0, o0) /\ hw_transmitting (snd s0) = false /\ Forall saw_free_clk lb /\ r_enter r0 + 32000 <= r_timedout r.
Proof. intros j1 j2 l r ev t h o t' h' o' L. exact (clk_start j1 j2 L l r ev t h o t' h' o'). Qed.
Print Assumptions C133_free_line.

(** (d) From an accepted WakeAndTransmit(m) until the machine is idle again the message is m (C49), and if no error is reported then m was handed over and exactly its
    bytes were received afterwards, without a receive error, the line being held (C47). *)
Theorem C133_echo : forall j1 j2 l1 rw m l2 t h o, length j2 = 32%nat ->
  Forall (evc_ok 1) (l1 ++ [(rw, Wake m)]) -> Forall (evc_ok 1) l2 ->
  (exists s o, tx_run_clk j1 j2 l1 = Ok (s, o) /\ tx_is_idle (fst s) = true) ->
  busy_during_clk j1 j2 (l1 ++ [(rw, Wake m)]) l2 ->
  tx_run_clk j1 j2 ((l1 ++ [(rw, Wake m)]) ++ l2) = Ok ((t, h), o) ->
  t_tx t = m /\
  (tx_is_idle t = true -> t_err t = false -> ~ In (Some true) (skipn (length (l1 ++ [(rw, Wake m)])) o) ->
   exists ha hb hc, l2 = ha ++ hb ++ hc /\ handed_over_clk j1 j2 ((l1 ++ [(rw, Wake m)]) ++ ha) (tx_bytes m) /\
    echoes (untimed hb) = tx_bytes m /\ no_rx_error (untimed hb) /\ line_held (untimed hb)).
Proof. intros j1 j2 l1 rw m l2 t h o L. exact (clk_echo j1 j2 L l1 rw m l2 t h o). Qed.
Print Assumptions C133_echo.

(** (e) After an Update the machine is idle; or in the state it was in, the deadline of which was still ahead when the clock was read for it; or in a state entered
    in this Update, its deadline at most 34 ms after the reading that armed it (C48). *)
Theorem C133_no_state_held : forall j1 j2 l r busy re rv c t h o t' h' o',
  tx_run_clk j1 j2 l = Ok ((t, h), o) -> tx_run_clk j1 j2 (l ++ [(r, Update busy re rv c)]) = Ok ((t', h'), o') ->
  tx_is_idle t' = true \/
  (t_st t' = t_st t /\ t_wait t' = t_wait t /\ (if match t_st t with T_WAIT_POWERON => true | _ => false end then r_timedout r else r_error r) < t_wait t) \/
  (exists n, In n [r_enter r; r_next r; r_collision r] /\ t_wait t' = n + timeout_for (t_st t') /\ timeout_for (t_st t') <= 34000).
Proof. intros j1 j2. exact (clk_held j1 j2). Qed.
Print Assumptions C133_no_state_held.

(** If Updates start at most g apart and none takes longer than e, then by the first Update that starts 72 ms + 4 ms per byte + g + e per byte + 3 e after the clock
    reading of WakeAndTransmit, the machine has been idle again. *)
Theorem C133_terminates : forall j1 j2 l1 rw m g e l2 r busy re rv c, length j2 = 32%nat -> Forall (evc_ok 1) (l1 ++ [(rw, Wake m)]) ->
  (exists s o, tx_run_clk j1 j2 l1 = Ok (s, o) /\ tx_is_idle (fst s) = true) -> 0 <= g -> 0 <= e ->
  Forall (evc_ok 1) (l2 ++ [(r, Update busy re rv c)]) ->
  updates_every_clk g e (r_enter rw) (l2 ++ [(r, Update busy re rv c)]) ->
  r_enter rw + 72000 + 4000 * Z.of_nat (m_length m) + g + e * (Z.of_nat (m_length m) + 3) <= r_error r ->
  exists p q, l2 ++ [(r, Update busy re rv c)] = p ++ q /\ p <> [] /\
    exists s o, tx_run_clk j1 j2 ((l1 ++ [(rw, Wake m)]) ++ p) = Ok (s, o) /\ tx_is_idle (fst s) = true.
Proof. intros j1 j2 l1 rw m g e l2 r busy re rv c L Fb S0 Hg He. exact (clk_terminates j1 j2 L g e Hg He l1 rw m Fb S0 l2 r busy re rv c). Qed.
Print Assumptions C133_terminates.

(** (f) With equal readings it is the model of M_Tx. *)
Theorem C133_one_reading : forall p n t h busy re rv c, tx_update_clk p (one_reading n) t h busy re rv c = tx_update p n t h busy re rv c.
Proof. exact update_clk_one. Qed.
Print Assumptions C133_one_reading.

(** A transmission in which every Update takes up to 40 us: the power-on wait starts at 100 + 30 and ends at an Update whose TimedOut() reads 32131. *)
Definition clk_sched : list (readings * tx_ev) :=
  let at_ n := RD n (n + 11) (n + 30) (n + 35) (n + 40) in
  [(at_ 0, Wake ex_msg); (at_ 100, Update false false false 0); (at_ 32118, Update false false false 0);
   (at_ 32120, Update false false false 0); (at_ 32200, Hw HwDma); (at_ 32300, Hw HwPull); (at_ 32310, Hw HwStart); (at_ 32400, Update true false false 0);
   (at_ 33000, Update true false true 64); (at_ 33050, Hw HwDone); (at_ 33100, Hw HwDma); (at_ 33200, Hw HwPull); (at_ 33210, Hw HwStart); (at_ 34200, Update true false true 7);
   (at_ 34300, Hw HwDone); (at_ 35000, Update true false false 0); (at_ 36000, Update false false false 0)].
Example C133_ex : Forall (evc_ok 1) clk_sched /\
  (exists t h o, tx_run_clk ex_junk ex_junk (firstn 3 clk_sched) = Ok ((t, h), o) /\ t_st t = T_WAIT_POWERON /\ t_wait t = 32130) /\
  (exists t h o, tx_run_clk ex_junk ex_junk (firstn 4 clk_sched) = Ok ((t, h), o) /\ t_st t = T_STARTED /\ hw_dma h = [64; 7]) /\
  (exists t h o, tx_run_clk ex_junk ex_junk clk_sched = Ok ((t, h), o) /\ tx_is_idle t = true /\ t_err t = false).
Proof. split; [unfold clk_sched; sched_ok|]. split; [|split]; ex_solve. Qed.
(** Its Updates are at most 32018 us apart and take at most 40 us; extended by Updates up to the bound (2 bytes: 112218 us), it is a schedule C133_terminates speaks of. *)
Example C133_terminates_ex : let at_ n := RD n (n + 11) (n + 30) (n + 35) (n + 40) in
  let l2 := skipn 1 clk_sched ++ [(at_ 60000, Update false false false 0); (at_ 90000, Update false false false 0)] ++ [(at_ 112300, Update false false false 0)] in
  Forall (evc_ok 1) l2 /\ updates_every_clk 32018 40 30 l2 /\ 30 + 72000 + 4000 * 2 + 32018 + 40 * (2 + 3) <= 112300.
Proof.
  cbn zeta. split; [unfold clk_sched; cbn [skipn app]; sched_ok|]. split; [|lia].
  unfold clk_sched. cbn [skipn app updates_every_clk r_error r_timedout r_enter r_next r_collision].
  repeat lazymatch goal with |- _ /\ _ => split | |- Forall _ _ => repeat constructor; lia | |- True => exact I | |- _ => lia end.
Qed.
