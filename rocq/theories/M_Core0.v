(** M_Core0.v -- model of core0_entry (pico/src/main.cpp:205-343): one iteration of while(1).
    Simplifications: [now] (microseconds) is constant during one iteration; interrupts do not
    preempt the iteration (see M_HostIrq.v for those); sleeping (best_effort_wfe_or_timeout) only
    delays the next iteration. *)
From Verif Require Import Base M_Fifo M_Message M_Standalone M_Tx M_HostUart M_Led M_Core1.

Definition LINE_BUSY_TIMEOUT_MS : Z := 500.    (* defines.hpp:31 *)

(** main.cpp:206-211 locals + the global objects used by core0. *)
Record core0 : Set := C0 {
  z_rx : message;            (* RxMsg *)
  z_busy : bool;             (* LineIsBusy *)
  z_since : Z;               (* LineBusySinceMsec, uint32_t *)
  z_sm : txsm; z_hw : pio_hw;
  z_ctrl : ctrl; z_host : host; z_led : ledmgr;
  z_ev : event }.            (* Core1Data: the value left from the previous iteration *)

(** main.cpp:206-217.  [ev0]: Core1Data is uninitialised before the first event. *)
Definition core0_new (now : Z) (hw : pio_hw) (host : host) (led : ledmgr) (c : ctrl)
    (j1 j2 j3 : list Z) (ev0 : event) : core0 :=
  let '(sm, h) := tx_new hw j1 j2 in
  C0 (msg_new j3) true (ms_since_boot now) sm h c host led ev0.

(** Everything the outside world contributes to one iteration. *)
Record inp0 : Set := IN0 {
  in_now : Z;                (* microseconds since boot *)
  in_chars : list Z;         (* characters available from the host *)
  in_budget : nat;           (* how many characters the host UART takes per pump *)
  in_fifoerr : bool;         (* FifoErr as set by core1 *)
  in_event : option event;   (* multicore_fifo_rvalid() / pop *)
  in_hw : list hw_event;     (* transmit hardware activity before the iteration *)
  in_ticks : list bool;      (* LED timers that fired before the iteration: true = 500 ms, false = 100 ms *)
  in_junk : list Z }.        (* indeterminate bytes of local Message objects *)

(** The calls an iteration makes, in program order, with arguments and results.  They only record
    what the code below does; the state never depends on them. *)
Inductive reason : Set := R_timeout | R_fifo | R_txfail | R_packet | R_full.
Inductive act : Set :=
| A_hw (e : hw_event)                                  (* hardware, before the iteration     *)
| A_led (e : led_event)                                (* LED timers and LedManager calls    *)
| A_check (budget : nat) (junk cs out : list Z)        (* hostUart.Check()                   *)
| A_ctrl_check                                         (* ctrl.Check()                       *)
| A_error (b : bool)                                   (* SM.Error() returned b              *)
| A_report (why : reason) (budget : nat) (m m' : message) (out : list Z)
                                                       (* hostUart.UpdateAndSend(m), m' sent *)
| A_clear (time : Z)                                   (* SM.RxMsg.Clear(), its Time         *)
| A_collision                                          (* ctrl.BusCollision()                *)
| A_receive (m : message)                              (* ctrl.Receive(&m)                   *)
| A_pop (junk : list Z) (m : message)                  (* hostUart.Pop() returned m          *)
| A_answer (out m : message)                           (* ctrl.TxAnswer(&out) made it m      *)
| A_wake (m : message)                                 (* SM.WakeAndTransmit(m)              *)
| A_update (busy rxerr rxvalid : bool) (c : Z).        (* SM.Update(...)                     *)

Definition set_status (m : message) (s : Z) : message := MSG s (m_time m) (m_data m) (m_length m).

(** hostUart.UpdateAndSend(m) with its log entry. *)
Definition report (why : reason) (now : Z) (budget : nat) (h : host) (m : message)
  : res (host * message * list act) :=
  let* (h', m', out) := host_update_and_send now budget h m in
  Ok (h', m', [A_report why budget m m' out]).
(** LED calls. *)
Definition led_calls (led : ledmgr) (es : list led_event) : ledmgr * list act :=
  (fold_left lm_step es led, map A_led es).
Definition led_ticks (ts : list bool) : list led_event := map (fun b : bool => if b then EvTick500 else EvTick100) ts.

(** main.cpp:229-234: LED update at the loop head; uart_tx.Error() is only read when neither
    IsTransmitting nor FifoErr. *)
Definition led_head (sm : txsm) (hw : pio_hw) (ferr txfail : bool) : pio_hw * list led_event :=
  if tx_is_transmitting sm then (hw, [EvActivityTx])
  else
    if ferr then (hw, [EvInternalError])
    else
      let '(hw', e) := hw_read_error hw in
      if e then (hw', [EvInternalError])
      else if txfail then (hw', [EvErrorTx]) else (hw', []).

(** main.cpp:237-245 *)
Definition busy_timeout (now : Z) (busy : bool) (since : Z) : bool :=
  busy && (u32 (since + LINE_BUSY_TIMEOUT_MS) <? ms_since_boot now).

(** main.cpp:271-278: merge an event into RxMsg. *)
Definition merge_event (rx : message) (e : event) : res message :=
  if ev_dadc e then Ok (set_status rx STATUS_ERR_OVERFLOW)
  else if ev_error e then msg_append (set_status rx STATUS_ERR_PARITY) (ev_char e)
  else if ev_valid e then msg_append rx (ev_char e)
  else Ok rx.

(** main.cpp:281-290: packet end. *)
Definition packet_end (now : Z) (budget : nat) (e : event) (rx : message) (c : ctrl) (h : host)
  : res (message * ctrl * host * list act) :=
  if ev_free e && ((0 <? m_length rx)%nat || negb (m_status rx =? 0)) then
    let* c' := ctrl_receive c rx in
    let* (h', rx', l) := report R_packet now budget h rx in
    Ok (msg_clear rx', c', h', A_receive rx :: l)
  else Ok (rx, c, h, []).

(** main.cpp:292-296: RxMsg full. *)
Definition packet_overflow (now : Z) (budget : nat) (rx : message) (h : host)
  : res (message * host * list act) :=
  if msg_overflow rx then
    let* (h', rx', l) := report R_full now budget h (set_status rx STATUS_ERR_OVERFLOW) in
    Ok (msg_clear rx', h', l)
  else Ok (rx, h, []).

(** main.cpp:299-304 *)
Definition line_state (now : Z) (e : event) (busy : bool) (since : Z) : bool * Z :=
  if ev_free e && busy then (false, since)
  else if ev_busy e && negb busy then (true, ms_since_boot now)
  else (busy, since).

(** main.cpp:307-314 *)
Definition led_event_part (e : event) : list led_event :=
  (if ev_error e then [EvErrorRx] else if ev_valid e then [EvActivityRx] else []) ++
  (if ev_dadc e then [EvInternalError] else []).

(** main.cpp:326-336: start a transmission when the state machine is idle. *)
Definition transmit_part (now : Z) (junk : list Z) (sm : txsm) (hw : pio_hw) (c : ctrl) (h : host)
  : res (txsm * pio_hw * ctrl * host * list act) :=
  if tx_is_idle sm then
    if host_has_data h then
      let* (h', m) := host_pop junk h in
      let* (sm', hw') := tx_wake now sm hw m in
      Ok (sm', hw', c, h', [A_pop junk m; A_wake m])
    else if ctrl_has_tx c then
      let* (c', m) := ctrl_tx_answer c (msg_new junk) in
      let* (sm', hw') := tx_wake now sm hw m in
      Ok (sm', hw', c', h, [A_answer (msg_new junk) m; A_wake m])
    else Ok (sm, hw, c, h, [])
  else Ok (sm, hw, c, h, []).

(** main.cpp:257-265: a failed transmission. *)
Definition failure_part (now : Z) (bud : nat) (txfail : bool) (sm : txsm) (h : host) (c : ctrl)
  : res (txsm * host * ctrl * list act) :=
  if txfail then
    let* (sm', h', l) :=
      if negb (m_status (t_rx sm) =? STATUS_ERR_PARITY) then
        let* (h', rx', l) := report R_txfail now bud h (t_rx sm) in
        Ok (tx_clear_rx sm (m_time rx'), h', l ++ [A_clear (m_time rx')])
      else Ok (sm, h, []) in
    let* own := is_tx_answer c (t_tx sm') in
    Ok (sm', h', if own then ctrl_bus_collision now c else c, l ++ if own then [A_collision] else [])
  else Ok (sm, h, c, []).

(** main.cpp:325-341: the tail of the loop body, SM fed with the event [e]. *)
Definition tail_part (p : platform) (now : Z) (junk : list Z) (sm : txsm) (hw : pio_hw) (c : ctrl) (h : host)
    (busy : bool) (e : event) : res (txsm * pio_hw * ctrl * host * list act) :=
  let* (sm9, hw9, c9, h9, l) := transmit_part now junk sm hw c h in
  let* (sm10, hw10) := tx_update p now sm9 hw9 busy (ev_error e) (ev_valid e) (ev_char e) in
  Ok (sm10, hw10, c9, h9, l ++ [A_update busy (ev_error e) (ev_valid e) (ev_char e)]).

(** main.cpp:219-342 -- one iteration; the returned list is the log of calls. *)
Definition core0_iter (p : platform) (s : core0) (i : inp0) : res (core0 * list act) :=
  let now := in_now i in
  let bud := in_budget i in
  let hw0 := fold_left hw_step (in_hw i) (z_hw s) in
  let '(led0, l0) := led_calls (z_led s) (led_ticks (in_ticks i)) in
  (* 222-226 *)
  let* (h1, o1) := host_check p now (in_junk i) bud (in_chars i) (z_host s) in
  let c1 := ctrl_check now (z_ctrl s) in
  let '(sm1, txfail) := tx_error (z_sm s) in
  (* 229-234 *)
  let '(hw1, es1) := led_head sm1 hw0 (in_fifoerr i) txfail in
  let '(led1, l1) := led_calls led0 es1 in
  let la := map A_hw (in_hw i) ++ l0 ++ [A_check bud (in_junk i) (in_chars i) o1; A_ctrl_check; A_error txfail] ++ l1 in
  (* 237-245 *)
  let* (rx2, since2, h2, led2, l2) :=
    if busy_timeout now (z_busy s) (z_since s) then
      let* (h', rx', l) := report R_timeout now bud h1 (set_status (z_rx s) STATUS_ERR_NO_FRAMING) in
      Ok (msg_clear rx', ms_since_boot now, h', lm_step led1 EvInternalError, A_led EvInternalError :: l)
    else Ok (z_rx s, z_since s, h1, led1, []) in
  (* 248-254 *)
  let* (rx3, h3, l3) :=
    if in_fifoerr i then
      let* (h', rx', l) := report R_fifo now bud h2 (set_status rx2 STATUS_ERR_OVERFLOW) in
      Ok (msg_clear rx', h', l)
    else Ok (rx2, h2, []) in
  (* 257-265 *)
  let* (sm4, h4, c4, l4) := failure_part now bud txfail sm1 h3 c1 in
  match in_event i with
  | Some e =>
      (* 269-314 *)
      let* rx5 := merge_event rx3 e in
      let* (rx6, c6, h6, l6) := packet_end now bud e rx5 c4 h4 in
      let* (rx7, h7, l7) := packet_overflow now bud rx6 h6 in
      let '(busy, since) := line_state now e (z_busy s) since2 in
      let '(led8, l8) := led_calls led2 (led_event_part e) in
      (* 327-341 *)
      let* (sm10, hw10, c9, h9, l9) := tail_part p now (in_junk i) sm4 hw1 c6 h7 busy e in
      Ok (C0 rx7 busy since sm10 hw10 c9 h9 led8 ev_none, la ++ l2 ++ l3 ++ l4 ++ l6 ++ l7 ++ l8 ++ l9)
  | None =>
      if negb (z_busy s) && (negb (ctrl_has_tx c4) && negb (host_has_data h4) && tx_is_idle sm4) then
        (* 319-323: continue (Core1Data keeps its value) *)
        Ok (C0 rx3 (z_busy s) since2 sm4 hw1 c4 h4 led2 (z_ev s), la ++ l2 ++ l3 ++ l4)
      else
        let* (sm10, hw10, c9, h9, l9) := tail_part p now (in_junk i) sm4 hw1 c4 h4 (z_busy s) (z_ev s) in
        Ok (C0 rx3 (z_busy s) since2 sm10 hw10 c9 h9 led2 ev_none, la ++ l2 ++ l3 ++ l4 ++ l9)
  end.
