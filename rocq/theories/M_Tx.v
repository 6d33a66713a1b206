(** M_Tx.v -- models of pico/src/uart_pio.{hpp,cpp}, tx_state.hpp, tx_statemachine.hpp.
    Time: microseconds since boot, unbounded [Z]; make_timeout_time_us(t) = now + t,
    time_reached(t) = now >= t. *)
From Verif Require Import Base M_Message.

(** ** UARTPio: the DMA channel, the PIO TX FIFO and the amplifier pin.
    Hardware registers are modelled as data; the environment moves bytes with [hw_step]. *)
(** The PIO state machine, p1p2_uart_tx.pio:25-31: waiting in [pull]; a byte taken from the FIFO but [irq set] not executed yet (one PIO cycle);
    sending, with IRQ flag 0 set.  C120 relates this to the program. *)
Inductive sm_state : Set := SmIdle | SmPulled | SmShifting.
Record pio_hw : Set := HW {
  hw_error : bool;        (* uart_pio.hpp:31; static instance, hence initially false  *)
  hw_dma : list Z;        (* bytes the DMA channel still has to transfer              *)
  hw_txf : list Z;        (* PIO TX FIFO, 8 deep (PIO_FIFO_JOIN_TX)                   *)
  hw_sm : sm_state;       (* the PIO state machine                                    *)
  hw_shutdown : bool;     (* level of PIN_SHUTDOWN: true = amplifier off              *)
}.

(** PIO IRQ flag 0 *)
Definition hw_irq (h : pio_hw) : bool := match hw_sm h with SmShifting => true | _ => false end.

(** uart_pio.cpp:10-40 *)
Definition hw_new : pio_hw := HW false [] [] SmIdle true.

(** uart_pio.cpp:44-46 -- EnableShutdown *)
Definition hw_enable_shutdown (h : pio_hw) (b : bool) : pio_hw :=
  HW (hw_error h) (hw_dma h) (hw_txf h) (hw_sm h) b.
(** uart_pio.cpp:83-85 -- DataWaiting = dma_channel_is_busy *)
Definition hw_data_waiting (h : pio_hw) : bool :=
  match hw_dma h with [] => false | _ => true end.
(** uart_pio.cpp:49-53 -- Transmitting *)
Definition hw_transmitting (h : pio_hw) : bool :=
  hw_irq h || negb (match hw_txf h with [] => true | _ => false end) || hw_data_waiting h.
(** uart_pio.cpp:56-59 -- ClearFifo: dma_channel_abort + pio_sm_clear_fifos *)
Definition hw_clear_fifo (h : pio_hw) : pio_hw :=
  HW (hw_error h) [] [] (hw_sm h) (hw_shutdown h).
(** uart_pio.cpp:63-80 -- Send.  sizeof(this->Data) = 32 (uart_pio.hpp:42). *)
Definition hw_send (h : pio_hw) (m : message) : res pio_hw :=
  if hw_data_waiting h then Ok (HW true (hw_dma h) (hw_txf h) (hw_sm h) (hw_shutdown h))
  else if (32 <? m_length m)%nat then Ok (HW true (hw_dma h) (hw_txf h) (hw_sm h) (hw_shutdown h))
  else
    let* d := copy_loop (m_data m) 0 (m_length m) (repeat 0 32) in
    Ok (HW (hw_error h) (firstn (m_length m) d) (hw_txf h) (hw_sm h) (hw_shutdown h)).
(** uart_pio.cpp:88-92 -- Error (read and clear) *)
Definition hw_read_error (h : pio_hw) : pio_hw * bool :=
  (HW false (hw_dma h) (hw_txf h) (hw_sm h) (hw_shutdown h), hw_error h).

(** Environment: what the hardware does on its own between software steps. *)
Inductive hw_event : Set :=
| HwDma       (* DMA moves one byte into the TX FIFO, if it has room                  *)
| HwPull      (* PIO pulls a byte from the FIFO (p1p2_uart_tx.pio:28)                 *)
| HwStart     (* ... and, one cycle later, starts to send it and sets the flag (:31)  *)
| HwDone.     (* PIO finishes the current byte and clears the flag (:27)              *)
Definition hw_step (h : pio_hw) (e : hw_event) : pio_hw :=
  match e with
  | HwDma =>
      match hw_dma h with
      | b :: t => if (length (hw_txf h) <? 8)%nat
                  then HW (hw_error h) t (hw_txf h ++ [b]) (hw_sm h) (hw_shutdown h) else h
      | [] => h
      end
  | HwPull =>
      match hw_txf h, hw_sm h with
      | b :: t, SmIdle => HW (hw_error h) (hw_dma h) t SmPulled (hw_shutdown h)
      | _, _ => h
      end
  | HwStart =>
      match hw_sm h with
      | SmPulled => HW (hw_error h) (hw_dma h) (hw_txf h) SmShifting (hw_shutdown h)
      | _ => h
      end
  | HwDone =>
      match hw_sm h with
      | SmShifting => HW (hw_error h) (hw_dma h) (hw_txf h) SmIdle (hw_shutdown h)
      | _ => h
      end
  end.

(** ** TxState (tx_state.hpp) *)
Definition TX_POWERON_TIMEOUT_US : Z := 32000.   (* defines.hpp:26 *)
Definition TX_ONE_CHAR_TIMEOUT_US : Z := 2000.   (* defines.hpp:27 *)

(** tx_state.hpp:8-15 *)
Inductive tx_st : Set :=
| T_IDLE | T_WAIT_LINEFREE | T_WAIT_POWERON | T_STARTED | T_CHECK_DATA | T_WAIT_IDLE.

(** tx_state.hpp:48-65 -- TimeoutForState *)
Definition timeout_for (s : tx_st) : Z :=
  match s with
  | T_IDLE => 0
  | T_WAIT_LINEFREE => TX_ONE_CHAR_TIMEOUT_US * 16 + TX_ONE_CHAR_TIMEOUT_US
  | T_WAIT_POWERON => TX_POWERON_TIMEOUT_US
  | T_STARTED => TX_ONE_CHAR_TIMEOUT_US
  | T_CHECK_DATA => TX_ONE_CHAR_TIMEOUT_US * 2
  | T_WAIT_IDLE => TX_ONE_CHAR_TIMEOUT_US * 2
  end.
(** tx_state.hpp:83-95 -- IsTimeoutError *)
Definition timeout_is_error (s : tx_st) : bool :=
  match s with T_IDLE | T_WAIT_POWERON => false | _ => true end.
(** tx_state.hpp:97-110 -- LineBusyIsError *)
Definition busy_is_error (s : tx_st) : bool :=
  match s with T_WAIT_POWERON => true | _ => false end.
(** tx_state.hpp:112-125 -- LineFreeIsError *)
Definition free_is_error (s : tx_st) : bool :=
  match s with T_CHECK_DATA => true | _ => false end.

(** tx_statemachine.hpp:148-149,180-183 (TxMsg, RxMsg, State, TxOffset, Err); [t_wait] is
    TxState::WaitCounter.  TxOffset is a 32-bit size_t. *)
Record txsm : Set := TX {
  t_tx : message; t_rx : message; t_st : tx_st; t_wait : Z; t_off : Z; t_err : bool }.

(** tx_state.hpp:26-28 *)
Definition timed_out (now : Z) (t : txsm) : bool := t_wait t <=? now.
(** tx_state.hpp:31-33 *)
Definition st_is_error (now : Z) (t : txsm) : bool := timed_out now t && timeout_is_error (t_st t).
(** tx_state.hpp:37-42 *)
Definition line_is_error (t : txsm) (busy : bool) : bool :=
  if busy then busy_is_error (t_st t) else free_is_error (t_st t).

(** tx_statemachine.hpp:17-22; Data of both messages is uninitialised. *)
Definition tx_new (h : pio_hw) (j1 j2 : list Z) : txsm * pio_hw :=
  (TX (msg_new j1) (msg_new j2) T_IDLE 0 4294967295 false,
   hw_enable_shutdown (hw_clear_fifo h) true).

(** tx_state.hpp:17-22: entering a state (re)arms the timer. *)
Definition enter (now : Z) (t : txsm) (s : tx_st) : txsm :=
  TX (t_tx t) (t_rx t) s (if timeout_for s =? 0 then 0 else now + timeout_for s) (t_off t) (t_err t).

(** tx_statemachine.hpp:154-178 -- ChangeState *)
Definition change_state (now : Z) (t : txsm) (h : pio_hw) (s : tx_st) : res (txsm * pio_hw) :=
  let* h' :=
    match s with
    | T_IDLE => Ok (hw_enable_shutdown h true)
    | T_WAIT_LINEFREE => Ok h
    | T_WAIT_POWERON => Ok (hw_enable_shutdown h false)
    | T_STARTED => hw_send h (t_tx t)
    | T_CHECK_DATA => Ok h
    | T_WAIT_IDLE => Ok (hw_clear_fifo h)
    end in
  Ok (enter now t s, h').

(** tx_statemachine.hpp:48-50 *)
Definition tx_is_idle (t : txsm) : bool := match t_st t with T_IDLE => true | _ => false end.
(** tx_statemachine.hpp:53-55 *)
Definition tx_is_transmitting (t : txsm) : bool := negb (tx_is_idle t).
(** tx_statemachine.hpp:58-60 -- Done *)
Definition tx_done (t : txsm) : bool := t_off t =? Z.of_nat (m_length (t_tx t)).
(** tx_statemachine.hpp:64-68 -- Error (read and clear) *)
Definition tx_error (t : txsm) : txsm * bool :=
  (TX (t_tx t) (t_rx t) (t_st t) (t_wait t) (t_off t) false, t_err t).

(** main.cpp:260-261: UpdateAndSend(SM.RxMsg) sets the public member's Time, then RxMsg.Clear(). *)
Definition tx_clear_rx (t : txsm) (time : Z) : txsm :=
  TX (t_tx t) (MSG 0 time (m_data (t_rx t)) 0) (t_st t) (t_wait t) (t_off t) (t_err t).

(** tx_statemachine.hpp:37-45 -- WakeAndTransmit *)
Definition tx_wake (now : Z) (t : txsm) (h : pio_hw) (m : message) : res (txsm * pio_hw) :=
  if tx_is_idle t then
    change_state now (TX m (msg_clear (t_rx t)) (t_st t) (t_wait t) 0 false) h T_WAIT_LINEFREE
  else Ok (t, h).

Definition set_rx_status (t : txsm) (s : Z) : txsm :=
  TX (t_tx t) (MSG s (m_time (t_rx t)) (m_data (t_rx t)) (m_length (t_rx t)))
     (t_st t) (t_wait t) (t_off t) (t_err t).
Definition set_err (t : txsm) : txsm :=
  TX (t_tx t) (t_rx t) (t_st t) (t_wait t) (t_off t) true.

(** [const char RxChar]: value of the received byte as a plain char. *)
Definition as_char (p : platform) (c : Z) : Z :=
  if char_signed p then (if c <? 128 then c else c - 256) else c.

(** tx_statemachine.hpp:118-132 -- body of case RUNNING_CHECK_DATA; the returned boolean is
    BusCollision. *)
Definition check_data_case (p : platform) (now : Z) (t : txsm) (h : pio_hw)
    (rxerr rxvalid : bool) (rxchar : Z) (coll : bool) : res (txsm * pio_hw * bool) :=
  if rxerr then Ok (set_rx_status t STATUS_ERR_PARITY, h, true)
  else if rxvalid then
    let* b := aget (m_data (t_tx t)) (Z.to_nat (t_off t)) in
    let* rx := msg_append (t_rx t) b in
    let coll' := if negb (b =? as_char p rxchar) then true else coll in
    let off := u32 (t_off t + 1) in
    let t1 := TX (t_tx t) rx (t_st t) (t_wait t) off (t_err t) in
    let* (t2, h2) :=
      change_state now t1 h (if off =? Z.of_nat (m_length (t_tx t)) then T_WAIT_IDLE else T_CHECK_DATA) in
    Ok (t2, h2, coll')
  else Ok (t, h, coll).

(** tx_statemachine.hpp:76-147 -- Update *)
Definition tx_update (p : platform) (now : Z) (t : txsm) (h : pio_hw)
    (busy rxerr rxvalid : bool) (rxchar : Z) : res (txsm * pio_hw) :=
  if st_is_error now t || line_is_error t busy then
    let t1 := set_rx_status t (if busy then STATUS_ERR_BUS_COLLISION else STATUS_ERR_NO_FRAMING) in
    let* (t2, h2) := change_state now t1 h T_IDLE in
    Ok (set_err t2, h2)
  else
    (* if (!IsIdle() && UART->Error()) *)
    let '(h0, uerr) := if tx_is_idle t then (h, false) else hw_read_error h in
    if uerr then
      let* (t2, h2) := change_state now (set_rx_status t STATUS_INTERNAL_ERROR) h0 T_IDLE in
      Ok (set_err t2, h2)
    else
      let* (t1, h1, coll) :=
        match t_st t with
        | T_IDLE => Ok (t, h0, false)
        | T_WAIT_LINEFREE =>
            if negb busy && negb (hw_transmitting h0) && (t_off t =? 0) then
              let* (a, b) := change_state now t h0 T_WAIT_POWERON in Ok (a, b, false)
            else Ok (t, h0, false)
        | T_WAIT_POWERON =>
            if timed_out now t then
              let* (a, b) := change_state now t h0 T_STARTED in Ok (a, b, false)
            else Ok (t, h0, false)
        | T_STARTED =>
            let* (a, b, coll) :=
              if rxerr then Ok (set_rx_status t STATUS_ERR_PARITY, h0, true)
              else if busy || rxvalid then
                let* (a, b) := change_state now t h0 T_CHECK_DATA in Ok (a, b, false)
              else Ok (t, h0, false) in
            if rxvalid then check_data_case p now a b rxerr rxvalid rxchar coll   (* falls through *)
            else Ok (a, b, coll)
        | T_CHECK_DATA => check_data_case p now t h0 rxerr rxvalid rxchar false
        | T_WAIT_IDLE =>
            if negb busy then
              let* (a, b) := change_state now t h0 T_IDLE in Ok (a, b, false)
            else Ok (t, h0, false)
        end in
      if coll then
        let* (t2, h2) := change_state now t1 h1 T_WAIT_IDLE in
        let t3 := if m_status (t_rx t2) =? 0 then set_rx_status t2 21 else t2 in
        Ok (set_err t3, h2)
      else Ok (t1, h1).
