(** M_TxIl.v -- TxStateMachine::Update with the transmitter hardware at work between the accesses the call makes to it. *)
From Verif Require Import Base M_Message M_Tx.

(** Hardware events one after the other. *)
Definition hw_events (h : pio_hw) (g : list hw_event) : pio_hw := fold_left hw_step g h.

(** What the hardware does at the places inside one call where two accesses to it follow each other: between the look at the PIO flag and
    the look at its FIFO (uart_pio.cpp:50-51), between that and the look at the DMA channel (:51-52), between the test in Send and the
    start of the channel (:64-79), between the abort of the channel and the clearing of the FIFO in ClearFifo (:57-58), between the
    change of state made by the last byte and the one made by a collision (tx_statemachine.hpp:128, 142), in the second ClearFifo.
    A place the call does not come to is not used. *)
Record gaps : Set := GAPS { g_flag : list hw_event; g_fifo : list hw_event; g_send : list hw_event; g_abort : list hw_event; g_mid : list hw_event; g_abort2 : list hw_event }.
Definition no_gaps : gaps := GAPS [] [] [] [] [] [].

(** uart_pio.cpp:49-53 -- Transmitting; || does not evaluate its right-hand side if the left one is true. *)
Definition hw_transmitting_il (h : pio_hw) (g : gaps) : pio_hw * bool :=
  if hw_irq h then (h, true)
  else
    let h1 := hw_events h (g_flag g) in
    if negb (match hw_txf h1 with [] => true | _ => false end) then (h1, true)
    else let h2 := hw_events h1 (g_fifo g) in (h2, hw_data_waiting h2).
(** uart_pio.cpp:56-59 -- ClearFifo: dma_channel_abort, then pio_sm_clear_fifos. *)
Definition hw_clear_fifo_il (h : pio_hw) (g : list hw_event) : pio_hw :=
  let h1 := hw_events (HW (hw_error h) [] (hw_txf h) (hw_sm h) (hw_shutdown h)) g in
  HW (hw_error h1) (hw_dma h1) [] (hw_sm h1) (hw_shutdown h1).
(** uart_pio.cpp:63-80 -- Send; the events take place between the tests and what follows them. *)
Definition hw_send_il (h : pio_hw) (m : message) (g : list hw_event) : res pio_hw :=
  let h1 := hw_events h g in
  if hw_data_waiting h then Ok (HW true (hw_dma h1) (hw_txf h1) (hw_sm h1) (hw_shutdown h1))
  else if (32 <? m_length m)%nat then Ok (HW true (hw_dma h1) (hw_txf h1) (hw_sm h1) (hw_shutdown h1))
  else
    let* d := copy_loop (m_data m) 0 (m_length m) (repeat 0 32) in
    Ok (HW (hw_error h1) (firstn (m_length m) d) (hw_txf h1) (hw_sm h1) (hw_shutdown h1)).
(** tx_statemachine.hpp:154-178 -- ChangeState; [gs] and [ga] are used by Send and ClearFifo. *)
Definition change_state_il (now : Z) (t : txsm) (h : pio_hw) (s : tx_st) (gs ga : list hw_event) : res (txsm * pio_hw) :=
  let* h' :=
    match s with
    | T_IDLE => Ok (hw_enable_shutdown h true)
    | T_WAIT_LINEFREE => Ok h
    | T_WAIT_POWERON => Ok (hw_enable_shutdown h false)
    | T_STARTED => hw_send_il h (t_tx t) gs
    | T_CHECK_DATA => Ok h
    | T_WAIT_IDLE => Ok (hw_clear_fifo_il h ga)
    end in
  Ok (enter now t s, h').
(** tx_statemachine.hpp:118-132 *)
Definition check_data_case_il (p : platform) (now : Z) (t : txsm) (h : pio_hw)
    (rxerr rxvalid : bool) (rxchar : Z) (coll : bool) (g : gaps) : res (txsm * pio_hw * bool) :=
  if rxerr then Ok (set_rx_status t STATUS_ERR_PARITY, h, true)
  else if rxvalid then
    let* b := aget (m_data (t_tx t)) (Z.to_nat (t_off t)) in
    let* rx := msg_append (t_rx t) b in
    let coll' := if negb (b =? as_char p rxchar) then true else coll in
    let off := u32 (t_off t + 1) in
    let t1 := TX (t_tx t) rx (t_st t) (t_wait t) off (t_err t) in
    let* (t2, h2) :=
      change_state_il now t1 h (if off =? Z.of_nat (m_length (t_tx t)) then T_WAIT_IDLE else T_CHECK_DATA) (g_send g) (g_abort g) in
    Ok (t2, h2, coll')
  else Ok (t, h, coll).
(** tx_statemachine.hpp:76-147 -- Update.  UART->Error() reads and clears a variable of the class, not the hardware. *)
Definition tx_update_il (p : platform) (now : Z) (t : txsm) (h : pio_hw)
    (busy rxerr rxvalid : bool) (rxchar : Z) (g : gaps) : res (txsm * pio_hw) :=
  if st_is_error now t || line_is_error t busy then
    let t1 := set_rx_status t (if busy then STATUS_ERR_BUS_COLLISION else STATUS_ERR_NO_FRAMING) in
    let* (t2, h2) := change_state_il now t1 h T_IDLE (g_send g) (g_abort g) in
    Ok (set_err t2, h2)
  else
    let '(h0, uerr) := if tx_is_idle t then (h, false) else hw_read_error h in
    if uerr then
      let* (t2, h2) := change_state_il now (set_rx_status t STATUS_INTERNAL_ERROR) h0 T_IDLE (g_send g) (g_abort g) in
      Ok (set_err t2, h2)
    else
      let* (t1, h1, coll) :=
        match t_st t with
        | T_IDLE => Ok (t, h0, false)
        | T_WAIT_LINEFREE =>
            if negb busy then
              let '(hx, tr) := hw_transmitting_il h0 g in
              if negb tr && (t_off t =? 0) then
                let* (a, b) := change_state_il now t hx T_WAIT_POWERON (g_send g) (g_abort g) in Ok (a, b, false)
              else Ok (t, hx, false)
            else Ok (t, h0, false)
        | T_WAIT_POWERON =>
            if timed_out now t then
              let* (a, b) := change_state_il now t h0 T_STARTED (g_send g) (g_abort g) in Ok (a, b, false)
            else Ok (t, h0, false)
        | T_STARTED =>
            let* (a, b, coll) :=
              if rxerr then Ok (set_rx_status t STATUS_ERR_PARITY, h0, true)
              else if busy || rxvalid then
                let* (a, b) := change_state_il now t h0 T_CHECK_DATA (g_send g) (g_abort g) in Ok (a, b, false)
              else Ok (t, h0, false) in
            if rxvalid then check_data_case_il p now a b rxerr rxvalid rxchar coll g   (* falls through *)
            else Ok (a, b, coll)
        | T_CHECK_DATA => check_data_case_il p now t h0 rxerr rxvalid rxchar false g
        | T_WAIT_IDLE =>
            if negb busy then
              let* (a, b) := change_state_il now t h0 T_IDLE (g_send g) (g_abort g) in Ok (a, b, false)
            else Ok (t, h0, false)
        end in
      if coll then
        let* (t2, h2) := change_state_il now t1 (hw_events h1 (g_mid g)) T_WAIT_IDLE (g_send g) (g_abort2 g) in
        let t3 := if m_status (t_rx t2) =? 0 then set_rx_status t2 21 else t2 in
        Ok (set_err t3, h2)
      else Ok (t1, h1).
