(** M_TxClk.v -- TxStateMachine::Update with every reading of the clock of its own (M_Tx takes one reading per Update).
    Update (tx_statemachine.hpp:76-147) reads the clock in State.IsError() (tx_state.hpp:26-33, the TimedOut() in it), in State.TimedOut() of case WAIT_POWERON
    (tx_statemachine.hpp:105) and in every ChangeState, whose TxState constructor arms the timer (tx_state.hpp:17-22); there are at most three of these. *)
From Verif Require Import Base M_Message M_Tx D_Tx.

(** The readings: in IsError(); in TimedOut() of WAIT_POWERON; in the ChangeState of the error paths and of the cases other than RUNNING_CHECK_DATA;
    in the ChangeState of RUNNING_CHECK_DATA; in the one after a collision. *)
Record readings : Set := RD { r_error : Z; r_timedout : Z; r_enter : Z; r_next : Z; r_collision : Z }.

(** tx_statemachine.hpp:76-147 *)
Definition tx_update_clk (p : platform) (r : readings) (t : txsm) (h : pio_hw) (busy rxerr rxvalid : bool) (rxchar : Z) : res (txsm * pio_hw) :=
  if st_is_error (r_error r) t || line_is_error t busy then
    let t1 := set_rx_status t (if busy then STATUS_ERR_BUS_COLLISION else STATUS_ERR_NO_FRAMING) in
    let* (t2, h2) := change_state (r_enter r) t1 h T_IDLE in
    Ok (set_err t2, h2)
  else
    let '(h0, uerr) := if tx_is_idle t then (h, false) else hw_read_error h in
    if uerr then
      let* (t2, h2) := change_state (r_enter r) (set_rx_status t STATUS_INTERNAL_ERROR) h0 T_IDLE in
      Ok (set_err t2, h2)
    else
      let* (t1, h1, coll) :=
        match t_st t with
        | T_IDLE => Ok (t, h0, false)
        | T_WAIT_LINEFREE =>
            if negb busy && negb (hw_transmitting h0) && (t_off t =? 0) then
              let* (a, b) := change_state (r_enter r) t h0 T_WAIT_POWERON in Ok (a, b, false)
            else Ok (t, h0, false)
        | T_WAIT_POWERON =>
            if timed_out (r_timedout r) t then
              let* (a, b) := change_state (r_enter r) t h0 T_STARTED in Ok (a, b, false)
            else Ok (t, h0, false)
        | T_STARTED =>
            let* (a, b, coll) :=
              if rxerr then Ok (set_rx_status t STATUS_ERR_PARITY, h0, true)
              else if busy || rxvalid then
                let* (a, b) := change_state (r_enter r) t h0 T_CHECK_DATA in Ok (a, b, false)
              else Ok (t, h0, false) in
            if rxvalid then check_data_case p (r_next r) a b rxerr rxvalid rxchar coll   (* falls through *)
            else Ok (a, b, coll)
        | T_CHECK_DATA => check_data_case p (r_next r) t h0 rxerr rxvalid rxchar false
        | T_WAIT_IDLE =>
            if negb busy then
              let* (a, b) := change_state (r_enter r) t h0 T_IDLE in Ok (a, b, false)
            else Ok (t, h0, false)
        end in
      if coll then
        let* (t2, h2) := change_state (r_collision r) t1 h1 T_WAIT_IDLE in
        let t3 := if m_status (t_rx t2) =? 0 then set_rx_status t2 21 else t2 in
        Ok (set_err t3, h2)
      else Ok (t1, h1).

(** The events of D_Tx; WakeAndTransmit arms one timer and reads the clock once ([r_enter]). *)
Definition tx_event_clk (p : platform) (s : tx_sys) (e : readings * tx_ev) : res (tx_sys * option bool) :=
  let '(t, h) := s in
  let '(r, ev) := e in
  match ev with
  | Update busy rxerr rxvalid c => let* s' := tx_update_clk p r t h busy rxerr rxvalid c in Ok (s', None)
  | _ => tx_event p s (r_enter r, ev)
  end.
Definition tx_run_clk (j1 j2 : list Z) (l : list (readings * tx_ev)) : res (tx_sys * list (option bool)) :=
  mrun (tx_event_clk pico) (tx_new hw_new j1 j2) l.

(** One reading per Update: M_Tx. *)
Definition one_reading (n : Z) : readings := RD n n n n n.
(** ev_ok does not depend on the time. *)
Definition evc_ok (least : nat) (e : readings * tx_ev) : Prop := ev_ok least (0, snd e).
