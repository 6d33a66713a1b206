(** M_Core0Il.v -- the main loop (M_Core0) with the transmitter hardware at work during its iterations. *)
From Verif Require Import Base M_Fifo M_Message M_Standalone M_Tx M_HostUart M_Led M_Core1 M_Core0 M_TxIl.

(** Hardware events during an iteration: between the look at uart_tx.Error() (main.cpp:231) and SM.Update (or the continue of :323), inside
    SM.Update, and after it.  (Those before main.cpp:231 are in_hw.  Nothing else in the loop touches the transmitter hardware:
    WakeAndTransmit, main.cpp:328 and 334, only changes to IDLE_WAIT_LINEFREE, tx_statemachine.hpp:43, 158.) *)
Record loop_gaps : Set := LG { lg_mid : list hw_event; lg_update : gaps; lg_end : list hw_event }.

(** main.cpp:222-323 without the transmitter hardware: the state at the head of the last part, and the log.  [es1] are the LED calls
    of main.cpp:229-234. *)
Record mid : Set := MID {
  md_rx : message; md_busy : bool; md_since : Z; md_sm : txsm; md_ctrl : ctrl; md_host : host; md_led : ledmgr;
  md_ev : event;             (* Core1Data *)
  md_skip : bool;            (* continue, main.cpp:323 *)
  md_log : list act }.
Definition core0_pre (p : platform) (s : core0) (i : inp0) (es1 : list led_event) : res mid :=
  let now := in_now i in
  let bud := in_budget i in
  let '(led0, l0) := led_calls (z_led s) (led_ticks (in_ticks i)) in
  let* (h1, o1) := host_check p now (in_junk i) bud (in_chars i) (z_host s) in
  let c1 := ctrl_check now (z_ctrl s) in
  let '(sm1, txfail) := tx_error (z_sm s) in
  let '(led1, l1) := led_calls led0 es1 in
  let la := l0 ++ [A_check bud (in_junk i) (in_chars i) o1; A_ctrl_check; A_error txfail] ++ l1 in
  let* (rx2, since2, h2, led2, l2) :=
    if busy_timeout now (z_busy s) (z_since s) then
      let* (h', rx', l) := report R_timeout now bud h1 (set_status (z_rx s) STATUS_ERR_NO_FRAMING) in
      Ok (msg_clear rx', ms_since_boot now, h', lm_step led1 EvInternalError, A_led EvInternalError :: l)
    else Ok (z_rx s, z_since s, h1, led1, []) in
  let* (rx3, h3, l3) :=
    if in_fifoerr i then
      let* (h', rx', l) := report R_fifo now bud h2 (set_status rx2 STATUS_ERR_OVERFLOW) in
      Ok (msg_clear rx', h', l)
    else Ok (rx2, h2, []) in
  let* (sm4, h4, c4, l4) := failure_part now bud txfail sm1 h3 c1 in
  match in_event i with
  | Some e =>
      let* rx5 := merge_event rx3 e in
      let* (rx6, c6, h6, l6) := packet_end now bud e rx5 c4 h4 in
      let* (rx7, h7, l7) := packet_overflow now bud rx6 h6 in
      let '(busy, since) := line_state now e (z_busy s) since2 in
      let '(led8, l8) := led_calls led2 (led_event_part e) in
      Ok (MID rx7 busy since sm4 c6 h7 led8 e false (la ++ l2 ++ l3 ++ l4 ++ l6 ++ l7 ++ l8))
  | None =>
      Ok (MID rx3 (z_busy s) since2 sm4 c4 h4 led2 (z_ev s)
              (negb (z_busy s) && (negb (ctrl_has_tx c4) && negb (host_has_data h4) && tx_is_idle sm4)) (la ++ l2 ++ l3 ++ l4))
  end.
(** main.cpp:325-341, with hardware events inside. *)
Definition tail_part_il (p : platform) (now : Z) (junk : list Z) (sm : txsm) (hw : pio_hw) (c : ctrl) (h : host)
    (busy : bool) (e : event) (g : loop_gaps) : res (txsm * pio_hw * ctrl * host * list act) :=
  let* (sm9, hw9, c9, h9, l) := transmit_part now junk sm (hw_events hw (lg_mid g)) c h in
  let* (sm10, hw10) := tx_update_il p now sm9 hw9 busy (ev_error e) (ev_valid e) (ev_char e) (lg_update g) in
  Ok (sm10, hw_events hw10 (lg_end g), c9, h9, l ++ [A_update busy (ev_error e) (ev_valid e) (ev_char e)]).
(** main.cpp:219-342 -- one iteration; the log leaves the hardware out. *)
Definition core0_iter_il (p : platform) (s : core0) (i : inp0) (g : loop_gaps) : res (core0 * list act) :=
  let '(sm1, txfail) := tx_error (z_sm s) in
  let '(hw1, es1) := led_head sm1 (hw_events (z_hw s) (in_hw i)) (in_fifoerr i) txfail in
  let* m := core0_pre p s i es1 in
  if md_skip m then
    Ok (C0 (md_rx m) (md_busy m) (md_since m) (md_sm m) (hw_events (hw_events hw1 (lg_mid g)) (lg_end g)) (md_ctrl m) (md_host m) (md_led m) (md_ev m), md_log m)
  else
    let* (sm10, hw10, c9, h9, l9) := tail_part_il p (in_now i) (in_junk i) (md_sm m) hw1 (md_ctrl m) (md_host m) (md_busy m) (md_ev m) g in
    Ok (C0 (md_rx m) (md_busy m) (md_since m) sm10 hw10 c9 h9 (md_led m) ev_none, md_log m ++ l9).
