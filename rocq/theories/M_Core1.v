(** M_Core1.v -- model of core1_entry (pico/src/main.cpp:121-203), the receive loop. *)
From Verif Require Import Base M_ShiftReg M_Dsp M_Uart.

(** main.cpp:106-116 -- CoreInterchangeData *)
Record event : Set := EV {
  ev_char : Z; ev_valid : bool; ev_error : bool; ev_busy : bool; ev_free : bool; ev_dadc : bool }.
Definition ev_none : event := EV 0 false false false false false.
(** main.cpp:138: if (Core1Data.Raw) *)
Definition ev_nonzero (e : event) : bool :=
  negb (ev_char e =? 0) || ev_valid e || ev_error e || ev_busy e || ev_free e || ev_dadc e.

(** main.cpp:183,133: 11 * UART_OVERSAMPLING_RATE *)
Definition IDLE_SAMPLES : Z := 176.

(** The part of core1's state behind the bit detector: p1p2uart, LineIsBusy, LineIdleCounter
    and the (initially indeterminate) local rx_error. *)
Record linest : Set := LS { ls_uart : uart; ls_busy : bool; ls_idle : Z; ls_rxerr : bool }.
(** main.cpp:66, 131-133 *)
Definition ls_new (rxerr0 : bool) : linest := LS (ua_new PARITY_EVEN) true IDLE_SAMPLES rxerr0.

(** main.cpp:179-201: line state tracking and byte decoding for one bit-detector output [p].
    Returns the new state and the flags left in Core1Data (all zero before). *)
Definition line_step (s : linest) (p : Z) : res (linest * event) :=
  let '(busy, idle, evb, evf) :=
    if ua_receiving (ls_uart s) then
      if negb (ls_busy s) then (true, IDLE_SAMPLES, true, false)
      else (ls_busy s, ls_idle s, false, false)
    else if ls_busy s then
      if 0 <? ls_idle s then (ls_busy s, ls_idle s - 1, false, false)
      else (false, ls_idle s, false, true)
    else (ls_busy s, ls_idle s, false, false) in
  let* (u, ret, out, err) := ua_update (ls_uart s) p 0 (ls_rxerr s) in
  if negb ret then Ok (LS u busy idle err, EV 0 false false evb evf false)
  else Ok (LS u busy idle err, EV out (negb err) err evb evf false).

(** All of core1's filter chain. *)
Record core1 : Set := C1 {
  k_fir : fir; k_rs : resample; k_dc : dcblock; k_lv : Z; k_bit : uartbit; k_ls : linest }.
(** main.cpp:40, 52, 61, 66, 71, 77 *)
Definition core1_new (rxerr0 : bool) : res core1 :=
  let* f := fir_new (repeat 0 14) in
  let* b := bit_new in
  Ok (C1 f (rs_new 1) dc_new lv_new b (ls_new rxerr0)).

(** main.cpp:155-201: one ADC sample [x] (mV) through the chain. *)
Definition core1_sample (s : core1) (x : Z) : res (core1 * event) :=
  let* (f, fd) := fir_update (k_fir s) x in
  let '(r, ro) := rs_update (k_rs s) fd in
  match ro with
  | None => Ok (C1 f r (k_dc s) (k_lv s) (k_bit s) (k_ls s), ev_none)
  | Some v =>
      let* (d, ac) := dc_update (k_dc s) v in
      let* (l, hy) := lv_update (fun z => z) (k_lv s) ac in
      let* (b, bd) := bit_update (k_bit s) hy in
      let* (ls, e) := line_step (k_ls s) bd in
      Ok (C1 f r d l b ls, e)
  end.

(** main.cpp:137-145 and 146-154: one iteration of for(;;).  [pend] is Core1Data from the previous
    iteration, [wready] = multicore_fifo_wready(), [inp]: dadc.Update()'s result together with
    dadc.Error().  Returns pushed event, FifoErr set?, and the new pending Core1Data. *)
Inductive adc_in : Set := NoSample | SampleErr | Sample (v : Z).
Definition core1_iter (s : core1) (pend : event) (wready : bool) (inp : adc_in)
  : res (core1 * event * option event * bool) :=
  let '(pushed, ferr) :=
    if ev_nonzero pend then (if wready then (Some pend, false) else (None, true)) else (None, false) in
  match inp with
  | NoSample => Ok (s, ev_none, pushed, ferr)
  | SampleErr => Ok (s, EV 0 false false false false true, pushed, ferr)
  | Sample v => let* (s', e) := core1_sample s v in Ok (s', e, pushed, ferr)
  end.
