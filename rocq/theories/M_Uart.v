(** M_Uart.v -- model of pico/src/uart.{hpp,cpp} (class UART, the AMI receiver). *)
From Verif Require Import Base M_ShiftReg M_Dsp.

Definition UART_BITS_PARITY : nat := 11.        (* uart.hpp:6 *)
Definition UART_BITS_NO_PARITY : nat := 10.     (* uart.hpp:7 *)
(** uart.hpp:8: 16 * 11 - 16/2 = 168 *)
Definition UART_BUFFER_LEN : nat := UART_OVERSAMPLING_RATE * UART_BITS_PARITY - UART_OVERSAMPLING_RATE / 2.

(** uart.hpp:14-18 *)
Inductive uart_parity : Set := PARITY_NONE | PARITY_EVEN | PARITY_ODD.
(** uart.hpp:41-52 *)
Inductive uart_state : Set := WAIT_FOR_IDLE | WAIT_FOR_START | DATA | STOP.

(** uart.hpp:54-61.  [counter] is a 32-bit size_t. *)
Record uart : Set := UART {
  ua_parity : uart_parity; ua_counter : Z; ua_state : uart_state; ua_reg : shiftreg Z }.

(** uart.cpp:9-15 *)
Definition ua_new (p : uart_parity) : uart := UART p 0 WAIT_FOR_IDLE (sr_new UART_BUFFER_LEN 0).

(** uart.cpp:18-20 *)
Definition ua_receiving (u : uart) : bool :=
  match ua_state u with WAIT_FOR_START => false | _ => true end.

(** uart.cpp:22-24 -- the int32_t argument is narrowed to int16_t. *)
Definition zero_level_detect (prob : Z) : bool := negb (s16 prob =? 0).

(** Loop-carried variables of ExtractData / ExtractDataAndParity. *)
Record xt : Set := XT { x_last : Z; x_prob : Z; x_out : Z; x_par : Z; x_err : bool }.

(** uart.cpp:146-153 (and 98-107): polarity check and probability sum for one sample. *)
Definition same_sign (a b : Z) : bool := ((0 <? a) && (0 <? b)) || ((a <? 0) && (b <? 0)).

(** uart.cpp:127-155 -- body of the bit loop, sample [t] of bit [b]
    (b = 1..10: 1..8 data, 9 parity, 10 stop). *)
Definition xp_step (b : nat) (t : Z) (x : xt) : xt :=
  let '(out, par, err) :=
    if (1 <=? b)%nat && (b <=? 8)%nat then
      if t =? 0 then (Z.lor (x_out x) (u8 (Z.shiftl 1 (Z.of_nat b - 1))), u8 (x_par x + 1), x_err x)
      else (x_out x, x_par x, x_err x)
    else if (b =? 9)%nat then
      if t =? 0 then (x_out x, u8 (x_par x + 1), x_err x) else (x_out x, x_par x, x_err x)
    else if (b =? 10)%nat then
      if negb (t =? 0) then (x_out x, x_par x, true) else (x_out x, x_par x, x_err x)
    else (x_out x, x_par x, x_err x) in
  let '(err, last) :=
    if negb (t =? 0) then ((if same_sign (x_last x) t then true else err), t)
    else (err, x_last x) in
  XT last (u32 (x_prob x + Z.abs t)) out par err.

(** uart.cpp:84-108 -- the same loop body without a parity bit (b = 9 is the stop bit). *)
Definition xn_step (b : nat) (t : Z) (x : xt) : xt :=
  let '(out, err) :=
    if (1 <=? b)%nat && (b <=? 8)%nat then
      if t =? 0 then (Z.lor (x_out x) (u8 (Z.shiftl 1 (Z.of_nat b - 1))), x_err x)
      else (x_out x, x_err x)
    else if (b =? 9)%nat then
      if negb (t =? 0) then (x_out x, true) else (x_out x, x_err x)
    else (x_out x, x_err x) in
  let '(err, last) :=
    if negb (t =? 0) then ((if same_sign (x_last x) t then true else err), t)
    else (err, x_last x) in
  XT last (u32 (x_prob x + Z.abs t)) out (x_par x) err.

(** uart.cpp:127-128: for (b = 1; b < 11; b++) with reg.At(phase + b*16); [k] iterations left. *)
Fixpoint xp_loop (r : shiftreg Z) (phase b k : nat) (x : xt) : res xt :=
  match k with
  | O => Ok x
  | S k' =>
      let* t := sr_at UART_BUFFER_LEN r (phase + b * UART_OVERSAMPLING_RATE) in
      xp_loop r phase (S b) k' (xp_step b t x)
  end.
(** uart.cpp:84-85: reg.At(phase + (b+1)*16). *)
Fixpoint xn_loop (r : shiftreg Z) (phase b k : nat) (x : xt) : res xt :=
  match k with
  | O => Ok x
  | S k' =>
      let* t := sr_at UART_BUFFER_LEN r (phase + (b + 1) * UART_OVERSAMPLING_RATE) in
      xn_loop r phase (S b) k' (xn_step b t x)
  end.

(** uart.cpp:113-158 -- ExtractDataAndParity.  [out]/[err] are the caller's values. *)
Definition extract_data_and_parity (r : shiftreg Z) (phase : nat) (out : Z) (err : bool) : res xt :=
  let* last := sr_at UART_BUFFER_LEN r (phase + 0 * UART_OVERSAMPLING_RATE) in
  if last =? 0 then Ok (XT last 0 out 0 true)
  else xp_loop r phase 1 (UART_BITS_PARITY - 1) (XT last (Z.abs last) out 0 err).

(** uart.cpp:73-111 -- ExtractData. *)
Definition extract_data (r : shiftreg Z) (phase : nat) (out : Z) (err : bool) : res xt :=
  let* last := sr_at UART_BUFFER_LEN r (phase + 1 * UART_OVERSAMPLING_RATE) in
  if last =? 0 then Ok (XT last 0 out 0 true)
  else xn_loop r phase 1 (UART_BITS_NO_PARITY - 1) (XT last (Z.abs last) out 0 err).

(** uart.cpp:33-54: one phase; result probability, data byte and error flag. *)
Definition try_phase (u : uart) (phase : nat) : res (Z * Z * bool) :=
  match ua_parity u with
  | PARITY_NONE =>
      let* x := extract_data (ua_reg u) phase 0 false in
      Ok (x_prob x, x_out x, x_err x)
  | PARITY_EVEN =>
      let* x := extract_data_and_parity (ua_reg u) phase 0 false in
      Ok (x_prob x, x_out x, if Z.odd (x_par x) then true else x_err x)
  | PARITY_ODD =>
      let* x := extract_data_and_parity (ua_reg u) phase 0 false in
      Ok (x_prob x, x_out x, if negb (Z.odd (x_par x)) then true else x_err x)
  end.

(** uart.cpp:32-66: the phase loop; [k] phases left. *)
Fixpoint fbp_loop (u : uart) (phase k : nat) (best out : Z) (err : bool) : res (Z * Z * bool) :=
  match k with
  | O => Ok (best, out, err)
  | S k' =>
      let* (prob, d, e) := try_phase u phase in
      if best <? prob then fbp_loop u (S phase) k' prob d e
      else fbp_loop u (S phase) k' best out err
  end.

(** uart.cpp:26-71 -- FindBestPhase; updates the caller's *out, *err. *)
Definition find_best_phase (u : uart) (out : Z) (err : bool) : res (Z * bool) :=
  let* (best, o, e) := fbp_loop u 0 (UART_OVERSAMPLING_RATE / 2) 0 out err in
  Ok (o, if best =? 0 then true else e).

(** uart.cpp:195-203 -- the DATA case (also reached by fall-through). *)
Definition ua_data_case (u : uart) (p : Z) : res uart :=
  let* r := sr_update_null UART_BUFFER_LEN (ua_reg u) (s16 p) in
  let c := u32 (ua_counter u - 1) in
  Ok (UART (ua_parity u) c (if c =? 0 then STOP else ua_state u) r).

(** uart.cpp:174-213 -- Update.  [out], [err]: previous values of *out, *err.
    Result: new object, return value, *out, *err. *)
Definition ua_update (u : uart) (p : Z) (out : Z) (err : bool) : res (uart * bool * Z * bool) :=
  match ua_state u with
  | WAIT_FOR_IDLE =>
      Ok (if negb (zero_level_detect p)
          then UART (ua_parity u) (ua_counter u) WAIT_FOR_START (ua_reg u)
          else u, false, out, err)
  | WAIT_FOR_START =>
      let u1 :=
        if zero_level_detect p then
          let bits := match ua_parity u with PARITY_NONE => UART_BITS_NO_PARITY | _ => UART_BITS_PARITY end in
          let c := u32 (Z.of_nat (UART_OVERSAMPLING_RATE * bits)) in
          UART (ua_parity u) (u32 (c - Z.of_nat (UART_OVERSAMPLING_RATE / 2))) DATA (ua_reg u)
        else u in
      let* u2 := ua_data_case u1 p in
      Ok (u2, false, out, err)
  | DATA =>
      let* u2 := ua_data_case u p in
      Ok (u2, false, out, err)
  | STOP =>
      let* (o, e) := find_best_phase u out err in
      Ok (UART (ua_parity u) (ua_counter u) WAIT_FOR_IDLE (ua_reg u), true, o, e)
  end.

(** uart.cpp:160-170 -- PrintShiftreg: the values it prints. *)
Fixpoint print_loop (r : shiftreg Z) (b k : nat) : res (list Z) :=
  match k with
  | O => Ok []
  | S k' =>
      let* v := sr_at UART_BUFFER_LEN r b in
      let* t := print_loop r (S b) k' in
      Ok (v :: t)
  end.
Definition ua_print_shiftreg (u : uart) : res (list Z) :=
  let len := match ua_parity u with
             | PARITY_NONE => (UART_OVERSAMPLING_RATE * UART_BITS_NO_PARITY)%nat
             | _ => (UART_OVERSAMPLING_RATE * UART_BITS_PARITY)%nat end in
  print_loop (ua_reg u) 0 len.
