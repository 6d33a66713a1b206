(** D_Chain.v -- driver: the receiver chain Level -> bit detector -> UART as one observable step
    (the body of the sample loop, main.cpp:142-150, without the ADC in front). *)
From Verif Require Import Base M_ShiftReg M_Dsp M_Uart D_Uart.

Record chain : Set := Chain { ch_level : Z; ch_bit : uartbit; ch_uart : uart }.
(** main.cpp:75-81: the objects as constructed by core1. *)
Definition chain_new : res chain :=
  let* b := bit_new in Ok (Chain lv_new b (ua_new PARITY_EVEN)).
(** Input: the sample and the values of *out and *err before the call; output as [ua_call]. *)
Definition chain_call (c : chain) (i : Z * Z * bool) : res (chain * option (Z * bool)) :=
  let '(x, o, e) := i in
  let* (lv, y) := lv_update (fun z => z) (ch_level c) x in
  let* (b, p) := bit_update (ch_bit c) y in
  let* (u, out) := ua_call (ch_uart c) (p, o, e) in
  Ok (Chain lv b u, out).
(** The reports among the outputs, in order. *)
Definition reports {A} (l : list (option A)) : list A :=
  flat_map (fun o => match o with Some a => [a] | None => [] end) l.
