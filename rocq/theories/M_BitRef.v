(** M_BitRef.v -- model of pico/src/uart_bit_detect.hpp (class UARTBit, the reference bit detector with
    coefficient tables; not compiled into the firmware, its ShiftReg constructor calls predate the
    external buffers of shiftreg.hpp: here every register gets its own 32-cell buffer). *)
From Verif Require Import Base M_ShiftReg.

(** uart_bit_detect.hpp:9-19 -- the tables. *)
Definition ref_abs : list Z := [-1; 0; 0; 0; 0; 0; 0; 0; 0; 0; -1; -1; -1; -1; -1; -1].
Definition ref_high : list Z := [0; 1; 1; 1; 1; 1; 1; 1; 0; 0; 0; 0; 0; 0; 0; 0].
Definition ref_low : list Z := [0; -1; -1; -1; -1; -1; -1; -1; 0; 0; 0; 0; 0; 0; 0; 0].

(** uart_bit_detect.hpp:55-61 *)
Record refbit : Set := RB { rb_reg : shiftreg Z; rb_regabs : shiftreg Z; rb_abs : shiftreg Z; rb_high : shiftreg Z; rb_low : shiftreg Z }.
(** uart_bit_detect.hpp:24-29 *)
Definition rb_new : res refbit :=
  let* a := sr_new_init 16 (repeat 0 32) ref_abs in
  let* h := sr_new_init 16 (repeat 0 32) ref_high in
  let* l := sr_new_init 16 (repeat 0 32) ref_low in
  Ok (RB (sr_new 16 0) (sr_new 16 0) a h l).
(** uart_bit_detect.hpp:34-53 -- Update (int16_t input; the two probabilities are int16_t). *)
Definition rb_update (b : refbit) (x : Z) : res (refbit * (Z * Z)) :=
  let* r := sr_update_null 16 (rb_reg b) (s16 x) in
  let v := s16 (Z.abs (s16 x)) in
  let* ra := sr_update_null 16 (rb_regabs b) v in
  let* pa := sr_convolute 16 16 ra (rb_abs b) in
  let* pl := sr_convolute 16 16 r (rb_low b) in
  let* ph := sr_convolute 16 16 r (rb_high b) in
  let* h := chk32 (pa + ph) in
  let* l := chk32 (pa + pl) in
  Ok (RB r ra (rb_abs b) (rb_high b) (rb_low b), (s16 h, s16 l)).
