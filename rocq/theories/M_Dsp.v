(** M_Dsp.v -- models of the signal-processing blocks:
    resample.hpp, dcblock.cpp, fir_filter.cpp, level_detect.hpp,
    uart_bit_detect_fast.{hpp,cpp}, line_busy.hpp, uart_edge_detect.hpp. *)
From Verif Require Import Base M_ShiftReg.

(** ** defines.hpp *)
Definition UART_OVERSAMPLING_RATE : nat := 16.   (* defines.hpp:6  *)
Definition BUS_HIGH_MV : Z := 1400.              (* defines.hpp:14 *)
Definition BUS_LOW_MV : Z := 600.                (* defines.hpp:15 *)

(** ** Resample<T> (resample.hpp:4-35).  counter and n are 32-bit size_t. *)
Record resample : Set := RS { rs_counter : Z; rs_n : Z }.
(** resample.hpp:13-15 *)
Definition rs_new (samples : Z) : resample := RS 0 samples.
(** resample.hpp:19-30; [Some v] = returned true with *out = v. *)
Definition rs_update {A} (r : resample) (x : A) : resample * option A :=
  let out := if rs_counter r =? 0 then Some x else None in
  let c := u32 (rs_counter r + 1) in
  (RS (if rs_n r <? c then 0 else c) (rs_n r), out).

(** ** DCblock (dcblock.cpp:7-26) *)
Record dcblock : Set := DC { dc_y : Z; dc_x : Z }.
(** dcblock.cpp:7-9 *)
Definition dc_new : dcblock := DC 0 0.
(** dcblock.cpp:18: (uint16_t)(0.995 * 256) = (uint16_t)254.72 = 254 *)
Definition dc_coeff : Z := 254.
(** dcblock.cpp:13-26.  [in << 8] of a negative value is GCC's multiplication by 256. *)
Definition dc_update (d : dcblock) (x : Z) : res (dcblock * Z) :=
  let* xn := chk32 (x * 256) in
  let* diff := chk32 (xn - dc_x d) in
  let* prod := chk32 (dc_coeff * dc_y d) in
  let* tmp := chk32 (diff + asr prod 8) in
  Ok (DC tmp xn, asr tmp 8).

(** ** FIRFilter (fir_filter.cpp) *)
(** fir_filter.cpp:9-25: the double products truncated to int32_t
    (-2339.03.., 1817.59.., 9984.03.., 14313.61..); the table is stored twice. *)
Definition fir_coefficients : list Z :=
  [-2339; 1817; 9984; 14313; 9984; 1817; -2339;
   -2339; 1817; 9984; 14313; 9984; 1817; -2339].
(** fir_filter.hpp:12-14 *)
Record fir : Set := FIR { fir_reg : shiftreg Z; fir_coeff : shiftreg Z }.
(** fir_filter.cpp:27-30; [buf_b] is the previous content of the coefficient buffer. *)
Definition fir_new (buf_b : list Z) : res fir :=
  let* c := sr_new_init 7 buf_b fir_coefficients in
  Ok (FIR (sr_new 7 0) c).
(** fir_filter.cpp:34-43 *)
Definition fir_update (f : fir) (x : Z) : res (fir * Z) :=
  let* r := sr_update 7 (fir_reg f) x in
  let* tmp := sr_convolute 7 7 r (fir_coeff f) in
  Ok (FIR r (fir_coeff f), asr tmp 15).

(** ** Level<T> (level_detect.hpp).  [conv] is the conversion to T
    (identity for int32_t, [s16] for int16_t). *)
(** level_detect.hpp:10 *)
Definition lv_new : Z := 0.
(** level_detect.hpp:16-30: the hysteresis state after sample [x]. *)
Definition lv_next (st x : Z) : Z :=
  if st =? 0 then
    if BUS_HIGH_MV <=? x then 1
    else if x <=? - BUS_HIGH_MV then -1
    else st
  else if st =? 1 then
    if x <? BUS_LOW_MV then 0 else st
  else
    if - BUS_LOW_MV <? x then 0 else st.
(** level_detect.hpp:14-39 *)
Definition lv_update (conv : Z -> Z) (st x : Z) : res (Z * Z) :=
  let st' := lv_next st x in
  if st' =? 0 then
    let* p := chk32 (x * 26) in
    Ok (st', conv (asr p 8))
  else Ok (st', x).

(** ** UARTBit<T, N> (uart_bit_detect_fast.cpp) *)
(** uart_bit_detect_fast.hpp:28-31 *)
Record uartbit : Set := UBit {
  ub_data : list Z; ub_abs : list Z; ub_level : Z; ub_off : nat }.

Section UARTBit.
  Variable conv : Z -> Z.      (* conversion to T *)
  Variable N : nat.

  (** uart_bit_detect_fast.cpp:17-23 (N, high_level, low_level unsigned 32 bit,
      receiver_level int32_t). *)
  Definition ub_receiver_level (high low error_rate : Z) : res Z :=
    let k := Z.of_nat (N / 2) - 1 in
    let r0 := s32 (u32 (u32 k * high)) in
    let r1 := s32 (u32 (r0 - u32 (u32 k * low))) in
    let* r2 := chk32 (r1 * (error_rate + 1)) in
    Ok (asr r2 8).

  (** uart_bit_detect_fast.cpp:8-24 *)
  Definition ub_new (high low error_rate : Z) : res uartbit :=
    let* lvl := ub_receiver_level high low error_rate in
    Ok (UBit (repeat 0 (2 * N)) (repeat 0 (2 * N)) lvl 0).

  (** uart_bit_detect_fast.cpp:70-85 -- ShiftIn *)
  Definition ub_shift_in (b : uartbit) (x : Z) : res uartbit :=
    let* a := chk32 (Z.abs x) in
    let in_abs := conv a in
    let* _ := assert_ (ub_off b <? N)%nat in
    let* d1 := aset (ub_data b) (ub_off b) x in
    let* d2 := aset d1 (ub_off b + N) x in
    let* a1 := aset (ub_abs b) (ub_off b) in_abs in
    let* a2 := aset a1 (ub_off b + N) in_abs in
    let off := S (ub_off b) in
    Ok (UBit d2 a2 (ub_level b) (if (off =? N)%nat then 0%nat else off)).

  (** uart_bit_detect_fast.cpp:45-51: accumulate k items of [d] from index [i]. *)
  Fixpoint ub_sum (d : list Z) (i k : nat) (acc : Z) : res Z :=
    match k with
    | O => Ok acc
    | S k' =>
        let* v := aget d i in
        let* acc' := chk32 (acc + v) in
        ub_sum d (S i) k' acc'
    end.

  (** uart_bit_detect_fast.cpp:32-62 -- Update *)
  Definition ub_update (b : uartbit) (x : Z) : res (uartbit * Z) :=
    let* b' := ub_shift_in b x in
    let off := ub_off b' in
    let* abs0 := aget (ub_abs b') off in
    (* for (i = 1; i < N/2; i++) *)
    let* high := ub_sum (ub_data b') (off + 1) (N / 2 - 1) 0 in
    (* for (i += 2; i < N; i++), i == N/2 before the increment *)
    let* absv := ub_sum (ub_abs b') (off + (N / 2 + 2)) (N - (N / 2 + 2)) abs0 in
    let* h := chk32 (high - absv) in
    let* nh := chk32 (- high) in
    let* l := chk32 (nh - absv) in
    if ub_level b' <=? h then Ok (b', conv h)
    else if ub_level b' <=? l then
      let* nl := chk32 (- l) in Ok (b', conv nl)
    else Ok (b', 0).
End UARTBit.

(** uart_bit_detect_fast.cpp:87-90 and main.cpp:77: the instance used by the firmware,
    UARTBit<int32_t, 16> bit(..., BUS_HIGH_MV, BUS_LOW_MV, 0xE0). *)
Definition bit_new : res uartbit := ub_new 16 BUS_HIGH_MV BUS_LOW_MV 224.
Definition bit_update : uartbit -> Z -> res (uartbit * Z) := ub_update (fun z => z) 16.

(** ** LineBusy<N> (line_busy.hpp:4-36; not instantiated by main.cpp) *)
Record linebusy : Set := LB { lb_reg : shiftreg Z; lb_level : Z }.
(** line_busy.hpp:8-13 *)
Definition lb_new (N : nat) (level : Z) : linebusy := LB (sr_new N 0) level.
(** line_busy.hpp:15-18 *)
Definition lb_update (N : nat) (b : linebusy) (x : Z) : res linebusy :=
  let* r := sr_update_null N (lb_reg b) x in Ok (LB r (lb_level b)).
(** line_busy.hpp:23-26 *)
Fixpoint lb_count (N : nat) (b : linebusy) (i k : nat) (cnt : nat) : res nat :=
  match k with
  | O => Ok cnt
  | S k' =>
      let* v := sr_at N (lb_reg b) i in
      let* nl := chk32 (- lb_level b) in
      lb_count N b (S i) k'
        (if (lb_level b <? v) || (v <? nl) then S cnt else cnt)
  end.
(** line_busy.hpp:22-30 *)
Definition lb_busy (N : nat) (b : linebusy) : res bool :=
  let* cnt := lb_count N b 0 N 0 in
  Ok ((N / 8 <? cnt)%nat && (cnt <=? N * 5 / 8)%nat).

(** ** UARTEdge (uart_edge_detect.hpp:4-31; not instantiated by main.cpp) *)
Record edge : Set := EDGE { ed_phase : Z; ed_max : Z; ed_counter : Z }.
(** uart_edge_detect.hpp:7-16 -- constructor and Reset *)
Definition ed_new : edge := EDGE 0 0 0.
(** uart_edge_detect.hpp:18-24 *)
Definition ed_update (e : edge) (p : Z) : edge :=
  let c := u8 (ed_counter e + 1) in
  if ed_max e <? p then EDGE (ed_counter e) p c
  else EDGE (ed_phase e) (ed_max e) c.
