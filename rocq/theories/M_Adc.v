(** M_Adc.v -- model of pico/src/adc.{hpp,cpp}: the DMA ring buffer and Update(). *)
From Verif Require Import Base.

(** adc.cpp:139 *)
Definition TC_INIT : Z := 268435456.     (* 0x10000000 *)

(** Hardware side of DMA channel2 (adc.cpp:85-107): ring write index (the write address wraps
    every 512 bytes = 256 samples), remaining transfer count, and the ring memory itself. *)
Record dma_ring : Set := RING { rg_data : list Z; rg_wr : nat; rg_tc : Z }.

(** One DMA transfer of an int16_t sample [v] into the ring; a finished channel
    (transfer_count == 0) transfers nothing. *)
Definition ring_write (r : dma_ring) (v : Z) : dma_ring :=
  if rg_tc r =? 0 then r
  else RING (upd (rg_data r) (rg_wr r) v) ((rg_wr r + 1) mod 256)%nat (rg_tc r - 1).

(** adc.hpp:36-42: data is the ring; tc (uint32_t), off (uint8_t), error, gain. *)
Record adc : Set := ADC { ad_ring : dma_ring; ad_tc : Z; ad_off : Z; ad_error : bool; ad_gain : Z }.

(** adc.cpp:137-151 -- DMARestart *)
Definition adc_dma_restart (a : adc) : adc :=
  ADC (RING (rg_data (ad_ring a)) 0 TC_INIT) TC_INIT 0 (ad_error a) (ad_gain a).

(** adc.cpp:47-48 and 153-166 -- constructor followed by Start(); [mem] is the 256-cell buffer. *)
Definition adc_start (mem : list Z) (gain : Z) : adc :=
  adc_dma_restart (ADC (RING mem 0 TC_INIT) TC_INIT 0 false gain).

(** adc.cpp:20-23 -- SetGain(gain), ADC_REF_VOLTAGE_MV = 3000 *)
Definition adc_gain (gain : Z) : Z := s32 (Z.shiftr (u32 (gain * 3000)) 8).
(** main.cpp:135: SetGain((uint16_t)(1.666 * 0x100)) = SetGain(426) *)
Definition firmware_gain : Z := adc_gain 426.

(** adc.cpp:12-16 -- Error (read and clear) *)
Definition adc_read_error (a : adc) : adc * bool :=
  (ADC (ad_ring a) (ad_tc a) (ad_off a) false (ad_gain a), ad_error a).

(** adc.cpp:188-191 -- Reset: Stop() then Start(). *)
Definition adc_reset (a : adc) : adc := adc_dma_restart a.

(** adc.cpp:196-251 -- Update.  [ch1_done]: whether channel 1's transfer count reaches 0 within
    the 100000 polls of adc.cpp:209-217 (only consulted when channel2 has finished).
    No DMA transfer happens while Update itself runs (a transfer takes >= 3 us). *)
Definition adc_update (ch1_done : bool) (a : adc) : res (adc * option Z) :=
  let a1 :=
    if rg_tc (ad_ring a) =? 0 then
      let e := if ch1_done then ad_error a else true in
      adc_dma_restart (ADC (ad_ring a) (ad_tc a) (ad_off a) e (ad_gain a))
    else a in
  let tc_hw := rg_tc (ad_ring a1) in
  if ad_tc a1 =? tc_hw then Ok (a1, None)
  else
    let err := if negb (Z.land (u32 (ad_tc a1 - tc_hw)) 4294967040 =? 0) then true else ad_error a1 in
    let tc := u32 (ad_tc a1 - 1) in
    let d := rg_data (ad_ring a1) in
    let* x1 := aget d (Z.to_nat (u8 (ad_off a1 - 0))) in
    let* x2 := aget d (Z.to_nat (u8 (ad_off a1 - 2))) in
    let* y := aget d (Z.to_nat (u8 (ad_off a1 - 1))) in
    let diff := s16 (Z.quot (x1 + x2) 2) in
    let diff := s16 (diff + y) in
    let* prod := chk32 (diff * ad_gain a1) in
    Ok (ADC (ad_ring a1) tc (u8 (ad_off a1 + 1)) err (ad_gain a1), Some (asr prod 8)).
