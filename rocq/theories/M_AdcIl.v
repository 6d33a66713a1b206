(** M_AdcIl.v -- ADC::Update with DMA transfers between its memory accesses. *)
From Verif Require Import Base M_Adc.

(** Transfers one after the other. *)
Definition ring_writes (r : dma_ring) (w : list Z) : dma_ring := fold_left ring_write w r.

(** adc.cpp:199-220 -- the first half of Update: a restart if the channel is idle, with [w1] transferred between the restart (:219)
    and the second read of the transfer count (:220). *)
Definition il_begin (ch1_done : bool) (w1 : list Z) (a : adc) : adc :=
  if rg_tc (ad_ring a) =? 0 then
    let e := if ch1_done then ad_error a else true in
    let b := adc_dma_restart (ADC (ad_ring a) (ad_tc a) (ad_off a) e (ad_gain a)) in
    ADC (ring_writes (ad_ring b) w1) (ad_tc b) (ad_off b) (ad_error b) (ad_gain b)
  else a.

(** adc.cpp:196-251 -- Update as in M_Adc.adc_update, but the DMA goes on while it runs: [w1] as above; [w2], [w3], [w4] are
    transferred before the reads of the three samples (:236-238, in the order of the source).  The reads of adc.cpp:199 and :224 see
    the same register value unless there is a restart (tc_hw is a local variable). *)
Definition adc_update_il (ch1_done : bool) (w1 w2 w3 w4 : list Z) (a : adc) : res (adc * option Z) :=
  let a1 := il_begin ch1_done w1 a in
  let tc_hw := rg_tc (ad_ring a1) in
  if ad_tc a1 =? tc_hw then Ok (a1, None)
  else
    let err := if negb (Z.land (u32 (ad_tc a1 - tc_hw)) 4294967040 =? 0) then true else ad_error a1 in
    let tc := u32 (ad_tc a1 - 1) in
    let r2 := ring_writes (ad_ring a1) w2 in
    let* x1 := aget (rg_data r2) (Z.to_nat (u8 (ad_off a1 - 0))) in
    let r3 := ring_writes r2 w3 in
    let* x2 := aget (rg_data r3) (Z.to_nat (u8 (ad_off a1 - 2))) in
    let r4 := ring_writes r3 w4 in
    let* y := aget (rg_data r4) (Z.to_nat (u8 (ad_off a1 - 1))) in
    let diff := s16 (Z.quot (x1 + x2) 2) in
    let diff := s16 (diff + y) in
    let* prod := chk32 (diff * ad_gain a1) in
    Ok (ADC r4 tc (u8 (ad_off a1 + 1)) err (ad_gain a1), Some (asr prod 8)).
