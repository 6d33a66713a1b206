(** D_AdcIl.v -- driver: a DMA transfer, or one poll (main.cpp:147-155) with transfers while Update runs. *)
From Verif Require Import Base M_Adc M_AdcIl S_Adc S_AdcIl.

Definition adc_poll_il (c : bool) (w1 w2 w3 w4 : list Z) (a : adc) : res (adc * option (Z * bool)) :=
  let* (a1, o) := adc_update_il c w1 w2 w3 w4 a in
  match o with
  | None => Ok (a1, None)
  | Some v => let '(a2, e) := adc_read_error a1 in Ok (a2, Some (v, e))
  end.
Definition il_event (a : adc) (e : il_ev) : res (adc * option (option (Z * bool))) :=
  match e with
  | ISample v => Ok (ADC (ring_write (ad_ring a) v) (ad_tc a) (ad_off a) (ad_error a) (ad_gain a), None)
  | IPoll c w1 w2 w3 w4 => let* (a1, r) := adc_poll_il c w1 w2 w3 w4 a in Ok (a1, Some r)
  end.
