(** D_Adc.v -- driver: a DMA transfer, or one poll as core1 does it (main.cpp:147-155: Update and, if
    it delivered data, Error). *)
From Verif Require Import Base M_Adc S_Adc.

Definition adc_poll (c : bool) (a : adc) : res (adc * option (Z * bool)) :=
  let* (a1, o) := adc_update c a in
  match o with
  | None => Ok (a1, None)
  | Some v => let '(a2, e) := adc_read_error a1 in Ok (a2, Some (v, e))
  end.
(** Output: [None] for a transfer, [Some r] for a poll with result [r] = value and error flag. *)
Definition adc_event (a : adc) (e : adc_ev) : res (adc * option (option (Z * bool))) :=
  match e with
  | Sample v => Ok (ADC (ring_write (ad_ring a) v) (ad_tc a) (ad_off a) (ad_error a) (ad_gain a), None)
  | Poll c => let* (a1, r) := adc_poll c a in Ok (a1, Some r)
  end.
