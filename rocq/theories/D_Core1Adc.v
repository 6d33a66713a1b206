(** D_Core1Adc.v -- the ADC as the receive core uses it, alone. *)
From Verif Require Import Base M_Adc M_Core1 S_Core1 D_Core1 S_Adc D_Adc.

(** main.cpp:146-154: poll; after a flagged value Reset(). *)
Definition adc_guarded (a : adc) (e : adc_ev) : res (adc * option (option (Z * bool))) :=
  let* (a1, r) := adc_event a e in
  Ok (match r with Some (Some (_, true)) => adc_reset a1 | _ => a1 end, r).
(** The part of a schedule of the receive core that concerns the ADC, and the room in the queue at each iteration. *)
Definition adc_part (i : c1_input) : adc_ev :=
  match i with Dma v => S_Adc.Sample v | Iter c _ => Poll c end.
Definition rooms (l : list c1_input) : list bool :=
  flat_map (fun i => match i with Dma _ => [] | Iter _ w => [w] end) l.
(** Iterations of a run. *)
Definition iterations (outs : list (option (option event * bool))) : list (option event * bool) :=
  flat_map (fun o => match o with Some x => [x] | None => [] end) outs.
