(** S_PioRate.v -- specification of the timing of the sample converter (twos_complement.pio), independent of its program. *)
From Verif Require Import Base M_Pio S_Pio.

(** The cycles in which words arrive at the converter, in order ([k]: number of the first cycle of the schedule). *)
Fixpoint arrivals (k : Z) (sched : list (list Z)) : list Z :=
  match sched with [] => [] | a :: t => map (fun _ => k) a ++ arrivals (k + 1) t end.
(** Successive arrivals are at least [g] cycles apart. *)
Fixpoint apart (g : Z) (l : list Z) : Prop :=
  match l with x :: ((y :: _) as t) => x + g <= y /\ apart g t | _ => True end.

(** What the converter has delivered at the end of a schedule. *)
Definition delivered (sched : list (list Z)) : list Z := p_rx (snd (tc_run pio_init sched)).
(** ... and what then still waits to be taken. *)
Definition waiting (sched : list (list Z)) : list Z := p_tx (snd (tc_run pio_init sched)).
(** The word [w], arriving after the schedule [sched], takes [n] cycles, counted from the one in which it arrives to the one in which
    its result is delivered, both included: with [k] cycles after the one in which it arrives nothing new has been delivered exactly
    if [k + 1 < n]. *)
Definition latency (sched : list (list Z)) (w : Z) (n : Z) : Prop :=
  forall k, delivered (sched ++ [[w]] ++ repeat [] k) = delivered sched <-> Z.of_nat k + 1 < n.

(** twos_complement.pio:20, "Latency best case 29, worst case 36 cycles", and :61, "Latency 33 cycles" (for every second sample). *)
Definition documented_latency (neg : bool) (n : Z) : Prop := if neg then 29 <= n <= 36 else n = 33.

(** Samples arrive from the ADC: the [i]-th word reaches the converter not before conversion [i] ends ([t0]: end of the first one, times in
    1/96 GHz as in M_Clock.v, [conv]: time of one conversion) and at most [d] cycles of the system clock (768 units, 125 MHz) later. *)
Definition from_adc (conv t0 d : Z) (l : list Z) : Prop :=
  forall i a, nth_error l i = Some a -> 0 <= a * 768 - (t0 + Z.of_nat i * conv) <= d * 768.
