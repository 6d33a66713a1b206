(** S_ModemLine.v -- what a second modem sees when a first one transmits (C117, C118); independent of the receiver's model. *)
From Verif Require Import Base M_Pio M_Clock S_Pio S_PioTime.

(** The voltage of the line at time [x] (units as in S_Analog.v) when the transmitter of a modem was started at time [t0] and has driven its
    pins as in [tr], cycle by cycle; [amp]: amplitude, negative if the wires are swapped. *)
Definition driven (t0 amp : Z) (tr : list Z) (x : Z) : Z :=
  if x <? t0 then 0 else amp * nth (Z.to_nat ((x - t0) / pio_cycle_time)) (map line_level tr) 0.
(** Converted every [period], [n] times. *)
Definition converted_of (f : Z -> Z) (period : Z) (n : nat) : list Z := map (fun i => f (period * Z.of_nat i)) (seq 0 n).

(** Messages of 1 to 31 bytes each, the bytes arriving in the cycles [arr]: the first byte of each at least 1409 cycles (9.17 ms) after the end of the one before (for the
    first: after cycle [pos]), the others in time to be sent without a pause, the last message over by cycle [till]. *)
Fixpoint sent_as (pos till : Z) (arr : list Z) (ms : list (list Z)) : Prop :=
  match ms with
  | [] => arr = [] /\ pos <= till
  | m :: t => (length m <= 31)%nat /\ exists a g rest, arr = a :: g ++ rest /\ length m = S (length g) /\ pos + 1408 <= a /\
      (forall k x, nth_error g k = Some x -> x <= a + char_cycles * (Z.of_nat k + 1)) /\
      sent_as (a + 1 + char_cycles * Z.of_nat (length m)) till rest t
  end.
