(** S_Analog.v -- packets on the line in continuous time, and what a converter with its own clock takes from it;
    independent of the model.  Times in units of 1/96000000000 s, voltages in 1/256 of an ADC step (see S_Front). *)
From Verif Require Import Base S_Dsp S_Pio S_Core1 S_Front.

(** A packet on the line: the time of its beginning, the length of 1/16 bit by the clock of its sender, its amplitude (negative: wires
    swapped), its first byte and the others, each with a number of further idle 1/16 bits before it. *)
Record signal : Set := SIGNAL { sg_start : Z; sg_cycle : Z; sg_amp : Z; sg_first : Z; sg_rest : list (nat * Z) }.
Definition sg_bytes (s : signal) : list Z := sg_first s :: map snd (sg_rest s).
Definition sg_line (s : signal) : list Z := waves ((0%nat, sg_first s) :: sg_rest s).
Definition sg_end (s : signal) : Z := sg_start s + sg_cycle s * Z.of_nat (length (sg_line s)).
(** The voltage at time [x]. *)
Fixpoint volts (l : list signal) (x : Z) : Z :=
  match l with
  | [] => 0
  | s :: t => if (sg_start s <=? x) && (x <? sg_end s) then sg_amp s * nth (Z.to_nat ((x - sg_start s) / sg_cycle s)) (sg_line s) 0 else volts t x
  end.
(** Converted every [period], [n] times, beginning at time 0. *)
Definition converted (period : Z) (n : nat) (l : list signal) : list Z := map (fun i => volts l (period * Z.of_nat i)) (seq 0 n).

(** The packets come one after the other, each at least 880000000 units (9.17 ms) after the one before ([from] for the first one);
    after the last one there are [last] units until [till]. *)
Fixpoint spaced (last from till : Z) (l : list signal) : Prop :=
  match l with
  | [] => from + last <= till
  | s :: t => from + 880000000 <= sg_start s /\ spaced last (sg_end s) till t
  end.
(** A packet that can be read by a receiver that samples every [period] and should take 16 samples per bit: strong enough, the clock of the sender is equally
    fast or up to 1/176 faster, and it takes at most 169 samples per byte and 176 more (a packet without pauses has 174 to 175 per byte). *)
Definition signal_ok (period n : Z) (s : signal) : Prop :=
  strong n (Z.abs (sg_amp s)) /\ 175 * period <= 176 * sg_cycle s /\ sg_cycle s <= period /\ Forall (fun b => 0 <= b < 256) (sg_bytes s) /\
  sg_cycle s * Z.of_nat (length (sg_line s)) <= period * (169 * Z.of_nat (length (sg_bytes s)) + 176).
