(** S_Front.v -- what the ADC sees of a line, independent of the model.  Voltages are in 1/256 of an ADC step (one step
    of the difference is 39 mV), 32 ADC samples per bit. *)
From Verif Require Import Base S_Adc S_Dsp S_Pio S_Core1.

(** Every 1/16 bit is sampled twice. *)
Definition twice (ws : list Z) : list Z := flat_map (fun w => [w; w]) ws.
(** The ideal voltage on the line: packets one after the other, each with [amp] volts (negative: wires swapped), after [idle]
    further idle ADC samples; then nothing for [tail] samples. *)
Record burst : Set := BURST { bu_idle : nat; bu_amp : Z; bu_packet : packet }.
Fixpoint voltage (l : list burst) (tail : nat) : list Z :=
  match l with
  | [] => repeat 0 tail
  | b :: t => repeat 0 (bu_idle b) ++ map (Z.mul (bu_amp b)) (twice (waves (pk_chars (bu_packet b)))) ++ voltage t tail
  end.
(** The ADC samples of it: the two pins carry the common voltage plus / minus half of the line voltage and are sampled alternately,
    the second one is negated (C25) -- so the common voltage alternates in sign -- and every sample is off by at most [n]. *)
Fixpoint digitised (n common : Z) (us rs : list Z) : Prop :=
  match us, rs with
  | [], [] => True
  | u :: ut, r :: rt => - n <= 256 * r - (common + u) <= n /\ digitised n (- common) ut rt
  | _, _ => False
  end.
(** Amplitude [a] is strong against deviations of [n]: e.g. 49 to 107 steps for n = 0, 50 to 105 steps for n = 128 (rounding only),
    65 to 104 steps for n = 256 (one step). *)
Definition strong (n a : Z) : Prop := 0 <= n /\ 12420 + 3 * n <= a /\ 3950 + 49 * n <= a /\ a <= 27500 - 3 * n /\ a <= 34300 - 25 * n.
(** The values the ADC hands out for the samples [T] when none is missed (C27), in mV. *)
Definition values (gain : Z) (mem T : list Z) : list Z := map (fun i => value_at gain mem T (Z.of_nat i)) (seq 0 (length T)).
(** A packet that can be read: strong enough, at least 1400/16 bit times after the one before (the baseline settles), not torn apart. *)
Definition burst_ok (n : Z) (b : burst) : Prop :=
  strong n (Z.abs (bu_amp b)) /\ (1400 <= pk_gap (bu_packet b))%nat /\ inner_quiet (bu_packet b) <= 172 /\ Forall (fun c => 0 <= snd c < 256) (pk_chars (bu_packet b)).
