(** S_Pio.v -- what the two PIO programs should do, independent of the programs. *)
From Verif Require Import Base.

(** ** The transmitter: P1P2 line code *)
(** Bits of a character on the wire: start 0, data LSB first, even parity, stop 1. *)
Definition data_bits (b : Z) : list bool := map (fun i => Z.testbit b (Z.of_nat i)) (seq 0 8).
Definition char_bits (b : Z) : list bool :=
  false :: data_bits b ++ [fold_right xorb false (data_bits b)] ++ [true].
(** Alternate mark inversion: a 0 is a pulse, pulses alternate; a 1 is no pulse.  +1 up, -1 down. *)
Fixpoint ami (next : Z) (bits : list bool) : list Z :=
  match bits with
  | [] => []
  | true :: t => 0 :: ami next t
  | false :: t => next :: ami (- next) t
  end.
(** The symbols of a character; the first pulse is up. *)
Definition char_symbols (b : Z) : list Z := ami 1 (char_bits b).
(** A symbol lasts 16 cycles: 8 of pulse (or nothing) and 8 of nothing. *)
Definition symbol_wave (s : Z) : list Z := repeat s 8 ++ repeat 0 8.
(** The documented character: 11 symbols of 16 cycles. *)
Definition char_wave (b : Z) : list Z := flat_map symbol_wave (char_symbols b).
(** The character as the program sends it: the idle part of the stop bit is one cycle short. *)
Definition char_wave_short (b : Z) : list Z := firstn 175 (char_wave b).
(** A sequence of characters, each preceded by a number of idle cycles. *)
Fixpoint waves (l : list (nat * Z)) : list Z :=
  match l with [] => [] | (g, b) :: t => repeat 0 g ++ char_wave_short b ++ waves t end.

(** Line level of the two side-set pins: both high = up, both low = down, otherwise none. *)
Definition line_level (pins : Z) : Z := if pins =? 3 then 1 else if pins =? 0 then -1 else 0.

(** The word put in the TX FIFO for byte [b]: written by the CPU (zero extended) or by an 8-bit DMA
    transfer (replicated on all byte lanes). *)
Definition word_of (b w : Z) : Prop := 0 <= b < 256 /\ (w = b \/ w = b * 16843009).

(** ** The ADC helper: negate every second sample *)
(** 16-bit two's complement of -a, then b unchanged, for each pair. *)
Fixpoint tc_spec (neg : bool) (l : list Z) : list Z :=
  match l with
  | [] => []
  | a :: t => (if neg then u16 (- a) else a) :: tc_spec (negb neg) t
  end.

(** What the documentation promises: every character takes 11 * 16 cycles. *)
Fixpoint waves_full (l : list (nat * Z)) : list Z :=
  match l with [] => [] | (g, b) :: t => repeat 0 g ++ char_wave b ++ waves_full t end.
(** What the program does: ten symbols of 16 cycles (start, data, parity), then a stop bit of 15
    cycles, then the gap. *)
Fixpoint waves_15 (l : list (nat * Z)) : list Z :=
  match l with
  | [] => []
  | (g, b) :: t => repeat 0 g ++ flat_map symbol_wave (firstn 10 (char_symbols b)) ++ repeat 0 15 ++ waves_15 t
  end.
