(** S_Line.v -- the P1P2 line code, independent of the model.
    A character is 11 symbols: start, 8 data bits (LSB first), parity, stop.  A symbol is a number:
    0 = no pulse = logical 1, non-zero = pulse = logical 0; pulses alternate in polarity. *)
From Verif Require Import Base.

Definition nonzero (z : Z) : bool := negb (z =? 0).

(** Consecutive items have opposite signs. *)
Fixpoint alternating (l : list Z) : Prop :=
  match l with
  | a :: ((b :: _) as t) => a * b < 0 /\ alternating t
  | _ => True
  end.

(** Number of zero symbols (logical ones). *)
Definition ones (l : list Z) : nat := length (filter (fun z => z =? 0) l).

(** The 11 symbols [s] are a valid even-parity character carrying the byte [d]. *)
Record frame_ok (s : list Z) (d : Z) : Prop := FrameOk {
  fo_len : length s = 11%nat;
  fo_byte : 0 <= d < 256;
  fo_start : nth 0 s 0 <> 0;
  fo_data : forall i, (i < 8)%nat -> (Z.testbit d (Z.of_nat i) = true <-> nth (S i) s 0 = 0);
  fo_parity : Nat.even (ones (firstn 9 (skipn 1 s))) = true;
  fo_stop : nth 10 s 0 = 0;
  fo_alt : alternating (filter nonzero s) }.

(** The 11 symbols found at [phase] in a window of samples taken 16 per symbol. *)
Definition symbols (w : list Z) (phase : nat) : list Z :=
  map (fun b => nth (phase + 16 * b) w 0) (seq 0 11).

(** Strength of a phase: sum of symbol magnitudes, 0 if there is no start pulse. *)
Definition strength (w : list Z) (phase : nat) : Z :=
  if nth phase w 0 =? 0 then 0 else fold_right (fun t a => Z.abs t + a) 0 (symbols w phase).

(** [ph] is the first strongest of the eight examined phases, and it has a start pulse. *)
Definition dominant (w : list Z) (ph : nat) : Prop :=
  (ph < 8)%nat /\ 0 < strength w ph /\
  (forall p, (p < ph)%nat -> strength w p < strength w ph) /\
  (forall p, (ph < p < 8)%nat -> strength w p <= strength w ph).

(** [s'] is [s] with exactly one symbol corrupted: pulse lost, spurious pulse or wrong polarity. *)
Definition one_symbol_corrupted (s s' : list Z) : Prop :=
  length s' = length s /\
  exists i, (i < length s)%nat /\ Z.sgn (nth i s' 0) <> Z.sgn (nth i s 0) /\
    forall j, j <> i -> Z.sgn (nth j s' 0) = Z.sgn (nth j s 0).
