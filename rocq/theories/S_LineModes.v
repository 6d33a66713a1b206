(** S_LineModes.v -- characters with no, even or odd parity bit, independent of the model. *)
From Verif Require Import Base S_Line.

(** Parity mode: none, or present ([Some false] even, [Some true] odd). *)
Definition mode : Set := option bool.
(** Symbols per character: start, 8 data, parity if any, stop. *)
Definition nsym (m : mode) : nat := match m with None => 10 | Some _ => 11 end.
(** Samples of a character that are examined: 16 per symbol, the last half symbol is not waited for. *)
Definition nsamp (m : mode) : nat := match m with None => 152 | Some _ => 168 end.

(** The symbols [s] are a valid character carrying the byte [d] in mode [m]. *)
Record char_ok (m : mode) (s : list Z) (d : Z) : Prop := CharOk {
  co_len : length s = nsym m;
  co_byte : 0 <= d < 256;
  co_start : nth 0 s 0 <> 0;
  co_data : forall i, (i < 8)%nat -> (Z.testbit d (Z.of_nat i) = true <-> nth (S i) s 0 = 0);
  co_parity : forall odd, m = Some odd -> Nat.odd (ones (firstn 9 (skipn 1 s))) = odd;
  co_stop : nth (nsym m - 1) s 0 = 0;
  co_alt : alternating (filter nonzero s) }.

(** Symbols, strength and dominance of a phase, as in S_Line.v for 11 symbols. *)
Definition msymbols (m : mode) (w : list Z) (phase : nat) : list Z :=
  map (fun b => nth (phase + 16 * b) w 0) (seq 0 (nsym m)).
Definition mstrength (m : mode) (w : list Z) (phase : nat) : Z :=
  if nth phase w 0 =? 0 then 0 else fold_right (fun t a => Z.abs t + a) 0 (msymbols m w phase).
Definition mdominant (m : mode) (w : list Z) (ph : nat) : Prop :=
  (ph < 8)%nat /\ 0 < mstrength m w ph /\
  (forall p, (p < ph)%nat -> mstrength m w p < mstrength m w ph) /\
  (forall p, (ph < p < 8)%nat -> mstrength m w p <= mstrength m w ph).
