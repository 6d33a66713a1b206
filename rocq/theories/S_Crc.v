(** S_Crc.v -- the packet checksum as polynomial arithmetic over GF(2), independent of the model. *)
From Verif Require Import Base.

(** The bits of a byte in transmission order (least significant first), and of a packet. *)
Definition bits8 (b : Z) : list bool := map (Z.testbit b) [0; 1; 2; 3; 4; 5; 6; 7].
Definition bits (data : list Z) : list bool := flat_map bits8 data.

(** A polynomial over GF(2) is the number whose binary digits are its coefficients.
    The polynomial of a bit string: the first transmitted bit has the highest degree. *)
Definition poly (l : list bool) : Z := fold_left (fun a b => 2 * a + Z.b2z b) l 0.
(** Carry-less product. *)
Fixpoint clmul_pos (q : positive) (g : Z) : Z :=
  match q with
  | xH => g
  | xO q' => 2 * clmul_pos q' g
  | xI q' => Z.lxor (2 * clmul_pos q' g) g
  end.
Definition clmul (q g : Z) : Z := match q with Zpos p => clmul_pos p g | _ => 0 end.
(** Generator x^8 + x^7 + x^4 + x^3 + x + 1. *)
Definition G : Z := 411.
(** [r] is the remainder of [m] modulo [G]. *)
Definition remainder (m r : Z) : Prop := 0 <= r < 256 /\ exists q, 0 <= q /\ m = Z.lxor (clmul q G) r.
(** A byte with its bits in reverse order. *)
Definition reverse8 (b : Z) : Z := poly (bits8 b).
(** [c] is the checksum of [data]: the remainder of data * x^8, sent least significant bit first. *)
Definition checksum (data : list Z) (c : Z) : Prop :=
  0 <= c < 256 /\ remainder (Z.shiftl (poly (bits data)) 8) (reverse8 c).

Definition bytes (l : list Z) : Prop := Forall (fun b => 0 <= b < 256) l.
Definition xor_bytes (a b : list Z) : list Z := map (fun p => Z.lxor (fst p) (snd p)) (combine a b).
Definition xor_bits (a b : list bool) : list bool := map (fun p => xorb (fst p) (snd p)) (combine a b).
(** All wrong bits lie within 8 consecutive positions, and there is at least one. *)
Definition burst (e : list bool) : Prop :=
  exists i p k, e = repeat false i ++ p ++ repeat false k /\ (length p <= 8)%nat /\ In true p.
(** Exactly two wrong bits, [S d] positions apart. *)
Definition two_errors (i d k : nat) : list bool := repeat false i ++ [true] ++ repeat false d ++ [true] ++ repeat false k.
(** Number of ones. *)
Definition ones (l : list bool) : nat := length (filter (fun b => b) l).
(** A packet whose last byte is the checksum of the bytes before it. *)
Definition valid (p : list Z) : Prop := exists d c, p = d ++ [c] /\ checksum d c.
