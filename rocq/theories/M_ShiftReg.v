(** M_ShiftReg.v -- model of pico/src/shiftreg.hpp (template ShiftReg<T, N>).
    [A] is the element type T, [N] the template size parameter. *)
From Verif Require Import Base.

(** shiftreg.hpp:108-110: the external buffer (2*N cells) and the write offset.
    [off] is a uint32_t in the code; it is always < N so [nat] is exact. *)
Record shiftreg (A : Type) : Type := SR { sr_data : list A; sr_off : nat }.
Arguments SR {A}. Arguments sr_data {A}. Arguments sr_off {A}.

Section ShiftReg.
  Context {A : Type}.
  Variable N : nat.

  (** shiftreg.hpp:28-31 -- ShiftReg(buffer): memset(buffer, 0, 2N). [zero] is T(0). *)
  Definition sr_new (zero : A) : shiftreg A := SR (repeat zero (2 * N)) 0.

  (** shiftreg.hpp:18-26 -- ShiftReg(buffer, init): the loop stores init[i] at
      [i] and [i+N].  [buffer] is the previous content of the 2N-cell buffer. *)
  Fixpoint sr_init_loop (init : list A) (i k : nat) (buf : list A) : res (list A) :=
    match k with
    | O => Ok buf
    | S k' =>
        let* v := aget init i in
        let* b1 := aset buf i v in
        let* b2 := aset b1 (i + N) v in
        sr_init_loop init (S i) k' b2
    end.
  Definition sr_new_init (buffer init : list A) : res (shiftreg A) :=
    let* d := sr_init_loop init 0 N buffer in Ok (SR d 0).

  (** shiftreg.hpp:39-44 / 51-56 -- the common store-and-advance part. *)
  Definition sr_store (s : shiftreg A) (x : A) : res (shiftreg A) :=
    let* d1 := aset (sr_data s) (sr_off s) x in
    let* d2 := aset d1 (sr_off s + N) x in
    let off := S (sr_off s) in
    Ok (SR d2 (if (off =? N)%nat then 0%nat else off)).

  (** shiftreg.hpp:34-46 -- Update(in, out) with out != NULL; returns the popped value. *)
  Definition sr_update_out (s : shiftreg A) (x : A) : res (shiftreg A * A) :=
    let* old := aget (sr_data s) (sr_off s) in
    let* _ := assert_ (sr_off s <? N)%nat in
    let* s' := sr_store s x in
    Ok (s', old).

  (** shiftreg.hpp:34-46 -- Update(in, NULL). *)
  Definition sr_update_null (s : shiftreg A) (x : A) : res (shiftreg A) :=
    let* _ := assert_ (sr_off s <? N)%nat in
    sr_store s x.

  (** shiftreg.hpp:50-58 -- Update(in). *)
  Definition sr_update (s : shiftreg A) (x : A) : res (shiftreg A) := sr_store s x.

  (** shiftreg.hpp:60-62 *)
  Definition sr_length (s : shiftreg A) : nat := N.

  (** shiftreg.hpp:66-74 -- At(i). *)
  Definition sr_at (s : shiftreg A) (i : nat) : res A :=
    let* _ := assert_ (i <? N)%nat in
    aget (sr_data s) (i + sr_off s).

  (** shiftreg.hpp:79-84 -- Data()[i]: pointer to data[off], dereferenced at i. *)
  Definition sr_data_at (s : shiftreg A) (i : nat) : res A :=
    aget (sr_data s) (sr_off s + i).
End ShiftReg.

(** shiftreg.hpp:92-106 -- Convolute: int32 accumulation over min(X, Y) items.
    Element types are at most 32 bits, promoted to int; product and sum are
    signed 32-bit arithmetic (overflow is UB). *)
Fixpoint sr_conv_loop (a b : shiftreg Z) (i k : nat) (acc : Z) : res Z :=
  match k with
  | O => Ok acc
  | S k' =>
      let* x := sr_data_at a i in
      let* y := sr_data_at b i in
      let* p := chk32 (x * y) in
      let* acc' := chk32 (acc + p) in
      sr_conv_loop a b (S i) k' acc'
  end.
Definition sr_convolute (X Y : nat) (a b : shiftreg Z) : res Z :=
  sr_conv_loop a b 0 (if (X <? Y)%nat then X else Y) 0.
