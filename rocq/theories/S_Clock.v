(** S_Clock.v -- sampling instants and what is read at them, independent of the model. *)
From Verif Require Import Base.

(** Instants are at [tau + period * n].  [ns] are those in the interval from [a] (included) to [b] (excluded). *)
Definition instants (tau period a b : Z) (ns : list Z) : Prop :=
  NoDup ns /\ forall n, In n ns <-> a <= tau + period * n < b.

(** A line that has the value [nth i ws] from [i * cycle] to [(i + 1) * cycle], read at the instants [tau], [tau + period], ... before
    its end: [vs] are the values read. *)
Definition read_at (cycle period tau : Z) (ws vs : list Z) : Prop :=
  forall n, 0 <= n -> (n < Z.of_nat (length vs) <-> tau + period * n < cycle * Z.of_nat (length ws)) /\
    (n < Z.of_nat (length vs) -> nth (Z.to_nat n) vs 0 = nth (Z.to_nat ((tau + period * n) / cycle)) ws 0).
