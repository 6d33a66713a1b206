(** S_Containers.v -- specifications of the containers, independent of the model. *)
From Verif Require Import Base.

(** The three ways of calling ShiftReg::Update. *)
Inductive upd_kind : Set := UpdPlain | UpdNull | UpdOut.

(** A queue of capacity [N] as a list, oldest first. *)
Inductive q_op (A : Type) : Type := QPush (x : A) | QPop | QClear | QLength | QEmpty | QFull.
Arguments QPush {A}. Arguments QPop {A}. Arguments QClear {A}.
Arguments QLength {A}. Arguments QEmpty {A}. Arguments QFull {A}.
Inductive q_out (A : Type) : Type := RBool (b : bool) | RItem (o : option A) | RNat (n : nat) | RNone.
Arguments RBool {A}. Arguments RItem {A}. Arguments RNat {A}. Arguments RNone {A}.

Definition q_step {A} (N : nat) (q : list A) (o : q_op A) : list A * q_out A :=
  match o with
  | QPush x => if (length q <? N)%nat then (q ++ [x], RBool true) else (q, RBool false)
  | QPop => match q with [] => (q, RItem None) | x :: t => (t, RItem (Some x)) end
  | QClear => ([], RNone)
  | QLength => (q, RNat (length q))
  | QEmpty => (q, RBool (match q with [] => true | _ => false end))
  | QFull => (q, RBool (length q =? N)%nat)
  end.
Fixpoint q_run {A} (N : nat) (q : list A) (l : list (q_op A)) : list A * list (q_out A) :=
  match l with
  | [] => (q, [])
  | o :: t => let '(q1, r) := q_step N q o in let '(q2, rs) := q_run N q1 t in (q2, r :: rs)
  end.

(** A bounded append buffer. *)
Inductive b_op (A : Type) : Type := BPush (x : A) | BClear | BLength | BEmpty | BFull.
Arguments BPush {A}. Arguments BClear {A}. Arguments BLength {A}. Arguments BEmpty {A}. Arguments BFull {A}.
Definition b_step {A} (N : nat) (q : list A) (o : b_op A) : list A * q_out A :=
  match o with
  | BPush x => if (length q <? N)%nat then (q ++ [x], RBool true) else (q, RBool false)
  | BClear => ([], RNone)
  | BLength => (q, RNat (length q))
  | BEmpty => (q, RBool (match q with [] => true | _ => false end))
  | BFull => (q, RBool (length q =? N)%nat)
  end.
Fixpoint b_run {A} (N : nat) (q : list A) (l : list (b_op A)) : list A * list (q_out A) :=
  match l with
  | [] => (q, [])
  | o :: t => let '(q1, r) := b_step N q o in let '(q2, rs) := b_run N q1 t in (q2, r :: rs)
  end.

(** Dot product of two lists (the shorter one decides). *)
Fixpoint dot (a b : list Z) : Z :=
  match a, b with x :: a', y :: b' => x * y + dot a' b' | _, _ => 0 end.
(** Every product and every partial sum (left to right, from [acc]) fits int32_t. *)
Fixpoint dot_fits (acc : Z) (a b : list Z) : bool :=
  match a, b with
  | x :: a', y :: b' => in_i32 (x * y) && in_i32 (acc + x * y) && dot_fits (acc + x * y) a' b'
  | _, _ => true
  end.
