(** T_Containers.v -- property theorems C01..C05. *)
From Verif Require Import Base S_Containers M_ShiftReg M_Fifo D_Containers P_Containers.

(** C01: after any sequence of Update calls, nothing is UB, the window is the last N samples
    (oldest first, constructor contents before the first N), and the k-th Update(in, &out) returns
    the item that is N positions older. *)
Theorem C01_shiftreg_window : forall (A : Type) (N : nat) (zero : A) (ops : list (upd_kind * A)),
  (1 <= N)%nat ->
  exists s outs, mrun (sr_apply N) (sr_new N zero) ops = Ok (s, outs) /\
    (forall i, (i < N)%nat ->
       exists a, nth_error (lastn N (repeat zero N ++ map snd ops)) i = Some a /\
         sr_at N s i = Ok a /\ sr_data_at s i = Ok a) /\
    (forall k x, nth_error ops k = Some (UpdOut, x) ->
       nth_error outs k = Some (nth_error (repeat zero N ++ map snd ops) k)).
Proof. exact @shiftreg_last_N. Qed.
Print Assumptions C01_shiftreg_window.

Example C01_ex : exists s outs,
  mrun (sr_apply 3) (sr_new 3 0) [(UpdPlain, 1); (UpdNull, 2); (UpdOut, 3); (UpdOut, 4)] = Ok (s, outs)
  /\ sr_at 3 s 0 = Ok 2 /\ sr_at 3 s 2 = Ok 4 /\ outs = [None; None; Some 0; Some 1].
Proof. ex_solve. Qed.

(** C01, constructor with initial contents. *)
Theorem C01_shiftreg_window_init : forall (A : Type) (N : nat) (buf init : list A) (ops : list (upd_kind * A)),
  (1 <= N)%nat -> (N <= length init)%nat -> length buf = (2 * N)%nat ->
  exists s0 s outs, sr_new_init N buf init = Ok s0 /\
    mrun (sr_apply N) s0 ops = Ok (s, outs) /\
    (forall i, (i < N)%nat ->
       exists a, nth_error (lastn N (firstn N init ++ map snd ops)) i = Some a /\
         sr_at N s i = Ok a /\ sr_data_at s i = Ok a) /\
    (forall k x, nth_error ops k = Some (UpdOut, x) ->
       nth_error outs k = Some (nth_error (firstn N init ++ map snd ops) k)).
Proof. exact @shiftreg_init_last_N. Qed.
Print Assumptions C01_shiftreg_window_init.

Example C01_init_ex : exists s0 s outs,
  sr_new_init 2 [9; 9; 9; 9] [5; 6; 7] = Ok s0 /\
  mrun (sr_apply 2) s0 [(UpdOut, 1); (UpdOut, 2); (UpdOut, 3)] = Ok (s, outs) /\
  sr_at 2 s 0 = Ok 2 /\ outs = [Some 5; Some 6; Some 1].
Proof. ex_solve. Qed.

(** C02: Convolute is the dot product of the two windows; UB exactly on int32 overflow of a
    product or partial sum. *)
Theorem C02_convolute : forall (X Y : nat) (za zb : Z) (opa opb : list (upd_kind * Z)) a b oa ob,
  (1 <= X)%nat -> (1 <= Y)%nat ->
  mrun (sr_apply X) (sr_new X za) opa = Ok (a, oa) ->
  mrun (sr_apply Y) (sr_new Y zb) opb = Ok (b, ob) ->
  let wa := lastn X (repeat za X ++ map snd opa) in
  let wb := lastn Y (repeat zb Y ++ map snd opb) in
  sr_convolute X Y a b = if dot_fits 0 wa wb then Ok (dot wa wb) else UB SignedOverflow.
Proof. exact convolute_history. Qed.
Print Assumptions C02_convolute.

Example C02_ex : exists a b oa ob,
  mrun (sr_apply 3) (sr_new 3 0) [(UpdPlain, 1); (UpdPlain, 2); (UpdPlain, 3); (UpdPlain, 4)] = Ok (a, oa) /\
  mrun (sr_apply 2) (sr_new 2 0) [(UpdPlain, 10); (UpdPlain, -7)] = Ok (b, ob) /\
  sr_convolute 3 2 a b = Ok (2 * 10 + 3 * -7).
Proof. ex_solve. Qed.

(** C03: the fifo answers every call exactly like a queue of capacity N. *)
Theorem C03_fifo_is_bounded_queue : forall (A : Type) (N : nat) (d : A) (ops : list (q_op A)),
  (1 <= N)%nat ->
  exists f, mrun (ff_apply N) (ff_new N d) ops = Ok (f, snd (q_run N [] ops)).
Proof. exact @fifo_is_queue. Qed.
Print Assumptions C03_fifo_is_bounded_queue.

Theorem C03_fifo_init_is_bounded_queue : forall (A : Type) (N : nat) (init : list A) (ops : list (q_op A)),
  (1 <= N)%nat -> length init = N ->
  exists f, mrun (ff_apply N) (ff_new_init N init) ops = Ok (f, snd (q_run N init ops)).
Proof. exact @fifo_init_is_queue. Qed.
Print Assumptions C03_fifo_init_is_bounded_queue.

Example C03_ex : exists f,
  mrun (ff_apply 2) (ff_new 2 0)
    [QPush 1; QPush 2; QPush 3; QFull; QPop; QPush 4; QLength; QPop; QPop; QPop; QEmpty]
  = Ok (f, [RBool true; RBool true; RBool false; RBool true; RItem (Some 1); RBool true;
            RNat 2; RItem (Some 2); RItem (Some 4); RItem None; RBool true]).
Proof. ex_solve. Qed.

(** C04 is false of the code: after Push 1, Push 2, Pop the oldest item is 2, At(0) returns 1. *)
Theorem C04_fifo_at_oldest_refuted : exists (ops : list (q_op Z)) f rs x,
  mrun (ff_apply 4) (ff_new 4 0) ops = Ok (f, rs) /\
  nth_error (fst (q_run 4 [] ops)) 0 = Some x /\ ff_at 4 f 0 <> Ok x.
Proof.
  exists [QPush 1; QPush 2; QPop]. ex_solve.
Qed.
Print Assumptions C04_fifo_at_oldest_refuted.

(** C04, what holds: if nothing was ever popped, At(i) is the i-th oldest item. *)
Theorem C04_fifo_at_without_pop_partial : forall (A : Type) (N : nat) (d : A) (ops : list (q_op A)) f rs,
  (1 <= N)%nat -> forallb no_pop ops = true ->
  mrun (ff_apply N) (ff_new N d) ops = Ok (f, rs) ->
  forall i x, nth_error (fst (q_run N [] ops)) i = Some x -> ff_at N f i = Ok x.
Proof. exact @fifo_at_without_pop. Qed.
Print Assumptions C04_fifo_at_without_pop_partial.

Example C04_ex : exists f rs,
  mrun (ff_apply 2) (ff_new 2 0) [QPush 5; QPush 6; QPush 7] = Ok (f, rs) /\
  fst (q_run 2 [] [QPush 5; QPush 6; QPush 7]) = [5; 6] /\ ff_at 2 f 1 = Ok 6.
Proof. ex_solve. Qed.

(** C05: the line receiver answers every call like a bounded append buffer; At(i) is its i-th item. *)
Theorem C05_line_receiver_is_buffer : forall (A : Type) (N : nat) (d : A) (ops : list (b_op A)),
  exists f, mrun (lr_apply N) (lr_new N d) ops = Ok (f, snd (b_run N [] ops)) /\
    forall i x, nth_error (fst (b_run N [] ops)) i = Some x -> lr_at N f i = Ok x.
Proof. exact @linerx_is_buffer. Qed.
Print Assumptions C05_line_receiver_is_buffer.

Example C05_ex : exists f,
  mrun (lr_apply 2) (lr_new 2 0) [BPush 1; BClear; BPush 2; BPush 3; BPush 4; BFull; BLength]
  = Ok (f, [RBool true; RNone; RBool true; RBool true; RBool false; RBool true; RNat 2]) /\
  lr_at 2 f 0 = Ok 2 /\ lr_at 2 f 1 = Ok 3.
Proof. ex_solve. Qed.
