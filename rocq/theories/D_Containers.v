(** D_Containers.v -- drivers: one API call of a container, dispatched to the model. *)
From Verif Require Import Base S_Containers M_ShiftReg M_Fifo.

(** The three Update variants as one operation; [None] when nothing is popped. *)
Definition sr_apply {A} (N : nat) (s : shiftreg A) (o : upd_kind * A) : res (shiftreg A * option A) :=
  match fst o with
  | UpdPlain => let* s' := sr_update N s (snd o) in Ok (s', None)
  | UpdNull => let* s' := sr_update_null N s (snd o) in Ok (s', None)
  | UpdOut => let* (s', old) := sr_update_out N s (snd o) in Ok (s', Some old)
  end.

(** One FifoIrqSafe call. *)
Definition ff_apply {A} (N : nat) (f : fifo A) (o : q_op A) : res (fifo A * q_out A) :=
  match o with
  | QPush x => let* (f', b) := ff_push N f x in Ok (f', RBool b)
  | QPop => let* (f', r) := ff_pop N f in Ok (f', RItem r)
  | QClear => Ok (ff_clear f, RNone)
  | QLength => Ok (f, RNat (ff_length f))
  | QEmpty => Ok (f, RBool (ff_empty f))
  | QFull => Ok (f, RBool (ff_full N f))
  end.

(** One LineReceiverIrqSafe call. *)
Definition lr_apply {A} (N : nat) (f : linerx A) (o : b_op A) : res (linerx A * q_out A) :=
  match o with
  | BPush x => let* (f', b) := lr_push N f x in Ok (f', RBool b)
  | BClear => Ok (lr_clear f, RNone)
  | BLength => Ok (f, RNat (lr_length f))
  | BEmpty => Ok (f, RBool (lr_empty f))
  | BFull => Ok (f, RBool (lr_full N f))
  end.
