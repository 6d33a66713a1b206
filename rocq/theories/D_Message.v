(** D_Message.v -- vocabulary for stating properties of messages. *)
From Verif Require Import Base M_Message S_Message.

(** [holds buf t]: the buffer starts with the C string [t]. *)
Definition holds (buf t : list Z) : Prop := exists rest, buf = t ++ 0 :: rest.

(** A message object as the program can hold it: field ranges of the C types, Length <= 32. *)
Definition msg_ok (m : message) : Prop :=
  0 <= m_time m < 18446744073709551616 /\ 0 <= m_status m < 4294967296 /\
  length (m_data m) = 32%nat /\ (m_length m <= 32)%nat /\ Forall (fun b => 0 <= b < 256) (m_data m).
(** Its bytes. *)
Definition payload (m : message) : list Z := firstn (m_length m) (m_data m).

(** Append / Clear calls on the model. *)
Definition msg_call (m : message) (o : msg_op) : res message :=
  match o with Append b => msg_append m b | Clear => Ok (msg_clear m) end.
