(** S_UartPio.v -- specification of the class UARTPio on its own (C122): operations, what can be seen of them, and what they promise. *)
From Verif Require Import Base M_Message M_Tx.

(** Calls of the class, and what the hardware does meanwhile. *)
Inductive uop : Set :=
| USend (m : message)
| UClear
| UError
| UShutdown (off : bool)
| UHw (e : hw_event).
(** What happens: a message accepted or rejected; the queue cleared; the answer of Error(); a byte taken from the FIFO to be sent, its start and its end on the line. *)
Inductive useen : Set :=
| Accepted (bs : list Z) | Rejected | Cleared | Answered (b : bool) | Taken (b : Z) | Begun | Ended.

(** The bytes accepted and the bytes taken since the queue was last cleared. *)
Fixpoint accepted_since (l : list useen) (acc : list Z) : list Z :=
  match l with [] => acc | Accepted bs :: t => accepted_since t (acc ++ bs) | Cleared :: t => accepted_since t [] | _ :: t => accepted_since t acc end.
Fixpoint taken_since (l : list useen) (acc : list Z) : list Z :=
  match l with [] => acc | Taken b :: t => taken_since t (acc ++ [b]) | Cleared :: t => taken_since t [] | _ :: t => taken_since t acc end.
(** A message was rejected since Error() was last called. *)
Fixpoint rejected_since (l : list useen) (r : bool) : bool :=
  match l with [] => r | Rejected :: t => rejected_since t true | Answered _ :: t => rejected_since t false | _ :: t => rejected_since t r end.
(** Every answer of Error() says whether a message was rejected since the previous one. *)
Fixpoint answers_ok (l : list useen) (r : bool) : Prop :=
  match l with [] => True | Rejected :: t => answers_ok t true | Answered b :: t => b = r /\ answers_ok t false | _ :: t => answers_ok t r end.
(** Bytes are sent one at a time: taken, begun, ended, in turn. *)
Fixpoint one_at_a_time (l : list useen) (phase : sm_state) : Prop :=
  match l with
  | [] => True
  | Taken _ :: t => phase = SmIdle /\ one_at_a_time t SmPulled
  | Begun :: t => phase = SmPulled /\ one_at_a_time t SmShifting
  | Ended :: t => phase = SmShifting /\ one_at_a_time t SmIdle
  | _ :: t => one_at_a_time t phase
  end.
