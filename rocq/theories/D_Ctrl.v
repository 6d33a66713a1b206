(** D_Ctrl.v -- driving the modelled controller with histories of calls. *)
From Verif Require Import Base M_Message M_Standalone S_Crc S_Ctrl.

(** A packet as a Message object (status and time are irrelevant to the controller). *)
Definition msg_of (p : packet) : message := MSG 0 0 (p_cells p) (p_len p).
Definition packet_of (m : message) : packet := PKT (m_length m) (m_data m).

(** One call of the public API at a time; the message is the object TxAnswer fills in. *)
Definition ctrl_call (c : ctrl) (e : (Z * call) * message) : res (ctrl * option message) :=
  let '((now, cl), out) := e in
  match cl with
  | Check => Ok (ctrl_check now c, None)
  | Collision => Ok (ctrl_bus_collision now c, None)
  | Receive p => let* c' := ctrl_receive c (msg_of p) in Ok (c', None)
  | Take => let* (c', m) := ctrl_tx_answer c out in Ok (c', Some m)
  end.
(** A whole history from the construction at time [t0]. *)
Definition ctrl_run (t0 : Z) (h : list ((Z * call) * message)) : res (ctrl * list (option message)) :=
  let* c0 := ctrl_new t0 in mrun ctrl_call c0 h.
Definition out_ok (e : (Z * call) * message) : Prop := call_ok (fst e) /\ length (m_data (snd e)) = 32%nat.
(** What a TxAnswer call must deliver when an answer is pending: its bytes; status and time of the
    message object are left alone. *)
Definition delivers (e : (Z * call) * message) (o : option (list Z)) (r : option message) : Prop :=
  match snd (fst e), o with
  | Take, Some a => exists m, r = Some m /\ firstn (m_length m) (m_data m) = a /\ m_length m = length a /\
      m_status m = m_status (snd e) /\ m_time m = m_time (snd e)
  | Take, None => exists m, r = Some m
  | _, _ => r = None
  end.
