(** D_Host.v -- calls of the host interface and histories of calls. *)
From Verif Require Import Base M_Fifo M_Message S_Message D_Message M_HostUart.

(** The calls.  [budget]: how many characters the UART accepts during the call; [cs]: the characters
    it delivers; [junk]: content of uninitialised memory. *)
Inductive host_op : Set :=
| OpSend (budget : nat) (m : message)            (* Send(m)                                    *)
| OpReport (budget : nat) (m : message)          (* UpdateAndSend(m)                           *)
| OpCheck (budget : nat) (junk cs : list Z)      (* Check()                                    *)
| OpIrq (budget : nat) (cs : list Z)             (* the UART interrupt, between two calls      *)
| OpPop (junk : list Z)                          (* Pop()                                      *)
| OpHasData                                      (* HasData()                                  *)
| OpSetTime (t : Z)                              (* SetTime(t)                                 *)
| OpGetTime.                                     (* GetTime()                                  *)
(** What can be observed of a call: the message as sent, the characters written to the UART during
    the call and the error flag after it; results of calls. *)
Inductive host_out : Set :=
| OSent (m : message) (chars : list Z) (error : bool)
| OWritten (chars : list Z)
| OPopped (m : message)
| OHas (b : bool)
| OTime (t : Z)
| ONone.
(** One call at time [now] (us since boot). *)
Definition host_step (h : host) (e : Z * host_op) : res (host * host_out) :=
  let '(now, op) := e in
  match op with
  | OpSend budget m => let* (h', out) := host_send budget h m in Ok (h', OSent m out (h_error h'))
  | OpReport budget m => let* (h', m', out) := host_update_and_send now budget h m in Ok (h', OSent m' out (h_error h'))
  | OpCheck budget junk cs => let* (h', out) := host_check pico now junk budget cs h in Ok (h', OWritten out)
  | OpIrq budget cs =>
      let* (f, out) := check_tx_fifo budget (h_tx h) in
      let* h' := check_rx_fifo cs (set_tx h f) in Ok (h', OWritten out)
  | OpPop junk => let* (h', m) := host_pop junk h in Ok (h', OPopped m)
  | OpHasData => Ok (h, OHas (host_has_data h))
  | OpSetTime t => Ok (host_set_time now h t, ONone)
  | OpGetTime => Ok (h, OTime (host_get_time now h))
  end.
Definition host_run (l : list (Z * host_op)) : res (host * list host_out) := mrun host_step host_new l.

(** Arguments of their C types. *)
Definition byte_char (c : Z) : Prop := 0 <= c < 256.
Definition hop_ok (e : Z * host_op) : Prop :=
  match snd e with
  | OpSend _ m | OpReport _ m => msg_ok m
  | OpCheck _ junk cs => length junk = 32%nat /\ Forall byte_char cs
  | OpIrq _ cs => Forall byte_char cs
  | _ => True
  end.

(** Observations of a history. *)
Definition written (o : list host_out) : list Z :=
  flat_map (fun x => match x with OSent _ c _ => c | OWritten c => c | _ => [] end) o.
Definition sent (o : list host_out) : list message :=
  flat_map (fun x => match x with OSent m _ _ => [m] | _ => [] end) o.
Definition no_overflow (o : list host_out) : Prop :=
  Forall (fun x => match x with OSent _ _ e => e = false | _ => True end) o.
(** Messages handed out by Pop (a Pop of the empty queue gives a message of length 0). *)
Definition popped (o : list host_out) : list message :=
  flat_map (fun x => match x with OPopped m => if (0 <? m_length m)%nat then [m] else [] | _ => [] end) o.
(** The messages a sequence of Pop calls would hand out now. *)
Fixpoint drain (n : nat) (h : host) : list message :=
  match n with
  | O => []
  | S n' => if host_has_data h then
              match host_pop [] h with Ok (h', m) => m :: drain n' h' | UB _ => [] end
            else []
  end.
Definition pending (h : host) : list message := drain 9 h.
(** The characters in the line buffer. *)
Definition received (h : host) : list Z := firstn (lr_length (h_rx h)) (lr_data (h_rx h)).
