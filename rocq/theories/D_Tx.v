(** D_Tx.v -- schedules for the transmit state machine and its hardware. *)
From Verif Require Import Base M_Message M_Tx.

(** Everything that can happen: WakeAndTransmit(m), Update(line busy, receive error, byte received,
    byte), a hardware step of the transmitter, Error(), RxMsg.Clear(). *)
Inductive tx_ev : Set :=
| Wake (m : message)
| Update (busy rxerr rxvalid : bool) (c : Z)
| Hw (e : hw_event)
| ReadError
| ClearRx (time : Z).  (* core0 reports RxMsg (setting its Time) and clears it: main.cpp:260-261 *)
Definition tx_sys : Set := (txsm * pio_hw)%type.

(** One event at time [now] (us); the output is the result of Error(). *)
Definition tx_event (p : platform) (s : tx_sys) (e : Z * tx_ev) : res (tx_sys * option bool) :=
  let '(t, h) := s in
  let '(now, ev) := e in
  match ev with
  | Wake m => let* s' := tx_wake now t h m in Ok (s', None)
  | Update busy rxerr rxvalid c => let* s' := tx_update p now t h busy rxerr rxvalid c in Ok (s', None)
  | Hw x => Ok ((t, hw_step h x), None)
  | ReadError => let '(t', b) := tx_error t in Ok ((t', h), Some b)
  | ClearRx time => Ok ((tx_clear_rx t time, h), None)
  end.
(** A schedule from the start of the firmware; the two messages start with arbitrary content. *)
Definition tx_run (j1 j2 : list Z) (l : list (Z * tx_ev)) : res (tx_sys * list (option bool)) :=
  mrun (tx_event pico) (tx_new hw_new j1 j2) l.

(** A message object; its bytes. *)
Definition tx_msg_ok (m : message) : Prop :=
  length (m_data m) = 32%nat /\ (m_length m <= 32)%nat /\ Forall (fun b => 0 <= b < 256) (m_data m).
Definition tx_bytes (m : message) : list Z := firstn (m_length m) (m_data m).
(** Events with arguments of their C types; [least] is the minimum message length considered. *)
Definition ev_ok (least : nat) (e : Z * tx_ev) : Prop :=
  match snd e with
  | Wake m => tx_msg_ok m /\ (least <= m_length m)%nat
  | Update _ _ _ c => 0 <= c < 256
  | _ => True
  end.
(** Time does not go backwards. *)
Fixpoint in_order (t : Z) (l : list (Z * tx_ev)) : Prop :=
  match l with [] => True | (u, _) :: r => t <= u /\ in_order u r end.
(** The bytes received without error in a schedule; whether a receive error was seen. *)
Definition echoes (l : list (Z * tx_ev)) : list Z :=
  flat_map (fun e => match snd e with Update _ _ true c => [c] | _ => [] end) l.
Definition no_rx_error (l : list (Z * tx_ev)) : Prop :=
  Forall (fun e => match snd e with Update _ true _ _ => False | _ => True end) l.
(** A poll that shows a sign of data: the line is busy or a byte was received. *)
Definition sign (e : Z * tx_ev) : bool := match snd e with Update busy _ rv _ => busy || rv | _ => false end.
(** After the first sign of data, every later poll of the schedule saw the line busy. *)
Definition line_held (l : list (Z * tx_ev)) : Prop :=
  forall x e y, l = x ++ e :: y -> existsb sign x = true -> match snd e with Update busy _ _ _ => busy = true | _ => True end.
(** Every Update of the schedule saw the line free. *)
Definition saw_free (e : Z * tx_ev) : Prop := match snd e with Update busy _ _ _ => busy = false | _ => True end.
(** While the machine works on a transmission: after [base] and every proper prefix of [l] it is not idle. *)
Definition not_idle_after (j1 j2 : list Z) (l : list (Z * tx_ev)) : Prop :=
  exists s o, tx_run j1 j2 l = Ok (s, o) /\ tx_is_idle (fst s) = false.
Definition busy_during (j1 j2 : list Z) (base l : list (Z * tx_ev)) : Prop :=
  forall p q, l = p ++ q -> q <> [] -> not_idle_after j1 j2 (base ++ p).
(** The transmitter has nothing to send and is not sending. *)
Definition at_rest (h : pio_hw) : Prop := hw_dma h = [] /\ hw_txf h = [] /\ hw_sm h = SmIdle.
(** After [l] exactly the bytes [d] wait for the PIO (in the DMA channel; none in its FIFO). *)
Definition handed_over (j1 j2 : list Z) (l : list (Z * tx_ev)) (d : list Z) : Prop :=
  exists s o, tx_run j1 j2 l = Ok (s, o) /\ hw_dma (snd s) = d /\ hw_txf (snd s) = [].
(** Consecutive Updates (the first one counted from time [last]) are at most [g] apart. *)
Fixpoint updates_every (g last : Z) (l : list (Z * tx_ev)) : Prop :=
  match l with
  | [] => True
  | (u, Update _ _ _ _) :: r => u <= last + g /\ updates_every g u r
  | _ :: r => updates_every g last r
  end.
