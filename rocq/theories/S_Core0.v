(** S_Core0.v -- what the main loop should do, in terms of its inputs only. *)
From Verif Require Import Base M_Core1 M_Core0 S_Host.

(** ** Admissible host input: no line is longer than 127 characters, and no field (text between colons or
    line ends) has more than 64 characters that are not blanks. *)
Definition factor (x l : list Z) : Prop := exists p q, l = p ++ x ++ q.
Definition no_colon (l : list Z) : Prop := Forall (fun c => c <> 58) l.
Definition nonblank (l : list Z) : list Z := filter (fun c => negb (c =? 32)) l.
Definition input_ok (l : list Z) : Prop :=
  (forall x, factor x l -> no_nl x -> (length x <= 127)%nat) /\
  (forall x, factor x l -> no_nl x -> no_colon x -> (length (nonblank x) <= 64)%nat).

(** ** Received data *)
Definition event_of (i : inp0) : event := match in_event i with Some e => e | None => ev_none end.
Definition line_free (i : inp0) : bool := ev_free (event_of i).
(** The bytes of the events of some iterations (an event that tells an ADC overrun carries none). *)
Definition byte_of (e : event) : list Z := if negb (ev_dadc e) && (ev_error e || ev_valid e) then [ev_char e] else [].
Definition bytes_of (l : list inp0) : list Z := flat_map (fun i => byte_of (event_of i)) l.
(** Documented status: 0 = ok, 2 = overflow (ADC overrun), 3 = a byte with an error; the last one counts. *)
Definition status_after (s : Z) (e : event) : Z := if ev_dadc e then 2 else if ev_error e then 3 else s.
Definition status_of (l : list inp0) : Z := fold_left (fun s i => status_after s (event_of i)) l 0.
(** The event tells no error. *)
Definition clean (i : inp0) : Prop := ev_error (event_of i) = false /\ ev_dadc (event_of i) = false.
(** The start of the firmware, or just after a line-free event. *)
Definition fresh_start (l : list inp0) : Prop := l = [] \/ exists l0 j, l = l0 ++ [j] /\ line_free j = true.
(** No part of the inter-core queue was lost. *)
Definition nothing_lost (l : list inp0) : Prop := Forall (fun i => in_fifoerr i = false) l.

(** ** The line as told by the events: Some t = busy since time t (us), as from the start. *)
Definition line_step0 (b : option Z) (i : inp0) : option Z :=
  match b with
  | Some t => if ev_free (event_of i) then None else Some t
  | None => if ev_busy (event_of i) then Some (in_now i) else None
  end.
Definition busy_since (t0 : Z) (l : list inp0) : option Z := fold_left line_step0 l (Some t0).
(** Time does not run backwards. *)
Fixpoint in_time (t : Z) (l : list inp0) : Prop :=
  match l with [] => True | i :: r => t <= in_now i /\ in_time (in_now i) r end.

(** ** Assembling packets: (status, bytes) collected so far; reports to the host with their occasion;
    packets for the controller. *)
Definition rxs : Set := (Z * list Z)%type.
Definition flush_if (b : bool) (w : reason) (st : Z) (r : rxs) : rxs * list (reason * rxs) :=
  if b then ((0, []), [(w, (st, snd r))]) else (r, []).
(** One iteration, [timeout]: the line has been busy for too long. *)
Definition rx_iter (timeout : bool) (i : inp0) (r : rxs) : rxs * list (reason * rxs) * list rxs :=
  let '(r1, o1) := flush_if timeout R_timeout 4 r in
  let '(r2, o2) := flush_if (in_fifoerr i) R_fifo 2 r1 in
  let r3 := (status_after (fst r2) (event_of i), snd r2 ++ byte_of (event_of i)) in
  let done := line_free i && ((0 <? length (snd r3))%nat || negb (fst r3 =? 0)) in
  let '(r4, o4) := flush_if done R_packet (fst r3) r3 in
  let '(r5, o5) := flush_if (length (snd r4) =? 32)%nat R_full 2 r4 in
  (r5, o1 ++ o2 ++ o4 ++ o5, if done then [r3] else []).
