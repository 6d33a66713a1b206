(** S_Core1.v -- what the receive core should report, independent of its code.  A trace is the list of
    observations of one bit-detector sample each: whether the byte receiver says it is receiving (before
    the sample is processed) and the event flags produced for the sample. *)
From Verif Require Import Base M_Core1.

Definition obs : Set := bool * event.

(** Is the line busy after the observations [h], as told by the line-busy / line-free events alone?
    It is busy at start. *)
Definition busy_after (h : list obs) : bool :=
  fold_left (fun (b : bool) (o : obs) => if ev_free (snd o) then false else if ev_busy (snd o) then true else b) h true.
(** Number of not-receiving samples since the last line-busy event (or start). *)
Definition quiet_since (h : list obs) : Z :=
  fold_left (fun (n : Z) (o : obs) => if ev_busy (snd o) then 0 else if fst o then n else n + 1) h 0.
Definition is_byte (e : event) : bool := ev_valid e || ev_error e.

(** The rules of C64, for every point of the trace. *)
Definition line_rules (tr : list obs) : Prop := forall h r e t, tr = h ++ (r, e) :: t ->
  (ev_busy e = true <-> busy_after h = false /\ r = true) /\
  (ev_free e = true <-> busy_after h = true /\ r = false /\ quiet_since h = 176) /\
  (busy_after h = true -> quiet_since h <= 176) /\
  (is_byte e = true -> r = true /\ busy_after (h ++ [(r, e)]) = true) /\
  (ev_valid e = true -> ev_error e = false) /\
  (is_byte e = false -> ev_char e = 0) /\ ev_dadc e = false.

(** Every second element of a list, beginning with the first / the second. *)
Fixpoint evens {A} (l : list A) : list A :=
  match l with [] => [] | a :: t => a :: match t with [] => [] | _ :: t' => evens t' end end.
Definition odds {A} (l : list A) : list A := evens (tl l).

(** Condensed log of events: what the other core gets to see, in order. *)
Inductive logline : Set := LFree | LBusy | LByte (c : Z) (err : bool).
Definition log_event (e : event) : list logline :=
  (if ev_free e then [LFree] else []) ++ (if ev_busy e then [LBusy] else []) ++
  (if is_byte e then [LByte (ev_char e) (ev_error e)] else []).
Definition log_of (es : list event) : list logline := flat_map log_event es.

(** A packet on the line: idle cycles before the first byte, the first byte, and the remaining bytes each
    with the number of idle cycles between the (short) previous character and it. *)
Record packet : Set := PK { pk_gap : nat; pk_first : Z; pk_rest : list (nat * Z) }.
Definition pk_chars (p : packet) : list (nat * Z) := (pk_gap p, pk_first p) :: pk_rest p.
Definition pk_bytes (p : packet) : list Z := pk_first p :: map snd (pk_rest p).
(** What the other core should see of it: one busy/free pair around all of its bytes. *)
Definition one_packet (p : packet) : list logline :=
  LBusy :: map (fun b => LByte b false) (pk_bytes p) ++ [LFree].
(** Not-receiving samples inside the packet: six per further byte plus the gaps. *)
Definition inner_quiet (p : packet) : Z :=
  fold_right (fun gb n => 6 + Z.of_nat (fst gb) + n) 0 (pk_rest p).

(** ** The loop of the receive core *)
(** The event that tells of a flagged ADC value. *)
Definition adc_fault : event := EV 0 false false false false true.
(** What each iteration produces, given what the ADC handed out ([None]: no iteration but a DMA transfer) and the
    events [evs] of the good samples in order. *)
Fixpoint produced (rs : list (option (option (Z * bool)))) (evs : list event) : list event :=
  match rs with
  | [] => []
  | None :: t => produced t evs
  | Some None :: t => ev_none :: produced t evs
  | Some (Some (_, true)) :: t => adc_fault :: produced t evs
  | Some (Some (_, false)) :: t => match evs with e :: es => e :: produced t es | [] => [] end
  end.
(** The good samples. *)
Definition good (rs : list (option (option (Z * bool)))) : list Z :=
  flat_map (fun r => match r with Some (Some (v, false)) => [v] | _ => [] end) rs.
(** No flag set and no character. *)
Definition no_news (e : event) : bool :=
  (ev_char e =? 0) && negb (ev_valid e || ev_error e || ev_busy e || ev_free e || ev_dadc e).
(** What happens at the inter-core queue in each iteration: the event [pend] of the iteration before is pushed if there
    is [room], else an error is raised. *)
Fixpoint queued (pend : event) (room : list bool) (es : list event) : list (option event * bool) :=
  match room, es with
  | r :: rt, e :: et => (if no_news pend then (None, false) else if r then (Some pend, false) else (None, true)) :: queued e rt et
  | _, _ => []
  end.
