(** S_System.v -- what the inter-core queue and the complete receive path should do. *)
From Verif Require Import Base S_Adc M_Core1 S_Core1 M_Core0 S_Core0 D_Core0 M_System.

(** ** Histories of core 0 and the queue *)
(** The main-loop iterations of a run: what they were given and what they did. *)
Definition loops {A : Type} (outs : list (option A)) : list A :=
  flat_map (fun o => match o with Some x => [x] | None => [] end) outs.
(** What the rest of the world contributes to an iteration. *)
Definition outside (i : inp0) : inp0 := linked i false None.
Definition loop_inputs (l : list duo_in) : list inp0 := flat_map (fun x => match x with Loop i => [i] | _ => [] end) l.
(** The events core 1 wants to pass on. *)
Definition all_news (l : list duo_in) : list event :=
  flat_map (fun x => match x with News e => if no_news e then [] else [e] | _ => [] end) l.
(** The events the main loop takes. *)
Definition taken (is : list inp0) : list event := flat_map (fun i => match in_event i with Some e => [e] | None => [] end) is.
(** Bookkeeping of a queue of 8 places of which [n] are occupied: the events that find a place, and those that do not. *)
Fixpoint admitted (n : nat) (l : list duo_in) : list event :=
  match l with
  | [] => []
  | News e :: t => if no_news e then admitted n t else if (n <? 8)%nat then e :: admitted (S n) t else admitted n t
  | Test :: t => admitted n t
  | Loop _ :: t => admitted (pred n) t
  end.
Fixpoint lost (n : nat) (l : list duo_in) : list event :=
  match l with
  | [] => []
  | News e :: t => if no_news e then lost n t else if (n <? 8)%nat then lost (S n) t else e :: lost n t
  | Test :: t => lost n t
  | Loop _ :: t => lost (pred n) t
  end.

(** ** Packets in a stream of events *)
Definition ev_bytes (es : list event) : list Z := flat_map byte_of es.
Definition ev_status (es : list event) : Z := fold_left status_after es 0.
(** A stretch of events up to and including a line-free event; what should be reported for it. *)
Record stretch : Set := ST { st_body : list event; st_end : event }.
Definition st_events (s : stretch) : list event := st_body s ++ [st_end s].
Definition st_ok (s : stretch) : Prop := Forall (fun e => ev_free e = false) (st_body s) /\ ev_free (st_end s) = true /\ (length (ev_bytes (st_events s)) <= 31)%nat.
Definition st_report (s : stretch) : list (reason * rxs) :=
  match ev_bytes (st_events s), ev_status (st_events s) with
  | [], 0 => []
  | bs, st => [(R_packet, (st, bs))]
  end.
(** The main loop has tested the overflow flag in an iteration that is not finished yet. *)
Definition testing (l : list duo_in) : bool :=
  fold_left (fun b x => match x with Test => true | Loop _ => false | News _ => b end) l false.

(** ** Histories of the complete firmware *)
(** What happens at the ADC; what the main loop's surroundings contribute. *)
Definition sys_adc (l : list sys_in) : list S_Adc.adc_ev :=
  flat_map (fun x => match x with Y_dma v => [S_Adc.Sample v] | Y_core1 c => [S_Adc.Poll c] | _ => [] end) l.
Definition sys_loop_inputs (l : list sys_in) : list inp0 := flat_map (fun x => match x with Y_core0 i => [i] | _ => [] end) l.
(** What core 1 tells at each of its iterations (possibly nothing). *)
Definition told (l : list duo_in) : list event := flat_map (fun x => match x with News e => [e] | _ => [] end) l.
(** The events that tell something. *)
Definition only_news (es : list event) : list event := filter (fun e => negb (no_news e)) es.

(** ** Admissible inputs: characters are bytes, ADC differences have 9 bits, and see [in_ok] *)
Definition news_ok (x : duo_in) : Prop := match x with News e => is_byte8 (ev_char e) | Test => True | Loop i => in_ok (outside i) end.
Definition sys_ok (x : sys_in) : Prop := match x with Y_dma v => -255 <= v <= 255 | Y_core1 _ | Y_test => True | Y_core0 i => in_ok (outside i) end.
(** The iteration reports an overflow of the queue to the host. *)
Definition overflow_in (o : list (Z * act)) : Prop := In R_fifo (map fst (rx_reports o)).
(** The ADC never handed out a flagged value. *)
Definition no_fault (rs : list (option (option (Z * bool)))) : Prop := Forall (fun r => match r with Some (Some (_, true)) => False | _ => True end) rs.
(** Core 1 keeps up with the ADC in a schedule [l]: whenever it polls, at most 254 samples are waiting, and its last poll finds nothing left. *)
Definition keeps_up (l : list sys_in) : Prop :=
  Forall (fun x => match x with Some (Data _ p) => p <= 254 | _ => True end) (snd (spec_run view0 (sys_adc l))) /\
  last (snd (spec_run view0 (sys_adc l))) None = Some Nothing.
(** The ADC samples of a schedule. *)
Definition dma_samples (l : list sys_in) : list Z := flat_map (fun x => match x with Y_dma v => [v] | _ => [] end) l.
(** Core 0 keeps up with core 1 in a schedule: at most 8 iterations of core 1 (with [n] before) are not followed by one of core 0 each. *)
Fixpoint served (n : nat) (l : list sys_in) : Prop :=
  match l with
  | [] => n = 0%nat
  | Y_core1 _ :: t => (n < 8)%nat /\ served (S n) t
  | Y_core0 _ :: t => served (pred n) t
  | _ :: t => served n t
  end.
