(** S_LedIl.v -- histories of LED calls and timers with calls that are interrupted (C125). *)
From Verif Require Import Base M_Led S_Led M_LedIl.

Definition is_tick (e : led_event) : Prop := e = EvTick100 \/ e = EvTick500.
(** A timer callback on its own, or a call with the callbacks that interrupt it. *)
Inductive led_il : Set := ITick (e : led_event) | ICall (e : led_event) (g1 g2 : list led_event).
Definition il_wf (x : led_il) : Prop :=
  match x with ITick e => is_tick e | ICall e g1 g2 => ~ is_tick e /\ Forall is_tick (g1 ++ g2) end.

(** The panel after each 500 ms update. *)
Fixpoint panels (m : ledmgr) (evs : list led_event) : list panel :=
  match evs with
  | [] => []
  | e :: t => let m1 := lm_step m e in (match e with EvTick500 => [panel_of m1] | _ => [] end) ++ panels m1 t
  end.
(** The same for the code with interrupts. *)
Definition led_il_step (reload : bool) (m : ledmgr) (x : led_il) : ledmgr * list panel :=
  match x with
  | ITick e => (lm_step m e, panels m [e])
  | ICall e g1 g2 => (lm_call reload m e g1 g2, panels m (g1 ++ g2))
  end.
Fixpoint led_il_run (reload : bool) (m : ledmgr) (l : list led_il) : ledmgr * list panel :=
  match l with
  | [] => (m, [])
  | x :: t => let '(m1, p) := led_il_step reload m x in let '(m2, q) := led_il_run reload m1 t in (m2, p ++ q)
  end.

(** The events since the last update. *)
Fixpoint window (w : list led_event) (evs : list led_event) : list led_event :=
  match evs with [] => w | EvTick500 :: t => window [] t | e :: t => window (w ++ [e]) t end.
(** The other kind of activity. *)
Definition other (e : led_event) : option led_event :=
  match e with EvActivityRx => Some EvActivityTx | EvActivityTx => Some EvActivityRx | _ => None end.

(** [explains b l h]: the history [h] of uninterrupted events is what [l] amounts to: every call takes place at one moment while it
    runs, except that an activity interrupted by an update may repeat the other activity of the window before, and (only if [b]) may
    be lost if there was such an activity. *)
Inductive explains (b : bool) : list led_il -> list led_event -> Prop :=
| ex_nil : explains b [] []
| ex_tick : forall l h e, explains b l h -> explains b (l ++ [ITick e]) (h ++ [e])
| ex_call : forall l h e g1 g2 k1 k2, explains b l h -> g1 ++ g2 = k1 ++ k2 -> explains b (l ++ [ICall e g1 g2]) (h ++ k1 ++ [e] ++ k2)
| ex_stale : forall l h e e' g1 g2, explains b l h -> other e = Some e' -> In e' (window [] h) -> In EvTick500 (g1 ++ g2) ->
    explains b (l ++ [ICall e g1 g2]) (h ++ g1 ++ g2 ++ [e'; e])
| ex_lost : forall l h e e' g1 g2, b = true -> explains b l h -> other e = Some e' -> In e' (window [] h) -> In EvTick500 g1 ->
    explains b (l ++ [ICall e g1 g2]) (h ++ g1 ++ g2).

(** The events between the updates. *)
Fixpoint windows (w : list led_event) (evs : list led_event) : list (list led_event) :=
  match evs with [] => [] | EvTick500 :: t => w :: windows [] t | e :: t => windows (w ++ [e]) t end.
Definition led_event_eqb (a b : led_event) : bool :=
  match a, b with
  | EvActivityRx, EvActivityRx | EvActivityTx, EvActivityTx | EvErrorRx, EvErrorRx | EvErrorTx, EvErrorTx
  | EvInternalError, EvInternalError | EvBusError, EvBusError | EvTick100, EvTick100 | EvTick500, EvTick500 => true
  | _, _ => false
  end.
Definition times (e : led_event) (h : list led_event) : nat := length (filter (led_event_eqb e) h).
Definition calls (e : led_event) (l : list led_il) : nat :=
  length (filter (fun x => match x with ICall e' _ _ => led_event_eqb e e' | _ => false end) l).
