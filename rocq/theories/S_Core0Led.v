(** S_Core0Led.v -- what the LEDs should be told in one iteration of the main loop, in words of what happened. *)
From Verif Require Import Base M_Led M_Core1 M_Core0 S_Core0 D_Core0.

(** The calls to the LED manager (and its timers) in a log. *)
Definition leds (log : list (Z * act)) : list led_event := flat_map led_part log.
(** The line was found busy for too long in an iteration: a report with that occasion. *)
Definition too_long (log : list (Z * act)) : bool := existsb (fun x => match fst x with R_timeout => true | _ => false end) (rx_reports log).
(** The timers that fired before the iteration. *)
Definition timers (i : inp0) : list led_event := map (fun b : bool => if b then EvTick500 else EvTick100) (in_ticks i).
(** Received data: a byte with an error, a good byte; and the error of the ADC. *)
Definition for_event (e : event) : list led_event :=
  (if ev_error e then [EvErrorRx] else if ev_valid e then [EvActivityRx] else []) ++
  (if ev_dadc e then [EvInternalError] else []).
(** [sending]: a transmission is in progress; [failed]: one has just failed. *)
Definition calls_for (sending failed : bool) (late : bool) (i : inp0) : list led_event :=
  timers i ++
  (if sending then [EvActivityTx] else if in_fifoerr i then [EvInternalError] else if failed then [EvErrorTx] else []) ++
  (if late then [EvInternalError] else []) ++
  for_event (event_of i).
(** Only the 100 ms timers fired before an iteration / the 500 ms timer fired once and last. *)
Definition no_500 (i : inp0) : Prop := Forall (fun b => b = false) (in_ticks i).
Definition at_500 (i : inp0) : Prop := exists p, in_ticks i = p ++ [true] /\ Forall (fun b => b = false) p.
(** A window between two updates of the panel: the iterations [w] follow the iterations [pre]; the 500 ms timer
    fired before the first of them (or the firmware started with it) and before none of the others. *)
Definition window (pre w : list inp0) : Prop :=
  (pre = [] /\ Forall no_500 w) \/ (exists i0 w', w = i0 :: w' /\ at_500 i0 /\ Forall no_500 w').
(** Documented internal errors: the line busy for too long, an ADC error, data lost between the cores. *)
Definition internal_error (i : inp0) (log : list (Z * act)) : Prop :=
  too_long log = true \/ ev_dadc (event_of i) = true \/ in_fifoerr i = true.
(** Nothing to show: nothing received and no error of any kind. *)
Definition nothing_happened (i : inp0) (log : list (Z * act)) : Prop :=
  in_fifoerr i = false /\ too_long log = false /\ fail_reports log = [] /\
  ev_valid (event_of i) = false /\ ev_error (event_of i) = false /\ ev_dadc (event_of i) = false.
(** Something holds of an iteration of the window and its log. *)
Definition occurs (w : list inp0) (ow : list (list (Z * act))) (P : inp0 -> list (Z * act) -> Prop) : Prop :=
  exists w1 k w2 o1 log o2, w = w1 ++ k :: w2 /\ ow = o1 ++ log :: o2 /\ length o1 = length w1 /\ P k log.
Definition throughout (w : list inp0) (ow : list (list (Z * act))) (P : list inp0 -> inp0 -> list (Z * act) -> Prop) : Prop :=
  forall w1 k w2 o1 log o2, w = w1 ++ k :: w2 -> ow = o1 ++ log :: o2 -> length o1 = length w1 -> P w1 k log.
(** A running firmware: after the iterations [pre] and the window [w] (logs [ow]) the panel was updated, and
    not again until the state [s]. *)
Definition shows (b : boot) (pre w : list inp0) (ow : list (list (Z * act))) (s : core0) : Prop :=
  exists j rest opre oj orest, boot_ok b /\ Forall in_ok (pre ++ w ++ j :: rest) /\ input_ok (text (pre ++ w ++ j :: rest)) /\
    core0_run b (pre ++ w ++ j :: rest) = Ok (s, opre ++ ow ++ oj :: orest) /\ length opre = length pre /\ length ow = length w /\
    window pre w /\ at_500 j /\ Forall no_500 rest.
(** SM.IsIdle() after a history: no transmission is in progress. *)
Definition not_sending (b : boot) (l : list inp0) : Prop := exists s o, core0_run b l = Ok (s, o) /\ M_Tx.tx_is_idle (z_sm s) = true.
