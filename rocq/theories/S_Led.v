(** S_Led.v -- the documented meaning of the LEDs (pico/doc/leds.md), independent of the model's
    state machine. *)
From Verif Require Import Base M_Led.

(** What each LED shows: (RX, PWR, TX). *)
Inductive lamp : Set := Off | On | Slow | Fast.
Definition panel : Set := (lamp * lamp * lamp)%type.

Definition is_fatal (e : led_event) : bool := match e with EvInternalError | EvBusError => true | _ => false end.
Definition is_failure (e : led_event) : bool := match e with EvErrorRx | EvErrorTx => true | _ => false end.
(** The last event of a kind. *)
Definition last_of (f : led_event -> bool) (evs : list led_event) : option led_event :=
  match rev (filter f evs) with e :: _ => Some e | [] => None end.
Definition seen (p : led_event -> bool) (evs : list led_event) : bool := existsb p evs.
(** doc/leds.md, and led_manager.hpp:95-99 for the bus error (not in the document). *)
Definition documented_panel (evs : list led_event) : panel :=
  match last_of is_fatal evs with
  | Some EvBusError => (On, Off, On)
  | Some _ => (Off, Fast, Off)                      (* internal error *)
  | None =>
      match last_of is_failure evs with
      | Some EvErrorRx => (Fast, Fast, Off)         (* received data with parity error *)
      | Some _ => (Off, Fast, Fast)                 (* bus collision *)
      | None =>
          (if seen (fun e => match e with EvActivityRx => true | _ => false end) evs then Slow else Off,
           On,
           if seen (fun e => match e with EvActivityTx => true | _ => false end) evs then Slow else Off)
      end
  end.
Definition no_update (evs : list led_event) : Prop := Forall (fun e => e <> EvTick500) evs.

(** What the driver was told. *)
Definition lamp_of (s : led_state) : lamp :=
  match s with LED_OFF => Off | LED_ON => On | LED_BLINK_SLOW => Slow | LED_BLINK_FAST => Fast end.
Definition panel_of (m : ledmgr) : panel := (lamp_of (ld_state (lm_r m)), lamp_of (ld_state (lm_p m)), lamp_of (ld_state (lm_t m))).
Definition lm_run (evs : list led_event) : ledmgr := fold_left lm_step evs lm_init.

(** One LED: Set calls and 100 ms ticks. *)
Inductive led_op : Set := DoSet (s : led_state) | DoTick.
Definition led_do (d : led) (o : led_op) : led := match o with DoSet s => led_set d s | DoTick => led_tick d end.
Definition led_run (ops : list led_op) (d : led) : led := fold_left led_do ops d.
Definition ticks (ops : list led_op) : nat := length (filter (fun o => match o with DoTick => true | _ => false end) ops).
(** Only Set calls with the same mode. *)
Definition keeps (s : led_state) (ops : list led_op) : Prop := Forall (fun o => match o with DoSet s' => s' = s | DoTick => True end) ops.
(** What is seen after [n] ticks in a mode. *)
Definition lit (s : led_state) (n : nat) : bool :=
  match s with
  | LED_OFF => false
  | LED_ON => true
  | LED_BLINK_SLOW => Nat.odd (n / 5)      (* toggles at ticks 5, 10, 15, ... *)
  | LED_BLINK_FAST => Nat.odd n            (* toggles at every tick          *)
  end.
