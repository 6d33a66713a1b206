(** M_Led.v -- models of pico/src/led_driver.hpp and pico/src/led_manager.hpp. *)
From Verif Require Import Base.

(** led_driver.hpp:8-13 *)
Inductive led_state : Set := LED_OFF | LED_ON | LED_BLINK_SLOW | LED_BLINK_FAST.
Definition led_state_eqb (a b : led_state) : bool :=
  match a, b with
  | LED_OFF, LED_OFF | LED_ON, LED_ON
  | LED_BLINK_SLOW, LED_BLINK_SLOW | LED_BLINK_FAST, LED_BLINK_FAST => true
  | _, _ => false
  end.

(** led_driver.hpp:90-93; [ld_pin] is the GPIO output level, counter a uint8_t. *)
Record led : Set := LED { ld_state : led_state; ld_counter : Z; ld_pin : bool }.
(** led_driver.hpp:24-32 *)
Definition led_new : led := LED LED_OFF 0 false.
(** led_driver.hpp:39-53 -- Set *)
Definition led_set (d : led) (s : led_state) : led :=
  if negb (led_state_eqb (ld_state d) s) then
    match s with
    | LED_BLINK_SLOW => LED s 0 false
    | LED_BLINK_FAST => LED s (ld_counter d) false
    | LED_OFF => LED s (ld_counter d) false
    | LED_ON => LED s (ld_counter d) true
    end
  else d.
(** led_driver.hpp:57-76 -- Update, the 100 ms timer callback *)
Definition led_tick (d : led) : led :=
  match ld_state d with
  | LED_OFF => LED LED_OFF (ld_counter d) false
  | LED_ON => LED LED_ON (ld_counter d) true
  | LED_BLINK_SLOW =>
      let c := u8 (ld_counter d + 1) in
      if c =? 5 then LED LED_BLINK_SLOW 0 (negb (ld_pin d))
      else LED LED_BLINK_SLOW c (ld_pin d)
  | LED_BLINK_FAST => LED LED_BLINK_FAST (ld_counter d) (negb (ld_pin d))
  end.

(** led_manager.hpp:9-18 *)
Inductive mgr_state : Set :=
| LM_IDLE | LM_RX | LM_TX | LM_RX_TX | LM_BUS_ERROR | LM_SYSTEM_ERROR | LM_RX_ERROR | LM_TX_ERROR.

(** led_manager.hpp:132-136 *)
Record ledmgr : Set := LMGR { lm_state : mgr_state; lm_new : mgr_state; lm_r : led; lm_t : led; lm_p : led }.
(** led_manager.hpp:20-27 *)
Definition lm_init : ledmgr :=
  LMGR LM_SYSTEM_ERROR LM_IDLE (led_set led_new LED_ON) (led_set led_new LED_ON) (led_set led_new LED_ON).

(** Public calls and the two timers. *)
Inductive led_event : Set :=
| EvActivityRx | EvActivityTx | EvErrorRx | EvErrorTx | EvInternalError | EvBusError
| EvTick100    (* each LEDdriver's 100 ms timer *)
| EvTick500.   (* LEDManager's 500 ms timer     *)

(** led_manager.hpp:34-72: effect of a public call on newState. *)
Definition lm_note (n : mgr_state) (e : led_event) : mgr_state :=
  match e with
  | EvActivityRx => match n with LM_IDLE => LM_RX | LM_TX => LM_RX_TX | _ => n end
  | EvActivityTx => match n with LM_IDLE => LM_TX | LM_RX => LM_RX_TX | _ => n end
  | EvErrorRx => match n with LM_SYSTEM_ERROR | LM_BUS_ERROR => n | _ => LM_RX_ERROR end
  | EvErrorTx => match n with LM_SYSTEM_ERROR | LM_BUS_ERROR => n | _ => LM_TX_ERROR end
  | EvInternalError => LM_SYSTEM_ERROR
  | EvBusError => LM_BUS_ERROR
  | EvTick100 | EvTick500 => n
  end.

(** led_manager.hpp:88-129: the pattern (power, rx, tx) for a state. *)
Definition lm_pattern (s : mgr_state) : led_state * led_state * led_state :=
  match s with
  | LM_IDLE => (LED_ON, LED_OFF, LED_OFF)
  | LM_BUS_ERROR => (LED_OFF, LED_ON, LED_ON)
  | LM_RX => (LED_ON, LED_BLINK_SLOW, LED_OFF)
  | LM_TX => (LED_ON, LED_OFF, LED_BLINK_SLOW)
  | LM_RX_TX => (LED_ON, LED_BLINK_SLOW, LED_BLINK_SLOW)
  | LM_SYSTEM_ERROR => (LED_BLINK_FAST, LED_OFF, LED_OFF)
  | LM_TX_ERROR => (LED_BLINK_FAST, LED_OFF, LED_BLINK_FAST)
  | LM_RX_ERROR => (LED_BLINK_FAST, LED_BLINK_FAST, LED_OFF)
  end.

(** led_manager.hpp:84-130 -- Update; led_manager.hpp:34-72 otherwise. *)
Definition lm_step (m : ledmgr) (e : led_event) : ledmgr :=
  match e with
  | EvTick100 => LMGR (lm_state m) (lm_new m) (led_tick (lm_r m)) (led_tick (lm_t m)) (led_tick (lm_p m))
  | EvTick500 =>
      let s := lm_new m in
      let '(p, r, t) := lm_pattern s in
      LMGR s LM_IDLE (led_set (lm_r m) r) (led_set (lm_t m) t) (led_set (lm_p m) p)
  | _ => LMGR (lm_state m) (lm_note (lm_new m) e) (lm_r m) (lm_t m) (lm_p m)
  end.
