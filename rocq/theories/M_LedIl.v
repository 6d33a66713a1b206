(** M_LedIl.v -- calls of the LEDManager that its own timer interrupts. *)
From Verif Require Import Base M_Led.

(** led_manager.hpp:34-72 -- what a call stores into newState, if anything, after its first comparison has seen [v1] and its second
    (if it gets there) [v2]. *)
Definition lm_decide (e : led_event) (v1 v2 : mgr_state) : option mgr_state :=
  match e with
  | EvActivityRx => match v1 with LM_IDLE => Some LM_RX | _ => match v2 with LM_TX => Some LM_RX_TX | _ => None end end
  | EvActivityTx => match v1 with LM_IDLE => Some LM_TX | _ => match v2 with LM_RX => Some LM_RX_TX | _ => None end end
  | EvErrorRx => match v1 with LM_SYSTEM_ERROR => None | _ => match v2 with LM_BUS_ERROR => None | _ => Some LM_RX_ERROR end end
  | EvErrorTx => match v1 with LM_SYSTEM_ERROR => None | _ => match v2 with LM_BUS_ERROR => None | _ => Some LM_TX_ERROR end end
  | EvInternalError => Some LM_SYSTEM_ERROR
  | EvBusError => Some LM_BUS_ERROR
  | EvTick100 | EvTick500 => None
  end.

(** A call of led_manager.hpp:34-72 interrupted by timer callbacks (led_manager.hpp:75-82, led_driver.hpp:57-76): [g1] between the two
    comparisons, [g2] between the last comparison and the store.  newState is neither volatile nor atomic: the compiler may load it once
    for both comparisons or ([reload]) once for each.  The pico-sdk runs the callbacks in an interrupt of the core that makes the calls. *)
Definition lm_call (reload : bool) (m : ledmgr) (e : led_event) (g1 g2 : list led_event) : ledmgr :=
  let v1 := lm_new m in
  let m1 := fold_left lm_step g1 m in
  let v2 := if reload then lm_new m1 else v1 in
  let m2 := fold_left lm_step g2 m1 in
  match lm_decide e v1 v2 with
  | Some w => LMGR (lm_state m2) w (lm_r m2) (lm_t m2) (lm_p m2)
  | None => m2
  end.
