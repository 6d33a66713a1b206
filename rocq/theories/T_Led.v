(** T_Led.v -- property theorems C62, C63 (LEDs). *)
From Verif Require Import Base M_Led S_Led P_Led.

(** C62: after every 500 ms update the panel is the documented one for the events since the previous
    update (or since start), and it does not change until the next update. *)
Theorem C62_panel : forall pre evs, no_update evs -> pre = [] \/ (exists p, pre = p ++ [EvTick500]) ->
  panel_of (lm_run (pre ++ evs ++ [EvTick500])) = documented_panel evs /\
  forall later, no_update later -> panel_of (lm_run ((pre ++ evs ++ [EvTick500]) ++ later)) = documented_panel evs.
Proof.
  intros pre evs N P. split; [apply led_panel; auto|]. intros later Nl. rewrite led_stays by auto. apply led_panel; auto.
Qed.
Print Assumptions C62_panel.
Example C62_ex : no_update [EvActivityRx; EvErrorTx; EvTick100; EvErrorRx; EvActivityTx] /\
  panel_of (lm_run ([EvBusError; EvTick500] ++ [EvActivityRx; EvErrorTx; EvTick100; EvErrorRx; EvActivityTx] ++ [EvTick500])) = (Fast, Fast, Off) /\
  documented_panel [EvActivityRx; EvTick100; EvActivityTx] = (Slow, On, Slow).
Proof. split; [repeat constructor; discriminate|]. split; reflexivity. Qed.

(** C63: from the moment an LED is set to a mode it is not in, and as long as it is not set to another
    mode (setting the same mode again does not disturb it), whether it is lit depends only on the number of
    100 ms ticks: slow toggles at every 5th tick, fast at every tick. *)
Theorem C63_blink : forall hist s ops, ld_state (led_run hist led_new) <> s -> keeps s ops ->
  ld_pin (led_run (hist ++ [DoSet s] ++ ops) led_new) = lit s (ticks ops).
Proof. exact blink_from. Qed.
Print Assumptions C63_blink.
Example C63_ex : ld_state (led_run [DoSet LED_BLINK_SLOW; DoTick; DoTick; DoTick; DoSet LED_BLINK_FAST; DoTick] led_new) <> LED_BLINK_SLOW /\
  map (fun n => ld_pin (led_run ([DoSet LED_BLINK_SLOW; DoTick; DoTick; DoTick; DoSet LED_BLINK_FAST; DoTick] ++ [DoSet LED_BLINK_SLOW] ++ repeat DoTick n) led_new)) [4%nat; 5%nat; 9%nat; 10%nat] = [false; true; true; false].
Proof. split; [discriminate|reflexivity]. Qed.
(** Before it is set to another mode, a LED is dark, whatever the timer does. *)
Theorem C63_dark_first : forall ops, keeps LED_OFF ops -> ld_pin (led_run ops led_new) = false.
Proof.
  intros ops K. assert (P : phase LED_OFF 0 led_new) by (split; [reflexivity|split; [reflexivity|discriminate]]).
  destruct (blink_run LED_OFF ops 0 led_new K P) as (_ & E & _). exact E.
Qed.
Print Assumptions C63_dark_first.
(** C62, at the start: all three LEDs are on until the first 500 ms update, whatever happens before it. *)
Theorem C62_startup : forall evs, no_update evs -> panel_of (lm_run evs) = (On, On, On).
Proof. intros evs N. exact (led_stays [] evs N). Qed.
Print Assumptions C62_startup.
Example C62_startup_ex : no_update [EvActivityRx; EvTick100; EvBusError] /\ panel_of (lm_run [EvActivityRx; EvTick100; EvBusError; EvTick500]) <> (On, On, On).
Proof. split; [repeat constructor; discriminate|]. cbn. discriminate. Qed.
