(** T_LedIl.v -- property theorems C125 (LED calls interrupted by the LED timer). *)
From Verif Require Import Base M_Led M_LedIl S_Led S_LedIl P_LedIl.

(** For every history of LED calls and timer callbacks, with any callbacks inside the calls, however newState is loaded: what the
    panel shows after each update is the documented panel of a history in which every call happens at one moment -- before, between or
    after the callbacks that interrupt it -- except for activities that an update interrupts (see [explains]). *)
Theorem C125_interrupted_partial : forall b l, Forall il_wf l ->
  exists h, explains b l h /\ snd (led_il_run b lm_init l) = map documented_panel (windows [] h).
Proof. exact il_documented. Qed.
Print Assumptions C125_interrupted_partial.

(** Errors are never lost nor repeated; activities are never lost if newState is loaded once per call. *)
Theorem C125_nothing_lost_partial : forall b l h e, explains b l h -> Forall il_wf l -> ~ is_tick e ->
  (other e = None -> times e h = calls e l) /\ (b = false -> (calls e l <= times e h)%nat).
Proof. exact times_calls. Qed.
Print Assumptions C125_nothing_lost_partial.

(** REFUTED: an update in the middle of ActivityRx makes a transmit activity show up once more, in a window without one ... *)
Theorem C125_repeated_refuted : exists l, Forall il_wf l /\
  calls EvActivityTx l = 1%nat /\
  l = [ICall EvActivityTx [] []; ICall EvActivityRx [] [EvTick500]; ITick EvTick500] /\
  snd (led_il_run false lm_init l) = [(Off, On, Slow); (Slow, On, Slow)] /\
  map documented_panel (windows [] [EvActivityTx; EvActivityRx; EvTick500; EvTick500]) = [(Slow, On, Slow); (Off, On, Off)] /\
  map documented_panel (windows [] [EvActivityTx; EvTick500; EvActivityRx; EvTick500]) = [(Off, On, Slow); (Slow, On, Off)].
Proof.
  eexists. split; [|split; [|split; [reflexivity|]]]; [|reflexivity|repeat split; reflexivity].
  assert (A : ~ is_tick EvActivityTx) by (intros [H|H]; discriminate H). assert (B : ~ is_tick EvActivityRx) by (intros [H|H]; discriminate H).
  assert (C : is_tick EvTick500) by (right; reflexivity). repeat constructor; assumption.
Qed.
Print Assumptions C125_repeated_refuted.
(** ... and if newState is loaded twice, the receive activity may be shown in neither window. *)
Theorem C125_lost_refuted : exists l, Forall il_wf l /\ calls EvActivityRx l = 1%nat /\
  snd (led_il_run true lm_init l) = [(Off, On, Slow); (Off, On, Off)].
Proof.
  exists [ICall EvActivityTx [] []; ICall EvActivityRx [EvTick500] []; ITick EvTick500]. split; [|split; reflexivity].
  assert (A : ~ is_tick EvActivityTx) by (intros [H|H]; discriminate H). assert (B : ~ is_tick EvActivityRx) by (intros [H|H]; discriminate H).
  assert (C : is_tick EvTick500) by (right; reflexivity). repeat constructor; assumption.
Qed.
Print Assumptions C125_lost_refuted.

(** An interrupted error: shown in the window that follows. *)
Example C125_ex : let l := [ICall EvActivityTx [] []; ICall EvErrorRx [EvTick100] [EvTick500]; ICall EvInternalError [] [EvTick500]; ITick EvTick500] in
  Forall il_wf l /\ snd (led_il_run false lm_init l) = [(Off, On, Slow); (Fast, Fast, Off); (Off, Fast, Off)] /\
  calls EvErrorRx l = 1%nat /\ times EvErrorRx [EvActivityTx; EvTick100; EvTick500; EvErrorRx; EvTick500; EvInternalError; EvTick500] = 1%nat.
Proof.
  cbv zeta. split; [|split; [|split]]; [|reflexivity..].
  assert (N : forall e, e <> EvTick100 -> e <> EvTick500 -> ~ is_tick e) by (intros e H1 H2 [H|H]; auto).
  assert (C : is_tick EvTick500) by (right; reflexivity). assert (D : is_tick EvTick100) by (left; reflexivity).
  repeat constructor; try assumption; apply N; discriminate.
Qed.
