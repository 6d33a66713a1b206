(** S_Core0Il.v -- histories of the main loop with the transmitter hardware at work during the iterations (C128). *)
From Verif Require Import Base M_Message M_Tx M_TxIl S_TxIl M_Core0 D_Core0 M_Core0Il.

(** As core0_run of D_Core0. *)
Definition core0_istep (s : core0) (x : inp0 * loop_gaps) : res (core0 * list (Z * act)) :=
  let* (s', l) := core0_iter_il pico s (fst x) (snd x) in Ok (s', map (pair (in_now (fst x))) l).
Definition core0_irun (b : boot) (l : list (inp0 * loop_gaps)) : res (core0 * list (list (Z * act))) :=
  let* s := core0_boot b in mrun core0_istep s l.

(** All hardware events of an iteration, in order. *)
Definition all_hw (x : inp0 * loop_gaps) : list hw_event := in_hw (fst x) ++ lg_mid (snd x) ++ in_gaps (lg_update (snd x)) ++ lg_end (snd x).
(** The same input but for the hardware events. *)
Definition but_hw (x : inp0 * loop_gaps) (i : inp0) : Prop :=
  exists hw, i = IN0 (in_now (fst x)) (in_chars (fst x)) (in_budget (fst x)) (in_fifoerr (fst x)) (in_event (fst x)) hw (in_ticks (fst x)) (in_junk (fst x)).
(** What the program did: the log without the hardware. *)
Definition program (l : list (Z * act)) : list (Z * act) := filter (fun e => match snd e with A_hw _ => false | _ => true end) l.
(** The state after some more hardware events. *)
Definition and_hw (s : core0) (g : list hw_event) : core0 :=
  C0 (z_rx s) (z_busy s) (z_since s) (z_sm s) (hw_events (z_hw s) g) (z_ctrl s) (z_host s) (z_led s) (z_ev s).
Definition still (x : inp0 * loop_gaps) : Prop := ~ In HwDma (g_fifo (lg_update (snd x))).
