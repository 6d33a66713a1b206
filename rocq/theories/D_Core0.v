(** D_Core0.v -- histories of the main loop, and what they mean for its parts. *)
From Verif Require Import Base M_Fifo M_Message S_Message D_Message M_Standalone S_Crc S_Ctrl D_Ctrl M_Tx D_Tx M_HostUart D_Host S_Host M_Led M_Core1 M_Core0 S_Core0.

(** Start of the firmware: the controller object is constructed at [b_ctrl], core0_entry starts at [b_now];
    the three message objects and Core1Data are not initialised. *)
Record boot : Set := BOOT { b_ctrl : Z; b_now : Z; b_j1 : list Z; b_j2 : list Z; b_j3 : list Z; b_ev : event }.
Definition core0_boot (b : boot) : res core0 :=
  let* c := ctrl_new (b_ctrl b) in
  Ok (core0_new (b_now b) hw_new host_new lm_init c (b_j1 b) (b_j2 b) (b_j3 b) (b_ev b)).
(** One iteration; its log of calls with the time. *)
Definition core0_step (s : core0) (i : inp0) : res (core0 * list (Z * act)) :=
  let* (s', l) := core0_iter pico s i in Ok (s', map (pair (in_now i)) l).
(** A history of iterations: one log per iteration. *)
Definition core0_run (b : boot) (l : list inp0) : res (core0 * list (list (Z * act))) :=
  let* s := core0_boot b in mrun core0_step s l.

(** Arguments of their C types. *)
Definition is_byte8 (c : Z) : Prop := 0 <= c < 256.
Definition cells32 (l : list Z) : Prop := length l = 32%nat /\ Forall is_byte8 l.
Definition boot_ok (b : boot) : Prop := cells32 (b_j1 b) /\ cells32 (b_j2 b) /\ cells32 (b_j3 b) /\ is_byte8 (ev_char (b_ev b)).
Definition in_ok (i : inp0) : Prop :=
  cells32 (in_junk i) /\ Forall is_byte8 (in_chars i) /\
  match in_event i with Some e => is_byte8 (ev_char e) | None => True end.
(** The text typed by the host in a history. *)
Definition text (l : list inp0) : list Z := flat_map in_chars l.

(** The histories of the parts contained in a log. *)
Definition tx_part (e : Z * act) : list (Z * tx_ev) :=
  match snd e with
  | A_hw x => [(fst e, Hw x)]
  | A_error _ => [(fst e, ReadError)]
  | A_clear t => [(fst e, ClearRx t)]
  | A_wake m => [(fst e, Wake m)]
  | A_update b re rv c => [(fst e, Update b re rv c)]
  | _ => []
  end.
Definition tx_part_out (e : Z * act) : list (option bool) :=
  match snd e with A_error b => [Some b] | A_hw _ | A_clear _ | A_wake _ | A_update _ _ _ _ => [None] | _ => [] end.
Definition no_msg : message := MSG 0 0 (repeat 0 32) 0.
Definition ctrl_part (e : Z * act) : list ((Z * call) * message) :=
  match snd e with
  | A_ctrl_check => [((fst e, Check), no_msg)]
  | A_collision => [((fst e, Collision), no_msg)]
  | A_receive m => [((fst e, Receive (packet_of m)), no_msg)]
  | A_answer out _ => [((fst e, Take), out)]
  | _ => []
  end.
Definition ctrl_part_out (e : Z * act) : list (option message) :=
  match snd e with A_ctrl_check | A_collision | A_receive _ => [None] | A_answer _ m => [Some m] | _ => [] end.
Definition host_part (e : Z * act) : list (Z * host_op) :=
  match snd e with
  | A_check b j cs _ => [(fst e, OpCheck b j cs)]
  | A_report _ b m _ _ => [(fst e, OpReport b m)]
  | A_pop j _ => [(fst e, OpPop j)]
  | _ => []
  end.
(** The error flag after a report is not visible in the log. *)
Definition host_part_out (e : Z * act) : list host_out :=
  match snd e with
  | A_check _ _ _ out => [OWritten out]
  | A_report _ _ _ m out => [OSent m out false]
  | A_pop _ m => [OPopped m]
  | _ => []
  end.
Definition hide_flag (o : host_out) : host_out := match o with OSent m c _ => OSent m c false | _ => o end.
Definition led_part (e : Z * act) : list led_event := match snd e with A_led x => [x] | _ => [] end.

(** Reports about received data in a log (all but those about failed transmissions), and packets handed
    to the controller. *)
Definition rx_reports (l : list (Z * act)) : list (reason * message) :=
  flat_map (fun e => match snd e with A_report R_txfail _ _ _ _ => [] | A_report w _ m _ _ => [(w, m)] | _ => [] end) l.
Definition to_ctrl (l : list (Z * act)) : list message :=
  flat_map (fun e => match snd e with A_receive m => [m] | _ => [] end) l.
(** Status and bytes of a message. *)
Definition content (m : message) : rxs := (m_status m, payload m).
Definition described (x : reason * message) : reason * rxs := (fst x, content (snd x)).
(** No time-out of a busy line was reported; one was. *)
Definition timeout_in (o : list (Z * act)) : Prop := In R_timeout (map fst (rx_reports o)).
Definition no_timeout (o : list (list (Z * act))) : Prop := Forall (fun log => ~ timeout_in log) o.
(** A transmission was started. *)
Definition is_wake (e : Z * act) : bool := match snd e with A_wake _ => true | _ => false end.
(** What the transmit state machine is told in a log (busy, receive error, byte received, byte). *)
Definition updates (l : list (Z * act)) : list (bool * bool * bool * Z) :=
  flat_map (fun e => match snd e with A_update b re rv c => [(b, re, rv, c)] | _ => [] end) l.
(** The messages whose transmission is started in a log. *)
Definition wakes (l : list (Z * act)) : list message := flat_map (fun e => match snd e with A_wake m => [m] | _ => [] end) l.
(** Reports about failed transmissions in a log. *)
Definition fail_reports (l : list (Z * act)) : list message :=
  flat_map (fun e => match snd e with A_report R_txfail _ m _ _ => [m] | _ => [] end) l.
