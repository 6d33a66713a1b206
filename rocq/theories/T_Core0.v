(** T_Core0.v -- property theorems C66-C70 and C77 (the main loop). *)
From Verif Require Import Base M_Fifo M_Message S_Message D_Message M_Standalone S_Crc S_Ctrl D_Ctrl M_Tx D_Tx M_HostUart D_Host S_Host M_Led M_Core1 M_Core0 S_Core0 D_Core0
  P_Core0 P_Core0Run P_Core0Rx P_Core0Busy P_Core0Main.

(** ** Concrete histories for the examples *)
Definition zeros : list Z := repeat 0 32.
Definition boot0 : boot := BOOT 0 5000 zeros zeros zeros ev_none.
Definition tell (now : Z) (e : event) : inp0 := IN0 now [] 8 false (Some e) [] [] zeros.
Definition calm_iter (now : Z) : inp0 := IN0 now [] 8 false None [] [] zeros.
Definition typed (now : Z) (cs : list Z) : inp0 := IN0 now cs 8 false None [] [] zeros.
Definition Busy : event := EV 0 false false true false false.
Definition Free : event := EV 0 false false false true false.
Definition Byte (c : Z) (err : bool) : event := EV c (negb err) err false false false.
Lemma zeros_ok : cells32 zeros.
Proof. split; [reflexivity|]. unfold zeros. apply Forall_forall. intros x H. apply repeat_spec in H. subst. unfold is_byte8; lia. Qed.
Lemma boot0_ok : boot_ok boot0.
Proof. split; [apply zeros_ok|]. split; [apply zeros_ok|]. split; [apply zeros_ok|]. unfold is_byte8; cbn; lia. Qed.
Lemma tell_ok now e : is_byte8 (ev_char e) -> in_ok (tell now e).
Proof. intros H. split; [apply zeros_ok|]. split; [constructor|exact H]. Qed.
Lemma typed_ok now cs : Forall is_byte8 cs -> in_ok (typed now cs).
Proof. intros H. split; [apply zeros_ok|]. split; [exact H|exact I]. Qed.
Lemma calm_iter_ok now : in_ok (calm_iter now).
Proof. apply (typed_ok now []). constructor. Qed.
Lemma short_input l : (length l <= 64)%nat -> input_ok l.
Proof.
  intros H. assert (F : forall x, factor x l -> (length x <= 64)%nat) by (intros x (p & q & ->); rewrite !app_length in H; lia).
  split; intros x Hx _; [apply F in Hx; lia|]. intros _. apply F in Hx. 
  assert (G : (length (nonblank x) <= length x)%nat) by (clear; unfold nonblank; induction x as [|a x IH]; cbn; [lia|]; destruct (negb _); cbn; lia). lia.
Qed.
Ltac in_oks := repeat (apply Forall_cons; [first [apply calm_iter_ok | apply tell_ok; split; vm_compute; congruence | apply typed_ok; repeat (apply Forall_cons; [split; vm_compute; congruence|]); apply Forall_nil]|]); apply Forall_nil.

(** C66: between two line-free events (or from the start to the first one), 1 to 31 bytes, no loss between
    the cores and no time-out: exactly one report and one packet for the controller, with exactly the bytes. *)
Theorem C66_one_report_per_packet : forall b l1 l2 i s o1 o2,
  boot_ok b -> Forall in_ok (l1 ++ l2 ++ [i]) -> input_ok (text (l1 ++ l2 ++ [i])) ->
  core0_run b (l1 ++ l2 ++ [i]) = Ok (s, o1 ++ o2) -> length o1 = length l1 ->
  fresh_start l1 -> Forall (fun j => line_free j = false) l2 -> line_free i = true -> nothing_lost (l2 ++ [i]) -> no_timeout o2 ->
  (1 <= length (bytes_of (l2 ++ [i])) <= 31)%nat ->
  map described (rx_reports (concat o2)) = [(R_packet, (status_of (l2 ++ [i]), bytes_of (l2 ++ [i])))] /\
  map content (to_ctrl (concat o2)) = [(status_of (l2 ++ [i]), bytes_of (l2 ++ [i]))].
Proof. exact one_report. Qed.
Print Assumptions C66_one_report_per_packet.
Definition ex66_1 : list inp0 := [tell 10000 Free].
Definition ex66_2 : list inp0 := [tell 20000 Busy; tell 21000 (Byte 7 false); calm_iter 21500; tell 22000 (Byte 9 true); tell 23000 (Byte 200 false)].
Example C66_ex : exists s o1 o2, core0_run boot0 (ex66_1 ++ ex66_2 ++ [tell 30000 Free]) = Ok (s, o1 ++ o2) /\ length o1 = length ex66_1 /\
  Forall in_ok (ex66_1 ++ ex66_2 ++ [tell 30000 Free]) /\ input_ok (text (ex66_1 ++ ex66_2 ++ [tell 30000 Free])) /\ fresh_start ex66_1 /\
  nothing_lost (ex66_2 ++ [tell 30000 Free]) /\ no_timeout o2 /\
  map described (rx_reports (concat o2)) = [(R_packet, (3, [7; 9; 200]))].
Proof.
  destruct (core0_run boot0 (ex66_1 ++ ex66_2 ++ [tell 30000 Free])) as [(s & o)|] eqn:E; [|vm_compute in E; discriminate].
  exists s, (firstn 1 o), (skipn 1 o). rewrite firstn_skipn. split; [reflexivity|].
  vm_compute in E. injection E as _ <-.
  split; [reflexivity|]. split; [in_oks|]. split; [apply short_input; vm_compute; lia|]. split; [right; exists [], (tell 10000 Free); split; reflexivity|].
  split; [repeat constructor|]. split; [|vm_compute; reflexivity].
  repeat (apply Forall_cons; [vm_compute; intuition discriminate|]). apply Forall_nil.
Qed.

(** C67, refuted: EVERY packet of exactly 32 correct bytes (before the line-free event) is reported with
    status 2 (overflow) and is not given to the controller at all. *)
Theorem C67_full_packet_refuted : forall b l1 l2 i s o1 o2,
  boot_ok b -> Forall in_ok (l1 ++ l2 ++ [i]) -> input_ok (text (l1 ++ l2 ++ [i])) ->
  core0_run b (l1 ++ l2 ++ [i]) = Ok (s, o1 ++ o2) -> length o1 = length l1 ->
  fresh_start l1 -> Forall (fun j => line_free j = false) l2 -> line_free i = true -> nothing_lost (l2 ++ [i]) -> no_timeout o2 ->
  Forall clean (l2 ++ [i]) -> length (bytes_of l2) = 32%nat -> bytes_of [i] = [] ->
  map described (rx_reports (concat o2)) = [(R_full, (2, bytes_of l2))] /\ to_ctrl (concat o2) = [].
Proof. exact full_report. Qed.
Print Assumptions C67_full_packet_refuted.
Definition ex67 : list inp0 := tell 20000 Busy :: map (fun k => tell (21000 + k) (Byte (k * 7 mod 256) false)) (map Z.of_nat (seq 0 32)).
Example C67_ex : Forall clean (ex67 ++ [tell 30000 Free]) /\ length (bytes_of ex67) = 32%nat /\
  match core0_run boot0 (ex66_1 ++ ex67 ++ [tell 30000 Free]) with
  | Ok (_, o) => map described (rx_reports (concat o)) = [(R_full, (2, bytes_of ex67))] /\ to_ctrl (concat o) = []
  | UB _ => False
  end.
Proof. split; [|split]; [repeat (apply Forall_cons; [split; reflexivity|]); apply Forall_nil|vm_compute; reflexivity|vm_compute; split; reflexivity]. Qed.
(** C67, guarded: up to 31 correct bytes are reported with status 0 and given to the controller. *)
Theorem C67_full_packet_partial : forall b l1 l2 i s o1 o2,
  boot_ok b -> Forall in_ok (l1 ++ l2 ++ [i]) -> input_ok (text (l1 ++ l2 ++ [i])) ->
  core0_run b (l1 ++ l2 ++ [i]) = Ok (s, o1 ++ o2) -> length o1 = length l1 ->
  fresh_start l1 -> Forall (fun j => line_free j = false) l2 -> line_free i = true -> nothing_lost (l2 ++ [i]) -> no_timeout o2 ->
  Forall clean (l2 ++ [i]) -> (1 <= length (bytes_of (l2 ++ [i])) <= 31)%nat ->
  map described (rx_reports (concat o2)) = [(R_packet, (0, bytes_of (l2 ++ [i])))] /\
  map content (to_ctrl (concat o2)) = [(0, bytes_of (l2 ++ [i]))].
Proof. exact clean_report. Qed.
Print Assumptions C67_full_packet_partial.
Definition ex67b : list inp0 := tell 20000 Busy :: map (fun k => tell (21000 + k) (Byte (k * 7 mod 256) false)) (map Z.of_nat (seq 0 31)).
Example C67_partial_ex : length (bytes_of ex67b) = 31%nat /\
  match core0_run boot0 (ex66_1 ++ ex67b ++ [tell 30000 Free]) with
  | Ok (_, o) => map described (rx_reports (concat o)) = [(R_packet, (0, bytes_of ex67b))] /\ map content (to_ctrl (concat o)) = [(0, bytes_of ex67b)]
  | UB _ => False
  end.
Proof. split; [vm_compute; reflexivity|vm_compute; split; reflexivity]. Qed.

(** C68, refuted: after 49.7 days of uptime a time-out is reported 1 ms after the line became busy. *)
Definition ex68 : list inp0 := [tell 10000 Free; tell 4294967000000 Busy].
Theorem C68_busy_timeout_refuted : exists s o log t,
  boot_ok boot0 /\ Forall in_ok (ex68 ++ [calm_iter 4294967001000]) /\ in_time (b_now boot0) (ex68 ++ [calm_iter 4294967001000]) /\
  core0_run boot0 (ex68 ++ [calm_iter 4294967001000]) = Ok (s, o ++ [log]) /\
  busy_since (b_now boot0) ex68 = Some t /\ in_now (calm_iter 4294967001000) - t = 1000 /\ timeout_in log.
Proof.
  destruct (core0_run boot0 (ex68 ++ [calm_iter 4294967001000])) as [(s & o)|] eqn:E; [|vm_compute in E; discriminate].
  exists s, (firstn 2 o), (nth 2 o []), 4294967000000. split; [exact boot0_ok|]. split; [in_oks|]. split; [cbn; lia|].
  vm_compute in E. injection E as _ <-. split; [reflexivity|]. split; [reflexivity|]. split; [reflexivity|]. vm_compute. left. reflexivity.
Qed.
Print Assumptions C68_busy_timeout_refuted.
(** C68, guarded by the uptime (49.7 days less half a second): a time-out is reported exactly if the line has
    been busy for more than 500 ms and no time-out was reported within the last 500 ms (times in ms). *)
Theorem C68_busy_timeout_partial : forall b l i s o log,
  boot_ok b -> Forall in_ok (l ++ [i]) -> input_ok (text (l ++ [i])) -> core0_run b (l ++ [i]) = Ok (s, o ++ [log]) ->
  0 <= b_now b -> in_time (b_now b) (l ++ [i]) -> in_now i < (4294967296 - 500) * 1000 ->
  timeout_in log <-> exists t, busy_since (b_now b) l = Some t /\ t / 1000 + 500 < in_now i / 1000 /\
    forall k j lg, nth_error l k = Some j -> nth_error o k = Some lg -> timeout_in lg -> in_now j / 1000 + 500 < in_now i / 1000.
Proof. exact timeout_exact. Qed.
Print Assumptions C68_busy_timeout_partial.
Example C68_partial_ex :
  let l := [tell 10000 Free; tell 20000 Busy; tell 520000 (Byte 5 false); calm_iter 520999; calm_iter 521000; calm_iter 600000; calm_iter 1022000] in
  Forall in_ok l /\ in_time (b_now boot0) l /\
  match core0_run boot0 l with
  | Ok (_, o) => map (fun log => map described (rx_reports log)) o = [[]; []; []; []; [(R_timeout, (4, [5]))]; []; [(R_timeout, (4, []))]]
  | UB _ => False
  end.
Proof. split; [in_oks|]. split; [cbn; lia|]. vm_compute. reflexivity. Qed.

(** C69: no history whatsoever makes the main loop run into undefined behaviour, provided no input line is
    longer than 127 characters and no field of a line has more than 64 non-blank characters. *)
Theorem C69_main_loop_safe : forall b l, boot_ok b -> Forall in_ok l -> input_ok (text l) -> exists s o, core0_run b l = Ok (s, o).
Proof. exact main_safe. Qed.
Print Assumptions C69_main_loop_safe.
(** The host types "0011#" and CR; the message is transmitted. *)
Definition ex69 : list inp0 := [tell 10000 Free; typed 20000 [48; 48; 49; 49; 35]; typed 30000 [13]; calm_iter 31000].
Example C69_ex : Forall in_ok ex69 /\ input_ok (text ex69) /\
  match core0_run boot0 ex69 with
  | Ok (_, o) => flat_map (fun e => match snd e with A_wake m => [payload m] | _ => [] end) (concat o) = [[0; 17]]
  | UB _ => False
  end.
Proof. split; [in_oks|]. split; [apply short_input; vm_compute; lia|]. vm_compute. reflexivity. Qed.
(** ... and the restriction on the input is needed: a line of 66 hexadecimal digits. *)
Theorem C69_long_line_refuted : exists l, Forall in_ok l /\ exists k, core0_run boot0 l = UB k.
Proof.
  exists [typed 20000 (repeat 49 66 ++ [13])]. split; [|eexists; vm_compute; reflexivity].
  apply Forall_cons; [|apply Forall_nil]. apply typed_ok. apply Forall_app. split; [|repeat constructor; unfold is_byte8; lia].
  apply Forall_forall. intros x H. apply repeat_spec in H. subst. unfold is_byte8; lia.
Qed.
Print Assumptions C69_long_line_refuted.

(** C70: a transmission is started only when the transmitter is idle, at most one per iteration; it is the
    message the host interface hands out (its oldest) or, only if the host has none pending, the controller's
    pending answer. *)
Theorem C70_transmission_start : forall b l i s o s' log pre t m post,
  boot_ok b -> Forall in_ok (l ++ [i]) -> input_ok (text (l ++ [i])) -> core0_run b l = Ok (s, o) -> core0_step s i = Ok (s', log) ->
  log = pre ++ (t, A_wake m) :: post ->
  Forall (fun e => is_wake e = false) (pre ++ post) /\
  (exists x r, tx_run (b_j1 b) (b_j2 b) (flat_map tx_part (concat o ++ pre)) = Ok (x, r) /\ tx_is_idle (fst x) = true) /\
  exists before last h rh, pre = before ++ [last] /\ host_run (flat_map host_part (concat o ++ before)) = Ok (h, rh) /\
    ((exists junk h', snd last = A_pop junk m /\ host_has_data h = true /\ host_pop junk h = Ok (h', m)) \/
     (exists out c rc c', snd last = A_answer out m /\ host_has_data h = false /\
        ctrl_run (b_ctrl b) (flat_map ctrl_part (concat o ++ before)) = Ok (c, rc) /\ ctrl_has_tx c = true /\ ctrl_tx_answer c out = Ok (c', m))).
Proof. exact start_idle. Qed.
Print Assumptions C70_transmission_start.
(** ... and an iteration that starts none leaves nothing to send, or found the transmitter occupied. *)
Theorem C70_transmission_prompt : forall b l i s o s' log,
  boot_ok b -> Forall in_ok (l ++ [i]) -> input_ok (text (l ++ [i])) -> core0_run b l = Ok (s, o) -> core0_step s i = Ok (s', log) ->
  Forall (fun e => is_wake e = false) log ->
  (exists before last x r, log = before ++ [last] /\ tx_run (b_j1 b) (b_j2 b) (flat_map tx_part (concat o ++ before)) = Ok (x, r) /\ tx_is_idle (fst x) = false) \/
  (host_has_data (z_host s') = false /\ ctrl_has_tx (z_ctrl s') = false).
Proof. exact start_prompt. Qed.
Print Assumptions C70_transmission_prompt.
(** Two messages typed in one go: only the first one is started; the second one waits for the transmitter. *)
Example C70_ex : let l := [tell 10000 Free; typed 20000 [48; 48; 49; 49; 13]; typed 30000 [50; 50; 13]; calm_iter 31000] in
  Forall in_ok l /\ input_ok (text l) /\
  match core0_run boot0 l with
  | Ok (s, o) => map (fun log => map is_wake log) o =
      [[false; false; false; false]; [false; false; false; false; true; false]; [false; false; false; false; false]; [false; false; false; false; false]] /\
      tx_is_idle (z_sm s) = false /\ host_has_data (z_host s) = true
  | UB _ => False
  end.
Proof. split; [in_oks|]. split; [apply short_input; vm_compute; lia|]. vm_compute. auto. Qed.

(** C77: the main loop drives its parts only through their interfaces and with admissible arguments: the state
    of each part is the result of the history of calls recorded in the log, with the recorded results.  So all
    theorems about histories of the parts hold in the running firmware. *)
Theorem C77_parts : forall b l s o, boot_ok b -> Forall in_ok l -> input_ok (text l) -> core0_run b l = Ok (s, o) ->
  (tx_run (b_j1 b) (b_j2 b) (flat_map tx_part (concat o)) = Ok ((z_sm s, z_hw s), flat_map tx_part_out (concat o)) /\ Forall (ev_ok 1) (flat_map tx_part (concat o)) /\
    (in_time (b_now b) l -> in_order (b_now b) (flat_map tx_part (concat o)))) /\
  (ctrl_run (b_ctrl b) (flat_map ctrl_part (concat o)) = Ok (z_ctrl s, flat_map ctrl_part_out (concat o)) /\ Forall out_ok (flat_map ctrl_part (concat o))) /\
  ((exists ho, host_run (flat_map host_part (concat o)) = Ok (z_host s, ho) /\ map hide_flag ho = flat_map host_part_out (concat o)) /\ Forall hop_ok (flat_map host_part (concat o))) /\
  z_led s = fold_left lm_step (flat_map led_part (concat o)) lm_init.
Proof. exact parts_run. Qed.
Print Assumptions C77_parts.
Example C77_ex : match core0_run boot0 ex69 with
  | Ok (s, o) => length (flat_map tx_part (concat o)) = 8%nat /\ length (flat_map ctrl_part (concat o)) = 4%nat /\ length (flat_map host_part (concat o)) = 5%nat
  | UB _ => False
  end.
Proof. vm_compute. auto. Qed.
