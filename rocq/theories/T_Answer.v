(** T_Answer.v -- property theorems C106 (a request is answered on the bus), C107 (a typed line goes out on the bus). *)
From Verif Require Import Base M_Fifo M_Message S_Message D_Message M_Standalone S_Crc S_Ctrl D_Ctrl M_Tx D_Tx M_HostUart D_Host S_Host M_Led M_Core1 M_Core0 S_Core0 D_Core0
  P_Crc P_Core0 P_Core0Answer S_Answer P_Core0Run P_Core0Main T_Core0 T_Core0Bus T_Ctrl T_Live.

(** C106: the bytes told since the last line-free event, up to the line-free event of iteration [i], are handed to the
    controller as one packet [m].  If the controller - according to its documented state machine, run over the calls made so far -
    is in operation, the packet is a request to its address and the transmitter is idle, then this very iteration starts
    exactly one transmission: that of the answer specified for this packet, or of a line the host typed before (the
    answer then waits for it). *)
Theorem C106_request_answered : forall b l1 l2 i s o1 o2 s' log, boot_ok b -> Forall in_ok ((l1 ++ l2) ++ [i]) -> input_ok (text ((l1 ++ l2) ++ [i])) ->
  core0_run b (l1 ++ l2) = Ok (s, o1 ++ o2) -> length o1 = length l1 -> core0_step s i = Ok (s', log) ->
  fresh_start l1 -> Forall (fun j => line_free j = false) l2 -> line_free i = true -> nothing_lost (l2 ++ [i]) -> no_timeout (o2 ++ [log]) ->
  (1 <= length (bytes_of (l2 ++ [i])) <= 31)%nat -> tx_is_idle (z_sm s) = true ->
  exists pre m post, log = pre ++ (in_now i, A_receive m) :: post /\ payload m = bytes_of (l2 ++ [i]) /\
    forall k os, steps (controller0 (b_ctrl b)) (map fst (flat_map ctrl_part (concat (o1 ++ o2) ++ pre))) k os ->
      k_phase k = Operation -> request (k_addr k) (packet_of m) ->
      exists a, wakes log = [a] /\ (answer (k_addr k) (packet_of m) (payload a) \/ In (in_now i, A_pop (in_junk i) a) log).
Proof.
  intros b l1 l2 i s o1 o2 s' log B F T E Lo Es Fr Fl Ff Nl Nt Hb Hi.
  assert (E' : core0_run b (l1 ++ l2 ++ [i]) = Ok (s', o1 ++ o2 ++ [log])).
  { rewrite !app_assoc. clear - E Es. unfold core0_run in *. bstep E. rewrite E0. cbn [bind]. rewrite mrun_app, E. cbn [bind mrun]. rewrite Es. reflexivity. }
  rewrite <- app_assoc in F, T. destruct (C66_one_report_per_packet b l1 l2 i s' o1 (o2 ++ [log]) B F T E' Lo Fr Fl Ff Nl Nt Hb) as (_ & C).
  rewrite app_assoc in F, T.
  assert (P : exists m, In m (to_ctrl log) /\ payload m = bytes_of (l2 ++ [i])).
  { pose proof (no_packet_before b l1 l2 s o1 o2 E Lo Fl) as N. rewrite concat_app in C. unfold to_ctrl in C, N. rewrite flat_map_app, N in C. cbn [app concat] in C. rewrite app_nil_r in C.
    change (map content (to_ctrl log) = [(status_of (l2 ++ [i]), bytes_of (l2 ++ [i]))]) in C. destruct (to_ctrl log) as [|m r]; [discriminate|]. exists m. split; [left; reflexivity|]. cbn in C. injection C as _ C _. exact C. }
  destruct P as (m & Hm & Hp). destruct (in_to_ctrl _ _ Hm) as (t & Ht). destruct (receive_free _ _ _ _ _ _ Es Ht) as (_ & ->). destruct (in_split _ _ Ht) as (pre & post & El).
  exists pre, m, post. split; [exact El|]. split; [exact Hp|]. intros k os St Ph Rq.
  destruct (answered b (l1 ++ l2) i s _ s' log pre (in_now i) m post k os B F T E Es El St Ph Rq Hi) as (a & W & An & _). exists a. auto.
Qed.
Print Assumptions C106_request_answered.

(** C106 and C107, the bus: whatever transmission iteration [i] starts while the transmit hardware is at rest: when the line is
    given free within 34 ms and is not claimed by anyone for the 32 ms after that, the bytes of the message are
    handed to the transmit hardware at the first iteration after those 32 ms; no failure is reported, and no other transmission is started
    before. *)
Theorem C106_on_the_bus : forall b l i ls k s o s' log m, boot_ok b -> Forall in_ok (l ++ i :: ls ++ [k]) -> input_ok (text (l ++ i :: ls ++ [k])) ->
  core0_run b l = Ok (s, o) -> core0_step s i = Ok (s', log) -> In m (wakes log) -> at_rest (z_hw s) -> l <> [] \/ in_event i <> None -> granted b l i ls k ->
  exists s2 o2, core0_run b (l ++ i :: ls ++ [k]) = Ok (s2, o ++ log :: o2) /\ hw_dma (z_hw s2) = payload m /\ wakes (concat o2) = [] /\ fail_reports (concat o2) = [].
Proof. exact sent_firmware. Qed.
Print Assumptions C106_on_the_bus.

(** C107: the host types a line that describes a message, and its end arrives in iteration [i], with the
    transmitter idle, no unfinished line and fewer than eight messages waiting.  Then this very iteration starts exactly one transmission, that of the
    oldest message waiting; this one is now the last one waiting (or is the one transmitted, if none was). *)
Theorem C107_typed_line : forall b l i s o s' log line nl m, boot_ok b -> Forall in_ok (l ++ [i]) -> input_ok (text (l ++ [i])) ->
  core0_run b l = Ok (s, o) -> core0_step s i = Ok (s', log) -> received (z_host s) = [] -> (length (pending (z_host s)) < 8)%nat ->
  in_chars i = line ++ [nl] -> Forall is_char line -> no_nl line -> is_nl nl = true -> (length line < 128)%nat -> line_message (in_junk i) line = Some m -> tx_is_idle (z_sm s) = true ->
  exists a, wakes log = [a] /\ In (in_now i, A_pop (in_junk i) a) log /\ pending (z_host s) ++ [m] = a :: pending (z_host s').
Proof. exact typed_line. Qed.
Print Assumptions C107_typed_line.

(** Operation is reached; the request of [C39_ex] arrives, is answered, and the answer is sent 32 ms later. *)
Definition ex106_1 : list inp0 := [calm_iter 100000; calm_iter 2100000; tell 2110000 Free].
Definition ex106_2 : list inp0 := tell 2200000 Busy :: map (fun c => tell 2210000 (Byte c false)) [0; 240; 48; 1; 2; 3; 4; 5; 6; 7; 8; 9; 10; 11; 12; 13; 14; 243].
Definition ex106 : inp0 := tell 2230000 Free.
Definition ex106_k : inp0 := calm_iter 2262000.
Example C106_ex : boot_ok boot0 /\ Forall in_ok ((ex106_1 ++ ex106_2) ++ ex106 :: [calm_iter 2240000] ++ [ex106_k]) /\ input_ok (text ((ex106_1 ++ ex106_2) ++ ex106 :: [calm_iter 2240000] ++ [ex106_k])) /\
  fresh_start ex106_1 /\ granted boot0 (ex106_1 ++ ex106_2) ex106 [calm_iter 2240000] ex106_k /\
  match core0_run boot0 (ex106_1 ++ ex106_2) with
  | Ok (s, o) => tx_is_idle (z_sm s) = true /\ at_rest (z_hw s) /\
    match core0_step s ex106 with
    | Ok (s', log) => no_timeout (skipn 3 o ++ [log]) /\ map payload (wakes log) = [[64; 240; 48; 1; 2; 3; 4; 5; 6; 7; 8; 9; 10; 11; 12; 13; 14; 112]] /\
        exists pre m post k os, log = pre ++ (in_now ex106, A_receive m) :: post /\ steps (controller0 (b_ctrl boot0)) (map fst (flat_map ctrl_part (concat o ++ pre))) k os /\
          k_phase k = Operation /\ request (k_addr k) (packet_of m)
    | UB _ => False
    end
  | UB _ => False
  end.
Proof.
  split; [exact boot0_ok|]. split; [unfold ex106_1, ex106_2, ex106, ex106_k; cbn [map app]; in_oks|]. split; [apply short_input; vm_compute; lia|].
  split; [right; exists [calm_iter 100000; calm_iter 2100000], (tell 2110000 Free); split; reflexivity|].
  split. { exists [], ex106, [calm_iter 2240000]. split; [reflexivity|]. split; [intros [|? ?] ? ? X; discriminate|]. split; [vm_compute; reflexivity|]. split; [vm_compute; reflexivity|]. split; [repeat constructor|]. split; [reflexivity|]. vm_compute. discriminate. }
  destruct (core0_run boot0 (ex106_1 ++ ex106_2)) as [(s & o)|] eqn:E; [|vm_compute in E; discriminate].
  vm_compute in E. injection E as <- <-. split; [reflexivity|]. split; [split; [|split]; reflexivity|].
  match goal with |- match ?X with _ => _ end => let v := eval vm_compute in X in change X with v end. cbv iota.
  split; [unfold no_timeout; cbn [skipn app]; repeat (apply Forall_cons; [vm_compute; intuition discriminate|]); apply Forall_nil|]. split; [vm_compute; reflexivity|].
  match goal with |- exists pre m post k os, ?L = _ /\ _ => let p := eval vm_compute in (filter (fun e => match snd e with A_receive _ => true | _ => false end) L) in
    match p with [(_, A_receive ?m)] => let r := eval cbv in ((fix f (l : list (Z * act)) := match l with [] => ([], []) | (t, A_receive _) :: r => ([], r) | e :: r => let '(x, y) := f r in (e :: x, y) end) L) in
      match r with (?pre, ?post) => exists pre, m, post end end end.
  eexists _, _. split; [reflexivity|]. split.
  { match goal with |- steps _ ?X _ _ => let v := eval vm_compute in X in change X with v end. unfold controller0.
    repeat (eapply steps_cons; [split; [reflexivity|match goal with |- if ?c then _ else _ => let v := eval vm_compute in c in change c with v end; cbv iota; cbn [next k_phase k_since k_addr k_pending]; reflexivity]|]). apply steps_nil. }
  split; [reflexivity|]. left. split; [cbn; lia|]. split; [eexists; reflexivity|]. exists [0; 240; 48; 1; 2; 3; 4; 5; 6; 7; 8; 9; 10; 11; 12; 13; 14], 243. split; [reflexivity|]. apply checksum_fold. vm_compute. reflexivity.
Qed.

(** 00 11 is typed while the line is busy; the line gets free; the message is sent 32 ms later. *)
Definition ex107_l : list inp0 := [tell 10000 Free; tell 12000 Busy].
Definition ex107 : inp0 := typed 20000 [48; 48; 49; 49; 13].
Definition ex107_ls : list inp0 := [calm_iter 30000; tell 50000 Free; calm_iter 81999].
Definition ex107_k : inp0 := calm_iter 82000.
Example C107_ex : boot_ok boot0 /\ Forall in_ok (ex107_l ++ ex107 :: ex107_ls ++ [ex107_k]) /\ input_ok (text (ex107_l ++ ex107 :: ex107_ls ++ [ex107_k])) /\
  granted boot0 ex107_l ex107 ex107_ls ex107_k /\ in_chars ex107 = [48; 48; 49; 49] ++ [13] /\
  match core0_run boot0 ex107_l with
  | Ok (s, o) => tx_is_idle (z_sm s) = true /\ at_rest (z_hw s) /\ received (z_host s) = [] /\ pending (z_host s) = [] /\
    match core0_step s ex107 with Ok (s', log) => wakes log = match line_message (in_junk ex107) [48; 48; 49; 49] with Some m => [m] | None => [] end /\ map payload (wakes log) = [[0; 17]] | UB _ => False end
  | UB _ => False
  end /\
  match core0_run boot0 (ex107_l ++ ex107 :: ex107_ls ++ [ex107_k]) with Ok (s, _) => hw_dma (z_hw s) = [0; 17] | UB _ => False end.
Proof.
  split; [exact boot0_ok|]. split; [unfold ex107_l, ex107, ex107_ls, ex107_k; cbn [app]; in_oks|]. split; [apply short_input; vm_compute; lia|]. split.
  { exists [ex107; calm_iter 30000], (tell 50000 Free), [calm_iter 81999]. split; [reflexivity|]. split.
    - intros x q y X. destruct x as [|x0 [|x1 x]]; cbn [app] in X; [injection X as <- _|injection X as <- <- _|injection X as _ _ X; destruct x; discriminate]; split; vm_compute; congruence.
    - split; [vm_compute; reflexivity|]. split; [vm_compute; reflexivity|]. split; [repeat constructor|]. split; [reflexivity|]. vm_compute. discriminate. }
  split; [reflexivity|]. vm_compute. auto 10.
Qed.
