(** T_Host.v -- property theorems C53..C61, C74 (host interface). *)
From Coq Require Import Permutation.
From Verif Require Import Base M_Fifo M_Message S_Message D_Message M_HostUart M_HostIrq D_Host S_Host D_HostIrq P_Host P_HostProps P_HostIrq.

(** ** C53: order of the output under interrupts *)

(** The claim -- in every schedule the UART has got a prefix of the queued characters -- fails: an
    interrupt between Pop and putchar_raw overtakes the popped character. *)
Theorem C53_refuted : forall a b : Z,
  exists l s, out_run l out_new = Ok s /\ queued l out_new = [a; b] /\ o_uart s = [b; a].
Proof. intros a b. exists [OutQueue a; OutQueue b; OutMain true; OutMain true; OutIrq 1; OutMain true]. eexists. split; [vm_compute; reflexivity|]. split; vm_compute; reflexivity. Qed.
Print Assumptions C53_refuted.

(** What holds: no schedule is undefined; in every schedule no character is lost, duplicated or invented
    (the characters on the UART, in the main loop's hand and in the queue are those queued); and the
    order is kept exactly as long as no interrupt strikes between Pop and putchar_raw. *)
Theorem C53_partial : forall l, exists s, out_run l out_new = Ok s /\
  Permutation (o_uart s ++ holding s ++ left_over s) (queued l out_new) /\
  (no_irq_in_gap l out_new -> o_uart s ++ holding s ++ left_over s = queued l out_new).
Proof.
  intros l. destruct (out_defined l out_new [] (P_Containers.ff_new_ok 128 0 ltac:(lia))) as (s & E). exists s. split; [exact E|]. apply out_any. exact E.
Qed.
Print Assumptions C53_partial.
(** An interrupt between the loop test and Pop takes the character first; nothing is lost. *)
Example C53_ex : exists s, out_run [OutQueue 65; OutMain true; OutIrq 3; OutMain true; OutQueue 66; OutMain true; OutMain true; OutMain true] out_new = Ok s /\
  no_irq_in_gap [OutQueue 65; OutMain true; OutIrq 3; OutMain true; OutQueue 66; OutMain true; OutMain true; OutMain true] out_new /\ o_uart s = [65; 66].
Proof. eexists. split; [vm_compute; reflexivity|]. split; [|vm_compute; reflexivity]. vm_compute. repeat first [exact Logic.I|split|reflexivity]. Qed.

(** ** C74: host input under interrupts *)

(** An interrupt between getchar and Push swaps two characters; a character delivered by an interrupt
    while a line is being handled is thrown away. *)
Theorem C74_refuted :
  (forall a b : Z, exists l s, in_run l in_new = Ok s /\ arrived l in_new = [a; b] /\ in_buffer s = [b; a]) /\
  (forall a b : Z, is_nl a = false -> exists l s, in_run l in_new = Ok s /\ arrived l in_new = [a; 10; b] /\ i_lines s = [[a]] /\ i_pc s = InIdle /\ in_buffer s = []).
Proof.
  split.
  - intros a b. exists [InMain (Some a); InIrq [b]; InMain None]. eexists. split; [vm_compute; reflexivity|]. split; vm_compute; reflexivity.
  - intros a b Ha. exists [InMain (Some a); InMain None; InMain (Some 10); InMain None; InScan; InIrq [b]; InMain None]. unfold is_nl in Ha.
    exists (IN (LR (a :: 0 :: b :: repeat 0 125) 0) InIdle [[a]]).
    assert (E : in_run [InMain (Some a); InMain None; InMain (Some 10); InMain None] in_new = Ok (IN (LR (a :: 10 :: repeat 0 126) 2) InIdle [])) by (vm_compute; reflexivity).
    assert (E2 : in_step (IN (LR (a :: 10 :: repeat 0 126) 2) InIdle []) InScan = Ok (IN (LR (a :: 0 :: repeat 0 126) 2) InLine [[a]])).
    { cbn [in_step i_pc i_rx lr_length lr_off lr_data firstn first_nl]. rewrite Ha. reflexivity. }
    assert (Ar : forall l1 l2 s s1, in_run l1 s = Ok s1 -> in_run (l1 ++ l2) s = in_run l2 s1 /\ arrived (l1 ++ l2) s = arrived l1 s ++ arrived l2 s1).
    { induction l1 as [|e l1 IH]; intros l2 s s1 H; cbn [in_run app arrived] in *; [injection H as <-; auto|].
      destruct (in_step s e) as [s2|k]; [|discriminate]. cbn [bind] in *. destruct (IH l2 _ _ H) as (I1 & I2). rewrite I2, app_assoc. auto. }
    destruct (Ar [InMain (Some a); InMain None; InMain (Some 10); InMain None] [InScan; InIrq [b]; InMain None] _ _ E) as (X & Y). cbn [app] in X, Y.
    split; [rewrite X; cbn [in_run]; rewrite E2; vm_compute; reflexivity|]. split; [rewrite Y; cbn [arrived]; rewrite E2; vm_compute; reflexivity|]. repeat split; reflexivity.
Qed.
Print Assumptions C74_refuted.

(** What holds: no schedule is undefined, and in a calm schedule exactly the non-empty lines that arrived
    are handled, once each and in order. *)
Theorem C74_partial : forall l, exists s, in_run l in_new = Ok s /\
  (calm l in_new -> i_pc s = InIdle -> no_nl (in_buffer s) ->
    i_lines s = nonempty (lines_of [] (arrived l in_new)) /\
    exists done, arrived l in_new = done ++ in_buffer s /\ (done = [] \/ ends_nl done = true)).
Proof.
  intros l. destruct (in_defined l in_new [] (P_Containers.lr_new_ok 128 0)) as (s & E). exists s. split; [exact E|]. intros C P N. apply calm_exact; auto.
Qed.
Print Assumptions C74_partial.
Example C74_ex : exists l s, in_run l in_new = Ok s /\ calm l in_new /\ i_pc s = InIdle /\ i_lines s = [[52; 48]] /\ in_buffer s = [49].
Proof.
  exists [InIrq [52]; InMain (Some 48); InMain None; InScan; InIrq [13]; InScan; InMain None; InMain (Some 10); InMain None; InScan; InIrq [49]].
  eexists. split; [vm_compute; reflexivity|]. split; [|split; [reflexivity|split; vm_compute; reflexivity]]. vm_compute.
  repeat first [exact Logic.I | split | (intros _) | reflexivity | lia | (repeat constructor; reflexivity)].
Qed.

(** ** C54: whole lines *)

(** If no call overflowed, what went to the UART plus what is still queued is the concatenation of the
    texts of the messages sent, each followed by CR LF. *)
Theorem C54_whole_lines : forall l h o, Forall hop_ok l -> host_run l = Ok (h, o) -> no_overflow o ->
  exists texts rest, Forall2 (fun m t => formats (m_time m) (m_status m) (payload m) t) (sent o) texts /\
    written o ++ rest = flat_map (fun t => t ++ [13; 10]) texts /\ length rest = ff_length (h_tx h).
Proof. exact out_whole. Qed.
Print Assumptions C54_whole_lines.
(** In any case each call contributes a prefix of its line, the whole line if the flag is down. *)
Theorem C54_pieces : forall l h o, Forall hop_ok l -> host_run l = Ok (h, o) ->
  exists pieces rest,
    Forall2 (fun x piece => exists t cut, formats (m_time (fst x)) (m_status (fst x)) (payload (fst x)) t /\
      piece ++ cut = t ++ [13; 10] /\ (snd x = false -> cut = [])) (sends o) pieces /\
    written o ++ rest = concat pieces /\ length rest = ff_length (h_tx h).
Proof. exact out_pieces. Qed.
Print Assumptions C54_pieces.
(** A call that does not find room for the whole line (128 characters in all) raises the flag, and only
    such a call raises it; UpdateAndSend reports bit 2 iff the flag was up, and lowers it. *)
Theorem C54_flag : forall l h o budget m now h' m' c e, Forall hop_ok l -> msg_ok m -> host_run l = Ok (h, o) ->
  (host_step h (now, OpSend budget m) = Ok (h', OSent m' c e) -> m' = m /\
     exists t, formats (m_time m') (m_status m') (payload m') t /\ (e = true <-> h_error h = true \/ (128 - ff_length (h_tx h) < length t + 2)%nat)) /\
  (host_step h (now, OpReport budget m) = Ok (h', OSent m' c e) ->
     m_status m' = (if h_error h then Z.lor (m_status m) STATUS_ERR_OVERFLOW else m_status m) /\ m_time m' = host_get_time now h /\ m_data m' = m_data m /\ m_length m' = m_length m /\
     exists t, formats (m_time m') (m_status m') (payload m') t /\ (e = true <-> (128 - ff_length (h_tx h) < length t + 2)%nat)).
Proof. exact send_flag. Qed.
Print Assumptions C54_flag.
(** After a call that overflowed, the next message reported carries the overflow bit. *)
Theorem C54_reported : forall l1 e1 l2 now budget m h o m1 c1,
  Forall hop_ok (l1 ++ [e1] ++ l2 ++ [(now, OpReport budget m)]) -> Forall not_report l2 ->
  host_run (l1 ++ [e1] ++ l2 ++ [(now, OpReport budget m)]) = Ok (h, o) ->
  nth_error o (length l1) = Some (OSent m1 c1 true) ->
  exists m' c e o', o = o' ++ [OSent m' c e] /\ m_status m' = Z.lor (m_status m) STATUS_ERR_OVERFLOW.
Proof. exact overflow_reported. Qed.
Print Assumptions C54_reported.

Definition ex_hmsg (st : Z) : message := MSG st 0 (repeat 171 32) 32.
Lemma ex_hmsg_ok st : 0 <= st < 4294967296 -> msg_ok (ex_hmsg st).
Proof. intros H. unfold msg_ok, ex_hmsg. cbn [m_time m_status m_data m_length]. split; [lia|]. split; [exact H|]. split; [reflexivity|]. split; [lia|]. repeat constructor; lia. Qed.
(** Two packets of 32 bytes: the second does not fit; the third report says so. *)
Example C54_ex : exists h o, host_run [(0, OpReport 0 (ex_hmsg 0)); (1000, OpReport 200 (ex_hmsg 0)); (2000, OpCheck 200 (repeat 0 32) []); (3000, OpReport 200 (ex_hmsg 0))] = Ok (h, o) /\
  map (fun x => (m_status (fst x), snd x)) (sends o) = [(0, false); (0, true); (2, false)].
Proof. eexists _, _. split; [vm_compute; reflexivity|reflexivity]. Qed.
Example C54_ex2 : exists h o, host_run [(0, OpReport 10 (ex_hmsg 0)); (1000, OpIrq 200 []); (5000000, OpReport 3 (ex_hmsg 3))] = Ok (h, o) /\
  no_overflow o /\ length (written o) = 74%nat /\ length (sent o) = 2%nat.
Proof. eexists _, _. split; [vm_compute; reflexivity|]. split; [repeat constructor|split; reflexivity]. Qed.

(** ** C55: reported status codes *)
Definition documented (s : Z) : Prop := 0 <= s <= 5.
Definition reports_documented (l : list (Z * host_op)) : Prop :=
  Forall (fun e => match snd e with OpSend _ m | OpReport _ m => documented (m_status m) | _ => True end) l.
(** Even if every message carries a documented status, an undocumented one is sent: 4 with the overflow
    bit is 6.  (1 with the bit is 3: a bus collision is reported as a parity error.) *)
Theorem C55_refuted : ~ (forall l h o, Forall hop_ok l -> reports_documented l -> host_run l = Ok (h, o) -> Forall (fun m => documented (m_status m)) (sent o)).
Proof.
  intros H. set (l := [(0, OpReport 0 (ex_hmsg 0)); (1000, OpReport 200 (ex_hmsg 0)); (3000, OpReport 200 (ex_hmsg 4))]).
  assert (E : exists h o, host_run l = Ok (h, o) /\ map m_status (sent o) = [0; 0; 6]) by (eexists _, _; split; [vm_compute; reflexivity|reflexivity]).
  destruct E as (h & o & E & Es). assert (X : Forall documented (map m_status (sent o))).
  { apply Forall_map. apply (H l h o); auto.
    - repeat constructor; apply ex_hmsg_ok; lia.
    - repeat constructor; cbn; lia. }
  rewrite Es in X. inversion X as [|? ? _ X1]; subst. inversion X1 as [|? ? _ X2]; subst. inversion X2 as [|? ? X3 _]; subst. unfold documented in X3. lia.
Qed.
Print Assumptions C55_refuted.
(** What holds: the status sent is the message's status, or that status with the overflow bit. *)
Theorem C55_partial : forall l h o, Forall hop_ok l -> reports_documented l -> host_run l = Ok (h, o) ->
  Forall (fun m => exists s, documented s /\ (m_status m = s \/ m_status m = Z.lor s 2)) (sent o).
Proof. exact reported_status. Qed.
Print Assumptions C55_partial.

(** ** C56: several lines per poll *)

(** Everything after the first line end that has arrived when Check runs is dropped: the outcome of the
    poll does not depend on it, and the buffer is empty afterwards. *)
Theorem C56_refuted : forall l h o now budget junk line nl rest rest' x x',
  Forall hop_ok l -> host_run l = Ok (h, o) -> received h = [] -> length junk = 32%nat ->
  no_nl line -> is_nl nl = true -> (length line < 128)%nat ->
  Forall byte_char (line ++ nl :: rest) -> Forall byte_char (line ++ nl :: rest') ->
  host_step h (now, OpCheck budget junk (line ++ nl :: rest)) = Ok x ->
  host_step h (now, OpCheck budget junk (line ++ nl :: rest')) = Ok x' ->
  view_of (fst x) = view_of (fst x') /\ received (fst x) = [] /\ received (fst x') = [].
Proof. exact rest_dropped. Qed.
Print Assumptions C56_refuted.
(** Concretely: "40\n41\n" in one poll queues one message, in two polls two. *)
Example C56_ex : exists h o h' o',
  host_run [(0, OpCheck 0 (repeat 0 32) [52; 48; 10; 52; 49; 10])] = Ok (h, o) /\ map payload (pending h) = [[64]] /\
  host_run [(0, OpCheck 0 (repeat 0 32) [52; 48; 10]); (0, OpCheck 0 (repeat 0 32) [52; 49; 10])] = Ok (h', o') /\ map payload (pending h') = [[64]; [65]].
Proof. eexists _, _, _, _. split; [vm_compute; reflexivity|]. split; [vm_compute; reflexivity|]. split; vm_compute; reflexivity. Qed.
(** What holds: each poll handles exactly the first line of the (at most 128) characters received, if
    there is a line end, and nothing otherwise. *)
Theorem C56_first_line_partial : forall l h o now budget junk cs, Forall hop_ok l -> hop_ok (now, OpCheck budget junk cs) -> host_run l = Ok (h, o) ->
  match host_step h (now, OpCheck budget junk cs),
        match first_line (firstn 128 (received h ++ cs)) with None => Ok (view_of h) | Some line => line_effect (view_of h) (now, junk, until_nul line) end with
  | Ok x, Ok v => view_of (fst x) = v /\
      received (fst x) = match first_line (firstn 128 (received h ++ cs)) with None => firstn 128 (received h ++ cs) | Some _ => [] end
  | UB k, UB k' => k = k'
  | _, _ => False
  end.
Proof. exact check_first. Qed.
Print Assumptions C56_first_line_partial.

(** ** C57: over-long lines *)

(** After 128 characters without a line end nothing the host types has any effect, ever. *)
Theorem C57_refuted : forall now budget junk cs l h o,
  Forall hop_ok ((now, OpCheck budget junk cs) :: l) -> (128 <= length cs)%nat -> no_nl (firstn 128 cs) ->
  host_run ((now, OpCheck budget junk cs) :: l) = Ok (h, o) ->
  Forall (fun x => match x with OHas b => b = false | OPopped m => m_length m = 0%nat | _ => True end) o /\ pending h = [] /\ h_boot h = false.
Proof. exact dead. Qed.
Print Assumptions C57_refuted.
Example C57_ex : exists h o, host_run [(0, OpCheck 0 (repeat 0 32) (repeat 35 128)); (0, OpCheck 0 (repeat 0 32) [10]); (0, OpCheck 0 (repeat 0 32) [52; 48; 10]); (0, OpHasData)] = Ok (h, o) /\
  nth_error o 3 = Some (OHas false).
Proof. eexists _, _. split; vm_compute; reflexivity. Qed.

(** The same from any moment on: once the buffer holds 128 characters without a line end, nothing the host
    types is received, no message is added and the bootloader is not entered. *)
Theorem C57_forever_refuted : forall l l2 h o h2 o2, Forall hop_ok (l ++ l2) -> host_run l = Ok (h, o) -> stuck h -> host_run (l ++ l2) = Ok (h2, o2) ->
  received h2 = received h /\ h_boot h2 = h_boot h /\ exists n, pending h2 = skipn n (pending h).
Proof. exact stuck_forever. Qed.
Print Assumptions C57_forever_refuted.
(** What holds: that is the only way to lose the receiver.  After any other history, whatever it received
    (lines dropped, incomplete, refused as too long ...), a line end and a poll make it ready: the next line of up to
    127 characters has exactly its documented effect. *)
Theorem C57_recovers_partial : forall l h o now1 b1 junk1 nl1 now2 b2 junk2 line nl2,
  Forall hop_ok l -> (forall h0 o0, host_run l = Ok (h0, o0) -> ~ stuck h0) -> is_nl nl1 = true -> is_nl nl2 = true -> length junk1 = 32%nat -> length junk2 = 32%nat ->
  host_run (l ++ [(now1, OpCheck b1 junk1 [nl1])]) = Ok (h, o) ->
  Forall is_char line -> no_nl line -> (length line < 128)%nat ->
  match host_step h (now2, OpCheck b2 junk2 (line ++ [nl2])), line_effect (view_of h) (now2, junk2, line) with
  | Ok x, Ok v => view_of (fst x) = v /\ received (fst x) = []
  | UB k, UB k' => k = k'
  | _, _ => False
  end.
Proof. exact recovers. Qed.
Print Assumptions C57_recovers_partial.
(** 127 characters of rubbish are survived, 128 are not. *)
Example C57_ex2 : exists h o x, host_run ([(0, OpCheck 0 (repeat 0 32) (repeat 35 127))] ++ [(0, OpCheck 0 (repeat 0 32) [10])]) = Ok (h, o) /\
  host_step h (0, OpCheck 0 (repeat 0 32) ([52; 48] ++ [10])) = Ok x /\ map payload (pending (fst x)) = [[64]].
Proof. eexists _, _, _. split; [vm_compute; reflexivity|]. split; vm_compute; reflexivity. Qed.
Example C57_ex3 : exists h o, host_run [(0, OpCheck 0 (repeat 0 32) (repeat 35 128))] = Ok (h, o) /\ stuck h.
Proof. eexists _, _. split; [vm_compute; reflexivity|]. split; [reflexivity|]. unfold no_nl, received. cbn. repeat constructor. Qed.

(** ** C58: paced input *)
Theorem C58_paced : forall l, Forall hop_ok l -> Forall plain_op l -> paced [] l ->
  (match host_run l, mfold line_effect (VIEW 0 [] false) (paced_lines [] l) with
   | Ok x, Ok v => view_of (fst x) = v
   | UB k, UB k' => k = k'
   | _, _ => False
   end) /\
  exists tail, lines_of [] (typed l) = map snd (paced_lines [] l) ++ tail /\ (length tail <= 1)%nat.
Proof. exact paced_exact. Qed.
Print Assumptions C58_paced.
(** So comments and empty lines have no effect -- the state is the one the other lines alone give --, and
    the bootloader is entered only by a line that begins with ;!BLD!; *)
Theorem C58_lines : forall l h o, Forall hop_ok l -> Forall plain_op l -> paced [] l -> host_run l = Ok (h, o) ->
  mfold line_effect (VIEW 0 [] false) (filter (fun e => negb (is_comment (snd e)) || boot_command (snd e)) (paced_lines [] l)) = Ok (view_of h) /\
  (v_boot (view_of h) = true -> exists t, In ([59; 33; 66; 76; 68; 33; 59] ++ t) (lines_of [] (typed l))).
Proof. exact paced_comments. Qed.
Print Assumptions C58_lines.
Example C58_ex : exists h o, host_run [(0, OpCheck 0 (repeat 0 32) [52; 48]); (1, OpIrq 0 [13]); (2, OpCheck 0 (repeat 0 32) []); (3, OpCheck 0 (repeat 0 32) [10])] = Ok (h, o) /\
  map payload (pending h) = [[64]].
Proof. eexists _, _. split; vm_compute; reflexivity. Qed.
Example C58_ex2 : paced [] [(0, OpCheck 0 (repeat 0 32) [52; 48]); (1, OpIrq 0 [13]); (2, OpCheck 0 (repeat 0 32) []); (3, OpCheck 0 (repeat 0 32) [10])] /\
  map snd (paced_lines [] [(0, OpCheck 0 (repeat 0 32) [52; 48]); (1, OpIrq 0 [13]); (2, OpCheck 0 (repeat 0 32) []); (3, OpCheck 0 (repeat 0 32) [10])]) = [[52; 48]; []].
Proof. split; [|reflexivity]. cbn. repeat first [exact Logic.I | split | (intros; discriminate) | lia | (repeat constructor; unfold is_char; lia) | (repeat constructor; reflexivity)]. Qed.

(** ** C59: time *)

(** The clock jumps back by 2^32 ms every 49.7 days: time set to t one millisecond before is 0 ms + t - 1
    afterwards. *)
Theorem C59_refuted : (forall now h, host_get_time (now + 4294967296 * 1000) h = host_get_time now h) /\
  (forall h t, 4294967296 <= t < 9223372036854775808 -> exists now1 now2, 0 <= now1 <= now2 /\ now2 = now1 + 1000 /\
     host_get_time now1 (host_set_time now1 h t) = t /\ host_get_time now2 (host_set_time now1 h t) = t + 1 - 4294967296).
Proof. split; [exact time_wraps|exact time_back]. Qed.
Print Assumptions C59_refuted.
(** What holds: before the counter wraps, GetTime is exact to the millisecond. *)
Theorem C59_partial : forall l1 now1 t l2 now2 h o,
  Forall hop_ok (l1 ++ [(now1, OpSetTime t)] ++ l2 ++ [(now2, OpGetTime)]) -> Forall keeps_time l2 ->
  0 <= t -> 0 <= now1 <= now2 -> now2 / 1000 < 4294967296 -> t + (now2 / 1000 - now1 / 1000) < 18446744073709551616 ->
  host_run (l1 ++ [(now1, OpSetTime t)] ++ l2 ++ [(now2, OpGetTime)]) = Ok (h, o) ->
  exists o', o = o' ++ [OTime (t + (now2 / 1000 - now1 / 1000))].
Proof. exact time_after_set. Qed.
Print Assumptions C59_partial.
Example C59_ex : exists h o, host_run [(5000000, OpSetTime 1700000000000); (6000000, OpIrq 0 []); (7500999, OpGetTime)] = Ok (h, o) /\ nth_error o 2 = Some (OTime 1700000002500).
Proof. eexists _, _. split; vm_compute; reflexivity. Qed.

(** ** C60: the message queue *)
Theorem C60_queue : forall l h o, Forall hop_ok l -> paced [] l -> host_run l = Ok (h, o) ->
  (forall l1 l2 h1 o1, l = l1 ++ l2 -> host_run l1 = Ok (h1, o1) -> (length (messages (paced_lines [] l1)) <= 8 + length (popped o1))%nat) ->
  popped o ++ pending h = messages (paced_lines [] l).
Proof. exact host_queue. Qed.
Print Assumptions C60_queue.
Example C60_ex : exists h o, host_run [(0, OpCheck 0 (repeat 0 32) [52; 48; 10]); (1, OpCheck 0 (repeat 0 32) [35; 10]); (2, OpCheck 0 (repeat 0 32) [52; 49; 10]); (3, OpPop (repeat 0 32))] = Ok (h, o) /\
  map payload (popped o) = [[64]] /\ map payload (pending h) = [[65]].
Proof. eexists _, _. split; [vm_compute; reflexivity|]. split; vm_compute; reflexivity. Qed.

(** ** C61: full queue *)

(** The ninth message is dropped, and nothing reports it. *)
Theorem C61_refuted : forall l h o now budget junk line nl x, Forall hop_ok l -> host_run l = Ok (h, o) -> received h = [] -> length junk = 32%nat ->
  Forall is_char line -> no_nl line -> is_nl nl = true -> (length line < 128)%nat -> line_message junk line <> None -> length (pending h) = 8%nat ->
  host_step h (now, OpCheck budget junk (line ++ [nl])) = Ok x ->
  pending (fst x) = pending h /\ h_error (fst x) = h_error h.
Proof. exact ninth_dropped. Qed.
Print Assumptions C61_refuted.
Example C61_ex : exists h o, host_run (map (fun i => (i, OpCheck 0 (repeat 0 32) [52; 48 + i; 10])) [0; 1; 2; 3; 4; 5; 6; 7; 8]) = Ok (h, o) /\
  map payload (pending h) = [[64]; [65]; [66]; [67]; [68]; [69]; [70]; [71]] /\ h_error h = false.
Proof. eexists _, _. split; [vm_compute; reflexivity|]. split; vm_compute; reflexivity. Qed.
(** What holds: while fewer than eight are pending the message is queued. *)
Theorem C61_partial : forall l h o now budget junk line nl x m, Forall hop_ok l -> host_run l = Ok (h, o) -> received h = [] -> length junk = 32%nat ->
  Forall is_char line -> no_nl line -> is_nl nl = true -> (length line < 128)%nat -> line_message junk line = Some m -> (length (pending h) < 8)%nat ->
  host_step h (now, OpCheck budget junk (line ++ [nl])) = Ok x -> pending (fst x) = pending h ++ [m].
Proof. exact below_eight. Qed.
Print Assumptions C61_partial.
