(** T_ModemHost.v -- property theorems C117 (modem to modem), C118 (a documented line goes out on the bus), C119 (host to host). *)
From Verif Require Import Base M_Fifo M_Message S_Message D_Message M_Tx D_Tx M_HostUart D_Host S_Host M_Led M_Adc M_Clock M_Pio S_Dsp S_Pio M_Core1 S_Core1 D_Core1 S_Adc D_Adc D_Core1Adc S_Front S_Slow S_Analog
  M_Core0 S_Core0 D_Core0 M_System S_System S_SysTime S_PioRate S_PioTime S_ModemLine S_ModemHost S_Answer S_TypedLine P_Core0 P_System P_SystemRx P_ModemHost P_TypedLine P_Recover
  T_Core0 T_Front T_SystemLine T_Analog T_SystemTimed T_Answer.

(** C117: the transmitter of one modem, started at time [t0] (of the other one's ADC), is given the messages [ms] (1 to 31 bytes each), byte by byte in the
    cycles of [sched], the bytes of each message in time (C116), the messages at least 9.2 ms apart.  The other modem
    converts the voltage these pins cause, with its own clock, amplitude, polarity, common voltage and noise as in C105; before that it may have seen anything
    ([garb]), then the line is quiet for 16 ms.  Then its last reports to its host - and packets for its controller - are exactly [ms], with status 0. *)
Theorem C117_modem_to_modem : forall b mem e0 l s outs garb raw q n V sched ms t0 amp pos till,
  listens b mem e0 l s outs -> dma_samples l = garb ++ raw -> 0 <= n <= 410 -> (5000 <= q)%nat ->
  Forall2 word_of (concat ms) (concat sched) -> sent_as pos till (arrivals 0 sched) ms -> 0 <= pos -> till <= Z.of_nat (length sched) -> strong n (Z.abs amp) ->
  conversion_time * Z.of_nat q <= t0 + pio_cycle_time * pos -> t0 + pio_cycle_time * till + 410 * conversion_time <= conversion_time * Z.of_nat (length raw) ->
  digitised n V (converted_of (driven t0 amp (fst (tx_run pio_init sched))) conversion_time (length raw)) raw ->
  exists o c, map described (rx_reports (concat (map snd (loops outs)))) = o ++ map (fun m => (R_packet, (0, m))) ms /\
    map content (to_ctrl (concat (map snd (loops outs)))) = c ++ map (fun m => (0, m)) ms.
Proof. exact modem_to_modem. Qed.
Print Assumptions C117_modem_to_modem.

(** C118: the parser understands the documented form of a line. *)
Theorem C118_documented_message : forall junk line bs, length junk = 32%nat -> documented_line line bs -> (1 <= length bs <= 32)%nat ->
  exists m, line_message junk line = Some m /\ payload m = bs.
Proof. exact documented_message. Qed.
Print Assumptions C118_documented_message.
(** C118: when the host types such a line, with no other one waiting and the transmitter idle, and the line is free for long enough ([granted]), exactly the bytes it
    spells are handed to the transmit hardware, at iteration [k], and no failure is reported. *)
Theorem C118_documented_line : forall b l i ls k s o s' log line nl bs, boot_ok b -> Forall in_ok (l ++ i :: ls ++ [k]) -> input_ok (text (l ++ i :: ls ++ [k])) ->
  core0_run b l = Ok (s, o) -> core0_step s i = Ok (s', log) -> received (z_host s) = [] -> pending (z_host s) = [] ->
  in_chars i = line ++ [nl] -> documented_line line bs -> (1 <= length bs <= 32)%nat -> no_nl line -> is_nl nl = true -> (length line < 128)%nat ->
  tx_is_idle (z_sm s) = true -> at_rest (z_hw s) -> l <> [] \/ in_event i <> None -> granted b l i ls k ->
  exists s2 o2, core0_run b (l ++ i :: ls ++ [k]) = Ok (s2, o ++ log :: o2) /\ hw_dma (z_hw s2) = bs /\ fail_reports (concat o2) = [].
Proof. exact documented_sent. Qed.
Print Assumptions C118_documented_line.

(** C119: C118 and C117 together: a documented line typed at one modem is reported by the other one to its host, as a packet of
    exactly these bytes and status 0.  (The DMA moves the bytes handed to it to the transmitter in order, in the cycles of [sched].) *)
Theorem C119_host_to_host : forall ba la i ls k sa oa sa' log line nl bs sa2 oa2 b mem e0 l s outs garb raw q n V sched t0 amp pos till,
  boot_ok ba -> Forall in_ok (la ++ i :: ls ++ [k]) -> input_ok (text (la ++ i :: ls ++ [k])) ->
  core0_run ba la = Ok (sa, oa) -> core0_step sa i = Ok (sa', log) -> received (z_host sa) = [] -> pending (z_host sa) = [] ->
  in_chars i = line ++ [nl] -> documented_line line bs -> (1 <= length bs)%nat -> no_nl line -> is_nl nl = true -> (length line < 128)%nat ->
  tx_is_idle (z_sm sa) = true -> at_rest (z_hw sa) -> la <> [] \/ in_event i <> None -> granted ba la i ls k ->
  core0_run ba (la ++ i :: ls ++ [k]) = Ok (sa2, oa2) -> Forall2 word_of (hw_dma (z_hw sa2)) (concat sched) -> sent_as pos till (arrivals 0 sched) [bs] -> 0 <= pos -> till <= Z.of_nat (length sched) -> strong n (Z.abs amp) ->
  listens b mem e0 l s outs -> dma_samples l = garb ++ raw -> 0 <= n <= 410 -> (5000 <= q)%nat ->
  conversion_time * Z.of_nat q <= t0 + pio_cycle_time * pos -> t0 + pio_cycle_time * till + 410 * conversion_time <= conversion_time * Z.of_nat (length raw) ->
  digitised n V (converted_of (driven t0 amp (fst (tx_run pio_init sched))) conversion_time (length raw)) raw ->
  exists o, map described (rx_reports (concat (map snd (loops outs)))) = o ++ [(R_packet, (0, bs))].
Proof. exact host_to_host. Qed.
Print Assumptions C119_host_to_host.

(** The forms of a line. *)
Example C118_ex1 : documented_line [52; 48; 32; 70; 48] [64; 240].
Proof. exists [], [52; 48; 32; 70; 48], []. split; [reflexivity|]. split; [split; [repeat constructor; unfold hexadecimal, decimal; lia|split; [repeat constructor; lia|reflexivity]]|]. split; [auto|]. left. split; auto. Qed.
(** 12:1f:4 0f0 # a:b *)
Example C118_ex2 : documented_line [49; 50; 58; 49; 102; 58; 52; 32; 48; 102; 48; 32; 35; 32; 97; 58; 98] [64; 240].
Proof.
  exists [49; 50; 58; 49; 102; 58], [52; 32; 48; 102; 48; 32], [35; 32; 97; 58; 98]. split; [reflexivity|]. split; [split; [repeat constructor; unfold hexadecimal, decimal; lia|split; [repeat constructor; lia|reflexivity]]|].
  split; [right; exists 35; eexists; split; [reflexivity|]; split; [auto|]; repeat constructor|]. right. exists [49; 50], [49; 102]. split; [reflexivity|]. split; repeat constructor; unfold hexadecimal, decimal; lia.
Qed.

(** The message of C107_ex goes to another modem, wires swapped. *)
Definition ex117_sched : list (list Z) := repeat [] 3921 ++ [[0; 17 * 16843009]] ++ repeat [] 400.
Definition ex117_ideal : list Z := converted_of (driven 0 (-16000) (fst (tx_run pio_init ex117_sched))) conversion_time (4000 + 4915).
Definition ex117_raw : list Z := convert 0 25500 ex117_ideal.
Lemma driven_range t0 tr x : -30000 <= driven t0 (-16000) tr x <= 30000.
Proof.
  unfold driven. destruct (x <? t0); [lia|]. set (k := Z.to_nat _). clearbody k. destruct (nth_in_or_default k (map line_level tr) 0) as [H| ->]; [|lia].
  apply in_map_iff in H as (p & <- & _). unfold line_level. destruct (p =? 3); [lia|]. destruct (p =? 0); lia.
Qed.
Lemma ex117_len : length ex117_raw = (4000 + 4915)%nat.
Proof. unfold ex117_raw, ex117_ideal, converted_of. rewrite convert_length, map_length, seq_length. reflexivity. Qed.
Lemma ex117_arr : arrivals 0 ex117_sched = [3921; 3921].
Proof. unfold ex117_sched. rewrite P_PioRate.arrivals_app, P_PioRate.arrivals_quiet, P_PioRate.arrivals_app, P_PioRate.arrivals_quiet. rewrite repeat_length. reflexivity. Qed.
Lemma ex117_sent : sent_as 2513 4272 (arrivals 0 ex117_sched) [[0; 17]].
Proof.
  rewrite ex117_arr. cbn [sent_as length]. split; [lia|]. exists 3921, [3921], []. split; [reflexivity|]. split; [reflexivity|]. split; [lia|]. split.
  - intros [|[|k]] x H; cbn in H; try discriminate. injection H as <-. unfold char_cycles. lia.
  - split; [reflexivity|]. unfold char_cycles. lia.
Qed.
Lemma ex117_words : Forall2 word_of (concat [[0; 17]]) (concat ex117_sched).
Proof.
  assert (E : concat ex117_sched = [0; 17 * 16843009]). { unfold ex117_sched. rewrite !concat_app, !P_Pio.concat_repeat_nil. reflexivity. }
  rewrite E. repeat constructor; unfold word_of; lia.
Qed.
Lemma ex117_listens : exists s outs, listens boot0 (repeat 0 256) true (clocked 0 (ex_noise ++ ex117_raw)) s outs.
Proof.
  assert (H1 : Forall (fun x => -255 <= x <= 255) (ex_noise ++ ex117_raw)).
  { apply Forall_app. split; [apply (boundedb_ok 255); vm_compute; reflexivity|]. apply convert_range; [lia|]. apply Forall_map, Forall_forall. intros i _. apply driven_range. }
  assert (Hn : Z.of_nat (length (ex_noise ++ ex117_raw)) < BLOCK). { rewrite app_length, ex117_len. unfold ex_noise. rewrite map_length, seq_length. reflexivity. }
  pose proof (clocked_ok _ 0 H1) as Hl. pose proof (clocked_text (ex_noise ++ ex117_raw) 0) as Ht. pose proof (clocked_served (ex_noise ++ ex117_raw) 0) as Hs. pose proof (clocked_keeps _ 0 Hn) as Hk.
  pose proof (clocked_dma (ex_noise ++ ex117_raw) 0) as Hd. pose proof (clocked_real (ex_noise ++ ex117_raw) 0) as Hr.
  assert (B0 : b_now boot0 <= at_us 0) by (vm_compute; discriminate). pose proof (clocked_time (ex_noise ++ ex117_raw) 0 _ B0) as Hti.
  generalize dependent (clocked 0 (ex_noise ++ ex117_raw)). intros l Hl Ht Hs Hk Hd Hr Hti. generalize dependent (ex_noise ++ ex117_raw). intros raw H1 Hn Hd.
  assert (Hi : input_ok (text (sys_loop_inputs l))) by (rewrite Ht; apply short_input; cbn; lia).
  assert (Hm : Forall (fun x => -255 <= x <= 255) (repeat 0 256)) by (apply (boundedb_ok 255); vm_compute; reflexivity).
  assert (Lm : length (repeat 0 256) = 256%nat) by apply repeat_length. rewrite <- Hd in Hn.
  destruct (sys_total boot0 (repeat 0 256) true l boot0_ok Lm Hm Hl Hi) as (s & outs & E).
  destruct (C95_no_overflow boot0 (repeat 0 256) true l s outs boot0_ok Hl Hi E Hs) as (A1 & A2 & A3).
  exists s, outs. unfold listens. assert (N3 : 0 <= b_now boot0) by (vm_compute; discriminate).
  split; [exact boot0_ok|]. split; [exact Lm|]. split; [exact Hm|]. split; [exact Hl|]. split; [exact Hi|]. split; [exact E|]. split; [exact Hk|]. split; [exact Hn|].
  split; [exact A1|]. split; [exact A2|]. split; [exact A3|]. split; [exact N3|]. split; [exact Hti|]. exists (5000 * 96000), 480000, 1%nat. split; [exact Hr|]. lia.
Qed.
Example C117_ex : exists s outs o c, sys_run boot0 (repeat 0 256) true (clocked 0 (ex_noise ++ ex117_raw)) = Ok (s, outs) /\
  map described (rx_reports (concat (map snd (loops outs)))) = o ++ [(R_packet, (0, [0; 17]))] /\
  map content (to_ctrl (concat (map snd (loops outs)))) = c ++ [(0, [0; 17])].
Proof.
  destruct ex117_listens as (s & outs & L). pose proof (clocked_dma (ex_noise ++ ex117_raw) 0) as Hd.
  assert (Dg : digitised 198 25500 ex117_ideal ex117_raw) by apply convert_digitised. unfold ex117_ideal in Dg. rewrite <- ex117_len in Dg.
  assert (Ls : 4272 <= Z.of_nat (length ex117_sched)) by (unfold ex117_sched; rewrite !app_length, !repeat_length; cbn [length]; lia).
  assert (St : strong 198 (Z.abs (-16000))) by (unfold strong; lia).
  assert (T1 : conversion_time * Z.of_nat 5000 <= 0 + pio_cycle_time * 2513) by (vm_compute; discriminate).
  assert (T2 : 0 + pio_cycle_time * 4272 + 410 * conversion_time <= conversion_time * Z.of_nat (length ex117_raw)) by (rewrite ex117_len; vm_compute; discriminate).
  destruct (C117_modem_to_modem boot0 (repeat 0 256) true _ s outs ex_noise ex117_raw 5000 198 25500 ex117_sched [[0; 17]] 0 (-16000) 2513 4272 L Hd ltac:(lia) (Nat.le_refl _) ex117_words ex117_sent ltac:(lia) Ls St T1 T2 Dg) as (o & c & X1 & X2).
  destruct L as (_ & _ & _ & _ & _ & E & _). exists s, outs, o, c. split; [exact E|]. split; [exact X1|exact X2].
Qed.
(** The sender's side of C119 for this message (C107_ex has the rest): what the host typed there is documented, and what is handed to its transmit hardware are the bytes
    that arrive on [ex117_sched]. *)
Example C119_ex : documented_line [48; 48; 49; 49] [0; 17] /\ in_chars ex107 = [48; 48; 49; 49] ++ [13] /\
  match core0_run boot0 (ex107_l ++ ex107 :: ex107_ls ++ [ex107_k]) with Ok (s, _) => Forall2 word_of (hw_dma (z_hw s)) (concat ex117_sched) | UB _ => False end /\
  sent_as 2513 4272 (arrivals 0 ex117_sched) [[0; 17]].
Proof.
  split. { exists [], [48; 48; 49; 49], []. split; [reflexivity|]. split; [split; [repeat constructor; unfold hexadecimal, decimal; lia|split; [repeat constructor; lia|reflexivity]]|]. split; [auto|]. left. split; auto. }
  split; [reflexivity|]. split; [|exact ex117_sent].
  pose proof C107_ex as (_ & _ & _ & _ & _ & _ & X). destruct (core0_run boot0 (ex107_l ++ ex107 :: ex107_ls ++ [ex107_k])) as [(s & o)|]; [|exact X]. rewrite X. exact ex117_words.
Qed.
