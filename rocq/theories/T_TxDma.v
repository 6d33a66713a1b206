(** T_TxDma.v -- property theorems C121 (no pause within a message). *)
From Verif Require Import Base M_Fifo M_Message S_Message D_Message M_Tx D_Tx M_HostUart D_Host S_Host M_Led M_Adc M_Clock M_Pio S_Dsp S_Pio M_Core1 S_Core1 D_Core1 S_Adc D_Adc D_Core1Adc S_Front S_Slow S_Analog
  M_Core0 S_Core0 D_Core0 M_System S_System S_SysTime S_PioRate S_PioTime S_ModemLine S_ModemHost S_Answer S_TypedLine S_TxHw S_TxDma P_TxDma T_SystemTimed T_ModemHost.

(** C121: the DMA channel, started in cycle [from] to deliver the bytes [bs], reacts within [R] cycles, R at most 175 (one character, 1.14 ms).  Then the characters of [bs]
    follow each other on the line without a pause, the first one begins within R cycles, and the line is idle before and after. *)
Theorem C121_contiguous : forall R from sched bs, (R <= 175)%nat -> (1 <= from)%nat -> (from + R + 175 * length bs + 1 <= length sched)%nat ->
  started_at from sched -> fed_promptly R from sched -> Forall2 word_of bs (concat sched) -> bs <> [] ->
  exists g tail, (from < g <= from + R)%nat /\ map line_level (fst (tx_run pio_init sched)) = repeat 0 g ++ flat_map char_wave_short bs ++ repeat 0 tail.
Proof. exact dma_line. Qed.
Print Assumptions C121_contiguous.
(** It is necessary that the DMA is not slower than that: one byte in 177 cycles leaves a pause of two cycles. *)
Example C121_slow_dma : map line_level (fst (tx_run pio_init ([[]; [165]] ++ repeat [] 176 ++ [[60]] ++ repeat [] 180))) =
  repeat 0 2 ++ char_wave_short 165 ++ repeat 0 2 ++ char_wave_short 60 ++ repeat 0 5.
Proof. vm_compute. reflexivity. Qed.
(** The conditions: 9 bytes of the same value, 8 of them delivered at once, the ninth as soon as there is room again. *)
Definition ex121 : list (list Z) := [[]; repeat 60 8; [60]] ++ repeat [] 1600.
Example C121_ex : started_at 1 ex121 /\ fed_promptly 2 1 ex121 /\ Forall2 word_of (repeat 60 9) (concat ex121) /\ (1 + 2 + 175 * length (repeat 60 9) + 1 <= length ex121)%nat.
Proof.
  split; [reflexivity|]. split; [|split; [|vm_compute; lia]].
  - intros x w y E Lx Lw N F. unfold ex121 in E. pose proof (@P_Pio.concat_repeat_nil Z 1600) as X. revert E X. generalize (repeat (@nil Z) 1600). intros u E X. destruct x as [|x0 [|x1 [|x2 x]]]; [cbn in Lx; lia|..]; cbn [app] in E.
    + destruct w as [|w0 [|w1 [|? ?]]]; try (cbn in Lw; lia). cbn [app] in E. injection E as _ <- <- _. discriminate.
    + destruct w as [|w0 [|w1 [|? ?]]]; try (cbn in Lw; lia). cbn [app] in E. injection E as _ _ <- _. discriminate.
    + exfalso. apply N. injection E as _ _ _ E. rewrite E, concat_app in X. apply app_eq_nil in X. apply X.
  - cbn [ex121 app concat]. rewrite P_Pio.concat_repeat_nil. cbn [repeat app]. repeat (constructor; [split; [lia|left; reflexivity]|]). constructor.
Qed.
(** C119 with the DMA channel in place of a schedule: a documented line of 1 to 31 bytes typed at one modem is reported by the other one to its host. *)
Theorem C121_host_to_host : forall ba la i ls k sa oa sa' log line nl bs sa2 oa2 b mem e0 l s outs garb raw q n V sched t0 amp R from pos,
  boot_ok ba -> Forall in_ok (la ++ i :: ls ++ [k]) -> input_ok (text (la ++ i :: ls ++ [k])) ->
  core0_run ba la = Ok (sa, oa) -> core0_step sa i = Ok (sa', log) -> received (z_host sa) = [] -> pending (z_host sa) = [] ->
  in_chars i = line ++ [nl] -> documented_line line bs -> (1 <= length bs <= 31)%nat -> no_nl line -> is_nl nl = true -> (length line < 128)%nat ->
  tx_is_idle (z_sm sa) = true -> at_rest (z_hw sa) -> la <> [] \/ in_event i <> None -> granted ba la i ls k ->
  core0_run ba (la ++ i :: ls ++ [k]) = Ok (sa2, oa2) -> Forall2 word_of (hw_dma (z_hw sa2)) (concat sched) ->
  (R <= 175)%nat -> (1 <= from)%nat -> started_at from sched -> fed_promptly R from sched -> 0 <= pos -> pos + 1408 <= Z.of_nat from ->
  (from + R + 175 * length bs <= length sched)%nat -> strong n (Z.abs amp) ->
  listens b mem e0 l s outs -> dma_samples l = garb ++ raw -> 0 <= n <= 410 -> (5000 <= q)%nat ->
  conversion_time * Z.of_nat q <= t0 + pio_cycle_time * pos ->
  t0 + pio_cycle_time * Z.of_nat (from + R + 175 * length bs) + 410 * conversion_time <= conversion_time * Z.of_nat (length raw) ->
  digitised n V (converted_of (driven t0 amp (fst (tx_run pio_init sched))) conversion_time (length raw)) raw ->
  exists o, map described (rx_reports (concat (map snd (loops outs)))) = o ++ [(R_packet, (0, bs))].
Proof.
  intros ba la i ls k sa oa sa' log line nl bs sa2 oa2 b mem e0 l s outs garb raw q n V sched t0 amp R from pos
    Hb Hi Ht Hr Hs Hrc Hp Hc Hd Hl Hn Hnl Hll Hid Hre Hla Hg Hr2 Hw HR Hf St P Hpos Hpf Hls Hst Hli Hdm Hno Hq Hc1 Hc2 Hdi.
  destruct (C118_documented_line ba la i ls k sa oa sa' log line nl bs Hb Hi Ht Hr Hs Hrc Hp Hc Hd ltac:(lia) Hn Hnl Hll Hid Hre Hla Hg) as (s2 & o2 & E2 & D & _).
  rewrite Hr2 in E2. injection E2 as <- _. rewrite D in Hw.
  eapply (C119_host_to_host ba la i ls k sa oa sa' log line nl bs sa2 oa2 b mem e0 l s outs garb raw q n V sched t0 amp pos (Z.of_nat (from + R + 175 * length bs))); eauto; try lia.
  - rewrite D. exact Hw.
  - eapply dma_sent; eauto; lia.
Qed.
Print Assumptions C121_host_to_host.
