(** P_ModemHost.v -- modem to modem and host to host. *)
From Verif Require Import Base M_Fifo M_Message S_Message D_Message M_Standalone M_Tx D_Tx M_HostUart D_Host S_Host M_Led M_Adc M_Clock M_Pio S_Dsp S_Pio M_Core1 S_Core1 D_Core1 S_Adc D_Adc D_Core1Adc S_Front S_Slow S_Analog
  M_Core0 S_Core0 D_Core0 M_System S_System S_SysTime P_SystemTimed S_PioRate S_PioTime S_ModemLine S_ModemHost P_Pio P_ModemLine P_Core0Run P_Core0Answer S_Answer S_TypedLine P_TypedLine.

Lemma modem_to_modem b mem e0 l s outs garb raw q n V sched ms t0 amp pos till :
  listens b mem e0 l s outs -> dma_samples l = garb ++ raw -> 0 <= n <= 410 -> (5000 <= q)%nat ->
  Forall2 word_of (concat ms) (concat sched) -> sent_as pos till (arrivals 0 sched) ms -> 0 <= pos -> till <= Z.of_nat (length sched) -> strong n (Z.abs amp) ->
  conversion_time * Z.of_nat q <= t0 + pio_cycle_time * pos -> t0 + pio_cycle_time * till + 410 * conversion_time <= conversion_time * Z.of_nat (length raw) ->
  digitised n V (converted_of (driven t0 amp (fst (tx_run pio_init sched))) conversion_time (length raw)) raw ->
  exists o c, map described (rx_reports (concat (map snd (loops outs)))) = o ++ map (fun m => (R_packet, (0, m))) ms /\
    map content (to_ctrl (concat (map snd (loops outs)))) = c ++ map (fun m => (0, m)) ms.
Proof.
  intros (B & L & M & F & T & E & K & N & O & Q1 & Q2 & B0 & IT & t1 & sl & w & R & R1 & R2 & R3) D Hn Hq Hw Ha Hp Ht St H0 H1 Dg.
  destruct (modem_line t0 amp sched ms pos till n q (length raw) Hw Ha Hp Ht St H0 H1) as (sg & I1 & I2 & I3 & I4 & I5). rewrite I5 in Dg.
  destruct (timed_to_host b mem e0 l s outs garb q n V sg raw t1 sl w B L M F T E K N O Q1 Q2 B0 IT R R1 R2 R3 D Hn Hq I2 I3 I4 Dg) as (o & c & X1 & X2).
  exists o, c. subst ms. rewrite !map_map. auto.
Qed.

(** The sender: what the host typed. *)
Lemma typed_sent b l i ls k s o s' log line nl m : boot_ok b -> Forall in_ok (l ++ i :: ls ++ [k]) -> input_ok (text (l ++ i :: ls ++ [k])) ->
  core0_run b l = Ok (s, o) -> core0_step s i = Ok (s', log) -> received (z_host s) = [] -> pending (z_host s) = [] ->
  in_chars i = line ++ [nl] -> Forall is_char line -> no_nl line -> is_nl nl = true -> (length line < 128)%nat -> line_message (in_junk i) line = Some m ->
  tx_is_idle (z_sm s) = true -> at_rest (z_hw s) -> l <> [] \/ in_event i <> None -> granted b l i ls k ->
  exists s2 o2, core0_run b (l ++ i :: ls ++ [k]) = Ok (s2, o ++ log :: o2) /\ hw_dma (z_hw s2) = payload m /\ fail_reports (concat o2) = [].
Proof.
  intros B F T E Es Hr Hp Hc Hl Hn Hnl Hlen Hm Hi Hh He Hg.
  assert (Fi : Forall in_ok (l ++ [i])). { apply Forall_app in F as (F1 & F2). apply Forall_app. split; auto. inversion F2; subst. constructor; auto. }
  assert (Ti : input_ok (text (l ++ [i]))). { replace (l ++ i :: ls ++ [k]) with ((l ++ [i]) ++ ls ++ [k]) in T by (rewrite <- app_assoc; reflexivity). rewrite text_app in T. exact (P_Core0Run.input_ok_prefix _ _ T). }
  destruct (typed_line b l i s o s' log line nl m B Fi Ti E Es Hr) as (a & W & _ & Pe); auto; [rewrite Hp; cbn; lia|].
  rewrite Hp in Pe. cbn [app] in Pe. injection Pe as <- _.
  destruct (sent_firmware b l i ls k s o s' log m B F T E Es) as (s2 & o2 & X1 & X2 & _ & X3); auto; [rewrite W; left; reflexivity|].
  exists s2, o2. auto.
Qed.

Lemma documented_sent b l i ls k s o s' log line nl bs : boot_ok b -> Forall in_ok (l ++ i :: ls ++ [k]) -> input_ok (text (l ++ i :: ls ++ [k])) ->
  core0_run b l = Ok (s, o) -> core0_step s i = Ok (s', log) -> received (z_host s) = [] -> pending (z_host s) = [] ->
  in_chars i = line ++ [nl] -> documented_line line bs -> (1 <= length bs <= 32)%nat -> no_nl line -> is_nl nl = true -> (length line < 128)%nat ->
  tx_is_idle (z_sm s) = true -> at_rest (z_hw s) -> l <> [] \/ in_event i <> None -> granted b l i ls k ->
  exists s2 o2, core0_run b (l ++ i :: ls ++ [k]) = Ok (s2, o ++ log :: o2) /\ hw_dma (z_hw s2) = bs /\ fail_reports (concat o2) = [].
Proof.
  intros B F T E Es Hr Hp Hc Hd Hb Hn Hnl Hlen Hi Hh He Hg.
  assert (Ji : length (in_junk i) = 32%nat). { apply Forall_app in F as (_ & F2). inversion F2 as [|? ? Fi _]; subst. unfold in_ok in Fi. destruct Fi as (Fi & _). destruct Fi as (Fi & _). exact Fi. }
  destruct (documented_message (in_junk i) line bs Ji Hd Hb) as (m & Hm & <-).
  destruct (documented_field line _ Hd) as (_ & _ & _ & Hl & _).
  exact (typed_sent b l i ls k s o s' log line nl m B F T E Es Hr Hp Hc Hl Hn Hnl Hlen Hm Hi Hh He Hg).
Qed.

Lemma host_to_host ba la i ls k sa oa sa' log line nl bs sa2 oa2 b mem e0 l s outs garb raw q n V sched t0 amp pos till :
  boot_ok ba -> Forall in_ok (la ++ i :: ls ++ [k]) -> input_ok (text (la ++ i :: ls ++ [k])) ->
  core0_run ba la = Ok (sa, oa) -> core0_step sa i = Ok (sa', log) -> received (z_host sa) = [] -> pending (z_host sa) = [] ->
  in_chars i = line ++ [nl] -> documented_line line bs -> (1 <= length bs)%nat -> no_nl line -> is_nl nl = true -> (length line < 128)%nat ->
  tx_is_idle (z_sm sa) = true -> at_rest (z_hw sa) -> la <> [] \/ in_event i <> None -> granted ba la i ls k ->
  core0_run ba (la ++ i :: ls ++ [k]) = Ok (sa2, oa2) -> Forall2 word_of (hw_dma (z_hw sa2)) (concat sched) -> sent_as pos till (arrivals 0 sched) [bs] -> 0 <= pos -> till <= Z.of_nat (length sched) -> strong n (Z.abs amp) ->
  listens b mem e0 l s outs -> dma_samples l = garb ++ raw -> 0 <= n <= 410 -> (5000 <= q)%nat ->
  conversion_time * Z.of_nat q <= t0 + pio_cycle_time * pos -> t0 + pio_cycle_time * till + 410 * conversion_time <= conversion_time * Z.of_nat (length raw) ->
  digitised n V (converted_of (driven t0 amp (fst (tx_run pio_init sched))) conversion_time (length raw)) raw ->
  exists o, map described (rx_reports (concat (map snd (loops outs)))) = o ++ [(R_packet, (0, bs))].
Proof.
  intros B F T E Es Hr Hp Hc Hd Hb Hn Hnl Hlen Hi Hh He Hg E2 Hw Ha Hpos Ht St Li D Nn Hq H0 H1 Dg.
  assert (H31 : (length bs <= 31)%nat) by (cbn [sent_as] in Ha; tauto).
  destruct (documented_sent ba la i ls k sa oa sa' log line nl bs B F T E Es Hr Hp Hc Hd) as (s2 & o2 & X1 & X2 & _); auto.
  rewrite E2 in X1. injection X1 as -> _. rewrite X2 in Hw.
  destruct (modem_to_modem b mem e0 l s outs garb raw q n V sched [bs] t0 amp pos till Li D Nn Hq) as (o & c & R1 & _); auto; [cbn [concat]; rewrite app_nil_r; exact Hw|].
  exists o. exact R1.
Qed.
