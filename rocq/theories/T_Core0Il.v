(** T_Core0Il.v -- property theorems C128 (the transmitter hardware at work during iterations of the main loop). *)
From Verif Require Import Base M_Fifo M_Message S_Message D_Message M_Standalone S_Crc S_Ctrl D_Ctrl M_Tx D_Tx M_HostUart D_Host S_Host M_Led M_Core1 M_Core0 S_Core0 D_Core0
  P_Core0 P_Core0Run M_TxIl S_TxIl P_TxIl M_Core0Il S_Core0Il P_Core0Il T_Core0.

(** C128: a history of the main loop during whose iterations the transmitter hardware goes on - anywhere, also between two accesses to it by the same call
    (but see C127_late_dma_refuted) - amounts to one in which the hardware events take place between the iterations, in the same order: the program makes the same calls with the
    same arguments and results at the same times, and is left in the same state, [rest] being what happens after the last point that matters.
    All theorems about core0_run speak of those histories. *)
Theorem C128_serial_partial : forall b l s o, Forall still l -> core0_irun b l = Ok (s, o) ->
  exists l' rest s2 o2, Forall2 but_hw l l' /\ sublist (flat_map in_hw l' ++ rest) (flat_map all_hw l) /\
    core0_run b l' = Ok (s2, o2) /\ s = and_hw s2 rest /\ map program o2 = o.
Proof.
  intros b l s o D E. unfold core0_irun in E. destruct (core0_boot b) as [s0|k] eqn:B; [|discriminate]. cbn [bind] in E.
  destruct (run_il l D s0 []) as (l' & rest & F2 & S & H). rewrite and_hw_nil, E in H. destruct H as (s2 & o2 & R & -> & O).
  exists l', rest, s2, o2. split; [exact F2|]. split; [exact S|]. unfold core0_run. rewrite B. cbn [bind]. auto.
Qed.
Print Assumptions C128_serial_partial.
(** Nothing undefined happens in them. *)
Theorem C128_safe_partial : forall b l, boot_ok b -> Forall in_ok (map fst l) -> input_ok (text (map fst l)) -> Forall still l -> exists s o, core0_irun b l = Ok (s, o).
Proof.
  intros b l Bo F T D. destruct (boot_good b Bo) as (c & s0 & _ & B & _). unfold core0_irun. rewrite B. cbn [bind].
  destruct (run_il l D s0 []) as (l' & rest & F2 & S & H). rewrite and_hw_nil in H.
  destruct (mrun core0_istep s0 l) as [[s o]|k]; [eauto|].
  destruct (C69_main_loop_safe b l' Bo (but_hw_ok _ _ F2 F)) as (s2 & o2 & R); [rewrite (but_hw_text _ _ F2); exact T|].
  unfold core0_run in R. rewrite B in R. cbn [bind] in R. rewrite H in R. discriminate.
Qed.
Print Assumptions C128_safe_partial.
(** The reports to the host and what is handed to the controller are those of a history with the hardware between the iterations. *)
Theorem C128_reports_partial : forall b l s o, Forall still l -> core0_irun b l = Ok (s, o) ->
  exists l' s2 o2, Forall2 but_hw l l' /\ core0_run b l' = Ok (s2, o2) /\
    rx_reports (concat o) = rx_reports (concat o2) /\ to_ctrl (concat o) = to_ctrl (concat o2).
Proof.
  intros b l s o D E. destruct (C128_serial_partial b l s o D E) as (l' & rest & s2 & o2 & F2 & _ & R & _ & <-).
  exists l', s2, o2. split; [exact F2|]. split; [exact R|]. unfold rx_reports, to_ctrl. split; apply flat_program; reflexivity.
Qed.
Print Assumptions C128_reports_partial.
(** Without events inside the iterations it is the model used everywhere else. *)
Theorem C128_same_program : forall p s i, core0_iter_il p s i (LG [] no_gaps []) =
  (let* (s', l) := core0_iter p s i in Ok (s', filter (fun e => match e with A_hw _ => false | _ => true end) l)).
Proof.
  intros p s i. destruct (iter_il p s [] i (LG [] no_gaps [])) as (a & b & S & E); [cbn; tauto|]. rewrite and_hw_nil in E. rewrite E. 
  inversion S as [x H0 H1| |]. symmetry in H0. apply app_eq_nil in H0. destruct H0 as [-> ->]. cbn [app]. rewrite app_nil_r.
  replace (with_in i (in_hw i)) with i by (destruct i; reflexivity). change softb with (fun e => match e with A_hw _ => false | _ => true end).
  destruct (core0_iter p s i) as [[s' l]|k]; [|reflexivity]. cbn [bind]. rewrite and_hw_nil. reflexivity.
Qed.
Print Assumptions C128_same_program.
(** The host has typed 0011 and CR; while SM.Update starts the transmission (the 32 ms have passed) the DMA channel begins to work, after it the PIO. *)
Definition ex128 : list (inp0 * loop_gaps) :=
  map (fun i => (i, LG [] no_gaps [])) [tell 10000 Free; typed 20000 [48; 48; 49; 49; 35]; typed 30000 [13]; calm_iter 31000; calm_iter 31100] ++
  [(calm_iter 64000, LG [HwPull] (GAPS [] [] [HwDma] [] [] []) [HwDma; HwPull; HwStart]); (tell 65000 Busy, LG [] no_gaps [HwDma])].
Example C128_ex : Forall in_ok (map fst ex128) /\ input_ok (text (map fst ex128)) /\ Forall still ex128 /\
  exists s o, core0_irun boot0 ex128 = Ok (s, o) /\ z_hw s = HW false [] [17] SmShifting false /\ t_st (z_sm s) = T_CHECK_DATA.
Proof.
  split; [in_oks|]. split; [apply short_input; vm_compute; lia|]. split; [apply Forall_forall; intros x H; repeat (destruct H as [<-|H]; [intros K; exact K|]); contradiction H|].
  eexists _, _. split; [vm_compute; reflexivity|]. split; reflexivity.
Qed.
