(** T_TxIl.v -- property theorems C127 (the transmitter hardware at work during the calls). *)
From Verif Require Import Base M_Message M_Tx D_Tx P_Tx P_TxRun P_TxHist M_TxIl S_TxIl P_TxIl T_Tx.

(** C127 does not hold if the DMA channel can put bytes into an empty FIFO between Transmitting()'s look at the FIFO and its look at the channel: Transmitting()
    answers no with two bytes waiting in the FIFO, which no order of whole calls and hardware events explains.  (The channel would have to be that slow:
    in the schedule below it has done nothing for 7 ms.) *)
Definition late_dma : list (Z * tx_iev) :=
  [(0, Plain (Wake ex_msg)); (100, Plain (Update false false false 0)); (32100, Plain (Update false false false 0)); (39000, Plain (Update false false false 0));
   (39100, Plain (Wake ex_msg)); (39200, During false false false 0 (GAPS [] [HwDma; HwDma] [] [] [] []))].
Theorem C127_late_dma_refuted : exists t h o, Forall iev_ok late_dma /\ tx_irun ex_junk ex_junk late_dma = Ok ((t, h), o) /\
  t_st t = T_WAIT_POWERON /\ hw_txf h = [64; 7] /\
  forall l' o', serial late_dma l' -> tx_run ex_junk ex_junk l' <> Ok ((t, h), o').
Proof.
  eexists _, _, _. split.
  { unfold late_dma. repeat (constructor; [first [exact ex_msg_ok | exact I | cbn; lia]|]). constructor. }
  split; [vm_compute; reflexivity|]. split; [reflexivity|]. split; [reflexivity|].
  intros l' o' S E. assert (F : Forall (ev_ok 1) l').
  { refine (serial_ok _ _ S _). unfold late_dma. repeat (constructor; [first [exact ex_msg_ok | exact I | cbn; lia]|]). constructor. }
  destruct (iv_pow _ _ (run_inv_eq ex_junk ex_junk _ _ _ _ eq_refl F E) eq_refl) as [_ T]. discriminate T.
Qed.
Print Assumptions C127_late_dma_refuted.

(** What holds of every other schedule, with whatever the hardware does inside the Updates: it amounts to a schedule of whole calls and hardware events in which every
    event inside a call takes place before or after it (or has no effect).  The final state and the answers of Error() are the same.  All of
    C45 to C52, C73, C120, C121 and C126 speak of those schedules. *)
Theorem C127_serial_partial : forall j1 j2 l s o, Forall dma_still l -> tx_irun j1 j2 l = Ok (s, o) ->
  exists l' o', serial l l' /\ tx_run j1 j2 l' = Ok (s, o') /\ answers o' = answers o.
Proof.
  intros j1 j2 l s o D E. destruct (serialise pico l D (tx_new hw_new j1 j2)) as (l' & S & H).
  unfold tx_irun in E. rewrite E in H. destruct H as (o' & R & A). exists l', o'. auto.
Qed.
Print Assumptions C127_serial_partial.
(** Nothing undefined happens in them, the amplifier is off exactly while the machine is idle or waits for the line, and the transmitter is not overrun. *)
Theorem C127_safe_partial : forall j1 j2 l, length j2 = 32%nat -> Forall iev_ok l -> Forall dma_still l ->
  exists t h o, tx_irun j1 j2 l = Ok ((t, h), o) /\ (hw_shutdown h = true <-> t_st t = T_IDLE \/ t_st t = T_WAIT_LINEFREE) /\ hw_error h = false.
Proof.
  intros j1 j2 l L F D. destruct (serialise pico l D (tx_new hw_new j1 j2)) as (l' & S & H).
  destruct (C51_memory_partial j1 j2 l' L (serial_ok _ _ S F)) as ([t h] & o' & E). unfold tx_irun. unfold tx_run in E.
  destruct (mrun (tx_ievent pico) (tx_new hw_new j1 j2) l) as [[[t1 h1] o]|k].
  - destruct H as (o2 & R & _). rewrite R in E. injection E as -> -> ->. exists t, h, o.
    split; [reflexivity|]. split; [exact (C45_driver_off j1 j2 l' t h o' L (serial_ok _ _ S F) R)|exact (C73_no_tx_overrun j1 j2 l' t h o' L (serial_ok _ _ S F) R)].
  - rewrite H in E. discriminate.
Qed.
Print Assumptions C127_safe_partial.
(** A collision on the last byte, with a byte pulled while the transmitter is being cleared; the hardware goes on between the two changes of state. *)
Definition busy_hw : list (Z * tx_iev) :=
  [(0, Plain (Wake ex_msg)); (100, Plain (Update false false false 0)); (32100, During false false false 0 (GAPS [] [] [HwDma; HwStart] [] [] [])); (32200, Plain (Hw HwDma));
   (32300, Plain (Hw HwPull)); (32310, Plain (Hw HwStart)); (32320, Plain (Hw HwDma)); (32400, Plain (Update true false false 0)); (33000, Plain (Update true false true 64)); (33050, Plain (Hw HwDone));
   (34200, During true false true 9 (GAPS [] [] [] [HwPull; HwDma] [HwStart] [HwDone]))].
Example C127_ex : Forall iev_ok busy_hw /\ Forall dma_still busy_hw /\
  exists t h o, tx_irun ex_junk ex_junk busy_hw = Ok ((t, h), o) /\ t_st t = T_WAIT_IDLE /\ t_err t = true /\ h = HW false [] [] SmIdle false /\
  exists l' o', serial busy_hw l' /\ (length l' > length busy_hw)%nat /\ tx_run ex_junk ex_junk l' = Ok ((t, h), o').
Proof.
  split. { unfold busy_hw. repeat (constructor; [first [exact ex_msg_ok | exact I | cbn; lia]|]). constructor. }
  split. { unfold busy_hw. repeat (constructor; [cbn; tauto|]). constructor. }
  eexists _, _, _. split; [vm_compute; reflexivity|]. split; [reflexivity|]. split; [reflexivity|]. split; [reflexivity|].
  eexists (_ :: _ :: _), _. split; [|split].
  - unfold busy_hw. do 2 apply se_plain. apply (se_during _ _ _ _ _ _ [] []); [constructor|]. do 7 apply se_plain.
    apply (se_during _ _ _ _ _ _ [HwPull] [HwStart; HwDone]); [|apply se_nil]. cbn. repeat first [apply sl_keep | apply sl_skip]; apply sl_nil.
  - cbn. lia.
  - vm_compute. reflexivity.
Qed.
