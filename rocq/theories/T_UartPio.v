(** T_UartPio.v -- property theorem C122 (the class UARTPio on its own). *)
From Verif Require Import Base M_Message M_Tx D_Tx S_UartPio D_UartPio P_UartPio.

(** C122: for every sequence of calls of UARTPio - messages of any length, sent whether or not the previous one has left, the queue cleared at any time -
    and everything the hardware does meanwhile: nothing undefined happens; the bytes accepted since the queue was last cleared are, in order, those taken for sending and those
    still queued; the error flag, and every answer of Error(), says whether a message was rejected since Error() was last called; the FIFO is never over-filled;
    bytes are sent one at a time. *)
Theorem C122_uart_pio : forall l, Forall msg32 l -> exists h o, u_run hw_new l = Ok (h, o) /\
  accepted_since o [] = taken_since o [] ++ hw_txf h ++ hw_dma h /\
  hw_error h = rejected_since o false /\ answers_ok o false /\
  (length (hw_txf h) <= 8)%nat /\ one_at_a_time o SmIdle.
Proof.
  intros l F. destruct (run_ok l F) as (h & o & E & I1 & I2 & I3 & I4 & I5 & _). exists h, o. auto 10.
Qed.
Print Assumptions C122_uart_pio.
(** What a call of Send does: a message is rejected exactly if DataWaiting() or its length is above 32; then the queue is unchanged and the flag is up.
    Otherwise its bytes wait, all of them. *)
Theorem C122_send : forall h m, length (m_data m) = 32%nat ->
  (hw_data_waiting h = true \/ (32 < m_length m)%nat ->
     u_step h (USend m) = Ok (HW true (hw_dma h) (hw_txf h) (hw_sm h) (hw_shutdown h), [Rejected])) /\
  (hw_data_waiting h = false -> (m_length m <= 32)%nat ->
     u_step h (USend m) = Ok (HW (hw_error h) (tx_bytes m) (hw_txf h) (hw_sm h) (hw_shutdown h), [Accepted (tx_bytes m)])).
Proof.
  intros h m L. cbn [u_step]. unfold hw_send. split.
  - intros [W|W]; [rewrite W; reflexivity|]. destruct (hw_data_waiting h); [reflexivity|]. destruct (Nat.ltb_spec 32 (m_length m)); [reflexivity|lia].
  - intros W B. rewrite W. destruct (Nat.ltb_spec 32 (m_length m)); [lia|]. destruct (P_Tx.copy_bytes m L B) as (d & -> & E). cbn [bind orb]. rewrite E. reflexivity.
Qed.
Print Assumptions C122_send.
(** Two messages, the second one rejected at first; the queue cleared when one byte is out. *)
Definition ex122_a : message := MSG 0 0 ([64; 7] ++ repeat 0 30) 2.
Definition ex122_b : message := MSG 0 0 ([9; 8; 7] ++ repeat 0 29) 3.
Definition ex122 : list uop := [USend ex122_a; USend ex122_b; UError; UHw HwDma; UHw HwPull; UHw HwStart; UHw HwDma; USend ex122_b; UHw HwDma; UHw HwPull; UHw HwDone; UHw HwPull; UHw HwStart].
Example C122_ex : Forall msg32 ex122 /\ exists h, u_run hw_new ex122 =
  Ok (h, [Accepted [64; 7]; Rejected; Answered true; Taken 64; Begun; Accepted [9; 8; 7]; Ended; Taken 7; Begun]) /\ hw_txf h = [9] /\ hw_dma h = [8; 7].
Proof. split; [repeat constructor|]. eexists. split; [vm_compute; reflexivity|]. split; reflexivity. Qed.
