(** T_Dma.v -- property theorems C131 (the sampling DMA) and C132 (the transmitter's DMA). *)
From Verif Require Import Base M_Message M_Adc M_Tx M_Dma S_Dma P_Dma.

(** C131: if the buffer lies on a 512-byte boundary (main.cpp:31), then in every history of transfers and restarts no byte outside data[256] changes, the next write
    is inside, and what the software reads in data[] is the ring of M_Adc.v, whose transfer count is the channel's. *)
Theorem C131_stays_in_buffer : forall data mem c l, data mod 512 = 0 -> Forall (fun e => match e with Move v => -32768 <= v <= 32767 | Restart => True end) l ->
  let s := fold_left (dma_do data) l (dma_restart data (mem, c)) in let r := fold_left ring_do l (RING (array mem data) 0 TC_INIT) in
  (forall a, a < data \/ data + 512 <= a -> fst s a = mem a) /\ data <= wc_addr (snd s) <= data + 510 /\
  array (fst s) data = rg_data r /\ wc_addr (snd s) = data + 2 * Z.of_nat (rg_wr r) /\ wc_count (snd s) = rg_tc r.
Proof. exact stays_in_buffer. Qed.
Print Assumptions C131_stays_in_buffer.
(** The k-th transfer of a block goes to data[k mod 256]: after it that element is the value moved, the others are as before. *)
Theorem C131_cell : forall data mem c l vs v, data mod 512 = 0 -> Forall (fun e => match e with Move v => -32768 <= v <= 32767 | Restart => True end) (l ++ Restart :: map Move (vs ++ [v])) ->
  Z.of_nat (length vs) < 268435456 ->
  let s := fold_left (dma_do data) (l ++ Restart :: map Move vs) (dma_restart data (mem, c)) in
  array (fst (dma_move s v)) data = upd (array (fst s) data) (length vs mod 256) v.
Proof. exact cell. Qed.
Print Assumptions C131_cell.
(** 300 transfers in a buffer at 0x20040000: element 43 holds the 299th value, element 44 still the 44th; the byte behind the buffer is untouched. *)
Definition ex131 : list dma_ev := map Move (map (fun i => Z.of_nat i - 150) (seq 0 300)).
Example C131_ex : let s := fold_left (dma_do 537133056) ex131 (dma_restart 537133056 (fun _ => 7, WCH 0 0)) in
  537133056 mod 512 = 0 /\ load16 (fst s) (537133056 + 2 * 43) = 149 /\ load16 (fst s) (537133056 + 2 * 44) = -106 /\ fst s (537133056 + 512) = 7.
Proof. repeat split; vm_compute; reflexivity. Qed.
(** The alignment is needed: at an address that is only a multiple of 256 the 129th transfer goes below the buffer. *)
Example C131_alignment : let s := fold_left (dma_do 768) (firstn 129 ex131) (dma_restart 768 (fun _ => 7, WCH 0 0)) in fst s 512 <> 7 /\ wc_addr (snd s) = 514.
Proof. split; vm_compute; [discriminate|reflexivity]. Qed.

(** C132: with the buffer and the channel's address and count in place of a list of bytes to send, every history of calls and hardware steps answers and does the
    same as the list model on which C45 to C52, C120 to C124 and C127 are based; in particular no transfer reads outside Data (that would be undefined). *)
Theorem C132_same_as_list : forall l, Forall op_ok l -> exists x h os, mrun xd_do xd_new l = Ok (x, os) /\ mrun hw_do hw_new l = Ok (h, os) /\ same_hw x h.
Proof. exact xd_from_new. Qed.
Print Assumptions C132_same_as_list.
(** A message of three bytes, aborted after one, then another; a third while the channel is busy is refused. *)
Definition msg132 (l : list Z) : message := MSG 0 0 (l ++ repeat 9 (32 - length l)) (length l).
Example C132_ex : let l := [OSend (msg132 [1; 2; 3]); OHw HwDma; OTransmitting; OHw HwPull; OClear; OSend (msg132 [4; 5]); OHw HwDma; OSend (msg132 [6]); OHw HwDma; OError; OTransmitting] in
  Forall op_ok l /\ exists x os, mrun xd_do xd_new l = Ok (x, os) /\ xd_txf x = [4; 5] /\ xd_count x = 0%nat /\
    os = [None; None; Some true; None; None; None; None; None; None; Some true; Some true].
Proof.
  split; [repeat constructor|]. eexists _, _. split; [vm_compute; reflexivity|]. split; [reflexivity|]. split; reflexivity.
Qed.
