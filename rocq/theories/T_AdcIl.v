(** T_AdcIl.v -- property theorems C124 (the measured voltage when the DMA goes on during Update). *)
From Verif Require Import Base M_Adc M_AdcIl S_Adc S_AdcIl D_AdcIl P_Adc P_AdcIl.

(** For every history of transfers and polls, with transfers also between the memory accesses of Update: nothing is undefined, the
    samples are handed out one per poll and in order, the value is right if at most 254 samples are pending when the last of the
    three samples is read, and the error flag is set if -- and without a restart that finds the companion channel unfinished, only
    if -- 256 or more are pending when the count is read. *)
Theorem C124_during_update : forall mem gain l,
  length mem = 256%nat /\ Forall sample_range mem -> 0 <= gain <= 65535 -> Forall il_range l ->
  exists a' outs, mrun il_event (adc_start mem gain) l = Ok (a', outs) /\
    Forall2 (il_ok gain mem (transferred (fst (il_run view0 l)))) (snd (il_run view0 l)) outs /\
    (Forall il_clean l -> Forall2 il_exact (snd (il_run view0 l)) outs).
Proof. exact il_history. Qed.
Print Assumptions C124_during_update.

(** The number pending at the last read is what matters: with 254 pending when the count is read -- which C27 allows -- and one
    transfer before the second sample is read, the value is wrong and no error is flagged. *)
Theorem C124_count_refuted : exists l mem gain a outs k i v,
  length mem = 256%nat /\ Forall il_range l /\ mrun il_event (adc_start mem gain) l = Ok (a, outs) /\
  nth_error (snd (il_run view0 l)) k = Some (Some (IData i 254 255)) /\
  nth_error outs k = Some (Some (Some (v, false))) /\
  v <> value_at gain mem (transferred (fst (il_run view0 l))) i.
Proof.
  exists (ISample 0 :: ISample 0 :: IPoll true [] [] [] [] :: IPoll true [] [] [] [] :: repeat (ISample 0) 254 ++ [IPoll true [] [] [1000] []]),
    (repeat 0 256), firmware_gain.
  eexists _, _, 258%nat, _, _. split; [reflexivity|].
  split. { apply Forall_forall. intros e He. cbn in He. unfold sample_range.
    repeat destruct He as [<-|He]; cbn; unfold sample_range; try lia; try contradiction; try constructor; try lia; constructor. }
  split; [vm_compute; reflexivity|]. split; [vm_compute; reflexivity|]. split; [vm_compute; reflexivity|]. vm_compute. discriminate.
Qed.
Print Assumptions C124_count_refuted.

(** Transfers during a poll that restarts the channel count as its first samples; transfers before the reads are seen later. *)
Example C124_ex : let l := [ISample 10; IPoll true [] [] [] [-3]; ISample 12; IPoll true [] [7] [8; 9] []; IPoll true [] [] [] []] in
  Forall il_range l /\ Forall il_clean l /\
  (exists a', mrun il_event (adc_start (repeat 0 256) firmware_gain) l =
    Ok (a', [None; Some (Some (97, false)); None; Some (Some (175, false)); Some (Some (156, false))])) /\
  snd (il_run view0 l) = [None; Some (IData 0 1 2); None; Some (IData 1 2 5); Some (IData 2 4 4)].
Proof.
  cbv zeta. split; [|split; [|split]].
  - repeat constructor; cbn; try lia.
  - repeat constructor.
  - eexists. vm_compute. reflexivity.
  - vm_compute. reflexivity.
Qed.
Example C124_ex_restart : il_step (View [] 0 0) (IPoll true [4; 5] [6] [] []) = (View [4; 5; 6] 1 (BLOCK - 3), Some (IData 0 2 3)).
Proof. vm_compute. reflexivity. Qed.
