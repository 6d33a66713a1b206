(** P_SlowOwn.v -- own messages at the actual sampling rate (C100). *)
From Verif Require Import Base M_Dsp M_Core1 M_Clock S_Dsp S_Pio S_Core1 S_Noise S_Slow S_Clock D_Core1 P_Noise P_Slow P_SlowCut P_Clock.

Lemma clocks_thin tau ws vs : 0 <= tau < sample_time -> read_at pio_cycle_time sample_time tau ws vs ->
  thinned 0 ws vs /\ 628000 * (Z.of_nat (length vs) - 1) < 624999 * Z.of_nat (length ws) + 1.
Proof.
  intros Ht R. change pio_cycle_time with 624999 in R. change sample_time with 628000 in R, Ht.
  rewrite (read_unique 624999 628000 ltac:(lia) ltac:(lia) tau ws vs Ht R). split; [apply reads_thinned; try lia|].
  destruct (reads_length 624999 628000 ltac:(lia) ltac:(lia) ws tau Ht) as [L|L]; [lia|]. rewrite L. cbn [length]. lia.
Qed.
Lemma waves_length cs : Forall (fun c => 0 <= snd c < 256) cs -> length (waves cs) = fold_right (fun c n => fst c + 175 + n)%nat 0%nat cs.
Proof.
  induction cs as [|[g b] r IH]; intros H; [reflexivity|]. inversion H as [|? ? B1 B2]; subst. cbn [waves fold_right fst snd] in *.
  pose proof (wf_len _ _ _ (wave_ok 1 b (or_introl eq_refl) B1)) as L. rewrite map_length in L.
  rewrite !app_length, repeat_length, L, (IH B2). lia.
Qed.
Lemma own_length bs : Forall (fun b => 0 <= b < 256) bs -> Z.of_nat (length (waves (map (fun b => (0%nat, b)) bs))) = 175 * Z.of_nat (length bs).
Proof.
  intros H. rewrite waves_length by (apply Forall_map; exact H). clear H. induction bs as [|b r IH]; [reflexivity|].
  cbn [map fold_right fst length]. lia.
Qed.
Lemma clear6_fall P Q : clear6 P Q -> clear_fall P Q Q.
Proof. unfold clear6, clear_fall. lia. Qed.
Lemma own_heard bs tau vs sg P Q ys : (1 <= length bs <= 34)%nat -> Forall (fun b => 0 <= b < 256) bs ->
  0 <= tau < sample_time -> read_at pio_cycle_time sample_time tau (waves (map (fun b => (0%nat, b)) bs)) vs ->
  sg = 1 \/ sg = -1 -> clear6 P Q -> follows P Q 0 (map (Z.mul sg) vs) ys ->
  exists b r, bs = b :: map snd r /\ heard_packet_slow b r ys.
Proof.
  intros Hn Hb Ht R Hs Hc F. destruct bs as [|b t]; [cbn in Hn; lia|]. exists b, (map (fun b => (0%nat, b)) t).
  split; [rewrite map_map; cbn [snd]; rewrite map_id; reflexivity|].
  destruct (clocks_thin tau _ vs Ht R) as (T & L). exists sg, P, Q, Q, 0%nat, vs.
  split; [exact Hs|]. split; [apply clear6_fall, Hc|]. split; [exact T|]. split; [exact F|].
  split; [apply (follows_falls P Q); [unfold clear6 in Hc; lia|exact F]|].
  rewrite own_length in L by auto. apply follows_E in F. apply followsE_length in F. rewrite F. rewrite !map_length in *. cbn [length] in *. lia.
Qed.
Lemma own_received e0 bs tau vs sg P Q idle ys tail : (1 <= length bs <= 34)%nat -> Forall (fun b => 0 <= b < 256) bs ->
  0 <= tau < sample_time -> read_at pio_cycle_time sample_time tau (waves (map (fun b => (0%nat, b)) bs)) vs ->
  sg = 1 \/ sg = -1 -> clear6 P Q -> follows P Q 0 (map (Z.mul sg) vs) ys ->
  (177 <= length idle)%nat -> Z.of_nat (length idle) < 4294960000 -> bounded 599 idle ->
  (200 <= length tail)%nat -> Z.of_nat (length tail) < 4294960000 -> bounded 599 tail ->
  exists c c' es, lchain_new e0 = Ok c /\ mrun lchain_step c (idle ++ ys ++ tail) = Ok (c', es) /\
    log_of es = [LFree; LBusy] ++ map (fun b => LByte b false) bs ++ [LFree].
Proof.
  intros Hn Hb Ht R Hs Hc F I1 I2 I3 T1 T2 T3. destruct (own_heard bs tau vs sg P Q ys Hn Hb Ht R Hs Hc F) as (b & r & -> & H).
  destruct (slow_packets e0 [b :: map snd r] (idle ++ ys ++ tail)) as (c & c' & es & E1 & E2 & E3).
  - apply hs_packet; auto. constructor; auto.
  - exists c, c', es. split; [exact E1|]. split; [exact E2|]. rewrite E3. unfold packet_log. cbn [flat_map app]. rewrite app_nil_r. reflexivity.
Qed.
(** A device that keeps the nominal timing: 1/16 of a bit is [bit_time / 16]. *)
Lemma nominal_thin tau ws vs : 0 <= tau < sample_time -> read_at (bit_time / 16) sample_time tau ws vs ->
  thinned 0 ws vs /\ 628000 * (Z.of_nat (length vs) - 1) < 625000 * Z.of_nat (length ws) + 1 /\ 625000 * Z.of_nat (length ws) < 628000 * (Z.of_nat (length vs) + 1).
Proof.
  intros Ht R. change (bit_time / 16) with 625000 in R. change sample_time with 628000 in R, Ht.
  pose proof (R (Z.of_nat (length vs)) ltac:(lia)) as (R1 & _).
  assert (R2 : 625000 * Z.of_nat (length ws) < 628000 * (Z.of_nat (length vs) + 1)) by lia.
  rewrite (read_unique 625000 628000 ltac:(lia) ltac:(lia) tau ws vs Ht R) in *. split; [apply reads_thinned; try lia|]. split; [|exact R2].
  destruct (reads_length 625000 628000 ltac:(lia) ltac:(lia) ws tau Ht) as [L|L]; [lia|]. rewrite L. cbn [length]. lia.
Qed.
Lemma nominal_length b bs : Forall (fun b => 0 <= b < 256) (b :: bs) ->
  Z.of_nat (length (waves ((0%nat, b) :: map (fun b => (1%nat, b)) bs))) = 176 * Z.of_nat (length (b :: bs)) - 1.
Proof.
  intros H. inversion H as [|? ? B1 B2]; subst. rewrite waves_length by (constructor; [exact B1|apply Forall_map; exact B2]). clear H B1 B2.
  induction bs as [|c r IH]; [reflexivity|]. cbn [map fold_right fst length] in *. lia.
Qed.
Lemma nominal_received e0 b bs tau vs sg P Q idle ys tail : (length (b :: bs) <= 28)%nat -> Forall (fun b => 0 <= b < 256) (b :: bs) ->
  0 <= tau < sample_time -> read_at (bit_time / 16) sample_time tau (waves ((0%nat, b) :: map (fun b => (1%nat, b)) bs)) vs ->
  sg = 1 \/ sg = -1 -> clear6 P Q -> follows P Q 0 (map (Z.mul sg) vs) ys ->
  (177 <= length idle)%nat -> Z.of_nat (length idle) < 4294960000 -> bounded 599 idle ->
  (200 <= length tail)%nat -> Z.of_nat (length tail) < 4294960000 -> bounded 599 tail ->
  exists c c' es, lchain_new e0 = Ok c /\ mrun lchain_step c (idle ++ ys ++ tail) = Ok (c', es) /\
    log_of es = [LFree; LBusy] ++ map (fun b => LByte b false) (b :: bs) ++ [LFree].
Proof.
  intros Hn Hb Ht R Hs Hc F I1 I2 I3 T1 T2 T3. destruct (nominal_thin tau _ vs Ht R) as (T & L & _).
  rewrite nominal_length in L by auto.
  assert (Em : map snd (map (fun b => (1%nat, b)) bs) = bs) by (rewrite map_map; cbn [snd]; apply map_id).
  destruct (slow_packets e0 [b :: bs] (idle ++ ys ++ tail)) as (c & c' & es & E1 & E2 & E3).
  - rewrite <- Em. apply hs_packet; auto; [rewrite Em; exact Hb| |constructor; auto].
    exists sg, P, Q, Q, 0%nat, vs. split; [exact Hs|]. split; [apply clear6_fall, Hc|]. split; [exact T|]. split; [exact F|].
  split; [apply (follows_falls P Q); [unfold clear6 in Hc; lia|exact F]|].
    apply follows_E in F. apply followsE_length in F. rewrite F. rewrite !map_length in *. cbn [length] in *. lia.
  - exists c, c', es. split; [exact E1|]. split; [exact E2|]. rewrite E3. unfold packet_log. cbn [flat_map app]. rewrite app_nil_r. reflexivity.
Qed.
Lemma nominal_cut e0 b bs tau vs sg P Q idle ys tail : (31 <= length (b :: bs))%nat -> Forall (fun b => 0 <= b < 256) (b :: bs) ->
  0 <= tau < sample_time -> read_at (bit_time / 16) sample_time tau (waves ((0%nat, b) :: map (fun b => (1%nat, b)) bs)) vs ->
  sg = 1 \/ sg = -1 -> clear6 P Q -> follows P Q 0 (map (Z.mul sg) vs) ys ->
  (177 <= length idle)%nat -> Z.of_nat (length idle) < 4294960000 -> bounded 599 idle ->
  (200 <= length tail)%nat -> Z.of_nat (length tail) < 4294960000 -> bounded 599 tail ->
  exists c c' es b1 x b2 more, lchain_new e0 = Ok c /\ mrun lchain_step c (idle ++ ys ++ tail) = Ok (c', es) /\
    b :: bs = b1 ++ x :: b2 /\ b1 <> [] /\ log_of es = LFree :: LBusy :: map (fun b => LByte b false) b1 ++ LFree :: LBusy :: LByte x false :: more.
Proof.
  intros Hn Hb Ht R Hs Hc F I1 I2 I3 T1 T2 T3. destruct (nominal_thin tau _ vs Ht R) as (T & _ & L).
  rewrite nominal_length in L by auto.
  assert (Em : map snd (map (fun b => (1%nat, b)) bs) = bs) by (rewrite map_map; cbn [snd]; apply map_id).
  pose proof (slow_cut e0 idle b (map (fun b => (1%nat, b)) bs) sg P Q Q 0 vs ys tail I1 I2 I3 T1 T2 T3) as K. rewrite Em in K. apply K; auto.
  - apply Forall_map, Forall_forall. intros x _. cbn [fst]. lia.
  - apply clear6_fall, Hc.
  - apply (follows_falls P Q); [unfold clear6 in Hc; lia|exact F].
  - apply follows_E in F. apply followsE_length in F. rewrite F. rewrite !map_length in *. cbn [length] in *. lia.
Qed.
