(** T_SystemLine.v -- property theorem C95 (the complete firmware, from the analogue line to the host). *)
From Verif Require Import Base M_Fifo M_Message M_Tx M_HostUart M_Led M_Adc S_Dsp S_Pio M_Core1 S_Core1 D_Core1 S_Adc D_Adc D_Core1Adc S_Front
  M_Core0 S_Core0 D_Core0 M_System S_System P_System P_SystemRx P_SystemLine P_Recover T_Core0 T_Front.

(** C95: for every interleaving [l] of the DMA and the two cores in which core 1 keeps up with the ADC, core 0 reported no overflow of the
    queue and no time-out and nothing is left waiting: if the ADC samples are any disturbance [garb] followed by those of a quiet line
    (16 ms) and the packets [bursts] (as in C94), then -- after whatever was reported for the disturbance -- exactly these packets are
    reported to the host and handed to the controller, in order, each complete and with status 0. *)
Theorem C95_line_to_host : forall b mem e0 l s outs garb q n V bursts tail raw,
  boot_ok b -> length mem = 256%nat -> Forall (fun x => -255 <= x <= 255) mem -> Forall sys_ok l -> input_ok (text (sys_loop_inputs l)) ->
  sys_run b mem e0 l = Ok (s, outs) -> keeps_up l -> Z.of_nat (length (dma_samples l)) < BLOCK ->
  Forall (fun x => ~ overflow_in (snd x)) (loops outs) -> no_timeout (map snd (loops outs)) -> k_queue (y_link s) = [] -> k_ferr (y_link s) = false ->
  dma_samples l = garb ++ raw -> 0 <= n <= 410 -> (5000 <= q)%nat -> (410 <= tail)%nat -> Forall (burst_ok n) bursts -> Forall (fun u => (length (pk_bytes (bu_packet u)) <= 31)%nat) bursts ->
  digitised n V (repeat 0 q ++ voltage bursts tail) raw ->
  exists o c, map described (rx_reports (concat (map snd (loops outs)))) = o ++ map (fun u => (R_packet, (0, pk_bytes (bu_packet u)))) bursts /\
    map content (to_ctrl (concat (map snd (loops outs)))) = c ++ map (fun u => (0, pk_bytes (bu_packet u))) bursts.
Proof. exact line_to_host. Qed.
Print Assumptions C95_line_to_host.
(** If core 0 makes an iteration for every iteration of core 1, at most 8 late, there is no overflow and nothing is left waiting. *)
Theorem C95_no_overflow : forall b mem e0 l s outs, boot_ok b -> Forall sys_ok l -> input_ok (text (sys_loop_inputs l)) -> sys_run b mem e0 l = Ok (s, outs) -> served 0 l ->
  Forall (fun x => ~ overflow_in (snd x)) (loops outs) /\ k_queue (y_link s) = [] /\ k_ferr (y_link s) = false.
Proof. exact served_quiet. Qed.
Print Assumptions C95_no_overflow.

(** One iteration of either core per ADC sample. *)
Definition tick : sys_in := Y_core0 (calm_iter 10000).
Definition steady (vs : list Z) : list sys_in := flat_map (fun v => [Y_dma v; Y_core1 true; tick]) vs ++ [Y_core1 true; tick].
Lemma steady_dma vs : dma_samples (steady vs) = vs.
Proof. unfold steady, dma_samples. rewrite flat_map_app. cbn [flat_map app tick]. rewrite app_nil_r. induction vs as [|v vs IH]; [reflexivity|]. cbn [flat_map app tick]. f_equal. exact IH. Qed.
Lemma steady_served vs : served 0 (steady vs).
Proof. unfold steady. induction vs as [|v vs IH]; cbn [flat_map app served tick pred]; [lia|split; [lia|exact IH]]. Qed.
Lemma steady_ok vs : Forall (fun x => -255 <= x <= 255) vs -> Forall sys_ok (steady vs).
Proof.
  intros H. unfold steady. apply Forall_app. split; [|constructor; [exact I|constructor; [exact (calm_iter_ok 10000)|constructor]]].
  induction H as [|v vs H F IH]; [constructor|]. cbn [flat_map app]. constructor; [exact H|]. constructor; [exact I|]. constructor; [exact (calm_iter_ok 10000)|exact IH].
Qed.
Lemma steady_loops vs : sys_loop_inputs (steady vs) = repeat (calm_iter 10000) (S (length vs)).
Proof. unfold steady, sys_loop_inputs. rewrite flat_map_app. cbn [flat_map app tick]. induction vs as [|v vs IH]; [reflexivity|]. cbn [flat_map app tick length repeat]. f_equal. exact IH. Qed.
Lemma steady_keeps vs : Z.of_nat (length vs) < BLOCK -> keeps_up (steady vs).
Proof.
  assert (Es : sys_adc (steady vs) = flat_map (fun x => [S_Adc.Sample x; Poll true]) vs ++ [Poll true]).
  { unfold steady, sys_adc. rewrite flat_map_app. cbn [flat_map app tick]. f_equal. induction vs as [|v vs IH]; [reflexivity|]. cbn [flat_map app tick]. rewrite IH. reflexivity. }
  unfold keeps_up. rewrite Es. clear Es.
  intros H. assert (X : forall v, next v = count v -> Z.of_nat (length vs) < left v ->
    let xs := snd (spec_run v (flat_map (fun x => [S_Adc.Sample x; Poll true]) vs ++ [Poll true])) in
    Forall (fun x => match x with Some (Data _ p) => p <= 254 | _ => True end) xs /\ last xs None = Some Nothing).
  { clear H. induction vs as [|x vs IH]; intros v Hn Hl.
    - cbn [flat_map app spec_run spec_step]. destruct (Z.eqb_spec (left v) 0); [cbn [length] in Hl; lia|]. rewrite Hn, Z.eqb_refl. cbn. auto.
    - cbn [length] in Hl. cbn [flat_map app spec_run spec_step]. destruct (Z.eqb_spec (left v) 0); [lia|]. unfold count. cbn [left next transferred]. destruct (Z.eqb_spec (left v - 1) 0); [lia|]. rewrite app_length. cbn [length].
      unfold count in Hn. destruct (Z.eqb_spec (next v) (Z.of_nat (length (transferred v) + 1))); [lia|].
      specialize (IH (View (transferred v ++ [x]) (next v + 1) (left v - 1))). unfold count in IH. cbn [left next transferred] in IH. rewrite app_length in IH. cbn [length] in IH. specialize (IH ltac:(lia) ltac:(lia)). cbv zeta in IH |- *.
      destruct (spec_run _ (flat_map _ vs ++ [Poll true])) as (v2 & os). cbn [snd] in *. destruct IH as (I1 & I2). split; [constructor; [exact I|]; constructor; [lia|exact I1]|]. destruct os; [discriminate|exact I2]. }
  apply X; [reflexivity|exact H].
Qed.
Lemma steady_early k : in_time (b_now boot0) (repeat (calm_iter 10000) k) /\ Forall (fun i => in_now i <= b_now boot0 + 500000) (repeat (calm_iter 10000) k).
Proof.
  split.
  - assert (X : forall t, t <= 10000 -> in_time t (repeat (calm_iter 10000) k)); [|apply X; vm_compute; discriminate]. induction k as [|k IH]; intros t H; cbn [repeat in_time]; [exact I|]. split; [exact H|]. apply IH. cbn. lia.
  - apply Forall_forall. intros i Hi. apply repeat_spec in Hi. subst. vm_compute. discriminate.
Qed.
Lemma steady_text vs : text (sys_loop_inputs (steady vs)) = [].
Proof. rewrite steady_loops. generalize (S (length vs)). intros k. induction k; [reflexivity|exact IHk]. Qed.
(** The line of C94_ex. *)
Example C95_ex : exists s outs o c, sys_run boot0 (repeat 0 256) true (steady (ex_noise ++ ex_raw)) = Ok (s, outs) /\
  map described (rx_reports (concat (map snd (loops outs)))) = o ++ [(R_packet, (0, [64; 0])); (R_packet, (0, [255; 17]))] /\
  map content (to_ctrl (concat (map snd (loops outs)))) = c ++ [(0, [64; 0]); (0, [255; 17])].
Proof.
  destruct C94_ex as (H1 & H2 & H3 & _).
  assert (Hn : Z.of_nat (length (ex_noise ++ ex_raw)) < BLOCK) by (apply Z.ltb_lt; vm_compute; reflexivity).
  pose proof (steady_ok _ H1) as Hl. pose proof (steady_text (ex_noise ++ ex_raw)) as Ht. pose proof (steady_served (ex_noise ++ ex_raw)) as Hs. pose proof (steady_keeps _ Hn) as Hk.
  pose proof (steady_dma (ex_noise ++ ex_raw)) as Hd. destruct (steady_early (S (length (ex_noise ++ ex_raw)))) as (He1 & He2). rewrite <- steady_loops in He1, He2.
  assert (H31 : Forall (fun u => (length (pk_bytes (bu_packet u)) <= 31)%nat) ex_bursts) by (unfold ex_bursts; repeat (apply Forall_cons || apply Forall_nil); cbn; lia).
  unfold ex_ideal in H3.
  generalize dependent (steady (ex_noise ++ ex_raw)). intros l Hl Ht Hs Hk Hd He1 He2. generalize dependent ex_noise. generalize dependent ex_raw. intros raw H3 noise H1 Hn Hd.
  assert (Hi : input_ok (text (sys_loop_inputs l))) by (rewrite Ht; apply short_input; cbn; lia).
  assert (Hm : Forall (fun x => -255 <= x <= 255) (repeat 0 256)) by (apply (boundedb_ok 255); vm_compute; reflexivity).
  assert (Lm : length (repeat 0 256) = 256%nat) by apply repeat_length. rewrite <- Hd in Hn.
  destruct (sys_total boot0 (repeat 0 256) true l boot0_ok Lm Hm Hl Hi) as (s & outs & E).
  destruct (C95_no_overflow boot0 (repeat 0 256) true l s outs boot0_ok Hl Hi E Hs) as (A1 & A2 & A3).
  assert (A4 : no_timeout (map snd (loops outs))) by (apply (sys_early boot0 (repeat 0 256) true l s outs boot0_ok Hl Hi E); [vm_compute; discriminate|vm_compute; reflexivity|exact He1|exact He2]).
  assert (N1 : 0 <= 198 <= 410) by lia.
  assert (N2 : (5000 <= 5000)%nat) by apply Nat.le_refl. assert (N3 : (410 <= 410)%nat) by apply Nat.le_refl.
  destruct (C95_line_to_host boot0 (repeat 0 256) true l s outs noise 5000 198 25500 ex_bursts 410 raw boot0_ok Lm Hm Hl Hi E Hk Hn A1 A4 A2 A3 Hd N1 N2 N3 H2 H31 H3) as (o & c & X1 & X2).
  exists s, outs, o, c. split; [exact E|]. split; [exact X1|exact X2].
Qed.
