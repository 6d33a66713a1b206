(** T_Restart.v -- property theorem C129 (the complete firmware, beyond the first DMA block). *)
From Verif Require Import Base M_Fifo M_Message M_Tx M_HostUart M_Led M_Adc M_Clock S_Dsp S_Pio M_Core1 S_Core1 D_Core1 S_Adc D_Adc D_Core1Adc S_Front S_Slow S_Analog
  M_Core0 S_Core0 D_Core0 M_System S_System P_Adc P_System P_SystemRx P_SystemLine P_SystemAnalog P_Recover S_Restart P_Restart T_Core0 T_Front T_SystemLine T_Analog.

(** C129: the statement of C104 for histories of any number of DMA blocks. [l1] is everything up to the moment the last block was used up (any earlier
    restarts included), [Y_core1 true] is the poll that restarts it, and [l2] is what happens in the new block: the packets of [sigs] that arrive in it, after
    any disturbance [garb] and a quiet line, are exactly what is reported to the host and handed to the controller after the reports for what went before. There is no bound on the length of the
    history; but not more than 3.9 billion conversions (3 h 24 min) must have passed since the start or since some byte before the quiet line was received,
    because on a line that is silent for 2^32 samples the byte receiver's counter wraps and makes up a byte (C20_idle_refuted). *)
Theorem C129_beyond_block : forall b mem e0 l1 l2 s outs garb q n V sigs raw,
  let l := l1 ++ Y_core1 true :: l2 in
  boot_ok b -> length mem = 256%nat -> Forall (fun x => -255 <= x <= 255) mem -> Forall sys_ok l -> input_ok (text (sys_loop_inputs l)) ->
  sys_run b mem e0 l = Ok (s, outs) ->
  never_behind l1 -> block_over l1 -> keeps_up l2 -> Z.of_nat (length (dma_samples l2)) < BLOCK ->
  heard_since b mem e0 l (handed_out l1 + Z.of_nat (length garb)) ->
  Forall (fun x => ~ overflow_in (snd x)) (loops outs) -> no_timeout (map snd (loops outs)) -> k_queue (y_link s) = [] -> k_ferr (y_link s) = false ->
  dma_samples l2 = garb ++ raw -> 0 <= n <= 410 -> (5000 <= q)%nat -> Forall (signal_ok sample_time n) sigs ->
  spaced (410 * conversion_time) (conversion_time * Z.of_nat q) (conversion_time * Z.of_nat (length raw)) sigs ->
  Forall (fun u => (length (sg_bytes u) <= 31)%nat) sigs -> digitised n V (converted conversion_time (length raw) sigs) raw ->
  exists o c, map described (rx_reports (concat (map snd (loops outs)))) = o ++ map (fun u => (R_packet, (0, sg_bytes u))) sigs /\
    map content (to_ctrl (concat (map snd (loops outs)))) = c ++ map (fun u => (0, sg_bytes u)) sigs.
Proof. exact beyond_block. Qed.
Print Assumptions C129_beyond_block.

(** The restart itself hands on no fault: a history without an overrun, in which the companion channel always finishes, delivers no flagged value, and
    after the restart the ADC is in the state of a fresh start, whatever the ring then holds. *)
Theorem C129_fresh_block : forall mem gain l c, length mem = 256%nat /\ Forall (fun x => -255 <= x <= 255) mem -> 0 <= gain <= 65535 ->
  Forall (fun e => match e with Sample v => -255 <= v <= 255 | Poll _ => True end) l -> Forall poll_clean (l ++ [Poll c]) ->
  Forall (fun x => match x with Some (Data _ p) => p <= 254 | _ => True end) (snd (spec_run view0 l)) -> left (fst (spec_run view0 l)) = 0 ->
  exists mem' rs, mrun adc_guarded (adc_start mem gain) (l ++ [Poll c]) = Ok (adc_start mem' gain, rs) /\ length mem' = 256%nat /\ Forall (fun x => -255 <= x <= 255) mem' /\ no_fault rs /\
    (length (S_Core1.good rs) <= samples l)%nat.
Proof. exact adc_to_restart. Qed.
Print Assumptions C129_fresh_block.

(** One iteration of either core per ADC sample, silence for exactly one block, then the line of C102_ex in the second block. *)
Definition silence (k : nat) : list sys_in := flat_map (fun v => [Y_dma v; Y_core1 true; tick]) (repeat 0 k).
Lemma silence_adc k : sys_adc (silence k) = pairs k.
Proof. unfold silence, pairs, sys_adc. induction k as [|k IH]; [reflexivity|]. cbn [repeat flat_map app tick]. rewrite IH. reflexivity. Qed.
Lemma silence_dma k : dma_samples (silence k) = repeat 0 k.
Proof. unfold silence, dma_samples. induction k as [|k IH]; [reflexivity|]. cbn [repeat flat_map app tick]. rewrite IH. reflexivity. Qed.
Lemma silence_loops k : sys_loop_inputs (silence k) = repeat (calm_iter 10000) k.
Proof. unfold silence, sys_loop_inputs. induction k as [|k IH]; [reflexivity|]. cbn [repeat flat_map app tick]. rewrite IH. reflexivity. Qed.
Lemma silence_ok k : Forall sys_ok (silence k).
Proof. unfold silence. induction k as [|k IH]; [constructor|]. cbn [repeat flat_map app]. constructor; [cbn; lia|]. constructor; [exact I|]. constructor; [exact (calm_iter_ok 10000)|exact IH]. Qed.
Lemma silence_served k l : served 0 l -> served 0 (silence k ++ l).
Proof. intros H. unfold silence. induction k as [|k IH]; [exact H|]. cbn [repeat flat_map app served tick pred]. split; [lia|exact IH]. Qed.
Lemma pairs_within k : forall v, next v = count v -> Z.of_nat k < left v -> Forall (fun x => match x with Some (Data _ p) => p <= 254 | _ => True end) (snd (spec_run v (pairs k))).
Proof.
  induction k as [|k IH]; intros v Hn Hl; cbn [pairs repeat flat_map app spec_run]; [constructor|]. fold (pairs k). destruct v as [T n lf]. unfold count in Hn. cbn [transferred next left] in *.
  cbn [spec_step left]. destruct (Z.eqb_spec lf 0); [lia|]. cbn [transferred next left spec_step]. destruct (Z.eqb_spec (lf - 1) 0); [lia|]. unfold count at 1. cbn [transferred]. rewrite app_length. cbn [length].
  destruct (Z.eqb_spec n (Z.of_nat (length T + 1))); [lia|]. specialize (IH (View (T ++ [0]) (n + 1) (lf - 1))). destruct (spec_run (View (T ++ [0]) (n + 1) (lf - 1)) (pairs k)). cbn [snd] in *.
  constructor; [exact I|]. constructor.
  - unfold count. cbn [transferred]. rewrite app_length. cbn [length]. lia.
  - apply IH; [unfold count; cbn [transferred next]; rewrite app_length; cbn [length]; lia|cbn [left]; lia].
Qed.
Lemma one_block k : Z.of_nat k + 1 = BLOCK -> never_behind (silence k ++ [Y_dma 0]) /\ block_over (silence k ++ [Y_dma 0]).
Proof.
  intros Hk. unfold never_behind, block_over. assert (EA : sys_adc (silence k ++ [Y_dma 0]) = pairs k ++ [Sample 0]) by (unfold sys_adc; rewrite flat_map_app; fold (sys_adc (silence k)); rewrite silence_adc; reflexivity).
  rewrite EA. assert (Lt : Z.of_nat k < left view0) by (cbn [left view0]; lia). destruct (pairs_run k view0 eq_refl Lt) as (v & xs & E & Hl & _). pose proof (pairs_within k view0 eq_refl Lt) as W.
  rewrite spec_run_app, E in *. cbn [snd] in W. cbn [spec_run spec_step]. assert (Hl1 : left v = 1) by (rewrite Hl; cbn [left view0]; lia). rewrite Hl1. change (1 =? 0) with false. cbv iota. cbn [fst snd left].
  split; [split|reflexivity].
  - apply Forall_app. split; [exact W|]. constructor; [exact I|constructor].
  - apply Forall_app. split; [|constructor; [exact I|constructor]]. clear. unfold pairs. induction k as [|k IH]; [constructor|]. cbn [repeat flat_map app]. constructor; [exact I|]. constructor; [reflexivity|exact IH].
Qed.
Lemma steady_polls vs : length (sys_adc (steady vs)) = (2 * length vs + 1)%nat.
Proof. unfold steady, sys_adc. rewrite flat_map_app, app_length. cbn [flat_map app tick length]. f_equal. induction vs as [|v vs IH]; [reflexivity|]. cbn [flat_map app tick length]. rewrite IH. lia. Qed.
Lemma handed_few l : handed_out l <= Z.of_nat (length (sys_adc l)).
Proof.
  unfold handed_out. assert (X : forall l v, length (snd (spec_run v l)) = length l).
  { clear. induction l as [|e l IH]; intros v; [reflexivity|]. cbn [spec_run]. destruct (spec_step v e) as [v1 o]. specialize (IH v1). destruct (spec_run v1 l). cbn [snd length] in *. f_equal. exact IH. }
  rewrite <- (X (sys_adc l) view0). generalize (snd (spec_run view0 (sys_adc l))). intros xs. induction xs as [|x xs IH]; cbn [filter length]; [lia|]. destruct x as [[|]|]; cbn [length]; lia.
Qed.
Lemma keeps_tick l : keeps_up l -> keeps_up (tick :: l). Proof. intros H. exact H. Qed.

Example C129_ex : exists k s outs o c, Z.of_nat k + 1 = BLOCK /\
  sys_run boot0 (repeat 0 256) true ((silence k ++ [Y_dma 0]) ++ Y_core1 true :: tick :: steady (ex_noise ++ ex_time_raw)) = Ok (s, outs) /\
  map described (rx_reports (concat (map snd (loops outs)))) = o ++ [(R_packet, (0, [64; 17]))] /\
  map content (to_ctrl (concat (map snd (loops outs)))) = c ++ [(0, [64; 17])].
Proof.
  destruct C102_ex as (H1 & H2 & H4 & H3 & _).
  assert (Hn : Z.of_nat (length (ex_noise ++ ex_time_raw)) < 20000).
  { unfold ex_noise, ex_time_raw, ex_time_ideal, converted. rewrite app_length, map_length, convert_length, map_length, !seq_length. reflexivity. }
  assert (Hk : exists k, Z.of_nat k + 1 = BLOCK) by (exists (Z.to_nat (BLOCK - 1)); rewrite Z2Nat.id; [apply Z.sub_add|unfold BLOCK; lia]). destruct Hk as (k & Hk). exists k.
  destruct (one_block k Hk) as (B1 & B2).
  pose proof (steady_ok _ H1) as Hl. pose proof (steady_served (ex_noise ++ ex_time_raw)) as Hs. pose proof (steady_keeps (ex_noise ++ ex_time_raw) ltac:(unfold BLOCK; lia)) as Hkp. apply keeps_tick in Hkp.
  pose proof (steady_dma (ex_noise ++ ex_time_raw)) as Hd. pose proof (steady_loops (ex_noise ++ ex_time_raw)) as Hlo. pose proof (steady_polls (ex_noise ++ ex_time_raw)) as Hda.
  assert (H31 : Forall (fun u => (length (sg_bytes u) <= 31)%nat) [ex_signal]) by (constructor; [cbn; lia|constructor]).
  generalize dependent (steady (ex_noise ++ ex_time_raw)). intros l Hl Hs Hkp Hd Hlo Hda.
  assert (Hd2 : dma_samples (tick :: l) = ex_noise ++ ex_time_raw) by exact Hd.
  set (l1 := silence k ++ [Y_dma 0]) in *. set (l2 := tick :: l) in *.
  assert (F : Forall sys_ok (l1 ++ Y_core1 true :: l2)).
  { unfold l1. rewrite <- app_assoc. apply Forall_app. split; [apply silence_ok|]. cbn [app]. constructor; [cbn; lia|]. constructor; [exact I|]. constructor; [exact (calm_iter_ok 10000)|exact Hl]. }
  assert (El : sys_loop_inputs (l1 ++ Y_core1 true :: l2) = repeat (calm_iter 10000) (k + S (S (length (ex_noise ++ ex_time_raw))))).
  { unfold l1, l2, sys_loop_inputs. rewrite <- app_assoc, flat_map_app. fold (sys_loop_inputs (silence k)). rewrite silence_loops, repeat_app. f_equal. cbn [app flat_map tick repeat]. f_equal. exact Hlo. }
  assert (Ed : dma_samples (l1 ++ Y_core1 true :: l2) = repeat 0 k ++ 0 :: ex_noise ++ ex_time_raw).
  { unfold l1, l2, dma_samples. rewrite <- app_assoc, flat_map_app. fold (dma_samples (silence k)). rewrite silence_dma. f_equal. cbn [app flat_map tick]. f_equal. exact Hd. }
  assert (Hsv : served 0 (l1 ++ Y_core1 true :: l2)).
  { unfold l1, l2. rewrite <- app_assoc. apply silence_served. cbn [app served tick pred]. split; [lia|exact Hs]. }
  destruct (steady_early (k + S (S (length (ex_noise ++ ex_time_raw))))) as (He1 & He2). rewrite <- El in He1, He2.
  assert (Hi : input_ok (text (sys_loop_inputs (l1 ++ Y_core1 true :: l2)))).
  { rewrite El. generalize (k + S (S (length (ex_noise ++ ex_time_raw))))%nat. intros j. assert (X : text (repeat (calm_iter 10000) j) = []) by (induction j as [|j IH]; [reflexivity|exact IH]). rewrite X. apply short_input. cbn; lia. }
  assert (Ht : heard_since boot0 (repeat 0 256) true (l1 ++ Y_core1 true :: l2) (handed_out l1 + Z.of_nat 200)).
  { left. eapply Z.le_lt_trans; [apply handed_few|]. assert (X : length (sys_adc (l1 ++ Y_core1 true :: l2)) = (2 * k + 1 + (1 + length (sys_adc l)))%nat).
    { unfold l1, l2. rewrite <- app_assoc. unfold sys_adc. rewrite flat_map_app, app_length. fold (sys_adc (silence k)). rewrite silence_adc. cbn [app flat_map tick length]. fold (sys_adc l).
      assert (Y : length (pairs k) = (2 * k)%nat) by (unfold pairs; clear; induction k as [|k IH]; [reflexivity|cbn [repeat flat_map app length]; lia]). rewrite Y. lia. }
    rewrite X. rewrite Hda. unfold UPTIME, BLOCK in *. lia. }
  assert (Hb : Z.of_nat (length (dma_samples l2)) < BLOCK) by (rewrite Hd2; unfold BLOCK; lia).
  change (Z.of_nat 200) with (Z.of_nat (length ex_noise)) in Ht. clear El Ed Hlo Hd Hda. clearbody l1 l2. generalize dependent ex_noise. generalize dependent ex_time_raw. intros raw H4 H3 noise H1 Hn Hd2 Ht.
  assert (Hm : Forall (fun x => -255 <= x <= 255) (repeat 0 256)) by (apply (boundedb_ok 255); vm_compute; reflexivity).
  assert (Lm : length (repeat 0 256) = 256%nat) by apply repeat_length.
  destruct (sys_total boot0 (repeat 0 256) true (l1 ++ Y_core1 true :: l2) boot0_ok Lm Hm F Hi) as (s & outs & E).
  destruct (C95_no_overflow boot0 (repeat 0 256) true (l1 ++ Y_core1 true :: l2) s outs boot0_ok F Hi E Hsv) as (A1 & A2 & A3).
  assert (A4 : no_timeout (map snd (loops outs))) by (apply (sys_early boot0 (repeat 0 256) true (l1 ++ Y_core1 true :: l2) s outs boot0_ok F Hi E); [vm_compute; discriminate|vm_compute; reflexivity|exact He1|exact He2]).
  assert (N1 : 0 <= 198 <= 410) by lia. assert (N2 : (5000 <= 5000)%nat) by apply Nat.le_refl.
  destruct (C129_beyond_block boot0 (repeat 0 256) true l1 l2 s outs noise 5000 198 25500 [ex_signal] raw boot0_ok Lm Hm F Hi E B1 B2 Hkp Hb Ht A1 A4 A2 A3 Hd2 N1 N2 H2 H4 H31 H3) as (o & c & X1 & X2).
  exists s, outs, o, c. split; [exact Hk|]. split; [exact E|]. split; [exact X1|exact X2].
Qed.
