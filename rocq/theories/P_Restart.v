(** P_Restart.v -- the ADC and the complete firmware after any number of restarts of the ADC's DMA block (C129). *)
From Verif Require Import Base M_ShiftReg M_Dsp M_Uart P_Uart M_Fifo M_Message S_Message D_Message M_Tx D_Tx M_HostUart D_Host S_Host M_Led M_Adc S_Containers S_Dsp S_Pio M_Core1 S_Core1 D_Core1 P_Dsp P_Core1 P_Core1Chain S_Adc D_Adc P_Adc D_Core1Adc P_Core1Adc
  M_Core0 S_Core0 D_Core0 P_Core0 P_Core0Run P_Core0Rx P_Core0Busy P_Core0Main M_System S_System P_System P_SystemRx S_Noise S_Front S_Slow S_Analog P_PioTc P_FrontDc P_NoiseDet P_NoiseChar P_Noise P_FrontPulse P_Chain P_FrontChar P_FrontLine P_FrontAdc P_Recover P_LineLog P_Front
  P_SlowRecover P_AnaPulse P_AnaTrain P_AnaLine P_Analog P_SystemLine P_SystemAnalog P_Since S_Restart.

(** ** The ADC across block restarts *)
Lemma flags_none l : forall v, Forall poll_clean l -> Forall in_reach (snd (spec_run v l)) -> Forall (fun f => f <> Some true) (flags v false l).
Proof.
  induction l as [|e l IH]; intros v C F; cbn [flags]; [constructor|]. inversion C as [|? ? C1 C2]; subst. cbn [spec_run] in F. destruct (spec_step v e) as [v1 o] eqn:E. specialize (IH v1 C2).
  destruct (spec_run v1 l) as [v2 os]. cbn [snd] in *. inversion F as [|? ? F1 F2]; subst. specialize (IH F2). destruct e as [x|c]; rewrite E; cbn [fst snd].
  - constructor; [discriminate|exact IH].
  - cbn in C1. subst c. destruct o as [[|i p]|]; cbn [negb]; rewrite ?andb_false_r; cbn [orb].
    + constructor; [discriminate|exact IH].
    + cbn in F1. constructor; [|exact IH]. destruct (Z.leb_spec 256 p); [lia|discriminate].
    + constructor; [discriminate|exact IH].
Qed.
Lemma error_clear l : forall a a' rs, mrun adc_event a l = Ok (a', rs) -> Forall poll_clean l -> ad_error a = false -> ad_error a' = false.
Proof.
  induction l as [|e l IH]; intros a a' rs E C H; cbn [mrun] in E; [injection E as <- _; exact H|]. inversion C as [|? ? C1 C2]; subst. bstep E. destruct x as (a1 & r). bstep E. destruct x as (a2 & rs2). injection E as -> _.
  apply (IH _ _ _ E1 C2). destruct e as [v|c]; cbn [adc_event] in E0; [injection E0 as <- _; exact H|]. cbn in C1. subst c. bstep E0. destruct x as (a3 & r3). injection E0 as <- _. unfold adc_poll in E. bstep E. destruct x as (a4 & o).
  destruct o; cbn [adc_read_error] in E; [injection E as <- _; reflexivity|injection E as <- _].
  unfold adc_update in E0. destruct (rg_tc (ad_ring a) =? 0).
  - match type of E0 with (if ?b then _ else _) = _ => destruct b end; [injection E0 as <-; exact H|]. repeat bstep E0. discriminate.
  - match type of E0 with (if ?b then _ else _) = _ => destruct b end; [injection E0 as <-; exact H|]. repeat bstep E0. discriminate.
Qed.
Lemma good_delivered outs : Forall unflagged outs -> length (S_Core1.good outs) = delivered outs.
Proof.
  induction 1 as [|r outs H F IH]; [reflexivity|]. change (r :: outs) with ([r] ++ outs). rewrite delivered_app. destruct r as [[(v & [|])|]|]; cbn in H |- *; try contradiction; rewrite ?app_length; cbn; fold (S_Core1.good outs); auto.
Qed.
Lemma transferred_samples l : forall v, Z.of_nat (length (transferred (fst (spec_run v l)))) <= Z.of_nat (length (transferred v)) + Z.of_nat (samples l).
Proof.
  induction l as [|e l IH]; intros v; cbn [spec_run]; [unfold samples; cbn; lia|]. destruct (spec_step v e) as [v1 o] eqn:E. specialize (IH v1). destruct (spec_run v1 l). cbn [fst] in *.
  destruct e as [x|c]; unfold samples in *; cbn [filter length] in *; cbn [spec_step] in E.
  - destruct (left v =? 0); injection E as <- _; cbn [transferred] in IH; try rewrite app_length in IH; cbn [length] in IH; lia.
  - destruct (left v =? 0); [injection E as <- _; exact IH|]. destruct (next v =? count v); injection E as <- _; exact IH.
Qed.

(** Up to a restart: every value handed out, no flag, and the ADC as after a start with some ring content. *)
Lemma adc_to_restart mem gain l c : length mem = 256%nat /\ Forall (fun x => -255 <= x <= 255) mem -> 0 <= gain <= 65535 ->
  Forall (fun e => match e with S_Adc.Sample v => -255 <= v <= 255 | Poll _ => True end) l -> Forall poll_clean (l ++ [Poll c]) ->
  Forall in_reach (snd (spec_run view0 l)) -> left (fst (spec_run view0 l)) = 0 ->
  exists mem' rs, mrun adc_guarded (adc_start mem gain) (l ++ [Poll c]) = Ok (adc_start mem' gain, rs) /\ length mem' = 256%nat /\ Forall (fun x => -255 <= x <= 255) mem' /\ Forall unflagged rs /\
    (length (S_Core1.good rs) <= samples l)%nat.
Proof.
  intros (Lm & Hm) Hg He Hc Hr Hl. apply Forall_app in Hc as (Hc & Hc1). inversion Hc1 as [|? ? Hc2 _]; subst. cbn in Hc2. subst c.
  assert (Hm2 : Forall sample_range mem) by (apply range_wider; exact Hm).
  assert (He2 : Forall ev_range l) by (eapply Forall_impl; [|exact He]; intros [v|c] H; cbn in *; unfold sample_range; [lia|exact Logic.I]).
  destruct (adc_run mem gain l Hm2 Hg view0 (adc_start mem gain) (adc_inv_start mem gain Lm)) as (a & rs & R & I & _ & F & _); [intros x Hx; rewrite Forall_forall in Hm2; apply Hm2; exact Hx|exact He2|].
  destruct (adc_flags_start mem gain l (conj Lm Hm2) Hg He2) as (a' & rs' & R' & Fl). rewrite R in R'. injection R' as <- <-.
  assert (U : Forall unflagged rs).
  { pose proof (flags_none l view0 Hc Hr) as C. rewrite <- Fl in C. apply Forall_forall. intros r Hin. rewrite Forall_forall in C. specialize (C _ (in_map _ _ _ Hin)). destruct r as [[(z & [|])|]|]; cbn in *; auto. }
  pose proof (error_clear l _ _ _ R Hc eq_refl) as Er.
  assert (R5 : length (rg_data (ad_ring a)) = 256%nat /\ Forall (fun x => -255 <= x <= 255) (rg_data (ad_ring a))).
  { split; [apply (ai_len _ _ _ _ I)|]. clear - R He Hm. assert (K : forall l a0 a rs, mrun adc_event a0 l = Ok (a, rs) -> Forall (fun e => match e with S_Adc.Sample v => -255 <= v <= 255 | Poll _ => True end) l ->
      Forall (fun x => -255 <= x <= 255) (rg_data (ad_ring a0)) -> Forall (fun x => -255 <= x <= 255) (rg_data (ad_ring a))).
    { clear. induction l as [|e l IH]; intros a0 a rs E F H; cbn [mrun] in E; [injection E as <- _; exact H|]. inversion F as [|? ? F1 F2]; subst. bstep E. destruct x as (a1 & r). bstep E. destruct x as (a2 & rs2). injection E as -> _. apply (IH _ _ _ E1 F2).
      destruct e as [v|c]; cbn [adc_event] in E0.
      - injection E0 as <- _. cbn [ad_ring]. unfold ring_write. destruct (rg_tc (ad_ring a0) =? 0); [exact H|]. cbn [rg_data]. apply Forall_upd; auto.
      - bstep E0. destruct x as (a3 & r3). injection E0 as <- _. unfold adc_poll in E. bstep E. destruct x as (a4 & o).
        assert (X : rg_data (ad_ring a4) = rg_data (ad_ring a0)).
        { unfold adc_update in E0. destruct (rg_tc (ad_ring a0) =? 0); match type of E0 with (if ?b then _ else _) = _ => destruct b end; try (injection E0 as <- _; reflexivity); repeat bstep E0; injection E0 as <- _; reflexivity. }
        destruct o; cbn [adc_read_error] in E; injection E as <- _; cbn [ad_ring]; rewrite X; exact H. }
    apply (K l _ _ _ R He). exact Hm. }
  assert (P : adc_guarded a (Poll true) = Ok (adc_start (rg_data (ad_ring a)) gain, Some None)).
  { unfold adc_guarded. cbn [adc_event]. unfold adc_poll, adc_update. rewrite (ai_hw _ _ _ _ I), Hl. change (0 =? 0) with true. cbv iota. unfold adc_start, adc_dma_restart. cbn [ad_ring rg_data rg_tc ad_tc ad_error ad_gain ad_off]. rewrite Z.eqb_refl. cbn [bind].
    rewrite Er, (ai_gain _ _ _ _ I). reflexivity. }
  exists (rg_data (ad_ring a)), (rs ++ [Some None]). split; [|split; [apply R5|split; [apply R5|split]]].
  - rewrite mrun_app, (guarded_plain l _ _ _ R U). cbn [bind mrun]. rewrite P. reflexivity.
  - apply Forall_app. split; [exact U|]. constructor; [exact Logic.I|constructor].
  - assert (X : S_Core1.good (rs ++ [Some None]) = S_Core1.good rs) by (unfold S_Core1.good; rewrite flat_map_app; cbn; apply app_nil_r). rewrite X, good_delivered by exact U.
    pose proof (transferred_samples l view0) as Q. destruct (spec_run view0 l) as [v' xs] eqn:E. cbn [fst snd] in *.
    destruct (delivered_next gain mem (transferred v') l view0 v' xs rs E ltac:(cbn; lia) F) as (H1 & H2). unfold count in *. cbn [transferred view0 next length] in *. lia.
Qed.

(** ** The filter after any earlier values [pre] *)
Section AFTER.
Variables (pre mem garb us raw : list Z) (n V : Z).
Hypothesis Hn : 0 <= n.
Hypothesis HD : digitised n V us raw.
Let xs := pre ++ values firmware_gain mem (garb ++ raw).
Let G := Z.of_nat (length (pre ++ garb)).
Definition Fp (k : Z) : Z := fir_spec (firstn (Z.to_nat (2 * k + 1)) (pre ++ values firmware_gain mem (garb ++ raw))).
Lemma after_length : length xs = (length pre + length garb + length raw)%nat.
Proof using. unfold xs. rewrite app_length, values_length, app_length. lia. Qed.
Lemma after_near i : G + 2 <= i -> i < Z.of_nat (length xs) -> - (156 * n + 11008) <= 1024 * nth (Z.to_nat i) xs 0 - 39 * (Uf (pre ++ garb) us i + 2 * Uf (pre ++ garb) us (i - 1) + Uf (pre ++ garb) us (i - 2)) <= 156 * n + 11008.
Proof using HD.
  intros H1 H2. rewrite after_length in H2. unfold G in H1. rewrite app_length in H1. pose proof (adc_near mem garb us raw n V HD (i - Z.of_nat (length pre)) ltac:(lia) ltac:(rewrite app_length; lia)) as A.
  assert (EU : forall j, Uf (pre ++ garb) us j = Uf garb us (j - Z.of_nat (length pre))).
  { intros j. unfold Uf. rewrite app_length. destruct (Z.ltb_spec j (Z.of_nat (length pre + length garb))), (Z.ltb_spec (j - Z.of_nat (length pre)) (Z.of_nat (length garb))); try lia; try reflexivity. f_equal. lia. }
  rewrite !EU. replace (i - 1 - Z.of_nat (length pre)) with (i - Z.of_nat (length pre) - 1) by lia. replace (i - 2 - Z.of_nat (length pre)) with (i - Z.of_nat (length pre) - 2) by lia.
  unfold xs. rewrite app_nth2 by lia. replace (Z.to_nat i - length pre)%nat with (Z.to_nat (i - Z.of_nat (length pre))) by lia. rewrite values_nth by (rewrite app_length; lia). exact A.
Qed.
Lemma F_after k : G + 8 <= 2 * k -> 2 * k < Z.of_nat (length xs) -> near (Nof n) 1 (csum (Uf (pre ++ garb) us) (2 * k)) (Fp k).
Proof using HD Hn.
  intros H1 H2. unfold Fp. change (pre ++ values firmware_gain mem (garb ++ raw)) with xs. set (i := 2 * k) in *. clearbody i.
  assert (Hi : 0 <= i) by (unfold G in H1; lia). assert (Hi6 : 0 <= i - 6) by (unfold G in H1; lia).
  replace (Z.to_nat (i + 1)) with (Z.to_nat (i - 6) + 7)%nat by lia.
  rewrite (list7 xs) by (clear - H2 Hi6; lia). rewrite fir_spec_window by reflexivity.
  replace (Z.to_nat (i - 6) + 1)%nat with (Z.to_nat (i - 5)) by lia. replace (Z.to_nat (i - 6) + 2)%nat with (Z.to_nat (i - 4)) by lia.
  replace (Z.to_nat (i - 6) + 3)%nat with (Z.to_nat (i - 3)) by lia. replace (Z.to_nat (i - 6) + 4)%nat with (Z.to_nat (i - 2)) by lia.
  replace (Z.to_nat (i - 6) + 5)%nat with (Z.to_nat (i - 1)) by lia. replace (Z.to_nat (i - 6) + 6)%nat with (Z.to_nat i) by lia.
  cbn [dot taps].
  pose proof (after_near i ltac:(lia) ltac:(lia)) as A0. pose proof (after_near (i - 1) ltac:(lia) ltac:(lia)) as A1. pose proof (after_near (i - 2) ltac:(lia) ltac:(lia)) as A2.
  pose proof (after_near (i - 3) ltac:(lia) ltac:(lia)) as A3. pose proof (after_near (i - 4) ltac:(lia) ltac:(lia)) as A4. pose proof (after_near (i - 5) ltac:(lia) ltac:(lia)) as A5.
  pose proof (after_near (i - 6) ltac:(lia) ltac:(lia)) as A6. set (xf := fun i => nth (Z.to_nat i) xs 0) in *.
  change (nth (Z.to_nat i) xs 0) with (xf i) in *. change (nth (Z.to_nat (i - 1)) xs 0) with (xf (i - 1)) in *. change (nth (Z.to_nat (i - 2)) xs 0) with (xf (i - 2)) in *. change (nth (Z.to_nat (i - 3)) xs 0) with (xf (i - 3)) in *.
  change (nth (Z.to_nat (i - 4)) xs 0) with (xf (i - 4)) in *. change (nth (Z.to_nat (i - 5)) xs 0) with (xf (i - 5)) in *. change (nth (Z.to_nat (i - 6)) xs 0) with (xf (i - 6)) in *. set (Uf := Uf (pre ++ garb) us) in *.
  rewrite <- !Z.sub_add_distr in *. cbn [Z.add Pos.add Pos.succ Pos.add_carry] in *.
  unfold near, Nof, csum. clearbody xf Uf. clear - A0 A1 A2 A3 A4 A5 A6 Hn.
  set (x0 := xf i) in *. set (x1 := xf (i - 1)) in *. set (x2 := xf (i - 2)) in *. set (x3 := xf (i - 3)) in *. set (x4 := xf (i - 4)) in *. set (x5 := xf (i - 5)) in *. set (x6 := xf (i - 6)) in *.
  set (v0 := Uf i) in *. set (v1 := Uf (i - 1)) in *. set (v2 := Uf (i - 2)) in *. set (v3 := Uf (i - 3)) in *. set (v4 := Uf (i - 4)) in *. set (v5 := Uf (i - 5)) in *. set (v6 := Uf (i - 6)) in *.
  set (v7 := Uf (i - 7)) in *. set (v8 := Uf (i - 8)) in *. clearbody x0 x1 x2 x3 x4 x5 x6 v0 v1 v2 v3 v4 v5 v6 v7 v8.
  match goal with |- context [?d / 32768] => set (D := d) end.
  pose proof (Z.div_mod D 32768 ltac:(lia)). pose proof (Z.mod_pos_bound D 32768 ltac:(lia)). unfold D in *. lia.
Qed.
End AFTER.

(** ** The packets, after any earlier values *)
Lemma core1_new_chain e0 s c : core1_new e0 = Ok s -> lchain_new e0 = Ok c -> chain_of s = c /\ k_dc s = dc_new.
Proof.
  intros Es Ec. unfold core1_new in Es. unfold lchain_new in Ec. destruct (fir_new (repeat 0 14)); cbn [bind] in Es; [|discriminate].
  destruct bit_new; cbn [bind] in *; [|discriminate]. injection Es as <-. injection Ec as <-. auto.
Qed.
Lemma analog_received_after e0 pre mem garb q n V l raw J : Forall (fun x => -255 <= x <= 255) mem -> Forall (fun x => -255 <= x <= 255) (garb ++ raw) ->
  0 <= n <= 410 -> (5000 <= q)%nat -> Forall (signal_ok 628000 n) l -> spaced (410 * 314000) (314000 * Z.of_nat q) (314000 * Z.of_nat (length raw)) l ->
  digitised n V (converted 314000 (length raw) l) raw -> bounded 12000 pre -> (J <= length (pre ++ garb))%nat -> Z.of_nat (length (pre ++ garb ++ raw)) - Z.of_nat J < 3900000000 ->
  (forall s sJ eJ, core1_new e0 = Ok s -> mrun core1_sample s (firstn J (pre ++ values firmware_gain mem (garb ++ raw))) = Ok (sJ, eJ) -> ua_state (ls_uart (k_ls sJ)) = WAIT_FOR_IDLE) ->
  exists s s1 s2 es1 es2, core1_new e0 = Ok s /\ mrun core1_sample s (firstn (length (pre ++ garb) + q) (pre ++ values firmware_gain mem (garb ++ raw))) = Ok (s1, es1) /\
    mrun core1_sample s1 (skipn (length (pre ++ garb) + q) (pre ++ values firmware_gain mem (garb ++ raw))) = Ok (s2, es2) /\
    ls_busy (k_ls s1) = false /\ log_of es2 = flat_map packet_log (map sg_bytes l).
Proof.
  intros Hmem HT Hn Hq Hl HSp HD Hpre HJ HLT HI.
  set (T := pre ++ garb ++ raw) in *. set (xs := pre ++ values firmware_gain mem (garb ++ raw)). set (G := Z.of_nat (length (pre ++ garb))). set (L1 := (length (pre ++ garb) + q)%nat).
  pose proof (spaced_till n _ _ Hl _ HSp) as Htill.
  assert (LT : length T = (length (pre ++ garb) + length raw)%nat) by (unfold T; rewrite !app_length; lia).
  assert (LX : length xs = length T) by (unfold xs, T; rewrite !app_length, values_length, app_length; reflexivity).
  assert (Bx : bounded 12000 xs).
  { apply bounded_app. split; [exact Hpre|]. unfold bounded, values. apply Forall_forall. intros x Hx. apply in_map_iff in Hx as (i & <- & _). apply value_bound; auto. }
  set (U := Uf (pre ++ garb) (converted 314000 (length raw) l)). set (F := Fp pre mem garb raw). set (B := Bf F). set (Y := Yf F).
  set (N := Nof n). assert (HN : 3840 <= N <= 24750) by (unfold N, Nof; lia).
  assert (HFb : forall k, -16000 <= F k <= 16000). { intros k. unfold F, Fp. apply fir_spec_bound. apply bounded_firstn. exact Bx. }
  set (k0 := (G + 9) / 2). set (k1 := (Z.of_nat (length T) + 1) / 2). set (n1 := (Z.of_nat L1 + 1) / 2).
  assert (Hk0 : G + 8 <= 2 * k0 <= G + 9). { unfold k0. pose proof (Z.div_mod (G + 9) 2 ltac:(lia)). pose proof (Z.mod_pos_bound (G + 9) 2 ltac:(lia)). lia. }
  pose proof (half_range (Z.of_nat (length T))) as Hk1. fold k1 in Hk1. pose proof (half_range (Z.of_nat L1)) as Hn1. fold n1 in Hn1.
  assert (EL1 : Z.of_nat L1 = G + Z.of_nat q) by (unfold L1, G; lia).
  assert (HG : 0 <= G) by (unfold G; lia).
  assert (HF : forall k, k0 <= k < k1 -> near N 1 (csum U (2 * k)) (F k)).
  { intros k Hk. apply (F_after pre mem garb (converted 314000 (length raw) l) raw n V); auto; try lia; fold xs; fold G; lia. }
  assert (HB : forall k, k0 <= k < k1 -> brel (B k) (F k) (B (k + 1))). { intros k Hk. unfold B. rewrite Bf_next by lia. apply bnext_rel. }
  assert (HY : forall k, k0 <= k < k1 -> yrel (B k) (F k) (Y k)). { intros k Hk. apply yout_rel. }
  assert (HUv : forall i, G <= i < Z.of_nat (length T) -> U i = volts l (314000 * (i - G))).
  { intros i Hi. unfold U, Uf. fold G. destruct (Z.ltb_spec i G); [lia|]. rewrite converted_nth by lia. reflexivity. }
  assert (HZ : zeros U 0 (Z.of_nat L1)).
  { intros i Hi. destruct (Z_lt_ge_dec i G) as [C|C]; [unfold U, Uf; fold G; destruct (Z.ltb_spec i G); [auto|lia]|].
    rewrite HUv by lia. apply (volts_early n _ _ _ _ Hl _ HSp). lia. }
  assert (HFq : forall k, k0 <= k < n1 -> -N <= 256 * F k <= N).
  { intros k Hk. apply (F_quiet U F N k0 k1 HF); [lia|]. eapply zeros_sub; eauto; lia. }
  pose proof (Bf_bound F k0 ltac:(intros; apply HFb) k0 ltac:(lia)) as HB0. fold B in HB0.
  pose proof (quiet_settles F B N 15 k0) as HS. change (128 * Z.of_nat 15) with 1920 in HS. change (128 * 2 ^ Z.of_nat 15) with 4194304 in HS.
  specialize (HS ltac:(intros; apply HFq; lia) ltac:(intros; apply HB; lia) ltac:(lia)).
  assert (HBs : forall k, k0 + 1921 <= k <= n1 -> - (N + 127) <= B k <= N + 127).
  { intros k Hk. apply (quiet_keeps F B N (- (N + 127)) (N + 127) (k0 + 1921) (Z.to_nat (n1 - (k0 + 1921)))); try lia.
    - intros; apply HFq; lia.
    - intros; apply HB; lia.
    - replace (k0 + 1921) with (k0 + 1920 + 1) by lia. auto. }
  (* the line *)
  assert (EA : (Z.of_nat L1 - 3 + 4) / 2 = n1) by (unfold n1; f_equal; lia).
  assert (EC : convG G (314000 * (Z.of_nat q - 3)) = Z.of_nat L1 - 3).
  { unfold convG. pose proof (div_bounds (314000 * (Z.of_nat q - 3) + 313999) 314000 ltac:(lia)). lia. }
  destruct (analog_heard U F B Y n k0 k1 G (Z.of_nat (length T)) ltac:(lia) HF HB HY eq_refl l Hl (314000 * (Z.of_nat q - 3))) as (m & Hh & Em'); rewrite ?EC.
  { replace (Z.of_nat (length T) - G) with (Z.of_nat (length raw)) by (unfold G; lia). eapply spaced_earlier; eauto. lia. }
  { pose proof (half_range (Z.of_nat L1 - 3)). lia. }
  { lia. }
  { eapply zeros_sub; eauto; lia. }
  { intros i Hi. apply HUv. lia. }
  { rewrite EA. exists 1, 0. split; [left; auto|]. split; [lia|]. fold N. split; [lia|]. unfold BI. pose proof (HBs n1 ltac:(lia)). lia. }
  rewrite EC, EA in Hh, Em'.
  (* garbage and quiet *)
  set (g0 := Z.to_nat (n1 - 400)).
  assert (Eg0 : Z.to_nat n1 = (g0 + 400)%nat) by (unfold g0; lia).
  assert (HQ : bounded 599 (dseq Y (Z.of_nat g0) 400)).
  { apply Forall_forall. intros y Hy. apply (In_nth _ _ 0) in Hy as (i & Hi & <-). rewrite dseq_length in Hi. rewrite dseq_nth by auto.
    set (k := Z.of_nat g0 + Z.of_nat i). assert (Hk : k0 + 1921 <= k < n1) by (unfold k, g0; lia).
    pose proof (HBs k ltac:(lia)). pose proof (HFq k ltac:(lia)). pose proof (HY k ltac:(lia)) as Hy. unfold yrel in Hy. lia. }
  assert (HGb : bounded 1000000 (dseq Y 0 g0)).
  { apply Forall_forall. intros y Hy. apply (In_nth _ _ 0) in Hy as (i & Hi & <-). rewrite dseq_length in Hi. rewrite dseq_nth by auto.
    set (k := 0 + Z.of_nat i). pose proof (HFb k). pose proof (Bf_bound F k ltac:(intros; apply HFb) k ltac:(unfold k; lia)) as Hb. pose proof (yout_rel (Bf F k) (F k)) as Hy. fold (Yf F k) in Hy. fold Y in Hy. unfold yrel in Hy. lia. }
  set (j := (Z.of_nat J + 1) / 2). pose proof (half_range (Z.of_nat J)) as Hj. fold j in Hj. unfold G in HG, EL1.
  assert (Egj : g0 = (Z.to_nat j + (g0 - Z.to_nat j))%nat) by (unfold g0, G in *; lia).
  assert (EGS : dseq Y 0 g0 = dseq Y 0 (Z.to_nat j) ++ dseq Y j (g0 - Z.to_nat j)).
  { rewrite Egj at 1. rewrite dseq_app. f_equal. f_equal. lia. }
  assert (HIJ : forall c ca es, lchain_new e0 = Ok c -> mrun lchain_step c (dseq Y 0 (Z.to_nat j)) = Ok (ca, es) -> ua_state (ls_uart (lc_ls ca)) = WAIT_FOR_IDLE).
  { intros c ca es Ec Hc. destruct (core1_new_inv e0) as (s & Es & (_ & Hfir & Hrs & Hdc & _)). destruct (core1_new_chain e0 s c Es Ec) as (ES & ED).
    destruct (dc_dseq F (Z.to_nat j) 0 dc_new ltac:(lia) ltac:(intros; apply HFb) dc_new_inv ltac:(reflexivity)) as (d1 & D1 & _ & _). fold Y in D1.
    assert (LJ : length (firstn J xs) = J) by (rewrite firstn_length; lia).
    destruct (core1_split (firstn J xs) [] s (dseq Y 0 (Z.to_nat j)) d1 ca es) as (sJ & eJ & Q & _ & C & _); auto.
    - apply bounded_firstn. exact Bx.
    - rewrite ED. pose proof (sel_dseq xs F (firstn J xs) ltac:(reflexivity) [] (skipn J xs)) as E. cbn [length app Nat.add] in E. change (length (@nil Z)) with 0%nat; rewrite E by (rewrite firstn_skipn; auto).
      rewrite LJ. change ((Z.of_nat 0 + 1) / 2) with 0. fold j. rewrite Z.sub_0_r. exact D1.
    - rewrite ES. exact Hc.
    - specialize (HI s sJ eJ Es Q). rewrite <- C. exact HI. }
  rewrite EGS in HGb.
  assert (K1 : (400 <= length (dseq Y (Z.of_nat g0) 400))%nat) by (rewrite dseq_length; lia).
  assert (K2 : Z.of_nat (length (dseq Y j (g0 - Z.to_nat j)) + length (dseq Y (Z.of_nat g0) 400)) < 2000000000) by (rewrite !dseq_length; unfold g0, G in *; lia).
  assert (K3 : Z.of_nat (length (dseq Y n1 m)) < 2000000000) by (rewrite dseq_length; unfold G in *; lia).
  destruct (recovered_since e0 (dseq Y 0 (Z.to_nat j)) (dseq Y j (g0 - Z.to_nat j)) (dseq Y (Z.of_nat g0) 400) (map sg_bytes l) (dseq Y n1 m) HGb HQ K1 K2 HIJ Hh K3) as (c & c1 & c2 & es1 & es2 & Ec & R1 & R2 & S1 & S3).
  rewrite <- EGS in R1. replace (dseq Y 0 g0 ++ dseq Y (Z.of_nat g0) 400) with (dseq Y 0 (Z.to_nat n1)) in R1 by (rewrite Eg0, dseq_app; auto).
  (* the core *)
  destruct (core1_new_inv e0) as (s & Es & (_ & Hfir & Hrs & Hdc & _)).
  destruct (core1_new_chain e0 s c Es Ec) as (ES & ED). exists s.
  assert (HFf : forall k, F k = fir_spec (firstn (Z.to_nat (2 * k + 1)) xs)) by reflexivity.
  destruct (dc_dseq F (Z.to_nat n1) 0 dc_new ltac:(lia) ltac:(intros; apply HFb) dc_new_inv ltac:(reflexivity)) as (d1 & D1 & Hd1 & Bd1).
  destruct (dc_dseq F m n1 d1 ltac:(lia) ltac:(intros; apply HFb) Hd1) as (d2 & D2 & _ & _).
  { rewrite Bd1. f_equal. lia. }
  fold Y in D1, D2.
  assert (Lf : length (firstn L1 xs) = L1) by (rewrite firstn_length; lia).
  assert (Lsk : length (skipn L1 xs) = (length T - L1)%nat) by (rewrite skipn_length; lia).
  destruct (core1_split (firstn L1 xs) [] s (dseq Y 0 (Z.to_nat n1)) d1 c1 es1) as (s1 & es1' & Q1 & O1 & C1 & Dc1 & F1 & Rs1); auto.
  { apply bounded_firstn. auto. }
  { rewrite ED. pose proof (sel_dseq xs F (firstn L1 xs) HFf [] (skipn L1 xs)) as E. cbn [length app Nat.add] in E. change (length (@nil Z)) with 0%nat; rewrite E by (rewrite firstn_skipn; auto).
    rewrite Lf. change ((Z.of_nat 0 + 1) / 2) with 0. fold n1. rewrite Z.sub_0_r. exact D1. }
  { rewrite ES. exact R1. }
  cbn [app] in F1, Rs1.
  destruct (core1_split (skipn L1 xs) (firstn L1 xs) s1 (dseq Y n1 m) d2 c2 es2) as (s2 & es2' & Q2 & O2 & _ & _ & _ & _); auto.
  { rewrite firstn_skipn. auto. }
  { rewrite Dc1. rewrite (sel_dseq xs F (skipn L1 xs) HFf (firstn L1 xs) []) by (rewrite app_nil_r, firstn_skipn; auto).
    rewrite Lf, Lsk. fold n1. replace (L1 + (length T - L1))%nat with (length T) by lia. fold k1. replace (Z.to_nat (k1 - n1)) with m by lia. exact D2. }
  { rewrite C1. exact R2. }
  exists s1, s2, es1', es2'. split; [auto|]. split; [exact Q1|]. split; [exact Q2|]. split.
  - rewrite <- C1 in S1. exact S1.
  - rewrite O2, S3. reflexivity.
Qed.

(** ... and the last thing told before is that the line is free. *)
Lemma analog_free_after e0 pre mem garb q n V l raw J : Forall (fun x => -255 <= x <= 255) mem -> Forall (fun x => -255 <= x <= 255) (garb ++ raw) ->
  0 <= n <= 410 -> (5000 <= q)%nat -> Forall (signal_ok 628000 n) l -> spaced (410 * 314000) (314000 * Z.of_nat q) (314000 * Z.of_nat (length raw)) l ->
  digitised n V (converted 314000 (length raw) l) raw -> bounded 12000 pre -> (J <= length (pre ++ garb))%nat -> Z.of_nat (length (pre ++ garb ++ raw)) - Z.of_nat J < 3900000000 ->
  (forall s sJ eJ, core1_new e0 = Ok s -> mrun core1_sample s (firstn J (pre ++ values firmware_gain mem (garb ++ raw))) = Ok (sJ, eJ) -> ua_state (ls_uart (k_ls sJ)) = WAIT_FOR_IDLE) ->
  exists s s1 s2 es1 es2 old, core1_new e0 = Ok s /\ mrun core1_sample s (firstn (length (pre ++ garb) + q) (pre ++ values firmware_gain mem (garb ++ raw))) = Ok (s1, es1) /\
    mrun core1_sample s1 (skipn (length (pre ++ garb) + q) (pre ++ values firmware_gain mem (garb ++ raw))) = Ok (s2, es2) /\
    log_of es1 = old ++ [LFree] /\ log_of es2 = flat_map packet_log (map sg_bytes l).
Proof.
  intros Hmem HT Hn Hq Hl HS HD Hpre HJ HLT HI. destruct (analog_received_after e0 pre mem garb q n V l raw J Hmem HT Hn Hq Hl HS HD Hpre HJ HLT HI) as (s & s1 & s2 & es1 & es2 & A1 & A2 & A3 & A4 & A5).
  destruct (free_last core1_sample (fun c => ls_busy (k_ls c)) _ _ _ _ core1_log A2 (core1_new_busy _ _ A1) A4) as (old & Eo). exists s, s1, s2, es1, es2, old. auto.
Qed.

(** ** The complete firmware *)
Lemma last_app_ne {A} (l1 l2 : list A) d x : l2 <> [] -> last l2 d = x -> last (l1 ++ l2) d = x.
Proof. intros H <-. induction l1 as [|y l IH]; [reflexivity|]. cbn [app last]. destruct (l ++ l2) eqn:E; [destruct l, l2; discriminate || congruence|exact IH]. Qed.
Lemma no_fault_is rs : Forall unflagged rs -> no_fault rs. Proof. intros H. exact H. Qed.
Lemma plain_guarded l : forall a a' rs, mrun adc_guarded a l = Ok (a', rs) -> Forall unflagged rs -> mrun adc_event a l = Ok (a', rs).
Proof.
  induction l as [|e l IH]; intros a a' rs E F; cbn [mrun] in *; [exact E|]. bstep E. destruct x as (a1 & r). bstep E. destruct x as (a2 & rs2). injection E as -> <-. inversion F; subst.
  unfold adc_guarded in E0. bstep E0. destruct x as (a3 & r3). injection E0 as <- <-. rewrite E. cbn [bind]. assert (X : match r3 with Some (Some (_, true)) => adc_reset a3 | _ => a3 end = a3) by (destruct r3 as [[(? & [|])|]|]; cbn in *; tauto).
  rewrite X in E1. rewrite (IH _ _ _ E1) by assumption. reflexivity.
Qed.
Lemma delivered_data gain mem T xs outs : Forall2 (poll_ok gain mem T) xs outs -> delivered outs = length (filter (fun x => match x with Some (Data _ _) => true | _ => false end) xs).
Proof.
  induction 1 as [|x r xs outs H F IH]; [reflexivity|]. change (r :: outs) with ([r] ++ outs). rewrite delivered_app, IH. destruct x as [[|i p]|], r as [[(v & f)|]|]; cbn in H; try contradiction; reflexivity.
Qed.
Lemma handed_good mem l a rs : length mem = 256%nat -> Forall (fun x => -255 <= x <= 255) mem -> Forall sys_ok l -> mrun adc_guarded (adc_start mem firmware_gain) (sys_adc l) = Ok (a, rs) -> Forall unflagged rs ->
  handed_out l = Z.of_nat (length (S_Core1.good rs)).
Proof.
  intros Lm Rm F E U. destruct (adc_history mem firmware_gain (sys_adc l) (conj Lm (range_wider _ Rm)) ltac:(vm_compute; split; discriminate) (sys_ev_range l F)) as (a' & rs' & R & F2 & _).
  rewrite (plain_guarded _ _ _ _ E U) in R. injection R as <- <-. unfold handed_out. rewrite good_delivered by exact U. erewrite delivered_data by exact F2. reflexivity.
Qed.
Lemma last_other {A} (l : list A) d d' : l <> [] -> last l d = last l d'.
Proof. intros H. induction l as [|x l IH]; [congruence|]. destruct l; [reflexivity|]. cbn [last] in *. apply IH. discriminate. Qed.
Lemma produced_last_byte rs : forall evs d, length evs = length (S_Core1.good rs) -> is_byte (last (produced rs evs) d) = true -> last (produced rs evs) d = last evs d.
Proof.
  induction rs as [|r rs IH]; intros evs d L H; [destruct evs; [reflexivity|discriminate]|].
  destruct r as [[(v & [|])|]|]; cbn [produced S_Core1.good flat_map app length] in L, H |- *.
  - rewrite last_step in H |- *. pose proof (IH evs adc_fault L H) as Q. rewrite Q in H |- *. apply last_other. intros ->. discriminate H.
  - destruct evs as [|e evs]; [discriminate L|]. injection L as L. rewrite !last_step in *. apply (IH evs e L H).
  - rewrite last_step in H |- *. pose proof (IH evs ev_none L H) as Q. rewrite Q in H |- *. apply last_other. intros ->. discriminate H.
  - apply (IH evs d L H).
Qed.
Lemma line_byte s p s' e : line_step s p = Ok (s', e) -> is_byte e = true -> ua_state (ls_uart s') = WAIT_FOR_IDLE.
Proof.
  unfold line_step. destruct (if ua_receiving _ then _ else _) as (((busy & idle) & evb) & evf). intros E H. bstep E. destruct x as (((u & ret) & out) & err). destruct ret; cbn [negb] in E; injection E as <- <-; [|discriminate H].
  cbn [ls_uart]. unfold ua_update in E0. destruct (ua_state (ls_uart s)).
  - discriminate E0.
  - bstep E0. discriminate E0.
  - bstep E0. discriminate E0.
  - bstep E0. destruct x as (o & e). injection E0 as <- _ _. reflexivity.
Qed.
Lemma sample_byte s x s' e : core1_sample s x = Ok (s', e) -> is_byte e = true -> ua_state (ls_uart (k_ls s')) = WAIT_FOR_IDLE.
Proof.
  unfold core1_sample. intros E H. bstep E. destruct x0 as (f & fd). destruct (rs_update (k_rs s) fd) as (r & [v|]); [|injection E as <- <-; discriminate H].
  bstep E. destruct x0 as (d & ac). bstep E. destruct x0 as (lv & hy). bstep E. destruct x0 as (bb & bd). bstep E. destruct x0 as (ls & e1). injection E as <- <-. cbn [k_ls]. eapply line_byte; eauto.
Qed.
Lemma run_last_byte xs s s' es : mrun core1_sample s xs = Ok (s', es) -> is_byte (last es ev_none) = true -> ua_state (ls_uart (k_ls s')) = WAIT_FOR_IDLE.
Proof.
  intros E H. destruct xs as [|x xs _] using rev_ind; [cbn [mrun] in E; injection E as _ <-; discriminate H|].
  rewrite mrun_app in E. bstep E. destruct x0 as (s1 & e1). cbn [mrun] in E. bstep E. destruct x0 as (s2 & e2). bstep E1. destruct x0 as (s3 & e3). cbn [bind] in E1. injection E1 as -> <-. injection E as -> <-.
  rewrite last_last in H. eapply sample_byte; eauto.
Qed.
Lemma firstn_app_exact {A} (a b : list A) : firstn (length a) (a ++ b) = a.
Proof. induction a as [|x a IH]; [destruct b; reflexivity|]. cbn. f_equal. exact IH. Qed.
Lemma adc_to_restart_none mem l a rs : length mem = 256%nat -> Forall (fun x => -255 <= x <= 255) mem -> Forall ev_range l -> mrun adc_guarded (adc_start mem firmware_gain) l = Ok (a, rs) -> Forall unflagged rs ->
  left (fst (spec_run view0 l)) = 0 -> forall c a' r, adc_guarded a (Poll c) = Ok (a', r) -> r = Some None.
Proof.
  intros Lm Rm He E U Hl c a' r Ep. assert (Hm2 : Forall sample_range mem) by (apply range_wider; exact Rm).
  destruct (adc_run mem firmware_gain l Hm2 ltac:(vm_compute; split; discriminate) view0 (adc_start mem firmware_gain) (adc_inv_start mem firmware_gain Lm)) as (a1 & rs1 & R & I & _); [intros x Hx; rewrite Forall_forall in Hm2; apply Hm2; exact Hx|exact He|].
  rewrite (plain_guarded _ _ _ _ E U) in R. injection R as <- <-. unfold adc_guarded in Ep. cbn [adc_event] in Ep. unfold adc_poll, adc_update in Ep. rewrite (ai_hw _ _ _ _ I), Hl in Ep. change (0 =? 0) with true in Ep. cbv iota in Ep.
  unfold adc_dma_restart in Ep. cbn [ad_ring rg_data rg_tc ad_tc ad_error ad_gain ad_off] in Ep. rewrite Z.eqb_refl in Ep. cbn [bind] in Ep. injection Ep as _ <-. reflexivity.
Qed.
Lemma new_waits e0 s : core1_new e0 = Ok s -> ua_state (ls_uart (k_ls s)) = WAIT_FOR_IDLE.
Proof. unfold core1_new. intros E. bstep E. bstep E. injection E as <-. reflexivity. Qed.

Lemma restart_to_host b mem e0 l1 l2 s outs garb q n V sigs raw : let l := l1 ++ Y_core1 true :: l2 in
  boot_ok b -> length mem = 256%nat -> Forall (fun x => -255 <= x <= 255) mem -> Forall sys_ok l -> input_ok (text (sys_loop_inputs l)) -> sys_run b mem e0 l = Ok (s, outs) ->
  Forall poll_clean (sys_adc l1) -> Forall in_reach (snd (spec_run view0 (sys_adc l1))) -> left (fst (spec_run view0 (sys_adc l1))) = 0 ->
  keeps_up l2 -> Z.of_nat (length (dma_samples l2)) < BLOCK -> heard_since b mem e0 l (handed_out l1 + Z.of_nat (length garb)) ->
  Forall (fun x => ~ overflow_in (snd x)) (loops outs) -> no_timeout (map snd (loops outs)) -> k_queue (y_link s) = [] -> k_ferr (y_link s) = false ->
  dma_samples l2 = garb ++ raw -> 0 <= n <= 410 -> (5000 <= q)%nat -> Forall (signal_ok 628000 n) sigs -> spaced (410 * 314000) (314000 * Z.of_nat q) (314000 * Z.of_nat (length raw)) sigs ->
  Forall (fun u => (length (sg_bytes u) <= 31)%nat) sigs -> digitised n V (converted 314000 (length raw) sigs) raw ->
  exists o c, map described (rx_reports (concat (map snd (loops outs)))) = o ++ map (fun u => (R_packet, (0, sg_bytes u))) sigs /\
    map content (to_ctrl (concat (map snd (loops outs)))) = c ++ map (fun u => (0, sg_bytes u)) sigs.
Proof.
  intros l B Lm Rm F T E Hc1 Hr1 Hl1 (K1 & K2) Hs Hup No Nt Hq Hf ET Hn H5 Hb Hsp H31 HD.
  assert (F0 := F). unfold l in F0. apply Forall_app in F0 as (F1 & F2). inversion F2 as [|? ? _ F3]; subst. clear F2.
  assert (EA : sys_adc l = (sys_adc l1 ++ [Poll true]) ++ sys_adc l2) by (unfold l, sys_adc; rewrite flat_map_app, <- app_assoc; reflexivity).
  destruct (adc_to_restart mem firmware_gain (sys_adc l1) true (conj Lm Rm) ltac:(vm_compute; split; discriminate) (sys_adc_ok _ F1)) as (mem' & rs1 & R1 & Lm' & Rm' & U1 & Lg).
  { apply Forall_app. split; [exact Hc1|]. constructor; [reflexivity|constructor]. } { exact Hr1. } { exact Hl1. }
  destruct (adc_keeps mem' firmware_gain (sys_adc l2) (conj Lm' (range_wider _ Rm')) ltac:(vm_compute; split; discriminate) (sys_ev_range l2 F3) ltac:(rewrite samples_length, dma_sampled; exact Hs) K1 K2) as (a & rs2 & R2 & U2 & Gv & La).
  rewrite dma_sampled, ET in Gv. pose proof (dma_ok l2 F3) as HT. rewrite ET in HT.
  assert (Ra : mrun adc_guarded (adc_start mem firmware_gain) (sys_adc l) = Ok (a, rs1 ++ rs2)) by (rewrite EA, mrun_app, R1; cbn [bind]; rewrite R2; reflexivity).
  assert (U : Forall unflagged (rs1 ++ rs2)) by (apply Forall_app; auto).
  assert (Eg : S_Core1.good (rs1 ++ rs2) = S_Core1.good rs1 ++ values firmware_gain mem' (garb ++ raw)) by (unfold S_Core1.good at 1; rewrite flat_map_app; fold (S_Core1.good rs1) (S_Core1.good rs2); rewrite Gv; reflexivity).
  assert (Hpre : bounded 12000 (S_Core1.good rs1)).
  { eapply adc_bounded; [| |exact R1]; [unfold ring255; cbn; auto|]. apply Forall_app. split; [apply sys_adc_ok; exact F1|]. constructor; [exact Logic.I|constructor]. }
  assert (HJ : exists J, (J <= length (S_Core1.good rs1 ++ garb))%nat /\ Z.of_nat (length (S_Core1.good rs1 ++ garb ++ raw)) - Z.of_nat J < 3900000000 /\
    (forall s sJ eJ, core1_new e0 = Ok s -> mrun core1_sample s (firstn J (S_Core1.good rs1 ++ values firmware_gain mem' (garb ++ raw))) = Ok (sJ, eJ) -> ua_state (ls_uart (k_ls sJ)) = WAIT_FOR_IDLE)).
  { pose proof (handed_good mem l a (rs1 ++ rs2) Lm Rm F Ra U) as Hh. rewrite Eg, app_length, values_length in Hh.
    assert (Hh1 : handed_out l1 = Z.of_nat (length (S_Core1.good rs1))).
    { assert (R1' := R1). rewrite mrun_app in R1'. bstep R1'. destruct x as (a1 & r1). bstep R1'. destruct x as (a2 & r2). injection R1' as Qa Qr. rewrite <- Qr in *. assert (G2 : S_Core1.good r2 = []).
      { clear - E1 E0 Hl1 Lm Rm F1 U1. cbn [mrun] in E1. bstep E1. destruct x as (a3 & r3). injection E1 as <- <-. rewrite (adc_to_restart_none mem (sys_adc l1) a1 r1 Lm Rm (sys_ev_range l1 F1) E0 ltac:(apply Forall_app in U1; apply U1) Hl1 _ _ _ E). reflexivity. }
      apply Forall_app in U1 as (U1 & _). rewrite (handed_good mem l1 a1 r1 Lm Rm F1 E0 U1). unfold S_Core1.good. rewrite flat_map_app. fold (S_Core1.good r1) (S_Core1.good r2). rewrite G2, app_nil_r. reflexivity. }
    destruct Hup as [Hup|(la & lb & sa & oa & El & Ela & Hb8 & Hn1 & Hn2)].
    - exists 0%nat. split; [lia|]. rewrite !app_length in *. unfold UPTIME in Hup. split; [lia|]. intros s0 sJ eJ Es Q. cbn [firstn mrun] in Q. injection Q as <- _. eapply new_waits; eauto.
    - assert (Fa : Forall sys_ok la) by (rewrite El in F; apply Forall_app in F; apply F).
      destruct (sys_split b mem e0 la sa oa Fa Ela) as (ka & rsa & evsa & loa & ooa & A1 & A2 & A3 & _ & _ & _ & _ & A8).
      assert (Ra' := Ra). rewrite El in Ra'. unfold sys_adc in Ra'. rewrite flat_map_app in Ra'. fold (sys_adc la) (sys_adc lb) in Ra'. rewrite mrun_app, A2 in Ra'. cbn [bind] in Ra'. bstep Ra'. destruct x as (ab & rsb). injection Ra' as -> Ers.
      assert (Ua : Forall unflagged rsa) by (rewrite <- Ers in U; apply Forall_app in U; apply U).
      pose proof (handed_good mem la _ rsa Lm Rm Fa A2 Ua) as Ha. exists (length (S_Core1.good rsa)). rewrite !app_length in *. split; [lia|]. unfold UPTIME in Hn2. split; [lia|].
      intros s0 sJ eJ Es Q. rewrite A1 in Es. injection Es as <-. rewrite <- Eg, <- Ers in Q. unfold S_Core1.good in Q at 2. rewrite flat_map_app in Q. fold (S_Core1.good rsa) (S_Core1.good rsb) in Q. rewrite firstn_app_exact in Q. rewrite A3 in Q. injection Q as <- <-.
      eapply run_last_byte; [exact A3|]. assert (X : last (told loa ++ [c1_pend (y_c1 sa)]) ev_none = last (ev_none :: produced rsa evsa) ev_none) by (rewrite A8; reflexivity). rewrite last_last, last_step in X. rewrite X in Hb8.
      rewrite <- (produced_last_byte rsa evsa ev_none (mrun_length _ _ _ _ _ A3) Hb8). exact Hb8. }
  destruct HJ as (J & HJ1 & HJ2 & HJ3).
  destruct (sys_split b mem e0 l s outs F E) as (k1 & rs' & evs' & lo & o0 & A1 & A2 & A3 & _ & _ & _ & _ & A8). rewrite Ra in A2. injection A2 as -> <-.
  assert (L : last (rs1 ++ rs2) None = Some None).
  { apply last_app_ne; [|exact La]. intros ->. discriminate La. }
  assert (P : no_news (c1_pend (y_c1 s)) = true).
  { pose proof (produced_last (rs1 ++ rs2) evs' (mrun_length _ _ _ _ _ A3) L) as X. assert (Y : last (ev_none :: produced (rs1 ++ rs2) evs') ev_none = ev_none) by (destruct (produced (rs1 ++ rs2) evs'); [reflexivity|exact X]). rewrite <- A8, last_last in Y. rewrite Y. reflexivity. }
  destruct (packets_to_host_after b mem e0 l s outs (rs1 ++ rs2) B Lm Rm F T E Ra U No Nt Hq Hf P) as (k0 & evs & C1 & C2 & C3).
  destruct (analog_free_after e0 (S_Core1.good rs1) mem' garb q n V sigs raw J Rm' HT Hn H5 Hb Hsp HD Hpre HJ1 HJ2 HJ3) as (s0 & s1 & s2 & es1 & es2 & old & D1 & D2 & D3 & D4 & D5).
  rewrite C1 in D1. injection D1 as <-. rewrite Eg, <- (firstn_skipn (length (S_Core1.good rs1 ++ garb) + q) (S_Core1.good rs1 ++ values firmware_gain mem' (garb ++ raw))), mrun_app, D2 in C2. cbn [bind] in C2. rewrite D3 in C2. cbn [bind] in C2. injection C2 as _ <-.
  destruct (C3 old (map pk_of sigs)) as (o & c & X1 & X2).
  - unfold log_of. rewrite flat_map_app. fold (log_of es1) (log_of es2). rewrite D4, D5, pk_of_log. reflexivity.
  - rewrite Forall_map. exact H31.
  - rewrite map_map in X1, X2. eauto.
Qed.
Lemma beyond_block b mem e0 l1 l2 s outs garb q n V sigs raw : let l := l1 ++ Y_core1 true :: l2 in
  boot_ok b -> length mem = 256%nat -> Forall (fun x => -255 <= x <= 255) mem -> Forall sys_ok l -> input_ok (text (sys_loop_inputs l)) -> sys_run b mem e0 l = Ok (s, outs) ->
  never_behind l1 -> block_over l1 -> keeps_up l2 -> Z.of_nat (length (dma_samples l2)) < BLOCK -> heard_since b mem e0 l (handed_out l1 + Z.of_nat (length garb)) ->
  Forall (fun x => ~ overflow_in (snd x)) (loops outs) -> no_timeout (map snd (loops outs)) -> k_queue (y_link s) = [] -> k_ferr (y_link s) = false ->
  dma_samples l2 = garb ++ raw -> 0 <= n <= 410 -> (5000 <= q)%nat -> Forall (signal_ok 628000 n) sigs -> spaced (410 * 314000) (314000 * Z.of_nat q) (314000 * Z.of_nat (length raw)) sigs ->
  Forall (fun u => (length (sg_bytes u) <= 31)%nat) sigs -> digitised n V (converted 314000 (length raw) sigs) raw ->
  exists o c, map described (rx_reports (concat (map snd (loops outs)))) = o ++ map (fun u => (R_packet, (0, sg_bytes u))) sigs /\
    map content (to_ctrl (concat (map snd (loops outs)))) = c ++ map (fun u => (0, sg_bytes u)) sigs.
Proof. intros l B Lm Rm F T E (N1 & N2) Bo. exact (restart_to_host b mem e0 l1 l2 s outs garb q n V sigs raw B Lm Rm F T E N2 N1 Bo). Qed.
