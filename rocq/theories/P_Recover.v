(** P_Recover.v -- the receive chain recovers from any disturbance (C93). *)
From Verif Require Import Base M_ShiftReg M_Dsp M_Uart M_Pio M_Core1 S_Containers S_Dsp S_Line S_Pio S_Core1 S_Noise D_Uart D_Chain D_Core1
  P_Containers P_Dsp P_Uart P_UartRun P_UartErr P_Pio P_PioTc P_Chain P_Core1 P_Core1Chain P_NoiseDet P_NoiseChar P_NoiseRun P_Noise.

(** ** The byte receiver *)
Lemma data_down l : forall u, ua_state u = DATA -> ua_counter u = Z.of_nat (length l) -> (1 <= length l <= 200)%nat -> ua_safe u ->
  exists u' os, mrun ua_call u l = Ok (u', os) /\ ua_state u' = STOP /\ ua_counter u' = 0 /\ ua_safe u'.
Proof.
  induction l as [|[[x o] e] t IH]; intros u St Hc HL (w & Hw); [cbn in HL; lia|].
  cbn [length] in *. destruct (ua_data_case_ok u w x Hw) as (r & Hr & E).
  assert (F : ua_call u (x, o, e) = Ok (UART (ua_parity u) (u32 (ua_counter u - 1)) (if u32 (ua_counter u - 1) =? 0 then STOP else ua_state u) r, None)).
  { unfold ua_call, ua_update. rewrite St in *. rewrite E. reflexivity. }
  assert (C : u32 (ua_counter u - 1) = Z.of_nat (length t)) by (rewrite Hc, u32_id by lia; lia).
  rewrite C in F. cbn [mrun]. rewrite F; cbn [bind]. destruct t as [|i t].
  - cbn [mrun bind]. eexists _, _. split; [reflexivity|]. cbn. split; auto. split; auto. eexists; exact Hr.
  - destruct (Z.eqb_spec (Z.of_nat (length (i :: t))) 0); [cbn [length] in *; lia|].
    edestruct (IH (UART (ua_parity u) (Z.of_nat (length (i :: t))) (ua_state u) r)) as (u' & os & R & A & B & D).
    + exact St.
    + reflexivity.
    + cbn [length] in *; lia.
    + eexists; exact Hr.
    + rewrite R; cbn [bind]. eexists _, _. split; [reflexivity|]. auto.
Qed.
Lemma stop_step u x o e : ua_state u = STOP -> ua_counter u = 0 -> ua_safe u ->
  exists u' r, ua_call u (x, o, e) = Ok (u', r) /\ ua_state u' = WAIT_FOR_IDLE /\ ua_counter u' = 0 /\ ua_safe u'.
Proof.
  intros St Hc Hs. destruct (ua_call_safe u (x, o, e) Hs) as (u' & r & E & Hs' & _). exists u', r. split; auto.
  revert E. unfold ua_call, ua_update. rewrite St. destruct (find_best_phase u o e) as [[o' e']|]; cbn [bind]; [|discriminate].
  intros E. inversion E; subst. cbn. auto.
Qed.
Lemma wfi_run l u : ua_state u = WAIT_FOR_IDLE -> ua_counter u = 0 -> ua_safe u -> quiet l -> l <> [] -> Z.of_nat (length l) < 4294967000 ->
  exists u' os n, mrun ua_call u l = Ok (u', os) /\ idle_st u' n /\ 0 <= n <= Z.of_nat (length l).
Proof.
  intros St Hc Hs Q N L. destruct l as [|[[x o] e] t]; [easy|]. inversion Q as [|? ? Qx Qt]; subst. cbn [length] in *.
  destruct (wfi_zero u x o e St Hc Hs Qx) as (u1 & E & I). destruct (idle_run t u1 0 I Qt ltac:(lia) ltac:(lia)) as (u2 & R & I2).
  cbn [mrun]. rewrite E; cbn [bind]. rewrite R; cbn [bind]. eexists _, _, _. split; [reflexivity|]. split; [exact I2|lia].
Qed.
Lemma stop_run l u : ua_state u = STOP -> ua_counter u = 0 -> ua_safe u -> quiet l -> (2 <= length l)%nat -> Z.of_nat (length l) < 4294967000 ->
  exists u' os n, mrun ua_call u l = Ok (u', os) /\ idle_st u' n /\ 0 <= n <= Z.of_nat (length l).
Proof.
  intros St Hc Hs Q N L. destruct l as [|[[x o] e] t]; [cbn in N; lia|]. inversion Q as [|? ? Qx Qt]; subst. cbn [length] in *.
  destruct (stop_step u x o e St Hc Hs) as (u1 & r & E & A & B & C).
  destruct (wfi_run t u1 A B C Qt) as (u2 & os & n & R & I & Hn); [destruct t; [cbn in N; lia|discriminate]|lia|].
  cbn [mrun]. rewrite E; cbn [bind]. rewrite R; cbn [bind]. eexists _, _, _. split; [reflexivity|]. split; [exact I|lia].
Qed.
Lemma quiet_app a b : quiet (a ++ b) <-> quiet a /\ quiet b. Proof. apply Forall_app. Qed.
Lemma ua_recover l u h : ua_inv u h -> quiet l -> (170 <= length l)%nat -> Z.of_nat (length h + length l) < 4294967000 ->
  exists u' os n, mrun ua_call u l = Ok (u', os) /\ idle_st u' n /\ 0 <= n <= Z.of_nat (length h + length l).
Proof.
  intros H Q L1 L2. pose proof (ua_inv_safe _ _ H) as Hs. destruct H as (_ & w & Hw & _ & H).
  destruct (ua_state u) eqn:St.
  - destruct (wfi_run l u St H Hs Q) as (u' & os & n & R & I & Hn); [destruct l; [cbn in L1; lia|discriminate]|lia|].
    eexists _, _, _. split; [exact R|]. split; [exact I|lia].
  - destruct H as (pre & h1 & h2 & -> & _ & L3 & Hc & _). rewrite app_length in *.
    destruct (idle_run l u (Z.of_nat (length h2)) ltac:(split; [exact St|split; [exact Hc|exact Hs]]) Q ltac:(lia) ltac:(lia)) as (u' & R & I).
    eexists _, _, _. split; [exact R|]. split; [exact I|]. lia.
  - destruct H as (pre & h1 & h2 & m & -> & _ & _ & Hm & Hc & _ & _). set (k := (168 - m)%nat).
    rewrite <- (firstn_skipn k l) in Q |- *. apply quiet_app in Q as (Q1 & Q2).
    assert (LF : length (firstn k l) = k) by (rewrite firstn_length; unfold k; lia).
    destruct (data_down (firstn k l) u St ltac:(rewrite LF, Hc; unfold k; lia) ltac:(rewrite LF; unfold k; lia) Hs) as (u1 & o1 & R1 & A & B & C).
    assert (LS : length (skipn k l) = (length l - k)%nat) by apply skipn_length.
    destruct (stop_run (skipn k l) u1 A B C Q2 ltac:(rewrite LS; unfold k; lia) ltac:(rewrite LS; lia)) as (u2 & o2 & n & R2 & I & Hn).
    rewrite mrun_app, R1; cbn [bind]. rewrite R2; cbn [bind]. eexists _, _, _. split; [reflexivity|]. split; [exact I|]. rewrite !app_length, LF, LS. unfold k in *; lia.
  - destruct H as (Hc & _). destruct (stop_run l u St Hc Hs Q ltac:(lia) ltac:(lia)) as (u' & os & n & R & I & Hn).
    eexists _, _, _. split; [exact R|]. split; [exact I|lia].
Qed.

(** ** The level detector *)
Definition lvst (st : Z) : Prop := st = 0 \/ st = 1 \/ st = -1.
Lemma level_any b xs : 0 <= b <= 80000000 -> bounded b xs -> forall st, lvst st ->
  exists st' zs, mrun (lv_update (fun z => z)) st xs = Ok (st', zs) /\ lvst st' /\ bounded b zs /\ length zs = length xs.
Proof.
  intros Hb H. induction H as [|x xs Hx H IH]; intros st Hs.
  - exists st, []. split; [reflexivity|]. split; auto. split; [constructor|reflexivity].
  - assert (K : exists st1 z, lv_update (fun z => z) st x = Ok (st1, z) /\ lvst st1 /\ - b <= z <= b).
    { unfold lv_update. assert (N : lvst (lv_next st x)).
      { unfold lv_next, lvst, BUS_HIGH_MV, BUS_LOW_MV in *. repeat match goal with |- context [if ?c then _ else _] => destruct c end; lia. }
      destruct (Z.eqb_spec (lv_next st x) 0).
      - rewrite chk32_ok by lia. cbn [bind]. eexists _, _. split; [reflexivity|]. split; auto. rewrite asr8.
        pose proof (Z.div_mod (x * 26) 256 ltac:(lia)). pose proof (Z.mod_pos_bound (x * 26) 256 ltac:(lia)). lia.
      - eexists _, _. split; [reflexivity|]. split; auto. }
    destruct K as (s1 & z & E & S1 & Hz). destruct (IH s1 S1) as (s2 & zs & R & S2 & B & L).
    cbn [mrun]. rewrite E; cbn [bind]. rewrite R; cbn [bind]. eexists _, _. split; [reflexivity|]. split; auto. split; [constructor; auto|cbn; congruence].
Qed.
Lemma level_settles qs st : lvst st -> bounded 599 qs -> qs <> [] ->
  exists zs, mrun (lv_update (fun z => z)) st qs = Ok (0, zs) /\ Forall small zs /\ length zs = length qs.
Proof.
  intros Hs B N. destruct qs as [|y ys]; [easy|]. inversion B as [|? ? B1 B2]; subst.
  destruct (level_quiet_run ys B2) as (zs & R & S & L).
  assert (E : lv_update (fun z => z) st y = Ok (0, 26 * y / 256)).
  { unfold lv_update. assert (X : lv_next st y = 0).
    { unfold lv_next, lvst, BUS_HIGH_MV, BUS_LOW_MV in *. destruct Hs as [-> | [-> | ->]]; cbn [Z.eqb Pos.eqb];
        repeat match goal with |- context [?a <=? ?b] => destruct (Z.leb_spec a b); try lia | |- context [?a <? ?b] => destruct (Z.ltb_spec a b); try lia end. }
    rewrite X. cbn [Z.eqb]. rewrite chk32_ok by lia. cbn [bind]. rewrite asr8, (Z.mul_comm y 26). reflexivity. }
  exists (26 * y / 256 :: zs). cbn [mrun]. rewrite E; cbn [bind]. rewrite R; cbn [bind]. split; [reflexivity|]. split; [|cbn; congruence].
  constructor; auto. unfold small. pose proof (Z.div_mod (26 * y) 256 ltac:(lia)). pose proof (Z.mod_pos_bound (26 * y) 256 ltac:(lia)). lia.
Qed.

(** ** The line tracker: idle counter range *)
Lemma trun_range l : forall st, 0 <= snd st <= 176 -> 0 <= snd (fst (trun st l)) <= 176.
Proof.
  induction l as [|[r o] t IH]; intros [b i] H; [exact H|]. cbn [trun]. destruct (tlog (b, i) (r, o)) as [s1 l1] eqn:E.
  assert (0 <= snd s1 <= 176).
  { unfold tlog in E. injection E as <- _. cbn [snd] in *. destruct r, b; cbn [andb negb]; try lia; destruct (Z.ltb_spec 0 i); lia. }
  specialize (IH s1 H0). destruct (trun s1 t) as [s2 l2]. exact IH.
Qed.
Lemma busy_end_app a b : forall x, busy_end x (a ++ b) = busy_end (busy_end x a) b.
Proof. induction a as [|[| |c e] a IH]; intros x; cbn [app busy_end]; auto. Qed.
Lemma trun_busy l : forall st, fst (fst (trun st l)) = busy_end (fst st) (snd (trun st l)).
Proof.
  induction l as [|[r o] t IH]; intros [b i]; [reflexivity|]. cbn [trun]. destruct (tlog (b, i) (r, o)) as [s1 l1] eqn:E.
  specialize (IH s1). destruct (trun s1 t) as [s2 l2]. cbn [fst snd] in *. rewrite busy_end_app, IH. f_equal.
  unfold tlog in E. injection E as <- <-. cbn [fst]. destruct r, b, (0 <? i), o as [[c e]|]; reflexivity.
Qed.

(** ** Recovery *)
Lemma app_inj_length {A} (a : list A) : forall b c d, length a = length b -> a ++ c = b ++ d -> a = b /\ c = d.
Proof.
  induction a as [|x a IH]; intros [|y b] c d L E; cbn in *; try discriminate; auto.
  injection E as -> E. destruct (IH b c d ltac:(lia) E) as (-> & ->). auto.
Qed.
Lemma recovered e0 gs qs pkts ys : bounded 1000000 gs -> bounded 599 qs -> (400 <= length qs)%nat ->
  Z.of_nat (length gs + length qs) < 2000000000 -> heard pkts ys -> Z.of_nat (length ys) < 2000000000 ->
  Forall (fun p => Forall (fun c => Z.of_nat (fst c) < 2000000000 /\ 0 <= snd c < 256) (pk_chars p)) pkts ->
  Forall (fun p => (177 <= pk_gap p)%nat /\ inner_quiet p <= 172) pkts ->
  exists c c1 c2 es1 es2, lchain_new e0 = Ok c /\ mrun lchain_step c (gs ++ qs) = Ok (c1, es1) /\ mrun lchain_step c1 ys = Ok (c2, es2) /\
    ls_busy (lc_ls c1) = false /\ busy_end true (log_of es1) = false /\ log_of es2 = flat_map one_packet pkts.
Proof.
  intros Bg Bq Lq Lt H Ly Hok Hp.
  assert (Hby : Forall (fun p => Forall (fun c => 0 <= snd c < 256) (pk_chars p)) pkts).
  { eapply Forall_impl; [|exact Hok]. cbn beta. intros p Hc. eapply Forall_impl; [|exact Hc]. cbn beta. tauto. }
  destruct (heard_level pkts ys H Hby) as (cs & zs & n & R1 & L & M & N1 & N2 & Bd & K).
  destruct (level_any 1000000 gs ltac:(lia) Bg 0 ltac:(left; reflexivity)) as (st & zg & Rg & Sg & Bzg & Lg).
  destruct (level_settles qs st Sg Bq ltac:(destruct qs; [cbn in Lq; lia|discriminate])) as (zq & Rq & Szq & Lzq).
  set (ZZ := zg ++ zq ++ zs).
  assert (BZ : bounded 130000000 ZZ).
  { unfold ZZ, bounded. apply Forall_app. split; [eapply Forall_impl; [|exact Bzg]; cbn beta; intros; lia|].
    apply Forall_app. split; [eapply Forall_impl; [|exact Szq]; unfold small; cbn beta; intros; lia|eapply Forall_impl; [|exact Bd]; cbn beta; intros; lia]. }
  destruct (det_stream ZZ BZ) as (b & b' & Eb & R2).
  set (e := Z.of_nat (length zg + length zq)).
  assert (AZ : agree (zat ZZ) 0 ZZ).
  { intros i Hi. unfold zat. destruct (Z.ltb_spec (0 + Z.of_nat i) 0); [lia|]. f_equal. lia. }
  apply agree_app in AZ as (_ & AZ). apply agree_app in AZ as (AQ & AS).
  replace (0 + Z.of_nat (length zg) + Z.of_nat (length zq)) with e in AS by (unfold e; lia).
  assert (LZ : Z.of_nat (length ZZ) = e + Z.of_nat (length zs)) by (unfold ZZ, e; rewrite !app_length; lia).
  destruct (K (zat ZZ) e AS) as (K1 & K2 & K3).
  { intros i Hi. rewrite zat_over by lia. unfold small; lia. }
  assert (SQ : forall i, Z.of_nat (length zg) <= i < e -> small (zat ZZ i)).
  { intros i Hi. replace i with (0 + Z.of_nat (length zg) + Z.of_nat (Z.to_nat (i - Z.of_nat (length zg)))) by lia.
    rewrite AQ by (unfold e in Hi; lia). rewrite Forall_forall in Szq. apply Szq, nth_In. unfold e in Hi; lia. }
  assert (L0 : lead (zat ZZ) e).
  { intros i Hi. apply SQ. unfold e in *; lia. }
  destruct (placed_of _ cs e _ K1 L0 K3) as (ds & D1 & D2 & D3 & D4).
  set (D := det (zat ZZ)) in *.
  assert (DQ : forall i, Z.of_nat (length zg) + 16 <= i < e -> D i = 0).
  { intros i Hi. apply (det_quiet 1700 1700 (zat ZZ) i 1); try lia; [intros; apply SQ; lia|left; apply SQ; lia]. }
  (* split the detector stream *)
  set (n0 := (length zg + 16)%nat). set (n2 := (length zq - 16 - 170)%nat). set (N := length zs).
  assert (EN : length ZZ = (n0 + (170 + n2) + N)%nat) by (unfold ZZ, n0, n2, N; rewrite !app_length; lia).
  assert (Ee : e = Z.of_nat (n0 + (170 + n2))) by (unfold e, n0, n2; lia).
  rewrite EN, dseq_app in R2. rewrite Z.add_0_l, <- Ee in R2.
  assert (RL1 : mrun (lv_update (fun z => z)) lv_new (gs ++ qs) = Ok (0, zg ++ zq)).
  { rewrite mrun_app. unfold lv_new. rewrite Rg; cbn [bind]. rewrite Rq. reflexivity. }
  assert (exists b1, mrun bit_update b (zg ++ zq) = Ok (b1, dseq D 0 (n0 + (170 + n2))) /\ mrun bit_update b1 zs = Ok (b', dseq D e N)) as (b1 & RB1 & RB2).
  { assert (EZ : ZZ = (zg ++ zq) ++ zs) by (unfold ZZ; rewrite app_assoc; reflexivity). rewrite EZ, mrun_app in R2.
    destruct (mrun bit_update b (zg ++ zq)) as [[b1 o1]|] eqn:Q1; cbn [bind] in R2; [|discriminate].
    destruct (mrun bit_update b1 zs) as [[b2 o2]|] eqn:Q2; cbn [bind] in R2; [|discriminate]. injection R2 as -> E.
    apply app_inj_length in E as (-> & ->); [eauto|]. rewrite (mrun_length _ _ _ _ _ Q1), dseq_length, app_length. unfold n0, n2. lia. }
  exists (LChain lv_new b (ls_new e0)). unfold lchain_new. rewrite Eb. cbn [bind].
  (* the byte receiver and the tracker on garbage and quiet *)
  destruct (line_of_uart (dseq D 0 (n0 + (170 + n2))) (ls_new e0) (ua_new_safe _)) as (m & Em & HU).
  rewrite !dseq_app in Em. apply map_sym_split in Em as (m1 & m2 & -> & Em1 & Em). apply map_sym_split in Em as (m3 & m4 & -> & Em3 & Em4).
  assert (M1 : length m1 = n0) by (rewrite <- (map_length sym_of), Em1, dseq_length; auto).
  assert (M3 : length m3 = 170%nat) by (rewrite <- (map_length sym_of), Em3, dseq_length; auto).
  assert (M4 : length m4 = n2) by (rewrite <- (map_length sym_of), Em4, dseq_length; auto).
  assert (Q3 : quiet m3) by (apply (quiet_dseq D m3 _ _ Em3); intros; apply DQ; unfold n0, n2, e in *; lia).
  assert (Q4 : quiet m4) by (apply (quiet_dseq D m4 _ _ Em4); intros; apply DQ; unfold n0, n2, e in *; lia).
  destruct (ua_run_inv m1 _ _ ua_inv_new) as (u1 & o1 & U1 & V1 & _).
  destruct (ua_recover m3 u1 _ V1 Q3 ltac:(lia) ltac:(cbn [app]; rewrite map_length; unfold n0 in *; lia)) as (u2 & o2 & k & U2 & I2 & Hk).
  cbn [app] in Hk, V1. rewrite map_length in Hk.
  destruct (ua_run_inv m3 _ _ V1) as (u2' & o2' & U2' & V2 & _). rewrite U2 in U2'. injection U2' as <- <-.
  destruct (idle_run m4 u2 k I2 Q4 ltac:(lia) ltac:(unfold n0, n2 in *; lia)) as (u3 & U3 & I3).
  pose proof (idle_flags m4 u2 k I2 Q4 ltac:(lia) ltac:(unfold n0, n2 in *; lia)) as F4.
  destruct (ua_run_inv m4 _ _ V2) as (u3' & o3' & U3' & V3 & _). rewrite U3 in U3'. injection U3' as <- <-.
  assert (UU : mrun ua_call (ua_new PARITY_EVEN) (m1 ++ m3 ++ m4) = Ok (u3, o1 ++ o2 ++ repeat None (length m4))).
  { rewrite mrun_app, U1; cbn [bind]. rewrite mrun_app, U2; cbn [bind]. rewrite U3. reflexivity. }
  destruct (HU u3 _ UU) as (s1 & es1 & RS1 & Eu & T1). cbn [ls_uart ls_busy ls_idle ls_new] in T1.
  rewrite (rflags_app m1 _ _ _ _ U1), (rflags_app m3 _ _ _ _ U2) in T1.
  rewrite combine_app in T1 by (rewrite (rflags_length _ _ _ _ U1); symmetry; eapply mrun_length; eauto).
  rewrite combine_app in T1 by (rewrite (rflags_length _ _ _ _ U2); symmetry; eapply mrun_length; eauto).
  rewrite F4, combine_repeat, M4 in T1. fold (nones n2) in T1. rewrite app_assoc in T1.
  set (X := combine (rflags (ua_new PARITY_EVEN) m1) o1 ++ combine (rflags u1 m3) o2) in T1.
  assert (S1 : ls_busy s1 = false /\ 0 <= ls_idle s1 <= 176 /\ busy_end true (log_of es1) = false).
  { pose proof (trun_busy (X ++ nones n2) (true, IDLE_SAMPLES)) as TB. rewrite T1 in TB. cbn [fst snd] in TB.
    pose proof (trun_range (X ++ nones n2) (true, IDLE_SAMPLES) ltac:(cbn; unfold IDLE_SAMPLES; lia)) as TR. rewrite T1 in TR. cbn [fst snd] in TR.
    rewrite <- TB. rewrite trun_app in T1. pose proof (trun_range X (true, IDLE_SAMPLES) ltac:(cbn; unfold IDLE_SAMPLES; lia)) as TX.
    destruct (trun (true, IDLE_SAMPLES) X) as [[b2 i2] l2]. cbn [fst snd] in TX. rewrite trun_gap in T1 by (cbn; lia).
    unfold gapw in T1. cbn [fst snd] in T1. destruct b2.
    - destruct (Z.leb_spec (Z.of_nat n2) i2); [unfold n2 in *; lia|]. injection T1 as A B C. rewrite <- A. auto.
    - injection T1 as A B C. rewrite <- A. auto. }
  destruct S1 as (S1 & S2 & S3).
  assert (ls_safe : ua_safe (ls_uart s1)) by (rewrite Eu; eapply ua_inv_safe; eauto).
  destruct (line_of_uart (dseq D e N) s1 ls_safe) as (m5 & Em5 & HU5).
  assert (Hg : gaps_from (k + Z.of_nat (length m4)) ds).
  { rewrite M in D1. unfold gaps_from. apply Forall_forall. intros x Hx. apply (in_map undeco) in Hx. rewrite D1 in Hx.
    apply in_flat_map in Hx as (p & P1 & P2). rewrite Forall_forall in Hok. specialize (Hok p P1). rewrite Forall_forall in Hok.
    specialize (Hok _ P2). unfold undeco in Hok. unfold n0, n2 in *. lia. }
  rewrite Eu in HU5.
  destruct (uart_line_n D ds (k + Z.of_nat (length m4)) e e N m5 u3 _ D3 Hg ltac:(lia) V3 I3 ltac:(lia) Em5) as (u5 & o5 & U5 & Ob).
  { rewrite D4. lia. } { rewrite D4. unfold n0, n2, N in *. lia. }
  destruct (HU5 u5 _ U5) as (s2 & es2 & RS2 & _ & T2). rewrite S1, Ob in T2.
  exists (LChain 0 b1 s1), (LChain 0 b' s2), es1, es2.
  split; [reflexivity|]. split; [eapply lchain_split; cbn [lc_level lc_bit lc_ls]; eauto|].
  split; [eapply lchain_split; cbn [lc_level lc_bit lc_ls]; eauto|]. split; [exact S1|]. split; [exact S3|].
  pose proof (packets_quiet pkts (e + Z.of_nat N) Hp ds e e (false, ls_idle s1) ltac:(rewrite D1, M; reflexivity) D2 ltac:(cbn [snd]; lia) ltac:(lia)
    ltac:(rewrite D4; unfold N; lia)) as PQ.
  rewrite T2 in PQ. exact PQ.
Qed.

Lemma boundedb_ok b l : forallb (fun x => (- b <=? x) && (x <=? b)) l = true -> bounded b l.
Proof.
  intros H. apply Forall_forall. intros x Hx. rewrite forallb_forall in H. specialize (H x Hx). cbv beta in H.
  apply andb_true_iff in H as (A & B). apply Z.leb_le in A, B. lia.
Qed.
