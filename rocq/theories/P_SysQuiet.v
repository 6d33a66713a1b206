(** P_SysQuiet.v -- in real time no time-out is reported for a packet (for C105). *)
From Verif Require Import Base M_ShiftReg M_Dsp M_Uart P_Uart M_Fifo M_Message S_Message D_Message M_Tx D_Tx M_HostUart D_Host S_Host M_Led M_Adc S_Dsp S_Pio M_Core1 S_Core1 D_Core1 P_Core1 P_Core1Chain S_Adc D_Adc P_Adc D_Core1Adc P_Core1Adc
  M_Core0 S_Core0 D_Core0 P_Core0 P_Core0Run P_Core0Rx P_Core0Busy P_Core0Main M_System S_System S_SysTime P_System P_SystemRx S_Front P_FrontAdc P_Front P_SystemLine P_SysTime.

Definition is_free (x : logline) : bool := match x with LFree => true | _ => false end.
Definition frees (l : list logline) : nat := length (filter is_free l).
Lemma frees_app a b : frees (a ++ b) = (frees a + frees b)%nat. Proof. unfold frees. rewrite filter_app, app_length. reflexivity. Qed.
Lemma log_app a b : log_of (a ++ b) = log_of a ++ log_of b. Proof. apply flat_map_app. Qed.
Lemma frees_event e : frees (log_event e) = if ev_free e then 1%nat else 0%nat.
Proof. unfold log_event. rewrite !frees_app. destruct (ev_free e), (ev_busy e), (is_byte e); reflexivity. Qed.
Lemma frees_none c : Forall (fun i => line_free i = false) c -> frees (log_of (S_System.taken c)) = 0%nat.
Proof.
  induction 1 as [|i c H F IH]; [reflexivity|]. unfold S_System.taken. cbn [flat_map]. fold (S_System.taken c). rewrite log_app, frees_app, IH. unfold line_free, event_of in H.
  destruct (in_event i) as [e|]; [|reflexivity]. cbn [log_of flat_map]. rewrite app_nil_r, frees_event, H. reflexivity.
Qed.
Lemma busy_last is : forall t0 t, busy_since t0 is = Some t -> Forall (fun i => line_free i = false) is \/
  exists a j c, is = a ++ j :: c /\ ev_busy (event_of j) = true /\ t = in_now j /\ Forall (fun i => line_free i = false) c.
Proof.
  induction is as [|i is IH] using rev_ind; intros t0 t E; [left; constructor|]. rewrite busy_since_snoc in E. destruct (busy_since t0 is) as [u|] eqn:Eu; cbn [line_step0] in E.
  - destruct (ev_free (event_of i)) eqn:Ef; [discriminate|]. injection E as ->. destruct (IH _ _ Eu) as [A|(a & j & c & -> & A1 & A2 & A3)].
    + left. apply Forall_app. split; [exact A|]. constructor; [exact Ef|constructor].
    + right. exists a, j, (c ++ [i]). split; [rewrite <- app_assoc; reflexivity|]. split; [exact A1|]. split; [exact A2|]. apply Forall_app. split; [exact A3|]. constructor; [exact Ef|constructor].
  - destruct (ev_busy (event_of i)) eqn:Eb; [|discriminate]. injection E as <-. right. exists is, i, []. auto.
Qed.
(** The events taken cannot end in a busy event when they contain all the line-free events of a log that ends in one. *)
Lemma not_last X P e r Y : X = (P ++ [e]) ++ r -> log_of X = Y ++ [LFree] -> frees (log_of X) = frees (log_of (P ++ [e])) -> ev_busy e = true -> False.
Proof.
  intros -> EY Ef Hb. rewrite log_app in EY, Ef. rewrite frees_app in Ef. assert (Fr : frees (log_of r) = 0%nat) by lia.
  assert (Nr : log_of r = []).
  { destruct (log_of r) as [|x t] eqn:Q using rev_ind; [reflexivity|]. rewrite app_assoc in EY. apply app_inj_tail in EY as (_ & ->). rewrite frees_app in Fr. cbn in Fr. lia. }
  rewrite Nr, app_nil_r, log_app in EY. cbn [log_of flat_map] in EY. rewrite app_nil_r in EY. unfold log_event in EY. rewrite Hb in EY.
  assert (exists Z x, (if ev_free e then [LFree] else []) ++ [LBusy] ++ (if is_byte e then [LByte (ev_char e) (ev_error e)] else []) = Z ++ [x] /\ x <> LFree) as (Z & x & EZ & Nx).
  { destruct (is_byte e); [exists ((if ev_free e then [LFree] else []) ++ [LBusy]), (LByte (ev_char e) (ev_error e)); rewrite app_assoc; split; [reflexivity|discriminate]|exists (if ev_free e then [LFree] else []), LBusy; split; [reflexivity|discriminate]]. }
  rewrite EZ, app_assoc in EY. apply app_inj_tail in EY as (_ & ->). congruence.
Qed.
Lemma news_prefix p q (evs : list event) : (p <= q \/ length evs <= q)%nat -> exists r, only_news (firstn q evs) = only_news (firstn p evs) ++ r.
Proof.
  intros H. exists (only_news (skipn p (firstn q evs))). rewrite <- only_news_app. f_equal. rewrite <- (firstn_skipn p (firstn q evs)) at 1. f_equal. rewrite firstn_firstn.
  destruct (Nat.le_gt_cases p q); [f_equal; lia|]. rewrite Nat.min_r by lia. rewrite !firstn_all2 by lia. reflexivity.
Qed.
Lemma frees_le (a b : list event) r : a = b ++ r -> (frees (log_of b) <= frees (log_of a))%nat.
Proof. intros ->. rewrite log_app, frees_app. lia. Qed.
Lemma map_split {A B} (f : A -> B) l : forall a j c, map f l = a ++ j :: c -> exists L1 x L2, l = L1 ++ x :: L2 /\ map f L1 = a /\ f x = j /\ map f L2 = c.
Proof.
  induction l as [|y l IH]; intros a j c E; [destruct a; discriminate|]. destruct a as [|z a]; cbn [map app] in E.
  - injection E as <- <-. exists [], y, l. auto.
  - injection E as <- E. destruct (IH _ _ _ E) as (L1 & x & L2 & -> & <- & <- & <-). exists (y :: L1), x, L2. auto.
Qed.

Lemma quiet_packets b mem e0 la i lb s outs rs evs k0 sa oa sb x per t0 sl w n g D (Ks Ke : nat -> nat) : boot_ok b -> length mem = 256%nat -> Forall (fun x => -255 <= x <= 255) mem ->
  Forall sys_ok (la ++ Y_core0 i :: lb) -> input_ok (text (sys_loop_inputs (la ++ Y_core0 i :: lb))) ->
  sys_run b mem e0 (la ++ Y_core0 i :: lb) = Ok (s, outs) -> keeps_up (la ++ Y_core0 i :: lb) -> Z.of_nat (length (dma_samples (la ++ Y_core0 i :: lb))) < BLOCK ->
  Forall (fun x => ~ overflow_in (snd x)) (loops outs) -> k_ferr (y_link s) = false -> core1_new e0 = Ok k0 ->
  mrun adc_guarded (adc_start mem firmware_gain) (sys_adc (la ++ Y_core0 i :: lb)) = Ok (c1_adc (y_c1 s), rs) -> mrun core1_sample k0 (S_Core1.good rs) = Ok (c1_chain (y_c1 s), evs) ->
  real_time per t0 sl w 0 0 (la ++ Y_core0 i :: lb) -> 0 <= b_now b -> in_time (b_now b) (sys_loop_inputs (la ++ [Y_core0 i])) -> in_now i < (4294967296 - 500) * 1000 ->
  (1 <= g)%nat -> (forall k, (k <= n)%nat -> frees (log_of (firstn (Ks k) evs)) = (g + k)%nat /\ exists Y, log_of (firstn (Ks k) evs) = Y ++ [LFree]) -> (length evs <= Ks n)%nat ->
  (forall k, (k < n)%nat -> (g + k + 1 <= frees (log_of (firstn (Ke k) evs)))%nat /\ (Ke k <= Ks k + D)%nat) ->
  0 <= per -> per * Z.of_nat (D + 255 + 9 * w) + 2 * sl <= 48000000000 ->
  sys_run b mem e0 la = Ok (sa, oa) -> sys_step sa (Y_core0 i) = Ok (sb, Some x) -> (g <= frees (log_of (S_System.taken (map fst (loops oa)))))%nat -> ~ timeout_in (snd x).
Proof.
  intros B Lm Rm F T E K Hs No Hf Ek Er Ee RT H0 Hti Hlim Hg HS Hn HE Hper Hnum Ea Es Hfr Q.
  assert (Ei : sys_run b mem e0 (la ++ [Y_core0 i]) = Ok (sb, oa ++ [Some x])).
  { destruct (start_split _ _ _ _ _ _ Ea) as (k1 & c0 & _ & _ & X3 & X4). unfold sys_run. rewrite X3. cbn [bind]. rewrite sys_app, X4. cbn [bind mrun]. rewrite Es. reflexivity. }
  assert (Fi : Forall sys_ok (la ++ [Y_core0 i])) by (apply Forall_app in F as (F1 & F2); inversion F2; subst; apply Forall_app; split; [exact F1|constructor; [assumption|constructor]]).
  destruct (sys_split b mem e0 _ _ _ Fi Ei) as (k1 & rs1 & evs1 & lo & o0 & _ & _ & _ & A4 & A5 & A6 & A7 & _).
  destruct (duo_core0 b lo _ _ _ A7 A4) as (D1 & D2 & D3 & D4 & _). rewrite A5, loops_app in D1, D2, D3, D4. cbn [loops flat_map app] in D1, D2, D3, D4. rewrite map_app in D1, D2, D3, D4. rewrite map_app in D1. cbn [map] in D1, D2, D4. change (map fst [x]) with [fst x] in D3. rewrite A6 in D3, D4.
  assert (Ti : input_ok (text (map fst (loops oa) ++ [fst x]))).
  { rewrite D4. rewrite sys_loop_app in T. change (sys_loop_inputs (Y_core0 i :: lb)) with ([i] ++ sys_loop_inputs lb) in T. rewrite app_assoc, text_app in T. apply input_ok_prefix in T. rewrite sys_loop_app. exact T. }
  assert (Hx : in_now (fst x) = in_now i) by (cbn [sys_step] in Es; destruct (link_take (y_link sa)) as ((? & ?) & ?); bstep Es; destruct x0; injection Es as _ <-; reflexivity).
  destruct (proj1 (timeout_exact b (map fst (loops oa)) (fst x) (y_c0 sb) (map snd (loops oa)) (snd x) B D2 Ti D1 H0 ltac:(eapply in_time_outside; [exact D3|exact Hti]) ltac:(rewrite Hx; exact Hlim)) Q) as (t & Eb & Lt & _).
  destruct (busy_last _ _ _ Eb) as [Nf|(a & j & c & Ej & Hb & -> & Hc)]; [rewrite (frees_none _ Nf) in Hfr; lia|].
  destruct (map_split fst (loops oa) _ _ _ Ej) as (L1 & xj & L2 & EL & Ml1 & Mx & Ml2).
  destruct (start_split _ _ _ _ _ _ Ea) as (k2 & c0 & _ & _ & X3 & X4).
  destruct (loop_at la _ _ _ _ _ _ X4 EL) as (lj & ij & lj2 & sj & oj & sj2 & oj2 & -> & R1 & R2 & R3 & -> & G1 & G2 & G3).
  assert (Rj : sys_run b mem e0 (lj ++ [Y_core0 ij]) = Ok (sj2, oj ++ [Some xj])) by (unfold sys_run; rewrite X3; cbn [bind]; rewrite sys_app, R1; cbn [bind mrun]; rewrite R2; reflexivity).
  assert (Ls : (lj ++ Y_core0 ij :: lj2) ++ Y_core0 i :: lb = (lj ++ [Y_core0 ij]) ++ lj2 ++ Y_core0 i :: lb) by (rewrite <- !app_assoc; reflexivity).
  assert (PP := on_the_way b mem e0 (lj ++ [Y_core0 ij]) (lj2 ++ Y_core0 i :: lb) s outs rs evs k0 sj2 (oj ++ [Some xj]) B Lm Rm). rewrite <- Ls in PP. destruct (PP F T E K Hs No Hf Ek Er Ee Rj) as (p & Hp & Ep & _). clear PP.
  destruct (in_event j) as [ej|] eqn:Iej; [|unfold event_of in Hb; rewrite Iej in Hb; discriminate]. unfold event_of in Hb. rewrite Iej in Hb.
  rewrite loops_app, G1, map_app, Ml1, taken_app in Ep. cbn [loops flat_map app map] in Ep. rewrite Mx in Ep. unfold S_System.taken at 2 in Ep. cbn [flat_map] in Ep. rewrite Iej in Ep. cbn [app] in Ep.
  assert (Ft : frees (log_of (S_System.taken (map fst (loops (oj ++ Some xj :: oj2))))) = frees (log_of (S_System.taken a ++ [ej]))).
  { rewrite Ej, taken_app, log_app, frees_app. rewrite log_app, frees_app. f_equal. unfold S_System.taken. cbn [flat_map]. fold (S_System.taken c). rewrite Iej, log_app, frees_app, (frees_none c Hc). lia. }
  destruct (on_the_way b mem e0 _ _ s outs rs evs k0 sa _ B Lm Rm F T E K Hs No Hf Ek Er Ee Ea) as (pa & Hpa & Epa & _).
  assert (Hmax : (frees (log_of (S_System.taken (map fst (loops (oj ++ Some xj :: oj2))))) <= g + n)%nat).
  { destruct (HS n (Nat.le_refl n)) as (Hk & _). rewrite <- Hk, <- (log_only_news (firstn (Ks n) evs)). destruct (news_prefix pa (Ks n) evs (or_intror Hn)) as (r & ->). rewrite <- Epa, <- app_assoc. eapply frees_le. reflexivity. }
  set (k := (frees (log_of (S_System.taken (map fst (loops (oj ++ Some xj :: oj2))))) - g)%nat). assert (Hk : (k <= n)%nat) by lia. destruct (HS k Hk) as (HS1 & Y & HS2).
  assert (Dj : length (dma_samples (lj ++ [Y_core0 ij])) = length (dma_samples lj)) by (rewrite dma_app, app_length; cbn; lia). rewrite Dj in Hp.
  assert (Contra : (length (dma_samples lj) <= Ks k \/ length evs <= Ks k)%nat -> False).
  { intros C. assert (C' : (p <= Ks k \/ length evs <= Ks k)%nat) by lia. destruct (news_prefix p (Ks k) evs C') as (r & Er2). rewrite <- Ep, <- app_assoc in Er2.
    apply (not_last (only_news (firstn (Ks k) evs)) (S_System.taken a) ej (k_queue (y_link sj2) ++ r) Y); [exact Er2|rewrite log_only_news; exact HS2| |exact Hb]. rewrite log_only_news, HS1, <- Ft. lia. }
  assert (Kj : (Ks k < length (dma_samples lj))%nat) by (destruct (Nat.le_gt_cases (length (dma_samples lj)) (Ks k)); [destruct Contra; auto|assumption]).
  assert (Kn : (k < n)%nat) by (destruct (Nat.eq_dec k n) as [->|]; [destruct Contra; auto|lia]). destruct (HE k Kn) as (HE1 & HE2).
  assert (Up : (length (dma_samples (lj ++ Y_core0 ij :: lj2)) <= Ke k + 255 + 9 * w)%nat).
  { destruct (Nat.le_gt_cases (length (dma_samples (lj ++ Y_core0 ij :: lj2))) (Ke k + 255 + 9 * w)) as [|Gt]; [assumption|exfalso].
    destruct (latency b mem e0 _ _ s outs rs evs k0 sa _ per t0 sl w B Lm Rm F T E K Hs No Hf Ek Er Ee Ea RT (Ke k) Gt) as (r & Er2). pose proof (frees_le _ _ _ Er2) as X. rewrite log_only_news in X. lia. }
  pose proof (real_time_clock _ _ _ _ _ _ _ _ _ RT ltac:(lia)) as C1. rewrite <- app_assoc in RT. cbn [app] in RT. pose proof (real_time_clock _ _ _ _ _ _ _ _ _ RT ltac:(lia)) as C2.
  rewrite Nat.add_0_l in C1, C2. rewrite <- Mx, G3, Hx in Lt.
  assert (Bd : per * Z.of_nat (length (dma_samples (lj ++ Y_core0 ij :: lj2))) <= per * Z.of_nat (length (dma_samples lj)) + per * Z.of_nat (D + 255 + 9 * w)) by (rewrite <- Z.mul_add_distr_l; apply Z.mul_le_mono_nonneg_l; lia).
  pose proof (Z.div_mod (in_now i) 1000 ltac:(lia)). pose proof (Z.mod_pos_bound (in_now i) 1000 ltac:(lia)). pose proof (Z.div_mod (in_now ij) 1000 ltac:(lia)). pose proof (Z.mod_pos_bound (in_now ij) 1000 ltac:(lia)). lia.
Qed.

(** ** The point at which everything before the packets has been told *)
Lemma free_point (L : list (inp0 * list (Z * act))) : forall g, (1 <= g)%nat -> (g <= frees (log_of (S_System.taken (map fst L))))%nat ->
  exists L1 x L2, L = L1 ++ x :: L2 /\ line_free (fst x) = true /\ frees (log_of (S_System.taken (map fst (L1 ++ [x])))) = g.
Proof.
  induction L as [|x L IH]; intros g Hg H; [cbn in H; lia|]. cbn [map] in H. unfold S_System.taken in H. cbn [flat_map] in H. fold (S_System.taken (map fst L)) in H. rewrite log_app, frees_app in H.
  assert (Fx : frees (log_of match in_event (fst x) with Some e => [e] | None => [] end) = if line_free (fst x) then 1%nat else 0%nat).
  { unfold line_free, event_of. destruct (in_event (fst x)) as [e|]; [cbn [log_of flat_map]; rewrite app_nil_r, frees_event; reflexivity|reflexivity]. }
  assert (Cs : forall M, frees (log_of (S_System.taken (map fst (x :: M)))) = ((if line_free (fst x) then 1 else 0) + frees (log_of (S_System.taken (map fst M))))%nat).
  { intros M. cbn [map]. unfold S_System.taken at 1. cbn [flat_map]. fold (S_System.taken (map fst M)). rewrite log_app, frees_app, Fx. reflexivity. }
  rewrite Fx in H. destruct (line_free (fst x)) eqn:El.
  - destruct (Nat.eq_dec g 1) as [->|Ng]; [exists [], x, L; split; [reflexivity|]; split; [exact El|]; cbn [app]; rewrite Cs; reflexivity|].
    destruct (IH (g - 1)%nat ltac:(lia) ltac:(lia)) as (L1 & y & L2 & -> & A & B). exists (x :: L1), y, L2. split; [reflexivity|]. split; [exact A|]. cbn [app]. rewrite Cs, B. lia.
  - destruct (IH g ltac:(lia) ltac:(lia)) as (L1 & y & L2 & -> & A & B). exists (x :: L1), y, L2. split; [reflexivity|]. split; [exact A|]. cbn [app]. rewrite Cs, B. lia.
Qed.
(** Two beginnings of a log that end in a line-free event and have as many of them are equal. *)
Lemma same_free (a : list logline) : forall a' b b', (a ++ [LFree]) ++ b = (a' ++ [LFree]) ++ b' -> frees a = frees a' -> a = a' /\ b = b'.
Proof.
  induction a as [|x a IH]; intros [|y a'] b b' E Hf; cbn [app] in E.
  - injection E as ->. auto.
  - injection E as <- E. discriminate Hf.
  - injection E as -> E. discriminate Hf.
  - injection E as -> E. assert (Hf' : frees a = frees a') by (change (frees ([y] ++ a) = frees ([y] ++ a')) in Hf; rewrite !frees_app in Hf; lia). destruct (IH _ _ _ E Hf') as (-> & ->). auto.
Qed.
Lemma lg_after0 pkts : Forall (fun p => (length (pk_bytes p) <= 31)%nat) pkts ->
  lg_run (0, []) (flat_map one_packet pkts) = ((0, []), map (fun p => (R_packet, (0, pk_bytes p))) pkts, map (fun p => (0, pk_bytes p)) pkts).
Proof.
  intros F. pose proof (lg_packets pkts F) as X. cbn [lg_run] in X. change (lg_step (0, []) LFree) with ((((0, []) : rxs), @nil (reason * rxs)), @nil rxs) in X. cbv iota beta in X.
  destruct (lg_run (0, []) (flat_map one_packet pkts)) as ((r3 & o3) & c3). cbn [app] in X. exact X.
Qed.

Lemma packets_timed b mem e0 l s outs rs evs k0 per t0 sl w D (Ks Ke : nat -> nat) old pkts : boot_ok b -> length mem = 256%nat -> Forall (fun x => -255 <= x <= 255) mem -> Forall sys_ok l -> input_ok (text (sys_loop_inputs l)) ->
  sys_run b mem e0 l = Ok (s, outs) -> keeps_up l -> Z.of_nat (length (dma_samples l)) < BLOCK ->
  Forall (fun x => ~ overflow_in (snd x)) (loops outs) -> k_queue (y_link s) = [] -> k_ferr (y_link s) = false -> no_news (c1_pend (y_c1 s)) = true -> core1_new e0 = Ok k0 ->
  mrun adc_guarded (adc_start mem firmware_gain) (sys_adc l) = Ok (c1_adc (y_c1 s), rs) -> no_fault rs -> mrun core1_sample k0 (S_Core1.good rs) = Ok (c1_chain (y_c1 s), evs) ->
  real_time per t0 sl w 0 0 l -> 0 <= b_now b -> in_time (b_now b) (sys_loop_inputs l) -> Forall (fun i => in_now i < (4294967296 - 500) * 1000) (sys_loop_inputs l) ->
  log_of evs = (old ++ [LFree]) ++ flat_map one_packet pkts -> Forall (fun p => (length (pk_bytes p) <= 31)%nat) pkts ->
  (forall k, (k <= length pkts)%nat -> log_of (firstn (Ks k) evs) = (old ++ [LFree]) ++ flat_map one_packet (firstn k pkts)) -> (length evs <= Ks (length pkts))%nat ->
  (forall k, (k < length pkts)%nat -> log_of (firstn (Ke k) evs) = (old ++ [LFree]) ++ flat_map one_packet (firstn (k + 1) pkts) /\ (Ke k <= Ks k + D)%nat) ->
  0 <= per -> per * Z.of_nat (D + 255 + 9 * w) + 2 * sl <= 48000000000 ->
  exists o c, map described (rx_reports (concat (map snd (loops outs)))) = o ++ map (fun p => (R_packet, (0, pk_bytes p))) pkts /\
    map content (to_ctrl (concat (map snd (loops outs)))) = c ++ map (fun p => (0, pk_bytes p)) pkts.
Proof.
  intros B Lm Rm F T E K Hs No Hq Hf Hp Ek Er Nf Ee RT H0 Hti Hlim Hlog H31 HS Hn HE Hper Hnum.
  assert (Hfk : forall k, (k <= length pkts)%nat -> frees (flat_map one_packet (firstn k pkts)) = k).
  { clear. intros k Hk. rewrite <- (firstn_length_le pkts Hk) at 2. generalize (firstn k pkts) as q. clear. intros q. induction q as [|p q IH]; [reflexivity|]. cbn [flat_map length]. rewrite frees_app, IH. unfold one_packet. change (LBusy :: ?z) with ([LBusy] ++ z). rewrite !frees_app.
    replace (frees (map (fun b => LByte b false) (pk_bytes p))) with 0%nat; [reflexivity|]. generalize (pk_bytes p) as z. clear. intros z. induction z as [|b z IH]; [reflexivity|exact IH]. }
  set (g := frees (old ++ [LFree])). assert (Hg : (1 <= g)%nat) by (unfold g; rewrite frees_app; cbn; lia).
  destruct (sys_split b mem e0 l s outs F E) as (k1 & rs' & evs' & lo & o0 & A1 & A2 & A3 & A4 & A5 & A6 & A7 & A8). rewrite Er in A2. injection A2 as <-. rewrite Ek in A1. injection A1 as <-. rewrite Ee in A3. injection A3 as <-.
  assert (T' := T). rewrite <- A6 in T'. rewrite <- A5 in *. pose proof (never_lost b lo _ _ _ B A7 T' A4 Hf No) as Hl.
  destruct (duo_core0 b lo _ _ _ A7 A4) as (C1 & C2 & _ & C4 & Q & _). rewrite Hq, app_nil_r, all_taken, all_news_told in Q by exact Hl.
  assert (X : only_news (S_System.told lo ++ [c1_pend (y_c1 s)]) = only_news evs).
  { rewrite A8. cbn [only_news filter]. change (no_news ev_none) with true. cbn [negb]. apply produced_good; [exact Nf|]. eapply mrun_length; eauto. }
  rewrite only_news_app in X. cbn [only_news filter] in X. rewrite Hp in X. cbn [negb] in X. rewrite app_nil_r in X. rewrite X in Q. clear X.
  assert (NL : nothing_lost (map fst (loops o0))).
  { assert (A4' := A4). unfold duo_run in A4'. bstep A4'. unfold duo_start in E0. bstep E0. injection E0 as <-. eapply no_flag; eauto. discriminate. }
  destruct (free_point (loops o0) g Hg) as (L1 & x & L2 & EL & Lf & Fx).
  { rewrite Q, log_only_news, Hlog. fold g. rewrite frees_app. unfold g. lia. }
  assert (Nt : no_timeout (map snd L2)).
  { unfold no_timeout. rewrite Forall_map. apply Forall_forall. intros y Hy. apply in_split in Hy as (M1 & M2 & EM).
    destruct (start_split _ _ _ _ _ _ E) as (k2 & c0 & _ & _ & X3 & X4). rewrite A5 in EL.
    destruct (loop_at l _ _ _ (L1 ++ x :: M1) y M2 X4 ltac:(rewrite EL, EM, <- app_assoc; reflexivity)) as (la & i & lb & sa & oa & sb & ob & -> & R1 & R2 & R3 & EO & G1 & G2 & G3).
    assert (Ra : sys_run b mem e0 la = Ok (sa, oa)) by (unfold sys_run; rewrite X3; exact R1).
    assert (Hii : In i (sys_loop_inputs (la ++ Y_core0 i :: lb))) by (rewrite sys_loop_app; apply in_or_app; right; left; reflexivity). rewrite Forall_forall in Hlim. specialize (Hlim i Hii).
    assert (Ht2 : in_time (b_now b) (sys_loop_inputs (la ++ [Y_core0 i]))).
    { apply (in_time_prefix _ _ (sys_loop_inputs lb)). rewrite <- sys_loop_app, <- app_assoc. exact Hti. }
    rewrite A5 in No. eapply (quiet_packets b mem e0 la i lb s outs rs evs k0 sa oa sb y per t0 sl w (length pkts) g D Ks Ke); try eassumption.
    - intros k Hk. rewrite (HS k Hk). rewrite frees_app, (Hfk k Hk). split; [reflexivity|]. clear. induction (firstn k pkts) as [|p q IH] using rev_ind; [exists old; apply app_nil_r|].
      rewrite flat_map_app. cbn [flat_map]. rewrite app_nil_r. unfold one_packet at 2. rewrite app_assoc. eexists. rewrite app_comm_cons, app_assoc. reflexivity.
    - intros k Hk. destruct (HE k Hk) as (HE1 & HE2). split; [|exact HE2]. rewrite HE1, frees_app, Hfk by lia. fold g. lia.
    - rewrite G1. replace (L1 ++ x :: M1) with ((L1 ++ [x]) ++ M1) by (rewrite <- app_assoc; reflexivity). rewrite map_app, taken_app, log_app, frees_app, Fx. lia. }
  replace (L1 ++ x :: L2) with ((L1 ++ [x]) ++ L2) in EL by (rewrite <- app_assoc; reflexivity). rewrite EL in *. rewrite !map_app in C1. rewrite map_app in C2, NL, Q, C4. rewrite <- C4 in T'.
  destruct (cut_run b (map fst (L1 ++ [x])) (map fst L2) (y_c0 s) (map snd (L1 ++ [x])) (map snd L2) B) as (y & Y1 & _ & Y3).
  { exact C2. } { exact T'. } { rewrite !map_app. exact C1. } { rewrite !map_length. reflexivity. }
  pose proof (seg_start (map fst (L1 ++ [x])) y Y1 ltac:(right; exists (map fst L1), (fst x); rewrite map_app; auto)) as S0.
  destruct (fst (a_run y (map fst (L1 ++ [x])))) as (r & ls) eqn:Er0. cbn [fst] in S0. subst r.
  apply Forall_app in NL as (_ & NL). pose proof (calm_seen _ Nt) as Cs. rewrite Y3 in Cs. destruct (a_run_events (map fst L2) (0, []) ls NL Cs ltac:(cbn; lia)) as (ls' & _ & R1 & R2).
  rewrite <- Y3 in R1, R2. rewrite flat_seen_1 in R1. rewrite flat_seen_2 in R2.
  rewrite map_app, concat_app. unfold rx_reports, to_ctrl. rewrite !flat_map_app. fold (rx_reports (concat (map snd (L1 ++ [x])))) (rx_reports (concat (map snd L2))) (to_ctrl (concat (map snd (L1 ++ [x])))) (to_ctrl (concat (map snd L2))).
  rewrite !map_app, R1, R2.
  assert (Lg : lg_run (0, []) (log_of (S_System.taken (map fst L2))) = ((0, []), map (fun p => (R_packet, (0, pk_bytes p))) pkts, map (fun p => (0, pk_bytes p)) pkts)).
  { rewrite <- (lg_after0 pkts H31). rewrite taken_app in Q. assert (QL := f_equal log_of Q). rewrite log_app, log_only_news, Hlog in QL. rewrite map_app, taken_app, log_app in QL. rewrite map_app, taken_app, log_app, frees_app in Fx.
    cbn [map] in QL, Fx. unfold S_System.taken at 2 in QL. unfold S_System.taken at 2 in Fx. cbn [flat_map] in QL, Fx. unfold line_free, event_of in Lf. destruct (in_event (fst x)) as [ex|] eqn:Iex; [|discriminate]. cbn [app log_of flat_map] in QL, Fx. rewrite app_nil_r in QL, Fx.
    rewrite frees_event, Lf in Fx. unfold log_event in QL. rewrite Lf in QL. rewrite app_assoc in QL. rewrite <- (app_assoc (_ ++ [LFree])) in QL. apply same_free in QL as (_ & QB); [|unfold g in Fx; rewrite frees_app in Fx; cbn in Fx; lia].
    rewrite <- QB. assert (Pl : is_byte ex = false).
    { assert (Hb : bounded 12000 (S_Core1.good rs)) by (eapply adc_bounded; [|apply sys_adc_ok; exact F|exact Er]; unfold ring255; cbn; auto). pose proof (core1_plain e0 k0 _ _ _ Ek Hb Ee) as P. rewrite Forall_forall in P.
      assert (I : In ex (only_news evs)) by (rewrite <- Q, map_app, taken_app; apply in_or_app; left; apply in_or_app; right; unfold S_System.taken; cbn [map flat_map]; rewrite Iex; left; reflexivity).
      unfold only_news in I. apply filter_In in I as (I & _). destruct (P _ I) as (_ & P2 & _). auto. }
    rewrite Pl. destruct (ev_busy ex); [|reflexivity]. cbn [app lg_run lg_step]. destruct (lg_run (0, []) (log_of (S_System.taken (map fst L2)))) as ((? & ?) & ?). reflexivity. }
  rewrite lg_events, Lg; [cbn [fst snd]; eauto|cbn; lia|].
  assert (Hb : bounded 12000 (S_Core1.good rs)) by (eapply adc_bounded; [|apply sys_adc_ok; exact F|exact Er]; unfold ring255; cbn; auto). pose proof (core1_plain e0 k0 _ _ _ Ek Hb Ee) as P. rewrite Forall_forall in P.
  apply Forall_forall. intros e Hin. apply P. assert (I : In e (only_news evs)) by (rewrite <- Q, taken_app; apply in_or_app; right; exact Hin). unfold only_news in I. apply filter_In in I. apply I.
Qed.
