(** P_SystemLine.v -- the complete firmware from the analogue line to the host (C95). *)
From Verif Require Import Base M_ShiftReg M_Dsp M_Uart P_Uart M_Fifo M_Message S_Message D_Message M_Tx D_Tx M_HostUart D_Host S_Host M_Led M_Adc S_Dsp S_Pio M_Core1 S_Core1 D_Core1 P_Core1 P_Core1Chain S_Adc D_Adc P_Adc D_Core1Adc P_Core1Adc
  M_Core0 S_Core0 D_Core0 P_Core0 P_Core0Run P_Core0Rx P_Core0Busy P_Core0Main M_System S_System P_System P_SystemRx S_Front P_FrontAdc P_Front.

(** ** The ADC hands out every sample *)
Definition unflagged (r : option (option (Z * bool))) : Prop := match r with Some (Some (_, true)) => False | _ => True end.
Lemma guarded_plain l : forall a a' rs, mrun adc_event a l = Ok (a', rs) -> Forall unflagged rs -> mrun adc_guarded a l = Ok (a', rs).
Proof.
  induction l as [|e l IH]; intros a a' rs E F; cbn [mrun] in *; [exact E|]. bstep E. destruct x as (a1 & r). bstep E. destruct x as (a2 & rs2). injection E as -> <-. inversion F; subst.
  unfold adc_guarded at 1. rewrite E0. cbn [bind]. assert (X : match r with Some (Some (_, true)) => adc_reset a1 | _ => a1 end = a1) by (destruct r as [[(? & [|])|]|]; cbn in *; tauto).
  rewrite X, (IH _ _ _ E1) by assumption. reflexivity.
Qed.
Definition in_reach (x : option expect) : Prop := match x with Some (Data _ p) => p <= 254 | _ => True end.
Lemma flags_clear l : forall v, Z.of_nat (samples l) < left v -> Forall in_reach (snd (spec_run v l)) -> Forall (fun f => f <> Some true) (flags v false l).
Proof.
  induction l as [|e l IH]; intros v H F; cbn [flags]; [constructor|]. cbn [spec_run] in F. destruct e as [x|c]; unfold samples in *; cbn [filter length] in H; cbn [spec_step] in F |- *.
  - destruct (Z.eqb_spec (left v) 0); [lia|]. cbn [fst]. specialize (IH (View (transferred v ++ [x]) (next v) (left v - 1)) ltac:(cbn [left]; lia)). destruct (spec_run _ l). inversion F; subst. constructor; [discriminate|auto].
  - destruct (Z.eqb_spec (left v) 0); [lia|]. destruct (next v =? count v); cbn [fst snd].
    + specialize (IH v H). destruct (spec_run v l). inversion F; subst. constructor; [discriminate|auto].
    + specialize (IH (View (transferred v) (next v + 1) (left v)) H). destruct (spec_run _ l). inversion F as [|? ? F1 F2]; subst. cbn in F1. constructor; [|auto].
      destruct (Z.leb_spec 256 (count v - next v)); [lia|discriminate].
Qed.
Lemma seq_split a n m : seq a (n + m) = seq a n ++ seq (a + n) m. Proof. apply seq_app. Qed.
Lemma good_values gain mem T l : forall v v' xs outs, spec_run v l = (v', xs) -> 0 <= next v <= count v -> Z.of_nat (samples l) < left v ->
  Forall2 (poll_ok gain mem T) xs outs -> Forall in_reach xs -> Forall unflagged outs ->
  next v <= next v' /\ S_Core1.good outs = map (fun i => value_at gain mem T (Z.of_nat i)) (seq (Z.to_nat (next v)) (Z.to_nat (next v' - next v))).
Proof.
  induction l as [|e t IH]; intros v v' xs outs E Hn Hl F R U; cbn [spec_run] in E.
  - inversion E; subst. inversion F; subst. rewrite Z.sub_diag. cbn. split; [lia|reflexivity].
  - destruct (spec_step v e) as [v1 o] eqn:E1. destruct (spec_run v1 t) as [v2 os] eqn:E2. inversion E; subst.
    inversion F as [|? r ? rs Fo Fr]; subst. inversion R as [|? ? R1 R2]; subst. inversion U as [|? ? U1 U2]; subst.
    destruct e as [x|c]; cbn [spec_step] in E1; unfold samples in *; cbn [filter length] in *.
    + destruct (Z.eqb_spec (left v) 0); [lia|]. inversion E1; subst.
      destruct (IH _ _ _ _ E2 ltac:(unfold count in *; cbn [transferred next] in *; rewrite app_length; cbn [length]; lia) ltac:(cbn [left]; lia) Fr R2 U2) as (H1 & H2).
      cbn [next] in *. destruct r as [[|]|]; cbn in Fo; try contradiction. split; [exact H1|exact H2].
    + destruct (Z.eqb_spec (left v) 0); [lia|]. destruct (Z.eqb_spec (next v) (count v)); inversion E1; subst.
      * destruct (IH _ _ _ _ E2 ltac:(lia) ltac:(lia) Fr R2 U2) as (H1 & H2). destruct r as [[|]|]; cbn in Fo; try contradiction. split; [exact H1|exact H2].
      * destruct (IH _ _ _ _ E2 ltac:(unfold count in *; cbn [transferred next] in *; lia) ltac:(cbn [left]; lia) Fr R2 U2) as (H1 & H2). cbn [next] in *.
        destruct r as [[(z & [|])|]|]; cbn in Fo, U1; try contradiction. split; [lia|]. cbn [S_Core1.good flat_map app]. fold (S_Core1.good rs). rewrite H2.
        replace (Z.to_nat (next v' - next v)) with (S (Z.to_nat (next v' - (next v + 1)))) by lia. cbn [seq map]. rewrite Z2Nat.id by lia. cbn in R1. f_equal; [apply Fo; lia|].
        replace (Z.to_nat (next v + 1)) with (S (Z.to_nat (next v))) by lia. reflexivity.
Qed.
Lemma last_nothing l : forall v, Z.of_nat (samples l) < left v -> last (snd (spec_run v l)) None = Some Nothing -> next (fst (spec_run v l)) = count (fst (spec_run v l)).
Proof.
  induction l as [|e t IH]; intros v H E; cbn [spec_run] in *; [discriminate|]. destruct t as [|e2 t].
  - destruct e as [x|c]; cbn [spec_run spec_step samples filter length] in *; [destruct (left v =? 0); discriminate|]. destruct (Z.eqb_spec (left v) 0); [lia|]. destruct (Z.eqb_spec (next v) (count v)) as [Q|Q]; [exact Q|discriminate].
  - destruct (spec_step v e) as [v1 o] eqn:E1. specialize (IH v1). assert (L : Z.of_nat (samples (e2 :: t)) < left v1).
    { unfold samples in *. destruct e as [x|c]; cbn [spec_step filter length] in *; destruct (Z.eqb_spec (left v) 0); try lia; [injection E1 as <- _; cbn [left]; lia|]. destruct (next v =? count v); injection E1 as <- _; exact H. }
    specialize (IH L). destruct (spec_run v1 (e2 :: t)) as [v2 os] eqn:E2. cbn [fst snd] in *. apply IH. cbn [last] in E. destruct os; [|exact E].
    cbn [spec_run] in E2. destruct (spec_step v1 e2). destruct (spec_run v0 t). discriminate.
Qed.
Lemma dma_sampled l : sampled (sys_adc l) = dma_samples l.
Proof. induction l as [|x l IH]; [reflexivity|]. destruct x; cbn; fold (sys_adc l); fold (sampled (sys_adc l)); fold (dma_samples l); try rewrite IH; auto. Qed.
Lemma samples_length l : samples l = length (sampled l).
Proof. unfold samples. induction l as [|[x|c] l IH]; cbn; auto. Qed.
Lemma adc_keeps mem gain l : length mem = 256%nat /\ Forall sample_range mem -> 0 <= gain <= 65535 -> Forall ev_range l -> Z.of_nat (samples l) < BLOCK ->
  Forall in_reach (snd (spec_run view0 l)) -> last (snd (spec_run view0 l)) None = Some Nothing ->
  exists a rs, mrun adc_guarded (adc_start mem gain) l = Ok (a, rs) /\ Forall unflagged rs /\ S_Core1.good rs = values gain mem (sampled l) /\ last rs None = Some None.
Proof.
  intros Hm Hg He Hs Hr Hl. destruct (adc_history mem gain l Hm Hg He) as (a & rs & R & F & _). destruct (adc_flags_start mem gain l Hm Hg He) as (a' & rs' & R' & Fl). rewrite R in R'. injection R' as <- <-.
  assert (U : Forall unflagged rs).
  { pose proof (flags_clear l view0 Hs Hr) as C. rewrite <- Fl in C. apply Forall_forall. intros r Hin. rewrite Forall_forall in C. specialize (C _ (in_map _ _ _ Hin)). destruct r as [[(z & [|])|]|]; cbn in *; auto. }
  exists a, rs. split; [apply guarded_plain; auto|]. split; [exact U|]. pose proof (last_nothing l view0 Hs Hl) as Hc. pose proof (sampled_transferred l view0 Hs) as Ht.
  destruct (spec_run view0 l) as [v' xs] eqn:E. cbn [fst snd transferred view0 app] in *. split.
  - destruct (good_values gain mem (transferred v') l view0 v' xs rs E ltac:(cbn; lia) Hs F Hr U) as (_ & ->). rewrite Ht. unfold values. cbn [next view0]. rewrite Hc. unfold count. rewrite Ht, Z.sub_0_r, Nat2Z.id. reflexivity.
  - clear - F Hl. induction F as [|x r xs rs H F IH]; [discriminate|]. destruct F as [|x2 r2 xs rs H2 F].
    + cbn [last] in *. subst x. destruct r as [[|]|]; cbn in H; tauto.
    + apply IH. exact Hl.
Qed.

(** ** The log up to a line-free event leaves nothing behind *)
Lemma lg_free r : (length (snd r) < 32)%nat -> fst (fst (lg_run r [LFree])) = (0, []).
Proof.
  intros H. cbn [lg_run lg_step]. unfold e_step. cbn [status_after byte_of ev_dadc ev_error ev_valid ev_free negb andb orb]. rewrite app_nil_r. cbn [fst snd].
  destruct r as (st & d). cbn [fst snd] in *. destruct ((0 <? length d)%nat || negb (st =? 0)) eqn:Q; cbn [flush_if].
  - change (length (snd (0, @nil Z)) =? 32)%nat with false. reflexivity.
  - apply orb_false_iff in Q as (Q1 & Q2). apply negb_false_iff, Z.eqb_eq in Q2. apply Nat.ltb_ge in Q1. destruct d; [|cbn in Q1; lia]. subst. reflexivity.
Qed.
Lemma lg_short l : forall r, (length (snd r) < 32)%nat -> (length (snd (fst (fst (lg_run r l)))) < 32)%nat.
Proof.
  induction l as [|x l IH]; intros r H; [exact H|]. cbn [lg_run]. assert (S1 : (length (snd (fst (fst (lg_step r x)))) < 32)%nat).
  { destruct x; cbn [lg_step]; [apply e_step_short; exact H|exact H|apply e_step_short; exact H]. }
  destruct (lg_step r x) as ((r1 & o) & c). specialize (IH r1 S1). destruct (lg_run r1 l) as ((r2 & o2) & c2). exact IH.
Qed.
Lemma lg_after old pkts : Forall (fun p => (length (pk_bytes p) <= 31)%nat) pkts -> exists o c, lg_run (0, []) ((old ++ [LFree]) ++ flat_map one_packet pkts) =
  ((0, []), o ++ map (fun p => (R_packet, (0, pk_bytes p))) pkts, c ++ map (fun p => (0, pk_bytes p)) pkts).
Proof.
  intros F. pose proof (lg_packets pkts F) as X. cbn [lg_run] in X. change (lg_step (0, []) LFree) with ((((0, []) : rxs), @nil (reason * rxs)), @nil rxs) in X. cbv iota beta in X.
  rewrite !lg_run_app. pose proof (lg_short old (0, []) ltac:(cbn; lia)) as L. destruct (lg_run (0, []) old) as ((r & o) & c). cbn [fst snd] in L. pose proof (lg_free r L) as Fr.
  destruct (lg_run r [LFree]) as ((r2 & o2) & c2). cbn [fst] in Fr. subst r2. destruct (lg_run (0, []) (flat_map one_packet pkts)) as ((r3 & o3) & c3). cbn [app] in X. injection X as -> -> ->. eauto.
Qed.
Lemma packets_to_host_after b mem e0 l s outs rs : boot_ok b -> length mem = 256%nat -> Forall (fun x => -255 <= x <= 255) mem -> Forall sys_ok l -> input_ok (text (sys_loop_inputs l)) -> sys_run b mem e0 l = Ok (s, outs) ->
  mrun adc_guarded (adc_start mem firmware_gain) (sys_adc l) = Ok (c1_adc (y_c1 s), rs) ->
  no_fault rs -> Forall (fun x => ~ overflow_in (snd x)) (loops outs) -> no_timeout (map snd (loops outs)) ->
  k_queue (y_link s) = [] -> k_ferr (y_link s) = false -> no_news (c1_pend (y_c1 s)) = true ->
  exists k0 evs, core1_new e0 = Ok k0 /\ mrun core1_sample k0 (S_Core1.good rs) = Ok (c1_chain (y_c1 s), evs) /\
    forall old pkts, log_of evs = (old ++ [LFree]) ++ flat_map one_packet pkts -> Forall (fun p => (length (pk_bytes p) <= 31)%nat) pkts ->
    exists o c, map described (rx_reports (concat (map snd (loops outs)))) = o ++ map (fun p => (R_packet, (0, pk_bytes p))) pkts /\
      map content (to_ctrl (concat (map snd (loops outs)))) = c ++ map (fun p => (0, pk_bytes p)) pkts.
Proof.
  intros B Lm Rm F T E Ea Nf No Nt Hq Hf Hp. destruct (sys_split b mem e0 l s outs F E) as (k0 & rs' & evs & lo & o0 & A1 & A2 & A3 & A4 & A5 & A6 & A7 & A8).
  rewrite Ea in A2. injection A2 as <-. exists k0, evs. split; [exact A1|]. split; [exact A3|]. intros old pkts Hs Fs.
  assert (Hb : bounded 12000 (S_Core1.good rs)) by (eapply adc_bounded; [|apply sys_adc_ok; exact F|exact Ea]; unfold ring255; cbn; auto).
  rewrite <- A6 in T. rewrite <- A5 in *. pose proof (never_lost b lo _ _ _ B A7 T A4 Hf No) as Hl.
  destruct (duo_core0 b lo _ _ _ A7 A4) as (_ & _ & _ & _ & Q & _). rewrite Hq, app_nil_r, all_taken, all_news_told in Q by exact Hl.
  assert (X : only_news (told lo ++ [c1_pend (y_c1 s)]) = only_news evs).
  { rewrite A8. cbn [only_news filter]. change (no_news ev_none) with true. cbn [negb]. apply produced_good; [exact Nf|]. eapply mrun_length; eauto. }
  rewrite only_news_app in X. cbn [only_news filter] in X. rewrite Hp in X. cbn [negb] in X. rewrite app_nil_r in X. rewrite X in Q.
  destruct (received_run b lo _ _ _ B A7 T A4 Hl Nt) as (R1 & R2). rewrite R1, R2, Q, lg_events; [|cbn; lia|].
  - rewrite log_only_news, Hs. destruct (lg_after old pkts Fs) as (o & c & ->). cbn [fst snd]. eauto.
  - apply Forall_forall. intros e Hin. unfold only_news in Hin. apply filter_In in Hin as (Hin & _). pose proof (core1_plain e0 k0 _ _ _ A1 Hb A3) as P. rewrite Forall_forall in P. auto.
Qed.
Lemma produced_last rs : forall evs, length evs = length (S_Core1.good rs) -> last rs None = Some None -> last (produced rs evs) ev_none = ev_none.
Proof.
  induction rs as [|r rs IH]; intros evs L H; [discriminate|]. destruct rs as [|r2 rs].
  - cbn [last] in H. subst r. reflexivity.
  - assert (H' : last (r2 :: rs) None = Some None) by exact H. assert (K : forall e l, last l ev_none = ev_none -> last (e :: l) ev_none = ev_none \/ l = []) by (intros e l; destruct l; auto).
    assert (NN : forall evs, length evs = length (S_Core1.good (r2 :: rs)) -> produced (r2 :: rs) evs <> []).
    { clear - H'. revert r2 H'. induction rs as [|r3 rs IH]; intros r2 H' evs L X.
      - cbn [last] in H'. subst. discriminate.
      - destruct r2 as [[(v & [|])|]|]; cbn [produced] in X; try discriminate; [destruct evs; [cbn in L; discriminate|discriminate]|]. eapply IH; [exact H'| |exact X]. exact L. }
    destruct r as [[(v & [|])|]|]; cbn [produced S_Core1.good flat_map app length] in L |- *.
    + destruct (K adc_fault _ (IH evs L H')) as [Q|Q]; [exact Q|destruct (NN evs L Q)].
    + destruct evs as [|e evs]; [discriminate|]. injection L as L. destruct (K e _ (IH evs L H')) as [Q|Q]; [exact Q|destruct (NN evs L Q)].
    + destruct (K ev_none _ (IH evs L H')) as [Q|Q]; [exact Q|destruct (NN evs L Q)].
    + apply (IH evs L H').
Qed.

(** ** The complete firmware *)
Lemma sys_ev_range l : Forall sys_ok l -> Forall ev_range (sys_adc l).
Proof. induction 1 as [|x l H F IH]; [constructor|]. destruct x; cbn [sys_adc flat_map app]; auto; constructor; auto; cbn in *; unfold sample_range; auto; lia. Qed.
Lemma range_wider l : Forall (fun x => -255 <= x <= 255) l -> Forall sample_range l.
Proof. apply Forall_impl. unfold sample_range. intros. lia. Qed.
Lemma dma_ok l : Forall sys_ok l -> Forall (fun x => -255 <= x <= 255) (dma_samples l).
Proof. induction 1 as [|x l H F IH]; [constructor|]. destruct x; cbn [dma_samples flat_map app]; auto. Qed.
Lemma line_to_host b mem e0 l s outs garb q n V bursts tail raw : boot_ok b -> length mem = 256%nat -> Forall (fun x => -255 <= x <= 255) mem -> Forall sys_ok l -> input_ok (text (sys_loop_inputs l)) ->
  sys_run b mem e0 l = Ok (s, outs) -> keeps_up l -> Z.of_nat (length (dma_samples l)) < BLOCK ->
  Forall (fun x => ~ overflow_in (snd x)) (loops outs) -> no_timeout (map snd (loops outs)) -> k_queue (y_link s) = [] -> k_ferr (y_link s) = false ->
  dma_samples l = garb ++ raw -> 0 <= n <= 410 -> (5000 <= q)%nat -> (410 <= tail)%nat -> Forall (burst_ok n) bursts -> Forall (fun u => (length (pk_bytes (bu_packet u)) <= 31)%nat) bursts ->
  digitised n V (repeat 0 q ++ voltage bursts tail) raw ->
  exists o c, map described (rx_reports (concat (map snd (loops outs)))) = o ++ map (fun u => (R_packet, (0, pk_bytes (bu_packet u)))) bursts /\
    map content (to_ctrl (concat (map snd (loops outs)))) = c ++ map (fun u => (0, pk_bytes (bu_packet u))) bursts.
Proof.
  intros B Lm Rm F T E (K1 & K2) Hs No Nt Hq Hf ET Hn H5 Ht Hb H31 HD.
  destruct (adc_keeps mem firmware_gain (sys_adc l) (conj Lm (range_wider _ Rm)) ltac:(vm_compute; split; discriminate) (sys_ev_range l F) ltac:(rewrite samples_length, dma_sampled; exact Hs) K1 K2) as (a & rs & Ra & U & Gv & La).
  rewrite dma_sampled, ET in Gv.
  assert (F2 := F). pose proof (dma_ok l F2) as HT. rewrite ET in HT, Hs.
  destruct (sys_split b mem e0 l s outs F E) as (k1 & rs' & evs' & lo & o0 & A1 & A2 & A3 & _ & _ & _ & _ & A8). rewrite Ra in A2. injection A2 as -> <-.
  assert (P : no_news (c1_pend (y_c1 s)) = true).
  { pose proof (produced_last rs evs' (mrun_length _ _ _ _ _ A3) La) as X. assert (Y : last (ev_none :: produced rs evs') ev_none = ev_none) by (destruct (produced rs evs'); [reflexivity|exact X]). rewrite <- A8, last_last in Y. rewrite Y. reflexivity. }
  destruct (packets_to_host_after b mem e0 l s outs rs B Lm Rm F T E Ra U No Nt Hq Hf P) as (k0 & evs & C1 & C2 & C3).
  destruct (front_free e0 mem garb q n V bursts tail raw Rm HT Hn H5 Ht Hb HD ltac:(unfold BLOCK in Hs; lia)) as (s0 & s1 & s2 & es1 & es2 & old & D1 & D2 & D3 & D4 & D5).
  rewrite C1 in D1. injection D1 as <-. rewrite Gv, <- (firstn_skipn (length garb + q) (values firmware_gain mem (garb ++ raw))), mrun_app, D2 in C2. cbn [bind] in C2. rewrite D3 in C2. cbn [bind] in C2. injection C2 as _ <-.
  destruct (C3 old (map bu_packet bursts)) as (o & c & X1 & X2).
  - unfold log_of. rewrite flat_map_app. fold (log_of es1) (log_of es2). rewrite D4, D5. reflexivity.
  - rewrite Forall_map. exact H31.
  - rewrite map_map in X1, X2. eauto.
Qed.

(** ** A core 0 that keeps up *)
Lemma served_run l : forall n s s' outs, mrun sys_step s l = Ok (s', outs) -> served n l -> (length (k_queue (y_link s)) <= n)%nat -> k_ferr (y_link s) = false -> k_tested (y_link s) <> Some true ->
  k_queue (y_link s') = [] /\ k_ferr (y_link s') = false /\ Forall (fun x => in_fifoerr (fst x) = false) (loops outs).
Proof.
  induction l as [|x l IH]; intros n s s' outs E H L Hf Ht; cbn [mrun] in E.
  { injection E as <- <-. cbn in H. subst n. destruct (k_queue (y_link s)); [|cbn in L; lia]. split; [reflexivity|]. split; [exact Hf|constructor]. }
  bstep E. destruct x0 as (s1 & o1). bstep E. destruct x0 as (s2 & os). injection E as -> <-. destruct x as [v|ch| |i]; cbn [sys_step served] in E0, H.
  - bstep E0. destruct x. injection E0 as <- <-. change (loops (None :: os)) with (loops os). apply (IH n _ _ _ E1 H L Hf Ht).
  - destruct H as (H8 & H). bstep E0. destruct x as (c1 & o). injection E0 as <- <-. cbn [c1_step] in E. bstep E. destruct x as (a1 & r). destruct (match r with None => _ | Some _ => _ end) as (a2 & er). bstep E. destruct x as (((k & pend) & pushed) & fe). injection E as <- <-.
    assert (X : fe = false).
    { unfold core1_iter in E2. assert (R : link_room (y_link s) = true) by (apply Nat.ltb_lt; unfold FIFO_DEPTH; lia). rewrite R in E2.
      destruct (ev_nonzero _); destruct r; try (injection E2 as _ _ _ <-; reflexivity); destruct er; try (injection E2 as _ _ _ <-; reflexivity); bstep E2; destruct x; injection E2 as _ _ _ <-; reflexivity. }
    subst fe. change (loops (None :: os)) with (loops os). eapply (IH (S n)); [exact E1|exact H|..]; cbn [y_link k_queue k_ferr k_tested]; auto. rewrite app_length. destruct pushed; cbn [length]; lia.
  - injection E0 as <- <-. change (loops (None :: os)) with (loops os). eapply (IH n); [exact E1|exact H|..]; cbn [y_link link_test k_queue k_ferr k_tested]; auto. rewrite Hf. discriminate.
  - cbn [link_take] in E0. assert (Sn : match k_tested (y_link s) with Some b => b | None => k_ferr (y_link s) end = false) by (destruct (k_tested (y_link s)) as [[|]|]; congruence).
    unfold link_take in E0. rewrite Sn in E0. bstep E0. destruct x as (c' & log). injection E0 as <- <-.
    destruct (IH (pred n) _ _ _ E1 H) as (A1 & A2 & A3); cbn [y_link k_queue k_ferr k_tested]; auto; [destruct (k_queue (y_link s)); cbn [tl length] in *; lia|discriminate|].
    split; [exact A1|]. split; [exact A2|]. cbn [loops flat_map app]. constructor; [reflexivity|exact A3].
Qed.
Lemma served_quiet b mem e0 l s outs : boot_ok b -> Forall sys_ok l -> input_ok (text (sys_loop_inputs l)) -> sys_run b mem e0 l = Ok (s, outs) -> served 0 l ->
  Forall (fun x => ~ overflow_in (snd x)) (loops outs) /\ k_queue (y_link s) = [] /\ k_ferr (y_link s) = false.
Proof.
  intros B F T E H. destruct (sys_split b mem e0 l s outs F E) as (k1 & rs & evs & lo & o0 & _ & _ & _ & A4 & A5 & A6 & A7 & _). rewrite <- A6 in T.
  unfold sys_run, sys_start in E. bstep E. bstep E0. bstep E0. injection E0 as <-. destruct (served_run l 0 _ _ _ E H) as (X1 & X2 & X3); cbn [y_link link_new k_queue k_ferr k_tested length]; auto; [discriminate|].
  pose proof (duo_overflow b lo _ _ _ B A7 T A4) as Ov. rewrite A5 in Ov. split; [|auto]. rewrite Forall_forall in *. intros x Hx Q. apply (Ov x Hx) in Q. rewrite (X3 x Hx) in Q. discriminate.
Qed.

(** ** In the first half second after the start no time-out is reported *)
Lemma since_later t1 l : forall t0 b, t1 <= t0 -> in_time t0 l -> (forall t, b = Some t -> t1 <= t) -> forall t, fold_left line_step0 l b = Some t -> t1 <= t.
Proof.
  induction l as [|i l IH]; intros t0 b H T Hb t E; cbn [fold_left] in E; [auto|]. destruct T as (T1 & T2). eapply (IH (in_now i)); [lia|exact T2| |exact E].
  intros u Eu. unfold line_step0 in Eu. destruct b as [v|]; [destruct (ev_free _); [discriminate|]; injection Eu as <-; auto|]. destruct (ev_busy _); [injection Eu as <-; lia|discriminate].
Qed.
Lemma in_time_prefix a : forall t b, in_time t (a ++ b) -> in_time t a.
Proof. induction a as [|i a IH]; intros t b H; cbn in *; [auto|]. destruct H. eauto. Qed.
Lemma early_calm b l : forall s o, boot_ok b -> Forall in_ok l -> input_ok (text l) -> core0_run b l = Ok (s, o) -> 0 <= b_now b -> b_now b < 4000000000000 -> in_time (b_now b) l ->
  Forall (fun i => in_now i <= b_now b + 500000) l -> no_timeout o.
Proof.
  induction l as [|i l IH] using rev_ind; intros s o B F T E H0 Hs Ht He.
  - unfold core0_run in E. bstep E. cbn [mrun] in E. injection E as _ <-. constructor.
  - assert (E' := E). unfold core0_run in E'. bstep E'. rewrite mrun_app in E'. bstep E'. destruct x0 as (s1 & o1). cbn [mrun] in E'. bstep E'. destruct x0 as (s2 & o2). bstep E2. destruct x0 as (s3 & lg). cbn [bind] in E2. injection E2 as -> <-. injection E' as -> <-.
    apply Forall_app in He as (He & Hi). inversion Hi as [|? ? Hi1 _]; subst. apply Forall_app. split.
    + apply (IH s1); auto; [apply Forall_app in F; apply F|rewrite text_app in T; apply input_ok_prefix in T; exact T|unfold core0_run; rewrite E0; exact E1|apply in_time_prefix in Ht; exact Ht].
    + constructor; [|constructor]. intros Q. apply (timeout_exact b l i s o1 lg B F T E H0 Ht) in Q as (t & Eb & Lt & _); [|lia].
      pose proof (since_later (b_now b) l (b_now b) (Some (b_now b)) ltac:(lia) ltac:(eapply in_time_prefix; exact Ht) ltac:(intros ? X; injection X as <-; lia) t Eb) as L.
      pose proof (Z.div_le_mono _ _ 1000 ltac:(lia) L). pose proof (Z.div_le_mono _ _ 1000 ltac:(lia) Hi1). replace (b_now b + 500000) with (b_now b + 500 * 1000) in H1 by lia. rewrite Z.div_add in H1 by lia. lia.
Qed.
Lemma in_time_outside l : forall l' t, map outside l = map outside l' -> in_time t l' -> in_time t l.
Proof.
  induction l as [|i l IH]; intros [|i' l'] t E H; try discriminate; [auto|]. cbn [map] in E. injection E as E1 E2 E3 E4 E5 E6 E7. cbn [in_time] in *. rewrite E1. destruct H. split; eauto.
Qed.
Lemma sys_early b mem e0 l s outs : boot_ok b -> Forall sys_ok l -> input_ok (text (sys_loop_inputs l)) -> sys_run b mem e0 l = Ok (s, outs) ->
  0 <= b_now b -> b_now b < 4000000000000 -> in_time (b_now b) (sys_loop_inputs l) -> Forall (fun i => in_now i <= b_now b + 500000) (sys_loop_inputs l) -> no_timeout (map snd (loops outs)).
Proof.
  intros B F T E H0 Hs Ht He. destruct (sys_split b mem e0 l s outs F E) as (k1 & rs & evs & lo & o0 & _ & _ & _ & A4 & A5 & A6 & A7 & _). rewrite <- A6 in T, Ht, He.
  destruct (duo_core0 b lo _ _ _ A7 A4) as (D1 & D2 & D3 & D4 & _). rewrite A5 in *. rewrite <- D4 in T. eapply (early_calm b); eauto.
  - eapply in_time_outside; eauto.
  - clear - D3 He. revert He. generalize (loop_inputs lo) as l', (map fst (loops outs)) as k, D3. clear. induction l' as [|i l IH]; intros [|j k] E H; try discriminate; constructor; cbn [map] in E; injection E as E1 E2; inversion H; subst; [congruence|auto].
Qed.
