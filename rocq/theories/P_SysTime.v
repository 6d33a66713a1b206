(** P_SysTime.v -- how long events take from the ADC to the main loop (for C105). *)
From Verif Require Import Base M_ShiftReg M_Dsp M_Uart P_Uart M_Fifo M_Message S_Message D_Message M_Tx D_Tx M_HostUart D_Host S_Host M_Led M_Adc S_Dsp S_Pio M_Core1 S_Core1 D_Core1 P_Core1 P_Core1Chain S_Adc D_Adc P_Adc D_Core1Adc P_Core1Adc
  M_Core0 S_Core0 D_Core0 P_Core0 P_Core0Run P_Core0Rx P_Core0Busy P_Core0Main M_System S_System S_SysTime P_System P_SystemRx S_Front P_FrontAdc P_Front P_SystemLine.

(** ** Schedules *)
Lemma sys_app l1 l2 s : mrun sys_step s (l1 ++ l2) = let* (s1, o1) := mrun sys_step s l1 in let* (s2, o2) := mrun sys_step s1 l2 in Ok (s2, o1 ++ o2).
Proof. apply mrun_app. Qed.
Lemma sys_adc_app a b : sys_adc (a ++ b) = sys_adc a ++ sys_adc b. Proof. apply flat_map_app. Qed.
Lemma dma_app a b : dma_samples (a ++ b) = dma_samples a ++ dma_samples b. Proof. apply flat_map_app. Qed.
Lemma good_app a b : S_Core1.good (a ++ b) = S_Core1.good a ++ S_Core1.good b. Proof. apply flat_map_app. Qed.
Lemma taken_app a b : S_System.taken (a ++ b) = S_System.taken a ++ S_System.taken b. Proof. apply flat_map_app. Qed.

(** The iteration number [length L1] of the main loop. *)
Lemma loop_at l : forall s s' outs L1 x L2, mrun sys_step s l = Ok (s', outs) -> loops outs = L1 ++ x :: L2 ->
  exists la i lb sa oa sb ob, l = la ++ Y_core0 i :: lb /\ mrun sys_step s la = Ok (sa, oa) /\ sys_step sa (Y_core0 i) = Ok (sb, Some x) /\ mrun sys_step sb lb = Ok (s', ob) /\
    outs = oa ++ Some x :: ob /\ loops oa = L1 /\ loops ob = L2 /\ in_now (fst x) = in_now i.
Proof.
  induction l as [|y l IH]; intros s s' outs L1 x L2 E Q; cbn [mrun] in E; [injection E as <- <-; destruct L1; discriminate|].
  bstep E. destruct x0 as (s1 & o1). bstep E. destruct x0 as (s2 & os). injection E as -> <-.
  destruct o1 as [p|].
  - assert (Y : exists i, y = Y_core0 i /\ in_now (fst p) = in_now i).
    { destruct y as [v|c| |i]; cbn [sys_step] in E0.
      - bstep E0. destruct x0. discriminate.
      - bstep E0. destruct x0. discriminate.
      - discriminate.
      - destruct (link_take (y_link s)) as ((? & ?) & ?). bstep E0. destruct x0. injection E0 as _ <-. eauto. }
    destruct Y as (i & -> & Hn). cbn [loops flat_map app] in Q. fold (loops os) in Q. destruct L1 as [|p1 L1].
    + cbn [app] in Q. injection Q as -> Q. exists [], i, l, s, [], s1, os. cbn [mrun app loops flat_map]. auto 10.
    + cbn [app] in Q. injection Q as -> Q. destruct (IH _ _ _ _ _ _ E1 Q) as (la & j & lb & sa & oa & sb & ob & A1 & A2 & A3 & A4 & A5 & A6 & A7 & A8).
      exists (Y_core0 i :: la), j, lb, sa, (Some p1 :: oa), sb, ob. subst. split; [reflexivity|]. split; [eapply mrun_cons; eassumption|]. split; [exact A3|]. split; [exact A4|]. split; [reflexivity|]. auto.
  - cbn [loops flat_map app] in Q. fold (loops os) in Q. destruct (IH _ _ _ _ _ _ E1 Q) as (la & j & lb & sa & oa & sb & ob & A1 & A2 & A3 & A4 & A5 & A6 & A7 & A8).
    exists (y :: la), j, lb, sa, (None :: oa), sb, ob. subst. split; [reflexivity|]. split; [eapply mrun_cons; eassumption|]. split; [exact A3|]. split; [exact A4|]. split; [reflexivity|]. auto.
Qed.

(** ** Real time *)
Lemma real_time_app p t0 sl w l1 : forall k j l2, real_time p t0 sl w k j (l1 ++ l2) -> (j <= w)%nat ->
  exists j', (j' <= w)%nat /\ real_time p t0 sl w (k + length (dma_samples l1)) j' l2.
Proof.
  induction l1 as [|x l1 IH]; intros k j l2 H Hj; cbn [app real_time] in H; [exists j; rewrite Nat.add_0_r; auto|].
  destruct x as [v|c| |i]; cbn [dma_samples flat_map app length]; fold (dma_samples l1).
  - destruct H as (H1 & H). destruct (IH _ _ _ H ltac:(lia)) as (j' & ? & X). exists j'. split; [auto|]. replace (k + S (length (dma_samples l1)))%nat with (S k + length (dma_samples l1))%nat by lia. exact X.
  - eauto.
  - eauto.
  - destruct H as (H1 & H). apply (IH _ _ _ H). lia.
Qed.
Lemma real_time_clock p t0 sl w l1 i l2 k j : real_time p t0 sl w k j (l1 ++ Y_core0 i :: l2) -> (j <= w)%nat ->
  Z.abs (96000 * in_now i - (t0 + p * Z.of_nat (k + length (dma_samples l1)))) <= sl.
Proof. intros H Hj. destruct (real_time_app _ _ _ _ _ _ _ _ H Hj) as (j' & _ & X). cbn [real_time] in X. apply X. Qed.
Lemma real_time_loops p t0 sl w l : forall k j l2, real_time p t0 sl w k j (l ++ l2) -> (j <= w)%nat ->
  (length (dma_samples l) + j <= (length (sys_loop_inputs l) + 1) * w)%nat.
Proof.
  induction l as [|x l IH]; intros k j l2 H Hj; cbn [app real_time] in H; [cbn; lia|].
  destruct x as [v|c| |i]; cbn [dma_samples sys_loop_inputs flat_map app length]; fold (dma_samples l) (sys_loop_inputs l).
  - destruct H as (H1 & H). specialize (IH _ _ _ H ltac:(lia)). lia.
  - eauto.
  - eauto.
  - destruct H as (H1 & H). specialize (IH _ _ _ H ltac:(lia)). lia.
Qed.
(** A prefix with a given number of conversions. *)
Lemma prefix_at l : forall n, (n <= length (dma_samples l))%nat -> exists a b, l = a ++ b /\ length (dma_samples a) = n.
Proof.
  induction l as [|x l IH]; intros n H; [exists [], []; split; [reflexivity|cbn in *; lia]|]. destruct n as [|n]; [exists [], (x :: l); auto|].
  destruct x as [v|c| |i]; cbn [dma_samples flat_map app length] in H; fold (dma_samples l) in H.
  - destruct (IH n ltac:(lia)) as (a & b & -> & Q). exists (Y_dma v :: a), b. cbn [dma_samples flat_map app length]. fold (dma_samples a). auto.
  - destruct (IH (S n) H) as (a & b & -> & Q). exists (Y_core1 c :: a), b. auto.
  - destruct (IH (S n) H) as (a & b & -> & Q). exists (Y_test :: a), b. auto.
  - destruct (IH (S n) H) as (a & b & -> & Q). exists (Y_core0 i :: a), b. auto.
Qed.

(** ** The ADC *)
Lemma spec_run_app l1 : forall v l2, spec_run v (l1 ++ l2) = let '(v1, o1) := spec_run v l1 in let '(v2, o2) := spec_run v1 l2 in (v2, o1 ++ o2).
Proof. induction l1 as [|e l1 IH]; intros v l2; cbn [app spec_run]; [destruct (spec_run v l2); reflexivity|]. destruct (spec_step v e) as (v1 & o). rewrite IH. destruct (spec_run v1 l1) as (v2 & o1). destruct (spec_run v2 l2). reflexivity. Qed.
(** With a poll to come that has at most 254 samples waiting, at most 254 are waiting. *)
Lemma waiting l : forall v, Z.of_nat (samples l) < left v -> Forall in_reach (snd (spec_run v l)) -> last (snd (spec_run v l)) None = Some Nothing -> 0 <= next v <= count v -> count v - next v <= 254.
Proof.
  induction l as [|e l IH]; intros v H F La Hn; cbn [spec_run] in *; [discriminate|]. destruct e as [x|c]; unfold samples in *; cbn [filter length spec_step] in *.
  - destruct (Z.eqb_spec (left v) 0); [lia|]. specialize (IH (View (transferred v ++ [x]) (next v) (left v - 1)) ltac:(cbn [left]; lia)). destruct (spec_run _ l) as (v2 & os) eqn:E2. cbn [snd] in *. inversion F; subst.
    assert (La' : last os None = Some Nothing) by (destruct os; [discriminate|exact La]). specialize (IH H3 La'). unfold count in *. cbn [transferred next] in *. rewrite app_length in IH. cbn [length] in IH. lia.
  - destruct (Z.eqb_spec (left v) 0); [lia|]. destruct (Z.eqb_spec (next v) (count v)); [lia|]. destruct (spec_run _ l). cbn [snd] in *. inversion F as [|? ? F1 _]; subst. cbn in F1. lia.
Qed.
Lemma spec_view l : forall v, Z.of_nat (samples l) < left v -> 0 <= next v <= count v -> left (fst (spec_run v l)) = left v - Z.of_nat (samples l) /\ 0 <= next (fst (spec_run v l)) <= count (fst (spec_run v l)).
Proof.
  induction l as [|e l IH]; intros v H Hn; cbn [spec_run]; [cbn; split; [lia|auto]|]. destruct e as [x|c]; unfold samples in *; cbn [filter length spec_step] in *.
  - destruct (Z.eqb_spec (left v) 0); [lia|]. destruct (IH (View (transferred v ++ [x]) (next v) (left v - 1)) ltac:(cbn [left]; lia)) as (A & B); [unfold count in *; cbn [transferred next]; rewrite app_length; cbn [length]; lia|].
    destruct (spec_run _ l). cbn [fst left] in *. split; [lia|auto].
  - destruct (Z.eqb_spec (left v) 0); [lia|]. destruct (Z.eqb_spec (next v) (count v)).
    + destruct (IH v H Hn) as (A & B). destruct (spec_run v l). auto.
    + destruct (IH (View (transferred v) (next v + 1) (left v)) H) as (A & B); [unfold count in *; cbn [transferred next] in *; lia|]. destruct (spec_run _ l). auto.
Qed.
Lemma good_count T l : forall v v' xs outs gain mem, spec_run v l = (v', xs) -> 0 <= next v <= count v -> Z.of_nat (samples l) < left v ->
  Forall2 (poll_ok gain mem T) xs outs -> Forall in_reach xs -> Forall unflagged outs -> Z.of_nat (length (S_Core1.good outs)) = next v' - next v.
Proof. intros v v' xs outs gain mem E H1 H2 F R U. destruct (good_values gain mem T l v v' xs outs E H1 H2 F R U) as (A & ->). rewrite map_length, seq_length. lia. Qed.

(** At any point of a run in which core 1 keeps up, at most 254 samples are not yet processed. *)
Lemma processed mem gain la lb a rs : length mem = 256%nat /\ Forall sample_range mem -> 0 <= gain <= 65535 -> Forall ev_range (la ++ lb) -> Z.of_nat (samples (la ++ lb)) < BLOCK ->
  Forall in_reach (snd (spec_run view0 (la ++ lb))) -> last (snd (spec_run view0 (la ++ lb))) None = Some Nothing -> mrun adc_guarded (adc_start mem gain) la = Ok (a, rs) ->
  Forall unflagged rs /\ Z.of_nat (samples la) - 254 <= Z.of_nat (length (S_Core1.good rs)) <= Z.of_nat (samples la).
Proof.
  intros Hm Hg He Hs Hr Hl R. apply Forall_app in He as (He & _). assert (Sa : samples (la ++ lb) = (samples la + samples lb)%nat) by (unfold samples; rewrite filter_app, app_length; reflexivity). rewrite Sa in Hs.
  rewrite spec_run_app in Hr, Hl. destruct (spec_run view0 la) as (v1 & o1) eqn:E1. destruct (spec_run v1 lb) as (v2 & o2) eqn:E2. cbn [snd] in Hr, Hl. apply Forall_app in Hr as (Hr1 & Hr2).
  assert (Hs1 : Z.of_nat (samples la) < BLOCK) by lia. destruct (spec_view la view0 Hs1 ltac:(cbn; lia)) as (V1 & V2). pose proof (sampled_transferred la view0 Hs1) as Tr. rewrite E1 in *. cbn [fst left view0 transferred app] in *.
  destruct (adc_history mem gain la Hm Hg He) as (a' & rs' & R' & F & _). destruct (adc_flags_start mem gain la Hm Hg He) as (a2 & rs2 & R2 & Fl). rewrite R' in R2. injection R2 as <- <-. rewrite E1 in F. cbn [snd] in F.
  assert (U : Forall unflagged rs').
  { pose proof (flags_clear la view0 Hs1) as C. rewrite E1 in C. specialize (C Hr1). rewrite <- Fl in C. apply Forall_forall. intros r Hin. rewrite Forall_forall in C. specialize (C _ (in_map _ _ _ Hin)). clear - C. destruct r as [[(z & [|])|]|]; cbn in *; auto. }
  rewrite (guarded_plain _ _ _ _ R' U) in R. injection R as <- <-. split; [exact U|].
  pose proof (good_count (transferred v1) la view0 v1 o1 rs' gain mem E1 ltac:(cbn; lia) Hs1 F Hr1 U) as G. cbn [next view0] in G. rewrite Z.sub_0_r in G. rewrite G.
  assert (Cn : count v1 = Z.of_nat (samples la)) by (unfold count; rewrite Tr, samples_length; reflexivity). split; [|lia].
  destruct lb as [|e lb].
  - cbn [spec_run] in E2. injection E2 as <- <-. rewrite app_nil_r in Hl. pose proof (last_nothing la view0 Hs1) as X. rewrite E1 in X. cbn [fst snd] in X. specialize (X Hl). lia.
  - pose proof (waiting (e :: lb) v1) as X. rewrite E2 in X. cbn [snd] in X. assert (o2 <> []) by (cbn [spec_run] in E2; destruct (spec_step v1 e); destruct (spec_run v lb); injection E2 as _ <-; discriminate).
    assert (La : last o2 None = Some Nothing). { destruct o2; [congruence|]. rewrite <- Hl. clear. induction o1 as [|x o1 IH]; [reflexivity|]. cbn [app last]. destruct (o1 ++ o :: o2) eqn:Q; [destruct o1; discriminate|exact IH]. }
    specialize (X ltac:(rewrite V1; lia) Hr2 La V2). lia.
Qed.

(** ** Events on their way *)
Lemma taken_more lo : forall k c k' c' o, mrun duo_step (k, c) lo = Ok ((k', c'), o) ->
  (Nat.min (length (loop_inputs lo)) (length (k_queue k)) <= length (S_System.taken (map fst (loops o))))%nat.
Proof.
  induction lo as [|x lo IH]; intros k c k' c' o E; cbn [mrun] in E; [cbn; lia|]. bstep E. destruct x0 as ((k1 & c1) & o1). bstep E. destruct x0 as ((k2 & c2) & os). injection E as -> -> <-.
  destruct x as [e| |i]; cbn [duo_step] in E0.
  - injection E0 as <- <- <-. specialize (IH _ _ _ _ _ E1). change (loops (None :: os)) with (loops os). change (loop_inputs (News e :: lo)) with (loop_inputs lo).
    assert ((length (k_queue k) <= length (k_queue (link_news k e)))%nat) by (unfold link_news; destruct (ev_nonzero e); [destruct (link_room k)|]; cbn [k_queue]; rewrite ?app_length; lia). lia.
  - injection E0 as <- <- <-. specialize (IH _ _ _ _ _ E1). exact IH.
  - unfold link_take in E0. bstep E0. destruct x as (c3 & log). injection E0 as <- <- <-. specialize (IH _ _ _ _ _ E1). cbn [loops flat_map app map fst]. fold (loops os). cbn [k_queue] in IH.
    change (loop_inputs (Loop i :: lo)) with (i :: loop_inputs lo). cbn [length]. unfold S_System.taken. cbn [flat_map linked in_event]. fold (S_System.taken (map fst (loops os))). rewrite app_length. destruct (k_queue k) as [|e q]; cbn [hd_error tl length] in *; lia.
Qed.
Lemma produced_all rs : forall evs, no_fault rs -> length evs = length (S_Core1.good rs) ->
  exists p, only_news (removelast (ev_none :: produced rs evs)) = only_news (firstn p evs) /\ (p + 1 >= length evs)%nat /\ only_news [last (ev_none :: produced rs evs) ev_none] = only_news (skipn p evs).
Proof.
  intros evs Hn L. assert (X : forall l (d : event), l <> [] -> removelast l ++ [last l d] = l) by (intros; symmetry; apply app_removelast_last; auto).
  revert evs L. induction rs as [|r rs IH] using rev_ind; intros evs L.
  - cbn in L. destruct evs; [|discriminate]. exists 0%nat. cbn. auto with arith.
  - apply Forall_app in Hn as (Hn & Hr). inversion Hr as [|? ? Hr1 _]; subst. specialize (IH Hn). rewrite good_app, app_length in L.
    assert (Pa : forall rs evs e2, length evs = length (S_Core1.good rs) -> produced (rs ++ [r]) (evs ++ e2) = produced rs evs ++ produced [r] e2).
    { clear. intros rs. induction rs as [|x rs IH]; intros evs e2 L; [cbn in L; destruct evs; [reflexivity|discriminate]|]. destruct x as [[(v & [|])|]|]; cbn [app produced S_Core1.good flat_map length] in *; fold (S_Core1.good rs) in *.
      - rewrite IH by auto. reflexivity.
      - destruct evs as [|e evs]; [discriminate|]. cbn [app]. injection L as L. rewrite IH by auto. reflexivity.
      - rewrite IH by auto. reflexivity.
      - apply IH; auto. }
    destruct r as [[(v & [|])|]|]; cbn [S_Core1.good flat_map app length] in L; [contradiction| | |].
    + destruct (exists_last (l := evs) ltac:(intros ->; cbn in L; lia)) as (evs' & e & ->). rewrite app_length in L. cbn [length] in L. assert (L' : length evs' = length (S_Core1.good rs)) by lia.
      exists (length evs'). rewrite Pa by auto. cbn [produced]. change (ev_none :: produced rs evs' ++ [e]) with ((ev_none :: produced rs evs') ++ [e]). rewrite removelast_last, last_last, app_length. cbn [length].
      rewrite firstn_app, firstn_all, Nat.sub_diag, app_nil_r, skipn_app, skipn_all, Nat.sub_diag. cbn [skipn app].
      change (ev_none :: produced rs evs') with ([ev_none] ++ produced rs evs'). rewrite only_news_app, produced_good by auto. split; [reflexivity|]. split; [lia|auto].
    + rewrite Nat.add_0_r in L. assert (Hp : produced (rs ++ [Some None]) evs = produced rs evs ++ [ev_none]) by (rewrite <- (app_nil_r evs) at 1; apply (Pa rs evs []); exact L). rewrite Hp.
      exists (length evs). change (ev_none :: produced rs evs ++ [ev_none]) with ((ev_none :: produced rs evs) ++ [ev_none]).
      rewrite removelast_last, last_last, firstn_all, skipn_all. change (ev_none :: produced rs evs) with ([ev_none] ++ produced rs evs). rewrite only_news_app, produced_good by auto. split; [reflexivity|]. split; [lia|auto].
    + rewrite Nat.add_0_r in L. assert (Hp : produced (rs ++ [None]) evs = produced rs evs) by (rewrite <- (app_nil_r evs) at 1; rewrite (Pa rs evs []) by exact L; apply app_nil_r). rewrite Hp. apply IH. exact L.
Qed.
Lemma start_split b mem e0 l s outs : sys_run b mem e0 l = Ok (s, outs) -> exists k0 c0, core1_new e0 = Ok k0 /\ core0_boot b = Ok c0 /\
  sys_start b mem e0 = Ok (SYS (C1S (adc_start mem firmware_gain) k0 ev_none) link_new c0) /\ mrun sys_step (SYS (C1S (adc_start mem firmware_gain) k0 ev_none) link_new c0) l = Ok (s, outs).
Proof. intros E. unfold sys_run in E. bstep E. assert (E1 := E0). unfold sys_start in E1. bstep E1. bstep E1. unfold c1_start in E2. bstep E2. injection E2 as <-. injection E1 as <-. eauto 8. Qed.
Lemma on_the_way b mem e0 la lb s outs rs evs k0 sa oa : boot_ok b -> length mem = 256%nat -> Forall (fun x => -255 <= x <= 255) mem -> Forall sys_ok (la ++ lb) -> input_ok (text (sys_loop_inputs (la ++ lb))) ->
  sys_run b mem e0 (la ++ lb) = Ok (s, outs) -> keeps_up (la ++ lb) -> Z.of_nat (length (dma_samples (la ++ lb))) < BLOCK ->
  Forall (fun x => ~ overflow_in (snd x)) (loops outs) -> k_ferr (y_link s) = false -> core1_new e0 = Ok k0 ->
  mrun adc_guarded (adc_start mem firmware_gain) (sys_adc (la ++ lb)) = Ok (c1_adc (y_c1 s), rs) -> mrun core1_sample k0 (S_Core1.good rs) = Ok (c1_chain (y_c1 s), evs) ->
  sys_run b mem e0 la = Ok (sa, oa) ->
  exists p, (p <= length (dma_samples la) <= p + 255)%nat /\ S_System.taken (map fst (loops oa)) ++ k_queue (y_link sa) = only_news (firstn p evs) /\ (length (k_queue (y_link sa)) <= 8)%nat.
Proof.
  intros B Lm Rm F T E (K1 & K2) Hs No Hf Ek Er Ee Ea. destruct (start_split _ _ _ _ _ _ E) as (k0' & c0 & X1 & X2 & X3 & E'). rewrite Ek in X1. injection X1 as <-.
  unfold sys_run in Ea. rewrite X3 in Ea. cbn [bind] in Ea. rewrite sys_app, Ea in E'. cbn [bind] in E'. bstep E'. destruct x as (s2 & ob). injection E' as -> <-.
  destruct (sys_parts la _ _ _ Ea) as (rsa & evsa & loa & o1 & A1 & A2 & A3 & A4 & A5 & A6). destruct (sys_parts lb _ _ _ E0) as (rsb & evsb & lob & o2 & B1 & B2 & B3 & B4 & B5 & B6). cbn [y_c1 y_link y_c0 c1_adc c1_chain c1_pend] in *.
  rewrite sys_adc_app, mrun_app, A1 in Er. cbn [bind] in Er. rewrite B1 in Er. cbn [bind] in Er. injection Er as <-. rewrite good_app, mrun_app, A2 in Ee. cbn [bind] in Ee. rewrite B2 in Ee. cbn [bind] in Ee. injection Ee as <-.
  assert (Bt : forall k xs k' es, mrun core1_sample k xs = Ok (k', es) -> Forall (fun e => is_byte8 (ev_char e)) es) by (intros k xs k' es R; eapply (mrun_forall core1_sample); [|exact R]; intros ? ? ? ?; apply core1_sample_byte).
  assert (Ta : Forall (fun e => is_byte8 (ev_char e)) (S_System.told loa ++ [c1_pend (y_c1 sa)])) by (rewrite A6; constructor; [apply byte0|apply produced_byte; eapply Bt; exact A2]).
  apply Forall_app in Ta as (Ta & Pa). inversion Pa as [|? ? Pa1 _]; subst.
  assert (Tb : Forall (fun e => is_byte8 (ev_char e)) (S_System.told lob ++ [c1_pend (y_c1 s)])) by (rewrite B6; constructor; [exact Pa1|apply produced_byte; eapply Bt; exact B2]).
  apply Forall_app in Tb as (Tb & _). pose proof (sys_loop_ok _ F) as Fl. rewrite sys_loop_app in Fl, T. apply Forall_app in Fl as (Fla & Flb).
  assert (Na : Forall news_ok loa) by (apply news_ok_split; [exact Ta|rewrite A5; exact Fla]). assert (Nb : Forall news_ok lob) by (apply news_ok_split; [exact Tb|rewrite B5; exact Flb]).
  assert (Da : duo_run b loa = Ok ((y_link sa, y_c0 sa), o1)) by (unfold duo_run, duo_start; rewrite X2; exact A3).
  assert (Dl : duo_run b (loa ++ lob) = Ok ((y_link s, y_c0 s), o1 ++ o2)) by (unfold duo_run, duo_start; rewrite X2; cbn [bind]; rewrite duo_app, A3; cbn [bind]; rewrite B3; reflexivity).
  assert (Nl : lost 0 (loa ++ lob) = []).
  { eapply (never_lost b); [exact B|apply Forall_app; split; [exact Na|exact Nb]| |exact Dl|exact Hf|].
    - rewrite loop_inputs_app, A5, B5. exact T.
    - rewrite loops_app, A4, B4, <- loops_app. exact No. }
  destruct (lost_app loa 0 lob) as (mm & La). rewrite La in Nl. apply app_eq_nil in Nl as (Nl & _).
  destruct (duo_core0 b loa _ _ _ Na Da) as (_ & _ & _ & _ & Q & Q8). rewrite all_taken, all_news_told, A4 in Q by exact Nl.
  destruct (processed mem firmware_gain (sys_adc la) (sys_adc lb) (c1_adc (y_c1 sa)) rsa (conj Lm (range_wider _ Rm)) ltac:(vm_compute; split; discriminate)) as (U & G).
  { rewrite <- sys_adc_app. apply sys_ev_range. exact F. }
  { rewrite <- sys_adc_app, samples_length, dma_sampled. exact Hs. }
  { rewrite <- sys_adc_app. exact K1. }
  { rewrite <- sys_adc_app. exact K2. }
  { exact A1. }
  rewrite samples_length, dma_sampled in G. pose proof (mrun_length _ _ _ _ _ A2) as Lv.
  destruct (produced_all rsa evsa) as (p & P1 & P2 & _).
  { eapply Forall_impl; [|exact U]. intros r. exact (fun x => x). }
  { exact Lv. }
  assert (Tr : S_System.told loa = removelast (ev_none :: produced rsa evsa)) by (rewrite <- A6, removelast_last; reflexivity).
  rewrite Tr, P1 in Q. exists (Nat.min p (length evsa)). split; [lia|]. split; [|exact Q8]. rewrite Q. f_equal.
  rewrite firstn_app. replace (Nat.min p (length evsa) - length evsa)%nat with 0%nat by lia. cbn [firstn]. rewrite app_nil_r.
  destruct (Nat.le_gt_cases p (length evsa)); [f_equal; lia|rewrite Nat.min_r by lia; rewrite firstn_all; apply firstn_all2; lia].
Qed.
Lemma app_longer {A} (a : list A) : forall b c d, a ++ b = c ++ d -> (length a <= length c)%nat -> exists r, c = a ++ r.
Proof. induction a as [|x a IH]; intros b c d E L; [exists c; reflexivity|]. destruct c as [|y c]; [cbn in L; lia|]. cbn [app length] in *. injection E as -> E. destruct (IH _ _ _ E ltac:(lia)) as (r & ->). exists r. reflexivity. Qed.
(** What was converted 256 conversions and nine periods of the main loop ago has been taken. *)
Lemma latency b mem e0 la lb s outs rs evs k0 sa oa per t0 sl w : boot_ok b -> length mem = 256%nat -> Forall (fun x => -255 <= x <= 255) mem -> Forall sys_ok (la ++ lb) -> input_ok (text (sys_loop_inputs (la ++ lb))) ->
  sys_run b mem e0 (la ++ lb) = Ok (s, outs) -> keeps_up (la ++ lb) -> Z.of_nat (length (dma_samples (la ++ lb))) < BLOCK ->
  Forall (fun x => ~ overflow_in (snd x)) (loops outs) -> k_ferr (y_link s) = false -> core1_new e0 = Ok k0 ->
  mrun adc_guarded (adc_start mem firmware_gain) (sys_adc (la ++ lb)) = Ok (c1_adc (y_c1 s), rs) -> mrun core1_sample k0 (S_Core1.good rs) = Ok (c1_chain (y_c1 s), evs) ->
  sys_run b mem e0 la = Ok (sa, oa) -> real_time per t0 sl w 0 0 (la ++ lb) ->
  forall f, (f + 255 + 9 * w < length (dma_samples la))%nat -> exists r, S_System.taken (map fst (loops oa)) = only_news (firstn f evs) ++ r.
Proof.
  intros B Lm Rm F T E K Hs No Hf Ek Er Ee Ea RT f Hk. destruct (prefix_at la (f + 255) ltac:(lia)) as (l1 & l2 & -> & Q1).
  rewrite <- app_assoc in *. assert (Ea' := Ea). destruct (start_split _ _ _ _ _ _ Ea') as (k0' & c0 & Y1 & Y2 & Y3 & E1). rewrite sys_app in E1. bstep E1. destruct x as (s1 & o1). bstep E1. destruct x as (s2 & o2). injection E1 as -> <-.
  assert (R1 : sys_run b mem e0 l1 = Ok (s1, o1)) by (unfold sys_run; rewrite Y3; exact E0).
  destruct (on_the_way b mem e0 l1 (l2 ++ lb) s outs rs evs k0 s1 o1 B Lm Rm F T E K Hs No Hf Ek Er Ee R1) as (p & P1 & P2 & P3).
  rewrite loops_app, map_app, taken_app. destruct (sys_parts l2 _ _ _ E2) as (rsb & evsb & lob & o3 & _ & _ & B3 & B4 & B5 & _).
  pose proof (taken_more lob _ _ _ _ _ B3) as TM. rewrite B4, B5 in TM. destruct (real_time_app _ _ _ _ _ _ _ _ RT ltac:(lia)) as (j & Hj & RT2). pose proof (real_time_loops _ _ _ _ _ _ _ _ RT2 Hj) as RL.
  rewrite dma_app, app_length, Q1 in Hk. assert (N8 : (8 <= length (sys_loop_inputs l2))%nat) by (destruct (Nat.le_gt_cases 8 (length (sys_loop_inputs l2))); [auto|nia]).
  assert (Z : exists r, S_System.taken (map fst (loops o2)) = k_queue (y_link s1) ++ r).
  { assert (L2 : (length (k_queue (y_link s1)) <= length (S_System.taken (map fst (loops o2))))%nat) by lia.
    destruct (duo_parts _ _ _ _ _ _ B3) as (_ & _ & D & _). rewrite B4 in D. eapply app_longer; [exact D|exact L2]. }
  destruct Z as (r & ->). rewrite app_assoc, P2. assert (Hfp : (f <= p)%nat) by lia. rewrite <- (firstn_skipn f (firstn p evs)), firstn_firstn, Nat.min_l, only_news_app by lia. rewrite <- app_assoc. eauto.
Qed.
