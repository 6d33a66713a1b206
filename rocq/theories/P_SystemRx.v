(** P_SystemRx.v -- the complete firmware: decomposition and the receive path end to end (C90, C91). *)
From Verif Require Import Base M_ShiftReg M_Dsp M_Uart P_Uart M_Fifo M_Message S_Message D_Message M_Tx D_Tx M_HostUart D_Host S_Host M_Led M_Adc S_Dsp S_Pio M_Core1 S_Core1 D_Core1 P_Core1 P_Core1Chain S_Adc D_Adc D_Core1Adc P_Core1Adc
  M_Core0 S_Core0 D_Core0 P_Core0 P_Core0Run P_Core0Rx P_Core0Busy P_Core0Main M_System S_System P_System.

Lemma mrun_one {S I O} (f : S -> I -> res (S * O)) s i s' o : f s i = Ok (s', o) -> mrun f s [i] = Ok (s', [o]).
Proof. intros E. cbn [mrun]. rewrite E. reflexivity. Qed.
Lemma mrun_cons {S I O} (f : S -> I -> res (S * O)) s i l s1 o s2 os : f s i = Ok (s1, o) -> mrun f s1 l = Ok (s2, os) -> mrun f s (i :: l) = Ok (s2, o :: os).
Proof. intros E E2. cbn [mrun]. rewrite E. cbn [bind]. rewrite E2. reflexivity. Qed.
Lemma told_app a b : told (a ++ b) = told a ++ told b.
Proof. apply flat_map_app. Qed.

(** One step of the firmware is a step of core 1 or of core 0 with the queue. *)
Lemma sys_parts l : forall s s' outs, mrun sys_step s l = Ok (s', outs) ->
  exists rs evs lo o0, mrun adc_guarded (c1_adc (y_c1 s)) (sys_adc l) = Ok (c1_adc (y_c1 s'), rs) /\
    mrun core1_sample (c1_chain (y_c1 s)) (S_Core1.good rs) = Ok (c1_chain (y_c1 s'), evs) /\
    mrun duo_step (y_link s, y_c0 s) lo = Ok ((y_link s', y_c0 s'), o0) /\ loops o0 = loops outs /\ loop_inputs lo = sys_loop_inputs l /\
    told lo ++ [c1_pend (y_c1 s')] = c1_pend (y_c1 s) :: produced rs evs.
Proof.
  induction l as [|x l IH]; intros s s' outs E; cbn [mrun] in E.
  { injection E as <- <-. exists [], [], [], []. cbn. auto 10. }
  bstep E. destruct x0 as (s1 & o1). bstep E. destruct x0 as (s2 & os). injection E as -> <-. destruct (IH _ _ _ E1) as (rs & evs & lo & o0 & A & B & C & D & F & G). clear IH E1.
  destruct x as [v|ch1| |i]; cbn [sys_step] in E0.
  - bstep E0. destruct x as (c1 & oo). injection E0 as <- <-. cbn [y_c1 y_link y_c0] in *. cbn [c1_step] in E. injection E as <- <-. cbn [c1_adc c1_chain c1_pend] in *.
    exists (None :: rs), evs, lo, o0. cbn [sys_adc flat_map app]. fold (sys_adc l). split; [eapply mrun_cons; [reflexivity|exact A]|]. split; [exact B|]. split; [exact C|]. split; [exact D|]. split; [exact F|]. exact G.
  - bstep E0. destruct x as (c1 & oo). injection E0 as <- <-. cbn [y_c1 y_link y_c0] in *. 
    destruct (c1_parts _ _ _ _ (mrun_one _ _ _ _ _ E)) as (a' & r1 & k' & e1 & A1 & B1 & -> & -> & L1 & Q1 & P1). cbn [map adc_part rooms flat_map app] in A1, L1, Q1.
    cbn [mrun] in A1. bstep A1. destruct x as (a2 & r2). cbn [bind] in A1. injection A1 as -> <-.
    destruct (produced [r2] e1) as [|p [|? ?]] eqn:Ep; cbn [length] in L1; try discriminate. cbn [last] in P1. subst p. cbn [queued] in Q1.
    assert (Em : e1 = match r2 with Some (Some (_, false)) => [c1_pend c1] | _ => [] end /\ (r2 = Some None -> c1_pend c1 = ev_none) /\ (forall v, r2 = Some (Some (v, true)) -> c1_pend c1 = adc_fault) /\ r2 <> None).
    { clear - B1 Ep. destruct r2 as [[(v & [|])|]|]; cbn [S_Core1.good flat_map app mrun produced] in *.
      - injection B1 as _ <-. injection Ep as <-. split; [reflexivity|]. split; [discriminate|]. split; [reflexivity|discriminate].
      - bstep B1. destruct x as (k1 & e). injection B1 as _ <-. injection Ep as <-. split; [reflexivity|]. split; [discriminate|]. split; [discriminate|discriminate].
      - injection B1 as _ <-. injection Ep as <-. split; [reflexivity|]. split; [reflexivity|]. split; discriminate.
      - discriminate. }
    destruct Em as (Em & Em1 & Em2 & Em3).
    exists (r2 :: rs), (e1 ++ evs), (News (c1_pend (y_c1 s)) :: lo), (None :: o0). cbn [sys_adc flat_map app]. fold (sys_adc l).
    split; [eapply mrun_cons; eassumption|]. split; [change (r2 :: rs) with ([r2] ++ rs); unfold S_Core1.good; rewrite flat_map_app; fold (S_Core1.good [r2]) (S_Core1.good rs); rewrite mrun_app, B1; cbn [bind]; rewrite B; reflexivity|].
    split.
    { eapply mrun_cons; [reflexivity|]. rewrite <- C. f_equal. f_equal. unfold link_news. destruct oo as [(pushed & ferr)|]; [|destruct r2; [discriminate Q1|congruence]].
      cbn [iterations flat_map app] in Q1. rewrite no_news_nonzero in Q1. destruct (ev_nonzero (c1_pend (y_c1 s))); cbn [negb] in Q1.
      - destruct (link_room (y_link s)); injection Q1 as -> ->; [reflexivity|rewrite app_nil_r; reflexivity].
      - injection Q1 as -> ->. rewrite app_nil_r. destruct (y_link s); reflexivity. }
    split; [exact D|]. split; [exact F|]. cbn [told flat_map app]. fold (told lo). f_equal. rewrite G.
    destruct r2 as [[(v & [|])|]|]; subst e1; cbn [app produced]; [f_equal; eauto|reflexivity|f_equal; auto|congruence].
  - injection E0 as <- <-. cbn [y_c1 y_link y_c0] in *. exists rs, evs, (Test :: lo), (None :: o0). split; [exact A|]. split; [exact B|]. split; [eapply mrun_cons; [reflexivity|exact C]|]. auto.
  - destruct (link_take (y_link s)) as ((f & e) & k') eqn:Ek. bstep E0. destruct x as (c' & log). injection E0 as <- <-. cbn [y_c1 y_link y_c0] in *.
    exists rs, evs, (Loop i :: lo), (Some (linked i f e, log) :: o0). split; [exact A|]. split; [exact B|].
    split; [eapply mrun_cons; [|exact C]; cbn [duo_step]; rewrite Ek, E; reflexivity|]. cbn [loops flat_map app loop_inputs sys_loop_inputs told]. fold (loops o0) (loops os) (loop_inputs lo) (sys_loop_inputs l) (told lo). rewrite D, F. auto.
Qed.

(** ** Characters are bytes *)
Lemma lor_byte o b : is_byte8 o -> (1 <=? b)%nat && (b <=? 8)%nat = true -> is_byte8 (Z.lor o (u8 (Z.shiftl 1 (Z.of_nat b - 1)))).
Proof. intros H _. apply lor_lt_256; [exact H|]. unfold u8. apply Z.mod_pos_bound. reflexivity. Qed.
Lemma xp_step_byte b t x : is_byte8 (x_out x) -> is_byte8 (x_out (xp_step b t x)).
Proof.
  intros H. unfold xp_step. destruct (_ && _) eqn:Eb.
  - destruct (t =? 0); destruct (negb _); try destruct (same_sign _ _); cbn [x_out]; auto using lor_byte.
  - destruct (b =? 9)%nat; [|destruct (b =? 10)%nat]; destruct (t =? 0); cbn [negb]; try destruct (same_sign _ _); cbn [x_out]; auto.
Qed.
Lemma xn_step_byte b t x : is_byte8 (x_out x) -> is_byte8 (x_out (xn_step b t x)).
Proof.
  intros H. unfold xn_step. destruct (_ && _) eqn:Eb.
  - destruct (t =? 0); destruct (negb _); try destruct (same_sign _ _); cbn [x_out]; auto using lor_byte.
  - destruct (b =? 9)%nat; destruct (t =? 0); cbn [negb]; try destruct (same_sign _ _); cbn [x_out]; auto.
Qed.
Lemma xp_loop_byte r ph k : forall b x y, is_byte8 (x_out x) -> xp_loop r ph b k x = Ok y -> is_byte8 (x_out y).
Proof. induction k as [|k IH]; intros b x y H E; cbn [xp_loop] in E; [injection E as <-; exact H|]. bstep E. eapply IH; [|exact E]. apply xp_step_byte. exact H. Qed.
Lemma xn_loop_byte r ph k : forall b x y, is_byte8 (x_out x) -> xn_loop r ph b k x = Ok y -> is_byte8 (x_out y).
Proof. induction k as [|k IH]; intros b x y H E; cbn [xn_loop] in E; [injection E as <-; exact H|]. bstep E. eapply IH; [|exact E]. apply xn_step_byte. exact H. Qed.
Lemma byte0 : is_byte8 0. Proof. unfold is_byte8. lia. Qed.
Lemma try_phase_byte u ph p d e : try_phase u ph = Ok (p, d, e) -> is_byte8 d.
Proof.
  unfold try_phase, extract_data, extract_data_and_parity. pose proof byte0 as H0.
  destruct (ua_parity u); intros E; bstep E; injection E as _ <- _; bstep E0; destruct (x0 =? 0); try (injection E0 as <-; exact H0);
    first [eapply xn_loop_byte; [|exact E0]; exact H0|eapply xp_loop_byte; [|exact E0]; exact H0].
Qed.
Lemma fbp_byte u k : forall ph best o er p d e, is_byte8 o -> fbp_loop u ph k best o er = Ok (p, d, e) -> is_byte8 d.
Proof.
  induction k as [|k IH]; intros ph best o er p d e H E; cbn [fbp_loop] in E; [injection E as _ <- _; exact H|].
  bstep E. destruct x as ((p1 & d1) & e1). destruct (best <? p1); eapply IH; try exact E; [eapply try_phase_byte; eauto|exact H].
Qed.
Lemma line_step_byte s p s' e : line_step s p = Ok (s', e) -> is_byte8 (ev_char e).
Proof.
  unfold line_step. destruct (if ua_receiving (ls_uart s) then _ else _) as (((bz & id) & eb) & ef). intros E. bstep E. destruct x as (((u & ret) & out) & err).
  destruct ret; cbn [negb] in E; injection E as _ <-; cbn [ev_char]; [|apply byte0]. unfold ua_update in E0. destruct (ua_state (ls_uart s)).
  - injection E0 as _ <- _ _ || discriminate.
  - bstep E0. discriminate.
  - bstep E0. discriminate.
  - bstep E0. destruct x as (o & e). unfold find_best_phase in E. bstep E. destruct x as ((p1 & d1) & e1). injection E as <- <-. injection E0 as _ <- _. eapply fbp_byte; [|exact E1]. apply byte0.
Qed.
Lemma core1_sample_byte s x s' e : core1_sample s x = Ok (s', e) -> is_byte8 (ev_char e).
Proof.
  unfold core1_sample. intros E. bstep E. destruct x0 as (f & fd). destruct (rs_update (k_rs s) fd) as (r & [v|]); [|injection E as _ <-; apply byte0].
  bstep E. destruct x0 as (d & ac). bstep E. destruct x0 as (lv & hy). bstep E. destruct x0 as (b & bd). bstep E. destruct x0 as (ls & e1). injection E as _ <-. eapply line_step_byte; eauto.
Qed.
Lemma c1_step_byte s i s' o : c1_step s i = Ok (s', o) -> is_byte8 (ev_char (c1_pend s)) -> is_byte8 (ev_char (c1_pend s')).
Proof.
  intros E H. destruct i as [v|c w]; cbn [c1_step] in E; [injection E as <- _; exact H|]. bstep E. destruct x as (a1 & r).
  destruct (match r with None => _ | Some _ => _ end) as (a2 & er). bstep E. destruct x as (((k & pend) & pushed) & fe). injection E as <- _. cbn [c1_pend].
  unfold core1_iter in E1. destruct (if ev_nonzero _ then _ else _) as (ps & fr). destruct r as [v|]; [|injection E1 as _ <- _ _; apply byte0]. destruct er; [injection E1 as _ <- _ _; apply byte0|].
  bstep E1. destruct x as (k1 & e1). injection E1 as _ <- _ _. eapply core1_sample_byte; eauto.
Qed.

(** ** The firmware never runs into undefined behaviour *)
Lemma mrun_forall {S I O} (f : S -> I -> res (S * O)) (P : O -> Prop) : (forall s i s' o, f s i = Ok (s', o) -> P o) -> forall l s s' os, mrun f s l = Ok (s', os) -> Forall P os.
Proof. intros H. induction l as [|i l IH]; intros s s' os E; cbn [mrun] in E; [injection E as _ <-; constructor|]. bstep E. destruct x as (s1 & o). bstep E. destruct x as (s2 & o2). injection E as _ <-. constructor; eauto. Qed.
Lemma produced_byte rs : forall evs, Forall (fun e => is_byte8 (ev_char e)) evs -> Forall (fun e => is_byte8 (ev_char e)) (produced rs evs).
Proof.
  induction rs as [|[[(v & [|])|]|] rs IH]; intros evs F; cbn [produced]; auto; try (constructor; [apply byte0|auto]). destruct F; constructor; auto.
Qed.
Lemma news_ok_split l : Forall (fun e => is_byte8 (ev_char e)) (told l) -> Forall (fun i => in_ok (outside i)) (loop_inputs l) -> Forall news_ok l.
Proof.
  induction l as [|x l IH]; intros A B; [constructor|]. destruct x; cbn [told loop_inputs flat_map app] in *.
  - inversion A; subst. constructor; [assumption|auto].
  - constructor; [exact I|auto].
  - inversion B; subst. constructor; [assumption|auto].
Qed.
Lemma sys_loop_ok l : Forall sys_ok l -> Forall (fun i => in_ok (outside i)) (sys_loop_inputs l).
Proof. induction 1 as [|x l H F IH]; [constructor|]. destruct x; cbn [sys_loop_inputs flat_map app]; auto. Qed.

(** A run of the firmware is a run of the ADC, of the decoder chain and of the main loop with its queue. *)
Lemma sys_split b mem e0 l s outs : Forall sys_ok l -> sys_run b mem e0 l = Ok (s, outs) ->
  exists k0 rs evs lo o0, core1_new e0 = Ok k0 /\ mrun adc_guarded (adc_start mem firmware_gain) (sys_adc l) = Ok (c1_adc (y_c1 s), rs) /\
    mrun core1_sample k0 (S_Core1.good rs) = Ok (c1_chain (y_c1 s), evs) /\
    duo_run b lo = Ok ((y_link s, y_c0 s), o0) /\ loops o0 = loops outs /\ loop_inputs lo = sys_loop_inputs l /\ Forall news_ok lo /\
    told lo ++ [c1_pend (y_c1 s)] = ev_none :: produced rs evs.
Proof.
  intros F E. unfold sys_run, sys_start in E. bstep E. bstep E0. bstep E0. injection E0 as <-. unfold c1_start in E1. bstep E1. injection E1 as <-.
  destruct (sys_parts l _ _ _ E) as (rs & evs & lo & o0 & A & B & C & D & G & H). cbn [y_c1 y_link y_c0 c1_adc c1_chain c1_pend] in *.
  exists x, rs, evs, lo, o0. split; [exact E0|]. split; [exact A|]. split; [exact B|]. split; [unfold duo_run, duo_start; rewrite E2; exact C|]. split; [exact D|]. split; [exact G|]. split; [|exact H].
  apply news_ok_split; [|rewrite G; apply sys_loop_ok; exact F].
  assert (X : Forall (fun e => is_byte8 (ev_char e)) (told lo ++ [c1_pend (y_c1 s)])).
  { rewrite H. constructor; [apply byte0|]. apply produced_byte. eapply (mrun_forall core1_sample); [|exact B]. intros ? ? ? ?. apply core1_sample_byte. }
  apply Forall_app in X. apply X.
Qed.
Lemma sys_c1_inv l : forall s s' outs, Forall sys_ok l -> mrun sys_step s l = Ok (s', outs) -> c1_inv (y_c1 s) -> c1_inv (y_c1 s').
Proof.
  induction l as [|x l IH]; intros s s' outs F E H; cbn [mrun] in E; [injection E as <- _; exact H|]. inversion F as [|? ? Fx Fl]; subst.
  bstep E. destruct x0 as (s1 & o1). bstep E. destruct x0 as (s2 & o2). injection E as -> _. apply (IH s1 s' o2 Fl E1). clear IH E1. destruct x as [v|c| |i]; cbn [sys_step] in E0.
  - bstep E0. destruct x as (c1 & oo). injection E0 as <- _. destruct (c1_step_safe (y_c1 s) (Dma v) H Fx) as (s3 & o3 & E3 & I3). rewrite E in E3. injection E3 as <- _. exact I3.
  - bstep E0. destruct x as (c1 & oo). injection E0 as <- _. destruct (c1_step_safe (y_c1 s) (Iter c (link_room (y_link s))) H Logic.I) as (s3 & o3 & E3 & I3). rewrite E in E3. injection E3 as <- _. exact I3.
  - injection E0 as <- _. exact H.
  - destruct (link_take (y_link s)) as ((f & e) & k'). bstep E0. destruct x as (c' & log). injection E0 as <- _. exact H.
Qed.
Lemma sys_loop_app a b : sys_loop_inputs (a ++ b) = sys_loop_inputs a ++ sys_loop_inputs b.
Proof. apply flat_map_app. Qed.
Lemma sys_total b mem e0 l : boot_ok b -> length mem = 256%nat -> Forall (fun x => -255 <= x <= 255) mem -> Forall sys_ok l -> input_ok (text (sys_loop_inputs l)) ->
  exists s outs, sys_run b mem e0 l = Ok (s, outs).
Proof.
  intros B L R. induction l as [|x l IH] using rev_ind; intros F T.
  - destruct (main_safe b [] B ltac:(constructor) T) as (s & o & E). unfold core0_run in E. bstep E. unfold sys_run, sys_start, c1_start. destruct (core1_new_inv e0) as (k & -> & _). cbn [bind]. rewrite E0. cbn. eauto.
  - apply Forall_app in F as (F & Fx). assert (T' := T). rewrite sys_loop_app, text_app in T'. apply input_ok_prefix in T'. destruct (IH F T') as (s & outs & E). clear IH T'.
    destruct (sys_split b mem e0 l s outs F E) as (k0 & rs & evs & lo & o0 & _ & _ & _ & D & _ & G & N & _).
    unfold sys_run in E |- *. bstep E. rewrite E0. cbn [bind]. rewrite mrun_app, E. cbn [bind mrun].
    assert (I1 : c1_inv (y_c1 s)).
    { eapply sys_c1_inv; [exact F|exact E|]. unfold sys_start in E0. bstep E0. bstep E0. injection E0 as <-. cbn [y_c1]. unfold c1_start in E1. destruct (core1_new_inv e0) as (k & Ek & K). rewrite Ek in E1. cbn [bind] in E1. injection E1 as <-.
      split; [|cbn; eauto]. unfold ring255. cbn. auto. }
    inversion Fx as [|? ? Hx _]; subst. destruct x as [v|c| |i]; cbn [sys_step].
    + destruct (c1_step_safe _ (Dma v) I1 Hx) as (s3 & o3 & -> & _). cbn. eauto.
    + destruct (c1_step_safe _ (Iter c (link_room (y_link s))) I1 Logic.I) as (s3 & o3 & -> & _). cbn. eauto.
    + cbn. eauto.
    + destruct (duo_total b (lo ++ [Loop i]) B) as (k & c & ou & Et).
      * apply Forall_app. split; [exact N|]. constructor; [exact Hx|constructor].
      * rewrite loop_inputs_app, G. rewrite sys_loop_app in T. exact T.
      * unfold duo_run in D, Et. bstep D. rewrite E1 in Et. cbn [bind] in Et. rewrite mrun_app, D in Et. cbn [bind mrun duo_step] in Et. destruct (link_take (y_link s)) as ((f & e) & k'). bstep Et. destruct x1 as (s4 & o4). bstep E2. destruct x1 as (s5 & o5). bstep E3. destruct x1. rewrite E4. cbn. eauto.
Qed.

(** ** From the decoder's events to the host *)
Lemma all_news_told l : all_news l = only_news (told l).
Proof. induction l as [|x l IH]; [reflexivity|]. destruct x as [e| |i]; cbn [all_news told flat_map app]; fold (all_news l) (told l); auto. cbn [only_news filter]. fold (only_news (told l)). destruct (no_news e); cbn [negb app]; rewrite <- IH; reflexivity. Qed.
Lemma only_news_app a b : only_news (a ++ b) = only_news a ++ only_news b.
Proof. apply filter_app. Qed.
Lemma produced_good rs : forall evs, no_fault rs -> length evs = length (S_Core1.good rs) -> only_news (produced rs evs) = only_news evs.
Proof.
  induction rs as [|r rs IH]; intros evs F L; [destruct evs; [reflexivity|discriminate]|]. inversion F as [|? ? Fr Fs]; subst. destruct r as [[(v & [|])|]|]; cbn [produced S_Core1.good flat_map app length] in *; [contradiction|..].
  - destruct evs as [|e evs]; [discriminate|]. cbn [only_news filter]. fold (only_news (produced rs evs)) (only_news evs). rewrite IH; auto.
  - cbn [only_news filter no_news ev_none ev_char Z.eqb andb orb negb ev_valid ev_error ev_busy ev_free ev_dadc]. apply IH; auto.
  - apply IH; auto.
Qed.
Lemma evens_odds {A} (P : A -> Prop) n : forall l, (length l <= n)%nat -> Forall P (evens l) -> Forall P (odds l) -> Forall P l.
Proof.
  induction n as [|n IH]; intros [|a [|b t]] L E O; cbn [length] in L; try lia; [constructor|constructor|constructor; [inversion E; assumption|constructor]|].
  inversion E as [|? ? E1 E2]; subst. cbn [odds tl evens] in O. inversion O as [|? ? O1 O2]; subst. constructor; [exact E1|]. constructor; [exact O1|]. apply IH; [lia|exact E2|]. unfold odds. destruct t; [constructor|exact O2].
Qed.
Lemma core1_plain e0 k0 xs k' evs : core1_new e0 = Ok k0 -> bounded 12000 xs -> mrun core1_sample k0 xs = Ok (k', evs) -> Forall plain_event evs.
Proof.
  intros E B R. destruct (core1_events e0 xs B) as (s & s' & out & E' & R' & Lo & Ev & Od). rewrite E in E'. injection E' as <-.
  assert (X : evs = map snd out).
  { clear - R R'. revert k0 k' evs s' out R R'. induction xs as [|x xs IH]; intros k0 k' evs s' out R R'; cbn [mrun] in *; [injection R as _ <-; injection R' as _ <-; reflexivity|].
    bstep R. destruct x0 as (k1 & e1). bstep R. destruct x0 as (k2 & e2). injection R as _ <-. unfold core1_obs in R' at 1. rewrite E in R'. cbn [bind] in R'. bstep R'. destruct x0 as (k3 & e3). injection R' as _ <-. cbn [map snd]. f_equal. eapply IH; eauto. }
  subst evs. rewrite Forall_map. apply (evens_odds _ (length out)); [apply Nat.le_refl| |].
  - apply Forall_forall. intros (r & e) Hin. apply in_split in Hin as (h & t & Hs). destruct (Ev _ _ _ _ Hs) as (_ & Hf & _ & Hb & Hv & _ & Hd). unfold plain_event. cbn [snd]. split; [exact Hd|]. split; [|exact Hv].
    intros X. destruct (is_byte e) eqn:Y; [|reflexivity]. destruct (Hb eq_refl) as (Hr & _). apply Hf in X. destruct X as (_ & X & _). congruence.
  - eapply Forall_impl; [|exact Od]. intros (r & e) X. cbn [snd] in *. subst. unfold plain_event. cbn. auto.
Qed.
Lemma events_to_host b mem e0 l s outs rs : boot_ok b -> Forall sys_ok l -> input_ok (text (sys_loop_inputs l)) -> sys_run b mem e0 l = Ok (s, outs) ->
  mrun adc_guarded (adc_start mem firmware_gain) (sys_adc l) = Ok (c1_adc (y_c1 s), rs) ->
  no_fault rs -> Forall (fun x => ~ overflow_in (snd x)) (loops outs) -> no_timeout (map snd (loops outs)) ->
  k_queue (y_link s) = [] -> k_ferr (y_link s) = false -> no_news (c1_pend (y_c1 s)) = true ->
  exists k0 evs, core1_new e0 = Ok k0 /\ mrun core1_sample k0 (S_Core1.good rs) = Ok (c1_chain (y_c1 s), evs) /\
    forall segs rest, only_news evs = concat (map st_events segs) ++ rest -> Forall st_ok segs -> Forall (fun e => ev_free e = false) rest -> (length (ev_bytes rest) <= 31)%nat ->
    map described (rx_reports (concat (map snd (loops outs)))) = flat_map st_report segs /\
    map content (to_ctrl (concat (map snd (loops outs)))) = map snd (flat_map st_report segs).
Proof.
  intros B F T E Ea Nf No Nt Hq Hf Hp. destruct (sys_split b mem e0 l s outs F E) as (k0 & rs' & evs & lo & o0 & A1 & A2 & A3 & A4 & A5 & A6 & A7 & A8).
  rewrite Ea in A2. injection A2 as <-. exists k0, evs. split; [exact A1|]. split; [exact A3|]. intros segs rest Hs Fs Fr Lr.
  rewrite <- A6 in T. rewrite <- A5 in *. pose proof (never_lost b lo _ _ _ B A7 T A4 Hf No) as Hl.
  destruct (duo_core0 b lo _ _ _ A7 A4) as (_ & _ & _ & _ & Q & _). rewrite Hq, app_nil_r, all_taken, all_news_told in Q by exact Hl.
  apply (received_exactly b lo (y_link s) (y_c0 s) o0 segs rest); auto. rewrite Q.
  assert (X : only_news (told lo ++ [c1_pend (y_c1 s)]) = only_news evs).
  { rewrite A8. cbn [only_news filter]. change (no_news ev_none) with true. cbn [negb]. apply produced_good; [exact Nf|]. eapply mrun_length; eauto. }
  rewrite only_news_app in X. cbn [only_news filter] in X. rewrite Hp in X. cbn [negb] in X. rewrite app_nil_r in X. congruence.
Qed.

Lemma adc_bounded l : forall a a' rs, ring255 a -> Forall (fun e => match e with S_Adc.Sample v => -255 <= v <= 255 | Poll _ => True end) l ->
  mrun adc_guarded a l = Ok (a', rs) -> bounded 12000 (S_Core1.good rs).
Proof.
  induction l as [|e l IH]; intros a a' rs H F E; cbn [mrun] in E; [injection E as _ <-; constructor|]. inversion F as [|? ? Fx Fl]; subst. bstep E. destruct x as (a1 & r). bstep E. destruct x as (a2 & rs2). injection E as _ <-.
  unfold adc_guarded in E0. bstep E0. destruct x as (a3 & r3). injection E0 as <- <-. destruct e as [v|c]; cbn [adc_event] in E.
  - injection E as <- <-. cbn [S_Core1.good flat_map app]. eapply IH; [|exact Fl|exact E1]. destruct H as (L & R & G). unfold ring255, ring_write; cbn [ad_ring ad_gain].
    destruct (rg_tc (ad_ring a) =? 0); [auto|]. cbn [rg_data]. split; [rewrite upd_length; auto|]. split; [|exact G]. apply Forall_upd; auto.
  - unfold adc_poll in E. destruct (adc_upd_safe c a H) as (a4 & o & Eu & I4 & V). rewrite Eu in E. cbn [bind] in E. destruct o as [v|]; cbn [adc_read_error] in E; injection E as <- <-.
    + cbn [S_Core1.good flat_map]. destruct (ad_error a4); cbn [app]; [eapply IH; [|exact Fl|exact E1]; exact I4|]. constructor; [apply V; reflexivity|]. eapply IH; [|exact Fl|exact E1]. exact I4.
    + cbn [S_Core1.good flat_map app]. eapply IH; [|exact Fl|exact E1]. exact I4.
Qed.
Lemma sys_adc_ok l : Forall sys_ok l -> Forall (fun e => match e with S_Adc.Sample v => -255 <= v <= 255 | Poll _ => True end) (sys_adc l).
Proof. induction 1 as [|x l H F IH]; [constructor|]. destruct x; cbn [sys_adc flat_map app]; auto. Qed.
(** Whatever packets the decoder's events spell are reported. *)
Lemma packets_to_host b mem e0 l s outs rs : boot_ok b -> length mem = 256%nat -> Forall (fun x => -255 <= x <= 255) mem -> Forall sys_ok l -> input_ok (text (sys_loop_inputs l)) -> sys_run b mem e0 l = Ok (s, outs) ->
  mrun adc_guarded (adc_start mem firmware_gain) (sys_adc l) = Ok (c1_adc (y_c1 s), rs) ->
  no_fault rs -> Forall (fun x => ~ overflow_in (snd x)) (loops outs) -> no_timeout (map snd (loops outs)) ->
  k_queue (y_link s) = [] -> k_ferr (y_link s) = false -> no_news (c1_pend (y_c1 s)) = true ->
  exists k0 evs, core1_new e0 = Ok k0 /\ mrun core1_sample k0 (S_Core1.good rs) = Ok (c1_chain (y_c1 s), evs) /\
    forall pkts, log_of evs = LFree :: flat_map one_packet pkts -> Forall (fun p => (length (pk_bytes p) <= 31)%nat) pkts ->
    map described (rx_reports (concat (map snd (loops outs)))) = map (fun p => (R_packet, (0, pk_bytes p))) pkts /\
    map content (to_ctrl (concat (map snd (loops outs)))) = map (fun p => (0, pk_bytes p)) pkts.
Proof.
  intros B Lm Rm F T E Ea Nf No Nt Hq Hf Hp. destruct (sys_split b mem e0 l s outs F E) as (k0 & rs' & evs & lo & o0 & A1 & A2 & A3 & A4 & A5 & A6 & A7 & A8).
  rewrite Ea in A2. injection A2 as <-. exists k0, evs. split; [exact A1|]. split; [exact A3|]. intros pkts Hs Fs.
  assert (Hb : bounded 12000 (S_Core1.good rs)) by (eapply adc_bounded; [|apply sys_adc_ok; exact F|exact Ea]; unfold ring255; cbn; auto).
  rewrite <- A6 in T. rewrite <- A5 in *. pose proof (never_lost b lo _ _ _ B A7 T A4 Hf No) as Hl.
  destruct (duo_core0 b lo _ _ _ A7 A4) as (_ & _ & _ & _ & Q & _). rewrite Hq, app_nil_r, all_taken, all_news_told in Q by exact Hl.
  assert (X : only_news (told lo ++ [c1_pend (y_c1 s)]) = only_news evs).
  { rewrite A8. cbn [only_news filter]. change (no_news ev_none) with true. cbn [negb]. apply produced_good; [exact Nf|]. eapply mrun_length; eauto. }
  rewrite only_news_app in X. cbn [only_news filter] in X. rewrite Hp in X. cbn [negb] in X. rewrite app_nil_r in X. rewrite X in Q.
  destruct (received_run b lo _ _ _ B A7 T A4 Hl Nt) as (R1 & R2). rewrite R1, R2, Q, lg_events; [|cbn; lia|].
  - rewrite log_only_news, Hs, lg_packets by exact Fs. auto.
  - apply Forall_forall. intros e Hin. unfold only_news in Hin. apply filter_In in Hin as (Hin & _). pose proof (core1_plain e0 k0 _ _ _ A1 Hb A3) as P. rewrite Forall_forall in P. auto.
Qed.
