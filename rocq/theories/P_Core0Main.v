(** P_Core0Main.v -- the properties of the main loop for whole histories (C66-C70, C77). *)
From Verif Require Import Base M_Fifo M_Message S_Message D_Message M_Standalone S_Crc S_Ctrl D_Ctrl M_Tx D_Tx M_HostUart D_Host S_Host M_Led M_Core1 M_Core0 S_Core0 D_Core0
  P_Core0 P_Core0Run P_Core0Rx P_Core0Busy.

Lemma flat_seen_1 o : flat_map fst (map seen o) = map described (rx_reports (concat o)).
Proof. induction o as [|a o IH]; cbn [map flat_map concat]; [reflexivity|]. rewrite reports_app, map_app, IH. reflexivity. Qed.
Lemma flat_seen_2 o : flat_map snd (map seen o) = map content (to_ctrl (concat o)).
Proof. induction o as [|a o IH]; cbn [map flat_map concat]; [reflexivity|]. rewrite ctrls_app, map_app, IH. reflexivity. Qed.
Lemma timed_seen a : timed_out (seen a) <-> timeout_in a.
Proof.
  unfold timed_out, seen, timeout_in. cbn [fst]. rewrite map_map.
  assert (E : map (fun x => fst (described x)) (rx_reports a) = map fst (rx_reports a)) by (apply map_ext; intros []; reflexivity). rewrite E. reflexivity.
Qed.
Lemma calm_seen o : no_timeout o -> Forall calm (map seen o).
Proof. induction 1 as [|a o H F IH]; cbn; constructor; auto. unfold calm. fold (timed_out (seen a)). rewrite timed_seen. exact H. Qed.

Lemma cut_run b l1 l2 s o1 o2 : boot_ok b -> Forall in_ok (l1 ++ l2) -> input_ok (text (l1 ++ l2)) -> core0_run b (l1 ++ l2) = Ok (s, o1 ++ o2) -> length o1 = length l1 ->
  exists x, fst x = (0, []) /\ x = x0 (b_now b) /\ map seen o2 = snd (a_run (fst (a_run x l1)) l2).
Proof.
  intros B F T E L. destruct (run_good b _ B F T) as (c & s' & logs & _ & Er & _ & _ & A & _). rewrite E in Er. injection Er as <- <-.
  exists (x0 (b_now b)). split; [reflexivity|]. split; [reflexivity|]. rewrite a_run_app in A. pose proof (a_run_length l1 (x0 (b_now b))) as L1. destruct (a_run (x0 (b_now b)) l1) as (y & p1) eqn:E1.
  destruct (a_run y l2) as (z & p2) eqn:E2. cbn [fst snd] in *. rewrite E2. injection A as _ A. rewrite map_app in A.
  cbn [snd]. symmetry. assert (LL : length p1 = length (map seen o1)) by (rewrite map_length; congruence).
  assert (D : skipn (length p1) (p1 ++ p2) = skipn (length p1) (map seen o1 ++ map seen o2)) by congruence.
  rewrite !skipn_app in D. rewrite LL, !skipn_all, Nat.sub_diag in D. rewrite <- LL, skipn_all in D. exact D.
Qed.

Lemma one_report b l1 l2 i s o1 o2 : boot_ok b -> Forall in_ok (l1 ++ l2 ++ [i]) -> input_ok (text (l1 ++ l2 ++ [i])) ->
  core0_run b (l1 ++ l2 ++ [i]) = Ok (s, o1 ++ o2) -> length o1 = length l1 ->
  fresh_start l1 -> Forall (fun j => line_free j = false) l2 -> line_free i = true -> nothing_lost (l2 ++ [i]) -> no_timeout o2 ->
  (1 <= length (bytes_of (l2 ++ [i])) <= 31)%nat ->
  map described (rx_reports (concat o2)) = [(R_packet, (status_of (l2 ++ [i]), bytes_of (l2 ++ [i])))] /\
  map content (to_ctrl (concat o2)) = [(status_of (l2 ++ [i]), bytes_of (l2 ++ [i]))].
Proof.
  intros B F T E L Hs Hl Hi Hn Hc Hb. destruct (cut_run b l1 _ s o1 o2 B F T E L) as (x & Hx & _ & A).
  pose proof (seg_report l1 l2 i x Hx Hs Hl Hi Hn) as R. cbv zeta in R. rewrite <- A in R. specialize (R (calm_seen _ Hc) Hb).
  rewrite flat_seen_1, flat_seen_2 in R. exact R.
Qed.
Lemma full_report b l1 l2 i s o1 o2 : boot_ok b -> Forall in_ok (l1 ++ l2 ++ [i]) -> input_ok (text (l1 ++ l2 ++ [i])) ->
  core0_run b (l1 ++ l2 ++ [i]) = Ok (s, o1 ++ o2) -> length o1 = length l1 ->
  fresh_start l1 -> Forall (fun j => line_free j = false) l2 -> line_free i = true -> nothing_lost (l2 ++ [i]) -> no_timeout o2 ->
  Forall clean (l2 ++ [i]) -> length (bytes_of l2) = 32%nat -> bytes_of [i] = [] ->
  map described (rx_reports (concat o2)) = [(R_full, (2, bytes_of l2))] /\ to_ctrl (concat o2) = [].
Proof.
  intros B F T E L Hs Hl Hi Hn Hc Hcl Hb Hbi. destruct (cut_run b l1 _ s o1 o2 B F T E L) as (x & Hx & _ & A).
  pose proof (seg_full l1 l2 i x Hx Hs Hl Hi Hn Hcl) as R. cbv zeta in R. rewrite <- A in R. specialize (R (calm_seen _ Hc) Hb Hbi).
  rewrite flat_seen_1, flat_seen_2 in R. destruct R as (R1 & R2). split; [exact R1|]. destruct (to_ctrl (concat o2)); [reflexivity|discriminate].
Qed.

Lemma timeout_exact b l i s o log : boot_ok b -> Forall in_ok (l ++ [i]) -> input_ok (text (l ++ [i])) -> core0_run b (l ++ [i]) = Ok (s, o ++ [log]) ->
  0 <= b_now b -> in_time (b_now b) (l ++ [i]) -> in_now i < (4294967296 - 500) * 1000 ->
  timeout_in log <-> exists t, busy_since (b_now b) l = Some t /\ t / 1000 + 500 < in_now i / 1000 /\
    forall k j lg, nth_error l k = Some j -> nth_error o k = Some lg -> timeout_in lg -> in_now j / 1000 + 500 < in_now i / 1000.
Proof.
  intros B F T E H0 Ht Hl. destruct (run_good b _ B F T) as (c & s' & logs & _ & Er & _ & _ & A & Fs). rewrite E in Er. injection Er as <- <-.
  assert (L : length (l ++ [i]) = length (o ++ [log])) by (clear - Fs; induction Fs; cbn; congruence). rewrite !app_length in L. cbn in L.
  pose proof (busy_exact (b_now b) l i H0 Ht Hl) as X. rewrite a_run_app in A. 
  pose proof (a_run_length l (x0 (b_now b))) as L1. destruct (a_run (x0 (b_now b)) l) as (y & p1) eqn:E1. cbn [snd] in L1. cbn [a_run] in A.
  destruct (a_iter y i) as (z & p2). cbn [snd] in X. injection A as _ A. rewrite map_app in A. cbn [map] in A. apply app_inj_tail in A as (-> & ->).
  rewrite <- timed_seen. rewrite X. split; intros (t & Eb & Lt & W); exists t; (split; [exact Eb|]); (split; [exact Lt|]).
  - intros k j lg N1 N2 To. apply (W k). split; [exact N1|]. exists (seen lg). split; [apply map_nth_error; exact N2|apply timed_seen; exact To].
  - intros k j (N1 & q & N2 & To). assert (M : exists lg, nth_error o k = Some lg /\ q = seen lg).
    { clear - N2. revert o N2. induction k as [|k IH]; intros [|a o] N2; cbn in *; try discriminate; [injection N2 as <-; eauto|apply IH; exact N2]. }
    destruct M as (lg & N3 & ->). apply (W k j lg N1 N3). apply timed_seen. exact To.
Qed.

(** ** Parts *)
Lemma in_order_mono a b l : a <= b -> in_order b l -> in_order a l.
Proof. destruct l as [|(u & e) r]; cbn; [auto|]. intros H (A & B). split; [lia|exact B]. Qed.
Lemma in_order_stamp now a : forall t rest, t <= now -> in_order now rest -> in_order t (flat_map tx_part (stamp now a) ++ rest).
Proof.
  induction a as [|x a IH]; intros t rest H R; [apply (in_order_mono _ _ _ H R)|]. cbn [stamp map flat_map]. fold (stamp now a). rewrite <- app_assoc.
  destruct x; cbn [tx_part snd fst app]; try (apply IH; assumption); (split; [exact H|]; apply IH; [lia|exact R]).
Qed.
Lemma in_order_logs l logs : Forall2 (fun i log => exists a, log = stamp (in_now i) a) l logs -> forall t, in_time t l -> in_order t (flat_map tx_part (concat logs)).
Proof.
  induction 1 as [|i log l logs (a & ->) F IH]; intros t Ht; [exact I|]. destruct Ht as (A & B). cbn [concat]. rewrite flat_map_app. apply in_order_stamp; auto.
Qed.
Lemma parts_run b l s o : boot_ok b -> Forall in_ok l -> input_ok (text l) -> core0_run b l = Ok (s, o) ->
  (tx_run (b_j1 b) (b_j2 b) (flat_map tx_part (concat o)) = Ok ((z_sm s, z_hw s), flat_map tx_part_out (concat o)) /\ Forall (ev_ok 1) (flat_map tx_part (concat o)) /\
    (in_time (b_now b) l -> in_order (b_now b) (flat_map tx_part (concat o)))) /\
  (ctrl_run (b_ctrl b) (flat_map ctrl_part (concat o)) = Ok (z_ctrl s, flat_map ctrl_part_out (concat o)) /\ Forall out_ok (flat_map ctrl_part (concat o))) /\
  ((exists ho, host_run (flat_map host_part (concat o)) = Ok (z_host s, ho) /\ map hide_flag ho = flat_map host_part_out (concat o)) /\ Forall hop_ok (flat_map host_part (concat o))) /\
  z_led s = fold_left lm_step (flat_map led_part (concat o)) lm_init.
Proof.
  intros B F T E. destruct (run_good b l B F T) as (c & s' & logs & Ec & Er & _ & [M1 M2 M3 M4 (M5 & M6 & M7)] & _ & Fs). rewrite E in Er. injection Er as <- <-.
  split; [|split; [|split]].
  - split; [exact M1|]. split; [exact M5|]. apply in_order_logs. exact Fs.
  - split; [|exact M6]. unfold ctrl_run. rewrite Ec. exact M2.
  - split; [exact M3|exact M7].
  - symmetry. exact M4.
Qed.

(** ** Starting transmissions *)
Definition plain_act (a : act) : Prop := match a with A_wake _ => False | _ => True end.
Lemma quiet_not l pre t m post now : quiet l -> stamp now l = pre ++ (t, A_wake m) :: post -> False.
Proof.
  intros Q E. assert (In (t, A_wake m) (stamp now l)) as H by (rewrite E; apply in_or_app; right; left; reflexivity).
  apply in_map_iff in H as (a & Ea & H). injection Ea as _ ->. unfold quiet in Q. rewrite Forall_forall in Q. exact (Q _ H).
Qed.
Lemma stamp_quiet now l : quiet l -> Forall (fun e => is_wake e = false) (stamp now l).
Proof. induction 1 as [|a l H F IH]; constructor; auto. unfold is_wake. destruct a; cbn in *; auto. contradiction. Qed.
Lemma wake_split (q : list (Z * act)) a x pre w post : Forall (fun e => is_wake e = false) q -> is_wake a = false -> is_wake x = true -> is_wake w = true ->
  forall c, is_wake c = false -> q ++ [a; x; c] = pre ++ w :: post -> pre = q ++ [a] /\ w = x /\ post = [c].
Proof.
  intros Q Ha Hx Hw c Hc. revert pre. induction Q as [|y q Hy Q IH]; intros pre E.
  - cbn in E. destruct pre as [|p1 pre]; cbn in E; [injection E as -> _ ; congruence|]. injection E as -> E. destruct pre as [|p2 pre]; cbn in E.
    + injection E as -> <-. auto.
    + injection E as -> E. destruct pre as [|p3 pre]; cbn in E; [injection E as -> <-; congruence|]. injection E as -> E. destruct pre; discriminate.
  - destruct pre as [|p pre]; cbn in E; [injection E as -> _; congruence|]. injection E as -> E. destruct (IH _ E) as (-> & -> & ->). auto.
Qed.
Lemma moves_start b c l p : ctrl_new (b_ctrl b) = Ok c -> moves l (start_parts b c) p ->
  (exists o, tx_run (b_j1 b) (b_j2 b) (flat_map tx_part l) = Ok (p_tx p, o)) /\
  (exists o, ctrl_run (b_ctrl b) (flat_map ctrl_part l) = Ok (p_ctrl p, o)) /\
  (exists o, host_run (flat_map host_part l) = Ok (p_host p, o)).
Proof.
  intros Ec [M1 M2 (o & M3 & _) _ _]. split; [eexists; exact M1|]. split; [|exists o; exact M3]. unfold ctrl_run. rewrite Ec. eexists. exact M2.
Qed.

Lemma moves_cut a b p q r : moves (a ++ b) p r -> moves a p q -> moves b q r.
Proof.
  intros Mv Mq. destruct Mv as [V1 V2 (ov & V3 & V3') V4 (V5 & V6 & V7)]. destruct Mq as [W1 W2 (ow & W3 & W3') W4 (W5 & W6 & W7)].
  rewrite !flat_map_app in *. rewrite mrun_app, W1 in V1. cbn [bind] in V1. rewrite mrun_app, W2 in V2. cbn [bind] in V2. rewrite mrun_app, W3 in V3. cbn [bind] in V3.
  apply Forall_app in V5 as (_ & V5). apply Forall_app in V6 as (_ & V6). apply Forall_app in V7 as (_ & V7).
  apply bind_ok in V1 as ((x1 & y1) & V1 & V1'). injection V1' as -> Ey1. apply app_inv_head in Ey1. subst y1.
  apply bind_ok in V2 as ((x2 & y2) & V2 & V2'). injection V2' as -> Ey2. apply app_inv_head in Ey2. subst y2.
  apply bind_ok in V3 as ((x3 & y3) & V3 & V3''). injection V3'' as -> <-. rewrite map_app, W3' in V3'. apply app_inv_head in V3'.
  constructor; auto. { exists y3. auto. } rewrite fold_left_app, W4 in V4. exact V4.
Qed.
Lemma step_shape b l i s o s' log : boot_ok b -> Forall in_ok (l ++ [i]) -> input_ok (text (l ++ [i])) -> core0_run b l = Ok (s, o) -> core0_step s i = Ok (s', log) ->
  exists c q l2 mid, ctrl_new (b_ctrl b) = Ok c /\ log = stamp (in_now i) q ++ stamp (in_now i) l2 /\ quiet q /\ moves (concat o ++ stamp (in_now i) q) (start_parts b c) mid /\
    wake_shape (in_junk i) mid l2 /\ moves (stamp (in_now i) l2) mid (parts_of s').
Proof.
  intros B F T E Es. apply Forall_app in F as (F & Fi). inversion Fi; subst. rewrite text_app in T. cbn in T. rewrite app_nil_r in T.
  destruct (run_good b l B F (input_ok_prefix _ _ T)) as (c & s0 & logs & Ec & Er & I & M & _). rewrite E in Er. injection Er as <- <-.
  destruct (iter_good (text l) s i I H1 T) as (s1 & a & Ei & _ & Mv & _ & _ & q & l2 & mid & -> & Q & Mq & _ & W).
  unfold core0_step in Es. rewrite Ei in Es. cbn [bind] in Es. injection Es as <- <-.
  exists c, q, l2, mid. split; [exact Ec|]. split; [apply stamp_app|]. split; [exact Q|]. split; [eapply moves_app; eauto|]. split; [exact W|].
  rewrite stamp_app in Mv. eapply moves_cut; eauto.
Qed.

Lemma start_idle b l i s o s' log pre t m post : boot_ok b -> Forall in_ok (l ++ [i]) -> input_ok (text (l ++ [i])) -> core0_run b l = Ok (s, o) -> core0_step s i = Ok (s', log) ->
  log = pre ++ (t, A_wake m) :: post ->
  Forall (fun e => is_wake e = false) (pre ++ post) /\
  (exists x r, tx_run (b_j1 b) (b_j2 b) (flat_map tx_part (concat o ++ pre)) = Ok (x, r) /\ tx_is_idle (fst x) = true) /\
  exists before last h rh, pre = before ++ [last] /\ host_run (flat_map host_part (concat o ++ before)) = Ok (h, rh) /\
    ((exists junk h', snd last = A_pop junk m /\ host_has_data h = true /\ host_pop junk h = Ok (h', m)) \/
     (exists out c rc c', snd last = A_answer out m /\ host_has_data h = false /\ ctrl_run (b_ctrl b) (flat_map ctrl_part (concat o ++ before)) = Ok (c, rc) /\ ctrl_has_tx c = true /\ ctrl_tx_answer c out = Ok (c', m))).
Proof.
  intros B F T E Es El. destruct (step_shape b l i s o s' log B F T E Es) as (c & q & l2 & mid & Ec & -> & Q & Mq & W & _).
  destruct (moves_start b c _ mid Ec Mq) as ((r1 & R1) & (r2 & R2) & (r3 & R3)).
  destruct W as [(-> & _)|(bz & re & rv & ch & W)].
  - exfalso. cbn [stamp map] in El. rewrite app_nil_r in El. eapply quiet_not; eauto.
  - destruct W as [(-> & _)|[(m0 & h' & -> & Id & Hd & Hp)|(m0 & c' & -> & Id & Hd & Hc & Ht)]].
    + exfalso. rewrite <- stamp_app in El. eapply quiet_not; [|exact El]. apply quiet_two; [exact Q|repeat constructor].
    + cbn [stamp map] in El. apply wake_split in El; [|apply stamp_quiet; exact Q|reflexivity|reflexivity|reflexivity|reflexivity]. destruct El as (-> & Ew & ->). injection Ew as -> ->.
      split; [|split].
      * apply Forall_app. split; [apply Forall_app; split; [apply stamp_quiet; exact Q|repeat constructor]|repeat constructor].
      * eexists _, _. split; [|exact Id]. rewrite app_assoc, (flat_map_app tx_part). cbn [flat_map tx_part snd app]. rewrite app_nil_r. exact R1.
      * eexists _, _, _, _. split; [reflexivity|]. split; [exact R3|]. left. exists (in_junk i), h'. auto.
    + cbn [stamp map] in El. apply wake_split in El; [|apply stamp_quiet; exact Q|reflexivity|reflexivity|reflexivity|reflexivity]. destruct El as (-> & Ew & ->). injection Ew as -> ->.
      split; [|split].
      * apply Forall_app. split; [apply Forall_app; split; [apply stamp_quiet; exact Q|repeat constructor]|repeat constructor].
      * eexists _, _. split; [|exact Id]. rewrite app_assoc, (flat_map_app tx_part). cbn [flat_map tx_part snd app]. rewrite app_nil_r. exact R1.
      * eexists _, _, _, _. split; [reflexivity|]. split; [exact R3|]. right. exists (msg_new (in_junk i)), (p_ctrl mid), r2, c'. auto.
Qed.

Lemma start_prompt b l i s o s' log : boot_ok b -> Forall in_ok (l ++ [i]) -> input_ok (text (l ++ [i])) -> core0_run b l = Ok (s, o) -> core0_step s i = Ok (s', log) ->
  Forall (fun e => is_wake e = false) log ->
  (exists before last x r, log = before ++ [last] /\ tx_run (b_j1 b) (b_j2 b) (flat_map tx_part (concat o ++ before)) = Ok (x, r) /\ tx_is_idle (fst x) = false) \/
  (host_has_data (z_host s') = false /\ ctrl_has_tx (z_ctrl s') = false).
Proof.
  intros B F T E Es N. destruct (step_shape b l i s o s' log B F T E Es) as (c & q & l2 & mid & Ec & -> & Q & Mq & W & Ml).
  destruct (moves_start b c _ mid Ec Mq) as ((r1 & R1) & _ & _).
  destruct W as [(-> & Id & Hd & Hc)|(bz & re & rv & ch & W)].
  - right. destruct Ml as [_ V2 (ov & V3 & _) _ _]. cbn in V2, V3. injection V2 as <-. injection V3 as <- _. auto.
  - destruct W as [(-> & W)|[(m0 & h' & -> & _)|(m0 & c' & -> & _)]].
    + destruct W as [Id|(Hd & Hc)].
      * left. exists (stamp (in_now i) q), (in_now i, A_update bz re rv ch), (p_tx mid), r1. split; [reflexivity|]. split; [exact R1|exact Id].
      * right. destruct Ml as [_ V2 (ov & V3 & _) _ _]. cbn in V2, V3. injection V2 as <-. injection V3 as <- _. auto.
    + exfalso. apply Forall_app in N as (_ & N). cbn in N. inversion N as [|? ? _ N2]. inversion N2. discriminate.
    + exfalso. apply Forall_app in N as (_ & N). cbn in N. inversion N as [|? ? _ N2]. inversion N2. discriminate.
Qed.
Lemma clean_report b l1 l2 i s o1 o2 : boot_ok b -> Forall in_ok (l1 ++ l2 ++ [i]) -> input_ok (text (l1 ++ l2 ++ [i])) ->
  core0_run b (l1 ++ l2 ++ [i]) = Ok (s, o1 ++ o2) -> length o1 = length l1 ->
  fresh_start l1 -> Forall (fun j => line_free j = false) l2 -> line_free i = true -> nothing_lost (l2 ++ [i]) -> no_timeout o2 ->
  Forall clean (l2 ++ [i]) -> (1 <= length (bytes_of (l2 ++ [i])) <= 31)%nat ->
  map described (rx_reports (concat o2)) = [(R_packet, (0, bytes_of (l2 ++ [i])))] /\ map content (to_ctrl (concat o2)) = [(0, bytes_of (l2 ++ [i]))].
Proof.
  intros B F T E L Hs Hl Hi Hn Hc Hcl Hb. destruct (one_report b l1 l2 i s o1 o2 B F T E L Hs Hl Hi Hn Hc Hb) as (A1 & A2).
  unfold status_of in *. rewrite (clean_status _ Hcl) in A1, A2. auto.
Qed.
Lemma main_safe b l : boot_ok b -> Forall in_ok l -> input_ok (text l) -> exists s o, core0_run b l = Ok (s, o).
Proof. intros B F T. destruct (run_good b l B F T) as (c & s & o & _ & E & _). eauto. Qed.
