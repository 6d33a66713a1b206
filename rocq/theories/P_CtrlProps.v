(** P_CtrlProps.v -- consequences of the refinement and of the checksum used by T_Ctrl.v. *)
From Verif Require Import Base M_Message M_Standalone S_Crc P_Crc S_Ctrl D_Ctrl P_Ctrl.

Lemma only_valid_requests : forall t0 h c rs, Forall out_ok h -> ctrl_run t0 h = Ok (c, rs) ->
  exists s os, steps (controller0 t0) (map fst h) s os /\ k_addr s = c_addr c /\
    forall p c', packet_ok p -> ctrl_receive c (msg_of p) = Ok c' -> ctrl_has_tx c' = true ->
      (ctrl_has_tx c = false \/ (3 < p_len p)%nat) -> k_phase s = Operation /\ request (k_addr s) p.
Proof.
  intros t0 h c rs Hh E. destruct (ctrl_history t0 h Hh) as (c1 & s & os & rs1 & E1 & S & X & _). rewrite E in E1. inversion E1; subst c1 rs1.
  exists s, os. split; auto. split; [apply (sim_addr _ _ X)|]. intros p c' Hp R T Or.
  destruct (receive_sim c s p X Hp) as (c2 & s2 & E2 & X2 & St). rewrite R in E2. inversion E2; subst c2. destruct (St 0) as (_ & S1 & S2).
  unfold ctrl_has_tx in *. rewrite (sim_ready _ _ X) in Or. rewrite (sim_ready _ _ X2) in T.
  destruct (Nat.le_gt_cases (p_len p) 3) as [L|L]; [destruct Or; [|lia]; rewrite (S1 L) in T; congruence|].
  specialize (S2 L). pose proof (sim_pend _ _ X) as Pd. destruct (k_phase s) eqn:Ep.
  - rewrite S2 in T. destruct (k_pending s) as [a|]; [|discriminate]. destruct (Pd a eq_refl) as (_ & Y & _). discriminate.
  - assert (Np : k_pending s = None) by (destruct (k_pending s) as [a|] eqn:Ea; auto; destruct (Pd a eq_refl) as (_ & Y & _); discriminate).
    destruct S2 as (A & B). destruct (starts_dec p 64 (k_addr s) 48 Hp) as [Y|Y]; [rewrite (A Y) in T|rewrite (B Y) in T]; cbn in T; rewrite Np in T; discriminate.
  - split; auto. destruct S2 as (A & B).
    destruct (starts_dec p 0 (k_addr s) 48 Hp) as [Y|Y]; [left; auto|]. destruct (starts_dec p 0 (k_addr s) 49 Hp) as [Y'|Y']; [right; auto|].
    rewrite B in T by (intros [Z1|Z1]; tauto). discriminate.
Qed.

Lemma request_answered : forall t0 h c rs p out, Forall out_ok h -> ctrl_run t0 h = Ok (c, rs) ->
  packet_ok p -> length (m_data out) = 32%nat ->
  exists s os, steps (controller0 t0) (map fst h) s os /\ k_addr s = c_addr c /\
    (k_phase s = Operation -> request (k_addr s) p ->
     exists c1 c2 m, ctrl_receive c (msg_of p) = Ok c1 /\ ctrl_has_tx c1 = true /\ ctrl_tx_answer c1 out = Ok (c2, m) /\
       answer (k_addr s) p (firstn (m_length m) (m_data m)) /\ ctrl_has_tx c2 = false /\
       m_length m = if nth 2 (p_cells p) 0 =? 48 then 18%nat else 16%nat).
Proof.
  intros t0 h c rs p out Hh E Hp Ho. destruct (ctrl_history t0 h Hh) as (c1 & s & os & rs1 & E1 & S & X & _). rewrite E in E1. inversion E1; subst c1 rs1.
  exists s, os. split; auto. split; [apply (sim_addr _ _ X)|]. intros Ph R.
  destruct (receive_sim c s p X Hp) as (c2 & s2 & E2 & X2 & St). destruct (St 0) as (_ & _ & S2).
  assert (L : (3 < p_len p)%nat) by (destruct R as [(L & _)|(L & _)]; exact L).
  specialize (S2 L). rewrite Ph in S2. destruct S2 as (S2 & _). destruct (S2 R) as (a & An & Es). subst s2.
  destruct (call_sim c2 _ ((0, Take), out) X2) as (c3 & s3 & o & r & E3 & X3 & (Eo & Es3) & D). { split; auto. exact I. }
  cbn [ctrl_call] in E3. destruct (ctrl_tx_answer c2 out) as [(c4 & m)|] eqn:Et; [|discriminate]. cbn in E3. inversion E3; subst c4 r.
  cbn in Eo. subst o. destruct D as (m' & Em & F & Lm & _). inversion Em; subst m'.
  exists c2, c3, m. split; auto. split. { unfold ctrl_has_tx. rewrite (sim_ready _ _ X2). reflexivity. }
  split; auto. split; [rewrite F; auto|]. split. { unfold ctrl_has_tx. rewrite (sim_ready _ _ X3). cbn in Es3. subst s3. reflexivity. }
  rewrite Lm. destruct An as (body & k & Ek & _ & An). subst a. destruct Hp as (Lc & _ & _).
  destruct An as [((_ & (rst & Er) & _) & ->)|((_ & (rst & Er) & _) & ->)].
  - assert (Z2 : nth 2 (p_cells p) 0 = 48).
    { unfold p_bytes in Er. destruct (p_cells p) as [|x0 [|x1 [|x2 cl]]]; cbn in Lc; try lia. destruct (p_len p) as [|[|[|n]]]; try lia. inversion Er. reflexivity. }
    rewrite Z2. unfold cells. rewrite !app_length, firstn_length, skipn_length, Lc. reflexivity.
  - assert (Z2 : nth 2 (p_cells p) 0 = 49).
    { unfold p_bytes in Er. destruct (p_cells p) as [|x0 [|x1 [|x2 cl]]]; cbn in Lc; try lia. destruct (p_len p) as [|[|[|n]]]; try lia. inversion Er. reflexivity. }
    rewrite Z2. unfold cells. rewrite !app_length, !firstn_length, !skipn_length, Lc. reflexivity.
Qed.

Lemma withdrawn : forall t0 h c rs, Forall out_ok h -> ctrl_run t0 h = Ok (c, rs) ->
  exists s os, steps (controller0 t0) (map fst h) s os /\ k_addr s = c_addr c /\
    forall p, packet_ok p -> (3 < p_len p)%nat -> ~ request (k_addr s) p ->
      exists c', ctrl_receive c (msg_of p) = Ok c' /\ ctrl_has_tx c' = false.
Proof.
  intros t0 h c rs Hh E. destruct (only_valid_requests t0 h c rs Hh E) as (s & os & S & A & H). exists s, os. split; auto. split; auto.
  intros p Hp L N. destruct (ctrl_history t0 h Hh) as (c1 & s1 & os1 & rs1 & E1 & _ & X & _). rewrite E in E1. inversion E1; subst c1 rs1.
  destruct (receive_sim c s1 p X Hp) as (c' & _ & R & _). exists c'. split; auto. destruct (ctrl_has_tx c') eqn:T; auto.
  destruct (H p c' Hp R T (or_intror L)) as (_ & Y). contradiction.
Qed.

Lemma answer_fun : forall addr p1 p2 a1 a2, packet_ok p1 -> packet_ok p2 ->
  p_bytes p1 = p_bytes p2 -> p_len p1 = p_len p2 -> ((17 <= p_len p1)%nat \/ ((15 <= p_len p1)%nat /\ nth 2 (p_cells p1) 0 = 49)) ->
  answer addr p1 a1 -> answer addr p2 a2 -> a1 = a2.
Proof.
  intros addr p1 p2 a1 a2 (L1 & N1 & _) (L2 & N2 & _) Eb El Hl (b1 & k1 & -> & K1 & A1) (b2 & k2 & -> & K2 & A2).
  assert (C : forall i n, (i + n <= p_len p1)%nat -> cells p1 i n = cells p2 i n).
  { intros i n Hi. unfold cells. unfold p_bytes in Eb. rewrite <- El in Eb.
    assert (X : forall l : list Z, firstn n (skipn i l) = firstn n (skipn i (firstn (p_len p1) l))).
    { intros l. rewrite skipn_firstn_comm, firstn_firstn. f_equal. lia. }
    rewrite (X (p_cells p1)), (X (p_cells p2)), Eb. reflexivity. }
  assert (T : forall p t, starts p 0 addr t -> length (p_cells p) = 32%nat -> nth 2 (p_cells p) 0 = t).
  { intros p t (Hs & (r & Er) & _) Lc. unfold p_bytes in Er. destruct (p_cells p) as [|x0 [|x1 [|x2 cl]]]; cbn in Lc; try lia.
    destruct (p_len p) as [|[|[|n]]]; try lia. inversion Er. reflexivity. }
  assert (T2 : nth 2 (p_cells p1) 0 = nth 2 (p_cells p2) 0).
  { assert (Y : forall l : list Z, nth 2 l 0 = nth 2 (firstn (p_len p1) l) 0).
    { intros l. destruct l as [|x0 [|x1 [|x2 l]]]; destruct (p_len p1) as [|[|[|n]]]; try lia; reflexivity. }
    unfold p_bytes in Eb. rewrite <- El in Eb. rewrite (Y (p_cells p1)), (Y (p_cells p2)), Eb. reflexivity. }
  assert (E : b1 = b2).
  { destruct A1 as [(S1 & ->)|(S1 & ->)], A2 as [(S2 & ->)|(S2 & ->)]; pose proof (T _ _ S1 L1) as Q1; pose proof (T _ _ S2 L2) as Q2; try (exfalso; lia).
    - assert (17 <= p_len p1)%nat by (destruct Hl as [|(_ & Y)]; [auto|exfalso; lia]). rewrite C by lia. reflexivity.
    - assert (15 <= p_len p1)%nat by (destruct Hl as [|(? & _)]; lia). rewrite (C 3%nat 4%nat), (C 9%nat 6%nat) by lia. reflexivity. }
  subst b2. f_equal. f_equal. eapply checksum_fun; eauto.
Qed.

(** ** The checksum comparison *)
Lemma crc_check_valid p : p <> [] -> exists c, gen_crc p (length p - 1) = Ok c /\ (c = last p 0 <-> valid p).
Proof.
  intros N. destruct (gen_crc_spec p (length p - 1) ltac:(lia)) as (c & E & C). exists c. split; auto.
  destruct (exists_last N) as (d & x & ->). rewrite last_last. rewrite app_length in C. cbn [length] in C.
  replace (length d + 1 - 1)%nat with (length d) in C by lia. rewrite firstn_app, Nat.sub_diag, firstn_O, app_nil_r, firstn_all in C.
  split.
  - intros ->. exists d, x. auto.
  - intros (d' & x' & Ed & C'). apply app_inj_tail in Ed as (<- & <-). eapply checksum_fun; eauto.
Qed.
Lemma crc_check_burst p p' : bytes p -> bytes p' -> length p = length p' -> p <> [] ->
  gen_crc p (length p - 1) = Ok (last p 0) -> burst (xor_bits (bits p) (bits p')) ->
  exists c, gen_crc p' (length p' - 1) = Ok c /\ c <> last p' 0.
Proof.
  intros B B' L N E Bu. destruct (crc_check_valid p N) as (c0 & E0 & V0). rewrite E in E0. inversion E0; subst c0.
  assert (N' : p' <> []) by (destruct p'; [destruct p; cbn in *; congruence|discriminate]).
  destruct (crc_check_valid p' N') as (c & Ec & V). exists c. split; auto. rewrite V.
  intros V'. apply (valid_error p p' B B' L (proj1 V0 eq_refl)) in V'. revert V'. apply burst_nz; auto.
Qed.
Lemma crc_check_odd_double p p' : bytes p -> bytes p' -> length p = length p' -> p <> [] ->
  gen_crc p (length p - 1) = Ok (last p 0) ->
  exists c, gen_crc p' (length p' - 1) = Ok c /\
  (Nat.odd (ones (xor_bits (bits p) (bits p'))) = true -> c <> last p' 0) /\
  (forall i d k, xor_bits (bits p) (bits p') = two_errors i d k -> (c = last p' 0 <-> (S d mod 127 = 0)%nat)).
Proof.
  intros B B' L N E. destruct (crc_check_valid p N) as (c0 & E0 & V0). rewrite E in E0. inversion E0; subst c0.
  assert (N' : p' <> []) by (destruct p'; [destruct p; cbn in *; congruence|discriminate]).
  destruct (crc_check_valid p' N') as (c & Ec & V). exists c. split; auto.
  pose proof (valid_error p p' B B' L (proj1 V0 eq_refl)) as Ve. split.
  - intros O. rewrite V, Ve. apply odd_nz; auto.
  - intros i d k Et. rewrite V, Ve, Et. apply two_errors_crc.
Qed.
Lemma damaged_not_answered t0 h c rs p p' : Forall out_ok h -> ctrl_run t0 h = Ok (c, rs) ->
  packet_ok p -> packet_ok p' -> p_len p = p_len p' -> (3 < p_len p)%nat ->
  gen_crc (p_cells p) (p_len p - 1) = Ok (nth (p_len p - 1) (p_cells p) 0) ->
  burst (xor_bits (bits (p_bytes p)) (bits (p_bytes p'))) \/
    Nat.odd (ones (xor_bits (bits (p_bytes p)) (bits (p_bytes p')))) = true ->
  exists c', ctrl_receive c (msg_of p') = Ok c' /\ ctrl_has_tx c' = false.
Proof.
  intros Hh E Hp Hp' L L3 Ec Er. destruct (withdrawn t0 h c rs Hh E) as (s & os & _ & _ & W). apply W; auto; [lia|].
  assert (V : valid (p_bytes p)).
  { destruct (crc_test p Hp L3) as (x & l & E1 & E2 & T). apply T. apply Z.eqb_eq. rewrite Ec in E1. inversion E1; subst.
    apply aget_ok in E2. apply nth_error_nth with (d := 0) in E2. exact E2. }
  assert (Bb : forall q, packet_ok q -> bytes (p_bytes q) /\ length (p_bytes q) = p_len q).
  { intros q (Lq & Nq & Bq). unfold p_bytes. split; [unfold bytes in *; rewrite <- (firstn_skipn (p_len q) (p_cells q)) in Bq; apply Forall_app in Bq; tauto|rewrite firstn_length; lia]. }
  destruct (Bb p Hp) as (B1 & L1), (Bb p' Hp') as (B2 & L2).
  intros [(_ & _ & V')|(_ & _ & V')]; apply (valid_error _ _ B1 B2 ltac:(lia) V) in V'; destruct Er as [Er|Er]; revert V'; [apply burst_nz|apply odd_nz|apply burst_nz|apply odd_nz]; auto.
Qed.
Lemma request_bytes addr p1 p2 : p_bytes p1 = p_bytes p2 -> p_len p1 = p_len p2 -> request addr p1 -> request addr p2.
Proof. unfold request, starts. intros -> ->. auto. Qed.
Lemma same_packet_same_answer t0 h c rs p1 p2 : Forall out_ok h -> ctrl_run t0 h = Ok (c, rs) ->
  packet_ok p1 -> packet_ok p2 -> p_bytes p1 = p_bytes p2 -> p_len p1 = p_len p2 ->
  ((17 <= p_len p1)%nat \/ ((15 <= p_len p1)%nat /\ nth 2 (p_cells p1) 0 = 49)) ->
  exists c1 c2, ctrl_receive c (msg_of p1) = Ok c1 /\ ctrl_receive c (msg_of p2) = Ok c2 /\ ctrl_has_tx c1 = ctrl_has_tx c2 /\
    (ctrl_has_tx c1 = true -> forall out1 out2, length (m_data out1) = 32%nat -> length (m_data out2) = 32%nat ->
     exists c1' c2' m1 m2, ctrl_tx_answer c1 out1 = Ok (c1', m1) /\ ctrl_tx_answer c2 out2 = Ok (c2', m2) /\
       firstn (m_length m1) (m_data m1) = firstn (m_length m2) (m_data m2)).
Proof.
  intros Hh E H1 H2 Eb El Hl.
  destruct (ctrl_history t0 h Hh) as (c0 & s & os & rs0 & E0 & S & X & _). rewrite E in E0. inversion E0; subst c0 rs0.
  destruct (receive_sim c s p1 X H1) as (c1 & s1 & R1 & X1 & St1). destruct (receive_sim c s p2 X H2) as (c2 & s2 & R2 & X2 & St2).
  destruct (St1 0) as (_ & _ & A1). destruct (St2 0) as (_ & _ & A2).
  exists c1, c2. split; auto. split; auto. specialize (A1 ltac:(lia)). specialize (A2 ltac:(lia)).
  unfold ctrl_has_tx. rewrite (sim_ready _ _ X1), (sim_ready _ _ X2).
  assert (Np : k_phase s <> Operation -> k_pending s = None).
  { intros Hn. destruct (k_pending s) as [a|] eqn:Ea; auto. destruct (sim_pend _ _ X a Ea) as (_ & Y & _). contradiction. }
  assert (Case : (k_pending s1 = None /\ k_pending s2 = None) \/
     exists a, k_pending s1 = Some a /\ k_pending s2 = Some a /\ k_addr s1 = k_addr s /\ k_addr s2 = k_addr s).
  { destruct (k_phase s) eqn:Ph.
    - subst s1 s2. left. rewrite Np by discriminate. auto.
    - left. destruct A1 as (A1 & B1), A2 as (A2 & B2).
      destruct (starts_dec p1 64 (k_addr s) 48 H1) as [Y|Y]; [rewrite (A1 Y)|rewrite (B1 Y)]; (destruct (starts_dec p2 64 (k_addr s) 48 H2) as [Z|Z]; [rewrite (A2 Z)|rewrite (B2 Z)]); cbn; rewrite Np by discriminate; auto.
    - destruct A1 as (A1 & B1), A2 as (A2 & B2).
      assert (D : request (k_addr s) p1 \/ ~ request (k_addr s) p1).
      { destruct (starts_dec p1 0 (k_addr s) 48 H1) as [Y|Y]; [left; left; auto|]. destruct (starts_dec p1 0 (k_addr s) 49 H1) as [Y'|Y']; [left; right; auto|]. right. intros [Zq|Zq]; tauto. }
      destruct D as [D|D].
      + pose proof (request_bytes _ _ _ Eb El D) as D2. destruct (A1 D) as (a1 & An1 & ->), (A2 D2) as (a2 & An2 & ->).
        rewrite (answer_fun _ _ _ _ _ H1 H2 Eb El Hl An1 An2). right. exists a2. auto.
      + assert (D2 : ~ request (k_addr s) p2) by (intros Y; apply D; apply (request_bytes _ p2 p1); auto). rewrite (B1 D), (B2 D2). left; auto. }
  destruct Case as [(-> & ->)|(a & P1 & P2 & _)]; [split; [auto|intros; discriminate]|]. rewrite P1, P2. split; auto. intros _ out1 out2 L1 L2.
  destruct (call_sim c1 s1 ((0, Take), out1) X1) as (c3 & s3 & o & r & E3 & X3 & (Eo & Es3) & D). { split; auto. exact I. }
  destruct (call_sim c2 s2 ((0, Take), out2) X2) as (c4 & s4 & o' & r' & E4 & X4 & (Eo' & Es4) & D'). { split; auto. exact I. }
  cbn [ctrl_call fst snd] in E3, E4, D, D'.
  destruct (ctrl_tx_answer c1 out1) as [(c5 & m1)|] eqn:Et1; [|discriminate]. destruct (ctrl_tx_answer c2 out2) as [(c6 & m2)|] eqn:Et2; [|discriminate].
  cbn [bind] in E3, E4. inversion E3; subst c5 r. inversion E4; subst c6 r'.
  rewrite P1 in Eo. rewrite P2 in Eo'. subst o o'. destruct D as (m' & Em & F & _). destruct D' as (m'' & Em' & F' & _).
  inversion Em; inversion Em'; subst m' m''. exists c3, c4, m1, m2. split; auto. split; auto. congruence.
Qed.
