(** P_Ctrl.v -- the emulated controller (C38-C44). *)
From Verif Require Import Base M_Message M_Standalone S_Crc P_Crc S_Ctrl D_Ctrl.

Definition phase_of (c : ctrl_state) : phase := match c with C_IDLE => Idle | C_BUS_SCAN => Scan | C_OPERATING => Operation end.
Definition addr_ok (a : Z) : Prop := a = 240 \/ a = 241.
(** The model state [c] stands for the specification state [s]. *)
Record sim (c : ctrl) (s : controller) : Prop := {
  sim_phase : k_phase s = phase_of (c_state c);
  sim_timer : c_timer c = k_since s + duration (k_phase s);
  sim_addr : k_addr s = c_addr c;
  sim_aok : addr_ok (c_addr c);
  sim_len : length (m_data (c_answer c)) = 32%nat;
  sim_mlen : (m_length (c_answer c) <= 32)%nat;
  sim_d0 : nth 0 (m_data (c_answer c)) 0 = 64;
  sim_d1 : nth 1 (m_data (c_answer c)) 0 = c_addr c;
  sim_ready : c_ready c = match k_pending s with Some _ => true | None => false end;
  sim_pend : forall a, k_pending s = Some a ->
    firstn (m_length (c_answer c)) (m_data (c_answer c)) = a /\ k_phase s = Operation /\ exists p, answer (c_addr c) p a }.

(** ** 32-cell arrays *)
Lemma list_S {A} n (l : list A) : length l = S n -> exists x t, l = x :: t /\ length t = n.
Proof. destruct l; cbn; intros H; [discriminate|]. inversion H. eauto. Qed.
Ltac cells32 l H := repeat (let x := fresh "x" in let t := fresh "t" in let E := fresh "E" in let K := fresh "K" in
  destruct (list_S _ _ H) as (x & t & E & K); match type of E with ?v = _ => subst v end; clear H; rename K into H);
  match type of H with length ?t = 0%nat => destruct t; [|discriminate H] end; clear H.

Lemma valid_dec p : bytes p -> p <> [] -> valid p \/ ~ valid p.
Proof. intros B N. rewrite valid_fold by auto. destruct (Z.eq_dec (cfold (bits p) 0) 0); auto. Qed.

Lemma firstn_snoc (l : list Z) : forall n x, nth_error l n = Some x -> firstn (S n) l = firstn n l ++ [x].
Proof. induction l as [|a t IH]; intros [|n] x E; cbn in *; try discriminate; [inversion E; reflexivity|]. rewrite (IH n x E). reflexivity. Qed.
(** The checksum test of Receive. *)
Lemma crc_test p : packet_ok p -> (3 < p_len p)%nat ->
  exists c l, gen_crc (p_cells p) (p_len p - 1) = Ok c /\ aget (p_cells p) (p_len p - 1) = Ok l /\ ((c =? l) = true <-> valid (p_bytes p)).
Proof.
  intros (L & Ln & B) H. destruct (gen_crc_spec (p_cells p) (p_len p - 1) ltac:(lia)) as (c & E & C).
  destruct (aget_lt (p_cells p) (p_len p - 1) ltac:(lia)) as (l & El). exists c, l. split; auto. split; auto.
  apply aget_ok in El.
  assert (Eb : p_bytes p = firstn (p_len p - 1) (p_cells p) ++ [l]).
  { unfold p_bytes. rewrite <- (firstn_snoc _ _ _ El). f_equal. lia. }
  rewrite Eb. split.
  - intros T. apply Z.eqb_eq in T. subst l. exists (firstn (p_len p - 1) (p_cells p)), c. auto.
  - intros (d & c' & Ed & H'). apply app_inj_tail in Ed as (Ed & El'). apply Z.eqb_eq. subst d c'. eapply checksum_fun; eauto.
Qed.
Lemma firstn3 (l : list Z) n : (3 < n)%nat -> (n <= length l)%nat -> exists a b c t, l = a :: b :: c :: t /\ firstn n l = a :: b :: c :: firstn (n - 3) t.
Proof.
  intros H L. destruct l as [|a [|b [|c t]]]; cbn in L; try lia. exists a, b, c, t. split; auto.
  replace n with (S (S (S (n - 3)))) at 1 by lia. reflexivity.
Qed.
Lemma starts_iff p a b c x y z t : p_cells p = x :: y :: z :: t -> packet_ok p -> (3 < p_len p)%nat ->
  (starts p a b c <-> x = a /\ y = b /\ z = c /\ valid (p_bytes p)).
Proof.
  intros E (L & Ln & _) H. unfold starts.
  assert (Eb : p_bytes p = x :: y :: z :: firstn (p_len p - 3) t).
  { unfold p_bytes. rewrite E. replace (p_len p) with (S (S (S (p_len p - 3)))) at 1 by lia. reflexivity. }
  rewrite Eb. split.
  - intros (_ & (r & Er) & V). inversion Er; subst. auto.
  - intros (-> & -> & -> & V). split; auto. split; eauto.
Qed.

(** ** GenerateAnswer *)
Lemma generate_sense c p : length (m_data (c_answer c)) = 32%nat -> packet_ok p ->
  nth 0 (m_data (c_answer c)) 0 = 64 -> nth 1 (m_data (c_answer c)) 0 = c_addr c -> nth 2 (p_cells p) 0 = 48 ->
  exists a', generate_answer c (msg_of p) = Ok (CTRL a' (c_addr c) true (c_state c) (c_timer c)) /\
    length (m_data a') = 32%nat /\ m_length a' = 18%nat /\ nth 0 (m_data a') 0 = 64 /\ nth 1 (m_data a') 0 = c_addr c /\
    exists k, firstn 18 (m_data a') = ([64; c_addr c; 48] ++ cells p 3 14) ++ [k] /\ checksum ([64; c_addr c; 48] ++ cells p 3 14) k.
Proof.
  intros L (Lp & _) D0 D1 D2. destruct c as [a ad rd st tm], p as [n cl]. destruct a as [ms mt md ml].
  cbn [c_answer c_addr c_ready c_state c_timer m_data p_cells] in *.
  cells32 md L. cells32 cl Lp. cbn [nth] in D0, D1, D2. subst.
  unfold generate_answer, msg_of, cells. cbn -[gen_crc firstn skipn].
  repeat (rewrite aset_ok by (cbn [length]; lia); cbn [bind upd]).
  match goal with |- context [gen_crc ?l 17] => destruct (gen_crc_spec l 17 ltac:(cbn; lia)) as (k & E & C) end. rewrite E. cbn [bind]. rewrite aset_ok by (cbn [length]; lia); cbn [bind upd].
  eexists. split; [reflexivity|]. cbn [m_data m_length length nth]. split; [reflexivity|]. split; [reflexivity|]. split; [reflexivity|]. split; [reflexivity|].
  exists k. split; [reflexivity|]. exact C.
Qed.
Lemma generate_status c p : length (m_data (c_answer c)) = 32%nat -> packet_ok p ->
  nth 0 (m_data (c_answer c)) 0 = 64 -> nth 1 (m_data (c_answer c)) 0 = c_addr c -> nth 2 (p_cells p) 0 = 49 ->
  exists a', generate_answer c (msg_of p) = Ok (CTRL a' (c_addr c) true (c_state c) (c_timer c)) /\
    length (m_data a') = 32%nat /\ m_length a' = 16%nat /\ nth 0 (m_data a') 0 = 64 /\ nth 1 (m_data a') 0 = c_addr c /\
    let body := [64; c_addr c; 49] ++ cells p 3 4 ++ [180; 16] ++ cells p 9 6 in
    exists k, firstn 16 (m_data a') = body ++ [k] /\ checksum body k.
Proof.
  intros L (Lp & _) D0 D1 D2. destruct c as [a ad rd st tm], p as [n cl]. destruct a as [ms mt md ml].
  cbn [c_answer c_addr c_ready c_state c_timer m_data p_cells] in *.
  cells32 md L. cells32 cl Lp. cbn [nth] in D0, D1, D2. subst.
  unfold generate_answer, msg_of, cells. cbn -[gen_crc firstn skipn].
  repeat (rewrite aset_ok by (cbn [length]; lia); cbn [bind upd]).
  match goal with |- context [gen_crc ?l 15] => destruct (gen_crc_spec l 15 ltac:(cbn; lia)) as (k & E & C) end. rewrite E. cbn [bind]. rewrite aset_ok by (cbn [length]; lia); cbn [bind upd].
  eexists. split; [reflexivity|]. cbn [m_data m_length length nth]. split; [reflexivity|]. split; [reflexivity|]. split; [reflexivity|]. split; [reflexivity|].
  exists k. split; [reflexivity|]. exact C.
Qed.

(** ** Receive *)
Lemma addr_flip a : addr_ok a -> (if 241 <? a + 1 then DEFAULT_ADDR else a + 1) = 481 - a /\ addr_ok (481 - a) /\ u8 (481 - a) = 481 - a.
Proof. intros [-> | ->]; cbn; unfold addr_ok; auto. Qed.

Lemma receive_sim c s p : sim c s -> packet_ok p ->
  exists c' s', ctrl_receive c (msg_of p) = Ok c' /\ sim c' s' /\ forall now, step now (Receive p) s s' None.
Proof.
  intros H Hp. destruct (Hp) as (Lc & Ln & Hb). unfold ctrl_receive. change (m_length (msg_of p)) with (p_len p). change (m_data (msg_of p)) with (p_cells p).
  destruct (Nat.leb_spec (p_len p) 3) as [Hs|Hs].
  - exists c, s. split; auto. split; auto. intros now. split; auto. split; auto. lia.
  - destruct (crc_test p Hp Hs) as (crc & last & E1 & E2 & V).
    destruct (firstn3 (p_cells p) (p_len p) Hs ltac:(lia)) as (x & y & z & t & Ec & Ef).
    assert (A0 : aget (p_cells p) 0 = Ok x) by (rewrite Ec; reflexivity).
    assert (A1 : aget (p_cells p) 1 = Ok y) by (rewrite Ec; reflexivity).
    assert (A2 : aget (p_cells p) 2 = Ok z) by (rewrite Ec; reflexivity).
    pose proof (sim_phase _ _ H) as Ph. pose proof (sim_addr _ _ H) as Ad. pose proof (sim_aok _ _ H) as Aok.
    destruct (c_state c) eqn:Est; cbn [phase_of] in Ph.
    + exists c, s. split; auto. split; auto. intros now. split; auto. split; auto. intros _. rewrite Ph. reflexivity.
    + rewrite A0. cbn [bind]. rewrite A1. cbn [bind]. rewrite A2. cbn [bind].
      assert (Cf : conflict (k_addr s) p <-> ((x =? CMD_ANSWER) && (y =? c_addr c) && (z =? TYPE_SENSE)) = true /\ (crc =? last) = true).
      { unfold conflict. rewrite (starts_iff p _ _ _ _ _ _ _ Ec Hp Hs), Ad, V. unfold CMD_ANSWER, TYPE_SENSE.
        destruct (Z.eqb_spec x 64), (Z.eqb_spec y (c_addr c)), (Z.eqb_spec z 48); cbn [andb]; intuition (try discriminate; auto). }
      destruct ((x =? CMD_ANSWER) && (y =? c_addr c) && (z =? TYPE_SENSE)) eqn:Et.
      * rewrite E1, E2. cbn [bind]. destruct (crc =? last) eqn:Ek.
        -- destruct (addr_flip _ Aok) as (Fa & Fo & Fu). rewrite Fa, Fu.
           pose proof (sim_len _ _ H) as La. rewrite aset_ok by lia. cbn [bind].
           destruct (gen_crc_spec (upd (m_data (c_answer c)) 1 (481 - c_addr c)) 17 ltac:(rewrite upd_length; lia)) as (k & Ek' & _). rewrite Ek'. cbn [bind].
           rewrite aset_ok by (rewrite upd_length; lia). cbn [bind]. eexists. exists (CT Scan (k_since s) (481 - k_addr s) (k_pending s)).
           split; [reflexivity|]. split.
           ++ assert (Np : k_pending s = None).
              { destruct (k_pending s) as [a|] eqn:Ea; auto. destruct (sim_pend _ _ H a Ea) as (_ & X & _). congruence. }
              pose proof (sim_d0 _ _ H) as D0. pose proof (sim_timer _ _ H) as T. pose proof (sim_ready _ _ H) as R. pose proof (sim_mlen _ _ H) as M.
              destruct c as [a ad rd st tm]. destruct a as [ms mt md ml]. cbn [c_answer c_addr c_ready c_state c_timer m_data m_length m_status m_time] in *.
              constructor; cbn [c_answer c_addr c_ready c_state c_timer m_data m_length k_phase k_since k_addr k_pending]; rewrite ?upd_length; auto.
              all: try (rewrite T, Ph; reflexivity); try congruence; try (intros a Ea; congruence).
              all: destruct md as [|m0 [|m1 md]]; cbn in La; try discriminate; first [exact D0 | reflexivity].
           ++ intros now. split; auto. split; [lia|]. intros _. rewrite Ph. split; auto. intros X. exfalso. apply X, Cf. auto.
        -- exists c, s. split; auto. split; auto. intros now. split; auto. split; auto. intros _. rewrite Ph. split; auto.
           intros X. apply Cf in X as (_ & X). discriminate.
      * exists c, s. split; auto. split; auto. intros now. split; auto. split; auto. intros _. rewrite Ph. split; auto.
        intros X. apply Cf in X as (X & _). discriminate.
    + unfold need_to_handle. change (m_data (msg_of p)) with (p_cells p).
      assert (Rq : request (k_addr s) p <-> (negb (negb (x =? CMD_REQUEST)) && negb (negb (y =? c_addr c)) && ((z =? TYPE_SENSE) || (z =? TYPE_STATUS))) = true /\ (crc =? last) = true).
      { unfold request. rewrite !(starts_iff p _ _ _ _ _ _ _ Ec Hp Hs), Ad, V. unfold CMD_REQUEST, TYPE_SENSE, TYPE_STATUS.
        destruct (Z.eqb_spec x 0), (Z.eqb_spec y (c_addr c)), (Z.eqb_spec z 48), (Z.eqb_spec z 49); cbn [andb negb orb]; intuition (try discriminate; auto; try congruence). }
      match type of Rq with _ <-> ?b = true /\ _ => set (nd := b) in * end.
      match goal with |- exists c' s', bind ?n _ = _ /\ _ => replace n with (Ok nd) end.
      2:{ rewrite A0. cbn [bind]. unfold nd. destruct (x =? CMD_REQUEST); cbn [negb andb]; [|reflexivity].
          rewrite A1. cbn [bind]. destruct (y =? c_addr c); cbn [negb andb]; [|reflexivity]. rewrite A2. reflexivity. }
      cbn [bind].
      assert (No : ~ request (k_addr s) p -> sim (CTRL (c_answer c) (c_addr c) false (c_state c) (c_timer c)) (CT Operation (k_since s) (k_addr s) None)).
      { intros _. destruct H. constructor; cbn [c_answer c_addr c_ready c_state c_timer k_phase k_since k_addr k_pending]; auto.
        all: try (rewrite Est; reflexivity); try (rewrite sim_timer0, Ph; reflexivity); intros a Ea; discriminate. }
      rewrite Est in No.
      destruct nd eqn:End.
      * rewrite E1. cbn [bind]. rewrite E2. cbn [bind]. destruct (crc =? last) eqn:Ek; cbn [bind].
        -- assert (R : request (k_addr s) p) by (apply Rq; auto). assert (Vp : valid (p_bytes p)) by (apply V; auto).
           assert (Z2 : nth 2 (p_cells p) 0 = z) by (rewrite Ec; reflexivity).
           unfold nd, CMD_REQUEST, TYPE_SENSE, TYPE_STATUS in End. rewrite !negb_involutive in End.
           apply andb_prop in End as (End & Ez). apply andb_prop in End as (Ex & Ey). apply Z.eqb_eq in Ex, Ey.
           destruct (Z.eqb_spec z 48) as [Hz|Hz].
           ++ destruct (generate_sense c p (sim_len _ _ H) Hp (sim_d0 _ _ H) (sim_d1 _ _ H) ltac:(congruence)) as (a' & G & La & Ml & B0 & B1 & k & Ea & Ck).
              assert (An : answer (c_addr c) p (firstn 18 (m_data a'))).
              { eexists _, k. split; [exact Ea|]. split; [exact Ck|]. left. split; [|reflexivity]. apply (starts_iff p _ _ _ _ _ _ _ Ec Hp Hs). auto. }
              eexists. exists (CT Operation (k_since s) (k_addr s) (Some (firstn 18 (m_data a')))). split; [exact G|]. split.
              ** destruct H. constructor; cbn [c_answer c_addr c_ready c_state c_timer k_phase k_since k_addr k_pending]; auto; try lia.
                 all: try (rewrite Est; reflexivity); try (rewrite sim_timer0, Ph; reflexivity).
                 intros a E. inversion E; subst. rewrite Ml. split; auto. split; auto. exists p. exact An.
              ** intros now. split; auto. split; [lia|]. intros _. rewrite Ph. split; [|contradiction]. intros _.
                 eexists. split; [|reflexivity]. rewrite Ad. exact An.
           ++ cbn [orb] in Ez. apply Z.eqb_eq in Ez.
              destruct (generate_status c p (sim_len _ _ H) Hp (sim_d0 _ _ H) (sim_d1 _ _ H) ltac:(congruence)) as (a' & G & La & Ml & B0 & B1 & k & Ea & Ck).
              assert (An : answer (c_addr c) p (firstn 16 (m_data a'))).
              { eexists _, k. split; [exact Ea|]. split; [exact Ck|]. right. split; [|reflexivity]. apply (starts_iff p _ _ _ _ _ _ _ Ec Hp Hs). auto. }
              eexists. exists (CT Operation (k_since s) (k_addr s) (Some (firstn 16 (m_data a')))). split; [exact G|]. split.
              ** destruct H. constructor; cbn [c_answer c_addr c_ready c_state c_timer k_phase k_since k_addr k_pending]; auto; try lia.
                 all: try (rewrite Est; reflexivity); try (rewrite sim_timer0, Ph; reflexivity).
                 intros a E. inversion E; subst. rewrite Ml. split; auto. split; auto. exists p. exact An.
              ** intros now. split; auto. split; [lia|]. intros _. rewrite Ph. split; [|contradiction]. intros _.
                 eexists. split; [|reflexivity]. rewrite Ad. exact An.
        -- assert (N : ~ request (k_addr s) p) by (intros R; apply Rq in R as (_ & R); discriminate).
           eexists _, _. split; [reflexivity|]. split; [exact (No N)|]. intros now. split; auto. split; [lia|]. intros _. rewrite Ph. split; [contradiction|auto].
      * assert (N : ~ request (k_addr s) p) by (intros R; apply Rq in R as (R & _); discriminate).
        cbn [bind]. eexists _, _. split; [reflexivity|]. split; [exact (No N)|]. intros now. split; auto. split; [lia|]. intros _. rewrite Ph. split; [contradiction|auto].
Qed.

(** ** TxAnswer and the other calls *)
Lemma copy_loop_ok src : forall k i dst, (i + k <= length src)%nat -> (i + k <= length dst)%nat ->
  exists d, copy_loop src i k dst = Ok d /\ length d = length dst /\ firstn (i + k) d = firstn i dst ++ firstn k (skipn i src).
Proof.
  induction k as [|k IH]; intros i dst Hs Hd; cbn [copy_loop].
  - exists dst. rewrite Nat.add_0_r, firstn_O, app_nil_r. auto.
  - destruct (nth_error src i) as [v|] eqn:E; [|apply nth_error_None in E; lia]. unfold aget. rewrite E. cbn [bind].
    rewrite aset_ok by lia. cbn [bind]. destruct (IH (S i) (upd dst i v) ltac:(lia) ltac:(rewrite upd_length; lia)) as (d & Ed & Ld & Fd).
    exists d. split; auto. rewrite upd_length in Ld. split; auto. replace (i + S k)%nat with (S i + k)%nat by lia. rewrite Fd.
    assert (Fu : firstn (S i) (upd dst i v) = firstn i dst ++ [v]).
    { assert (L : (i < length dst)%nat) by lia. clear - L. revert i L. induction dst as [|a t IH]; intros [|i] L; cbn in *; try lia; auto. f_equal. apply IH; lia. }
    rewrite Fu.
    assert (Sk : skipn i src = v :: skipn (S i) src).
    { clear - E. revert src E. induction i as [|i IH]; intros [|a t] E; cbn in *; try discriminate; [inversion E; reflexivity|]. apply IH; auto. }
    rewrite Sk. cbn [firstn]. rewrite <- app_assoc. reflexivity.
Qed.

Lemma call_sim c s e : sim c s -> out_ok e ->
  exists c' s' o r, ctrl_call c e = Ok (c', r) /\ sim c' s' /\ step (fst (fst e)) (snd (fst e)) s s' o /\ delivers e o r.
Proof.
  destruct e as ((now & cl) & out). intros H (Hc & Ho). cbn [fst snd] in *. destruct cl as [|p| |]; cbn [ctrl_call].
  - exists (ctrl_check now c).
    exists (if k_since s + duration (k_phase s) <=? now
      then CT (next (k_phase s)) now (k_addr s) (match k_phase s with Operation => None | _ => k_pending s end) else s), None, None.
    split; auto. split; [|split; [split; [auto|destruct (_ <=? now); auto]|reflexivity]].
    destruct (H). unfold ctrl_check. rewrite <- sim_timer0. destruct (c_state c) eqn:Est; cbn [phase_of] in *;
      destruct (c_timer c <=? now); auto; rewrite sim_phase0 in *.
    + assert (Np : k_pending s = None) by (destruct (k_pending s) as [a|] eqn:Ea; auto; destruct (sim_pend0 a eq_refl) as (_ & X & _); discriminate).
      rewrite Np in *. constructor; cbn; auto; try discriminate.
    + assert (Np : k_pending s = None) by (destruct (k_pending s) as [a|] eqn:Ea; auto; destruct (sim_pend0 a eq_refl) as (_ & X & _); discriminate).
      rewrite Np in *. constructor; cbn; auto; try discriminate.
    + constructor; cbn; auto; try discriminate.
  - destruct (receive_sim c s p H Hc) as (c' & s' & E & H' & St). rewrite E. cbn [bind]. exists c', s', None, None. repeat (split; auto).
  - exists (ctrl_bus_collision now c), (CT Idle now (k_addr s) None), None, None. split; auto. split; [|split; [split; auto|reflexivity]].
    destruct H. constructor; cbn; auto; try discriminate.
  - destruct H. unfold ctrl_tx_answer.
    destruct (copy_loop_ok (m_data (c_answer c)) (m_length (c_answer c)) 0 (m_data out) ltac:(lia) ltac:(lia)) as (d & Ed & Ld & Fd).
    rewrite Ed. cbn [bind]. eexists _, (CT (k_phase s) (k_since s) (k_addr s) None), (k_pending s), _. split; [reflexivity|]. split; [|split; [split; auto|]].
    + constructor; cbn; auto; try discriminate.
    + unfold delivers. cbn [fst snd]. destruct (k_pending s) as [a|] eqn:Ea; [|eauto].
      destruct (sim_pend0 a eq_refl) as (F & _ & _). eexists. split; [reflexivity|]. cbn [m_length m_data m_status m_time].
      cbn [Nat.add firstn skipn app] in Fd. rewrite Fd. split; [rewrite <- F; reflexivity|]. split; auto.
      rewrite <- F. rewrite firstn_length_le by lia. reflexivity.
Qed.

Lemma new_sim t0 : exists c, ctrl_new t0 = Ok c /\ sim c (controller0 t0).
Proof.
  eexists. split; [reflexivity|]. constructor; cbn; auto; try discriminate; try lia.
  left. reflexivity.
Qed.

Lemma run_sim h : forall c s, sim c s -> Forall out_ok h ->
  exists c' s' os rs, mrun ctrl_call c h = Ok (c', rs) /\ steps s (map fst h) s' os /\ sim c' s' /\
    length os = length h /\ length rs = length h /\
    forall i e o r, nth_error h i = Some e -> nth_error os i = Some o -> nth_error rs i = Some r -> delivers e o r.
Proof.
  induction h as [|e h IH]; intros c s H Hh; cbn [mrun map].
  - exists c, s, [], []. split; [reflexivity|]. split; [constructor|]. split; [auto|]. split; [reflexivity|]. split; [reflexivity|]. intros [|i]; discriminate.
  - inversion Hh as [|? ? He Hr]; subst. destruct (call_sim c s e H He) as (c1 & s1 & o & r & E & H1 & St & D).
    rewrite E. cbn [bind]. destruct (IH c1 s1 H1 Hr) as (c' & s' & os & rs & E' & St' & H' & L1 & L2 & D').
    rewrite E'. cbn [bind]. exists c', s', (o :: os), (r :: rs). split; auto. split; [destruct e as ((n & cl) & ou); econstructor; eauto|].
    split; auto. split; [cbn; lia|]. split; [cbn; lia|].
    intros [|i] e' o' r' N1 N2 N3; cbn in *; [inversion N1; inversion N2; inversion N3; subst; auto|eauto].
Qed.

Lemma ctrl_history t0 h : Forall out_ok h ->
  exists c s os rs, ctrl_run t0 h = Ok (c, rs) /\ steps (controller0 t0) (map fst h) s os /\ sim c s /\
    length os = length h /\ length rs = length h /\
    forall i e o r, nth_error h i = Some e -> nth_error os i = Some o -> nth_error rs i = Some r -> delivers e o r.
Proof.
  intros H. destruct (new_sim t0) as (c0 & E & S). unfold ctrl_run. rewrite E. cbn [bind]. exact (run_sim h c0 _ S H).
Qed.

(** ** Timing facts of the specification *)
Lemma steps_app s h1 : forall h2 s2 os, steps s (h1 ++ h2) s2 os -> exists s1 os1 os2, steps s h1 s1 os1 /\ steps s1 h2 s2 os2 /\ os = os1 ++ os2.
Proof.
  revert s; induction h1 as [|(n & c) h1 IH]; intros s h2 s2 os H; cbn in *.
  - exists s, [], os. split; [constructor|auto].
  - inversion H as [|? ? ? s1 o ? ? os1 Hst Hrest]; subst. destruct (IH _ _ _ _ Hrest) as (s' & o1 & o2 & A & B & ->). exists s', (o :: o1), o2. split; [econstructor; eauto|auto].
Qed.

(** Silence until 2.1 s after [t]. *)
Definition quiet_since (t : Z) (s : controller) : Prop :=
  match k_phase s with
  | Idle => t <= k_since s | Scan => t + 100000 <= k_since s | Operation => t + 2100000 <= k_since s end.
Lemma starts_dec p a b c : packet_ok p -> starts p a b c \/ ~ starts p a b c.
Proof.
  intros Hp. destruct (Nat.le_gt_cases (p_len p) 3) as [L|L]; [right; intros (X & _); lia|].
  destruct (Hp) as (Lc & Ln & B). destruct (firstn3 (p_cells p) (p_len p) L ltac:(lia)) as (x & y & z & t & Ec & Ef).
  rewrite (starts_iff p a b c x y z t Ec Hp L).
  assert (N : p_bytes p <> []) by (unfold p_bytes; rewrite Ef; discriminate).
  assert (Bp : bytes (p_bytes p)).
  { unfold p_bytes, bytes in *. rewrite <- (firstn_skipn (p_len p)) in B. apply Forall_app in B. tauto. }
  destruct (valid_dec _ Bp N), (Z.eq_dec x a), (Z.eq_dec y b), (Z.eq_dec z c); tauto.
Qed.
Lemma step_quiet t now c s s' o : step now c s s' o -> call_ok (now, c) -> k_since s <= now -> quiet_since t s ->
  quiet_since t s' /\ k_since s' <= now.
Proof.
  intros H Hc Hn Q. destruct c as [|p| |]; cbn [step] in H; destruct H as (_ & H).
  - destruct (Z.leb_spec (k_since s + duration (k_phase s)) now); subst s'; [|auto]. unfold quiet_since in *. cbn [k_phase k_since].
    destruct (k_phase s); cbn [next duration] in *; lia.
  - destruct H as (H1 & H2). destruct (Nat.le_gt_cases (p_len p) 3) as [L|L]; [rewrite (H1 L); auto|]. specialize (H2 L).
    cbn in Hc. unfold quiet_since in *. destruct (k_phase s) eqn:Ep.
    + subst. rewrite Ep. auto.
    + destruct H2 as (A & B). destruct (starts_dec p 64 (k_addr s) 48 Hc) as [D|D]; [rewrite (A D); cbn; auto|rewrite (B D), Ep; auto].
    + destruct H2 as (A & B). destruct (starts_dec p 0 (k_addr s) 48 Hc) as [D|D]; [|destruct (starts_dec p 0 (k_addr s) 49 Hc) as [D'|D']].
      * destruct (A (or_introl D)) as (a & _ & ->). cbn. auto.
      * destruct (A (or_intror D')) as (a & _ & ->). cbn. auto.
      * rewrite B by (intros [X|X]; tauto). cbn. auto.
  - subst. unfold quiet_since in *. cbn. split; [|lia]. destruct (k_phase s); lia.
  - subst. unfold quiet_since in *. cbn. auto.
Qed.
Lemma steps_quiet t h : forall s s' os t1, steps s h s' os -> Forall call_ok h -> ordered t1 h -> k_since s <= t1 -> quiet_since t s ->
  quiet_since t s' /\ k_since s' <= fold_left (fun _ e => fst e) h t1.
Proof.
  induction h as [|(n & c) h IH]; intros s s' os t1 H Hc Ho Hs Q; inversion H as [|? ? ? s1 o ? ? os1 Hst Hrest]; subst; cbn in *; auto.
  inversion Hc; subst. destruct Ho as (O1 & O2). destruct (step_quiet t n c s s1 o Hst) as (Q1 & K1); auto; [lia|]. eapply IH; eauto.
Qed.
