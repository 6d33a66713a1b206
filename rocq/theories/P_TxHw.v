(** P_TxHw.v -- the events of M_Tx against the PIO program; truthfulness of Transmitting(). *)
From Verif Require Import Base M_Pio M_Tx S_Pio S_TxHw P_Containers P_Pio.

Definition sm_of (p : pio) : sm_state := if p_irq p then SmShifting else match p_pc p with 2%nat => SmPulled | _ => SmIdle end.
(** Reachable control states. *)
Definition ctl (p : pio) : Prop :=
  if p_irq p then (p_pc p = 0 \/ 3 <= p_pc p <= 31)%nat
  else p_wait p = 0%nat /\ (p_pc p = 0%nat \/ ((p_pc p = 1 \/ p_pc p = 2)%nat /\ p_pins p = 1)).
(** ... after the first cycle. *)
Definition ctl1 (p : pio) : Prop :=
  if p_irq p then (p_pc p = 0 \/ 3 <= p_pc p <= 31)%nat
  else p_wait p = 0%nat /\ (p_pc p = 1 \/ p_pc p = 2)%nat /\ p_pins p = 1.
Lemma ctl1_ctl p : ctl1 p -> ctl p.
Proof. unfold ctl, ctl1. destruct (p_irq p); auto. intros (A & B & C). auto. Qed.
Lemma ctl_init : ctl pio_init.
Proof. cbn. auto. Qed.
Definition hw_of (er : bool) (d : list Z) (sd : bool) (p : pio) : pio_hw := HW er d (p_tx p) (sm_of p) sd.
Definition one_step (es : list hw_event) : Prop := es = [] \/ es = [HwPull] \/ es = [HwStart] \/ es = [HwDone].

Lemma dma_steps er d sd sm a : forall f, (length f + length a <= 8)%nat ->
  fold_left hw_step (map (fun _ => HwDma) a) (HW er (a ++ d) f sm sd) = HW er d (f ++ a) sm sd.
Proof.
  induction a as [|x a IH]; intros f H; cbn [map fold_left app]; [rewrite app_nil_r; reflexivity|].
  cbn [hw_step hw_dma hw_txf hw_error hw_sm hw_shutdown app length] in *. destruct (Nat.ltb_spec (length f) 8); [|lia].
  rewrite IH by (rewrite app_length; cbn; lia). rewrite <- app_assoc. reflexivity.
Qed.

Ltac pcs H := match type of H with (?a = 0 \/ 3 <= ?a <= 31)%nat =>
  assert (a = 0 \/ a = 3 \/ a = 4 \/ a = 5 \/ a = 6 \/ a = 7 \/ a = 8 \/ a = 9 \/ a = 10 \/ a = 11 \/ a = 12 \/ a = 13 \/ a = 14 \/ a = 15 \/ a = 16 \/ a = 17 \/ a = 18 \/ a = 19 \/ a = 20 \/
    a = 21 \/ a = 22 \/ a = 23 \/ a = 24 \/ a = 25 \/ a = 26 \/ a = 27 \/ a = 28 \/ a = 29 \/ a = 30 \/ a = 31)%nat by lia; clear H end.

Lemma cycle_hw er d sd p : ctl p -> ctl1 (pio_cycle tx_program 8 p) /\
  exists es, one_step es /\ fold_left hw_step es (hw_of er d sd p) = hw_of er d sd (pio_cycle tx_program 8 p).
Proof.
  destruct p as [pc x y o c i w pins irq tx rx]. unfold ctl, ctl1, hw_of, sm_of. cbn [p_irq p_pc p_wait p_pins p_tx].
  destruct irq; intros H.
  - destruct w as [|w].
    2:{ cbn [pio_cycle p_wait p_irq p_pc p_x p_y p_osr p_oc p_isr p_pins p_tx p_rx]. split; [exact H|]. exists []. split; [left; reflexivity|reflexivity]. }
    pcs H. destruct H0 as [-> |H]; [cbn; split; [auto|]; exists [HwDone]; split; [unfold one_step; auto|reflexivity]|].
    assert (G : forall q, p_irq q = true -> (p_pc q = 0 \/ 3 <= p_pc q <= 31)%nat -> p_tx q = tx ->
      (if p_irq q then (p_pc q = 0 \/ 3 <= p_pc q <= 31)%nat else p_wait q = 0%nat /\ (p_pc q = 1 \/ p_pc q = 2)%nat /\ p_pins q = 1) /\
      exists es, one_step es /\ fold_left hw_step es (HW er d tx SmShifting sd) = HW er d (p_tx q) (if p_irq q then SmShifting else match p_pc q with 2%nat => SmPulled | _ => SmIdle end) sd).
    { intros q Q1 Q2 Q3. rewrite Q1, Q3. split; [exact Q2|]. exists []. split; [left; reflexivity|reflexivity]. }
    repeat match type of H with _ \/ _ => destruct H as [H|H] end; subst pc; apply G; try reflexivity;
      cbn [pio_cycle p_wait p_pc tx_program nth_error pside i_op i_side i_delay p_irq p_x p_y p_osr p_oc p_isr p_pins p_tx p_rx]; unfold next_pc; cbn [length tx_program Nat.eqb];
      repeat match goal with |- context[if ?b then _ else _] => destruct b end; lia.
  - destruct H as (-> & H). destruct H as [-> |([-> | ->] & ->)].
    + cbn. split; [auto|]. exists []. split; [left; reflexivity|reflexivity].
    + destruct tx as [|v tx]; cbn; (split; [auto|]); [exists []; split; [left; reflexivity|reflexivity]|exists [HwPull]; split; [right; left; reflexivity|reflexivity]].
    + cbn. split; [right; split; repeat constructor|]. exists [HwStart]. split; [right; right; left; reflexivity|reflexivity].
Qed.
Lemma feed_hw er d sd p a : ctl p -> (length (p_tx p) + length a <= 8)%nat -> ctl1 (pio_feed tx_program 8 p a) /\
  exists es, one_step es /\ fold_left hw_step (map (fun _ => HwDma) a ++ es) (hw_of er (a ++ d) sd p) = hw_of er d sd (pio_feed tx_program 8 p a).
Proof.
  intros C L. unfold pio_feed.
  match goal with |- context[pio_cycle tx_program 8 ?q] => destruct (cycle_hw er d sd q) as (C' & es & O & E); [exact C|] end.
  split; [exact C'|]. exists es. split; [exact O|]. rewrite fold_left_app. unfold hw_of at 1. rewrite (dma_steps er d sd (sm_of p) a (p_tx p) L). exact E.
Qed.
Lemma feed_ctl p a : ctl p -> ctl1 (pio_feed tx_program 8 p a).
Proof.
  intros C. unfold pio_feed. match goal with |- context[pio_cycle tx_program 8 ?q] => destruct (cycle_hw false [] false q) as (C' & _); [exact C|] end. exact C'.
Qed.

Lemma after_snoc x a : after (x ++ [a]) = pio_feed tx_program 8 (after x) a.
Proof. unfold after, tx_run. rewrite pio_run_app. destruct (pio_run tx_program 8 pio_init x) as (t1 & s1). reflexivity. Qed.
Lemma after_ctl sched : ctl (after sched).
Proof. induction sched as [|a x IH] using rev_ind; [exact ctl_init|]. rewrite after_snoc. apply ctl1_ctl, feed_ctl. exact IH. Qed.

(** *** The events of M_Tx cover every run of the program *)
Lemma hw_covers sched er d sd : never_full sched ->
  exists es, length es = length sched /\ Forall (fun l => exists a e, l = repeat HwDma a ++ e /\ one_step e) es /\
    forall k, (k <= length sched)%nat ->
      fold_left hw_step (concat (firstn k es)) (HW er (concat sched ++ d) [] SmIdle sd) = hw_of er (concat (skipn k sched) ++ d) sd (after (firstn k sched)).
Proof.
  revert d. induction sched as [|a x IH] using rev_ind; intros d N.
  - exists []. split; [reflexivity|]. split; [constructor|]. intros k Hk. cbn in Hk. replace k with 0%nat by lia. reflexivity.
  - destruct (IH (a ++ d)) as (es & L & F & K). { intros u b v E. apply (N u b (v ++ [a])). rewrite E, <- app_assoc. reflexivity. }
    assert (Nl : (length (p_tx (after x)) + length a <= 8)%nat) by (apply (N x a []); reflexivity).
    destruct (feed_hw er d sd (after x) a (after_ctl x) Nl) as (_ & e & O & E).
    exists (es ++ [map (fun _ => HwDma) a ++ e]). split; [rewrite !app_length; cbn; lia|]. split.
    { apply Forall_app. split; [exact F|]. constructor; [|constructor]. exists (length a), e. split; [|exact O]. f_equal. clear. induction a; cbn; congruence. }
    assert (Ec : concat (x ++ [a]) ++ d = concat x ++ a ++ d) by (rewrite concat_app; cbn [concat]; rewrite app_nil_r, <- app_assoc; reflexivity). rewrite Ec.
    intros k Hk. rewrite app_length in Hk. cbn [length] in Hk. destruct (Nat.eq_dec k (S (length x))) as [-> |Hn].
    + rewrite !firstn_all2 by (rewrite app_length; cbn; lia). rewrite skipn_all2 by (rewrite app_length; cbn; lia). cbn [concat app].
      rewrite concat_app, fold_left_app. cbn [concat]. rewrite app_nil_r.
      specialize (K (length x) (Nat.le_refl _)). rewrite firstn_all, firstn_all2, skipn_all in K by lia. cbn [concat app] in K. rewrite K, E, <- after_snoc. reflexivity.
    + specialize (K k ltac:(lia)). rewrite !firstn_app, skipn_app. replace (k - length es)%nat with 0%nat by lia. replace (k - length x)%nat with 0%nat by lia.
      cbn [firstn skipn]. rewrite !app_nil_r, K, concat_app. cbn [concat]. rewrite app_nil_r, <- app_assoc. reflexivity.
Qed.
Lemma hw_of_irq er d sd p : ctl p -> hw_irq (hw_of er d sd p) = p_irq p.
Proof. intros _. unfold hw_irq, hw_of, sm_of. cbn. destruct (p_irq p); [reflexivity|]. destruct (p_pc p) as [|[|[|?]]]; reflexivity. Qed.
Lemma hw_of_transmitting er d sd p : hw_transmitting (hw_of er d sd p) = reports_transmitting p d.
Proof.
  unfold hw_transmitting, reports_transmitting, hw_data_waiting. unfold hw_irq, hw_of, sm_of. cbn. destruct (p_irq p); [reflexivity|].
  destruct (p_pc p) as [|[|[|?]]]; cbn; destruct (p_tx p), d; reflexivity.
Qed.
Lemma events_cover sched er d sd : never_full sched ->
  exists es, length es = length sched /\ forall k, (k <= length sched)%nat ->
    let h := fold_left hw_step (concat (firstn k es)) (HW er (concat sched ++ d) [] SmIdle sd) in
    hw_dma h = concat (skipn k sched) ++ d /\ hw_txf h = p_tx (after (firstn k sched)) /\ hw_irq h = p_irq (after (firstn k sched)) /\
    hw_transmitting h = reports_transmitting (after (firstn k sched)) (concat (skipn k sched) ++ d) /\ hw_error h = er /\ hw_shutdown h = sd.
Proof.
  intros N. destruct (hw_covers sched er d sd N) as (es & L & _ & K). exists es. split; [exact L|]. intros k Hk. cbv zeta. rewrite (K k Hk).
  rewrite hw_of_transmitting, hw_of_irq by apply after_ctl. repeat (split; [reflexivity|]). reflexivity.
Qed.

(** *** Transmitting() *)
Lemma after_ctl1 sched : sched <> [] -> ctl1 (after sched).
Proof. intros H. destruct (exists_last H) as (x & a & ->). rewrite after_snoc. apply feed_ctl, after_ctl. Qed.
Lemma pulse_flag sched : sched <> [] -> line_level (p_pins (after sched)) <> 0 -> p_irq (after sched) = true.
Proof.
  intros H P. pose proof (after_ctl1 sched H) as C. unfold ctl1 in C. destruct (p_irq (after sched)); [reflexivity|]. destruct C as (_ & _ & C). rewrite C in P. contradiction P. reflexivity.
Qed.
(** At [pull] with nothing in the FIFO. *)
Lemma pull_quiet p sched : p_irq p = false -> p_wait p = 0%nat -> p_pc p = 1%nat -> p_tx p = [] -> concat sched = [] ->
  Forall (fun l => line_level l = 0) (fst (tx_run p sched)).
Proof.
  revert p. unfold tx_run. induction sched as [|a t IH]; intros p Hi Hw Hp Ht Hc; cbn [pio_run fst]; [constructor|]. apply concat_nil_cons in Hc as (-> & Hc).
  destruct p as [pc x y o c i w pins irq tx rx]. cbn in Hi, Hw, Hp, Ht. subst. cbn [pio_feed pio_cycle p_wait p_pc p_tx app nth_error tx_program pside i_op i_side p_irq p_x p_y p_osr p_oc p_isr p_pins p_rx].
  match goal with |- context[pio_run tx_program 8 ?q t] => specialize (IH q eq_refl eq_refl eq_refl eq_refl Hc); destruct (pio_run tx_program 8 q t) as (tr & sf) end.
  cbn [fst] in *. constructor; [reflexivity|exact IH].
Qed.
(** Right after a [pull], or quiet. *)
Lemma silent_or_pulled sched rest : p_irq (after sched) = false -> p_tx (after sched) = [] -> concat rest = [] ->
  just_pulled sched \/ Forall (fun l => line_level l = 0) (fst (tx_run (after sched) rest)).
Proof.
  intros Hi Ht Hc. destruct (list_eq_dec (list_eq_dec Z.eq_dec) sched []) as [-> |H].
  { right. change (after []) with pio_init. unfold tx_run. destruct rest as [|a t]; [constructor|]. apply concat_nil_cons in Hc as (-> & Hc). cbn [pio_run].
    assert (F : pio_feed tx_program 8 pio_init [] = tx_idle 0 0 32 1 []) by reflexivity. rewrite F.
    pose proof (pull_quiet (tx_idle 0 0 32 1 []) t eq_refl eq_refl eq_refl eq_refl Hc) as Q. unfold tx_run in Q. destruct (pio_run tx_program 8 (tx_idle 0 0 32 1 []) t) as (tr & sf).
    cbn [fst] in *. constructor; [reflexivity|exact Q]. }
  pose proof (after_ctl1 sched H) as C. unfold ctl1 in C. rewrite Hi in C. destruct C as (W & [P|P] & _); [right; apply pull_quiet; auto|left].
  destruct (exists_last H) as (x & a & ->). exists x, a. rewrite after_snoc in *. pose proof (after_ctl x) as C.
  destruct (after x) as [pc r y o c i w pins irq tx rx]. unfold ctl in C. cbn [p_irq p_pc p_wait p_pins p_tx] in *.
  assert (Hx : pc = 1%nat /\ w = 0%nat).
  { destruct irq.
    - exfalso. unfold pio_feed in Hi, P. cbn [p_irq p_pc p_wait p_pins p_x p_y p_osr p_oc p_isr p_tx p_rx] in Hi, P. destruct w as [|w]; [|discriminate Hi].
      pcs C. destruct H0 as [-> |H0]; [discriminate P|].
      repeat match type of H0 with _ \/ _ => destruct H0 as [H0|H0] end; subst pc; discriminate Hi.
    - destruct C as (-> & [-> |([-> | ->] & _)]); [discriminate P|auto|discriminate Hi]. }
  destruct Hx as (-> & ->). unfold pio_feed in *. cbn [pio_cycle p_wait p_pc p_tx nth_error tx_program pside i_op i_side p_irq p_x p_y p_osr p_oc p_isr p_pins p_rx i_delay] in *.
  destruct (tx ++ a) as [|v q] eqn:Eq; [discriminate P|]. exists v, q. auto.
Qed.

(** *** How long the flag is set *)
Lemma prun_split k : forall m s tr sf rx, prun tx_program 8 (k + m) s = Some (tr, sf, rx) ->
  exists tr1 sk rx1, prun tx_program 8 k s = Some (tr1, sk, rx1) /\ ((0 < m)%nat -> at_pull tx_program sk = false).
Proof.
  induction k as [|k IH]; intros m s tr sf rx H.
  - exists [], s, []. split; [reflexivity|]. intros Hm. destruct m; [lia|]. cbn [Nat.add prun] in H. destruct (at_pull tx_program s); [discriminate|reflexivity].
  - cbn [Nat.add prun] in H |- *. destruct (at_pull tx_program s); [discriminate|].
    destruct (prun tx_program 8 (k + m) (set_q (pio_cycle tx_program 8 s) [] [])) as [((tr2 & sf2) & rx2)|] eqn:E; [|discriminate].
    destruct (IH _ _ _ _ _ E) as (tr1 & sk & rx1 & E1 & P). rewrite E1. eexists _, sk, _. split; [reflexivity|exact P].
Qed.
Definition begun (y v : Z) : Prop := (y = 0 \/ y = 1) /\ exists b, word_of b v.
Lemma frame_mid_gen N y b v q t : tx_check1 N y b v = true -> (length t < N)%nat ->
  exists r tr, tx_run (tx_start y v q) t = (tr, set_q r (q ++ concat t) (p_rx r)) /\ at_pull tx_program r = false.
Proof.
  intros H L. unfold tx_check1 in H.
  destruct (prun tx_program 8 N (tx_start y v [])) as [[[tr sf] rx]|] eqn:E; [|discriminate]. clear H.
  assert (En : N = (length t + (N - length t))%nat) by lia. rewrite En in E. destruct (prun_split _ _ _ _ _ _ E) as (tr1 & sk & rx1 & E1 & P).
  pose proof (prun_sched tx_program 8 (length t) (tx_start y v []) _ _ _ t q [] eq_refl E1 eq_refl) as R.
  exists (set_q sk [] rx1), tr1. split; [exact R|]. specialize (P ltac:(lia)). exact P.
Qed.
Lemma frame_mid y v q t : begun y v -> (length t < 174)%nat -> exists r tr, tx_run (tx_start y v q) t = (tr, set_q r (q ++ concat t) (p_rx r)) /\ at_pull tx_program r = false.
Proof. intros (Hy & b & Hv) L. exact (frame_mid_gen 174 y b v q t (tx_check_word y b v Hy Hv) L). Qed.
Lemma after_app x t : after (x ++ t) = snd (tx_run (after x) t).
Proof. unfold after, tx_run. rewrite pio_run_app. destruct (pio_run tx_program 8 pio_init x) as (t1 & s1). cbn. destruct (pio_run tx_program 8 s1 t); reflexivity. Qed.
Definition isword (v : Z) : Prop := exists b, word_of b v.
Inductive stage (sched : list (list Z)) : Prop :=
| St_init : sched = [] -> stage sched
| St_idle y o c q : y = 0 \/ y = 1 -> Forall isword q -> after sched = tx_idle y o c 1 q -> stage sched
| St_mid x t y v q : sched = x ++ t -> after x = tx_start y v q -> begun y v -> Forall isword q -> (length t < 174)%nat -> stage sched.
Lemma stages sched : Forall isword (concat sched) -> stage sched.
Proof.
  induction sched as [|a s IH] using rev_ind; intros F; [apply St_init; reflexivity|].
  rewrite concat_app in F. cbn [concat] in F. rewrite app_nil_r in F. apply Forall_app in F as (F1 & F2).
  destruct (IH F1) as [-> |y o c q Hy Hq E|x t y v q -> E B Hq L].
  - apply (St_idle _ 0 0 32 a); auto.
  - assert (Fq : Forall isword (q ++ a)) by (apply Forall_app; auto). pose proof (after_snoc s a) as S. rewrite E, tx_pull in S.
    destruct (q ++ a) as [|v q']; [apply (St_idle _ y o c []); auto|]. inversion Fq; subst.
    apply (St_mid _ (s ++ [a]) [] y v q'); auto; [rewrite app_nil_r; reflexivity|split; auto|cbn; lia].
  - destruct (Nat.eq_dec (length t) 173) as [L'|L'].
    + destruct B as (Hy & b & Hv). destruct (tx_frame y b v (t ++ [a]) q Hy Hv ltac:(rewrite app_length; cbn; lia)) as (tr & y' & o & c & R & _ & Hy').
      apply (St_idle _ y' o c (q ++ concat (t ++ [a]))); auto.
      * rewrite concat_app in *. cbn [concat]. rewrite app_nil_r. apply Forall_app in F1 as (_ & F1). repeat (apply Forall_app; split); auto.
      * rewrite <- app_assoc, after_app, E, R. reflexivity.
    + apply (St_mid _ x (t ++ [a]) y v q); auto; [rewrite app_assoc; reflexivity|rewrite app_length; cbn; lia].
Qed.
Lemma feed_queue p a : at_pull tx_program p = false -> p_tx (pio_feed tx_program 8 p a) = p_tx p ++ a.
Proof.
  unfold at_pull, pio_feed, pio_cycle. destruct p as [pc x y o c i w pins irq tx rx]. cbn [p_wait p_pc p_tx p_irq p_x p_y p_osr p_oc p_isr p_pins p_rx].
  destruct w; [|reflexivity]. destruct (nth_error tx_program pc) as [j|]; [|reflexivity]. destruct (i_op j) as [cd tg| | | | | | | |]; try discriminate; try reflexivity.
  intros _. destruct cd; reflexivity.
Qed.
Lemma pulled_start x : Forall isword (concat x) -> just_pulled x -> exists y v q, after x = tx_start y v q /\ begun y v.
Proof.
  intros F (x' & a & v & q & -> & E & Q). rewrite concat_app in F. cbn [concat] in F. rewrite app_nil_r in F. apply Forall_app in F as (F1 & F2). rewrite after_snoc in *.
  destruct (stages x' F1) as [-> |y o c q0 Hy Hq E0|z t y v0 q0 -> E0 B Hq L].
  - exfalso. change (a = v :: q) in E. subst a. change (v :: q = q) in Q. apply (f_equal (@length Z)) in Q. cbn in Q. lia.
  - rewrite E0 in *. cbn [p_tx tx_idle] in E. rewrite tx_pull, E. exists y, v, q. split; [reflexivity|]. split; [exact Hy|].
    assert (X : Forall isword (q0 ++ a)) by (apply Forall_app; auto). rewrite E in X. inversion X; auto.
  - exfalso. destruct (frame_mid y v0 q0 t B L) as (r & tr & R & P). rewrite after_app, E0, R in *. cbn [snd] in *.
    rewrite feed_queue in Q by exact P. rewrite E in Q. apply (f_equal (@length Z)) in Q. cbn in Q. lia.
Qed.
Lemma irq_drop p a : ctl p -> p_irq p = true -> p_irq (pio_feed tx_program 8 p a) = false -> at_pull tx_program (pio_feed tx_program 8 p a) = true.
Proof.
  destruct p as [pc x y o c i w pins irq tx rx]. unfold ctl, pio_feed. cbn [p_irq p_pc p_wait p_pins p_x p_y p_osr p_oc p_isr p_tx p_rx]. intros C -> D. destruct w as [|w]; [|discriminate D].
  pcs C. repeat match type of H with _ \/ _ => destruct H as [H|H] end; subst pc; try discriminate D. reflexivity.
Qed.
Lemma flag_held x t : Forall isword (concat x) -> just_pulled x -> t <> [] -> (length t <= 173)%nat -> p_irq (after (x ++ t)) = true.
Proof.
  intros F J. destruct (pulled_start x F J) as (y & v & q & E & B). induction t as [|a t IH] using rev_ind; intros H L; [contradiction|]. clear H. rewrite app_length in L. cbn [length] in L.
  destruct t as [|a0 t]; [cbn [app]; rewrite after_snoc, E; reflexivity|].
  specialize (IH ltac:(discriminate) ltac:(lia)). destruct (p_irq (after (x ++ (a0 :: t) ++ [a]))) eqn:D; [reflexivity|exfalso].
  destruct (frame_mid y v q ((a0 :: t) ++ [a]) B) as (r & tr & R & P); [rewrite app_length; cbn [length] in *; lia|].
  pose proof (after_app x ((a0 :: t) ++ [a])) as S. rewrite E, R in S. cbn [snd] in S. change (at_pull tx_program (set_q r (q ++ concat ((a0 :: t) ++ [a])) (p_rx r)) = false) in P. rewrite <- S in P.
  rewrite app_assoc, after_snoc in *. rewrite (irq_drop _ _ (after_ctl _) IH D) in P. discriminate.
Qed.
Lemma flag_released x t : Forall isword (concat x) -> just_pulled x -> length t = 174%nat -> p_irq (after (x ++ t)) = false.
Proof.
  intros F J L. destruct (pulled_start x F J) as (y & v & q & E & (Hy & b & Hv)).
  destruct (tx_frame y b v t q Hy Hv L) as (tr & y' & o & c & R & _). rewrite after_app, E, R. reflexivity.
Qed.
