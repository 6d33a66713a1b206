(** P_PioTime.v -- the exact timing of the transmitter. *)
From Verif Require Import Base M_Pio S_Pio S_PioRate S_PioTime P_Containers P_Pio P_PioRate.

Lemma starts_weaken r1 r2 a l : Z.max (a + 1) r1 = Z.max (a + 1) r2 -> starts r1 (a :: l) = starts r2 (a :: l).
Proof. intros H. cbn [starts]. rewrite H. reflexivity. Qed.

Lemma arrivals_length sched : forall k, length (arrivals k sched) = length (concat sched).
Proof. induction sched as [|a t IH]; intros k; cbn [arrivals concat]; auto. rewrite !app_length, map_length, IH. reflexivity. Qed.

Lemma tx_drain_exact : forall n sched, length sched = n -> forall y o c pins q aq bs k c0,
  y = 0 \/ y = 1 -> words (q ++ concat sched) bs -> length aq = length q -> Forall (fun a => a <= c0) aq ->
  concat (skipn k sched) = [] -> (175 * length bs + k + 1 <= length sched)%nat ->
  exists tr sf tail, tx_run (tx_idle y o c pins q) sched = (tr, sf) /\
    map line_level tr = 0 :: waves (combine (pauses (c0 + 1) (starts (c0 + 1) (aq ++ arrivals c0 sched))) bs) ++ repeat 0 tail.
Proof.
  induction n as [n IH] using lt_wf_ind. intros sched Hn y o c pins q aq bs k c0 Hy Hw La Ha Hk HL.
  destruct sched as [|a t]; [cbn in HL; lia|]. cbn [length] in *.
  destruct bs as [|b bs].
  - apply Forall2_nil_l in Hw. apply app_eq_nil in Hw as (-> & E).
    destruct (tx_quiet (a :: t) y o c pins E) as (tr & pins' & R & M).
    exists tr, (tx_idle y o c pins' []), (length t). split; [exact R|].
    destruct (pauses _ _); exact M.
  - unfold tx_run. cbn [pio_run]. rewrite tx_pull. cbn [concat] in Hw. rewrite app_assoc in Hw.
    destruct (q ++ a) as [|v q'] eqn:Eq.
    + apply app_eq_nil in Eq as (-> & ->). cbn [app] in Hw. destruct aq; [|discriminate].
      assert (Hne : arrivals (c0 + 1) t <> []).
      { intros X. apply (f_equal (@length Z)) in X. rewrite arrivals_length in X. destruct (concat t); [inversion Hw|discriminate]. }
      edestruct (IH (length t) ltac:(lia) t eq_refl y o c 1 [] [] (b :: bs) (k - 1)%nat (c0 + 1) Hy Hw eq_refl (Forall_nil _))
        as (tr & sf & tail & R & M).
      * destruct k as [|k]; [|rewrite Nat.sub_0_r || (replace (S k - 1)%nat with k by lia); exact Hk].
        cbn [skipn concat app] in Hk. cbn. exact Hk.
      * cbn [length] in *. destruct k; [|lia]. cbn [skipn concat app] in Hk. cbn in Hk.
        rewrite Hk in Hw. inversion Hw.
      * unfold tx_run in R. rewrite R. cbn [app arrivals map] in M |- *.
        exists (p_pins (tx_idle y o c 1 []) :: tr), sf, tail. split; [reflexivity|]. cbn [map tx_idle p_pins].
        rewrite M. destruct (arrivals (c0 + 1) t) as [|a0 l] eqn:Ea; [contradiction|].
        pose proof (arrivals_ge t _ _ _ Ea) as G.
        rewrite (starts_weaken (c0 + 1) (c0 + 1 + 1) a0 l) by lia.
        cbn [starts pauses combine waves]. change (line_level 1) with 0.
        assert (L1 : Z.max (a0 + 1) (c0 + 1 + 1) = a0 + 1) by lia. rewrite !L1.
        replace (Z.to_nat (a0 + 1 - (c0 + 1))) with (S (Z.to_nat (a0 + 1 - (c0 + 1 + 1)))) by lia.
        cbn [repeat app]. reflexivity.
    + inversion Hw as [|b0 v0 bs0 l0 Hv Hw']; subst b0 v0 bs0 l0.
      assert (Lt : (174 <= length t)%nat) by (cbn [length] in HL; lia).
      assert (Ea : exists a0 aq', aq ++ map (fun _ => c0) a = a0 :: aq' /\ a0 <= c0 /\ length aq' = length q' /\ Forall (fun x => x <= c0) aq').
      { assert (Fa : Forall (fun x => x <= c0) (aq ++ map (fun _ => c0) a)).
        { apply Forall_app. split; auto. clear. induction a; cbn; constructor; auto; lia. }
        assert (Ll : length (aq ++ map (fun _ => c0) a) = S (length q')).
        { rewrite app_length, map_length, La, <- app_length, Eq. reflexivity. }
        destruct (aq ++ map (fun _ => c0) a) as [|a0 aq']; [discriminate|]. exists a0, aq'. inversion Fa; subst.
        split; [reflexivity|]. split; [assumption|]. split; [cbn in Ll; lia|assumption]. }
      destruct Ea as (a0 & aq' & Ea & Ha0 & Laq & Haq).
      pose proof (pio_run_app tx_program 8 (tx_start y v q') (firstn 174 t) (skipn 174 t)) as Rt. rewrite firstn_skipn in Rt. rewrite Rt. clear Rt.
      destruct (tx_frame y b v (firstn 174 t) q' Hy Hv ltac:(rewrite firstn_length; lia))
        as (tr1 & y1 & o1 & c1 & R1 & M1 & Hy1). unfold tx_run in R1. rewrite R1.
      edestruct (IH (length (skipn 174 t)) ltac:(rewrite skipn_length; lia) (skipn 174 t) eq_refl y1 o1 c1 1
        (q' ++ concat (firstn 174 t)) (aq' ++ arrivals (c0 + 1) (firstn 174 t)) bs (k - 175)%nat (c0 + 175) Hy1)
        as (tr & sf & tail & R & M).
      * rewrite <- app_assoc, <- concat_app, firstn_skipn. exact Hw'.
      * rewrite !app_length, arrivals_length. lia.
      * apply Forall_app. split; [eapply Forall_impl; [|exact Haq]; cbn; lia|].
        assert (G : forall s k0, Forall (fun x => x <= k0 + Z.of_nat (length s)) (arrivals k0 s)).
        { clear. induction s as [|x s IHs]; intros k0; cbn [arrivals length]; [constructor|]. apply Forall_app. split.
          - clear. induction x; cbn [map]; constructor; auto; lia.
          - eapply Forall_impl; [|apply IHs]. cbn. lia. }
        eapply Forall_impl; [|apply G]. intros x Hx. cbv beta in Hx. rewrite firstn_length in Hx. lia.
      * destruct (Nat.le_gt_cases 175 k) as [Lk|Lk].
        -- assert (E : skipn (k - 175) (skipn 174 t) = skipn k (a :: t)).
           { rewrite skipn_skipn. destruct k; [lia|]. cbn [skipn]. f_equal. lia. }
           rewrite E; auto.
        -- replace (k - 175)%nat with 0%nat by lia. rewrite skipn_O.
           assert (E : exists m, skipn 174 t = skipn m (skipn k (a :: t))).
           { exists (175 - k)%nat. rewrite skipn_skipn. replace (175 - k + k)%nat with 175%nat by lia. reflexivity. }
           destruct E as (m & ->). rewrite <- (firstn_skipn m (skipn k (a :: t))), concat_app in Hk.
           apply app_eq_nil in Hk as (_ & Hk). exact Hk.
      * rewrite skipn_length. cbn [length] in HL. lia.
      * unfold tx_run in R. rewrite R.
        exists (p_pins (tx_start y v q') :: tr1 ++ tr), sf, tail. split; [reflexivity|].
        cbn [map tx_start p_pins]. rewrite map_app, M1, M.
        cbn [arrivals]. rewrite app_assoc, Ea.
        assert (Es : arrivals (c0 + 1) t = arrivals (c0 + 1) (firstn 174 t) ++ arrivals (c0 + 175) (skipn 174 t)).
        { pose proof (arrivals_app (firstn 174 t) (skipn 174 t) (c0 + 1)) as Rt. rewrite firstn_skipn in Rt. rewrite Rt. do 2 f_equal. rewrite firstn_length. lia. }
        rewrite <- app_comm_cons, Es, app_assoc. cbn [starts pauses combine waves].
        assert (L1 : Z.max (a0 + 1) (c0 + 1) = c0 + 1) by lia. rewrite !L1.
        replace (Z.to_nat (c0 + 1 - (c0 + 1))) with 0%nat by lia. cbn [repeat app].
        unfold char_cycles at 1 2. replace (c0 + 1 + 175) with (c0 + 175 + 1) by lia.
        rewrite <- (core_plus b) by (destruct Hv; lia). rewrite <- !app_assoc. reflexivity.
Qed.

Lemma tx_exact_drained sched bs n : words (concat sched) bs -> (175 * length bs + 2 <= n)%nat ->
  exists tr sf tail, tx_run pio_init (sched ++ repeat [] n) = (tr, sf) /\
    map line_level tr = line_of (starts first_ready (arrivals 0 sched)) bs ++ repeat 0 tail.
Proof.
  intros Hw Hn.
  assert (E : exists a t, sched ++ repeat [] n = a :: t /\ concat (a :: t) = concat sched /\
     concat (skipn (length sched) t) = [] /\ (length t + 1 = length sched + n)%nat).
  { destruct n as [|n]; [lia|]. destruct sched as [|a s]; cbn [app repeat].
    - exists [], (repeat [] n). repeat split; [apply concat_repeat_nil| |rewrite repeat_length; cbn; lia].
      cbn. apply concat_repeat_nil.
    - exists a, (s ++ [] :: repeat [] n). split; [reflexivity|]. split.
      + cbn [concat]. rewrite concat_app. cbn [concat app]. rewrite concat_repeat_nil, app_nil_r. reflexivity.
      + split; [|rewrite app_length; cbn [length]; rewrite repeat_length; lia].
        rewrite skipn_app. rewrite skipn_all2 by (cbn; lia). cbn [length app].
        replace (S (length s) - length s)%nat with 1%nat by lia. cbn [skipn]. apply concat_repeat_nil. }
  destruct E as (a & t & E & Ec & Ek & El).
  assert (Ea : arrivals 0 sched = map (fun _ => 0) a ++ arrivals 1 t).
  { change (arrivals 0 sched = arrivals 0 (a :: t)). rewrite <- E, arrivals_app, arrivals_quiet, app_nil_r. reflexivity. }
  rewrite E, Ea. unfold tx_run. cbn [pio_run].
  assert (F : pio_feed tx_program 8 pio_init a = tx_idle 0 0 32 1 a) by reflexivity. rewrite F.
  destruct (tx_drain_exact (length t) t eq_refl 0 0 32 1 a (map (fun _ => 0) a) bs (length sched) 1 (or_introl eq_refl)) as
    (tr & sf & tail & R & M).
  - cbn [concat] in Ec. rewrite Ec. exact Hw.
  - apply map_length.
  - clear. induction a; cbn; constructor; auto; lia.
  - exact Ek.
  - lia.
  - unfold tx_run in R. rewrite R. cbn [p_pins tx_idle]. exists (1 :: tr), sf.
    unfold line_of, first_ready. change (1 + 1) with 2 in M.
    destruct bs as [|b bs].
    + exists (S (S tail)). split; [reflexivity|]. cbn [map]. rewrite M.
      assert (X : forall g, waves (combine g (@nil Z)) = []) by (intros [|? ?]; reflexivity). rewrite !X. reflexivity.
    + exists tail. split; [reflexivity|]. cbn [map]. rewrite M.
      assert (Ln : length (map (fun _ : Z => 0) a ++ arrivals 1 t) = S (length bs)).
      { rewrite app_length, map_length, arrivals_length. rewrite <- app_length. cbn [concat] in Ec. rewrite Ec.
        clear - Hw. apply Forall2_length in Hw || (assert (X : forall l1 l2, Forall2 word_of l1 l2 -> length l1 = length l2) by (induction 1; cbn; auto); apply X in Hw). cbn in Hw. auto. }
      destruct (map (fun _ : Z => 0) a ++ arrivals 1 t) as [|a0 l]; [discriminate|].
      cbn [starts pauses combine waves]. change (line_level 1) with 0.
      replace (Z.to_nat (Z.max (a0 + 1) 2 - 0)) with (S (S (Z.to_nat (Z.max (a0 + 1) 2 - 2)))) by lia.
      cbn [repeat app]. reflexivity.
Qed.

Lemma run_len sched : forall s, length (fst (tx_run s sched)) = length sched.
Proof.
  unfold tx_run. induction sched as [|a t IH]; intros s; cbn [pio_run]; auto. specialize (IH (pio_feed tx_program 8 s a)).
  destruct (pio_run tx_program 8 (pio_feed tx_program 8 s a) t). cbn in *. lia.
Qed.
Lemma firstn_idle (l : list Z) k t1 t2 : (k <= length l + t1)%nat -> (k <= length l + t2)%nat -> firstn k (l ++ repeat 0 t1) = firstn k (l ++ repeat 0 t2).
Proof.
  intros H1 H2. rewrite !firstn_app. f_equal.
  assert (X : forall j t, (j <= t)%nat -> firstn j (repeat 0 t) = repeat 0 j).
  { clear. induction j as [|j IH]; intros t H; cbn; auto. destruct t; [lia|]. cbn. f_equal. apply IH. lia. }
  rewrite !X by lia. reflexivity.
Qed.

Lemma tx_exact sched bs : words (concat sched) bs ->
  map line_level (fst (tx_run pio_init sched)) =
  firstn (length sched) (line_of (starts first_ready (arrivals 0 sched)) bs ++ repeat 0 (length sched)).
Proof.
  intros Hw. destruct (tx_exact_drained sched bs (175 * length bs + 2)%nat Hw (Nat.le_refl _)) as (tr & sf & tail & R & M).
  pose proof (run_len (sched ++ repeat [] (175 * length bs + 2)) pio_init) as L. rewrite R in L. cbn [fst] in L.
  rewrite app_length in L.
  pose proof (f_equal (@length Z) M) as LM. rewrite map_length, app_length, repeat_length in LM.
  pose proof (run_len sched pio_init) as L0. unfold tx_run in R, L0 |- *. rewrite pio_run_app in R.
  destruct (pio_run tx_program 8 pio_init sched) as [t1 s1]. destruct (pio_run tx_program 8 s1 _) as [t2 s2]. cbn [fst] in *.
  injection R as E _. subst tr. rewrite map_app in M.
  apply (f_equal (firstn (length sched))) in M. rewrite firstn_app in M. rewrite map_length, L0, Nat.sub_diag in M.
  rewrite firstn_O, app_nil_r in M. rewrite firstn_all2 in M by (rewrite map_length; lia). rewrite M.
  apply firstn_idle; lia.
Qed.

(** Bytes that reach the FIFO in time go out without a pause. *)
Lemma starts_burst g : forall s rest ready, (forall k x, nth_error g k = Some x -> x + 1 <= s + char_cycles * Z.of_nat k) -> ready = s ->
  starts ready (g ++ rest) = map (fun k => s + char_cycles * Z.of_nat k) (seq 0 (length g)) ++ starts (s + char_cycles * Z.of_nat (length g)) rest.
Proof.
  induction g as [|a g IH]; unfold char_cycles; intros s rest ready H ->; cbn [app length seq map].
  - f_equal. lia.
  - cbn [starts]. unfold char_cycles. pose proof (H 0%nat a eq_refl) as H0. replace (Z.max (a + 1) s) with s by lia. f_equal; [lia|].
    change 175 with char_cycles in IH |- *. rewrite (IH (s + char_cycles) rest); auto; unfold char_cycles.
    + rewrite <- seq_shift, map_map. f_equal; [|f_equal; lia]. apply map_ext. intros k. lia.
    + intros k x Hk. specialize (H (S k) x Hk). lia.
Qed.

Lemma pauses_burst n : forall s pos rest, 
  pauses pos (map (fun k => s + char_cycles * Z.of_nat k) (seq 0 (S n)) ++ rest) =
  Z.to_nat (s - pos) :: repeat 0%nat n ++ pauses (s + char_cycles * Z.of_nat (S n)) rest.
Proof.
  induction n as [|n IH]; intros s pos rest.
  - cbn [seq map app pauses repeat]. rewrite Z.mul_0_r, Z.add_0_r. do 2 f_equal. 
  - change (seq 0 (S (S n))) with (0%nat :: seq 1 (S n)). rewrite <- seq_shift. cbn [map app pauses]. rewrite map_map.
    rewrite Z.mul_0_r, Z.add_0_r. f_equal.
    rewrite (map_ext _ (fun k => (s + char_cycles) + char_cycles * Z.of_nat k)) by (intros; unfold char_cycles; lia). rewrite IH.
    rewrite Z.sub_diag. cbn [repeat app]. do 3 f_equal. unfold char_cycles; lia.
Qed.

Lemma waves_burst m : forall n rest, length m = n -> waves (combine (repeat 0%nat n ++ rest) m) = flat_map char_wave_short m.
Proof.
  induction m as [|b m IH]; intros n rest H; destruct n; try discriminate; cbn [repeat app combine waves flat_map].
  - destruct rest; reflexivity.
  - f_equal. apply IH. injection H. auto.
Qed.
Lemma combine_app {A B} (a1 : list A) : forall a2 (b1 b2 : list B), length a1 = length b1 -> combine (a1 ++ a2) (b1 ++ b2) = combine a1 b1 ++ combine a2 b2.
Proof. induction a1 as [|x a1 IH]; intros a2 [|y b1] b2 H; try discriminate; cbn; auto. f_equal. apply IH. injection H. auto. Qed.
Lemma waves_cat a : forall b, waves (a ++ b) = waves a ++ waves b.
Proof. induction a as [|[g x] a IH]; intros b; cbn [app waves]; auto. rewrite IH, !app_assoc. reflexivity. Qed.

(** A whole transmission that is supplied in time. *)
Lemma tx_exact_burst sched a0 arr b bs : words (concat sched) (b :: bs) -> arrivals 0 sched = a0 :: arr ->
  (forall k x, nth_error arr k = Some x -> x < Z.max (a0 + 1) first_ready + char_cycles * (Z.of_nat k + 1)) ->
  line_of (starts first_ready (arrivals 0 sched)) (b :: bs) = repeat 0 (Z.to_nat (Z.max (a0 + 1) first_ready)) ++ flat_map char_wave_short (b :: bs).
Proof.
  intros Hw Ea H.
  assert (L : length (arrivals 0 sched) = length (b :: bs)).
  { rewrite arrivals_length. assert (X : forall l1 l2, Forall2 word_of l1 l2 -> length l1 = length l2) by (induction 1; cbn; auto). apply X in Hw. auto. }
  rewrite Ea in *. cbn [starts]. set (s := Z.max (a0 + 1) first_ready) in *. unfold line_of.
  pose proof (starts_burst arr (s + char_cycles) [] (s + char_cycles)) as E. rewrite app_nil_r in E. cbn [starts] in E. rewrite app_nil_r in E.
  rewrite E; auto; [|intros k x Hk; specialize (H k x Hk); unfold char_cycles in *; lia]. clear E.
  cbn [length] in L. injection L as L. cbn [pauses combine waves flat_map]. rewrite Z.sub_0_r. f_equal. f_equal.
  destruct arr as [|a1 arr]; [destruct bs; [reflexivity|discriminate]|].
  destruct bs as [|b1 bs]; [discriminate|]. pose proof (pauses_burst (length arr) (s + char_cycles) (s + char_cycles) []) as E.
  rewrite app_nil_r in E. cbn [length]. rewrite E, Z.sub_diag. change (Z.to_nat 0 :: repeat 0%nat (length arr) ++ pauses (s + char_cycles + char_cycles * Z.of_nat (S (length arr))) []) with (repeat 0%nat (S (length arr)) ++ pauses (s + char_cycles + char_cycles * Z.of_nat (S (length arr))) []).
  rewrite waves_burst; auto.
Qed.
