(** P_TxDma.v -- a message fed by DMA goes out without a pause. *)
From Verif Require Import Base M_Pio M_Clock S_Pio S_PioRate S_PioTime S_TxHw S_TxDma P_Containers P_Pio P_PioRate P_PioTime P_TxHw S_ModemLine P_ModemLine.

Definition prompt_from (R : nat) (s : pio) (sched : list (list Z)) : Prop :=
  forall x w y, sched = x ++ w ++ y -> length w = R -> concat (w ++ y) <> [] ->
    (forall w1 w2, w = w1 ++ w2 -> (length (p_tx (snd (tx_run s (x ++ w1)))) < 8)%nat) -> concat w <> [].
Lemma run_app_snd s a b : snd (tx_run s (a ++ b)) = snd (tx_run (snd (tx_run s a)) b).
Proof. unfold tx_run. rewrite pio_run_app. destruct (pio_run tx_program 8 s a) as (t1 & s1). cbn. destruct (pio_run tx_program 8 s1 b); reflexivity. Qed.
Lemma prompt_skip R s a b : prompt_from R s (a ++ b) -> prompt_from R (snd (tx_run s a)) b.
Proof. intros P x w y E L N W. apply (P (a ++ x) w y); [rewrite E, <- app_assoc; reflexivity|exact L|exact N|]. intros w1 w2 Ew. rewrite <- app_assoc, run_app_snd. eapply W; eauto. Qed.
Lemma arrivals_le s k0 : Forall (fun x => x < k0 + Z.of_nat (length s)) (arrivals k0 s).
Proof.
  revert k0. induction s as [|x s IHs]; intros k0; cbn [arrivals length]; [constructor|]. apply Forall_app. split.
  - clear. induction x; cbn [map]; constructor; auto; lia.
  - eapply Forall_impl; [|apply IHs]. cbn. lia.
Qed.
Lemma concat_prefix_nil {A} (a b : list (list A)) : concat (a ++ b) = [] -> concat a = [] /\ concat b = [].
Proof. rewrite concat_app. apply app_eq_nil. Qed.

Lemma app_same_length {A} (a b c d : list A) : a ++ b = c ++ d -> length a = length c -> a = c.
Proof. revert c; induction a as [|x a IH]; intros [|y c] H L; try discriminate; auto. injection H as -> H. f_equal. apply IH; auto. Qed.

Lemma in_time_dma R : (R <= 175)%nat -> forall n sched, length sched = n -> forall y o c pins q aq c0,
  y = 0 \/ y = 1 -> Forall isword (q ++ concat sched) -> length aq = length q -> Forall (fun a => a <= c0) aq ->
  (match sched with [] => True | a :: _ => q ++ a <> [] end) -> prompt_from R (tx_idle y o c pins q) sched ->
  forall k x, nth_error (aq ++ arrivals c0 sched) k = Some x -> x <= c0 + 175 * Z.of_nat k.
Proof.
  intros HR. induction n as [n IH] using lt_wf_ind. intros sched Hn y o c pins q aq c0 Hy Hw La Ha Hq Hp k x Hk.
  destruct sched as [|a t].
  { cbn [arrivals] in Hk. rewrite app_nil_r in Hk. apply nth_error_In in Hk. rewrite Forall_forall in Ha. apply Ha in Hk. lia. }
  destruct (q ++ a) as [|v q'] eqn:Eq; [contradiction|].
  assert (Ea : exists a0 aq', aq ++ map (fun _ => c0) a = a0 :: aq' /\ a0 <= c0 /\ length aq' = length q' /\ Forall (fun x => x <= c0) aq').
  { assert (Fa : Forall (fun x => x <= c0) (aq ++ map (fun _ => c0) a)).
    { apply Forall_app. split; auto. clear. induction a; cbn; constructor; auto; lia. }
    assert (Ll : length (aq ++ map (fun _ => c0) a) = S (length q')).
    { rewrite app_length, map_length, La, <- app_length, Eq. reflexivity. }
    destruct (aq ++ map (fun _ => c0) a) as [|a0 aq']; [discriminate|]. exists a0, aq'. inversion Fa; subst.
    split; [reflexivity|]. split; [assumption|]. split; [cbn in Ll; lia|assumption]. }
  destruct Ea as (a0 & aq' & Ea & Ha0 & Laq & Haq). cbn [arrivals] in Hk. rewrite app_assoc, Ea in Hk.
  destruct k as [|k]; [cbn in Hk; injection Hk as <-; lia|]. cbn [app nth_error] in Hk.
  assert (Short : In x (aq' ++ arrivals (c0 + 1) t) -> (length t <= 174)%nat -> x <= c0 + 175 * Z.of_nat (S k)).
  { intros Hi Lt. apply in_app_or in Hi as [Hi|Hi]; [rewrite Forall_forall in Haq; apply Haq in Hi; lia|].
    pose proof (arrivals_le t (c0 + 1)) as G. rewrite Forall_forall in G. apply G in Hi. lia. }
  destruct (Nat.le_gt_cases (length t) 174) as [Lt|Lt]; [apply Short; auto; eapply nth_error_In; exact Hk|]. clear Short.
  cbn [concat] in Hw. rewrite app_assoc, Eq in Hw. inversion Hw as [|? ? (b & Hv) Hw']; subst.
  set (t1 := firstn 174 t) in *. set (t2 := skipn 174 t) in *. assert (Et : t = t1 ++ t2) by (symmetry; apply firstn_skipn).
  assert (L1 : length t1 = 174%nat) by (unfold t1; rewrite firstn_length; lia).
  assert (Es : arrivals (c0 + 1) t = arrivals (c0 + 1) t1 ++ arrivals (c0 + 175) t2).
  { rewrite Et, arrivals_app. do 2 f_equal. lia. }
  destruct (tx_frame y b v t1 q' Hy Hv L1) as (tr1 & y1 & o1 & c1 & R1 & _ & Hy1).
  assert (S1 : snd (tx_run (tx_idle y o c pins q) [a]) = tx_start y v q') by (unfold tx_run; cbn [pio_run]; rewrite tx_pull, Eq; reflexivity).
  assert (P2 : prompt_from R (tx_start y v q') t) by (rewrite <- S1; apply prompt_skip; exact Hp).
  assert (P3 : prompt_from R (tx_idle y1 o1 c1 1 (q' ++ concat t1)) t2).
  { rewrite Et in P2. apply prompt_skip in P2. rewrite R1 in P2. exact P2. }
  destruct t2 as [|a2 t3] eqn:E2.
  { exfalso. rewrite Et, app_length, L1 in Lt. cbn in Lt. lia. }
  assert (Nx : (q' ++ concat t1) ++ a2 <> [] \/ concat t = [] /\ q' = []).
  { destruct ((q' ++ concat t1) ++ a2) as [|? ?] eqn:E0; [right|left; discriminate]. apply app_eq_nil in E0 as (E0 & ->). apply app_eq_nil in E0 as (-> & E0).
    split; [|reflexivity]. destruct (concat t) as [|z zs] eqn:Ec; [reflexivity|exfalso].
    assert (X : t = [] ++ firstn R (t1 ++ [[]]) ++ (skipn R (t1 ++ [[]]) ++ t3)).
    { cbn [app]. rewrite app_assoc, firstn_skipn. rewrite Et, <- app_assoc. reflexivity. }
    apply (P2 _ _ _ X).
    - rewrite firstn_length, app_length, L1. cbn [length]. lia.
    - cbn [app] in X. rewrite <- X, Ec. discriminate.
    - intros w1 w2 Ew. cbn [app]. assert (Lw : (length w1 <= 175)%nat).
      { apply (f_equal (@length _)) in Ew. rewrite firstn_length, !app_length, L1 in Ew. cbn [length] in Ew. lia. }
      assert (W1 : exists r, t1 ++ [[]] = w1 ++ r).
      { exists (w2 ++ skipn R (t1 ++ [[]])). rewrite app_assoc, <- Ew, firstn_skipn. reflexivity. }
      destruct W1 as (r & W1).
      assert (Cw : concat w1 = []).
      { assert (Z0 : concat (t1 ++ [[]]) = []) by (rewrite concat_app, E0; reflexivity). rewrite W1 in Z0. apply concat_prefix_nil in Z0. apply Z0. }
      destruct (Nat.eq_dec (length w1) 175) as [L5|L5].
      + assert (r = []) as ->. { apply (f_equal (@length _)) in W1. rewrite !app_length, L1, L5 in W1. cbn in W1. destruct r; [auto|cbn in W1; lia]. }
        rewrite app_nil_r in W1. rewrite <- W1, run_app_snd. change (tx_start y v []) with (tx_start y v ([] : list Z)) in R1. rewrite R1. cbn [snd]. unfold tx_run. cbn [pio_run app concat]. rewrite tx_pull, E0. cbn. lia.
      + destruct (Nat.eq_dec (length w1) 174) as [L4|L4].
        * assert (Ew1 : w1 = t1) by (symmetry; apply (app_same_length _ _ _ _ W1); lia). rewrite Ew1.
          rewrite R1. cbn [snd tx_idle p_tx]. rewrite E0. cbn. lia.
        * destruct (frame_mid y v [] w1 ltac:(split; [exact Hy|exists b; exact Hv]) ltac:(lia)) as (r0 & tr0 & R0 & _). rewrite R0. cbn [snd set_q p_tx app]. rewrite Cw. cbn. lia.
    - assert (Z0 : concat (t1 ++ [[]]) = []) by (rewrite concat_app, E0; reflexivity). rewrite <- (firstn_skipn R (t1 ++ [[]])) in Z0. apply concat_prefix_nil in Z0. apply Z0. }
  pose proof (f_equal (@length _) Et) as Lt'. rewrite app_length, L1 in Lt'. cbn [length] in Lt'.
  destruct Nx as [Nx|(Nx & ->)].
  - assert (X : x <= c0 + 175 + 175 * Z.of_nat k); [|lia].
    eapply (IH (length (a2 :: t3)) ltac:(cbn [length]; lia) (a2 :: t3) eq_refl y1 o1 c1 1 (q' ++ concat t1) (aq' ++ arrivals (c0 + 1) t1) (c0 + 175)); auto.
    + rewrite <- app_assoc, <- concat_app, <- Et. exact Hw'.
    + rewrite !app_length, arrivals_length. lia.
    + apply Forall_app. split; [eapply Forall_impl; [|exact Haq]; cbn; lia|]. eapply Forall_impl; [|apply arrivals_le]. intros z Hz. cbv beta in Hz. rewrite L1 in Hz. lia.
    + rewrite <- app_assoc, <- Es. exact Hk.
  - destruct aq'; [|discriminate]. assert (Z0 : arrivals (c0 + 1) t = []).
    { apply length_zero_iff_nil. rewrite arrivals_length, Nx. reflexivity. }
    rewrite Z0 in Hk. destruct k; discriminate.
Qed.

(** *** From the start of the state machine *)
Lemma after_quiet x : concat x = [] -> x <> [] -> after x = tx_idle 0 0 32 1 [].
Proof.
  intros C H. destruct x as [|a x]; [contradiction|]. apply concat_nil_cons in C as (-> & C). unfold after, tx_run. cbn [pio_run].
  assert (F : pio_feed tx_program 8 pio_init [] = tx_idle 0 0 32 1 []) by reflexivity. rewrite F. clear F H.
  assert (X : forall x, concat x = [] -> snd (pio_run tx_program 8 (tx_idle 0 0 32 1 []) x) = tx_idle 0 0 32 1 []).
  { clear. induction x as [|a x IH]; intros C; [reflexivity|]. apply concat_nil_cons in C as (-> & C). cbn [pio_run]. rewrite tx_pull. cbn [app]. specialize (IH C). destruct (pio_run _ _ _ x). exact IH. }
  specialize (X x C). destruct (pio_run tx_program 8 (tx_idle 0 0 32 1 []) x). exact X.
Qed.
Lemma first_arrival : forall (s : list (list Z)), concat s <> [] -> exists q a t, s = q ++ a :: t /\ concat q = [] /\ a <> [].
Proof.
  induction s as [|a s IH]; intros H; [contradiction H; reflexivity|]. destruct a as [|v a].
  - destruct (IH H) as (q & a & t & -> & C & N). exists ([] :: q), a, t. repeat split; auto.
  - exists [], (v :: a), s. repeat split; auto. discriminate.
Qed.
Lemma dma_run R from sched bs : (R <= 175)%nat -> (1 <= from)%nat -> (from + R <= length sched)%nat -> started_at from sched -> fed_promptly R from sched ->
  words (concat sched) bs -> bs <> [] ->
  exists a g, arrivals 0 sched = a :: g /\ length bs = S (length g) /\ Z.of_nat from <= a < Z.of_nat (from + R) /\ forall k x, nth_error g k = Some x -> x <= a + 175 * (Z.of_nat k + 1).
Proof.
  intros HR Hf Hl St P W B. assert (N : concat sched <> []) by (intros X; rewrite X in W; inversion W; subst; contradiction).
  assert (Wl : length bs = length (concat sched)). { clear - W. induction W; cbn; auto. }
  assert (Ww : Forall isword (concat sched)). { clear - W. induction W; constructor; auto. eexists; eassumption. }
  destruct (first_arrival sched N) as (q & a & t & E & Cq & Na).
  assert (Lq : (from <= length q)%nat).
  { destruct (Nat.le_gt_cases from (length q)) as [X|X]; [exact X|exfalso]. unfold started_at in St. rewrite E, firstn_app in St. apply concat_prefix_nil in St as (_ & St).
    destruct (from - length q)%nat as [|j] eqn:Ej; [lia|]. cbn [firstn concat] in St. apply app_eq_nil in St as (St & _). contradiction. }
  assert (Lr : (length q < from + R)%nat).
  { destruct (Nat.le_gt_cases (from + R) (length q)) as [X|X]; [exfalso|exact X].
    assert (E' : sched = firstn from sched ++ firstn R (skipn from sched) ++ skipn R (skipn from sched)) by (rewrite !firstn_skipn; reflexivity).
    assert (Eq : firstn from sched ++ firstn R (skipn from sched) = firstn (from + R) q).
    { assert (Y : firstn (from + R) sched = firstn (from + R) q). { rewrite E, firstn_app. replace (from + R - length q)%nat with 0%nat by lia. rewrite firstn_O, app_nil_r. reflexivity. }
      rewrite <- Y. rewrite E' at 3. rewrite app_assoc, firstn_app. 
      assert (Z0 : length (firstn from sched ++ firstn R (skipn from sched)) = (from + R)%nat) by (rewrite app_length, !firstn_length, skipn_length; lia).
      rewrite (firstn_all2 (n := (from + R)%nat) (firstn from sched ++ _)) by (rewrite Z0; lia). rewrite Z0, Nat.sub_diag, firstn_O, app_nil_r. reflexivity. }
    assert (C0 : concat (firstn from sched ++ firstn R (skipn from sched)) = []).
    { rewrite Eq. rewrite <- (firstn_skipn (from + R) q) in Cq. apply concat_prefix_nil in Cq. apply Cq. }
    apply (P _ _ _ E').
    - rewrite firstn_length. lia.
    - rewrite firstn_length, skipn_length. lia.
    - rewrite firstn_skipn. intros Z0. apply N. rewrite <- (firstn_skipn from sched), concat_app, Z0, app_nil_r. exact St.
    - intros w1 w2 Ew. rewrite after_quiet; [cbn; lia| |].
      + rewrite Ew, app_assoc in C0. apply concat_prefix_nil in C0. apply C0.
      + destruct sched; [cbn in Hl; lia|]. destruct from; [lia|]. discriminate.
    - apply concat_prefix_nil in C0. apply C0. }
  assert (Ar : arrivals 0 sched = [] ++ arrivals (Z.of_nat (length q)) (a :: t)).
  { rewrite E, arrivals_app. f_equal. apply length_zero_iff_nil. rewrite arrivals_length, Cq. reflexivity. }
  assert (Q : forall k x, nth_error (arrivals 0 sched) k = Some x -> x <= Z.of_nat (length q) + 175 * Z.of_nat k).
  { rewrite Ar. apply (in_time_dma R HR (length (a :: t)) (a :: t) eq_refl 0 0 32 1 [] [] (Z.of_nat (length q))); auto.
    - cbn [app]. rewrite E, concat_app, Cq in Ww. exact Ww.
    - rewrite <- (after_quiet q Cq) by (destruct q; [cbn in Lq; lia|discriminate]). intros x w y Ex Lw Nw Fw.
      apply (P (q ++ x) w y); auto.
      + rewrite E, Ex, <- app_assoc. reflexivity.
      + rewrite app_length. lia.
      + intros w1 w2 Ew. rewrite <- app_assoc, after_app. eapply Fw; eauto. }
  destruct a as [|v a]; [contradiction|]. cbn [arrivals map app] in Ar. exists (Z.of_nat (length q)), (map (fun _ => Z.of_nat (length q)) a ++ arrivals (Z.of_nat (length q) + 1) t).
  split; [exact Ar|]. split; [|split; [lia|]].
  - rewrite Wl, <- (arrivals_length sched 0), Ar. reflexivity.
  - intros k x Hx. specialize (Q (S k) x). rewrite Ar in Q. specialize (Q Hx). lia.
Qed.

Lemma starts_tight g : forall s, (forall k x, nth_error g k = Some x -> x + 1 <= s + 175 * Z.of_nat k) -> pauses s (starts s g) = repeat 0%nat (length g).
Proof.
  induction g as [|x g IH]; intros s H; [reflexivity|]. cbn [starts pauses length repeat]. pose proof (H 0%nat x eq_refl) as H0. replace (Z.max (x + 1) s) with s by lia.
  rewrite Z.sub_diag. f_equal. apply IH. intros k y Hy. unfold char_cycles. specialize (H (S k) y Hy). lia.
Qed.
Lemma dma_line R from sched bs : (R <= 175)%nat -> (1 <= from)%nat -> (from + R + 175 * length bs + 1 <= length sched)%nat -> started_at from sched -> fed_promptly R from sched ->
  words (concat sched) bs -> bs <> [] ->
  exists g tail, (from < g <= from + R)%nat /\ map line_level (fst (tx_run pio_init sched)) = repeat 0 g ++ flat_map char_wave_short bs ++ repeat 0 tail.
Proof.
  intros HR Hf Hl St P W B. destruct (dma_run R from sched bs HR Hf ltac:(lia) St P W B) as (a & g & Ea & Lb & Ha & Hg).
  rewrite (tx_exact sched bs W), Ea. destruct bs as [|b bs]; [contradiction|]. cbn [length] in Lb. injection Lb as Lb.
  unfold line_of, first_ready. cbn [starts pauses]. replace (Z.max (a + 1) 2) with (a + 1) by lia. rewrite Z.sub_0_r.
  rewrite (starts_tight g (a + 1 + char_cycles)).
  2:{ intros k x Hx. specialize (Hg k x Hx). unfold char_cycles. lia. }
  rewrite <- Lb. cbn [combine waves].
  assert (X : forall l, waves (combine (repeat 0%nat (length l)) l) = flat_map char_wave_short l) by (induction l as [|z l IH]; cbn [length repeat combine waves flat_map app]; [reflexivity|rewrite IH; reflexivity]).
  rewrite X. exists (Z.to_nat (a + 1)), (length sched - (Z.to_nat (a + 1) + 175 * S (length bs)))%nat. split; [lia|].
  change (char_wave_short b ++ flat_map char_wave_short bs) with (flat_map char_wave_short (b :: bs)).
  pose proof (flat_len (b :: bs)) as Lf. cbn [length] in *. rewrite firstn_app, firstn_all2 by (rewrite app_length, repeat_length, Lf; lia).
  rewrite <- app_assoc. do 2 f_equal. rewrite app_length, repeat_length, Lf.
  assert (Y : forall j k, (j <= k)%nat -> firstn j (repeat 0 k) = repeat 0 j).
  { clear. induction j as [|j IH]; intros k H; cbn; auto. destruct k; [lia|]. cbn. f_equal. apply IH. lia. }
  apply Y. lia.
Qed.
Lemma dma_sent R from sched bs pos till : (R <= 175)%nat -> (1 <= from)%nat -> (from + R <= length sched)%nat -> started_at from sched -> fed_promptly R from sched ->
  words (concat sched) bs -> (1 <= length bs <= 31)%nat -> pos + 1408 <= Z.of_nat from -> Z.of_nat (from + R + 175 * length bs) <= till -> sent_as pos till (arrivals 0 sched) [bs].
Proof.
  intros HR Hf Hl St P W B Hp Ht. assert (bs <> []) by (intros ->; cbn in B; lia). destruct (dma_run R from sched bs HR Hf Hl St P W H) as (a & g & Ea & Lb & Ha & Hg).
  cbn [sent_as]. split; [lia|]. exists a, g, []. rewrite app_nil_r. split; [exact Ea|]. split; [exact Lb|]. split; [lia|]. split; [exact Hg|]. split; [reflexivity|]. unfold char_cycles. lia.
Qed.
