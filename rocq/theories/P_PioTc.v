(** P_PioTc.v -- the twos_complement PIO program; DC balance and timing of the transmitter. *)
From Verif Require Import Base M_Pio S_Pio S_Line P_Containers P_Pio.

(** ** twos_complement *)
Definition tcA (y o c : Z) (q r : list Z) : pio := PIO 1 7 y o c 0 0 0 false q r.
Definition tcB (x y o c : Z) (q r : list Z) : pio := PIO 16 x y o c 0 0 0 false q r.
Definition tcA1 (v : Z) (q r : list Z) : pio := PIO 3 7 (Z.land v 1) (Z.shiftr v 1) 1 0 0 0 false q r.
Definition tcB1 (x y v : Z) (q r : list Z) : pio := PIO 17 x y v 0 0 7 0 false q r.

(** Number of cycles to the next [pull]. *)
Fixpoint to_pull (fuel : nat) (s : pio) : nat :=
  match fuel with
  | O => O
  | S f => if at_pull tc_program s then O else S (to_pull f (pio_cycle tc_program 16 s))
  end.

Definition okx (x : Z) : bool := (x =? 0) || (x =? 4294967295).
Definition oky (y : Z) : bool := (y =? 0) || (y =? 1) || (y =? 4294967295).

Definition tcA_check (F : nat) (a v : Z) : bool :=
  let n := to_pull F (tcA1 v [] []) in
  (n <=? F)%nat &&
  match prun tc_program 16 n (tcA1 v [] []) with
  | Some (_, PIO 16 x y _ _ 0 0 0 false [] [], [w]) => okx x && oky y && (w =? u16 (- a))
  | _ => false
  end.
Definition tcB_check (F : nat) (x y b v : Z) : bool :=
  let n := to_pull F (tcB1 x y v [] []) in
  (n <=? F)%nat &&
  match prun tc_program 16 n (tcB1 x y v [] []) with
  | Some (_, PIO 1 7 _ _ _ 0 0 0 false [] [], [w]) => w =? b
  | _ => false
  end.
Definition tc_checkb (F n : nat) : bool :=
  let b := Z.of_nat n in
  tcA_check F b b && tcA_check F b (b * 16843009) &&
  forallb (fun x => forallb (fun y => tcB_check F x y b b && tcB_check F x y b (b * 16843009)) [0; 1; 4294967295])
    [0; 4294967295].
Lemma tc_check_true : forallb (tc_checkb 60) (seq 0 256) = true.
Proof. vm_cast_no_check (eq_refl true). Qed.

Lemma okx_in x : okx x = true -> In x [0; 4294967295].
Proof. unfold okx. rewrite orb_true_iff, !Z.eqb_eq. intros [->| ->]; cbn; auto. Qed.
Lemma oky_in y : oky y = true -> In y [0; 1; 4294967295].
Proof. unfold oky. rewrite !orb_true_iff, !Z.eqb_eq. intros [[->| ->]| ->]; cbn; auto. Qed.

Lemma tc_check_word F b v : forallb (tc_checkb F) (seq 0 256) = true -> word_of b v ->
  tcA_check F b v = true /\ (forall x y, okx x = true -> oky y = true -> tcB_check F x y b v = true).
Proof.
  intros H (Hb & Hv). apply (forallb_byte _ b) in H; auto. unfold tc_checkb in H. cbv zeta in H.
  rewrite Z2Nat.id in H by lia. rewrite !andb_true_iff in H. destruct H as ((H1 & H2) & H3). split.
  - destruct Hv; subst; auto.
  - intros x y Hx Hy. rewrite forallb_forall in H3. specialize (H3 x (okx_in x Hx)).
    rewrite forallb_forall in H3. specialize (H3 y (oky_in y Hy)). apply andb_true_iff in H3 as (H3 & H4).
    destruct Hv; subst; auto.
Qed.

Lemma tcA_run F b v : tcA_check F b v = true ->
  exists n, (n <= F)%nat /\ forall sched q r, length sched = n ->
  exists tr x y o c, tc_run (tcA1 v q r) sched = (tr, tcB x y o c (q ++ concat sched) (r ++ [u16 (- b)])) /\
    okx x = true /\ oky y = true.
Proof.
  intros H. unfold tcA_check in H. cbv zeta in H. apply andb_true_iff in H as (Hn & H). apply Nat.leb_le in Hn.
  set (n := to_pull F (tcA1 v [] [])) in *. exists n. split; auto. clearbody n. intros sched q r L.
  destruct (prun tc_program 16 n (tcA1 v [] [])) as [[[tr sf] rx]|] eqn:E; [|discriminate].
  destruct sf as [pc x y' o c isr w pins irq txq rxq].
  do 16 (destruct pc as [|pc]; [discriminate|]). destruct pc as [|?]; try discriminate.
  destruct isr; try discriminate. destruct w; try discriminate. destruct pins; try discriminate.
  destruct irq; try discriminate. destruct txq; try discriminate. destruct rxq; try discriminate.
  destruct rx as [|w [|? ?]]; try discriminate.
  apply andb_true_iff in H as (H1 & H2). apply andb_true_iff in H1 as (H0 & H1). apply Z.eqb_eq in H2. subst w.
  exists tr, x, y', o, c. split; auto.
  exact (prun_sched tc_program 16 n (tcA1 v [] []) _ _ _ sched q r eq_refl E L).
Qed.
Lemma tcB_run F b v x y : tcB_check F x y b v = true ->
  exists n, (n <= F)%nat /\ forall sched q r, length sched = n ->
  exists tr y' o c, tc_run (tcB1 x y v q r) sched = (tr, tcA y' o c (q ++ concat sched) (r ++ [b])).
Proof.
  intros H. unfold tcB_check in H. cbv zeta in H. apply andb_true_iff in H as (Hn & H). apply Nat.leb_le in Hn.
  set (n := to_pull F (tcB1 x y v [] [])) in *. exists n. split; auto. clearbody n. intros sched q r L.
  destruct (prun tc_program 16 n (tcB1 x y v [] [])) as [[[tr sf] rx]|] eqn:E; [|discriminate].
  destruct sf as [pc x' y' o c isr w pins irq txq rxq].
  destruct pc as [|[|?]]; try discriminate.
  destruct x' as [|[[[?|?|]|?|]|?|]|]; try discriminate.
  destruct isr; try discriminate. destruct w; try discriminate. destruct pins; try discriminate.
  destruct irq; try discriminate. destruct txq; try discriminate. destruct rxq; try discriminate.
  destruct rx as [|w [|? ?]]; try discriminate.
  apply Z.eqb_eq in H. subst w. exists tr, y', o, c.
  exact (prun_sched tc_program 16 n (tcB1 x y v [] []) _ _ _ sched q r eq_refl E L).
Qed.

Lemma tcA_pull y o c q r a :
  pio_feed tc_program 16 (tcA y o c q r) a =
  match q ++ a with [] => tcA y o c [] r | v :: t => PIO 2 7 y v 0 0 0 0 false t r end.
Proof. unfold pio_feed. cbn [tcA p_pc p_x p_y p_osr p_oc p_isr p_wait p_pins p_irq p_tx p_rx]. destruct (q ++ a); reflexivity. Qed.
Lemma tcA_first y v q r a : pio_feed tc_program 16 (PIO 2 7 y v 0 0 0 0 false q r) a = tcA1 v (q ++ a) r.
Proof. reflexivity. Qed.
Lemma tcB_pull x y o c q r a :
  pio_feed tc_program 16 (tcB x y o c q r) a =
  match q ++ a with [] => tcB x y o c [] r | v :: t => tcB1 x y v t r end.
Proof. unfold pio_feed. cbn [tcB p_pc p_x p_y p_osr p_oc p_isr p_wait p_pins p_irq p_tx p_rx]. destruct (q ++ a); reflexivity. Qed.

(** A state waiting at the first ([neg = true]) or second pull. *)
Definition tc_at (neg : bool) (s : pio) (q r : list Z) : Prop :=
  if neg then exists y o c, s = tcA y o c q r
  else exists x y o c, s = tcB x y o c q r /\ okx x = true /\ oky y = true.

Lemma tc_stall neg s a r : tc_at neg s [] r -> a = [] -> tc_at neg (pio_feed tc_program 16 s a) [] r.
Proof.
  intros H ->. destruct neg; cbn in *.
  - destruct H as (y & o & c & ->). rewrite tcA_pull. cbn. eauto.
  - destruct H as (x & y & o & c & -> & Hx & Hy). rewrite tcB_pull. cbn. eauto 8.
Qed.

(** One sample: 1 + at most 61 cycles. *)
Lemma tc_one neg s q r b v bs sched : tc_at neg s q r -> word_of b v ->
  (exists a t, sched = a :: t /\ exists q', q ++ a = v :: q' /\ words (q' ++ concat t) bs) -> (62 <= length sched)%nat ->
  exists n, (1 <= n <= 62)%nat /\ exists tr s' q2, tc_run s (firstn n sched) = (tr, s') /\
    tc_at (negb neg) s' q2 (r ++ [if neg then u16 (- b) else b]) /\ words (q2 ++ concat (skipn n sched)) bs.
Proof.
  intros Hs Hv (a & t & -> & q' & Eq & Hw) L. cbn [length] in L.
  destruct (tc_check_word 60 b v tc_check_true Hv) as (CA & CB). destruct neg; cbn [tc_at] in Hs.
  - destruct Hs as (y & o & c & ->). destruct (tcA_run 60 b v CA) as (n & Hn & R).
    destruct t as [|a2 t]; [cbn in L; lia|]. cbn [length] in L.
    exists (S (S n)). split; [lia|]. cbn [firstn]. unfold tc_run in *. cbn [pio_run].
    rewrite tcA_pull, Eq, tcA_first.
    destruct (R (firstn n t) (q' ++ a2) r ltac:(rewrite firstn_length; lia)) as (tr & x & y1 & o1 & c1 & E & Hx & Hy).
    rewrite E. eexists _, _, (((q' ++ a2) ++ concat (firstn n t))). split; [reflexivity|]. split.
    + cbn. exists x, y1, o1, c1. auto.
    + cbn [skipn]. rewrite <- app_assoc, <- concat_app, firstn_skipn. cbn [concat] in Hw. rewrite <- app_assoc. exact Hw.
  - destruct Hs as (x & y & o & c & -> & Hx & Hy). destruct (tcB_run 60 b v x y (CB x y Hx Hy)) as (n & Hn & R).
    exists (S n). split; [lia|]. cbn [firstn]. unfold tc_run in *. cbn [pio_run]. rewrite tcB_pull, Eq.
    destruct (R (firstn n t) q' r ltac:(rewrite firstn_length; lia)) as (tr & y1 & o1 & c1 & E).
    rewrite E. eexists _, _, (q' ++ concat (firstn n t)). split; [reflexivity|]. split.
    + cbn. exists y1, o1, c1. auto.
    + cbn [skipn]. rewrite <- app_assoc, <- concat_app, firstn_skipn. exact Hw.
Qed.

Lemma concat_skipn_nil {A} (l : list (list A)) a b : (a <= b)%nat -> concat (skipn a l) = [] -> concat (skipn b l) = [].
Proof.
  intros H E. replace b with ((b - a) + a)%nat by lia. rewrite <- skipn_skipn.
  rewrite <- (firstn_skipn (b - a) (skipn a l)), concat_app in E. apply app_eq_nil in E as (_ & E). exact E.
Qed.

Lemma tc_quiet sched : forall neg s r, tc_at neg s [] r -> concat sched = [] ->
  exists tr s', tc_run s sched = (tr, s') /\ tc_at neg s' [] r.
Proof.
  induction sched as [|a t IH]; intros neg s r H E; unfold tc_run in *; cbn [pio_run]; [eauto|].
  apply concat_nil_cons in E as (-> & E). apply tc_stall with (a := []) in H; auto.
  destruct (IH neg _ r H E) as (tr & s' & R & H'). rewrite R. eauto.
Qed.

Lemma tc_drain : forall n sched, length sched = n -> forall neg s q r bs k,
  tc_at neg s q r -> words (q ++ concat sched) bs ->
  concat (skipn k sched) = [] -> (62 * length bs + k <= length sched)%nat ->
  exists tr sf, tc_run s sched = (tr, sf) /\ p_rx sf = r ++ tc_spec neg bs /\ p_tx sf = [].
Proof.
  induction n as [n IH] using lt_wf_ind. intros sched Hn neg s q r bs k Hs Hw Hk HL.
  destruct bs as [|b bs].
  - apply Forall2_nil_l in Hw. apply app_eq_nil in Hw as (-> & E).
    destruct (tc_quiet sched neg s r Hs E) as (tr & s' & R & H'). exists tr, s'. split; auto.
    cbn [tc_spec]. rewrite app_nil_r. destruct neg; cbn in H'.
    + destruct H' as (y & o & c & ->). auto.
    + destruct H' as (x & y & o & c & -> & _). auto.
  - destruct sched as [|a t]; [cbn [length] in HL; lia|]. cbn [concat] in Hw. rewrite app_assoc in Hw.
    destruct (q ++ a) as [|v q'] eqn:Eq.
    + apply app_eq_nil in Eq as (-> & ->). cbn [app] in Hw. unfold tc_run. cbn [pio_run].
      apply tc_stall with (a := []) in Hs; auto. cbn [length] in *.
      assert (Hk1 : (1 <= k)%nat).
      { destruct k; [|lia]. cbn [skipn concat app] in Hk. cbn in Hk. rewrite Hk in Hw. inversion Hw. }
      destruct (IH (length t) ltac:(lia) t eq_refl neg _ [] r (b :: bs) (k - 1)%nat Hs Hw) as (tr & sf & R & Rx & Q).
      * destruct k; [lia|]. cbn [skipn] in Hk. replace (S k - 1)%nat with k by lia. exact Hk.
      * cbn [length] in *. lia.
      * unfold tc_run in R. rewrite R. eauto.
    + inversion Hw as [|b0 v0 bs0 l0 Hv Hw']; subst b0 v0 bs0 l0.
      destruct (tc_one neg s q r b v bs (a :: t) Hs Hv) as (m & Hm & tr1 & s1 & q2 & R1 & S1 & W1).
      * exists a, t. split; auto. exists q'. auto.
      * cbn [length] in *. lia.
      * destruct (IH (length (skipn m (a :: t))) ltac:(rewrite skipn_length; cbn [length] in *; lia) _ eq_refl
          (negb neg) s1 q2 _ bs (k - m)%nat S1 W1) as (tr & sf & R & Rx & Q).
        -- rewrite skipn_skipn. apply concat_skipn_nil with (a := k); auto. lia.
        -- rewrite skipn_length. cbn [length] in *. lia.
        -- rewrite <- (firstn_skipn m (a :: t)). unfold tc_run in *. rewrite pio_run_app, R1, R.
           eexists _, _. split; [reflexivity|]. split; auto. rewrite Rx, <- app_assoc. reflexivity.
Qed.

Lemma tc_all_schedules sched bs n : words (concat sched) bs -> (62 * length bs + 2 <= n)%nat ->
  exists tr sf, tc_run pio_init (sched ++ repeat [] n) = (tr, sf) /\ p_rx sf = tc_spec true bs /\ p_tx sf = [].
Proof.
  intros Hw Hn.
  assert (E : exists a t, sched ++ repeat [] n = a :: t /\ concat (a :: t) = concat sched /\
     concat (skipn (length sched) t) = [] /\ (length t + 1 = length sched + n)%nat).
  { destruct n as [|n]; [lia|]. destruct sched as [|a s]; cbn [app repeat].
    - exists [], (repeat [] n). repeat split; [apply concat_repeat_nil| |rewrite repeat_length; cbn; lia].
      cbn. apply concat_repeat_nil.
    - exists a, (s ++ [] :: repeat [] n). split; [reflexivity|]. split.
      + cbn [concat]. rewrite concat_app. cbn [concat app]. rewrite concat_repeat_nil, app_nil_r. reflexivity.
      + split; [|rewrite app_length; cbn [length]; rewrite repeat_length; lia].
        rewrite skipn_app. rewrite skipn_all2 by (cbn; lia). cbn [length app].
        replace (S (length s) - length s)%nat with 1%nat by lia. cbn [skipn]. apply concat_repeat_nil. }
  destruct E as (a & t & E & Ec & Ek & El). rewrite E. unfold tc_run. cbn [pio_run].
  assert (F : pio_feed tc_program 16 pio_init a = tcA 0 0 32 a []) by reflexivity. rewrite F.
  destruct (tc_drain (length t) t eq_refl true (tcA 0 0 32 a []) a [] bs (length sched)) as (tr & sf & R & Rx & Q).
  - cbn. eauto.
  - cbn [concat] in Ec. rewrite Ec. exact Hw.
  - exact Ek.
  - lia.
  - unfold tc_run in R. rewrite R. eauto.
Qed.

(** The RX FIFO content only grows. *)
Lemma cycle_rx_grows prog th s : exists l, p_rx (pio_cycle prog th s) = p_rx s ++ l.
Proof.
  unfold pio_cycle. destruct (p_wait s); [|exists []; cbn; rewrite app_nil_r; auto].
  destruct (nth_error prog (p_pc s)) as [i|]; [|exists []; rewrite app_nil_r; auto].
  destruct (i_op i); try (exists []; cbn; rewrite app_nil_r; reflexivity).
  - destruct c; exists []; cbn; rewrite app_nil_r; reflexivity.
  - destruct (p_tx s); exists []; cbn; rewrite app_nil_r; reflexivity.
  - eexists; cbn; reflexivity.
Qed.
Lemma run_rx_grows prog th sched : forall s, exists l, p_rx (snd (pio_run prog th s sched)) = p_rx s ++ l.
Proof.
  induction sched as [|a t IH]; intros s; cbn [pio_run].
  - exists []. cbn. rewrite app_nil_r; auto.
  - destruct (IH (pio_feed prog th s a)) as (l & E). destruct (pio_run prog th (pio_feed prog th s a) t) as [tr sf].
    cbn [snd] in *. unfold pio_feed in E. destruct (cycle_rx_grows prog th
      (PIO (p_pc s) (p_x s) (p_y s) (p_osr s) (p_oc s) (p_isr s) (p_wait s) (p_pins s) (p_irq s) (p_tx s ++ a) (p_rx s))) as (l2 & E2).
    rewrite E2 in E. cbn [p_rx] in E. rewrite <- app_assoc in E. eauto.
Qed.

(** At any moment the output is a prefix of what the specification demands. *)
Lemma tc_prefix sched bs : words (concat sched) bs ->
  exists l, p_rx (snd (tc_run pio_init sched)) ++ l = tc_spec true bs.
Proof.
  intros Hw. destruct (tc_all_schedules sched bs _ Hw (le_n _)) as (tr & sf & R & Rx & _).
  unfold tc_run in *. rewrite pio_run_app in R.
  destruct (pio_run tc_program 16 pio_init sched) as [t1 s1]. cbn [snd].
  destruct (run_rx_grows tc_program 16 (repeat [] (62 * length bs + 2)) s1) as (l & E).
  destruct (pio_run tc_program 16 s1 (repeat [] (62 * length bs + 2))) as [t2 s2]. inversion R; subst. cbn [snd] in E.
  exists l. congruence.
Qed.

(** ** DC balance of the transmitter *)
Definition sumz (l : list Z) : Z := fold_right Z.add 0 l.
Lemma sumz_app a b : sumz (a ++ b) = sumz a + sumz b.
Proof. unfold sumz. induction a as [|x t IH]; cbn [app fold_right]; [lia|rewrite IH; lia]. Qed.
Lemma sumz_repeat0 n : sumz (repeat 0 n) = 0.
Proof. unfold sumz. induction n; cbn; auto. Qed.

Definition bal (acc : Z) (l : list Z) : Prop := forall k, 0 <= acc + sumz (firstn k l) <= 8.
Fixpoint balb (acc : Z) (l : list Z) : bool :=
  (0 <=? acc) && (acc <=? 8) && match l with [] => true | x :: t => balb (acc + x) t end.
Lemma balb_bal l : forall acc, balb acc l = true -> bal acc l.
Proof.
  induction l as [|x t IH]; intros acc H k; cbn [balb] in H; rewrite !andb_true_iff, !Z.leb_le in H; destruct H as ((H1 & H2) & H3).
  - rewrite firstn_nil. cbn. lia.
  - destruct k; cbn [firstn sumz fold_right]; [lia|]. fold (sumz (firstn k t)). specialize (IH _ H3 k). lia.
Qed.
Lemma char_check : forallb (fun n => let w := char_wave_short (Z.of_nat n) in balb 0 w && (sumz w =? 0) && (length w =? 175)%nat) (seq 0 256) = true.
Proof. vm_cast_no_check (eq_refl true). Qed.
Lemma char_balanced b : 0 <= b < 256 -> bal 0 (char_wave_short b) /\ sumz (char_wave_short b) = 0 /\ length (char_wave_short b) = 175%nat.
Proof.
  intros Hb. pose proof (forallb_byte _ b char_check Hb) as H. cbv beta zeta in H. rewrite Z2Nat.id in H by lia.
  rewrite !andb_true_iff in H. destruct H as ((H1 & H2) & H3). apply balb_bal in H1. apply Z.eqb_eq in H2.
  apply Nat.eqb_eq in H3. auto.
Qed.

Lemma bal_app a b : bal 0 a -> sumz a = 0 -> bal 0 b -> bal 0 (a ++ b).
Proof.
  intros Ha Sa Hb k. rewrite firstn_app, sumz_app.
  destruct (Nat.le_gt_cases k (length a)).
  - replace (k - length a)%nat with 0%nat by lia. cbn [firstn]. specialize (Ha k). cbn. lia.
  - rewrite firstn_all2 by lia. rewrite Sa. specialize (Hb (k - length a)%nat). lia.
Qed.
Lemma firstn_repeat {A} (x : A) k n : firstn k (repeat x n) = repeat x (Nat.min k n).
Proof. revert k; induction n as [|n IH]; intros [|k]; cbn [repeat firstn Nat.min]; auto. rewrite IH; auto. Qed.
Lemma bal_zeros n : bal 0 (repeat 0 n).
Proof. intros k. rewrite firstn_repeat, sumz_repeat0. lia. Qed.

Lemma waves_balanced gaps bs tail : Forall (fun b => 0 <= b < 256) bs ->
  bal 0 (waves (combine gaps bs) ++ repeat 0 tail) /\ sumz (waves (combine gaps bs)) = 0.
Proof.
  intros H. revert gaps. induction H as [|b bs Hb Hbs IH]; intros gaps.
  - rewrite combine_nil. cbn [waves app]. split; [apply bal_zeros|reflexivity].
  - destruct gaps as [|g gaps]; cbn [combine waves].
    + split; [apply bal_zeros|reflexivity].
    + destruct (IH gaps) as (I1 & I2). destruct (char_balanced b Hb) as (B1 & B2 & _). split.
      * rewrite <- !app_assoc. apply bal_app; [apply bal_zeros|apply sumz_repeat0|]. apply bal_app; auto.
      * rewrite !sumz_app, sumz_repeat0, B2, I2. reflexivity.
Qed.

Lemma words_bytes l bs : words l bs -> Forall (fun b => 0 <= b < 256) bs.
Proof. intros H. induction H as [|b w bs l (Hb & _) H IH]; constructor; auto. Qed.

Lemma pio_run_length prog th sched : forall s, length (fst (pio_run prog th s sched)) = length sched.
Proof.
  induction sched as [|a t IH]; intros s; cbn [pio_run]; auto. specialize (IH (pio_feed prog th s a)).
  destruct (pio_run prog th (pio_feed prog th s a) t). cbn in *. auto.
Qed.

(** At any moment the running sum of line levels is between 0 and 8 (one half-bit pulse). *)
Lemma tx_running_balance sched bs : words (concat sched) bs ->
  0 <= sumz (map line_level (fst (tx_run pio_init sched))) <= 8.
Proof.
  intros Hw. destruct (tx_all_schedules sched bs _ Hw (le_n _)) as (tr & sf & gaps & tail & R & M & Lg & _).
  unfold tx_run in *. rewrite pio_run_app in R.
  pose proof (pio_run_length tx_program 8 sched pio_init) as Ln.
  destruct (pio_run tx_program 8 pio_init sched) as [t1 s1]. cbn [fst] in *.
  destruct (pio_run tx_program 8 s1 (repeat [] (175 * length bs + 2))) as [t2 s2]. inversion R; subst.
  rewrite map_app in M.
  destruct (waves_balanced gaps bs tail (words_bytes _ _ Hw)) as (B & _).
  specialize (B (length (map line_level t1))). rewrite <- M in B.
  rewrite firstn_app, Nat.sub_diag, firstn_all in B. cbn [firstn] in B. rewrite app_nil_r in B. lia.
Qed.
Lemma tx_total_balance sched bs n : words (concat sched) bs -> (175 * length bs + 2 <= n)%nat ->
  sumz (map line_level (fst (tx_run pio_init (sched ++ repeat [] n)))) = 0.
Proof.
  intros Hw Hn. destruct (tx_all_schedules sched bs n Hw Hn) as (tr & sf & gaps & tail & R & M & Lg & _).
  rewrite R. cbn [fst]. rewrite M, sumz_app, sumz_repeat0.
  destruct (waves_balanced gaps bs tail (words_bytes _ _ Hw)) as (_ & ->). reflexivity.
Qed.

(** ** The transmitted characters are valid frames, and their timing *)
Lemma char_symbols_check : forallb (fun n => let b := Z.of_nat n in let s := char_symbols b in
   (length s =? 11)%nat && nonzero (nth 0 s 0) && forallb (fun i => Bool.eqb (Z.testbit b (Z.of_nat i)) (nth (S i) s 0 =? 0)) (seq 0 8) &&
   Nat.even (ones (firstn 9 (skipn 1 s))) && (nth 10 s 0 =? 0) &&
   (fix alt l := match l with a :: ((c :: _) as t) => (a * c <? 0) && alt t | _ => true end) (filter nonzero s)) (seq 0 256) = true.
Proof. vm_cast_no_check (eq_refl true). Qed.

Lemma char_symbols_ok b : 0 <= b < 256 -> frame_ok (char_symbols b) b.
Proof.
  intros Hb. pose proof (forallb_byte _ b char_symbols_check Hb) as H. cbv beta zeta in H. rewrite Z2Nat.id in H by lia.
  rewrite !andb_true_iff in H. destruct H as (((((H1 & H2) & H3) & H4) & H5) & H6). constructor; auto.
  - apply Nat.eqb_eq; auto.
  - unfold nonzero in H2. destruct (Z.eqb_spec (nth 0 (char_symbols b) 0) 0); [discriminate|auto].
  - intros i Hi. rewrite forallb_forall in H3. specialize (H3 i ltac:(apply in_seq; lia)). apply eqb_prop in H3.
    rewrite H3. apply Z.eqb_eq.
  - apply Z.eqb_eq; auto.
  - revert H6. generalize (filter nonzero (char_symbols b)). induction l as [|x [|y t] IH]; cbn; auto.
    intros E. apply andb_true_iff in E as (E1 & E2). split; [apply Z.ltb_lt; auto|]. apply IH; auto.
Qed.

Lemma char_short_check : forallb (fun n => zlist_eqb (char_wave_short (Z.of_nat n))
   (flat_map symbol_wave (firstn 10 (char_symbols (Z.of_nat n))) ++ repeat 0 15)) (seq 0 256) = true.
Proof. vm_cast_no_check (eq_refl true). Qed.
Lemma char_short_eq b : 0 <= b < 256 ->
  char_wave_short b = flat_map symbol_wave (firstn 10 (char_symbols b)) ++ repeat 0 15.
Proof.
  intros Hb. pose proof (forallb_byte _ b char_short_check Hb) as H. cbv beta in H. rewrite Z2Nat.id in H by lia.
  apply zlist_eqb_eq; auto.
Qed.

Lemma waves_15_eq l : Forall (fun p => 0 <= snd p < 256) l -> waves l = waves_15 l.
Proof.
  intros H. induction H as [|[g b] t Hb Ht IH]; cbn [waves waves_15]; auto. cbn [snd] in Hb.
  rewrite IH, char_short_eq by auto. rewrite <- !app_assoc. reflexivity.
Qed.
Lemma tx_timing sched bs n : words (concat sched) bs -> (175 * length bs + 2 <= n)%nat ->
  exists tr sf gaps tail, tx_run pio_init (sched ++ repeat [] n) = (tr, sf) /\
    map line_level tr = waves_15 (combine gaps bs) ++ repeat 0 tail /\ length gaps = length bs.
Proof.
  intros Hw Hn. destruct (tx_all_schedules sched bs n Hw Hn) as (tr & sf & gaps & tail & R & M & Lg & _).
  exists tr, sf, gaps, tail. split; auto. split; auto. rewrite <- waves_15_eq; auto.
  apply Forall_forall. intros [g b] Hi. apply in_combine_r in Hi. cbn.
  pose proof (words_bytes _ _ Hw) as F. rewrite Forall_forall in F. auto.
Qed.

Definition bb_sched : list (list Z) := [255; 255] :: repeat [] 400.
Definition bb_levels : list Z := map line_level (fst (tx_run pio_init bb_sched)).
Lemma bb_0 : nth 0 bb_levels 5 = 0. Proof. vm_compute. reflexivity. Qed.
Lemma bb_1 : nth 1 bb_levels 5 = 0. Proof. vm_compute. reflexivity. Qed.
Lemma bb_2 : nth 2 bb_levels 5 = 1. Proof. vm_compute. reflexivity. Qed.
Lemma bb_177 : nth 177 bb_levels 5 = 1. Proof. vm_compute. reflexivity. Qed.

Lemma cw_255 : nth 0 (char_wave 255) 5 = 1 /\ nth 175 (char_wave 255) 5 = 0 /\ length (char_wave 255) = 176%nat.
Proof. vm_compute. auto. Qed.

Lemma short_gen (lv cw : list Z) : nth 0 lv 5 = 0 -> nth 1 lv 5 = 0 -> nth 2 lv 5 = 1 -> nth 177 lv 5 = 1 ->
  nth 0 cw 5 = 1 -> nth 175 cw 5 = 0 -> length cw = 176%nat ->
  forall g1 r, lv <> repeat 0 g1 ++ cw ++ r.
Proof.
  intros B0 B1 B2 B3 C0 C1 CL g1 r H. subst lv.
  destruct g1 as [|[|[|g1]]]; cbn [repeat app nth] in B0, B1, B2.
  - rewrite app_nth1 in B0 by lia. congruence.
  - rewrite app_nth1 in B1 by lia. congruence.
  - rewrite app_nth2 in B3 by (rewrite repeat_length; lia). rewrite repeat_length in B3.
    replace (177 - 2)%nat with 175%nat in B3 by lia.
    rewrite app_nth1 in B3 by lia. congruence.
  - discriminate.
Qed.

Lemma back_gen (run : list (list Z) -> list Z * pio) sched n (cw : list Z) :
  (forall g1 r, map line_level (fst (run (sched ++ repeat [] n))) <> repeat 0 g1 ++ cw ++ r) ->
  exists tr sf, run (sched ++ repeat [] n) = (tr, sf) /\ forall g1 r, map line_level tr <> repeat 0 g1 ++ cw ++ r.
Proof. intros H. destruct (run (sched ++ repeat [] n)) as [tr sf]. eauto. Qed.

Lemma bb_ne : forall g1 r, map line_level (fst (tx_run pio_init ([[255; 255]] ++ repeat [] 400))) <> repeat 0 g1 ++ char_wave 255 ++ r.
Proof. destruct cw_255 as (C0 & C1 & CL). exact (short_gen bb_levels _ bb_0 bb_1 bb_2 bb_177 C0 C1 CL). Qed.

Lemma tx_back_to_back_short : exists sched bs n tr sf,
  words (concat sched) bs /\ tx_run pio_init (sched ++ repeat [] n) = (tr, sf) /\
  forall gaps tail, length gaps = length bs -> map line_level tr <> waves_full (combine gaps bs) ++ repeat 0 tail.
Proof.
  destruct (back_gen (tx_run pio_init) _ _ _ bb_ne) as (tr & sf & E & H).
  exists [[255; 255]], [255; 255], 400%nat, tr, sf.
  split; [repeat constructor; lia|]. split; [exact E|]. clear E.
  intros [|g1 [|g2 [|]]] tail L; try discriminate.
  cbn [combine waves_full]. rewrite <- !app_assoc. apply H.
Qed.
