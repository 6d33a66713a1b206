(** P_AdcReset.v -- the sample converter over resets of the ADC. *)
From Verif Require Import Base M_Pio M_AdcReset M_Adc S_Pio S_Adc S_AdcReset D_Adc P_Containers P_Pio P_PioTc P_Adc.

Definition w32 (v : Z) : Prop := 0 <= v < 4294967296.
(** What [push] may find after the high byte was shifted in. *)
Definition okA (v : Z) : Prop := 0 <= v < 256 \/ 65280 <= v < 65536.
Definition bit01 (y : Z) : Prop := y = 0 \/ y = 1.
Definition low_x (x : Z) : Prop := 0 <= x <= 7.

Definition wfpc (s : pio) : Prop :=
  match p_pc s with
  | 0%nat => p_isr s = 0
  | 1%nat => p_isr s = 0 /\ p_x s = 7
  | 2%nat => w32 (p_isr s) /\ low_x (p_x s)
  | 3%nat => w32 (p_isr s) /\ low_x (p_x s) /\ bit01 (p_y s)
  | 4%nat => w32 (p_isr s) /\ low_x (p_x s) /\ bit01 (p_y s)
  | 5%nat => w32 (p_isr s) /\ p_x s = 4294967295 /\ bit01 (p_y s)
  | 6%nat => w32 (p_isr s) /\ p_x s = 4294967295 /\ p_y s = 4294967295
  | 7%nat => w32 (p_isr s) /\ p_x s = 0 /\ p_y s = 4294967295
  | 8%nat => w32 (p_isr s) /\ low_x (p_x s) /\ bit01 (p_y s)
  | 9%nat => w32 (p_isr s) /\ low_x (p_x s) /\ p_y s = 1
  | 10%nat => w32 (p_isr s) /\ low_x (p_x s)
  | 11%nat => w32 (p_isr s) /\ low_x (p_x s) /\ bit01 (p_y s)
  | 12%nat => w32 (p_isr s) /\ low_x (p_x s) /\ bit01 (p_y s)
  | 13%nat => w32 (p_isr s) /\ okx (p_x s) = true /\ oky (p_y s) = true
  | 14%nat => okA (Z.shiftr (p_isr s) 16) /\ okx (p_x s) = true /\ oky (p_y s) = true
  | 15%nat => okA (p_isr s) /\ okx (p_x s) = true /\ oky (p_y s) = true
  | 16%nat => p_isr s = 0 /\ okx (p_x s) = true /\ oky (p_y s) = true
  | 17%nat => p_isr s = 0
  | 18%nat => p_isr s = 0
  | 19%nat => 0 <= Z.shiftr (p_isr s) 24 < 256
  | 20%nat => okA (p_isr s)
  | 21%nat => p_isr s = 0
  | _ => False
  end.
Definition wf (s : pio) : Prop :=
  wfpc s /\ p_pins s = 0 /\ p_irq s = false /\ ((p_pc s <= 16)%nat -> p_wait s = O) /\ (p_wait s <= 7)%nat.

(** Upper bound on the number of cycles to the next pull. *)
Definition dist (s : pio) : nat :=
  let x := Z.to_nat (p_x s) in
  (p_wait s +
  match p_pc s with
  | 0 => 1 | 1 => 0 | 2 => 4 * x + 9 | 3 => 4 * x + 8 | 4 => 4 * x + 7 | 5 => 6 | 6 => 5 | 7 => 4
  | 8 => 4 * x + 10 | 9 => 3 * x + 7 | 10 => 3 * x + 6 | 11 => 3 * x + 5 | 12 => 3 * x + 4
  | 13 => 3 | 14 => 2 | 15 => 1 | 16 => 0 | 17 => 27 | 18 => 19 | 19 => 11 | 20 => 3 | 21 => 2
  | _ => 0 end)%nat.
(** Which pull comes next: the one whose word is negated or the other. *)
Definition next_neg (s : pio) : bool := (p_pc s <=? 1)%nat || (17 <=? p_pc s)%nat.
(** Words to be delivered before the next pull. *)
Definition owed (s : pio) : nat := match p_pc s with 0 | 1 | 16 | 21 => 0 | _ => 1 end%nat.

Lemma w32_in isr y k : w32 isr -> 0 < k < 32 -> w32 (Z.lor (Z.shiftr isr k) (Z.shiftl (Z.land y (2 ^ k - 1)) (32 - k))).
Proof.
  intros (H1 & H2) Hk. unfold w32.
  assert (E : 2 ^ k - 1 = Z.ones k) by (rewrite Z.ones_equiv; lia). rewrite E, Z.land_ones by lia.
  pose proof (Z.mod_pos_bound y (2 ^ k) ltac:(lia)) as Hy.
  assert (A : 0 <= Z.shiftr isr k) by (apply Z.shiftr_nonneg; lia).
  assert (B : 0 <= Z.shiftl (y mod 2 ^ k) (32 - k)) by (apply Z.shiftl_nonneg; lia).
  split; [apply Z.lor_nonneg; auto|].
  assert (Q : Z.shiftr (Z.lor (Z.shiftr isr k) (Z.shiftl (y mod 2 ^ k) (32 - k))) 32 = 0).
  { rewrite Z.shiftr_lor, Z.shiftr_shiftr by lia. rewrite Z.shiftr_shiftl_r by lia.
    replace (32 - (32 - k)) with k by lia. rewrite !Z.shiftr_div_pow2 by lia.
    rewrite (Z.div_small isr) by (split; [lia|]; apply Z.lt_le_trans with (2 ^ 32); [exact H2|]; apply Z.pow_le_mono_r; lia).
    rewrite Z.div_small by lia. reflexivity. }
  apply Z.nle_gt. intros C. rewrite Z.shiftr_div_pow2 in Q by lia.
  assert (1 <= Z.lor (Z.shiftr isr k) (Z.shiftl (y mod 2 ^ k) (32 - k)) / 2 ^ 32); [|lia].
  apply Z.div_le_lower_bound; [reflexivity|]. rewrite Z.mul_1_r. exact C.
Qed.

Lemma okA_shift v : w32 v -> okA (Z.shiftr (Z.lor (Z.shiftr v 8) (Z.shiftl 0 24)) 16).
Proof.
  intros (H1 & H2). change (Z.shiftl 0 24) with 0. rewrite Z.lor_0_r, Z.shiftr_shiftr by lia. rewrite Z.shiftr_div_pow2 by lia.
  left. change (2 ^ (8 + 16)) with 16777216. split; [apply Z.div_pos; lia|apply Z.div_lt_upper_bound; lia].
Qed.
Lemma high_check : forallb (fun n => Z.lor (Z.of_nat n) 65280 =? Z.of_nat n + 65280) (seq 0 256) = true.
Proof. vm_compute. reflexivity. Qed.
Lemma okA_high v : w32 v -> okA (Z.shiftr (Z.lor (Z.shiftr v 8) (Z.shiftl 255 24)) 16).
Proof.
  intros (H1 & H2). rewrite Z.shiftr_lor, Z.shiftr_shiftr by lia. change (Z.shiftr (Z.shiftl 255 24) 16) with 65280. rewrite Z.shiftr_div_pow2 by lia.
  change (2 ^ (8 + 16)) with 16777216. right.
  assert (B : 0 <= v / 16777216 < 256) by (split; [apply Z.div_pos; lia|apply Z.div_lt_upper_bound; lia]).
  set (u := v / 16777216) in *. clearbody u. clear - B.
  assert (E : Z.lor u 65280 = u + 65280) by (pose proof (forallb_byte (fun n => Z.lor (Z.of_nat n) 65280 =? Z.of_nat n + 65280) u high_check B) as H; cbv beta in H; rewrite Z2Nat.id in H by lia; apply Z.eqb_eq; exact H).
  rewrite E. lia.
Qed.

Lemma bit_land y : bit01 (Z.land y (2 ^ 1 - 1)).
Proof. change (2 ^ 1 - 1) with (Z.ones 1). rewrite Z.land_ones by lia. change (2 ^ 1) with 2. unfold bit01. pose proof (Z.mod_pos_bound y 2 ltac:(lia)). lia. Qed.
Lemma okA_in8 v y : v = 0 -> 0 <= Z.shiftr (Z.lor (Z.shiftr v 8) (Z.shiftl (Z.land y (2 ^ 8 - 1)) (32 - 8))) 24 < 256.
Proof.
  intros ->. rewrite Z.shiftr_0_l, Z.lor_0_l. change (2 ^ 8 - 1) with (Z.ones 8). rewrite Z.land_ones by lia. change (32 - 8) with 24.
  rewrite Z.shiftr_shiftl_l, Z.shiftl_0_r by lia. apply Z.mod_pos_bound. lia.
Qed.

Lemma cycle_wf s : wf s -> at_pull tc_program s = false ->
  let s' := pio_cycle tc_program 16 s in
  wf s' /\ (dist s' < dist s)%nat /\ p_tx s' = p_tx s /\ next_neg s' = next_neg s /\
  exists e, p_rx s' = p_rx s ++ e /\ Forall okA e /\ (length e + owed s' = owed s)%nat.
Proof.
  intros (W & Hp & Hi & Hw & Hw7) A. destruct s as [pc x y osr oc isr w pins irq tx rx]. cbn [p_pins p_irq p_wait p_pc] in *. subst pins irq.
  destruct w as [|w].
  2:{ cbn zeta. unfold pio_cycle. cbn [p_wait p_pc p_x p_y p_osr p_oc p_isr p_pins p_irq p_tx p_rx]. split; [|split; [|split; [|split]]]; auto.
      - split; [exact W|]. cbn [p_pins p_irq p_wait p_pc]. split; [reflexivity|split; [reflexivity|split]]; [intros H; specialize (Hw H); discriminate|lia].
      - exists []. cbn [length]. rewrite app_nil_r. auto. }
  clear Hw Hw7. unfold wfpc in W. cbn [p_pc p_isr p_x p_y] in W. cbn zeta.
  do 22 try (destruct pc as [|pc]).
  all: try contradiction.
  all: try (unfold at_pull in A; discriminate A); clear A.
  all: unfold pio_cycle; cbn [p_wait p_pc nth_error tc_program i_op i_side i_delay pplain p_x p_y p_osr p_oc p_isr p_pins p_irq p_tx p_rx].
  all: repeat match goal with |- context [next_pc tc_program ?k] => let v := eval vm_compute in (next_pc tc_program k) in change (next_pc tc_program k) with v end.
  all: repeat match goal with H : _ /\ _ |- _ => destruct H | H : low_x _ |- _ => unfold low_x in H end.
  all: try match goal with |- context [negb (?x =? 0)] => destruct (Z.eqb_spec x 0) as [Ex|Ex]; cbn [negb] end.
  all: try match goal with |- context [if ?x =? 0 then _ else _] => destruct (Z.eqb_spec x 0) as [Ex|Ex] end.
  all: try match goal with H : bit01 ?y |- _ => destruct H; try (subst y; try contradiction) end.
  all: try match goal with H : ?x = 0 |- _ => is_var x; subst x end.
  all: try match goal with |- context [u32 (?x - 1)] => is_var x; replace (u32 (x - 1)) with (x - 1) by (unfold u32; rewrite Z.mod_small; lia) end.
  all: unfold wf, wfpc, dist, next_neg, owed; cbn [p_pc p_x p_y p_isr p_wait p_pins p_irq p_tx p_rx]; cbv zeta.
  all: split; [split; [|split; [reflexivity|split; [reflexivity|split; [first [reflexivity | intros; lia]|lia]]]]|split; [|split; [reflexivity|split; [reflexivity|]]]].
  all: try (exists []; cbn [length]; rewrite app_nil_r; solve [auto]).
  all: try (eexists [_]; cbn [length]; split; [reflexivity|]; split; [constructor; [assumption|constructor]|reflexivity]).
  all: try lia.
  all: try (split; [first [assumption|apply w32_in; [assumption|lia]]|]; try split; first [reflexivity|apply bit_land|unfold low_x; lia|assumption|unfold bit01; lia|auto]).
  all: lazymatch goal with
  | H0 : okx ?x = true, H1 : oky ?y = true |- okA (Z.shiftr (Z.lor (Z.shiftr ?isr 8) _) 16) /\ _ =>
      split; [|split; assumption]; unfold okx in H0; apply orb_true_iff in H0 as [E|E]; apply Z.eqb_eq in E; subst x; [apply okA_shift|apply okA_high]; assumption
  | |- okA (Z.lor (Z.shiftr ?isr 16) _) /\ _ =>
      split; [|split; assumption]; change (Z.shiftl (Z.land 0 (2 ^ 16 - 1)) (32 - 16)) with 0; rewrite Z.lor_0_r; assumption
  | |- 0 = 0 /\ _ => split; [reflexivity|split; assumption]
  | |- 0 <= _ < 256 => apply okA_in8; reflexivity
  | |- okA (Z.lor (Z.shiftr ?isr 24) _) => change (Z.shiftl (Z.land 0 (2 ^ 24 - 1)) (32 - 24)) with 0; rewrite Z.lor_0_r; left; split; assumption
  | H : ?x = 4294967295 |- okx ?x = true => rewrite H; reflexivity
  | H : ?y = 4294967295 |- oky ?y = true => rewrite H; reflexivity
  end.
Qed.

Lemma wf_set_q s q r : wf s -> wf (set_q s q r).
Proof. intros H. exact H. Qed.
Lemma at_pull_pc s : wf s -> at_pull tc_program s = true -> (p_pc s = 1%nat \/ p_pc s = 16%nat) /\ p_wait s = O.
Proof.
  intros (W & _) A. unfold at_pull in A. destruct (p_wait s) as [|w]; [|discriminate]. split; [|reflexivity]. unfold wfpc in W. destruct (p_pc s) as [|pc]; [discriminate|].
  do 21 try (destruct pc as [|pc]; [first [discriminate A|auto]|]). contradiction.
Qed.
Lemma at_pull_tc s : wf s -> at_pull tc_program s = true -> tc_at (next_neg s) s (p_tx s) (p_rx s) /\ owed s = O /\ dist s = O.
Proof.
  intros W A. destruct (at_pull_pc s W A) as (P & Hw). destruct W as (W & Hp & Hi & _). destruct s as [pc x y osr oc isr w pins irq tx rx].
  cbn [p_pins p_irq p_wait p_pc] in *. subst pins irq w. unfold wfpc in W. cbn [p_pc] in W. destruct P as [-> | ->]; cbn [p_isr p_x p_y] in W.
  - destruct W as (-> & ->). split; [|split; reflexivity]. exists y, osr, oc. reflexivity.
  - destruct W as (-> & Hx & Hy). split; [|split; reflexivity]. exists x, y, osr, oc. auto.
Qed.
Lemma wf_at_dist s : wf s -> at_pull tc_program s = false -> (0 < dist s)%nat.
Proof. intros W A. destruct (cycle_wf s W A) as (_ & D & _). lia. Qed.

Lemma feed_wf s a : wf s -> at_pull tc_program s = false ->
  let s' := pio_feed tc_program 16 s a in
  wf s' /\ (dist s' < dist s)%nat /\ p_tx s' = p_tx s ++ a /\ next_neg s' = next_neg s /\
  exists e, p_rx s' = p_rx s ++ e /\ Forall okA e /\ (length e + owed s' = owed s)%nat.
Proof.
  intros W A. exact (cycle_wf (set_q s (p_tx s ++ a) (p_rx s)) (wf_set_q _ _ _ W) A).
Qed.

Lemma to_next_pull n : forall s sched, wf s -> (dist s <= n)%nat -> (dist s <= length sched)%nat ->
  exists m e, (m <= dist s)%nat /\ Forall okA e /\ length e = owed s /\
    tc_at (next_neg s) (snd (tc_run s (firstn m sched))) (p_tx s ++ concat (firstn m sched)) (p_rx s ++ e).
Proof.
  induction n as [|n IH]; intros s sched W D L.
  - destruct (at_pull tc_program s) eqn:A; [|pose proof (wf_at_dist s W A); lia].
    destruct (at_pull_tc s W A) as (T & Ow & _). exists O, []. cbn [firstn concat length]. rewrite !app_nil_r. unfold tc_run. cbn [pio_run snd].
    split; [lia|]. split; [constructor|]. split; [symmetry; exact Ow|exact T].
  - destruct (at_pull tc_program s) eqn:A.
    + destruct (at_pull_tc s W A) as (T & Ow & _). exists O, []. cbn [firstn concat length]. rewrite !app_nil_r. unfold tc_run. cbn [pio_run snd].
      split; [lia|]. split; [constructor|]. split; [symmetry; exact Ow|exact T].
    + pose proof (wf_at_dist s W A). destruct sched as [|a t]; [cbn [length] in L; lia|].
      destruct (feed_wf s a W A) as (W1 & D1 & Q1 & N1 & e1 & R1 & F1 & O1). cbn [length] in L.
      destruct (IH (pio_feed tc_program 16 s a) t W1 ltac:(lia) ltac:(lia)) as (m & e & Hm & Fe & Le & T).
      exists (S m), (e1 ++ e). split; [lia|]. split; [apply Forall_app; auto|]. split; [rewrite app_length; lia|].
      cbn [firstn concat]. unfold tc_run in *. cbn [pio_run]. destruct (pio_run tc_program 16 (pio_feed tc_program 16 s a) (firstn m t)) as [tr sf].
      cbn [snd] in *. rewrite N1, Q1, R1 in T. rewrite <- !app_assoc in T. exact T.
Qed.

(** Parity of the words taken. *)
Lemma feed_par s a : wf s -> let s' := pio_feed tc_program 16 s a in
  wf s' /\ exists k, (length (p_tx s) + length a = k + length (p_tx s'))%nat /\ next_neg s' = xorb (next_neg s) (Nat.odd k).
Proof.
  intros W. destruct (at_pull tc_program s) eqn:A.
  - destruct (at_pull_tc s W A) as (T & _). cbn zeta. destruct (at_pull_pc s W A) as (P & _). pose proof (app_length (p_tx s) a) as La.
    destruct P as [P|P].
    + replace (next_neg s) with true in * by (unfold next_neg; rewrite P; reflexivity). cbn [tc_at] in T. destruct T as (y & o & c & E). rewrite (eq_trans (f_equal (fun z => pio_feed tc_program 16 z a) E) (tcA_pull _ _ _ _ _ _)).
      destruct (p_tx s ++ a) as [|v t].
      * split; [repeat split; cbn; lia|]. exists O. cbn [length] in La. split; [cbn [p_tx tcA length]; lia|reflexivity].
      * split; [repeat split; cbn; auto; lia|]. exists 1%nat. cbn [length] in La. split; [cbn [p_tx length]; lia|reflexivity].
    + replace (next_neg s) with false in * by (unfold next_neg; rewrite P; reflexivity). cbn [tc_at] in T. destruct T as (x & y & o & c & E & Hx & Hy). rewrite (eq_trans (f_equal (fun z => pio_feed tc_program 16 z a) E) (tcB_pull _ _ _ _ _ _ _)).
      destruct (p_tx s ++ a) as [|v t].
      * split; [repeat split; cbn; auto; lia|]. exists O. cbn [length] in La. split; [cbn [p_tx tcB length]; lia|reflexivity].
      * split; [repeat split; cbn; auto; lia|]. exists 1%nat. cbn [length] in La. split; [cbn [p_tx tcB1 length]; lia|reflexivity].
  - destruct (feed_wf s a W A) as (W1 & _ & Q & N & _). split; [exact W1|]. exists O. rewrite Q, N, app_length, xorb_false_r. split; [lia|reflexivity].
Qed.
Lemma run_par sched : forall s, wf s -> let s' := snd (tc_run s sched) in
  wf s' /\ exists k, (length (p_tx s) + length (concat sched) = k + length (p_tx s'))%nat /\ next_neg s' = xorb (next_neg s) (Nat.odd k).
Proof.
  induction sched as [|a t IH]; intros s W.
  - cbn zeta. unfold tc_run. cbn [pio_run snd concat length]. split; [exact W|]. exists O. rewrite xorb_false_r. split; [lia|reflexivity].
  - destruct (feed_par s a W) as (W1 & k1 & E1 & N1). destruct (IH _ W1) as (W2 & k2 & E2 & N2). cbn zeta. unfold tc_run in *. cbn [pio_run].
    destruct (pio_run tc_program 16 (pio_feed tc_program 16 s a) t) as [tr sf]. cbn [snd] in *. split; [exact W2|].
    exists (k1 + k2)%nat. cbn [concat]. rewrite app_length. split; [lia|]. rewrite N2, N1, Nat.odd_add, xorb_assoc. reflexivity.
Qed.
Lemma restart_wf s : wf s -> wf (tc_restart s) /\ next_neg (tc_restart s) = next_neg s.
Proof.
  intros (W & Hp & Hi & _). split; [|reflexivity]. split; [|cbn; repeat split; auto; lia]. destruct s as [pc x y osr oc isr w pins irq tx rx].
  unfold wfpc, tc_restart in *. cbn [p_pc p_isr p_x p_y] in *. clear Hp Hi.
  assert (W0 : w32 0) by (unfold w32; lia). assert (A0 : okA 0) by (unfold okA; lia).
  do 22 try (destruct pc as [|pc]). all: try contradiction. all: repeat match goal with H : _ /\ _ |- _ => destruct H end; unfold low_x in *; repeat split; auto; try lia; try (cbn; lia); try exact A0.
Qed.
Lemma resets_wf segs : forall s, wf s -> p_tx s = [] -> (segs = [] -> p_rx s = []) ->
  let s' := after_resets s segs in wf s' /\ p_tx s' = [] /\ p_rx s' = [] /\ next_neg s' = xorb (next_neg s) (Nat.odd (taken s segs)).
Proof.
  induction segs as [|sched t IH]; intros s W Q R; cbn [after_resets taken].
  - rewrite xorb_false_r. auto.
  - destruct (run_par sched s W) as (W1 & k & E & N). destruct (restart_wf _ W1) as (W2 & N2).
    destruct (IH _ W2 eq_refl (fun _ => eq_refl)) as (W3 & Q3 & R3 & N3). cbn zeta. split; [exact W3|]. split; [exact Q3|]. split; [exact R3|].
    rewrite N3, N2, N. rewrite Q in E. cbn [length] in E. replace (length (concat sched) - length (p_tx (snd (tc_run s sched))))%nat with k by lia.
    rewrite Nat.odd_add, xorb_assoc. reflexivity.
Qed.
Lemma init_wf : wf pio_init.
Proof. repeat split; cbn; lia. Qed.

Definition spurious (e : list Z) : Prop := (length e <= 1)%nat /\ Forall okA e.

Lemma converter_run segs sched bs n : words (concat sched) bs -> (62 * length bs + 100 <= n)%nat ->
  exists e tr sf, spurious e /\ tc_run (after_resets pio_init segs) (sched ++ repeat [] n) = (tr, sf) /\
    p_rx sf = e ++ tc_spec (Nat.even (taken pio_init segs)) bs /\ p_tx sf = [].
Proof.
  intros Hw Hn. destruct (resets_wf segs pio_init init_wf eq_refl (fun _ => eq_refl)) as (W & Q & R & N).
  set (s := after_resets pio_init segs) in *. clearbody s.
  assert (D : (dist s <= 100)%nat).
  { clear - W. destruct W as (W & _ & _ & _ & Hw). unfold wfpc, dist in *. destruct s as [pc x y osr oc isr w pins irq tx rx]. cbn [p_pc p_x p_y p_isr p_wait] in *.
    do 22 try (destruct pc as [|pc]). all: try contradiction. all: repeat match goal with H : _ /\ _ |- _ => destruct H end; unfold low_x in *; cbv zeta; lia. }
  destruct (to_next_pull 100 s (sched ++ repeat [] n) W D) as (m & e & Hm & Fe & Le & T); [rewrite app_length, repeat_length; lia|].
  rewrite Q, R in T. cbn [app] in T.
  assert (Lo : (owed s <= 1)%nat) by (unfold owed; clear; destruct (p_pc s) as [|pc]; [lia|]; do 21 (destruct pc as [|pc]; [lia|]); lia).
  set (all := sched ++ repeat [] n) in *.
  assert (Hc : concat all = concat sched) by (unfold all; rewrite concat_app, concat_repeat_nil, app_nil_r; reflexivity).
  destruct (tc_drain (length (skipn m all)) (skipn m all) eq_refl (next_neg s) _ _ _ bs (length sched) T) as (tr & sf & E & Rx & Tx).
  - rewrite <- concat_app, firstn_skipn, Hc. exact Hw.
  - rewrite skipn_skipn. apply concat_skipn_nil with (a := length sched); [lia|]. unfold all. rewrite skipn_app, skipn_all, Nat.sub_diag. cbn [app skipn]. apply concat_repeat_nil.
  - rewrite skipn_length. unfold all. rewrite app_length, repeat_length. lia.
  - exists e. unfold tc_run in *. rewrite <- (firstn_skipn m all), pio_run_app. destruct (pio_run tc_program 16 s (firstn m all)) as [t1 s1]. cbn [snd] in *. rewrite E.
    eexists _, _. split; [split; [lia|exact Fe]|]. split; [reflexivity|]. split; [|exact Tx]. rewrite Rx, N. cbn [next_neg pio_init p_pc Nat.leb orb]. 
    rewrite xorb_true_l, Nat.negb_odd. reflexivity.
Qed.

Lemma converter_prefix segs sched bs : words (concat sched) bs ->
  exists e l, spurious e /\ p_rx (snd (tc_run (after_resets pio_init segs) sched)) ++ l = e ++ tc_spec (Nat.even (taken pio_init segs)) bs.
Proof.
  intros Hw. destruct (converter_run segs sched bs _ Hw (le_n _)) as (e & tr & sf & He & R & Rx & _). exists e.
  set (s0 := after_resets pio_init segs) in *. clearbody s0. unfold tc_run in *. rewrite pio_run_app in R.
  destruct (pio_run tc_program 16 s0 sched) as [t1 s1]. cbn [snd].
  destruct (run_rx_grows tc_program 16 (repeat [] (62 * length bs + 100)) s1) as (l & E).
  destruct (pio_run tc_program 16 s1 (repeat [] (62 * length bs + 100))) as [t2 s2]. inversion R; subst. cbn [snd] in E.
  exists l. split; [exact He|]. congruence.
Qed.

Lemma okA_range w : okA w -> sample_range (s16 w).
Proof.
  intros H. unfold sample_range, s16. destruct H.
  - rewrite Z.mod_small by lia. lia.
  - replace (w + 32768) with (w - 32768 + 1 * 65536) by lia. rewrite Z_mod_plus_full, Z.mod_small by lia. lia.
Qed.

(** An alternating ring content after at most one other word. *)
Lemma alt_value gain mem L o a b n i : (forall j, (j < n)%nat -> nth (o + j) L 0 = if Nat.even j then a else b) -> (o <= 1)%nat ->
  3 <= i < Z.of_nat (o + n) -> value_at gain mem L i = (a + b) * gain / 256.
Proof.
  intros H Ho Hi. unfold value_at, sample_at, diff_value.
  destruct (Z.ltb_spec i 0); [lia|]. destruct (Z.ltb_spec (i - 2) 0); [lia|]. destruct (Z.ltb_spec (i - 1) 0); [lia|].
  replace (Z.to_nat i) with (o + (S (S (Z.to_nat (i - 2) - o))))%nat by lia. replace (Z.to_nat (i - 1)) with (o + S (Z.to_nat (i - 2) - o))%nat by lia.
  replace (Z.to_nat (i - 2)) with (o + (Z.to_nat (i - 2) - o))%nat at 2 by lia.
  rewrite !H by lia. set (m := (Z.to_nat (i - 2) - o)%nat). rewrite !Nat.even_succ, Nat.odd_succ, <- Nat.negb_even. f_equal. f_equal.
  destruct (Nat.even m); cbn [negb].
  - replace (a + a) with (a * 2) by lia. rewrite Z.quot_mul by lia. lia.
  - replace (b + b) with (b * 2) by lia. rewrite Z.quot_mul by lia. lia.
Qed.

Lemma conversions_nth neg c n p q j : 0 <= p < 256 -> 0 <= q < 256 -> (j < n)%nat ->
  nth j (map s16 (tc_spec neg (conversions p q c n))) 0 =
    if Nat.even j then (if neg then - (if Nat.even c then p else q) else (if Nat.even c then p else q))
    else (if neg then (if Nat.even c then q else p) else - (if Nat.even c then q else p)).
Proof.
  intros Hp Hq Hj. unfold conversions. destruct (Nat.even c), neg.
  - exact (proj1 (altern_nth n p q j Hp Hq Hj)).
  - exact (proj2 (altern_nth n q p j Hq Hp Hj)).
  - exact (proj1 (altern_nth n q p j Hq Hp Hj)).
  - exact (proj2 (altern_nth n p q j Hp Hq Hj)).
Qed.
Lemma conversions_length p q c n : length (conversions p q c n) = n.
Proof. unfold conversions. destruct (Nat.even c); apply altern_length. Qed.

Lemma differential_resets gain mem p q segs c n sched l rest :
  length mem = 256%nat /\ Forall sample_range mem -> 0 <= gain <= 65535 -> 0 <= p < 256 -> 0 <= q < 256 ->
  (taken pio_init segs <= c)%nat ->
  words (concat sched) (conversions p q c n) ->
  sampled l ++ rest = map s16 (p_rx (snd (tc_run (after_resets pio_init segs) sched))) ->
  Z.of_nat (samples l) < BLOCK ->
  exists a outs, mrun adc_event (adc_start mem gain) l = Ok (a, outs) /\
    forall k i pend, nth_error (snd (spec_run view0 l)) k = Some (Some (Data i pend)) -> 3 <= i -> pend <= 254 ->
      exists e, nth_error outs k = Some (Some (Some ((if Nat.even (c - taken pio_init segs) then q - p else p - q) * gain / 256, e))).
Proof.
  intros Hm Hg Hp Hq Hc Hw Ht Hs. destruct (converter_prefix segs sched _ Hw) as (e & r2 & (Le & Fe) & E).
  set (neg := Nat.even (taken pio_init segs)) in *.
  set (L := map s16 (e ++ tc_spec neg (conversions p q c n))).
  assert (TL : sampled l ++ (rest ++ map s16 r2) = L) by (unfold L; rewrite app_assoc, Ht, <- map_app, E; reflexivity).
  assert (LL : length L = (length e + n)%nat) by (unfold L; rewrite map_length, app_length, tc_spec_length, conversions_length; reflexivity).
  assert (NL : forall j, (j < n)%nat -> nth (length e + j) L 0 = nth j (map s16 (tc_spec neg (conversions p q c n))) 0).
  { intros j Hj. unfold L. rewrite map_app, app_nth2; rewrite map_length; [|lia]. f_equal. lia. }
  assert (RL : Forall sample_range L).
  { unfold L. rewrite map_app. apply Forall_app. split.
    - clear - Fe. induction Fe; cbn [map]; constructor; auto. apply okA_range; auto.
    - apply Forall_forall. intros x Hx. apply (In_nth _ _ 0) in Hx as (j & Hj & <-). rewrite map_length, tc_spec_length, conversions_length in Hj.
      rewrite conversions_nth by auto. unfold sample_range. clear - Hp Hq. destruct (Nat.even j), neg, (Nat.even c); lia. }
  assert (He : Forall ev_range l).
  { rewrite <- TL in RL. apply Forall_app in RL as (R & _). clear - R.
    induction l as [|[x|k] t IH]; cbn in *; constructor; cbn; auto. - inversion R; auto. - apply IH. inversion R; auto. }
  destruct (adc_history mem gain l Hm Hg He) as (a & outs & R & F & _). exists a, outs. split; auto.
  intros k i pend Hk Hi Hpd. destruct (Forall2_nth _ _ _ F _ _ Hk) as (y & Ey & Hy).
  destruct y as [[[v er]|]|]; cbn in Hy; try contradiction. exists er. rewrite Ey. destruct Hy as (Hy & _). rewrite (Hy Hpd). repeat f_equal.
  pose proof (data_index l view0 k i pend ltac:(cbn; lia) Hk) as Hx.
  rewrite (sampled_transferred l view0) in * by (cbn [left view0]; lia). unfold count in Hx. rewrite (sampled_transferred l view0) in Hx by (cbn [left view0]; lia).
  cbn [transferred view0 app] in *. rewrite <- (value_at_prefix gain mem (sampled l) (rest ++ map s16 r2)) by lia. rewrite TL.
  assert (Li : Z.of_nat (length (sampled l)) <= Z.of_nat (length e + n)) by (rewrite <- LL, <- TL, app_length; lia).
  rewrite (alt_value gain mem L (length e)
    (if neg then - (if Nat.even c then p else q) else (if Nat.even c then p else q))
    (if neg then (if Nat.even c then q else p) else - (if Nat.even c then q else p)) n i); [|intros j Hj; rewrite NL by auto; apply conversions_nth; auto|exact Le|lia].
  f_equal. f_equal. rewrite Nat.even_sub by exact Hc. fold neg. destruct neg, (Nat.even c); cbn [Bool.eqb]; lia.
Qed.

Lemma okA_s16 w : okA w -> -256 <= s16 w <= 255.
Proof.
  intros H. unfold s16. destruct H.
  - rewrite Z.mod_small by lia. lia.
  - replace (w + 32768) with (w - 32768 + 1 * 65536) by lia. rewrite Z_mod_plus_full, Z.mod_small by lia. lia.
Qed.
Lemma converter_resets segs sched bs n : words (concat sched) bs -> (62 * length bs + 100 <= n)%nat ->
  exists e tr sf, (length e <= 1)%nat /\ Forall (fun w => -256 <= s16 w <= 255) e /\
    tc_run (after_resets pio_init segs) (sched ++ repeat [] n) = (tr, sf) /\
    p_rx sf = e ++ tc_spec (Nat.even (taken pio_init segs)) bs /\ p_tx sf = [].
Proof.
  intros Hw Hn. destruct (converter_run segs sched bs n Hw Hn) as (e & tr & sf & (L & F) & R). exists e, tr, sf.
  split; [exact L|]. split; [|exact R]. eapply Forall_impl; [|exact F]. intros w. apply okA_s16.
Qed.
