(** P_PioRate.v -- latency and throughput of the sample converter. *)
From Verif Require Import Base M_Pio M_Clock S_Pio S_PioRate P_Containers P_Pio P_PioTc.

(** Latency of a negated sample after the first two cycles. *)
Fixpoint ctz (fuel : nat) (b : Z) : Z := match fuel with O => 0 | S f => if Z.odd b then 0 else 1 + ctz f (b / 2) end.
Definition latA (b : Z) : Z := if b =? 0 then 38 else Z.min 36 (30 + ctz 8 b).
Definition lat (neg : bool) (b : Z) : Z := if neg then latA b else 33.

Definition rxs_of (n : nat) (s : pio) : option (list Z) := match prun tc_program 16 n s with Some (_, _, rx) => Some rx | None => None end.
Definition lA_check (b v : Z) : bool :=
  match rxs_of (Z.to_nat (latA b) - 3) (tcA1 v [] []), rxs_of (Z.to_nat (latA b) - 2) (tcA1 v [] []) with Some [], Some [_] => true | _, _ => false end.
Definition lB_check (x y v : Z) : bool :=
  match rxs_of 31 (tcB1 x y v [] []), rxs_of 32 (tcB1 x y v [] []) with Some [], Some [_] => true | _, _ => false end.
Definition l_checkb (n : nat) : bool :=
  let b := Z.of_nat n in
  lA_check b b && lA_check b (b * 16843009) &&
  forallb (fun x => forallb (fun y => lB_check x y b && lB_check x y (b * 16843009)) [0; 1; 4294967295]) [0; 4294967295].
Lemma l_check_true : forallb l_checkb (seq 0 256) = true.
Proof. vm_cast_no_check (eq_refl true). Qed.
Lemma l_check_word b v : word_of b v -> lA_check b v = true /\ (forall x y, okx x = true -> oky y = true -> lB_check x y v = true).
Proof.
  intros (Hb & Hv). pose proof (forallb_byte _ b l_check_true Hb) as H. unfold l_checkb in H. cbv zeta in H.
  rewrite Z2Nat.id in H by lia. rewrite !andb_true_iff in H. destruct H as ((H1 & H2) & H3). split.
  - destruct Hv; subst; auto.
  - intros x y Hx Hy. rewrite forallb_forall in H3. specialize (H3 x (okx_in x Hx)).
    rewrite forallb_forall in H3. specialize (H3 y (oky_in y Hy)). apply andb_true_iff in H3 as (H3 & H4).
    destruct Hv; subst; auto.
Qed.
Lemma latA_range_check : forallb (fun n => (30 <=? latA (Z.of_nat n)) && (latA (Z.of_nat n) <=? 38) && ((latA (Z.of_nat n) <=? 36) || (n =? 0)%nat)) (seq 0 256) = true.
Proof. vm_cast_no_check (eq_refl true). Qed.
Lemma latA_range b : 0 <= b < 256 -> 30 <= latA b <= 38 /\ (b <> 0 -> latA b <= 36).
Proof.
  intros Hb. pose proof (forallb_byte _ b latA_range_check Hb) as H. cbv beta in H. rewrite Z2Nat.id in H by lia.
  rewrite !andb_true_iff, orb_true_iff, !Z.leb_le in H. destruct H as ((H1 & H2) & H3). split; [lia|]. intros N.
  destruct H3 as [H3|H3]; auto. apply Nat.eqb_eq in H3. lia.
Qed.

(** Delivered words over a run of quiet cycles, from one of the two states after the pull. *)
Lemma rx_run n s tr sf rx q r : p_rx s = [] -> prun tc_program 16 n s = Some (tr, sf, rx) ->
  p_rx (snd (tc_run (set_q s q r) (repeat [] n))) = r ++ rx.
Proof.
  intros H E. unfold tc_run. rewrite (prun_sched tc_program 16 n s tr sf rx (repeat [] n) q r H E (repeat_length _ _)). reflexivity.
Qed.

Lemma rx_quiet_mono s k m : (k <= m)%nat -> exists l, p_rx (snd (tc_run s (repeat [] m))) = p_rx (snd (tc_run s (repeat [] k))) ++ l.
Proof.
  intros H. replace m with (k + (m - k))%nat by lia. rewrite repeat_app. unfold tc_run. rewrite pio_run_app.
  destruct (pio_run tc_program 16 s (repeat [] k)) as [t1 s1]. destruct (run_rx_grows tc_program 16 (repeat [] (m - k)) s1) as (l & E).
  exists l. destruct (pio_run tc_program 16 s1 (repeat [] (m - k))) as [t2 s2]. exact E.
Qed.

(** From a state waiting for a word: the word that arrives is delivered in cycle [lat]. *)
Lemma one_latency neg s r b v k : tc_at neg s [] r -> word_of b v ->
  p_rx (snd (tc_run s ([[v]] ++ repeat [] k))) = r <-> Z.of_nat k + 1 < lat neg b.
Proof.
  intros Hs Hv. destruct (l_check_word b v Hv) as (CA & CB). pose proof (latA_range b (proj1 Hv)) as (LR & _).
  assert (G : exists s1 c n, (forall m, (c <= m)%nat -> p_rx (snd (tc_run s ([[v]] ++ repeat [] m))) = p_rx (snd (tc_run s1 (repeat [] (m - c))))) /\
     p_rx (snd (tc_run s1 (repeat [] n))) = r /\ (exists w, p_rx (snd (tc_run s1 (repeat [] (S n)))) = r ++ [w]) /\
     Z.of_nat (c + n) + 2 = lat neg b).
  { destruct neg; cbn [tc_at lat] in *.
    - destruct Hs as (y & o & c & ->). exists (tcA1 v [] r), 1%nat, (Z.to_nat (latA b) - 3)%nat. split; [|split; [|split]].
      + intros m Hm. destruct m as [|m]; [lia|]. replace (S m - 1)%nat with m by lia. cbn [repeat app]. unfold tc_run. cbn [pio_run].
        rewrite tcA_pull. cbn [app]. rewrite tcA_first. cbn [app]. destruct (pio_run tc_program 16 (tcA1 v [] r) (repeat [] m)); reflexivity.
      + unfold lA_check, rxs_of in CA. destruct (prun tc_program 16 (Z.to_nat (latA b) - 3) (tcA1 v [] [])) as [[[tr sf] rx]|] eqn:E; [|discriminate].
        destruct rx; [|discriminate]. pose proof (rx_run _ (tcA1 v [] []) _ _ _ [] r eq_refl E) as R. rewrite app_nil_r in R. exact R.
      + unfold lA_check, rxs_of in CA. destruct (prun tc_program 16 (Z.to_nat (latA b) - 3) (tcA1 v [] [])) as [[[tr sf] rx]|]; [|discriminate].
        destruct rx; [|discriminate].
        destruct (prun tc_program 16 (Z.to_nat (latA b) - 2) (tcA1 v [] [])) as [[[tr' sf'] rx]|] eqn:E; [|discriminate].
        destruct rx as [|w [|]]; try discriminate. exists w. replace (S (Z.to_nat (latA b) - 3)) with (Z.to_nat (latA b) - 2)%nat by lia.
        exact (rx_run _ (tcA1 v [] []) _ _ _ [] r eq_refl E).
      + lia.
    - destruct Hs as (x & y & o & c & -> & Hx & Hy). specialize (CB x y Hx Hy). exists (tcB1 x y v [] r), 0%nat, 31%nat. split; [|split; [|split]].
      + intros m _. rewrite Nat.sub_0_r. cbn [app]. unfold tc_run. cbn [pio_run]. rewrite tcB_pull. cbn [app].
        destruct (pio_run tc_program 16 (tcB1 x y v [] r) (repeat [] m)); reflexivity.
      + unfold lB_check, rxs_of in CB. destruct (prun tc_program 16 31 (tcB1 x y v [] [])) as [[[tr sf] rx]|] eqn:E; [|discriminate].
        destruct rx; [|discriminate]. pose proof (rx_run _ (tcB1 x y v [] []) _ _ _ [] r eq_refl E) as R. rewrite app_nil_r in R. exact R.
      + unfold lB_check, rxs_of in CB. destruct (prun tc_program 16 31 (tcB1 x y v [] [])) as [[[tr sf] rx]|]; [|discriminate].
        destruct rx; [|discriminate].
        destruct (prun tc_program 16 32 (tcB1 x y v [] [])) as [[[tr' sf'] rx]|] eqn:E; [|discriminate].
        destruct rx as [|w [|]]; try discriminate. exists w. exact (rx_run _ (tcB1 x y v [] []) _ _ _ [] r eq_refl E).
      + reflexivity. }
  destruct G as (s1 & c & n & G1 & G2 & (w & G3) & G4).
  assert (P0 : p_rx s = r) by (destruct neg; cbn in Hs; [destruct Hs as (? & ? & ? & ->)|destruct Hs as (? & ? & ? & ? & -> & _)]; reflexivity).
  assert (Grow : forall m, exists l, p_rx (snd (tc_run s ([[v]] ++ repeat [] m))) = r ++ l).
  { intros m. unfold tc_run. destruct (run_rx_grows tc_program 16 ([[v]] ++ repeat [] m) s) as (l & E). exists l. rewrite E, P0. auto. }
  assert (Mono : forall m m', (m <= m')%nat -> exists l, p_rx (snd (tc_run s ([[v]] ++ repeat [] m'))) = p_rx (snd (tc_run s ([[v]] ++ repeat [] m))) ++ l).
  { intros m m' Hm. replace m' with (m + (m' - m))%nat by lia. rewrite repeat_app, app_assoc. unfold tc_run. rewrite pio_run_app.
    destruct (pio_run tc_program 16 s ([[v]] ++ repeat [] m)) as [t1 s2]. destruct (run_rx_grows tc_program 16 (repeat [] (m' - m)) s2) as (l & E).
    exists l. destruct (pio_run tc_program 16 s2 (repeat [] (m' - m))) as [t2 s3]. exact E. }
  split.
  - intros Hr. destruct (Z_lt_dec (Z.of_nat k + 1) (lat neg b)) as [|C]; auto. exfalso.
    destruct (Mono (S (c + n)) k ltac:(lia)) as (l & E). rewrite Hr, G1 in E by lia. replace (S (c + n) - c)%nat with (S n) in E by lia.
    rewrite G3 in E. apply (f_equal (@length Z)) in E. rewrite !app_length in E. cbn in E. lia.
  - intros Hk. destruct (Mono k (c + n)%nat ltac:(lia)) as (l & E). rewrite (G1 (c + n)%nat) in E by lia. replace (c + n - c)%nat with n in E by lia.
    rewrite G2 in E. destruct (Grow k) as (l2 & E2). rewrite E2 in *. apply (f_equal (@length Z)) in E. rewrite !app_length in E.
    destruct l2; [apply app_nil_r|cbn in E; lia].
Qed.

(** The state after a schedule with enough quiet cycles at its end. *)
Lemma tc_drain_at : forall n sched, length sched = n -> forall neg s q r bs k,
  tc_at neg s q r -> words (q ++ concat sched) bs ->
  concat (skipn k sched) = [] -> (62 * length bs + k <= length sched)%nat ->
  tc_at (xorb neg (Nat.odd (length bs))) (snd (tc_run s sched)) [] (r ++ tc_spec neg bs).
Proof.
  induction n as [n IH] using lt_wf_ind. intros sched Hn neg s q r bs k Hs Hw Hk HL.
  destruct bs as [|b bs].
  - apply Forall2_nil_l in Hw. apply app_eq_nil in Hw as (-> & E).
    destruct (tc_quiet sched neg s r Hs E) as (tr & s' & R & H'). rewrite R. cbn [length Nat.odd tc_spec snd]. change (Nat.odd 0) with false.
    rewrite xorb_false_r, app_nil_r. exact H'.
  - destruct sched as [|a t]; [cbn [length] in HL; lia|]. cbn [concat] in Hw. rewrite app_assoc in Hw.
    destruct (q ++ a) as [|v q'] eqn:Eq.
    + apply app_eq_nil in Eq as (-> & ->). cbn [app] in Hw. unfold tc_run. cbn [pio_run].
      apply tc_stall with (a := []) in Hs; auto. cbn [length] in *.
      assert (Hk1 : (1 <= k)%nat).
      { destruct k; [|lia]. cbn [skipn concat app] in Hk. cbn in Hk. rewrite Hk in Hw. inversion Hw. }
      assert (I := IH (length t) ltac:(lia) t eq_refl neg _ [] r (b :: bs) (k - 1)%nat Hs Hw).
      unfold tc_run in I. destruct (pio_run tc_program 16 (pio_feed tc_program 16 s []) t) as [tr sf]. cbn [snd] in *. apply I.
      * destruct k; [lia|]. cbn [skipn] in Hk. replace (S k - 1)%nat with k by lia. exact Hk.
      * cbn [length] in *. lia.
    + inversion Hw as [|b0 v0 bs0 l0 Hv Hw']; subst b0 v0 bs0 l0.
      destruct (tc_one neg s q r b v bs (a :: t) Hs Hv) as (m & Hm & tr1 & s1 & q2 & R1 & S1 & W1).
      * exists a, t. split; auto. exists q'. auto.
      * cbn [length] in *. lia.
      * assert (I := IH (length (skipn m (a :: t))) ltac:(rewrite skipn_length; cbn [length] in *; lia) _ eq_refl
          (negb neg) s1 q2 _ bs (k - m)%nat S1 W1).
        rewrite <- (firstn_skipn m (a :: t)). unfold tc_run in *. rewrite pio_run_app, R1.
        destruct (pio_run tc_program 16 s1 (skipn m (a :: t))) as [tr sf]. cbn [snd] in *. cbn [tc_spec length]. rewrite Nat.odd_succ, <- Nat.negb_odd.
        replace (xorb neg (negb (Nat.odd (length bs)))) with (xorb (negb neg) (Nat.odd (length bs))) by (destruct neg, (Nat.odd (length bs)); reflexivity).
        replace (r ++ (if neg then u16 (- b) else b) :: tc_spec (negb neg) bs) with ((r ++ [if neg then u16 (- b) else b]) ++ tc_spec (negb neg) bs) by (rewrite <- app_assoc; reflexivity).
        apply I.
        -- rewrite skipn_skipn. apply concat_skipn_nil with (a := k); auto. lia.
        -- rewrite skipn_length. cbn [length] in *. lia.
Qed.

Lemma settled sched bs n : words (concat sched) bs -> (62 * length bs + 2 <= n)%nat ->
  tc_at (Nat.even (length bs)) (snd (tc_run pio_init (sched ++ repeat [] n))) [] (tc_spec true bs).
Proof.
  intros Hw Hn.
  assert (E : exists a t, sched ++ repeat [] n = a :: t /\ concat (a :: t) = concat sched /\
     concat (skipn (length sched) t) = [] /\ (length t + 1 = length sched + n)%nat).
  { destruct n as [|n]; [lia|]. destruct sched as [|a s]; cbn [app repeat].
    - exists [], (repeat [] n). repeat split; [apply concat_repeat_nil| |rewrite repeat_length; cbn; lia].
      cbn. apply concat_repeat_nil.
    - exists a, (s ++ [] :: repeat [] n). split; [reflexivity|]. split.
      + cbn [concat]. rewrite concat_app. cbn [concat app]. rewrite concat_repeat_nil, app_nil_r. reflexivity.
      + split; [|rewrite app_length; cbn [length]; rewrite repeat_length; lia].
        rewrite skipn_app. rewrite skipn_all2 by (cbn; lia). cbn [length app].
        replace (S (length s) - length s)%nat with 1%nat by lia. cbn [skipn]. apply concat_repeat_nil. }
  destruct E as (a & t & E & Ec & Ek & El). rewrite E. unfold tc_run. cbn [pio_run].
  assert (F : pio_feed tc_program 16 pio_init a = tcA 0 0 32 a []) by reflexivity. rewrite F.
  assert (D := tc_drain_at (length t) t eq_refl true (tcA 0 0 32 a []) a [] bs (length sched)). unfold tc_run in D.
  destruct (pio_run tc_program 16 (tcA 0 0 32 a []) t) as [tr sf]. cbn [snd] in *. rewrite <- Nat.negb_odd. apply D.
  - cbn. eauto.
  - cbn [concat] in Ec. rewrite Ec. exact Hw.
  - exact Ek.
  - lia.
Qed.

Lemma tc_at_rx neg s q r : tc_at neg s q r -> p_rx s = r /\ p_tx s = q.
Proof. destruct neg; cbn; [intros (? & ? & ? & ->)|intros (? & ? & ? & ? & -> & _)]; auto. Qed.

Theorem latency_is sched bs n b w : words (concat sched) bs -> (62 * length bs + 2 <= n)%nat -> word_of b w ->
  latency (sched ++ repeat [] n) w (lat (Nat.even (length bs)) b).
Proof.
  intros Hw Hn Hb k. pose proof (settled sched bs n Hw Hn) as S. unfold delivered. rewrite (proj1 (tc_at_rx _ _ _ _ S)).
  unfold tc_run in S |- *. rewrite pio_run_app. destruct (pio_run tc_program 16 pio_init (sched ++ repeat [] n)) as [t1 s1]. cbn [snd] in S.
  pose proof (one_latency _ s1 _ b w k S Hb) as O. unfold tc_run in O.
  destruct (pio_run tc_program 16 s1 ([[w]] ++ repeat [] k)) as [t2 s2]. exact O.
Qed.

Lemma latency_unique sched w a b : 0 < a -> 0 < b -> latency sched w a -> latency sched w b -> a = b.
Proof.
  intros Ha Hb A B. destruct (Z.lt_trichotomy a b) as [H|[H|H]]; auto; exfalso.
  - specialize (A (Z.to_nat (a - 1))). specialize (B (Z.to_nat (a - 1))). rewrite A in B. lia.
  - specialize (A (Z.to_nat (b - 1))). specialize (B (Z.to_nat (b - 1))). rewrite B in A. lia.
Qed.

(** ** Throughput *)
Lemma tc_check_38 : forallb (tc_checkb 36) (seq 0 256) = true.
Proof. vm_cast_no_check (eq_refl true). Qed.

(** One word with nothing arriving after it: after at most 38 cycles the converter waits for the next. *)
Lemma one_ready neg s r b v : tc_at neg s [] r -> word_of b v ->
  exists m, (m <= 37)%nat /\ tc_at (negb neg) (snd (tc_run s ([[v]] ++ repeat [] m))) [] (r ++ [if neg then u16 (- b) else b]).
Proof.
  intros Hs Hv. destruct (tc_check_word 36 b v tc_check_38 Hv) as (CA & CB). destruct neg; cbn [tc_at] in Hs.
  - destruct Hs as (y & o & c & ->). destruct (tcA_run 36 b v CA) as (n & Hn & R). exists (S n). split; [lia|]. unfold tc_run in *. cbn [repeat app pio_run].
    rewrite tcA_pull. cbn [app]. rewrite tcA_first.
    destruct (R (repeat [] n) [] r (repeat_length _ _)) as (tr & x & y1 & o1 & c1 & E & Hx & Hy). cbn [app]. rewrite E. cbn [snd]. rewrite concat_repeat_nil. cbn. eauto 8.
  - destruct Hs as (x & y & o & c & -> & Hx & Hy). destruct (tcB_run 36 b v x y (CB x y Hx Hy)) as (n & Hn & R).
    exists n. split; [lia|]. unfold tc_run in *. cbn [app pio_run]. rewrite tcB_pull. cbn [app].
    destruct (R (repeat [] n) [] r (repeat_length _ _)) as (tr & y1 & o1 & c1 & E). rewrite E. cbn [snd]. rewrite concat_repeat_nil. cbn. eauto 8.
Qed.

Lemma cycle_tx_empty prog th s : p_tx s = [] -> p_tx (pio_cycle prog th s) = [].
Proof.
  intros H. unfold pio_cycle. destruct (p_wait s); [|exact H]. destruct (nth_error prog (p_pc s)) as [i|]; [|exact H].
  destruct (i_op i); try exact H.
  - destruct c; exact H.
  - rewrite H. reflexivity.
Qed.
Lemma quiet_tx_empty prog th k : forall s, p_tx s = [] -> p_tx (snd (pio_run prog th s (repeat [] k))) = [].
Proof.
  induction k as [|k IH]; intros s H; cbn [repeat pio_run]; [exact H|].
  assert (H1 : p_tx (pio_feed prog th s []) = []) by (unfold pio_feed; apply cycle_tx_empty; cbn; rewrite H; reflexivity).
  specialize (IH _ H1). destruct (pio_run prog th (pio_feed prog th s []) (repeat [] k)). exact IH.
Qed.

Lemma at_word_tx neg s r v : tc_at neg s [] r -> p_tx (pio_feed tc_program 16 s [v]) = [].
Proof.
  destruct neg; cbn [tc_at].
  - intros (y & o & c & ->). rewrite tcA_pull. reflexivity.
  - intros (x & y & o & c & -> & _). rewrite tcB_pull. reflexivity.
Qed.

(** Structure of a schedule whose arrivals are apart. *)
Fixpoint paced (wait : nat) (sched : list (list Z)) : Prop :=
  match sched with
  | [] => True
  | [] :: t => paced (pred wait) t
  | [_] :: t => wait = O /\ paced 38 t
  | _ => False
  end.
Lemma apart_head g x l : apart g (x :: l) -> apart g l.
Proof. destruct l; cbn; tauto. Qed.
Lemma paced_of sched : forall k wait, apart 39 (arrivals k sched) -> (forall a l, arrivals k sched = a :: l -> k + Z.of_nat wait <= a) -> paced wait sched.
Proof.
  induction sched as [|a t IH]; intros k wait H W; cbn [paced]; auto. cbn [arrivals] in H, W. destruct a as [|v [|v2 a]].
  - cbn [map app] in *. apply (IH (k + 1)); auto. intros x l E. specialize (W x l E).
    assert (L : k + 1 <= x). { clear - E. revert E. generalize (k + 1). intros k0. revert k0 x l. induction t as [|a t IH]; intros k0 x l E; cbn [arrivals] in E; [discriminate|].
      destruct a as [|v a]; cbn [map app] in E; [apply IH in E; lia|injection E as -> _; lia]. }
    lia.
  - cbn [map app] in *. specialize (W _ _ eq_refl). split; [lia|]. apply (IH (k + 1)); [eapply apart_head; exact H|].
    intros x l E. rewrite E in H. cbn [apart] in H. lia.
  - cbn [map app apart] in H. lia.
Qed.

Lemma paced_quiet sched : forall wait, paced wait sched -> exists m t, sched = repeat [] m ++ t /\ ((wait <= m)%nat \/ t = []) /\ (length sched <= m \/ wait <= m)%nat /\ (m <= wait)%nat /\ paced 0 t.
Proof.
  induction sched as [|a t IH]; intros wait H.
  - exists O, []. cbn. repeat split; auto; lia.
  - destruct wait as [|wait]; [exists O, (a :: t); cbn [repeat app]; repeat split; auto; lia|]. cbn [paced] in H. destruct a as [|v [|]]; [|lia|tauto].
    cbn [pred] in H. destruct (IH _ H) as (m & t' & E & A & B & C & D). exists (S m), t'. cbn [repeat app length]. rewrite <- E. repeat split; auto; [|lia|lia].
    destruct A; [left; lia|right; auto].
Qed.

Lemma run_snd prog th s a b : snd (pio_run prog th s (a ++ b)) = snd (pio_run prog th (snd (pio_run prog th s a)) b).
Proof. rewrite pio_run_app. destruct (pio_run prog th s a) as [t1 s1]. cbn [snd]. destruct (pio_run prog th s1 b). reflexivity. Qed.
Lemma run_cons prog th s a b : snd (pio_run prog th s (a :: b)) = snd (pio_run prog th (pio_feed prog th s a) b).
Proof. cbn [pio_run]. destruct (pio_run prog th (pio_feed prog th s a) b). reflexivity. Qed.

Lemma keeps_pace : forall n sched, length sched = n -> forall neg s r bs,
  tc_at neg s [] r -> paced 0 sched -> words (concat sched) bs ->
  p_tx (snd (tc_run s sched)) = [] /\ (concat (skipn (length sched - 38) sched) = [] -> (38 <= length sched)%nat -> p_rx (snd (tc_run s sched)) = r ++ tc_spec neg bs).
Proof.
  induction n as [n IH] using lt_wf_ind. intros sched Hn neg s r bs Hs Hp Hw. unfold tc_run in *.
  destruct sched as [|a t].
  - cbn. destruct (tc_at_rx _ _ _ _ Hs) as (_ & E). rewrite E. split; auto. intros _ H. lia.
  - destruct a as [|v [|v2 a]]; cbn [paced] in Hp; [| |tauto].
    + rewrite run_cons. cbn [concat app] in Hw. pose proof (tc_stall neg s [] r Hs eq_refl) as Hs1. cbn [length] in *.
      destruct (IH (length t) ltac:(lia) t eq_refl neg _ r bs Hs1 Hp Hw) as (I1 & I2). split; auto. intros Hq HL.
      destruct (Nat.eq_dec (length t) 37) as [E37|N].
      * (* nothing arrives at all *)
        replace (S (length t) - 38)%nat with 0%nat in Hq by lia. cbn [skipn concat app] in Hq. rewrite Hq in Hw. inversion Hw; subst.
        destruct (tc_quiet t neg _ r Hs1 Hq) as (tr & s' & R & H'). unfold tc_run in R. rewrite R. cbn [snd tc_spec]. rewrite app_nil_r. apply (tc_at_rx _ _ _ _ H').
      * apply I2; [|lia]. replace (S (length t) - 38)%nat with (S (length t - 38)) in Hq by lia. exact Hq.
    + destruct Hp as (_ & Hp). destruct (paced_quiet t 38 Hp) as (m & t' & -> & A & B & C & D).
      assert (Hw' : exists b bs', bs = b :: bs' /\ word_of b v /\ words (concat t') bs').
      { cbn [concat app] in Hw. rewrite concat_app, concat_repeat_nil in Hw. cbn [app] in Hw. inversion Hw as [|b ? bs' ? Hb Hr]; subst. eauto 6. }
      destruct Hw' as (b & bs' & -> & Hb & Hr).
      destruct (Nat.le_gt_cases 37 m) as [Hm|Hm].
      * destruct (one_ready neg s r b v Hs Hb) as (j & Hj & S1).
        assert (S2 : tc_at (negb neg) (snd (tc_run s ([[v]] ++ repeat [] 37))) [] (r ++ [if neg then u16 (- b) else b])).
        { replace 37%nat with (j + (37 - j))%nat by lia. rewrite repeat_app, app_assoc. unfold tc_run in *. rewrite run_snd.
          destruct (tc_quiet (repeat [] (37 - j)) _ _ _ S1 (concat_repeat_nil _)) as (tr & s' & R & H'). unfold tc_run in R. rewrite R. exact H'. }
        assert (Esp : [v] :: repeat [] m ++ t' = ([[v]] ++ repeat [] 37) ++ (repeat [] (m - 37) ++ t')).
        { cbn [app]. f_equal. rewrite app_assoc, <- repeat_app. do 2 f_equal. lia. }
        rewrite Esp. rewrite run_snd. unfold tc_run in S2.
        assert (P2 : paced 0 (repeat [] (m - 37) ++ t')). { clear - D. induction (m - 37)%nat; cbn [repeat app paced pred]; auto. }
        cbn [length] in Hn. rewrite app_length, repeat_length in Hn.
        destruct (IH (length (repeat [] (m - 37) ++ t')) ltac:(rewrite app_length, repeat_length; lia) _ eq_refl _ _ _ bs' S2 P2) as (I1 & I2).
        { rewrite concat_app, concat_repeat_nil. exact Hr. }
        split; auto. intros Hq HL. cbn [tc_spec]. change ((if neg then u16 (- b) else b) :: tc_spec (negb neg) bs') with ([if neg then u16 (- b) else b] ++ tc_spec (negb neg) bs').
        rewrite app_assoc.
        set (u := repeat [] (m - 37) ++ t') in *. rewrite app_length in HL, Hq. change (length ([[v]] ++ repeat [] 37)) with 38%nat in HL, Hq.
        destruct (Nat.le_gt_cases 38 (length u)) as [G|G].
        -- apply I2; auto. rewrite skipn_app in Hq. change (length ([[v]] ++ repeat [] 37)) with 38%nat in Hq.
           rewrite concat_app in Hq. apply app_eq_nil in Hq as (_ & Hq). replace (38 + length u - 38 - 38)%nat with (length u - 38)%nat in Hq by lia. exact Hq.
        -- assert (Cu : concat u = []).
           { rewrite skipn_app in Hq. change (length ([[v]] ++ repeat [] 37)) with 38%nat in Hq. rewrite concat_app in Hq. apply app_eq_nil in Hq as (_ & Hq).
             replace (38 + length u - 38 - 38)%nat with 0%nat in Hq by lia. exact Hq. }
           destruct (tc_quiet u _ _ _ S2 Cu) as (tr & s' & R & H'). unfold tc_run in R. rewrite R. cbn [snd].
           assert (bs' = []). { subst u. rewrite concat_app, concat_repeat_nil in Cu. cbn [app] in Cu. rewrite Cu in Hr. inversion Hr; auto. } subst bs'.
           cbn [tc_spec]. rewrite app_nil_r. apply (tc_at_rx _ _ _ _ H').
      * destruct A as [A| ->]; [lia|]. rewrite app_nil_r in *. rewrite run_cons. split.
        -- apply quiet_tx_empty. eapply at_word_tx; eauto.
        -- intros Hq HL. cbn [length] in HL. rewrite repeat_length in HL. lia.
Qed.

Lemma paced_app_quiet sched k : forall w, paced w sched -> paced w (sched ++ repeat [] k).
Proof.
  induction sched as [|a t IH]; intros w H.
  - cbn [app]. clear H. revert w. induction k as [|k IH]; intros w; cbn [repeat paced]; auto.
  - cbn [app paced] in *. destruct a as [|v [|]]; auto. destruct H; split; auto.
Qed.
Lemma skipn_repeat_ {X} (x : X) n : forall k, skipn k (repeat x n) = repeat x (n - k).
Proof. induction n as [|n IH]; intros [|k]; cbn [repeat skipn Nat.sub]; auto. Qed.
Lemma apart_weaken g h l : h <= g -> apart g l -> apart h l.
Proof. intros H. induction l as [|x [|y t] IH]; cbn [apart]; auto. intros (A & B). split; [lia|]. apply IH; auto. Qed.
Lemma arrivals_ge t : forall k a l, arrivals k t = a :: l -> k <= a.
Proof. induction t as [|x t IH]; intros k a l E; cbn [arrivals] in E; [discriminate|]. destruct x; cbn [map app] in E; [apply IH in E; lia|injection E as -> _; lia]. Qed.
Lemma arrivals_shift t : forall k d, arrivals (k + d) t = map (fun x => x + d) (arrivals k t).
Proof.
  induction t as [|x t IH]; intros k d; cbn [arrivals map]; auto. rewrite map_app, <- IH. replace (k + d + 1) with (k + 1 + d) by lia. f_equal. rewrite map_map. reflexivity.
Qed.
Lemma arrivals_app a b : forall k, arrivals k (a ++ b) = arrivals k a ++ arrivals (k + Z.of_nat (length a)) b.
Proof. induction a as [|x t IH]; intros k; cbn [app arrivals length]; [f_equal; lia|]. rewrite IH, app_assoc. do 2 f_equal. lia. Qed.
Lemma arrivals_quiet n : forall k, arrivals k (repeat [] n) = [].
Proof. induction n as [|n IH]; intros k; cbn [repeat arrivals map app]; auto. Qed.

Definition tcA0 : pio := tcA 0 0 32 [] [].
(** A word that arrives in the very first cycle is taken in the second one, as if it had arrived then. *)
Lemma init_shift v t : snd (tc_run pio_init ([v] :: [] :: t)) = snd (tc_run tcA0 ([v] :: t)).
Proof. unfold tc_run. rewrite !run_cons. f_equal. Qed.
Lemma init_none t : snd (tc_run pio_init ([] :: t)) = snd (tc_run tcA0 t).
Proof. unfold tc_run. rewrite run_cons. f_equal. Qed.

Lemma pace_gen sched bs : apart 40 (arrivals 0 sched) -> words (concat sched) bs ->
  (length (waiting sched) <= 1)%nat /\ (concat (skipn (length sched - 39) sched) = [] -> (39 <= length sched)%nat -> delivered sched = tc_spec true bs).
Proof.
  intros H Hw. assert (S0 : tc_at true tcA0 [] []) by (cbn; unfold tcA0; eauto).
  destruct sched as [|a t]; [split; [cbn; lia|intros _ L; cbn in L; lia]|].
  destruct a as [|v [|]].
  - cbn [arrivals map app concat] in *. unfold waiting, delivered. rewrite init_none.
    assert (P : paced 0 t).
    { apply (paced_of t (0 + 1) 0); [eapply apart_weaken; [|exact H]; lia|]. intros a l E. apply arrivals_ge in E. lia. }
    destruct (keeps_pace _ t eq_refl true _ [] bs S0 P Hw) as (A & B). rewrite A. split; [cbn; lia|]. intros Hq HL. cbn [length] in *.
    apply B; [|lia]. replace (S (length t) - 39)%nat with (length t - 38)%nat in Hq by lia.
    destruct (Nat.eq_dec (length t) 38) as [E|N]; [rewrite E in *; exact Hq|]. replace (length t - 38)%nat with (S (length t - 39)) in Hq by lia. cbn [skipn] in Hq.
    eapply concat_skipn_nil; [|exact Hq]. lia.
  - cbn [arrivals map app concat] in H, Hw. destruct t as [|a2 t].
    + split; [cbn; lia|]. intros _ L. cbn in L. lia.
    + assert (a2 = []) as ->. { cbn [arrivals] in H. destruct a2; auto. cbn [map app apart] in H. lia. }
      cbn [arrivals map app] in H. cbn [concat app] in Hw. unfold waiting, delivered. rewrite init_shift.
      assert (P : paced 0 ([v] :: t)).
      { cbn [paced]. split; auto. apply (paced_of t (0 + 1 + 1) 38).
        - eapply apart_weaken; [|eapply apart_head; exact H]. lia.
        - intros x l E. rewrite E in H. cbn [apart] in H. lia. }
      destruct (keeps_pace _ ([v] :: t) eq_refl true _ [] bs S0 P) as (A & B); [exact Hw|]. rewrite A. split; [cbn; lia|]. intros Hq HL. cbn [length] in *.
      apply B; [|lia]. destruct (Nat.eq_dec (length t) 37) as [E|N].
      * rewrite E in *. cbn [Nat.sub skipn] in *. cbn [concat app] in Hq. discriminate.
      * replace (S (S (length t)) - 39)%nat with (S (length t - 38)) in Hq by lia. cbn [skipn] in Hq.
        destruct (Nat.eq_dec (length t) 38) as [E|N2].
        -- rewrite E in *. cbn [Nat.sub skipn concat app] in Hq. cbn [Nat.sub skipn]. exact Hq.
        -- replace (S (length t) - 38)%nat with (S (length t - 38)) by lia. cbn [skipn]. replace (length t - 38)%nat with (S (length t - 39)) in Hq by lia. cbn [skipn] in Hq.
           eapply concat_skipn_nil; [|exact Hq]. lia.
  - cbn [arrivals map app apart] in H. lia.
Qed.

Theorem pace sched bs : apart 40 (arrivals 0 sched) -> words (concat sched) bs ->
  (length (waiting sched) <= 1)%nat /\ delivered (sched ++ repeat [] 39) = tc_spec true bs.
Proof.
  intros H Hw. split; [eapply pace_gen; eauto|]. eapply pace_gen.
  - rewrite arrivals_app, arrivals_quiet, app_nil_r. exact H.
  - rewrite concat_app, concat_repeat_nil, app_nil_r. exact Hw.
  - rewrite app_length, repeat_length, skipn_app, skipn_all2 by lia. rewrite skipn_repeat_. apply concat_repeat_nil.
  - rewrite app_length, repeat_length. lia.
Qed.

Lemma from_adc_apart conv d l : forall t0, conv >= (d + 39) * 768 + 1 -> from_adc conv t0 d l -> apart 40 l.
Proof.
  intros t0 Hc. revert t0. induction l as [|x [|y t] IH]; intros t0 H; cbn [apart]; auto. split.
  - pose proof (H 0%nat x eq_refl) as H0. pose proof (H 1%nat y eq_refl) as H1. lia.
  - apply (IH (t0 + conv)). intros i a E. specialize (H (S i) a E). rewrite Nat2Z.inj_succ in H. lia.
Qed.
