(** P_Pio.v -- proofs about the PIO programs. *)
From Verif Require Import Base M_Pio S_Pio S_Line P_Containers.

Definition set_q (s : pio) (q r : list Z) : pio :=
  PIO (p_pc s) (p_x s) (p_y s) (p_osr s) (p_oc s) (p_isr s) (p_wait s) (p_pins s) (p_irq s) q r.

Section Run.
  Variable prog : list pio_instr.
  Variable th : Z.

  Definition at_pull (s : pio) : bool :=
    match p_wait s with
    | O => match nth_error prog (p_pc s) with Some i => match i_op i with OpPull => true | _ => false end | None => false end
    | _ => false
    end.

  (** Away from [pull], a cycle does not look at the TX FIFO, and only appends to the RX FIFO. *)
  Lemma cycle_commute s q r : at_pull s = false -> p_rx s = [] ->
    pio_cycle prog th (set_q s q r) = set_q (pio_cycle prog th s) q (r ++ p_rx (pio_cycle prog th s)).
  Proof.
    intros H Hr. unfold at_pull in H. unfold pio_cycle. cbn [set_q p_wait p_pc].
    destruct (p_wait s) as [|w]; [|unfold set_q; cbn; rewrite Hr, app_nil_r; reflexivity].
    destruct (nth_error prog (p_pc s)) as [i|]; [|unfold set_q; cbn; rewrite Hr, app_nil_r; reflexivity].
    destruct (i_op i) as [c t|src k|k| | | |b|v|]; try discriminate; unfold set_q; cbn; rewrite Hr; rewrite ?app_nil_r; auto.
    destruct c; cbn; rewrite ?app_nil_r; reflexivity.
  Qed.

  (** Closed runs that stop before a [pull]. *)
  Fixpoint prun (n : nat) (s : pio) : option (list Z * pio * list Z) :=
    match n with
    | O => Some ([], s, [])
    | S n' =>
        if at_pull s then None else
        let s' := pio_cycle prog th s in
        match prun n' (set_q s' [] []) with
        | Some (tr, sf, r) => Some (p_pins s' :: tr, sf, p_rx s' ++ r)
        | None => None
        end
    end.

  Lemma set_q_set_q s q r q' r' : set_q (set_q s q r) q' r' = set_q s q' r'.
  Proof. reflexivity. Qed.

  Lemma prun_sched n : forall s tr sf rx sched q r, p_rx s = [] ->
    prun n s = Some (tr, sf, rx) -> length sched = n ->
    pio_run prog th (set_q s q r) sched = (tr, set_q sf (q ++ concat sched) (r ++ rx)).
  Proof.
    induction n as [|n IH]; intros s tr sf rx sched q r Hs H L; cbn [prun] in H.
    - inversion H; subst. destruct sched; [|discriminate]. cbn. rewrite !app_nil_r. reflexivity.
    - destruct sched as [|a t]; [discriminate|]. cbn [length] in L. injection L as L.
      destruct (at_pull s) eqn:Ep; [discriminate|].
      destruct (prun n (set_q (pio_cycle prog th s) [] [])) as [[[tr1 sf1] rx1]|] eqn:E; [|discriminate].
      inversion H; subst tr sf rx. cbn [pio_run].
      assert (Ef : pio_feed prog th (set_q s q r) a = set_q (pio_cycle prog th s) (q ++ a) (r ++ p_rx (pio_cycle prog th s))).
      { unfold pio_feed. rewrite <- (cycle_commute s (q ++ a) r Ep Hs). reflexivity. }
      rewrite Ef. rewrite <- (set_q_set_q (pio_cycle prog th s) [] [] (q ++ a) _).
      rewrite (IH (set_q (pio_cycle prog th s) [] []) tr1 sf1 rx1 t (q ++ a) _ eq_refl E L).
      cbn [concat set_q p_pins]. rewrite !app_assoc. reflexivity.
  Qed.
End Run.

Lemma pio_run_app prog th s a b :
  pio_run prog th s (a ++ b) =
  (let '(t1, s1) := pio_run prog th s a in let '(t2, s2) := pio_run prog th s1 b in (t1 ++ t2, s2)).
Proof.
  revert s; induction a as [|x t IH]; intros s; cbn [pio_run app].
  - destruct (pio_run prog th s b); reflexivity.
  - rewrite IH. destruct (pio_run prog th (pio_feed prog th s x) t) as [t1 s1].
    destruct (pio_run prog th s1 b); reflexivity.
Qed.

(** ** The transmitter *)
Definition tx_idle (y o c pins : Z) (q : list Z) : pio := PIO 1 0 y o c 0 0 pins false q [].
Definition tx_start (y v : Z) (q : list Z) : pio := PIO 2 0 y v 0 0 0 1 false q [].

Definition zlist_eqb (a b : list Z) : bool := if list_eq_dec Z.eq_dec a b then true else false.
Lemma zlist_eqb_eq a b : zlist_eqb a b = true -> a = b.
Proof. unfold zlist_eqb. destruct (list_eq_dec Z.eq_dec a b); auto; discriminate. Qed.

Definition core (b : Z) : list Z := firstn 174 (char_wave b).

Definition tx_check1 (N : nat) (y b v : Z) : bool :=
  match prun tx_program 8 N (tx_start y v []) with
  | Some (tr, PIO 1 0 y' _ _ 0 0 1 false [] [], []) =>
      zlist_eqb (map line_level tr) (core b) && ((y' =? 0) || (y' =? 1))
  | _ => false
  end.
Definition tx_checkb (N : nat) (n : nat) : bool :=
  tx_check1 N 0 (Z.of_nat n) (Z.of_nat n) && tx_check1 N 1 (Z.of_nat n) (Z.of_nat n) &&
  tx_check1 N 0 (Z.of_nat n) (Z.of_nat n * 16843009) && tx_check1 N 1 (Z.of_nat n) (Z.of_nat n * 16843009).
Lemma tx_check_true : forallb (tx_checkb 174) (seq 0 256) = true. Proof. vm_cast_no_check (eq_refl true). Qed.

Lemma forallb_byte (f : nat -> bool) b : forallb f (seq 0 256) = true -> 0 <= b < 256 -> f (Z.to_nat b) = true.
Proof. intros H Hb. rewrite forallb_forall in H. apply H. apply in_seq. lia. Qed.

Lemma tx_check_word_gen N y b v : forallb (tx_checkb N) (seq 0 256) = true ->
  y = 0 \/ y = 1 -> word_of b v -> tx_check1 N y b v = true.
Proof.
  intros H Hy (Hb & Hv). apply (forallb_byte _ b) in H; auto. unfold tx_checkb in H. rewrite Z2Nat.id in H by lia.
  rewrite !andb_true_iff in H. destruct H as (((H1 & H2) & H3) & H4).
  destruct Hy, Hv; subst; auto.
Qed.
Lemma tx_check_word y b v : y = 0 \/ y = 1 -> word_of b v -> tx_check1 174 y b v = true.
Proof. exact (tx_check_word_gen 174 y b v tx_check_true). Qed.

Lemma tx_frame_gen N y b v sched q : tx_check1 N y b v = true -> length sched = N ->
  exists tr y' o c, tx_run (tx_start y v q) sched = (tr, tx_idle y' o c 1 (q ++ concat sched)) /\
    map line_level tr = core b /\ (y' = 0 \/ y' = 1).
Proof.
  intros H L. unfold tx_check1 in H.
  destruct (prun tx_program 8 N (tx_start y v [])) as [[[tr sf] rx]|] eqn:E; [|discriminate].
  destruct sf as [pc x y' o c isr w pins irq txq rxq].
  destruct pc as [|[|?]]; try discriminate. destruct x; try discriminate. destruct isr; try discriminate.
  destruct w; try discriminate. destruct pins as [|[?|?|]|]; try discriminate. destruct irq; try discriminate.
  destruct txq; try discriminate. destruct rxq; try discriminate. destruct rx; try discriminate.
  apply andb_true_iff in H as (H1 & H2). apply zlist_eqb_eq in H1.
  exists tr, y', o, c. split.
  - exact (prun_sched tx_program 8 N (tx_start y v []) _ _ _ sched q [] eq_refl E L).
  - split; auto. apply orb_true_iff in H2 as [H2|H2]; apply Z.eqb_eq in H2; auto.
Qed.

Lemma tx_frame y b v sched q : y = 0 \/ y = 1 -> word_of b v -> length sched = 174%nat ->
  exists tr y' o c, tx_run (tx_start y v q) sched = (tr, tx_idle y' o c 1 (q ++ concat sched)) /\
    map line_level tr = core b /\ (y' = 0 \/ y' = 1).
Proof. intros Hy Hv L. exact (tx_frame_gen 174 y b v sched q (tx_check_word y b v Hy Hv) L). Qed.

Definition words (l : list Z) (bs : list Z) : Prop := Forall2 word_of bs l.

Lemma tx_pull y o c pins q a :
  pio_feed tx_program 8 (tx_idle y o c pins q) a =
  match q ++ a with [] => tx_idle y o c 1 [] | v :: t => tx_start y v t end.
Proof. unfold pio_feed. cbn [tx_idle p_pc p_x p_y p_osr p_oc p_isr p_wait p_pins p_irq p_tx p_rx]. destruct (q ++ a); reflexivity. Qed.

Lemma Forall2_nil_l {A B} (R : A -> B -> Prop) l : Forall2 R [] l -> l = [].
Proof. inversion 1; auto. Qed.

Lemma concat_repeat_nil {A} n : concat (repeat (@nil A) n) = [].
Proof. induction n; auto. Qed.
Lemma concat_nil_cons {A} (a : list A) t : concat (a :: t) = [] -> a = [] /\ concat t = [].
Proof. cbn. apply app_eq_nil. Qed.

Lemma tx_quiet sched : forall y o c pins, concat sched = [] ->
  exists tr pins', tx_run (tx_idle y o c pins []) sched = (tr, tx_idle y o c pins' []) /\ map line_level tr = repeat 0 (length sched).
Proof.
  induction sched as [|a t IH]; intros y o c pins H; unfold tx_run in *; cbn [pio_run].
  - eexists _, _. split; reflexivity.
  - apply concat_nil_cons in H as (-> & H). rewrite tx_pull. cbn [app].
    destruct (IH y o c 1 H) as (tr & pins' & E & M). rewrite E. eexists _, _. split; [reflexivity|].
    cbn [map length repeat tx_idle p_pins]. rewrite M. reflexivity.
Qed.

Lemma core_check : forallb (fun n => zlist_eqb (core (Z.of_nat n) ++ [0]) (char_wave_short (Z.of_nat n))) (seq 0 256) = true.
Proof. vm_cast_no_check (eq_refl true). Qed.
Lemma core_plus b : 0 <= b < 256 -> core b ++ [0] = char_wave_short b.
Proof.
  intros Hb. pose proof (forallb_byte _ b core_check Hb) as H. cbv beta in H. rewrite Z2Nat.id in H by lia.
  apply zlist_eqb_eq; auto.
Qed.

Lemma tx_drain : forall n sched, length sched = n -> forall y o c pins q bs k,
  y = 0 \/ y = 1 -> words (q ++ concat sched) bs ->
  concat (skipn k sched) = [] -> (175 * length bs + k + 1 <= length sched)%nat ->
  exists tr sf gaps tail, tx_run (tx_idle y o c pins q) sched = (tr, sf) /\
    map line_level tr = 0 :: waves (combine gaps bs) ++ repeat 0 tail /\ length gaps = length bs /\ p_tx sf = [].
Proof.
  induction n as [n IH] using lt_wf_ind. intros sched Hn y o c pins q bs k Hy Hw Hk HL.
  destruct sched as [|a t]; [cbn in HL; lia|]. cbn [length] in *.
  destruct bs as [|b bs].
  - apply Forall2_nil_l in Hw. apply app_eq_nil in Hw as (-> & E).
    destruct (tx_quiet (a :: t) y o c pins E) as (tr & pins' & R & M).
    exists tr, (tx_idle y o c pins' []), [], (length t). repeat split; auto.
  - unfold tx_run. cbn [pio_run]. rewrite tx_pull. cbn [concat] in Hw. rewrite app_assoc in Hw.
    destruct (q ++ a) as [|v q'] eqn:Eq.
    + apply app_eq_nil in Eq as (-> & ->). cbn [app] in Hw.
      edestruct (IH (length t) ltac:(lia) t eq_refl y o c 1 [] (b :: bs) (k - 1)%nat Hy Hw)
        as (tr & sf & gaps & tail & R & M & Lg & Q).
      * destruct k as [|k]; [|rewrite Nat.sub_0_r || (replace (S k - 1)%nat with k by lia); exact Hk].
        cbn [skipn concat app] in Hk. cbn. exact Hk.
      * cbn [length] in *. destruct k; [|lia]. cbn [skipn concat app] in Hk. cbn in Hk.
        rewrite Hk in Hw. inversion Hw.
      * unfold tx_run in R. rewrite R. destruct gaps as [|g gaps]; [discriminate|].
        exists (p_pins (tx_idle y o c 1 []) :: tr), sf, (S g :: gaps), tail. split; [reflexivity|].
        split; [|split; auto]. cbn [map tx_idle p_pins]. rewrite M. reflexivity.
    + inversion Hw as [|b0 v0 bs0 l0 Hv Hw']; subst b0 v0 bs0 l0.
      assert (Lt : (174 <= length t)%nat) by (cbn [length] in HL; lia).
      rewrite <- (firstn_skipn 174 t). rewrite pio_run_app.
      destruct (tx_frame y b v (firstn 174 t) q' Hy Hv ltac:(rewrite firstn_length; lia))
        as (tr1 & y1 & o1 & c1 & R1 & M1 & Hy1). unfold tx_run in R1. rewrite R1.
      edestruct (IH (length (skipn 174 t)) ltac:(rewrite skipn_length; lia) (skipn 174 t) eq_refl y1 o1 c1 1
        (q' ++ concat (firstn 174 t)) bs (k - 175)%nat Hy1)
        as (tr & sf & gaps & tail & R & M & Lg & Q).
      * rewrite <- app_assoc, <- concat_app, firstn_skipn. exact Hw'.
      * destruct (Nat.le_gt_cases 175 k) as [Lk|Lk].
        -- assert (E : skipn (k - 175) (skipn 174 t) = skipn k (a :: t)).
           { rewrite skipn_skipn. destruct k; [lia|]. cbn [skipn]. f_equal. lia. }
           rewrite E; auto.
        -- replace (k - 175)%nat with 0%nat by lia. rewrite skipn_O.
           assert (E : exists m, skipn 174 t = skipn m (skipn k (a :: t))).
           { exists (175 - k)%nat. rewrite skipn_skipn. replace (175 - k + k)%nat with 175%nat by lia. reflexivity. }
           destruct E as (m & ->). rewrite <- (firstn_skipn m (skipn k (a :: t))), concat_app in Hk.
           apply app_eq_nil in Hk as (_ & Hk). exact Hk.
      * rewrite skipn_length. cbn [length] in HL. lia.
      * unfold tx_run in R. rewrite R.
        exists (p_pins (tx_start y v q') :: tr1 ++ tr), sf, (0%nat :: gaps), tail. split; [reflexivity|].
        split; [|split; [cbn; auto|auto]]. cbn [map tx_start p_pins]. rewrite map_app, M1, M.
        cbn [combine waves repeat app]. rewrite <- (core_plus b) by (destruct Hv; lia).
        rewrite <- !app_assoc. reflexivity.
Qed.

(** Two idle cycles (irq clear and the first pull) precede everything. *)
Lemma tx_all_schedules sched bs n : words (concat sched) bs -> (175 * length bs + 2 <= n)%nat ->
  exists tr sf gaps tail, tx_run pio_init (sched ++ repeat [] n) = (tr, sf) /\
    map line_level tr = waves (combine gaps bs) ++ repeat 0 tail /\ length gaps = length bs /\ p_tx sf = [].
Proof.
  intros Hw Hn.
  assert (E : exists a t, sched ++ repeat [] n = a :: t /\ concat (a :: t) = concat sched /\
     concat (skipn (length sched) t) = [] /\ (length t + 1 = length sched + n)%nat).
  { destruct n as [|n]; [lia|]. destruct sched as [|a s]; cbn [app repeat].
    - exists [], (repeat [] n). repeat split; [apply concat_repeat_nil| |rewrite repeat_length; cbn; lia].
      cbn. apply concat_repeat_nil.
    - exists a, (s ++ [] :: repeat [] n). split; [reflexivity|]. split.
      + cbn [concat]. rewrite concat_app. cbn [concat app]. rewrite concat_repeat_nil, app_nil_r. reflexivity.
      + split; [|rewrite app_length; cbn [length]; rewrite repeat_length; lia].
        rewrite skipn_app. rewrite skipn_all2 by (cbn; lia). cbn [length app].
        replace (S (length s) - length s)%nat with 1%nat by lia. cbn [skipn]. apply concat_repeat_nil. }
  destruct E as (a & t & E & Ec & Ek & El). rewrite E. unfold tx_run. cbn [pio_run].
  assert (F : pio_feed tx_program 8 pio_init a = tx_idle 0 0 32 1 a) by reflexivity. rewrite F.
  destruct (tx_drain (length t) t eq_refl 0 0 32 1 a bs (length sched) (or_introl eq_refl)) as
    (tr & sf & gaps & tail & R & M & Lg & Q).
  - cbn [concat] in Ec. rewrite Ec. exact Hw.
  - exact Ek.
  - lia.
  - unfold tx_run in R. rewrite R. cbn [p_pins tx_idle].
    destruct bs as [|b bs].
    + destruct gaps; [|discriminate]. exists (1 :: tr), sf, [], (S (S tail)). split; [reflexivity|].
      split; [|auto]. cbn [map]. rewrite M. reflexivity.
    + destruct gaps as [|g gaps]; [discriminate|]. exists (1 :: tr), sf, (S (S g) :: gaps), tail. split; [reflexivity|].
      split; [|auto]. cbn [map]. rewrite M. reflexivity.
Qed.
