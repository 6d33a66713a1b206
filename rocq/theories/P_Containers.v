(** P_Containers.v -- proofs about ShiftReg, FifoIrqSafe, LineReceiverIrqSafe. *)
From Verif Require Import Base S_Containers M_ShiftReg M_Fifo D_Containers.

(** ** List facts *)
Lemma nth_error_ext {A} (l1 l2 : list A) :
  (forall i, nth_error l1 i = nth_error l2 i) -> l1 = l2.
Proof.
  revert l2; induction l1 as [|x t IH]; intros [|y t2] H; auto.
  - specialize (H 0%nat); discriminate.
  - specialize (H 0%nat); discriminate.
  - pose proof (H 0%nat) as H0; cbn in H0; inversion H0; subst.
    f_equal. apply IH. intros i. exact (H (S i)).
Qed.

Lemma nth_error_upd {A} (l : list A) i j a :
  nth_error (upd l i a) j = if ((i =? j) && (i <? length l))%nat then Some a else nth_error l j.
Proof.
  destruct (Nat.eqb_spec i j); cbn.
  - subst. destruct (Nat.ltb_spec j (length l)).
    + apply nth_error_upd_eq; auto.
    + assert (nth_error (upd l j a) j = None) by (apply nth_error_None; rewrite upd_length; lia).
      assert (nth_error l j = None) by (apply nth_error_None; lia). congruence.
  - apply nth_error_upd_neq; auto.
Qed.

Lemma nth_error_skipn {A} (l : list A) n i : nth_error (skipn n l) i = nth_error l (n + i).
Proof.
  revert l; induction n as [|n IH]; intros [|h t]; cbn; auto. destruct i; reflexivity.
Qed.

Lemma nth_error_firstn {A} (l : list A) n i :
  nth_error (firstn n l) i = if (i <? n)%nat then nth_error l i else None.
Proof.
  revert l i; induction n as [|n IH]; intros [|h t] [|i]; cbn; auto.
  - destruct (_ <? _)%nat; auto.
  - rewrite IH. reflexivity.
Qed.

Lemma nth_error_repeat {A} (x : A) n i : nth_error (repeat x n) i = if (i <? n)%nat then Some x else None.
Proof. revert i; induction n as [|n IH]; intros [|i]; cbn; auto. rewrite IH. reflexivity. Qed.

Lemma nth_error_app {A} (l1 l2 : list A) i :
  nth_error (l1 ++ l2) i = if (i <? length l1)%nat then nth_error l1 i else nth_error l2 (i - length l1).
Proof.
  destruct (Nat.ltb_spec i (length l1)); [apply nth_error_app1|apply nth_error_app2]; lia.
Qed.

Lemma nth_error_tl {A} (l : list A) i : nth_error (tl l) i = nth_error l (S i).
Proof. destruct l; [destruct i|]; reflexivity. Qed.
Lemma tl_length {A} (l : list A) : length (tl l) = (length l - 1)%nat.
Proof. destruct l; cbn; lia. Qed.

Ltac bdestr :=
  repeat match goal with
  | |- context [(?a <? ?b)%nat] => destruct (Nat.ltb_spec a b)
  | |- context [(?a <=? ?b)%nat] => destruct (Nat.leb_spec a b)
  | |- context [(?a =? ?b)%nat] => destruct (Nat.eqb_spec a b)
  | H : context [(?a <? ?b)%nat] |- _ => destruct (Nat.ltb_spec a b)
  | H : context [(?a =? ?b)%nat] |- _ => destruct (Nat.eqb_spec a b)
  end; cbn [andb orb negb] in *.

(** ** ShiftReg *)

(** [sr_ok N s w]: the register's window, oldest first, is [w]. *)
Definition sr_ok {A} (N : nat) (s : shiftreg A) (w : list A) : Prop :=
  length (sr_data s) = (2 * N)%nat /\ length w = N /\ (sr_off s < N)%nat /\
  forall i, (i < N)%nat ->
    nth_error (sr_data s) (sr_off s + i) = nth_error w i /\
    (* the half below off mirrors the half above *)
    nth_error (sr_data s) ((sr_off s + i) mod N) = nth_error w i.

Lemma mod_wrap a b : (b <> 0 -> a < 2 * b -> a mod b = if a <? b then a else a - b)%nat.
Proof.
  intros H H'. bdestr.
  - apply Nat.mod_small; auto.
  - symmetry. apply Nat.mod_unique with (q := 1%nat); lia.
Qed.

Lemma sr_new_ok {A} N (z : A) : (1 <= N)%nat -> sr_ok N (sr_new N z) (repeat z N).
Proof.
  intros HN. unfold sr_ok, sr_new; cbn. rewrite !repeat_length. repeat split; try lia.
  - rewrite !nth_error_repeat. bdestr; auto; lia.
  - rewrite !nth_error_repeat. rewrite Nat.mod_small by lia. bdestr; auto; lia.
Qed.

Lemma sr_init_loop_ok {A} N (init buf : list A) :
  (N <= length init)%nat -> length buf = (2 * N)%nat ->
  forall k i, (i + k = N)%nat ->
  exists b, sr_init_loop N init i k buf = Ok b /\ length b = (2 * N)%nat /\
    forall j, nth_error b j =
      if ((i <=? j) && (j <? N))%nat then nth_error init j
      else if ((i + N <=? j) && (j <? 2 * N))%nat then nth_error init (j - N)
      else nth_error buf j.
Proof.
  intros Hi Hb k; revert buf Hb; induction k as [|k IH]; intros buf Hb i Hik.
  - exists buf. cbn. repeat split; auto. intros j. bdestr; auto; lia.
  - cbn [sr_init_loop].
    destruct (nth_error init i) eqn:E; [|apply nth_error_None in E; lia].
    unfold aget; rewrite E; cbn.
    rewrite aset_ok by lia; cbn. rewrite aset_ok by (rewrite upd_length; lia); cbn.
    destruct (IH (upd (upd buf i a) (i + N) a)) with (i := S i) as (b & Eb & Lb & Hj);
      [rewrite !upd_length; auto | lia |].
    exists b. rewrite Eb. repeat split; auto.
    intros j. rewrite Hj. rewrite !nth_error_upd, !upd_length.
    bdestr; subst; auto; try lia.
    all: try (rewrite <- E; f_equal; lia).
Qed.

Lemma sr_new_init_ok {A} N (buf init : list A) :
  (1 <= N)%nat -> (N <= length init)%nat -> length buf = (2 * N)%nat ->
  exists s, sr_new_init N buf init = Ok s /\ sr_ok N s (firstn N init).
Proof.
  intros HN Hi Hb. unfold sr_new_init.
  destruct (sr_init_loop_ok N init buf Hi Hb N 0%nat eq_refl) as (b & E & Lb & Hj).
  rewrite E; cbn. eexists; split; [reflexivity|].
  unfold sr_ok; cbn. rewrite firstn_length_le by lia. repeat split; auto; try lia.
  - rewrite Hj, nth_error_firstn. bdestr; auto; lia.
  - rewrite Hj, nth_error_firstn. rewrite Nat.mod_small by lia. bdestr; auto; lia.
Qed.

Ltac store_tac N w Hw i :=
  first
  [ replace (i - (N - 1))%nat with 0%nat by lia; reflexivity
  | let H1 := fresh "HA" in let H2 := fresh "HB" in destruct (Hw (S i) ltac:(lia)) as [H1 H2];
    first [ rewrite <- H1; f_equal; lia
          | rewrite <- H2; f_equal; rewrite mod_wrap by lia; bdestr; lia ] ].

(** One update: never UB; the window shifts by one. *)
Lemma sr_store_ok {A} N (s : shiftreg A) w x :
  sr_ok N s w -> exists s', sr_store N s x = Ok s' /\ sr_ok N s' (tl w ++ [x]).
Proof.
  intros (Ld & Lw & Ho & Hw). unfold sr_store.
  rewrite aset_ok by lia; cbn. rewrite aset_ok by (rewrite upd_length; lia); cbn.
  eexists; split; [reflexivity|].
  unfold sr_ok; cbn. rewrite !upd_length.
  rewrite app_length, tl_length; cbn [length].
  repeat split; auto; try lia.
  - bdestr; lia.
  - rewrite !nth_error_upd, !upd_length.
    rewrite nth_error_app, tl_length, Lw, nth_error_tl.
    bdestr; try lia; store_tac N w Hw i.
  - assert (HN : (N <> 0)%nat) by lia.
    rewrite mod_wrap by (bdestr; lia).
    rewrite !nth_error_upd, !upd_length.
    rewrite nth_error_app, tl_length, Lw, nth_error_tl.
    bdestr; try lia; store_tac N w Hw i.
Qed.

Lemma sr_update_ok {A} N (s : shiftreg A) w x :
  sr_ok N s w -> exists s', sr_update N s x = Ok s' /\ sr_ok N s' (tl w ++ [x]).
Proof. apply sr_store_ok. Qed.

Lemma sr_update_null_ok {A} N (s : shiftreg A) w x :
  sr_ok N s w -> exists s', sr_update_null N s x = Ok s' /\ sr_ok N s' (tl w ++ [x]).
Proof.
  intros H. unfold sr_update_null, assert_.
  pose proof H as (_ & _ & Ho & _). bdestr; [|lia]. apply sr_store_ok; auto.
Qed.

Lemma sr_update_out_ok {A} N (s : shiftreg A) w x :
  sr_ok N s w ->
  exists s' old, sr_update_out N s x = Ok (s', old) /\ nth_error w 0 = Some old /\
                 sr_ok N s' (tl w ++ [x]).
Proof.
  intros H. unfold sr_update_out, assert_.
  pose proof H as (Ld & Lw & Ho & Hw).
  destruct (Hw 0%nat ltac:(lia)) as [H0 _]. rewrite Nat.add_0_r in H0.
  destruct (nth_error w 0) as [o|] eqn:E; [|apply nth_error_None in E; lia].
  unfold aget; rewrite H0; cbn. bdestr; [|lia]. cbn.
  destruct (sr_store_ok N s w x H) as (s' & Es & Hs). rewrite Es; cbn. eauto.
Qed.

Lemma sr_at_ok {A} N (s : shiftreg A) w i :
  sr_ok N s w -> (i < N)%nat -> exists a, nth_error w i = Some a /\ sr_at N s i = Ok a.
Proof.
  intros (Ld & Lw & Ho & Hw) Hi. destruct (Hw i Hi) as [H1 _].
  destruct (nth_error w i) as [o|] eqn:E; [|apply nth_error_None in E; lia].
  exists o; split; auto. unfold sr_at, assert_. bdestr; [|lia]. cbn.
  unfold aget. rewrite Nat.add_comm, H1. reflexivity.
Qed.

Lemma sr_data_at_ok {A} N (s : shiftreg A) w i :
  sr_ok N s w -> (i < N)%nat -> exists a, nth_error w i = Some a /\ sr_data_at s i = Ok a.
Proof.
  intros (Ld & Lw & Ho & Hw) Hi. destruct (Hw i Hi) as [H1 _].
  destruct (nth_error w i) as [o|] eqn:E; [|apply nth_error_None in E; lia].
  exists o; split; auto. unfold sr_data_at, aget. rewrite H1. reflexivity.
Qed.

Lemma shift_window {A} N (w h : list A) x :
  length w = N -> (1 <= N)%nat ->
  tl (lastn N (w ++ h)) ++ [x] = lastn N (w ++ (h ++ [x])).
Proof.
  intros Lw HN. unfold lastn. rewrite !app_length; cbn [length].
  apply nth_error_ext. intros i.
  rewrite nth_error_app, tl_length, nth_error_tl, skipn_length, !nth_error_skipn, app_length.
  rewrite app_assoc.
  rewrite (nth_error_app (w ++ h)). rewrite app_length.
  bdestr; subst; try lia.
  - f_equal; lia.
  - f_equal; lia.
Qed.


Lemma sr_apply_ok {A} N (s : shiftreg A) w o :
  sr_ok N s w ->
  exists s' r, sr_apply N s o = Ok (s', r) /\ sr_ok N s' (tl w ++ [snd o]) /\
    r = (match fst o with UpdOut => nth_error w 0 | _ => None end).
Proof.
  intros H. destruct o as [k x]; unfold sr_apply; cbn [fst snd].
  destruct k.
  - destruct (sr_update_ok N s w x H) as (s' & E & Hs). rewrite E; cbn; eauto.
  - destruct (sr_update_null_ok N s w x H) as (s' & E & Hs). rewrite E; cbn; eauto.
  - destruct (sr_update_out_ok N s w x H) as (s' & old & E & Ho & Hs). rewrite E; cbn; eauto 6.
Qed.

Lemma sr_run_ok {A} N (w0 : list A) :
  (1 <= N)%nat -> length w0 = N ->
  forall ops h s, sr_ok N s (lastn N (w0 ++ h)) ->
  exists s' outs, mrun (sr_apply N) s ops = Ok (s', outs) /\
    sr_ok N s' (lastn N (w0 ++ h ++ map snd ops)) /\
    outs = (map (fun k => match nth_error ops k with
                          | Some (UpdOut, _) => nth_error (w0 ++ h ++ map snd ops) (length h + k)
                          | _ => None end) (seq 0 (length ops))).
Proof.
  intros HN L0 ops; induction ops as [|o t IH]; intros h s Hs; cbn [mrun map].
  - rewrite app_nil_r. eexists _, _; repeat split; eauto. apply Hs. apply Hs. apply Hs. intros; apply Hs; auto.
    intros; apply Hs; auto.
  - destruct (sr_apply_ok N s _ o Hs) as (s1 & r & E & H1 & Hr). rewrite E; cbn [bind].
    rewrite shift_window in H1 by auto.
    destruct (IH (h ++ [snd o]) s1 H1) as (s2 & os & E2 & H2 & Ho). rewrite E2; cbn [bind].
    rewrite <- app_assoc in H2. cbn [app] in H2.
    eexists _, _; split; [reflexivity|]. split; [exact H2|].
    subst os r. cbn [length seq map]. f_equal.
    + destruct o as [[] x]; cbn [fst snd]; auto.
      change (nth_error ((UpdOut, x) :: t) 0) with (Some (UpdOut, x)).
      unfold lastn. rewrite nth_error_skipn, Nat.add_0_r, Nat.add_0_r, app_length, L0.
      rewrite app_assoc. replace (N + length h - N)%nat with (length h) by lia.
      rewrite (nth_error_app (w0 ++ h)). rewrite app_length. bdestr; auto; lia.
    + rewrite <- seq_shift, map_map. apply map_ext. intros k. cbn [nth_error].
      destruct (nth_error t k) as [[[] x]|]; auto.
      rewrite app_length; cbn [length]. rewrite <- app_assoc; cbn [app].
      f_equal. lia.
Qed.

(** Main shift register theorem (C01). *)
Lemma shiftreg_last_N {A} (N : nat) (z : A) (ops : list (upd_kind * A)) :
  (1 <= N)%nat ->
  exists s outs, mrun (sr_apply N) (sr_new N z) ops = Ok (s, outs) /\
    (forall i, (i < N)%nat ->
       exists a, nth_error (lastn N (repeat z N ++ map snd ops)) i = Some a /\
         sr_at N s i = Ok a /\ sr_data_at s i = Ok a) /\
    (forall k x, nth_error ops k = Some (UpdOut, x) ->
       nth_error outs k = Some (nth_error (repeat z N ++ map snd ops) k)).
Proof.
  intros HN.
  destruct (sr_run_ok N (repeat z N) HN (repeat_length z N) ops [] (sr_new N z)) as (s & outs & E & H & Ho).
  { rewrite app_nil_r. unfold lastn. rewrite repeat_length, Nat.sub_diag. cbn. apply sr_new_ok; auto. }
  exists s, outs. split; auto. cbn [app] in *. split.
  - intros i Hi. destruct (sr_at_ok N s _ i H Hi) as (a & Ha & E1).
    destruct (sr_data_at_ok N s _ i H Hi) as (b & Hb & E2). exists a. repeat split; auto. congruence.
  - intros k x Hk. subst outs. rewrite nth_error_map.
    assert ((k < length ops)%nat) by (apply nth_error_Some; congruence).
    replace (nth_error (seq 0 (length ops)) k) with (Some k).
    2:{ symmetry. rewrite (nth_error_nth' _ 0%nat) by (rewrite seq_length; auto). rewrite seq_nth; auto. }
    cbn. rewrite Hk. reflexivity.
Qed.

(** Same for the constructor that takes initial contents. *)
Lemma shiftreg_init_last_N {A} (N : nat) (buf init : list A) (ops : list (upd_kind * A)) :
  (1 <= N)%nat -> (N <= length init)%nat -> length buf = (2 * N)%nat ->
  exists s0 s outs, sr_new_init N buf init = Ok s0 /\
    mrun (sr_apply N) s0 ops = Ok (s, outs) /\
    (forall i, (i < N)%nat ->
       exists a, nth_error (lastn N (firstn N init ++ map snd ops)) i = Some a /\
         sr_at N s i = Ok a /\ sr_data_at s i = Ok a) /\
    (forall k x, nth_error ops k = Some (UpdOut, x) ->
       nth_error outs k = Some (nth_error (firstn N init ++ map snd ops) k)).
Proof.
  intros HN Hi Hb.
  destruct (sr_new_init_ok N buf init HN Hi Hb) as (s0 & E0 & H0).
  assert (L0 : length (firstn N init) = N) by (apply firstn_length_le; auto).
  destruct (sr_run_ok N (firstn N init) HN L0 ops [] s0) as (s & outs & E & H & Ho).
  { rewrite app_nil_r. unfold lastn. rewrite L0, Nat.sub_diag. exact H0. }
  exists s0, s, outs. split; auto. split; auto. cbn [app] in *. split.
  - intros i Hi'. destruct (sr_at_ok N s _ i H Hi') as (a & Ha & E1).
    destruct (sr_data_at_ok N s _ i H Hi') as (b & Hb' & E2). exists a. repeat split; auto. congruence.
  - intros k x Hk. subst outs. rewrite nth_error_map.
    assert ((k < length ops)%nat) by (apply nth_error_Some; congruence).
    replace (nth_error (seq 0 (length ops)) k) with (Some k).
    2:{ symmetry. rewrite (nth_error_nth' _ 0%nat) by (rewrite seq_length; auto). rewrite seq_nth; auto. }
    cbn. rewrite Hk. reflexivity.
Qed.

(** ** Convolute *)
Lemma skipn_nth_cons {A} (l : list A) i a : nth_error l i = Some a -> skipn i l = a :: skipn (S i) l.
Proof.
  revert l; induction i as [|i IH]; intros [|h t] H; cbn in *; try discriminate.
  - inversion H; reflexivity.
  - apply IH; auto.
Qed.

Lemma conv_loop_spec X Y (a b : shiftreg Z) wa wb :
  sr_ok X a wa -> sr_ok Y b wb ->
  forall k i acc, (i + k = Nat.min X Y)%nat ->
  sr_conv_loop a b i k acc =
  if dot_fits acc (skipn i wa) (skipn i wb) then Ok (acc + dot (skipn i wa) (skipn i wb))
  else UB SignedOverflow.
Proof.
  intros Ha Hb. pose proof Ha as (_ & La & _). pose proof Hb as (_ & Lb & _).
  induction k as [|k IH]; intros i acc Hik; cbn [sr_conv_loop].
  - destruct (skipn i wa) as [|x ta] eqn:Ea; cbn [dot dot_fits]; [f_equal; lia|].
    destruct (skipn i wb) as [|y tb] eqn:Eb; cbn [dot dot_fits]; [f_equal; lia|].
    exfalso. pose proof (f_equal (@length Z) Ea). pose proof (f_equal (@length Z) Eb).
    rewrite skipn_length in *. cbn [length] in *. lia.
  - destruct (sr_data_at_ok X a wa i Ha ltac:(lia)) as (x & Hx & Ex).
    destruct (sr_data_at_ok Y b wb i Hb ltac:(lia)) as (y & Hy & Ey).
    rewrite Ex, Ey; cbn [bind].
    rewrite (skipn_nth_cons wa i x Hx), (skipn_nth_cons wb i y Hy). cbn [dot dot_fits].
    unfold chk32. destruct (in_i32 (x * y)); cbn [bind andb]; auto.
    destruct (in_i32 (acc + x * y)); cbn [bind andb]; auto.
    rewrite IH by lia. destruct (dot_fits _ _ _); auto. f_equal. lia.
Qed.

Lemma convolute_spec X Y (a b : shiftreg Z) wa wb :
  sr_ok X a wa -> sr_ok Y b wb ->
  sr_convolute X Y a b = if dot_fits 0 wa wb then Ok (dot wa wb) else UB SignedOverflow.
Proof.
  intros Ha Hb. unfold sr_convolute.
  rewrite (conv_loop_spec X Y a b wa wb Ha Hb) by (bdestr; lia).
  reflexivity.
Qed.

(** C02 in terms of histories of the two registers. *)
Lemma convolute_history X Y (za zb : Z) (opa opb : list (upd_kind * Z)) a b oa ob :
  (1 <= X)%nat -> (1 <= Y)%nat ->
  mrun (sr_apply X) (sr_new X za) opa = Ok (a, oa) ->
  mrun (sr_apply Y) (sr_new Y zb) opb = Ok (b, ob) ->
  let wa := lastn X (repeat za X ++ map snd opa) in
  let wb := lastn Y (repeat zb Y ++ map snd opb) in
  sr_convolute X Y a b = if dot_fits 0 wa wb then Ok (dot wa wb) else UB SignedOverflow.
Proof.
  intros HX HY Ea Eb wa wb. apply convolute_spec.
  - destruct (sr_run_ok X (repeat za X) HX (repeat_length za X) opa [] (sr_new X za)) as (s & os & E & H & _).
    { rewrite app_nil_r. unfold lastn. rewrite repeat_length, Nat.sub_diag. apply sr_new_ok; auto. }
    rewrite Ea in E; inversion E; subst. exact H.
  - destruct (sr_run_ok Y (repeat zb Y) HY (repeat_length zb Y) opb [] (sr_new Y zb)) as (s & os & E & H & _).
    { rewrite app_nil_r. unfold lastn. rewrite repeat_length, Nat.sub_diag. apply sr_new_ok; auto. }
    rewrite Eb in E; inversion E; subst. exact H.
Qed.

(** ** FifoIrqSafe *)
Definition ff_ok {A} (N : nat) (f : fifo A) (q : list A) : Prop :=
  length (ff_data f) = N /\ (ff_rd f < N)%nat /\ ff_len f = length q /\ (length q <= N)%nat /\
  ff_wr f = ((ff_rd f + length q) mod N)%nat /\
  forall i, (i < length q)%nat -> nth_error (ff_data f) ((ff_rd f + i) mod N) = nth_error q i.

Lemma ff_new_ok {A} N (d : A) : (1 <= N)%nat -> ff_ok N (ff_new N d) [].
Proof.
  intros HN. unfold ff_ok, ff_new; cbn. rewrite repeat_length. repeat split; try lia.
  rewrite Nat.mod_small; lia.
Qed.

Lemma ff_new_init_ok {A} N (init : list A) : (1 <= N)%nat -> length init = N -> ff_ok N (ff_new_init N init) init.
Proof.
  intros HN L. unfold ff_ok, ff_new_init; cbn. rewrite firstn_all2 by lia. repeat split; try lia.
  - rewrite L. rewrite Nat.mod_same; lia.
  - intros i Hi. rewrite Nat.mod_small by lia. reflexivity.
Qed.

Lemma ff_push_ok {A} N (f : fifo A) q x :
  ff_ok N f q ->
  exists f', ff_push N f x = Ok (f', (length q <? N)%nat) /\
             ff_ok N f' (if (length q <? N)%nat then q ++ [x] else q).
Proof.
  intros (Ld & Hr & Hl & Hq & Hw & Hc). unfold ff_push. rewrite Hl.
  assert (HN : (N <> 0)%nat) by lia.
  destruct (Nat.ltb_spec (length q) N); [|eexists; split; [reflexivity|]; repeat split; auto].
  assert (ff_wr f < N)%nat by (rewrite Hw; apply Nat.mod_upper_bound; lia).
  rewrite aset_ok by lia; cbn [bind].
  eexists; split; [reflexivity|].
  assert (Hwr : (if (S (ff_wr f) =? N)%nat then 0%nat else S (ff_wr f)) = ((ff_rd f + S (length q)) mod N)%nat).
  { rewrite Hw in *. rewrite mod_wrap in * by lia. bdestr; try lia;
    rewrite mod_wrap by lia; bdestr; lia. }
  unfold ff_ok; cbn [ff_data ff_rd ff_wr ff_len]. rewrite upd_length, app_length; cbn [length].
  replace (length q + 1)%nat with (S (length q)) by lia. rewrite Hwr.
  repeat split; auto; try lia.
  intros i Hi. rewrite nth_error_upd, nth_error_app. rewrite Hw.
  rewrite mod_wrap by lia.
  destruct (Nat.eq_dec i (length q)) as [->|Hne].
  - rewrite Nat.ltb_irrefl, Nat.sub_diag. cbn [nth_error].
    rewrite mod_wrap by lia. rewrite Nat.eqb_refl. bdestr; auto; lia.
  - destruct (Nat.ltb_spec i (length q)); [|lia].
    specialize (Hc i ltac:(lia)). rewrite mod_wrap in * by lia.
    bdestr; auto; lia.
Qed.

Lemma ff_pop_ok {A} N (f : fifo A) q :
  ff_ok N f q ->
  exists f', ff_pop N f = Ok (f', match q with [] => None | x :: _ => Some x end) /\ ff_ok N f' (tl q).
Proof.
  intros (Ld & Hr & Hl & Hq & Hw & Hc). unfold ff_pop. rewrite Hl.
  destruct q as [|x t].
  - cbn [length]. eexists; split; [reflexivity|]. repeat split; auto.
  - cbn [length tl] in *. destruct (Nat.ltb_spec 0 (S (length t))); [|lia].
    pose proof (Hc 0%nat ltac:(lia)) as H0. rewrite Nat.add_0_r, Nat.mod_small in H0 by lia. cbn in H0.
    unfold aget; rewrite H0; cbn [bind]. eexists; split; [reflexivity|].
    unfold ff_ok; cbn [ff_data ff_rd ff_wr ff_len].
    repeat split; auto; try lia.
    + bdestr; lia.
    + rewrite Hw. rewrite !mod_wrap by (bdestr; lia). bdestr; lia.
    + intros i Hi. specialize (Hc (S i) ltac:(lia)). cbn in Hc. rewrite <- Hc. f_equal.
      rewrite !mod_wrap by (bdestr; lia). bdestr; lia.
Qed.


Lemma ff_apply_ok {A} N (f : fifo A) q o :
  ff_ok N f q -> exists f', ff_apply N f o = Ok (f', snd (q_step N q o)) /\ ff_ok N f' (fst (q_step N q o)).
Proof.
  intros H. destruct o; cbn [ff_apply q_step].
  - destruct (ff_push_ok N f q x H) as (f' & E & H'). rewrite E; cbn [bind].
    bdestr; cbn [fst snd]; eauto.
  - destruct (ff_pop_ok N f q H) as (f' & E & H'). rewrite E; cbn [bind].
    destruct q; cbn [fst snd tl] in *; eauto.
  - eexists; split; [reflexivity|]. destruct H as (Ld & Hr & Hl & Hq & Hw & Hc).
    unfold ff_ok, ff_clear; cbn. repeat split; auto; try lia.
    rewrite Nat.mod_small; lia.
  - eexists; split; [|exact H]. unfold ff_length. destruct H as (_ & _ & -> & _). reflexivity.
  - eexists; split; [|exact H]. unfold ff_empty. destruct H as (_ & _ & -> & _). destruct q; reflexivity.
  - eexists; split; [|exact H]. unfold ff_full. destruct H as (_ & _ & -> & _). reflexivity.
Qed.

Lemma ff_run_ok {A} N (ops : list (q_op A)) : forall f q,
  ff_ok N f q ->
  exists f', mrun (ff_apply N) f ops = Ok (f', snd (q_run N q ops)) /\ ff_ok N f' (fst (q_run N q ops)).
Proof.
  induction ops as [|o t IH]; intros f q H; cbn [mrun q_run].
  - eauto.
  - destruct (ff_apply_ok N f q o H) as (f1 & E & H1). rewrite E; cbn [bind].
    destruct (q_step N q o) as [q1 r]; cbn [fst snd] in *.
    destruct (IH f1 q1 H1) as (f2 & E2 & H2). rewrite E2; cbn [bind].
    destruct (q_run N q1 t) as [q2 rs]; cbn [fst snd] in *. eauto.
Qed.

Lemma fifo_is_queue {A} (N : nat) (d : A) (ops : list (q_op A)) :
  (1 <= N)%nat ->
  exists f, mrun (ff_apply N) (ff_new N d) ops = Ok (f, snd (q_run N [] ops)).
Proof.
  intros HN. destruct (ff_run_ok N ops (ff_new N d) [] (ff_new_ok N d HN)) as (f & E & _). eauto.
Qed.

Lemma fifo_init_is_queue {A} (N : nat) (init : list A) (ops : list (q_op A)) :
  (1 <= N)%nat -> length init = N ->
  exists f, mrun (ff_apply N) (ff_new_init N init) ops = Ok (f, snd (q_run N init ops)).
Proof.
  intros HN L. destruct (ff_run_ok N ops (ff_new_init N init) init (ff_new_init_ok N init HN L)) as (f & E & _). eauto.
Qed.

(** At(i) agrees with the queue exactly as long as the read offset is 0, e.g. when nothing was
    popped since construction or the last Clear. *)
Definition no_pop {A} (o : q_op A) : bool := match o with QPop => false | _ => true end.

Lemma ff_apply_rd {A} N (f : fifo A) o f' r :
  ff_apply N f o = Ok (f', r) -> no_pop o = true -> ff_rd f = 0%nat -> ff_rd f' = 0%nat.
Proof.
  destruct o; cbn [ff_apply no_pop]; intros E Hp H0; try discriminate; try (inversion E; subst; auto; fail).
  unfold ff_push in E. destruct (Nat.ltb_spec (ff_len f) N); cbn [bind] in E.
  - unfold aset in E. bdestr; cbn [bind] in E; inversion E; subst; auto.
  - inversion E; subst; auto.
Qed.

Lemma fifo_at_without_pop {A} (N : nat) (d : A) (ops : list (q_op A)) f rs :
  (1 <= N)%nat -> forallb no_pop ops = true ->
  mrun (ff_apply N) (ff_new N d) ops = Ok (f, rs) ->
  forall i x, nth_error (fst (q_run N [] ops)) i = Some x -> ff_at N f i = Ok x.
Proof.
  intros HN Hp E i x Hx.
  destruct (ff_run_ok N ops (ff_new N d) [] (ff_new_ok N d HN)) as (f' & E' & H).
  rewrite E in E'. assert (f = f') by congruence. subst f'. clear E'.
  assert (Hrd : ff_rd f = 0%nat).
  { clear H Hx. revert E. generalize (ff_new N d), (eq_refl : ff_rd (ff_new N d) = 0%nat).
    clear i x. revert rs. induction ops as [|o t IH]; cbn [mrun forallb]; intros rs f0 H0 E.
    - inversion E; subst; auto.
    - apply andb_prop in Hp as [Hp1 Hp2].
      destruct (ff_apply N f0 o) as [[f1 r]|] eqn:E1; cbn [bind] in E; [|discriminate].
      destruct (mrun (ff_apply N) f1 t) as [[f2 rs2]|] eqn:E2; cbn [bind] in E; [|discriminate].
      inversion E; subst. apply (IH Hp2 rs2 f1); auto. eapply ff_apply_rd; eauto. }
  destruct H as (Ld & Hr & Hl & Hq & Hw & Hc).
  assert (i < length (fst (q_run N [] ops)))%nat by (apply nth_error_Some; congruence).
  specialize (Hc i ltac:(lia)). rewrite Hrd in Hc. cbn [Nat.add] in Hc. rewrite Nat.mod_small in Hc by lia.
  unfold ff_at, assert_. bdestr; [|lia]. cbn [bind]. unfold aget. rewrite Hc, Hx. reflexivity.
Qed.

(** ** LineReceiverIrqSafe *)
Definition lr_ok {A} (N : nat) (f : linerx A) (q : list A) : Prop :=
  length (lr_data f) = N /\ lr_off f = length q /\ (length q <= N)%nat /\
  forall i, (i < length q)%nat -> nth_error (lr_data f) i = nth_error q i.

Lemma lr_new_ok {A} N (d : A) : lr_ok N (lr_new N d) [].
Proof. unfold lr_ok, lr_new; cbn. rewrite repeat_length. repeat split; lia. Qed.

Lemma lr_push_ok {A} N (f : linerx A) q x :
  lr_ok N f q ->
  exists f', lr_push N f x = Ok (f', (length q <? N)%nat) /\
             lr_ok N f' (if (length q <? N)%nat then q ++ [x] else q).
Proof.
  intros (Ld & Hl & Hq & Hc). unfold lr_push. rewrite Hl.
  destruct (Nat.ltb_spec (length q) N); [|eexists; split; [reflexivity|]; repeat split; auto].
  rewrite aset_ok by lia; cbn [bind]. eexists; split; [reflexivity|].
  unfold lr_ok; cbn [lr_data lr_off]. rewrite upd_length, app_length; cbn [length].
  repeat split; auto; try lia.
  intros i Hi. rewrite nth_error_upd, nth_error_app.
  bdestr; subst; auto; try lia. rewrite Nat.sub_diag; reflexivity.
Qed.


Lemma lr_apply_ok {A} N (f : linerx A) q o :
  lr_ok N f q -> exists f', lr_apply N f o = Ok (f', snd (b_step N q o)) /\ lr_ok N f' (fst (b_step N q o)).
Proof.
  intros H. destruct o; cbn [lr_apply b_step].
  - destruct (lr_push_ok N f q x H) as (f' & E & H'). rewrite E; cbn [bind].
    bdestr; cbn [fst snd]; eauto.
  - eexists; split; [reflexivity|]. destruct H as (Ld & Hl & Hq & Hc).
    unfold lr_ok, lr_clear; cbn. repeat split; auto; lia.
  - eexists; split; [|exact H]. unfold lr_length. destruct H as (_ & -> & _). reflexivity.
  - eexists; split; [|exact H]. unfold lr_empty. destruct H as (_ & -> & _). destruct q; reflexivity.
  - eexists; split; [|exact H]. unfold lr_full. destruct H as (_ & -> & _). reflexivity.
Qed.

Lemma lr_run_ok {A} N (ops : list (b_op A)) : forall f q,
  lr_ok N f q ->
  exists f', mrun (lr_apply N) f ops = Ok (f', snd (b_run N q ops)) /\ lr_ok N f' (fst (b_run N q ops)).
Proof.
  induction ops as [|o t IH]; intros f q H; cbn [mrun b_run].
  - eauto.
  - destruct (lr_apply_ok N f q o H) as (f1 & E & H1). rewrite E; cbn [bind].
    destruct (b_step N q o) as [q1 r]; cbn [fst snd] in *.
    destruct (IH f1 q1 H1) as (f2 & E2 & H2). rewrite E2; cbn [bind].
    destruct (b_run N q1 t) as [q2 rs]; cbn [fst snd] in *. eauto.
Qed.

Lemma linerx_is_buffer {A} (N : nat) (d : A) (ops : list (b_op A)) :
  exists f, mrun (lr_apply N) (lr_new N d) ops = Ok (f, snd (b_run N [] ops)) /\
    forall i x, nth_error (fst (b_run N [] ops)) i = Some x -> lr_at N f i = Ok x.
Proof.
  destruct (lr_run_ok N ops (lr_new N d) [] (lr_new_ok N d)) as (f & E & Ld & Hl & Hq & Hc).
  exists f; split; auto. intros i x Hx.
  assert (i < length (fst (b_run N [] ops)))%nat by (apply nth_error_Some; congruence).
  unfold lr_at, assert_. bdestr; [|lia]. cbn [bind]. unfold aget. rewrite Hc, Hx by lia. reflexivity.
Qed.
