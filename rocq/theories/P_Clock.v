(** P_Clock.v -- the sampling clock (C98, C99). *)
From Coq Require Import FinFun.
From Verif Require Import Base M_Clock S_Clock S_Slow.

(** ** Instants in an interval *)
Definition range (a n : Z) : list Z := map (fun i => a + Z.of_nat i) (seq 0 (Z.to_nat n)).
Lemma range_In a n x : In x (range a n) <-> a <= x < a + n.
Proof.
  unfold range. rewrite in_map_iff. split.
  - intros (i & <- & Hi). apply in_seq in Hi. lia.
  - intros H. exists (Z.to_nat (x - a)). split; [lia|]. apply in_seq. lia.
Qed.
Lemma range_NoDup a n : NoDup (range a n).
Proof. apply Injective_map_NoDup; [intros i j H; lia|apply seq_NoDup]. Qed.
Lemma range_length a n : 0 <= n -> Z.of_nat (length (range a n)) = n.
Proof. intros H. unfold range. rewrite map_length, seq_length. lia. Qed.
(** Number of the first instant at or after [a]. *)
Definition first_n (tau p a : Z) : Z := (a - tau + p - 1) / p.
Lemma first_n_spec tau p a n : 0 < p -> a <= tau + p * n <-> first_n tau p a <= n.
Proof.
  intros Hp. unfold first_n. pose proof (Z.div_mod (a - tau + p - 1) p ltac:(lia)) as E. pose proof (Z.mod_pos_bound (a - tau + p - 1) p Hp) as B.
  set (d := (a - tau + p - 1) / p) in *. set (r := (a - tau + p - 1) mod p) in *. clearbody d r. split; intros H; nia.
Qed.
Lemma instants_range tau p a b : 0 < p -> a <= b -> instants tau p a b (range (first_n tau p a) (first_n tau p b - first_n tau p a)).
Proof.
  intros Hp H. split; [apply range_NoDup|]. intros n. rewrite range_In. rewrite (first_n_spec tau p a n Hp).
  pose proof (first_n_spec tau p b n Hp). assert (first_n tau p a <= first_n tau p b).
  { apply (first_n_spec tau p a _ Hp). etransitivity; [exact H|]. apply (first_n_spec tau p b _ Hp). lia. }
  lia.
Qed.
Lemma instants_length tau p a b ns : 0 < p -> a <= b -> instants tau p a b ns -> Z.of_nat (length ns) = first_n tau p b - first_n tau p a.
Proof.
  intros Hp H (N1 & N2). destruct (instants_range tau p a b Hp H) as (R1 & R2).
  assert (L : length ns = length (range (first_n tau p a) (first_n tau p b - first_n tau p a))).
  { apply Nat.le_antisymm; apply NoDup_incl_length; auto; intros x Hx; [apply R2, N2|apply N2, R2]; exact Hx. }
  rewrite L, range_length; [reflexivity|].
  assert (first_n tau p a <= first_n tau p b); [|lia].
  apply (first_n_spec tau p a _ Hp). etransitivity; [exact H|]. apply (first_n_spec tau p b _ Hp). lia.
Qed.
(** The number in an interval of length [len]. *)
Lemma instants_count tau p a len ns : 0 < p -> 0 <= len -> instants tau p a (a + len) ns ->
  p * (Z.of_nat (length ns) - 1) < len < p * (Z.of_nat (length ns) + 1).
Proof.
  intros Hp Hl H. assert (Hab : a <= a + len) by lia. rewrite (instants_length _ _ _ _ _ Hp Hab H).
  set (x := first_n tau p a). set (y := first_n tau p (a + len)).
  assert (A1 : a <= tau + p * x) by (apply (first_n_spec tau p a x Hp); unfold x; lia).
  assert (A2 : ~ a <= tau + p * (x - 1)) by (rewrite first_n_spec by auto; unfold x; lia).
  assert (B1 : a + len <= tau + p * y) by (apply (first_n_spec tau p (a + len) y Hp); unfold y; lia).
  assert (B2 : ~ a + len <= tau + p * (y - 1)) by (rewrite first_n_spec by auto; unfold y; lia).
  clearbody x y. nia.
Qed.
Lemma per_bit tau a ns : instants tau sample_time a (a + bit_time) ns -> length ns = 15%nat \/ length ns = 16%nat.
Proof.
  intros H. pose proof (instants_count _ _ _ bit_time _ (eq_refl : 0 < sample_time) ltac:(discriminate) H) as C.
  change sample_time with 628000 in C. change bit_time with 10000000 in C. lia.
Qed.
Lemma short_bit tau a : exists k ns, 0 <= k < 14 /\ instants tau sample_time (a + bit_time * k) (a + bit_time * k + bit_time) ns /\ length ns = 15%nat.
Proof.
  set (f := fun k => first_n tau sample_time (a + bit_time * k)).
  assert (I : forall k, 0 <= k -> instants tau sample_time (a + bit_time * k) (a + bit_time * k + bit_time) (range (f k) (f (k + 1) - f k))).
  { intros k Hk. replace (a + bit_time * k + bit_time) with (a + bit_time * (k + 1)) by lia.
    apply instants_range; [reflexivity|]. change bit_time with 10000000. lia. }
  assert (L : forall k, 0 <= k -> Z.of_nat (length (range (f k) (f (k + 1) - f k))) = f (k + 1) - f k).
  { intros k Hk. assert (Hab : a + bit_time * k <= a + bit_time * k + bit_time) by (change bit_time with 10000000; lia).
    rewrite (instants_length _ _ _ _ _ (eq_refl : 0 < sample_time) Hab (I k Hk)).
    replace (a + bit_time * k + bit_time) with (a + bit_time * (k + 1)) by lia. reflexivity. }
  assert (T : f 14 - f 0 < 224).
  { assert (H : instants tau sample_time (a + bit_time * 0) (a + bit_time * 0 + 140000000) (range (f 0) (f 14 - f 0))).
    { replace (a + bit_time * 0 + 140000000) with (a + bit_time * 14) by (change bit_time with 10000000; lia).
      apply instants_range; [reflexivity|]. change bit_time with 10000000. lia. }
    assert (Hab : a + bit_time * 0 <= a + bit_time * 0 + 140000000) by lia.
    pose proof (instants_length _ _ _ _ _ (eq_refl : 0 < sample_time) Hab H) as LL.
    pose proof (instants_count _ _ _ 140000000 _ (eq_refl : 0 < sample_time) ltac:(lia) H) as C. change sample_time with 628000 in C.
    replace (a + bit_time * 0 + 140000000) with (a + bit_time * 14) in LL by (change bit_time with 10000000; lia).
    fold (f 14) (f 0) in LL. lia. }
  assert (E : exists k, 0 <= k < 14 /\ f (k + 1) - f k < 16).
  { assert (K : forall k, 0 <= k -> f (k + 1) - f k < 16 \/ 16 <= f (k + 1) - f k) by (intros; lia).
    pose proof (K 0 ltac:(lia)). pose proof (K 1 ltac:(lia)). pose proof (K 2 ltac:(lia)). pose proof (K 3 ltac:(lia)). pose proof (K 4 ltac:(lia)).
    pose proof (K 5 ltac:(lia)). pose proof (K 6 ltac:(lia)). pose proof (K 7 ltac:(lia)). pose proof (K 8 ltac:(lia)). pose proof (K 9 ltac:(lia)).
    pose proof (K 10 ltac:(lia)). pose proof (K 11 ltac:(lia)). pose proof (K 12 ltac:(lia)). pose proof (K 13 ltac:(lia)). clear K.
    cbn [Z.add Pos.add Pos.succ] in *.
    repeat match goal with H : _ \/ _ |- _ => destruct H as [H|H];
      [first [exists 0; split; [lia|exact H]|exists 1; split; [lia|exact H]|exists 2; split; [lia|exact H]|exists 3; split; [lia|exact H]
        |exists 4; split; [lia|exact H]|exists 5; split; [lia|exact H]|exists 6; split; [lia|exact H]|exists 7; split; [lia|exact H]
        |exists 8; split; [lia|exact H]|exists 9; split; [lia|exact H]|exists 10; split; [lia|exact H]|exists 11; split; [lia|exact H]
        |exists 12; split; [lia|exact H]|exists 13; split; [lia|exact H]]|] end. exfalso. lia. }
  destruct E as (k & Hk & E). exists k, (range (f k) (f (k + 1) - f k)). split; [exact Hk|]. split; [apply I; lia|].
  destruct (per_bit tau _ _ (I k ltac:(lia))) as [R|R]; [exact R|]. specialize (L k ltac:(lia)). rewrite R in L. lia.
Qed.

(** ** Reading a line *)
Section R.
  Variables c p : Z.
  Hypothesis Hc : 0 < c.
  Hypothesis Hp : c <= p < 2 * c.
  Fixpoint reads (tau : Z) (ws : list Z) : list Z :=
    match ws with [] => [] | w :: t => if tau <? c then w :: reads (tau + p - c) t else reads (tau - c) t end.
  Lemma div_less x : (x - c) / c = x / c - 1.
  Proof using Hc. replace (x - c) with (x + (-1) * c) by lia. rewrite Z.div_add by lia. lia. Qed.
  Lemma reads_at ws : forall tau, 0 <= tau < p -> read_at c p tau ws (reads tau ws).
  Proof using Hc Hp.
    induction ws as [|w t IH]; intros tau Ht n Hn; cbn [reads length].
    - split; [nia|]. cbn. lia.
    - destruct (Z.ltb_spec tau c) as [L|L].
      + cbn [length]. destruct (Z.eq_dec n 0) as [->|N0].
        * rewrite Z.mul_0_r, Z.add_0_r. split; [nia|]. intros _. rewrite Z.div_small by lia. reflexivity.
        * destruct (IH (tau + p - c) ltac:(lia) (n - 1) ltac:(lia)) as (I1 & I2).
          replace (tau + p - c + p * (n - 1)) with (tau + p * n - c) in I1, I2 by lia. split; [lia|].
          intros H. specialize (I2 ltac:(lia)). replace (Z.to_nat n) with (S (Z.to_nat (n - 1))) by lia. cbn [nth]. rewrite I2, div_less.
          assert (1 <= (tau + p * n) / c) by (apply Z.div_le_lower_bound; nia).
          replace (Z.to_nat ((tau + p * n) / c)) with (S (Z.to_nat ((tau + p * n) / c - 1))) by lia. reflexivity.
      + destruct (IH (tau - c) ltac:(lia) n Hn) as (I1 & I2).
        replace (tau - c + p * n) with (tau + p * n - c) in I1, I2 by lia. split; [lia|].
        intros H. rewrite (I2 H), div_less.
        assert (1 <= (tau + p * n) / c) by (apply Z.div_le_lower_bound; nia).
        replace (Z.to_nat ((tau + p * n) / c)) with (S (Z.to_nat ((tau + p * n) / c - 1))) by lia. reflexivity.
  Qed.
  Lemma read_unique tau ws vs : 0 <= tau < p -> read_at c p tau ws vs -> vs = reads tau ws.
  Proof using Hc Hp.
    intros Ht H. pose proof (reads_at ws tau Ht) as R.
    assert (L : length vs = length (reads tau ws)).
    { destruct (Nat.lt_trichotomy (length vs) (length (reads tau ws))) as [C|[C|C]]; [exfalso|exact C|exfalso].
      - destruct (H (Z.of_nat (length vs)) ltac:(lia)) as (H1 & _). destruct (R (Z.of_nat (length vs)) ltac:(lia)) as (R1 & _). lia.
      - destruct (H (Z.of_nat (length (reads tau ws))) ltac:(lia)) as (H1 & _). destruct (R (Z.of_nat (length (reads tau ws))) ltac:(lia)) as (R1 & _). lia. }
    apply (nth_ext _ _ 0 0 L). intros k Hk.
    destruct (H (Z.of_nat k) ltac:(lia)) as (_ & H1). destruct (R (Z.of_nat k) ltac:(lia)) as (_ & R1).
    specialize (H1 ltac:(lia)). specialize (R1 ltac:(lia)). rewrite Nat2Z.id in *. congruence.
  Qed.
  Lemma reads_thinned ws : 174 * (p - c) <= 2 * c - p -> forall tau n, 0 <= tau < p ->
    (n = 0%nat \/ tau + (p - c) * (Z.of_nat n - 1) < c) -> thinned n ws (reads tau ws).
  Proof using Hc Hp.
    intros Hr. induction ws as [|w t IH]; intros tau n Ht Hn; cbn [reads]; [constructor|].
    destruct (Z.ltb_spec tau c) as [L|L].
    - constructor. apply IH; [lia|]. destruct n as [|[|n]]; [left; reflexivity|left; reflexivity|right]. destruct Hn as [Hn|Hn]; [discriminate|]. nia.
    - destruct Hn as [->|Hn].
      + constructor. apply IH; [lia|]. right. change (Z.of_nat 174 - 1) with 173. lia.
      + destruct n as [|n].
        * constructor. apply IH; [lia|]. right. change (Z.of_nat 174 - 1) with 173. lia.
        * exfalso. nia.
  Qed.
  Lemma reads_length ws tau : 0 <= tau < p -> p * (Z.of_nat (length (reads tau ws)) - 1) + tau < c * Z.of_nat (length ws) \/ reads tau ws = [].
  Proof using Hc Hp.
    intros Ht. destruct (reads tau ws) as [|v l] eqn:E; [right; reflexivity|left].
    destruct (reads_at ws tau Ht (Z.of_nat (length (reads tau ws)) - 1)) as (R & _); [rewrite E; cbn [length]; lia|]. rewrite E in *. lia.
  Qed.
End R.
