(** P_Crc.v -- the checksum (C37, C72). *)
From Verif Require Import Base M_Message M_Standalone S_Crc.

(** ** Bit level *)
Definition cstep (r : Z) (b : bool) : Z := if xorb (Z.odd r) b then Z.lxor (Z.shiftr r 1) 217 else Z.shiftr r 1.
Definition cfold (l : list bool) (r : Z) : Z := fold_left cstep l r.

Lemma odd_lxor a b : Z.odd (Z.lxor a b) = xorb (Z.odd a) (Z.odd b).
Proof. rewrite <- !Z.bit0_odd. apply Z.lxor_spec. Qed.
Lemma crc_bits_fold k : forall n c r, 0 <= n -> crc_bits k r (Z.shiftr c n) = cfold (map (fun i => Z.testbit c (n + Z.of_nat i)) (seq 0 k)) r.
Proof.
  induction k as [|k IH]; intros n c r Hn; [reflexivity|].
  cbn [crc_bits seq map]. unfold cfold. cbn [fold_left]. rewrite odd_lxor. rewrite <- Z.testbit_odd. rewrite Z.add_0_r.
  rewrite Z.shiftr_shiftr by lia. fold (cstep r (Z.testbit c n)). rewrite IH by lia. unfold cfold.
  rewrite <- seq_shift, map_map. f_equal. apply map_ext. intros i. f_equal. lia.
Qed.
Lemma crc_bits8 r c : crc_bits 8 r c = cfold (bits8 c) r.
Proof. rewrite <- (Z.shiftr_0_r c) at 1. rewrite crc_bits_fold by lia. reflexivity. Qed.

Lemma cfold_app a b r : cfold (a ++ b) r = cfold b (cfold a r).
Proof. apply fold_left_app. Qed.

Lemma crc_loop_ok data : forall k j r, (j + k <= length data)%nat ->
  crc_loop data j k r = Ok (cfold (bits (firstn k (skipn j data))) r).
Proof.
  induction k as [|k IH]; intros j r H; cbn [crc_loop]; [rewrite firstn_O; reflexivity|].
  destruct (nth_error data j) as [v|] eqn:E; [|apply nth_error_None in E; lia].
  unfold aget. rewrite E. cbn [bind]. rewrite IH by lia. rewrite crc_bits8.
  replace (skipn j data) with (v :: skipn (S j) data).
  - cbn [firstn]. unfold bits at 2. cbn [flat_map]. rewrite cfold_app. reflexivity.
  - clear - E. revert j E. induction data as [|a t IH]; intros [|j] E; cbn in *; try discriminate; [inversion E; reflexivity|]. apply IH; auto.
Qed.

Definition byte_check (f : Z -> bool) : bool := forallb (fun n => f (Z.of_nat n)) (seq 0 256).
Lemma byte_checked f b : byte_check f = true -> 0 <= b < 256 -> f b = true.
Proof.
  unfold byte_check. rewrite forallb_forall. intros H Hb. specialize (H (Z.to_nat b) ltac:(apply in_seq; lia)).
  cbv beta in H. rewrite Z2Nat.id in H by lia. exact H.
Qed.
Ltac byte_dec := vm_cast_no_check (eq_refl true).

Lemma cstep_check : byte_check (fun r => let f b := (0 <=? cstep r b) && (cstep r b <? 256) in f true && f false) = true.
Proof. byte_dec. Qed.
Lemma cstep_range r b : 0 <= r < 256 -> 0 <= cstep r b < 256.
Proof. intros H. pose proof (byte_checked _ _ cstep_check H) as E. cbv zeta in E. apply andb_prop in E as (E1 & E2). destruct b; lia. Qed.
Lemma cfold_range l : forall r, 0 <= r < 256 -> 0 <= cfold l r < 256.
Proof. induction l as [|b t IH]; intros r H; cbn; auto. apply IH. apply cstep_range. exact H. Qed.

Lemma cstep_lxor r s a b : cstep (Z.lxor r s) (xorb a b) = Z.lxor (cstep r a) (cstep s b).
Proof.
  unfold cstep. rewrite odd_lxor. rewrite Z.shiftr_lxor.
  destruct (Z.odd r), (Z.odd s), a, b; cbn [xorb]; apply Z.bits_inj'; intros n Hn; rewrite ?Z.lxor_spec;
    destruct (Z.testbit (Z.shiftr r 1) n), (Z.testbit (Z.shiftr s 1) n), (Z.testbit 217 n); reflexivity.
Qed.
Lemma cfold_lxor a : forall b r s, length a = length b -> cfold (xor_bits a b) (Z.lxor r s) = Z.lxor (cfold a r) (cfold b s).
Proof.
  induction a as [|x a IH]; intros [|y b] r s H; cbn in *; try discriminate; auto.
  unfold xor_bits in *. unfold cfold in *. cbn [combine map fold_left fst snd]. rewrite cstep_lxor. apply IH. lia.
Qed.

(** With zero bits the register never gets stuck at, or reaches, zero. *)
Lemma cstep0_check : byte_check (fun r => (r =? 0) || negb (cstep r false =? 0)) = true.
Proof. byte_dec. Qed.
Lemma cfold_zeros_nz k : forall r, 0 <= r < 256 -> r <> 0 -> cfold (repeat false k) r <> 0.
Proof.
  induction k as [|k IH]; intros r H Hr; cbn; auto. apply IH; [apply cstep_range; auto|].
  pose proof (byte_checked _ _ cstep0_check H) as E. cbv beta in E. destruct (Z.eqb_spec r 0); [contradiction|].
  destruct (Z.eqb_spec (cstep r false) 0); [discriminate|auto].
Qed.
Lemma cfold_zeros_0 k : cfold (repeat false k) 0 = 0.
Proof. induction k; cbn; auto. Qed.

(** Any pattern of at most 8 bits with a one leaves a non-zero register. *)
Fixpoint patterns (n : nat) : list (list bool) :=
  match n with O => [[]] | S n' => map (cons true) (patterns n') ++ map (cons false) (patterns n') end.
Lemma patterns_all p : In p (patterns (length p)).
Proof. induction p as [|b t IH]; cbn; [auto|]. apply in_or_app. destruct b; [left|right]; apply in_map; auto. Qed.
Lemma pattern_check : forallb (fun n => forallb (fun p => negb (existsb (fun b => b) p) || negb (cfold p 0 =? 0)) (patterns n)) (seq 0 9) = true.
Proof. byte_dec. Qed.
Lemma pattern_nz p : (length p <= 8)%nat -> In true p -> cfold p 0 <> 0.
Proof.
  intros L H. pose proof pattern_check as E. rewrite forallb_forall in E. specialize (E (length p) ltac:(apply in_seq; lia)).
  rewrite forallb_forall in E. specialize (E p (patterns_all p)).
  assert (X : existsb (fun b => b) p = true) by (apply existsb_exists; exists true; auto). rewrite X in E.
  destruct (Z.eqb_spec (cfold p 0) 0); [discriminate|auto].
Qed.
Lemma burst_nz e : burst e -> cfold e 0 <> 0.
Proof.
  intros (i & p & k & -> & L & H). rewrite !cfold_app, cfold_zeros_0. apply cfold_zeros_nz; [apply cfold_range; lia|]. apply pattern_nz; auto.
Qed.

(** ** Odd number of errors *)
Definition parity8 (r : Z) : bool := Nat.odd (ones (bits8 r)).
Lemma parity_check : byte_check (fun r => eqb (parity8 (cstep r true)) (negb (parity8 r)) && eqb (parity8 (cstep r false)) (parity8 r)) = true.
Proof. byte_dec. Qed.
Lemma cfold_parity l : forall r, 0 <= r < 256 -> parity8 (cfold l r) = xorb (parity8 r) (Nat.odd (ones l)).
Proof.
  induction l as [|b t IH]; intros r H; cbn [cfold fold_left]; [cbn; rewrite xorb_false_r; auto|].
  change (fold_left cstep t (cstep r b)) with (cfold t (cstep r b)). rewrite IH by (apply cstep_range; auto).
  pose proof (byte_checked _ _ parity_check H) as E. cbv beta in E. apply andb_prop in E as (E1 & E2). apply eqb_prop in E1, E2.
  unfold ones. destruct b; cbn [filter length].
  - rewrite E1. rewrite Nat.odd_succ, <- Nat.negb_odd. destruct (parity8 r), (Nat.odd (length (filter (fun b => b) t))); reflexivity.
  - rewrite E2. reflexivity.
Qed.
Lemma odd_nz e : Nat.odd (ones e) = true -> cfold e 0 <> 0.
Proof. intros H E. pose proof (cfold_parity e 0 ltac:(lia)) as P. rewrite E, H in P. discriminate P. Qed.

(** ** Double errors: period 127 *)
Definition zstep (r : Z) : Z := cstep r false.
Fixpoint ziter (k : nat) (r : Z) : Z := match k with O => r | S k' => ziter k' (zstep r) end.
Lemma ziter_add a : forall b r, ziter (a + b) r = ziter b (ziter a r).
Proof. induction a as [|a IH]; intros b r; cbn [Nat.add ziter]; auto. Qed.
Lemma ziter_S k r : ziter (S k) r = zstep (ziter k r).
Proof. replace (S k) with (k + 1)%nat by lia. rewrite ziter_add. reflexivity. Qed.
Lemma cfold_zeros_iter k : forall r, cfold (repeat false k) r = ziter k r.
Proof. induction k as [|k IH]; intros r; [reflexivity|]. cbn [repeat ziter cfold fold_left]. apply IH. Qed.
Lemma period_check : (ziter 127 217 =? 217) && forallb (fun d => negb (ziter d 217 =? 217)) (seq 1 126) = true.
Proof. byte_dec. Qed.
Lemma iter_period n : ziter (127 * n) 217 = 217.
Proof.
  induction n as [|n IH]; [reflexivity|]. replace (127 * S n)%nat with (127 * n + 127)%nat by lia.
  rewrite ziter_add, IH. pose proof period_check as E. apply andb_prop in E as (E & _). apply Z.eqb_eq in E. exact E.
Qed.
Lemma iter_mod d : ziter d 217 = ziter (d mod 127) 217.
Proof.
  rewrite (Nat.div_mod d 127) at 1 by lia. rewrite ziter_add, iter_period. reflexivity.
Qed.
Lemma iter_eq d : ziter d 217 = 217 <-> (d mod 127 = 0)%nat.
Proof.
  rewrite iter_mod. pose proof (Nat.mod_upper_bound d 127 ltac:(lia)). split; intros E.
  - destruct (Nat.eq_dec (d mod 127) 0); auto. pose proof period_check as P. apply andb_prop in P as (_ & P).
    rewrite forallb_forall in P. specialize (P (d mod 127)%nat ltac:(apply in_seq; lia)). rewrite E in P. discriminate.
  - rewrite E. reflexivity.
Qed.
Lemma cstep_217 : byte_check (fun r => eqb (cstep r true =? 0) (cstep r false =? 217)) = true.
Proof. byte_dec. Qed.
Lemma two_errors_crc i d k : cfold (two_errors i d k) 0 = 0 <-> (S d mod 127 = 0)%nat.
Proof.
  unfold two_errors. rewrite !cfold_app, cfold_zeros_0. change (cfold [true] 0) with 217.
  set (r := cfold (repeat false d) 217). assert (Hr : 0 <= r < 256) by (apply cfold_range; lia).
  assert (E1 : cfold [true] r = 0 <-> ziter (S d) 217 = 217).
  { cbn [cfold fold_left]. pose proof (byte_checked _ _ cstep_217 Hr) as E. cbv beta in E. apply eqb_prop in E.
    assert (Er : cstep r false = ziter (S d) 217) by (unfold r; rewrite cfold_zeros_iter, ziter_S; reflexivity).
    rewrite <- Er. destruct (Z.eqb_spec (cstep r true) 0), (Z.eqb_spec (cstep r false) 217); try discriminate; tauto. }
  rewrite <- (iter_eq (S d)), <- E1. split.
  - intros E. destruct (Z.eq_dec (cfold [true] r) 0); auto. exfalso. revert E. apply cfold_zeros_nz; auto. apply cfold_range; auto.
  - intros E. rewrite E. apply cfold_zeros_0.
Qed.

(** ** Polynomial form *)
Lemma two_lxor a b : 2 * Z.lxor a b = Z.lxor (2 * a) (2 * b).
Proof. pose proof (Z.shiftl_lxor a b 1) as H. rewrite !Z.shiftl_mul_pow2 in H by lia. change (2 ^ 1) with 2 in H.
  rewrite (Z.mul_comm 2 a), (Z.mul_comm 2 b), <- H. apply Z.mul_comm. Qed.
Lemma clmul_step q g (b : bool) : 0 <= q -> clmul (2 * q + Z.b2z b) g = Z.lxor (2 * clmul q g) (if b then g else 0).
Proof.
  intros H. destruct q as [|q|q]; [| |lia].
  - destruct b; cbn [Z.b2z Z.mul Z.add clmul clmul_pos Z.lxor]; auto; destruct g; reflexivity.
  - destruct b; cbn [Z.b2z].
    + change (2 * Z.pos q + 1) with (Z.pos q~1). reflexivity.
    + change (2 * Z.pos q + 0) with (Z.pos q~0). cbn [clmul clmul_pos]. rewrite Z.lxor_0_r. reflexivity.
Qed.
Lemma rem_check : byte_check (fun c => let f b :=
    Z.lxor (2 * reverse8 c) (256 * Z.b2z b) =? Z.lxor (if xorb (Z.odd c) b then G else 0) (reverse8 (cstep c b)) in f true && f false) = true.
Proof. byte_dec. Qed.
Lemma rev_check : byte_check (fun c => (0 <=? reverse8 c) && (reverse8 c <? 256) && (reverse8 (reverse8 c) =? c)) = true.
Proof. byte_dec. Qed.
Lemma reverse8_ok c : 0 <= c < 256 -> 0 <= reverse8 c < 256 /\ reverse8 (reverse8 c) = c.
Proof. intros H. pose proof (byte_checked _ _ rev_check H) as E. cbv beta in E. apply andb_prop in E as (E & E3). apply andb_prop in E as (E1 & E2). lia. Qed.

Lemma poly_snoc l b : poly (l ++ [b]) = 2 * poly l + Z.b2z b.
Proof. unfold poly. rewrite fold_left_app. reflexivity. Qed.
Lemma poly_nonneg l : 0 <= poly l.
Proof. induction l as [|b l IH] using rev_ind; [cbn; lia|]. rewrite poly_snoc. destruct b; cbn [Z.b2z]; lia. Qed.
Lemma shift_snoc p b : 0 <= p -> Z.shiftl (2 * p + Z.b2z b) 8 = Z.lxor (2 * Z.shiftl p 8) (256 * Z.b2z b).
Proof.
  intros H. rewrite !Z.shiftl_mul_pow2 by lia. change (2 ^ 8) with 256.
  assert (E : 2 * p + Z.b2z b = Z.lxor (2 * p) (Z.b2z b)).
  { pose proof (clmul_step p 1 b H) as E. clear E. rewrite <- Z.add_nocarry_lxor; auto.
    apply Z.bits_inj'. intros n Hn. rewrite Z.land_spec, Z.bits_0. destruct (Z.eq_dec n 0) as [->|].
    - rewrite Z.testbit_even_0. reflexivity.
    - replace (Z.testbit (Z.b2z b) n) with false; [apply andb_false_r|]. symmetry. destruct b; cbn [Z.b2z].
      + change 1 with (2 ^ 0). apply Z.pow2_bits_false. lia.
      + apply Z.bits_0. }
  rewrite E. pose proof (Z.shiftl_lxor (2 * p) (Z.b2z b) 8) as X. rewrite !Z.shiftl_mul_pow2 in X by lia. change (2 ^ 8) with 256 in X.
  rewrite X. f_equal; lia.
Qed.
Lemma cfold_remainder l : remainder (Z.shiftl (poly l) 8) (reverse8 (cfold l 0)).
Proof.
  induction l as [|b l IH] using rev_ind.
  - split; [cbn; lia|]. exists 0. cbn. split; [lia|reflexivity].
  - destruct IH as (R & q & Hq & E). rewrite cfold_app. cbn [cfold fold_left]. set (c := cfold l 0) in *.
    assert (Hc : 0 <= c < 256) by (apply cfold_range; lia). fold (cfold l 0). fold c.
    split; [apply reverse8_ok, cstep_range; auto|].
    exists (2 * q + Z.b2z (xorb (Z.odd c) b)). split; [destruct (xorb (Z.odd c) b); cbn [Z.b2z]; lia|].
    rewrite poly_snoc, shift_snoc by apply poly_nonneg. rewrite E, clmul_step by auto.
    pose proof (byte_checked _ _ rem_check Hc) as F. cbv zeta in F. apply andb_prop in F as (F1 & F2). apply Z.eqb_eq in F1, F2.
    rewrite two_lxor. rewrite !Z.lxor_assoc. f_equal. destruct b; [exact F1|exact F2].
Qed.

(** Remainders are unique. *)
Lemma lxor_double q q' (b b' : bool) : 0 <= q -> 0 <= q' ->
  Z.lxor (2 * q + Z.b2z b) (2 * q' + Z.b2z b') = 2 * Z.lxor q q' + Z.b2z (xorb b b').
Proof.
  intros H H'. apply Z.bits_inj'. intros n Hn. rewrite Z.lxor_spec. destruct (Z.eq_dec n 0) as [->|].
  - rewrite !Z.testbit_0_r. reflexivity.
  - replace n with (Z.succ (n - 1)) by lia. rewrite !Z.testbit_succ_r by lia. symmetry. apply Z.lxor_spec.
Qed.
Lemma half_bit q : 0 <= q -> exists h b, q = 2 * h + Z.b2z b /\ 0 <= h /\ (0 < q -> h < q).
Proof.
  intros H. exists (q / 2), (Z.odd q). pose proof (Z.div_mod q 2 ltac:(lia)) as E. rewrite Zmod_odd in E.
  destruct (Z.odd q); cbn [Z.b2z]; repeat split; try lia; try (apply Z.div_pos; lia); intros; apply Z.div_lt; lia.
Qed.
Lemma clmul_lxor g : forall n q q', 0 <= q <= Z.of_nat n -> 0 <= q' -> clmul (Z.lxor q q') g = Z.lxor (clmul q g) (clmul q' g).
Proof.
  induction n as [|n IH]; intros q q' Hq Hq'.
  - assert (q = 0) by lia. subst q. rewrite Z.lxor_0_l. reflexivity.
  - destruct (half_bit q ltac:(lia)) as (h & b & E & Hh & Hlt). destruct (half_bit q' Hq') as (h' & b' & E' & Hh' & _).
    rewrite E, E', lxor_double, !clmul_step by (auto; rewrite ?Z.lxor_nonneg; lia).
    assert (Hn : h <= Z.of_nat n). { destruct (Z.eq_dec q 0); [destruct b; cbn [Z.b2z] in E; lia|]. lia. }
    rewrite IH by lia. rewrite two_lxor. destruct b, b'; cbn [xorb]; apply Z.bits_inj'; intros i Hi; rewrite !Z.lxor_spec, ?Z.bits_0;
      destruct (Z.testbit (2 * clmul h g) i), (Z.testbit (2 * clmul h' g) i), (Z.testbit g i); reflexivity.
Qed.
Lemma lxor_high a b n : 0 <= a -> 0 <= b -> 0 <= n -> 2 ^ n <= a < 2 ^ (n + 1) -> b < 2 ^ n -> 2 ^ n <= Z.lxor a b.
Proof.
  intros Ha Hb Hn (H1 & H2) H3.
  assert (T : Z.testbit (Z.lxor a b) n = true).
  { rewrite Z.lxor_spec. assert (L : Z.log2 a = n) by (apply Z.log2_unique; auto). rewrite <- L at 1. rewrite Z.bit_log2 by (pose proof (Z.pow_pos_nonneg 2 n); lia).
    destruct (Z.eq_dec b 0) as [->|]; [rewrite Z.bits_0; reflexivity|].
    rewrite (Z.bits_above_log2 b n) by (auto; apply Z.log2_lt_pow2; lia). reflexivity. }
  assert (N : 0 <= Z.lxor a b) by (rewrite Z.lxor_nonneg; lia).
  destruct (Z.lt_ge_cases (Z.lxor a b) (2 ^ n)) as [Lt|]; auto.
  exfalso. rewrite <- (Z.mod_small (Z.lxor a b) (2 ^ n)) in T by lia. rewrite Z.mod_pow2_bits_high in T by lia. discriminate.
Qed.
Lemma clmul_pos_size q : exists n, 8 <= n /\ 2 ^ n <= clmul_pos q G < 2 ^ (n + 1).
Proof.
  induction q as [q (n & Hn & H1 & H2)|q (n & Hn & H1 & H2)|]; cbn [clmul_pos].
  - exists (n + 1). split; [lia|].
    assert (E1 : 2 ^ (n + 1) = 2 * 2 ^ n) by (rewrite Z.pow_add_r by lia; lia).
    assert (E2 : 2 ^ (n + 1 + 1) = 2 * 2 ^ (n + 1)) by (rewrite (Z.pow_add_r 2 (n + 1)) by lia; lia).
    assert (E3 : 2 ^ 9 <= 2 ^ (n + 1)) by (apply Z.pow_le_mono_r; lia). change (2 ^ 9) with 512 in E3.
    split.
    + assert (HG : 0 <= G < 512) by (unfold G; lia). apply lxor_high; lia.
    + apply Z.log2_lt_cancel. rewrite Z.log2_pow2 by lia.
      pose proof (Z.log2_lxor (2 * clmul_pos q G) G ltac:(lia) ltac:(unfold G; lia)) as L.
      assert (L1 : Z.log2 (2 * clmul_pos q G) < n + 1 + 1) by (apply Z.log2_lt_pow2; lia).
      assert (L2 : Z.log2 G = 8) by reflexivity. lia.
  - exists (n + 1). split; [lia|].
    assert (E1 : 2 ^ (n + 1) = 2 * 2 ^ n) by (rewrite Z.pow_add_r by lia; lia).
    assert (E2 : 2 ^ (n + 1 + 1) = 2 * 2 ^ (n + 1)) by (rewrite (Z.pow_add_r 2 (n + 1)) by lia; lia). lia.
  - exists 8. split; [lia|]. change (2 ^ 8) with 256. change (2 ^ (8 + 1)) with 512. unfold G. lia.
Qed.
Lemma log2_byte x : 0 <= x < 256 -> Z.log2 x <= 7.
Proof. intros H. transitivity (Z.log2 255); [apply Z.log2_le_mono; lia|reflexivity || (cbn; lia)]. Qed.
Lemma lxor_byte r r' : 0 <= r < 256 -> 0 <= r' < 256 -> 0 <= Z.lxor r r' < 256.
Proof.
  intros H H'. assert (N : 0 <= Z.lxor r r') by (rewrite Z.lxor_nonneg; lia). split; auto.
  destruct (Z.eq_dec (Z.lxor r r') 0) as [->|]; [lia|].
  change 256 with (2 ^ 8). apply Z.log2_lt_pow2; [lia|]. pose proof (Z.log2_lxor r r' ltac:(lia) ltac:(lia)).
  pose proof (log2_byte r H). pose proof (log2_byte r' H'). lia.
Qed.
Lemma remainder_unique m r r' : remainder m r -> remainder m r' -> r = r'.
Proof.
  intros (R & q & Hq & E) (R' & q' & Hq' & E').
  assert (X : clmul (Z.lxor q q') G = Z.lxor r r').
  { rewrite (clmul_lxor G (Z.to_nat q)) by lia.
    assert (Z.lxor (clmul q G) r = Z.lxor (clmul q' G) r') as Y by congruence.
    apply Z.bits_inj'. intros n Hn. assert (Z.testbit (Z.lxor (clmul q G) r) n = Z.testbit (Z.lxor (clmul q' G) r') n) as T by congruence.
    rewrite !Z.lxor_spec in *. destruct (Z.testbit (clmul q G) n), (Z.testbit (clmul q' G) n), (Z.testbit r n), (Z.testbit r' n); cbn in *; congruence. }
  pose proof (lxor_byte r r' R R') as B. destruct (Z.lxor q q') as [|p|p] eqn:Ex.
  - cbn in X. symmetry in X. apply Z.lxor_eq in X. exact X.
  - cbn [clmul] in X. destruct (clmul_pos_size p) as (n & Hn & H1 & _).
    assert (2 ^ 8 <= 2 ^ n) by (apply Z.pow_le_mono_r; lia). change (2 ^ 8) with 256 in *. lia.
  - assert (0 <= Z.lxor q q') by (rewrite Z.lxor_nonneg; lia). lia.
Qed.

(** ** The theorems *)
Lemma gen_crc_fold data n : (n <= length data)%nat -> gen_crc data n = Ok (cfold (bits (firstn n data)) 0).
Proof.
  intros H. unfold gen_crc. rewrite crc_loop_ok by lia. cbn [bind skipn]. f_equal. apply u8_id. apply cfold_range. lia.
Qed.
Lemma checksum_fold d c : checksum d c <-> c = cfold (bits d) 0.
Proof.
  split.
  - intros (Hc & H). pose proof (cfold_remainder (bits d)) as H'. pose proof (remainder_unique _ _ _ H H') as E.
    destruct (reverse8_ok c Hc) as (_ & <-). rewrite E. apply reverse8_ok. apply cfold_range. lia.
  - intros ->. split; [apply cfold_range; lia|]. apply cfold_remainder.
Qed.
Lemma gen_crc_spec data n : (n <= length data)%nat -> exists c, gen_crc data n = Ok c /\ checksum (firstn n data) c.
Proof. intros H. eexists. split; [apply gen_crc_fold; auto|]. apply checksum_fold. reflexivity. Qed.
Lemma checksum_fun d c c' : checksum d c -> checksum d c' -> c = c'.
Proof. rewrite !checksum_fold. congruence. Qed.
Lemma checksum_total d : exists c, checksum d c.
Proof. eexists. apply checksum_fold. reflexivity. Qed.

Lemma bits_xor a : forall b, length a = length b -> bits (xor_bytes a b) = xor_bits (bits a) (bits b).
Proof.
  induction a as [|x a IH]; intros [|y b] H; cbn in H; try discriminate; auto.
  unfold xor_bytes, bits in *. cbn [combine map flat_map fst snd]. rewrite IH by lia.
  unfold xor_bits, bits8. cbn [map app combine fst snd]. rewrite !Z.lxor_spec. reflexivity.
Qed.
Lemma bits_length d : length (bits d) = (8 * length d)%nat.
Proof. induction d as [|b d IH]; auto. unfold bits in *. cbn [flat_map]. rewrite app_length, IH. cbn. lia. Qed.
Lemma checksum_linear a b ca cb : length a = length b -> checksum a ca -> checksum b cb -> checksum (xor_bytes a b) (Z.lxor ca cb).
Proof.
  intros L. rewrite !checksum_fold. intros -> ->. rewrite bits_xor by auto. rewrite <- cfold_lxor by (rewrite !bits_length; lia). reflexivity.
Qed.
Lemma checksum_differs a b ca cb : length a = length b -> checksum a ca -> checksum b cb ->
  (ca = cb <-> cfold (xor_bits (bits a) (bits b)) 0 = 0).
Proof.
  intros L. rewrite !checksum_fold. intros -> ->. 
  replace (cfold (xor_bits (bits a) (bits b)) 0) with (Z.lxor (cfold (bits a) 0) (cfold (bits b) 0)) by (rewrite <- cfold_lxor by (rewrite !bits_length; lia); reflexivity).
  split; [intros ->; apply Z.lxor_nilpotent|apply Z.lxor_eq].
Qed.

(** A packet is valid iff the register is zero after all its bits. *)
Lemma last_check : forallb (fun n => byte_check (fun c => eqb (cfold (bits8 c) (Z.of_nat n) =? 0) (c =? Z.of_nat n))) (seq 0 256) = true.
Proof. byte_dec. Qed.
Lemma valid_fold p : bytes p -> p <> [] -> (valid p <-> cfold (bits p) 0 = 0).
Proof.
  intros B Hp. destruct (exists_last Hp) as (d & c & ->). apply Forall_app in B as (_ & Bc). inversion Bc as [|? ? Hc _]; subst.
  assert (Hr : 0 <= cfold (bits d) 0 < 256) by (apply cfold_range; lia).
  assert (E : cfold (bits (d ++ [c])) 0 = 0 <-> c = cfold (bits d) 0).
  { unfold bits at 1. rewrite flat_map_app, cfold_app. cbn [flat_map]. rewrite app_nil_r. fold (bits d).
    pose proof last_check as X. rewrite forallb_forall in X. specialize (X (Z.to_nat (cfold (bits d) 0)) ltac:(apply in_seq; lia)).
    cbv beta in X. pose proof (byte_checked _ _ X Hc) as Y. cbv beta in Y. rewrite Z2Nat.id in Y by lia. apply eqb_prop in Y.
    destruct (Z.eqb_spec (cfold (bits8 c) (cfold (bits d) 0)) 0), (Z.eqb_spec c (cfold (bits d) 0)); try discriminate; tauto. }
  rewrite E, <- checksum_fold. split.
  - intros (d' & c' & Ed & H). apply app_inj_tail in Ed as (-> & ->). exact H.
  - intros H. exists d, c. auto.
Qed.
Lemma valid_error p p' : bytes p -> bytes p' -> length p = length p' -> valid p ->
  (valid p' <-> cfold (xor_bits (bits p) (bits p')) 0 = 0).
Proof.
  intros B B' L V. assert (p <> []) as N by (destruct V as (d & c & -> & _); destruct d; discriminate).
  assert (p' <> []) as N' by (destruct p'; [destruct p; cbn in *; congruence|discriminate]).
  apply valid_fold in V; auto. rewrite valid_fold by auto.
  replace (cfold (xor_bits (bits p) (bits p')) 0) with (Z.lxor (cfold (bits p) 0) (cfold (bits p') 0)) by (rewrite <- cfold_lxor by (rewrite !bits_length; lia); reflexivity).
  rewrite V, Z.lxor_0_l. tauto.
Qed.
