(** P_Uart.v -- proofs about the UART receiver. *)
From Verif Require Import Base S_Containers M_ShiftReg D_Containers P_Containers S_Line M_Dsp M_Uart D_Uart.

Local Notation BL := 168%nat.
Lemma BL_eq : UART_BUFFER_LEN = BL. Proof. reflexivity. Qed.

Lemma sr_at_nth N (r : shiftreg Z) w i : sr_ok N r w -> (i < N)%nat -> sr_at N r i = Ok (nth i w 0).
Proof.
  intros H Hi. destruct (sr_at_ok N r w i H Hi) as (a & Ha & E). rewrite E. f_equal.
  symmetry. apply nth_error_nth. auto.
Qed.

(** ** The bit loops as folds over symbol lists *)
Fixpoint xp_fold (b : nat) (l : list Z) (x : xt) : xt :=
  match l with [] => x | t :: r => xp_fold (S b) r (xp_step b t x) end.
Fixpoint xn_fold (b : nat) (l : list Z) (x : xt) : xt :=
  match l with [] => x | t :: r => xn_fold (S b) r (xn_step b t x) end.

Lemma xp_loop_fold r w phase : sr_ok BL r w -> (phase < 8)%nat ->
  forall k b x, (b + k = 11)%nat ->
  xp_loop r phase b k x = Ok (xp_fold b (map (fun j => nth (phase + 16 * j) w 0) (seq b k)) x).
Proof.
  intros H Hp. induction k as [|k IH]; intros b x Hb; cbn [xp_loop seq map xp_fold]; auto.
  rewrite BL_eq, (sr_at_nth BL r w) by (auto; unfold UART_OVERSAMPLING_RATE; lia).
  cbn [bind]. rewrite IH by lia. unfold UART_OVERSAMPLING_RATE.
  rewrite (Nat.mul_comm b 16). reflexivity.
Qed.

Lemma xn_loop_fold r w phase : sr_ok BL r w -> (phase < 8)%nat ->
  forall k b x, (b + k = 10)%nat ->
  xn_loop r phase b k x = Ok (xn_fold b (map (fun j => nth (phase + 16 * S j) w 0) (seq b k)) x).
Proof.
  intros H Hp. induction k as [|k IH]; intros b x Hb; cbn [xn_loop seq map xn_fold]; auto.
  rewrite BL_eq, (sr_at_nth BL r w) by (auto; unfold UART_OVERSAMPLING_RATE; lia).
  cbn [bind]. rewrite IH by lia. unfold UART_OVERSAMPLING_RATE.
  rewrite Nat.add_1_r, (Nat.mul_comm (S b) 16). reflexivity.
Qed.

(** ** Projections of the fold *)
Fixpoint alt_fromF (last : Z) (l : list Z) : bool :=
  match l with
  | [] => true
  | t :: r => if t =? 0 then alt_fromF last r else negb (same_sign last t) && alt_fromF t r
  end.

Definition stop_bad (b : nat) (l : list Z) : bool :=
  if (b <=? 10)%nat then nonzero (nth (10 - b) l 0) else false.

Lemma xp_step_last b t x : x_last (xp_step b t x) = if t =? 0 then x_last x else t.
Proof.
  unfold xp_step. destruct ((1 <=? b)%nat && (b <=? 8)%nat), (b =? 9)%nat, (b =? 10)%nat, (t =? 0); reflexivity.
Qed.
Lemma xp_step_prob b t x : x_prob (xp_step b t x) = u32 (x_prob x + Z.abs t).
Proof.
  unfold xp_step. destruct ((1 <=? b)%nat && (b <=? 8)%nat), (b =? 9)%nat, (b =? 10)%nat, (t =? 0); reflexivity.
Qed.
Lemma xp_step_par b t x : (1 <= b)%nat ->
  x_par (xp_step b t x) = if (t =? 0) && (b <=? 9)%nat then u8 (x_par x + 1) else x_par x.
Proof.
  intros H. unfold xp_step. destruct (Nat.leb_spec 1 b); [|lia].
  destruct (Nat.leb_spec b 8), (Nat.eqb_spec b 9), (Nat.eqb_spec b 10), (Nat.leb_spec b 9), (t =? 0);
    cbn; auto; lia.
Qed.
Lemma xp_step_err b t x :
  x_err (xp_step b t x) =
  x_err x || ((b =? 10)%nat && nonzero t) || (nonzero t && same_sign (x_last x) t).
Proof.
  unfold xp_step, nonzero.
  destruct (Nat.leb_spec 1 b), (Nat.leb_spec b 8), (Nat.eqb_spec b 9), (Nat.eqb_spec b 10); cbn [andb]; try lia;
  destruct (t =? 0), (same_sign (x_last x) t), (x_err x); reflexivity.
Qed.
Lemma xp_step_out b t x : (1 <= b)%nat ->
  x_out (xp_step b t x) =
  if (t =? 0) && (b <=? 8)%nat then Z.lor (x_out x) (2 ^ (Z.of_nat b - 1)) else x_out x.
Proof.
  intros H. unfold xp_step. destruct (Nat.leb_spec 1 b); [|lia].
  destruct (Nat.leb_spec b 8).
  - cbn [andb]. destruct (t =? 0); cbn [andb]; auto. cbn [x_out].
    rewrite Z.shiftl_1_l, u8_id; auto. split; [apply Z.pow_nonneg; lia|].
    apply Z.lt_le_trans with (2 ^ 8); [apply Z.pow_lt_mono_r; lia|reflexivity].
  - cbn [andb]. destruct (Nat.eqb_spec b 9), (Nat.eqb_spec b 10), (t =? 0); cbn [andb]; auto; lia.
Qed.

Lemma nonzero_spec t : nonzero t = negb (t =? 0). Proof. reflexivity. Qed.

Lemma xp_fold_err l : forall b x, (1 <= b)%nat -> (b + length l <= 11)%nat ->
  x_err (xp_fold b l x) = x_err x || stop_bad b l || negb (alt_fromF (x_last x) l).
Proof.
  induction l as [|t r IH]; intros b x Hb Hl; cbn [xp_fold alt_fromF length] in *.
  - unfold stop_bad. destruct (Nat.leb_spec b 10); [|destruct (x_err x); reflexivity].
    destruct (10 - b)%nat; destruct (x_err x); reflexivity.
  - rewrite IH by lia. rewrite xp_step_err, xp_step_last. unfold stop_bad, nonzero.
    destruct (Nat.leb_spec b 10), (Nat.leb_spec (S b) 10); try lia.
    + replace (10 - b)%nat with (S (10 - S b)) by lia. cbn [nth].
      destruct (Nat.eqb_spec b 10); [lia|]. cbn [andb orb].
      destruct (t =? 0); cbn [negb andb orb]; rewrite ?orb_false_r; auto.
      destruct (x_err x), (same_sign (x_last x) t), (nth (10 - S b) r 0 =? 0), (alt_fromF t r); reflexivity.
    + assert (b = 10)%nat by lia. subst b. cbn [Nat.sub nth]. rewrite Nat.eqb_refl. cbn [andb].
      destruct (t =? 0); cbn [negb andb orb]; rewrite ?orb_false_r; auto.
      destruct (x_err x), (same_sign (x_last x) t), (alt_fromF t r); reflexivity.
Qed.

Lemma xp_fold_par l : forall b x, (1 <= b)%nat -> (b + length l <= 11)%nat ->
  0 <= x_par x -> x_par x + Z.of_nat (length l) < 256 ->
  x_par (xp_fold b l x) = x_par x + Z.of_nat (ones (firstn (10 - b) l)).
Proof.
  induction l as [|t r IH]; intros b x Hb Hl H0 H1; cbn [xp_fold length] in *.
  - rewrite firstn_nil. cbn. lia.
  - rewrite Nat2Z.inj_succ in H1.
    pose proof (xp_step_par b t x Hb) as E.
    rewrite IH; try lia.
    2:{ rewrite E. destruct (_ && _); [|lia]. rewrite u8_id; lia. }
    2:{ rewrite E. destruct (_ && _); [|lia]. rewrite u8_id; lia. }
    rewrite E. destruct (Nat.leb_spec b 9).
    + replace (10 - b)%nat with (S (10 - S b)) by lia. cbn [firstn]. unfold ones. cbn [filter].
      destruct (t =? 0); cbn [andb length]; [rewrite u8_id by lia; lia|lia].
    + replace (10 - b)%nat with 0%nat by lia. replace (10 - S b)%nat with 0%nat by lia. cbn [firstn].
      destruct (t =? 0); cbn; lia.
Qed.

Definition abs_sum (l : list Z) : Z := fold_right (fun t a => Z.abs t + a) 0 l.

Lemma abs_sum_nonneg l : 0 <= abs_sum l.
Proof. induction l; cbn; [lia|]. fold (abs_sum l). lia. Qed.

Lemma xp_fold_prob l : forall b x, 0 <= x_prob x -> x_prob x + abs_sum l < 4294967296 ->
  x_prob (xp_fold b l x) = x_prob x + abs_sum l.
Proof.
  induction l as [|t r IH]; intros b x H0 H1; cbn [xp_fold abs_sum fold_right] in *.
  - lia.
  - fold (abs_sum r) in *. pose proof (abs_sum_nonneg r).
    assert (E : x_prob (xp_step b t x) = x_prob x + Z.abs t) by (rewrite xp_step_prob, u32_id; lia).
    rewrite IH; rewrite E; lia.
Qed.

Lemma xp_fold_out l : forall b x i, (1 <= b)%nat -> (b + length l <= 11)%nat -> 0 <= i ->
  Z.testbit (x_out (xp_fold b l x)) i =
  Z.testbit (x_out x) i ||
  ((Z.of_nat b - 1 <=? i) && (i <=? 7) && (i - (Z.of_nat b - 1) <? Z.of_nat (length l))
   && (nth (Z.to_nat (i - (Z.of_nat b - 1))) l 1 =? 0)).
Proof.
  induction l as [|t r IH]; intros b x i Hb Hl Hi; cbn [xp_fold length] in *.
  - destruct (Z.leb_spec (Z.of_nat b - 1) i), (Z.ltb_spec (i - (Z.of_nat b - 1)) (Z.of_nat 0)); cbn [andb];
    rewrite ?orb_false_r, ?andb_false_r, ?orb_false_r; auto. lia.
  - rewrite IH by lia. rewrite xp_step_out by lia. rewrite Nat2Z.inj_succ.
    assert (Hbit : Z.testbit (if (t =? 0) && (b <=? 8)%nat then Z.lor (x_out x) (2 ^ (Z.of_nat b - 1)) else x_out x) i
             = Z.testbit (x_out x) i || ((t =? 0) && (b <=? 8)%nat && (i =? Z.of_nat b - 1))).
    { destruct ((t =? 0) && (b <=? 8)%nat); cbn [andb]; [|rewrite orb_false_r; auto].
      rewrite Z.lor_spec. f_equal. rewrite Z.pow2_bits_eqb by lia. apply Z.eqb_sym. }
    rewrite Hbit. rewrite <- orb_assoc. f_equal.
    destruct (Z.eqb_spec i (Z.of_nat b - 1)) as [E|E].
    + subst i. replace (Z.of_nat b - 1 - (Z.of_nat b - 1)) with 0 by lia. cbn [Z.to_nat nth].
      destruct (Z.leb_spec (Z.succ (Z.of_nat b) - 1) (Z.of_nat b - 1)); [lia|]. cbn [andb].
      rewrite orb_false_r, andb_true_r, Z.leb_refl. cbn [andb].
      destruct (Z.ltb_spec 0 (Z.of_nat (S (length r)))); [|lia].
      destruct (Nat.leb_spec b 8), (Z.leb_spec (Z.of_nat b - 1) 7); try lia; destruct (t =? 0); reflexivity.
    + rewrite andb_false_r. cbn [orb].
      destruct (Z.leb_spec (Z.succ (Z.of_nat b) - 1) i), (Z.leb_spec (Z.of_nat b - 1) i); cbn [andb]; auto; try lia.
      replace (Z.to_nat (i - (Z.of_nat b - 1))) with (S (Z.to_nat (i - (Z.succ (Z.of_nat b) - 1)))) by lia.
      cbn [nth].
      destruct (i <=? 7); cbn [andb]; auto.
      destruct (Z.ltb_spec (i - (Z.succ (Z.of_nat b) - 1)) (Z.of_nat (length r))),
        (Z.ltb_spec (i - (Z.of_nat b - 1)) (Z.of_nat (S (length r)))); cbn [andb]; auto; lia.
Qed.

Lemma lor_lt_256 a b : 0 <= a < 256 -> 0 <= b < 256 -> 0 <= Z.lor a b < 256.
Proof.
  intros Ha Hb. assert (Hn : 0 <= Z.lor a b) by (apply Z.lor_nonneg; lia). split; auto.
  destruct (Z.eq_dec (Z.lor a b) 0) as [->|Hne]; [lia|].
  apply (Z.log2_lt_pow2 (Z.lor a b) 8); [lia|]. rewrite Z.log2_lor by lia.
  assert (Z.log2 a < 8) by (destruct (Z.eq_dec a 0) as [->|]; [cbn; lia|apply Z.log2_lt_pow2; lia]).
  assert (Z.log2 b < 8) by (destruct (Z.eq_dec b 0) as [->|]; [cbn; lia|apply Z.log2_lt_pow2; lia]).
  lia.
Qed.

Lemma xp_fold_out_range l : forall b x, (1 <= b)%nat -> 0 <= x_out x < 256 -> 0 <= x_out (xp_fold b l x) < 256.
Proof.
  induction l as [|t r IH]; intros b x Hb Hx; cbn [xp_fold]; auto.
  apply IH; [lia|]. rewrite xp_step_out by lia.
  destruct (t =? 0); cbn [andb]; auto. destruct (Nat.leb_spec b 8); auto.
  apply lor_lt_256; auto. split; [apply Z.pow_nonneg; lia|].
  apply Z.lt_le_trans with (2 ^ 8); [apply Z.pow_lt_mono_r; lia|reflexivity].
Qed.

(** ** From alternation as computed to alternation as specified *)
Lemma same_sign_spec a b : a <> 0 -> b <> 0 -> (same_sign a b = false <-> a * b < 0).
Proof.
  intros Ha Hb. unfold same_sign.
  destruct (Z.ltb_spec 0 a), (Z.ltb_spec 0 b), (Z.ltb_spec a 0), (Z.ltb_spec b 0); cbn; try lia;
  split; intros; try discriminate; auto; nia.
Qed.

Lemma alt_from_spec l : forall last, last <> 0 ->
  (alt_fromF last l = true <-> alternating (last :: filter nonzero l)).
Proof.
  induction l as [|t r IH]; intros last Hl; cbn [alt_fromF filter].
  - cbn. tauto.
  - unfold nonzero at 1. destruct (Z.eqb_spec t 0) as [->|Ht]; cbn [negb]; auto.
    change (alternating (last :: t :: filter nonzero r)) with
      (last * t < 0 /\ alternating (t :: filter nonzero r)).
    rewrite <- IH by auto. rewrite andb_true_iff, negb_true_iff, same_sign_spec by auto. tauto.
Qed.

(** ** One phase *)
Definition s16_window (w : list Z) : Prop := Forall (fun x => -32768 <= x <= 32767) w.

Lemma s16_nth w i : s16_window w -> -32768 <= nth i w 0 <= 32767.
Proof.
  intros H. destruct (Nat.lt_ge_cases i (length w)).
  - assert (In (nth i w 0) w) by (apply nth_In; auto). unfold s16_window in H; rewrite Forall_forall in H; apply (H _ H1).
  - rewrite nth_overflow by lia. lia.
Qed.

Lemma abs_sum_bound l : Forall (fun x => -32768 <= x <= 32767) l -> abs_sum l <= 32768 * Z.of_nat (length l).
Proof.
  intros H; induction H as [|x t Hx Ht IH]; [cbn; lia|].
  cbn [abs_sum fold_right length]. fold (abs_sum t). rewrite Nat2Z.inj_succ. lia.
Qed.

Definition even_parity (p : uart_parity) : bool := match p with PARITY_EVEN => true | _ => false end.

Lemma symbols_cons w ph : symbols w ph = nth ph w 0 :: map (fun j => nth (ph + 16 * j) w 0) (seq 1 10).
Proof. unfold symbols. cbn [seq map]. rewrite Nat.mul_0_r, Nat.add_0_r. reflexivity. Qed.

(** Result of examining one phase in even-parity mode. *)
Lemma try_phase_even u w ph :
  ua_parity u = PARITY_EVEN -> sr_ok BL (ua_reg u) w -> s16_window w -> (ph < 8)%nat ->
  exists o e, try_phase u ph = Ok (strength w ph, o, e) /\
    (nth ph w 0 <> 0 -> (e = false -> frame_ok (symbols w ph) o) /\
                        (forall d, frame_ok (symbols w ph) d -> e = false /\ o = d)) /\
    (nth ph w 0 = 0 -> e = true).
Proof.
  intros Hp Hr Hs Hph. unfold try_phase. rewrite Hp. unfold extract_data_and_parity, strength.
  rewrite BL_eq, (sr_at_nth BL _ w) by (auto; lia). rewrite Nat.mul_0_l, Nat.add_0_r. cbn [bind].
  set (s0 := nth ph w 0). destruct (Z.eqb_spec s0 0) as [E0|E0].
  { cbn [bind x_prob x_out x_err x_par]. eexists _, _. split; [reflexivity|]. split; [congruence|]. reflexivity. }
  rewrite (xp_loop_fold (ua_reg u) w ph Hr Hph) by (cbn; lia). cbn [bind].
  change (UART_BITS_PARITY - 1)%nat with 10%nat.
  set (l := map (fun j => nth (ph + 16 * j) w 0) (seq 1 10)).
  assert (Ll : length l = 10%nat) by (unfold l; rewrite map_length, seq_length; auto).
  set (x := {| x_last := s0; x_prob := Z.abs s0; x_out := 0; x_par := 0; x_err := false |}).
  assert (Hl16 : Forall (fun x => -32768 <= x <= 32767) l).
  { unfold l. apply Forall_forall. intros y Hy. apply in_map_iff in Hy as (j & <- & _). apply s16_nth; auto. }
  pose proof (abs_sum_bound l Hl16) as Hb. rewrite Ll in Hb. pose proof (s16_nth w ph Hs) as H0. fold s0 in H0.
  assert (Esym : symbols w ph = s0 :: l) by apply symbols_cons.
  eexists _, _. split.
  { rewrite xp_fold_prob by (cbn [x x_prob]; lia). cbn [x x_prob].
    rewrite Esym. cbn [fold_right]. fold (abs_sum l). reflexivity. }
  split; [|congruence]. intros _.
  assert (Epar : x_par (xp_fold 1 l x) = Z.of_nat (ones (firstn 9 l))).
  { rewrite xp_fold_par; cbn [x x_par]; try lia. reflexivity. }
  assert (Hodd : Z.odd (x_par (xp_fold 1 l x)) = negb (Nat.even (ones (firstn 9 l)))).
  { rewrite Epar. generalize (ones (firstn 9 l)). intros n.
    rewrite Nat.negb_even. induction n as [|n IH]; auto.
    rewrite Nat2Z.inj_succ, Z.odd_succ, <- Z.negb_odd, IH, Nat.odd_succ, <- Nat.negb_odd. reflexivity. }
  assert (Eerr : x_err (xp_fold 1 l x) = nonzero (nth 9 l 0) || negb (alt_fromF s0 l)).
  { rewrite xp_fold_err by lia. cbn [x x_err x_last orb]. reflexivity. }
  assert (Ebit : forall i, (i < 8)%nat -> Z.testbit (x_out (xp_fold 1 l x)) (Z.of_nat i) = (nth i l 1 =? 0)).
  { intros i Hi. rewrite xp_fold_out by lia. cbn [x x_out]. rewrite Z.testbit_0_l. cbn [orb].
    rewrite Ll. change (Z.of_nat 1 - 1) with 0. rewrite Z.sub_0_r, Nat2Z.id.
    destruct (Z.leb_spec 0 (Z.of_nat i)), (Z.leb_spec (Z.of_nat i) 7), (Z.ltb_spec (Z.of_nat i) (Z.of_nat 10)); try lia; reflexivity. }
  assert (Hnth : forall i, (i < 8)%nat -> nth i l 1 = nth i l 0).
  { intros i Hi. apply nth_indep. lia. }
  pose proof (xp_fold_out_range l 1 x ltac:(lia) ltac:(cbn; lia)) as Hrange.
  rewrite Hodd, Eerr.
  assert (Halt : alt_fromF s0 l = true <-> alternating (filter nonzero (s0 :: l))).
  { rewrite alt_from_spec by auto. cbn [filter]. unfold nonzero at 2.
    destruct (Z.eqb_spec s0 0); [congruence|]. reflexivity. }
  rewrite Esym. split.
  - intros He. destruct (Nat.even (ones (firstn 9 l))) eqn:Ev; cbn [negb] in He; [|discriminate].
    apply orb_false_iff in He as [He1 He2]. apply negb_false_iff in He2.
    constructor; [cbn [length]; lia|exact Hrange|exact E0| |exact Ev| |].
    + intros i Hi. cbn [nth]. rewrite Ebit, Hnth by auto. apply Z.eqb_eq.
    + cbn [nth]. unfold nonzero in He1. destruct (Z.eqb_spec (nth 9 l 0) 0); auto; discriminate.
    + apply Halt; auto.
  - intros d [Fl Fb Fs Fd Fp Ft Fa]. cbn [skipn] in Fp. rewrite Fp. cbn [negb nth] in *.
    rewrite Ft. apply Halt in Fa. rewrite Fa. split; auto.
    apply Z.bits_inj'. intros n Hn. destruct (Z.lt_ge_cases n 8).
    + rewrite <- (Z2Nat.id n) by lia. rewrite Ebit, Hnth by lia.
      specialize (Fd (Z.to_nat n) ltac:(lia)).
      destruct (Z.eqb_spec (nth (Z.to_nat n) l 0) 0) as [E|E].
      * symmetry. apply Fd; auto.
      * destruct (Z.testbit d (Z.of_nat (Z.to_nat n))) eqn:Et; auto. exfalso. apply E, Fd; auto.
    + rewrite !Z.bits_above_log2; auto; try lia.
      * destruct (Z.eq_dec d 0) as [->|]; [cbn; lia|]. apply Z.lt_le_trans with 8; auto. apply Z.log2_lt_pow2; lia.
      * destruct (Z.eq_dec (x_out (xp_fold 1 l x)) 0) as [E|]; [rewrite E; cbn; lia|].
        apply Z.lt_le_trans with 8; auto. apply Z.log2_lt_pow2; lia.
Qed.

(** ** All phases *)
Lemma strength_nonneg w ph : 0 <= strength w ph.
Proof. unfold strength. destruct (_ =? _); [lia|]. apply (abs_sum_nonneg (symbols w ph)). Qed.

Lemma strength_pos_start w ph : 0 < strength w ph <-> nth ph w 0 <> 0.
Proof.
  unfold strength. destruct (Z.eqb_spec (nth ph w 0) 0) as [E|E]; [split; [lia|congruence]|].
  rewrite symbols_cons. cbn [fold_right].
  pose proof (abs_sum_nonneg (map (fun j => nth (ph + 16 * j) w 0) (seq 1 10))) as H. unfold abs_sum in H.
  split; auto. intros _. lia.
Qed.

(** What the phase loop has found before phase [ph]. *)
Definition found (w : list Z) (n : nat) (best o : Z) (e : bool) : Prop :=
  0 <= best /\ (forall p, (p < n)%nat -> strength w p <= best) /\
  (0 < best -> exists p, (p < n)%nat /\ strength w p = best /\
     (forall q, (q < p)%nat -> strength w q < best) /\
     (e = false -> frame_ok (symbols w p) o) /\
     (forall d, frame_ok (symbols w p) d -> e = false /\ o = d)).

Lemma fbp_loop_even u w :
  ua_parity u = PARITY_EVEN -> sr_ok BL (ua_reg u) w -> s16_window w ->
  forall k n best o e, (n + k = 8)%nat -> found w n best o e ->
  exists best' o' e', fbp_loop u n k best o e = Ok (best', o', e') /\ found w 8 best' o' e'.
Proof.
  intros Hp Hr Hs. induction k as [|k IH]; intros n best o e Hn Hf; cbn [fbp_loop].
  - replace n with 8%nat in Hf by lia. eauto 6.
  - destruct (try_phase_even u w n Hp Hr Hs ltac:(lia)) as (o1 & e1 & E & H1 & H0). rewrite E; cbn [bind].
    destruct Hf as (F0 & F1 & F2).
    destruct (Z.ltb_spec best (strength w n)).
    + apply IH; [lia|]. split; [lia|]. split.
      * intros p Hpn. destruct (Nat.eq_dec p n) as [->|]; [lia|]. specialize (F1 p ltac:(lia)). lia.
      * intros Hpos. exists n. split; [lia|]. split; auto. split.
        -- intros q Hq. specialize (F1 q Hq). lia.
        -- apply H1. apply strength_pos_start; auto.
    + apply IH; [lia|]. split; [lia|]. split.
      * intros p Hpn. destruct (Nat.eq_dec p n) as [->|]; [lia|]. apply F1; lia.
      * intros Hpos. destruct (F2 Hpos) as (p & P1 & P2). exists p. split; [lia|]. exact P2.
Qed.

Lemma find_best_phase_even u w o0 e0 :
  ua_parity u = PARITY_EVEN -> sr_ok BL (ua_reg u) w -> s16_window w ->
  exists o e, find_best_phase u o0 e0 = Ok (o, e) /\
    (e = false -> exists p, dominant w p /\ frame_ok (symbols w p) o) /\
    (forall p, dominant w p -> (forall d, frame_ok (symbols w p) d -> e = false /\ o = d)) /\
    ((forall p, (p < 8)%nat -> nth p w 0 = 0) -> e = true /\ o = o0).
Proof.
  intros Hp Hr Hs. unfold find_best_phase.
  change (UART_OVERSAMPLING_RATE / 2)%nat with 8%nat.
  assert (Hf : found w 0 0 o0 e0).
  { split; [lia|]. split; [intros; lia|]. lia. }
  destruct (fbp_loop_even u w Hp Hr Hs 8 0%nat 0 o0 e0 eq_refl Hf) as (best & o & e & E & F0 & F1 & F2).
  rewrite E; cbn [bind]. eexists _, _. split; [reflexivity|].
  split; [|split].
  - intros He. destruct (Z.eqb_spec best 0); [discriminate|].
    destruct (F2 ltac:(lia)) as (p & P1 & P2 & P3 & P4 & P5). exists p. split; auto.
    split; [lia|]. split; [lia|]. split.
    + intros q Hq. rewrite P2. auto.
    + intros q Hq. rewrite P2. apply F1. lia.
  - intros p (D1 & D2 & D3 & D4) d Hd.
    assert (0 < best) by (specialize (F1 p D1); lia).
    destruct (Z.eqb_spec best 0); [lia|].
    destruct (F2 ltac:(lia)) as (q & P1 & P2 & P3 & P4 & P5).
    assert (p = q).
    { destruct (Nat.lt_trichotomy p q) as [L|[L|L]]; auto.
      - specialize (P3 p L). specialize (D4 q ltac:(lia)). lia.
      - specialize (D3 q L). specialize (F1 p D1). lia. }
    subst q. apply P5; auto.
  - intros Hz. assert (Hz' : forall p, (p < 8)%nat -> strength w p = 0).
    { intros p Hp'. unfold strength. rewrite (Hz p Hp'). reflexivity. }
    assert (Hb0 : best = 0).
    { destruct (Z.eq_dec best 0); auto. destruct (F2 ltac:(lia)) as (q & P1 & P2 & _). rewrite Hz' in P2; lia. }
    subst best. rewrite Z.eqb_refl. split; auto.
    clear F0 F1 F2 Hf. revert E.
    assert (Hgen : forall k n o1 e1 b o2 e2, (n + k = 8)%nat -> fbp_loop u n k 0 o1 e1 = Ok (b, o2, e2) -> o2 = o1).
    { induction k as [|k IH]; intros n o1 e1 b o2 e2 Hn Ek; cbn [fbp_loop] in Ek.
      - inversion Ek; auto.
      - destruct (try_phase_even u w n Hp Hr Hs ltac:(lia)) as (o3 & e3 & E3 & _). rewrite E3 in Ek; cbn [bind] in Ek.
        rewrite Hz' in Ek by lia. cbn [Z.ltb Z.compare] in Ek. eapply IH in Ek; eauto; lia. }
    intros E. eapply Hgen in E; eauto; lia.
Qed.
