(** P_DspAux.v -- proofs about LineBusy, UARTEdge and the reference bit detector. *)
From Verif Require Import Base S_Containers M_ShiftReg M_Fifo D_Containers P_Containers S_Dsp M_Dsp M_BitRef P_Dsp P_Uart.

(** ** LineBusy *)
Definition beyond (level x : Z) : bool := (level <? x) || (x <? - level).
Lemma lb_count_ok N b w : sr_ok N (lb_reg b) w -> - 2147483648 < lb_level b <= 2147483647 ->
  forall k i cnt, (i + k = N)%nat ->
  lb_count N b i k cnt = Ok (cnt + length (filter (beyond (lb_level b)) (skipn i w)))%nat.
Proof.
  intros H Hl. pose proof H as (_ & Lw & _). induction k as [|k IH]; intros i cnt Hik; cbn [lb_count].
  - rewrite skipn_all2 by lia. cbn. rewrite Nat.add_0_r. reflexivity.
  - rewrite (sr_at_nth N _ w) by (auto; lia). cbn [bind]. rewrite chk32_ok by lia. cbn [bind]. rewrite IH by lia.
    rewrite (skipn_nth_cons w i (nth i w 0)) by (apply nth_error_nth'; lia). cbn [filter].
    unfold beyond at 2. destruct (_ || _); cbn [length]; f_equal; lia.
Qed.
Lemma lb_run N xs : forall b h, (1 <= N)%nat -> sr_ok N (lb_reg b) (lastn N (repeat 0 N ++ h)) ->
  exists b', mfold (lb_update N) b xs = Ok b' /\ lb_level b' = lb_level b /\ sr_ok N (lb_reg b') (lastn N (repeat 0 N ++ h ++ xs)).
Proof.
  induction xs as [|x t IH]; intros b h HN H; cbn [mfold].
  - rewrite app_nil_r. eauto.
  - unfold lb_update at 1. destruct (sr_update_null_ok N (lb_reg b) _ x H) as (r & E & Hr). rewrite E. cbn [bind].
    rewrite shift_window in Hr by (try apply repeat_length; lia).
    destruct (IH (LB r (lb_level b)) (h ++ [x]) HN Hr) as (b' & E' & L' & R'). exists b'. split; auto. split; auto.
    rewrite <- app_assoc in R'. exact R'.
Qed.
Lemma linebusy_spec N level xs : (1 <= N)%nat -> - 2147483648 < level <= 2147483647 ->
  exists b r, mfold (lb_update N) (lb_new N level) xs = Ok b /\ lb_busy N b = Ok r /\
    (r = true <-> (N / 8 < length (filter (beyond level) (lastn N (repeat 0%Z N ++ xs))) <= N * 5 / 8)%nat).
Proof.
  intros HN Hl. destruct (lb_run N xs (lb_new N level) []) as (b & E & L & R); auto.
  { rewrite app_nil_r. unfold lastn. rewrite repeat_length, Nat.sub_diag. apply (sr_new_ok N 0); auto. }
  cbn [app] in R. cbn [lb_new lb_level] in L. exists b. eexists. split; auto. unfold lb_busy.
  rewrite (lb_count_ok N b _ R) by (rewrite ?L; auto). cbn [bind skipn]. rewrite L. split; [reflexivity|].
  rewrite andb_true_iff, Nat.ltb_lt, Nat.leb_le. cbn [Nat.add]. tauto.
Qed.

(** ** UARTEdge *)
Lemma ed_run_spec xs : forall e n, ed_counter e = n mod 256 -> 0 <= n ->
  let e' := fold_left ed_update xs e in
  ed_counter e' = (n + Z.of_nat (length xs)) mod 256 /\
  ((e' = EDGE (ed_phase e) (ed_max e) (ed_counter e') /\ Forall (fun x => x <= ed_max e) xs) \/
   exists i m, nth_error xs i = Some m /\ ed_max e < m /\ ed_max e' = m /\ Forall (fun x => x <= m) xs /\ Forall (fun x => x < m) (firstn i xs) /\
     ed_phase e' = (n + Z.of_nat i) mod 256).
Proof.
  induction xs as [|x t IH]; intros e n Hc Hn; cbn [fold_left length].
  - cbn zeta. rewrite Z.add_0_r. split; auto. left. split; [destruct e; reflexivity|constructor].
  - set (e1 := ed_update e x).
    assert (C1 : ed_counter e1 = (n + 1) mod 256).
    { unfold e1, ed_update. rewrite Hc. unfold u8. rewrite Z.add_mod_idemp_l by lia. destruct (_ <? _); reflexivity. }
    destruct (IH e1 (n + 1) C1 ltac:(lia)) as (C2 & D). cbn zeta. rewrite Nat2Z.inj_succ.
    split; [rewrite C2; f_equal; lia|].
    assert (E1 : (ed_max e < x /\ ed_phase e1 = n mod 256 /\ ed_max e1 = x) \/ (x <= ed_max e /\ ed_phase e1 = ed_phase e /\ ed_max e1 = ed_max e)).
    { unfold e1, ed_update. destruct (Z.ltb_spec (ed_max e) x); cbn [ed_phase ed_max]; auto. }
    destruct D as [(D1 & D2)|(i & m & D1 & D2 & D3 & D4 & D5 & D6)].
    + destruct E1 as [(A & B & C)|(A & B & C)]; rewrite C in *.
      * right. exists 0%nat, x. rewrite D1. cbn [nth_error firstn ed_max ed_phase]. rewrite B, Z.add_0_r. repeat split; auto. constructor; auto; lia.
      * left. split; [rewrite D1 at 1; rewrite B; reflexivity|]. constructor; auto.
    + right. exists (S i), m. cbn [nth_error firstn]. rewrite D3, D6. split; auto. split; [destruct E1 as [(A & _ & C)|(A & _ & C)]; lia|]. split; auto.
      split; [constructor; auto; destruct E1 as [(A & _ & C)|(A & _ & C)]; lia|]. split; [constructor; auto; destruct E1 as [(A & _ & C)|(A & _ & C)]; lia|].
      f_equal. lia.
Qed.
Lemma edge_phase xs :
  (Forall (fun x => x <= 0) xs /\ ed_phase (fold_left ed_update xs ed_new) = 0) \/
  (exists i m, nth_error xs i = Some m /\ 0 < m /\ Forall (fun x => x <= m) xs /\ Forall (fun x => x < m) (firstn i xs) /\
     ed_phase (fold_left ed_update xs ed_new) = Z.of_nat i mod 256).
Proof.
  destruct (ed_run_spec xs ed_new 0 eq_refl ltac:(lia)) as (_ & [(A & B)|(i & m & A & B & _ & C & D & E)]).
  - left. split; auto. rewrite A. reflexivity.
  - right. exists i, m. auto.
Qed.

(** ** Reference detector *)
Definition ref_spec (h : list Z) : Z * Z :=
  let w := lastn 16 (repeat 0 16 ++ h) in (mf_high w - mf_abs w, - mf_high w - mf_abs w).
Definition rb_inv (h : list Z) (b : refbit) : Prop :=
  bounded 2340 h /\ sr_ok 16 (rb_reg b) (lastn 16 (repeat 0 16 ++ h)) /\
  sr_ok 16 (rb_regabs b) (map Z.abs (lastn 16 (repeat 0 16 ++ h))) /\
  sr_ok 16 (rb_abs b) ref_abs /\ sr_ok 16 (rb_high b) ref_high /\ sr_ok 16 (rb_low b) ref_low.
Lemma rb_new_inv : exists b, rb_new = Ok b /\ rb_inv [] b.
Proof.
  unfold rb_new.
  destruct (sr_new_init_ok 16 (repeat 0 32) ref_abs ltac:(lia) ltac:(cbn; lia) eq_refl) as (a & Ea & Ha). rewrite Ea; cbn [bind].
  destruct (sr_new_init_ok 16 (repeat 0 32) ref_high ltac:(lia) ltac:(cbn; lia) eq_refl) as (h & Eh & Hh). rewrite Eh; cbn [bind].
  destruct (sr_new_init_ok 16 (repeat 0 32) ref_low ltac:(lia) ltac:(cbn; lia) eq_refl) as (l & El & Hl). rewrite El; cbn [bind].
  eexists. split; [reflexivity|]. unfold rb_inv. cbn [rb_reg rb_regabs rb_abs rb_high rb_low].
  rewrite app_nil_r. split; [constructor|]. split; [apply (sr_new_ok 16 0); lia|]. split; [apply (sr_new_ok 16 0); lia|]. auto.
Qed.
Lemma dot_fits_small wa wb : forall acc, Forall (fun x => -2340 <= x <= 2340) wa -> Forall (fun c => -1 <= c <= 1) wb ->
  Z.abs acc + 2340 * Z.of_nat (length wa) <= 1000000 -> dot_fits acc wa wb = true.
Proof.
  revert wb. induction wa as [|x t IH]; intros wb acc Ha Hb Hs; [reflexivity|]. destruct wb as [|y u]; [reflexivity|].
  inversion Ha; inversion Hb; subst. cbn [dot_fits]. cbn [length] in Hs. rewrite Nat2Z.inj_succ in Hs.
  assert (Hxy : -2340 <= x * y <= 2340) by nia. rewrite IH by (auto; lia). unfold in_i32.
  destruct (Z.leb_spec (-2147483648) (x * y)), (Z.leb_spec (x * y) 2147483647), (Z.leb_spec (-2147483648) (acc + x * y)), (Z.leb_spec (acc + x * y) 2147483647); try lia; reflexivity.
Qed.
Lemma list16 (w : list Z) : length w = 16%nat -> exists x0 x1 x2 x3 x4 x5 x6 x7 x8 x9 x10 x11 x12 x13 x14 x15,
     w = [x0;x1;x2;x3;x4;x5;x6;x7;x8;x9;x10;x11;x12;x13;x14;x15].
Proof. intros H. do 16 (destruct w as [|? w]; [discriminate|]). destruct w; [|discriminate]. repeat eexists. Qed.
Lemma dot_tables w : length w = 16%nat ->
  dot w ref_high = mf_high w /\ dot w ref_low = - mf_high w /\ dot (map Z.abs w) ref_abs = - mf_abs w.
Proof.
  intros L. destruct (list16 w L) as (x0 & x1 & x2 & x3 & x4 & x5 & x6 & x7 & x8 & x9 & x10 & x11 & x12 & x13 & x14 & x15 & ->).
  unfold mf_high, mf_abs, ref_high, ref_low, ref_abs, sumZ. cbn [dot map firstn skipn fold_right nth].
  split; [lia|]. split; lia.
Qed.
Lemma rb_step h b x : rb_inv h b -> -2340 <= x <= 2340 ->
  exists b', rb_update b x = Ok (b', ref_spec (h ++ [x])) /\ rb_inv (h ++ [x]) b'.
Proof.
  intros (Hb & Hr & Hra & Ha & Hh & Hl) Hx. unfold rb_update. rewrite !s16_id by (rewrite ?s16_id by lia; lia).
  destruct (sr_update_null_ok 16 _ _ x Hr) as (r & Er & Hr'). rewrite Er; cbn [bind].
  destruct (sr_update_null_ok 16 _ _ (Z.abs x) Hra) as (ra & Era & Hra'). rewrite Era; cbn [bind].
  assert (Hmap : tl (map Z.abs (lastn 16 (repeat 0 16 ++ h))) ++ [Z.abs x] = map Z.abs (tl (lastn 16 (repeat 0 16 ++ h)) ++ [x])).
  { rewrite map_app. destruct (lastn 16 (repeat 0 16 ++ h)); reflexivity. }
  rewrite Hmap in Hra'. rewrite shift_window in * by (try apply repeat_length; lia).
  set (w := lastn 16 (repeat 0 16 ++ h ++ [x])) in *.
  assert (Lw : length w = 16%nat) by (apply Hr').
  assert (Bh : bounded 2340 (h ++ [x])) by (apply bounded_app; split; auto; constructor; [lia|constructor]).
  assert (Bw : bounded 2340 w) by (apply bounded_lastn, bounded_app; split; auto; apply bounded_repeat0; lia).
  assert (Ba : bounded 2340 (map Z.abs w)) by (apply bounded_abs; auto).
  destruct (dot_tables w Lw) as (D1 & D2 & D3).
  rewrite (convolute_spec 16 16 ra (rb_abs b) _ _ Hra' Ha).
  rewrite dot_fits_small; [|exact Ba|repeat constructor; lia|rewrite map_length, Lw; cbn; lia]. cbn [bind].
  rewrite (convolute_spec 16 16 r (rb_low b) _ _ Hr' Hl).
  rewrite dot_fits_small; [|exact Bw|repeat constructor; lia|rewrite Lw; cbn; lia]. cbn [bind].
  rewrite (convolute_spec 16 16 r (rb_high b) _ _ Hr' Hh).
  rewrite dot_fits_small; [|exact Bw|repeat constructor; lia|rewrite Lw; cbn; lia]. cbn [bind].
  rewrite D1, D2, D3.
  assert (B1 : -16380 <= mf_high w <= 16380 /\ 0 <= mf_abs w <= 16380).
  { clear - Bw Lw. destruct (list16 w Lw) as (x0 & x1 & x2 & x3 & x4 & x5 & x6 & x7 & x8 & x9 & x10 & x11 & x12 & x13 & x14 & x15 & E). rewrite E in *. clear E Lw.
    unfold bounded in Bw. repeat match goal with H : Forall _ (_ :: _) |- _ => inversion H; subst; clear H end.
    unfold mf_high, mf_abs, sumZ. cbn [map firstn skipn fold_right nth]. lia. }
  rewrite !chk32_ok by lia. cbn [bind]. rewrite !s16_id by lia.
  eexists. split.
  - f_equal. f_equal. unfold ref_spec. fold w. f_equal; lia.
  - unfold rb_inv. cbn [rb_reg rb_regabs rb_abs rb_high rb_low]. fold w. auto 10.
Qed.
(** The fast detector decides on the probabilities of the reference detector. *)
Definition decide (p : Z * Z) : Z := if 4921 <=? fst p then fst p else if 4921 <=? snd p then - snd p else 0.
Lemma decide_ref h : decide (ref_spec h) = mf_spec h.
Proof.
  unfold decide, ref_spec, mf_spec, mf. cbn [fst snd]. set (w := lastn 16 _).
  destruct (4921 <=? mf_high w - mf_abs w); auto. destruct (4921 <=? - mf_high w - mf_abs w); lia.
Qed.
Lemma fast_is_reference xs : bounded 2340 xs ->
  exists b b' ys r r' ps, bit_new = Ok b /\ mrun bit_update b xs = Ok (b', ys) /\
    rb_new = Ok r /\ mrun rb_update r xs = Ok (r', ps) /\ ys = map decide ps.
Proof.
  intros Hb. destruct (bit_correct xs (bounded_weaken 2340 130000000 xs ltac:(lia) Hb)) as (b & b' & ys & E1 & E2 & L1 & H1).
  destruct rb_new_inv as (r & E3 & Hi).
  destruct (mrun_pointwise rb_update rb_inv (fun x => -2340 <= x <= 2340) ref_spec
              (fun h s x => rb_step h s x) xs [] r Hi Hb) as (r' & ps & E4 & _ & L2 & H2).
  exists b, b', ys, r, r', ps. split; auto. split; auto. split; auto. split; auto.
  apply nth_error_ext. intros k. rewrite nth_error_map. destruct (Nat.lt_ge_cases k (length xs)) as [Hk|Hk].
  - rewrite H1, H2 by auto. cbn [option_map app]. rewrite decide_ref. reflexivity.
  - rewrite (proj2 (nth_error_None ys k)), (proj2 (nth_error_None ps k)) by lia. reflexivity.
Qed.
