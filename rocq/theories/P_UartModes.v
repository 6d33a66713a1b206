(** P_UartModes.v -- the UART receiver in every parity mode. *)
From Verif Require Import Base S_Containers M_ShiftReg D_Containers P_Containers S_Line S_LineModes M_Dsp P_Dsp M_Uart D_Uart P_Uart P_UartRun P_UartErr.

Local Notation BL := 168%nat.

(** ** The loop without parity bit, through the one with *)
Definition agree (x y : xt) : Prop := x_last x = x_last y /\ x_prob x = x_prob y /\ x_out x = x_out y /\ x_err x = x_err y.
Lemma xn_step_agree b t x y : (1 <= b <= 8)%nat -> agree x y -> agree (xn_step b t x) (xp_step b t y).
Proof.
  intros Hb (A1 & A2 & A3 & A4). unfold agree, xn_step, xp_step.
  destruct (Nat.leb_spec 1 b); [|lia]. destruct (Nat.leb_spec b 8); [|lia]. cbn [andb]. rewrite A1, A2, A3, A4.
  destruct (t =? 0); cbn [negb x_last x_prob x_out x_err]; auto.
Qed.
Lemma xn_stop_agree t x y : agree x y -> agree (xn_step 9 t x) (xp_step 10 t y).
Proof.
  intros (A1 & A2 & A3 & A4). unfold agree, xn_step, xp_step. cbn [Nat.leb Nat.eqb andb]. rewrite A1, A2, A3, A4.
  destruct (t =? 0); cbn [negb x_last x_prob x_out x_err]; auto.
Qed.
Lemma xn_fold_agree l : forall b x y, (1 <= b)%nat -> (b + length l <= 9)%nat -> agree x y -> agree (xn_fold b l x) (xp_fold b l y).
Proof.
  induction l as [|t r IH]; intros b x y Hb Hl A; cbn [xn_fold xp_fold length] in *; auto.
  apply IH; try lia. apply xn_step_agree; auto; lia.
Qed.
Lemma xn_fold_app a : forall b l x, xn_fold b (a ++ l) x = xn_fold (b + length a) l (xn_fold b a x).
Proof. induction a as [|t r IH]; intros b l x; cbn [app xn_fold length]; [rewrite Nat.add_0_r; auto|]. rewrite IH. f_equal. lia. Qed.

(** ** One phase, with parity bit *)
Lemma odd_of_nat n : Z.odd (Z.of_nat n) = Nat.odd n.
Proof.
  induction n as [|n IH]; auto. rewrite Nat2Z.inj_succ, Z.odd_succ, <- Z.negb_odd, IH, Nat.odd_succ, <- Nat.negb_odd. reflexivity.
Qed.
Lemma msymbols_cons m w ph : msymbols m w ph = nth ph w 0 :: map (fun j => nth (ph + 16 * j) w 0) (seq 1 (nsym m - 1)).
Proof. unfold msymbols. destruct m; cbn [nsym seq map Nat.sub]; rewrite Nat.mul_0_r, Nat.add_0_r; reflexivity. Qed.

(** What a phase examination should return. *)
Definition phase_ok (m : mode) (v : list Z) (ph : nat) (r : Z * Z * bool) : Prop :=
  let '(s, o, e) := r in s = mstrength m v ph /\
    (nth ph v 0 <> 0 -> (e = false -> char_ok m (msymbols m v ph) o) /\ (forall d, char_ok m (msymbols m v ph) d -> e = false /\ o = d)).

(** A byte is determined by its eight data symbols. *)
Lemma byte_of_bits o d l : 0 <= o < 256 -> 0 <= d < 256 ->
  (forall i, (i < 8)%nat -> Z.testbit o (Z.of_nat i) = (nth i l 0 =? 0)) ->
  (forall i, (i < 8)%nat -> (Z.testbit d (Z.of_nat i) = true <-> nth i l 0 = 0)) -> o = d.
Proof.
  intros Ho Hd Eb Fd. apply Z.bits_inj'. intros n Hn. destruct (Z.lt_ge_cases n 8).
  - rewrite <- (Z2Nat.id n) by lia. rewrite Eb by lia. specialize (Fd (Z.to_nat n) ltac:(lia)).
    destruct (Z.eqb_spec (nth (Z.to_nat n) l 0) 0) as [E|E].
    + symmetry. apply Fd; auto.
    + destruct (Z.testbit d (Z.of_nat (Z.to_nat n))) eqn:Et; auto. exfalso. apply E, Fd; auto.
  - rewrite !Z.bits_above_log2; auto; try lia.
    + destruct (Z.eq_dec d 0) as [->|]; [cbn; lia|]. apply Z.lt_le_trans with 8; auto. apply Z.log2_lt_pow2; lia.
    + destruct (Z.eq_dec o 0) as [->|]; [cbn; lia|]. apply Z.lt_le_trans with 8; auto. apply Z.log2_lt_pow2; lia.
Qed.
Lemma alt_head s0 l : s0 <> 0 -> (alt_fromF s0 l = true <-> alternating (filter nonzero (s0 :: l))).
Proof.
  intros E0. rewrite alt_from_spec by auto. cbn [filter]. unfold nonzero at 2. destruct (Z.eqb_spec s0 0); [congruence|]. reflexivity.
Qed.
(** Facts common to both loops, about the first eight symbols. *)
Lemma xp_bits l x : length l = 10%nat \/ length l = 8%nat -> x_out x = 0 ->
  forall i, (i < 8)%nat -> Z.testbit (x_out (xp_fold 1 l x)) (Z.of_nat i) = (nth i l 0 =? 0).
Proof.
  intros Ll Hx i Hi. rewrite xp_fold_out by lia. rewrite Hx, Z.testbit_0_l. cbn [orb].
  change (Z.of_nat 1 - 1) with 0. rewrite Z.sub_0_r, Nat2Z.id.
  destruct (Z.leb_spec 0 (Z.of_nat i)), (Z.leb_spec (Z.of_nat i) 7), (Z.ltb_spec (Z.of_nat i) (Z.of_nat (length l))); try lia.
  cbn [andb]. f_equal. apply nth_indep. lia.
Qed.

Lemma try_phase_parity (odd : bool) u w ph :
  ua_parity u = (if odd then PARITY_ODD else PARITY_EVEN) -> sr_ok BL (ua_reg u) w -> s16_window w -> (ph < 8)%nat ->
  exists r, try_phase u ph = Ok r /\ phase_ok (Some odd) w ph r.
Proof.
  intros Hp Hr Hs Hph.
  assert (Et : try_phase u ph = bind (extract_data_and_parity (ua_reg u) ph 0 false) (fun x : xt =>
            Ok (x_prob x, x_out x, if eqb (Z.odd (x_par x)) odd then x_err x else true))).
  { unfold try_phase. rewrite Hp. destruct odd; destruct (extract_data_and_parity (ua_reg u) ph 0 false) as [x|]; cbn [bind]; auto; destruct (Z.odd (x_par x)); reflexivity. }
  rewrite Et. clear Et. unfold extract_data_and_parity.
  rewrite BL_eq, (sr_at_nth BL _ w) by (auto; lia). rewrite Nat.mul_0_l, Nat.add_0_r. cbn [bind].
  set (s0 := nth ph w 0). destruct (Z.eqb_spec s0 0) as [E0|E0].
  { cbn [bind x_prob x_out x_err x_par]. eexists. split; [reflexivity|]. cbn [phase_ok]. unfold mstrength. split; [|intros Hc; exfalso; apply Hc; exact E0]. match goal with |- _ = if ?c then _ else _ => replace c with true by (symmetry; apply Z.eqb_eq; exact E0) end. reflexivity. }
  rewrite (xp_loop_fold (ua_reg u) w ph Hr Hph) by (cbn; lia). cbn [bind].
  change (UART_BITS_PARITY - 1)%nat with 10%nat.
  set (l := map (fun j => nth (ph + 16 * j) w 0) (seq 1 10)).
  assert (Ll : length l = 10%nat) by (unfold l; rewrite map_length, seq_length; auto).
  set (x := {| x_last := s0; x_prob := Z.abs s0; x_out := 0; x_par := 0; x_err := false |}).
  assert (Hl16 : Forall (fun x => -32768 <= x <= 32767) l).
  { unfold l. apply Forall_forall. intros y Hy. apply in_map_iff in Hy as (j & <- & _). apply s16_nth; auto. }
  pose proof (abs_sum_bound l Hl16) as Hb. rewrite Ll in Hb. pose proof (s16_nth w ph Hs) as H0. fold s0 in H0.
  assert (Esym : msymbols (Some odd) w ph = s0 :: l) by apply msymbols_cons.
  eexists. split; [reflexivity|]. cbn [phase_ok]. split.
  { rewrite xp_fold_prob by (cbn [x x_prob]; lia). cbn [x x_prob]. unfold mstrength. fold s0. rewrite Esym.
    destruct (Z.eqb_spec s0 0); [congruence|]. cbn [fold_right]. fold (abs_sum l). reflexivity. }
  intros _.
  assert (Epar : Z.odd (x_par (xp_fold 1 l x)) = Nat.odd (ones (firstn 9 l))).
  { rewrite xp_fold_par by (cbn [x x_par]; lia). cbn [x x_par]. rewrite Z.add_0_l. apply odd_of_nat. }
  assert (Eerr : x_err (xp_fold 1 l x) = nonzero (nth 9 l 0) || negb (alt_fromF s0 l)).
  { rewrite xp_fold_err by lia. cbn [x x_err x_last orb]. reflexivity. }
  pose proof (xp_bits l x (or_introl Ll) eq_refl) as Ebit.
  pose proof (xp_fold_out_range l 1 x ltac:(lia) ltac:(cbn; lia)) as Hrange.
  pose proof (alt_head s0 l E0) as Halt. rewrite Epar, Eerr, Esym. split.
  - intros He. destruct (eqb (Nat.odd (ones (firstn 9 l))) odd) eqn:Ev; [|discriminate]. apply eqb_prop in Ev.
    apply orb_false_iff in He as [He1 He2]. apply negb_false_iff in He2.
    constructor; [cbn [length nsym]; lia|exact Hrange|exact E0| | | |].
    + intros i Hi. cbn [nth]. rewrite Ebit by auto. apply Z.eqb_eq.
    + intros o Eo. inversion Eo; subst o. exact Ev.
    + cbn [nsym Nat.sub nth]. unfold nonzero in He1. destruct (Z.eqb_spec (nth 9 l 0) 0); auto; discriminate.
    + apply Halt; auto.
  - intros d [Fl Fb Fs Fd Fp Ft Fa]. specialize (Fp odd eq_refl). cbn [skipn] in Fp. rewrite Fp, eqb_reflx. cbn [nsym Nat.sub nth] in *.
    rewrite Ft. apply Halt in Fa. rewrite Fa. split; auto. apply (byte_of_bits _ _ l); auto.
Qed.

(** ** One phase, without parity bit: the register holds 16 older samples in front *)
Lemma nth_skipn {A} n (l : list A) i d : nth i (skipn n l) d = nth (n + i) l d.
Proof. revert l. induction n as [|n IH]; intros l; auto. destruct l; cbn; [destruct i; auto|apply IH]. Qed.
Lemma try_phase_none u w ph :
  ua_parity u = PARITY_NONE -> sr_ok BL (ua_reg u) w -> s16_window w -> (ph < 8)%nat ->
  exists r, try_phase u ph = Ok r /\ phase_ok None (skipn 16 w) ph r.
Proof.
  intros Hp Hr Hs Hph. unfold try_phase. rewrite Hp. unfold extract_data.
  rewrite BL_eq, (sr_at_nth BL _ w) by (auto; unfold UART_OVERSAMPLING_RATE; lia). cbn [bind].
  change (1 * UART_OVERSAMPLING_RATE)%nat with 16%nat.
  set (v := skipn 16 w). assert (Ev : forall i, nth (16 + i) w 0 = nth i v 0) by (intros i; unfold v; rewrite nth_skipn; reflexivity).
  rewrite (Nat.add_comm ph 16), Ev. set (s0 := nth ph v 0). destruct (Z.eqb_spec s0 0) as [E0|E0].
  { cbn [bind x_prob x_out x_err x_par]. eexists. split; [reflexivity|]. cbn [phase_ok]. unfold mstrength. split; [|intros Hc; exfalso; apply Hc; exact E0]. match goal with |- _ = if ?c then _ else _ => replace c with true by (symmetry; apply Z.eqb_eq; exact E0) end. reflexivity. }
  rewrite (xn_loop_fold (ua_reg u) w ph Hr Hph) by (cbn; lia). cbn [bind].
  change (UART_BITS_NO_PARITY - 1)%nat with 9%nat.
  replace (map (fun j => nth (ph + 16 * S j) w 0) (seq 1 9)) with (map (fun j => nth (ph + 16 * j) v 0) (seq 1 9)).
  2:{ apply map_ext. intros j. rewrite <- Ev. f_equal. lia. }
  set (l := map (fun j => nth (ph + 16 * j) v 0) (seq 1 9)).
  assert (El : l = map (fun j => nth (ph + 16 * j) v 0) (seq 1 8) ++ [nth (ph + 16 * 9) v 0]).
  { unfold l. change (seq 1 9) with (seq 1 8 ++ [9%nat]). rewrite map_app. reflexivity. }
  set (l8 := map (fun j => nth (ph + 16 * j) v 0) (seq 1 8)) in *. set (st := nth (ph + 16 * 9) v 0) in *.
  assert (Ll : length l8 = 8%nat) by (unfold l8; rewrite map_length, seq_length; auto).
  set (x := {| x_last := s0; x_prob := Z.abs s0; x_out := 0; x_par := 0; x_err := false |}).
  assert (Hs' : s16_window v) by (unfold v; apply Forall_forall; intros y Hy; unfold s16_window in Hs; rewrite Forall_forall in Hs; apply Hs; rewrite <- (firstn_skipn 16 w); apply in_or_app; auto).
  assert (Hl16 : Forall (fun x => -32768 <= x <= 32767) l8).
  { unfold l8. apply Forall_forall. intros y Hy. apply in_map_iff in Hy as (j & <- & _). apply s16_nth; auto. }
  pose proof (abs_sum_bound l8 Hl16) as Hb. rewrite Ll in Hb. pose proof (s16_nth v ph Hs') as H0. fold s0 in H0.
  pose proof (s16_nth v (ph + 16 * 9) Hs') as H9. fold st in H9.
  assert (Esym : msymbols None v ph = s0 :: l) by apply msymbols_cons.
  assert (Ag : agree (xn_fold 1 l x) (xp_step 10 st (xp_fold 1 l8 x))).
  { rewrite El, xn_fold_app, Ll. cbn [xn_fold Nat.add]. apply xn_stop_agree. apply xn_fold_agree; try lia. repeat split. }
  destruct Ag as (_ & A2 & A3 & A4). rewrite A2, A3, A4.
  pose proof (abs_sum_nonneg l8) as Hn.
  assert (Ep : x_prob (xp_fold 1 l8 x) = Z.abs s0 + abs_sum l8) by (rewrite xp_fold_prob by (cbn [x x_prob]; lia); reflexivity).
  eexists. split; [reflexivity|]. cbn [phase_ok]. split.
  { rewrite xp_step_prob, Ep, u32_id by lia. unfold mstrength. fold s0. rewrite Esym.
    destruct (Z.eqb_spec s0 0); [congruence|]. cbn [fold_right]. rewrite El, fold_right_app. cbn [fold_right].
    assert (G : forall q k, fold_right (fun t a => Z.abs t + a) k q = abs_sum q + k).
    { induction q as [|t q IH]; intros k; cbn [fold_right abs_sum]; [lia|]. rewrite IH. fold (abs_sum q). lia. }
    rewrite (G l8). lia. }
  intros _.
  assert (Eerr : x_err (xp_step 10 st (xp_fold 1 l8 x)) = nonzero st || negb (alt_fromF s0 l)).
  { rewrite xp_step_err, xp_fold_err by lia. cbn [x x_err x_last orb Nat.eqb andb].
    assert (Sb : stop_bad 1 l8 = false) by (unfold stop_bad; cbn [Nat.leb Nat.sub]; rewrite nth_overflow by lia; reflexivity).
    rewrite Sb. cbn [orb].
    assert (Al : forall q s, alt_fromF s (q ++ [st]) = alt_fromF s q && negb (nonzero st && same_sign (x_last (xp_fold 1 q {| x_last := s; x_prob := 0; x_out := 0; x_par := 0; x_err := false |})) st)).
    { assert (La : forall q b y, x_last (xp_fold b q y) = fold_left (fun a t => if t =? 0 then a else t) q (x_last y)).
      { induction q as [|t q IH]; intros b y; cbn [xp_fold fold_left]; auto. rewrite IH, xp_step_last. reflexivity. }
      intros q s. rewrite La. cbn [x_last]. revert s. induction q as [|t q IH]; intros s; cbn [app alt_fromF fold_left].
      - unfold nonzero. destruct (st =? 0); cbn [negb andb]; auto. rewrite andb_true_r. reflexivity.
      - rewrite !IH. destruct (t =? 0); auto. rewrite andb_assoc. reflexivity. }
    assert (La : forall q b y z, x_last y = x_last z -> x_last (xp_fold b q y) = x_last (xp_fold b q z)).
    { induction q as [|t q IH]; intros b y z Hy; cbn [xp_fold]; auto. apply IH. rewrite !xp_step_last, Hy. reflexivity. }
    rewrite El, Al. rewrite (La l8 1%nat x {| x_last := s0; x_prob := 0; x_out := 0; x_par := 0; x_err := false |} eq_refl).
    destruct (alt_fromF s0 l8), (nonzero st), (same_sign _ st); reflexivity. }
  assert (Eout : x_out (xp_step 10 st (xp_fold 1 l8 x)) = x_out (xp_fold 1 l8 x)).
  { rewrite xp_step_out by lia. cbn [Nat.leb]. rewrite andb_false_r. reflexivity. }
  pose proof (xp_bits l8 x (or_intror Ll) eq_refl) as Ebit.
  pose proof (xp_fold_out_range l8 1 x ltac:(lia) ltac:(cbn; lia)) as Hrange.
  assert (Hnth : forall i, (i < 8)%nat -> nth i l 0 = nth i l8 0) by (intros i Hi; rewrite El, app_nth1 by lia; reflexivity).
  assert (H8 : nth 8 l 0 = st) by (rewrite El, app_nth2 by lia; rewrite Ll; reflexivity).
  assert (Len : length l = 9%nat) by (rewrite El, app_length, Ll; reflexivity).
  pose proof (alt_head s0 l E0) as Halt. rewrite Eout, Eerr, Esym. split.
  - intros He. apply orb_false_iff in He as [He1 He2]. apply negb_false_iff in He2.
    constructor; [cbn [length nsym]; lia|exact Hrange|exact E0| | | |].
    + intros i Hi. cbn [nth]. rewrite Ebit, Hnth by auto. apply Z.eqb_eq.
    + intros o Eo. discriminate.
    + cbn [nsym Nat.sub nth]. rewrite H8. unfold nonzero in He1. destruct (Z.eqb_spec st 0); auto; discriminate.
    + apply Halt; auto.
  - intros d [Fl Fb Fs Fd Fp Ft Fa]. cbn [nsym Nat.sub nth] in *. rewrite H8 in Ft.
    rewrite Ft. apply Halt in Fa. rewrite Fa. split; auto. apply (byte_of_bits _ _ l8); auto.
    intros i Hi. rewrite (Fd i Hi), Hnth by auto. tauto.
Qed.

(** ** All modes *)
Definition view (p : uart_parity) (w : list Z) : list Z := lastn (nsamp (mode_of p)) w.
Lemma try_phase_mode u w ph : sr_ok BL (ua_reg u) w -> s16_window w -> (ph < 8)%nat ->
  exists r, try_phase u ph = Ok r /\ phase_ok (mode_of (ua_parity u)) (view (ua_parity u) w) ph r.
Proof.
  intros Hr Hs Hph. pose proof Hr as (_ & Lw & _). unfold view, lastn. rewrite Lw.
  destruct (ua_parity u) eqn:Hp; cbn [mode_of nsamp].
  - apply try_phase_none; auto.
  - apply (try_phase_parity false); auto.
  - apply (try_phase_parity true); auto.
Qed.
Lemma mstrength_pos m w ph : 0 < mstrength m w ph <-> nth ph w 0 <> 0.
Proof.
  unfold mstrength. destruct (Z.eqb_spec (nth ph w 0) 0) as [E|E]; [split; [lia|congruence]|].
  rewrite msymbols_cons. cbn [fold_right].
  pose proof (abs_sum_nonneg (map (fun j => nth (ph + 16 * j) w 0) (seq 1 (nsym m - 1)))) as H. unfold abs_sum in H.
  split; auto. intros _. lia.
Qed.
Definition mfound (m : mode) (w : list Z) (n : nat) (best o : Z) (e : bool) : Prop :=
  0 <= best /\ (forall p, (p < n)%nat -> mstrength m w p <= best) /\
  (0 < best -> exists p, (p < n)%nat /\ mstrength m w p = best /\
     (forall q, (q < p)%nat -> mstrength m w q < best) /\
     (e = false -> char_ok m (msymbols m w p) o) /\
     (forall d, char_ok m (msymbols m w p) d -> e = false /\ o = d)).
Lemma fbp_loop_mode u w : sr_ok BL (ua_reg u) w -> s16_window w ->
  let m := mode_of (ua_parity u) in let v := view (ua_parity u) w in
  forall k n best o e, (n + k = 8)%nat -> mfound m v n best o e ->
  exists best' o' e', fbp_loop u n k best o e = Ok (best', o', e') /\ mfound m v 8 best' o' e'.
Proof.
  intros Hr Hs m v. induction k as [|k IH]; intros n best o e Hn Hf; cbn [fbp_loop].
  - replace n with 8%nat in Hf by lia. eauto 6.
  - destruct (try_phase_mode u w n Hr Hs ltac:(lia)) as ([[s o1] e1] & E & H1 & H2). rewrite E; cbn [bind].
    fold m v in H1, H2. subst s. destruct Hf as (F0 & F1 & F2).
    destruct (Z.ltb_spec best (mstrength m v n)).
    + apply IH; [lia|]. split; [lia|]. split.
      * intros p Hpn. destruct (Nat.eq_dec p n) as [->|]; [lia|]. specialize (F1 p ltac:(lia)). lia.
      * intros Hpos. exists n. split; [lia|]. split; auto. split.
        -- intros q Hq. specialize (F1 q Hq). lia.
        -- apply H2. apply (mstrength_pos m); auto.
    + apply IH; [lia|]. split; [lia|]. split.
      * intros p Hpn. destruct (Nat.eq_dec p n) as [->|]; [lia|]. apply F1; lia.
      * intros Hpos. destruct (F2 Hpos) as (p & P1 & P2). exists p. split; [lia|]. exact P2.
Qed.
Lemma find_best_phase_mode u w o0 e0 : sr_ok BL (ua_reg u) w -> s16_window w ->
  let m := mode_of (ua_parity u) in let v := view (ua_parity u) w in
  exists o e, find_best_phase u o0 e0 = Ok (o, e) /\
    (e = false -> exists p, mdominant m v p /\ char_ok m (msymbols m v p) o) /\
    (forall p d, mdominant m v p -> char_ok m (msymbols m v p) d -> e = false /\ o = d).
Proof.
  intros Hr Hs m v. unfold find_best_phase. change (UART_OVERSAMPLING_RATE / 2)%nat with 8%nat.
  assert (Hf : mfound m v 0 0 o0 e0) by (split; [lia|]; split; [intros; lia|]; lia).
  destruct (fbp_loop_mode u w Hr Hs 8 0%nat 0 o0 e0 eq_refl Hf) as (best & o & e & E & F0 & F1 & F2).
  rewrite E; cbn [bind]. fold m v in F1, F2. eexists _, _. split; [reflexivity|]. split.
  - intros He. destruct (Z.eqb_spec best 0); [discriminate|].
    destruct (F2 ltac:(lia)) as (p & P1 & P2 & P3 & P4 & P5). exists p. split; auto.
    split; [lia|]. split; [lia|]. split; [intros q Hq; rewrite P2; auto|intros q Hq; rewrite P2; apply F1; lia].
  - intros p d (D1 & D2 & D3 & D4) Hd. assert (0 < best) by (specialize (F1 p D1); lia).
    destruct (Z.eqb_spec best 0); [lia|]. destruct (F2 ltac:(lia)) as (q & P1 & P2 & P3 & P4 & P5).
    assert (p = q).
    { destruct (Nat.lt_trichotomy p q) as [L|[L|L]]; auto.
      - specialize (P3 p L). specialize (D4 q ltac:(lia)). lia.
      - specialize (D3 q L). specialize (F1 p D1). lia. }
    subst q. apply P5; auto.
Qed.

(** ** Runs *)
Local Notation NS p := (nsamp (mode_of p)).
Lemma NS_bound p : (152 <= NS p <= 168)%nat.
Proof. destruct p; cbn; lia. Qed.
Definition mstarted (p : uart_parity) (h : list Z) : Prop :=
  s16 (nth (length h - NS p) h 0) <> 0 \/ 4294967296 <= Z.of_nat (length h).
Definition um_inv (u : uart) (h : list Z) : Prop :=
  exists w, sr_ok BL (ua_reg u) w /\ s16_window w /\
  match ua_state u with
  | WAIT_FOR_IDLE => ua_counter u = 0
  | WAIT_FOR_START => exists pre h1 h2, h = h1 ++ h2 /\ length pre = BL /\ Z.of_nat (length h2) < 4294967296 /\
      ua_counter u = u32 (- Z.of_nat (length h2)) /\ w = lastn BL (pre ++ map s16 h2)
  | DATA => exists pre h1 h2 m, h = h1 ++ h2 /\ length pre = BL /\ (m <= length h2)%nat /\ (1 <= m < NS (ua_parity u))%nat /\
      ua_counter u = Z.of_nat (NS (ua_parity u)) - Z.of_nat m /\ w = lastn BL (pre ++ map s16 h2) /\ s16 (nth (length h - m) h 0) <> 0
  | STOP => ua_counter u = 0 /\ (NS (ua_parity u) <= length h)%nat /\
      lastn (NS (ua_parity u)) w = map s16 (lastn (NS (ua_parity u)) h) /\ mstarted (ua_parity u) h
  end.
Lemma lastn_lastn {A} n k (l : list A) : (n <= k)%nat -> (k <= length l)%nat -> lastn n (lastn k l) = lastn n l.
Proof.
  intros H L. unfold lastn. rewrite skipn_length.
  assert (X : forall a b (q : list A), skipn a (skipn b q) = skipn (b + a) q).
  { clear. intros a b. induction b as [|b IH]; intros q; auto. destruct q; cbn; [apply skipn_nil|apply IH]. }
  rewrite X. f_equal. lia.
Qed.
Lemma mwindow_full n pre h1 h2 : length pre = BL -> (n <= BL)%nat -> (n <= length h2)%nat ->
  lastn n (lastn BL (pre ++ map s16 h2)) = map s16 (lastn n (h1 ++ h2)).
Proof.
  intros Lp Hn H. rewrite lastn_lastn by (rewrite ?app_length; lia).
  rewrite lastn_lastn_app by (rewrite map_length; auto). rewrite lastn_map. f_equal. rewrite lastn_lastn_app; auto.
Qed.
Definition char_seen (p : uart_parity) (h : list Z) (o : Z) : Prop :=
  let w := map s16 (lastn (NS p) h) in exists ph, mdominant (mode_of p) w ph /\ char_ok (mode_of p) (msymbols (mode_of p) w ph) o.

Lemma um_step u h x o0 e0 : um_inv u h ->
  exists u' out, ua_call u (x, o0, e0) = Ok (u', out) /\ um_inv u' (h ++ [x]) /\ ua_parity u' = ua_parity u /\
    (forall o e, out = Some (o, e) -> (NS (ua_parity u) <= length h)%nat /\ mstarted (ua_parity u) h /\ (e = false -> char_seen (ua_parity u) h o)).
Proof.
  intros (w & Hr & Hs & Hm). unfold ua_call, ua_update. pose proof (NS_bound (ua_parity u)) as NB.
  destruct (ua_state u) eqn:St.
  - destruct (zero_level_detect x) eqn:Ez; cbn [bind negb]; eexists _, _; (split; [reflexivity|]);
      (split; [|split; [reflexivity|discriminate]]).
    + exists w. rewrite St. auto.
    + exists w. cbn [ua_state ua_reg ua_counter]. split; [exact Hr|]. split; [exact Hs|].
      exists w, (h ++ [x]), []. rewrite !app_nil_r. cbn [length map]. pose proof Hr as (_ & Lw & _).
      split; [reflexivity|]. split; [exact Lw|]. split; [lia|]. split; [rewrite Hm; reflexivity|].
      unfold lastn. rewrite Lw, Nat.sub_diag. reflexivity.
  - destruct Hm as (pre & h1 & h2 & -> & Lp & L2 & Hc & Hw).
    assert (Hw' : tl w ++ [s16 x] = lastn BL (pre ++ map s16 (h2 ++ [x]))).
    { rewrite map_app. subst w. apply shift_window; auto. lia. }
    destruct (zero_level_detect x) eqn:Ez.
    + set (u1 := UART (ua_parity u) _ DATA (ua_reg u)). assert (Hr1 : sr_ok BL (ua_reg u1) w) by exact Hr.
      destruct (ua_data_case_ok u1 w x Hr1) as (r & Hr' & E). rewrite E. cbn [bind].
      assert (Ec : u32 (ua_counter u1 - 1) = Z.of_nat (NS (ua_parity u)) - 1).
      { subst u1. cbn [ua_counter]. destruct (ua_parity u); reflexivity. }
      rewrite Ec. destruct (Z.eqb_spec (Z.of_nat (NS (ua_parity u)) - 1) 0); [lia|].
      eexists _, _. split; [reflexivity|]. split; [|split; [reflexivity|discriminate]].
      exists (tl w ++ [s16 x]). split; auto. split; [apply s16_window_shift; auto|].
      cbn [ua_state ua_counter ua_parity u1]. exists pre, h1, (h2 ++ [x]), 1%nat. rewrite !app_length, app_assoc. cbn [length].
      split; auto. split; auto. split; [lia|]. split; [lia|]. split; [lia|]. split; auto.
      rewrite app_nth2 by (rewrite app_length; lia). rewrite app_length.
      replace (length h1 + length h2 + 1 - 1 - (length h1 + length h2))%nat with 0%nat by lia. cbn [nth].
      unfold zero_level_detect in Ez. destruct (Z.eqb_spec (s16 x) 0); [discriminate|auto].
    + destruct (ua_data_case_ok u w x Hr) as (r & Hr' & E). rewrite E. cbn [bind].
      eexists _, _. split; [reflexivity|]. split; [|split; [reflexivity|discriminate]].
      exists (tl w ++ [s16 x]). split; auto. split; [apply s16_window_shift; auto|].
      cbn [ua_state ua_counter ua_parity].
      destruct (Z.eq_dec (Z.of_nat (length h2) + 1) 4294967296) as [El|El].
      * assert (Ec : u32 (ua_counter u - 1) = 0).
        { rewrite Hc. unfold u32. rewrite Zminus_mod_idemp_l.
          replace (- Z.of_nat (length h2) - 1) with ((-1) * 4294967296) by lia. apply Z_mod_mult. }
        rewrite Ec. cbn [Z.eqb]. split; auto. unfold mstarted. rewrite !app_length. cbn [length]. split; [lia|].
        split; [|right; lia].
        rewrite Hw', <- app_assoc. apply mwindow_full; auto; [lia|]. rewrite app_length; cbn [length]; lia.
      * rewrite Hc. destruct (u32_neg_pred (Z.of_nat (length h2)) ltac:(lia) ltac:(lia)) as (E1 & E2).
        rewrite E1. destruct (Z.eqb_spec (u32 (- (Z.of_nat (length h2) + 1))) 0); [congruence|].
        rewrite St. exists pre, h1, (h2 ++ [x]). rewrite app_length, app_assoc. cbn [length].
        repeat split; auto; try lia. f_equal. lia.
  - destruct Hm as (pre & h1 & h2 & m & -> & Lp & L2 & Lm & Hc & Hw & Hnz). rewrite app_length in Hnz.
    assert (Hw' : tl w ++ [s16 x] = lastn BL (pre ++ map s16 (h2 ++ [x]))).
    { rewrite map_app. subst w. apply shift_window; auto. lia. }
    destruct (ua_data_case_ok u w x Hr) as (r & Hr' & E). rewrite E. cbn [bind].
    eexists _, _. split; [reflexivity|]. split; [|split; [reflexivity|discriminate]].
    exists (tl w ++ [s16 x]). split; auto. split; [apply s16_window_shift; auto|].
    cbn [ua_state ua_counter ua_parity]. rewrite Hc, u32_id by lia.
    destruct (Z.eqb_spec (Z.of_nat (NS (ua_parity u)) - Z.of_nat m - 1) 0).
    + split; [lia|]. unfold mstarted. rewrite !app_length; cbn [length]. split; [lia|]. split.
      * rewrite Hw', <- app_assoc. apply mwindow_full; auto; [lia|]. rewrite app_length; cbn [length]; lia.
      * left. rewrite app_nth1 by (rewrite app_length; lia).
        replace (length h1 + length h2 + 1 - NS (ua_parity u))%nat with (length h1 + length h2 - m)%nat by lia. auto.
    + rewrite St. exists pre, h1, (h2 ++ [x]), (S m). rewrite !app_length, app_assoc. cbn [length].
      split; auto. split; auto. split; [lia|]. split; [lia|]. split; [lia|]. split; auto. rewrite app_nth1 by (rewrite app_length; lia).
      replace (length h1 + length h2 + 1 - S m)%nat with (length h1 + length h2 - m)%nat by lia. auto.
  - destruct Hm as (Hc & Lh & Hw & Hstd).
    destruct (find_best_phase_mode u w o0 e0 Hr Hs) as (o & e & E & Hf & _). rewrite E. cbn [bind].
    eexists _, _. split; [reflexivity|]. split; [|split; [reflexivity|]].
    + exists w. cbn. auto.
    + intros o1 e1 Eo. inversion Eo; subst o1 e1. split; auto. split; auto.
      intros He. destruct (Hf He) as (p & D & F). unfold view in D, F. rewrite Hw in D, F. exists p. auto.
Qed.
Lemma um_inv_new p : um_inv (ua_new p) [].
Proof.
  exists (repeat 0 BL). cbn [ua_new ua_reg ua_state ua_counter]. rewrite BL_eq.
  split; [apply sr_new_ok; lia|]. split; auto. apply Forall_forall. intros x Hx. apply repeat_spec in Hx. lia.
Qed.
Lemma um_run l : forall u h, um_inv u h ->
  exists u' outs, mrun ua_call u l = Ok (u', outs) /\ um_inv u' (h ++ map sym_of l) /\ ua_parity u' = ua_parity u /\
    forall k o e, nth_error outs k = Some (Some (o, e)) ->
      (NS (ua_parity u) <= length h + k)%nat /\ mstarted (ua_parity u) (h ++ map sym_of (firstn k l)) /\
      (e = false -> char_seen (ua_parity u) (h ++ map sym_of (firstn k l)) o).
Proof.
  induction l as [|i t IH]; intros u h H; cbn [mrun map].
  - eexists _, _. split; [reflexivity|]. rewrite app_nil_r. split; auto. split; auto.
    intros [|k] o e Hk; discriminate.
  - destruct i as [[x o0] e0].
    destruct (um_step u h x o0 e0 H) as (u1 & out & E & H1 & P1 & Ho). rewrite E; cbn [bind].
    destruct (IH u1 _ H1) as (u2 & os & E2 & H2 & P2 & Ho2). rewrite E2; cbn [bind]. rewrite P1 in *.
    eexists _, _. split; [reflexivity|]. split; [|split; [auto|]].
    + rewrite <- app_assoc in H2. exact H2.
    + intros [|k] o e Hk; cbn [nth_error firstn map] in *.
      * inversion Hk; subst out. destruct (Ho _ _ eq_refl) as (L & F0 & F). rewrite app_nil_r. split; [lia|auto].
      * destruct (Ho2 _ _ _ Hk) as (L & F0 & F). rewrite app_length in L; cbn in L. split; [lia|].
        rewrite <- app_assoc in F0, F. split; [exact F0|exact F].
Qed.
Lemma uart_sound_mode p l : exists u outs, mrun ua_call (ua_new p) l = Ok (u, outs) /\
  forall k o, nth_error outs k = Some (Some (o, false)) ->
    (NS p <= k)%nat /\ char_seen p (map sym_of (firstn k l)) o.
Proof.
  destruct (um_run l _ [] (um_inv_new p)) as (u & outs & E & _ & _ & H). exists u, outs. split; auto.
  intros k o Hk. destruct (H _ _ _ Hk) as (L & _ & F). split; auto.
Qed.

(** ** Complete characters *)
Lemma um_data_run : forall l u w pre h,
  ua_state u = DATA -> ua_counter u = Z.of_nat (NS (ua_parity u)) - Z.of_nat (length h) -> (1 <= length h)%nat ->
  sr_ok BL (ua_reg u) w -> s16_window w -> w = lastn BL (pre ++ map s16 h) -> length pre = BL ->
  (length h + length l = NS (ua_parity u))%nat -> l <> [] ->
  exists u' w', mrun ua_call u l = Ok (u', repeat None (length l)) /\ ua_state u' = STOP /\ ua_parity u' = ua_parity u /\
    sr_ok BL (ua_reg u') w' /\ s16_window w' /\ lastn (NS (ua_parity u)) w' = map s16 (h ++ map sym_of l).
Proof.
  induction l as [|i t IH]; intros u w pre h St Hc H1 Hr Hs Hw Lp HL Hne; [congruence|].
  pose proof (NS_bound (ua_parity u)) as NB.
  destruct i as [[x o0] e0]. cbn [mrun length repeat map]. unfold ua_call at 1, ua_update. rewrite St.
  destruct (ua_data_case_ok u w x Hr) as (r & Hr' & E). rewrite E. cbn [bind]. cbn [length] in HL.
  assert (Hw' : tl w ++ [s16 x] = lastn BL (pre ++ map s16 (h ++ [x]))).
  { rewrite map_app. subst w. apply shift_window; auto. lia. }
  rewrite Hc, u32_id by lia. destruct t as [|i2 t].
  - cbn [length] in HL. destruct (Z.eqb_spec (Z.of_nat (NS (ua_parity u)) - Z.of_nat (length h) - 1) 0); [|lia].
    cbn [mrun bind length repeat]. eexists _, _. split; [reflexivity|]. cbn [ua_state ua_parity ua_reg map sym_of fst].
    split; [reflexivity|]. split; [reflexivity|]. split; [exact Hr'|]. split; [apply s16_window_shift; auto|].
    rewrite Hw'. rewrite (mwindow_full _ pre [] (h ++ [x])) by (try lia; rewrite app_length; cbn; lia).
    cbn [app]. f_equal. unfold lastn. rewrite app_length. cbn [length]. replace (length h + 1 - NS (ua_parity u))%nat with 0%nat by lia. reflexivity.
  - destruct (Z.eqb_spec (Z.of_nat (NS (ua_parity u)) - Z.of_nat (length h) - 1) 0); [cbn [length] in HL; lia|].
    edestruct (IH (UART (ua_parity u) (Z.of_nat (NS (ua_parity u)) - Z.of_nat (length h) - 1) (ua_state u) r) (tl w ++ [s16 x]) pre (h ++ [x]))
      as (u' & w' & E' & S' & P' & R' & W' & L'); auto.
    + cbn [ua_counter ua_parity]. rewrite app_length; cbn [length]; lia.
    + rewrite app_length; lia.
    + apply s16_window_shift; auto.
    + cbn [ua_parity]. rewrite app_length; cbn [length] in *; lia.
    + discriminate.
    + rewrite E'. cbn [bind]. eexists _, _. split; [reflexivity|]. split; [exact S'|]. split; [exact P'|]. split; [exact R'|]. split; [exact W'|].
      cbn [ua_parity] in L'. rewrite L', <- app_assoc. reflexivity.
Qed.
Lemma uart_char_mode p h u outs mid x o0 e0 y o1 e1 :
  mrun ua_call (ua_new p) h = Ok (u, outs) -> ua_receiving u = false ->
  length mid = (NS p - 1)%nat -> s16 x <> 0 ->
  let w := map s16 (x :: map sym_of mid) in
  exists u' o e, mrun ua_call u ((x, o0, e0) :: mid ++ [(y, o1, e1)]) = Ok (u', repeat None (NS p) ++ [Some (o, e)]) /\
    (e = false -> exists ph, mdominant (mode_of p) w ph /\ char_ok (mode_of p) (msymbols (mode_of p) w ph) o) /\
    (forall ph d, mdominant (mode_of p) w ph -> char_ok (mode_of p) (msymbols (mode_of p) w ph) d -> e = false /\ o = d).
Proof.
  intros E Hrec Lm Hx w. apply wfs_of_receiving in Hrec.
  destruct (um_run h _ [] (um_inv_new p)) as (u0 & outs0 & E0 & (w0 & Hr & Hs & Hm) & P0 & _). rewrite E in E0. inversion E0; subst u0 outs0.
  cbn [ua_new ua_parity] in P0. pose proof (NS_bound p) as NB.
  cbn [mrun]. unfold ua_call at 1, ua_update. rewrite Hrec. unfold zero_level_detect. destruct (Z.eqb_spec (s16 x) 0); [congruence|]. cbn [negb].
  set (u1 := UART (ua_parity u) _ DATA (ua_reg u)). assert (Hr1 : sr_ok BL (ua_reg u1) w0) by exact Hr.
  destruct (ua_data_case_ok u1 w0 x Hr1) as (r & Hr' & Ed). rewrite Ed. cbn [bind].
  assert (Ec : u32 (ua_counter u1 - 1) = Z.of_nat (NS p) - 1).
  { subst u1. cbn [ua_counter]. rewrite P0. destruct p; reflexivity. }
  rewrite Ec. destruct (Z.eqb_spec (Z.of_nat (NS p) - 1) 0); [lia|].
  set (u2 := UART (ua_parity u1) _ (ua_state u1) r). rewrite mrun_app.
  pose proof Hr as (_ & Lw0 & _).
  assert (Hw' : tl w0 ++ [s16 x] = lastn BL (w0 ++ map s16 [x])).
  { cbn [map]. symmetry. etransitivity; [symmetry; exact (shift_window BL w0 [] (s16 x) Lw0 ltac:(lia))|]. f_equal. f_equal.
    unfold lastn. rewrite app_nil_r, Lw0, Nat.sub_diag. reflexivity. }
  assert (P2 : ua_parity u2 = p) by exact P0.
  destruct (um_data_run mid u2 (tl w0 ++ [s16 x]) w0 [x]) as (u3 & w3 & E3 & S3 & P3 & R3 & W3 & L3); auto.
  { rewrite P2. cbn [u2 ua_counter length]. lia. }
  { apply s16_window_shift; auto. }
  { rewrite P2, Lm. cbn [length]. lia. }
  { intros ->. cbn in Lm. lia. }
  rewrite E3. cbn [bind mrun]. unfold ua_call, ua_update. rewrite S3.
  destruct (find_best_phase_mode u3 w3 o1 e1 R3 W3) as (o & e & E4 & F1 & F2).
  assert (V : view (ua_parity u3) w3 = w) by (unfold view; rewrite P3, L3; reflexivity).
  rewrite V in F1, F2. rewrite P3, P2 in F1, F2.
  rewrite E4; cbn [bind]. exists (UART (ua_parity u3) (ua_counter u3) WAIT_FOR_IDLE (ua_reg u3)), o, e.
  split; [|split; auto]. rewrite Lm. f_equal. f_equal. replace (NS p) with (S (NS p - 1)) at 2 by lia. reflexivity.
Qed.
Lemma uart_complete_mode p h u outs mid x o0 e0 y o1 e1 ph d :
  mrun ua_call (ua_new p) h = Ok (u, outs) -> ua_receiving u = false ->
  length mid = (NS p - 1)%nat -> s16 x <> 0 ->
  let w := map s16 (x :: map sym_of mid) in
  mdominant (mode_of p) w ph -> char_ok (mode_of p) (msymbols (mode_of p) w ph) d ->
  exists u', mrun ua_call u ((x, o0, e0) :: mid ++ [(y, o1, e1)]) = Ok (u', repeat None (NS p) ++ [Some (d, false)]).
Proof.
  intros E Hrec Lm Hx w D C. destruct (uart_char_mode p h u outs mid x o0 e0 y o1 e1 E Hrec Lm Hx) as (u' & o & e & E1 & _ & F2).
  destruct (F2 ph d D C) as (-> & ->). eauto.
Qed.

Lemma mdominant_unique m w p q : mdominant m w p -> mdominant m w q -> p = q.
Proof.
  intros (P1 & P2 & P3 & P4) (Q1 & Q2 & Q3 & Q4).
  destruct (Nat.lt_trichotomy p q) as [L|[L|L]]; auto.
  - specialize (Q3 p L). specialize (P4 q ltac:(lia)). lia.
  - specialize (P3 q L). specialize (Q4 p ltac:(lia)). lia.
Qed.
(** One wrong symbol in a character with parity bit: it is no character, or one with the same byte. *)
Lemma ones_diff (s s' : list Z) i : length s = length s' -> (i < length s)%nat ->
  (forall j, j <> i -> (nth j s' 0 =? 0) = (nth j s 0 =? 0)) -> (nth i s' 0 =? 0) <> (nth i s 0 =? 0) ->
  Nat.odd (ones s') = negb (Nat.odd (ones s)).
Proof.
  revert s' i. induction s as [|a t IH]; intros s' i L Hi Hj Hn; [cbn in Hi; lia|]. destruct s' as [|a' t']; [discriminate|].
  cbn [length] in *. destruct i as [|i].
  - assert (Et : ones t' = ones t).
    { assert (X : forall j, (nth j t' 0 =? 0) = (nth j t 0 =? 0)) by (intros j; exact (Hj (S j) ltac:(lia))).
      clear - X L. assert (length t = length t') by lia. clear L. revert t' H X. induction t as [|b t IH]; intros [|b' t'] L X; try discriminate; auto.
      unfold ones in *. cbn [filter]. pose proof (X 0%nat) as X0. cbn in X0. rewrite X0. 
      specialize (IH t' ltac:(cbn in L; lia) (fun j => X (S j))). destruct (b =? 0); cbn [length]; rewrite ?IH; auto. }
    unfold ones in *. cbn [filter nth] in *. destruct (a =? 0), (a' =? 0); try congruence; cbn [length]; rewrite Et, ?Nat.odd_succ, <- ?Nat.negb_odd, ?negb_involutive; reflexivity.
  - specialize (IH t' i ltac:(lia) ltac:(lia) (fun j Hji => Hj (S j) ltac:(lia)) Hn).
    pose proof (Hj 0%nat ltac:(lia)) as H0. cbn [nth] in H0. unfold ones in *. cbn [filter]. rewrite H0.
    destruct (a =? 0); cbn [length]; auto. rewrite !Nat.odd_succ, <- !Nat.negb_odd, IH, negb_involutive. destruct (Nat.odd _); reflexivity.
Qed.
Lemma sgn_zero_iff a b : Z.sgn a = Z.sgn b -> (a =? 0) = (b =? 0).
Proof. intros H. rewrite <- sgn_eqb0, H. apply sgn_eqb0. Qed.
Lemma one_symbol_same_byte odd s s' d d' : char_ok (Some odd) s d -> char_ok (Some odd) s' d' -> one_symbol_corrupted s s' -> d' = d.
Proof.
  intros C C' (L & i & Hi & Hne & Heq). pose proof (co_len _ _ _ C) as Ls. pose proof (co_len _ _ _ C') as Ls'. cbn [nsym] in *.
  assert (Same : (nth i s' 0 =? 0) = (nth i s 0 =? 0)).
  { destruct (Bool.bool_dec (nth i s' 0 =? 0) (nth i s 0 =? 0)) as [E|N]; auto. exfalso.
    assert (i <> 0)%nat.
    { intros ->. pose proof (co_start _ _ _ C). pose proof (co_start _ _ _ C'). destruct (Z.eqb_spec (nth 0 s 0) 0), (Z.eqb_spec (nth 0 s' 0) 0); congruence. }
    assert (i <> 10)%nat.
    { intros ->. pose proof (co_stop _ _ _ C) as S1. pose proof (co_stop _ _ _ C') as S2. cbn [nsym Nat.sub] in *. rewrite S1, S2 in N. congruence. }
    assert (X : forall q : list Z, length q = 11%nat -> forall j, nth j (firstn 9 (skipn 1 q)) 0 = if (j <? 9)%nat then nth (S j) q 0 else 0).
    { intros q Lq j. destruct (Nat.ltb_spec j 9).
      - change (S j) with (1 + j)%nat. rewrite <- (nth_skipn 1 q j 0). rewrite <- (firstn_skipn 9 (skipn 1 q)) at 2. rewrite app_nth1; auto. rewrite firstn_length, skipn_length. lia.
      - apply nth_overflow. rewrite firstn_length. lia. }
    pose proof (ones_diff (firstn 9 (skipn 1 s)) (firstn 9 (skipn 1 s')) (i - 1)) as D.
    rewrite !firstn_length, !skipn_length in D. specialize (D ltac:(lia) ltac:(lia)).
    rewrite (co_parity _ _ _ C odd eq_refl), (co_parity _ _ _ C' odd eq_refl) in D. destruct odd; cbn [negb] in D.
    all: exfalso; assert (Y : true = false); [|discriminate].
    all: first [apply D | symmetry; apply D].
    all: try (intros j Hj; rewrite !X by auto; destruct (Nat.ltb_spec j 9); auto; apply sgn_zero_iff, Heq; lia).
    all: rewrite !X by auto; destruct (Nat.ltb_spec (i - 1) 9); [|lia]; replace (S (i - 1)) with i by lia; exact N. }
  assert (Z0 : forall j, nth j s' 0 = 0 <-> nth j s 0 = 0).
  { intros j. destruct (Nat.eq_dec j i) as [->|Nj].
    - destruct (Z.eqb_spec (nth i s 0) 0), (Z.eqb_spec (nth i s' 0) 0); try discriminate; tauto.
    - rewrite <- (Z.eqb_eq (nth j s' 0)), <- (Z.eqb_eq (nth j s 0)), (sgn_zero_iff _ _ (Heq j Nj)). tauto. }
  pose proof (co_byte _ _ _ C). pose proof (co_byte _ _ _ C').
  apply (byte_of_bits _ _ (skipn 1 s)); auto.
  - intros k Hk. rewrite nth_skipn. pose proof (co_data _ _ _ C' k Hk) as D. rewrite Z0 in D. cbn [Nat.add].
    destruct (Z.eqb_spec (nth (S k) s 0) 0); [apply D; auto|]. destruct (Z.testbit d' (Z.of_nat k)); auto. exfalso. apply n, D; auto.
  - intros k Hk. rewrite nth_skipn. apply (co_data _ _ _ C k Hk).
Qed.
Lemma uart_one_symbol_mode p odd h u outs mid x o0 e0 y o1 e1 ph s d :
  mode_of p = Some odd ->
  mrun ua_call (ua_new p) h = Ok (u, outs) -> ua_receiving u = false -> length mid = 167%nat -> s16 x <> 0 ->
  let w := map s16 (x :: map sym_of mid) in
  mdominant (Some odd) w ph -> char_ok (Some odd) s d -> one_symbol_corrupted s (msymbols (Some odd) w ph) ->
  exists u' o e, mrun ua_call u ((x, o0, e0) :: mid ++ [(y, o1, e1)]) = Ok (u', repeat None 168 ++ [Some (o, e)]) /\ (e = true \/ o = d).
Proof.
  intros Hm E Hrec Lm Hx w D C K. pose proof (uart_char_mode p h u outs mid x o0 e0 y o1 e1 E Hrec) as H. rewrite Hm in H. cbn [nsamp] in H.
  destruct (H ltac:(lia) Hx) as (u' & o & e & E1 & F1 & _).
  exists u', o, e. split; auto. destruct e; auto. right. destruct (F1 eq_refl) as (q & Dq & Cq). fold w in Dq, Cq.
  rewrite (mdominant_unique _ _ _ _ Dq D) in Cq. exact (one_symbol_same_byte _ _ _ _ _ C Cq K).
Qed.
