(** P_Dsp.v -- proofs about the signal-processing blocks. *)
From Verif Require Import Base S_Containers M_ShiftReg M_Fifo D_Containers P_Containers S_Dsp M_Dsp.

(** ** A generic way to prove "every output is a function of the prefix" *)
Lemma pointwise_cons {A B} (f : list A -> B) x xs y ys :
  y = f [x] -> pointwise (fun l => f (x :: l)) xs ys -> pointwise f (x :: xs) (y :: ys).
Proof.
  intros E [L H]. split; [cbn; lia|]. intros [|k] Hk; cbn in *; [congruence|].
  rewrite (H k ltac:(lia)). reflexivity.
Qed.

Lemma mrun_pointwise {S A B} (step : S -> A -> res (S * B)) (inv : list A -> S -> Prop)
    (good : A -> Prop) (f : list A -> B) :
  (forall h s x, inv h s -> good x ->
     exists s', step s x = Ok (s', f (h ++ [x])) /\ inv (h ++ [x]) s') ->
  forall xs h s, inv h s -> Forall good xs ->
  exists s' ys, mrun step s xs = Ok (s', ys) /\ inv (h ++ xs) s' /\ pointwise (fun l => f (h ++ l)) xs ys.
Proof.
  intros Hstep. induction xs as [|x t IH]; intros h s Hi Hg; cbn [mrun].
  - eexists _, _; repeat split; eauto.
    + rewrite app_nil_r; auto.
    + intros k Hk; cbn in Hk; lia.
  - inversion Hg; subst. destruct (Hstep h s x Hi H1) as (s1 & E & H1').
    rewrite E; cbn [bind].
    destruct (IH (h ++ [x]) s1 H1' H2) as (s2 & ys & E2 & H2' & Hp). rewrite E2; cbn [bind].
    eexists _, _; split; [reflexivity|]. rewrite <- app_assoc in H2'. split; [exact H2'|].
    apply pointwise_cons; auto.
    destruct Hp as [Lp Hp]. split; auto. intros k Hk. rewrite Hp by auto. rewrite <- app_assoc. reflexivity.
Qed.

(** ** Resample *)
Lemma rs_run_spec {A} n : 0 <= n < 4294967296 ->
  forall (xs : list A) c, 0 <= c <= n ->
  exists s ys, mrun (fun r x => Ok (rs_update r x)) (RS c n) xs = Ok (s, ys) /\
    length ys = length xs /\
    forall k x, nth_error xs k = Some x ->
      nth_error ys k = Some (if (c + Z.of_nat k) mod (n + 1) =? 0 then Some x else None).
Proof.
  intros Hn xs; induction xs as [|x t IH]; intros c Hc; cbn [mrun].
  - eexists _, _; repeat split. intros [|k] y Hk; discriminate.
  - unfold rs_update at 1. cbn [rs_counter rs_n bind].
    set (c1 := if n <? u32 (c + 1) then 0 else u32 (c + 1)).
    assert (Hc1 : 0 <= c1 <= n /\ c1 = (c + 1) mod (n + 1)).
    { unfold c1, u32. destruct (Z.eq_dec (c + 1) 4294967296) as [E|E].
      - replace ((c + 1) mod 4294967296) with 0 by (rewrite E; reflexivity).
        destruct (Z.ltb_spec n 0); split; try lia.
        all: replace (n + 1) with (c + 1) by lia; rewrite Z.mod_same by lia; reflexivity.
      - rewrite Z.mod_small by lia. destruct (Z.ltb_spec n (c + 1)); split; try lia.
        + replace (c + 1) with (n + 1) by lia. rewrite Z.mod_same; lia.
        + rewrite Z.mod_small; lia. }
    destruct Hc1 as [Hr Hm].
    destruct (IH c1 Hr) as (s & ys & E & L & H). rewrite E; cbn [bind].
    eexists _, _; split; [reflexivity|]. split; [cbn; lia|].
    intros [|k] y Hk; cbn [nth_error] in *.
    + inversion Hk; subst. rewrite Z.add_0_r, Z.mod_small by lia. reflexivity.
    + rewrite (H k y Hk). rewrite Hm, Nat2Z.inj_succ.
      rewrite Zplus_mod_idemp_l. replace (c + 1 + Z.of_nat k) with (c + Z.succ (Z.of_nat k)) by lia. reflexivity.
Qed.

Lemma resample_spec {A} n (xs : list A) : 0 <= n < 4294967296 ->
  exists s ys, mrun (fun r x => Ok (rs_update r x)) (rs_new n) xs = Ok (s, ys) /\
    length ys = length xs /\
    forall k x, nth_error xs k = Some x ->
      nth_error ys k = Some (if Z.of_nat k mod (n + 1) =? 0 then Some x else None).
Proof. intros Hn. apply (rs_run_spec n Hn xs 0). lia. Qed.

(** ** DCblock *)
Definition dcB : Z := 256 * 16000.
Definition dc_inv (d : dcblock) : Prop :=
  - dcB <= dc_x d <= dcB /\ - (dcB + 127) <= dc_y d - dc_x d <= dcB.

Lemma asr8 z : asr z 8 = z / 256. Proof. apply asr_div; lia. Qed.

Lemma dc_step d x : dc_inv d -> -16000 <= x <= 16000 ->
  exists d', dc_update d x = Ok (d', dc_y d' / 256) /\ dc_inv d' /\
    dc_y d' = 256 * x - dc_x d + 254 * dc_y d / 256 /\ dc_x d' = 256 * x.
Proof.
  intros [Hx Hz] Hi. unfold dc_update, dc_coeff. unfold dcB in *.
  rewrite (chk32_ok (x * 256)) by lia; cbn [bind].
  rewrite chk32_ok by lia; cbn [bind]. rewrite chk32_ok by lia; cbn [bind].
  rewrite !asr8.
  pose proof (Z.div_mod (254 * dc_y d) 256 ltac:(lia)) as E.
  pose proof (Z.mod_pos_bound (254 * dc_y d) 256 ltac:(lia)).
  assert (Hb : - (dcB + 127) <= (x * 256 - dc_x d + 254 * dc_y d / 256) - 256 * x <= dcB).
  { unfold dcB. lia. }
  unfold dcB in Hb.
  rewrite chk32_ok by lia; cbn [bind].
  exists (DC (x * 256 - dc_x d + 254 * dc_y d / 256) (x * 256)).
  split; [rewrite asr8; reflexivity|]. unfold dc_inv, dcB; cbn [dc_x dc_y]. repeat split; lia.
Qed.

Lemma dc_new_inv : dc_inv dc_new.
Proof. unfold dc_inv, dc_new, dcB; cbn. lia. Qed.

Lemma dc_run_ok xs : forall d, dc_inv d -> bounded 16000 xs ->
  exists d' ys, mrun dc_update d xs = Ok (d', ys) /\ dc_inv d' /\ bounded 32001 ys.
Proof.
  induction xs as [|x t IH]; intros d Hd Hb; cbn [mrun].
  - eexists _, _; repeat split; eauto; try apply Hd. constructor.
  - inversion Hb; subst. destruct (dc_step d x Hd ltac:(lia)) as (d1 & E & H1' & _). rewrite E; cbn [bind].
    destruct (IH d1 H1' H2) as (d2 & ys & E2 & H2' & Hy). rewrite E2; cbn [bind].
    eexists _, _; repeat split; eauto; try apply H2'.
    constructor; auto. destruct H1' as [Ha Hc]. unfold dcB in *.
    pose proof (Z.div_mod (dc_y d1) 256 ltac:(lia)).
    pose proof (Z.mod_pos_bound (dc_y d1) 256 ltac:(lia)). lia.
Qed.

Lemma dcblock_no_overflow xs : bounded 16000 xs ->
  exists d ys, mrun dc_update dc_new xs = Ok (d, ys) /\ bounded 32001 ys.
Proof.
  intros H. destruct (dc_run_ok xs dc_new dc_new_inv H) as (d & ys & E & _ & Hy). eauto.
Qed.

(** Decay with constant input: y -> floor(254 y / 256). *)
Definition dc_f (y : Z) : Z := 254 * y / 256.
Lemma dc_f_mono a b : a <= b -> dc_f a <= dc_f b.
Proof. intros H. unfold dc_f. apply Z.div_le_mono; lia. Qed.
Fixpoint dc_iter (n : nat) (y : Z) : Z := match n with O => y | S k => dc_iter k (dc_f y) end.
Lemma dc_iter_mono n : forall a b, a <= b -> dc_iter n a <= dc_iter n b.
Proof. induction n as [|n IH]; cbn; intros a b H; auto. apply IH, dc_f_mono; auto. Qed.

Definition dc_settle : nat := 1485.
Lemma dc_iter_top : dc_iter dc_settle (2 * dcB) = 0. Proof. vm_compute. reflexivity. Qed.
Lemma dc_iter_bot : dc_iter dc_settle (- (2 * dcB + 127)) = -127. Proof. vm_compute. reflexivity. Qed.

Lemma dc_f_fix y : -127 <= y <= 0 -> dc_f y = y.
Proof. intros H. unfold dc_f. symmetry. apply Z.div_unique with (r := 254 * y - 256 * y); lia. Qed.

Lemma dc_const_run c m : -16000 <= c <= 16000 -> forall d, dc_inv d -> dc_x d = 256 * c ->
  exists d' ys, mrun dc_update d (repeat c m) = Ok (d', ys) /\ dc_inv d' /\ length ys = m /\
    forall k, (k < m)%nat -> nth_error ys k = Some (dc_iter (S k) (dc_y d) / 256).
Proof.
  intros Hc. induction m as [|m IH]; intros d Hd Hx; cbn [repeat mrun].
  - eexists _, _; repeat split; eauto; try apply Hd. intros; lia.
  - destruct (dc_step d c Hd Hc) as (d1 & E & H1 & Ey & Ex). rewrite E; cbn [bind].
    destruct (IH d1 H1 Ex) as (d2 & ys & E2 & H2 & L & H). rewrite E2; cbn [bind].
    assert (Ef : dc_y d1 = dc_f (dc_y d)) by (unfold dc_f; lia).
    eexists _, _; repeat split; eauto; try apply H2; try (cbn; lia).
    intros [|k] Hk; cbn [nth_error].
    + rewrite Ef. reflexivity.
    + rewrite H by lia. rewrite Ef. reflexivity.
Qed.

Lemma dc_iter_S n y : dc_iter (S n) y = dc_f (dc_iter n y).
Proof. revert y; induction n as [|n IH]; intros y; cbn; auto. cbn in IH. rewrite <- IH. reflexivity. Qed.

Lemma dc_iter_settled n y : - (2 * dcB + 127) <= y <= 2 * dcB -> (dc_settle <= n)%nat ->
  -127 <= dc_iter n y <= 0.
Proof.
  intros Hy Hn. induction Hn.
  - pose proof (dc_iter_mono dc_settle y (2 * dcB) ltac:(lia)).
    pose proof (dc_iter_mono dc_settle (- (2 * dcB + 127)) y ltac:(lia)).
    rewrite dc_iter_top in *. rewrite dc_iter_bot in *. lia.
  - rewrite dc_iter_S, dc_f_fix; auto.
Qed.

Lemma div256_abs a b : (0 <= b <= a \/ a <= b <= 0) -> Z.abs (b / 256) <= Z.abs (a / 256).
Proof.
  intros H. pose proof (Z.div_mod a 256 ltac:(lia)). pose proof (Z.mod_pos_bound a 256 ltac:(lia)).
  pose proof (Z.div_mod b 256 ltac:(lia)). pose proof (Z.mod_pos_bound b 256 ltac:(lia)). lia.
Qed.

(** C08 *)
Lemma dcblock_settles hist c m :
  bounded 16000 hist -> -16000 <= c <= 16000 ->
  exists d ys, mrun dc_update dc_new (hist ++ repeat c (S m)) = Ok (d, ys) /\
    length ys = (length hist + S m)%nat /\
    (forall k a b, (length hist <= k)%nat ->
       nth_error ys k = Some a -> nth_error ys (S k) = Some b -> Z.abs b <= Z.abs a) /\
    (forall k a, (length hist + 1485 <= k)%nat -> nth_error ys k = Some a -> a = 0 \/ a = -1) /\
    (forall k a b, (length hist + 1485 <= k)%nat ->
       nth_error ys k = Some a -> nth_error ys (S k) = Some b -> b = a).
Proof.
  intros Hh Hc.
  destruct (dc_run_ok hist dc_new dc_new_inv Hh) as (d1 & y1 & E1 & H1 & _).
  destruct (dc_step d1 c H1 Hc) as (d2 & E2 & H2 & Ey & Ex).
  destruct (dc_const_run c m Hc d2 H2 Ex) as (d3 & y3 & E3 & H3 & L3 & Hn).
  rewrite mrun_app, E1; cbn [bind repeat mrun]. rewrite E2; cbn [bind]. rewrite E3; cbn [bind].
  pose proof (mrun_length _ _ _ _ _ E1) as L1.
  eexists _, _; split; [reflexivity|].
  assert (Hy2 : - (2 * dcB + 127) <= dc_y d2 <= 2 * dcB).
  { destruct H2 as [Ha Hb]. lia. }
  assert (Hnth : forall k, (k < length y1 + S m)%nat -> (length y1 <= k)%nat ->
      nth_error (y1 ++ dc_y d2 / 256 :: y3) k = Some (dc_iter (k - length y1) (dc_y d2) / 256)).
  { intros k Hk Hk'. rewrite nth_error_app2 by lia.
    destruct (k - length y1)%nat as [|j] eqn:Ej; cbn [nth_error dc_iter]; auto.
    rewrite Hn by lia. reflexivity. }
  assert (Hlen : length (y1 ++ dc_y d2 / 256 :: y3) = (length hist + S m)%nat).
  { rewrite app_length; cbn [length]. lia. }
  split; [exact Hlen|]. set (ys := y1 ++ dc_y d2 / 256 :: y3) in *. repeat split.
  - intros k a b Hk Ha Hb.
    assert (S k < length ys)%nat by (apply nth_error_Some; congruence).
    rewrite Hnth in Ha, Hb by lia. replace (S k - length y1)%nat with (S (k - length y1)) in Hb by lia.
    rewrite dc_iter_S in Hb. injection Ha as <-. injection Hb as <-.
    set (y := dc_iter (k - length y1) (dc_y d2)). apply div256_abs. unfold dc_f.
    pose proof (Z.div_mod (254 * y) 256 ltac:(lia)). pose proof (Z.mod_pos_bound (254 * y) 256 ltac:(lia)). lia.
  - intros k a Hk Ha.
    assert (k < length ys)%nat by (apply nth_error_Some; congruence).
    rewrite Hnth in Ha by lia. inversion Ha; subst.
    pose proof (dc_iter_settled (k - length y1) (dc_y d2) Hy2 ltac:(unfold dc_settle; lia)) as Hs.
    pose proof (Z.div_mod (dc_iter (k - length y1) (dc_y d2)) 256 ltac:(lia)).
    pose proof (Z.mod_pos_bound (dc_iter (k - length y1) (dc_y d2)) 256 ltac:(lia)). lia.
  - intros k a b Hk Ha Hb.
    assert (S k < length ys)%nat by (apply nth_error_Some; congruence).
    rewrite Hnth in Ha, Hb by lia. replace (S k - length y1)%nat with (S (k - length y1)) in Hb by lia.
    rewrite dc_iter_S in Hb. injection Ha as <-. injection Hb as <-. rewrite dc_f_fix; auto.
    apply dc_iter_settled; auto. unfold dc_settle; lia.
Qed.

(** ** FIR *)
Definition abs_sum (l : list Z) : Z := fold_right (fun c a => Z.abs c + a) 0 l.

Lemma dot_fits_bounded B (wb : list Z) : 0 <= B -> forall wa acc,
  bounded B wa -> Z.abs acc + B * abs_sum wb <= 2147483647 -> dot_fits acc wa wb = true.
Proof.
  intros HB. induction wb as [|c tb IH]; intros [|x ta] acc Hb Hs; cbn [dot_fits]; auto.
  inversion Hb; subst. cbn [abs_sum fold_right] in Hs. fold (abs_sum tb) in Hs.
  assert (Ht : 0 <= abs_sum tb).
  { clear. induction tb; cbn; [lia|]. fold (abs_sum tb). lia. }
  assert (Hxc : Z.abs (x * c) <= B * Z.abs c).
  { rewrite Z.abs_mul. apply Z.mul_le_mono_nonneg_r; lia. }
  assert (0 <= B * abs_sum tb) by (apply Z.mul_nonneg_nonneg; lia).
  rewrite Z.mul_add_distr_l in Hs.
  rewrite IH; auto; [|lia].
  unfold in_i32.
  destruct (Z.leb_spec (-2147483648) (x * c)), (Z.leb_spec (x * c) 2147483647),
           (Z.leb_spec (-2147483648) (acc + x * c)), (Z.leb_spec (acc + x * c) 2147483647); cbn; lia.
Qed.

Lemma bounded_app B l1 l2 : bounded B (l1 ++ l2) <-> bounded B l1 /\ bounded B l2.
Proof. unfold bounded. apply Forall_app. Qed.
Lemma bounded_skipn B n l : bounded B l -> bounded B (skipn n l).
Proof. intros H. rewrite <- (firstn_skipn n l) in H. apply bounded_app in H. tauto. Qed.
Lemma bounded_firstn B n l : bounded B l -> bounded B (firstn n l).
Proof. intros H. rewrite <- (firstn_skipn n l) in H. apply bounded_app in H. tauto. Qed.
Lemma bounded_lastn B n l : bounded B l -> bounded B (lastn n l).
Proof. apply bounded_skipn. Qed.
Lemma bounded_repeat0 B n : 0 <= B -> bounded B (repeat 0 n).
Proof. intros H. induction n; constructor; auto; lia. Qed.

Definition fir_inv (h : list Z) (f : fir) : Prop :=
  bounded 50000 h /\ sr_ok 7 (fir_reg f) (lastn 7 (repeat 0 7 ++ h)) /\ sr_ok 7 (fir_coeff f) taps.

Lemma fir_new_inv buf : length buf = 14%nat -> exists f, fir_new buf = Ok f /\ fir_inv [] f.
Proof.
  intros L. unfold fir_new.
  destruct (sr_new_init_ok 7 buf fir_coefficients ltac:(lia) ltac:(cbn; lia) L) as (s & E & H).
  rewrite E; cbn [bind]. eexists; split; [reflexivity|]. unfold fir_inv; cbn [fir_reg fir_coeff].
  split; [constructor|]. split; [|exact H].
  rewrite app_nil_r. unfold lastn. rewrite repeat_length, Nat.sub_diag. apply (sr_new_ok 7 0); lia.
Qed.

Lemma fir_step h f x : fir_inv h f -> -50000 <= x <= 50000 ->
  exists f', fir_update f x = Ok (f', fir_spec (h ++ [x])) /\ fir_inv (h ++ [x]) f'.
Proof.
  intros (Hb & Hr & Hc) Hx. unfold fir_update.
  destruct (sr_update_ok 7 (fir_reg f) _ x Hr) as (r & E & H). rewrite E; cbn [bind].
  rewrite shift_window in H by (try apply repeat_length; lia).
  assert (Hb' : bounded 50000 (h ++ [x])).
  { apply bounded_app; split; auto. constructor; [lia|constructor]. }
  rewrite (convolute_spec 7 7 r (fir_coeff f) _ _ H Hc).
  rewrite (dot_fits_bounded 50000); cbn [bind]; try lia.
  - rewrite asr_div by lia. eexists; split; [reflexivity|]. split; [|split]; auto.
  - apply bounded_lastn, bounded_app; split; auto. apply bounded_repeat0; lia.
  - vm_compute. discriminate.
Qed.

Lemma fir_correct buf xs : length buf = 14%nat -> bounded 50000 xs ->
  exists f f' ys, fir_new buf = Ok f /\ mrun fir_update f xs = Ok (f', ys) /\ pointwise fir_spec xs ys.
Proof.
  intros L Hb. destruct (fir_new_inv buf L) as (f & E & H).
  destruct (mrun_pointwise fir_update fir_inv (fun x => -50000 <= x <= 50000) fir_spec
              (fun h s x => fir_step h s x) xs [] f H Hb) as (f' & ys & E2 & _ & Hp).
  exists f, f', ys; auto.
Qed.

(** DC gain and time invariance of the specification itself. *)
Lemma lastn_app_exact {A} n (l w : list A) : length w = n -> lastn n (l ++ w) = w.
Proof.
  intros H. unfold lastn. rewrite app_length, H. replace (length l + n - n)%nat with (length l) by lia.
  rewrite skipn_app, skipn_all, Nat.sub_diag. reflexivity.
Qed.

Lemma lastn_lastn_app {A} n (a b : list A) : (n <= length b)%nat -> lastn n (a ++ b) = lastn n b.
Proof.
  intros H. unfold lastn. rewrite app_length, skipn_app.
  replace (length a + length b - n - length a)%nat with (length b - n)%nat by lia.
  rewrite skipn_all2 by lia. reflexivity.
Qed.

Lemma fir_spec_window h w : length w = 7%nat -> fir_spec (h ++ w) = dot w taps / 32768.
Proof.
  intros H. unfold fir_spec. rewrite app_assoc, lastn_app_exact; auto.
Qed.

Lemma fir_spec_dc h x : fir_spec (h ++ repeat x 7) = 33237 * x / 32768.
Proof.
  rewrite fir_spec_window by apply repeat_length. f_equal.
  cbn [repeat dot taps]. lia.
Qed.

(** ** Level *)
Definition enc (s : line3) : Z := match s with Idle => 0 | High => 1 | Low => -1 end.

Lemma lv_step s x : -80000000 <= x <= 80000000 ->
  exists s', hyst s x s' /\ lv_update (fun z => z) (enc s) x = Ok (enc s', level_out s' x).
Proof.
  intros Hx. unfold lv_update, lv_next, BUS_HIGH_MV, BUS_LOW_MV.
  destruct s; cbn [enc Z.eqb].
  - destruct (Z.leb_spec 1400 x).
    { exists High; split; [constructor; lia|]. reflexivity. }
    destruct (Z.leb_spec x (- (1400))).
    { exists Low; split; [constructor; lia|]. reflexivity. }
    exists Idle; split; [constructor; lia|]. cbn [Z.eqb]. rewrite chk32_ok by lia. cbn [bind level_out enc].
    rewrite asr8, (Z.mul_comm x 26). reflexivity.
  - destruct (Z.ltb_spec x 600).
    + exists Idle; split; [constructor; lia|]. cbn [Z.eqb]. rewrite chk32_ok by lia. cbn [bind level_out enc].
      rewrite asr8, (Z.mul_comm x 26). reflexivity.
    + exists High; split; [constructor; lia|]. reflexivity.
  - destruct (Z.ltb_spec (- (600)) x).
    + exists Idle; split; [constructor; lia|]. cbn [Z.eqb]. rewrite chk32_ok by lia. cbn [bind level_out enc].
      rewrite asr8, (Z.mul_comm x 26). reflexivity.
    + exists Low; split; [constructor; lia|]. reflexivity.
Qed.

Lemma level_run xs : forall s, bounded 80000000 xs ->
  exists st ys ss, mrun (lv_update (fun z => z)) (enc s) xs = Ok (st, ys) /\ hyst_run s xs ss /\
    length ss = length xs /\ ys = map (fun p => level_out (fst p) (snd p)) (combine ss xs).
Proof.
  induction xs as [|x t IH]; intros s Hb; cbn [mrun].
  - eexists _, _, []; repeat split. constructor.
  - inversion Hb; subst. destruct (lv_step s x ltac:(lia)) as (s' & H & E). rewrite E; cbn [bind].
    destruct (IH s' H2) as (st & ys & ss & E2 & Hr & L & Hy). rewrite E2; cbn [bind].
    eexists _, _, (s' :: ss); repeat split.
    + econstructor; eauto.
    + cbn; lia.
    + cbn. f_equal; auto.
Qed.

Lemma level_correct xs : bounded 80000000 xs ->
  exists st ys ss, mrun (lv_update (fun z => z)) lv_new xs = Ok (st, ys) /\ hyst_run Idle xs ss /\
    length ss = length xs /\ ys = map (fun p => level_out (fst p) (snd p)) (combine ss xs).
Proof. intros H. apply (level_run xs Idle H). Qed.

Lemma hyst_run_nth s xs ss k x s' :
  hyst_run s xs ss -> nth_error xs k = Some x -> nth_error ss k = Some s' ->
  exists s0, hyst s0 x s' /\
    match k with O => s0 = s | S k' => nth_error ss k' = Some s0 end.
Proof.
  intros H; revert k; induction H as [|s x0 t s1 ss H Hr IH]; intros [|k] Hx Hs; cbn in *; try discriminate.
  - inversion Hx; inversion Hs; subst. eauto.
  - destruct (IH k Hx Hs) as (s0 & H0 & Hk). exists s0; split; auto.
    destruct k; cbn in *; congruence.
Qed.

Lemma hyst_run_length s xs ss : hyst_run s xs ss -> length ss = length xs.
Proof. induction 1; cbn; auto. Qed.

Lemma nth_error_combine {A B} (l1 : list A) (l2 : list B) k :
  nth_error (combine l1 l2) k =
  match nth_error l1 k, nth_error l2 k with Some a, Some b => Some (a, b) | _, _ => None end.
Proof.
  revert l2 k; induction l1 as [|a t IH]; intros [|b t2] [|k]; cbn; auto.
  destruct (nth_error t k); auto.
Qed.

(** C11, guarded: a full-level sample is passed unchanged unless the sample before it was at full
    low level of the other polarity (beyond -600 / 600). *)
Lemma level_full_passes xs st ys k x :
  bounded 80000000 xs ->
  mrun (lv_update (fun z => z)) lv_new xs = Ok (st, ys) ->
  nth_error xs k = Some x -> 1400 <= Z.abs x ->
  (forall p, k <> 0%nat -> nth_error xs (k - 1) = Some p -> (x > 0 -> p > -600) /\ (x < 0 -> p < 600)) ->
  nth_error ys k = Some x.
Proof.
  intros Hb E Hx Ha Hp.
  destruct (level_correct xs Hb) as (st' & ys' & ss & E' & Hr & L & Hy).
  rewrite E in E'; inversion E'; subst st' ys'. clear E'. subst ys.
  rewrite nth_error_map, nth_error_combine, Hx.
  assert (k < length xs)%nat by (apply nth_error_Some; congruence).
  destruct (nth_error ss k) as [s|] eqn:Es; [|apply nth_error_None in Es; lia].
  cbn. f_equal.
  destruct (hyst_run_nth _ _ _ _ _ _ Hr Hx Es) as (s0 & H0 & Hk).
  destruct k as [|k].
  - subst s0. inversion H0; subst; cbn; auto; lia.
  - cbn in Hp. replace (k - 0)%nat with k in Hp by lia.
    destruct (nth_error xs k) as [p|] eqn:Ep; [|apply nth_error_None in Ep; lia].
    destruct (Hp p ltac:(lia) eq_refl) as [P1 P2].
    destruct (hyst_run_nth _ _ _ _ _ _ Hr Ep Hk) as (s1 & H1 & _).
    inversion H0; subst; cbn; auto; try lia.
    all: inversion H1; subst; lia.
Qed.

(** ** UARTBit (the firmware's instance, N = 16) *)
Definition bit_ok (b : uartbit) (w : list Z) : Prop :=
  sr_ok 16 (SR (ub_data b) (ub_off b)) w /\ sr_ok 16 (SR (ub_abs b) (ub_off b)) (map Z.abs w) /\
  ub_level b = 4921.

Lemma bit_new_ok : exists b, bit_new = Ok b /\ bit_ok b (repeat 0 16).
Proof.
  unfold bit_new, ub_new.
  replace (ub_receiver_level 16 BUS_HIGH_MV BUS_LOW_MV 224) with (@Ok Z 4921) by (vm_compute; reflexivity).
  cbn [bind]. eexists; split; [reflexivity|]. unfold bit_ok; cbn [ub_data ub_abs ub_off ub_level].
  split; [|split; auto]. apply (sr_new_ok 16 0); lia. apply (sr_new_ok 16 0); lia.
Qed.

Lemma ub_sum_ok B d : 0 <= B -> forall k i acc l,
  (forall j, (j < k)%nat -> nth_error d (i + j) = nth_error l j) -> length l = k ->
  bounded B l -> Z.abs acc + B * Z.of_nat k <= 2147483647 ->
  ub_sum d i k acc = Ok (acc + sumZ l).
Proof.
  intros HB. induction k as [|k IH]; intros i acc l Hd L Hb Hs; cbn [ub_sum].
  - destruct l; [|discriminate]. cbn. f_equal. lia.
  - destruct l as [|x t]; [discriminate|]. inversion Hb; subst. cbn [length] in L.
    pose proof (Hd 0%nat ltac:(lia)) as H0. rewrite Nat.add_0_r in H0. cbn in H0.
    unfold aget; rewrite H0; cbn [bind].
    rewrite Nat2Z.inj_succ in Hs.
    assert (0 <= B * Z.of_nat k) by (apply Z.mul_nonneg_nonneg; lia).
    rewrite chk32_ok by lia. cbn [bind].
    rewrite (IH (S i) (acc + x) t); auto.
    + cbn [sumZ fold_right]. f_equal. unfold sumZ. lia.
    + intros j Hj. specialize (Hd (S j) ltac:(lia)). cbn in Hd. rewrite <- Hd. f_equal. lia.
    + lia.
Qed.

Lemma sumZ_bounded B l : 0 <= B -> bounded B l -> - (B * Z.of_nat (length l)) <= sumZ l <= B * Z.of_nat (length l).
Proof.
  intros HB H; induction H as [|x t Hx Ht IH]; cbn [sumZ fold_right length]; [lia|].
  fold (sumZ t). rewrite Nat2Z.inj_succ. lia.
Qed.

Lemma sumZ_abs_nonneg l : 0 <= sumZ (map Z.abs l).
Proof. induction l; cbn; [lia|]. fold (sumZ (map Z.abs l)). lia. Qed.

Lemma bounded_abs B l : bounded B l -> bounded B (map Z.abs l).
Proof. intros H; induction H; cbn; constructor; auto; lia. Qed.

Lemma bit_step b w x : bit_ok b w -> bounded 130000000 w -> -130000000 <= x <= 130000000 ->
  exists b', bit_update b x = Ok (b', mf (tl w ++ [x])) /\ bit_ok b' (tl w ++ [x]).
Proof.
  intros (Hd & Ha & Hl) Hb Hx. unfold bit_update, ub_update, ub_shift_in.
  pose proof Hd as (Ld & Lw & Ho & _). pose proof Ha as (La & _). cbn [sr_data sr_off] in *.
  rewrite (chk32_ok (Z.abs x)) by lia. cbn [bind].
  unfold assert_. destruct (Nat.ltb_spec (ub_off b) 16); [|lia]. cbn [bind].
  destruct (sr_store_ok 16 _ _ x Hd) as (sd & Ed & Hd').
  destruct (sr_store_ok 16 _ _ (Z.abs x) Ha) as (sa & Ea & Ha').
  unfold sr_store in Ed, Ea. cbn [sr_data sr_off] in Ed, Ea.
  destruct (aset (ub_data b) (ub_off b) x) as [d1|] eqn:E1; cbn [bind] in *; [|discriminate].
  destruct (aset d1 (ub_off b + 16) x) as [d2|] eqn:E2; cbn [bind] in *; [|discriminate].
  destruct (aset (ub_abs b) (ub_off b) (Z.abs x)) as [a1|] eqn:E3; cbn [bind] in *; [|discriminate].
  destruct (aset a1 (ub_off b + 16) (Z.abs x)) as [a2|] eqn:E4; cbn [bind] in *; [|discriminate].
  inversion Ed; subst sd; clear Ed. inversion Ea; subst sa; clear Ea.
  set (off := if (S (ub_off b) =? 16)%nat then 0%nat else S (ub_off b)) in *.
  assert (Hmap : map Z.abs (tl w ++ [x]) = tl (map Z.abs w) ++ [Z.abs x]).
  { rewrite map_app. destruct w; reflexivity. }
  rewrite <- Hmap in Ha'.
  set (w' := tl w ++ [x]) in *.
  assert (Hb' : bounded 130000000 w').
  { apply bounded_app. split; [destruct w; auto; inversion Hb; auto|]. constructor; [lia|constructor]. }
  assert (Lw' : length w' = 16%nat) by (apply Hd').
  assert (Hok : bit_ok {| ub_data := d2; ub_abs := a2; ub_level := ub_level b; ub_off := off |} w').
  { split; [|split]; auto. }
  cbn [ub_data ub_abs ub_level ub_off].
  destruct Hd' as (Ld' & _ & Ho' & Hwd). destruct Ha' as (La' & _ & _ & Hwa). cbn [sr_data sr_off] in *.
  assert (H0 : aget a2 off = Ok (Z.abs (nth 0 w' 0))).
  { destruct (Hwa 0%nat ltac:(lia)) as [H0 _]. rewrite Nat.add_0_r in H0. unfold aget. rewrite H0.
    destruct w' as [|y t]; [discriminate|]. reflexivity. }
  rewrite H0; cbn [bind].
  assert (L16 : exists x0 x1 x2 x3 x4 x5 x6 x7 x8 x9 x10 x11 x12 x13 x14 x15,
     w' = [x0;x1;x2;x3;x4;x5;x6;x7;x8;x9;x10;x11;x12;x13;x14;x15]).
  { clearbody w'. do 16 (destruct w' as [|? w']; [discriminate|]). destruct w'; [|discriminate].
    repeat eexists. }
  change (16 / 2 - 1)%nat with 7%nat. change (16 / 2 + 2)%nat with 10%nat. change (16 - 10)%nat with 6%nat.
  assert (Bw1 : bounded 130000000 (firstn 7 (skipn 1 w'))) by (apply bounded_firstn, bounded_skipn; auto).
  assert (Bw2 : bounded 130000000 (map Z.abs (firstn 6 (skipn 10 w')))) by
    (apply bounded_abs, bounded_firstn, bounded_skipn; auto).
  assert (Bw0 : Z.abs (nth 0 w' 0) <= 130000000).
  { destruct w' as [|y t]; [discriminate|]. inversion Hb'; subst. cbn. lia. }
  rewrite (ub_sum_ok 130000000 d2 ltac:(lia) 7 (off + 1) 0 (firstn 7 (skipn 1 w'))); auto; try lia.
  2:{ intros j Hj. rewrite nth_error_firstn, nth_error_skipn.
      destruct (Nat.ltb_spec j 7); [|lia].
      destruct (Hwd (1 + j)%nat ltac:(lia)) as [Hj1 _]. rewrite <- Hj1. f_equal. lia. }
  2:{ rewrite firstn_length, skipn_length. lia. }
  cbn [bind].
  rewrite (ub_sum_ok 130000000 a2 ltac:(lia) 6 (off + 10) _ (map Z.abs (firstn 6 (skipn 10 w')))); auto; try lia.
  2:{ intros j Hj. rewrite nth_error_map, nth_error_firstn, nth_error_skipn.
      destruct (Nat.ltb_spec j 6); [|lia].
      destruct (Hwa (10 + j)%nat ltac:(lia)) as [Hj1 _]. rewrite nth_error_map in Hj1. rewrite <- Hj1. f_equal. lia. }
  2:{ rewrite map_length, firstn_length, skipn_length. lia. }
  cbn [bind]. rewrite Z.add_0_l.
  fold (mf_high w'). fold (mf_abs w').
  assert (B1 : - (130000000 * 7) <= mf_high w' <= 130000000 * 7).
  { unfold mf_high. pose proof (sumZ_bounded 130000000 (firstn 7 (skipn 1 w')) ltac:(lia) Bw1) as HS.
    rewrite firstn_length, skipn_length, Lw' in HS.
    change (Z.of_nat (Nat.min 7 (16 - 1))) with 7 in HS. lia. }
  assert (B2 : 0 <= mf_abs w' <= 130000000 * 7).
  { unfold mf_abs. pose proof (sumZ_bounded 130000000 (map Z.abs (firstn 6 (skipn 10 w'))) ltac:(lia) Bw2) as HS.
    rewrite map_length, firstn_length, skipn_length, Lw' in HS.
    change (Z.of_nat (Nat.min 6 (16 - 10))) with 6 in HS.
    pose proof (sumZ_abs_nonneg (firstn 6 (skipn 10 w'))). lia. }
  do 3 (rewrite chk32_ok by lia; cbn [bind]).
  rewrite Hl. unfold mf.
  destruct (Z.leb_spec 4921 (mf_high w' - mf_abs w')).
  - eexists; split; [reflexivity|]. rewrite Hl in Hok; exact Hok.
  - destruct (Z.leb_spec 4921 (- mf_high w' - mf_abs w')).
    + rewrite chk32_ok by lia. cbn [bind]. eexists; split; [|rewrite Hl in Hok; exact Hok].
      do 2 f_equal. lia.
    + eexists; split; [reflexivity|]. rewrite Hl in Hok; exact Hok.
Qed.

Definition bit_inv (h : list Z) (b : uartbit) : Prop :=
  bounded 130000000 h /\ bit_ok b (lastn 16 (repeat 0 16 ++ h)).

Lemma bit_step_hist h b x : bit_inv h b -> -130000000 <= x <= 130000000 ->
  exists b', bit_update b x = Ok (b', mf_spec (h ++ [x])) /\ bit_inv (h ++ [x]) b'.
Proof.
  intros [Hb Hk] Hx.
  assert (Hw : bounded 130000000 (lastn 16 (repeat 0 16 ++ h))).
  { apply bounded_lastn, bounded_app; split; auto. apply bounded_repeat0; lia. }
  destruct (bit_step b _ x Hk Hw Hx) as (b' & E & H').
  rewrite shift_window in * by (try apply repeat_length; lia).
  exists b'; split; auto. split; auto. apply bounded_app; split; auto. constructor; [lia|constructor].
Qed.

Lemma bit_correct xs : bounded 130000000 xs ->
  exists b b' ys, bit_new = Ok b /\ mrun bit_update b xs = Ok (b', ys) /\ pointwise mf_spec xs ys.
Proof.
  intros Hb. destruct bit_new_ok as (b & E & H).
  assert (Hi : bit_inv [] b).
  { split; [constructor|]. rewrite app_nil_r. unfold lastn. rewrite repeat_length, Nat.sub_diag. exact H. }
  destruct (mrun_pointwise bit_update bit_inv (fun x => -130000000 <= x <= 130000000) mf_spec
              (fun h s x => bit_step_hist h s x) xs [] b Hi Hb) as (b' & ys & E2 & _ & Hp).
  exists b, b', ys; auto.
Qed.

(** Consequences on the specification *)
Lemma mf_neg w : mf (map Z.opp w) = - mf w.
Proof.
  assert (H1 : mf_high (map Z.opp w) = - mf_high w).
  { unfold mf_high. rewrite skipn_map, firstn_map. induction (firstn 7 (skipn 1 w)); cbn; [lia|].
    unfold sumZ in *. cbn in *. lia. }
  assert (H2 : mf_abs (map Z.opp w) = mf_abs w).
  { unfold mf_abs. rewrite skipn_map, firstn_map, map_map. f_equal.
    - destruct w; cbn; lia.
    - f_equal. apply map_ext. intros; lia. }
  unfold mf. rewrite H1, H2.
  assert (0 <= mf_abs w) by (unfold mf_abs; pose proof (sumZ_abs_nonneg (firstn 6 (skipn 10 w))); lia).
  destruct (Z.leb_spec 4921 (- mf_high w - mf_abs w)), (Z.leb_spec 4921 (- - mf_high w - mf_abs w)),
    (Z.leb_spec 4921 (mf_high w - mf_abs w)); lia.
Qed.

Lemma map_opp_repeat0 n : repeat 0 n = map Z.opp (repeat 0 n).
Proof. induction n; cbn; congruence. Qed.

Lemma lastn_map {A B} (f : A -> B) n l : lastn n (map f l) = map f (lastn n l).
Proof. unfold lastn. rewrite map_length, skipn_map. reflexivity. Qed.

Lemma mf_spec_neg h : mf_spec (map Z.opp h) = - mf_spec h.
Proof.
  unfold mf_spec. rewrite <- mf_neg. f_equal.
  rewrite <- lastn_map, map_app, <- map_opp_repeat0. reflexivity.
Qed.

Lemma mf_spec_dc h c : mf_spec (h ++ repeat c 16) = 0.
Proof.
  unfold mf_spec. rewrite app_assoc, lastn_app_exact by apply repeat_length.
  unfold mf, mf_high, mf_abs. cbn [repeat skipn firstn map sumZ fold_right nth].
  destruct (Z.leb_spec 4921 (c + (c + (c + (c + (c + (c + (c + 0)))))) - (Z.abs c + (Z.abs c + (Z.abs c + (Z.abs c + (Z.abs c + (Z.abs c + (Z.abs c + 0))))))))); [lia|].
  destruct (Z.leb_spec 4921 (- (c + (c + (c + (c + (c + (c + (c + 0))))))) - (Z.abs c + (Z.abs c + (Z.abs c + (Z.abs c + (Z.abs c + (Z.abs c + (Z.abs c + 0))))))))); [lia|]. reflexivity.
Qed.

Lemma mf_quiet w : length w = 16%nat -> bounded 702 w -> mf w = 0.
Proof.
  intros L H. unfold mf.
  pose proof (sumZ_bounded 702 (firstn 7 (skipn 1 w)) ltac:(lia) (bounded_firstn _ _ _ (bounded_skipn _ _ _ H))) as HS.
  rewrite firstn_length, skipn_length, L in HS. change (Z.of_nat (Nat.min 7 (16 - 1))) with 7 in HS.
  fold (mf_high w) in HS.
  assert (0 <= mf_abs w) by (unfold mf_abs; pose proof (sumZ_abs_nonneg (firstn 6 (skipn 10 w))); lia).
  destruct (Z.leb_spec 4921 (mf_high w - mf_abs w)); [lia|].
  destruct (Z.leb_spec 4921 (- mf_high w - mf_abs w)); [lia|]. reflexivity.
Qed.

Lemma mf_spec_quiet h : bounded 702 h -> mf_spec h = 0.
Proof.
  intros H. unfold mf_spec. apply mf_quiet.
  - apply lastn_length. rewrite app_length, repeat_length. lia.
  - apply bounded_lastn, bounded_app; split; auto. apply bounded_repeat0; lia.
Qed.

Lemma mf_bound B w : 0 <= B -> length w = 16%nat -> bounded B w -> Z.abs (mf w) <= 7 * B.
Proof.
  intros HB L H.
  pose proof (sumZ_bounded B (firstn 7 (skipn 1 w)) HB (bounded_firstn _ _ _ (bounded_skipn _ _ _ H))) as HS.
  rewrite firstn_length, skipn_length, L in HS. change (Z.of_nat (Nat.min 7 (16 - 1))) with 7 in HS.
  fold (mf_high w) in HS.
  assert (0 <= mf_abs w) by (unfold mf_abs; pose proof (sumZ_abs_nonneg (firstn 6 (skipn 10 w))); lia).
  unfold mf. destruct (Z.leb_spec 4921 (mf_high w - mf_abs w)); [lia|].
  destruct (Z.leb_spec 4921 (- mf_high w - mf_abs w)); lia.
Qed.

Lemma mf_spec_bound B h : 0 <= B -> bounded B h -> Z.abs (mf_spec h) <= 7 * B.
Proof.
  intros HB H. apply mf_bound; auto.
  - apply lastn_length. rewrite app_length, repeat_length. lia.
  - apply bounded_lastn, bounded_app; split; auto. apply bounded_repeat0; lia.
Qed.

Lemma pointwise_Forall {A B} (f : list A -> B) (P : B -> Prop) xs ys :
  pointwise f xs ys -> (forall k, (k < length xs)%nat -> P (f (firstn (S k) xs))) -> Forall P ys.
Proof.
  intros [L H] HP. apply Forall_forall. intros y Hy. apply In_nth_error in Hy as (k & Hk).
  assert (k < length ys)%nat by (apply nth_error_Some; congruence).
  rewrite H in Hk by lia. inversion Hk; subst. apply HP. lia.
Qed.

Lemma bounded_weaken a b l : a <= b -> bounded a l -> bounded b l.
Proof. intros H. apply Forall_impl. intros; lia. Qed.

(** C21, guarded. *)
Lemma bit_narrowing_safe xs b b' ys :
  bounded 4681 xs -> bit_new = Ok b -> mrun bit_update b xs = Ok (b', ys) ->
  Forall (fun y => s16 y = y) ys.
Proof.
  intros Hb Eb E.
  destruct (bit_correct xs (bounded_weaken 4681 130000000 xs ltac:(lia) Hb)) as (b0 & b1 & ys0 & Eb0 & E0 & Hp).
  rewrite Eb in Eb0; inversion Eb0; subst b0. rewrite E in E0; inversion E0; subst.
  eapply pointwise_Forall; eauto. intros k Hk.
  pose proof (mf_spec_bound 4681 (firstn (S k) xs) ltac:(lia) (bounded_firstn _ _ _ Hb)).
  apply s16_id. lia.
Qed.

(** ** Consequences for whole runs *)
Lemma nth_error_ext {A} : forall a b : list A, (forall k, nth_error a k = nth_error b k) -> a = b.
Proof.
  induction a as [|x a IH]; intros [|y b] H; auto; [specialize (H 0%nat); discriminate|specialize (H 0%nat); discriminate|].
  pose proof (H 0%nat) as H0. cbn in H0. inversion H0; subst. f_equal. apply IH. intros k. exact (H (S k)).
Qed.
Lemma nth_error_repeat_lt {A} (x : A) n k : (k < n)%nat -> nth_error (repeat x n) k = Some x.
Proof. revert k. induction n as [|n IH]; intros k H; [lia|]. destruct k; cbn; auto. apply IH. lia. Qed.
(** The outputs from position [m] on are constant if the specification is. *)
Lemma pointwise_tail {A B} (f : list A -> B) xs ys m c : pointwise f xs ys -> (m <= length xs)%nat ->
  (forall k, (m <= k < length xs)%nat -> f (firstn (S k) xs) = c) ->
  ys = firstn m ys ++ repeat c (length xs - m).
Proof.
  intros [L H] Hm Hc. rewrite <- (firstn_skipn m ys) at 1. f_equal. apply nth_error_ext. intros k.
  destruct (Nat.lt_ge_cases k (length xs - m)) as [Hk|Hk].
  - rewrite nth_error_repeat_lt by auto.
    assert (E : nth_error (skipn m ys) k = nth_error ys (m + k)).
    { clear. revert ys. induction m as [|m IH]; intros ys; [reflexivity|]. destruct ys; cbn; [destruct k; reflexivity|apply IH]. }
    rewrite E, H by lia. f_equal. apply Hc. lia.
  - rewrite (proj2 (nth_error_None (repeat c (length xs - m)) k)) by (rewrite repeat_length; lia).
    apply nth_error_None. rewrite skipn_length. lia.
Qed.
Lemma firstn_app_repeat {A} (h : list A) c n w k : (length h + w <= S k)%nat -> (S k <= length h + n)%nat ->
  exists g, firstn (S k) (h ++ repeat c n) = g ++ repeat c w.
Proof.
  intros H1 H2. rewrite firstn_app. rewrite firstn_all2 by lia.
  exists (h ++ repeat c (S k - length h - w)). rewrite <- app_assoc, <- repeat_app. f_equal.
  assert (X : forall a b, (a <= b)%nat -> firstn a (repeat c b) = repeat c a).
  { induction a as [|a IH]; intros [|b] Hb; cbn; try lia; auto. rewrite IH by lia. reflexivity. }
  rewrite X by lia. f_equal. lia.
Qed.

Lemma fir_run_window buf h w : length buf = 14%nat -> bounded 50000 (h ++ w) -> length w = 7%nat ->
  exists f f' ys, fir_new buf = Ok f /\ mrun fir_update f (h ++ w) = Ok (f', ys ++ [dot w taps / 32768]).
Proof.
  intros L Hb Lw. destruct (fir_correct buf _ L Hb) as (f & f' & ys & E1 & E2 & Hp).
  exists f, f', (firstn (length (h ++ w) - 1) ys). split; auto. rewrite E2. f_equal. f_equal.
  assert (Ln : length (h ++ w) = (length h + 7)%nat) by (rewrite app_length; lia).
  rewrite (pointwise_tail fir_spec (h ++ w) ys (length (h ++ w) - 1) (dot w taps / 32768) Hp) at 1 by
    (try lia; intros k Hk; rewrite firstn_all2 by lia; apply fir_spec_window; auto).
  rewrite Ln. replace (length h + 7 - (length h + 7 - 1))%nat with 1%nat by lia. reflexivity.
Qed.
Lemma fir_run_dc buf h x n : length buf = 14%nat -> bounded 50000 (h ++ repeat x (7 + n)) ->
  exists f f' ys, fir_new buf = Ok f /\
    mrun fir_update f (h ++ repeat x (7 + n)) = Ok (f', ys ++ repeat (33237 * x / 32768) (S n)) /\ length ys = (length h + 6)%nat.
Proof.
  intros L Hb. destruct (fir_correct buf _ L Hb) as (f & f' & ys & E1 & E2 & Hp).
  assert (Ln : length (h ++ repeat x (7 + n)) = (length h + 7 + n)%nat) by (rewrite app_length, repeat_length; lia).
  exists f, f', (firstn (length h + 6) ys). split; auto. split.
  - rewrite E2. f_equal. f_equal.
    rewrite (pointwise_tail fir_spec _ ys (length h + 6) (33237 * x / 32768) Hp) at 1.
    + f_equal. f_equal. lia.
    + lia.
    + intros k Hk. destruct (firstn_app_repeat h x (7 + n) 7 k) as (g & ->); try lia. apply fir_spec_dc.
  - destruct Hp as [Ly _]. rewrite firstn_length. lia.
Qed.
Lemma bit_run_dc h c n : bounded 130000000 (h ++ repeat c (16 + n)) ->
  exists b b' ys, bit_new = Ok b /\
    mrun bit_update b (h ++ repeat c (16 + n)) = Ok (b', ys ++ repeat 0 (S n)) /\ length ys = (length h + 15)%nat.
Proof.
  intros Hb. destruct (bit_correct _ Hb) as (f & f' & ys & E1 & E2 & Hp).
  assert (Ln : length (h ++ repeat c (16 + n)) = (length h + 16 + n)%nat) by (rewrite app_length, repeat_length; lia).
  exists f, f', (firstn (length h + 15) ys). split; auto. split.
  - rewrite E2. f_equal. f_equal.
    rewrite (pointwise_tail mf_spec _ ys (length h + 15) 0 Hp) at 1.
    + f_equal. f_equal. lia.
    + lia.
    + intros k Hk. destruct (firstn_app_repeat h c (16 + n) 16 k) as (g & ->); try lia. apply mf_spec_dc.
  - destruct Hp as [Ly _]. rewrite firstn_length. lia.
Qed.
Lemma bit_run_quiet xs : bounded 702 xs ->
  exists b b', bit_new = Ok b /\ mrun bit_update b xs = Ok (b', repeat 0 (length xs)).
Proof.
  intros Hb. destruct (bit_correct xs (bounded_weaken 702 130000000 xs ltac:(lia) Hb)) as (f & f' & ys & E1 & E2 & Hp).
  exists f, f'. split; auto. rewrite E2. f_equal. f_equal.
  rewrite (pointwise_tail mf_spec xs ys 0 0 Hp) at 1; try lia; [cbn; f_equal; lia|].
  intros k _. apply mf_spec_quiet. apply bounded_firstn; auto.
Qed.
Lemma bit_run_opp xs : bounded 130000000 xs ->
  exists b b1 b2 ys, bit_new = Ok b /\ mrun bit_update b xs = Ok (b1, ys) /\
    mrun bit_update b (map Z.opp xs) = Ok (b2, map Z.opp ys).
Proof.
  intros Hb. destruct (bit_correct xs Hb) as (b & b1 & ys & E1 & E2 & L1 & H1).
  assert (Hb' : bounded 130000000 (map Z.opp xs)).
  { apply Forall_forall. intros x Hx. apply in_map_iff in Hx as (y & <- & Hy). unfold bounded in Hb. rewrite Forall_forall in Hb. specialize (Hb y Hy). lia. }
  destruct (bit_correct _ Hb') as (b0 & b2 & zs & E3 & E4 & L2 & H2). rewrite E1 in E3. inversion E3; subst b0.
  exists b, b1, b2, ys. split; auto. split; auto. rewrite E4. f_equal. f_equal. rewrite map_length in *.
  apply nth_error_ext. intros k. rewrite nth_error_map.
  destruct (Nat.lt_ge_cases k (length xs)) as [Hk|Hk].
  - rewrite H1, H2 by auto. cbn [option_map]. rewrite firstn_map, mf_spec_neg. reflexivity.
  - rewrite (proj2 (nth_error_None zs k)), (proj2 (nth_error_None ys k)) by lia. reflexivity.
Qed.
