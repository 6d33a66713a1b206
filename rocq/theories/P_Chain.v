(** P_Chain.v -- loopback proof (C26): transmitter waveform through the receiver chain. *)
From Verif Require Import Base M_ShiftReg M_Dsp M_Uart M_Pio S_Containers S_Dsp S_Line S_Pio D_Uart D_Chain
  P_Containers P_Dsp P_Uart P_UartRun P_UartErr P_Pio P_PioTc.

(** ** The chain as three machines in a row *)
Definition retag (zs : list Z) (l : list (Z * Z * bool)) : list (Z * Z * bool) :=
  map (fun p => (fst p, snd (fst (snd p)), snd (snd p))) (combine zs l).

Lemma chain_split l : forall c lv b u ys zs outs,
  mrun (lv_update (fun z => z)) (ch_level c) (map sym_of l) = Ok (lv, ys) ->
  mrun bit_update (ch_bit c) ys = Ok (b, zs) ->
  mrun ua_call (ch_uart c) (retag zs l) = Ok (u, outs) ->
  mrun chain_call c l = Ok (Chain lv b u, outs).
Proof.
  induction l as [|i t IH]; intros c lv b u ys zs outs E1 E2 E3.
  - cbn in E1. inversion E1; subst. cbn in E2. inversion E2; subst. cbn in E3. inversion E3; subst.
    destruct c; reflexivity.
  - destruct i as [[x o] e]. cbn [map sym_of fst mrun] in E1.
    destruct (lv_update (fun z => z) (ch_level c) x) as [[lv1 y]|] eqn:F1; cbn [bind] in E1; [|discriminate].
    destruct (mrun (lv_update (fun z => z)) lv1 (map sym_of t)) as [[lv2 ys']|] eqn:G1; cbn [bind] in E1; [|discriminate].
    inversion E1; subst. cbn [mrun] in E2.
    destruct (bit_update (ch_bit c) y) as [[b1 p]|] eqn:F2; cbn [bind] in E2; [|discriminate].
    destruct (mrun bit_update b1 ys') as [[b2 zs']|] eqn:G2; cbn [bind] in E2; [|discriminate].
    inversion E2; subst. cbn [retag combine map fst snd mrun] in E3.
    destruct (ua_call (ch_uart c) (p, o, e)) as [[u1 out]|] eqn:F3; cbn [bind] in E3; [|discriminate].
    fold (retag zs' t) in E3.
    destruct (mrun ua_call u1 (retag zs' t)) as [[u2 outs']|] eqn:G3; cbn [bind] in E3; [|discriminate].
    inversion E3; subst. cbn [mrun]. unfold chain_call at 1. rewrite F1; cbn [bind]. rewrite F2; cbn [bind].
    rewrite F3; cbn [bind]. rewrite (IH (Chain lv1 b1 u1) _ _ _ _ _ _ G1 G2 G3). reflexivity.
Qed.

Lemma retag_sym zs l : length zs = length l -> map sym_of (retag zs l) = zs.
Proof.
  unfold retag. revert l; induction zs as [|z t IH]; intros [|i l] H; cbn in *; try discriminate; auto.
  f_equal. apply IH. lia.
Qed.
Lemma retag_length zs l : length zs = length l -> length (retag zs l) = length l.
Proof. intros H. unfold retag. rewrite map_length, combine_length. lia. Qed.

(** ** Level passes an ideal line unchanged *)
Fixpoint unitl (l : list Z) : bool :=
  match l with [] => true | a :: t => ((a =? 0) || (a =? 1) || (a =? -1)) && unitl t end.
(** No direct flip from one polarity to the other. *)
Fixpoint noflip (prev : Z) (l : list Z) : bool :=
  match l with [] => true | a :: t => negb (prev * a =? -1) && noflip a t end.
Definition last0 (prev : Z) (l : list Z) : Z := last l prev.

Lemma unitl_app a b : unitl (a ++ b) = unitl a && unitl b.
Proof. induction a; cbn; auto. rewrite IHa, andb_assoc. reflexivity. Qed.
Lemma last_cons {T} (x : T) t p : last (x :: t) p = last t x.
Proof. revert x p; induction t as [|y t IH]; intros x p; [reflexivity|]. change (last (y :: t) p = last (y :: t) x). rewrite (IH y p), (IH y x). reflexivity. Qed.
Lemma noflip_app a b p : noflip p (a ++ b) = noflip p a && noflip (last a p) b.
Proof.
  revert p; induction a as [|x t IH]; intros p; [reflexivity|]. cbn [app noflip]. rewrite IH, andb_assoc, last_cons. reflexivity.
Qed.
Lemma unitl_In l x : unitl l = true -> In x l -> x = 0 \/ x = 1 \/ x = -1.
Proof.
  induction l as [|a t IH]; cbn [unitl In]; intros H Hx; [easy|]. apply andb_true_iff in H as (H1 & H2).
  destruct Hx as [->|Hx]; auto.
  apply orb_true_iff in H1 as [H1|H1]; [apply orb_true_iff in H1 as [H1|H1]|]; apply Z.eqb_eq in H1; lia.
Qed.

Lemma level_pass A : 1400 <= A <= 4681 -> forall l p, (p = 0 \/ p = 1 \/ p = -1) ->
  unitl l = true -> noflip p l = true ->
  exists q, mrun (lv_update (fun z => z)) p (map (Z.mul A) l) = Ok (q, map (Z.mul A) l).
Proof.
  intros HA. induction l as [|a t IH]; intros p Hp Hu Hn; [eexists; reflexivity|].
  cbn [unitl noflip] in *. apply andb_true_iff in Hu as (U1 & U2). apply andb_true_iff in Hn as (N1 & N2).
  assert (Ha : a = 0 \/ a = 1 \/ a = -1).
  { apply orb_true_iff in U1 as [H|H]; [apply orb_true_iff in H as [H|H]|]; apply Z.eqb_eq in H; lia. }
  assert (Hne : p * a <> -1) by (destruct (Z.eqb_spec (p * a) (-1)); [discriminate|auto]).
  destruct (IH a Ha U2 N2) as (q & E).
  cbn [map mrun].
  assert (S : lv_update (fun z => z) p (A * a) = Ok (a, A * a)).
  { unfold lv_update, lv_next, BUS_HIGH_MV, BUS_LOW_MV.
    destruct Hp as [->|[->| ->]]; destruct Ha as [->|[->| ->]]; try (exfalso; lia); cbn [Z.eqb Z.opp Z.pos_sub];
      rewrite ?Z.mul_0_r, ?Z.mul_1_r; try reflexivity;
      repeat match goal with
      | |- context [?x <=? ?y] => destruct (Z.leb_spec x y); try lia
      | |- context [?x <? ?y] => destruct (Z.ltb_spec x y); try lia end; reflexivity. }
  rewrite S; cbn [bind]. rewrite E; cbn [bind]. eexists; reflexivity.
Qed.

(** ** The detector on a scaled unit line *)
Definition mfu (k : Z) (w : list Z) : Z :=
  if k <=? mf_high w - mf_abs w then mf_high w - mf_abs w
  else if k <=? - mf_high w - mf_abs w then mf_high w + mf_abs w
  else 0.
Fixpoint dets (k : Z) (c l : list Z) : list Z :=
  match l with [] => [] | x :: t => mfu k (tl c ++ [x]) :: dets k (tl c ++ [x]) t end.
Fixpoint ctxs (c l : list Z) : list Z := match l with [] => c | x :: t => ctxs (tl c ++ [x]) t end.

Lemma sumZ_scale A l : sumZ (map (Z.mul A) l) = A * sumZ l.
Proof. unfold sumZ. induction l as [|a t IH]; cbn; [lia|]. rewrite IH. lia. Qed.
Lemma mf_high_scale A w : mf_high (map (Z.mul A) w) = A * mf_high w.
Proof. unfold mf_high. rewrite skipn_map, firstn_map. apply sumZ_scale. Qed.
Lemma mf_abs_scale A w : 0 <= A -> mf_abs (map (Z.mul A) w) = A * mf_abs w.
Proof.
  intros H. unfold mf_abs. rewrite skipn_map, firstn_map, map_map.
  rewrite (map_ext (fun x => Z.abs (A * x)) (fun x => A * Z.abs x)) by (intros; rewrite Z.abs_mul, (Z.abs_eq A); lia).
  rewrite <- (map_map Z.abs (Z.mul A)), sumZ_scale.
  replace (nth 0 (map (Z.mul A) w) 0) with (A * nth 0 w 0) by (destruct w; cbn; lia).
  rewrite Z.abs_mul, (Z.abs_eq A) by lia. lia.
Qed.

Definition thr (k A : Z) : Prop := 0 < A /\ A * (k - 1) < 4921 <= A * k.
Lemma thr_iff k A d : thr k A -> (4921 <=? A * d) = (k <=? d).
Proof. intros (H1 & H2 & H3). destruct (Z.leb_spec 4921 (A * d)), (Z.leb_spec k d); auto; nia. Qed.
Lemma mf_scale k A w : thr k A -> mf (map (Z.mul A) w) = A * mfu k w.
Proof.
  intros H. unfold mf, mfu. rewrite mf_high_scale, mf_abs_scale by (destruct H; lia).
  replace (A * mf_high w - A * mf_abs w) with (A * (mf_high w - mf_abs w)) by lia.
  replace (- (A * mf_high w) - A * mf_abs w) with (A * (- mf_high w - mf_abs w)) by lia.
  rewrite !(thr_iff k A) by auto.
  destruct (k <=? mf_high w - mf_abs w); [lia|]. destruct (k <=? - mf_high w - mf_abs w); lia.
Qed.
Lemma thr_exists A : 1400 <= A <= 4681 -> exists k, thr k A /\ In k [2; 3; 4].
Proof.
  intros H. destruct (Z.le_gt_cases 2461 A); [exists 2; split; [unfold thr; lia|cbn; auto]|].
  destruct (Z.le_gt_cases 1641 A); [exists 3; split; [unfold thr; lia|cbn; auto]|].
  exists 4; split; [unfold thr; lia|cbn; auto].
Qed.

Lemma unit_bounded A l : 1400 <= A <= 4681 -> unitl l = true -> bounded 130000000 (map (Z.mul A) l).
Proof.
  intros HA Hu. apply Forall_map, Forall_forall. intros x Hx. pose proof (unitl_In l x Hu Hx). nia.
Qed.
Lemma unitl_shift c x : unitl c = true -> unitl [x] = true -> unitl (tl c ++ [x]) = true.
Proof. intros Hc Hx. rewrite unitl_app, Hx. destruct c; cbn in *; auto. apply andb_true_iff in Hc as (_ & ->). reflexivity. Qed.

Lemma det_run k A l : thr k A -> 1400 <= A <= 4681 -> forall b c,
  bit_ok b (map (Z.mul A) c) -> unitl c = true -> unitl l = true ->
  exists b', mrun bit_update b (map (Z.mul A) l) = Ok (b', map (Z.mul A) (dets k c l)).
Proof.
  intros Hk HA. induction l as [|x t IH]; intros b c Hb Uc Ul; [eexists; reflexivity|].
  assert (Ux : unitl [x] = true) by (cbn [unitl] in *; rewrite andb_true_r; apply andb_true_iff in Ul as (-> & _); auto).
  assert (Ut : unitl t = true) by (cbn [unitl] in Ul; apply andb_true_iff in Ul as (_ & ->); auto).
  assert (Hx : x = 0 \/ x = 1 \/ x = -1) by (apply (unitl_In [x]); cbn; auto).
  destruct (bit_step b _ (A * x) Hb (unit_bounded A c HA Uc) ltac:(nia)) as (b1 & E & Hb1).
  assert (Em : tl (map (Z.mul A) c) ++ [A * x] = map (Z.mul A) (tl c ++ [x])) by (rewrite map_app; destruct c; reflexivity).
  rewrite Em in *. rewrite (mf_scale k) in E by auto.
  cbn [map mrun dets]. rewrite E; cbn [bind].
  destruct (IH b1 _ Hb1 (unitl_shift c x Uc Ux) Ut) as (b2 & E2). rewrite E2; cbn [bind]. eexists; reflexivity.
Qed.

Lemma dets_app k a : forall c b, dets k c (a ++ b) = dets k c a ++ dets k (ctxs c a) b.
Proof. induction a as [|x t IH]; intros c b; cbn; auto. rewrite IH. reflexivity. Qed.
Lemma dets_length k l : forall c, length (dets k c l) = length l.
Proof. induction l; intros; cbn; auto. Qed.

(** Zero context: idle keeps it and gives zeros. *)
Definition z16 : list Z := repeat 0 16.
Lemma z16_shift : tl z16 ++ [0] = z16. Proof. reflexivity. Qed.
Lemma idle_dets k n : 1 <= k -> dets k z16 (repeat 0 n) = repeat 0 n /\ ctxs z16 (repeat 0 n) = z16.
Proof.
  intros Hk. induction n as [|n (IH1 & IH2)]; [split; reflexivity|]. cbn [repeat dets ctxs]. rewrite z16_shift, IH1, IH2.
  split; auto. f_equal. unfold mfu. replace (mf_high z16) with 0 by reflexivity. replace (mf_abs z16) with 0 by reflexivity.
  destruct (Z.leb_spec k (0 - 0)); [lia|]. destruct (Z.leb_spec k (- 0 - 0)); [lia|]. reflexivity.
Qed.

Definition dchar (k b : Z) : list Z := dets k z16 (char_wave_short b).
Fixpoint dstream (k : Z) (l : list (nat * Z)) : list Z :=
  match l with [] => [] | (g, b) :: t => repeat 0 g ++ dchar k b ++ dstream k t end.

(** Start of the detected pulse within the character. *)
Definition foff (k : Z) : nat := if k =? 2 then 11%nat else 12%nat.
Definition body (k b : Z) : list Z := skipn (foff k) (dchar k b).
Definition seg (k b : Z) : list Z := body k b ++ repeat 0 (foff k).
Fixpoint segs (k : Z) (l : list (nat * Z)) : list Z :=
  match l with [] => [] | (g, b) :: t => repeat 0 g ++ seg k b ++ segs k t end.

Definition domb (w : list Z) (ph : nat) : bool :=
  (0 <? strength w ph) && forallb (fun p => strength w p <? strength w ph) (seq 0 ph) &&
  forallb (fun p => strength w p <=? strength w ph) (seq (S ph) (7 - ph)).
Lemma domb_ok w ph : (ph < 8)%nat -> domb w ph = true -> dominant w ph.
Proof.
  intros Hp H. unfold domb in H. apply andb_true_iff in H as (H & H3). apply andb_true_iff in H as (H1 & H2).
  rewrite forallb_forall in H2, H3. split; auto. split; [apply Z.ltb_lt; auto|]. split.
  - intros p Lp. apply Z.ltb_lt. apply H2. apply in_seq. lia.
  - intros p Lp. apply Z.leb_le. apply H3. apply in_seq. lia.
Qed.

(** Everything about one character, for the three threshold classes. *)
Definition char_check (k b : Z) : bool :=
  let s := seg k b in
  let w := firstn 168 s in
  zlist_eqb (ctxs z16 (char_wave_short b)) z16 &&
  unitl (char_wave_short b) && noflip 0 (char_wave_short b) && (last (char_wave_short b) 0 =? 0) &&
  zlist_eqb (firstn (foff k) (dchar k b)) (repeat 0 (foff k)) &&
  Nat.eqb (length s) 175 && negb (hd 0 s =? 0) &&
  zlist_eqb (skipn 169 s) (repeat 0 6) &&
  forallb (fun x => (-7 <=? x) && (x <=? 7)) s &&
  existsb (fun ph => domb w ph && zlist_eqb (map Z.sgn (symbols w ph)) (char_symbols b)) (seq 0 8).
Lemma char_check_all : forallb (fun n => forallb (fun k => char_check k (Z.of_nat n)) [2; 3; 4]) (seq 0 256) = true.
Proof. vm_cast_no_check (eq_refl true). Qed.

(** ** The stream of characters *)
Record char_facts (k b : Z) : Prop := {
  cf_ctx : ctxs z16 (char_wave_short b) = z16;
  cf_unit : unitl (char_wave_short b) = true;
  cf_noflip : noflip 0 (char_wave_short b) = true;
  cf_last : last (char_wave_short b) 0 = 0;
  cf_lead : firstn (foff k) (dchar k b) = repeat 0 (foff k);
  cf_len : length (seg k b) = 175%nat;
  cf_hd : hd 0 (seg k b) <> 0;
  cf_tail : skipn 169 (seg k b) = repeat 0 6;
  cf_bnd : forall x, In x (seg k b) -> -7 <= x <= 7;
  cf_frame : exists ph, dominant (firstn 168 (seg k b)) ph /\
    map Z.sgn (symbols (firstn 168 (seg k b)) ph) = char_symbols b }.

Lemma char_facts_ok k b : In k [2; 3; 4] -> 0 <= b < 256 -> char_facts k b.
Proof.
  intros Hk Hb. pose proof (forallb_byte _ b char_check_all Hb) as H. cbv beta in H. rewrite Z2Nat.id in H by lia.
  rewrite forallb_forall in H. specialize (H k Hk). unfold char_check in H. cbv zeta in H.
  repeat match goal with H : _ && _ = true |- _ => apply andb_true_iff in H; destruct H end.
  repeat match goal with H : zlist_eqb _ _ = true |- _ => apply zlist_eqb_eq in H end.
  constructor; auto.
  - apply Z.eqb_eq; auto.
  - apply Nat.eqb_eq; auto.
  - destruct (Z.eqb_spec (hd 0 (seg k b)) 0); [discriminate|auto].
  - intros x Hx. match goal with H : forallb _ (seg k b) = true |- _ => rewrite forallb_forall in H; specialize (H x Hx);
      apply andb_true_iff in H as (H & H'); apply Z.leb_le in H, H'; lia end.
  - match goal with H : existsb _ _ = true |- _ => apply existsb_exists in H as (ph & Hin & Hd) end.
    exists ph. apply in_seq in Hin.
    apply andb_true_iff in Hd as (D & E).
    split; [apply domb_ok; [lia|auto]|]. apply zlist_eqb_eq in E. exact E.
Qed.

Definition bytes_ok (l : list (nat * Z)) : Prop := Forall (fun p => 0 <= snd p < 256) l.

Lemma unitl_repeat0 n : unitl (repeat 0 n) = true. Proof. induction n; cbn; auto. Qed.
Lemma noflip_repeat0 n p : noflip p (repeat 0 n) = true.
Proof. revert p; induction n; intros p; cbn [repeat noflip]; auto. rewrite Z.mul_0_r. cbn. apply IHn. Qed.
Lemma last_repeat0 n : last (repeat 0 n) 0 = 0.
Proof. induction n; auto. cbn [repeat]. rewrite last_cons. auto. Qed.
Lemma last_app0 (a b : list Z) p : last (a ++ b) p = last b (last a p).
Proof. revert p; induction a as [|x t IH]; intros p; [reflexivity|]. cbn [app]. rewrite !last_cons. apply IH. Qed.

Lemma waves_line l n : bytes_ok l ->
  unitl (waves l ++ repeat 0 n) = true /\ noflip 0 (waves l ++ repeat 0 n) = true.
Proof.
  induction l as [|[g b] t IH]; intros H; cbn [waves app].
  - rewrite unitl_repeat0, noflip_repeat0. auto.
  - inversion H as [|? ? Hb Ht]; subst. cbn in Hb. destruct (IH Ht) as (U & N).
    destruct (char_facts_ok 2 b ltac:(cbn; auto) Hb) as [_ Cu Cn Cl _ _ _ _ _ _].
    rewrite <- !app_assoc. rewrite !unitl_app, <- !unitl_app, (unitl_app (repeat 0 g)), unitl_repeat0, (unitl_app (char_wave_short b)), Cu, U.
    split; [reflexivity|].
    rewrite noflip_app, noflip_repeat0, last_repeat0. cbn [andb].
    rewrite noflip_app, Cn, Cl, N. reflexivity.
Qed.

Lemma k_pos k : In k [2; 3; 4] -> 1 <= k. Proof. cbn. intuition lia. Qed.

Lemma waves_dets k l n : In k [2; 3; 4] -> bytes_ok l ->
  dets k z16 (waves l ++ repeat 0 n) = dstream k l ++ repeat 0 n.
Proof.
  intros Hk. induction l as [|[g b] t IH]; intros H; cbn [waves dstream app].
  - apply idle_dets, k_pos; auto.
  - inversion H as [|? ? Hb Ht]; subst. cbn in Hb.
    destruct (idle_dets k g (k_pos k Hk)) as (E1 & E2).
    rewrite <- !app_assoc, dets_app, E1, E2, dets_app, (cf_ctx k b (char_facts_ok k b Hk Hb)), IH by auto.
    reflexivity.
Qed.

Lemma repeat_app_comm (n m : nat) : repeat 0 n ++ repeat 0 m = repeat 0 m ++ repeat 0 n.
Proof. rewrite <- !repeat_app, Nat.add_comm. reflexivity. Qed.

Lemma dstream_segs k l : In k [2; 3; 4] -> bytes_ok l ->
  dstream k l ++ repeat 0 (foff k) = repeat 0 (foff k) ++ segs k l.
Proof.
  intros Hk. induction l as [|[g b] t IH]; intros H; cbn [dstream segs app]; [rewrite app_nil_r; reflexivity|].
  inversion H as [|? ? Hb Ht]; subst. cbn in Hb.
  rewrite <- !app_assoc, IH by auto.
  rewrite <- (firstn_skipn (foff k) (dchar k b)), (cf_lead k b (char_facts_ok k b Hk Hb)).
  fold (body k b). unfold seg. rewrite (app_assoc (repeat 0 (foff k)) (repeat 0 g)).
  rewrite repeat_app_comm. rewrite <- !app_assoc. reflexivity.
Qed.

(** ** The UART on the detected stream *)
Lemma some_then_idle u i u' r : ua_call u i = Ok (u', Some r) -> ua_state u' = WAIT_FOR_IDLE.
Proof.
  destruct i as [[x o] e]. unfold ua_call, ua_update. destruct (ua_state u) eqn:St; cbn [bind].
  - discriminate.
  - destruct (ua_data_case _ _); cbn [bind]; discriminate.
  - destruct (ua_data_case _ _); cbn [bind]; discriminate.
  - destruct (find_best_phase u o e) as [[o' e']|]; cbn [bind]; [|discriminate]. intros E; inversion E; reflexivity.
Qed.
Lemma wfi_zero u x o e : ua_state u = WAIT_FOR_IDLE -> ua_counter u = 0 -> ua_safe u -> s16 x = 0 ->
  exists u', ua_call u (x, o, e) = Ok (u', None) /\ idle_st u' 0.
Proof.
  intros St Hc Hs Hx. unfold ua_call, ua_update. rewrite St. unfold zero_level_detect. rewrite Hx. cbn [Z.eqb negb bind].
  eexists. split; [reflexivity|]. split; [reflexivity|]. split; [cbn; rewrite Hc; reflexivity|]. exact Hs.
Qed.
Lemma ua_inv_safe u h : ua_inv u h -> ua_safe u.
Proof. intros (_ & w & Hw & _). exists w. exact Hw. Qed.
Lemma ua_inv_idle_counter u h : ua_inv u h -> ua_state u = WAIT_FOR_IDLE -> ua_counter u = 0.
Proof. intros (_ & w & _ & _ & H) St. rewrite St in H. exact H. Qed.

Lemma strength_scale A w p : 0 < A -> strength (map (Z.mul A) w) p = A * strength w p.
Proof.
  intros HA. unfold strength.
  assert (N : forall i, nth i (map (Z.mul A) w) 0 = A * nth i w 0).
  { intros i. rewrite <- (Z.mul_0_r A) at 1. apply map_nth. }
  rewrite N. destruct (Z.eqb_spec (nth p w 0) 0) as [E|E]; [rewrite E, Z.mul_0_r; cbn; lia|].
  destruct (Z.eqb_spec (A * nth p w 0) 0); [nia|].
  unfold symbols. induction (seq 0 11) as [|b t IH]; cbn [map fold_right]; [lia|].
  rewrite IH, N, Z.abs_mul, (Z.abs_eq A); lia.
Qed.
Lemma dominant_scale A w p : 0 < A -> dominant w p -> dominant (map (Z.mul A) w) p.
Proof.
  intros HA (H1 & H2 & H3 & H4). split; auto. split; [rewrite strength_scale by auto; nia|]. split.
  - intros q Hq. rewrite !strength_scale by auto. specialize (H3 q Hq). nia.
  - intros q Hq. rewrite !strength_scale by auto. specialize (H4 q Hq). nia.
Qed.
Lemma symbols_sgn_scale A w p : 0 < A -> map Z.sgn (symbols (map (Z.mul A) w) p) = map Z.sgn (symbols w p).
Proof.
  intros HA. unfold symbols. rewrite !map_map. apply map_ext. intros b.
  replace (nth (p + 16 * b) (map (Z.mul A) w) 0) with (A * nth (p + 16 * b) w 0).
  - rewrite Z.sgn_mul, Z.sgn_pos by lia. lia.
  - symmetry. rewrite <- (Z.mul_0_r A) at 1. apply map_nth.
Qed.

Lemma reports_app {T} (a b : list (option T)) : reports (a ++ b) = reports a ++ reports b.
Proof. apply flat_map_app. Qed.
Lemma reports_none {T} n : reports (repeat (@None T) n) = [].
Proof. induction n; cbn; auto. Qed.

Lemma quiet_zeros A l n : map sym_of l = map (Z.mul A) (repeat 0 n) -> quiet l.
Proof.
  intros H. apply Forall_forall. intros i Hi. apply (in_map sym_of) in Hi. rewrite H in Hi.
  apply in_map_iff in Hi as (z & Ez & Hz). apply repeat_spec in Hz. subst z. rewrite <- Ez, Z.mul_0_r. reflexivity.
Qed.

Lemma mrun_snoc {S I O} (f : S -> I -> res (S * O)) s l i s' os o :
  mrun f s (l ++ [i]) = Ok (s', os ++ [o]) -> length os = length l -> exists s1, mrun f s l = Ok (s1, os) /\ f s1 i = Ok (s', o).
Proof.
  intros H L. rewrite mrun_app in H. destruct (mrun f s l) as [[s1 o1]|] eqn:E; cbn [bind] in H; [|discriminate].
  cbn [mrun] in H. destruct (f s1 i) as [[s2 o2]|] eqn:E2; cbn [bind] in H; [|discriminate].
  inversion H as [[Es Eo]]. apply app_inj_tail in Eo as (-> & ->). subst. eauto.
Qed.

Lemma seg_run A k b l u h n : 1400 <= A <= 4681 -> In k [2; 3; 4] -> 0 <= b < 256 ->
  map sym_of l = map (Z.mul A) (seg k b) -> ua_inv u h -> idle_st u n ->
  exists u' outs, mrun ua_call u l = Ok (u', outs) /\ reports outs = [(b, false)] /\
    ua_inv u' (h ++ map sym_of l) /\ idle_st u' 5.
Proof.
  intros HA Hk Hb El Hi Hid. destruct (char_facts_ok k b Hk Hb) as [_ _ _ _ _ Cl Ch Ct Cb (ph & Cd & Cs)].
  assert (Ll : length l = 175%nat) by (rewrite <- (map_length sym_of), El, map_length; auto).
  (* split l = (x :: mid) ++ [y] ++ z :: rest *)
  assert (El' : exists x o0 e0 mid y o1 e1 rest, l = ((x, o0, e0) :: mid ++ [(y, o1, e1)]) ++ rest /\
    length mid = 167%nat /\ length rest = 6%nat).
  { destruct l as [|[[x o0] e0] l1]; [discriminate|]. cbn [length] in Ll.
    destruct (skipn 167 l1) as [|[[y o1] e1] rest] eqn:Es.
    - apply (f_equal (@length _)) in Es. rewrite skipn_length in Es. cbn in Es. lia.
    - exists x, o0, e0, (firstn 167 l1), y, o1, e1, rest. split.
      + cbn [app]. f_equal. rewrite <- app_assoc. cbn [app]. rewrite <- Es, firstn_skipn. reflexivity.
      + apply (f_equal (@length _)) in Es. rewrite skipn_length in Es. cbn [length] in Es. rewrite firstn_length. lia. }
  destruct El' as (x & o0 & e0 & mid & y & o1 & e1 & rest & -> & Lm & Lr).
  assert (Ew : x :: map sym_of mid = map (Z.mul A) (firstn 168 (seg k b))).
  { rewrite <- firstn_map, <- El, map_app, firstn_app. cbn [map]. rewrite map_app. cbn [length map].
    rewrite app_length, map_length, Lm. replace (168 - _)%nat with 0%nat by (cbn; lia). rewrite firstn_O, app_nil_r.
    change (firstn 168 (sym_of (x, o0, e0) :: (map sym_of mid ++ [sym_of (y, o1, e1)])))
      with (x :: firstn 167 (map sym_of mid ++ [y])). f_equal.
    rewrite firstn_app, map_length, Lm, Nat.sub_diag, firstn_O, app_nil_r, firstn_all2; auto. rewrite map_length; lia. }
  assert (Er : map sym_of rest = map (Z.mul A) (repeat 0 6)).
  { rewrite <- Ct, <- skipn_map, <- El, map_app.
    replace 169%nat with (length (map sym_of ((x, o0, e0) :: mid ++ [(y, o1, e1)]))).
    - rewrite skipn_app, skipn_all, Nat.sub_diag. reflexivity.
    - rewrite map_length. cbn [length]. rewrite app_length, Lm. reflexivity. }
  assert (Es : map s16 (x :: map sym_of mid) = map (Z.mul A) (firstn 168 (seg k b))).
  { rewrite Ew, map_map. apply map_ext_in. intros a Ha. apply s16_id.
    assert (In a (seg k b)) by (rewrite <- (firstn_skipn 168 (seg k b)); apply in_or_app; auto).
    pose proof (Cb a H). nia. }
  assert (Hx : s16 x <> 0).
  { assert (E0 : s16 x = hd 0 (map (Z.mul A) (firstn 168 (seg k b)))) by (rewrite <- Es; reflexivity).
    rewrite E0. destruct (seg k b) as [|a sg]; [discriminate|]. cbn [firstn map hd] in *. nia. }
  destruct Hid as (St & _ & _).
  destruct (uart_frame_gen u h x o0 e0 mid y o1 e1 Hi St Hx Lm) as (u1 & o & e & E1 & _ & F). rewrite Es in F.
  destruct (F ph (dominant_scale A _ _ ltac:(lia) Cd) b) as (-> & ->).
  { apply frame_ok_sgn. rewrite symbols_sgn_scale, Cs by lia. apply char_symbols_ok; auto. }
  destruct (ua_run_inv ((x, o0, e0) :: mid ++ [(y, o1, e1)]) u h Hi) as (u1' & outs1 & E1' & Hi1 & _).
  rewrite E1 in E1'. inversion E1'; subst u1' outs1. clear E1'.
  assert (St1 : ua_state u1 = WAIT_FOR_IDLE).
  { rewrite app_comm_cons in E1. apply mrun_snoc in E1 as (u0 & _ & E0); [|rewrite repeat_length; cbn; lia].
    apply some_then_idle in E0. exact E0. }
  rewrite mrun_app, E1. cbn [bind].
  pose proof (quiet_zeros A rest 6 Er) as Q.
  destruct rest as [|[[z o2] e2] rest]; [discriminate|]. inversion Q as [|? ? Qz Qr]; subst. cbn [sym_of fst] in Qz.
  destruct (wfi_zero u1 z o2 e2 St1 (ua_inv_idle_counter _ _ Hi1 St1) (ua_inv_safe _ _ Hi1) Qz) as (u2 & E2 & I2).
  cbn [length] in Lr.
  destruct (idle_run rest u2 0 I2 Qr ltac:(lia) ltac:(lia)) as (u3 & E3 & I3).
  assert (E23 : mrun ua_call u1 ((z, o2, e2) :: rest) = Ok (u3, None :: repeat None (length rest))).
  { cbn [mrun]. rewrite E2; cbn [bind]. rewrite E3. reflexivity. }
  rewrite E23. cbn [bind]. eexists _, _. split; [reflexivity|]. split; [|split].
  - rewrite !reports_app, reports_none. change (None :: repeat None (length rest)) with (repeat (@None (Z * bool)) (S (length rest))).
    rewrite reports_none. reflexivity.
  - destruct (ua_run_inv ((z, o2, e2) :: rest) u1 _ Hi1) as (u3' & os & E & Hi3 & _). rewrite E23 in E. inversion E; subst u3'.
    rewrite <- app_assoc, <- map_app in Hi3. exact Hi3.
  - replace 5 with (0 + Z.of_nat (length rest)) by lia. exact I3.
Qed.

Definition gaps_ok (l : list (nat * Z)) : Prop := Forall (fun p => Z.of_nat (fst p) < 4294967000) l.

Lemma map_split {T} (f : T -> Z) l a b : map f l = a ++ b -> exists l1 l2, l = l1 ++ l2 /\ map f l1 = a /\ map f l2 = b.
Proof.
  intros H. exists (firstn (length a) l), (skipn (length a) l). split; [symmetry; apply firstn_skipn|].
  rewrite <- firstn_map, <- skipn_map, H. clear. induction a as [|x a IH]; cbn; [auto|]. destruct IH as (-> & ->). auto.
Qed.

Lemma segs_run A k : 1400 <= A <= 4681 -> In k [2; 3; 4] -> forall cs l u h n,
  bytes_ok cs -> gaps_ok cs -> map sym_of l = map (Z.mul A) (segs k cs) -> ua_inv u h -> idle_st u n -> 0 <= n <= 20 ->
  exists u' outs, mrun ua_call u l = Ok (u', outs) /\ reports outs = map (fun p => (snd p, false)) cs /\
    exists n', idle_st u' n' /\ 0 <= n' <= 20.
Proof.
  intros HA Hk. induction cs as [|[g b] t IH]; intros l u h n Hb Hg El Hi Hid Hn.
  - cbn in El. apply map_eq_nil in El. subst l. eexists _, _. split; [reflexivity|]. split; [reflexivity|]. eauto.
  - inversion Hb as [|? ? Hb1 Hb2]; subst. inversion Hg as [|? ? Hg1 Hg2]; subst. cbn [fst snd] in *.
    cbn [segs] in El. rewrite !map_app in El.
    apply map_split in El as (l1 & l2 & -> & E1 & El). apply map_split in El as (l3 & l4 & -> & E3 & E4).
    assert (L1 : length l1 = g) by (rewrite <- (map_length sym_of), E1, map_length, repeat_length; auto).
    destruct (idle_run l1 u n Hid (quiet_zeros A l1 g E1) ltac:(lia) ltac:(lia)) as (u1 & R1 & I1).
    destruct (ua_run_inv l1 u h Hi) as (u1' & os1 & R1' & Hi1 & _). rewrite R1 in R1'. inversion R1'; subst u1' os1.
    destruct (seg_run A k b l3 u1 _ _ HA Hk Hb1 E3 Hi1 I1) as (u2 & os2 & R2 & Rep2 & Hi2 & I2).
    destruct (IH l4 u2 _ 5 Hb2 Hg2 E4 Hi2 I2 ltac:(lia)) as (u3 & os3 & R3 & Rep3 & I3).
    rewrite mrun_app, R1; cbn [bind]. rewrite mrun_app, R2; cbn [bind]. rewrite R3; cbn [bind].
    eexists _, _. split; [reflexivity|]. split; auto.
    rewrite !reports_app, reports_none, Rep2, Rep3. reflexivity.
Qed.

Lemma ua_inv_after l u outs : mrun ua_call (ua_new PARITY_EVEN) l = Ok (u, outs) -> ua_inv u (map sym_of l).
Proof.
  intros E. destruct (ua_run_inv l _ [] ua_inv_new) as (u' & os & E' & H & _). rewrite E in E'. inversion E'; subst. exact H.
Qed.

Lemma foff_cases k : (11 <= foff k <= 12)%nat. Proof. unfold foff. destruct (k =? 2); lia. Qed.

Lemma loopback A cs tail l : 1400 <= A <= 4681 -> bytes_ok cs -> gaps_ok cs ->
  (12 <= tail)%nat -> Z.of_nat tail < 4294967000 ->
  map sym_of l = map (Z.mul A) (waves cs ++ repeat 0 tail) ->
  exists c c' outs, chain_new = Ok c /\ mrun chain_call c l = Ok (c', outs) /\
    reports outs = map (fun p => (snd p, false)) cs.
Proof.
  intros HA Hb Hg Ht1 Ht2 El.
  destruct (thr_exists A HA) as (k & Hthr & Hk).
  destruct bit_new_ok as (b0 & Eb & Hb0).
  exists (Chain lv_new b0 (ua_new PARITY_EVEN)). unfold chain_new. rewrite Eb. cbn [bind].
  destruct (waves_line cs tail Hb) as (U & N).
  destruct (level_pass A HA _ 0 (or_introl eq_refl) U N) as (q & R1).
  assert (Hb0' : bit_ok b0 (map (Z.mul A) z16)).
  { replace (map (Z.mul A) z16) with (repeat 0 16); [exact Hb0|]. cbn. rewrite Z.mul_0_r. reflexivity. }
  destruct (det_run k A _ Hthr HA b0 z16 Hb0' eq_refl U) as (b1 & R2).
  rewrite (waves_dets k cs tail Hk Hb) in R2.
  pose proof (foff_cases k) as Hf.
  set (D := dstream k cs ++ repeat 0 tail) in *.
  assert (ED : D = repeat 0 (foff k) ++ segs k cs ++ repeat 0 (tail - foff k)).
  { unfold D. replace tail with (foff k + (tail - foff k))%nat at 1 by lia.
    rewrite repeat_app, !app_assoc, dstream_segs by auto. reflexivity. }
  assert (LD : length D = length l).
  { rewrite <- (map_length sym_of l), El, map_length. unfold D. rewrite <- (waves_dets k cs tail Hk Hb). apply dets_length. }
  assert (Esym : map sym_of (retag (map (Z.mul A) D) l) = map (Z.mul A) D) by (apply retag_sym; rewrite map_length; auto).
  assert (exists u outs, mrun ua_call (ua_new PARITY_EVEN) (retag (map (Z.mul A) D) l) = Ok (u, outs) /\
     reports outs = map (fun p => (snd p, false)) cs) as (u & outs & R3 & Rep).
  { revert Esym. generalize (retag (map (Z.mul A) D) l) as m. intros m Em.
    rewrite ED, !map_app in Em.
    apply map_split in Em as (m1 & m2 & -> & E1 & Em). apply map_split in Em as (m3 & m4 & -> & E3 & E4).
    assert (L1 : length m1 = foff k) by (rewrite <- (map_length sym_of), E1, map_length, repeat_length; auto).
    pose proof (quiet_zeros A m1 _ E1) as Q1.
    destruct m1 as [|[[x o] e] m1]; [cbn [length] in L1; lia|]. inversion Q1 as [|? ? Qx Qr]; subst. cbn [sym_of fst] in Qx.
    cbn [length] in L1.
    destruct (new_first PARITY_EVEN x o e Qx) as (u0 & F0 & I0).
    destruct (idle_run m1 u0 0 I0 Qr ltac:(lia) ltac:(lia)) as (u1 & F1 & I1).
    assert (F01 : mrun ua_call (ua_new PARITY_EVEN) ((x, o, e) :: m1) = Ok (u1, None :: repeat None (length m1))).
    { cbn [mrun]. rewrite F0; cbn [bind]. rewrite F1. reflexivity. }
    destruct (segs_run A k HA Hk cs m3 u1 _ _ Hb Hg E3 (ua_inv_after _ _ _ F01) I1 ltac:(lia)) as (u3 & os3 & F3 & Rep3 & n' & I3 & Hn').
    assert (L4 : length m4 = (tail - foff k)%nat) by (rewrite <- (map_length sym_of), E4, map_length, repeat_length; auto).
    destruct (idle_run m4 u3 n' I3 (quiet_zeros A m4 _ E4) ltac:(lia) ltac:(lia)) as (u4 & F4 & _).
    rewrite mrun_app, F01; cbn [bind]. rewrite mrun_app, F3; cbn [bind]. rewrite F4; cbn [bind].
    eexists _, _. split; [reflexivity|].
    change (None :: repeat None (length m1)) with (repeat (@None (Z * bool)) (S (length m1))).
    rewrite !reports_app, !reports_none, Rep3, app_nil_r. reflexivity. }
  eexists _, outs. split; [reflexivity|]. split; [|exact Rep].
  eapply chain_split; cbn [ch_level ch_bit ch_uart].
  - rewrite El. exact R1.
  - exact R2.
  - exact R3.
Qed.

Lemma waves_length_gap l : forall g b, In (g, b) l -> (g <= length (waves l))%nat.
Proof.
  induction l as [|[g0 b0] t IH]; intros g b H; [easy|]. cbn [waves]. rewrite !app_length, repeat_length.
  destruct H as [E|H]; [inversion E; lia|]. specialize (IH g b H). lia.
Qed.

Lemma map_snd_combine (gaps : list nat) (bs : list Z) : length gaps = length bs ->
  map (fun p => (snd p, false)) (combine gaps bs) = map (fun b => (b, false)) bs.
Proof. revert bs; induction gaps as [|g t IH]; intros [|b bs] H; cbn in *; try discriminate; auto. f_equal. apply IH; lia. Qed.

Lemma loopback_pio sched bs n A l : Forall2 word_of bs (concat sched) -> (175 * length bs + 2 <= n)%nat ->
  1400 <= A <= 4681 -> Z.of_nat (length sched + n) < 4294960000 ->
  map sym_of l = map (fun pins => A * line_level pins) (fst (tx_run pio_init (sched ++ repeat [] n))) ++ repeat 0 12 ->
  exists c c' outs, chain_new = Ok c /\ mrun chain_call c l = Ok (c', outs) /\
    reports outs = map (fun b => (b, false)) bs.
Proof.
  intros Hw Hn HA HL El.
  destruct (tx_all_schedules sched bs n Hw Hn) as (tr & sf & gaps & tail & R & M & Lg & _).
  rewrite R in El. cbn [fst] in El.
  assert (Ltr : length tr = (length sched + n)%nat).
  { pose proof (pio_run_length tx_program 8 (sched ++ repeat [] n) pio_init) as H. unfold tx_run in R. rewrite R in H. cbn [fst] in H.
    rewrite H, app_length, repeat_length. reflexivity. }
  assert (LW : (length (waves (combine gaps bs)) + tail = length sched + n)%nat).
  { rewrite <- Ltr, <- (map_length line_level tr), M, app_length, repeat_length. reflexivity. }
  assert (Hbytes : bytes_ok (combine gaps bs)).
  { apply Forall_forall. intros [g b] Hin. apply in_combine_r in Hin. cbn [snd].
    clear - Hw Hin. induction Hw as [|b0 w bs ws (H1 & _) H IH]; [easy|]. destruct Hin as [->|Hin]; auto. }
  destruct (loopback A (combine gaps bs) (tail + 12) l HA Hbytes) as (c & c' & outs & E1 & E2 & E3).
  - apply Forall_forall. intros [g b] Hin. cbn [fst]. apply waves_length_gap in Hin. lia.
  - lia.
  - lia.
  - rewrite El, <- map_map, M, repeat_app, app_assoc, (map_app _ (waves _ ++ _)). f_equal.
    clear. cbn. rewrite Z.mul_0_r. reflexivity.
  - exists c, c', outs. split; auto. split; auto. rewrite E3. apply map_snd_combine; auto.
Qed.
