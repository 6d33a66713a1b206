(** P_Noise.v -- disturbed packets are received (C92). *)
From Verif Require Import Base M_ShiftReg M_Dsp M_Uart M_Pio M_Core1 S_Containers S_Dsp S_Line S_Pio S_Core1 S_Noise D_Uart D_Chain D_Core1
  P_Containers P_Dsp P_Uart P_UartRun P_UartErr P_Pio P_PioTc P_Chain P_Core1 P_Core1Chain P_NoiseDet P_NoiseChar P_NoiseRun.

(** ** [follows] with any idle bound *)
Definition withinE (E P Q prev now y : Z) : Prop :=
  if now =? 0 then if prev =? 0 then - E <= y <= E else - E <= prev * y <= Q
  else if prev =? 0 then - E <= now * y <= Q else P <= now * y <= Q.
Fixpoint followsE (E P Q prev : Z) (ws ys : list Z) : Prop :=
  match ws, ys with
  | [], [] => True
  | w :: wt, y :: yt => withinE E P Q prev w y /\ followsE E P Q w wt yt
  | _, _ => False
  end.
Lemma follows_E P Q ws : forall prev ys, follows P Q prev ws ys -> followsE 599 P Q prev ws ys.
Proof. induction ws as [|w wt IH]; intros prev [|y yt] H; cbn [follows followsE] in *; auto. destruct H; split; auto. Qed.
Lemma followsE_length E P Q ws : forall prev ys, followsE E P Q prev ws ys -> length ys = length ws.
Proof. induction ws as [|w wt IH]; intros prev [|y yt] H; cbn [followsE] in *; try easy. destruct H. cbn. f_equal. eauto. Qed.
Lemma followsE_app E P Q a b : forall prev ys, followsE E P Q prev (a ++ b) ys ->
  exists y1 y2, ys = y1 ++ y2 /\ followsE E P Q prev a y1 /\ followsE E P Q (last a prev) b y2.
Proof.
  induction a as [|w a IH]; intros prev ys H.
  - exists [], ys. split; [reflexivity|]. split; [exact I|exact H].
  - destruct ys as [|y ys]; cbn [app followsE] in H; [easy|]. destruct H as (H1 & H2).
    destruct (IH _ _ H2) as (y1 & y2 & -> & G1 & G2). exists (y :: y1), y2. split; auto. split; [split; auto|].
    rewrite last_cons. exact G2.
Qed.
Lemma followsE_nth E P Q ws : forall prev ys k, followsE E P Q prev ws ys -> (k < length ws)%nat ->
  withinE E P Q (nth k (prev :: ws) 0) (nth k ws 0) (nth k ys 0).
Proof.
  induction ws as [|w wt IH]; intros prev [|y yt] k H Hk; cbn [followsE length] in *; try easy.
  destruct H as (H1 & H2). destruct k as [|k]; [exact H1|]. apply (IH w yt k H2). lia.
Qed.

(** ** Level *)
Definition stok (pp p st : Z) : Prop :=
  if p =? 0 then if pp =? 0 then st = 0 else st = 0 \/ st = pp else st = 0 \/ st = p.
Fixpoint gapped (pp p : Z) (ws : list Z) : bool :=
  match ws with [] => true | w :: t => ((w =? 0) || (w =? p) || ((p =? 0) && (pp =? 0))) && gapped p w t end.
Fixpoint fin (pp p : Z) (ws : list Z) : Z * Z := match ws with [] => (pp, p) | w :: t => fin p w t end.
Lemma gapped_app a b : forall pp p, gapped pp p (a ++ b) = gapped pp p a && gapped (fst (fin pp p a)) (snd (fin pp p a)) b.
Proof. induction a as [|w a IH]; intros pp p; [reflexivity|]. cbn [app gapped fin]. rewrite IH, andb_assoc. reflexivity. Qed.
Lemma fin_app a b : forall pp p, fin pp p (a ++ b) = fin (fst (fin pp p a)) (snd (fin pp p a)) b.
Proof. induction a as [|w a IH]; intros pp p; [reflexivity|]. cbn [app fin]. apply IH. Qed.

Lemma unit_cases (w : Z) : (w = 0 \/ sgn1 w) -> w = 0 \/ w = 1 \/ w = -1. Proof. unfold sgn1. tauto. Qed.
Lemma level_one P Q pp p w st y : 1700 <= P <= Q -> Q <= 4681 -> (pp = 0 \/ sgn1 pp) -> (p = 0 \/ sgn1 p) -> (w = 0 \/ sgn1 w) ->
  ((w =? 0) || (w =? p) || ((p =? 0) && (pp =? 0))) = true -> stok pp p st -> withinE 599 P Q p w y ->
  exists st' z, lv_update (fun z => z) st y = Ok (st', z) /\ stok p w st' /\ withinE 61 P Q p w z.
Proof.
  intros HP HQ Up U U' G S W. unfold lv_update, lv_next, BUS_HIGH_MV, BUS_LOW_MV.
  assert (Hs : st = 0 \/ st = 1 \/ st = -1).
  { unfold stok, sgn1 in *. destruct (p =? 0); [destruct (pp =? 0)|]; lia. }
  assert (Hy : -4681 <= y <= 4681).
  { unfold withinE, sgn1 in *. destruct U as [->|[->| ->]], U' as [->|[->| ->]]; cbn [Z.eqb Pos.eqb] in W; lia. }
  assert (K : exists st' z, (if (if st =? 0 then if 1400 <=? y then 1 else if y <=? - (1400) then -1 else st
       else if st =? 1 then if y <? 600 then 0 else st else if - (600) <? y then 0 else st) =? 0
     then Ok (0, 26 * y / 256) else Ok (if st =? 0 then if 1400 <=? y then 1 else if y <=? - (1400) then -1 else st
       else if st =? 1 then if y <? 600 then 0 else st else if - (600) <? y then 0 else st, y)) = Ok (st', z) /\ stok p w st' /\ withinE 61 P Q p w z).
  { assert (Dv : 256 * (26 * y / 256) <= 26 * y < 256 * (26 * y / 256) + 256).
    { pose proof (Z.div_mod (26 * y) 256 ltac:(lia)). pose proof (Z.mod_pos_bound (26 * y) 256 ltac:(lia)). lia. }
    set (dv := 26 * y / 256) in *. clearbody dv.
    unfold stok, withinE, sgn1 in *.
    destruct Up as [->|[->| ->]], U as [->|[->| ->]], U' as [->|[->| ->]]; cbn [Z.eqb Pos.eqb orb andb] in *; try discriminate G;
      destruct Hs as [->|[->| ->]]; try (exfalso; lia); cbn [Z.eqb Pos.eqb];
      repeat match goal with
      | |- context [?x <=? ?y] => destruct (Z.leb_spec x y); try (exfalso; lia)
      | |- context [?x <? ?y] => destruct (Z.ltb_spec x y); try (exfalso; lia) end; cbn [Z.eqb Pos.eqb];
      eexists _, _; (split; [reflexivity|]); cbn [Z.eqb Pos.eqb]; lia. }
  destruct K as (st' & z & K & K2 & K3). exists st', z. split; [|split; auto]. rewrite <- K.
  match goal with |- context [if ?c =? 0 then _ else _] => destruct (Z.eqb_spec c 0) as [E|E] end.
  - rewrite E, chk32_ok by lia. cbn [bind]. rewrite asr8, (Z.mul_comm y 26). reflexivity.
  - reflexivity.
Qed.
Definition units (l : list Z) : Prop := Forall (fun w => w = 0 \/ sgn1 w) l.
Lemma level_run_E P Q ws : 1700 <= P <= Q -> Q <= 4681 -> units ws -> forall pp p st ys, (pp = 0 \/ sgn1 pp) -> (p = 0 \/ sgn1 p) ->
  gapped pp p ws = true -> stok pp p st -> followsE 599 P Q p ws ys ->
  exists st' zs, mrun (lv_update (fun z => z)) st ys = Ok (st', zs) /\ stok (fst (fin pp p ws)) (snd (fin pp p ws)) st' /\
    followsE 61 P Q p ws zs.
Proof.
  intros HP HQ. induction ws as [|w wt IH]; intros U pp p st ys Up Uq G S F.
  - destruct ys; [|easy]. exists st, []. split; [reflexivity|]. split; [exact S|exact I].
  - destruct ys as [|y yt]; [easy|]. cbn [followsE gapped fin] in *. destruct F as (F1 & F2). apply andb_true_iff in G as (G1 & G2).
    inversion U as [|? ? U1 U2]; subst.
    destruct (level_one P Q pp p w st y HP HQ Up Uq U1 G1 S F1) as (s1 & z & E & S1 & W1).
    destruct (IH U2 p w s1 yt Uq U1 G2 S1 F2) as (s2 & zs & E2 & S2 & W2).
    cbn [mrun]. rewrite E; cbn [bind]. rewrite E2; cbn [bind]. eexists _, _. split; [reflexivity|]. split; [exact S2|]. split; auto.
Qed.
Lemma level_quiet_run ys : bounded 599 ys ->
  exists zs, mrun (lv_update (fun z => z)) 0 ys = Ok (0, zs) /\ Forall small zs /\ length zs = length ys.
Proof.
  induction 1 as [|y ys Hy H (zs & E & S & L)]; [exists []; split; [reflexivity|]; split; [constructor|reflexivity]|].
  exists (26 * y / 256 :: zs). cbn [mrun].
  assert (F : lv_update (fun z => z) 0 y = Ok (0, 26 * y / 256)).
  { unfold lv_update, lv_next, BUS_HIGH_MV. cbn [Z.eqb]. destruct (Z.leb_spec 1400 y); [lia|]. destruct (Z.leb_spec y (-(1400))); [lia|].
    cbn [Z.eqb]. rewrite chk32_ok by lia. cbn [bind]. rewrite asr8, (Z.mul_comm y 26). reflexivity. }
  rewrite F; cbn [bind]. rewrite E; cbn [bind]. split; [reflexivity|]. split; [|cbn; congruence]. constructor; auto.
  unfold small. pose proof (Z.div_mod (26 * y) 256 ltac:(lia)). pose proof (Z.mod_pos_bound (26 * y) 256 ltac:(lia)). lia.
Qed.

(** The shape of the waves. *)
Definition wave_check (b : Z) : bool :=
  let w := char_wave_short b in
  forallb (fun sg => let v := map (Z.mul sg) w in gapped 0 0 v && (fst (fin 0 0 v) =? 0) && (snd (fin 0 0 v) =? 0) && (last v 0 =? 0) && unitl v) [1; -1] &&
  Nat.eqb (length w) 175 &&
  forallb (fun k => nth k w 0 =? (if (Nat.modulo k 16 <? 8)%nat then nth (Nat.div k 16) (char_symbols b) 0 else 0)) (seq 0 175).
Lemma wave_check_all : forallb (fun n => wave_check (Z.of_nat n)) (seq 0 256) = true.
Proof. vm_cast_no_check (eq_refl true). Qed.
Record wave_facts (sg b : Z) (v : list Z) : Prop := {
  wf_gapped : gapped 0 0 v = true;
  wf_fin : fin 0 0 v = (0, 0);
  wf_last : last v 0 = 0;
  wf_unit : unitl v = true;
  wf_len : length v = 175%nat;
  wf_nth : forall k, (k < 175)%nat -> nth k v 0 = if (Nat.modulo k 16 <? 8)%nat then nth (Nat.div k 16) (sy sg b) 0 else 0 }.
Lemma wave_ok sg b : sgn1 sg -> 0 <= b < 256 -> wave_facts sg b (map (Z.mul sg) (char_wave_short b)).
Proof.
  intros Hs Hb. pose proof (forallb_byte _ b wave_check_all Hb) as H. cbv beta in H. rewrite Z2Nat.id in H by lia.
  unfold wave_check in H. cbv zeta in H. rewrite !andb_true_iff in H. destruct H as ((H1 & H2) & H3).
  rewrite forallb_forall in H1, H3. specialize (H1 sg ltac:(destruct Hs as [-> | ->]; cbn; auto)).
  rewrite !andb_true_iff in H1. destruct H1 as ((((A & B) & C) & D) & E). apply Z.eqb_eq in B, C, D. apply Nat.eqb_eq in H2.
  constructor; auto.
  - destruct (fin 0 0 _) as [x y]. cbn [fst snd] in *. congruence.
  - rewrite map_length; auto.
  - intros k Hk. specialize (H3 k ltac:(apply in_seq; lia)). apply Z.eqb_eq in H3.
    rewrite nth_scale0, H3. destruct (Nat.modulo k 16 <? 8)%nat; [unfold sy; rewrite nth_scale0; reflexivity|lia].
Qed.
Lemma zeros_scale sg g : map (Z.mul sg) (repeat 0 g) = repeat 0 g.
Proof. induction g; cbn; [auto|]. rewrite Z.mul_0_r, IHg. reflexivity. Qed.
Lemma zeros_fin g : fin 0 0 (repeat 0 g) = (0, 0) /\ gapped 0 0 (repeat 0 g) = true.
Proof. induction g as [|g (IH1 & IH2)]; [split; reflexivity|]. cbn [repeat fin gapped]. rewrite IH1, IH2. split; reflexivity. Qed.
Lemma units_unitl l : unitl l = true -> units l.
Proof. intros H. apply Forall_forall. intros x Hx. pose proof (unitl_In l x H Hx). unfold sgn1. tauto. Qed.
Lemma waves_shape sg cs : sgn1 sg -> bytes_ok cs ->
  let v := map (Z.mul sg) (waves cs) in gapped 0 0 v = true /\ fin 0 0 v = (0, 0) /\ unitl v = true.
Proof.
  intros Hs. cbv zeta. induction cs as [|[g b] t IH]; intros Hb; [split; [reflexivity|split; reflexivity]|].
  inversion Hb as [|? ? B1 B2]; subst. cbn [snd] in B1. destruct (IH B2) as (G & F & U). cbn [waves].
  rewrite !map_app, zeros_scale. destruct (wave_ok sg b Hs B1) as [W1 W2 W3 W4 _ _]. destruct (zeros_fin g) as (Z1 & Z2).
  split; [|split].
  - rewrite gapped_app, Z1, Z2. cbn [fst snd andb]. rewrite gapped_app, W1, W2. exact G.
  - rewrite fin_app, Z1. cbn [fst snd]. rewrite fin_app, W2. exact F.
  - rewrite !unitl_app, unitl_repeat0, W4. exact U.
Qed.

(** ** Levels placed on the line *)
Definition agree (z : Z -> Z) (e : Z) (l : list Z) : Prop := forall i, (i < length l)%nat -> z (e + Z.of_nat i) = nth i l 0.
Lemma agree_app z e a b : agree z e (a ++ b) -> agree z e a /\ agree z (e + Z.of_nat (length a)) b.
Proof.
  intros H. split; intros i Hi.
  - rewrite H by (rewrite app_length; lia). apply app_nth1; auto.
  - specialize (H (length a + i)%nat ltac:(rewrite app_length; lia)). rewrite app_nth2_plus in H. rewrite <- H. f_equal. lia.
Qed.
Definition ach : Set := nat * Z * (Z * Z * Z).
Fixpoint zplaced (z : Z -> Z) (e : Z) (cs : list ach) (e' : Z) : Prop :=
  match cs with
  | [] => e' = e
  | (g, b, (sg, P, Q)) :: r => (forall i, e <= i < e + Z.of_nat g -> small (z i)) /\ 0 <= b < 256 /\ sgn1 sg /\ clear P Q /\
      chr P Q (sy sg b) z (e + Z.of_nat g) /\ zplaced z (e + Z.of_nat g + 175) r e'
  end.
Lemma zplaced_app z a b : forall e e1 e2, zplaced z e a e1 -> zplaced z e1 b e2 -> zplaced z e (a ++ b) e2.
Proof.
  induction a as [|[[g c] [[sg P] Q]] a IH]; intros e e1 e2 H1 H2; cbn [zplaced app] in *; [subst; auto|].
  destruct H1 as (A & B & C & D & E & F). split; auto. split; auto. split; auto. split; auto. split; auto. eapply IH; eauto.
Qed.
Lemma follows_zeros P Q g zs : followsE 61 P Q 0 (repeat 0 g) zs -> Forall small zs.
Proof.
  revert zs; induction g as [|g IH]; intros [|z zs] H; cbn [repeat followsE] in H; try easy.
  destruct H as (H1 & H2). constructor; [exact H1|auto].
Qed.
Lemma last_zeros g : last (repeat 0 g) 0 = 0. Proof. apply last_repeat0. Qed.
Lemma chr_of P Q sg b z t zs : sgn1 sg -> 0 <= b < 256 -> followsE 61 P Q 0 (map (Z.mul sg) (char_wave_short b)) zs ->
  agree z t zs -> chr P Q (sy sg b) z t.
Proof.
  intros Hs Hb F A. destruct (wave_ok sg b Hs Hb) as [_ _ _ _ WL WN]. pose proof (followsE_length _ _ _ _ _ _ F) as L. rewrite WL in L.
  intros m j Hm Hj Hk. set (k := Z.to_nat (16 * m + j)).
  assert (Ek : t + 16 * m + j = t + Z.of_nat k) by (unfold k; lia).
  rewrite Ek, A by (unfold k; lia).
  pose proof (followsE_nth _ _ _ _ _ _ k F ltac:(unfold k; lia)) as W.
  assert (Nk : nth k (map (Z.mul sg) (char_wave_short b)) 0 = if j <? 8 then nth (Z.to_nat m) (sy sg b) 0 else 0).
  { rewrite WN by (unfold k; lia).
    replace (Nat.modulo k 16) with (Z.to_nat j).
    2:{ apply Nat.mod_unique with (q := Z.to_nat m); unfold k; lia. }
    replace (Nat.div k 16) with (Z.to_nat m).
    2:{ apply Nat.div_unique with (r := Z.to_nat j); unfold k; lia. }
    destruct (Z.ltb_spec j 8), (Nat.ltb_spec (Z.to_nat j) 8); try lia; reflexivity. }
  assert (Np : nth k (0 :: map (Z.mul sg) (char_wave_short b)) 0 = if (0 <? j) && (j <=? 8) then nth (Z.to_nat m) (sy sg b) 0 else 0).
  { destruct k as [|k'] eqn:Ekk.
    - assert (j = 0) by (unfold k in Ekk; lia). subst j. reflexivity.
    - cbn [nth]. rewrite WN by (unfold k in Ekk; lia). destruct (Z.eq_dec j 0) as [->|N].
      + replace (Nat.modulo k' 16) with 15%nat; [reflexivity|].
        apply Nat.mod_unique with (q := Z.to_nat (m - 1)); unfold k in Ekk; lia.
      + replace (Nat.modulo k' 16) with (Z.to_nat (j - 1)).
        2:{ apply Nat.mod_unique with (q := Z.to_nat m); unfold k in Ekk; lia. }
        replace (Nat.div k' 16) with (Z.to_nat m).
        2:{ apply Nat.div_unique with (r := Z.to_nat (j - 1)); unfold k in Ekk; lia. }
        destruct (Z.ltb_spec 0 j), (Z.leb_spec j 8), (Nat.ltb_spec (Z.to_nat (j - 1)) 8); try lia; reflexivity. }
  rewrite Nk, Np in W. set (s := nth (Z.to_nat m) (sy sg b) 0) in *. clearbody s. unfold withinE in W. unfold zrel, small.
  destruct (Z.eqb_spec s 0) as [->|Ns].
  - destruct (j <? 8), ((0 <? j) && (j <=? 8)); exact W.
  - destruct (Z.ltb_spec 8 j), (Z.ltb_spec j 8), (Z.ltb_spec 0 j), (Z.leb_spec j 8), (Z.eqb_spec j 0), (Z.eqb_spec j 8); try lia;
      cbn [andb orb] in *; cbn [Z.eqb] in W; try exact W; destruct (Z.eqb_spec s 0); try easy; exact W.
Qed.
Definition ann (sg P Q : Z) (c : nat * Z) : ach := (fst c, snd c, (sg, P, Q)).
Lemma zplaced_of P Q sg z cs : sgn1 sg -> clear P Q -> bytes_ok cs -> forall e zs,
  followsE 61 P Q 0 (map (Z.mul sg) (waves cs)) zs -> agree z e zs ->
  zplaced z e (map (ann sg P Q) cs) (e + Z.of_nat (length zs)).
Proof.
  intros Hs Hc. induction cs as [|[g b] t IH]; intros Hb e zs F A.
  - destruct zs; [|easy]. cbn. lia.
  - inversion Hb as [|? ? B1 B2]; subst. cbn [snd] in B1. cbn [waves] in F. rewrite !map_app, zeros_scale in F.
    apply followsE_app in F as (z1 & zs' & -> & F1 & F). rewrite last_zeros in F. apply followsE_app in F as (z2 & z3 & -> & F2 & F3).
    destruct (wave_ok sg b Hs B1) as [_ _ W3 _ W5 _]. rewrite W3 in F3.
    apply agree_app in A as (A1 & A). apply agree_app in A as (A2 & A3).
    pose proof (followsE_length _ _ _ _ _ _ F1) as L1. rewrite repeat_length in L1.
    pose proof (followsE_length _ _ _ _ _ _ F2) as L2. rewrite W5 in L2. rewrite L1 in *. rewrite L2 in *.
    cbn [map ann fst snd zplaced]. split; [|split; [|split; [|split; [|split]]]]; auto.
    + intros i Hi. apply follows_zeros in F1. rewrite Forall_forall in F1. apply F1.
      replace i with (e + Z.of_nat (Z.to_nat (i - e))) by lia. rewrite A1 by lia. apply nth_In. lia.
    + eapply chr_of; eauto.
    + rewrite !app_length, L1, L2. change (Z.of_nat 175) with 175 in A3.
      replace (e + Z.of_nat (g + (175 + length z3))) with (e + Z.of_nat g + 175 + Z.of_nat (length z3)) by lia. apply IH; auto.
Qed.

(** ** What the detector makes of it *)
Definition aud (x : ach) : nat * Z := fst x.
Lemma placed_of z cs : forall e e', zplaced z e cs e' -> lead z e -> (forall i, e' <= i -> small (z i)) ->
  exists ds, map undeco ds = map aud cs /\ fs_ok ds /\ placed (det z) e ds /\ endpos e ds = e'.
Proof.
  induction cs as [|[[g b] [[sg P] Q]] r IH]; intros e e' H L T; cbn [zplaced] in H.
  - subst e'. exists []. split; [reflexivity|]. split; [constructor|]. split; [|reflexivity]. cbn [placed]. intros i Hi.
    assert (A : forall j, e - 15 <= j -> small (z j)).
    { intros j Hj. destruct (Z_lt_ge_dec j e); [apply L; lia|apply T; lia]. }
    apply (det_quiet 1700 1700 z i 1); try lia; auto; [intros; apply A; lia|left; apply A; lia].
  - destruct H as (Hz & Hb & Hs & (HP & HR & HQ) & Hc & H). set (t := e + Z.of_nat g) in *.
    assert (Lt : lead z t).
    { intros i Hi. destruct (Z_lt_ge_dec i e); [apply L; unfold t in *; lia|apply Hz; lia]. }
    pose proof (sy_ok sg b Hs Hb) as SF.
    assert (L2 : lead z (t + 175)).
    { intros i Hi. replace i with (t + 16 * 10 + (i - t - 160)) by lia. eapply zrel_small; [apply Hc; lia|].
      left. apply (sf_stop _ SF). }
    destruct (IH _ _ H L2 T) as (ds & D1 & D2 & D3 & D4).
    destruct (c_first P Q _ z t ltac:(lia) HR SF Lt Hc) as (f & Ff & Nf & Zf).
    exists ((g, b, f) :: ds). cbn [map undeco aud fst snd]. split; [rewrite D1; reflexivity|]. split; [constructor; auto|].
    cbn [placed endpos]. fold t. split; [|exact D4]. split; [|split; [|exact D3]].
    + intros i Hi. assert (A : forall j, e - 15 <= j < t -> small (z j)).
      { intros j Hj. destruct (Z_lt_ge_dec j e); [apply L; lia|apply Hz; lia]. }
      apply (det_quiet 1700 1700 z i 1); try lia; auto; [intros; apply A; lia|left; apply A; lia].
    + constructor; auto.
      * intros i Hi. replace (t + i) with (t + 16 * 10 + (i - 160)) by lia.
        apply (c_stop P Q (sy sg b) z t ltac:(lia) HR SF Lt Hc); lia.
      * intros i Hi. apply (c_range P Q (sy sg b) z t ltac:(lia) HR HQ SF Lt Hc). lia.
      * apply (c_frame P Q (sy sg b) z t ltac:(lia) HR SF Lt Hc f b Ff). apply sy_frame; auto.
Qed.

(** ** The stream *)
Lemma heard_level pkts ys : heard pkts ys -> Forall (fun p => Forall (fun c => 0 <= snd c < 256) (pk_chars p)) pkts -> exists cs zs n,
  mrun (lv_update (fun z => z)) 0 ys = Ok (0, zs) /\ length zs = length ys /\ map aud cs = flat_map pk_chars pkts /\
  (200 <= n)%nat /\ Z.of_nat n < 4294960000 /\ bounded 5000 zs /\
  (forall z e, agree z e zs -> (forall i, e + Z.of_nat (length zs) <= i -> small (z i)) ->
    zplaced z e cs (e + Z.of_nat (length zs - n)) /\ (n <= length zs)%nat /\
    forall i, e + Z.of_nat (length zs - n) <= i -> small (z i)).
Proof.
  intros H. induction H as [ys L1 L2 B|p sg P Q ys pkts rest Hs Hc F H IH]; intros Hb.
  - destruct (level_quiet_run ys B) as (zs & E & S & L). exists [], zs, (length ys). split; [exact E|]. split; [exact L|]. split; [reflexivity|].
    split; [exact L1|]. split; [exact L2|]. split; [eapply Forall_impl; [|exact S]; unfold small; cbn; intros; lia|].
    intros z e A T. rewrite L, Nat.sub_diag in *. cbn [zplaced Z.of_nat]. split; [lia|]. split; [lia|].
    intros i Hi. destruct (Z_lt_ge_dec i (e + Z.of_nat (length ys))); [|apply T; lia].
    rewrite Forall_forall in S. apply S. replace i with (e + Z.of_nat (Z.to_nat (i - e))) by lia. rewrite A by lia. apply nth_In. lia.
  - inversion Hb as [|? ? B1 B2]; subst. destruct (IH B2) as (cs & zs & n & E & L & M & N1 & N2 & Bd & K).
    destruct (waves_shape sg (pk_chars p) Hs B1) as (G & Fi & U). pose proof Hc as (HP & HR & HQ).
    destruct (level_run_E P Q _ HP HQ (units_unitl _ U) 0 0 0 ys (or_introl eq_refl) (or_introl eq_refl) G eq_refl (follows_E _ _ _ _ _ F))
      as (st & z1 & E1 & S1 & F1).
    rewrite Fi in S1. cbn in S1. subst st.
    exists (map (ann sg P Q) (pk_chars p) ++ cs), (z1 ++ zs), n.
    assert (L1 : length z1 = length ys).
    { rewrite (followsE_length _ _ _ _ _ _ F1). symmetry. apply (followsE_length _ _ _ _ _ _ (follows_E _ _ _ _ _ F)). }
    split; [rewrite mrun_app, E1; cbn [bind]; rewrite E; reflexivity|]. split; [rewrite !app_length; lia|].
    split; [|split; [exact N1|split; [exact N2|split]]].
    + rewrite map_app, M. cbn [flat_map]. f_equal. rewrite map_map. unfold aud, ann. cbn [fst].
      rewrite <- (map_id (pk_chars p)) at 2. apply map_ext. intros [? ?]; reflexivity.
    + apply bounded_app. split; [|exact Bd]. apply Forall_forall. intros x Hx. apply In_nth with (d := 0) in Hx as (k & Hk & <-).
      rewrite (followsE_length _ _ _ _ _ _ F1) in Hk. pose proof (followsE_nth _ _ _ _ _ _ k F1 Hk) as W.
      pose proof (units_unitl _ U) as UU. assert (U0 : units (0 :: map (Z.mul sg) (waves (pk_chars p)))) by (constructor; auto).
      set (V := map (Z.mul sg) (waves (pk_chars p))) in *.
      assert (X1 : nth k V 0 = 0 \/ sgn1 (nth k V 0)) by (unfold units in UU; rewrite Forall_forall in UU; apply UU, nth_In; auto).
      assert (X2 : nth k (0 :: V) 0 = 0 \/ sgn1 (nth k (0 :: V) 0)) by (unfold units in U0; rewrite Forall_forall in U0; apply U0, nth_In; cbn [length]; lia).
      unfold withinE, sgn1 in *. destruct X1 as [X1|[X1|X1]], X2 as [X2|[X2|X2]]; rewrite X1, X2 in W; cbn [Z.eqb] in W; lia.
    + intros z e A T. apply agree_app in A as (A1 & A2).
      destruct (K z (e + Z.of_nat (length z1)) A2) as (K1 & K2 & K3).
      { intros i Hi. apply T. rewrite app_length. lia. }
      rewrite app_length. split; [|split; [lia|]].
      * replace (e + Z.of_nat (length z1 + length zs - n)) with (e + Z.of_nat (length z1) + Z.of_nat (length zs - n)) by lia.
        eapply zplaced_app; [|exact K1]. apply zplaced_of; auto.
      * intros i Hi. apply K3. lia.
Qed.

Lemma noisy_packets e0 pkts ys : heard pkts ys ->
  Forall (fun p => Forall (fun c => Z.of_nat (fst c) < 4294967000 /\ 0 <= snd c < 256) (pk_chars p)) pkts ->
  Forall (fun p => (177 <= pk_gap p)%nat /\ inner_quiet p <= 172) pkts ->
  exists c c' es, lchain_new e0 = Ok c /\ mrun lchain_step c ys = Ok (c', es) /\ log_of es = LFree :: flat_map one_packet pkts.
Proof.
  intros H Hok Hp.
  assert (Hby : Forall (fun p => Forall (fun c => 0 <= snd c < 256) (pk_chars p)) pkts).
  { eapply Forall_impl; [|exact Hok]. cbn. intros p Hc. eapply Forall_impl; [|exact Hc]. cbn. tauto. }
  destruct (heard_level pkts ys H Hby) as (cs & zs & n & R1 & L & M & N1 & N2 & Bd & K).
  destruct (det_stream zs) as (b & b' & Eb & R2).
  { eapply Forall_impl; [|exact Bd]. cbn. intros; lia. }
  assert (A : agree (zat zs) 0 zs).
  { intros i Hi. unfold zat. destruct (Z.ltb_spec (0 + Z.of_nat i) 0); [lia|]. f_equal. lia. }
  destruct (K (zat zs) 0 A) as (K1 & K2 & K3).
  { intros i Hi. rewrite zat_over by lia. unfold small; lia. }
  assert (L0 : lead (zat zs) 0).
  { intros i Hi. unfold zat. destruct (Z.ltb_spec i 0); [unfold small; lia|lia]. }
  destruct (placed_of _ cs 0 _ K1 L0 K3) as (ds & D1 & D2 & D3 & D4).
  assert (Hg : gaps_lt ds).
  { rewrite M in D1. unfold gaps_lt. apply Forall_forall. intros x Hx. apply (in_map undeco) in Hx. rewrite D1 in Hx.
    apply in_flat_map in Hx as (p & P1 & P2). rewrite Forall_forall in Hok. specialize (Hok p P1). rewrite Forall_forall in Hok.
    apply (Hok _ P2). }
  set (D := det (zat zs)) in *. set (N := length zs) in *.
  exists (LChain lv_new b (ls_new e0)). unfold lchain_new. rewrite Eb. cbn [bind].
  destruct (line_of_uart (dseq D 0 N) (ls_new e0) (ua_new_safe _)) as (m & Em & HU).
  assert (D0 : D 0 = 0).
  { destruct ds as [|[[g b0] f] r]; cbn [placed] in D3; [apply D3; lia|]. destruct D3 as (Z0 & C0 & _).
    destruct g as [|g]; [|apply Z0; lia]. pose proof (co_zero _ _ _ _ C0 0) as C. pose proof (co_f _ _ _ _ C0).
    cbn in C. apply C. lia. }
  assert (exists u outs, mrun ua_call (ua_new PARITY_EVEN) m = Ok (u, outs) /\
     combine (rflags (ua_new PARITY_EVEN) m) outs = (true, None) :: pobs 1 0 ds (Z.of_nat N)) as (u & outs & R3 & Ob).
  { clear HU. destruct m as [|[[x o] e] m].
    - apply (f_equal (@length _)) in Em. rewrite dseq_length in Em. cbn in Em. lia.
    - assert (EN : N = S (N - 1)) by lia. rewrite EN in Em. cbn [dseq map] in Em. injection Em as Ex Em.
      change (sym_of (x, o, e)) with x in Ex. rewrite D0 in Ex. subst x.
      destruct (new_first PARITY_EVEN 0 o e eq_refl) as (u0 & F0 & I0).
      assert (F01 : mrun ua_call (ua_new PARITY_EVEN) [(0, o, e)] = Ok (u0, [None])) by (cbn [mrun]; rewrite F0; reflexivity).
      destruct (uart_line D ds 0 1 (N - 1) m u0 _ D3 Hg ltac:(lia) (ua_inv_after _ _ _ F01) I0 Em ltac:(rewrite D4; lia) ltac:(rewrite D4; lia))
        as (u1 & os & R & Rep).
      cbn [mrun rflags]. rewrite F0; cbn [bind]. rewrite R; cbn [bind]. eexists _, _. split; [reflexivity|]. cbn [combine].
      rewrite Rep. replace (1 + Z.of_nat (N - 1)) with (Z.of_nat N) by lia. reflexivity. }
  destruct (HU u outs R3) as (s' & es & R4 & _ & T). cbn [ls_uart ls_busy ls_idle ls_new] in T. change IDLE_SAMPLES with 176 in T.
  eexists _, es. split; [reflexivity|]. split.
  - eapply lchain_split; cbn [lc_level lc_bit lc_ls]; [exact R1|exact R2|exact R4].
  - rewrite Ob in T. cbn [trun tlog andb negb app] in T.
    pose proof (packets_quiet pkts (Z.of_nat N) Hp ds 0 1 (true, 176) ltac:(rewrite D1, M; reflexivity) D2 ltac:(cbn [snd]; lia) ltac:(lia) ltac:(rewrite D4; lia)) as PQ.
    destruct (trun (true, 176) (pobs 1 0 ds (Z.of_nat N))) as [s2 l2]. cbn [snd] in PQ. injection T as _ T.
    rewrite <- T. exact PQ.
Qed.

(** ** Deciding [follows] (for examples) *)
Definition withinb (P Q prev now y : Z) : bool :=
  if now =? 0 then if prev =? 0 then (-599 <=? y) && (y <=? 599) else (-599 <=? prev * y) && (prev * y <=? Q)
  else if prev =? 0 then (-599 <=? now * y) && (now * y <=? Q) else (P <=? now * y) && (now * y <=? Q).
Fixpoint followsb (P Q prev : Z) (ws ys : list Z) : bool :=
  match ws, ys with
  | [], [] => true
  | w :: wt, y :: yt => withinb P Q prev w y && followsb P Q w wt yt
  | _, _ => false
  end.
Lemma followsb_ok P Q ws : forall prev ys, followsb P Q prev ws ys = true -> follows P Q prev ws ys.
Proof.
  induction ws as [|w wt IH]; intros prev [|y yt] H; cbn [followsb follows] in *; try easy.
  apply andb_true_iff in H as (H1 & H2). split; auto. unfold withinb in H1. unfold within.
  destruct (w =? 0), (prev =? 0); apply andb_true_iff in H1 as (A & B); apply Z.leb_le in A, B; lia.
Qed.
