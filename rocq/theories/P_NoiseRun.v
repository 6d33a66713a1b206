(** P_NoiseRun.v -- disturbed packets through Level, bit detector and line tracking (C92). *)
From Verif Require Import Base M_ShiftReg M_Dsp M_Uart M_Pio M_Core1 S_Containers S_Dsp S_Line S_Pio S_Core1 S_Noise D_Uart D_Chain D_Core1
  P_Containers P_Dsp P_Uart P_UartRun P_UartErr P_Pio P_PioTc P_Chain P_Core1 P_Core1Chain P_NoiseDet P_NoiseChar.

(** ** One frame at the byte receiver *)
Definition frame_obs (b : Z) : list (bool * option (Z * bool)) :=
  nones 1 ++ repeat (true, None) 167 ++ [(true, Some (b, false)); (true, None)].
Record ch_ok (D : Z -> Z) (t b f : Z) : Prop := {
  co_f : 9 <= f <= 13;
  co_zero : forall i, 0 <= i < f -> D (t + i) = 0;
  co_nz : D (t + f) <> 0;
  co_tail : forall i, 168 <= i < 183 -> D (t + i) = 0;
  co_rng : forall i, 0 <= i < 183 -> Z.abs (D (t + i)) <= 32767;
  co_frame : exists ph, dominant (dseq D (t + f) 168) ph /\ frame_ok (symbols (dseq D (t + f) 168) ph) b }.

Lemma map_sym_split l a b : map sym_of l = a ++ b -> exists l1 l2, l = l1 ++ l2 /\ map sym_of l1 = a /\ map sym_of l2 = b.
Proof. intros H. apply map_split in H as (l1 & l2 & -> & E1 & E2). eauto. Qed.
Lemma dseq_map_id D f n : forall c, (forall i, 0 <= i < Z.of_nat n -> f (D (c + i)) = D (c + i)) -> map f (dseq D c n) = dseq D c n.
Proof.
  induction n as [|n IH]; intros c H; [reflexivity|]. cbn [dseq map].
  rewrite IH; [|intros i Hi; specialize (H (1 + i) ltac:(lia)); replace (c + (1 + i)) with (c + 1 + i) in H by lia; exact H].
  f_equal. specialize (H 0 ltac:(lia)). rewrite Z.add_0_r in H. exact H.
Qed.

Lemma frame_run D t b f l u h n : ch_ok D t b f -> map sym_of l = dseq D (t + f) 170 -> ua_inv u h -> idle_st u n ->
  exists u' outs, mrun ua_call u l = Ok (u', outs) /\ combine (rflags u l) outs = frame_obs b /\
    ua_inv u' (h ++ map sym_of l) /\ idle_st u' 0.
Proof.
  intros [Cf Cz Cn Ct Cr (ph & Cd & Cs)] El Hi Hid.
  assert (Ll : length l = 170%nat) by (rewrite <- (map_length sym_of), El, dseq_length; auto).
  change 170%nat with (168 + 2)%nat in El. rewrite dseq_app in El.
  apply map_sym_split in El as (la & lr & -> & Ea & Er).
  assert (La : length la = 168%nat) by (rewrite <- (map_length sym_of), Ea, dseq_length; auto).
  destruct la as [|[[x o0] e0] mid]; [discriminate|]. destruct lr as [|[[y o1] e1] [|[[z o2] e2] [|]]];
    try (apply (f_equal (@length _)) in Er; discriminate Er).
  cbn [dseq map] in Er. change (sym_of (y, o1, e1)) with y in Er. change (sym_of (z, o2, e2)) with z in Er.
  assert (Qz : s16 z = 0).
  { assert (Ez : z = D (t + (f + 169))) by (injection Er as _ Ez; rewrite Ez; f_equal; lia).
    rewrite Ez, Ct by lia. reflexivity. }
  clear Er. assert (Lm : length mid = 167%nat) by (cbn [length] in La; lia).
  assert (Es : map s16 (x :: map sym_of mid) = dseq D (t + f) 168).
  { change (x :: map sym_of mid) with (map sym_of ((x, o0, e0) :: mid)). rewrite Ea. apply dseq_map_id.
    intros i Hj. apply s16_id. specialize (Cr (f + i) ltac:(lia)). replace (t + f + i) with (t + (f + i)) by lia. lia. }
  assert (Hx : s16 x <> 0).
  { assert (E : s16 x = D (t + f)) by (change (s16 x) with (hd 0 (map s16 (x :: map sym_of mid))); rewrite Es; reflexivity).
    rewrite E. exact Cn. }
  destruct Hid as (St & _ & _).
  destruct (ua_wfs_run u h Hi St x o0 e0 Hx) as (v1 & V1 & SV1 & CV1 & _ & wv & _ & RV1 & _).
  destruct (uart_frame_gen u h x o0 e0 mid y o1 e1 Hi St Hx Lm) as (u1 & o & e & E1 & _ & F). rewrite Es in F.
  destruct (F ph Cd b Cs) as (-> & ->).
  destruct (ua_run_inv ((x, o0, e0) :: mid ++ [(y, o1, e1)]) u h Hi) as (u1' & outs1 & E1' & Hi1 & _).
  rewrite E1 in E1'. inversion E1'; subst u1' outs1. clear E1'.
  assert (St1 : ua_state u1 = WAIT_FOR_IDLE).
  { rewrite app_comm_cons in E1. apply mrun_snoc in E1 as (u0 & _ & E0); [|rewrite repeat_length; cbn; lia].
    apply some_then_idle in E0. exact E0. }
  assert (Fl1 : rflags u ((x, o0, e0) :: mid ++ [(y, o1, e1)]) = false :: repeat true 168).
  { cbn [rflags]. rewrite V1. f_equal; [unfold ua_receiving; rewrite St; reflexivity|].
    rewrite (data_flags _ v1 167 SV1 CV1) by (try lia; try (eexists; exact RV1); rewrite app_length, Lm; reflexivity).
    rewrite app_length, Lm. reflexivity. }
  destruct (wfi_zero u1 z o2 e2 St1 (ua_inv_idle_counter _ _ Hi1 St1) (ua_inv_safe _ _ Hi1) Qz) as (u2 & E2 & I2).
  assert (E23 : mrun ua_call u1 [(z, o2, e2)] = Ok (u2, [None])) by (cbn [mrun]; rewrite E2; reflexivity).
  assert (Fl2 : rflags u1 [(z, o2, e2)] = [true]).
  { cbn [rflags]. rewrite E2. unfold ua_receiving. rewrite St1. reflexivity. }
  assert (El : ((x, o0, e0) :: mid) ++ [(y, o1, e1); (z, o2, e2)] = ((x, o0, e0) :: mid ++ [(y, o1, e1)]) ++ [(z, o2, e2)]).
  { cbn [app]. rewrite <- app_assoc. reflexivity. }
  rewrite El, (rflags_app _ _ u u1 _ E1), Fl1, Fl2. rewrite mrun_app, E1. cbn [bind]. rewrite E23. cbn [bind].
  eexists _, _. split; [reflexivity|]. split; [|split].
  - reflexivity.
  - destruct (ua_run_inv [(z, o2, e2)] u1 _ Hi1) as (u3 & os & E & Hi3 & _). rewrite E23 in E. inversion E; subst u3.
    rewrite <- app_assoc, <- map_app in Hi3. exact Hi3.
  - exact I2.
Qed.

(** ** A line of characters *)
Definition dch : Set := nat * Z * Z.
Fixpoint placed (D : Z -> Z) (e : Z) (cs : list dch) : Prop :=
  match cs with
  | [] => forall i, e <= i -> D i = 0
  | (g, b, f) :: r => (forall i, e <= i < e + Z.of_nat g -> D i = 0) /\ ch_ok D (e + Z.of_nat g) b f /\ placed D (e + Z.of_nat g + 175) r
  end.
Fixpoint pobs (c e : Z) (cs : list dch) (T : Z) : list (bool * option (Z * bool)) :=
  match cs with
  | [] => nones (Z.to_nat (T - c))
  | (g, b, f) :: r => let t := e + Z.of_nat g in nones (Z.to_nat (t + f - c)) ++ frame_obs b ++ pobs (t + f + 170) (t + 175) r T
  end.
Fixpoint endpos (e : Z) (cs : list dch) : Z :=
  match cs with [] => e | (g, _, _) :: r => endpos (e + Z.of_nat g + 175) r end.
Lemma endpos_ge cs : forall e, e <= endpos e cs.
Proof. induction cs as [|[[g b] f] r IH]; intros e; cbn [endpos]; [lia|]. specialize (IH (e + Z.of_nat g + 175)). lia. Qed.

Lemma quiet_dseq D l n : forall c, map sym_of l = dseq D c n -> (forall i, c <= i < c + Z.of_nat n -> D i = 0) -> quiet l.
Proof.
  revert l; induction n as [|n IH]; intros l c E H.
  - apply map_eq_nil in E. subst. constructor.
  - destruct l as [|i l]; [discriminate|]. cbn [map dseq] in E. injection E as E1 E2. constructor.
    + rewrite E1, H by lia. reflexivity.
    + apply (IH l (c + 1) E2). intros; apply H; lia.
Qed.

Definition gaps_lt (cs : list dch) : Prop := Forall (fun x => Z.of_nat (fst (fst x)) < 4294967000) cs.
Definition gaps_from (n : Z) (cs : list dch) : Prop := Forall (fun x => n + Z.of_nat (fst (fst x)) < 4294967000) cs.
Lemma uart_line_n D cs : forall n e c N l u h, placed D e cs -> gaps_from n cs -> e <= c <= e + 8 -> ua_inv u h -> idle_st u n -> 0 <= n ->
  map sym_of l = dseq D c N -> endpos e cs + 8 <= c + Z.of_nat N -> n + (c + Z.of_nat N - endpos e cs) < 4294967000 ->
  exists u' outs, mrun ua_call u l = Ok (u', outs) /\ combine (rflags u l) outs = pobs c e cs (c + Z.of_nat N).
Proof.
  induction cs as [|[[g b] f] r IH]; intros n e c N l u h Hp Hg Hc Hi Hid Hn El HN HT.
  - cbn [placed endpos pobs] in *.
    assert (L : length l = N) by (rewrite <- (map_length sym_of), El, dseq_length; auto).
    assert (Q : quiet l) by (apply (quiet_dseq D l N c El); intros; apply Hp; lia).
    destruct (idle_run l u n Hid Q ltac:(lia) ltac:(lia)) as (u' & R & _).
    pose proof (idle_flags l u n Hid Q ltac:(lia) ltac:(lia)) as F.
    eexists _, _. split; [exact R|]. rewrite F, L, combine_repeat. unfold nones. f_equal. lia.
  - cbn [placed endpos pobs] in *. destruct Hp as (Hz & Hk & Hp). inversion Hg as [|? ? G1 G2]; subst. cbn [fst] in G1.
    set (t := e + Z.of_nat g) in *. pose proof (endpos_ge r (t + 175)) as EP. pose proof (co_f _ _ _ _ Hk) as Ff.
    set (n1 := Z.to_nat (t + f - c)). set (n2 := (N - n1 - 170)%nat).
    assert (EN : N = (n1 + (170 + n2))%nat) by (unfold n1, n2, t in *; lia).
    assert (E1 : c + Z.of_nat n1 = t + f) by (unfold n1, t in *; lia).
    assert (EP2 : t + f + 170 + Z.of_nat n2 = c + Z.of_nat N) by lia.
    clearbody n1 n2. rewrite EN, !dseq_app, E1 in El.
    apply map_sym_split in El as (l1 & l2 & -> & El1 & El). apply map_sym_split in El as (l3 & l4 & -> & El3 & El4).
    change (t + f + Z.of_nat 170) with (t + f + 170) in El4.
    assert (L1 : length l1 = n1) by (rewrite <- (map_length sym_of), El1, dseq_length; auto).
    assert (Q1 : quiet l1).
    { apply (quiet_dseq D l1 n1 c El1). intros i Hi1. destruct (Z_lt_ge_dec i t); [apply Hz; lia|].
      replace i with (t + (i - t)) by lia. apply (co_zero _ _ _ _ Hk). lia. }
    destruct (idle_run l1 u n Hid Q1 ltac:(lia) ltac:(unfold t in *; lia)) as (u1 & R1 & I1).
    pose proof (idle_flags l1 u n Hid Q1 ltac:(lia) ltac:(unfold t in *; lia)) as F1.
    destruct (ua_run_inv l1 u h Hi) as (u1' & os1 & R1' & Hi1 & _). rewrite R1 in R1'. inversion R1'; subst u1' os1.
    destruct (frame_run D t b f l3 u1 _ _ Hk El3 Hi1 I1) as (u2 & os2 & R2 & Rep2 & Hi2 & I2).
    assert (G3 : gaps_from 0 r) by (eapply Forall_impl; [|exact G2]; cbn beta; intros; lia).
    destruct (IH 0 (t + 175) (t + f + 170) n2 l4 u2 _ Hp G3 ltac:(lia) Hi2 I2 ltac:(lia) El4 ltac:(lia) ltac:(lia)) as (u3 & os3 & R3 & Rep3).
    rewrite (rflags_app l1 _ u u1 _ R1), (rflags_app l3 _ u1 u2 _ R2).
    rewrite mrun_app, R1; cbn [bind]. rewrite mrun_app, R2; cbn [bind]. rewrite R3; cbn [bind].
    eexists _, _. split; [reflexivity|].
    rewrite combine_app by (rewrite F1, !repeat_length; auto). rewrite combine_app.
    + rewrite Rep2, Rep3, F1, combine_repeat, L1, EP2. cbv zeta. f_equal.
    + rewrite (rflags_length _ _ _ _ R2). symmetry. eapply mrun_length; eauto.
Qed.

Lemma uart_line D cs : forall e c N l u h, placed D e cs -> gaps_lt cs -> e <= c <= e + 8 -> ua_inv u h -> idle_st u 0 ->
  map sym_of l = dseq D c N -> endpos e cs + 8 <= c + Z.of_nat N -> c + Z.of_nat N - endpos e cs < 4294967000 ->
  exists u' outs, mrun ua_call u l = Ok (u', outs) /\ combine (rflags u l) outs = pobs c e cs (c + Z.of_nat N).
Proof. intros. eapply (uart_line_n D cs 0); eauto; lia. Qed.

(** ** The line tracker on it *)
Lemma trun_char st n b X : 0 <= snd st -> trun st (nones n ++ frame_obs b ++ X) =
  let '(s1, l1) := gapw st (Z.of_nat n + 1) in
  let '(s2, l2) := trun (true, if fst s1 then snd s1 else 176) X in
  (s2, l1 ++ (if fst s1 then [] else [LBusy]) ++ LByte b false :: l2).
Proof.
  intros H. unfold frame_obs. rewrite <- !app_assoc, app_assoc.
  replace (nones n ++ nones 1) with (nones (n + 1)) by (unfold nones; rewrite repeat_app; reflexivity).
  rewrite trun_app, trun_gap by auto. rewrite Nat2Z.inj_add. change (Z.of_nat 1) with 1.
  destruct (gapw st (Z.of_nat n + 1)) as [[b1 i1] l1]. cbn [fst snd].
  rewrite trun_app. change 167%nat with (S 166). destruct b1.
  - rewrite trun_true_busy. cbn [app trun tlog andb negb]. destruct (trun (true, i1) X) as [s2 l2]. reflexivity.
  - rewrite trun_true_free. cbn [app trun tlog andb negb]. destruct (trun (true, 176) X) as [s2 l2]. reflexivity.
Qed.

Definition undeco (x : dch) : nat * Z := fst x.
Definition fs_ok (cs : list dch) : Prop := Forall (fun x => 9 <= snd x <= 13) cs.
Lemma rest_quiet r T : forall cs1 cs2 e i f, map undeco cs1 = r -> fs_ok cs1 -> 9 <= f <= 13 -> 0 <= i <= 176 ->
  iq r + 13 <= i + f ->
  exists i' f', 0 <= i' <= 176 /\ 9 <= f' <= 13 /\
    trun (true, i) (pobs (e + f - 5) e (cs1 ++ cs2) T) =
    let '(s2, l2) := trun (true, i') (pobs (endpos e cs1 + f' - 5) (endpos e cs1) cs2 T) in (s2, lbytes (map snd r) ++ l2).
Proof.
  induction r as [|[g b] r IH]; intros cs1 cs2 e i f Em Hf Hf0 Hi Hq.
  - apply map_eq_nil in Em. subst cs1. exists i, f. split; auto. split; auto. cbn [app endpos map lbytes].
    destruct (trun _ _); reflexivity.
  - destruct cs1 as [|[[g1 b1] f1] cs1]; [discriminate|]. cbn [map undeco fst] in Em. injection Em as -> -> Em.
    inversion Hf as [|? ? F1 F2]; subst. cbn [snd] in F1.
    cbn [iq fold_right fst] in Hq. match type of Hq with context [fold_right ?F 0 ?R] => change (fold_right F 0 R) with (iq R) in Hq end.
    set (r := map undeco cs1) in *. pose proof (iq_nonneg r) as (Q1 & _).
    cbn [app pobs endpos]. cbv zeta. rewrite trun_char by (cbn [snd]; lia).
    set (t := e + Z.of_nat g). rewrite Z2Nat.id by (unfold t; lia).
    replace (t + f1 - (e + f - 5) + 1) with (6 + Z.of_nat g + f1 - f) by (unfold t; lia).
    assert (E1 : gapw (true, i) (6 + Z.of_nat g + f1 - f) = ((true, i - (6 + Z.of_nat g + f1 - f)), [])) by (gw; reflexivity).
    rewrite E1. cbn [fst snd].
    destruct (IH cs1 cs2 (t + 175) (i - (6 + Z.of_nat g + f1 - f)) f1 eq_refl F2 F1 ltac:(lia) ltac:(lia)) as (i' & f' & Hi' & Hf' & E).
    exists i', f'. split; auto. split; auto.
    replace (t + f1 + 170) with (t + 175 + f1 - 5) by lia. rewrite E.
    destruct (trun (true, i') _) as [s2 l2]. cbn [map lbytes snd app]. reflexivity.
Qed.

Lemma packets_quiet pkts T : Forall (fun p => (177 <= pk_gap p)%nat /\ inner_quiet p <= 172) pkts ->
  forall cs e c st, map undeco cs = flat_map pk_chars pkts -> fs_ok cs -> 0 <= snd st <= 176 -> e <= c <= e + 8 ->
  endpos e cs + 185 <= T -> snd (trun st (pobs c e cs T)) = pre st ++ flat_map one_packet pkts.
Proof.
  intros H. induction H as [|p pkts (Hg & Hq) H IH]; intros cs e c st Em Hf Hi Hc HT.
  - apply map_eq_nil in Em. subst cs. cbn [pobs endpos flat_map] in *. rewrite trun_gap by lia. unfold pre, gapw. destruct st as [b i].
    cbn [fst snd] in *. destruct b; [|reflexivity]. destruct (Z.leb_spec (Z.of_nat (Z.to_nat (T - c))) i); [lia|reflexivity].
  - cbn [flat_map] in *. destruct p as [g b r]. unfold pk_chars at 1 in Em. cbn [pk_gap pk_first pk_rest] in *.
    unfold inner_quiet in Hq. cbn [pk_rest] in Hq. match type of Hq with context [fold_right ?F 0 ?R] => change (fold_right F 0 R) with (iq R) in Hq end.
    destruct cs as [|[[g1 b1] f] cs]; [discriminate|]. cbn [map undeco fst app] in Em. injection Em as -> -> Em.
    apply map_eq_app in Em as (cs1 & cs2 & -> & E0 & E2). subst r.
    inversion Hf as [|? ? F1 F2]; subst. cbn [snd] in F1. apply Forall_app in F2 as (F2 & F3).
    cbn [pobs endpos] in *. cbv zeta. rewrite trun_char by lia. set (t := e + Z.of_nat g) in *.
    rewrite Z2Nat.id by (unfold t; lia).
    assert (E1 : exists j, gapw st (t + f - c + 1) = ((false, j), pre st)).
    { destruct st as [bb i]. cbn [snd] in Hi. unfold gapw, pre. cbn [fst snd]. destruct bb; [|eauto].
      destruct (Z.leb_spec (t + f - c + 1) i); [unfold t in *; lia|]. eauto. }
    destruct E1 as (j & E1). rewrite E1. cbn [fst snd].
    destruct (rest_quiet (map undeco cs1) T cs1 cs2 (t + 175) 176 f eq_refl F2 F1 ltac:(lia) ltac:(lia)) as (i' & f' & Hi' & Hf' & E).
    replace (t + f + 170) with (t + 175 + f - 5) by lia. rewrite E.
    assert (EE : forall a b e, endpos e (a ++ b) = endpos (endpos e a) b).
    { clear. induction a as [|[[g b] f] a IHa]; intros c e; cbn [app endpos]; auto. }
    rewrite EE in HT. specialize (IH cs2 (endpos (t + 175) cs1) (endpos (t + 175) cs1 + f' - 5) (true, i') E2 F3 ltac:(cbn [snd]; lia) ltac:(lia) HT).
    destruct (trun (true, i') _) as [s2 l2]. cbn [snd] in *. rewrite IH. unfold pre at 2. cbn [fst app].
    unfold one_packet, pk_bytes. cbn [pk_first pk_rest map app]. fold (lbytes (map snd (map undeco cs1))).
    rewrite <- !app_assoc. reflexivity.
Qed.
