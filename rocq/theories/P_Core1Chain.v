(** P_Core1Chain.v -- packets of characters through Level -> bit detector -> line tracking (C65). *)
From Verif Require Import Base M_ShiftReg M_Dsp M_Uart M_Pio M_Core1 S_Containers S_Dsp S_Line S_Pio S_Core1 D_Uart D_Chain D_Core1
  P_Containers P_Dsp P_Uart P_UartRun P_UartErr P_Pio P_PioTc P_Chain P_Core1.

(** ** Flags: Receiving() before each call *)
Fixpoint rflags (u : uart) (l : list (Z * Z * bool)) : list bool :=
  match l with
  | [] => []
  | i :: t => ua_receiving u :: match ua_call u i with Ok (u', _) => rflags u' t | _ => [] end
  end.
Lemma rflags_app l1 l2 : forall u u1 os, mrun ua_call u l1 = Ok (u1, os) -> rflags u (l1 ++ l2) = rflags u l1 ++ rflags u1 l2.
Proof.
  induction l1 as [|i t IH]; intros u u1 os E; cbn [mrun app rflags] in *.
  - inversion E; reflexivity.
  - destruct (ua_call u i) as [[u2 o]|]; cbn [bind] in E; [|discriminate].
    destruct (mrun ua_call u2 t) as [[u3 os']|] eqn:E2; cbn [bind] in E; [|discriminate]. inversion E; subst.
    rewrite (IH _ _ _ E2). reflexivity.
Qed.
Lemma rflags_length l : forall u u1 os, mrun ua_call u l = Ok (u1, os) -> length (rflags u l) = length l.
Proof.
  induction l as [|i t IH]; intros u u1 os E; cbn [mrun rflags length] in *; auto.
  destruct (ua_call u i) as [[u2 o]|]; cbn [bind] in E; [|discriminate].
  destruct (mrun ua_call u2 t) as [[u3 os']|] eqn:E2; cbn [bind] in E; [|discriminate]. f_equal. eauto.
Qed.

(** ** The line tracker on flags and byte reports *)
Definition tst : Set := bool * Z.
Definition tlog (st : tst) (fo : bool * option (Z * bool)) : tst * list logline :=
  let '(b, i) := st in
  let '(r, o) := fo in
  let bz := r && negb b in
  let fr := negb r && b && negb (0 <? i) in
  ((if bz then true else if fr then false else b,
    if bz then 176 else if negb r && b && (0 <? i) then i - 1 else i),
   (if fr then [LFree] else []) ++ (if bz then [LBusy] else []) ++
   match o with None => [] | Some (c, e) => [LByte c e] end).
Fixpoint trun (st : tst) (l : list (bool * option (Z * bool))) : tst * list logline :=
  match l with
  | [] => (st, [])
  | x :: t => let '(s1, l1) := tlog st x in let '(s2, l2) := trun s1 t in (s2, l1 ++ l2)
  end.
Lemma trun_app a b : forall st, trun st (a ++ b) =
  let '(s1, l1) := trun st a in let '(s2, l2) := trun s1 b in (s2, l1 ++ l2).
Proof.
  induction a as [|x t IH]; intros st; cbn [app trun].
  - destruct (trun st b); reflexivity.
  - destruct (tlog st x) as [s1 l1]. rewrite IH. destruct (trun s1 t) as [s2 l2]. destruct (trun s2 b) as [s3 l3].
    rewrite app_assoc. reflexivity.
Qed.

(** line_step runs are ua_call runs plus the tracker. *)
Lemma line_of_uart zs : forall s, ua_safe (ls_uart s) -> exists l, map sym_of l = zs /\
  forall u os, mrun ua_call (ls_uart s) l = Ok (u, os) ->
  exists s' es, mrun line_step s zs = Ok (s', es) /\ ls_uart s' = u /\
    trun (ls_busy s, ls_idle s) (combine (rflags (ls_uart s) l) os) = ((ls_busy s', ls_idle s'), log_of es).
Proof.
  induction zs as [|z t IH]; intros s Hs.
  - exists []. split; [reflexivity|]. intros u os E. cbn in E. inversion E; subst. eexists _, _. split; [reflexivity|].
    split; reflexivity.
  - destruct (ua_call_safe _ (z, 0, ls_rxerr s) Hs) as (u1 & out & E1 & Hs1 & _).
    destruct (line_step_unfold s z u1 out E1) as (e' & F). cbv zeta in F.
    match type of F with _ = Ok (?a, ?b) => set (s1 := a) in *; set (ev := b) in * end.
    destruct (IH s1 Hs1) as (l & El & H). exists ((z, 0, ls_rxerr s) :: l). split; [cbn; congruence|].
    intros u os E. cbn [mrun] in E. rewrite E1 in E; cbn [bind] in E.
    change u1 with (ls_uart s1) in E.
    destruct (mrun ua_call (ls_uart s1) l) as [[u2 os2]|] eqn:E2; cbn [bind] in E; [|discriminate]. inversion E; subst.
    destruct (H _ _ eq_refl) as (s' & es & R & Eu & T). cbn [mrun]. rewrite F; cbn [bind]. rewrite R; cbn [bind].
    eexists _, _. split; [reflexivity|]. split; [exact Eu|].
    cbn [rflags]. rewrite E1. cbn [combine trun]. change u1 with (ls_uart s1).
    assert (Et : tlog (ls_busy s, ls_idle s) (ua_receiving (ls_uart s), out) = ((ls_busy s1, ls_idle s1), log_event ev)).
    { unfold tlog, s1, ev, log_event, is_byte. cbn [ls_busy ls_idle].
      destruct out as [[c e]|]; [destruct e|]; cbn [ev_free ev_busy ev_valid ev_error ev_char negb orb]; reflexivity. }
    rewrite Et, T. reflexivity.
Qed.

(** ** Abstract walk over characters *)
Definition gapw (st : tst) (n : Z) : tst * list logline :=
  if fst st then if n <=? snd st then ((true, snd st - n), []) else ((false, 0), [LFree]) else (st, []).
Definition nones (n : nat) : list (bool * option (Z * bool)) := repeat (false, None) n.
Lemma trun_gap n : forall st, 0 <= snd st -> trun st (nones n) = gapw st (Z.of_nat n).
Proof.
  induction n as [|n IH]; intros [b i] Hi; cbn [snd] in Hi.
  - cbn. unfold gapw. cbn [fst snd]. destruct b; [|reflexivity]. destruct (Z.leb_spec 0 i); [|lia].
    rewrite Z.sub_0_r. reflexivity.
  - cbn [nones repeat trun tlog andb negb]. fold (nones n).
    destruct b; cbn [andb negb app]; cycle 1.
    + rewrite IH by auto. unfold gapw; cbn. reflexivity.
    + destruct (Z.ltb_spec 0 i); cbn [negb].
      * rewrite IH by (cbn; lia). unfold gapw. cbn [fst snd].
        destruct (Z.leb_spec (Z.of_nat n) (i - 1)), (Z.leb_spec (Z.of_nat (S n)) i); try lia; [|reflexivity].
        replace (i - 1 - Z.of_nat n) with (i - Z.of_nat (S n)) by lia. reflexivity.
      * rewrite IH by (cbn; lia). unfold gapw. cbn [fst snd].
        destruct (Z.leb_spec (Z.of_nat (S n)) i); [lia|]. replace i with 0 by lia. reflexivity.
Qed.
Lemma trun_true_busy n : forall i, trun (true, i) (repeat (true, None) n) = ((true, i), []).
Proof. induction n as [|n IH]; intros i; [reflexivity|]. cbn [repeat trun tlog andb negb app]. rewrite IH. reflexivity. Qed.
Lemma trun_true_free n i : trun (false, i) (repeat (true, None) (S n)) = ((true, 176), [LBusy]).
Proof. cbn [repeat trun tlog andb negb app]. rewrite trun_true_busy. reflexivity. Qed.

(** One character of 175 samples: not receiving for one, receiving for 169, not receiving for 5. *)
Definition seg_obs (b : Z) : list (bool * option (Z * bool)) :=
  [(false, None)] ++ repeat (true, None) 167 ++ [(true, Some (b, false)); (true, None)] ++ nones 5.
Definition segw (st : tst) (b : Z) : tst * list logline :=
  let '(s1, l1) := gapw st 1 in
  let '(i2, l2) := if fst s1 then (snd s1, []) else (176, [LBusy]) in
  let '(s3, l3) := gapw (true, i2) 5 in
  (s3, l1 ++ l2 ++ [LByte b false] ++ l3).
Lemma gapw_pos st n : 0 <= snd st -> 0 <= n -> 0 <= snd (fst (gapw st n)).
Proof. intros H Hn. unfold gapw. destruct (fst st); [|exact H]. destruct (Z.leb_spec n (snd st)); cbn; lia. Qed.
Lemma trun_mid b i n : 0 <= i -> trun (true, i) ([(true, Some (b, false)); (true, None)] ++ nones n) =
  let '(s3, l3) := gapw (true, i) (Z.of_nat n) in (s3, LByte b false :: l3).
Proof.
  intros H. cbn [trun tlog andb negb app]. rewrite trun_gap by auto.
  destruct (gapw (true, i) (Z.of_nat n)) as [s3 l3]. reflexivity.
Qed.
Lemma trun_seg_gen st b n m : 0 <= snd st ->
  trun st (nones 1 ++ repeat (true, None) (S n) ++ [(true, Some (b, false)); (true, None)] ++ nones m) =
  let '(s1, l1) := gapw st 1 in
  let '(i2, l2) := if fst s1 then (snd s1, []) else (176, [LBusy]) in
  let '(s3, l3) := gapw (true, i2) (Z.of_nat m) in
  (s3, l1 ++ l2 ++ [LByte b false] ++ l3).
Proof.
  intros H. rewrite trun_app, trun_gap by auto. change (Z.of_nat 1) with 1.
  pose proof (gapw_pos st 1 H ltac:(lia)) as H1. destruct (gapw st 1) as [[b1 i1] l1]. cbn [fst snd] in *.
  rewrite trun_app. destruct b1.
  - rewrite trun_true_busy, trun_mid by auto. destruct (gapw (true, i1) (Z.of_nat m)) as [s3 l3]. reflexivity.
  - rewrite trun_true_free, trun_mid by lia. destruct (gapw (true, 176) (Z.of_nat m)) as [s3 l3]. reflexivity.
Qed.
Lemma trun_seg st b : 0 <= snd st -> trun st (seg_obs b) = segw st b.
Proof. intros H. exact (trun_seg_gen st b 166 5 H). Qed.
Lemma segw_pos st b : 0 <= snd st -> 0 <= snd (fst (segw st b)).
Proof.
  intros H. unfold segw. pose proof (gapw_pos st 1 H ltac:(lia)). destruct (gapw st 1) as [[b1 i1] l1]. cbn [fst snd] in *.
  destruct b1.
  - pose proof (gapw_pos (true, i1) 5 ltac:(cbn; lia) ltac:(lia)). destruct (gapw (true, i1) 5); auto.
  - pose proof (gapw_pos (true, 176) 5 ltac:(cbn; lia) ltac:(lia)). destruct (gapw (true, 176) 5); auto.
Qed.

Fixpoint walk (st : tst) (cs : list (nat * Z)) : tst * list logline :=
  match cs with
  | [] => (st, [])
  | (g, b) :: t =>
      let '(s1, l1) := gapw st (Z.of_nat g) in
      let '(s2, l2) := segw s1 b in
      let '(s3, l3) := walk s2 t in (s3, l1 ++ l2 ++ l3)
  end.
Fixpoint chars_obs (cs : list (nat * Z)) : list (bool * option (Z * bool)) :=
  match cs with [] => [] | (g, b) :: t => nones g ++ seg_obs b ++ chars_obs t end.
Lemma trun_chars cs : forall st, 0 <= snd st -> trun st (chars_obs cs) = walk st cs.
Proof.
  induction cs as [|[g b] t IH]; intros st H; [reflexivity|]. cbn [chars_obs walk]. rewrite trun_app, trun_gap by auto.
  pose proof (gapw_pos st (Z.of_nat g) H ltac:(lia)). destruct (gapw st (Z.of_nat g)) as [s1 l1]. cbn [fst] in *.
  rewrite trun_app, trun_seg by auto. pose proof (segw_pos s1 b H0). destruct (segw s1 b) as [s2 l2]. cbn [fst] in *.
  rewrite IH by auto. destruct (walk s2 t) as [s3 l3]. reflexivity.
Qed.
Lemma walk_app a b : forall st, walk st (a ++ b) = let '(s1, l1) := walk st a in let '(s2, l2) := walk s1 b in (s2, l1 ++ l2).
Proof.
  induction a as [|[g c] t IH]; intros st; cbn [app walk].
  - destruct (walk st b); reflexivity.
  - destruct (gapw st (Z.of_nat g)) as [s1 l1]. destruct (segw s1 c) as [s2 l2]. rewrite IH.
    destruct (walk s2 t) as [s3 l3]. destruct (walk s3 b) as [s4 l4]. rewrite <- !app_assoc. reflexivity.
Qed.

(** ** Flags of idle stretches and characters *)
Lemma idle_flags l : forall u n, idle_st u n -> quiet l -> 0 <= n -> n + Z.of_nat (length l) < 4294967296 ->
  rflags u l = repeat false (length l).
Proof.
  induction l as [|[[x o] e] t IH]; intros u n H Q H0 H1; [reflexivity|]. inversion Q as [|? ? Qx Qt]; subst.
  cbn [sym_of fst length] in *. rewrite Nat2Z.inj_succ in H1. cbn [rflags repeat].
  destruct (idle_step u n x o e H Qx H0 ltac:(lia)) as (u1 & E & H2). rewrite E.
  rewrite (IH u1 (n + 1)) by (auto; lia). f_equal. destruct H as (St & _). unfold ua_receiving. rewrite St. reflexivity.
Qed.
Lemma data_flags l : forall u c, ua_state u = DATA -> ua_counter u = c -> 1 <= c < 4294967296 -> ua_safe u -> Z.of_nat (length l) = c + 1 ->
  rflags u l = repeat true (length l).
Proof.
  induction l as [|[[x o] e] t IH]; intros u c St Hc H1 (w & Hw) L; [cbn in L; lia|]. cbn [length] in L.
  cbn [rflags length repeat]. f_equal; [unfold ua_receiving; rewrite St; reflexivity|].
  unfold ua_call, ua_update. rewrite St. destruct (ua_data_case_ok u w x Hw) as (r & Hr & E). rewrite E. cbn [bind].
  rewrite Hc, u32_id by lia. destruct (Z.eqb_spec (c - 1) 0) as [Z0|Z0].
  - destruct t as [|i [|? ?]]; cbn [length] in L; try lia. destruct i as [[x2 o2] e2]. cbn [rflags length repeat ua_receiving ua_state].
    destruct (ua_call _ _) as [[? ?]|]; reflexivity.
  - rewrite (IH _ (c - 1)); auto; cbn [ua_counter]; try lia. eexists; exact Hr.
Qed.

Lemma combine_app {A B} (a1 a2 : list A) (b1 b2 : list B) : length a1 = length b1 ->
  combine (a1 ++ a2) (b1 ++ b2) = combine a1 b1 ++ combine a2 b2.
Proof. revert b1; induction a1 as [|x t IH]; intros [|y b1] H; cbn in *; try discriminate; auto. f_equal. apply IH. lia. Qed.
Lemma combine_repeat {A B} (a : A) (b : B) n : combine (repeat a n) (repeat b n) = repeat (a, b) n.
Proof. induction n; cbn; congruence. Qed.

(** [seg_run] with flags. *)
Lemma seg_obs_run A k b l u h n : 1400 <= A <= 4681 -> In k [2; 3; 4] -> 0 <= b < 256 ->
  map sym_of l = map (Z.mul A) (seg k b) -> ua_inv u h -> idle_st u n ->
  exists u' outs, mrun ua_call u l = Ok (u', outs) /\ combine (rflags u l) outs = seg_obs b /\
    ua_inv u' (h ++ map sym_of l) /\ idle_st u' 5.
Proof.
  intros HA Hk Hb El Hi Hid. destruct (char_facts_ok k b Hk Hb) as [_ _ _ _ _ Cl Ch Ct Cb (ph & Cd & Cs)].
  assert (Ll : length l = 175%nat) by (rewrite <- (map_length sym_of), El, map_length; auto).
  assert (El' : exists x o0 e0 mid y o1 e1 rest, l = ((x, o0, e0) :: mid ++ [(y, o1, e1)]) ++ rest /\
    length mid = 167%nat /\ length rest = 6%nat).
  { destruct l as [|[[x o0] e0] l1]; [discriminate|]. cbn [length] in Ll.
    destruct (skipn 167 l1) as [|[[y o1] e1] rest] eqn:Es.
    - apply (f_equal (@length _)) in Es. rewrite skipn_length in Es. cbn in Es. lia.
    - exists x, o0, e0, (firstn 167 l1), y, o1, e1, rest. split.
      + cbn [app]. f_equal. rewrite <- app_assoc. cbn [app]. rewrite <- Es, firstn_skipn. reflexivity.
      + apply (f_equal (@length _)) in Es. rewrite skipn_length in Es. cbn [length] in Es. rewrite firstn_length. lia. }
  destruct El' as (x & o0 & e0 & mid & y & o1 & e1 & rest & -> & Lm & Lr).
  assert (Ew : x :: map sym_of mid = map (Z.mul A) (firstn 168 (seg k b))).
  { rewrite <- firstn_map, <- El, map_app, firstn_app. cbn [map]. rewrite map_app. cbn [length map].
    rewrite app_length, map_length, Lm. replace (168 - _)%nat with 0%nat by (cbn; lia). rewrite firstn_O, app_nil_r.
    change (firstn 168 (sym_of (x, o0, e0) :: (map sym_of mid ++ [sym_of (y, o1, e1)])))
      with (x :: firstn 167 (map sym_of mid ++ [y])). f_equal.
    rewrite firstn_app, map_length, Lm, Nat.sub_diag, firstn_O, app_nil_r, firstn_all2; auto. rewrite map_length; lia. }
  assert (Er : map sym_of rest = map (Z.mul A) (repeat 0 6)).
  { rewrite <- Ct, <- skipn_map, <- El, map_app.
    replace 169%nat with (length (map sym_of ((x, o0, e0) :: mid ++ [(y, o1, e1)]))).
    - rewrite skipn_app, skipn_all, Nat.sub_diag. reflexivity.
    - rewrite map_length. cbn [length]. rewrite app_length, Lm. reflexivity. }
  assert (Es : map s16 (x :: map sym_of mid) = map (Z.mul A) (firstn 168 (seg k b))).
  { rewrite Ew, map_map. apply map_ext_in. intros a Ha. apply s16_id.
    assert (In a (seg k b)) by (rewrite <- (firstn_skipn 168 (seg k b)); apply in_or_app; auto).
    pose proof (Cb a H). nia. }
  assert (Hx : s16 x <> 0).
  { assert (E0 : s16 x = hd 0 (map (Z.mul A) (firstn 168 (seg k b)))) by (rewrite <- Es; reflexivity).
    rewrite E0. destruct (seg k b) as [|a sg]; [discriminate|]. cbn [firstn map hd] in *. nia. }
  destruct Hid as (St & _ & _).
  destruct (ua_wfs_run u h Hi St x o0 e0 Hx) as (v1 & V1 & SV1 & CV1 & _ & wv & _ & RV1 & _).
  destruct (uart_frame_gen u h x o0 e0 mid y o1 e1 Hi St Hx Lm) as (u1 & o & e & E1 & _ & F). rewrite Es in F.
  destruct (F ph (dominant_scale A _ _ ltac:(lia) Cd) b) as (-> & ->).
  { apply frame_ok_sgn. rewrite symbols_sgn_scale, Cs by lia. apply char_symbols_ok; auto. }
  destruct (ua_run_inv ((x, o0, e0) :: mid ++ [(y, o1, e1)]) u h Hi) as (u1' & outs1 & E1' & Hi1 & _).
  rewrite E1 in E1'. inversion E1'; subst u1' outs1. clear E1'.
  assert (St1 : ua_state u1 = WAIT_FOR_IDLE).
  { rewrite app_comm_cons in E1. apply mrun_snoc in E1 as (u0 & _ & E0); [|rewrite repeat_length; cbn; lia].
    apply some_then_idle in E0. exact E0. }
  assert (Fl1 : rflags u ((x, o0, e0) :: mid ++ [(y, o1, e1)]) = false :: repeat true 168).
  { cbn [rflags]. rewrite V1. f_equal; [unfold ua_receiving; rewrite St; reflexivity|].
    rewrite (data_flags _ v1 167 SV1 CV1) by (try lia; try (eexists; exact RV1); rewrite app_length, Lm; reflexivity).
    rewrite app_length, Lm. reflexivity. }
  rewrite (rflags_app _ rest u u1 _ E1), Fl1.
  rewrite mrun_app, E1. cbn [bind].
  pose proof (quiet_zeros A rest 6 Er) as Q.
  destruct rest as [|[[z o2] e2] rest]; [discriminate|]. inversion Q as [|? ? Qz Qr]; subst. cbn [sym_of fst] in Qz.
  destruct (wfi_zero u1 z o2 e2 St1 (ua_inv_idle_counter _ _ Hi1 St1) (ua_inv_safe _ _ Hi1) Qz) as (u2 & E2 & I2).
  cbn [length] in Lr. assert (Lr5 : length rest = 5%nat) by lia.
  destruct (idle_run rest u2 0 I2 Qr ltac:(lia) ltac:(lia)) as (u3 & E3 & I3).
  assert (E23 : mrun ua_call u1 ((z, o2, e2) :: rest) = Ok (u3, None :: repeat None (length rest))).
  { cbn [mrun]. rewrite E2; cbn [bind]. rewrite E3. reflexivity. }
  assert (Fl2 : rflags u1 ((z, o2, e2) :: rest) = true :: repeat false 5).
  { cbn [rflags]. rewrite E2. f_equal; [unfold ua_receiving; rewrite St1; reflexivity|].
    rewrite (idle_flags rest u2 0 I2 Qr) by lia. rewrite Lr5. reflexivity. }
  rewrite E23, Fl2. cbn [bind]. eexists _, _. split; [reflexivity|]. split; [|split].
  - rewrite Lr5. reflexivity.
  - destruct (ua_run_inv ((z, o2, e2) :: rest) u1 _ Hi1) as (u3' & os & E & Hi3 & _). rewrite E23 in E. inversion E; subst u3'.
    rewrite <- app_assoc, <- map_app in Hi3. exact Hi3.
  - replace 5 with (0 + Z.of_nat (length rest)) by lia. exact I3.
Qed.

Lemma segs_obs_run A k : 1400 <= A <= 4681 -> In k [2; 3; 4] -> forall cs l u h n,
  bytes_ok cs -> gaps_ok cs -> map sym_of l = map (Z.mul A) (segs k cs) -> ua_inv u h -> idle_st u n -> 0 <= n <= 20 ->
  exists u' outs, mrun ua_call u l = Ok (u', outs) /\ combine (rflags u l) outs = chars_obs cs /\
    exists n', idle_st u' n' /\ 0 <= n' <= 20.
Proof.
  intros HA Hk. induction cs as [|[g b] t IH]; intros l u h n Hb Hg El Hi Hid Hn.
  - cbn in El. apply map_eq_nil in El. subst l. eexists _, _. split; [reflexivity|]. split; [reflexivity|]. eauto.
  - inversion Hb as [|? ? Hb1 Hb2]; subst. inversion Hg as [|? ? Hg1 Hg2]; subst. cbn [fst snd] in *.
    cbn [segs] in El. rewrite !map_app in El.
    apply map_split in El as (l1 & l2 & -> & E1 & El). apply map_split in El as (l3 & l4 & -> & E3 & E4).
    assert (L1 : length l1 = g) by (rewrite <- (map_length sym_of), E1, map_length, repeat_length; auto).
    destruct (idle_run l1 u n Hid (quiet_zeros A l1 g E1) ltac:(lia) ltac:(lia)) as (u1 & R1 & I1).
    pose proof (idle_flags l1 u n Hid (quiet_zeros A l1 g E1) ltac:(lia) ltac:(lia)) as F1.
    destruct (ua_run_inv l1 u h Hi) as (u1' & os1 & R1' & Hi1 & _). rewrite R1 in R1'. inversion R1'; subst u1' os1.
    destruct (seg_obs_run A k b l3 u1 _ _ HA Hk Hb1 E3 Hi1 I1) as (u2 & os2 & R2 & Rep2 & Hi2 & I2).
    destruct (IH l4 u2 _ 5 Hb2 Hg2 E4 Hi2 I2 ltac:(lia)) as (u3 & os3 & R3 & Rep3 & I3).
    rewrite (rflags_app l1 _ u u1 _ R1), (rflags_app l3 _ u1 u2 _ R2).
    rewrite mrun_app, R1; cbn [bind]. rewrite mrun_app, R2; cbn [bind]. rewrite R3; cbn [bind].
    eexists _, _. split; [reflexivity|]. split; auto.
    rewrite combine_app by (rewrite F1, !repeat_length; auto). rewrite combine_app.
    + rewrite Rep2, Rep3, F1, combine_repeat, L1. reflexivity.
    + rewrite (rflags_length _ _ _ _ R2). symmetry. eapply mrun_length; eauto.
Qed.

(** ** The chain *)
Lemma lchain_split l : forall c lv b s ys zs es,
  mrun (lv_update (fun z => z)) (lc_level c) l = Ok (lv, ys) ->
  mrun bit_update (lc_bit c) ys = Ok (b, zs) ->
  mrun line_step (lc_ls c) zs = Ok (s, es) ->
  mrun lchain_step c l = Ok (LChain lv b s, es).
Proof.
  induction l as [|x t IH]; intros c lv b s ys zs es E1 E2 E3.
  - cbn in E1. inversion E1; subst. cbn in E2. inversion E2; subst. cbn in E3. inversion E3; subst. destruct c; reflexivity.
  - cbn [mrun] in E1.
    destruct (lv_update (fun z => z) (lc_level c) x) as [[lv1 y]|] eqn:F1; cbn [bind] in E1; [|discriminate].
    destruct (mrun (lv_update (fun z => z)) lv1 t) as [[lv2 ys']|] eqn:G1; cbn [bind] in E1; [|discriminate].
    inversion E1; subst. cbn [mrun] in E2.
    destruct (bit_update (lc_bit c) y) as [[b1 p]|] eqn:F2; cbn [bind] in E2; [|discriminate].
    destruct (mrun bit_update b1 ys') as [[b2 zs']|] eqn:G2; cbn [bind] in E2; [|discriminate].
    inversion E2; subst. cbn [mrun] in E3.
    destruct (line_step (lc_ls c) p) as [[s1 e1]|] eqn:F3; cbn [bind] in E3; [|discriminate].
    destruct (mrun line_step s1 zs') as [[s2 es']|] eqn:G3; cbn [bind] in E3; [|discriminate].
    inversion E3; subst. cbn [mrun]. unfold lchain_step at 1. rewrite F1; cbn [bind]. rewrite F2; cbn [bind].
    rewrite F3; cbn [bind]. rewrite (IH (LChain lv1 b1 s1) _ _ _ _ _ _ G1 G2 G3). reflexivity.
Qed.

Lemma packets_walk e0 A cs tail : 1400 <= A <= 4681 -> bytes_ok cs -> gaps_ok cs ->
  (12 <= tail)%nat -> Z.of_nat tail < 4294967000 ->
  exists c c' es f, (11 <= f <= 12)%nat /\ lchain_new e0 = Ok c /\
    mrun lchain_step c (map (Z.mul A) (waves cs ++ repeat 0 tail)) = Ok (c', es) /\
    log_of es = snd (let '(s1, l1) := gapw (true, 176) (Z.of_nat (f - 1)) in
                     let '(s2, l2) := walk s1 cs in
                     let '(s3, l3) := gapw s2 (Z.of_nat (tail - f)) in (s3, l1 ++ l2 ++ l3)).
Proof.
  intros HA Hb Hg Ht1 Ht2.
  destruct (thr_exists A HA) as (k & Hthr & Hk).
  destruct bit_new_ok as (b0 & Eb & Hb0).
  exists (LChain lv_new b0 (ls_new e0)). unfold lchain_new. rewrite Eb. cbn [bind].
  destruct (waves_line cs tail Hb) as (U & N).
  destruct (level_pass A HA _ 0 (or_introl eq_refl) U N) as (q & R1).
  assert (Hb0' : bit_ok b0 (map (Z.mul A) z16)).
  { replace (map (Z.mul A) z16) with (repeat 0 16); [exact Hb0|]. cbn. rewrite Z.mul_0_r. reflexivity. }
  destruct (det_run k A _ Hthr HA b0 z16 Hb0' eq_refl U) as (b1 & R2).
  rewrite (waves_dets k cs tail Hk Hb) in R2.
  pose proof (foff_cases k) as Hf.
  set (D := dstream k cs ++ repeat 0 tail) in *.
  assert (ED : D = repeat 0 (foff k) ++ segs k cs ++ repeat 0 (tail - foff k)).
  { unfold D. replace tail with (foff k + (tail - foff k))%nat at 1 by lia.
    rewrite repeat_app, !app_assoc, dstream_segs by auto. reflexivity. }
  destruct (line_of_uart (map (Z.mul A) D) (ls_new e0) (ua_new_safe _)) as (m & Em & H).
  assert (exists u outs, mrun ua_call (ua_new PARITY_EVEN) m = Ok (u, outs) /\
     combine (rflags (ua_new PARITY_EVEN) m) outs =
       (true, None) :: nones (foff k - 1) ++ chars_obs cs ++ nones (tail - foff k)) as (u & outs & R3 & Ob).
  { clear H. rewrite ED, !map_app in Em.
    apply map_split in Em as (m1 & m2 & -> & E1 & Em). apply map_split in Em as (m3 & m4 & -> & E3 & E4).
    assert (L1 : length m1 = foff k) by (rewrite <- (map_length sym_of), E1, map_length, repeat_length; auto).
    pose proof (quiet_zeros A m1 _ E1) as Q1.
    destruct m1 as [|[[x o] e] m1]; [cbn [length] in L1; lia|]. inversion Q1 as [|? ? Qx Qr]; subst. cbn [sym_of fst] in Qx.
    cbn [length] in L1.
    destruct (new_first PARITY_EVEN x o e Qx) as (u0 & F0 & I0).
    destruct (idle_run m1 u0 0 I0 Qr ltac:(lia) ltac:(lia)) as (u1 & F1 & I1).
    pose proof (idle_flags m1 u0 0 I0 Qr ltac:(lia) ltac:(lia)) as G1.
    assert (F01 : mrun ua_call (ua_new PARITY_EVEN) ((x, o, e) :: m1) = Ok (u1, None :: repeat None (length m1))).
    { cbn [mrun]. rewrite F0; cbn [bind]. rewrite F1. reflexivity. }
    assert (G01 : rflags (ua_new PARITY_EVEN) ((x, o, e) :: m1) = true :: repeat false (length m1)).
    { cbn [rflags]. rewrite F0, G1. reflexivity. }
    destruct (segs_obs_run A k HA Hk cs m3 u1 _ _ Hb Hg E3 (ua_inv_after _ _ _ F01) I1 ltac:(lia)) as (u3 & os3 & F3 & Rep3 & n' & I3 & Hn').
    assert (L4 : length m4 = (tail - foff k)%nat) by (rewrite <- (map_length sym_of), E4, map_length, repeat_length; auto).
    destruct (idle_run m4 u3 n' I3 (quiet_zeros A m4 _ E4) ltac:(lia) ltac:(lia)) as (u4 & F4 & _).
    pose proof (idle_flags m4 u3 n' I3 (quiet_zeros A m4 _ E4) ltac:(lia) ltac:(lia)) as G4.
    rewrite (rflags_app _ _ _ _ _ F01), (rflags_app _ _ _ _ _ F3), G01, G4.
    rewrite mrun_app, F01; cbn [bind]. rewrite mrun_app, F3; cbn [bind]. rewrite F4; cbn [bind].
    eexists _, _. split; [reflexivity|].
    rewrite combine_app by (cbn [length]; rewrite !repeat_length; auto). rewrite combine_app.
    - rewrite Rep3, combine_repeat, L4. cbn [combine app]. rewrite combine_repeat.
      replace (length m1) with (foff k - 1)%nat by lia. reflexivity.
    - rewrite (rflags_length _ _ _ _ F3). symmetry. eapply mrun_length; eauto. }
  destruct (H u outs R3) as (s' & es & R4 & _ & T). cbn [ls_uart ls_busy ls_idle ls_new] in T. change IDLE_SAMPLES with 176 in T.
  eexists _, es, (foff k). split; [exact Hf|]. split; [reflexivity|]. split.
  - eapply lchain_split; cbn [lc_level lc_bit lc_ls]; [exact R1|exact R2|exact R4].
  - rewrite Ob in T. cbn [trun tlog andb negb app] in T.
    rewrite trun_app, trun_gap in T by (cbn; lia).
    pose proof (gapw_pos (true, 176) (Z.of_nat (foff k - 1)) ltac:(cbn; lia) ltac:(lia)) as P1.
    destruct (gapw (true, 176) (Z.of_nat (foff k - 1))) as [s1 l1]. cbn [fst] in P1.
    rewrite trun_app, trun_chars in T by auto.
    assert (P2 : 0 <= snd (fst (walk s1 cs))).
    { clear - P1. revert s1 P1. induction cs as [|[g b] t IH]; intros s P1; [exact P1|]. cbn [walk].
      pose proof (gapw_pos s (Z.of_nat g) P1 ltac:(lia)). destruct (gapw s (Z.of_nat g)) as [s2 l2]. cbn [fst] in *.
      pose proof (segw_pos s2 b H). destruct (segw s2 b) as [s3 l3]. cbn [fst] in *.
      specialize (IH s3 H0). destruct (walk s3 t) as [s4 l4]. exact IH. }
    destruct (walk s1 cs) as [s2 l2]. cbn [fst] in P2.
    rewrite trun_gap in T by auto. destruct (gapw s2 (Z.of_nat (tail - foff k))) as [s3 l3]. inversion T. reflexivity.
Qed.

(** ** Packets *)
Definition lbytes (l : list Z) : list logline := map (fun b => LByte b false) l.
Definition iq (r : list (nat * Z)) : Z := fold_right (fun (gb : nat * Z) n => 6 + Z.of_nat (fst gb) + n) 0 r.
Lemma iq_nonneg r : 0 <= iq r /\ (r <> [] -> 6 <= iq r).
Proof. induction r as [|[g b] t (IH & _)]; cbn [iq fold_right fst]; [split; [lia|congruence]|]. fold (iq t). lia. Qed.

Ltac gw := unfold gapw; cbn [fst snd]; repeat match goal with |- context [?a <=? ?b] => destruct (Z.leb_spec a b); try lia end.

Lemma rest_walk r : forall i, 0 <= i -> iq r <= i + 5 ->
  walk (true, i) r = if iq r <=? i then ((true, i - iq r), lbytes (map snd r)) else ((false, 0), lbytes (map snd r) ++ [LFree]).
Proof.
  induction r as [|[g b] t IH]; intros i Hi H.
  - cbn. destruct (Z.leb_spec 0 i); [|lia]. rewrite Z.sub_0_r. reflexivity.
  - cbn [iq fold_right fst] in *. fold (iq t) in *. pose proof (iq_nonneg t) as (Q1 & Q2). cbn [walk].
    assert (E1 : gapw (true, i) (Z.of_nat g) = ((true, i - Z.of_nat g), [])) by (gw; reflexivity). rewrite E1.
    unfold segw. assert (E2 : gapw (true, i - Z.of_nat g) 1 = ((true, i - Z.of_nat g - 1), [])) by (gw; reflexivity). rewrite E2.
    cbn [fst snd]. destruct (Z.leb_spec 5 (i - Z.of_nat g - 1)) as [L|L].
    + assert (E3 : gapw (true, i - Z.of_nat g - 1) 5 = ((true, i - Z.of_nat g - 6), [])).
      { gw. f_equal. f_equal. lia. }
      rewrite E3, IH by lia. cbn [app map lbytes snd].
      destruct (Z.leb_spec (iq t) (i - Z.of_nat g - 6)), (Z.leb_spec (6 + Z.of_nat g + iq t) i); try lia; [|reflexivity].
      f_equal. f_equal. lia.
    + assert (Et : t = []). { destruct t; auto. specialize (Q2 ltac:(discriminate)). lia. }
      subst t. cbn [iq fold_right] in *.
      assert (E3 : gapw (true, i - Z.of_nat g - 1) 5 = ((false, 0), [LFree])) by (gw; reflexivity). rewrite E3.
      cbn [walk app map lbytes snd]. destruct (Z.leb_spec (6 + Z.of_nat g + 0) i); [lia|]. reflexivity.
Qed.

Definition pre (st : tst) : list logline := if fst st then [LFree] else [].
Lemma packets_stream pkts n : 177 <= n -> Forall (fun p => (177 <= pk_gap p)%nat /\ inner_quiet p <= 176) pkts ->
  forall st, 0 <= snd st <= 176 ->
  (let '(s1, l1) := walk st (flat_map pk_chars pkts) in let '(s2, l2) := gapw s1 n in l1 ++ l2) = pre st ++ flat_map one_packet pkts.
Proof.
  intros Hn H. induction H as [|p pkts (Hg & Hq) H IH]; intros [b i] Hi; cbn [snd] in Hi.
  - cbn [flat_map walk]. unfold pre, gapw. cbn [fst snd]. destruct b; [|reflexivity].
    destruct (Z.leb_spec n i); [lia|reflexivity].
  - cbn [flat_map]. rewrite walk_app. destruct p as [g f r]. unfold pk_chars at 1. cbn [pk_gap pk_first pk_rest walk] in *.
    unfold inner_quiet in Hq. cbn [pk_rest] in Hq. fold (iq r) in Hq.
    assert (E1 : exists j, gapw (b, i) (Z.of_nat g) = ((false, j), pre (b, i)) /\ 0 <= j <= 176).
    { unfold gapw, pre. cbn [fst snd]. destruct b; [|exists i; auto]. destruct (Z.leb_spec (Z.of_nat g) i); [lia|]. exists 0; split; auto; lia. }
    destruct E1 as (j & E1 & Hj). rewrite E1.
    assert (E2 : segw (false, j) f = ((true, 171), [LBusy; LByte f false])) by reflexivity. rewrite E2.
    assert (P : exists st' l', walk (true, 171) r = (st', l') /\ 0 <= snd st' <= 176 /\ l' ++ pre st' = lbytes (map snd r) ++ [LFree]).
    { rewrite rest_walk by lia. pose proof (iq_nonneg r). destruct (Z.leb_spec (iq r) 171).
      - eexists _, _. split; [reflexivity|]. cbn [snd]. split; [lia|reflexivity].
      - eexists _, _. split; [reflexivity|]. cbn [snd]. split; [lia|]. unfold pre; cbn [fst]. rewrite app_nil_r. reflexivity. }
    destruct P as (st' & l' & E3 & Hst & El). rewrite E3. specialize (IH st' Hst).
    destruct (walk st' (flat_map pk_chars pkts)) as [s1 l1]. destruct (gapw s1 n) as [s2 l2].
    cbn [app]. rewrite <- !app_assoc. cbn [app]. rewrite ?IH. f_equal.
    set (R := flat_map one_packet pkts) in *. change (one_packet (PK g f r)) with (LBusy :: LByte f false :: lbytes (map snd r) ++ [LFree]).
    cbn [app]. do 2 f_equal. rewrite <- El, <- app_assoc. reflexivity.
Qed.

Definition pkts_ok (pkts : list packet) : Prop := Forall (fun p => Forall (fun c => (Z.of_nat (fst c) < 4294967000) /\ 0 <= snd c < 256) (pk_chars p)) pkts.
Lemma pkts_ok_chars pkts : pkts_ok pkts -> bytes_ok (flat_map pk_chars pkts) /\ gaps_ok (flat_map pk_chars pkts).
Proof.
  intros H. induction H as [|p t Hp Ht (IH1 & IH2)]; [split; constructor|]. cbn [flat_map].
  split; apply Forall_app; split; auto; eapply Forall_impl; try exact Hp; cbn; tauto.
Qed.

Lemma gapw_start f : (11 <= f <= 12)%nat -> gapw (true, 176) (Z.of_nat (f - 1)) = ((true, 176 - Z.of_nat (f - 1)), []).
Proof. intros H. gw. reflexivity. Qed.

Lemma packets_delivered e0 A pkts tail : 1400 <= A <= 4681 -> pkts_ok pkts ->
  Forall (fun p => (177 <= pk_gap p)%nat /\ inner_quiet p <= 176) pkts ->
  (200 <= tail)%nat -> Z.of_nat tail < 4294967000 ->
  exists c c' es, lchain_new e0 = Ok c /\
    mrun lchain_step c (map (Z.mul A) (waves (flat_map pk_chars pkts) ++ repeat 0 tail)) = Ok (c', es) /\
    log_of es = LFree :: flat_map one_packet pkts.
Proof.
  intros HA Hok Hp Ht1 Ht2. destruct (pkts_ok_chars pkts Hok) as (Hb & Hg).
  destruct (packets_walk e0 A _ tail HA Hb Hg ltac:(lia) Ht2) as (c & c' & es & f & Hf & E1 & E2 & E3).
  exists c, c', es. split; [exact E1|]. split; [exact E2|]. rewrite E3, gapw_start by auto.
  pose proof (packets_stream pkts (Z.of_nat (tail - f)) ltac:(lia) Hp (true, 176 - Z.of_nat (f - 1)) ltac:(cbn [snd]; lia)) as S.
  destruct (walk _ (flat_map pk_chars pkts)) as [s1 l1]. destruct (gapw s1 _) as [s2 l2]. cbn [snd app] in *. exact S.
Qed.

(** Too much quiet inside: split. *)
Lemma rest_split r : forall i, 0 <= i -> i + 5 < iq r ->
  exists b1 c b2 more st, map snd r = b1 ++ c :: b2 /\ walk (true, i) r = (st, lbytes b1 ++ LFree :: LBusy :: LByte c false :: more).
Proof.
  induction r as [|[g b] t IH]; intros i Hi H; [cbn in H; lia|].
  cbn [iq fold_right fst] in H. fold (iq t) in H. cbn [walk map snd].
  destruct (Z.leb_spec (Z.of_nat g + 1) i) as [L|L].
  - assert (E1 : gapw (true, i) (Z.of_nat g) = ((true, i - Z.of_nat g), [])) by (gw; reflexivity). rewrite E1.
    unfold segw. assert (E2 : gapw (true, i - Z.of_nat g) 1 = ((true, i - Z.of_nat g - 1), [])) by (gw; reflexivity). rewrite E2.
    cbn [fst snd]. destruct (Z.leb_spec 5 (i - Z.of_nat g - 1)) as [L5|L5].
    + assert (E3 : gapw (true, i - Z.of_nat g - 1) 5 = ((true, i - Z.of_nat g - 6), [])).
      { gw. f_equal. f_equal. lia. }
      rewrite E3. destruct (IH (i - Z.of_nat g - 6) ltac:(lia) ltac:(lia)) as (b1 & c & b2 & more & st & Em & Ew). rewrite Ew.
      exists (b :: b1), c, b2, more, st. rewrite Em. split; reflexivity.
    + assert (E3 : gapw (true, i - Z.of_nat g - 1) 5 = ((false, 0), [LFree])) by (gw; reflexivity). rewrite E3.
      destruct t as [|[g2 b2] t]; [change (iq []) with 0 in H; lia|]. cbn [walk].
      assert (E4 : gapw (false, 0) (Z.of_nat g2) = ((false, 0), [])) by reflexivity. rewrite E4.
      assert (E5 : segw (false, 0) b2 = ((true, 171), [LBusy; LByte b2 false])) by reflexivity. rewrite E5.
      destruct (walk (true, 171) t) as [s3 l3]. exists [b], b2, (map snd t), l3, s3. split; reflexivity.
  - assert (E : exists s1, gapw (true, i) (Z.of_nat g) = s1 /\ let '(s1', l1) := s1 in
        let '(s2, l2) := gapw s1' 1 in fst s2 = false /\ l1 ++ l2 = [LFree]).
    { eexists. split; [reflexivity|]. unfold gapw at 1. cbn [fst snd]. destruct (Z.leb_spec (Z.of_nat g) i).
      - unfold gapw. cbn [fst snd]. destruct (Z.leb_spec 1 (i - Z.of_nat g)); [lia|]. split; reflexivity.
      - split; reflexivity. }
    destruct E as (s1 & E & F). rewrite E. destruct s1 as [s1 l1]. unfold segw. destruct (gapw s1 1) as [[bb j] l2]. destruct F as (F1 & F2).
    cbn [fst snd] in *. subst bb. replace (gapw (true, 176) 5) with ((true, 171, @nil logline)) by reflexivity.
    destruct (walk (true, 171) t) as [s3 l3]. exists [], b, (map snd t), l3, s3. split; [reflexivity|].
    cbn [lbytes map app]. rewrite <- !app_assoc. cbn [app]. rewrite app_assoc, F2. reflexivity.
Qed.

Lemma packet_split e0 A p tail : 1400 <= A <= 4681 -> pkts_ok [p] -> (177 <= pk_gap p)%nat -> 176 < inner_quiet p ->
  (200 <= tail)%nat -> Z.of_nat tail < 4294967000 ->
  exists c c' es b1 x b2 more, lchain_new e0 = Ok c /\
    mrun lchain_step c (map (Z.mul A) (waves (pk_chars p) ++ repeat 0 tail)) = Ok (c', es) /\
    pk_bytes p = b1 ++ x :: b2 /\ b1 <> [] /\
    log_of es = LFree :: LBusy :: lbytes b1 ++ LFree :: LBusy :: LByte x false :: more.
Proof.
  intros HA Hok Hg Hq Ht1 Ht2. destruct (pkts_ok_chars [p] Hok) as (Hb & Hgs). cbn [flat_map] in Hb, Hgs. rewrite app_nil_r in Hb, Hgs.
  destruct (packets_walk e0 A _ tail HA Hb Hgs ltac:(lia) Ht2) as (c & c' & es & f & Hf & E1 & E2 & E3).
  destruct p as [g fb r]. unfold pk_chars in *. cbn [pk_gap pk_first pk_rest] in *. unfold inner_quiet in Hq. cbn [pk_rest] in Hq. fold (iq r) in Hq.
  rewrite gapw_start in E3 by auto. cbn [walk] in E3.
  assert (G : gapw (true, 176 - Z.of_nat (f - 1)) (Z.of_nat g) = ((false, 0), [LFree])) by (gw; reflexivity). rewrite G in E3.
  assert (S2 : segw (false, 0) fb = ((true, 171), [LBusy; LByte fb false])) by reflexivity. rewrite S2 in E3.
  destruct (rest_split r 171 ltac:(lia) ltac:(lia)) as (b1 & x & b2 & more & st & Em & Ew). rewrite Ew in E3.
  destruct (gapw st (Z.of_nat (tail - f))) as [s3 l3].
  exists c, c', es, (fb :: b1), x, b2, (more ++ l3). split; [exact E1|]. split; [exact E2|].
  split; [unfold pk_bytes; cbn [pk_first pk_rest]; rewrite Em; reflexivity|]. split; [discriminate|].
  rewrite E3. cbn [snd app lbytes map]. rewrite <- !app_assoc. cbn [app]. reflexivity.
Qed.
Lemma long_packet_quiet p : (30 <= length (pk_rest p))%nat -> 176 < inner_quiet p.
Proof.
  intros H. unfold inner_quiet. fold (iq (pk_rest p)).
  assert (6 * Z.of_nat (length (pk_rest p)) <= iq (pk_rest p)); [|lia].
  clear H. induction (pk_rest p) as [|[g b] t IH]; cbn [iq fold_right length fst]; [lia|]. fold (iq t). lia.
Qed.
