(** P_SlowRun.v -- characters of a slowly sampled line at the byte receiver and the line tracker (C98). *)
From Verif Require Import Base M_ShiftReg M_Dsp M_Uart M_Pio M_Core1 S_Containers S_Dsp S_Line S_Pio S_Core1 S_Noise D_Uart D_Chain D_Core1
  P_Containers P_Dsp P_Uart P_UartRun P_UartErr P_Pio P_PioTc P_Chain P_Core1 P_Core1Chain P_NoiseDet P_NoiseChar P_NoiseRun.

(** Idle samples before it, the byte, where the receiver notices it, and how many samples it takes. *)
Record sch : Set := SCH { sc_gap : nat; sc_byte : Z; sc_at : Z; sc_len : Z }.
Fixpoint splaced (D : Z -> Z) (e : Z) (cs : list sch) : Prop :=
  match cs with
  | [] => forall i, e <= i -> D i = 0
  | c :: r => (forall i, e <= i < e + Z.of_nat (sc_gap c) -> D i = 0) /\ ch_ok D (e + Z.of_nat (sc_gap c)) (sc_byte c) (sc_at c) /\
      174 <= sc_len c <= 175 /\ splaced D (e + Z.of_nat (sc_gap c) + sc_len c) r
  end.
Fixpoint sobs (c e : Z) (cs : list sch) (T : Z) : list (bool * option (Z * bool)) :=
  match cs with
  | [] => nones (Z.to_nat (T - c))
  | x :: r => let t := e + Z.of_nat (sc_gap x) in nones (Z.to_nat (t + sc_at x - c)) ++ frame_obs (sc_byte x) ++ sobs (t + sc_at x + 170) (t + sc_len x) r T
  end.
Fixpoint send (e : Z) (cs : list sch) : Z :=
  match cs with [] => e | x :: r => send (e + Z.of_nat (sc_gap x) + sc_len x) r end.
Definition slens (cs : list sch) : Prop := Forall (fun x => 174 <= sc_len x <= 175 /\ 9 <= sc_at x <= 13) cs.
Lemma splaced_lens D cs : forall e, splaced D e cs -> slens cs.
Proof.
  induction cs as [|x r IH]; intros e H; [constructor|]. cbn [splaced] in H. destruct H as (_ & C & L & H).
  constructor; [|eapply IH; eauto]. split; auto. apply (co_f _ _ _ _ C).
Qed.
Lemma send_ge cs : forall e, slens cs -> e + 174 * Z.of_nat (length cs) <= send e cs.
Proof.
  induction cs as [|x r IH]; intros e H; cbn [send length]; [lia|]. inversion H as [|? ? (H1 & _) H2]; subst.
  specialize (IH (e + Z.of_nat (sc_gap x) + sc_len x) H2). lia.
Qed.
Lemma send_app a b : forall e, send e (a ++ b) = send (send e a) b.
Proof. induction a as [|x a IH]; intros e; cbn [app send]; auto. Qed.
Lemma splaced_early D e cs : splaced D e cs -> forall i, 0 <= i < 9 -> D (e + i) = 0.
Proof.
  intros H i Hi. destruct cs as [|x r]; cbn [splaced] in H; [apply H; lia|]. destruct H as (G & C & _).
  destruct (Z_lt_ge_dec i (Z.of_nat (sc_gap x))); [apply G; lia|].
  replace (e + i) with (e + Z.of_nat (sc_gap x) + (i - Z.of_nat (sc_gap x))) by lia. apply (co_zero _ _ _ _ C).
  pose proof (co_f _ _ _ _ C). lia.
Qed.

Definition sgaps_from (n : Z) (cs : list sch) : Prop := Forall (fun x => n + Z.of_nat (sc_gap x) < 4294967000) cs.
Lemma suart_line_n D cs : forall n e c N l u h, splaced D e cs -> sgaps_from n cs -> e <= c <= e + 9 -> ua_inv u h -> idle_st u n -> 0 <= n ->
  map sym_of l = dseq D c N -> send e cs + 9 <= c + Z.of_nat N -> n + (c + Z.of_nat N - send e cs) < 4294967000 ->
  exists u' outs, mrun ua_call u l = Ok (u', outs) /\ combine (rflags u l) outs = sobs c e cs (c + Z.of_nat N).
Proof.
  induction cs as [|x r IH]; intros n e c N l u h Hp Hg Hc Hi Hid Hn El HN HT.
  - cbn [splaced send sobs] in *.
    assert (L : length l = N) by (rewrite <- (map_length sym_of), El, dseq_length; auto).
    assert (Q : quiet l) by (apply (quiet_dseq D l N c El); intros; apply Hp; lia).
    destruct (idle_run l u n Hid Q ltac:(lia) ltac:(lia)) as (u' & R & _).
    pose proof (idle_flags l u n Hid Q ltac:(lia) ltac:(lia)) as F.
    eexists _, _. split; [exact R|]. rewrite F, L, combine_repeat. unfold nones. f_equal. lia.
  - destruct x as [g b f w]. cbn [splaced send sobs sc_gap sc_byte sc_at sc_len] in *. destruct Hp as (Hz & Hk & Hw & Hp).
    inversion Hg as [|? ? G1 G2]; subst. cbn [sc_gap] in G1.
    set (t := e + Z.of_nat g) in *. pose proof (send_ge r (t + w) (splaced_lens _ _ _ Hp)) as EP. pose proof (co_f _ _ _ _ Hk) as Ff.
    set (n1 := Z.to_nat (t + f - c)). set (n2 := (N - n1 - 170)%nat).
    assert (EN : N = (n1 + (170 + n2))%nat) by (unfold n1, n2, t in *; lia).
    assert (E1 : c + Z.of_nat n1 = t + f) by (unfold n1, t in *; lia).
    assert (EP2 : t + f + 170 + Z.of_nat n2 = c + Z.of_nat N) by lia.
    clearbody n1 n2. rewrite EN, !dseq_app, E1 in El.
    apply map_sym_split in El as (l1 & l2 & -> & El1 & El). apply map_sym_split in El as (l3 & l4 & -> & El3 & El4).
    change (t + f + Z.of_nat 170) with (t + f + 170) in El4.
    assert (L1 : length l1 = n1) by (rewrite <- (map_length sym_of), El1, dseq_length; auto).
    assert (Q1 : quiet l1).
    { apply (quiet_dseq D l1 n1 c El1). intros i Hi1. destruct (Z_lt_ge_dec i t); [apply Hz; lia|].
      replace i with (t + (i - t)) by lia. apply (co_zero _ _ _ _ Hk). lia. }
    destruct (idle_run l1 u n Hid Q1 ltac:(lia) ltac:(unfold t in *; lia)) as (u1 & R1 & I1).
    pose proof (idle_flags l1 u n Hid Q1 ltac:(lia) ltac:(unfold t in *; lia)) as F1.
    destruct (ua_run_inv l1 u h Hi) as (u1' & os1 & R1' & Hi1 & _). rewrite R1 in R1'. inversion R1'; subst u1' os1.
    destruct (frame_run D t b f l3 u1 _ _ Hk El3 Hi1 I1) as (u2 & os2 & R2 & Rep2 & Hi2 & I2).
    assert (G3 : sgaps_from 0 r) by (eapply Forall_impl; [|exact G2]; cbn beta; intros; lia).
    destruct (IH 0 (t + w) (t + f + 170) n2 l4 u2 _ Hp G3 ltac:(lia) Hi2 I2 ltac:(lia) El4 ltac:(lia) ltac:(lia)) as (u3 & os3 & R3 & Rep3).
    rewrite (rflags_app l1 _ u u1 _ R1), (rflags_app l3 _ u1 u2 _ R2).
    rewrite mrun_app, R1; cbn [bind]. rewrite mrun_app, R2; cbn [bind]. rewrite R3; cbn [bind].
    eexists _, _. split; [reflexivity|].
    rewrite combine_app by (rewrite F1, !repeat_length; auto). rewrite combine_app.
    + rewrite Rep2, Rep3, F1, combine_repeat, L1, EP2. cbv zeta. f_equal.
    + rewrite (rflags_length _ _ _ _ R2). symmetry. eapply mrun_length; eauto.
Qed.

(** ** The line tracker on it *)
Lemma srest_quiet T : forall cs1 cs2 e c i, slens cs1 -> 0 <= i <= 176 -> e <= c <= e + 9 ->
  (cs1 <> [] -> send e cs1 + 9 - c - 169 * Z.of_nat (length cs1) <= i) ->
  exists i' c', 0 <= i' <= 176 /\ send e cs1 <= c' <= send e cs1 + 9 /\
    trun (true, i) (sobs c e (cs1 ++ cs2) T) =
    let '(s2, l2) := trun (true, i') (sobs c' (send e cs1) cs2 T) in (s2, lbytes (map sc_byte cs1) ++ l2).
Proof.
  induction cs1 as [|x cs1 IH]; intros cs2 e c i Hf Hi Hc Hq.
  - exists i, c. split; auto. split; auto. cbn [app send map lbytes]. destruct (trun _ _); reflexivity.
  - inversion Hf as [|? ? (F1 & F2) F3]; subst. specialize (Hq ltac:(discriminate)). cbn [send length] in Hq.
    destruct x as [g b f w]. cbn [sc_gap sc_byte sc_at sc_len] in *.
    cbn [app sobs send]. cbv zeta. cbn [sc_gap sc_byte sc_at sc_len] in *. rewrite trun_char by (cbn [snd]; lia).
    set (t := e + Z.of_nat g) in *. rewrite Z2Nat.id by (unfold t; lia).
    pose proof (send_ge cs1 (t + w) F3) as SG.
    assert (E1 : gapw (true, i) (t + f - c + 1) = ((true, i - (t + f - c + 1)), [])).
    { unfold gapw. cbn [fst snd]. destruct (Z.leb_spec (t + f - c + 1) i); [reflexivity|lia]. }
    rewrite E1. cbn [fst snd].
    destruct (IH cs2 (t + w) (t + f + 170) (i - (t + f - c + 1)) F3 ltac:(unfold t in *; lia) ltac:(lia) ltac:(intros _; lia)) as (i' & c' & Hi' & Hc' & E).
    exists i', c'. split; auto. split; auto. rewrite E.
    destruct (trun (true, i') _) as [s2 l2]. cbn [map lbytes sc_byte app]. reflexivity.
Qed.

(** A packet: at least 177 idle samples, and short enough. *)
Definition spacket_ok (cs : list sch) : Prop :=
  match cs with [] => False | x :: r => (177 <= sc_gap x)%nat /\ send 0 (SCH 0 (sc_byte x) (sc_at x) (sc_len x) :: r) <= 169 * Z.of_nat (length cs) + 177 end.
Definition spacket_log (cs : list sch) : list logline := LBusy :: map (fun x => LByte (sc_byte x) false) cs ++ [LFree].
Lemma send_shift cs : forall e d, send (e + d) cs = send e cs + d.
Proof. induction cs as [|x r IH]; intros e d; cbn [send]; [lia|]. rewrite <- IH. f_equal. lia. Qed.
Lemma spackets_quiet T : forall pkts e c st, Forall spacket_ok pkts -> slens (concat pkts) -> 0 <= snd st <= 176 -> e <= c <= e + 9 ->
  send e (concat pkts) + 186 <= T -> snd (trun st (sobs c e (concat pkts) T)) = pre st ++ flat_map spacket_log pkts.
Proof.
  induction pkts as [|p pkts IH]; intros e c st Hp Hf Hi Hc HT.
  - cbn [concat sobs send flat_map] in *. rewrite trun_gap by lia. unfold pre, gapw. destruct st as [b i].
    cbn [fst snd] in *. destruct b; [|reflexivity]. destruct (Z.leb_spec (Z.of_nat (Z.to_nat (T - c))) i); [lia|reflexivity].
  - inversion Hp as [|? ? P1 P2]; subst. destruct p as [|x r]; [destruct P1|]. destruct x as [g b f w]. destruct P1 as (Hg & Hs).
    cbn [sc_gap sc_byte sc_at sc_len] in *. cbn [concat flat_map app] in *.
    inversion Hf as [|? ? (F1 & F2) F3]; subst. apply Forall_app in F3 as (F3 & F4).
    cbn [sc_gap sc_byte sc_at sc_len] in *.
    cbn [sobs send] in *. cbv zeta. cbn [sc_gap sc_byte sc_at sc_len] in *. rewrite trun_char by lia. set (t := e + Z.of_nat g) in *.
    rewrite Z2Nat.id by (unfold t; lia).
    assert (E1 : exists j, gapw st (t + f - c + 1) = ((false, j), pre st)).
    { destruct st as [bb i]. cbn [snd] in Hi. unfold gapw, pre. cbn [fst snd]. destruct bb; [|eauto].
      destruct (Z.leb_spec (t + f - c + 1) i); [unfold t in *; lia|]. eauto. }
    destruct E1 as (j & E1). rewrite E1. cbn [fst snd].
    assert (Es : send (t + w) r = t + send (0 + 0 + w) r).
    { replace (t + w) with (0 + 0 + w + t) by lia. rewrite send_shift. lia. }
    rewrite Nat2Z.inj_0 in Hs. change (length (_ :: r)) with (S (length r)) in Hs.
    destruct (srest_quiet T r (concat pkts) (t + w) (t + f + 170) 176 F3 ltac:(lia) ltac:(lia) ltac:(intros _; lia)) as (i' & c' & Hi' & Hc' & E).
    rewrite E. rewrite send_app in HT.
    specialize (IH (send (t + w) r) c' (true, i') P2 F4 ltac:(cbn [snd]; lia) Hc' HT).
    destruct (trun (true, i') _) as [s2 l2]. cbn [snd] in *. rewrite IH. unfold pre at 2. cbn [fst app].
    unfold spacket_log. cbn [map sc_byte app]. unfold lbytes. rewrite map_map. rewrite <- app_assoc. reflexivity.
Qed.
