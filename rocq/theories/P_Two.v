(** P_Two.v -- two transmitters on one bus. *)
From Verif Require Import Base M_Message M_Tx D_Tx S_Two P_Tx P_TxRun P_TxHist.

Section follow.
Variables (j1 j2 : list Z) (l1 : list (Z * tx_ev)) (tw : Z) (m : message).
Hypothesis L : length j2 = 32%nat.
Let base := l1 ++ [(tw, Wake m)].
Hypothesis Fb : Forall (ev_ok 1) base.
Hypothesis start_idle : exists s o, tx_run j1 j2 l1 = Ok (s, o) /\ tx_is_idle (fst s) = true.

(** The data was sent at a moment the line was free; [hb] since then. *)
Definition sent (l2 hb : list (Z * tx_ev)) : Prop := exists ha u re rv c, l2 = (ha ++ [(u, Update false re rv c)]) ++ hb.
Definition going (l2 : list (Z * tx_ev)) (st : tx_st) (k : nat) : Prop :=
  exists hb, sent l2 hb /\ echoes hb = firstn k (tx_bytes m) /\ no_rx_error hb /\ line_held hb /\ (st = T_STARTED -> existsb sign hb = false).
Definition waits (l2 : list (Z * tx_ev)) (w : Z) : Prop :=
  exists hb v b c hc, sent l2 (hb ++ (v, Update b false true c) :: hc) /\ echoes (hb ++ [(v, Update b false true c)]) = tx_bytes m /\
    no_rx_error hb /\ line_held (hb ++ (v, Update b false true c) :: hc) /\ w = v + 4000.
Definition over (l2 : list (Z * tx_ev)) : Prop :=
  exists hb v b c hc z re rv x, sent l2 (hb ++ (v, Update b false true c) :: hc ++ [(z, Update false re rv x)]) /\
    echoes (hb ++ [(v, Update b false true c)]) = tx_bytes m /\
    no_rx_error hb /\ line_held (hb ++ (v, Update b false true c) :: hc) /\ z < v + 4000.
Definition told (t : txsm) (o : list (option bool)) : Prop := t_err t = true \/ In (Some true) (skipn (length base) o).

Definition follows (l2 : list (Z * tx_ev)) (t : txsm) (o : list (option bool)) : Prop :=
  match t_st t with
  | T_WAIT_LINEFREE | T_WAIT_POWERON => True
  | T_STARTED | T_CHECK_DATA => going l2 (t_st t) (Z.to_nat (t_off t))
  | T_WAIT_IDLE => told t o \/ waits l2 (t_wait t)
  | T_IDLE => told t o \/ over l2
  end.

Lemma sent_snoc l2 hb e : sent l2 hb -> sent (l2 ++ [e]) (hb ++ [e]).
Proof. intros (ha & u & re & rv & c & ->). exists ha, u, re, rv, c. rewrite <- app_assoc. reflexivity. Qed.

Lemma going_snoc l2 st st' k e : going l2 st k -> echoes [e] = [] -> no_rx_error [e] ->
  match snd e with Update busy _ _ _ => (st = T_STARTED -> st' = T_STARTED -> busy = false) /\ (st <> T_STARTED -> busy = true) | _ => True end ->
  (st' = T_STARTED -> st = T_STARTED) -> going (l2 ++ [e]) st' k.
Proof.
  intros (hb & H & E & N & Hl & Hs) He Ne Hb Hst. exists (hb ++ [e]). split; [apply sent_snoc; exact H|].
  split; [rewrite echoes_app, He, app_nil_r; exact E|]. split; [apply Forall_app; auto|]. split.
  - apply held_snoc; [exact Hl|]. intros Hx. destruct (snd e) as [|b re rv c| | |]; auto. apply Hb. intros C. rewrite (Hs C) in Hx. discriminate.
  - intros C. rewrite existsb_app, (Hs (Hst C)). cbn [existsb orb]. rewrite orb_false_r. unfold sign. unfold echoes in He. cbn [flat_map] in He.
    destruct (snd e) as [|b re [|] c| | |]; auto; [discriminate|]. destruct Hb as (Hb & _). rewrite (Hb (Hst C) C). reflexivity.
Qed.
Lemma waits_snoc l2 w e : waits l2 w -> match snd e with Update busy _ _ _ => busy = true | _ => True end -> waits (l2 ++ [e]) w.
Proof.
  intros (hb & v & b & c & hc & H & E & N & Hl & Hw) He. exists hb, v, b, c, (hc ++ [e]).
  split; [apply (sent_snoc _ _ e) in H; rewrite <- app_assoc in H; exact H|]. split; [exact E|]. split; [exact N|]. split; [|exact Hw].
  assert (Hs := held_snoc _ e Hl). rewrite <- app_assoc in Hs. apply Hs. intros _. exact He.
Qed.
Lemma waits_over l2 w z re rv x : waits l2 w -> z < w -> over (l2 ++ [(z, Update false re rv x)]).
Proof.
  intros (hb & v & b & c & hc & H & E & N & Hl & Hw) Hz. exists hb, v, b, c, hc, z, re, rv, x.
  split; [apply (sent_snoc _ _ (z, Update false re rv x)) in H; rewrite <- app_assoc in H; exact H|].
  split; [exact E|]. split; [exact N|]. split; [exact Hl|lia].
Qed.

Lemma follow_run l2 : Forall (ev_ok 1) l2 -> busy_during j1 j2 base l2 -> forall t h o, tx_run j1 j2 (base ++ l2) = Ok ((t, h), o) -> follows l2 t o.
Proof using L Fb start_idle.
  induction l2 as [|e l2 IH] using rev_ind; intros F B t h o E.
  - rewrite app_nil_r in E. destruct (base_run j1 j2 l1 tw m start_idle) as (t' & h' & o' & E' & _ & Hs & _). fold base in E'. rewrite E in E'. injection E' as -> -> ->.
    unfold follows. rewrite Hs. exact Logic.I.
  - apply Forall_app in F as (F & Fe). inversion Fe as [|? ? Fe1 _]; subst.
    assert (B' : busy_during j1 j2 base l2).
    { intros p q -> Hq. apply (B p (q ++ [e])); [rewrite app_assoc; reflexivity|]. destruct q; discriminate. }
    destruct (B l2 [e] eq_refl ltac:(discriminate)) as ((t1 & h1) & o1 & E1 & Hni). cbn in Hni.
    assert (Ni : t_st t1 <> T_IDLE) by (unfold tx_is_idle in Hni; destruct (t_st t1); congruence).
    rewrite app_assoc in E. pose proof E as Efull. apply run_snoc in E as (s1 & o1' & x & E1' & E2 & ->). rewrite E1 in E1'. injection E1' as <- <-.
    assert (I : tx_inv t1 h1) by (eapply run_inv_eq; [exact L| |exact E1]; apply Forall_app; auto).
    pose proof (IH F B' _ _ _ E1) as T. clear IH. destruct (track_run j1 j2 l1 tw m L Fb start_idle l2 F B' _ _ _ E1) as (Hm & _ & _).
    destruct e as (now & ev). pose proof (event_cases _ _ _ _ _ _ _ I E2) as C.
    assert (Lo : (length base <= length o1)%nat) by (apply mrun_length in E1; rewrite E1, app_length; lia).
    assert (Rs : forall tt' y, t_err tt' = t_err t1 -> told t1 o1 -> told tt' (o1 ++ [y])).
    { intros tt' y Ee [R|R]; [left; congruence|right]. rewrite skipn_app. apply in_or_app; auto. }
    unfold follows in *.
    inversion C as [w Hi|w Hi|busy re rv c t2 h2 U|x0| |]; subst; try congruence.
    + destruct (t_st t) eqn:Es; auto; try (destruct T as [T|T]; [left; apply Rs; auto|right; apply waits_snoc; [exact T|exact Logic.I]]); try congruence;
        (eapply going_snoc; [exact T|reflexivity|repeat constructor|exact Logic.I|discriminate || auto]).
    + assert (Hoff : data_phase (t_st t1) -> 0 <= t_off t1 < Z.of_nat (m_length (t_tx t1))).
      { intros [H|H]; [rewrite (iv_zero _ _ I) by auto; destruct (iv_tx _ _ I Ni); lia|apply (iv_chk _ _ I H)]. }
      inversion U as [Ha|H1 H2 H3 H4|Hs' Hw Hb Ht Ho|Hs' Hw Hb|Hs' Hw Hb He Hv|rx Hd Hw He Hv Hn Hr|b rx Hd Hw He Hv Hn Hne Hr|Hd Hw He|Hs' Hw Hb]; subst.
      * cbn. left. left. reflexivity.
      * unfold data_phase in H3. destruct (t_st t) eqn:Es; auto; [congruence|..].
        -- destruct (H3 (or_introl eq_refl)) as (-> & -> & Hbf & _). eapply going_snoc; [exact T|reflexivity|repeat constructor|cbn; split; [auto|congruence]|auto].
        -- destruct (H3 (or_intror eq_refl)) as (-> & -> & _ & Hbt). eapply going_snoc; [exact T|reflexivity|repeat constructor|cbn; split; [congruence|auto]|auto].
        -- destruct T as [T|T]; [left; apply Rs; auto|right; apply waits_snoc; [exact T|cbn; auto]].
      * cbn. exact Logic.I.
      * cbn [t_st enter t_off]. exists []. split; [exists l2, now, re, rv, c; rewrite app_nil_r; reflexivity|].
        rewrite (iv_zero _ _ I) by auto. split; [reflexivity|]. split; [constructor|]. split; [apply held_nil|reflexivity].
      * cbn [t_st enter t_off]. rewrite Hs' in T. eapply going_snoc; [exact T|reflexivity|repeat constructor|cbn; split; [discriminate|congruence]|discriminate].
      * pose proof (Hoff Hd) as Ho. assert (T' : going l2 (t_st t1) (Z.to_nat (t_off t1))) by (destruct Hd as [Hd|Hd]; rewrite Hd in T |- *; exact T). clear T.
        assert (Hlb : t_st t1 = T_CHECK_DATA -> busy = true) by (intros X; destruct busy; [reflexivity|exfalso; destruct (free_aborts _ _ _ _ _ _ _ _ _ X E2) as (Y & _); cbn [t_st enter] in Y; unfold after_byte in Y; destruct (_ =? _); discriminate]).
        destruct T' as (hb & H & Ee & N & Hl & Hsg).
        assert (Ec : echoes (hb ++ [(now, Update busy false true c)]) = firstn (S (Z.to_nat (t_off t1))) (tx_bytes m)).
        { rewrite echoes_app, Ee. cbn [echoes flat_map snd app].
          rewrite <- Hm. assert (X := firstn_next (tx_bytes (t_tx t1)) (Z.to_nat (t_off t1)) c). rewrite X; [reflexivity|].
          unfold tx_bytes. rewrite nth_firstn by lia. exact Hn. }
        assert (Hl' : line_held (hb ++ [(now, Update busy false true c)])).
        { apply held_snoc; [exact Hl|]. cbn. intros Hx. apply Hlb. destruct Hd as [Hd|Hd]; [rewrite (Hsg Hd) in Hx; discriminate|exact Hd]. }
        cbn [t_st enter t_off t_wait]. replace (Z.to_nat (t_off t1 + 1)) with (S (Z.to_nat (t_off t1))) by lia.
        unfold after_byte. destruct (Z.eqb_spec (t_off t1 + 1) (Z.of_nat (m_length (t_tx t1)))) as [Eq|_]; [right|].
        -- exists hb, now, busy, c, []. split; [apply (sent_snoc _ _ (now, Update busy false true c)) in H; exact H|]. split.
           { rewrite Ec, <- Hm. unfold tx_bytes. apply firstn_all2. rewrite firstn_length. lia. }
           split; [exact N|]. split; [exact Hl'|reflexivity].
        -- exists (hb ++ [(now, Update busy false true c)]). split; [apply sent_snoc; exact H|]. split; [exact Ec|].
           split; [apply Forall_app; split; [exact N|repeat constructor]|]. split; [exact Hl'|discriminate].
      * cbn. left. left. reflexivity.
      * cbn. left. left. reflexivity.
      * cbn [t_st enter]. rewrite Hs' in T. destruct T as [T|T]; [left; apply Rs; auto|right; eapply waits_over; [exact T|exact Hw]].
    + destruct (t_st t) eqn:Es; auto; try (destruct T as [T|T]; [left; apply Rs; auto|right; apply waits_snoc; [exact T|exact Logic.I]]); try congruence;
        (eapply going_snoc; [exact T|reflexivity|repeat constructor|exact Logic.I|discriminate || auto]).
    + cbn [t_st tx_error fst t_off t_wait].
      assert (Rr : told t1 o1 -> told (fst (tx_error t1)) (o1 ++ [Some (t_err t1)])).
      { intros [R|R]; right; rewrite skipn_app; apply in_or_app; [right|left; auto]. rewrite R. replace (length base - length o1)%nat with 0%nat by lia. left; reflexivity. }
      destruct (t_st t1); auto; try congruence; try (destruct T as [T|T]; [left; apply Rr; auto|right; apply waits_snoc; [exact T|exact Logic.I]]);
        (eapply going_snoc; [exact T|reflexivity|repeat constructor|exact Logic.I|discriminate || auto]).
    + cbn [t_st tx_clear_rx t_off t_wait].
      destruct (t_st t1); auto; try congruence; try (destruct T as [T|T]; [left; apply Rs; auto|right; apply waits_snoc; [exact T|exact Logic.I]]);
        (eapply going_snoc; [exact T|reflexivity|repeat constructor|exact Logic.I|discriminate || auto]).
Qed.
End follow.

(** ** What is heard *)
Fixpoint busy_after (b : bool) (l : list (Z * tx_ev)) : bool :=
  match l with [] => b | (_, Update busy _ _ _) :: t => busy_after busy t | _ :: t => busy_after b t end.
Lemma hears_app x : forall b y, hears b (x ++ y) = hears b x ++ hears (busy_after b x) y.
Proof.
  induction x as [|(u & [w|busy re rv c|e| |]) x IH]; intros b y; cbn [app hears busy_after]; auto. rewrite IH, <- !app_assoc. reflexivity.
Qed.
Lemma busy_after_app x : forall b y, busy_after b (x ++ y) = busy_after (busy_after b x) y.
Proof. induction x as [|(u & [w|busy re rv c|e| |]) x IH]; intros b y; cbn [app busy_after]; auto. Qed.
(** While the line is busy. *)
Definition quiet (l : list heard) : Prop := Forall (fun x => match x with HBusy | HFree => False | _ => True end) l.
Lemma hears_busy g : Forall (fun e => match snd e with Update busy _ _ _ => busy = true | _ => True end) g -> busy_after true g = true /\ quiet (hears true g).
Proof.
  induction 1 as [|(u & [w|busy re rv c|e| |]) g H F IH]; cbn [busy_after hears]; auto; [split; constructor|].
  cbn in H. subst busy. destruct IH as (I1 & I2). split; [exact I1|]. cbn [Bool.eqb app]. destruct re; [constructor; auto; exact Logic.I|]. destruct rv; [constructor; auto; exact Logic.I|exact I2].
Qed.
Lemma hears_good g : no_rx_error g -> Forall (fun e => match snd e with Update busy _ _ _ => busy = true | _ => True end) g -> hears true g = map HByte (echoes g).
Proof.
  intros N F. induction F as [|(u & [w|busy re rv c|e| |]) g H F IH]; inversion N as [|? ? N1 N2]; subst; cbn [hears echoes flat_map snd map app]; auto; try (apply IH; auto).
  cbn in H, N1. subst busy. destruct re; [contradiction|]. specialize (IH N2). rewrite IH. cbn [Bool.eqb app]. destruct rv; reflexivity.
Qed.
(** From a free line to the first sign and on. *)
Lemma hears_held g : Forall real_ev g -> line_held g ->
  (existsb sign g = false /\ hears false g = [] /\ echoes g = [] /\ busy_after false g = false) \/
  (exists d, hears false g = HBusy :: d /\ quiet d /\ busy_after false g = true /\ (no_rx_error g -> d = map HByte (echoes g)) /\ existsb sign g = true).
Proof.
  induction g as [|e g IH] using rev_ind; intros R H.
  - left. auto.
  - apply Forall_app in R as (R & Re). inversion Re as [|? ? Re1 _]; subst.
    assert (Hg : line_held g). { intros x f y -> Hx. apply (H x f (y ++ [e])); [rewrite <- app_assoc; reflexivity|exact Hx]. }
    specialize (H g e [] eq_refl). rewrite hears_app, busy_after_app, existsb_app, echoes_app.
    destruct (IH R Hg) as [(I1 & I2 & I3 & I4)|(d & I1 & I2 & I3 & I4 & I5)].
    + rewrite I1, I2, I3, I4. destruct e as (u & [w|busy re rv c|e| |]); cbn [existsb sign snd orb hears busy_after app echoes flat_map]; try (left; auto; fail).
      destruct busy.
      * right. cbn [Bool.eqb app]. exists ((if re then [HErr] else if rv then [HByte c] else []) ++ []). rewrite app_nil_r. split; [destruct re, rv; reflexivity|]. split; [|split; [reflexivity|split; [|destruct rv; reflexivity]]].
        -- destruct re; [repeat constructor|]. destruct rv; repeat constructor.
        -- intros N. apply Forall_app in N as (_ & N). inversion N as [|? ? N1 _]; subst. cbn in N1. destruct re; [contradiction|]. destruct rv; reflexivity.
      * cbn in Re1. destruct re; [contradiction|]. destruct rv; [contradiction|]. left. auto.
    + rewrite I1, I3, I5. specialize (H I5). right.
      destruct (hears_busy [e] ltac:(constructor; [exact H|constructor])) as (B1 & B2).
      exists (d ++ hears true [e]). split; [reflexivity|]. split; [apply Forall_app; auto|]. split; [exact B1|]. split; [|reflexivity].
      intros N. apply Forall_app in N as (N1 & N2). rewrite (I4 N1), hears_good by first [exact N2|constructor; [exact H|constructor]]. rewrite map_app. reflexivity.
Qed.

Lemma periods_app x : forall acc y, exists acc', periods acc (x ++ y) = periods acc x ++ periods acc' y.
Proof. induction x as [|[| |c|] x IH]; intros acc y; cbn [app periods]; eauto. destruct (IH [] y) as (a & ->). exists a. reflexivity. Qed.
Lemma periods_quiet d : quiet d -> forall acc, periods acc (d ++ [HFree]) = [acc ++ d].
Proof.
  induction 1 as [|x d H F IH]; intros acc; cbn [app periods]; [rewrite app_nil_r; reflexivity|].
  destruct x; try contradiction; rewrite IH, <- app_assoc; reflexivity.
Qed.

Lemma own_period j1 j2 l1 tw m l2 : length j2 = 32%nat -> Forall (ev_ok 1) (l1 ++ [(tw, Wake m)]) -> Forall (ev_ok 1) l2 ->
  Forall real_ev ((l1 ++ [(tw, Wake m)]) ++ l2) -> succeeds j1 j2 l1 tw m l2 ->
  exists before a v c hc z re rv x,
    l2 = a ++ (v, Update true false true c) :: hc ++ [(z, Update false re rv x)] /\ z < v + 4000 /\
    periods [] (hears false ((l1 ++ [(tw, Wake m)]) ++ l2)) = before ++ [map HByte (tx_bytes m) ++ hears true hc].
Proof.
  intros L Fb F R (S & B & t & h & o & E & Hi & He & Hn).
  pose proof (follow_run j1 j2 l1 tw m L Fb S l2 F B t h o E) as T. unfold follows in T. unfold tx_is_idle in Hi. destruct (t_st t) eqn:Es; try discriminate.
  destruct T as [[T|T]|T]; [congruence|contradiction|].
  destruct T as (hb & v & b & c & hc & z & re & rv & x & (ha & u & re0 & rv0 & c0 & E2) & Ee & N & Hl & Hz).
  assert (Rs : Forall real_ev (hb ++ (v, Update b false true c) :: hc)).
  { apply Forall_app in R as (_ & R). rewrite E2 in R. apply Forall_app in R as (_ & R). rewrite app_comm_cons, app_assoc in R. apply Forall_app in R. apply R. }
  assert (Hb : b = true).
  { apply Forall_app in Rs as (_ & Rs). inversion Rs as [|? ? R1 _]; subst. cbn in R1. destruct b; [reflexivity|contradiction]. }
  subst b.
  pose proof E2 as E2'. rewrite app_assoc in E2'. exists (periods [] (hears false ((l1 ++ [(tw, Wake m)]) ++ ha ++ [(u, Update false re0 rv0 c0)]))), ((ha ++ [(u, Update false re0 rv0 c0)]) ++ hb), v, c, hc, z, re, rv, x.
  split; [exact E2'|]. split; [exact Hz|].
  assert (Hbc : Forall (fun e => match snd e with Update busy _ _ _ => busy = true | _ => True end) hc).
  { apply Forall_forall. intros e0 Hin. apply in_split in Hin as (p & q & ->). apply (Hl (hb ++ (v, Update true false true c) :: p) e0 q).
    - rewrite <- app_assoc. reflexivity.
    - rewrite existsb_app. cbn. apply orb_true_r. }
  assert (Rb : Forall real_ev (hb ++ [(v, Update true false true c)])) by (apply Forall_app in Rs as (R1 & R2); inversion R2; subst; apply Forall_app; split; auto).
  assert (Hlb : line_held (hb ++ [(v, Update true false true c)])).
  { intros p e0 q Ep Hp. apply (Hl p e0 (q ++ hc)); auto. rewrite app_comm_cons, app_assoc, <- Ep, <- app_assoc. reflexivity. }
  destruct (hears_held _ Rb Hlb) as [(X & _)|(d & D1 & D2 & D3 & D4 & _)]; [rewrite existsb_app in X; cbn in X; rewrite orb_true_r in X; discriminate|].
  assert (Nb : no_rx_error (hb ++ [(v, Update true false true c)])) by (apply Forall_app; split; [exact N|repeat constructor]).
  specialize (D4 Nb). rewrite Ee in D4. subst d.
  destruct (hears_busy hc Hbc) as (H1 & H2).
  assert (Hrz : re = false /\ rv = false).
  { apply Forall_app in R as (_ & R). rewrite E2, app_comm_cons, !app_assoc in R. apply Forall_app in R as (_ & R). inversion R as [|? ? R1 _]; subst. cbn in R1. destruct re; [contradiction|]. destruct rv; [contradiction|auto]. }
  destruct Hrz as (-> & ->).
  replace ((l1 ++ [(tw, Wake m)]) ++ l2) with (((l1 ++ [(tw, Wake m)]) ++ ha ++ [(u, Update false re0 rv0 c0)]) ++ (hb ++ [(v, Update true false true c)]) ++ hc ++ [(z, Update false false false x)])
    by (rewrite E2, <- !app_assoc; reflexivity).
  set (A := (l1 ++ [(tw, Wake m)]) ++ ha ++ [(u, Update false re0 rv0 c0)]).
  assert (BA : busy_after false A = false) by (unfold A; rewrite !busy_after_app; reflexivity).
  rewrite (hears_app A), BA, (hears_app (hb ++ [(v, Update true false true c)])), D1, D3, (hears_app hc), H1. cbn [hears Bool.eqb app].
  set (T1 := hears false A). destruct (periods_app T1 [] (HBusy :: map HByte (tx_bytes m) ++ hears true hc ++ [HFree])) as (acc & P). rewrite P. f_equal.
  cbn [app periods]. rewrite app_assoc, periods_quiet; [reflexivity|]. apply Forall_app. split; [exact D2|exact H2].
Qed.

Lemma two_modems j1 j2 l1 tw m l2 k1 k2 l1' tw' m' l2' X Y :
  length j2 = 32%nat -> Forall (ev_ok 1) (l1 ++ [(tw, Wake m)]) -> Forall (ev_ok 1) l2 -> Forall real_ev ((l1 ++ [(tw, Wake m)]) ++ l2) ->
  length k2 = 32%nat -> Forall (ev_ok 1) (l1' ++ [(tw', Wake m')]) -> Forall (ev_ok 1) l2' -> Forall real_ev ((l1' ++ [(tw', Wake m')]) ++ l2') ->
  succeeds j1 j2 l1 tw m l2 -> succeeds k1 k2 l1' tw' m' l2' ->
  hears false ((l1 ++ [(tw, Wake m)]) ++ l2) ++ X = hears false ((l1' ++ [(tw', Wake m')]) ++ l2') ++ Y ->
  length (periods [] (hears false ((l1 ++ [(tw, Wake m)]) ++ l2))) = length (periods [] (hears false ((l1' ++ [(tw', Wake m')]) ++ l2'))) ->
  (exists r, tx_bytes m' = tx_bytes m ++ r) \/ (exists r, tx_bytes m = tx_bytes m' ++ r).
Proof.
  intros La Fa1 Fa2 Ra Lb Fb1 Fb2 Rb Sa Sb E En.
  destruct (own_period _ _ _ _ _ _ La Fa1 Fa2 Ra Sa) as (pa & a & v & c & hc & z & re & rv & x & _ & _ & Pa).
  destruct (own_period _ _ _ _ _ _ Lb Fb1 Fb2 Rb Sb) as (pb & a' & v' & c' & hc' & z' & re' & rv' & x' & _ & _ & Pb).
  destruct (periods_app (hears false ((l1 ++ [(tw, Wake m)]) ++ l2)) [] X) as (q & Q). destruct (periods_app (hears false ((l1' ++ [(tw', Wake m')]) ++ l2')) [] Y) as (q' & Q').
  rewrite E, Q' in Q. rewrite Pa, Pb in *. rewrite !app_length in En. cbn [length] in En.
  assert (Ep : pb ++ [map HByte (tx_bytes m') ++ hears true hc'] = pa ++ [map HByte (tx_bytes m) ++ hears true hc]).
  { apply (f_equal (firstn (length pa + 1))) in Q. rewrite !firstn_app in Q. rewrite !app_length in Q. cbn [length] in Q.
    replace (length pa + 1 - (length pb + 1))%nat with 0%nat in Q by lia. replace (length pa + 1 - (length pa + 1))%nat with 0%nat in Q by lia.
    rewrite !firstn_O, !app_nil_r in Q. rewrite !firstn_all2 in Q by (rewrite ?app_length; cbn [length]; lia). replace (length pa + 1 - length pb)%nat with 1%nat in Q by lia.
    replace (length pa + 1 - length pa)%nat with 1%nat in Q by lia. exact Q. }
  apply app_inj_tail in Ep as (_ & Ep). clear - Ep. revert Ep. generalize (tx_bytes m) (tx_bytes m') (hears true hc) (hears true hc'). clear.
  intros b. induction b as [|y b IH]; intros b' r r' E; [left; exists b'; reflexivity|].
  destruct b' as [|y' b']; [right; exists (y :: b); reflexivity|]. cbn [map app] in E. inversion E as [[E1 E2]]. destruct (IH _ _ _ E2) as [(s & ->)|(s & ->)]; [left|right]; exists s; reflexivity.
Qed.

(** For examples. *)
Definition busyb (j1 j2 : list Z) (base l : list (Z * tx_ev)) : bool :=
  forallb (fun n => match tx_run j1 j2 (base ++ firstn n l) with Ok (s, _) => negb (tx_is_idle (fst s)) | _ => false end) (seq 0 (length l)).
Lemma busyb_ok j1 j2 base l : busyb j1 j2 base l = true -> busy_during j1 j2 base l.
Proof.
  intros H p q -> Hq. unfold busyb in H. rewrite forallb_forall in H. specialize (H (length p)).
  rewrite in_seq, app_length, firstn_app, Nat.sub_diag, firstn_all, firstn_O, app_nil_r in H. unfold not_idle_after.
  specialize (H ltac:(destruct q; [congruence|cbn [length]; lia])). destruct (tx_run j1 j2 (base ++ p)) as [[s o]|]; [|discriminate].
  exists s, o. split; [reflexivity|]. destruct (tx_is_idle (fst s)); [discriminate|reflexivity].
Qed.
