(** P_TxDone.v -- Done() (C130). *)
From Verif Require Import Base M_Message M_Tx D_Tx P_Ctrl P_Tx P_TxRun P_TxHist S_TxDone.

Section follow.
Variables (j1 j2 : list Z) (l1 : list (Z * tx_ev)) (tw : Z) (m : message).
Hypothesis L : length j2 = 32%nat.
Let base := l1 ++ [(tw, Wake m)].
Hypothesis Fb : Forall (ev_ok 1) base.
Hypothesis start_idle : exists s o, tx_run j1 j2 l1 = Ok (s, o) /\ tx_is_idle (fst s) = true.

Notation len t := (Z.of_nat (m_length (t_tx t))).
Notation all_heard l2 := (heard j1 j2 base l2 m).
Notation told t o := (t_err t = true \/ In (Some true) (skipn (length base) o)).

Definition done_inv (l2 : list (Z * tx_ev)) (t : txsm) (o : list (option bool)) : Prop :=
  match t_st t with
  | T_WAIT_LINEFREE | T_WAIT_POWERON => t_off t = 0
  | T_STARTED | T_CHECK_DATA => True
  | T_WAIT_IDLE | T_IDLE => t_off t <= len t /\ (t_off t = len t -> all_heard l2) /\ (told t o \/ t_off t = len t)
  end.

Lemma heard_snoc l2 e : all_heard l2 -> all_heard (l2 ++ [e]).
Proof using. intros (ha & hb & hc & -> & H). exists ha, hb, (hc ++ [e]). split; [rewrite <- !app_assoc; reflexivity|exact H]. Qed.

Lemma done_inv_run l2 : Forall (ev_ok 1) l2 -> busy_during j1 j2 base l2 -> forall t h o, tx_run j1 j2 (base ++ l2) = Ok ((t, h), o) -> done_inv l2 t o.
Proof using L Fb start_idle.
  induction l2 as [|e l2 IH] using rev_ind; intros F B t h o E.
  - rewrite app_nil_r in E. destruct (base_run j1 j2 l1 tw m start_idle) as (t' & h' & o' & E' & Hm & Hs & _). fold base in E'. rewrite E in E'. injection E' as -> -> ->.
    assert (I : tx_inv t' h') by (eapply run_inv_eq; [exact L| |exact E]; exact Fb).
    unfold done_inv. rewrite Hs. apply (iv_zero _ _ I). auto.
  - apply Forall_app in F as (F & Fe). inversion Fe as [|? ? Fe1 _]; subst.
    assert (B' : busy_during j1 j2 base l2).
    { intros p q -> Hq. apply (B p (q ++ [e])); [rewrite app_assoc; reflexivity|]. destruct q; discriminate. }
    destruct (B l2 [e] eq_refl ltac:(discriminate)) as ((t1 & h1) & o1 & E1 & Hni). cbn in Hni.
    assert (Ni : t_st t1 <> T_IDLE) by (unfold tx_is_idle in Hni; destruct (t_st t1); congruence).
    rewrite app_assoc in E. apply run_snoc in E as (s1 & o1' & x & E1' & E2 & ->). rewrite E1 in E1'. injection E1' as <- <-.
    assert (I : tx_inv t1 h1) by (eapply run_inv_eq; [exact L| |exact E1]; apply Forall_app; auto).
    pose proof (IH F B' _ _ _ E1) as D. clear IH.
    destruct (track_run j1 j2 l1 tw m L Fb start_idle l2 F B' _ _ _ E1) as (Hm & _ & T).
    assert (Lo : (length base <= length o1)%nat) by (apply mrun_length in E1; rewrite E1, app_length; lia).
    assert (Rs : forall tt' y, t_err tt' = t_err t1 -> told t1 o1 -> told tt' (o1 ++ [y])).
    { intros tt' y Ee [R|R]; [left; congruence|right]. rewrite skipn_app. apply in_or_app; auto. }
    assert (Keep : forall tt' y, t_st tt' = t_st t1 -> t_off tt' = t_off t1 -> t_tx tt' = t_tx t1 -> (told t1 o1 -> told tt' (o1 ++ [y])) -> done_inv (l2 ++ [e]) tt' (o1 ++ [y])).
    { intros tt' y X1 X2 X3 X4. unfold done_inv in *. rewrite X1, X2, X3. destruct (t_st t1); auto; [contradiction Ni; reflexivity|].
      destruct D as (D1 & D2 & D3). split; [exact D1|]. split; [intros H; apply heard_snoc; auto|]. destruct D3 as [D3|D3]; auto. }
    destruct e as (now & ev). pose proof (event_cases _ _ _ _ _ _ _ I E2) as C.
    destruct (iv_tx _ _ I Ni) as (Mok & M1).
    assert (Hoff : data_phase (t_st t1) -> 0 <= t_off t1 < len t1).
    { intros [H|H]; [rewrite (iv_zero _ _ I) by auto; lia|apply (iv_chk _ _ I H)]. }
    inversion C as [w Hi|w Hi|busy re rv c t2 h2 U|x0| |]; subst; try congruence; try (apply Keep; cbn; auto; fail).
    + inversion U as [Ha|H1 H2 H3 H4|Hs' Hw Hb Ht Ho|Hs' Hw Hb|Hs' Hw Hb He Hv|rx Hd Hw He Hv Hn Hr|b rx Hd Hw He Hv Hn Hne Hr|Hd Hw He|Hs' Hw Hb]; subst;
        try (apply Keep; cbn; auto; fail); unfold done_inv; cbn [enter set_err set_rx_status t_st t_off t_tx t_err].
      * assert (X : t_off t1 <= len t1 /\ (t_off t1 = len t1 -> all_heard l2)).
        { clear - D Hoff Ni M1. unfold done_inv in D. destruct (t_st t1) eqn:Es.
          - contradiction Ni; reflexivity.
          - rewrite D. split; [lia|]. intros H. rewrite <- H in *. lia.
          - rewrite D. split; [lia|]. intros H. rewrite <- H in *. lia.
          - specialize (Hoff ltac:(left; reflexivity)). split; [lia|]. intros H. lia.
          - specialize (Hoff ltac:(right; reflexivity)). split; [lia|]. intros H. lia.
          - split; [apply D|apply D]. }
        destruct X as (X1 & X2). split; [exact X1|]. split; [intros H; apply heard_snoc; auto|]. left. left. reflexivity.
      * apply (iv_zero _ _ I). auto.
      * exact Logic.I.
      * exact Logic.I.
      * pose proof (Hoff Hd) as Ho. assert (Ec : echoed_so_far j1 j2 l1 tw m l2 (t_st t1) (Z.to_nat (t_off t1))) by (destruct Hd as [Hd|Hd]; rewrite Hd in T |- *; exact T).
        unfold after_byte. destruct (Z.eqb_spec (t_off t1 + 1) (len t1)) as [Eq|_]; [|exact Logic.I].
        split; [lia|]. split; [|right; exact Eq]. intros _. destruct Ec as (ha & hb & -> & H & Ee & N & _).
        exists ha, (hb ++ [(now, Update busy false true c)]), []. split; [rewrite app_nil_r, app_assoc; reflexivity|]. split; [exact H|].
        split; [rewrite echoes_app, app_length, Ee, firstn_length; unfold tx_bytes; rewrite firstn_length; destruct Mok as (Q1 & Q2 & _); cbn [echoes flat_map snd app length]; rewrite <- Hm; lia|].
        split; [apply Forall_app; split; [exact N|repeat constructor]|].
        rewrite echoes_app, Ee. cbn [echoes flat_map snd app]. rewrite removelast_last. rewrite <- Hm. replace (m_length (t_tx t1) - 1)%nat with (Z.to_nat (t_off t1)) by lia. reflexivity.
      * pose proof (Hoff Hd) as Ho. assert (Ec : echoed_so_far j1 j2 l1 tw m l2 (t_st t1) (Z.to_nat (t_off t1))) by (destruct Hd as [Hd|Hd]; rewrite Hd in T |- *; exact T).
        split; [lia|]. split; [|left; left; reflexivity]. intros Eq. destruct Ec as (ha & hb & -> & H & Ee & N & _).
        exists ha, (hb ++ [(now, Update busy false true c)]), []. split; [rewrite app_nil_r, app_assoc; reflexivity|]. split; [exact H|].
        split; [rewrite echoes_app, app_length, Ee, firstn_length; unfold tx_bytes; rewrite firstn_length; destruct Mok as (Q1 & Q2 & _); cbn [echoes flat_map snd app length]; rewrite <- Hm; lia|].
        split; [apply Forall_app; split; [exact N|repeat constructor]|].
        rewrite echoes_app, Ee. cbn [echoes flat_map snd app]. rewrite removelast_last. rewrite <- Hm. replace (m_length (t_tx t1) - 1)%nat with (Z.to_nat (t_off t1)) by lia. reflexivity.
      * pose proof (Hoff Hd) as Ho. split; [lia|]. split; [intros; lia|]. left. left. reflexivity.
      * unfold done_inv in D. rewrite Hs' in D. destruct D as (D1 & D2 & D3). split; [exact D1|]. split; [intros H; apply heard_snoc; auto|]. destruct D3 as [D3|D3]; auto.
    + apply Keep; try reflexivity. intros [R|R]; right; rewrite skipn_app; apply in_or_app; [right|left; auto]. rewrite R.
      replace (length base - length o1)%nat with 0%nat by lia. left; reflexivity.
Qed.

Lemma done_heard l2 t h o : Forall (ev_ok 1) l2 -> busy_during j1 j2 base l2 -> tx_run j1 j2 (base ++ l2) = Ok ((t, h), o) -> tx_done t = true -> all_heard l2.
Proof using L Fb start_idle.
  intros F B E Hd. pose proof (done_inv_run l2 F B t h o E) as D.
  assert (I : tx_inv t h) by (eapply run_inv_eq; [exact L| |exact E]; apply Forall_app; auto).
  destruct (track_run j1 j2 l1 tw m L Fb start_idle l2 F B _ _ _ E) as (Hm & _ & _). assert (M1 : (1 <= m_length (t_tx t))%nat).
  { rewrite Hm. unfold base in Fb. apply Forall_app in Fb as (_ & X). inversion X as [|? ? X0 _]; subst. unfold ev_ok in X0. cbn [snd] in X0. exact (proj2 X0). }
  unfold tx_done in Hd. apply Z.eqb_eq in Hd. unfold done_inv in D. destruct (t_st t) eqn:Es.
  - apply D; exact Hd.
  - exfalso. rewrite D in Hd. lia.
  - exfalso. rewrite D in Hd. lia.
  - exfalso. pose proof (iv_zero _ _ I (or_intror (or_intror Es))) as X. rewrite X in Hd. lia.
  - exfalso. pose proof (iv_chk _ _ I Es). lia.
  - apply D; exact Hd.
Qed.
Lemma success_done l2 t h o : Forall (ev_ok 1) l2 -> busy_during j1 j2 base l2 -> tx_run j1 j2 (base ++ l2) = Ok ((t, h), o) -> tx_is_idle t = true -> tx_done t = false ->
  t_err t = true \/ In (Some true) (skipn (length base) o).
Proof using L Fb start_idle.
  intros F B E Hi Hd. pose proof (done_inv_run l2 F B t h o E) as D. unfold done_inv in D. unfold tx_is_idle in Hi. destruct (t_st t); try discriminate.
  destruct D as (_ & _ & [D|D]); [exact D|]. exfalso. unfold tx_done in Hd. apply Z.eqb_neq in Hd. auto.
Qed.
End follow.

(** Without a wake the answer stays. *)
Lemma idle_keeps j1 j2 l3 : length j2 = 32%nat -> Forall no_wake l3 -> forall l t h o, Forall (ev_ok 1) (l ++ l3) -> tx_run j1 j2 l = Ok ((t, h), o) -> tx_is_idle t = true ->
  forall t' h' o', tx_run j1 j2 (l ++ l3) = Ok ((t', h'), o') -> tx_is_idle t' = true /\ tx_done t' = tx_done t.
Proof.
  intros L. induction l3 as [|e l3 IH] using rev_ind; intros N l t h o F E Hi t' h' o' E'.
  - rewrite app_nil_r in E'. rewrite E in E'. injection E' as <- _ _. auto.
  - rewrite app_assoc in *. apply Forall_app in F as (F & Fe). apply Forall_app in N as (N & Ne). inversion Ne as [|? ? N1 _]; subst.
    apply run_snoc in E' as ((t1 & h1) & o1 & x & E1 & E2 & ->). destruct (IH N l t h o F E Hi _ _ _ E1) as (I1 & D1).
    assert (I : tx_inv t1 h1) by (eapply run_inv_eq; [exact L|exact F|exact E1]).
    destruct e as (now & ev). pose proof (event_cases _ _ _ _ _ _ _ I E2) as C. assert (Es : t_st t1 = T_IDLE) by (unfold tx_is_idle in I1; destruct (t_st t1); congruence).
    rewrite <- D1. inversion C as [w Hw|w Hw|busy re rv c t2 h2 U|x0| |]; subst; try contradiction; auto.
    inversion U; subst; auto; unfold data_phase in *; try congruence; (destruct (t_st t1); intuition congruence).
Qed.
Lemma never_done j1 j2 l t h o : length j2 = 32%nat -> Forall no_wake l -> Forall (ev_ok 1) l -> tx_run j1 j2 l = Ok ((t, h), o) -> tx_done t = false.
Proof. intros L N F E. destruct (idle_keeps j1 j2 l L N [] _ _ _ F eq_refl eq_refl _ _ _ E) as (_ & D). rewrite D. reflexivity. Qed.
