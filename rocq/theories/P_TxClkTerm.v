(** P_TxClkTerm.v -- C133: termination with separate clock readings. *)
From Verif Require Import Base M_Message M_Tx D_Tx M_TxClk D_TxClk P_Ctrl P_Tx P_TxRun P_TxHist P_TxClk P_TxClkRun.

Lemma clk_keeps_tx t w h r busy re rv c t' h' : tx_inv (setw w t) h -> tx_update_clk pico r t h busy re rv c = Ok (t', h') -> t_tx t' = t_tx t.
Proof.
  intros I E. destruct (update_sim pico r t w h busy re rv c) as (n & H). rewrite E in H.
  destruct (update_cases n busy re rv c (setw w t) h (inv_safe _ _ I)) as (t2 & h2 & E2 & U). rewrite E2 in H. destruct H as (w' & H). cbn [fst snd] in H.
  injection H as -> ->. change (t_tx t') with (t_tx (setw w' t')). change (t_tx t) with (t_tx (setw w t)). remember (setw w' t') as y eqn:Ey. remember (setw w t) as x eqn:Ex. clear - U.
  destruct U; reflexivity.
Qed.

Section S1.
Context (j1 j2 : list Z) (L : length j2 = 32%nat) (g e : Z) (Hg : 0 <= g) (He : 0 <= e).
Fixpoint last_clk (last : Z) (l : list (readings * tx_ev)) : Z :=
  match l with [] => last | (r, Update _ _ _ _) :: l' => last_clk (r_error r) l' | _ :: l' => last_clk last l' end.
Lemma last_clk_app a b : forall last, last_clk last (a ++ b) = last_clk (last_clk last a) b.
Proof using. clear L Hg He. induction a as [|(u & [w|? ? ? ?|x| |]) a IH]; intros last; cbn; auto. Qed.
Lemma every_clk_app a b : forall last, updates_every_clk g e last (a ++ b) <-> updates_every_clk g e last a /\ updates_every_clk g e (last_clk last a) b.
Proof using. clear L Hg He. induction a as [|(u & [w|? ? ? ?|x| |]) a IH]; intros last; cbn [updates_every_clk last_clk app]; try apply IH; try tauto. rewrite IH. tauto. Qed.

Context (l1 : list (readings * tx_ev)) (rw : readings) (m : message).
Let base := l1 ++ [(rw, Wake m)].
Let tw := r_enter rw.
Context (Fb : Forall (evc_ok 1) base) (S : exists s o, tx_run_clk j1 j2 l1 = Ok (s, o) /\ tx_is_idle (fst s) = true).

Definition dl (last : Z) (t : txsm) : Prop :=
  match t_st t with
  | T_IDLE => True
  | T_WAIT_LINEFREE => t_wait t = tw + 34000
  | T_WAIT_POWERON => t_wait t < tw + 66000 + e /\ last < t_wait t
  | T_STARTED => t_wait t < tw + 68000 + g + 2 * e
  | T_CHECK_DATA => t_wait t < tw + 68000 + g + 2 * e + 4000 * (t_off t + 1) + e * (t_off t + 1)
  | T_WAIT_IDLE => t_wait t < tw + 68000 + g + 2 * e + 4000 * (Z.of_nat (m_length m) + 1) + e * (Z.of_nat (m_length m) + 1)
  end.

Lemma base_clk : exists t h o, tx_run_clk j1 j2 base = Ok ((t, h), o) /\ t_st t = T_WAIT_LINEFREE /\ t_wait t = tw + 34000 /\ t_tx t = m.
Proof using S.
  clear L Hg He Fb. destruct S as ((t & h) & o & R & Hi). cbn in Hi. unfold base, tx_run_clk in *. rewrite mrun_app1, R. cbn [bind tx_event_clk tx_event].
  unfold tx_wake. rewrite Hi. cbn. eexists _, _, _. split; [reflexivity|]. auto.
Qed.

Definition found (l : list (readings * tx_ev)) : Prop :=
  exists p q, l = p ++ q /\ p <> [] /\ exists s o, tx_run_clk j1 j2 (base ++ p) = Ok (s, o) /\ tx_is_idle (fst s) = true.
Lemma aux l2 : Forall (evc_ok 1) l2 -> updates_every_clk g e tw l2 ->
  found l2 \/ exists t h o, tx_run_clk j1 j2 (base ++ l2) = Ok ((t, h), o) /\ t_st t <> T_IDLE /\ t_tx t = m /\ dl (last_clk tw l2) t.
Proof using L Hg He Fb S.
  induction l2 as [|x l2 IH] using rev_ind; intros F G.
  - right. destruct base_clk as (t & h & o & R & Hs & Hw & Hm). rewrite app_nil_r. exists t, h, o. split; [exact R|]. split; [congruence|]. split; [exact Hm|].
    unfold dl. rewrite Hs. exact Hw.
  - apply Forall_app in F as (F & Fe). apply every_clk_app in G as (G & Ge).
    destruct (IH F G) as [(p & q & -> & Hp & X)|(t & h & o & R & Ni & Hm & D)].
    { left. exists p, (q ++ [x]). split; [rewrite app_assoc; reflexivity|]. split; [exact Hp|exact X]. }
    assert (FA : Forall (evc_ok 1) ((base ++ l2) ++ [x])) by (apply Forall_app; split; [apply Forall_app; auto|exact Fe]).
    destruct (clk_defined j1 j2 L _ FA) as (t' & h' & o' & R'). destruct (clk_inv j1 j2 L _ _ _ _ FA R') as (w' & I').
    assert (FB : Forall (evc_ok 1) (base ++ l2)) by (apply Forall_app; auto).
    destruct (clk_inv j1 j2 L _ _ _ _ FB R) as (w & I).
    destruct (snoc_clk j1 j2 _ _ _ _ _ _ _ _ R R') as (y & Ev). rewrite <- app_assoc in R'.
    destruct (tx_is_idle t') eqn:Hi.
    { left. exists (l2 ++ [x]), []. split; [rewrite app_nil_r; reflexivity|]. split; [destruct l2; discriminate|]. eexists _, _. split; [exact R'|exact Hi]. }
    right. exists t', h', o'. split; [exact R'|]. assert (Ni' : t_st t' <> T_IDLE) by (unfold tx_is_idle in Hi; destruct (t_st t'); congruence). split; [exact Ni'|].
    rewrite last_clk_app. clear IH FA FB R R' F Fe G.
    destruct x as (r & ev). destruct ev as [mm|busy re rv c|z| |tm]; cbn [tx_event_clk tx_event last_clk] in *.
    + unfold tx_wake in Ev. replace (tx_is_idle t) with false in Ev by (unfold tx_is_idle; destruct (t_st t); congruence). cbn [bind] in Ev. injection Ev as <- <- <-. auto.
    + destruct (tx_update_clk pico r t h busy re rv c) as [(t2, h2)|] eqn:U; cbn [bind] in Ev; [|discriminate]. injection Ev as -> -> <-.
      split; [rewrite (clk_keeps_tx t w h _ _ _ _ _ _ _ I U); exact Hm|].
      pose proof (clk_keeps_tx t w h _ _ _ _ _ _ _ I U) as Ht.
      cbn [updates_every_clk] in Ge. destruct Ge as (Ga & Gr & _). rewrite Forall_forall in Gr.
      assert (G1 := Gr (r_timedout r) (or_introl eq_refl)). assert (G2 := Gr (r_enter r) (or_intror (or_introl eq_refl))).
      assert (C0 : t_st t = T_CHECK_DATA -> 0 <= t_off t < Z.of_nat (m_length m)) by (rewrite <- Hm; exact (iv_chk _ _ I)).
      assert (C1 : t_st t' = T_CHECK_DATA -> 0 <= t_off t' < Z.of_nat (m_length m)) by (rewrite <- Hm, <- Ht; exact (iv_chk _ _ I')).
      assert (M1 : (1 <= m_length m <= 32)%nat) by (destruct (iv_tx _ _ I Ni) as ((_ & M1 & _) & M2); cbn in M1, M2; rewrite Hm in M1, M2; lia).
      unfold dl in *.
      destruct (update_clk_cases _ _ _ _ _ _ _ _ _ _ U) as [H Q|H1 H2 H3 H4 H5 Q Of|H1 H2 H3 H4 H5 Q Wt|h0 H1 H2 H3 H4 H5 Q H6 H7|n H1 H2 H3 Q Fr Wt Of].
      * congruence.
      * rewrite H2, H3, Of. destruct (t_st t); auto. destruct D as (D1 & D2). split; [exact D1|]. lia.
      * rewrite H1 in D. rewrite H2. lia.
      * rewrite H1 in D. rewrite H2. lia.
      * assert (Hn : r_error r <= n <= r_error r + e) by (apply Gr; destruct H1 as [<-|[<-|[<-|[]]]]; cbn; auto).
        assert (B : t_wait t < tw + 68000 + g + 2 * e + 4000 * Z.of_nat (m_length m) + e * Z.of_nat (m_length m)).
        { destruct Fr as [Fr|Fr]; rewrite Fr in D; [nia|]. specialize (C0 Fr). nia. }
        destruct H2 as [H2|H2]; rewrite H2, H3; [|lia]. specialize (C1 H2).
        destruct Fr as [Fr|Fr]; rewrite Fr in D; [nia|]. specialize (C0 Fr). specialize (Of Fr H2). unfold u32 in Of. rewrite Z.mod_small in Of by lia. rewrite Of. lia.
    + injection Ev as <- <- <-. auto.
    + injection Ev as <- <- <-. auto.
    + injection Ev as <- <- <-. auto.
Qed.

Lemma clk_terminates l2 r busy re rv c : Forall (evc_ok 1) (l2 ++ [(r, Update busy re rv c)]) ->
  updates_every_clk g e tw (l2 ++ [(r, Update busy re rv c)]) ->
  tw + 72000 + 4000 * Z.of_nat (m_length m) + g + e * (Z.of_nat (m_length m) + 3) <= r_error r ->
  found (l2 ++ [(r, Update busy re rv c)]).
Proof using L Hg He Fb S.
  intros F G Hu. apply Forall_app in F as (F & Fe). assert (G' := G). apply every_clk_app in G' as (G1 & Ge). cbn [updates_every_clk] in Ge. destruct Ge as (Ga & Gr & _).
  destruct (aux l2 F G1) as [(p & q & -> & Hp & X)|(t & h & o & R & Ni & Hm & D)].
  { exists p, (q ++ [(r, Update busy re rv c)]). split; [rewrite app_assoc; reflexivity|]. auto. }
  destruct (aux (l2 ++ [(r, Update busy re rv c)])) as [X|(t' & h' & o' & R' & Ni' & Hm' & D')]; [apply Forall_app; auto|exact G|exact X|]. exfalso.
  assert (FB : Forall (evc_ok 1) (base ++ l2)) by (apply Forall_app; auto).
  destruct (clk_inv j1 j2 L _ _ _ _ FB R) as (w & I).
  assert (C0 : t_st t = T_CHECK_DATA -> 0 <= t_off t < Z.of_nat (m_length m)) by (rewrite <- Hm; exact (iv_chk _ _ I)).
  rewrite app_assoc in R'. destruct (snoc_clk j1 j2 _ _ _ _ _ _ _ _ R R') as (y & Ev). cbn [tx_event_clk] in Ev.
  destruct (tx_update_clk pico r t h busy re rv c) as [(t2, h2)|] eqn:U; cbn [bind] in Ev; [|discriminate]. injection Ev as -> -> <-.
  rewrite Forall_forall in Gr. assert (G2 := Gr (r_timedout r) (or_introl eq_refl)).
  assert (B : t_st t <> T_WAIT_POWERON -> t_wait t <= r_error r).
  { intros Hp. unfold dl in D. destruct (t_st t); try congruence; try nia. specialize (C0 eq_refl). nia. }
  unfold dl in D.
  destruct (update_clk_cases _ _ _ _ _ _ _ _ _ _ U) as [H Q|H1 H2 H3 H4 H5 Q Of|H1 H2 H3 H4 H5 Q Wt|h0 H1 H2 H3 H4 H5 Q H6 H7|n H1 H2 H3 Q Fr Wt Of].
  - congruence.
  - destruct (t_st t) eqn:Es; try (specialize (B ltac:(discriminate)); lia). nia.
  - specialize (B ltac:(congruence)). lia.
  - rewrite H1 in D. nia.
  - destruct Fr as [Fr|Fr]; specialize (B ltac:(congruence)); lia.
Qed.
End S1.
