(** P_TxClkRun.v -- C133: what the retiming gives, and the times. *)
From Verif Require Import Base M_Message M_Tx D_Tx M_TxClk D_TxClk P_Ctrl P_Tx P_TxRun P_TxHist P_TxClk.

Section S1.
Context (j1 j2 : list Z) (L : length j2 = 32%nat).

Lemma clk_defined l : Forall (evc_ok 1) l -> exists t h o, tx_run_clk j1 j2 l = Ok ((t, h), o).
Proof using L.
  intros F. destruct (retime j1 j2 l L F) as (l' & Le & _ & _ & K). destruct (K (length l)) as (t & w & h & o & E & _). rewrite firstn_all in E. eauto.
Qed.
Lemma clk_inv l t h o : Forall (evc_ok 1) l -> tx_run_clk j1 j2 l = Ok ((t, h), o) -> exists w, tx_inv (setw w t) h.
Proof using L.
  intros F E. destruct (retime j1 j2 l L F) as (l' & Le & _ & F' & K). destruct (K (length l)) as (t1 & w & h1 & o1 & E1 & E2). rewrite firstn_all in E1.
  rewrite E in E1. injection E1 as <- <- <-. rewrite <- Le, firstn_all in E2. exists w. exact (run_inv_eq _ _ _ _ _ _ L F' E2).
Qed.
Lemma clk_retimed l : Forall (evc_ok 1) l -> exists l', map snd l' = map snd l /\
  forall k, exists s s' o, tx_run_clk j1 j2 (firstn k l) = Ok (s, o) /\ tx_run j1 j2 (firstn k l') = Ok (s', o) /\ same_but_deadline s s'.
Proof using L.
  intros F. destruct (retime j1 j2 l L F) as (l' & Le & Ms & F' & K). exists l'. split; [exact Ms|]. intros k.
  destruct (K k) as (t & w & h & o & E1 & E2). exists (t, h), (setw w t, h), o. split; [exact E1|]. split; [exact E2|]. repeat split.
Qed.

Lemma snoc_clk l e t h o t' h' o' : tx_run_clk j1 j2 l = Ok ((t, h), o) -> tx_run_clk j1 j2 (l ++ [e]) = Ok ((t', h'), o') ->
  exists x, tx_event_clk pico (t, h) e = Ok ((t', h'), x).
Proof using. clear L.
  intros E1 E2. unfold tx_run_clk in *. rewrite mrun_app1, E1 in E2. cbn [bind] in E2.
  destruct (tx_event_clk pico (t, h) e) as [(s2, x)|]; cbn [bind] in E2; [|discriminate]. injection E2 as -> <-. eauto.
Qed.

Lemma clk_held l r busy re rv c t h o t' h' o' :
  tx_run_clk j1 j2 l = Ok ((t, h), o) -> tx_run_clk j1 j2 (l ++ [(r, Update busy re rv c)]) = Ok ((t', h'), o') ->
  tx_is_idle t' = true \/
  (t_st t' = t_st t /\ t_wait t' = t_wait t /\ (if match t_st t with T_WAIT_POWERON => true | _ => false end then r_timedout r else r_error r) < t_wait t) \/
  (exists n, In n [r_enter r; r_next r; r_collision r] /\ t_wait t' = n + timeout_for (t_st t') /\ timeout_for (t_st t') <= 34000).
Proof using. clear L.
  intros E1 E2. destruct (snoc_clk _ _ _ _ _ _ _ _ E1 E2) as (x & Ev). cbn [tx_event_clk] in Ev.
  destruct (tx_update_clk pico r t h busy re rv c) as [(t2, h2)|] eqn:U; cbn [bind] in Ev; [|discriminate]. injection Ev as -> -> <-.
  destruct (update_clk_cases _ _ _ _ _ _ _ _ _ _ U) as [H D|H1 H2 H3 H4 H5 D Of|H1 H2 H3 H4 H5 D Wt|h0 H1 H2 H3 H4 H5 D H6 H7|n H1 H2 H3 D Fr Wt Of].
  - left. unfold tx_is_idle. rewrite H. reflexivity.
  - right. left. split; [exact H2|]. split; [exact H3|]. destruct (t_st t); exact H5.
  - right. right. exists (r_enter r). split; [left; reflexivity|]. rewrite H2, H3. unfold timeout_for, TX_POWERON_TIMEOUT_US. lia.
  - right. right. exists (r_enter r). split; [left; reflexivity|]. rewrite H2, H3. unfold timeout_for, TX_ONE_CHAR_TIMEOUT_US. lia.
  - right. right. exists n. split; [exact H1|]. rewrite H3. destruct H2 as [-> | ->]; unfold timeout_for, TX_ONE_CHAR_TIMEOUT_US; lia.
Qed.

Lemma clk_poweron_hist l : forall t h o, tx_run_clk j1 j2 l = Ok ((t, h), o) -> t_st t = T_WAIT_POWERON ->
  exists la r0 re rv c lb s0 o0, l = la ++ (r0, Update false re rv c) :: lb /\ tx_run_clk j1 j2 la = Ok (s0, o0) /\
    hw_transmitting (snd s0) = false /\ Forall saw_free_clk lb /\ t_wait t = r_enter r0 + 32000.
Proof using. clear L.
  induction l as [|e l IH] using rev_ind; intros t h o E Hs.
  - injection E as <- <- <-. discriminate.
  - destruct (tx_run_clk j1 j2 l) as [((t1, h1), o1)|] eqn:E1; [|unfold tx_run_clk in *; rewrite mrun_app1, E1 in E; discriminate].
    destruct (snoc_clk _ _ _ _ _ _ _ _ E1 E) as (x & Ev). destruct e as (r, ev).
    assert (Keep : t_st t1 = T_WAIT_POWERON -> t_wait t = t_wait t1 -> saw_free_clk (r, ev) ->
      exists la r0 re rv c lb s0 o0, l ++ [(r, ev)] = la ++ (r0, Update false re rv c) :: lb /\ tx_run_clk j1 j2 la = Ok (s0, o0) /\
        hw_transmitting (snd s0) = false /\ Forall saw_free_clk lb /\ t_wait t = r_enter r0 + 32000).
    { intros H1 Hw Sf. destruct (IH _ _ _ eq_refl H1) as (la & t0 & re & rv & c & lb & s0 & o0 & -> & R & Q & FF & W).
      exists la, t0, re, rv, c, (lb ++ [(r, ev)]), s0, o0. split; [rewrite <- app_assoc; reflexivity|]. split; [exact R|]. split; [exact Q|].
      split; [apply Forall_app; split; auto|]. congruence. }
    destruct ev as [m|busy re rv c|y| |tm]; cbn [tx_event_clk tx_event] in Ev.
    + unfold tx_wake in Ev. destruct (tx_is_idle t1).
      * cbn in Ev. injection Ev as <- <- <-. discriminate.
      * cbn [bind] in Ev. injection Ev as <- <- <-. apply Keep; auto; exact I.
    + destruct (tx_update_clk pico r t1 h1 busy re rv c) as [(t2, h2)|] eqn:U; cbn [bind] in Ev; [|discriminate]. injection Ev as -> -> <-.
      destruct (update_clk_cases _ _ _ _ _ _ _ _ _ _ U) as [H D|H1 H2 H3 H4 H5 D Of|H1 H2 H3 H4 H5 D Wt|h0 H1 H2 H3 H4 H5 D H6 H7|n H1 H2 H3 D Fr Wt Of].
      * congruence.
      * apply Keep; [congruence|exact H3|]. cbn. destruct busy; [congruence|reflexivity].
      * subst busy. exists l, r, re, rv, c, [], (t1, h1), o1. split; [reflexivity|]. split; [exact E1|]. split; [exact H5|]. split; [constructor|exact H3].
      * congruence.
      * destruct H2; congruence.
    + injection Ev as <- <- <-. apply Keep; auto; exact I.
    + injection Ev as <- <- <-. apply Keep; auto; exact I.
    + injection Ev as <- <- <-. apply Keep; auto; exact I.
Qed.

Lemma clk_start l r ev t h o t' h' o' : Forall (evc_ok 1) (l ++ [(r, ev)]) ->
  tx_run_clk j1 j2 l = Ok ((t, h), o) -> tx_run_clk j1 j2 (l ++ [(r, ev)]) = Ok ((t', h'), o') ->
  (length (hw_dma h) < length (hw_dma h'))%nat ->
  hw_dma h' = tx_bytes (t_tx t) /\
  exists re rv c la r0 re0 rv0 c0 lb s0 o0, ev = Update false re rv c /\ l = la ++ (r0, Update false re0 rv0 c0) :: lb /\
    tx_run_clk j1 j2 la = Ok (s0, o0) /\ hw_transmitting (snd s0) = false /\ Forall saw_free_clk lb /\ r_enter r0 + 32000 <= r_timedout r.
Proof using L.
  intros F E1 E2 Hl. split.
  - destruct (retime j1 j2 _ L F) as (l' & Le & Ms & F' & K).
    destruct (K (length l)) as (ta & wa & ha & oa & A1 & A2). destruct (K (length (l ++ [(r, ev)]))) as (tb & wb & hb & ob & B1 & B2).
    rewrite firstn_all in B1. rewrite firstn_app, Nat.sub_diag, firstn_O, app_nil_r, firstn_all in A1.
    rewrite E1 in A1. injection A1 as <- <- <-. rewrite E2 in B1. injection B1 as <- <- <-. rewrite <- Le, firstn_all in B2.
    rewrite app_length in Le. cbn [length] in Le.
    destruct l' as [|e0 l0] using rev_ind; [cbn in Le; lia|]. clear IHl0. rewrite app_length in Le. cbn [length] in Le.
    rewrite firstn_app in A2. replace (length l - length l0)%nat with 0%nat in A2 by lia. replace (length l) with (length l0) in A2 by lia.
    rewrite firstn_O, app_nil_r, firstn_all in A2. destruct e0 as (n, ev0).
    destruct (start_on_free_line j1 j2 l0 n ev0 _ _ _ _ _ _ L F' A2 B2 Hl) as (D & _). exact D.
  - destruct (snoc_clk _ _ _ _ _ _ _ _ E1 E2) as (x & Ev). destruct ev as [m|busy re rv c|y| |tm]; cbn [tx_event_clk tx_event] in Ev.
    + unfold tx_wake in Ev. destruct (tx_is_idle t); cbn in Ev; injection Ev as <- <- <-; lia.
    + destruct (tx_update_clk pico r t h busy re rv c) as [(t2, h2)|] eqn:U; cbn [bind] in Ev; [|discriminate]. injection Ev as -> -> <-.
      destruct (update_clk_cases _ _ _ _ _ _ _ _ _ _ U) as [H D|H1 H2 H3 H4 H5 D Of|H1 H2 H3 H4 H5 D Wt|h0 H1 H2 H3 H4 H5 D H6 H7|n H1 H2 H3 D Fr Wt Of];
        try (first [rewrite D in Hl; lia | destruct D as [D|D]; rewrite D in Hl; cbn in Hl; lia]).
      destruct (clk_poweron_hist l t h o E1 H1) as (la & r0 & re0 & rv0 & c0 & lb & s0 & o0 & -> & R & Q & FF & W).
      subst busy. exists re, rv, c, la, r0, re0, rv0, c0, lb, s0, o0. split; [reflexivity|]. split; [reflexivity|]. split; [exact R|]. split; [exact Q|]. split; [exact FF|]. lia.
    + injection Ev as <- <- <-. exfalso. destruct h as [er d f q sd]. destruct y; cbn in Hl; [destruct d; [|destruct (length f <? 8)%nat]|destruct f; [|destruct q]|destruct q|destruct q]; cbn in Hl; lia.
    + injection Ev as <- <- <-. lia.
    + injection Ev as <- <- <-. lia.
Qed.
End S1.
