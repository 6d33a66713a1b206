(** P_TxHist.v -- history theorems about the transmit state machine (C46-C48). *)
From Verif Require Import Base M_Message M_Tx D_Tx P_Ctrl P_Tx P_TxRun.

Lemma run_snoc j1 j2 l e s o : tx_run j1 j2 (l ++ [e]) = Ok (s, o) ->
  exists s1 o1 x, tx_run j1 j2 l = Ok (s1, o1) /\ tx_event pico s1 e = Ok (s, x) /\ o = o1 ++ [x].
Proof.
  unfold tx_run. rewrite mrun_app. destruct (mrun (tx_event pico) (tx_new hw_new j1 j2) l) as [[s1 o1]|k]; [|discriminate]. cbn [bind mrun].
  destruct (tx_event pico s1 e) as [[s2 x]|k] eqn:Ee; [|discriminate]. cbn [bind]. intros H; injection H as <- <-. exists s1, o1, x. auto.
Qed.
Lemma run_snoc_intro j1 j2 l e s1 o1 s x : tx_run j1 j2 l = Ok (s1, o1) -> tx_event pico s1 e = Ok (s, x) ->
  tx_run j1 j2 (l ++ [e]) = Ok (s, o1 ++ [x]).
Proof.
  unfold tx_run. intros E1 E2. rewrite mrun_app, E1. cbn [bind mrun]. rewrite E2. reflexivity.
Qed.

(** What one event does to the machine, given the invariant. *)
Inductive evcase (t : txsm) (h : pio_hw) (now : Z) : tx_ev -> txsm -> pio_hw -> option bool -> Prop :=
| E_wake m : t_st t = T_IDLE -> evcase t h now (Wake m) (TX m (msg_clear (t_rx t)) T_WAIT_LINEFREE (now + 34000) 0 false) h None
| E_nowake m : t_st t <> T_IDLE -> evcase t h now (Wake m) t h None
| E_upd busy re rv c t' h' : ucase now busy re rv c t h t' h' -> evcase t h now (Update busy re rv c) t' h' None
| E_hw e : evcase t h now (Hw e) t (hw_step h e) None
| E_err : evcase t h now ReadError (fst (tx_error t)) h (Some (t_err t))
| E_clear time : evcase t h now (ClearRx time) (tx_clear_rx t time) h None.

Lemma event_cases t h now ev t' h' x : tx_inv t h -> tx_event pico (t, h) (now, ev) = Ok ((t', h'), x) -> evcase t h now ev t' h' x.
Proof.
  intros I. destruct ev as [m|busy re rv c|e| |]; cbn [tx_event].
  - destruct (wake_cases now t h m) as (t1 & h1 & -> & -> & C). cbn [bind]. intros H; injection H as <- <- <-.
    destruct C as [(Hi & ->)|(Hi & ->)]; constructor; auto.
  - destruct (update_cases now busy re rv c t h (inv_safe _ _ I)) as (t1 & h1 & -> & U). cbn [bind]. intros H; injection H as <- <- <-. constructor; auto.
  - intros H; injection H as <- <- <-. constructor.
  - unfold tx_error. intros H; injection H as <- <- <-. apply E_err.
  - intros H; injection H as <- <- <-. apply E_clear.
Qed.

(** ** C46 *)
Lemma poweron_hist j1 j2 : length j2 = 32%nat -> forall l t h o, Forall (ev_ok 1) l -> tx_run j1 j2 l = Ok ((t, h), o) -> t_st t = T_WAIT_POWERON ->
  exists la t0 re rv c lb s0 o0, l = la ++ (t0, Update false re rv c) :: lb /\ tx_run j1 j2 la = Ok (s0, o0) /\
    hw_transmitting (snd s0) = false /\ Forall saw_free lb /\ t_wait t = t0 + 32000.
Proof.
  intros L l. induction l as [|e l IH] using rev_ind; intros t h o F E Hs.
  - injection E as <- <- <-. discriminate.
  - apply Forall_app in F as (F & Fe). inversion Fe as [|? ? Fe1 _]; subst.
    apply run_snoc in E as ((t1 & h1) & o1 & x & E1 & E2 & ->). pose proof (run_inv_eq _ _ _ _ _ _ L F E1) as I.
    destruct e as (now & ev). pose proof (event_cases _ _ _ _ _ _ _ I E2) as C.
    assert (Keep : t_st t1 = T_WAIT_POWERON -> t_wait t = t_wait t1 -> saw_free (now, ev) ->
      exists la t0 re rv c lb s0 o0, l ++ [(now, ev)] = la ++ (t0, Update false re rv c) :: lb /\ tx_run j1 j2 la = Ok (s0, o0) /\
        hw_transmitting (snd s0) = false /\ Forall saw_free lb /\ t_wait t = t0 + 32000).
    { intros H1 Hw Sf. destruct (IH _ _ _ F E1 H1) as (la & t0 & re & rv & c & lb & s0 & o0 & -> & R & Q & FF & W).
      exists la, t0, re, rv, c, (lb ++ [(now, ev)]), s0, o0. split; [rewrite <- app_assoc; reflexivity|]. split; [exact R|]. split; [exact Q|].
      split; [apply Forall_app; split; auto|]. congruence. }
    inversion C as [m Hi|m Hi|busy re rv c t' h' U|x0| |]; subst; try (cbn in Hs; discriminate); try (apply Keep; cbn; auto; fail).
    inversion U as [Ha|H1 H2 H3 H4|Hs' Hw Hb Ht Ho|Hs' Hw Hb|Hs' Hw Hb He Hv|rx Hd Hw He Hv Hn Hr|b rx Hd Hw He Hv Hn Hne Hr|Hd Hw He|Hs' Hw Hb]; subst;
      cbn in Hs; try discriminate.
    + apply Keep; auto. cbn. apply H2; auto.
    + exists l, now, re, rv, c, []. eexists _, _. split; [reflexivity|]. split; [exact E1|]. split; [exact Ht|]. split; [constructor|]. cbn. reflexivity.
    + unfold after_byte in Hs. destruct (_ =? _); discriminate.
Qed.

Lemma start_on_free_line j1 j2 l now ev t h o t' h' o' :
  length j2 = 32%nat -> Forall (ev_ok 1) (l ++ [(now, ev)]) ->
  tx_run j1 j2 l = Ok ((t, h), o) -> tx_run j1 j2 (l ++ [(now, ev)]) = Ok ((t', h'), o') ->
  (length (hw_dma h) < length (hw_dma h'))%nat ->
  hw_dma h' = tx_bytes (t_tx t) /\
  exists re rv c la t0 re0 rv0 c0 lb s0 o0, ev = Update false re rv c /\ l = la ++ (t0, Update false re0 rv0 c0) :: lb /\
    tx_run j1 j2 la = Ok (s0, o0) /\ hw_transmitting (snd s0) = false /\ Forall saw_free lb /\ t0 + 32000 <= now.
Proof.
  intros L F E1 E2 Hl. apply Forall_app in F as (F & _). pose proof (run_inv_eq _ _ _ _ _ _ L F E1) as I.
  apply run_snoc in E2 as (s1 & o1 & x & E1' & E2 & ->). rewrite E1 in E1'. injection E1' as <- <-.
  pose proof (event_cases _ _ _ _ _ _ _ I E2) as C.
  inversion C as [m Hi|m Hi|busy re rv c t2 h2 U|x0| |]; subst; try lia.
  - inversion U as [Ha|H1 H2 H3 H4|Hs' Hw Hb Ht Ho|Hs' Hw Hb|Hs' Hw Hb He Hv|rx Hd Hw He Hv Hn Hr|b rx Hd Hw He Hv Hn Hne Hr|Hd Hw He|Hs' Hw Hb]; subst; cbn in Hl; try lia.
    + cbn. split; [reflexivity|]. destruct (poweron_hist j1 j2 L l t h o F E1 Hs') as (la & t0 & re0 & rv0 & c0 & lb & s0 & o0 & -> & R & Q & FF & W).
      exists re, rv, c, la, t0, re0, rv0, c0, lb, s0, o0. repeat (split; [first [reflexivity|eassumption]|]). lia.
    + unfold after_byte in Hl. destruct (_ =? _); cbn in Hl; lia.
  - exfalso. destruct h as [er d f q sd]. destruct x0; cbn in Hl; [destruct d; [|destruct (length f <? 8)%nat]|destruct f; [|destruct q]|destruct q|destruct q]; cbn in Hl; lia.
Qed.

(** ** C47, C49: following one transmission *)
Lemma echoes_app a b : echoes (a ++ b) = echoes a ++ echoes b.
Proof. unfold echoes. apply flat_map_app. Qed.
Lemma firstn_next (l : list Z) k b : nth_error l k = Some b -> firstn (S k) l = firstn k l ++ [b].
Proof.
  revert k; induction l as [|a l IH]; intros [|k] H; cbn in *; try discriminate.
  - injection H as ->. reflexivity.
  - f_equal. auto.
Qed.
Lemma nth_firstn (l : list Z) n k : (k < n)%nat -> nth_error (firstn n l) k = nth_error l k.
Proof. revert n k; induction l as [|a l IH]; intros [|n] [|k] H; cbn; auto; try lia. apply IH; lia. Qed.

Lemma held_snoc l e : line_held l -> (existsb sign l = true -> match snd e with Update busy _ _ _ => busy = true | _ => True end) -> line_held (l ++ [e]).
Proof.
  intros H He x f y E Hx. destruct y as [|g y] using rev_ind.
  - apply app_inj_tail in E as (-> & ->). apply He. exact Hx.
  - clear IHy. rewrite app_comm_cons, app_assoc in E. apply app_inj_tail in E as (-> & _). apply (H x f y eq_refl Hx).
Qed.
Lemma held_nil : line_held [].
Proof. intros x e y E. destruct x; discriminate. Qed.

Lemma free_aborts now t h re rv c t' h' x : t_st t = T_CHECK_DATA -> tx_event pico (t, h) (now, Update false re rv c) = Ok ((t', h'), x) -> t_st t' = T_IDLE /\ t_err t' = true.
Proof.
  intros Hs. cbn [tx_event]. unfold tx_update, line_is_error, free_is_error. rewrite Hs, orb_true_r. cbn [change_state bind]. intros E. injection E as <- _ _. auto.
Qed.

Section follow.
Variables (j1 j2 : list Z) (l1 : list (Z * tx_ev)) (tw : Z) (m : message).
Hypothesis L : length j2 = 32%nat.
Let base := l1 ++ [(tw, Wake m)].
Hypothesis Fb : Forall (ev_ok 1) base.
Hypothesis start_idle : exists s o, tx_run j1 j2 l1 = Ok (s, o) /\ tx_is_idle (fst s) = true.

Definition echoed_so_far (l2 : list (Z * tx_ev)) (st : tx_st) (k : nat) : Prop :=
  exists ha hb, l2 = ha ++ hb /\ handed_over j1 j2 (base ++ ha) (tx_bytes m) /\ echoes hb = firstn k (tx_bytes m) /\ no_rx_error hb /\
    line_held hb /\ (st = T_STARTED -> existsb sign hb = false).
Definition fully_echoed (l2 : list (Z * tx_ev)) : Prop :=
  exists ha hb hc, l2 = ha ++ hb ++ hc /\ handed_over j1 j2 (base ++ ha) (tx_bytes m) /\ echoes hb = tx_bytes m /\ no_rx_error hb /\ line_held hb.
Definition reported (t : txsm) (o : list (option bool)) : Prop := t_err t = true \/ In (Some true) (skipn (length base) o).

Definition track (l2 : list (Z * tx_ev)) (t : txsm) (o : list (option bool)) : Prop :=
  t_tx t = m /\ (l2 = [] -> t_st t = T_WAIT_LINEFREE) /\
  match t_st t with
  | T_WAIT_LINEFREE | T_WAIT_POWERON => True
  | T_STARTED | T_CHECK_DATA => echoed_so_far l2 (t_st t) (Z.to_nat (t_off t))
  | T_WAIT_IDLE | T_IDLE => reported t o \/ fully_echoed l2
  end.

Lemma base_run : exists t h o, tx_run j1 j2 base = Ok ((t, h), o) /\ t_tx t = m /\ t_st t = T_WAIT_LINEFREE /\ t_wait t = tw + 34000 /\ length o = length base.
Proof.
  destruct start_idle as ((t & h) & o & E & Hi). unfold tx_is_idle in Hi. cbn in Hi. destruct (t_st t) eqn:Es; try discriminate.
  destruct (wake_cases tw t h m) as (t' & h' & Ew & -> & [(Hs & ->)|(Hs & ->)]); [|congruence].
  assert (R := run_snoc_intro j1 j2 l1 (tw, Wake m) (t, h) o (TX m (msg_clear (t_rx t)) T_WAIT_LINEFREE (tw + 34000) 0 false, h) None E ltac:(cbn; rewrite Ew; reflexivity)).
  eexists _, _, _. split; [exact R|]. cbn. repeat (split; [reflexivity|]). eapply mrun_length; exact R.
Qed.

Lemma echoed_snoc l2 st st' k e : echoed_so_far l2 st k -> echoes [e] = [] -> no_rx_error [e] ->
  match snd e with Update busy _ _ _ => (st = T_STARTED -> st' = T_STARTED -> busy = false) /\ (st <> T_STARTED -> busy = true) | _ => True end ->
  (st' = T_STARTED -> st = T_STARTED) -> echoed_so_far (l2 ++ [e]) st' k.
Proof.
  intros (ha & hb & -> & H & E & N & Hl & Hs) He Ne Hb Hst. exists ha, (hb ++ [e]). split; [rewrite app_assoc; reflexivity|]. split; [exact H|].
  split; [rewrite echoes_app, He, app_nil_r; exact E|]. split; [apply Forall_app; auto|]. split.
  - apply held_snoc; [exact Hl|]. intros Hx. destruct (snd e) as [|b re rv c| | |]; auto. apply Hb. intros C. rewrite (Hs C) in Hx. discriminate.
  - intros C. rewrite existsb_app, (Hs (Hst C)). cbn [existsb orb]. rewrite orb_false_r. unfold sign. unfold echoes in He. cbn [flat_map] in He.
    destruct (snd e) as [|b re [|] c| | |]; auto; [discriminate|]. destruct Hb as (Hb & _). rewrite (Hb (Hst C) C). reflexivity.
Qed.
Lemma fully_snoc l2 e : fully_echoed l2 -> fully_echoed (l2 ++ [e]).
Proof.
  intros (ha & hb & hc & -> & H & E & N). exists ha, hb, (hc ++ [e]). split; [rewrite <- !app_assoc; reflexivity|]. auto.
Qed.

Lemma track_run l2 : Forall (ev_ok 1) l2 -> busy_during j1 j2 base l2 -> forall t h o, tx_run j1 j2 (base ++ l2) = Ok ((t, h), o) -> track l2 t o.
Proof.
  induction l2 as [|e l2 IH] using rev_ind; intros F B t h o E.
  - rewrite app_nil_r in E. destruct base_run as (t' & h' & o' & E' & Hm & Hs & _). rewrite E in E'. injection E' as -> -> ->.
    unfold track. rewrite Hs. auto.
  - apply Forall_app in F as (F & Fe). inversion Fe as [|? ? Fe1 _]; subst.
    assert (B' : busy_during j1 j2 base l2).
    { intros p q -> Hq. apply (B p (q ++ [e])); [rewrite app_assoc; reflexivity|]. destruct q; discriminate. }
    destruct (B l2 [e] eq_refl ltac:(discriminate)) as ((t1 & h1) & o1 & E1 & Hni). cbn in Hni.
    assert (Ni : t_st t1 <> T_IDLE) by (unfold tx_is_idle in Hni; destruct (t_st t1); congruence).
    rewrite app_assoc in E. pose proof E as Efull. apply run_snoc in E as (s1 & o1' & x & E1' & E2 & ->). rewrite E1 in E1'. injection E1' as <- <-.
    assert (I : tx_inv t1 h1) by (eapply run_inv_eq; [exact L| |exact E1]; apply Forall_app; auto).
    destruct (IH F B' _ _ _ E1) as (Hm & _ & T). clear IH.
    destruct e as (now & ev). pose proof (event_cases _ _ _ _ _ _ _ I E2) as C.
    assert (Lo : (length base <= length o1)%nat) by (apply mrun_length in E1; rewrite E1, app_length; lia).
    assert (Rs : forall tt' y, t_err tt' = t_err t1 -> reported t1 o1 -> reported tt' (o1 ++ [y])).
    { intros tt' y Ee [R|R]; [left; congruence|right]. rewrite skipn_app. apply in_or_app; auto. }
    assert (NE : forall s, l2 ++ [(now, ev)] = [] -> t_st t = s) by (intros s H; destruct l2; discriminate).
    inversion C as [w Hi|w Hi|busy re rv c t2 h2 U|x0| |]; subst; try congruence.
    + split; [exact Hm|]. split; [apply NE|]. destruct (t_st t); auto; try (destruct T as [T|T]; [left; apply Rs; auto|right; apply fully_snoc; auto]);
        (eapply echoed_snoc; [exact T|reflexivity|repeat constructor|exact Logic.I|discriminate || auto]).
    + assert (Hoff : data_phase (t_st t1) -> 0 <= t_off t1 < Z.of_nat (m_length (t_tx t1))).
      { intros [H|H]; [rewrite (iv_zero _ _ I) by auto; destruct (iv_tx _ _ I Ni); lia|apply (iv_chk _ _ I H)]. }
      inversion U as [Ha|H1 H2 H3 H4|Hs' Hw Hb Ht Ho|Hs' Hw Hb|Hs' Hw Hb He Hv|rx Hd Hw He Hv Hn Hr|b rx Hd Hw He Hv Hn Hne Hr|Hd Hw He|Hs' Hw Hb]; subst.
      * split; [exact Hm|]. split; [apply NE|]. cbn. left. left. reflexivity.
      * split; [exact Hm|]. split; [apply NE|]. unfold data_phase in H3.
        destruct (t_st t) eqn:Es; auto; [congruence|..].
        -- destruct (H3 (or_introl eq_refl)) as (-> & -> & Hbf & _). eapply echoed_snoc; [exact T|reflexivity|repeat constructor|cbn; split; [auto|congruence]|auto].
        -- destruct (H3 (or_intror eq_refl)) as (-> & -> & _ & Hbt). eapply echoed_snoc; [exact T|reflexivity|repeat constructor|cbn; split; [congruence|auto]|auto].
        -- destruct T as [T|T]; [left; apply Rs; auto|right; apply fully_snoc; auto].
      * split; [exact Hm|]. split; [apply NE|]. cbn. exact Logic.I.
      * split; [exact Hm|]. split; [apply NE|]. cbn [t_st enter t_off].
        exists (l2 ++ [(now, Update false re rv c)]), []. split; [rewrite app_nil_r; reflexivity|]. split.
        { destruct (iv_pow _ _ I Hs') as (_ & Q2). rewrite app_assoc. eexists _, _. split; [exact Efull|]. cbn. rewrite Hm. auto. }
        rewrite (iv_zero _ _ I) by auto. split; [reflexivity|]. split; [constructor|]. split; [apply held_nil|reflexivity].
      * split; [exact Hm|]. split; [apply NE|]. cbn [t_st enter t_off]. rewrite Hs' in T. eapply echoed_snoc; [exact T|reflexivity|repeat constructor|cbn; split; [discriminate|congruence]|discriminate].
      * pose proof (Hoff Hd) as Ho. assert (T' : echoed_so_far l2 (t_st t1) (Z.to_nat (t_off t1))) by (destruct Hd as [Hd|Hd]; rewrite Hd in T |- *; exact T). clear T.
        assert (Hlb : t_st t1 = T_CHECK_DATA -> busy = true) by (intros X; destruct busy; [reflexivity|exfalso; destruct (free_aborts _ _ _ _ _ _ _ _ _ X E2) as (Y & _); cbn [t_st enter] in Y; unfold after_byte in Y; destruct (_ =? _); discriminate]).
        assert (Ec : echoed_so_far (l2 ++ [(now, Update busy false true c)]) T_CHECK_DATA (S (Z.to_nat (t_off t1)))).
        { destruct T' as (ha & hb & -> & H & E & N & Hl & Hsg). exists ha, (hb ++ [(now, Update busy false true c)]). split; [rewrite app_assoc; reflexivity|]. split; [exact H|].
          split; [|split; [apply Forall_app; split; [exact N|repeat constructor]|split; [apply held_snoc; [exact Hl|cbn; intros Hx; apply Hlb; destruct Hd as [Hd|Hd]; [rewrite (Hsg Hd) in Hx; discriminate|exact Hd]]|discriminate]]].
          rewrite echoes_app, E. cbn [echoes flat_map snd app].
          rewrite <- Hm. assert (X := firstn_next (tx_bytes (t_tx t1)) (Z.to_nat (t_off t1)) c). rewrite X; [reflexivity|].
          unfold tx_bytes. rewrite nth_firstn by lia. exact Hn. }
        split; [exact Hm|]. split; [apply NE|]. cbn [t_st enter t_off].
        replace (Z.to_nat (t_off t1 + 1)) with (S (Z.to_nat (t_off t1))) by lia.
        unfold after_byte. destruct (Z.eqb_spec (t_off t1 + 1) (Z.of_nat (m_length (t_tx t1)))) as [Eq|_]; [right|exact Ec].
        destruct Ec as (ha & hb & E0 & H & E & N & Hl & _). exists ha, hb, []. rewrite app_nil_r. split; [exact E0|]. split; [exact H|]. split; [|split; [exact N|exact Hl]].
        rewrite E, <- Hm. unfold tx_bytes. apply firstn_all2. rewrite firstn_length. lia.
      * split; [exact Hm|]. split; [apply NE|]. cbn. left. left. reflexivity.
      * split; [exact Hm|]. split; [apply NE|]. cbn. left. left. reflexivity.
      * split; [exact Hm|]. split; [apply NE|]. cbn [t_st enter]. rewrite Hs' in T. destruct T as [T|T]; [left; apply Rs; auto|right; apply fully_snoc; auto].
    + split; [exact Hm|]. split; [apply NE|]. destruct (t_st t); auto; try (destruct T as [T|T]; [left; apply Rs; auto|right; apply fully_snoc; auto]);
        (eapply echoed_snoc; [exact T|reflexivity|repeat constructor|exact Logic.I|discriminate || auto]).
    + split; [exact Hm|]. split; [intros H; destruct l2; discriminate|]. cbn [t_st tx_error fst].
      assert (Rr : reported t1 o1 -> reported (fst (tx_error t1)) (o1 ++ [Some (t_err t1)])).
      { intros [R|R]; right; rewrite skipn_app; apply in_or_app; [right|left; auto]. rewrite R. replace (length base - length o1)%nat with 0%nat by lia. left; reflexivity. }
      destruct (t_st t1); auto; try (destruct T as [T|T]; [left; apply Rr; auto|right; apply fully_snoc; auto]);
        (eapply echoed_snoc; [exact T|reflexivity|repeat constructor|exact Logic.I|discriminate || auto]).
    + split; [exact Hm|]. split; [intros H; destruct l2; discriminate|]. cbn [t_st tx_clear_rx].
      destruct (t_st t1); auto; try (destruct T as [T|T]; [left; apply Rs; auto|right; apply fully_snoc; auto]);
        (eapply echoed_snoc; [exact T|reflexivity|repeat constructor|exact Logic.I|discriminate || auto]).
Qed.

Ltac unarm := repeat match goal with |- context [if ?x =? 0 then _ else _] => change (x =? 0) with false end; cbv iota.
(** ** C48: the deadline *)
Section deadline.
Variable g : Z.
Hypothesis Hg : 0 <= g.
Fixpoint last_update (last : Z) (l : list (Z * tx_ev)) : Z :=
  match l with [] => last | (u, Update _ _ _ _) :: r => last_update u r | _ :: r => last_update last r end.
Lemma last_update_app a b : forall last, last_update last (a ++ b) = last_update (last_update last a) b.
Proof. induction a as [|(u & [w|? ? ? ?|e| |]) a IH]; intros last; cbn; auto. Qed.
Lemma updates_every_app a b : forall last, updates_every g last (a ++ b) <-> updates_every g last a /\ updates_every g (last_update last a) b.
Proof. induction a as [|(u & [w|? ? ? ?|e| |]) a IH]; intros last; cbn; try apply IH; try tauto. rewrite IH. tauto. Qed.

Definition deadline (last : Z) (t : txsm) : Prop :=
  match t_st t with
  | T_IDLE => True
  | T_WAIT_LINEFREE => t_wait t = tw + 34000
  | T_WAIT_POWERON => t_wait t < tw + 66000 /\ last < t_wait t
  | T_STARTED => t_wait t < tw + 68000 + g
  | T_CHECK_DATA => t_wait t < tw + 68000 + g + 4000 * (t_off t + 1)
  | T_WAIT_IDLE => t_wait t < tw + 68000 + g + 4000 * (Z.of_nat (m_length m) + 1)
  end.

Lemma deadline_run l2 : Forall (ev_ok 1) l2 -> busy_during j1 j2 base l2 -> updates_every g tw l2 -> forall t h o, tx_run j1 j2 (base ++ l2) = Ok ((t, h), o) ->
  deadline (last_update tw l2) t.
Proof.
  induction l2 as [|e l2 IH] using rev_ind; intros F B G t h o E.
  - rewrite app_nil_r in E. destruct base_run as (t' & h' & o' & E' & Hm & Hs & Hw & _). rewrite E in E'. injection E' as -> -> ->.
    unfold deadline. rewrite Hs. exact Hw.
  - apply Forall_app in F as (F & Fe). inversion Fe as [|? ? Fe1 _]; subst.
    assert (B' : busy_during j1 j2 base l2).
    { intros p q -> Hq. apply (B p (q ++ [e])); [rewrite app_assoc; reflexivity|]. destruct q; discriminate. }
    destruct (B l2 [e] eq_refl ltac:(discriminate)) as ((t1 & h1) & o1 & E1 & Hni). cbn in Hni.
    assert (Ni : t_st t1 <> T_IDLE) by (unfold tx_is_idle in Hni; destruct (t_st t1); congruence).
    rewrite app_assoc in E. apply run_snoc in E as (s1 & o1' & x & E1' & E2 & ->). rewrite E1 in E1'. injection E1' as <- <-.
    assert (I : tx_inv t1 h1) by (eapply run_inv_eq; [exact L| |exact E1]; apply Forall_app; auto).
    apply updates_every_app in G as (G & Ge). pose proof (IH F B' G _ _ _ E1) as D. clear IH.
    destruct (track_run l2 F B' _ _ _ E1) as (Hm & _ & _).
    destruct e as (now & ev). pose proof (event_cases _ _ _ _ _ _ _ I E2) as C. rewrite last_update_app.
    unfold deadline in *.
    inversion C as [w Hi|w Hi|busy re rv c t2 h2 U|x0| |]; subst; try congruence; cbn [last_update]; auto.
    cbn [updates_every] in Ge. destruct Ge as (Ge & _).
    assert (Hoff : data_phase (t_st t1) -> 0 <= t_off t1 < Z.of_nat (m_length (t_tx t1))).
    { intros [H|H]; [rewrite (iv_zero _ _ I) by auto; destruct (iv_tx _ _ I Ni); lia|apply (iv_chk _ _ I H)]. }
    inversion U as [Ha|H1 H2 H3 H4|Hs' Hw Hb Ht Ho|Hs' Hw Hb|Hs' Hw Hb He Hv|rx Hd Hw He Hv Hn Hr|b rx Hd Hw He Hv Hn Hne Hr|Hd Hw He|Hs' Hw Hb]; subst; cbn [enter t_st set_err t_wait t_off timeout_for];
      unfold TX_ONE_CHAR_TIMEOUT_US, TX_POWERON_TIMEOUT_US in *.
    + exact Logic.I.
    + destruct (t_st t) eqn:Es; auto. split; [apply D|apply H2; auto].
    + rewrite Hs' in D. unarm. lia.
    + rewrite Hs' in D. unarm. lia.
    + rewrite Hs' in D. unarm. rewrite (iv_zero _ _ I) by auto. lia.
    + pose proof (Hoff Hd) as Ho. unfold after_byte.
      assert (t_wait t1 < tw + 68000 + g + 4000 * (t_off t1 + 1)) by (destruct Hd as [Hd|Hd]; rewrite Hd in D; lia).
      destruct (Z.eqb_spec (t_off t1 + 1) (Z.of_nat (m_length (t_tx t1)))); cbn [timeout_for]; unfold TX_ONE_CHAR_TIMEOUT_US; unarm; lia.
    + pose proof (Hoff Hd) as Ho. assert (t_wait t1 < tw + 68000 + g + 4000 * (t_off t1 + 1)) by (destruct Hd as [Hd|Hd]; rewrite Hd in D; lia). unarm. lia.
    + pose proof (Hoff Hd) as Ho. assert (t_wait t1 < tw + 68000 + g + 4000 * (t_off t1 + 1)) by (destruct Hd as [Hd|Hd]; rewrite Hd in D; lia). unarm. lia.
    + exact Logic.I.
Qed.

Lemma idle_or_busy l2 : Forall (ev_ok 1) l2 -> (exists p q, l2 = p ++ q /\ exists s o, tx_run j1 j2 (base ++ p) = Ok (s, o) /\ tx_is_idle (fst s) = true) \/ (forall p q, l2 = p ++ q -> not_idle_after j1 j2 (base ++ p)).
Proof.
  induction l2 as [|e l2 IH] using rev_ind; intros F.
  - right. intros p q H. symmetry in H. apply app_eq_nil in H as (-> & ->). rewrite app_nil_r. destruct base_run as (t & h & o & E & _ & Hs & _).
    eexists _, _. split; [exact E|]. unfold tx_is_idle. cbn. rewrite Hs. reflexivity.
  - pose proof F as F'. apply Forall_app in F as (F & Fe). destruct (IH F) as [(p & q & -> & X)|N].
    + left. exists p, (q ++ [e]). split; [rewrite app_assoc; reflexivity|exact X].
    + destruct (run_inv j1 j2 (base ++ l2 ++ [e]) L ltac:(apply Forall_app; auto)) as (t & h & o & E & _).
      destruct (tx_is_idle t) eqn:Ei.
      * left. exists (l2 ++ [e]), []. split; [rewrite app_nil_r; reflexivity|]. eexists _, _. split; [exact E|exact Ei].
      * right. intros p q H. destruct q as [|x q] using rev_ind.
        -- rewrite app_nil_r in H. subst p. eexists _, _. split; [exact E|exact Ei].
        -- rewrite app_assoc in H. apply app_inj_tail in H as (H & _). eapply N; eauto.
Qed.

Lemma terminates l2 u busy re rv c : Forall (ev_ok 1) (l2 ++ [(u, Update busy re rv c)]) ->
  updates_every g tw (l2 ++ [(u, Update busy re rv c)]) ->
  tw + 72000 + 4000 * Z.of_nat (m_length m) + g <= u ->
  exists p q, l2 ++ [(u, Update busy re rv c)] = p ++ q /\ p <> [] /\
    exists s o, tx_run j1 j2 (base ++ p) = Ok (s, o) /\ tx_is_idle (fst s) = true.
Proof.
  intros F G Hu. destruct (idle_or_busy _ F) as [(p & q & E & s & o & R & Hi)|N].
  { exists p, q. split; [exact E|]. split; [|eauto]. intros ->. rewrite app_nil_r in R. destruct base_run as (t & h & o' & R' & _ & Hs & _).
    rewrite R in R'. injection R' as -> ->. unfold tx_is_idle in Hi. cbn in Hi. rewrite Hs in Hi. discriminate. }
  exfalso. apply Forall_app in F as (F & Fe). inversion Fe as [|? ? Fe1 _]; subst. apply updates_every_app in G as (G & Gu). cbn [updates_every] in Gu.
  assert (B : busy_during j1 j2 base l2).
  { intros p q -> _. apply (N p (q ++ [(u, Update busy re rv c)])). rewrite app_assoc. reflexivity. }
  destruct (N l2 _ eq_refl) as ((t & h) & o & E & Hni). cbn in Hni. assert (Ni : t_st t <> T_IDLE) by (unfold tx_is_idle in Hni; destruct (t_st t); congruence).
  destruct (N (l2 ++ [(u, Update busy re rv c)]) [] ltac:(rewrite app_nil_r; reflexivity)) as ((t' & h') & o' & E' & Hni'). cbn in Hni'.
  assert (Ni' : t_st t' <> T_IDLE) by (unfold tx_is_idle in Hni'; destruct (t_st t'); congruence).
  assert (I : tx_inv t h) by (eapply run_inv_eq; [exact L| |exact E]; apply Forall_app; auto).
  pose proof (deadline_run l2 F B G _ _ _ E) as D. destruct (track_run l2 F B _ _ _ E) as (Hm & _ & _).
  rewrite app_assoc in E'. apply run_snoc in E' as (s1 & o1 & x & E1 & E2 & ->). rewrite E in E1. injection E1 as <- <-.
  pose proof (event_cases _ _ _ _ _ _ _ I E2) as C. inversion C as [| |busy' re' rv' c' t2 h2 U| | |]; subst.
  unfold deadline in D. pose proof (iv_chk _ _ I) as Hc.
  inversion U as [Ha|H1 H2 H3 H4|Hs' Hw Hb Ht Ho|Hs' Hw Hb|Hs' Hw Hb He Hv|rx Hd Hw He Hv Hn Hr|b rx Hd Hw He Hv Hn Hne Hr|Hd Hw He|Hs' Hw Hb]; subst; cbn in Ni'; try congruence.
  - destruct (t_st t') eqn:Es; try congruence; cbn in H1; try specialize (Hc eq_refl); try (assert (t_wait t' <= u) by lia; specialize (H1 ltac:(lia)); discriminate).
    specialize (H2 eq_refl). lia.
  - rewrite Hs' in D. lia.
  - rewrite Hs' in D. lia.
  - rewrite Hs' in D. lia.
  - destruct Hd as [Hd|Hd]; rewrite Hd in D; try specialize (Hc Hd); lia.
  - destruct Hd as [Hd|Hd]; rewrite Hd in D; try specialize (Hc Hd); lia.
  - destruct Hd as [Hd|Hd]; rewrite Hd in D; try specialize (Hc Hd); lia.
Qed.
End deadline.
End follow.

(** ** Single-event facts *)
Lemma snoc_case j1 j2 l now ev t h o t' h' o' : length j2 = 32%nat -> Forall (ev_ok 1) (l ++ [(now, ev)]) ->
  tx_run j1 j2 l = Ok ((t, h), o) -> tx_run j1 j2 (l ++ [(now, ev)]) = Ok ((t', h'), o') ->
  tx_inv t h /\ exists x, evcase t h now ev t' h' x.
Proof.
  intros L F E1 E2. apply Forall_app in F as (F & _). pose proof (run_inv_eq _ _ _ _ _ _ L F E1) as I. split; auto.
  apply run_snoc in E2 as (s1 & o1 & x & E1' & E2 & ->). rewrite E1 in E1'. injection E1' as <- <-. exists x. eapply event_cases; eauto.
Qed.

Lemma no_state_held j1 j2 l now busy re rv c t h o t' h' o' :
  length j2 = 32%nat -> Forall (ev_ok 1) (l ++ [(now, Update busy re rv c)]) ->
  tx_run j1 j2 l = Ok ((t, h), o) -> tx_run j1 j2 (l ++ [(now, Update busy re rv c)]) = Ok ((t', h'), o') ->
  tx_is_idle t' = true \/
  (now < t_wait t' /\ ((t_st t' = t_st t /\ t_wait t' = t_wait t) \/ t_wait t' = now + timeout_for (t_st t')) /\ timeout_for (t_st t') <= 34000).
Proof.
  intros L F E1 E2. destruct (snoc_case _ _ _ _ _ _ _ _ _ _ _ L F E1 E2) as (I & x & C).
  inversion C as [| |busy' re' rv' c' t2 h2 U| | |]; subst.
  assert (A : forall t s, s <> T_IDLE -> t_wait (enter now t s) = now + timeout_for s /\ 0 < timeout_for s <= 34000).
  { intros a s H. destruct s; try congruence; (split; [reflexivity|]); unfold timeout_for, TX_ONE_CHAR_TIMEOUT_US, TX_POWERON_TIMEOUT_US; lia. }
  inversion U as [Ha|H1 H2 H3 H4|Hs' Hw Hb Ht Ho|Hs' Hw Hb|Hs' Hw Hb He Hv|rx Hd Hw He Hv Hn Hr|b rx Hd Hw He Hv Hn Hne Hr|Hd Hw He|Hs' Hw Hb]; subst;
    try (left; reflexivity).
  - destruct (t_st t') eqn:Es; [left; unfold tx_is_idle; rewrite Es; reflexivity|right..];
      (split; [try (destruct (Z.lt_ge_cases now (t_wait t')); auto; specialize (H1 ltac:(lia)); discriminate); apply H2; auto|]);
      (split; [auto|]); unfold timeout_for, TX_ONE_CHAR_TIMEOUT_US, TX_POWERON_TIMEOUT_US; lia.
  - right. destruct (A t T_WAIT_POWERON ltac:(discriminate)) as (W & B). rewrite W. cbn [t_st enter]. lia.
  - right. destruct (A t T_STARTED ltac:(discriminate)) as (W & B). rewrite W. cbn [t_st enter]. lia.
  - right. destruct (A t T_CHECK_DATA ltac:(discriminate)) as (W & B). rewrite W. cbn [t_st enter]. lia.
  - right. set (a := TX _ _ _ _ _ _). destruct (A a (after_byte t)) as (W & B); [unfold after_byte; destruct (_ =? _); discriminate|]. rewrite W. cbn [t_st enter]. lia.
  - right. set (a := TX _ _ _ _ _ _). destruct (A a T_WAIT_IDLE ltac:(discriminate)) as (W & B).
    change (t_wait (set_err (enter now a T_WAIT_IDLE))) with (t_wait (enter now a T_WAIT_IDLE)). rewrite W. cbn [t_st enter set_err]. lia.
  - right. set (a := set_rx_status _ _). destruct (A a T_WAIT_IDLE ltac:(discriminate)) as (W & B).
    change (t_wait (set_err (enter now a T_WAIT_IDLE))) with (t_wait (enter now a T_WAIT_IDLE)). rewrite W. cbn [t_st enter set_err]. lia.
Qed.

Lemma collision j1 j2 l now busy c t h o t' h' o' b :
  length j2 = 32%nat -> Forall (ev_ok 1) (l ++ [(now, Update busy false true c)]) ->
  tx_run j1 j2 l = Ok ((t, h), o) -> tx_run j1 j2 (l ++ [(now, Update busy false true c)]) = Ok ((t', h'), o') ->
  t_st t = T_STARTED \/ (t_st t = T_CHECK_DATA /\ busy = true) -> now < t_wait t ->
  nth_error (tx_bytes (t_tx t)) (Z.to_nat (t_off t)) = Some b -> b <> c ->
  m_status (t_rx t') = 21 /\ t_err t' = true /\ t_st t' = T_WAIT_IDLE /\ hw_dma h' = [] /\ hw_txf h' = [].
Proof.
  intros L F E1 E2 Hs Hlt Hb Hbc. destruct (snoc_case _ _ _ _ _ _ _ _ _ _ _ L F E1 E2) as (I & x & C).
  assert (Hb' : nth_error (m_data (t_tx t)) (Z.to_nat (t_off t)) = Some b).
  { unfold tx_bytes in Hb. rewrite nth_firstn in Hb; auto. assert (nth_error (firstn (m_length (t_tx t)) (m_data (t_tx t))) (Z.to_nat (t_off t)) <> None) by congruence.
    apply nth_error_Some in H. rewrite firstn_length in H. lia. }
  inversion C as [| |busy' re' rv' c' t2 h2 U| | |]; subst.
  assert (Hq : m_status (t_rx t) = 0) by (apply (iv_quiet _ _ I); destruct Hs as [-> | (-> & _)]; discriminate).
  inversion U as [Ha|H1 H2 H3 H4|Hs' Hw Hbf Ht Ho|Hs' Hw Hbf|Hs' Hw Hbf He Hv|rx Hd Hw He Hv Hn Hr|b' rx Hd Hw He Hv Hn Hne Hr|Hd Hw He|Hs' Hw Hbf]; subst; try discriminate.
  - exfalso. destruct Ha as [(Ha & _)|Ha]; [lia|]. unfold line_is_error in Ha. destruct Hs as [Hs|(Hs & ->)]; rewrite Hs in Ha; [destruct busy|]; discriminate.
  - exfalso. unfold data_phase in H3. destruct H3 as (_ & H3 & _); [destruct Hs as [Hs|(Hs & _)]; auto|discriminate].
  - destruct Hs as [Hs|(Hs & _)]; congruence.
  - destruct Hs as [Hs|(Hs & _)]; congruence.
  - congruence.
  - cbn. destruct (append_len _ _ _ (iv_rx _ _ I) Hr) as (_ & S). rewrite S, Hq. cbn. auto 8.
  - destruct Hs as [Hs|(Hs & _)]; congruence.
Qed.
Lemma collision_status j1 j2 l now busy c t h o t' h' o' b :
  length j2 = 32%nat -> Forall (ev_ok 1) (l ++ [(now, Update busy false true c)]) ->
  tx_run j1 j2 l = Ok ((t, h), o) -> tx_run j1 j2 (l ++ [(now, Update busy false true c)]) = Ok ((t', h'), o') ->
  t_st t = T_STARTED \/ (t_st t = T_CHECK_DATA /\ busy = true) -> now < t_wait t ->
  nth_error (tx_bytes (t_tx t)) (Z.to_nat (t_off t)) = Some b -> b <> c ->
  m_status (t_rx t') = 21 /\ m_status (t_rx t') <> STATUS_ERR_BUS_COLLISION.
Proof. intros. destruct (collision j1 j2 l now busy c t h o t' h' o' b) as (S & _); auto. rewrite S. split; [reflexivity|discriminate]. Qed.
Lemma collision_detected j1 j2 l now busy c t h o t' h' o' b :
  length j2 = 32%nat -> Forall (ev_ok 1) (l ++ [(now, Update busy false true c)]) ->
  tx_run j1 j2 l = Ok ((t, h), o) -> tx_run j1 j2 (l ++ [(now, Update busy false true c)]) = Ok ((t', h'), o') ->
  t_st t = T_STARTED \/ (t_st t = T_CHECK_DATA /\ busy = true) -> now < t_wait t ->
  nth_error (tx_bytes (t_tx t)) (Z.to_nat (t_off t)) = Some b -> b <> c ->
  t_err t' = true /\ t_st t' = T_WAIT_IDLE /\ hw_dma h' = [] /\ hw_txf h' = [].
Proof. intros. destruct (collision j1 j2 l now busy c t h o t' h' o' b) as (_ & S); auto. Qed.

Lemma queue_clean j1 j2 l e t h o t' h' o' :
  length j2 = 32%nat -> Forall (ev_ok 1) (l ++ [e]) ->
  tx_run j1 j2 l = Ok ((t, h), o) -> tx_run j1 j2 (l ++ [e]) = Ok ((t', h'), o') ->
  (t_st t = T_WAIT_IDLE -> tx_is_idle t' = true -> hw_dma h' = [] /\ hw_txf h' = []) /\
  (t_st t = T_WAIT_POWERON -> hw_dma h = [] /\ hw_txf h = []) /\
  (t_st t = T_WAIT_LINEFREE -> t_st t' = T_WAIT_POWERON -> hw_sm h' <> SmShifting) /\
  ((length (hw_dma h) < length (hw_dma h'))%nat -> t_st t = T_WAIT_POWERON /\ hw_txf h' = []).
Proof.
  intros L F E1 E2. destruct e as (now & ev). destruct (snoc_case _ _ _ _ _ _ _ _ _ _ _ L F E1 E2) as (I & x & C).
  split; [|split; [|split]].
  - intros Hs Hi. destruct (iv_end _ _ I Hs) as (D & X). unfold tx_is_idle in Hi.
    inversion C as [w Hw|w Hw|busy re rv c t2 h2 U|x0| |]; subst; try congruence; cbn in Hi; try (rewrite Hs in Hi; discriminate).
    inversion U; subst; cbn in Hi; try (rewrite Hs in Hi; discriminate); try discriminate; try congruence; cbn; auto;
      try (match goal with H : data_phase _ |- _ => destruct H; congruence end).
  - apply (iv_pow _ _ I).
  - intros Hs Hp. inversion C as [w Hw|w Hw|busy re rv c t2 h2 U|x0| |]; subst; cbn in Hp; try congruence.
    inversion U as [Ha|H1 H2 H3 H4|Hs' Hw Hb Ht Ho|Hs' Hw Hb|Hs' Hw Hb He Hv|rx Hd Hw He Hv Hn Hr|b rx Hd Hw He Hv Hn Hne Hr|Hd Hw He|Hs' Hw Hb]; subst; cbn in Hp; try congruence; try discriminate; try (destruct Hd; congruence).
    destruct (not_transmitting h Ht) as (_ & _ & Q). cbn. unfold hw_irq in Q. destruct (hw_sm h); congruence.
  - intros Hl. inversion C as [w Hw|w Hw|busy re rv c t2 h2 U|x0| |]; subst; try lia.
    + inversion U as [Ha|H1 H2 H3 H4|Hs' Hw Hb Ht Ho|Hs' Hw Hb|Hs' Hw Hb He Hv|rx Hd Hw He Hv Hn Hr|b rx Hd Hw He Hv Hn Hne Hr|Hd Hw He|Hs' Hw Hb]; subst; cbn in Hl; try lia.
      * destruct (iv_pow _ _ I Hs') as (D & X). cbn. auto.
      * unfold after_byte in Hl. destruct (_ =? _); cbn in Hl; lia.
    + exfalso. destruct h as [er d f q sd]. destruct x0; cbn in Hl; [destruct d; [|destruct (length f <? 8)%nat]|destruct f; [|destruct q]|destruct q|destruct q]; cbn in Hl; lia.
Qed.
