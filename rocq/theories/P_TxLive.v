(** P_TxLive.v -- an undisturbed transmission succeeds (C96). *)
From Verif Require Import Base M_Message M_Tx D_Tx S_Tx P_Ctrl P_Tx P_TxRun P_TxHist.

(** A run of the machine in which no Error() call returns true and every state before an event satisfies P. *)
Inductive safe_run (P : tx_sys -> Prop) : tx_sys -> list (Z * tx_ev) -> tx_sys -> Prop :=
| sr_nil s : safe_run P s [] s
| sr_cons s e l s1 x s2 : P s -> tx_event pico s e = Ok (s1, x) -> x <> Some true -> safe_run P s1 l s2 -> safe_run P s (e :: l) s2.
Definition live (s : tx_sys) : Prop := tx_is_idle (fst s) = false /\ t_err (fst s) = false.
Lemma sr_app P s1 l1 s2 l2 s3 : safe_run P s1 l1 s2 -> safe_run P s2 l2 s3 -> safe_run P s1 (l1 ++ l2) s3.
Proof. induction 1; auto. intros H3. cbn [app]. econstructor; eauto. Qed.
Lemma sr_split P s l1 l2 s' : safe_run P s (l1 ++ l2) s' -> exists s1, safe_run P s l1 s1 /\ safe_run P s1 l2 s'.
Proof.
  revert s; induction l1 as [|e l1 IH]; intros s H; cbn [app] in H.
  - exists s. split; [constructor|auto].
  - inversion H as [|? ? ? ? ? ? H1 H2 H3 H4]; subst. destruct (IH _ H4) as (s2 & A & B). exists s2. split; auto. econstructor; eauto.
Qed.
Lemma sr_run P s l s' : safe_run P s l s' -> exists o, mrun (tx_event pico) s l = Ok (s', o) /\ ~ In (Some true) o.
Proof.
  induction 1 as [|s e l s1 x s2 Hp E Hx H (o & Eo & Ho)]; [exists []; split; [reflexivity|intros []]|].
  exists (x :: o). cbn [mrun]. rewrite E. cbn [bind]. rewrite Eo. split; [reflexivity|]. intros [A|A]; auto.
Qed.
Lemma sr_head P s e l s' : safe_run P s (e :: l) s' -> P s.
Proof. inversion 1; auto. Qed.
Lemma quiet_live t h : tx_inv t h -> t_st t <> T_IDLE -> t_st t <> T_WAIT_IDLE -> live (t, h).
Proof. intros I A B. split; [unfold tx_is_idle; cbn; destruct (t_st t); congruence|]. apply (iv_quiet _ _ I A B). Qed.

(** Hardware steps of an empty transmitter change nothing. *)
Lemma hw_quiet h e : at_rest h -> hw_step h e = h.
Proof. intros (A & B & C). destruct h as [er dma txf sm sd]; cbn in *. subst. destruct e; reflexivity. Qed.
Lemma rest_quiet h : at_rest h -> hw_transmitting h = false.
Proof. intros (A & B & C). unfold hw_transmitting, hw_data_waiting, hw_irq. rewrite A, B, C. reflexivity. Qed.

(** *** Waiting for the line *)
Lemma wait_line now t h b re rv c : tx_inv t h -> t_st t = T_WAIT_LINEFREE -> now < t_wait t -> hw_transmitting h = false ->
  tx_update pico now t h b re rv c = if b then Ok (t, h) else Ok (enter now t T_WAIT_POWERON, hw_enable_shutdown h false).
Proof.
  intros I Hs Hw Ht. pose proof (iv_zero _ _ I (or_introl Hs)) as Ho. pose proof (iv_err _ _ I) as He. unfold tx_update, st_is_error, timed_out, line_is_error, tx_is_idle.
  rewrite Hs, Ho. destruct (Z.leb_spec (t_wait t) now); [lia|]. cbn [andb orb busy_is_error free_is_error]. replace (if b then false else false) with false by (destruct b; reflexivity).
  unfold hw_read_error. rewrite He. replace (HW false (hw_dma h) (hw_txf h) (hw_sm h) (hw_shutdown h)) with h by (destruct h; cbn in He; subst; reflexivity).
  destruct b; cbn [negb andb bind]; [reflexivity|]. rewrite Ht. reflexivity.
Qed.

Lemma ev_noop_wake now t h m : tx_is_idle t = false -> tx_event pico (t, h) (now, Wake m) = Ok ((t, h), None).
Proof. intros H. cbn [tx_event]. unfold tx_wake. rewrite H. reflexivity. Qed.
Lemma ev_noop_error now t h : t_err t = false -> tx_event pico (t, h) (now, ReadError) = Ok ((t, h), Some false).
Proof. intros H. cbn [tx_event tx_error]. rewrite H. destruct t; cbn in H; subst; reflexivity. Qed.
Ltac sr_step E := eapply sr_cons; [auto|exact E|discriminate|].
Lemma waiting_phase d : forall l t h, tx_inv t h -> t_st t = T_WAIT_LINEFREE -> t_wait t = d -> at_rest h ->
  polls (fun u busy _ _ => busy = true /\ u < d) l -> safe_run live (t, h) l (t, h).
Proof.
  induction l as [|(now & ev) l IH]; intros t h I Hs Hd Hq P; [constructor|]. inversion P as [|? ? P1 P2]; subst.
  pose proof (IH t h I Hs eq_refl Hq P2) as R. pose proof (quiet_live t h I ltac:(congruence) ltac:(congruence)) as L.
  destruct ev as [m|b re rv c|e| |time]; cbn [snd fst] in P1.
  - sr_step (ev_noop_wake now t h m (proj1 L)). exact R.
  - destruct P1 as (-> & Hn). eapply sr_cons; [auto|cbn [tx_event]; rewrite (wait_line now t h true re rv c I Hs Hn (rest_quiet h Hq)); reflexivity|discriminate|exact R].
  - eapply sr_cons; [auto|reflexivity|discriminate|]. rewrite (hw_quiet h e Hq). exact R.
  - sr_step (ev_noop_error now t h (proj2 L)). exact R.
  - contradiction.
Qed.

(** *** Powering up *)
Lemma power_phase d : forall l t h, tx_inv t h -> t_st t = T_WAIT_POWERON -> t_wait t = d -> at_rest h ->
  polls (fun u busy _ _ => busy = false /\ u < d) l -> safe_run live (t, h) l (t, h).
Proof.
  induction l as [|(now & ev) l IH]; intros t h I Hs Hd Hq P; [constructor|]. inversion P as [|? ? P1 P2]; subst.
  pose proof (IH t h I Hs eq_refl Hq P2) as R. pose proof (quiet_live t h I ltac:(congruence) ltac:(congruence)) as L.
  destruct ev as [m|b re rv c|e| |time]; cbn [snd fst] in P1.
  - sr_step (ev_noop_wake now t h m (proj1 L)). exact R.
  - destruct P1 as (-> & Hn). destruct (update_cases now false re rv c t h (inv_safe _ _ I)) as (t' & h' & Eu & U).
    assert (X : t' = t /\ h' = h).
    { inversion U; subst; auto; try (unfold data_phase in *; exfalso; intuition (try congruence; try lia)).
      all: unfold line_is_error in *; rewrite Hs in *; cbn in *; intuition (try congruence; try lia). }
    destruct X as (-> & ->). eapply sr_cons; [auto|cbn [tx_event]; rewrite Eu; reflexivity|discriminate|exact R].
  - eapply sr_cons; [auto|reflexivity|discriminate|]. rewrite (hw_quiet h e Hq). exact R.
  - sr_step (ev_noop_error now t h (proj2 L)). exact R.
  - contradiction.
Qed.

(** *** Data handed over, nothing heard yet *)
Lemma start_phase d : forall l t h, tx_inv t h -> t_st t = T_STARTED -> t_wait t = d ->
  polls (fun u busy re rv => busy = false /\ re = false /\ rv = false /\ u < d) l -> exists h', safe_run live (t, h) l (t, h') /\ tx_inv t h'.
Proof.
  induction l as [|(now & ev) l IH]; intros t h I Hs Hd P; [exists h; split; [constructor|auto]|]. inversion P as [|? ? P1 P2]; subst.
  pose proof (quiet_live t h I ltac:(congruence) ltac:(congruence)) as L.
  destruct ev as [m|b re rv c|e| |time]; cbn [snd fst] in P1.
  - destruct (IH t h I Hs eq_refl P2) as (h' & R & I'). exists h'. split; auto. sr_step (ev_noop_wake now t h m (proj1 L)). exact R.
  - destruct P1 as (-> & -> & -> & Hn). destruct (IH t h I Hs eq_refl P2) as (h1 & R & I'). exists h1. split; auto.
    destruct (update_cases now false false false c t h (inv_safe _ _ I)) as (t' & h' & Eu & U).
    assert (X : t' = t /\ h' = h).
    { inversion U; subst; auto; try (unfold data_phase in *; exfalso; intuition (try congruence; try lia)).
      all: unfold line_is_error in *; rewrite Hs in *; cbn in *; intuition (try congruence; try lia). }
    destruct X as (-> & ->). eapply sr_cons; [auto|cbn [tx_event]; rewrite Eu; reflexivity|discriminate|exact R].
  - destruct (IH t (hw_step h e) (hw_step_inv _ _ e I) Hs eq_refl P2) as (h1 & R & I'). exists h1. split; auto. eapply sr_cons; [auto|reflexivity|discriminate|]. exact R.
  - destruct (IH t h I Hs eq_refl P2) as (h' & R & I'). exists h'. split; auto. sr_step (ev_noop_error now t h (proj2 L)). exact R.
  - contradiction.
Qed.

(** *** The echo *)
Record echo_state (m : message) (limit : Z) (begun : bool) (k : nat) (t : txsm) (h : pio_hw) : Prop := {
  es_inv : tx_inv t h;
  es_tx : t_tx t = m;
  es_off : t_off t = Z.of_nat k;
  es_wait : t_wait t = limit;
  es_err : t_err t = false;
  es_status : m_status (t_rx t) = 0;
  es_rx : tx_bytes (t_rx t) = firstn k (tx_bytes m);
  es_len : m_length (t_rx t) = k;
  es_le : (k <= m_length m)%nat;
  es_st : t_st t = if begun then (if (k =? m_length m)%nat then T_WAIT_IDLE else T_CHECK_DATA) else T_STARTED;
  es_k : begun = false -> k = 0%nat }.

Lemma firstn_upd_lt (l : list Z) i a : firstn i (upd l i a) = firstn i l.
Proof. revert i; induction l as [|x l IH]; intros [|i]; cbn; auto. f_equal. auto. Qed.
Lemma append_bytes m b m' : length (m_data m) = 32%nat -> (m_length m < 32)%nat -> msg_append m b = Ok m' ->
  tx_bytes m' = tx_bytes m ++ [b] /\ m_length m' = S (m_length m) /\ m_status m' = m_status m.
Proof.
  intros L Hl. unfold msg_append, MAX_PACKET_SIZE. destruct (Nat.ltb_spec (m_length m) 32); [|lia]. rewrite aset_ok by lia. cbn [bind]. intros H1; injection H1 as <-.
  unfold tx_bytes. cbn [m_length m_data m_status]. split; [|auto].
  rewrite (firstn_next _ _ b) by (apply nth_error_upd_eq; lia). f_equal. apply firstn_upd_lt.
Qed.

Lemma echo_phase m u2 : tx_msg_ok m -> (1 <= m_length m)%nat -> forall l limit begun k t h, echo_state m limit begun k t h ->
  polls (fun u busy re _ => busy = true /\ re = false) l -> echoes l = skipn k (tx_bytes m) -> steady begun limit l u2 ->
  exists t' h' limit', safe_run live (t, h) l (t', h') /\ echo_state m limit' true (m_length m) t' h' /\ u2 < limit'.
Proof.
  intros Mo M1. assert (Lb : length (tx_bytes m) = m_length m) by (unfold tx_bytes; rewrite firstn_length; destruct Mo; lia).
  induction l as [|(now & ev) l IH]; intros limit begun k t h S P E T.
  { cbn in T. destruct T as (-> & T). cbn in E. assert (k = m_length m).
    { pose proof (es_le _ _ _ _ _ _ S). pose proof (skipn_length k (tx_bytes m)) as X. rewrite <- E, Lb in X. cbn in X. lia. }
    subst k. exists t, h, limit. split; [constructor|]. auto. }
  inversion P as [|? ? P1 P2]; subst. pose proof (es_inv _ _ _ _ _ _ S) as I.
  assert (Ni : t_st t <> T_IDLE) by (rewrite (es_st _ _ _ _ _ _ S); destruct begun; [destruct (k =? m_length m)%nat|]; discriminate).
  assert (Nl : t_st t <> T_WAIT_LINEFREE) by (rewrite (es_st _ _ _ _ _ _ S); destruct begun; [destruct (k =? m_length m)%nat|]; discriminate).
  assert (Np : t_st t <> T_WAIT_POWERON) by (rewrite (es_st _ _ _ _ _ _ S); destruct begun; [destruct (k =? m_length m)%nat|]; discriminate).
  assert (Lv : live (t, h)) by (split; [unfold tx_is_idle; cbn; destruct (t_st t); congruence|apply (es_err _ _ _ _ _ _ S)]).
  destruct ev as [m2|b re rv c|e| |time]; cbn [snd fst] in P1.
  - cbn [steady] in T. cbn [echoes flat_map snd] in E. change (flat_map _ l) with (echoes l) in E. cbn [app] in E. destruct (IH _ _ _ _ _ S P2 E T) as (t' & h' & lim & Er & S' & U).
    exists t', h', lim. split; [|auto]. sr_step (ev_noop_wake now t h m2 (proj1 Lv)). exact Er.
  - destruct P1 as (-> & ->). cbn [steady] in T. destruct T as (Hn & T). cbn [echoes flat_map snd] in E. change (flat_map _ l) with (echoes l) in E.
    destruct (update_cases now true false rv c t h (inv_safe _ _ I)) as (t1 & h1 & Eu & U).
    assert (I1 : tx_inv t1 h1) by (eapply ucase_inv; eauto).
    assert (X : exists k1 lim1, echo_state m lim1 true k1 t1 h1 /\ echoes l = skipn k1 (tx_bytes m) /\ lim1 = (if negb begun || rv then now + 4000 else limit)).
    { rewrite <- (es_wait _ _ _ _ _ _ S) in Hn. destruct rv.
      - cbn [app] in E.
        assert (Hk : (k < m_length m)%nat /\ nth_error (tx_bytes m) k = Some c /\ skipn (Datatypes.S k) (tx_bytes m) = echoes l).
        { destruct (nth_error (tx_bytes m) k) as [b|] eqn:En.
          - assert (k < length (tx_bytes m))%nat by (apply nth_error_Some; congruence). rewrite Lb in H. split; [auto|].
            destruct (nth_error_split _ _ En) as (a & d & Ea & La). rewrite Ea in *. rewrite <- La in *. rewrite skipn_app, skipn_all, Nat.sub_diag in E. cbn in E. injection E as <- E.
            split; [auto|]. rewrite E. rewrite skipn_app, skipn_all2 by lia. replace (Datatypes.S (length a) - length a)%nat with 1%nat by lia. reflexivity.
          - apply nth_error_None in En. rewrite skipn_all2 in E by lia. discriminate. }
        destruct Hk as (Hk & Hc & Hr). exists (Datatypes.S k), (now + 4000). rewrite orb_true_r. split; [|auto].
        assert (Hd : data_phase (t_st t)) by (rewrite (es_st _ _ _ _ _ _ S); destruct begun; [destruct (Nat.eqb_spec k (m_length m)); [lia|right; auto]|left; auto]).
        assert (Hcm : nth_error (m_data (t_tx t)) (Z.to_nat (t_off t)) = Some c).
        { rewrite (es_off _ _ _ _ _ _ S), Nat2Z.id, (es_tx _ _ _ _ _ _ S), <- Hc. unfold tx_bytes. symmetry. apply nth_firstn. auto. }
        inversion U as [Ha|H1 H2 H3 H4|Hs Hw Hb Ht Ho|Hs Hw Hb|Hs Hw Hb He Hv|rx Hd' Hw He Hv Hn' Hx|b rx Hd' Hw He Hv Hn' Hne Hx|Hd' Hw He|Hs Hw Hb]; subst; try discriminate.
        + exfalso. destruct Ha as [(Ha & _)|Ha]; [lia|]. unfold line_is_error, busy_is_error in Ha. destruct (t_st t); congruence.
        + exfalso. destruct (H3 Hd) as (_ & ? & _). discriminate.
        + assert (t_rx t = t_rx t) by auto. destruct (append_bytes _ _ _ (iv_rx _ _ I) ltac:(rewrite (es_len _ _ _ _ _ _ S); destruct Mo as (_ & ? & _); lia) Hx) as (B1 & B2 & B3).
          assert (Ea : after_byte t = if (Datatypes.S k =? m_length (t_tx t))%nat then T_WAIT_IDLE else T_CHECK_DATA).
          { unfold after_byte. rewrite (es_off _ _ _ _ _ _ S). destruct (Nat.eqb_spec (Datatypes.S k) (m_length (t_tx t))), (Z.eqb_spec (Z.of_nat k + 1) (Z.of_nat (m_length (t_tx t)))); auto; lia. }
          constructor.
          * exact I1.
          * cbn. apply (es_tx _ _ _ _ _ _ S).
          * cbn [t_off enter]. rewrite (es_off _ _ _ _ _ _ S). lia.
          * unfold enter. cbn [t_wait]. rewrite Ea. destruct (Datatypes.S k =? _)%nat; reflexivity.
          * cbn. apply (es_err _ _ _ _ _ _ S).
          * cbn. rewrite B3. apply (es_status _ _ _ _ _ _ S).
          * cbn [t_rx enter]. rewrite B1, (es_rx _ _ _ _ _ _ S). symmetry. apply firstn_next. auto.
          * cbn [t_rx enter]. rewrite B2, (es_len _ _ _ _ _ _ S). reflexivity.
          * lia.
          * cbn [t_st enter]. rewrite Ea, (es_tx _ _ _ _ _ _ S). reflexivity.
          * discriminate.
        + exfalso. congruence.
      - cbn [app] in E. rewrite orb_false_r. exists k. destruct begun; cbn [negb].
        + exists limit. split; [|auto].
          assert (X : t1 = t /\ h1 = h).
          { pose proof (es_st _ _ _ _ _ _ S) as Hst. inversion U as [Ha|H1 H2 H3 H4|Hs Hw Hb Ht Ho|Hs Hw Hb|Hs Hw Hb He Hv|rx Hd' Hw He Hv Hn' Hx|b rx Hd' Hw He Hv Hn' Hne Hx|Hd' Hw He|Hs Hw Hb]; subst; try discriminate; auto; try congruence.
            - exfalso. destruct Ha as [(Ha & _)|Ha]; [lia|]. unfold line_is_error, busy_is_error in Ha. destruct (t_st t); congruence.
            - exfalso. rewrite Hs in Hst. destruct (k =? _)%nat; discriminate. }
          destruct X as (-> & ->). exact S.
        + exists (now + 4000). split; [|auto]. pose proof (es_st _ _ _ _ _ _ S) as Hst. cbn in Hst. pose proof (es_k _ _ _ _ _ _ S eq_refl) as ->.
          assert (X : t1 = enter now t T_CHECK_DATA /\ h1 = h).
          { inversion U as [Ha|H1 H2 H3 H4|Hs Hw Hb Ht Ho|Hs Hw Hb|Hs Hw Hb He Hv|rx Hd' Hw He Hv Hn' Hx|b rx Hd' Hw He Hv Hn' Hne Hx|Hd' Hw He|Hs Hw Hb]; subst; try discriminate; auto; try congruence.
            - exfalso. destruct Ha as [(Ha & _)|Ha]; [lia|]. unfold line_is_error, busy_is_error in Ha. destruct (t_st t); congruence.
            - exfalso. destruct (H3 (or_introl Hst)) as (_ & _ & H & _). specialize (H Hst). discriminate. }
          destruct X as (-> & ->). destruct S. constructor; cbn [enter t_tx t_rx t_off t_err t_st t_wait]; try discriminate; auto.
          destruct (Nat.eqb_spec 0 (m_length m)); [lia|reflexivity]. }
    destruct X as (k1 & lim1 & S1 & E1 & El). rewrite <- El in T. destruct (IH _ _ _ _ _ S1 P2 E1 T) as (t' & h' & lim & Er & S' & U2).
    exists t', h', lim. split; [|auto]. eapply sr_cons; [auto|cbn [tx_event]; rewrite Eu; reflexivity|discriminate|exact Er].
  - cbn [steady] in T. cbn [echoes flat_map snd] in E. change (flat_map _ l) with (echoes l) in E. cbn [app] in E.
    assert (S1 : echo_state m limit begun k t (hw_step h e)) by (destruct S; constructor; auto; apply hw_step_inv; auto).
    destruct (IH _ _ _ _ _ S1 P2 E T) as (t' & h' & lim & Er & S' & U).
    exists t', h', lim. split; [|auto]. eapply sr_cons; [auto|reflexivity|discriminate|exact Er].
  - cbn [steady] in T. cbn [echoes flat_map snd] in E. change (flat_map _ l) with (echoes l) in E. cbn [app] in E. destruct (IH _ _ _ _ _ S P2 E T) as (t' & h' & lim & Er & S' & U).
    exists t', h', lim. split; [|auto]. sr_step (ev_noop_error now t h (proj2 Lv)). exact Er.
  - contradiction.
Qed.

(** *** All together *)
Lemma undisturbed_run t h tw m l : tx_inv t h -> t_st t = T_IDLE -> at_rest h -> tx_msg_ok m -> (1 <= m_length m)%nat -> undisturbed tw m l ->
  exists ta t' h', tx_event pico (t, h) (tw, Wake m) = Ok ((ta, h), None) /\ safe_run live (ta, h) l (t', h') /\
    tx_is_idle t' = true /\ t_err t' = false /\ tx_done t' = true /\ m_status (t_rx t') = 0 /\ tx_bytes (t_rx t') = tx_bytes m /\
    hw_shutdown h' = true /\ hw_dma h' = [] /\ hw_txf h' = [].
Proof.
  intros I Hs Hq Mo M1 (waiting & u0 & power & u1 & start & echo & u2 & re0 & rv0 & c0 & re1 & rv1 & c1 & c2 & -> & Pw & H0 & Pp & H1 & Ps & Pe & Ee & Ts).
  set (ta := TX m (msg_clear (t_rx t)) T_WAIT_LINEFREE (tw + 34000) 0 false).
  assert (Ew : tx_event pico (t, h) (tw, Wake m) = Ok ((ta, h), None)).
  { cbn [tx_event]. unfold tx_wake, tx_is_idle. rewrite Hs. reflexivity. }
  assert (Ia : tx_inv ta h).
  { destruct (event_inv t h (tw, Wake m) I (conj Mo M1)) as (t1 & h1 & o1 & E1 & I1). rewrite Ew in E1. injection E1 as <- <- _. exact I1. }
  pose proof (waiting_phase (tw + 34000) waiting ta h Ia eq_refl eq_refl Hq Pw) as Er1.
  assert (E0 : tx_event pico (ta, h) (u0, Update false re0 rv0 c0) = Ok ((enter u0 ta T_WAIT_POWERON, hw_enable_shutdown h false), None)).
  { cbn [tx_event]. rewrite (wait_line u0 ta h false re0 rv0 c0 Ia eq_refl H0 (rest_quiet h Hq)). reflexivity. }
  set (tb := enter u0 ta T_WAIT_POWERON) in *. set (hb := hw_enable_shutdown h false) in *.
  assert (Ib : tx_inv tb hb).
  { eapply ucase_inv; [exact Ia|]. apply (U_free u0 false re0 rv0 c0 ta h); auto using rest_quiet. }
  pose proof (power_phase (u0 + 32000) power tb hb Ib eq_refl eq_refl Hq Pp) as Er2.
  assert (E1 : tx_event pico (tb, hb) (u1, Update false re1 rv1 c1) = Ok ((enter u1 tb T_STARTED, HW false (tx_bytes m) (hw_txf hb) (hw_sm hb) (hw_shutdown hb)), None)).
  { cbn [tx_event]. destruct (update_cases u1 false re1 rv1 c1 tb hb (inv_safe _ _ Ib)) as (t' & h' & -> & U). cbn [bind].
    inversion U as [Ha|A1 A2 A3 A4|A1 A2 A3 A4 A5|A1 A2 A3|A1 A2 A3 A4 A5|rx A1 A2 A3 A4 A5 A6|b rx A1 A2 A3 A4 A5 A6 A7|A1 A2 A3|A1 A2 A3]; subst; auto;
      try (exfalso; cbn in *; discriminate); try (exfalso; destruct A1; discriminate).
    - exfalso. cbn in Ha. destruct Ha as [(_ & Ha)|Ha]; discriminate.
    - exfalso. destruct (A2 eq_refl) as (A & _). change (u1 < u0 + 32000) in A. lia. }
  set (tc := enter u1 tb T_STARTED) in *. set (hc := HW false (tx_bytes m) (hw_txf hb) (hw_sm hb) (hw_shutdown hb)) in *.
  assert (Ic : tx_inv tc hc).
  { eapply ucase_inv; [exact Ib|]. apply (U_send u1 false re1 rv1 c1 tb hb); auto. }
  destruct (start_phase (u1 + 2000) start tc hc Ic eq_refl eq_refl Ps) as (hd' & Er3 & Id).
  assert (S : echo_state m (u1 + 2000) false 0 tc hd').
  { constructor; auto; try reflexivity. lia. }
  destruct (echo_phase m u2 Mo M1 echo _ _ _ _ _ S Pe Ee Ts) as (te & he & lim & Er4 & S4 & Hu).
  pose proof (es_inv _ _ _ _ _ _ S4) as Ie. pose proof (es_st _ _ _ _ _ _ S4) as Hst. rewrite Nat.eqb_refl in Hst.
  assert (E2 : tx_event pico (te, he) (u2, Update false false false c2) = Ok ((enter u2 te T_IDLE, hw_enable_shutdown he true), None)).
  { cbn [tx_event]. destruct (update_cases u2 false false false c2 te he (inv_safe _ _ Ie)) as (t' & h' & -> & U). cbn [bind]. rewrite <- (es_wait _ _ _ _ _ _ S4) in Hu.
    inversion U as [Ha|A1 A2 A3 A4|A1 A2 A3 A4 A5|A1 A2 A3|A1 A2 A3 A4 A5|rx A1 A2 A3 A4 A5 A6|b rx A1 A2 A3 A4 A5 A6 A7|A1 A2 A3|A1 A2 A3]; subst; auto; try congruence;
      try (exfalso; destruct A1; congruence).
    - exfalso. destruct Ha as [(Ha & _)|Ha]; [lia|]. unfold line_is_error in Ha. rewrite Hst in Ha. discriminate.
    - exfalso. specialize (A4 Hst). discriminate. }
  assert (La : live (ta, h)) by (apply quiet_live; auto; discriminate). assert (Lb : live (tb, hb)) by (apply quiet_live; auto; discriminate).
  assert (Le : live (te, he)) by (split; [unfold tx_is_idle; cbn; rewrite Hst; reflexivity|apply (es_err _ _ _ _ _ _ S4)]).
  exists ta, (enter u2 te T_IDLE), (hw_enable_shutdown he true). split; [exact Ew|]. split.
  - eapply sr_app; [exact Er1|]. eapply sr_cons; [exact La|exact E0|discriminate|]. eapply sr_app; [exact Er2|]. eapply sr_cons; [exact Lb|exact E1|discriminate|].
    eapply sr_app; [exact Er3|]. eapply sr_app; [exact Er4|]. eapply sr_cons; [exact Le|exact E2|discriminate|]. constructor.
  - destruct (iv_end _ _ Ie Hst) as (D1 & D2). split; [reflexivity|]. split; [apply (es_err _ _ _ _ _ _ S4)|]. split.
    + unfold tx_done. cbn [enter t_off t_tx]. rewrite (es_off _ _ _ _ _ _ S4), (es_tx _ _ _ _ _ _ S4). apply Z.eqb_refl.
    + split; [apply (es_status _ _ _ _ _ _ S4)|]. split; [|auto].
      cbn [enter t_rx]. rewrite (es_rx _ _ _ _ _ _ S4). apply firstn_all2. unfold tx_bytes. rewrite firstn_length. lia.
Qed.

Lemma undisturbed_succeeds j1 j2 l1 tw m l2 s o : length j2 = 32%nat -> Forall (ev_ok 1) (l1 ++ [(tw, Wake m)]) ->
  tx_run j1 j2 l1 = Ok (s, o) -> tx_is_idle (fst s) = true -> at_rest (snd s) -> undisturbed tw m l2 ->
  exists t h o', tx_run j1 j2 (l1 ++ (tw, Wake m) :: l2) = Ok ((t, h), o ++ o') /\ ~ In (Some true) o' /\
    tx_is_idle t = true /\ t_err t = false /\ tx_done t = true /\ m_status (t_rx t) = 0 /\ tx_bytes (t_rx t) = tx_bytes m /\
    hw_shutdown h = true /\ hw_dma h = [] /\ hw_txf h = [].
Proof.
  intros L F E Hi Hq U. apply Forall_app in F as (F1 & F2). inversion F2 as [|? ? X _]; subst. cbn in X. destruct X as (Mo & M1). destruct s as [t h]. pose proof (run_inv_eq _ _ _ _ _ _ L F1 E) as I.
  cbn [fst snd] in *. assert (Hs : t_st t = T_IDLE) by (unfold tx_is_idle in Hi; destruct (t_st t); congruence).
  destruct (undisturbed_run t h tw m l2 I Hs Hq Mo M1 U) as (ta & t' & h' & Ew & Er & R). destruct (sr_run _ _ _ _ Er) as (o' & Eo & Ho).
  exists t', h', (None :: o'). split; [|split; [intros [A|A]; [discriminate|auto]|exact R]].
  unfold tx_run in *. rewrite mrun_app, E. cbn [bind mrun]. rewrite Ew. cbn [bind]. rewrite Eo. reflexivity.
Qed.
