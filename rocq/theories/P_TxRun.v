(** P_TxRun.v -- histories of the transmit state machine (C45-C52, C73). *)
From Verif Require Import Base M_Message M_Tx D_Tx P_Ctrl P_Tx.

Record tx_inv (t : txsm) (h : pio_hw) : Prop := {
  iv_err : hw_error h = false;
  iv_rx : length (m_data (t_rx t)) = 32%nat;
  iv_tx : t_st t <> T_IDLE -> tx_msg_ok (t_tx t) /\ (1 <= m_length (t_tx t))%nat;
  iv_off : t_st t = T_IDLE \/ t_st t = T_WAIT_LINEFREE -> hw_shutdown h = true;
  iv_on : t_st t <> T_IDLE -> t_st t <> T_WAIT_LINEFREE -> hw_shutdown h = false;
  iv_zero : t_st t = T_WAIT_LINEFREE \/ t_st t = T_WAIT_POWERON \/ t_st t = T_STARTED -> t_off t = 0;
  iv_quiet : t_st t <> T_IDLE -> t_st t <> T_WAIT_IDLE -> t_err t = false /\ m_status (t_rx t) = 0;
  iv_pow : t_st t = T_WAIT_POWERON -> hw_dma h = [] /\ hw_txf h = [];
  iv_chk : t_st t = T_CHECK_DATA -> 0 <= t_off t < Z.of_nat (m_length (t_tx t));
  iv_end : t_st t = T_WAIT_IDLE -> hw_dma h = [] /\ hw_txf h = [] }.

Lemma inv_safe t h : tx_inv t h -> tx_safe t h.
Proof.
  intros I. constructor.
  - apply (iv_err _ _ I).
  - destruct (t_st t) eqn:E; [right; auto|left..]; apply (iv_tx _ _ I); congruence.
  - apply (iv_rx _ _ I).
  - intros H. apply (iv_pow _ _ I H).
  - intros [H|H].
    + rewrite (iv_zero _ _ I) by auto. lia.
    + destruct (iv_chk _ _ I H). destruct (iv_tx _ _ I) as ((_ & L & _) & _); [congruence|]. lia.
Qed.

Lemma append_len m b m' : length (m_data m) = 32%nat -> msg_append m b = Ok m' -> length (m_data m') = 32%nat /\ m_status m' = m_status m.
Proof. intros L E. destruct (append_ok m b L) as (x & E' & Lx & Sx & _). rewrite E in E'. injection E' as <-. auto. Qed.

Lemma not_transmitting h : hw_transmitting h = false -> hw_dma h = [] /\ hw_txf h = [] /\ hw_irq h = false.
Proof.
  unfold hw_transmitting, hw_data_waiting. destruct (hw_irq h); [discriminate|]. destruct (hw_txf h); [|discriminate]. destruct (hw_dma h); [auto|discriminate].
Qed.

Lemma ucase_inv now busy rxerr rxvalid c t h t' h' :
  tx_inv t h -> ucase now busy rxerr rxvalid c t h t' h' -> tx_inv t' h'.
Proof.
  intros I U. destruct U as [Ha|H1 H2 H3 H4|Hs Hw Hb Ht Ho|Hs Hw Hb|Hs Hw Hb He Hv|rx Hd Hw He Hv Hn Hr|b rx Hd Hw He Hv Hn Hne Hr|Hd Hw He|Hs Hw Hb];
    try exact I; destruct I as [I1 I2 I3 I4 I4' I5 I6 I7 I8 I9].
  - constructor; cbn; auto; try (intros; congruence); try (intros [?|[?|?]]; discriminate).
  - destruct (not_transmitting h Ht) as (D & X & Q). constructor; cbn; auto; try (intros; congruence).
    + intros _. apply I3. congruence.
    + intros [?|?]; discriminate.
    + intros _ _. apply I6; congruence.
  - constructor; cbn; auto; try (intros; congruence).
    + intros _. apply I3. congruence.
    + intros [?|?]; discriminate.
    + intros _ _. apply I4'; congruence.
    + intros _ _. apply I6; congruence.
  - destruct (I3 ltac:(congruence)) as (M1 & M2). constructor; cbn; auto; try (intros; congruence).
    + intros [?|?]; discriminate.
    + intros _ _. apply I4'; congruence.
    + intros _ _. apply I6; congruence.
    + intros _. rewrite I5 by auto. lia.
  - destruct (append_len _ _ _ I2 Hr) as (L & S). assert (Hni : t_st t <> T_IDLE) by (destruct Hd; congruence). assert (Hnl : t_st t <> T_WAIT_LINEFREE) by (destruct Hd; congruence).
    assert (O : 0 <= t_off t < Z.of_nat (m_length (t_tx t))).
    { destruct Hd as [H|H]; [rewrite I5 by auto; destruct (I3 Hni); lia|auto]. }
    assert (Hnw : t_st t <> T_WAIT_IDLE) by (destruct Hd; congruence).
    unfold after_byte. destruct (Z.eqb_spec (t_off t + 1) (Z.of_nat (m_length (t_tx t)))); constructor; cbn; auto; try (intros; congruence); try (intros [?|?]; discriminate); try (intros [?|[?|?]]; discriminate).
    + rewrite S. auto.
    + intros _. lia.
  - destruct (append_len _ _ _ I2 Hr) as (L & S). assert (Hni : t_st t <> T_IDLE) by (destruct Hd; congruence). assert (Hnl : t_st t <> T_WAIT_LINEFREE) by (destruct Hd; congruence).
    constructor; cbn; auto; try (intros; congruence); try (intros [?|?]; discriminate); try (intros [?|[?|?]]; discriminate).
  - assert (Hni : t_st t <> T_IDLE) by (destruct Hd; congruence). assert (Hnl : t_st t <> T_WAIT_LINEFREE) by (destruct Hd; congruence).
    constructor; cbn; auto; try (intros; congruence); try (intros [?|?]; discriminate); try (intros [?|[?|?]]; discriminate).
  - constructor; cbn; auto; try (intros; congruence); try (intros [?|?]; discriminate); try (intros [?|[?|?]]; discriminate).
Qed.

(** The events other than Update. *)
Lemma hw_step_inv t h e : tx_inv t h -> tx_inv t (hw_step h e).
Proof.
  intros [I1 I2 I3 I4 I4' I5 I6 I7 I8 I9].
  assert (X : hw_error (hw_step h e) = hw_error h /\ hw_shutdown (hw_step h e) = hw_shutdown h /\
    (hw_dma h = [] -> hw_dma (hw_step h e) = []) /\
    (hw_dma h = [] -> hw_txf h = [] -> hw_txf (hw_step h e) = [])).
  { destruct h as [er d f q sd]. destruct e; cbn; [destruct d; [|destruct (length f <? 8)%nat]|destruct f; [|destruct q]|destruct q|destruct q]; cbn; (split; [reflexivity|]); (split; [reflexivity|]); (split; intros; congruence). }
  destruct X as (X1 & X2 & X3 & X4).
  constructor; auto; try (rewrite ?X1, ?X2; auto; fail).
  - intros H. destruct (I7 H) as (? & ?). auto.
  - intros H. destruct (I9 H). auto.
Qed.

Lemma wake_cases now t h m : exists t' h', tx_wake now t h m = Ok (t', h') /\ h' = h /\
  ((t_st t = T_IDLE /\ t' = TX m (msg_clear (t_rx t)) T_WAIT_LINEFREE (now + 34000) 0 false) \/ (t_st t <> T_IDLE /\ t' = t)).
Proof.
  unfold tx_wake, tx_is_idle. destruct (t_st t) eqn:E; cbn [change_state bind]; eexists _, _; (split; [reflexivity|]); (split; [reflexivity|]);
    [left|right..]; (split; [congruence|]); auto.
Qed.

Lemma event_inv t h e : tx_inv t h -> ev_ok 1 e -> exists t' h' o, tx_event pico (t, h) e = Ok ((t', h'), o) /\ tx_inv t' h'.
Proof.
  intros I He. destruct e as (now & [m|busy re rv c|x| |]); cbn [tx_event].
  - cbn in He. destruct (wake_cases now t h m) as (t' & h' & -> & -> & C). cbn [bind]. eexists _, _, _. split; [reflexivity|].
    destruct C as [(Hi & ->)|(Hi & ->)]; auto. destruct I as [I1 I2 I3 I4 I4' I5 I6 I7 I8 I9].
    constructor; cbn; auto; try (intros; congruence).
  - destruct (update_cases now busy re rv c t h (inv_safe _ _ I)) as (t' & h' & -> & U). cbn [bind]. eexists _, _, _. split; [reflexivity|].
    eapply ucase_inv; eauto.
  - eexists _, _, _. split; [reflexivity|]. apply hw_step_inv; auto.
  - unfold tx_error. eexists _, _, _. split; [reflexivity|]. destruct I as [I1 I2 I3 I4 I4' I5 I6 I7 I8 I9]. constructor; cbn; auto. intros A B. split; auto. apply I6; auto.
  - eexists _, _, _. split; [reflexivity|]. destruct I as [I1 I2 I3 I4 I4' I5 I6 I7 I8 I9]. constructor; cbn; auto. intros A B. split; auto. apply I6; auto.
Qed.

Lemma new_inv j1 j2 : length j2 = 32%nat -> tx_inv (fst (tx_new hw_new j1 j2)) (snd (tx_new hw_new j1 j2)).
Proof. intros L. constructor; cbn; auto; try (intros; congruence); try (intros [?|[?|?]]; discriminate). Qed.

Lemma run_inv_from s l : tx_inv (fst s) (snd s) -> Forall (ev_ok 1) l ->
  exists t h o, mrun (tx_event pico) s l = Ok ((t, h), o) /\ tx_inv t h.
Proof.
  revert s; induction l as [|e l IH]; intros [t h] I F; cbn [mrun fst snd] in *.
  - eauto.
  - inversion F as [|? ? F1 F2]; subst. destruct (event_inv t h e I F1) as (t' & h' & o & -> & I'). cbn [bind].
    destruct (IH (t', h') I' F2) as (t2 & h2 & o2 & -> & I2). cbn [bind]. eauto.
Qed.
(** Every history of messages of length 1..32 is defined and keeps the invariant. *)
Lemma run_inv j1 j2 l : length j2 = 32%nat -> Forall (ev_ok 1) l -> exists t h o, tx_run j1 j2 l = Ok ((t, h), o) /\ tx_inv t h.
Proof. intros L F. apply run_inv_from; auto. apply new_inv; auto. Qed.
Lemma run_inv_eq j1 j2 l t h o : length j2 = 32%nat -> Forall (ev_ok 1) l -> tx_run j1 j2 l = Ok ((t, h), o) -> tx_inv t h.
Proof. intros L F E. destruct (run_inv j1 j2 l L F) as (t' & h' & o' & E' & I). rewrite E in E'. injection E' as -> -> ->. auto. Qed.
