(** P_MessageCalls.v -- a message made by the data constructor and changed by Append and Clear. *)
From Verif Require Import Base M_Message S_Message D_Message P_MessageNum P_Ctrl.

Lemma calls_status ops : forall m m', mfold msg_call m ops = Ok m' ->
  m_time m' = m_time m /\ m_status m' = (if existsb (fun o => match o with Clear => true | Append _ => false end) ops then 0 else m_status m).
Proof.
  induction ops as [|o t IH]; intros m m' E; cbn [mfold] in E; [inversion E; subst; auto|].
  destruct (msg_call m o) as [m1|] eqn:E1; cbn [bind] in E; [|discriminate]. destruct (IH _ _ E) as (A & B). rewrite A, B. cbn [existsb].
  destruct o as [b|]; cbn [msg_call] in E1.
  - unfold msg_append in E1. destruct (m_length m <? MAX_PACKET_SIZE)%nat; [|inversion E1; subst; auto].
    destruct (aset (m_data m) (m_length m) b); cbn [bind] in E1; inversion E1; subst; auto.
  - inversion E1; subst. cbn [orb msg_clear m_time m_status]. split; auto. destruct (existsb _ t); auto.
Qed.
Lemma make_calls junk time status data len ops : length junk = 32%nat -> (len <= length data)%nat ->
  exists m m', msg_make junk time status data len = Ok m /\ mfold msg_call m ops = Ok m' /\
    payload m' = fold_left held ops (firstn 32 (firstn len data)) /\
    m_length m' = length (payload m') /\ (msg_overflow m' = true <-> length (payload m') = 32%nat) /\
    m_time m' = time /\
    m_status m' = (if existsb (fun o => match o with Clear => true | Append _ => false end) ops then 0 else status).
Proof.
  intros L Hl. unfold msg_make. set (n := if (len <? MAX_PACKET_SIZE)%nat then len else MAX_PACKET_SIZE).
  assert (Hn : n = Nat.min 32 len) by (unfold n, MAX_PACKET_SIZE; destruct (Nat.ltb_spec len 32); lia).
  destruct (copy_loop_ok data n 0 junk ltac:(lia) ltac:(lia)) as (d & Ed & Ld & Fd). rewrite Ed. cbn [bind].
  set (m := MSG status time d n).
  assert (P : payload m = firstn 32 (firstn len data)) by (unfold payload; cbn [m m_length m_data]; rewrite firstn_firstn, <- Hn; cbn [Nat.add firstn skipn app] in Fd; exact Fd).
  destruct (msg_calls_ok ops m _ ltac:(cbn; lia) ltac:(cbn; lia) P) as (m' & E & A & B & C).
  exists m, m'. split; auto. split; auto. split; auto.
  assert (Len : m_length m' = length (payload m')) by (unfold payload; rewrite firstn_length_le; lia).
  split; auto. split; [unfold msg_overflow, MAX_PACKET_SIZE; rewrite <- Len; apply Nat.eqb_eq|].
  exact (calls_status ops m m' E).
Qed.
