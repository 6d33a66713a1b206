(** T_TxDone.v -- property theorem C130 (Done()). *)
From Verif Require Import Base M_Message M_Tx D_Tx S_TxDone P_TxHist P_TxDone T_Tx.

(** C130: (a) from WakeAndTransmit(m) until the machine is idle again, Done() answers yes only if m was handed over and as many bytes as m has were received
    since, without a receive error, all but perhaps the last being those of m. *)
Theorem C130_done_heard : forall j1 j2 l1 tw m l2 t h o,
  length j2 = 32%nat -> Forall (ev_ok 1) (l1 ++ [(tw, Wake m)]) -> Forall (ev_ok 1) l2 ->
  (exists s o, tx_run j1 j2 l1 = Ok (s, o) /\ tx_is_idle (fst s) = true) ->
  busy_during j1 j2 (l1 ++ [(tw, Wake m)]) l2 ->
  tx_run j1 j2 ((l1 ++ [(tw, Wake m)]) ++ l2) = Ok ((t, h), o) -> tx_done t = true -> heard j1 j2 (l1 ++ [(tw, Wake m)]) l2 m.
Proof. intros j1 j2 l1 tw m l2 t h o L Fb F S B E. exact (done_heard j1 j2 l1 tw m L Fb S l2 t h o F B E). Qed.
Print Assumptions C130_done_heard.
(** (b) If it answers no when the machine is idle again, the transmission failed and Error() says so. *)
Theorem C130_not_done_failed : forall j1 j2 l1 tw m l2 t h o,
  length j2 = 32%nat -> Forall (ev_ok 1) (l1 ++ [(tw, Wake m)]) -> Forall (ev_ok 1) l2 ->
  (exists s o, tx_run j1 j2 l1 = Ok (s, o) /\ tx_is_idle (fst s) = true) ->
  busy_during j1 j2 (l1 ++ [(tw, Wake m)]) l2 ->
  tx_run j1 j2 ((l1 ++ [(tw, Wake m)]) ++ l2) = Ok ((t, h), o) -> tx_is_idle t = true -> tx_done t = false ->
  t_err t = true \/ In (Some true) (skipn (length (l1 ++ [(tw, Wake m)])) o).
Proof. intros j1 j2 l1 tw m l2 t h o L Fb F S B E. exact (success_done j1 j2 l1 tw m L Fb S l2 t h o F B E). Qed.
Print Assumptions C130_not_done_failed.
(** (c) The answer stays the same until the next WakeAndTransmit, and before the first one it is no. *)
Theorem C130_done_kept : forall j1 j2 l l3 t h o t' h' o', length j2 = 32%nat -> Forall no_wake l3 -> Forall (ev_ok 1) (l ++ l3) ->
  tx_run j1 j2 l = Ok ((t, h), o) -> tx_is_idle t = true -> tx_run j1 j2 (l ++ l3) = Ok ((t', h'), o') -> tx_is_idle t' = true /\ tx_done t' = tx_done t.
Proof. intros j1 j2 l l3 t h o t' h' o' L N F E Hi E'. exact (idle_keeps j1 j2 l3 L N l t h o F E Hi t' h' o' E'). Qed.
Print Assumptions C130_done_kept.
Theorem C130_never_done : forall j1 j2 l t h o, length j2 = 32%nat -> Forall no_wake l -> Forall (ev_ok 1) l -> tx_run j1 j2 l = Ok ((t, h), o) -> tx_done t = false.
Proof. exact never_done. Qed.
Print Assumptions C130_never_done.
(** The transmission of C47_ex: after its first byte no, after its second yes; a collision on the first byte: no, with the error flag. *)
Example C130_ex : (exists t h o, tx_run ex_junk ex_junk (firstn 9 ex_sched) = Ok ((t, h), o) /\ tx_done t = false) /\
  (exists t h o, tx_run ex_junk ex_junk ex_sched = Ok ((t, h), o) /\ tx_done t = true /\ tx_is_idle t = true /\ t_err t = false) /\
  (exists t h o, tx_run ex_junk ex_junk (firstn 8 ex_sched ++ [(33000, Update true false true 65); (36000, Update false false false 0)]) = Ok ((t, h), o) /\
    tx_done t = false /\ tx_is_idle t = true /\ t_err t = true).
Proof. split; [|split]; ex_solve. Qed.

(** C45, at the start: whatever state the hardware was in (after a reset of the CPU alone, say), the constructor leaves the amplifier shut down, nothing to send
    and the machine idle; the transmitter's own constructor shuts it down before. *)
Theorem C45_constructed : forall h j1 j2, let s := tx_new h j1 j2 in
  hw_shutdown (snd s) = true /\ hw_dma (snd s) = [] /\ hw_txf (snd s) = [] /\ tx_is_idle (fst s) = true /\ hw_shutdown hw_new = true.
Proof. intros h j1 j2. repeat split. Qed.
Print Assumptions C45_constructed.
