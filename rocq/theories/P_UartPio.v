(** P_UartPio.v -- proofs about the class UARTPio on its own (C122). *)
From Verif Require Import Base M_Message M_Tx D_Tx P_Tx S_UartPio D_UartPio.

Definition msg32 (op : uop) : Prop := match op with USend m => length (m_data m) = 32%nat | _ => True end.
Lemma accepted_app a b acc : accepted_since (a ++ b) acc = accepted_since b (accepted_since a acc).
Proof. revert acc. induction a as [|x a IH]; intros acc; cbn [app accepted_since]; [reflexivity|]. destruct x; apply IH. Qed.
Lemma taken_app a b acc : taken_since (a ++ b) acc = taken_since b (taken_since a acc).
Proof. revert acc. induction a as [|x a IH]; intros acc; cbn [app taken_since]; [reflexivity|]. destruct x; apply IH. Qed.
Lemma rejected_app a b r : rejected_since (a ++ b) r = rejected_since b (rejected_since a r).
Proof. revert r. induction a as [|x a IH]; intros r; cbn [app rejected_since]; [reflexivity|]. destruct x; apply IH. Qed.

Lemma run_snoc h l op : u_run h (l ++ [op]) = let* (h1, o) := u_run h l in let* (h2, o2) := u_step h1 op in Ok (h2, o ++ o2).
Proof.
  revert h. induction l as [|x l IH]; intros h; cbn [app u_run bind].
  - destruct (u_step h op) as [(h2 & o2)|u]; cbn [bind]; [rewrite app_nil_r; reflexivity|reflexivity].
  - destruct (u_step h x) as [(h1 & o)|u]; cbn [bind]; [|reflexivity]. rewrite IH. destruct (u_run h1 l) as [(h3 & o3)|u]; cbn [bind]; [|reflexivity].
    destruct (u_step h3 op) as [(h2 & o2)|u]; cbn [bind]; [rewrite app_assoc; reflexivity|reflexivity].
Qed.

Record uinv (h : pio_hw) (o : list useen) : Prop := {
  ui_order : accepted_since o [] = taken_since o [] ++ hw_txf h ++ hw_dma h;
  ui_err : hw_error h = rejected_since o false;
  ui_fifo : (length (hw_txf h) <= 8)%nat }.

(** The phase after a log. *)
Fixpoint phase_after (l : list useen) (p : sm_state) : sm_state :=
  match l with [] => p | Taken _ :: t => phase_after t SmPulled | Begun :: t => phase_after t SmShifting | Ended :: t => phase_after t SmIdle | _ :: t => phase_after t p end.
Lemma one_app a b p : one_at_a_time (a ++ b) p <-> one_at_a_time a p /\ one_at_a_time b (phase_after a p).
Proof. revert p. induction a as [|x a IH]; intros p; cbn [app one_at_a_time phase_after]; [tauto|]. destruct x; rewrite ?IH; tauto. Qed.
Lemma phase_app a b p : phase_after (a ++ b) p = phase_after b (phase_after a p).
Proof. revert p. induction a as [|x a IH]; intros p; cbn [app phase_after]; [reflexivity|]. destruct x; apply IH. Qed.
Lemma answers_app a b r : answers_ok (a ++ b) r <-> answers_ok a r /\ answers_ok b (rejected_since a r).
Proof. revert r. induction a as [|x a IH]; intros r; cbn [app answers_ok rejected_since]; [tauto|]. destruct x; rewrite ?IH; tauto. Qed.

Lemma step_ok h op : msg32 op -> exists h' o, u_step h op = Ok (h', o) /\
  (hw_txf h ++ hw_dma h = [] /\ o = [] \/ True) /\
  (forall acc tk, acc = tk ++ hw_txf h ++ hw_dma h -> accepted_since o acc = taken_since o tk ++ hw_txf h' ++ hw_dma h') /\
  hw_error h' = rejected_since o (hw_error h) /\ answers_ok o (hw_error h) /\ ((length (hw_txf h) <= 8)%nat -> (length (hw_txf h') <= 8)%nat) /\
  one_at_a_time o (hw_sm h) /\ phase_after o (hw_sm h) = hw_sm h'.
Proof.
  intros M. destruct h as [er dma f sm sd]. destruct op as [m| | |b|e]; cbn [u_step].
  - cbn in M. unfold hw_send, hw_data_waiting. cbn [hw_dma hw_error hw_txf hw_sm hw_shutdown]. destruct dma as [|d0 dma].
    + cbn [orb]. destruct (Nat.ltb_spec 32 (m_length m)) as [L|L]; cbn [bind].
      * eexists _, _. split; [reflexivity|]. cbn. repeat (split; [first [right; exact I | intros; subst; reflexivity | reflexivity | auto]|]). reflexivity.
      * destruct (copy_bytes m M L) as (d & -> & Ed). cbn [bind]. eexists _, _. split; [reflexivity|]. cbn [accepted_since taken_since rejected_since answers_ok one_at_a_time phase_after hw_txf hw_dma hw_error hw_sm].
        split; [right; exact I|]. split; [intros acc tk ->; rewrite app_nil_r, <- app_assoc, Ed; reflexivity|]. repeat (split; [first [reflexivity|exact I|auto]|]). reflexivity.
    + cbn [orb bind]. eexists _, _. split; [reflexivity|]. cbn. repeat (split; [first [right; exact I | intros; subst; reflexivity | reflexivity | auto]|]). reflexivity.
  - eexists _, _. split; [reflexivity|]. cbn. repeat (split; [first [right; exact I | reflexivity | lia | auto]|]). reflexivity.
  - eexists _, _. split; [reflexivity|]. cbn. repeat (split; [first [right; exact I | reflexivity | auto]|]). reflexivity.
  - eexists _, _. split; [reflexivity|]. cbn. repeat (split; [first [right; exact I | reflexivity | auto]|]). reflexivity.
  - eexists _, _. split; [reflexivity|]. split; [right; exact I|]. destruct e; cbn [hw_step hw_seen hw_dma hw_txf hw_sm hw_error hw_irq].
    + destruct dma as [|d0 dma]; [cbn; repeat (split; [first [reflexivity|auto]|]); reflexivity|]. destruct (Nat.ltb_spec (length f) 8) as [L|L]; cbn [hw_dma hw_txf hw_sm hw_error accepted_since taken_since rejected_since answers_ok one_at_a_time phase_after].
      * split; [intros acc tk ->; rewrite <- app_assoc; reflexivity|]. split; [reflexivity|]. split; [exact I|]. split; [intros _; rewrite app_length; cbn; lia|]. split; [exact I|reflexivity].
      * repeat (split; [first [reflexivity|auto]|]); reflexivity.
    + destruct f as [|b f]; [cbn; repeat (split; [first [reflexivity|auto]|]); reflexivity|]. destruct sm; cbn [hw_txf hw_dma hw_sm hw_error length].
      * destruct (Nat.ltb_spec (length f) (S (length f))) as [L|L]; [|lia]. cbn [hd accepted_since taken_since rejected_since answers_ok one_at_a_time phase_after].
        split; [intros acc tk ->; rewrite <- app_assoc; reflexivity|]. repeat (split; [first [reflexivity|exact I|lia|auto]|]). reflexivity.
      * rewrite Nat.ltb_irrefl. cbn. repeat (split; [first [reflexivity|auto]|]); reflexivity.
      * rewrite Nat.ltb_irrefl. cbn. repeat (split; [first [reflexivity|auto]|]); reflexivity.
    + destruct sm; cbn; repeat (split; [first [reflexivity|auto]|]); reflexivity.
    + destruct sm; cbn; repeat (split; [first [reflexivity|auto]|]); reflexivity.
Qed.
Lemma run_ok l : Forall msg32 l -> exists h o, u_run hw_new l = Ok (h, o) /\
  accepted_since o [] = taken_since o [] ++ hw_txf h ++ hw_dma h /\ hw_error h = rejected_since o false /\ answers_ok o false /\ (length (hw_txf h) <= 8)%nat /\
  one_at_a_time o SmIdle /\ phase_after o SmIdle = hw_sm h.
Proof.
  induction l as [|op l IH] using rev_ind; intros F.
  - exists hw_new, []. cbn. repeat (split; [first [reflexivity|lia|auto]|]). reflexivity.
  - apply Forall_app in F as (F1 & F2). inversion F2 as [|? ? M _]; subst. destruct (IH F1) as (h & o & E & I1 & I2 & I3 & I4 & I5 & I6).
    destruct (step_ok h op M) as (h' & o' & E' & _ & S1 & S2 & S3 & S4 & S5 & S6). exists h', (o ++ o').
    rewrite run_snoc, E. cbn [bind]. rewrite E'. cbn [bind]. split; [reflexivity|].
    rewrite accepted_app, taken_app, rejected_app, answers_app, one_app, phase_app, I6, <- I2.
    split; [apply S1; exact I1|]. auto 10.
Qed.
