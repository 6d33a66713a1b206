(** P_Core0Woken.v -- what a transmission is started with (C97 at the actual clocks). *)
From Verif Require Import Base M_Fifo M_Message S_Message D_Message M_Tx D_Tx M_HostUart D_Host S_Host M_Led M_Core1 M_Core0 S_Core0 D_Core0 P_Core0 P_Core0Run P_Core0Main P_Core0Bus.

Lemma wakes_part (log : list (Z * act)) m : In m (wakes log) -> exists t, In (t, Wake m) (flat_map tx_part log).
Proof.
  induction log as [|(u & a) log IH]; cbn [flat_map wakes snd]; [contradiction|]. fold (wakes log). intros H. apply in_app_or in H as [H|H].
  - destruct a; cbn in H; try contradiction; destruct H as [H|[]]. subst. exists u. left. reflexivity.
  - apply IH in H as (t & H). exists t. apply in_or_app; right; exact H.
Qed.
Lemma woken_ok b l i s o s' log m : boot_ok b -> Forall in_ok (l ++ [i]) -> input_ok (text (l ++ [i])) -> core0_run b l = Ok (s, o) -> core0_step s i = Ok (s', log) ->
  In m (wakes log) -> (1 <= length (payload m) <= 32)%nat /\ Forall (fun x => 0 <= x < 256) (payload m).
Proof.
  intros B F T E Es Hm.
  assert (E' : core0_run b (l ++ [i]) = Ok (s', o ++ [log])).
  { clear - E Es. unfold core0_run in *. bstep E. rewrite E0. cbn [bind]. rewrite mrun_app, E. cbn [bind mrun]. rewrite Es. reflexivity. }
  destruct (parts_run b (l ++ [i]) s' _ B F T E') as ((_ & A & _) & _). rewrite concat_app, flat_map_app in A. cbn [concat] in A. rewrite app_nil_r in A.
  apply Forall_app in A as (_ & A). apply wakes_part in Hm as (t & Hm). rewrite Forall_forall in A. specialize (A _ Hm). cbn in A.
  destruct A as ((L1 & L2 & L3) & L4). unfold payload. rewrite firstn_length. split; [lia|]. rewrite <- (firstn_skipn (m_length m)) in L3. apply Forall_app in L3 as (L3 & _). exact L3.
Qed.
