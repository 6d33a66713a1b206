(** P_SystemAnswer.v -- a request on the line is answered (C108). *)
From Verif Require Import Base M_Fifo M_Message M_Standalone S_Crc S_Ctrl D_Ctrl M_Tx M_HostUart M_Led M_Adc M_Clock S_Dsp S_Pio M_Core1 S_Core1 D_Core1 S_Adc D_Adc D_Core1Adc S_Front S_Slow S_Analog
  M_Core0 S_Core0 D_Core0 D_Message M_System S_System S_SysTime P_Core0 P_Core0Run P_Core0Main P_Core0Bus P_Core0Answer P_System P_SystemRx P_SystemTimed.

Lemma to_ctrl_split : forall l ms1 m ms2, to_ctrl l = ms1 ++ m :: ms2 -> exists x t y, l = x ++ (t, A_receive m) :: y /\ to_ctrl x = ms1.
Proof.
  unfold to_ctrl. induction l as [|(t & a) l IH]; intros ms1 m ms2 E; [destruct ms1; discriminate|]. cbn [flat_map snd] in E.
  destruct (match a with A_receive m0 => Some m0 | _ => None end) as [m0|] eqn:Ea.
  - destruct a; try discriminate. injection Ea as ->. cbn [app] in E. destruct ms1 as [|m1 ms1]; cbn [app] in E; injection E as -> E.
    + exists [], t, l. auto.
    + destruct (IH _ _ _ E) as (x & t2 & y & -> & Hx). exists ((t, A_receive m1) :: x), t2, y. split; [reflexivity|]. cbn [flat_map snd app]. rewrite Hx. reflexivity.
  - assert (X : (match a with A_receive m => [m] | _ => [] end) = []) by (destruct a; try reflexivity; discriminate). rewrite X in E. cbn [app] in E.
    destruct (IH _ _ _ E) as (x & t2 & y & -> & Hx). exists ((t, a) :: x), t2, y. split; [reflexivity|]. cbn [flat_map snd]. rewrite X, Hx. reflexivity.
Qed.
Lemma concat_split {A} : forall (ls : list (list A)) x a y, concat ls = x ++ a :: y -> exists l1 p q l2, ls = l1 ++ (p ++ a :: q) :: l2 /\ x = concat l1 ++ p.
Proof.
  induction ls as [|l ls IH]; intros x a y E; [destruct x; discriminate|]. cbn [concat] in E. revert l E. induction x as [|b x IHx]; intros l E.
  - destruct l as [|c l]; cbn [app] in E.
    + destruct (IH [] a y E) as (l1 & p & q & l2 & -> & Hx). exists ([] :: l1), p, q, l2. auto.
    + injection E as -> E. exists [], [], l, ls. auto.
  - destruct l as [|c l]; cbn [app] in E.
    + destruct (IH (b :: x) a y E) as (l1 & p & q & l2 & -> & Hx). exists ([] :: l1), p, q, l2. auto.
    + injection E as -> E. destruct (IHx l E) as (l1 & p & q & l2 & El & Hx). destruct l1 as [|l0 l1]; cbn [app] in El.
      * injection El as -> ->. exists [], (b :: p), q, l2. cbn in *. split; [reflexivity|]. rewrite Hx. reflexivity.
      * injection El as -> ->. exists ((b :: l0) :: l1), p, q, l2. split; [reflexivity|]. cbn. rewrite Hx. reflexivity.
Qed.
Lemma run_cut b l1 i l2 s o : core0_run b (l1 ++ i :: l2) = Ok (s, o) -> exists s0 o1 s1 log o2, core0_run b l1 = Ok (s0, o1) /\ core0_step s0 i = Ok (s1, log) /\ o = o1 ++ log :: o2 /\ length o1 = length l1.
Proof.
  unfold core0_run. intros E. bstep E. rewrite E0. cbn [bind]. rewrite mrun_app in E. bstep E. destruct x0 as (s0 & o1). bstep E. destruct x0 as (s2 & o2). injection E as <- <-. cbn [mrun] in E2. bstep E2. destruct x0 as (s1 & log).
  bstep E2. destruct x0 as (s3 & o3). injection E2 as <- <-. exists s0, o1, s1, log, o3. split; [exact E1|]. split; [exact E|]. split; [reflexivity|]. exact (mrun_length _ _ _ _ _ E1).
Qed.

Lemma sys_core0 b mem e0 l s outs : Forall sys_ok l -> input_ok (text (sys_loop_inputs l)) -> sys_run b mem e0 l = Ok (s, outs) ->
  core0_run b (map fst (loops outs)) = Ok (y_c0 s, map snd (loops outs)) /\ Forall in_ok (map fst (loops outs)) /\ input_ok (text (map fst (loops outs))).
Proof.
  intros F T E. destruct (sys_split b mem e0 l s outs F E) as (k0 & rs & evs & lo & o0 & _ & _ & _ & A4 & A5 & A6 & A7 & _). destruct (duo_core0 b lo _ _ _ A7 A4) as (R & I & _ & Tx & _). rewrite A5 in *.
  split; [exact R|]. split; [exact I|]. rewrite Tx, A6. exact T.
Qed.
Lemma system_answered b its s ms1 m ms2 : boot_ok b -> Forall in_ok (map fst its) -> input_ok (text (map fst its)) -> core0_run b (map fst its) = Ok (s, map snd its) ->
  to_ctrl (concat (map snd its)) = ms1 ++ m :: ms2 ->
  exists h1 i log h2 s0 s1 pre post, its = h1 ++ (i, log) :: h2 /\ core0_run b (map fst h1) = Ok (s0, map snd h1) /\ core0_step s0 i = Ok (s1, log) /\
    log = pre ++ (in_now i, A_receive m) :: post /\ to_ctrl (concat (map snd h1) ++ pre) = ms1 /\
    (tx_is_idle (z_sm s0) = true -> forall k os, steps (controller0 (b_ctrl b)) (map fst (flat_map ctrl_part (concat (map snd h1) ++ pre))) k os ->
      k_phase k = Operation -> request (k_addr k) (packet_of m) ->
      exists a, wakes log = [a] /\ (answer (k_addr k) (packet_of m) (payload a) \/ In (in_now i, A_pop (in_junk i) a) log)).
Proof.
  intros B F T E C. destruct (to_ctrl_split _ _ _ _ C) as (x & t & y & Ex & Hx). destruct (concat_split _ _ _ _ Ex) as (o1 & pre & post & o2 & Eo & Ep).
  assert (S : exists h1 i h2, its = h1 ++ (i, pre ++ (t, A_receive m) :: post) :: h2 /\ map snd h1 = o1).
  { clear - Eo. revert o1 Eo. induction its as [|(i & lg) its IH]; intros o1 Eo; [destruct o1; discriminate|]. destruct o1 as [|l1 o1]; cbn [map snd app] in Eo; injection Eo as -> Eo.
    - exists [], i, its. auto.
    - destruct (IH o1 Eo) as (h1 & j & h2 & -> & <-). exists ((i, l1) :: h1), j, h2. auto. }
  destruct S as (h1 & i & h2 & -> & <-). rewrite !map_app in E, F, T. cbn [map fst snd] in E, F, T. destruct (run_cut _ _ _ _ _ _ E) as (s0 & o1 & s1 & log & o3 & R1 & R2 & R3 & R4).
  assert (X : o1 = map snd h1 /\ log = pre ++ (t, A_receive m) :: post).
  { assert (L : length (map snd h1) = length o1) by (rewrite R4, !map_length; reflexivity). rewrite map_app in R3; cbn [map snd] in R3; apply app_inj_len in R3 as (<- & R3); [|exact L]. injection R3 as <- _. auto. }
  destruct X as (-> & ->). destruct (receive_free s0 i s1 _ t m R2 ltac:(apply in_or_app; right; left; reflexivity)) as (_ & ->).
  exists h1, i, (pre ++ (in_now i, A_receive m) :: post), h2, s0, s1, pre, post. split; [reflexivity|]. split; [exact R1|]. split; [exact R2|]. split; [reflexivity|]. split; [rewrite <- Ep; exact Hx|].
  intros Hi k os St Ph Rq. change (i :: map fst h2) with ([i] ++ map fst h2) in F, T. rewrite app_assoc in F, T. apply Forall_app in F as (F & _). rewrite text_app in T. apply input_ok_prefix in T.
  destruct (answered b (map fst h1) i s0 _ s1 _ pre (in_now i) m post k os B F T R1 R2 eq_refl St Ph Rq Hi) as (a & W & An & _). exists a. auto.
Qed.
