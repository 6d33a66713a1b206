(** P_Core1Adc.v -- the receive core as ADC, decoder chain and queue. *)
From Verif Require Import Base M_ShiftReg M_Dsp M_Uart M_Adc M_Core1 S_Dsp S_Core1 D_Core1 P_Core1 S_Adc D_Adc D_Core1Adc.

Lemma no_news_nonzero e : no_news e = negb (ev_nonzero e).
Proof. unfold no_news, ev_nonzero. destruct e as [c v r b f d]; cbn. destruct (c =? 0), v, r, b, f, d; reflexivity. Qed.

Lemma last_step {A} (e d : A) l : last (e :: l) d = last l e.
Proof. revert e d. induction l as [|x l IH]; intros e d; [reflexivity|]. change (last (e :: x :: l) d) with (last (x :: l) d). rewrite !IH. reflexivity. Qed.
Lemma c1_parts l : forall s s' outs, mrun c1_step s l = Ok (s', outs) ->
  exists a' rs k' evs, mrun adc_guarded (c1_adc s) (map adc_part l) = Ok (a', rs) /\
    mrun core1_sample (c1_chain s) (good rs) = Ok (k', evs) /\ a' = c1_adc s' /\ k' = c1_chain s' /\
    length (produced rs evs) = length (rooms l) /\
    iterations outs = queued (c1_pend s) (rooms l) (produced rs evs) /\ c1_pend s' = last (produced rs evs) (c1_pend s).
Proof.
  induction l as [|i t IH]; intros s s' outs E; cbn [mrun map] in *.
  { inversion E; subst. exists (c1_adc s'), [], (c1_chain s'), []. auto 10. }
  destruct (c1_step s i) as [[s1 o]|] eqn:E1; cbn [bind] in E; [|discriminate].
  destruct (mrun c1_step s1 t) as [[s2 os]|] eqn:E2; cbn [bind] in E; [|discriminate]. inversion E; subst s2 outs. clear E.
  destruct (IH _ _ _ E2) as (a' & rs & k' & evs & A & B & Ea & Ek & L & Q & P). clear IH E2.
  destruct i as [v|ch1 w]; cbn [c1_step adc_part] in *.
  - inversion E1; subst s1 o. clear E1. cbn [c1_adc c1_chain c1_pend] in *. unfold adc_guarded at 1. cbn [adc_event bind].
    rewrite A. cbn [bind]. exists a', (None :: rs), k', evs. cbn [good flat_map app produced rooms iterations]. auto 10.
  - unfold adc_guarded at 1. cbn [adc_event]. unfold adc_poll.
    destruct (adc_update ch1 (c1_adc s)) as [[a1 r]|] eqn:Eu; cbn [bind] in *; [|discriminate].
    assert (Hq : forall inp k pend pushed ferr, core1_iter (c1_chain s) (c1_pend s) w inp = Ok (k, pend, pushed, ferr) ->
      (pushed, ferr) = (if no_news (c1_pend s) then (None, false) else if w then (Some (c1_pend s), false) else (None, true))).
    { intros inp k pend pushed ferr Ei. destruct (core1_iter_fifo _ _ _ _ _ _ _ _ Ei) as (-> & ->). rewrite no_news_nonzero.
      destruct (ev_nonzero (c1_pend s)), w; reflexivity. }
    destruct r as [v|]; cbn [adc_read_error bind] in *.
    + destruct (ad_error a1) eqn:Er.
      * destruct (core1_iter (c1_chain s) (c1_pend s) w SampleErr) as [[[[k pend] pushed] ferr]|] eqn:Ei; cbn [bind] in E1; [|discriminate].
        specialize (Hq _ _ _ _ _ Ei). inversion E1; subst s1 o. clear E1. cbn [c1_adc c1_chain c1_pend] in *.
        assert (k = c1_chain s /\ pend = adc_fault) as [-> ->].
        { unfold core1_iter in Ei. destruct (if ev_nonzero _ then _ else _) in Ei. inversion Ei; auto. }
        rewrite A. cbn [bind]. eexists a', (Some (Some (v, true)) :: rs), k', evs.
        cbn [good flat_map app produced rooms iterations queued length]. fold (rooms t) (iterations os). rewrite Q, Hq, last_step. auto 12.
      * destruct (core1_iter (c1_chain s) (c1_pend s) w (M_Core1.Sample v)) as [[[[k pend] pushed] ferr]|] eqn:Ei; cbn [bind] in E1; [|discriminate].
        specialize (Hq _ _ _ _ _ Ei). inversion E1; subst s1 o. clear E1. cbn [c1_adc c1_chain c1_pend] in *.
        assert (Es : core1_sample (c1_chain s) v = Ok (k, pend)).
        { unfold core1_iter in Ei. destruct (if ev_nonzero _ then _ else _) in Ei. destruct (core1_sample (c1_chain s) v) as [[k1 p1]|]; cbn [bind] in Ei; inversion Ei; auto. }
        rewrite A. cbn [bind]. eexists a', (Some (Some (v, false)) :: rs), k', (pend :: evs).
        cbn [good flat_map app produced rooms iterations queued length mrun]. fold (good rs) (rooms t) (iterations os). rewrite Es. cbn [bind]. rewrite B, Q, Hq, last_step. cbn [bind]. auto 12.
    + destruct (core1_iter (c1_chain s) (c1_pend s) w NoSample) as [[[[k pend] pushed] ferr]|] eqn:Ei; cbn [bind] in E1; [|discriminate].
      specialize (Hq _ _ _ _ _ Ei). inversion E1; subst s1 o. clear E1. cbn [c1_adc c1_chain c1_pend] in *.
      assert (k = c1_chain s /\ pend = ev_none) as [-> ->].
      { unfold core1_iter in Ei. destruct (if ev_nonzero _ then _ else _) in Ei. inversion Ei; auto. }
      rewrite A. cbn [bind]. eexists a', (Some None :: rs), k', evs.
      cbn [good flat_map app produced rooms iterations queued length]. fold (rooms t) (iterations os). rewrite Q, Hq, last_step. auto 12.
Qed.
Lemma c1_decomposed mem e0 l : length mem = 256%nat -> Forall (fun x => -255 <= x <= 255) mem -> Forall c1_good l ->
  exists k0 s s' outs a' rs k' evs, core1_new e0 = Ok k0 /\ c1_start mem e0 = Ok s /\ mrun c1_step s l = Ok (s', outs) /\
    mrun adc_guarded (adc_start mem firmware_gain) (map adc_part l) = Ok (a', rs) /\
    mrun core1_sample k0 (good rs) = Ok (k', evs) /\
    length (produced rs evs) = length (rooms l) /\
    iterations outs = queued ev_none (rooms l) (produced rs evs).
Proof.
  intros L R Hl. destruct (c1_safe mem e0 l L R Hl) as (s & s' & outs & E & Er).
  pose proof E as E'. unfold c1_start in E'. destruct (core1_new e0) as [k0|] eqn:Ek; cbn [bind] in E'; [|discriminate]. inversion E'; subst s. clear E'.
  destruct (c1_parts l _ _ _ Er) as (a' & rs & k' & evs & A & B & _ & _ & Ln & Q & _). cbn [c1_adc c1_chain c1_pend] in *.
  exists k0, (C1S (adc_start mem firmware_gain) k0 ev_none), s', outs, a', rs, k', evs.
  repeat (split; [first [assumption|reflexivity]|]). assumption.
Qed.
