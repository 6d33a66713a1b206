(** P_SlowCut.v -- a packet that takes too many samples is cut in two, at any sampling rate (C101). *)
From Verif Require Import Base M_ShiftReg M_Dsp M_Uart M_Pio M_Core1 S_Containers S_Dsp S_Line S_Pio S_Core1 S_Noise S_Slow D_Uart D_Chain D_Core1
  P_Containers P_Dsp P_Uart P_UartRun P_UartErr P_Pio P_PioTc P_Chain P_Core1 P_Core1Chain P_NoiseDet P_NoiseChar P_NoiseRun P_Noise
  P_SlowDet P_SlowChar P_SlowRun P_Slow.

Lemma srest_cut T : forall cs e c i, slens cs -> 0 <= i -> e <= c <= e + 9 -> cs <> [] ->
  i < send e cs - 165 - c - 169 * (Z.of_nat (length cs) - 1) ->
  exists b1 x b2 more, map sc_byte cs = b1 ++ x :: b2 /\ snd (trun (true, i) (sobs c e cs T)) = lbytes b1 ++ LFree :: LBusy :: LByte x false :: more.
Proof.
  induction cs as [|y cs IH]; intros e c i Hf Hi Hc Hn Hq; [easy|].
  inversion Hf as [|? ? (F1 & F2) F3]; subst. destruct y as [g b f w]. cbn [sc_gap sc_byte sc_at sc_len] in *.
  cbn [sobs send length map sc_gap sc_byte sc_at sc_len] in *. cbv zeta. rewrite trun_char by (cbn [snd]; lia).
  set (t := e + Z.of_nat g) in *. rewrite Z2Nat.id by (unfold t; lia).
  unfold gapw. cbn [fst snd]. destruct (Z.leb_spec (t + f - c + 1) i) as [L|L].
  - cbn [fst snd]. assert (N : cs <> []).
    { intros ->. cbn [send length] in Hq. change (Z.of_nat 1) with 1 in Hq. lia. }
    destruct (IH (t + w) (t + f + 170) (i - (t + f - c + 1)) F3 ltac:(lia) ltac:(lia) N ltac:(lia)) as (b1 & x & b2 & more & M & R).
    exists (b :: b1), x, b2, more. split; [rewrite M; reflexivity|]. destruct (trun (true, _) _) as [s2 l2]. cbn [snd] in *. rewrite R. reflexivity.
  - cbn [fst snd]. destruct (trun (true, 176) _) as [s2 l2]. exists [], b, (map sc_byte cs), l2. split; [reflexivity|]. reflexivity.
Qed.
Lemma scut T g b f w cs e c : slens (SCH g b f w :: cs) -> (177 <= g)%nat -> e <= c <= e + 9 -> 
  169 * Z.of_nat (S (length cs)) + 186 < send 0 (SCH 0 b f w :: cs) ->
  exists b1 x b2 more, b :: map sc_byte cs = b1 ++ x :: b2 /\ b1 <> [] /\
    snd (trun (true, 176) (sobs c e (SCH g b f w :: cs) T)) = LFree :: LBusy :: lbytes b1 ++ LFree :: LBusy :: LByte x false :: more.
Proof.
  intros Hf Hg Hc Hq. inversion Hf as [|? ? (F1 & F2) F3]; subst. cbn [sc_gap sc_byte sc_at sc_len] in *.
  cbn [sobs send sc_gap sc_byte sc_at sc_len] in *. cbv zeta. rewrite trun_char by (cbn [snd]; lia).
  set (t := e + Z.of_nat g) in *. rewrite Z2Nat.id by (unfold t; lia).
  unfold gapw. cbn [fst snd]. destruct (Z.leb_spec (t + f - c + 1) 176) as [L|L]; [unfold t in *; lia|]. cbn [fst snd].
  change (0 + Z.of_nat 0 + w) with (0 + w) in Hq.
  assert (Es : send (t + w) cs = t + send (0 + w) cs).
  { replace (t + w) with (0 + w + t) by lia. rewrite send_shift. lia. }
  assert (N : cs <> []).
  { intros ->. cbn [send length] in Hq. change (Z.of_nat 1) with 1 in Hq. lia. }
  destruct (srest_cut T cs (t + w) (t + f + 170) 176 F3 ltac:(lia) ltac:(lia) N ltac:(lia)) as (b1 & x & b2 & more & M & R).
  destruct (trun (true, 176) _) as [s2 l2]. cbn [snd] in *.
  exists (b :: b1), x, b2, more. split; [rewrite M; reflexivity|]. split; [discriminate|]. rewrite R. reflexivity.
Qed.

Lemma slow_cut e0 idle b r sg P Q Ef n vs ys tail : (177 <= length idle)%nat -> Z.of_nat (length idle) < 4294960000 -> bounded 599 idle ->
  (200 <= length tail)%nat -> Z.of_nat (length tail) < 4294960000 -> bounded 599 tail ->
  Forall (fun x => 0 <= x < 256) (b :: map snd r) -> Forall (fun c => Z.of_nat (fst c) < 4294960000) r ->
  sg = 1 \/ sg = -1 -> clear_fall P Q Ef -> thinned n (waves ((0%nat, b) :: r)) vs -> follows P Q 0 (map (Z.mul sg) vs) ys -> falls Ef 0 (map (Z.mul sg) vs) ys ->
  169 * (1 + Z.of_nat (length r)) + 186 < Z.of_nat (length ys) ->
  exists c c' es b1 x b2 more, lchain_new e0 = Ok c /\ mrun lchain_step c (idle ++ ys ++ tail) = Ok (c', es) /\
    b :: map snd r = b1 ++ x :: b2 /\ b1 <> [] /\ log_of es = LFree :: LBusy :: lbytes b1 ++ LFree :: LBusy :: LByte x false :: more.
Proof.
  intros G1 G2 GB T1 T2 TB Hby Hgp Hs Hc Ht F Fl Hlen.
  destruct (level_quiet_run idle GB) as (z0 & E0 & S0 & L0). destruct (level_quiet_run tail TB) as (z2 & E2 & S2 & L2).
  assert (Bk : bytes_ok ((0%nat, b) :: r)).
  { inversion Hby as [|? ? B1 B2]; subst. constructor; [exact B1|]. rewrite Forall_map in B2. exact B2. }
  destruct (thinned_waves sg _ _ _ Bk Ht) as (ds & Ev & Mb & Mg). rewrite Ev in F, Fl.
  assert (Hq : qbytes ds).
  { apply (Forall_map qc_byte (fun x => 0 <= x < 256) ds). rewrite Mb. exact Hby. }
  destruct (sw_shape sg ds Hs Hq) as (G & Fi & U). pose proof Hc as (HP & HR & HQ & HE & _).
  destruct (level_run_E P Q _ HP HQ U 0 0 0 ys (or_introl eq_refl) (or_introl eq_refl) G eq_refl (follows_E _ _ _ _ _ F))
    as (st & z1 & E1 & S1 & F1).
  rewrite Fi in S1. cbn in S1. subst st.
  pose proof (level_falls Ef _ ltac:(lia) 0 0 ys 0 z1 (or_introl eq_refl) U E1 Fl) as Fl1.
  assert (L1 : length z1 = length ys).
  { rewrite (followsE_length _ _ _ _ _ _ F1). symmetry. apply (followsE_length _ _ _ _ _ _ (follows_E _ _ _ _ _ F)). }
  set (zs := z0 ++ z1 ++ z2). set (z := zat zs).
  assert (Ll : Z.of_nat (length zs) = Z.of_nat (length z0) + Z.of_nat (length z1) + Z.of_nat (length z2)) by (unfold zs; rewrite !app_length; lia).
  assert (Rz : mrun (lv_update (fun z => z)) 0 (idle ++ ys ++ tail) = Ok (0, zs)).
  { rewrite mrun_app, E0; cbn [bind]; rewrite mrun_app, E1; cbn [bind]; rewrite E2; reflexivity. }
  assert (Bd : bounded 4681 zs).
  { apply bounded_app. split; [apply small_bounded; exact S0|]. apply bounded_app. split; [|apply small_bounded; exact S2].
    eapply within_bound with (p := 0); [exact HQ| |exact U|auto|exact F1]. lia. }
  pose proof (agree_zat zs) as A. fold z in A. apply agree_app in A as (A0 & A). apply agree_app in A as (A1 & A2).
  pose proof (lead_zat zs) as Le. fold z in Le. pose proof (zat_bnd zs Bd) as Bz. fold z in Bz.
  set (t := 0 + Z.of_nat (length z0)) in *.
  assert (Sz : forall i, 0 <= i < t -> small (z i)) by (apply (agree_small z 0 z0); auto).
  assert (Lt : lead z t) by (apply (lead_gap z 0 t); auto; unfold t; lia).
  pose proof (lead_after P Q sg z ds Hs Hq t z1 F1 A1 Lt) as L3.
  assert (Sp0 : splaced (det z) (t + Z.of_nat (length z1)) []).
  { cbn [splaced]. intros i Hi. apply det_nothing. intros j Hj.
    destruct (Z_lt_ge_dec j (t + Z.of_nat (length z1))); [apply L3; lia|]. destruct (Z_lt_ge_dec j (Z.of_nat (length zs))).
    - apply (agree_small z (t + Z.of_nat (length z1)) z2); auto. unfold t in *. lia.
    - unfold z. rewrite zat_over by lia. unfold small; lia. }
  assert (Bt : bnd z t) by (intros i Hi; apply Bz; unfold t in Hi; lia).
  destruct (placed_pre P Q Ef sg z ds [] Hs Hc Hq t z1 Bt F1 Fl1 A1 Lt Sp0) as (cs & M1 & M2 & Sp & Se). rewrite app_nil_r in Sp.
  destruct ds as [|[[g' b'] q'] dr]; [discriminate Mb|]. cbn [map qc_byte qc_gap fst snd] in *. injection Mb as -> Mb.
  inversion Mg as [|? ? ? ? Mg1 Mg2]; subst. cbn in Mg1. assert (g' = 0%nat) by lia. subst g'.
  destruct cs as [|[g'' b'' f w] cr]; [discriminate M1|]. cbn [map sc_byte sc_gap] in *. injection M1 as -> M1. injection M2 as -> M2.
  assert (SL : slens (SCH 0 b f w :: cr)) by (apply splaced_lens in Sp; exact Sp).
  assert (Sn : send 0 (SCH 0 b f w :: cr) = Z.of_nat (length z1)).
  { pose proof (send_shift (SCH 0 b f w :: cr) 0 t) as X. rewrite Z.add_0_l, Se in X. lia. }
  assert (Lr : length cr = length r).
  { transitivity (length (map sc_byte cr)); [symmetry; apply map_length|]. rewrite M1, Mb. apply map_length. }
  assert (Sp' : splaced (det z) 0 (SCH (length z0) b f w :: cr)).
  { cbn [splaced sc_gap sc_byte sc_at sc_len] in *. fold t. destruct Sp as (_ & Sp). rewrite Z.add_0_r in Sp.
    split; [apply det_gap; auto|exact Sp]. }
  assert (Se' : send 0 (SCH (length z0) b f w :: cr) = t + Z.of_nat (length z1)).
  { cbn [send sc_gap sc_len] in *. fold t. rewrite Z.add_0_r in Se. exact Se. }
  assert (Hg : sgaps_from 0 (SCH (length z0) b f w :: cr)).
  { constructor; [cbn [sc_gap]; lia|]. apply (Forall_map sc_gap (fun g => 0 + Z.of_nat g < 4294967000) cr). rewrite M2.
    clear - Mg2 Hgp. induction Mg2 as [|d c ds cs H1 H2 IH]; [constructor|]. inversion Hgp; subst. cbn [map]. constructor; [lia|auto]. }
  destruct (line_of_splaced e0 _ zs _ Rz Bd Sp' Hg ltac:(rewrite Se'; unfold t in *; lia) ltac:(rewrite Se'; unfold t in *; lia)) as (c & c' & es & X1 & X2 & X3).
  destruct (scut (Z.of_nat (length zs)) (length z0) b f w cr 0 1) as (b1 & x & b2 & more & Y1 & Y2 & Y3).
  { apply splaced_lens in Sp'. exact Sp'. }
  { lia. } { lia. }
  { rewrite Sn, L1, Lr. lia. }
  exists c, c', es, b1, x, b2, more. split; [exact X1|]. split; [exact X2|]. split; [rewrite <- Y1, M1, Mb; reflexivity|]. split; [exact Y2|].
  rewrite X3, Y3. reflexivity.
Qed.
