(** P_Led.v -- proofs for C62, C63. *)
From Verif Require Import Base M_Led S_Led.

Definition note_run (evs : list led_event) (n : mgr_state) : mgr_state := fold_left lm_note evs n.
(** The state the manager remembers, as a function of the events. *)
Definition remembered (evs : list led_event) : mgr_state :=
  match last_of is_fatal evs with
  | Some EvBusError => LM_BUS_ERROR
  | Some _ => LM_SYSTEM_ERROR
  | None => match last_of is_failure evs with
      | Some EvErrorRx => LM_RX_ERROR
      | Some _ => LM_TX_ERROR
      | None => match seen (fun e => match e with EvActivityRx => true | _ => false end) evs, seen (fun e => match e with EvActivityTx => true | _ => false end) evs with
          | false, false => LM_IDLE | true, false => LM_RX | false, true => LM_TX | true, true => LM_RX_TX end
      end
  end.
Lemma last_snoc f evs e : last_of f (evs ++ [e]) = if f e then Some e else last_of f evs.
Proof.
  unfold last_of. rewrite filter_app. cbn [filter]. destruct (f e); [rewrite rev_app_distr; reflexivity|rewrite app_nil_r; reflexivity].
Qed.
Lemma seen_snoc p evs e : seen p (evs ++ [e]) = seen p evs || p e.
Proof. unfold seen. rewrite existsb_app. cbn. rewrite orb_false_r. reflexivity. Qed.
Lemma last_is f evs e : last_of f evs = Some e -> f e = true.
Proof.
  unfold last_of. destruct (rev (filter f evs)) as [|x l] eqn:E; [discriminate|]. intros H; injection H as ->.
  assert (I : In e (filter f evs)) by (apply in_rev; rewrite E; left; auto). apply filter_In in I. apply I.
Qed.
Lemma note_remembered evs : note_run evs LM_IDLE = remembered evs.
Proof.
  induction evs as [|e evs IH] using rev_ind; [reflexivity|].
  unfold note_run in *. rewrite fold_left_app, IH. cbn [fold_left]. unfold remembered. rewrite !last_snoc, !seen_snoc.
  destruct (last_of is_fatal evs) as [x|] eqn:E1; [apply last_is in E1|]; (destruct (last_of is_failure evs) as [y|] eqn:E2; [apply last_is in E2|]);
  repeat match goal with |- context [seen ?p evs] => destruct (seen p evs) end;
  try (destruct x; try discriminate); try (destruct y; try discriminate); destruct e; reflexivity.
Qed.
Lemma run_new evs : forall m, no_update evs -> lm_new (fold_left lm_step evs m) = note_run evs (lm_new m) /\ panel_of (fold_left lm_step evs m) = panel_of m.
Proof.
  induction evs as [|e evs IH]; intros m N; [auto|]. inversion N as [|? ? N1 N2]; subst. cbn [fold_left note_run].
  destruct (IH (lm_step m e) N2) as (I1 & I2). rewrite I1, I2. unfold note_run. cbn [fold_left].
  assert (T : forall d, ld_state (led_tick d) = ld_state d) by (intros d; unfold led_tick; destruct (ld_state d); auto; destruct (_ =? 5); auto).
  destruct e; try contradiction; cbn [lm_step lm_new lm_note]; split; auto; unfold panel_of; cbn [lm_r lm_p lm_t]; rewrite ?T; auto.
Qed.
Lemma set_mode d s : ld_state (led_set d s) = s.
Proof. unfold led_set. destruct (ld_state d) eqn:E, s; cbn; auto. Qed.
Lemma update_panel evs m : no_update evs -> lm_new m = LM_IDLE -> panel_of (fold_left lm_step (evs ++ [EvTick500]) m) = documented_panel evs.
Proof.
  intros N Hm. rewrite fold_left_app. cbn [fold_left]. destruct (run_new evs m N) as (E & _). rewrite Hm, note_remembered in E.
  set (m1 := fold_left lm_step evs m) in *. cbn [lm_step]. rewrite E. unfold panel_of, documented_panel, remembered.
  destruct (last_of is_fatal evs) as [x|] eqn:E1; [apply last_is in E1|].
  { destruct x; try discriminate; cbn [lm_pattern lm_r lm_p lm_t]; rewrite !set_mode; reflexivity. }
  destruct (last_of is_failure evs) as [y|] eqn:E2; [apply last_is in E2|].
  { destruct y; try discriminate; cbn [lm_pattern lm_r lm_p lm_t]; rewrite !set_mode; reflexivity. }
  destruct (seen (fun e => match e with EvActivityRx => true | _ => false end) evs), (seen (fun e => match e with EvActivityTx => true | _ => false end) evs);
    cbn [lm_pattern lm_r lm_p lm_t]; rewrite !set_mode; reflexivity.
Qed.
Lemma led_panel pre evs : no_update evs -> pre = [] \/ (exists p, pre = p ++ [EvTick500]) ->
  panel_of (lm_run (pre ++ evs ++ [EvTick500])) = documented_panel evs.
Proof.
  intros N Hp. unfold lm_run. rewrite fold_left_app. apply update_panel; auto.
  destruct Hp as [->|(p & ->)]; [reflexivity|]. rewrite fold_left_app. cbn [fold_left lm_step]. destruct (lm_pattern _) as ((? & ?) & ?). reflexivity.
Qed.
Lemma led_stays pre evs : no_update evs -> panel_of (lm_run (pre ++ evs)) = panel_of (lm_run pre).
Proof. intros N. unfold lm_run. rewrite fold_left_app. apply run_new; auto. Qed.

(** ** Blinking *)
Lemma div5_step c k : (c < 5)%nat -> ((5 * k + c) / 5 = k)%nat.
Proof. intros H. rewrite Nat.add_comm, Nat.mul_comm, Nat.div_add, Nat.div_small by lia. reflexivity. Qed.
Definition phase (s : led_state) (n : nat) (d : led) : Prop :=
  ld_state d = s /\ ld_pin d = lit s n /\ (s = LED_BLINK_SLOW -> ld_counter d = Z.of_nat (n mod 5)).
Lemma blink_run s : forall ops n d, keeps s ops -> phase s n d -> phase s (n + ticks ops)%nat (led_run ops d).
Proof.
  induction ops as [|o ops IH]; intros n d K P; [cbn; rewrite Nat.add_0_r; exact P|].
  inversion K as [|? ? K1 K2]; subst. cbn [led_run fold_left]. destruct o as [s'|]; cbn [led_do] in *.
  - subst s'. change (ticks (DoSet s :: ops)) with (ticks ops). apply IH; auto.
    destruct P as (P1 & P2 & P3). unfold led_set. rewrite P1. replace (led_state_eqb s s) with true by (destruct s; reflexivity). cbn. split; auto.
  - replace (n + ticks (DoTick :: ops))%nat with (S n + ticks ops)%nat by (cbn; unfold ticks; lia). apply IH; auto.
    destruct P as (P1 & P2 & P3). unfold led_tick. rewrite P1. destruct s.
    + split; [reflexivity|]. split; [reflexivity|discriminate].
    + split; [reflexivity|]. split; [reflexivity|discriminate].
    + rewrite (P3 eq_refl). pose proof (Nat.div_mod n 5 ltac:(lia)) as Dn. pose proof (Nat.mod_upper_bound n 5 ltac:(lia)) as Bn.
      set (q := (n / 5)%nat) in *. set (c := (n mod 5)%nat) in *. assert (Ec : u8 (Z.of_nat c + 1) = Z.of_nat (S c)) by (unfold u8; rewrite Z.mod_small; lia). rewrite Ec.
      destruct (Z.eqb_spec (Z.of_nat (S c)) 5) as [E5|N5].
      * assert (Eq : (S n / 5 = S q)%nat) by (replace (S n) with (5 * S q + 0)%nat by lia; apply div5_step; lia).
        assert (Em : (S n mod 5 = 0)%nat) by (pose proof (Nat.div_mod (S n) 5 ltac:(lia)); lia).
        split; [reflexivity|]. cbn [ld_pin ld_counter]. split; [|intros _; rewrite Em; reflexivity].
        rewrite P2. unfold lit. fold q. rewrite Eq, Nat.odd_succ, Nat.negb_odd. reflexivity.
      * assert (Eq : (S n / 5 = q)%nat) by (replace (S n) with (5 * q + S c)%nat by lia; apply div5_step; lia).
        assert (Em : (S n mod 5 = S c)%nat) by (pose proof (Nat.div_mod (S n) 5 ltac:(lia)); lia).
        split; [reflexivity|]. cbn [ld_pin ld_counter]. split; [|intros _; rewrite Em; reflexivity].
        rewrite P2. unfold lit. fold q. rewrite Eq. reflexivity.
    + split; [reflexivity|]. cbn [ld_pin]. split; [|discriminate]. rewrite P2. unfold lit. rewrite Nat.odd_succ, Nat.negb_odd. reflexivity.
Qed.
Lemma blink_from hist s ops : ld_state (led_run hist led_new) <> s -> keeps s ops ->
  ld_pin (led_run (hist ++ [DoSet s] ++ ops) led_new) = lit s (ticks ops).
Proof.
  intros Hs K. unfold led_run in *. rewrite !fold_left_app. cbn [fold_left led_do].
  set (d := fold_left led_do hist led_new) in *. assert (P : phase s 0 (led_set d s)).
  { unfold led_set. assert (E : led_state_eqb (ld_state d) s = false) by (destruct (ld_state d), s; auto; congruence). rewrite E. cbn [negb].
    destruct s; split; try reflexivity; split; try reflexivity; discriminate. }
  pose proof (blink_run s ops 0 _ K P) as X. apply X.
Qed.
