(** P_Dma.v -- the DMA channels (C131, C132). *)
From Verif Require Import Base M_Message M_Adc M_Tx M_Dma P_Adc P_Ctrl S_Dma.

Lemma load_store_same m a v : -32768 <= v <= 32767 -> load16 (store16 m a v) a = v.
Proof.
  intros H. unfold load16, store16, store8. cbv beta. rewrite Z.eqb_refl. destruct (Z.eqb_spec a (a + 1)); [lia|]. destruct (Z.eqb_spec (a + 1) (a + 1)); [|lia].
  unfold u8. rewrite Z.shiftr_div_pow2 by lia. change (2 ^ 8) with 256. unfold s16.
  assert (E : v mod 256 + 256 * ((v / 256) mod 256) = v mod 65536).
  { change 65536 with (256 * 256). rewrite Z.rem_mul_r by lia. reflexivity. }
  rewrite E. pose proof (Z.mod_pos_bound v 65536 ltac:(lia)). pose proof (Z.div_mod v 65536 ltac:(lia)) as D.
  set (q := v / 65536) in *. set (r := v mod 65536) in *. assert (Q : q = 0 \/ q = -1) by nia. destruct Q as [Q|Q]; rewrite Q in D.
  - rewrite (Z.mod_small (r + 32768)) by lia. lia.
  - assert (X : (r + 32768) mod 65536 = r - 32768) by (symmetry; apply (Z.mod_unique _ _ 1); lia). rewrite X. lia.
Qed.
Lemma load_store_other m a b v : b + 1 < a \/ a + 1 < b -> load16 (store16 m a v) b = load16 m b.
Proof.
  intros H. unfold load16, store16, store8. cbv beta. destruct (Z.eqb_spec b (a + 1)); [lia|]. destruct (Z.eqb_spec b a); [lia|].
  destruct (Z.eqb_spec (b + 1) (a + 1)); [lia|]. destruct (Z.eqb_spec (b + 1) a); [lia|]. reflexivity.
Qed.
Lemma array_nth m data i : (i < 256)%nat -> nth i (array m data) 0 = load16 m (data + 2 * Z.of_nat i).
Proof.
  intros H. unfold array. set (f := fun i => load16 m (data + 2 * Z.of_nat i)). rewrite (nth_indep _ 0 (f 0%nat)) by (rewrite map_length, seq_length; exact H).
  rewrite map_nth. rewrite seq_nth by exact H. reflexivity.
Qed.
Lemma array_length m data : length (array m data) = 256%nat.
Proof. unfold array. rewrite map_length, seq_length. reflexivity. Qed.
Lemma array_store m data w v : -32768 <= v <= 32767 -> (w < 256)%nat -> array (store16 m (data + 2 * Z.of_nat w) v) data = upd (array m data) w v.
Proof.
  intros Hv Hw. apply nth_ext with (d := 0) (d' := 0); [rewrite upd_length, !array_length; reflexivity|]. intros i Hi. rewrite array_length in Hi. rewrite array_nth by exact Hi.
  destruct (Nat.eq_dec w i) as [->|N].
  - rewrite load_store_same by exact Hv. rewrite nth_upd_eq by (rewrite array_length; exact Hi). reflexivity.
  - rewrite load_store_other by lia. rewrite nth_upd_neq by exact N. rewrite array_nth by exact Hi. reflexivity.
Qed.
Lemma wrapped_index data w : data mod 512 = 0 -> (w < 256)%nat -> wrapped (data + 2 * Z.of_nat w) = data + 2 * Z.of_nat ((w + 1) mod 256).
Proof.
  intros Hd Hw. unfold wrapped, RING_BITS, TRANSFER_SIZE. change (2 ^ 9) with 512. pose proof (Z.div_mod data 512 ltac:(lia)) as D. rewrite Hd in D.
  assert (E1 : (data + 2 * Z.of_nat w) mod 512 = 2 * Z.of_nat w) by (symmetry; apply (Z.mod_unique _ _ (data / 512)); lia). rewrite E1.
  destruct (Nat.eq_dec w 255) as [->|N].
  - assert (E2 : (data + 2 * Z.of_nat 255 + 2) mod 512 = 0) by (symmetry; apply (Z.mod_unique _ _ (data / 512 + 1)); lia). rewrite E2. change ((255 + 1) mod 256)%nat with 0%nat. lia.
  - assert (E2 : (data + 2 * Z.of_nat w + 2) mod 512 = 2 * Z.of_nat w + 2) by (symmetry; apply (Z.mod_unique _ _ (data / 512)); lia). rewrite E2. rewrite Nat.mod_small by lia. lia.
Qed.

Record matches (data : Z) (mem0 : memory) (s : memory * wchannel) (r : dma_ring) : Prop := {
  mt_out : forall a, a < data \/ data + 512 <= a -> fst s a = mem0 a;
  mt_wr : (rg_wr r < 256)%nat;
  mt_addr : wc_addr (snd s) = data + 2 * Z.of_nat (rg_wr r);
  mt_count : wc_count (snd s) = rg_tc r;
  mt_array : array (fst s) data = rg_data r }.

Lemma matches_step data mem0 s r e : data mod 512 = 0 -> match e with Move v => -32768 <= v <= 32767 | Restart => True end ->
  matches data mem0 s r -> matches data mem0 (dma_do data s e) (ring_do r e).
Proof.
  intros Hd He [M1 M2 M3 M4 M5]. destruct s as [m c]. cbn [fst snd] in *. destruct e as [v|]; cbn [dma_do ring_do].
  - unfold dma_move, ring_write. rewrite M4. destruct (rg_tc r =? 0); [constructor; auto|]. constructor; cbn [fst snd wc_addr wc_count rg_wr rg_tc rg_data].
    + intros a Ha. unfold store16, store8. cbv beta. rewrite M3. destruct (Z.eqb_spec a (data + 2 * Z.of_nat (rg_wr r) + 1)); [lia|]. destruct (Z.eqb_spec a (data + 2 * Z.of_nat (rg_wr r))); [lia|]. auto.
    + apply Nat.mod_upper_bound. lia.
    + rewrite M3. apply wrapped_index; auto.
    + reflexivity.
    + rewrite M3, <- M5. apply array_store; auto.
  - constructor; cbn [dma_restart fst snd wc_addr wc_count rg_wr rg_tc rg_data]; auto; lia.
Qed.
Lemma matches_run data mem0 l : data mod 512 = 0 -> Forall (fun e => match e with Move v => -32768 <= v <= 32767 | Restart => True end) l ->
  forall s r, matches data mem0 s r -> matches data mem0 (fold_left (dma_do data) l s) (fold_left ring_do l r).
Proof.
  intros Hd. induction l as [|e l IH]; intros F s r M; [exact M|]. inversion F; subst. cbn [fold_left]. apply IH; auto. apply matches_step; auto.
Qed.
Lemma stays_in_buffer data mem c l : data mod 512 = 0 -> Forall (fun e => match e with Move v => -32768 <= v <= 32767 | Restart => True end) l ->
  let s := fold_left (dma_do data) l (dma_restart data (mem, c)) in let r := fold_left ring_do l (RING (array mem data) 0 TC_INIT) in
  (forall a, a < data \/ data + 512 <= a -> fst s a = mem a) /\ data <= wc_addr (snd s) <= data + 510 /\
  array (fst s) data = rg_data r /\ wc_addr (snd s) = data + 2 * Z.of_nat (rg_wr r) /\ wc_count (snd s) = rg_tc r.
Proof.
  intros Hd F. assert (M0 : matches data mem (dma_restart data (mem, c)) (RING (array mem data) 0 TC_INIT)).
  { constructor; cbn [dma_restart fst snd wc_addr wc_count rg_wr rg_tc rg_data]; auto; lia. }
  destruct (matches_run data mem l Hd F _ _ M0) as [M1 M2 M3 M4 M5]. cbn zeta. split; [exact M1|]. split; [rewrite M3; lia|]. auto.
Qed.

(** The position of a transfer in its block. *)
Lemma moves_wr vs : forall d w t, (w < 256)%nat -> Z.of_nat (length vs) <= t -> rg_wr (fold_left ring_do (map Move vs) (RING d w t)) = ((w + length vs) mod 256)%nat.
Proof.
  induction vs as [|v vs IH]; intros d w t Hw Ht; cbn [map fold_left length] in *; [rewrite Nat.add_0_r, Nat.mod_small by lia; reflexivity|].
  cbn [ring_do]. unfold ring_write. cbn [rg_tc rg_data rg_wr]. destruct (Z.eqb_spec t 0); [lia|]. rewrite IH by (try apply Nat.mod_upper_bound; lia).
  rewrite Nat.add_mod_idemp_l by lia. f_equal. lia.
Qed.

(** ** The transmitter *)
Record xd_inv (x : txdma) : Prop := { xi_len : length (xd_data x) = 32%nat; xi_room : (xd_count x = 0 \/ xd_read x + xd_count x <= 32)%nat }.
Lemma same_busy x h : xd_inv x -> same_hw x h -> hw_data_waiting h = xd_busy x.
Proof.
  intros [L R] (_ & _ & _ & _ & D). unfold hw_data_waiting, xd_busy. rewrite D. destruct (Nat.eqb_spec (xd_count x) 0) as [->|N]; [reflexivity|]. destruct R as [R|R]; [contradiction|].
  destruct (firstn (xd_count x) (skipn (xd_read x) (xd_data x))) as [|b t] eqn:E; [|reflexivity].
  assert (X : length (firstn (xd_count x) (skipn (xd_read x) (xd_data x))) = xd_count x) by (rewrite firstn_length, skipn_length; lia). rewrite E in X. cbn [length] in X. lia.
Qed.
Lemma xd_sim x h o : op_ok o -> xd_inv x -> same_hw x h ->
  exists x' h' r, xd_do x o = Ok (x', r) /\ hw_do h o = Ok (h', r) /\ xd_inv x' /\ same_hw x' h'.
Proof.
  intros Ho I HS. pose proof (same_busy x h I HS) as B. pose proof I as [L R]. pose proof HS as (S1 & S2 & S3 & S4 & S5). destruct o as [m| |b| | |e]; cbn [xd_do hw_do op_ok] in *.
  - unfold xd_send, hw_send. rewrite B. destruct (xd_busy x) eqn:Eb.
    + cbn [bind]. eexists _, _, _. split; [reflexivity|]. split; [reflexivity|]. split; [constructor; cbn; auto|]. repeat split; cbn; auto.
    + destruct (Nat.ltb_spec 32 (m_length m)) as [Hm|Hm].
      * cbn [bind]. eexists _, _, _. split; [reflexivity|]. split; [reflexivity|]. split; [constructor; cbn; auto|]. repeat split; cbn; auto.
      * destruct (copy_loop_ok (m_data m) (m_length m) 0 (xd_data x) ltac:(lia) ltac:(lia)) as (d1 & E1 & L1 & F1).
        destruct (copy_loop_ok (m_data m) (m_length m) 0 (repeat 0 32) ltac:(lia) ltac:(rewrite repeat_length; lia)) as (d2 & E2 & L2 & F2).
        rewrite E1, E2. cbn [bind]. eexists _, _, _. split; [reflexivity|]. split; [reflexivity|]. split; [constructor; cbn [xd_data xd_read xd_count]; [lia|right; lia]|].
        unfold same_hw. cbn [hw_error hw_txf hw_sm hw_shutdown hw_dma xd_error xd_txf xd_sm xd_shutdown xd_count xd_read xd_data skipn]. repeat split; auto. cbn [Nat.add firstn app] in F1, F2. rewrite F1, F2. reflexivity.
  - eexists _, _, _. split; [reflexivity|]. split; [reflexivity|]. split; [constructor; cbn; auto|]. repeat split; cbn; auto.
  - eexists _, _, _. split; [reflexivity|]. split; [reflexivity|]. split; [constructor; cbn; auto|]. repeat split; cbn; auto.
  - unfold xd_read_error, hw_read_error. rewrite S1. eexists _, _, _. split; [reflexivity|]. split; [reflexivity|]. split; [constructor; cbn; auto|]. repeat split; cbn; auto.
  - eexists x, h, _. split; [reflexivity|]. split; [|auto]. unfold hw_transmitting, xd_transmitting, hw_irq. rewrite B, S2, S3. reflexivity.
  - destruct e; cbn [xd_step hw_step].
    + rewrite S5, S2. unfold xd_busy in *. destruct (Nat.eqb_spec (xd_count x) 0) as [E0|N]; cbn [negb andb].
      * rewrite E0. cbn [firstn bind]. eexists x, h, None. auto.
      * destruct R as [R|R]; [contradiction|]. destruct (nth_error (xd_data x) (xd_read x)) as [v|] eqn:En; [|apply nth_error_None in En; lia].
        assert (Es : skipn (xd_read x) (xd_data x) = v :: skipn (S (xd_read x)) (xd_data x)).
        { clear - En. revert En. generalize (xd_read x). induction (xd_data x) as [|a l IH]; intros [|n] H; cbn in H; try discriminate; [injection H as ->; reflexivity|]. cbn [skipn]. rewrite (IH _ H). destruct l; reflexivity. }
        destruct (xd_count x) as [|k] eqn:Ek; [contradiction N; reflexivity|]. rewrite Es. cbn [firstn].
        destruct (length (xd_txf x) <? 8)%nat.
        -- unfold aget. rewrite En. cbn [bind pred]. eexists _, _, _. split; [reflexivity|]. split; [reflexivity|]. split; [constructor; cbn [xd_data xd_read xd_count]; [exact L|right; lia]|].
           unfold same_hw. cbn [hw_error hw_txf hw_sm hw_shutdown hw_dma xd_error xd_txf xd_sm xd_shutdown xd_count xd_read xd_data]. auto.
        -- cbn [bind]. eexists x, h, None. auto.
    + cbn [bind]. rewrite S2, S3. destruct (xd_txf x) as [|b t] eqn:Et; [eexists x, h, None; auto|]. destruct (xd_sm x) eqn:Em; try (eexists x, h, None; auto; fail).
      eexists _, _, _. split; [reflexivity|]. split; [reflexivity|]. split; [constructor; cbn; auto|]. repeat split; cbn; auto.
    + cbn [bind]. rewrite S3. destruct (xd_sm x) eqn:Em; try (eexists x, h, None; auto; fail).
      eexists _, _, _. split; [reflexivity|]. split; [reflexivity|]. split; [constructor; cbn; auto|]. repeat split; cbn; auto.
    + cbn [bind]. rewrite S3. destruct (xd_sm x) eqn:Em; try (eexists x, h, None; auto; fail).
      eexists _, _, _. split; [reflexivity|]. split; [reflexivity|]. split; [constructor; cbn; auto|]. repeat split; cbn; auto.
Qed.
Lemma xd_sim_run l : Forall op_ok l -> forall x h, xd_inv x -> same_hw x h ->
  exists x' h' os, mrun xd_do x l = Ok (x', os) /\ mrun hw_do h l = Ok (h', os) /\ xd_inv x' /\ same_hw x' h'.
Proof.
  induction l as [|o l IH]; intros F x h I S; cbn [mrun]; [eexists _, _, _; auto|]. inversion F as [|? ? F1 F2]; subst.
  destruct (xd_sim x h o F1 I S) as (x1 & h1 & r & E1 & E2 & I1 & S1). rewrite E1, E2. cbn [bind]. destruct (IH F2 x1 h1 I1 S1) as (x2 & h2 & os & E3 & E4 & I2 & S2). rewrite E3, E4. cbn [bind].
  eexists _, _, _. eauto.
Qed.
Lemma xd_from_new l : Forall op_ok l -> exists x h os, mrun xd_do xd_new l = Ok (x, os) /\ mrun hw_do hw_new l = Ok (h, os) /\ same_hw x h.
Proof.
  intros F. destruct (xd_sim_run l F xd_new hw_new) as (x & h & os & E1 & E2 & _ & S); [constructor; [reflexivity|left; reflexivity]|repeat split|]. exists x, h, os. auto.
Qed.

Lemma run_wr l vs r : Z.of_nat (length vs) <= TC_INIT -> rg_wr (fold_left ring_do (l ++ Restart :: map Move vs) r) = (length vs mod 256)%nat /\
  rg_tc (fold_left ring_do (l ++ Restart :: map Move vs) r) = TC_INIT - Z.of_nat (length vs).
Proof.
  intros H. rewrite fold_left_app. cbn [fold_left ring_do]. generalize (rg_data (fold_left ring_do l r)). intros d. split.
  - rewrite moves_wr; [reflexivity|lia|exact H].
  - revert d H. generalize TC_INIT 0%nat. induction vs as [|v vs IH]; intros t w d H; cbn [map fold_left length] in *; [cbn [rg_tc]; lia|]. cbn [ring_do]. unfold ring_write. cbn [rg_tc rg_data rg_wr].
    destruct (Z.eqb_spec t 0); [lia|]. rewrite IH by lia. lia.
Qed.
Lemma cell data mem c l vs v : data mod 512 = 0 -> Forall (fun e => match e with Move v => -32768 <= v <= 32767 | Restart => True end) (l ++ Restart :: map Move (vs ++ [v])) ->
  Z.of_nat (length vs) < 268435456 ->
  let s := fold_left (dma_do data) (l ++ Restart :: map Move vs) (dma_restart data (mem, c)) in
  array (fst (dma_move s v)) data = upd (array (fst s) data) (length vs mod 256) v.
Proof.
  intros Hd F Hn. rewrite map_app in F. rewrite app_comm_cons, app_assoc in F. apply Forall_app in F as (F & Fv). inversion Fv as [|? ? Hv _]; subst. cbn zeta.
  destruct (stays_in_buffer data mem c (l ++ Restart :: map Move vs) Hd F) as (_ & _ & _ & A & C).
  destruct (run_wr l vs (RING (array mem data) 0 TC_INIT)) as (W & T); [unfold TC_INIT; lia|]. rewrite W in A. rewrite T in C.
  destruct (fold_left (dma_do data) (l ++ Restart :: map Move vs) (dma_restart data (mem, c))) as [m ch]. cbn [fst snd] in *. unfold dma_move. rewrite C.
  destruct (Z.eqb_spec (TC_INIT - Z.of_nat (length vs)) 0) as [E|_]; [unfold TC_INIT in E; lia|]. cbn [fst]. rewrite A. apply array_store; [exact Hv|apply Nat.mod_upper_bound; lia].
Qed.
