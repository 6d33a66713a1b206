(** T_Ctrl.v -- property theorems C37..C44, C72 (checksum and emulated controller). *)
From Verif Require Import Base M_Message M_Standalone S_Crc P_Crc S_Ctrl D_Ctrl P_Ctrl P_CtrlProps.

(** ** Checksum *)
(** C37: GenCRC computes the checksum of S_Crc.v (remainder modulo x^8+x^7+x^4+x^3+x+1) for every
    length, and that is unique ... *)
Theorem C37_crc_polynomial : forall data n, (n <= length data)%nat ->
  exists c, gen_crc data n = Ok c /\ checksum (firstn n data) c /\ forall c', checksum (firstn n data) c' -> c' = c.
Proof.
  intros data n H. destruct (gen_crc_spec data n H) as (c & E & C). exists c. split; auto. split; auto. intros c' C'. eapply checksum_fun; eauto.
Qed.
Print Assumptions C37_crc_polynomial.
(** ... it is linear ... *)
Theorem C37_crc_linear : forall a b ca cb, length a = length b -> gen_crc a (length a) = Ok ca -> gen_crc b (length b) = Ok cb ->
  gen_crc (xor_bytes a b) (length (xor_bytes a b)) = Ok (Z.lxor ca cb).
Proof.
  intros a b ca cb L Ha Hb. destruct (gen_crc_spec a (length a) (le_n _)) as (x & Ex & Cx). destruct (gen_crc_spec b (length b) (le_n _)) as (y & Ey & Cy).
  rewrite firstn_all in *. rewrite Ex in Ha. rewrite Ey in Hb. inversion Ha; inversion Hb; subst.
  destruct (gen_crc_spec (xor_bytes a b) _ (le_n _)) as (z & Ez & Cz). rewrite firstn_all in Cz. rewrite Ez. f_equal.
  eapply checksum_fun; eauto. apply checksum_linear; auto.
Qed.
Print Assumptions C37_crc_linear.
(** ... and every error within 8 consecutive bits changes the checksum of any packet of any length ... *)
Theorem C37_crc_burst : forall a b ca cb, length a = length b -> burst (xor_bits (bits a) (bits b)) ->
  gen_crc a (length a) = Ok ca -> gen_crc b (length b) = Ok cb -> ca <> cb.
Proof.
  intros a b ca cb L B Ha Hb E. destruct (gen_crc_spec a (length a) (le_n _)) as (x & Ex & Cx). destruct (gen_crc_spec b (length b) (le_n _)) as (y & Ey & Cy).
  rewrite firstn_all in *. rewrite Ex in Ha. rewrite Ey in Hb. inversion Ha; inversion Hb; subst.
  pose proof (proj1 (checksum_differs a b cb cb L Cx Cy) eq_refl) as X. revert X. apply burst_nz; auto.
Qed.
Print Assumptions C37_crc_burst.
(** ... also when the error hits the checksum byte itself: the comparison Receive makes (the checksum of
    all bytes but the last against the last byte) succeeds for p and fails for the damaged p'. *)
Theorem C37_packet_burst : forall p p', bytes p -> bytes p' -> length p = length p' -> p <> [] ->
  gen_crc p (length p - 1) = Ok (last p 0) -> burst (xor_bits (bits p) (bits p')) ->
  exists c, gen_crc p' (length p' - 1) = Ok c /\ c <> last p' 0.
Proof. exact crc_check_burst. Qed.
Print Assumptions C37_packet_burst.
(** ... so the controller never answers a packet with such an error, in any state it can reach. *)
Theorem C37_damaged_not_answered : forall t0 h c rs p p', Forall out_ok h -> ctrl_run t0 h = Ok (c, rs) ->
  packet_ok p -> packet_ok p' -> p_len p = p_len p' -> (3 < p_len p)%nat ->
  gen_crc (p_cells p) (p_len p - 1) = Ok (nth (p_len p - 1) (p_cells p) 0) ->
  burst (xor_bits (bits (p_bytes p)) (bits (p_bytes p'))) \/
    Nat.odd (ones (xor_bits (bits (p_bytes p)) (bits (p_bytes p')))) = true ->
  exists c', ctrl_receive c (msg_of p') = Ok c' /\ ctrl_has_tx c' = false.
Proof. exact damaged_not_answered. Qed.
Print Assumptions C37_damaged_not_answered.
Example C37_ex : gen_crc [0; 240; 48] 3 = Ok 80 /\ gen_crc [0; 240; 49] 3 = Ok 128 /\
  burst (xor_bits (bits [0; 240; 48]) (bits [0; 240; 49])) /\ valid [0; 240; 48; 80] /\
  gen_crc [0; 240; 48; 80] (length [0; 240; 48; 80] - 1) = Ok (last [0; 240; 48; 80] 0).
Proof.
  split; [reflexivity|]. split; [reflexivity|]. split.
  - exists 16%nat, [true], 7%nat. split; [reflexivity|]. split; [cbn; lia|cbn; auto].
  - split; [|reflexivity]. exists [0; 240; 48], 80. split; [reflexivity|]. apply checksum_fold. reflexivity.
Qed.

(** C72: every odd number of wrong bits makes the check fail, and two wrong bits do unless they
    are a multiple of 127 positions apart (then they never do). *)
Theorem C72_crc_odd_and_double : forall p p', bytes p -> bytes p' -> length p = length p' -> p <> [] ->
  gen_crc p (length p - 1) = Ok (last p 0) ->
  exists c, gen_crc p' (length p' - 1) = Ok c /\
  (Nat.odd (ones (xor_bits (bits p) (bits p'))) = true -> c <> last p' 0) /\
  (forall i d k, xor_bits (bits p) (bits p') = two_errors i d k -> (c = last p' 0 <-> (S d mod 127 = 0)%nat)).
Proof. exact crc_check_odd_double. Qed.
Print Assumptions C72_crc_odd_and_double.
Example C72_ex : ones (xor_bits (bits [0; 240; 48; 80]) (bits [1; 241; 48; 82])) = 3%nat /\
  xor_bits (bits [0; 240; 48; 80]) (bits [1; 241; 48; 80]) = two_errors 0 7 23.
Proof. split; reflexivity. Qed.

(** ** Controller *)
(** Every history refines the controller of S_Ctrl.v: nothing is undefined, HasTxData says whether
    an answer is pending, TxAnswer hands out exactly the pending answer. *)
Theorem C38_controller_refines : forall t0 h, Forall out_ok h ->
  exists c s os rs, ctrl_run t0 h = Ok (c, rs) /\ steps (controller0 t0) (map fst h) s os /\
    (ctrl_has_tx c = true <-> k_pending s <> None) /\ length os = length h /\ length rs = length h /\
    forall i e o r, nth_error h i = Some e -> nth_error os i = Some o -> nth_error rs i = Some r -> delivers e o r.
Proof.
  intros t0 h H. destruct (ctrl_history t0 h H) as (c & s & os & rs & E & S & X & L1 & L2 & D). exists c, s, os, rs.
  split; auto. split; auto. split; auto. unfold ctrl_has_tx. rewrite (sim_ready _ _ X). destruct (k_pending s); split; congruence.
Qed.
Print Assumptions C38_controller_refines.
(** C38: in every history, an answer is ready after Receive only for a valid request to our address
    in operation (or, for a packet of at most 3 bytes, if it was ready before). *)
Theorem C38_only_valid_requests : forall t0 h c rs, Forall out_ok h -> ctrl_run t0 h = Ok (c, rs) ->
  exists s os, steps (controller0 t0) (map fst h) s os /\ k_addr s = c_addr c /\
    forall p c', packet_ok p -> ctrl_receive c (msg_of p) = Ok c' -> ctrl_has_tx c' = true ->
      (ctrl_has_tx c = false \/ (3 < p_len p)%nat) -> k_phase s = Operation /\ request (k_addr s) p.
Proof. exact only_valid_requests. Qed.
Print Assumptions C38_only_valid_requests.

(** C39: a request in operation is answered as specified, whatever happened before. *)
Theorem C39_answer : forall t0 h c rs p out, Forall out_ok h -> ctrl_run t0 h = Ok (c, rs) ->
  packet_ok p -> length (m_data out) = 32%nat ->
  exists s os, steps (controller0 t0) (map fst h) s os /\ k_addr s = c_addr c /\
    (k_phase s = Operation -> request (k_addr s) p ->
     exists c1 c2 m, ctrl_receive c (msg_of p) = Ok c1 /\ ctrl_has_tx c1 = true /\ ctrl_tx_answer c1 out = Ok (c2, m) /\
       answer (k_addr s) p (firstn (m_length m) (m_data m)) /\ ctrl_has_tx c2 = false /\
       m_length m = if nth 2 (p_cells p) 0 =? 48 then 18%nat else 16%nat).
Proof. exact request_answered. Qed.
Print Assumptions C39_answer.

(** An example history: operation is reached, an 18-byte request is answered. *)
Definition req18 : packet := PKT 18 ([0; 240; 48; 1; 2; 3; 4; 5; 6; 7; 8; 9; 10; 11; 12; 13; 14; 243] ++ repeat 0 14).
Definition out0 : message := MSG 0 0 (repeat 0 32) 0.
Definition to_operation : list ((Z * call) * message) := [((100000, Check), out0); ((2100000, Check), out0)].
Lemma out0_ok : length (m_data out0) = 32%nat. Proof. reflexivity. Qed.
Example C39_ex : packet_ok req18 /\ request 240 req18 /\ Forall out_ok to_operation /\
  exists c m, ctrl_run 0 (to_operation ++ [((2200000, Receive req18), out0); ((2200001, Take), out0)]) = Ok (c, [None; None; None; Some m]) /\
    firstn (m_length m) (m_data m) = [64; 240; 48; 1; 2; 3; 4; 5; 6; 7; 8; 9; 10; 11; 12; 13; 14; 112].
Proof.
  assert (P : packet_ok req18).
  { split; [reflexivity|]. split; [cbn; lia|]. apply Forall_forall. intros x Hx. cbn in Hx. repeat destruct Hx as [<-|Hx]; try lia; contradiction. }
  split; auto. split.
  - left. split; [cbn; lia|]. split; [eexists; reflexivity|]. exists [0; 240; 48; 1; 2; 3; 4; 5; 6; 7; 8; 9; 10; 11; 12; 13; 14], 243. split; [reflexivity|]. apply checksum_fold. vm_compute. reflexivity.
  - split; [repeat constructor|]. ex_solve.
Qed.

(** C40 is false: cells beyond Length (left over from earlier packets) go into the answer. *)
Theorem C40_packet_only_refuted : exists p1 p2, packet_ok p1 /\ packet_ok p2 /\ p_len p1 = p_len p2 /\ p_bytes p1 = p_bytes p2 /\
  exists c1 c2 m1 m2, ctrl_run 0 (to_operation ++ [((2200000, Receive p1), out0); ((2200001, Take), out0)]) = Ok (c1, [None; None; None; Some m1]) /\
    ctrl_run 0 (to_operation ++ [((2200000, Receive p2), out0); ((2200001, Take), out0)]) = Ok (c2, [None; None; None; Some m2]) /\
    m_length m1 = 18%nat /\ firstn 18 (m_data m1) <> firstn 18 (m_data m2).
Proof.
  exists (PKT 4 ([0; 240; 48; 80] ++ repeat 0 28)), (PKT 4 ([0; 240; 48; 80] ++ repeat 7 28)).
  split. { split; [reflexivity|]. split; [cbn; lia|]. apply Forall_forall. intros x Hx. cbn in Hx. repeat destruct Hx as [<-|Hx]; try lia; contradiction. }
  split. { split; [reflexivity|]. split; [cbn; lia|]. apply Forall_forall. intros x Hx. cbn in Hx. repeat destruct Hx as [<-|Hx]; try lia; contradiction. }
  split; [reflexivity|]. split; [reflexivity|].
  eexists _, _, _, _. split; [vm_compute; reflexivity|]. split; [vm_compute; reflexivity|]. split; [reflexivity|]. vm_compute. discriminate.
Qed.
Print Assumptions C40_packet_only_refuted.
(** It does depend on the packet only if the packet is long enough for all copied bytes: in every
    reachable state, receiving either of two packets with the same bytes makes an answer ready or not
    alike, and the answers handed out are equal. *)
Theorem C40_packet_only_partial : forall t0 h c rs p1 p2, Forall out_ok h -> ctrl_run t0 h = Ok (c, rs) ->
  packet_ok p1 -> packet_ok p2 -> p_bytes p1 = p_bytes p2 -> p_len p1 = p_len p2 ->
  ((17 <= p_len p1)%nat \/ ((15 <= p_len p1)%nat /\ nth 2 (p_cells p1) 0 = 49)) ->
  exists c1 c2, ctrl_receive c (msg_of p1) = Ok c1 /\ ctrl_receive c (msg_of p2) = Ok c2 /\ ctrl_has_tx c1 = ctrl_has_tx c2 /\
    (ctrl_has_tx c1 = true -> forall out1 out2, length (m_data out1) = 32%nat -> length (m_data out2) = 32%nat ->
     exists c1' c2' m1 m2, ctrl_tx_answer c1 out1 = Ok (c1', m1) /\ ctrl_tx_answer c2 out2 = Ok (c2', m2) /\
       firstn (m_length m1) (m_data m1) = firstn (m_length m2) (m_data m2)).
Proof. exact same_packet_same_answer. Qed.
Print Assumptions C40_packet_only_partial.

(** C41 is false: a packet of at most 3 bytes leaves the pending answer in place. *)
Theorem C41_withdrawn_refuted : forall p, packet_ok p -> (p_len p <= 3)%nat ->
  exists c rs c', ctrl_run 0 (to_operation ++ [((2200000, Receive req18), out0)]) = Ok (c, rs) /\
    ctrl_has_tx c = true /\ ctrl_receive c (msg_of p) = Ok c' /\ ctrl_has_tx c' = true.
Proof.
  intros p Hp L. eexists _, _, _. split; [vm_compute; reflexivity|]. split; [reflexivity|]. split; [|shelve].
  unfold ctrl_receive. change (m_length (msg_of p)) with (p_len p). destruct (Nat.leb_spec (p_len p) 3); [reflexivity|lia].
  Unshelve. reflexivity.
Qed.
Print Assumptions C41_withdrawn_refuted.
(** Every longer packet withdraws it, unless it is itself a valid request (which has its own answer). *)
Theorem C41_withdrawn_partial : forall t0 h c rs, Forall out_ok h -> ctrl_run t0 h = Ok (c, rs) ->
  exists s os, steps (controller0 t0) (map fst h) s os /\ k_addr s = c_addr c /\
    forall p, packet_ok p -> (3 < p_len p)%nat -> ~ request (k_addr s) p ->
      exists c', ctrl_receive c (msg_of p) = Ok c' /\ ctrl_has_tx c' = false.
Proof. exact withdrawn. Qed.
Print Assumptions C41_withdrawn_partial.

(** C42: an answer is ready only in the operation phase of the documented cycle, the address is
    0xF0 or 0xF1 ... *)
Theorem C42_silent_outside_operation : forall t0 h c rs, Forall out_ok h -> ctrl_run t0 h = Ok (c, rs) ->
  (c_addr c = 240 \/ c_addr c = 241) /\
  exists s os, steps (controller0 t0) (map fst h) s os /\ (ctrl_has_tx c = true -> k_phase s = Operation).
Proof.
  intros t0 h c rs Hh E. destruct (ctrl_history t0 h Hh) as (c1 & s & os & rs1 & E1 & S & X & _). rewrite E in E1. inversion E1; subst c1 rs1.
  split; [apply (sim_aok _ _ X)|]. exists s, os. split; auto. unfold ctrl_has_tx. rewrite (sim_ready _ _ X). intros T.
  destruct (k_pending s) as [a|] eqn:Ea; [|discriminate]. apply (sim_pend _ _ X a Ea).
Qed.
Print Assumptions C42_silent_outside_operation.
(** ... after the start, and after every bus collision, there is silence for at least 2.1 s ... *)
Theorem C42_silence_after_collision : forall t0 h1 tc o h2 c rs,
  let h := h1 ++ ((tc, Collision), o) :: h2 in
  Forall out_ok h -> ordered t0 (map fst h) -> ctrl_run t0 h = Ok (c, rs) ->
  Forall (fun e => fst (fst e) < tc + 2100000) h2 -> ctrl_has_tx c = false.
Proof.
  intros t0 h1 tc o h2 c rs h Hh Ho E Ht. destruct (ctrl_history t0 h Hh) as (c1 & s & os & rs1 & E1 & S & X & _).
  rewrite E in E1. inversion E1; subst c1 rs1.
  unfold h in *. rewrite map_app in S, Ho. apply steps_app in S as (s1 & o1 & o2 & S1 & S2 & _).
  cbn [map fst] in *. inversion S2 as [|? ? ? s2 o' ? ? os2 Hst Hrest]; subst. cbn in Hst. destruct Hst as (_ & ->).
  assert (Ho2 : ordered tc (map fst h2)).
  { clear - Ho. revert t0 Ho. induction (map fst h1) as [|(u & x) l IH]; intros t0 Ho; cbn in Ho; [tauto|]. destruct Ho as (_ & Ho). eapply IH; eauto. }
  destruct (steps_quiet tc (map fst h2) _ s _ tc Hrest) as (Q & K); auto; cbn; try lia.
  { apply Forall_forall. intros x Hx. apply in_map_iff in Hx as (e & <- & He). rewrite Forall_forall in Hh. apply Hh. apply in_or_app. right. right. auto. }
  unfold ctrl_has_tx. rewrite (sim_ready _ _ X). destruct (k_pending s) as [a|] eqn:Ea; auto. exfalso.
  destruct (sim_pend _ _ X a Ea) as (_ & Ph & _). unfold quiet_since in Q. rewrite Ph in Q.
  assert (F : fold_left (fun _ e => fst e) (map fst h2) tc < tc + 2100000).
  { clear - Ht. assert (G : forall t, t < tc + 2100000 -> fold_left (fun _ (e : Z * call) => fst e) (map fst h2) t < tc + 2100000).
    { induction Ht as [|e l He Hl IH]; intros t Hlt; cbn; auto. }
    apply G. lia. }
  lia.
Qed.
Print Assumptions C42_silence_after_collision.
Theorem C42_silence_after_start : forall t0 h c rs, Forall out_ok h -> ordered t0 (map fst h) -> ctrl_run t0 h = Ok (c, rs) ->
  Forall (fun e => fst (fst e) < t0 + 2100000) h -> ctrl_has_tx c = false.
Proof.
  intros t0 h c rs Hh Ho E Ht. destruct (ctrl_history t0 h Hh) as (c1 & s & os & rs1 & E1 & S & X & _). rewrite E in E1. inversion E1; subst c1 rs1.
  destruct (steps_quiet t0 (map fst h) _ s _ t0 S) as (Q & K); auto; cbn; try lia.
  { apply Forall_forall. intros x Hx. apply in_map_iff in Hx as (e & <- & He). rewrite Forall_forall in Hh. apply Hh. auto. }
  unfold ctrl_has_tx. rewrite (sim_ready _ _ X). destruct (k_pending s) as [a|] eqn:Ea; auto. exfalso.
  destruct (sim_pend _ _ X a Ea) as (_ & Ph & _). unfold quiet_since in Q. rewrite Ph in Q.
  assert (F : fold_left (fun _ e => fst e) (map fst h) t0 < t0 + 2100000).
  { clear - Ht. assert (G : forall t, t < t0 + 2100000 -> fold_left (fun _ (e : Z * call) => fst e) (map fst h) t < t0 + 2100000).
    { induction Ht as [|e l He Hl IH]; intros t Hlt; cbn; auto. }
    apply G. lia. }
  lia.
Qed.
Print Assumptions C42_silence_after_start.
(** ... and an operation phase does not survive a Check 600 s after it began. *)
Theorem C42_operation_ends : forall t0 h t o c rs, Forall out_ok (h ++ [((t, Check), o)]) ->
  ctrl_run t0 (h ++ [((t, Check), o)]) = Ok (c, rs) ->
  exists s os, steps (controller0 t0) (map fst (h ++ [((t, Check), o)])) s os /\
    (ctrl_has_tx c = true -> k_phase s = Operation /\ t < k_since s + 600000000).
Proof.
  intros t0 h t o c rs Hh E. destruct (ctrl_history t0 _ Hh) as (c1 & s & os & rs1 & E1 & S & X & _). rewrite E in E1. inversion E1; subst c1 rs1.
  exists s, os. split; auto. unfold ctrl_has_tx. rewrite (sim_ready _ _ X). intros T.
  destruct (k_pending s) as [a|] eqn:Ea; [|discriminate]. pose proof (sim_pend _ _ X a Ea) as (_ & Ph & _). split; auto.
  rewrite map_app in S. apply steps_app in S as (s1 & o1 & o2 & S1 & S2 & _). cbn [map fst] in S2.
  inversion S2 as [|? ? ? s2 o' ? ? os2 Hst Hrest]; subst. inversion Hrest; subst. cbn in Hst. destruct Hst as (_ & Hst).
  destruct (Z.leb_spec (k_since s1 + duration (k_phase s1)) t); subst s.
  - cbn in Ea. destruct (k_phase s1); cbn in Ph; try discriminate. cbn [k_since]. lia.
  - rewrite Ph in H. cbn in H. exact H.
Qed.
Print Assumptions C42_operation_ends.
Example C42_ex : exists c rs, ctrl_run 0 (to_operation ++ [((2200000, Receive req18), out0); ((2200002, Collision), out0); ((2300002, Check), out0); ((4300002, Check), out0); ((4300002, Receive req18), out0)]) = Ok (c, rs) /\
  ctrl_has_tx c = true.
Proof. ex_solve. Qed.

(** C43 is false: IsTxAnswer is false for every answer handed out. *)
Theorem C43_recognises_own_refuted : forall t0 h c rs c' m out, Forall out_ok h -> ctrl_run t0 h = Ok (c, rs) ->
  length (m_data out) = 32%nat -> ctrl_has_tx c = true -> ctrl_tx_answer c out = Ok (c', m) ->
  is_tx_answer c' m = Ok false.
Proof.
  intros t0 h c rs c' m out Hh E Ho T Tx. destruct (ctrl_history t0 h Hh) as (c1 & s & os & rs1 & E1 & S & X & _). rewrite E in E1. inversion E1; subst c1 rs1.
  destruct (call_sim c s ((0, Take), out) X) as (c3 & s3 & o & r & E3 & X3 & (Eo & Es3) & D). { split; auto. exact I. }
  cbn [ctrl_call] in E3. rewrite Tx in E3. cbn in E3. inversion E3; subst c3 r. 
  unfold ctrl_has_tx in T. rewrite (sim_ready _ _ X) in T. destruct (k_pending s) as [a|] eqn:Ea; [|discriminate].
  destruct (sim_pend _ _ X a Ea) as (_ & _ & p & (body & k & -> & _ & An)). subst o. cbn [delivers fst snd] in D.
  destruct D as (m' & Em & F & Lm & _). inversion Em; subst m'.
  assert (Ac : c_addr c' = c_addr c) by (rewrite <- (sim_addr _ _ X3), <- (sim_addr _ _ X); subst s3; reflexivity).
  assert (M : exists z rest, m_data m = 64 :: c_addr c :: z :: rest).
  { destruct (m_data m) as [|x0 [|x1 [|x2 rst]]]; destruct (m_length m) as [|[|[|n]]]; destruct An as [(_ & ->)|(_ & ->)]; cbn in F, Lm; try discriminate; inversion F; eauto. }
  destruct M as (z & rest & M). unfold is_tx_answer. rewrite M. cbn. rewrite Ac, Z.eqb_refl. reflexivity.
Qed.
Print Assumptions C43_recognises_own_refuted.
(** What it does recognise: answers of the same types of any other address. *)
Theorem C43_recognises_own_partial : forall c m x y z rest, m_data m = x :: y :: z :: rest ->
  exists b, is_tx_answer c m = Ok b /\ (b = true <-> x = 64 /\ y <> c_addr c /\ (z = 48 \/ z = 49)).
Proof.
  intros c m x y z rest M. unfold is_tx_answer. rewrite M. cbn [aget nth_error bind]. unfold CMD_ANSWER, TYPE_SENSE, TYPE_STATUS.
  destruct (Z.eqb_spec x 64), (Z.eqb_spec y (c_addr c)), (Z.eqb_spec z 48), (Z.eqb_spec z 49); cbn [negb orb bind]; eexists; (split; [reflexivity|]);
    intuition (try discriminate; auto).
Qed.
Print Assumptions C43_recognises_own_partial.
Example C43_ex : exists c m, ctrl_run 0 (to_operation ++ [((2200000, Receive req18), out0); ((2200001, Take), out0)]) = Ok (c, [None; None; None; Some m]) /\
  is_tx_answer c m = Ok false.
Proof. ex_solve. Qed.

(** C44: no call sequence has undefined behaviour, including IsTxAnswer on any message. *)
Theorem C44_memory_safe : forall t0 h m, Forall out_ok h -> length (m_data m) = 32%nat ->
  exists c rs b, ctrl_run t0 h = Ok (c, rs) /\ is_tx_answer c m = Ok b.
Proof.
  intros t0 h m Hh L. destruct (ctrl_history t0 h Hh) as (c & s & os & rs & E & _). exists c, rs.
  destruct (m_data m) as [|x [|y [|z r]]] eqn:M; cbn in L; try lia. destruct (C43_recognises_own_partial c m x y z r M) as (b & Eb & _). exists b. auto.
Qed.
Print Assumptions C44_memory_safe.
Example C44_ex : out_ok ((0, Receive (PKT 0 (repeat 255 32))), out0) /\ exists c rs,
  ctrl_run 0 (to_operation ++ map (fun n => ((3000000, Receive (PKT n (repeat 0 32))), out0)) (seq 0 33)) = Ok (c, rs).
Proof.
  split; [|ex_solve]. split; [|reflexivity]. split; [reflexivity|]. split; [cbn; lia|]. apply Forall_forall. intros x Hx. apply repeat_spec in Hx. lia.
Qed.
