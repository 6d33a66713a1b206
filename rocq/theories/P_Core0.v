(** P_Core0.v -- the main loop: its parts are only driven through their interfaces (C69, C70, C77). *)
From Verif Require Import Base S_Containers D_Containers P_Containers M_Fifo M_Message S_Message D_Message P_Message P_MessageParse
  M_Standalone S_Crc S_Ctrl D_Ctrl P_Ctrl M_Tx D_Tx P_Tx P_TxRun M_HostUart D_Host S_Host P_Host P_HostProps M_Led M_Core1 M_Core0 S_Core0 D_Core0.

(** ** Component runs inside the loop *)
Definition stamp (now : Z) (l : list act) : list (Z * act) := map (pair now) l.
Record parts : Set := PT { p_tx : tx_sys; p_ctrl : ctrl; p_host : host; p_led : ledmgr }.
Record moves (l : list (Z * act)) (a b : parts) : Prop := {
  mv_tx : mrun (tx_event pico) (p_tx a) (flat_map tx_part l) = Ok (p_tx b, flat_map tx_part_out l);
  mv_ctrl : mrun ctrl_call (p_ctrl a) (flat_map ctrl_part l) = Ok (p_ctrl b, flat_map ctrl_part_out l);
  mv_host : exists o, mrun host_step (p_host a) (flat_map host_part l) = Ok (p_host b, o) /\ map hide_flag o = flat_map host_part_out l;
  mv_led : fold_left lm_step (flat_map led_part l) (p_led a) = p_led b;
  mv_args : Forall (ev_ok 1) (flat_map tx_part l) /\ Forall out_ok (flat_map ctrl_part l) /\ Forall hop_ok (flat_map host_part l) }.

Lemma moves_nil a : moves [] a a.
Proof. constructor; cbn; auto 6. exists []. auto. Qed.
Lemma mrun_seq {S I O} (f : S -> I -> res (S * O)) s l1 s1 o1 l2 s2 o2 : mrun f s l1 = Ok (s1, o1) -> mrun f s1 l2 = Ok (s2, o2) -> mrun f s (l1 ++ l2) = Ok (s2, o1 ++ o2).
Proof. intros E1 E2. rewrite mrun_app, E1. cbn [bind]. rewrite E2. reflexivity. Qed.
Lemma moves_app l1 l2 a b c : moves l1 a b -> moves l2 b c -> moves (l1 ++ l2) a c.
Proof.
  intros [A1 A2 (o1 & A3 & A3') A4 (A5 & A6 & A7)] [B1 B2 (o2 & B3 & B3') B4 (B5 & B6 & B7)]. constructor; rewrite ?flat_map_app.
  - eapply mrun_seq; eauto.
  - eapply mrun_seq; eauto.
  - exists (o1 ++ o2). split; [eapply mrun_seq; eauto|]. rewrite map_app. congruence.
  - rewrite fold_left_app. congruence.
  - split; [|split]; apply Forall_app; auto.
Qed.

(** ** Invariants of the parts *)
Definition tx_more (t : txsm) : Prop := cells32 (m_data (t_tx t)) /\ msg_ok (t_rx t).
Definition tx_good (s : tx_sys) : Prop := tx_inv (fst s) (snd s) /\ tx_more (fst s).
Definition ctrl_good (c : ctrl) : Prop := (exists s, sim c s) /\ Forall is_byte8 (m_data (c_answer c)).
Definition sendable (m : message) : Prop := tx_msg_ok m /\ (1 <= m_length m)%nat.
Definition host_good (txt : list Z) (h : host) : Prop :=
  exists a, host_rel h a /\ Forall sendable (a_ms a) /\ no_nl (a_b a) /\ Forall is_byte8 (a_b a) /\ exists p, txt = p ++ a_b a.
Record good (txt : list Z) (a : parts) : Prop := {
  g_tx : tx_good (p_tx a); g_ctrl : ctrl_good (p_ctrl a); g_host : host_good txt (p_host a) }.

(** ** Transmitter *)
Lemma append_msg m b m' : msg_ok m -> is_byte8 b -> msg_append m b = Ok m' -> msg_ok m' /\ m_status m' = m_status m /\ m_time m' = m_time m /\
  (m_length m < 32 -> payload m' = payload m ++ [b] /\ m_length m' = S (m_length m))%nat.
Proof.
  intros (Ht & Hs & Ld & Ll & Hb) B E. unfold msg_append in E. destruct (Nat.ltb_spec (m_length m) MAX_PACKET_SIZE) as [H|H]; unfold MAX_PACKET_SIZE in *.
  - rewrite aset_ok in E by lia. cbn [bind] in E. injection E as <-. unfold msg_ok, payload. cbn [m_time m_status m_data m_length].
    split; [|split; [reflexivity|split; [reflexivity|]]].
    + split; [exact Ht|]. split; [exact Hs|]. rewrite upd_length. split; [exact Ld|]. split; [lia|]. 
      clear - Hb B. revert Hb. generalize (m_length m) (m_data m). induction n as [|n IH]; intros [|x t] H; cbn; auto; inversion H; subst; constructor; auto.
    + intros _. split; [|reflexivity]. rewrite firstn_upd_snoc by lia. reflexivity.
  - injection E as <-. split; [split; auto|]. split; [reflexivity|]. split; [reflexivity|]. lia.
Qed.

Lemma set_status_ok m s : msg_ok m -> 0 <= s < 4294967296 -> msg_ok (set_status m s).
Proof. intros (Ht & Hs & R) H. split; [exact Ht|]. split; [exact H|exact R]. Qed.
Lemma clear_ok m : msg_ok m -> msg_ok (msg_clear m).
Proof. intros (Ht & Hs & Ld & Ll & Hb). split; [exact Ht|]. split; [cbn; lia|]. split; [exact Ld|]. split; [cbn; lia|exact Hb]. Qed.

Lemma tx_event_more t h e t' h' o : tx_good (t, h) -> ev_ok 1 e -> tx_event pico (t, h) e = Ok ((t', h'), o) ->
  (forall time, snd e = ClearRx time -> 0 <= time < 18446744073709551616) -> tx_more t'.
Proof.
  intros (I & M1 & M2) He E Hc. cbn [fst snd] in *. destruct e as (now & [m|busy re rv c|x| |time]); cbn [tx_event snd] in *.
  - destruct (wake_cases now t h m) as (t1 & h1 & E1 & -> & C). rewrite E1 in E. cbn [bind] in E. injection E as <- <- <-.
    destruct C as [(Hi & ->)|(Hi & ->)]; [|split; auto]. cbn in He. destruct He as ((L & _ & B) & _). split; [split; auto|]. cbn [t_rx]. apply clear_ok; auto.
  - destruct (update_cases now busy re rv c t h (inv_safe _ _ I)) as (t1 & h1 & E1 & U). rewrite E1 in E. cbn [bind] in E. injection E as <- <- <-.
    assert (ST : forall s, 0 <= s < 4294967296 -> msg_ok (MSG s (m_time (t_rx t)) (m_data (t_rx t)) (m_length (t_rx t)))) by (intros s Hs; apply (set_status_ok _ s M2 Hs)).
    assert (NB : forall k b, nth_error (m_data (t_tx t)) k = Some b -> is_byte8 b).
    { intros k b N. destruct M1 as (_ & F). rewrite Forall_forall in F. apply F. eapply nth_error_In; eauto. }
    destruct U as [Ha|H1 H2 H3 H4|Hs Hw Hb Ht Ho|Hs Hw Hb|Hs Hw Hb Hx Hv|rx Hd Hw Hx Hv Hn Hr|b rx Hd Hw Hx Hv Hn Hne Hr|Hd Hw Hx|Hs Hw Hb];
      (split; [exact M1|]); cbn [t_rx set_err enter set_rx_status]; auto.
    + apply ST. unfold STATUS_ERR_BUS_COLLISION, STATUS_ERR_NO_FRAMING. destruct busy; lia.
    + eapply append_msg; [exact M2| |exact Hr]. eapply NB; eauto.
    + destruct (append_msg _ _ _ M2 (NB _ _ Hn) Hr) as (O & _). apply (set_status_ok rx). exact O. destruct O as (_ & S & _). destruct (m_status rx =? 0); lia.
    + apply ST. unfold STATUS_ERR_PARITY. lia.
  - injection E as <- <- <-. split; auto.
  - unfold tx_error in E. injection E as <- <- <-. split; auto.
  - injection E as <- <- <-. specialize (Hc _ eq_refl). split; auto. destruct M2 as (_ & _ & Ld & _ & Hb).
    unfold msg_ok. cbn [tx_clear_rx t_rx m_time m_status m_data m_length]. split; [exact Hc|]. split; [lia|]. split; [exact Ld|]. split; [lia|exact Hb].
Qed.

Lemma tx_step_good t h e : tx_good (t, h) -> ev_ok 1 e -> (forall time, snd e = ClearRx time -> 0 <= time < 18446744073709551616) ->
  exists t' h' o, tx_event pico (t, h) e = Ok ((t', h'), o) /\ tx_good (t', h').
Proof.
  intros G He Hc. destruct (event_inv t h e (proj1 G) He) as (t' & h' & o & E & I). exists t', h', o. split; [exact E|]. split; [exact I|].
  eapply tx_event_more; eauto.
Qed.
Lemma hw_fold_good t es : forall h, tx_good (t, h) -> tx_good (t, fold_left hw_step es h).
Proof. induction es as [|e es IH]; intros h G; cbn; auto. apply IH. destruct G as (I & M). split; [apply hw_step_inv; exact I|exact M]. Qed.
Lemma hw_clean t h : tx_good (t, h) -> hw_read_error h = (h, false).
Proof. intros (I & _). pose proof (iv_err _ _ I) as E. cbn in E. unfold hw_read_error. rewrite E. destruct h; cbn in *; subst; reflexivity. Qed.

(** ** Controller *)
Lemma receive_packet c m : ctrl_receive c m = ctrl_receive c (msg_of (packet_of m)).
Proof. reflexivity. Qed.
Lemma packet_of_ok m : msg_ok m -> packet_ok (packet_of m).
Proof. intros (_ & _ & Ld & Ll & Hb). unfold packet_ok, packet_of. cbn. auto. Qed.
Lemma aset_bytes l i v d : Forall is_byte8 l -> is_byte8 v -> aset l i v = Ok d -> Forall is_byte8 d.
Proof.
  intros F V E. unfold aset in E. destruct (i <? length l)%nat; [|discriminate]. injection E as <-. clear - F V. revert i F. induction l as [|x t IH]; intros [|i] F; cbn; auto;
    inversion F; subst; constructor; auto.
Qed.
Lemma answer_copy_bytes src : Forall is_byte8 src -> forall k i dst d, Forall is_byte8 dst -> answer_copy src i k dst = Ok d -> Forall is_byte8 d.
Proof.
  intros Fs. induction k as [|k IH]; intros i dst d F E; cbn [answer_copy] in E; [injection E as <-; auto|].
  apply bind_ok in E as (v & E1 & E). apply bind_ok in E as (d1 & E2 & E). eapply IH; [|exact E]. eapply aset_bytes; [exact F| |exact E2].
  rewrite Forall_forall in Fs. apply Fs. apply aget_ok in E1. eapply nth_error_In; eauto.
Qed.
Lemma crc_byte data n v : gen_crc data n = Ok v -> is_byte8 v.
Proof. unfold gen_crc. intros E. apply bind_ok in E as (x & _ & E). injection E as <-. unfold u8, is_byte8. apply Z.mod_pos_bound. reflexivity. Qed.
Ltac bstep E := let x := fresh "x" in let E1 := fresh "E" in apply bind_ok in E as (x & E1 & E).
Ltac byte_lit := unfold is_byte8, TYPE_SENSE, TYPE_STATUS; lia.
Lemma generate_bytes c m c' : Forall is_byte8 (m_data (c_answer c)) -> Forall is_byte8 (m_data m) -> generate_answer c m = Ok c' -> Forall is_byte8 (m_data (c_answer c')).
Proof.
  intros Fa Fm E. unfold generate_answer in E. bstep E. destruct (x =? TYPE_SENSE).
  - bstep E. bstep E. bstep E. bstep E. injection E as <-. cbn [c_answer m_data].
    eapply aset_bytes; [|eapply crc_byte; eassumption|eassumption]. eapply answer_copy_bytes; [exact Fm| |eassumption]. eapply aset_bytes; [exact Fa| |eassumption]. byte_lit.
  - destruct (x =? TYPE_STATUS); [|injection E as <-; exact Fa].
    bstep E. bstep E. bstep E. bstep E. bstep E. bstep E. injection E as <-. cbn [c_answer m_data].
    eapply aset_bytes; [|eapply crc_byte; eassumption|eassumption]. eapply aset_bytes; [ | |eassumption]; [|byte_lit]. eapply aset_bytes; [ | |eassumption]; [|byte_lit].
    eapply answer_copy_bytes; [exact Fm| |eassumption]. eapply aset_bytes; [exact Fa| |eassumption]. byte_lit.
Qed.
Lemma receive_bytes c m c' : Forall is_byte8 (m_data (c_answer c)) -> Forall is_byte8 (m_data m) -> ctrl_receive c m = Ok c' -> Forall is_byte8 (m_data (c_answer c')).
Proof.
  intros Fa Fm E. unfold ctrl_receive in E. destruct (m_length m <=? 3)%nat; [injection E as <-; auto|]. destruct (c_state c).
  - injection E as <-; auto.
  - bstep E. bstep E. bstep E. destruct (_ && _); [|injection E as <-; auto]. bstep E. bstep E. destruct (_ =? _); [|injection E as <-; auto].
    bstep E. bstep E. bstep E. injection E as <-. cbn [c_answer m_data].
    eapply aset_bytes; [|eapply crc_byte; eassumption|eassumption]. eapply aset_bytes; [exact Fa| |eassumption]. unfold u8, is_byte8. apply Z.mod_pos_bound. reflexivity.
  - bstep E. bstep E. destruct x0; [eapply generate_bytes; eauto|injection E as <-; auto].
Qed.
Lemma ctrl_receive_good c m : ctrl_good c -> msg_ok m -> exists c', ctrl_receive c m = Ok c' /\ ctrl_good c'.
Proof.
  intros ((s & S) & F) M. destruct (receive_sim c s (packet_of m) S (packet_of_ok m M)) as (c' & s' & E & S' & _). exists c'. split; [exact E|].
  split; [eauto|]. eapply receive_bytes; [exact F| |exact E]. apply M.
Qed.
Lemma ctrl_check_good now c : ctrl_good c -> ctrl_good (ctrl_check now c).
Proof.
  intros ((s & S) & F). destruct (call_sim c s ((now, Check), no_msg) S) as (c' & s' & o & r & E & S' & _).
  { split; [exact I|reflexivity]. }
  cbn [ctrl_call] in E. injection E as <- <-. split; [eauto|]. unfold ctrl_check. destruct (c_state c), (_ <=? _); exact F.
Qed.
Lemma ctrl_collision_good now c : ctrl_good c -> ctrl_good (ctrl_bus_collision now c).
Proof.
  intros ((s & S) & F). destruct (call_sim c s ((now, Collision), no_msg) S) as (c' & s' & o & r & E & S' & _).
  { split; [exact I|reflexivity]. }
  cbn [ctrl_call] in E. injection E as <- <-. split; [eauto|exact F].
Qed.
Lemma copy_loop_bytes src : Forall is_byte8 src -> forall k i dst d, Forall is_byte8 dst -> copy_loop src i k dst = Ok d -> Forall is_byte8 d.
Proof.
  intros Fs. induction k as [|k IH]; intros i dst d F E; cbn [copy_loop] in E; [injection E as <-; auto|].
  bstep E. bstep E. eapply IH; [|exact E]. eapply aset_bytes; [exact F| |eassumption].
  rewrite Forall_forall in Fs. apply Fs. apply aget_ok in E0. eapply nth_error_In; eauto.
Qed.
Lemma ctrl_answer_good c junk : ctrl_good c -> cells32 junk -> ctrl_has_tx c = true ->
  exists c' m, ctrl_tx_answer c (msg_new junk) = Ok (c', m) /\ ctrl_good c' /\ sendable m.
Proof.
  intros ((s & S) & F) (Lj & Fj) H. destruct (call_sim c s ((0, Take), msg_new junk) S) as (c' & s' & o & r & E & S' & St & D).
  { split; [exact I|exact Lj]. }
  cbn [ctrl_call fst snd step] in *. apply bind_ok in E as ((c1 & m) & E & E'). injection E' as <- <-. exists c1, m. split; [exact E|].
  unfold ctrl_tx_answer in E. bstep E. injection E as <- <-. split; [split; [eauto|exact F]|].
  destruct (copy_loop_ok (m_data (c_answer c)) (m_length (c_answer c)) 0 (m_data (msg_new junk))) as (d & E1 & L1 & _).
  { rewrite (sim_len _ _ S). apply (sim_mlen _ _ S). } { cbn. rewrite Lj. apply (sim_mlen _ _ S). }
  rewrite E1 in E0. injection E0 as <-. cbn [msg_new m_data] in L1. unfold sendable, tx_msg_ok. cbn [m_data m_length].
  split; [split; [congruence|split; [apply (sim_mlen _ _ S)|]]|].
  - eapply copy_loop_bytes; [exact F| |exact E1]. exact Fj.
  - unfold ctrl_has_tx in H. rewrite (sim_ready _ _ S) in H. destruct (k_pending s) as [a|] eqn:Ea; [|discriminate].
    destruct (sim_pend _ _ S a Ea) as (Fa & _ & p & body & cc & -> & _). assert (X : length (firstn (m_length (c_answer c)) (m_data (c_answer c))) = length (body ++ [cc])) by congruence.
    rewrite app_length, firstn_length in X. cbn in X. lia.
Qed.
Lemma is_answer_ok c m : length (m_data m) = 32%nat -> exists b, is_tx_answer c m = Ok b.
Proof.
  intros L. unfold is_tx_answer. destruct (aget_lt (m_data m) 0 ltac:(lia)) as (x & ->). cbn [bind]. destruct (negb _); eauto.
  destruct (aget_lt (m_data m) 1 ltac:(lia)) as (y & ->). cbn [bind]. destruct (_ =? _); eauto.
  destruct (aget_lt (m_data m) 2 ltac:(lia)) as (z & ->). cbn [bind]. eauto.
Qed.

(** ** Host interface *)
Lemma split_factors l : (forall f fs, split l = f :: fs -> exists q, l = f ++ q) /\ (forall f, In f (split l) -> factor f l /\ no_colon f).
Proof.
  induction l as [|c t (IH1 & IH2)]; cbn [split].
  - split; [intros f fs H; injection H as <- <-; exists []; reflexivity|]. intros f [<-|[]]. split; [exists [], []; reflexivity|constructor].
  - destruct (Z.eqb_spec c 58) as [->|Hc].
    + split; [intros f fs H; injection H as <- <-; eexists; reflexivity|]. intros f [<-|H]; [split; [exists [], (58 :: t); reflexivity|constructor]|].
      destruct (IH2 f H) as ((p & q & E) & N). split; [exists (58 :: p), q; rewrite E; reflexivity|exact N].
    + destruct (split t) as [|f0 fs0] eqn:Es; [destruct (split_cons t) as (a & b & X); congruence|]. split.
      * intros f fs H; injection H as <- <-. destruct (IH1 _ _ eq_refl) as (q & E). exists q. rewrite E. reflexivity.
      * intros f [<-|H].
        -- destruct (IH1 _ _ eq_refl) as (q & E). destruct (IH2 f0 (or_introl eq_refl)) as (_ & N). split; [exists [], q; cbn; f_equal; exact E|constructor; auto].
        -- destruct (IH2 f (or_intror H)) as ((p & q & E) & N). split; [exists (c :: p), q; cbn; f_equal; exact E|exact N].
Qed.
Lemma factor_trans x y z : factor x y -> factor y z -> factor x z.
Proof. intros (p & q & ->) (p' & q' & ->). exists (p' ++ p), (q ++ q'). rewrite !app_assoc. reflexivity. Qed.
Lemma data_field_factor line : factor (data_field_used line) line /\ no_colon (data_field_used line).
Proof.
  unfold data_field_used. destruct (split_factors line) as (_ & H). destruct (split line) as [|a [|b [|c r]]] eqn:E; try (apply H; cbn; auto; fail).
  destruct (split_cons line) as (a & b & X); congruence.
Qed.
Lemma nibs_nonblank p l : (length (nibs p l) <= length (nonblank l))%nat.
Proof.
  unfold nibs, nonblank. induction l as [|c t IH]; cbn [before_comment flat_map filter length]; auto.
  destruct ((c =? 35) || (c =? 59)); [cbn; lia|]. cbn [flat_map]. rewrite app_length.
  destruct (Z.eqb_spec c 32); cbn [negb filter length]; [lia|]. destruct (_ =? -1); cbn [length]; lia.
Qed.
Lemma until_nul_prefix l : exists q, l = until_nul l ++ q.
Proof. induction l as [|c t (q & E)]; cbn; [exists []; reflexivity|]. destruct (c =? 0); [exists (c :: t); reflexivity|]. exists q. cbn. congruence. Qed.
Lemma until_nul_chars l : Forall is_byte8 l -> Forall is_char (until_nul l).
Proof. induction 1 as [|c t H F IH]; cbn; [constructor|]. destruct (Z.eqb_spec c 0); constructor; auto. unfold is_byte8 in H. unfold is_char. lia. Qed.
Lemma data_loop_bytes p l : forall f m m', Forall is_byte8 (m_data m) -> data_loop p l f m = Ok m' -> Forall is_byte8 (m_data m').
Proof.
  induction l as [|c t IH]; intros f m m' F E; cbn [data_loop] in E; [injection E as <-; auto|].
  destruct (c =? 32); [eauto|]. destruct ((c =? 35) || (c =? 59)); [injection E as <-; auto|].
  destruct (negb _); [|eauto]. destruct (negb f).
  - bstep E. eapply IH; [|exact E]. cbn [m_data]. eapply aset_bytes; [exact F| |eassumption]. unfold u8, is_byte8. apply Z.mod_pos_bound. reflexivity.
  - bstep E. bstep E. eapply IH; [|exact E]. cbn [m_data]. eapply aset_bytes; [exact F| |eassumption]. unfold u8, is_byte8. apply Z.mod_pos_bound. reflexivity.
Qed.
Lemma parse_sendable junk line txt : cells32 junk -> Forall is_char line -> input_ok txt -> factor line txt -> no_nl line ->
  exists m, msg_parse pico junk line = Ok m /\ tx_msg_ok m.
Proof.
  intros (Lj & Fj) Fc (_ & I2) Fx N. pose proof (parse_general pico junk line Fc Lj) as P. cbv zeta in P.
  destruct (data_field_factor line) as (Fd & Nd).
  assert (L : (length (nibs pico (data_field_used line)) <= 64)%nat).
  { eapply Nat.le_trans; [apply nibs_nonblank|]. apply I2; [eapply factor_trans; eauto| |exact Nd].
    destruct Fd as (p & q & E). rewrite E in N. apply Forall_app in N as (_ & N). apply Forall_app in N as (N & _). exact N. }
  destruct (Nat.leb_spec (length (nibs pico (data_field_used line))) 64); [|lia].
  destruct P as (m & E & _ & _ & Lm & Ld & _). exists m. split; [exact E|]. split; [exact Ld|]. split.
  - rewrite Lm. apply Nat.div_le_upper_bound; lia.
  - unfold msg_parse in E. eapply data_loop_bytes; [|exact E]. exact Fj.
Qed.

Lemma find_nl_no l i : find_nl l = Some i -> no_nl (firstn i l).
Proof.
  revert i. induction l as [|c t IH]; intros i H; cbn in H; [discriminate|]. destruct (is_nl c) eqn:Ec; [injection H as <-; constructor|].
  destruct (find_nl t) as [j|]; [|discriminate]. injection H as <-. cbn. constructor; auto. apply IH; auto.
Qed.
Lemma find_nl_none_no l : find_nl l = None -> no_nl l.
Proof. induction l as [|c t IH]; intros H; cbn in H; [constructor|]. destruct (is_nl c) eqn:Ec; [discriminate|]. destruct (find_nl t); [discriminate|]. constructor; auto. apply IH; auto. Qed.

Lemma rxline_good now junk a txt : cells32 junk -> input_ok txt -> Forall sendable (a_ms a) -> Forall is_byte8 (a_b a) ->
  (exists p q, txt = p ++ a_b a ++ q /\ (no_nl (a_b a) -> q = [])) ->
  exists a', a_rxline now junk a = Ok a' /\ Forall sendable (a_ms a') /\ no_nl (a_b a') /\ Forall is_byte8 (a_b a') /\ exists p, txt = p ++ a_b a'.
Proof.
  intros Cj I Ms Fb (p & q & Et & Hq). unfold a_rxline. destruct (find_nl (a_b a)) as [[|i]|] eqn:Ef.
  - eexists. split; [reflexivity|]. cbn. split; [exact Ms|]. split; [constructor|]. split; [constructor|]. exists txt. rewrite app_nil_r. reflexivity.
  - set (raw := firstn (S i) (a_b a)). assert (Nr : no_nl raw) by (apply find_nl_no; auto).
    assert (Fr : factor raw txt).
    { exists p, (skipn (S i) (a_b a) ++ q). rewrite Et. rewrite <- (firstn_skipn (S i) (a_b a)) at 1. rewrite <- app_assoc. reflexivity. }
    destruct (until_nul_prefix raw) as (r & Er).
    assert (Br : Forall is_byte8 raw) by (unfold raw; rewrite <- (firstn_skipn (S i) (a_b a)) in Fb; apply Forall_app in Fb; apply Fb).
    destruct (parse_sendable junk (until_nul raw) txt Cj (until_nul_chars _ Br) I) as (m & Em & Tm).
    { eapply factor_trans; [|exact Fr]. exists [], r. exact Er. }
    { rewrite Er in Nr. apply Forall_app in Nr. apply Nr. }
    assert (NIL : exists p0 : list Z, txt = p0 ++ []) by (exists txt; rewrite app_nil_r; reflexivity).
    unfold a_line. destruct (has_prefix bld_cmd (until_nul raw)); [|destruct (is_comment (until_nul raw))]; [..|rewrite Em]; cbn [bind]; eexists; (split; [reflexivity|]); cbn [a_set_b a_ms a_b];
      (split; [|split; [constructor|split; [constructor|exact NIL]]]); auto.
    destruct (Nat.ltb_spec 0 (m_length m)); cbn [andb]; [|exact Ms]. destruct (length (a_ms a) <? 8)%nat; [|exact Ms].
    apply Forall_app. split; [exact Ms|]. constructor; [|constructor]. split; [exact Tm|lia].
  - eexists. split; [reflexivity|]. apply find_nl_none_no in Ef. split; [exact Ms|]. split; [exact Ef|]. split; [exact Fb|]. exists p. rewrite (Hq Ef), app_nil_r in Et. exact Et.
Qed.

Lemma check_good now junk bud cs txt h : host_good txt h -> cells32 junk -> Forall is_byte8 cs -> input_ok (txt ++ cs) ->
  exists h' out, host_check pico now junk bud cs h = Ok (h', out) /\ host_good (txt ++ cs) h'.
Proof.
  intros (a & R & Ms & Nb & Fb & p & Et) Cj Fc I.
  assert (Hop : hop_ok (now, OpCheck bud junk cs)) by (split; [apply Cj|exact Fc]).
  pose proof (step_ok h a (now, OpCheck bud junk cs) R Hop) as X. cbn [host_step a_step] in X.
  set (a1 := fst (a_pump bud a)) in *. assert (E1 : a_pump bud a = (a1, firstn bud (a_q a))) by reflexivity. rewrite E1 in X.
  assert (Lim : no_nl (firstn 128 (a_b a ++ cs)) -> (length (a_b a ++ cs) <= 127)%nat).
  { intros N. destruct (Nat.le_gt_cases (length (a_b a ++ cs)) 127) as [H|H]; [exact H|exfalso]. destruct I as (I1 & _).
    assert (F : factor (firstn 128 (a_b a ++ cs)) (txt ++ cs)).
    { exists p, (skipn 128 (a_b a ++ cs)). rewrite firstn_skipn, Et, app_assoc. reflexivity. }
    specialize (I1 _ F N). rewrite firstn_length in I1. lia. }
  destruct (rxline_good now junk (a_recv cs a1) (txt ++ cs)) as (a' & Ea & Ms' & Nb' & Fb' & p' & Et'); auto.
  { cbn. apply Forall_forall. intros x Hx. assert (In x (a_b a ++ cs)) by (rewrite <- (firstn_skipn 128 (a_b a ++ cs)); apply in_or_app; auto).
    assert (FF : Forall is_byte8 (a_b a ++ cs)) by (apply Forall_app; auto). rewrite Forall_forall in FF. auto. }
  { exists p, (skipn 128 (a_b a ++ cs)). cbn [a_recv a1 a_pump fst a_b]. rewrite firstn_skipn. split; [rewrite Et, <- app_assoc; reflexivity|].
    intros N. specialize (Lim N). apply skipn_all2. lia. }
  rewrite Ea in X. cbn [bind agree] in X. unfold agree in X. destruct (host_check pico now junk bud cs h) as [(h' & out)|k]; [|contradiction X].
  cbn [bind fst snd] in X. destruct X as (_ & R'). exists h', out. split; [reflexivity|]. exists a'. split; [exact R'|]. split; [exact Ms'|]. split; [exact Nb'|]. split; [exact Fb'|]. exists p'. exact Et'.
Qed.

Lemma report_good why now bud txt h m : host_good txt h -> msg_ok m ->
  exists h' m' out, report why now bud h m = Ok (h', m', [A_report why bud m m' out]) /\ host_good txt h' /\ msg_ok m' /\
    m_data m' = m_data m /\ m_length m' = m_length m /\ exists e, host_step h (now, OpReport bud m) = Ok (h', OSent m' out e).
Proof.
  intros (a & R & Ms & Nb & Fb & P) M. pose proof (step_ok h a (now, OpReport bud m) R M) as X. cbn [host_step a_step] in X |- *.
  destruct (a_send bud _ (a_updated now a m)) as (a' & out') eqn:Es in X. unfold report.
  destruct (host_update_and_send now bud h m) as [((h' & m') & out)|k] eqn:E; cbn [bind agree] in X |- *; [|contradiction X].
  cbn [fst snd] in X. destruct X as (X & R'). injection X as X1 X2 X3. exists h', m', out. split; [reflexivity|]. split.
  - exists a'. split; [exact R'|]. assert (Q : a_ms a' = a_ms a /\ a_b a' = a_b a).
    { unfold a_send in Es. destruct (_ <=? _)%nat; injection Es as <- <-; auto. }
    destruct Q as (-> & ->). auto.
  - rewrite X1. split; [apply msg_ok_updated; exact M|]. split; [reflexivity|]. split; [reflexivity|]. eexists. rewrite <- X1. reflexivity.
Qed.

Lemma pop_good txt h junk : host_good txt h -> cells32 junk -> host_has_data h = true ->
  exists h' m, host_pop junk h = Ok (h', m) /\ host_good txt h' /\ sendable m.
Proof.
  intros (a & R & Ms & Nb & Fb & P) C Hd. pose proof (step_ok h a (0, OpPop junk) R I) as X. cbn [host_step a_step] in X.
  unfold host_has_data, ff_empty in Hd. destruct (r_ms _ _ R) as (_ & _ & Hl & _). rewrite Hl in Hd. destruct (a_ms a) as [|m r]; [discriminate|].
  destruct (host_pop junk h) as [(h' & m')|k]; cbn [bind agree] in X; [|contradiction X]. cbn [fst snd] in X. destruct X as (X & R'). injection X as ->.
  exists h', m. split; [reflexivity|]. inversion Ms; subst. split; [|auto]. eexists. split; [exact R'|]. auto.
Qed.

(** ** Elementary moves *)
Section moves1.
Variables (now : Z) (t : txsm) (hw : pio_hw) (c : ctrl) (h : host) (led : ledmgr).
Ltac fa := repeat match goal with |- Forall _ [] => constructor | |- Forall _ (_ :: _) => constructor end;
  first [exact I | assumption | split; [exact I|reflexivity] | split; [exact I|assumption] | split; [assumption|reflexivity] | split; assumption | idtac].
Ltac mv := constructor; cbn [stamp map flat_map app snd fst tx_part tx_part_out ctrl_part ctrl_part_out host_part host_part_out led_part mrun p_tx p_ctrl p_host p_led ctrl_call];
  [.. | split; [fa|split; fa]]; eauto.
Lemma mv_hw es : moves (stamp now (map A_hw es)) (PT (t, hw) c h led) (PT (t, fold_left hw_step es hw) c h led).
Proof.
  revert hw. induction es as [|e es IH]; intros w; [apply moves_nil|]. cbn [map stamp fold_left].
  apply (moves_app [(now, A_hw e)] (stamp now (map A_hw es)) _ (PT (t, hw_step w e) c h led)); [|apply IH]. mv.
Qed.
Lemma mv_leds es : moves (stamp now (map A_led es)) (PT (t, hw) c h led) (PT (t, hw) c h (fold_left lm_step es led)).
Proof.
  revert led. induction es as [|e es IH]; intros w; [apply moves_nil|]. cbn [map stamp fold_left].
  apply (moves_app [(now, A_led e)] (stamp now (map A_led es)) _ (PT (t, hw) c h (lm_step w e))); [|apply IH]. mv.
Qed.
Lemma mv_check bud junk cs h' out : host_check pico now junk bud cs h = Ok (h', out) -> cells32 junk -> Forall is_byte8 cs ->
  moves (stamp now [A_check bud junk cs out]) (PT (t, hw) c h led) (PT (t, hw) c h' led).
Proof. intros E (L & _) F. mv. cbn [host_step]. rewrite E. cbn. eexists. split; reflexivity. Qed.
Lemma mv_ctrl_check : moves (stamp now [A_ctrl_check]) (PT (t, hw) c h led) (PT (t, hw) (ctrl_check now c) h led).
Proof. mv. Qed.
Lemma mv_error : moves (stamp now [A_error (snd (tx_error t))]) (PT (t, hw) c h led) (PT (fst (tx_error t), hw) c h led).
Proof. mv. Qed.
Lemma mv_report why bud m h' m' out e : host_step h (now, OpReport bud m) = Ok (h', OSent m' out e) -> msg_ok m ->
  moves (stamp now [A_report why bud m m' out]) (PT (t, hw) c h led) (PT (t, hw) c h' led).
Proof. intros E M. mv. rewrite E. cbn. eexists. split; reflexivity. Qed.
Lemma mv_clear time : moves (stamp now [A_clear time]) (PT (t, hw) c h led) (PT (tx_clear_rx t time, hw) c h led).
Proof. mv. Qed.
Lemma mv_collision : moves (stamp now [A_collision]) (PT (t, hw) c h led) (PT (t, hw) (ctrl_bus_collision now c) h led).
Proof. mv. Qed.
Lemma mv_receive m c' : ctrl_receive c m = Ok c' -> msg_ok m -> moves (stamp now [A_receive m]) (PT (t, hw) c h led) (PT (t, hw) c' h led).
Proof. intros E M. rewrite receive_packet in E. apply packet_of_ok in M. mv. rewrite E. reflexivity. Qed.
Lemma mv_pop junk h' m : host_pop junk h = Ok (h', m) -> moves (stamp now [A_pop junk m]) (PT (t, hw) c h led) (PT (t, hw) c h' led).
Proof. intros E. mv. cbn [host_step]. rewrite E. cbn. eexists. split; reflexivity. Qed.
Lemma mv_answer out m c' : ctrl_tx_answer c out = Ok (c', m) -> length (m_data out) = 32%nat -> moves (stamp now [A_answer out m]) (PT (t, hw) c h led) (PT (t, hw) c' h led).
Proof. intros E L. mv. rewrite E. reflexivity. Qed.
Lemma mv_wake m t' hw' : tx_wake now t hw m = Ok (t', hw') -> sendable m -> moves (stamp now [A_wake m]) (PT (t, hw) c h led) (PT (t', hw') c h led).
Proof. intros E S. mv. cbn [tx_event]. rewrite E. reflexivity. Qed.
Lemma mv_update b re rv ch t' hw' : tx_update pico now t hw b re rv ch = Ok (t', hw') -> is_byte8 ch -> moves (stamp now [A_update b re rv ch]) (PT (t, hw) c h led) (PT (t', hw') c h led).
Proof. intros E B. mv. cbn [tx_event]. rewrite E. reflexivity. Qed.
End moves1.

Lemma stamp_app now a b : stamp now (a ++ b) = stamp now a ++ stamp now b.
Proof. apply map_app. Qed.
Lemma moves_two now l1 l2 a b c : moves (stamp now l1) a b -> moves (stamp now l2) b c -> moves (stamp now (l1 ++ l2)) a c.
Proof. rewrite stamp_app. apply moves_app. Qed.

(** No transmission is started in a list of calls. *)
Definition quiet (l : list act) : Prop := Forall (fun a => match a with A_wake _ => False | _ => True end) l.
Ltac quiet_solve := repeat constructor.
(** ** The sections of an iteration *)
Lemma failure_good now bud txfail sm hw c h led txt : good txt (PT (sm, hw) c h led) ->
  exists sm' h' c' l, failure_part now bud txfail sm h c = Ok (sm', h', c', l) /\ good txt (PT (sm', hw) c' h' led) /\
    moves (stamp now l) (PT (sm, hw) c h led) (PT (sm', hw) c' h' led) /\
    rx_reports (stamp now l) = [] /\ to_ctrl (stamp now l) = [] /\ tx_is_idle sm' = tx_is_idle sm /\ quiet l.
Proof.
  intros [Gt Gc Gh]. cbn [p_tx p_ctrl p_host] in *. unfold failure_part. destruct txfail.
  2:{ exists sm, h, c, []. split; [reflexivity|]. split; [constructor; auto|]. split; [apply moves_nil|]. repeat (split; [reflexivity|]). constructor. }
  assert (M : exists sm' h' l, (if negb (m_status (t_rx sm) =? STATUS_ERR_PARITY)
       then let* (h', rx', l) := report R_txfail now bud h (t_rx sm) in Ok (tx_clear_rx sm (m_time rx'), h', l ++ [A_clear (m_time rx')])
       else Ok (sm, h, [])) = Ok (sm', h', l) /\ good txt (PT (sm', hw) c h' led) /\ moves (stamp now l) (PT (sm, hw) c h led) (PT (sm', hw) c h' led) /\
       rx_reports (stamp now l) = [] /\ to_ctrl (stamp now l) = [] /\ tx_is_idle sm' = tx_is_idle sm /\ quiet l).
  { destruct (negb _).
    - destruct (report_good R_txfail now bud txt h (t_rx sm) Gh (proj2 (proj2 Gt))) as (h' & m' & out & E & Gh' & M' & _ & _ & e & St).
      rewrite E. cbn [bind]. eexists _, _, _. split; [reflexivity|]. split; [|split; [|split; [reflexivity|split; [reflexivity|split; [reflexivity|quiet_solve]]]]].
      + constructor; cbn [p_tx p_ctrl p_host]; auto. 
        destruct (tx_step_good sm hw (now, ClearRx (m_time m')) Gt I) as (t' & w' & o & Et & Gt').
        { intros time H. injection H as <-. apply M'. }
        cbn in Et. injection Et as <- <- <-. exact Gt'.
      + apply (moves_two now _ _ _ (PT (sm, hw) c h' led)); [eapply mv_report; [eassumption|exact (proj2 (proj2 Gt))]|apply mv_clear].
    - eexists _, _, _. split; [reflexivity|]. split; [constructor; auto|]. split; [apply moves_nil|]. repeat (split; [reflexivity|]). constructor. }
  destruct M as (sm' & h' & l & E & [Gt' Gc' Gh'] & Mv & R1 & R2 & Hid & Q). cbn [p_tx p_ctrl p_host] in *. rewrite E. cbn [bind].
  destruct (is_answer_ok c (t_tx sm')) as (own & Eo); [apply (proj2 Gt')|]. rewrite Eo. cbn [bind].
  exists sm', h', (if own then ctrl_bus_collision now c else c), (l ++ if own then [A_collision] else []). split; [reflexivity|]. destruct own.
  - split; [constructor; cbn [p_tx p_ctrl p_host]; auto; apply ctrl_collision_good; auto|]. split; [eapply moves_two; [exact Mv|apply mv_collision]|].
    rewrite stamp_app. unfold rx_reports, to_ctrl in *. rewrite !flat_map_app, R1, R2. repeat (split; [auto; reflexivity|]). apply Forall_app; split; [exact Q|quiet_solve].
  - rewrite app_nil_r. split; [constructor; auto|]. auto.
Qed.

(** How a transmission is started. *)
Definition tail_shape (sm : txsm) (c : ctrl) (h : host) (junk : list Z) (l : list act) : Prop := exists b re rv ch,
  (l = [A_update b re rv ch] /\ (tx_is_idle sm = false \/ (host_has_data h = false /\ ctrl_has_tx c = false))) \/
  (exists m h', l = [A_pop junk m; A_wake m; A_update b re rv ch] /\ tx_is_idle sm = true /\ host_has_data h = true /\ host_pop junk h = Ok (h', m)) \/
  (exists m c', l = [A_answer (msg_new junk) m; A_wake m; A_update b re rv ch] /\ tx_is_idle sm = true /\ host_has_data h = false /\ ctrl_has_tx c = true /\ ctrl_tx_answer c (msg_new junk) = Ok (c', m)).
Lemma tail_good now junk sm hw c h led busy e txt : good txt (PT (sm, hw) c h led) -> cells32 junk -> is_byte8 (ev_char e) ->
  exists sm' hw' c' h' l, tail_part pico now junk sm hw c h busy e = Ok (sm', hw', c', h', l) /\ good txt (PT (sm', hw') c' h' led) /\
    moves (stamp now l) (PT (sm, hw) c h led) (PT (sm', hw') c' h' led) /\ rx_reports (stamp now l) = [] /\ to_ctrl (stamp now l) = [] /\ tail_shape sm c h junk l.
Proof.
  intros [Gt Gc Gh] Cj Be. cbn [p_tx p_ctrl p_host] in *. unfold tail_part.
  assert (M : exists sm' hw' c' h' l, transmit_part now junk sm hw c h = Ok (sm', hw', c', h', l) /\ good txt (PT (sm', hw') c' h' led) /\
    moves (stamp now l) (PT (sm, hw) c h led) (PT (sm', hw') c' h' led) /\ rx_reports (stamp now l) = [] /\ to_ctrl (stamp now l) = [] /\ (forall b re rv ch, tail_shape sm c h junk (l ++ [A_update b re rv ch]))).
  { unfold transmit_part. assert (Same : good txt (PT (sm, hw) c h led)) by (constructor; auto).
    destruct (tx_is_idle sm) eqn:Hi; [|eexists _, _, _, _, _; split; [reflexivity|]; split; [exact Same|]; split; [apply moves_nil|split; [reflexivity|split; [reflexivity|intros b re rv ch; exists b, re, rv, ch; auto]]]].
    destruct (host_has_data h) eqn:Hd; [|destruct (ctrl_has_tx c) eqn:Hc].
    - destruct (pop_good txt h junk Gh Cj Hd) as (h' & m & Ep & Gh' & Sm). rewrite Ep. cbn [bind].
      destruct (tx_step_good sm hw (now, Wake m) Gt Sm) as (t' & w' & o & Et & Gt'); [discriminate|].
      cbn [tx_event] in Et. destruct (tx_wake now sm hw m) as [(t1 & w1)|k] eqn:Ew; [|discriminate Et]. cbn [bind] in Et |- *. injection Et as <- <- <-.
      eexists _, _, _, _, _. split; [reflexivity|]. split; [constructor; auto|]. split; [|split; [reflexivity|split; [reflexivity|intros b re rv ch; exists b, re, rv, ch; right; left; exists m, h'; auto]]].
      apply (moves_two now [A_pop junk m] [A_wake m] _ (PT (sm, hw) c h' led)); [apply mv_pop; assumption|apply mv_wake; assumption].
    - destruct (ctrl_answer_good c junk Gc Cj Hc) as (c' & m & Ep & Gc' & Sm). rewrite Ep. cbn [bind].
      destruct (tx_step_good sm hw (now, Wake m) Gt Sm) as (t' & w' & o & Et & Gt'); [discriminate|].
      cbn [tx_event] in Et. destruct (tx_wake now sm hw m) as [(t1 & w1)|k] eqn:Ew; [|discriminate Et]. cbn [bind] in Et |- *. injection Et as <- <- <-.
      eexists _, _, _, _, _. split; [reflexivity|]. split; [constructor; auto|]. split; [|split; [reflexivity|split; [reflexivity|intros b re rv ch; exists b, re, rv, ch; right; right; exists m, c'; auto 10]]].
      apply (moves_two now [A_answer (msg_new junk) m] [A_wake m] _ (PT (sm, hw) c' h led)); [apply mv_answer; [assumption|apply Cj]|apply mv_wake; assumption].
    - eexists _, _, _, _, _; split; [reflexivity|]; split; [exact Same|]; split; [apply moves_nil|split; [reflexivity|split; [reflexivity|intros b re rv ch; exists b, re, rv, ch; auto]]]. }
  destruct M as (sm1 & hw1 & c1 & h1 & l & E & [Gt1 Gc1 Gh1] & Mv & R1 & R2 & Sh). rewrite E. cbn [bind p_tx p_ctrl p_host] in *.
  destruct (tx_step_good sm1 hw1 (now, Update busy (ev_error e) (ev_valid e) (ev_char e)) Gt1 Be) as (t' & w' & o & Et & Gt'); [discriminate|].
  cbn [tx_event] in Et. destruct (tx_update pico now sm1 hw1 busy (ev_error e) (ev_valid e) (ev_char e)) as [(t2 & w2)|k] eqn:Eu; [|discriminate Et].
  cbn [bind] in Et |- *. injection Et as <- <- <-. eexists _, _, _, _, _. split; [reflexivity|]. split; [constructor; auto|].
  split; [eapply moves_two; [exact Mv|apply mv_update; assumption]|]. rewrite stamp_app. unfold rx_reports, to_ctrl in *. rewrite !flat_map_app, R1, R2. auto.
Qed.

(** ** Assembling *)
Definition rx_good (m : message) : Prop := msg_ok m /\ (m_length m < 32)%nat.

Lemma vw_clear m : content (msg_clear m) = (0, []).
Proof. reflexivity. Qed.
Lemma rx_clear_good m : msg_ok m -> rx_good (msg_clear m).
Proof. intros M. split; [apply clear_ok; auto|cbn; lia]. Qed.
Lemma payload_len m : msg_ok m -> length (payload m) = m_length m.
Proof. intros (_ & _ & Ld & Ll & _). unfold payload. rewrite firstn_length. lia. Qed.

Lemma flush_good why now bud txt h st m : 0 <= st < 4294967296 -> host_good txt h -> msg_ok m ->
  exists h' m' out, report why now bud h (set_status m st) = Ok (h', m', [A_report why bud (set_status m st) m' out]) /\ host_good txt h' /\ rx_good (msg_clear m') /\
    exists e, host_step h (now, OpReport bud (set_status m st)) = Ok (h', OSent m' out e).
Proof.
  intros Hs G M. destruct (report_good why now bud txt h (set_status m st) G (set_status_ok m st M Hs)) as (h' & m' & out & E & G' & M' & _ & _ & e & St).
  exists h', m', out. split; [exact E|]. split; [exact G'|]. split; [apply rx_clear_good; auto|eauto].
Qed.
Lemma vw_set m st : content (set_status m st) = (st, snd (content m)).
Proof. reflexivity. Qed.

Lemma merge_good rx e : rx_good rx -> is_byte8 (ev_char e) ->
  exists rx', merge_event rx e = Ok rx' /\ msg_ok rx' /\ content rx' = (status_after (fst (content rx)) e, snd (content rx) ++ byte_of e).
Proof.
  intros (M & L) B. unfold merge_event, status_after, byte_of, content. cbn [fst snd]. destruct (ev_dadc e); cbn [negb andb].
  - eexists. split; [reflexivity|]. split; [apply set_status_ok; [exact M|unfold STATUS_ERR_OVERFLOW; lia]|]. cbn. rewrite app_nil_r. reflexivity.
  - destruct (ev_error e); cbn [orb].
    + set (m3 := set_status rx STATUS_ERR_PARITY). assert (M3 : msg_ok m3) by (apply set_status_ok; [exact M|unfold STATUS_ERR_PARITY; lia]).
      destruct (append_ok m3 (ev_char e)) as (rx' & E & _); [apply M|]. exists rx'. split; [exact E|].
      destruct (append_msg _ _ _ M3 B E) as (M' & S & _ & P). split; [exact M'|]. rewrite S. destruct (P L) as (-> & _). reflexivity.
    + destruct (ev_valid e).
      * destruct (append_ok rx (ev_char e)) as (rx' & E & _); [apply M|]. exists rx'. split; [exact E|].
        destruct (append_msg _ _ _ M B E) as (M' & S & _ & P). split; [exact M'|]. rewrite S. destruct (P L) as (-> & _). reflexivity.
      * eexists. split; [reflexivity|]. split; [exact M|]. rewrite app_nil_r. reflexivity.
Qed.

Lemma end_good now bud e rx c h txt sm hw led : msg_ok rx -> good txt (PT (sm, hw) c h led) ->
  let fin := ev_free e && ((0 <? length (snd (content rx)))%nat || negb (fst (content rx) =? 0)) in
  exists rx' c' h' l, packet_end now bud e rx c h = Ok (rx', c', h', l) /\ msg_ok rx' /\ good txt (PT (sm, hw) c' h' led) /\
    moves (stamp now l) (PT (sm, hw) c h led) (PT (sm, hw) c' h' led) /\
    (content rx', map described (rx_reports (stamp now l))) = flush_if fin R_packet (fst (content rx)) (content rx) /\
    (map content (to_ctrl (stamp now l)) = if fin then [content rx] else []) /\ quiet l.
Proof.
  intros M [Gt Gc Gh]. cbn [p_tx p_ctrl p_host] in *. cbn zeta. unfold packet_end. cbn [content fst snd]. rewrite (payload_len rx M).
  destruct (ev_free e && ((0 <? m_length rx)%nat || negb (m_status rx =? 0))) eqn:F.
  - destruct (ctrl_receive_good c rx Gc M) as (c' & E & Gc'). rewrite E. cbn [bind].
    destruct (report_good R_packet now bud txt h rx Gh M) as (h' & m' & out & Er & G' & M' & _ & _ & e' & St). rewrite Er. cbn [bind].
    eexists _, _, _, _. split; [reflexivity|]. split; [apply clear_ok; auto|]. split; [constructor; auto|]. split; [|split; [reflexivity|split; [reflexivity|quiet_solve]]].
    apply (moves_two now [A_receive rx] _ _ (PT (sm, hw) c' h led)); [apply mv_receive; assumption|eapply mv_report; eassumption].
  - eexists _, _, _, _. split; [reflexivity|]. split; [exact M|]. split; [constructor; auto|]. split; [apply moves_nil|]. split; [reflexivity|split; [reflexivity|quiet_solve]].
Qed.
Lemma full_good now bud rx c h txt sm hw led : msg_ok rx -> good txt (PT (sm, hw) c h led) ->
  exists rx' h' l, packet_overflow now bud rx h = Ok (rx', h', l) /\ rx_good rx' /\ good txt (PT (sm, hw) c h' led) /\
    moves (stamp now l) (PT (sm, hw) c h led) (PT (sm, hw) c h' led) /\
    (content rx', map described (rx_reports (stamp now l))) = flush_if (length (snd (content rx)) =? 32)%nat R_full 2 (content rx) /\ to_ctrl (stamp now l) = [] /\ quiet l.
Proof.
  intros M [Gt Gc Gh]. cbn [p_tx p_ctrl p_host] in *. unfold packet_overflow, msg_overflow. cbn [content snd]. rewrite (payload_len rx M).
  change MAX_PACKET_SIZE with 32%nat. destruct (Nat.eqb_spec (m_length rx) 32) as [F|F].
  - destruct (flush_good R_full now bud txt h STATUS_ERR_OVERFLOW rx ltac:(unfold STATUS_ERR_OVERFLOW; lia) Gh M) as (h' & m' & out & Er & G' & M' & e' & St). rewrite Er. cbn [bind].
    eexists _, _, _. split; [reflexivity|]. split; [exact M'|]. split; [constructor; auto|]. split; [eapply mv_report; [eassumption|apply set_status_ok; [first [exact M|exact (proj1 R)|exact (proj1 Rx)]|unfold STATUS_ERR_OVERFLOW, STATUS_ERR_NO_FRAMING; lia]]|]. split; [reflexivity|split; [reflexivity|quiet_solve]].
  - eexists _, _, _. split; [reflexivity|]. split; [split; [exact M|destruct M as (_ & _ & _ & L & _); lia]|]. split; [constructor; auto|]. split; [apply moves_nil|]. split; [reflexivity|split; [reflexivity|quiet_solve]].
Qed.

(** ** One iteration *)
Definition parts_of (s : core0) : parts := PT (z_sm s, z_hw s) (z_ctrl s) (z_host s) (z_led s).
Record inv0 (txt : list Z) (s : core0) : Prop := { i_parts : good txt (parts_of s); i_rx : rx_good (z_rx s); i_ev : is_byte8 (ev_char (z_ev s)) }.
Definition tmo (s : core0) (i : inp0) : bool := busy_timeout (in_now i) (z_busy s) (z_since s).

Lemma opt_flush (b : bool) why now bud st rx c h txt sm hw led : 0 <= st < 4294967296 -> rx_good rx -> good txt (PT (sm, hw) c h led) ->
  exists rx' h' l, (if b then let* (h', rx', l) := report why now bud h (set_status rx st) in Ok (msg_clear rx', h', l) else Ok (rx, h, [])) = Ok (rx', h', l) /\
    rx_good rx' /\ good txt (PT (sm, hw) c h' led) /\ moves (stamp now l) (PT (sm, hw) c h led) (PT (sm, hw) c h' led) /\
    (why <> R_txfail -> (content rx', map described (rx_reports (stamp now l))) = flush_if b why st (content rx)) /\ to_ctrl (stamp now l) = [] /\ quiet l.
Proof.
  intros Hs R G. destruct b.
  - destruct (flush_good why now bud txt h st rx Hs (g_host _ _ G) (proj1 R)) as (h' & m' & out & Er & G' & M' & e' & St). rewrite Er. cbn [bind].
    eexists _, _, _. split; [reflexivity|]. split; [exact M'|]. split; [destruct G; constructor; auto|]. split; [eapply mv_report; [eassumption|apply set_status_ok; [first [exact M|exact (proj1 R)|exact (proj1 Rx)]|unfold STATUS_ERR_OVERFLOW, STATUS_ERR_NO_FRAMING; lia]]|]. split; [intros Hw; destruct why; try reflexivity; congruence|split; [reflexivity|quiet_solve]].
  - eexists _, _, _. split; [reflexivity|]. split; [exact R|]. split; [exact G|]. split; [apply moves_nil|]. split; [auto|split; [reflexivity|constructor]].
Qed.

Definition wake_shape (junk : list Z) (mid : parts) (l : list act) : Prop :=
  (l = [] /\ tx_is_idle (fst (p_tx mid)) = true /\ host_has_data (p_host mid) = false /\ ctrl_has_tx (p_ctrl mid) = false) \/
  tail_shape (fst (p_tx mid)) (p_ctrl mid) (p_host mid) junk l.

Lemma reports_app a b : rx_reports (a ++ b) = rx_reports a ++ rx_reports b.
Proof. apply flat_map_app. Qed.
Lemma ctrls_app a b : to_ctrl (a ++ b) = to_ctrl a ++ to_ctrl b.
Proof. apply flat_map_app. Qed.
Lemma reports_hw now es : rx_reports (stamp now (map A_hw es)) = [] /\ to_ctrl (stamp now (map A_hw es)) = [] /\ quiet (map A_hw es).
Proof. induction es as [|e es (A & B & C)]; cbn; [repeat split; constructor|]. split; [exact A|]. split; [exact B|]. constructor; [exact I|exact C]. Qed.
Lemma reports_led now es : rx_reports (stamp now (map A_led es)) = [] /\ to_ctrl (stamp now (map A_led es)) = [] /\ quiet (map A_led es).
Proof. induction es as [|e es (A & B & C)]; cbn; [repeat split; constructor|]. split; [exact A|]. split; [exact B|]. constructor; [exact I|exact C]. Qed.

Lemma head_good txt s i : inv0 txt s -> in_ok i -> input_ok (txt ++ in_chars i) ->
  exists h1 o1 hw1 es1,
    host_check pico (in_now i) (in_junk i) (in_budget i) (in_chars i) (z_host s) = Ok (h1, o1) /\
    led_head (fst (tx_error (z_sm s))) (fold_left hw_step (in_hw i) (z_hw s)) (in_fifoerr i) (snd (tx_error (z_sm s))) = (hw1, es1) /\
    let a1 := PT (fst (tx_error (z_sm s)), hw1) (ctrl_check (in_now i) (z_ctrl s)) h1 (fold_left lm_step es1 (fold_left lm_step (led_ticks (in_ticks i)) (z_led s))) in
    let la := map A_hw (in_hw i) ++ map A_led (led_ticks (in_ticks i)) ++ [A_check (in_budget i) (in_junk i) (in_chars i) o1; A_ctrl_check; A_error (snd (tx_error (z_sm s)))] ++ map A_led es1 in
    good (txt ++ in_chars i) a1 /\ moves (stamp (in_now i) la) (parts_of s) a1 /\ quiet la /\ rx_reports (stamp (in_now i) la) = [] /\ to_ctrl (stamp (in_now i) la) = [].
Proof.
  intros [[Gt Gc Gh] _ _] (Cj & Fc & _) I. cbn [parts_of p_tx p_ctrl p_host] in *.
  destruct (check_good (in_now i) (in_junk i) (in_budget i) (in_chars i) txt (z_host s) Gh Cj Fc I) as (h1 & o1 & Ec & Gh1).
  set (now := in_now i). set (hw0 := fold_left hw_step (in_hw i) (z_hw s)). set (t1 := fst (tx_error (z_sm s))).
  assert (Gt0 : tx_good (z_sm s, hw0)) by (apply hw_fold_good; exact Gt).
  assert (Gt1 : tx_good (t1, hw0)).
  { destruct (tx_step_good (z_sm s) hw0 (now, ReadError) Gt0 Logic.I) as (t' & w' & o & Et & G'); [discriminate|]. cbn in Et. injection Et as <- <- <-. exact G'. }
  assert (Hh : exists es1, led_head t1 hw0 (in_fifoerr i) (snd (tx_error (z_sm s))) = (hw0, es1)).
  { unfold led_head. destruct (tx_is_transmitting t1); [eauto|]. destruct (in_fifoerr i); [eauto|]. rewrite (hw_clean _ _ Gt1). cbn iota. destruct (snd (tx_error (z_sm s))); eauto. }
  destruct Hh as (es1 & Eh). exists h1, o1, hw0, es1. split; [exact Ec|]. split; [exact Eh|]. cbv zeta.
  split; [constructor; cbn [p_tx p_ctrl p_host]; auto; apply ctrl_check_good; auto|].
  destruct (reports_hw now (in_hw i)) as (A1 & A2 & A3). destruct (reports_led now (led_ticks (in_ticks i))) as (B1 & B2 & B3). destruct (reports_led now es1) as (D1 & D2 & D3).
  split; [|split; [|split]].
  - unfold parts_of. eapply moves_two; [apply mv_hw|]. fold hw0. eapply moves_two; [apply mv_leds|]. 
    apply (moves_two now ([A_check (in_budget i) (in_junk i) (in_chars i) o1] ++ [A_ctrl_check] ++ [A_error (snd (tx_error (z_sm s)))]) (map A_led es1) _
      (PT (t1, hw0) (ctrl_check now (z_ctrl s)) h1 (fold_left lm_step (led_ticks (in_ticks i)) (z_led s)))); [|apply mv_leds].
    eapply moves_two; [apply mv_check; [exact Ec|exact Cj|exact Fc]|]. eapply moves_two; [apply mv_ctrl_check|]. apply mv_error.
  - apply Forall_app. split; [exact A3|]. apply Forall_app. split; [exact B3|]. apply Forall_app. split; [quiet_solve|exact D3].
  - rewrite !stamp_app, !reports_app, A1, B1, D1. reflexivity.
  - rewrite !stamp_app, !ctrls_app, A2, B2, D2. reflexivity.
Qed.

Lemma quiet_two a b : quiet a -> quiet b -> quiet (a ++ b).
Proof. intros A B. apply Forall_app. split; assumption. Qed.
Lemma iter_good txt s i : inv0 txt s -> in_ok i -> input_ok (txt ++ in_chars i) ->
  exists s' l, core0_iter pico s i = Ok (s', l) /\ inv0 (txt ++ in_chars i) s' /\ moves (stamp (in_now i) l) (parts_of s) (parts_of s') /\
    (content (z_rx s'), map described (rx_reports (stamp (in_now i) l)), map content (to_ctrl (stamp (in_now i) l))) = rx_iter (tmo s i) i (content (z_rx s)) /\
    (z_busy s', z_since s') = line_state (in_now i) (event_of i) (z_busy s) (if tmo s i then ms_since_boot (in_now i) else z_since s) /\
    exists l1 l2 mid, l = l1 ++ l2 /\ quiet l1 /\ moves (stamp (in_now i) l1) (parts_of s) mid /\ good (txt ++ in_chars i) mid /\ wake_shape (in_junk i) mid l2.
Proof.
  intros Hi Ho I. destruct (head_good txt s i Hi Ho I) as (h1 & o1 & hw1 & es1 & Ec & Eh & Ha). cbv zeta in Ha.
  destruct Hi as [_ Rx Ev]. destruct Ho as (Cj & Fc & Hev).
  unfold core0_iter. rewrite Ec. cbn [bind led_calls]. 
  change (tx_error (z_sm s)) with (fst (tx_error (z_sm s)), snd (tx_error (z_sm s))). cbv iota beta. rewrite Eh. cbv iota beta.
  set (led1 := fold_left lm_step es1 _) in *. set (la := map A_hw (in_hw i) ++ _) in *. set (sm1 := fst (tx_error (z_sm s))) in *. set (c1 := ctrl_check _ _) in *.
  set (now := in_now i) in *. set (bud := in_budget i) in *. set (tx2 := txt ++ in_chars i) in *.
  destruct Ha as (G1 & M1 & Q1 & R1 & T1). change (busy_timeout now (z_busy s) (z_since s)) with (tmo s i).
  (* time-out *)
  assert (S2 : exists rx2 h2 led2 l2,
    (if tmo s i then let* (h', rx', l) := report R_timeout now bud h1 (set_status (z_rx s) STATUS_ERR_NO_FRAMING) in
        Ok (msg_clear rx', ms_since_boot now, h', lm_step led1 EvInternalError, A_led EvInternalError :: l)
     else Ok (z_rx s, z_since s, h1, led1, [])) = Ok (rx2, if tmo s i then ms_since_boot now else z_since s, h2, led2, l2) /\
    rx_good rx2 /\ good tx2 (PT (sm1, hw1) c1 h2 led2) /\ moves (stamp now l2) (PT (sm1, hw1) c1 h1 led1) (PT (sm1, hw1) c1 h2 led2) /\
    (content rx2, map described (rx_reports (stamp now l2))) = flush_if (tmo s i) R_timeout 4 (content (z_rx s)) /\ to_ctrl (stamp now l2) = [] /\ quiet l2).
  { destruct (tmo s i).
    - destruct (flush_good R_timeout now bud tx2 h1 STATUS_ERR_NO_FRAMING (z_rx s) ltac:(unfold STATUS_ERR_NO_FRAMING; lia) (g_host _ _ G1) (proj1 Rx)) as (h' & m' & out & Er & G' & M' & e' & St). rewrite Er. cbn [bind].
      eexists _, _, _, _. split; [reflexivity|]. split; [exact M'|]. split; [destruct G1; constructor; auto|]. split; [|split; [reflexivity|split; [reflexivity|quiet_solve]]].
      apply (moves_two now [A_led EvInternalError] _ _ (PT (sm1, hw1) c1 h1 (lm_step led1 EvInternalError))); [apply (mv_leds now sm1 hw1 c1 h1 led1 [EvInternalError])|eapply mv_report; [eassumption|apply set_status_ok; [first [exact M|exact (proj1 R)|exact (proj1 Rx)]|unfold STATUS_ERR_OVERFLOW, STATUS_ERR_NO_FRAMING; lia]]].
    - eexists _, _, _, _. split; [reflexivity|]. split; [exact Rx|]. split; [exact G1|]. split; [apply moves_nil|]. split; [reflexivity|split; [reflexivity|constructor]]. }
  destruct S2 as (rx2 & h2 & led2 & l2 & -> & Rx2 & G2 & M2 & V2 & T2 & Q2). cbn [bind].
  (* FIFO error *)
  destruct (opt_flush (in_fifoerr i) R_fifo now bud STATUS_ERR_OVERFLOW rx2 c1 h2 tx2 sm1 hw1 led2 ltac:(unfold STATUS_ERR_OVERFLOW; lia) Rx2 G2) as (rx3 & h3 & l3 & -> & Rx3 & G3 & M3 & V3 & T3 & Q3). cbn [bind].
  specialize (V3 ltac:(discriminate)). change STATUS_ERR_OVERFLOW with 2 in V3.
  (* failed transmission *)
  destruct (failure_good now bud (snd (tx_error (z_sm s))) sm1 hw1 c1 h3 led2 tx2 G3) as (sm4 & h4 & c4 & l4 & -> & G4 & M4 & V4 & T4 & Id4 & Q4). cbn [bind].
  unfold rx_iter. destruct (flush_if (tmo s i) R_timeout 4 (content (z_rx s))) as (r1 & o1') eqn:E1. injection V2 as Vr2 Vo2. 
  destruct (flush_if (in_fifoerr i) R_fifo 2 r1) as (r2 & o2') eqn:E2. rewrite Vr2, E2 in V3. injection V3 as Vr3 Vo3.
  destruct (in_event i) as [e|] eqn:Ee.
  - (* an event *)
    assert (Eo : event_of i = e) by (unfold event_of; rewrite Ee; reflexivity).
    destruct (merge_good rx3 e Rx3 Hev) as (rx5 & -> & Ok5 & V5). cbn [bind].
    destruct (end_good now bud e rx5 c4 h4 tx2 sm4 hw1 led2 Ok5 G4) as (rx6 & c6 & h6 & l6 & -> & Ok6 & G6 & M6 & V6 & T6 & Q6). cbn [bind].
    destruct (full_good now bud rx6 c6 h6 tx2 sm4 hw1 led2 Ok6 G6) as (rx7 & h7 & l7 & -> & Rx7 & G7 & M7 & V7 & T7 & Q7). cbn [bind].
    destruct (line_state now e (z_busy s) (if tmo s i then ms_since_boot now else z_since s)) as (busy & since) eqn:El.
    set (led8 := fold_left lm_step (led_event_part e) led2).
    assert (G8 : good tx2 (PT (sm4, hw1) c6 h7 led8)) by (destruct G7; constructor; auto).
    destruct (tail_good now (in_junk i) sm4 hw1 c6 h7 led8 busy e tx2 G8 Cj Hev) as (sm10 & hw10 & c9 & h9 & l9 & -> & G9 & M9 & V9 & T9 & S9). cbn [bind].
    destruct (reports_led now (led_event_part e)) as (V8 & T8 & Q8).
    eexists _, _. split; [reflexivity|]. split; [constructor; [exact G9|exact Rx7|unfold is_byte8; cbn; lia]|].
    assert (MX : moves (stamp now (la ++ l2 ++ l3 ++ l4 ++ l6 ++ l7 ++ map A_led (led_event_part e))) (parts_of s) (PT (sm4, hw1) c6 h7 led8)).
    { eapply moves_two; [exact M1|]. eapply moves_two; [exact M2|]. eapply moves_two; [exact M3|]. eapply moves_two; [exact M4|]. eapply moves_two; [exact M6|]. eapply moves_two; [exact M7|]. apply mv_leds. }
    assert (EqL : la ++ l2 ++ l3 ++ l4 ++ l6 ++ l7 ++ map A_led (led_event_part e) ++ l9 = (la ++ l2 ++ l3 ++ l4 ++ l6 ++ l7 ++ map A_led (led_event_part e)) ++ l9) by (rewrite <- !app_assoc; reflexivity).
    split; [rewrite EqL; eapply moves_two; [exact MX|exact M9]|]. split; [|split].
    + cbn [z_rx]. rewrite !stamp_app, !reports_app, !ctrls_app, !map_app. rewrite R1, T1, T2, T3, V4, T4, V8, T8, V9, T9, T7. cbn [map app].
      unfold line_free. rewrite Eo. rewrite Vr3 in V5.
      destruct (flush_if (ev_free e && _) R_packet _ _) as (r4 & o4') eqn:E4 in |- *.
      rewrite V5 in V6, T6. cbn [fst snd] in V6, T6, E4 |- *. rewrite E4 in V6. injection V6 as Vr6 Vo6. rewrite Vr6 in V7.
      destruct (flush_if (length (snd r4) =? 32)%nat R_full 2 r4) as (r5 & o5') eqn:E5. injection V7 as Vr7 Vo7.
      rewrite Vr7, Vo2, Vo3, Vo6, Vo7, T6. rewrite !app_nil_r. reflexivity.
    + cbn [z_busy z_since]. rewrite Eo, El. reflexivity.
    + exists (la ++ l2 ++ l3 ++ l4 ++ l6 ++ l7 ++ map A_led (led_event_part e)), l9. eexists. split; [exact EqL|]. split; [|split; [exact MX|split; [exact G8|right; exact S9]]].
      do 6 (apply quiet_two; [assumption|]). assumption.
  - assert (Eo : event_of i = ev_none) by (unfold event_of; rewrite Ee; reflexivity).
    assert (MX : moves (stamp now (la ++ l2 ++ l3 ++ l4)) (parts_of s) (PT (sm4, hw1) c4 h4 led2)).
    { eapply moves_two; [exact M1|]. eapply moves_two; [exact M2|]. eapply moves_two; [exact M3|]. exact M4. }
    assert (QX : quiet (la ++ l2 ++ l3 ++ l4)) by (do 3 (apply quiet_two; [assumption|]); assumption).
    assert (Len : length (snd r2) <> 32%nat).
    { rewrite <- Vr3. cbn [content snd]. rewrite (payload_len _ (proj1 Rx3)). destruct Rx3; lia. }
    assert (RX : forall l9, rx_reports (stamp now l9) = [] -> to_ctrl (stamp now l9) = [] ->
      (content rx3, map described (rx_reports (stamp now (la ++ l2 ++ l3 ++ l4 ++ l9))), map content (to_ctrl (stamp now (la ++ l2 ++ l3 ++ l4 ++ l9)))) =
      (let r3 := (status_after (fst r2) (event_of i), snd r2 ++ byte_of (event_of i)) in
       let '(r4, o4) := flush_if (line_free i && ((0 <? length (snd r3))%nat || negb (fst r3 =? 0))) R_packet (fst r3) r3 in
       let '(r5, o5) := flush_if (length (snd r4) =? 32)%nat R_full 2 r4 in
       (r5, o1' ++ o2' ++ o4 ++ o5, if line_free i && ((0 <? length (snd r3))%nat || negb (fst r3 =? 0)) then [r3] else []))).
    { intros l9 V9 T9. rewrite !stamp_app, !reports_app, !ctrls_app, !map_app. rewrite R1, T1, T2, T3, V4, T4, V9, T9. cbn [map app].
      unfold line_free. rewrite Eo. cbn [ev_none ev_free ev_dadc ev_error ev_valid andb negb orb status_after byte_of flush_if fst snd]. rewrite app_nil_r. cbn [snd].
      apply Nat.eqb_neq in Len. destruct r2 as (r2a, r2b). cbn [fst snd] in Len |- *. rewrite !app_nil_r. rewrite Len. cbn [flush_if app]. rewrite Vr3, Vo2, Vo3, !app_nil_r. reflexivity. }
    assert (LS : (z_busy s, if tmo s i then ms_since_boot now else z_since s) = line_state now (event_of i) (z_busy s) (if tmo s i then ms_since_boot now else z_since s)).
    { rewrite Eo. reflexivity. }
    destruct (negb (z_busy s) && _) eqn:Ei.
    + eexists _, _. split; [reflexivity|]. split; [constructor; [exact G4|exact Rx3|exact Ev]|]. split; [exact MX|].
      split; [specialize (RX [] eq_refl eq_refl); rewrite app_nil_r in RX; exact RX|]. split; [exact LS|].
      exists (la ++ l2 ++ l3 ++ l4), []. eexists. split; [rewrite app_nil_r; reflexivity|]. split; [exact QX|]. split; [exact MX|]. split; [exact G4|].
      left. split; [reflexivity|]. apply andb_prop in Ei as (_ & Ei). apply andb_prop in Ei as (Ei & Ei3). apply andb_prop in Ei as (Ei1 & Ei2).
      split; [exact Ei3|]. split; [destruct (host_has_data h4) eqn:X; [discriminate Ei2|exact X]|destruct (ctrl_has_tx c4) eqn:X; [discriminate Ei1|exact X]].
    + destruct (tail_good now (in_junk i) sm4 hw1 c4 h4 led2 (z_busy s) (z_ev s) tx2 G4 Cj Ev) as (sm10 & hw10 & c9 & h9 & l9 & -> & G9 & M9 & V9 & T9 & S9). cbn [bind].
      eexists _, _. split; [reflexivity|]. split; [constructor; [exact G9|exact Rx3|unfold is_byte8; cbn; lia]|].
      assert (EqL : la ++ l2 ++ l3 ++ l4 ++ l9 = (la ++ l2 ++ l3 ++ l4) ++ l9) by (rewrite <- !app_assoc; reflexivity).
      split; [rewrite EqL; eapply moves_two; [exact MX|exact M9]|]. split; [apply RX; auto|]. split; [exact LS|].
      exists (la ++ l2 ++ l3 ++ l4), l9. eexists. split; [exact EqL|]. split; [exact QX|]. split; [exact MX|]. split; [exact G4|]. right. exact S9.
Qed.
