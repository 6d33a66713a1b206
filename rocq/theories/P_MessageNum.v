(** P_MessageNum.v -- round trip, robustness and Append/Clear (C31-C36). *)
From Verif Require Import Base M_Message S_Message D_Message P_Message P_MessageParse.

(** ** Numbers *)
Lemma digit_val_digit d : 0 <= d < 16 -> digit_val (digit d) = Some d.
Proof.
  intros H. unfold digit, digit_val. destruct (Z.ltb_spec d 10).
  - destruct (Z.leb_spec 48 (48 + d)); [|lia]. destruct (Z.leb_spec (48 + d) 57); [|lia]. cbn [andb]. f_equal. lia.
  - destruct (Z.leb_spec 48 (87 + d)); [|lia]. destruct (Z.leb_spec (87 + d) 57); [lia|]. cbn [andb].
    destruct (Z.leb_spec 97 (87 + d)); [|lia]. destruct (Z.leb_spec (87 + d) 122); [|lia]. cbn [andb]. f_equal. lia.
Qed.
Lemma digit_range d : 0 <= d < 16 -> 48 <= digit d <= 57 \/ 97 <= digit d <= 102.
Proof. intros H. unfold digit. destruct (Z.ltb_spec d 10); lia. Qed.

Lemma scan_value base ds : base <= 16 -> Forall (fun d => 0 <= d < base) ds -> forall acc,
  scan_digits base (map digit ds) acc = fold_left (fun a d => a * base + d) ds acc.
Proof.
  intros Hb. induction 1 as [|d t Hd Ht IH]; intros acc; cbn [map scan_digits fold_left]; auto.
  rewrite digit_val_digit by lia. destruct (Z.ltb_spec d base); [|lia]. apply IH.
Qed.
Lemma lead_digits base ds : base <= 16 -> Forall (fun d => 0 <= d < base) ds ->
  take_sign (skip_space (map digit ds)) = (false, map digit ds).
Proof.
  intros Hb H. destruct H as [|d t Hd Ht]; cbn [map skip_space take_sign]; auto.
  pose proof (digit_range d ltac:(lia)) as R. unfold is_space.
  destruct (Z.eqb_spec (digit d) 32); [lia|]. destruct (Z.leb_spec 9 (digit d)); [|lia]. destruct (Z.leb_spec (digit d) 13); [lia|].
  cbn [orb andb take_sign]. destruct (Z.eqb_spec (digit d) 45); [lia|]. destruct (Z.eqb_spec (digit d) 43); [lia|]. reflexivity.
Qed.
Lemma no_0x base ds : base <= 16 -> Forall (fun d => 0 <= d < base) ds -> take_0x (map digit ds) = map digit ds.
Proof.
  intros Hb H. destruct H as [|d t Hd Ht]; auto. destruct Ht as [|e t He Ht]; auto. cbn [map take_0x].
  pose proof (digit_range e ltac:(lia)). destruct (Z.eqb_spec (digit e) 120); [lia|]. destruct (Z.eqb_spec (digit e) 88); [lia|].
  cbn [orb]. rewrite andb_false_r. reflexivity.
Qed.
Lemma value_nonneg base ds : 0 <= base -> Forall (fun d => 0 <= d < base) ds -> forall a, 0 <= a -> 0 <= fold_left (fun a d => a * base + d) ds a.
Proof. intros Hb. induction 1 as [|d t Hd Ht IH]; intros a Ha; cbn; auto. apply IH. nia. Qed.

Lemma atoll_numeral n t : numeral 10 n t -> atoll t = Z.min n 9223372036854775807 /\ (0 < length t)%nat.
Proof.
  intros (ds & -> & H & V & Hn & _). unfold atoll. rewrite (lead_digits 10) by (auto; lia). cbn [fst snd].
  rewrite scan_value by (auto; lia). change (fold_left (fun a d => a * 10 + d) ds 0) with (value_of 10 ds).
  assert (0 <= value_of 10 ds) by (apply value_nonneg; auto; lia). rewrite V in *.
  split. - unfold saturate. lia. - destruct ds; [congruence|cbn; lia].
Qed.
Lemma strtol_digits lmax ds : 0 <= lmax -> Forall (fun d => 0 <= d < 16) ds ->
  strtol16 lmax (map digit ds) = Z.min (value_of 16 ds) lmax.
Proof.
  intros Hl H. unfold strtol16. rewrite (lead_digits 16) by (auto; lia). cbn [fst snd]. rewrite (no_0x 16) by (auto; lia).
  rewrite scan_value by (auto; lia). change (fold_left (fun a d => a * 16 + d) ds 0) with (value_of 16 ds).
  assert (0 <= value_of 16 ds) by (apply value_nonneg; auto; lia). unfold saturate. lia.
Qed.
Lemma numeral2_digits n t : numeral2 n t -> exists ds, t = map digit ds /\ Forall (fun d => 0 <= d < 16) ds /\ value_of 16 ds = n /\ (0 < length ds)%nat.
Proof.
  intros (t0 & (ds & -> & H & V & Hn & _) & ->). rewrite map_length. destruct (Nat.ltb_spec (length ds) 2).
  - exists (0 :: ds). cbn [map length]. split; [reflexivity|]. split; [constructor; auto; lia|]. split; [exact V|lia].
  - exists ds. split; [reflexivity|]. split; auto. split; auto. lia.
Qed.

(** ** Round trip *)
Lemma digits_chars base ds : base <= 16 -> Forall (fun d => 0 <= d < base) ds -> Forall is_char (map digit ds) /\ nocolon (map digit ds).
Proof.
  intros Hb H. split; induction H as [|d t Hd Ht IH]; cbn; constructor; auto; pose proof (digit_range d ltac:(lia)).
  - unfold is_char. lia. - lia.
Qed.
Lemma hex2_digits b : 0 <= b < 256 -> hex2 b = map digit [b / 16; b mod 16] /\ 0 <= b / 16 < 16 /\ 0 <= b mod 16 < 16.
Proof.
  intros H. split; [reflexivity|]. split.
  - split; [apply Z.div_pos; lia|apply Z.div_lt_upper_bound; lia].
  - apply Z.mod_pos_bound. lia.
Qed.
Definition nibbles (data : list Z) : list Z := flat_map (fun b => [b / 16; b mod 16]) data.
Lemma data_digits data : Forall (fun b => 0 <= b < 256) data ->
  flat_map hex2 data = map digit (nibbles data) /\ Forall (fun d => 0 <= d < 16) (nibbles data).
Proof.
  induction 1 as [|b t H Ht (E & F)]; cbn [flat_map nibbles map]; [split; [reflexivity|constructor]|].
  destruct (hex2_digits b H) as (_ & H1 & H2). split.
  - unfold nibbles in E |- *. cbn [flat_map]. rewrite map_app, <- E. reflexivity.
  - unfold nibbles. cbn [flat_map app]. repeat constructor; auto; lia.
Qed.
Lemma decode_digit p d : 0 <= d < 16 -> decode_nibble p (digit d) = d.
Proof.
  intros H. unfold decode_nibble, digit. destruct (Z.ltb_spec d 10).
  - destruct (Z.leb_spec 97 (48 + d)); [lia|]. destruct (Z.leb_spec 65 (48 + d)); [lia|]. cbn [andb].
    destruct (Z.leb_spec 48 (48 + d)); [|lia]. destruct (Z.leb_spec (48 + d) 57); [|lia]. cbn [andb]. lia.
  - destruct (Z.leb_spec 97 (87 + d)); [|lia]. destruct (Z.leb_spec (87 + d) 102); [|lia]. cbn [andb]. lia.
Qed.
Lemma nibs_digits p ds : Forall (fun d => 0 <= d < 16) ds -> nibs p (map digit ds) = ds.
Proof.
  unfold nibs. induction 1 as [|d t H Ht IH]; cbn [map before_comment flat_map]; auto.
  pose proof (digit_range d H). destruct (Z.eqb_spec (digit d) 35); [lia|]. destruct (Z.eqb_spec (digit d) 59); [lia|].
  cbn [orb flat_map]. destruct (Z.eqb_spec (digit d) 32); [lia|]. rewrite decode_digit by auto. destruct (Z.eqb_spec d (-1)); [lia|].
  cbn [app]. f_equal. exact IH.
Qed.
Lemma pair_byte_ok : forallb (fun a => forallb (fun b => (u8 (Z.lor (u8 (Z.shiftl (Z.of_nat a) 4)) (Z.of_nat b)) =? 16 * Z.of_nat a + Z.of_nat b)) (seq 0 16)) (seq 0 16) = true.
Proof. vm_compute. reflexivity. Qed.
Lemma pair_byte a b : 0 <= a < 16 -> 0 <= b < 16 -> u8 (Z.lor (u8 (Z.shiftl a 4)) b) = 16 * a + b.
Proof.
  intros Ha Hb. pose proof pair_byte_ok as H. rewrite forallb_forall in H. specialize (H (Z.to_nat a)).
  rewrite forallb_forall in H. specialize (H ltac:(apply in_seq; lia) (Z.to_nat b) ltac:(apply in_seq; lia)).
  cbv beta in H. rewrite !Z2Nat.id in H by lia. lia.
Qed.
Lemma pairb_nibbles data : Forall (fun b => 0 <= b < 256) data -> pairb (nibbles data) = data.
Proof.
  induction 1 as [|b t H Ht IH]; auto. unfold nibbles. cbn [flat_map app pairb].
  destruct (hex2_digits b H) as (_ & H1 & H2). rewrite pair_byte by auto. fold (nibbles t). rewrite IH.
  f_equal. pose proof (Z.div_mod b 16 ltac:(lia)). lia.
Qed.
Lemma nibbles_length data : length (nibbles data) = (2 * length data)%nat.
Proof. induction data; unfold nibbles in *; cbn in *; lia. Qed.

Lemma split_nocolon a b : nocolon a -> split (a ++ 58 :: b) = a :: split b.
Proof. induction 1 as [|c t H Ht IH]; cbn [app split]; [reflexivity|]. destruct (Z.eqb_spec c 58); [contradiction|]. rewrite IH. reflexivity. Qed.
Lemma split_single a : nocolon a -> split a = [a].
Proof. induction 1 as [|c t H Ht IH]; cbn [app split]; [reflexivity|]. destruct (Z.eqb_spec c 58); [contradiction|]. rewrite IH. reflexivity. Qed.

Lemma roundtrip p junk time status data text : 0 <= long_max p ->
  0 <= time < 18446744073709551616 -> 0 <= status < 4294967296 ->
  (length data <= 32)%nat -> Forall (fun b => 0 <= b < 256) data -> length junk = 32%nat ->
  formats time status data text ->
  exists m, msg_parse p junk text = Ok m /\ m_time m = Z.min time 9223372036854775807 /\
    m_status m = Z.min status (long_max p) /\ m_length m = length data /\ payload m = data.
Proof.
  intros Hp Ht Hs Hl Hd Hj (t & s & Nt & Ns & ->).
  destruct (data_digits data Hd) as (Ed & Fd). destruct (numeral2_digits _ _ Ns) as (ss & -> & Fs & Vs & Ls).
  pose proof (atoll_numeral _ _ Nt) as (At & Lt). destruct Nt as (ts & -> & Ft & _).
  destruct (digits_chars 10 ts ltac:(lia) Ft) as (C1 & N1). destruct (digits_chars 16 ss ltac:(lia) Fs) as (C2 & N2).
  destruct (digits_chars 16 _ ltac:(lia) Fd) as (C3 & N3). rewrite Ed.
  set (text := map digit ts ++ [58] ++ map digit ss ++ [58] ++ map digit (nibbles data)).
  assert (Es : split text = [map digit ts; map digit ss; map digit (nibbles data)]).
  { unfold text. cbn [app]. rewrite split_nocolon by auto. f_equal. rewrite split_nocolon by auto. f_equal. apply split_single; auto. }
  assert (Hc : Forall is_char text).
  { unfold text. repeat (apply Forall_app; split); auto; repeat constructor; unfold is_char; lia. }
  pose proof (parse_general p junk text Hc Hj) as H. cbv zeta in H.
  assert (Eu : data_field_used text = map digit (nibbles data)) by (unfold data_field_used; rewrite Es; reflexivity).
  rewrite Eu, nibs_digits, nibbles_length in H by auto. destruct (Nat.leb_spec (2 * length data) 64); [|lia].
  destruct H as (m & E & T & S & L & _ & P). exists m. split; auto.
  unfold time_of in T. rewrite Es in T. destruct (Nat.ltb_spec 0 (length (map digit ts))); [|lia].
  unfold status_of in S. rewrite Es in S. rewrite map_length in S. destruct (Nat.ltb_spec 0 (length ss)); [|lia].
  rewrite At in T. rewrite strtol_digits, Vs in S by auto.
  split. { rewrite T. unfold u64. apply Z.mod_small. lia. }
  split. { rewrite S. unfold u32. apply Z.mod_small. lia. }
  split. { rewrite L. rewrite Nat.mul_comm, Nat.div_mul; lia. }
  rewrite P. apply pairb_nibbles; auto.
Qed.

(** ** Which characters count (C34) *)
Lemma decode_host c : decode_nibble host64 c = match hexval c with Some v => v | None => -1 end /\
  match hexval c with Some v => 0 <= v < 16 | None => True end.
Proof.
  unfold decode_nibble, hexval. cbn [char_signed host64].
  destruct (Z.leb_spec 97 c), (Z.leb_spec c 102), (Z.leb_spec 65 c), (Z.leb_spec c 70), (Z.leb_spec 48 c), (Z.leb_spec c 57); cbn [andb]; try lia; split; auto; lia.
Qed.
Lemma decode_pico c : decode_nibble pico c = match hexval c with Some v => v | None => 255 end.
Proof.
  unfold decode_nibble, hexval. cbn [char_signed pico].
  destruct (Z.leb_spec 97 c), (Z.leb_spec c 102), (Z.leb_spec 65 c), (Z.leb_spec c 70), (Z.leb_spec 48 c), (Z.leb_spec c 57); cbn [andb]; try lia; auto; lia.
Qed.
Lemma nibs_host l : nibs host64 l = hexdigits (before_comment l).
Proof.
  unfold nibs, hexdigits. apply flat_map_ext. intros c. destruct (decode_host c) as (E & R). rewrite E.
  destruct (Z.eqb_spec c 32) as [->|]; [reflexivity|]. destruct (hexval c); [|reflexivity]. destruct (Z.eqb_spec z (-1)); [lia|reflexivity].
Qed.
(** What the firmware makes of a data text: the digits, and 0xFF for every other character except a space. *)
Lemma nibs_pico l : nibs pico l = firmware_digits (before_comment l).
Proof.
  unfold nibs, firmware_digits. apply flat_map_ext. intros c. rewrite decode_pico.
  destruct (Z.eqb_spec c 32) as [->|]; [reflexivity|]. destruct (decode_host c) as (_ & R). destruct (hexval c) as [v|]; [|reflexivity].
  destruct (Z.eqb_spec v (-1)); [lia|reflexivity].
Qed.
Lemma hexdigits_range l : Forall (fun d => 0 <= d < 16) (hexdigits l).
Proof.
  induction l as [|c t IH]; unfold hexdigits in *; cbn [flat_map]; [constructor|]. apply Forall_app. split; auto.
  destruct (decode_host c) as (_ & R). destruct (hexval c); constructor; auto.
Qed.
Lemma pairb_pair_up : forall n l, (length l <= n)%nat -> Forall (fun d => 0 <= d < 16) l -> pairb l = pair_up l.
Proof.
  induction n as [|n IH]; intros [|a [|b t]] Hn H; cbn [length pairb pair_up] in *; auto; try lia.
  inversion H as [|? ? Ha H']; subst. inversion H' as [|? ? Hb H'']; subst. rewrite pair_byte by auto. f_equal. apply IH; auto. lia.
Qed.
Lemma plain_firmware l : forallb plain l = true -> firmware_digits l = hexdigits l.
Proof.
  induction l as [|c t IH]; cbn [forallb firmware_digits hexdigits flat_map]; auto. intros H. apply andb_prop in H as (Hc & Ht).
  unfold firmware_digits, hexdigits in *. cbn [flat_map]. rewrite IH by auto. f_equal. unfold plain in Hc.
  destruct (Z.eqb_spec c 32) as [->|]; [reflexivity|]. destruct (hexval c); [reflexivity|discriminate].
Qed.
Lemma plain_shape l : Forall is_char l -> data_field_used l = data_field l \/ length (split l) = 2%nat.
Proof. intros _. unfold data_field_used, data_field. destruct (split l) as [|a [|b [|c t]]]; auto. Qed.

(** ** Append / Clear (C35) *)
Lemma msg_call_ok m l o : length (m_data m) = 32%nat -> (m_length m <= 32)%nat -> payload m = l ->
  exists m', msg_call m o = Ok m' /\ length (m_data m') = 32%nat /\ (m_length m' <= 32)%nat /\ payload m' = held l o.
Proof.
  intros Ld Ll P. assert (Len : length l = m_length m) by (rewrite <- P; unfold payload; rewrite firstn_length_le; lia).
  destruct o as [b|]; cbn [msg_call held].
  - unfold msg_append, MAX_PACKET_SIZE. rewrite Len. destruct (Nat.ltb_spec (m_length m) 32).
    + rewrite aset_ok by lia. cbn [bind]. eexists. split; [reflexivity|]. unfold payload in *. cbn [m_data m_length]. rewrite upd_length.
      split; auto. split; [lia|]. rewrite firstn_upd_snoc by lia. rewrite P. reflexivity.
    + exists m. auto.
  - exists (msg_clear m). split; [reflexivity|]. cbn. split; auto. split; [lia|reflexivity].
Qed.
Lemma msg_calls_ok ops : forall m l, length (m_data m) = 32%nat -> (m_length m <= 32)%nat -> payload m = l ->
  exists m', mfold msg_call m ops = Ok m' /\ (m_length m' <= 32)%nat /\ payload m' = fold_left held ops l /\ length (m_data m') = 32%nat.
Proof.
  induction ops as [|o t IH]; intros m l Ld Ll P; cbn [mfold fold_left]; [eauto|].
  destruct (msg_call_ok m l o Ld Ll P) as (m1 & E & A & B & C). rewrite E. cbn [bind]. apply IH; auto.
Qed.
Lemma append_clear junk ops : length junk = 32%nat ->
  exists m, mfold msg_call (msg_new junk) ops = Ok m /\ payload m = fold_left held ops [] /\
    m_length m = length (fold_left held ops []) /\ (msg_overflow m = true <-> length (fold_left held ops []) = 32%nat).
Proof.
  intros L. destruct (msg_calls_ok ops (msg_new junk) [] L ltac:(cbn; lia) eq_refl) as (m & E & A & P & D).
  exists m. split; auto. split; auto. rewrite <- P.
  assert (Len : m_length m = length (payload m)) by (unfold payload; rewrite firstn_length_le; lia).
  split; auto. unfold msg_overflow, MAX_PACKET_SIZE. rewrite <- Len. apply Nat.eqb_eq.
Qed.
