(** T_Message.v -- property theorems C30..C36 (message text format). *)
From Coq Require Import String.
From Verif Require Import Base M_Message S_Message D_Message P_Message P_MessageParse P_MessageNum P_MessageCalls P_MessageFields.

Definition buffer0 : list Z := repeat 7 128.
Definition junk0 : list Z := repeat 170 32.

(** C30: the text is exactly decimal time, ':', hex status, ':', hex data; it ends with NUL inside
    the 128-byte buffer (at most 94 characters). *)
Theorem C30_text_format : forall m line, msg_ok m -> length line = 128%nat ->
  exists buf text, msg_c_str m line = Ok buf /\ length buf = 128%nat /\ holds buf text /\
    formats (m_time m) (m_status m) (payload m) text /\ (length text <= 94)%nat.
Proof. exact c_str_ok. Qed.
Print Assumptions C30_text_format.
Example C30_ex : let m := MSG 21 18446744073709551615 ([64; 240; 48] ++ repeat 10 29) 3 in
  msg_ok m /\ exists buf, msg_c_str m buffer0 = Ok buf /\
    firstn 31 buf = str "18446744073709551615:15:40f030" ++ [0].
Proof.
  cbv zeta. split; [|ex_solve]. unfold msg_ok. cbn [m_time m_status m_data m_length]. split; [lia|]. split; [lia|]. split; [reflexivity|].
  split; [lia|]. apply Forall_forall. intros x Hx. cbn in Hx. repeat destruct Hx as [<-|Hx]; try lia; contradiction.
Qed.

(** C31: on the target, parsing the text of a message gives it back. *)
Theorem C31_roundtrip : forall m line junk, msg_ok m -> m_time m < 2 ^ 63 -> m_status m < 2 ^ 31 ->
  length line = 128%nat -> length junk = 32%nat ->
  exists buf text m', msg_c_str m line = Ok buf /\ holds buf text /\ msg_parse pico junk text = Ok m' /\
    m_time m' = m_time m /\ m_status m' = m_status m /\ m_length m' = m_length m /\ payload m' = payload m.
Proof.
  intros m line junk Hm Ht Hs L Lj. destruct (c_str_ok m line Hm L) as (buf & text & E & _ & H & F & _).
  destruct Hm as (Rt & Rs & Ld & Ll & Hb).
  assert (Lp : length (payload m) = m_length m) by (unfold payload; rewrite firstn_length_le; lia).
  destruct (roundtrip pico junk _ _ (payload m) text ltac:(cbn; lia) Rt Rs ltac:(lia)) as (m' & E' & A & B & C & D); auto.
  { unfold payload. apply Forall_forall. intros x Hx. rewrite Forall_forall in Hb. apply Hb.
    rewrite <- (firstn_skipn (m_length m) (m_data m)). apply in_or_app. auto. }
  exists buf, text, m'. split; auto. split; auto. split; auto. change (2 ^ 63) with 9223372036854775808 in Ht. change (2 ^ 31) with 2147483648 in Hs.
  cbn [long_max pico] in B. rewrite A, B, C, D. repeat split; try lia; auto.
Qed.
Print Assumptions C31_roundtrip.
Example C31_ex : exists m, msg_parse pico junk0 (str "9223372036854775807:7fffffff:40F030aB") = Ok m /\
  m_time m = 9223372036854775807 /\ m_status m = 2147483647 /\ payload m = [64; 240; 48; 171].
Proof. ex_solve. Qed.

(** C32 is false outside that range: exactly the larger times and statuses do not survive. *)
Theorem C32_roundtrip_refuted : forall m line junk, msg_ok m -> length line = 128%nat -> length junk = 32%nat ->
  2 ^ 63 <= m_time m \/ 2 ^ 31 <= m_status m ->
  exists buf text m', msg_c_str m line = Ok buf /\ holds buf text /\ msg_parse pico junk text = Ok m' /\
    (m_time m' <> m_time m \/ m_status m' <> m_status m).
Proof.
  intros m line junk Hm L Lj Hbig. destruct (c_str_ok m line Hm L) as (buf & text & E & _ & H & F & _).
  destruct Hm as (Rt & Rs & Ld & Ll & Hb).
  assert (Lp : length (payload m) = m_length m) by (unfold payload; rewrite firstn_length_le; lia).
  destruct (roundtrip pico junk _ _ (payload m) text ltac:(cbn; lia) Rt Rs ltac:(lia)) as (m' & E' & A & B & C & D); auto.
  { unfold payload. apply Forall_forall. intros x Hx. rewrite Forall_forall in Hb. apply Hb.
    rewrite <- (firstn_skipn (m_length m) (m_data m)). apply in_or_app. auto. }
  exists buf, text, m'. split; auto. split; auto. split; auto. change (2 ^ 63) with 9223372036854775808 in Hbig. change (2 ^ 31) with 2147483648 in Hbig.
  cbn [long_max pico] in B. lia.
Qed.
Print Assumptions C32_roundtrip_refuted.
(** What the parser makes of every formatted message: both numbers saturate, the data survives. *)
Theorem C32_roundtrip_partial : forall p junk time status data text, 0 <= long_max p ->
  0 <= time < 2 ^ 64 -> 0 <= status < 2 ^ 32 ->
  (length data <= 32)%nat -> Forall (fun b => 0 <= b < 256) data -> length junk = 32%nat ->
  formats time status data text ->
  exists m, msg_parse p junk text = Ok m /\ m_time m = Z.min time (2 ^ 63 - 1) /\
    m_status m = Z.min status (long_max p) /\ m_length m = length data /\ payload m = data.
Proof. exact roundtrip. Qed.
Print Assumptions C32_roundtrip_partial.
Example C32_ex : exists m, msg_parse pico junk0 (str "18446744073709551615:ffffffff:00") = Ok m /\
  m_time m = 9223372036854775807 /\ m_status m = 2147483647 /\ payload m = [0].
Proof. ex_solve. Qed.

(** C33 is false: a line of 65 hex digits writes past the end of the message. *)
Theorem C33_parse_safe_refuted : forall p junk, length junk = 32%nat ->
  exists line, (length line <= 127)%nat /\ Forall is_char line /\ msg_parse p junk line = UB OutOfBounds.
Proof.
  intros p junk L. exists (map digit (repeat 0 65)). split; [cbn; lia|].
  destruct (digits_chars 16 (repeat 0 65) ltac:(lia)) as (C & N). { apply Forall_forall. intros x Hx. apply repeat_spec in Hx. lia. }
  split; auto. pose proof (parse_general p junk _ C L) as H. cbv zeta in H.
  replace (data_field_used (map digit (repeat 0 65))) with (map digit (repeat 0 65)) in H.
  2:{ unfold data_field_used. rewrite split_single by auto. reflexivity. }
  rewrite nibs_digits in H. 2:{ apply Forall_forall. intros x Hx. apply repeat_spec in Hx. lia. } exact H.
Qed.
Print Assumptions C33_parse_safe_refuted.
(** Exactly the lines with more than 64 digits (as the firmware counts them) in their data part do so. *)
Theorem C33_parse_safe_partial : forall junk line, length junk = 32%nat -> Forall is_char line ->
  let n := length (firmware_digits (before_comment (data_field_used line))) in
  ((n <= 64)%nat -> exists m, msg_parse pico junk line = Ok m /\ m_length m = (n / 2)%nat /\ length (m_data m) = 32%nat) /\
  ((64 < n)%nat -> msg_parse pico junk line = UB OutOfBounds).
Proof.
  intros junk line L Hc n. pose proof (parse_general pico junk line Hc L) as H. cbv zeta in H. rewrite nibs_pico in H. fold n in H.
  destruct (Nat.leb_spec n 64); split; intros; try lia.
  - destruct H as (m & E & _ & _ & A & B & _). eauto.
  - exact H.
Qed.
Print Assumptions C33_parse_safe_partial.
Example C33_ex : exists m, msg_parse pico junk0 (str "12:0:" ++ map digit (repeat 5 64)) = Ok m /\ payload m = repeat 85 32.
Proof. ex_solve. Qed.

(** C34 holds where plain char is signed (the unit-test host) ... *)
Theorem C34_hex_only_host_partial : forall junk line, length junk = 32%nat -> Forall is_char line ->
  (length (hexdigits (before_comment (data_field_used line))) <= 64)%nat ->
  exists m, msg_parse host64 junk line = Ok m /\ payload m = data_bytes (data_field_used line).
Proof.
  intros junk line L Hc Hn. pose proof (parse_general host64 junk line Hc L) as H. cbv zeta in H. rewrite nibs_host in H.
  destruct (Nat.leb_spec (length (hexdigits (before_comment (data_field_used line)))) 64); [|lia].
  destruct H as (m & E & _ & _ & _ & _ & P). exists m. split; auto. rewrite P. unfold data_bytes.
  apply (pairb_pair_up (length (hexdigits (before_comment (data_field_used line))))); auto. apply hexdigits_range.
Qed.
Print Assumptions C34_hex_only_host_partial.
(** ... and is false on the target: characters that are not hex digits become 0xFF bytes. *)
Theorem C34_hex_only_refuted : exists line m, Forall is_char line /\ msg_parse pico junk0 line = Ok m /\
  data_bytes (data_field_used line) = [] /\ payload m = [255].
Proof.
  exists (str "::ZZ"). eexists. split; [repeat constructor|]. split; [vm_compute; reflexivity|]. split; vm_compute; reflexivity.
Qed.
Print Assumptions C34_hex_only_refuted.
(** On the target every other character except a space counts as the digit value 255 ... *)
Theorem C34_hex_only_partial : forall junk line, length junk = 32%nat -> Forall is_char line ->
  (length (firmware_digits (before_comment (data_field_used line))) <= 64)%nat ->
  exists m, msg_parse pico junk line = Ok m /\
    payload m = pairb (firmware_digits (before_comment (data_field_used line))) /\
    (* ... so that hex digits and spaces before the comment are read as documented. *)
    (forallb plain (before_comment (data_field_used line)) = true -> payload m = data_bytes (data_field_used line)).
Proof.
  intros junk line L Hc Hn. pose proof (parse_general pico junk line Hc L) as H. cbv zeta in H. rewrite nibs_pico in H.
  destruct (Nat.leb_spec (length (firmware_digits (before_comment (data_field_used line)))) 64); [|lia].
  destruct H as (m & E & _ & _ & _ & _ & P). exists m. split; auto. split; auto. intros Hp. rewrite P.
  rewrite plain_firmware by auto. unfold data_bytes.
  apply (pairb_pair_up (length (hexdigits (before_comment (data_field_used line))))); auto. apply hexdigits_range.
Qed.
Print Assumptions C34_hex_only_partial.
Example C34_ex : let line := str "5:0: 4 0 F0 3 # 77" in forallb plain (before_comment (data_field_used line)) = true /\
  exists m, msg_parse pico junk0 line = Ok m /\ payload m = [64; 240] /\ data_bytes (data_field_used line) = [64; 240].
Proof. cbv zeta. split; [vm_compute; reflexivity|]. ex_solve. Qed.

(** C35 *)
Theorem C35_append_clear : forall junk ops, length junk = 32%nat ->
  exists m, mfold msg_call (msg_new junk) ops = Ok m /\ payload m = fold_left held ops [] /\
    m_length m = length (fold_left held ops []) /\
    (msg_overflow m = true <-> length (fold_left held ops []) = 32%nat).
Proof. exact append_clear. Qed.
Print Assumptions C35_append_clear.
Example C35_ex : let ops := Append 9 :: Clear :: map Append (map Z.of_nat (seq 0 40)) in
  exists m, mfold msg_call (msg_new junk0) ops = Ok m /\ payload m = map Z.of_nat (seq 0 32) /\ msg_overflow m = true.
Proof. cbv zeta. ex_solve. Qed.

(** C35, messages constructed from a buffer of at least [len] bytes: the first 32 of them are taken, no byte beyond
    is written, and after any calls the message holds the expected bytes; Clear also resets the status, the time
    stays. *)
Theorem C35_constructed : forall junk time status data len ops, length junk = 32%nat -> (len <= length data)%nat ->
  exists m m', msg_make junk time status data len = Ok m /\ mfold msg_call m ops = Ok m' /\
    payload m' = fold_left held ops (firstn 32 (firstn len data)) /\
    m_length m' = length (payload m') /\ (msg_overflow m' = true <-> length (payload m') = 32%nat) /\
    m_time m' = time /\
    m_status m' = (if existsb (fun o => match o with Clear => true | Append _ => false end) ops then 0 else status).
Proof. exact make_calls. Qed.
Print Assumptions C35_constructed.
Example C35_constructed_ex : exists m m', msg_make junk0 5 4 (map Z.of_nat (seq 0 40)) 31 = Ok m /\
  mfold msg_call m [Append 200; Append 201] = Ok m' /\ payload m' = map Z.of_nat (seq 0 31) ++ [200] /\ m_status m' = 4.
Proof. ex_solve. Qed.

(** C36 is false: with one colon the bytes are taken from the part before it. *)
Theorem C36_one_colon_refuted : exists line m, split line = [str "123"; str "AABB"] /\
  msg_parse pico junk0 line = Ok m /\ m_time m = 123 /\ payload m = [18] /\ data_bytes (data_field line) = [170; 187].
Proof. exists (str "123:AABB"). ex_solve. Qed.
Print Assumptions C36_one_colon_refuted.
(** Exactly: with one colon the part before it is used, twice (as time and as data); otherwise the documented field is. *)
Theorem C36_one_colon_partial : forall line, Forall is_char line ->
  (length (split line) <> 2%nat -> data_field_used line = data_field line) /\
  (forall a b, split line = [a; b] -> data_field_used line = a /\ data_field line = b) /\
  (forall junk, length junk = 32%nat -> (length (firmware_digits (before_comment (data_field_used line))) <= 64)%nat ->
     exists m, msg_parse pico junk line = Ok m /\ payload m = pairb (firmware_digits (before_comment (data_field_used line)))).
Proof.
  intros line Hc. split; [|split].
  - intros H. unfold data_field_used, data_field. destruct (split line) as [|a [|b [|c t]]]; auto. cbn in H. congruence.
  - intros a b E. unfold data_field_used, data_field. rewrite E. auto.
  - intros junk L Hn. destruct (C34_hex_only_partial junk line L Hc Hn) as (m & E & P & _). eauto.
Qed.
Print Assumptions C36_one_colon_partial.

(** C84: the numeric fields of every accepted line.  Without a colon both are 0; otherwise the first field is read as
    a C decimal number limited to 64 bits signed, the second as a C hexadecimal number limited to a signed [long],
    each then stored in its unsigned field.  [reads] allows one value only. *)
Theorem C84_number_fields : forall p junk line m, p = pico \/ p = host64 -> Forall is_char line -> length junk = 32%nat ->
  msg_parse p junk line = Ok m ->
  match split line with
  | t :: s :: _ => exists tv sv, reads 10 t tv /\ reads 16 s sv /\
      (forall v, reads 10 t v -> v = tv) /\ (forall v, reads 16 s v -> v = sv) /\
      m_time m = u64 (limited (2 ^ 63 - 1) tv) /\ m_status m = u32 (limited (if char_signed p then 2 ^ 63 - 1 else 2 ^ 31 - 1) sv)
  | _ => m_time m = 0 /\ m_status m = 0
  end.
Proof.
  intros p junk line m Hp Hc Lj E. pose proof (number_fields p junk line m ltac:(destruct Hp; subst; cbn; lia) Hc Lj E) as H.
  destruct (split line) as [|t [|s r]]; auto. destruct H as (tv & sv & A & B & C & D). exists tv, sv.
  split; auto. split; auto. split; [intros; eapply reads_unique; eauto|]. split; [intros; eapply reads_unique; eauto|].
  split; [exact C|]. destruct Hp; subst; exact D.
Qed.
Print Assumptions C84_number_fields.
Example C84_ex : exists m m', msg_parse pico junk0 (str " -99999999999999999999:	+0xG1:40") = Ok m /\
  m_time m = 2 ^ 63 /\ m_status m = 0 /\ payload m = [64] /\
  msg_parse pico junk0 (str "12e3:-0x8000000F:") = Ok m' /\ m_time m' = 12 /\ m_status m' = 2147483648.
Proof. ex_solve. Qed.
