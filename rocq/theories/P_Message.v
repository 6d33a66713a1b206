(** P_Message.v -- proofs about messages (C30-C36). *)
From Verif Require Import Base M_Message S_Message D_Message.

(** ** Digits *)
Lemma digit_char_eq d : digit_char d = digit d. Proof. reflexivity. Qed.

Lemma value_app base a b : value_of base (a ++ b) = fold_left (fun x d => x * base + d) b (value_of base a).
Proof. unfold value_of. apply fold_left_app. Qed.

Lemma fold_value base ds : forall a, fold_left (fun x d => x * base + d) ds a = a * base ^ Z.of_nat (length ds) + value_of base ds.
Proof.
  unfold value_of. induction ds as [|d t IH]; intros a; cbn [fold_left length].
  - cbn. lia.
  - rewrite IH, (IH (0 * base + d)), Nat2Z.inj_succ, Z.pow_succ_r by lia. ring.
Qed.

Lemma digits_spec base : 2 <= base -> forall fuel n acc, 0 <= n < base ^ Z.of_nat fuel -> (1 <= fuel)%nat ->
  exists ds, digits base fuel n acc = map digit ds ++ acc /\ Forall (fun d => 0 <= d < base) ds /\
    value_of base ds = n /\ ds <> [] /\ (hd 0 ds = 0 -> ds = [0]) /\ (length ds <= fuel)%nat.
Proof.
  intros Hb. induction fuel as [|f IH]; intros n acc Hn Hf; [lia|]. cbn [digits].
  rewrite Nat2Z.inj_succ, Z.pow_succ_r in Hn by lia.
  destruct (Z.ltb_spec n base).
  - exists [n]. rewrite Z.mod_small by lia. split; [reflexivity|]. split; [constructor; [lia|constructor]|].
    split; [cbn; lia|]. split; [discriminate|]. split; [|cbn [length]; lia].
    intros H0. cbn in H0. rewrite H0. reflexivity.
  - assert (Hq : 0 <= n / base < base ^ Z.of_nat f) by (split; [apply Z.div_pos; lia|apply Z.div_lt_upper_bound; lia]).
    assert (Hq1 : 1 <= n / base) by (apply Z.div_le_lower_bound; lia).
    destruct f as [|f']; [cbn in Hq; lia|].
    destruct (IH (n / base) (digit_char (n mod base) :: acc) Hq ltac:(lia)) as (ds & E & F & V & N & Z0 & L).
    pose proof (Z.mod_pos_bound n base ltac:(lia)).
    exists (ds ++ [n mod base]). rewrite E. split.
    + rewrite map_app, <- app_assoc. reflexivity.
    + split; [apply Forall_app; split; auto|]. split; [|split; [|split]].
      * rewrite value_app, V. cbn [fold_left]. rewrite (Z.div_mod n base) at 3 by lia. ring.
      * destruct ds; discriminate.
      * intros Hz. destruct ds as [|d0 dt]; [contradiction|]. cbn [app hd] in Hz. specialize (Z0 Hz). inversion Z0; subst.
        cbn in V. lia.
      * rewrite app_length. cbn [length]. lia.
Qed.

Lemma fmt_llu_spec n : 0 <= n < 18446744073709551616 -> numeral 10 n (fmt_llu n) /\ (1 <= length (fmt_llu n) <= 20)%nat.
Proof.
  intros H. assert (P : 10 ^ Z.of_nat 20 = 100000000000000000000) by (vm_compute; reflexivity).
  destruct (digits_spec 10 ltac:(lia) 20 n [] ltac:(rewrite P; lia) ltac:(lia)) as (ds & E & F & V & N & Z0 & L).
  unfold fmt_llu. rewrite E, app_nil_r, map_length. split.
  - exists ds. auto.
  - destruct ds; [contradiction|]. cbn [length] in *. lia.
Qed.
Lemma fmt_02x_spec n : 0 <= n < 4294967296 -> numeral2 n (fmt_02x n) /\ (2 <= length (fmt_02x n) <= 8)%nat.
Proof.
  intros H. assert (P : 16 ^ Z.of_nat 8 = 4294967296) by (vm_compute; reflexivity).
  destruct (digits_spec 16 ltac:(lia) 8 n [] ltac:(rewrite P; lia) ltac:(lia)) as (ds & E & F & V & N & Z0 & L).
  unfold fmt_02x. rewrite E, app_nil_r. split.
  - exists (map digit ds). split; [exists ds; auto|]. reflexivity.
  - destruct (Nat.ltb_spec (length (map digit ds)) 2) as [H2|H2]; cbn [length]; rewrite map_length in *; [|lia].
    destruct ds; [contradiction|]. cbn [length] in *. lia.
Qed.
Lemma fmt_byte b : 0 <= b < 256 -> fmt_02x b = hex2 b.
Proof.
  intros H. unfold fmt_02x, hex2. cbn [digits]. destruct (Z.ltb_spec b 16).
  - cbn [length]. change (1 <? 2)%nat with true. cbn iota. rewrite Z.mod_small, Z.div_small by lia. reflexivity.
  - assert (0 <= b / 16 < 16) by (split; [apply Z.div_pos; lia|apply Z.div_lt_upper_bound; lia]).
    destruct (Z.ltb_spec (b / 16) 16); [|lia]. cbn [length]. change (2 <? 2)%nat with false. cbn iota. rewrite (Z.mod_small (b / 16)) by lia. reflexivity.
Qed.

(** ** Buffer writes *)
Definition splice (buf : list Z) (pos : nat) (t : list Z) : list Z := firstn pos buf ++ t ++ skipn (pos + length t) buf.
Lemma upd_splice (l : list Z) i c : (i < length l)%nat -> upd l i c = firstn i l ++ c :: skipn (S i) l.
Proof. revert i; induction l as [|a t IH]; intros [|i] H; cbn in *; try lia; auto. rewrite IH by lia. reflexivity. Qed.
Lemma write_at_ok text : forall buf pos, (pos + length text <= length buf)%nat ->
  write_at buf pos text = Ok (splice buf pos text).
Proof.
  induction text as [|c t IH]; intros buf pos H; cbn [write_at].
  - unfold splice. cbn [length app]. rewrite Nat.add_0_r, firstn_skipn. reflexivity.
  - cbn [length] in H. rewrite aset_ok by lia. cbn [bind]. rewrite IH by (rewrite upd_length; lia).
    f_equal. rewrite upd_splice by lia. unfold splice.
    assert (Lf : length (firstn pos buf) = pos) by (apply firstn_length_le; lia).
    assert (E1 : firstn (S pos) (firstn pos buf ++ c :: skipn (S pos) buf) = firstn pos buf ++ [c]).
    { change (c :: skipn (S pos) buf) with ([c] ++ skipn (S pos) buf). rewrite app_assoc, firstn_app.
      rewrite app_length, Lf. cbn [length]. replace (S pos - (pos + 1))%nat with 0%nat by lia. rewrite firstn_O, app_nil_r.
      apply firstn_all2. rewrite app_length. cbn [length]. lia. }
    assert (E2 : skipn (S pos + length t) (firstn pos buf ++ c :: skipn (S pos) buf) = skipn (pos + S (length t)) buf).
    { rewrite skipn_app, skipn_all2 by lia. rewrite Lf. replace (S pos + length t - pos)%nat with (S (length t)) by lia.
      cbn [app]. rewrite skipn_cons, skipn_skipn. f_equal. lia. }
    rewrite E1, E2, <- app_assoc. reflexivity.
Qed.


Lemma snprintf_append buf t text : length buf = 128%nat -> holds buf t -> (length t + length text < 128)%nat ->
  exists b, snprintf_at buf (length t) (128 - length t) text = Ok b /\ length b = 128%nat /\ holds b (t ++ text).
Proof.
  intros L (rest & E) Hl. unfold snprintf_at. destruct (128 - length t)%nat as [|room] eqn:Er; [lia|].
  rewrite firstn_all2 by lia. rewrite write_at_ok by (rewrite app_length; cbn [length]; lia).
  eexists. split; [reflexivity|]. unfold splice. split.
  - rewrite !app_length, firstn_length, skipn_length, ?app_length. cbn [length]. lia.
  - exists (skipn (length t + length (text ++ [0])) buf). rewrite E at 1.
    rewrite firstn_app, firstn_all, Nat.sub_diag. cbn [firstn]. rewrite app_nil_r, <- !app_assoc. reflexivity.
Qed.

Lemma hex2_len l : length (flat_map hex2 l) = (2 * length l)%nat.
Proof. induction l; cbn in *; lia. Qed.

Lemma cstr_loop_ok m off pre : length (m_data m) = 32%nat -> Forall (fun b => 0 <= b < 256) (m_data m) -> length pre = off ->
  forall k i buf, (i + k <= 32)%nat -> (off <= 30)%nat -> length buf = 128%nat -> holds buf (pre ++ flat_map hex2 (firstn i (m_data m))) ->
  exists b, cstr_loop m off i k buf = Ok b /\ length b = 128%nat /\ holds b (pre ++ flat_map hex2 (firstn (i + k) (m_data m))).
Proof.
  intros Ld Hb Lp. induction k as [|k IH]; intros i buf Hik Ho L H; cbn [cstr_loop].
  - rewrite Nat.add_0_r. eauto.
  - destruct (nth_error (m_data m) i) as [v|] eqn:Ev; [|apply nth_error_None in Ev; lia].
    unfold aget. rewrite Ev. cbn [bind]. destruct (Nat.ltb_spec 128 (off + i * 2)); [lia|].
    assert (Hv : 0 <= v < 256) by (rewrite Forall_forall in Hb; apply Hb; eapply nth_error_In; eauto).
    rewrite fmt_byte by auto.
    assert (Lt : length (pre ++ flat_map hex2 (firstn i (m_data m))) = (off + i * 2)%nat).
    { rewrite app_length, hex2_len, firstn_length_le by lia. lia. }
    destruct (snprintf_append buf _ (hex2 v) L H ltac:(rewrite Lt; cbn [hex2 length]; lia)) as (b & E & Lb & Hh).
    rewrite Lt in E. rewrite E. cbn [bind].
    destruct (IH (S i) b ltac:(lia) Ho Lb) as (b' & E' & Lb' & Hh').
    + replace (flat_map hex2 (firstn (S i) (m_data m))) with (flat_map hex2 (firstn i (m_data m)) ++ hex2 v).
      * rewrite app_assoc. exact Hh.
      * clear - Ev. revert Ev. generalize (m_data m) as d. intros d. revert i. induction d as [|a d IH]; intros [|i] E; cbn in *; try discriminate.
        -- inversion E; reflexivity.
        -- f_equal. f_equal. apply IH. auto.
    + exists b'. split; auto. split; auto. replace (i + S k)%nat with (S i + k)%nat by lia. exact Hh'.
Qed.

Definition text_of (m : message) : list Z := (fmt_llu (m_time m) ++ [58] ++ fmt_02x (m_status m) ++ [58]) ++ flat_map hex2 (payload m).
Lemma c_str_text m line : msg_ok m -> length line = 128%nat ->
  exists buf, msg_c_str m line = Ok buf /\ length buf = 128%nat /\ holds buf (text_of m) /\
    formats (m_time m) (m_status m) (payload m) (text_of m) /\ (length (text_of m) <= 94)%nat.
Proof.
  intros (Ht & Hs & Ld & Ll & Hb) L. unfold msg_c_str.
  destruct (fmt_llu_spec _ Ht) as (Nt & Lt). destruct (fmt_02x_spec _ Hs) as (Ns & Ls).
  set (text := fmt_llu (m_time m) ++ [58] ++ fmt_02x (m_status m) ++ [58]).
  assert (Lx : (length text <= 30)%nat) by (unfold text; rewrite !app_length; cbn [length]; lia).
  assert (E0 : exists b, snprintf_at line 0 128 text = Ok b /\ length b = 128%nat /\ holds b text).
  { unfold snprintf_at. rewrite firstn_all2 by lia. rewrite write_at_ok by (rewrite app_length; cbn [length]; lia).
    eexists. split; [reflexivity|]. unfold splice. split.
    - rewrite !app_length, firstn_length, skipn_length, ?app_length. cbn [length]. lia.
    - exists (skipn (0 + length (text ++ [0])) line). cbn [firstn app]. rewrite <- app_assoc. reflexivity. }
  destruct E0 as (b & E & Lb & Hh). rewrite E. cbn [bind].
  destruct (cstr_loop_ok m (length text) text Ld Hb eq_refl (m_length m) 0 b ltac:(lia) Lx Lb) as (b' & E' & Lb' & Hh').
  - cbn [firstn flat_map]. rewrite app_nil_r. exact Hh.
  - exists b'. change (text_of m) with (text ++ flat_map hex2 (payload m)). split; auto. split; auto. split; [exact Hh'|]. split.
    + exists (fmt_llu (m_time m)), (fmt_02x (m_status m)). split; auto. split; auto. unfold text. rewrite <- !app_assoc. reflexivity.
    + rewrite app_length, hex2_len. unfold payload. rewrite firstn_length. lia.
Qed.
Lemma c_str_ok m line : msg_ok m -> length line = 128%nat ->
  exists buf text, msg_c_str m line = Ok buf /\ length buf = 128%nat /\ holds buf text /\
    formats (m_time m) (m_status m) (payload m) text /\ (length text <= 94)%nat.
Proof. intros H L. destruct (c_str_text m line H L) as (buf & H1). exists buf, (text_of m). exact H1. Qed.
