(** P_MessageParse.v -- the parsing constructor (C31-C34, C36) and Append/Clear (C35). *)
From Verif Require Import Base M_Message S_Message D_Message P_Message.

(** ** Fields *)
Definition nocolon (l : list Z) : Prop := Forall (fun c => c <> 58) l.

Lemma scan_app a : forall i b s, scan_loop i (a ++ b) s = scan_loop (i + length a) b (scan_loop i a s).
Proof.
  induction a as [|c t IH]; intros i b s; cbn [app scan_loop length]; [rewrite Nat.add_0_r; auto|].
  rewrite IH. f_equal. lia.
Qed.
Lemma scan_nocolon a : nocolon a -> forall i s, scan_loop i a s = SCAN (sc_time s) (sc_status s) (sc_data s) (sc_field s) (sc_buf s ++ a).
Proof.
  induction 1 as [|c t H Ht IH]; intros i s; cbn [scan_loop].
  - rewrite app_nil_r. destruct s; reflexivity.
  - unfold scan_step at 1. destruct (Z.eqb_spec c 58); [contradiction|]. rewrite IH. cbn [sc_time sc_status sc_data sc_field sc_buf].
    rewrite <- app_assoc. reflexivity.
Qed.
Lemma scan_rest l : forall i s, (2 <= sc_field s)%nat -> exists f b,
  scan_loop i l s = SCAN (sc_time s) (sc_status s) (sc_data s) f (sc_buf s ++ b) /\
  b = map (fun c => if c =? 58 then 0 else c) l.
Proof.
  induction l as [|c t IH]; intros i s H; cbn [scan_loop map].
  - exists (sc_field s), []. rewrite app_nil_r. destruct s; auto.
  - unfold scan_step at 1. destruct (Z.eqb_spec c 58).
    + destruct (sc_field s) as [|[|f]] eqn:Ef; try lia.
      edestruct (IH (S i) (SCAN (sc_time s) (sc_status s) (sc_data s) (S (S (S f))) (sc_buf s ++ [0]))) as (f' & b & E & Hb); [cbn; lia|].
      rewrite E. cbn [sc_time sc_status sc_data sc_buf]. exists f', (0 :: b). rewrite <- app_assoc. cbn [app]. subst b. auto.
    + edestruct (IH (S i) (SCAN (sc_time s) (sc_status s) (sc_data s) (sc_field s) (sc_buf s ++ [c]))) as (f' & b & E & Hb); [cbn; lia|].
      rewrite E. cbn [sc_time sc_status sc_data sc_buf]. exists f', (c :: b). rewrite <- app_assoc. cbn [app]. subst b. auto.
Qed.

Lemma split_cons l : exists f fs, split l = f :: fs.
Proof. induction l as [|c t (f & fs & E)]; cbn; [eauto|]. destruct (c =? 58); [eauto|]. rewrite E. eauto. Qed.

(** The first field and what follows. *)
Lemma split_first l : (nocolon l /\ split l = [l]) \/ (exists a b, l = a ++ 58 :: b /\ nocolon a /\ split l = a :: split b).
Proof.
  induction l as [|c t IH]; cbn [split]; [left; split; [constructor|auto]|].
  destruct (Z.eqb_spec c 58) as [->|Hc].
  - right. exists [], t. repeat split; auto. constructor.
  - destruct IH as [(N & E)|(a & b & -> & N & E)]; rewrite E.
    + left. split; auto. constructor; auto.
    + right. exists (c :: a), b. split; [reflexivity|]. split; auto. constructor; auto.
Qed.

Lemma until_nul_field a r : Forall is_char a -> until_nul (a ++ 0 :: r) = a.
Proof. induction 1 as [|c t H Ht IH]; cbn; auto. unfold is_char in H. destruct (Z.eqb_spec c 0); [lia|]. rewrite IH. auto. Qed.
Lemma cstring_at_field x a r : Forall is_char a -> cstring_at (x ++ a ++ 0 :: r) (length x) = a.
Proof.
  intros H. unfold cstring_at. rewrite skipn_app, skipn_all, Nat.sub_diag. cbn [app skipn]. apply until_nul_field; auto.
Qed.
(** The first field of [l], read from the rewritten buffer. *)
Lemma first_field_used l : Forall is_char l ->
  until_nul (map (fun c => if c =? 58 then 0 else c) l ++ [0]) = hd [] (split l).
Proof.
  induction 1 as [|c t H Ht IH]; cbn [map app until_nul split hd]; auto. unfold is_char in H.
  destruct (Z.eqb_spec c 58) as [->|Hc]; [reflexivity|]. destruct (Z.eqb_spec c 0); [lia|]. rewrite IH.
  destruct (split_cons t) as (f & fs & ->). reflexivity.
Qed.

Definition time_of (line : list Z) : Z :=
  match split line with a :: _ :: _ => if (0 <? length a)%nat then u64 (atoll a) else 0 | _ => 0 end.
Definition status_of (p : platform) (line : list Z) : Z :=
  match split line with _ :: b :: _ => if (0 <? length b)%nat then u32 (strtol16 (long_max p) b) else 0 | _ => 0 end.

Lemma scan1 i a b : nocolon a -> scan_loop i (a ++ 58 :: b) (SCAN false None 0 0 []) =
  scan_loop (i + S (length a)) b (SCAN true (Some (S (i + length a))) 0 1 (a ++ [0])).
Proof. intros H. rewrite scan_app, (scan_nocolon a) by auto. cbn [scan_loop]. unfold scan_step. cbn. do 2 f_equal; lia. Qed.
Lemma scan2 i a b t st bf : nocolon a -> scan_loop i (a ++ 58 :: b) (SCAN t st 0 1 bf) =
  scan_loop (i + S (length a)) b (SCAN t st (S (i + length a)) 2 (bf ++ a ++ [0])).
Proof. intros H. rewrite scan_app, (scan_nocolon a) by auto. cbn [scan_loop]. unfold scan_step. cbn. rewrite <- app_assoc. do 2 f_equal; lia. Qed.

Lemma parse_fields p junk line : Forall is_char line ->
  msg_parse p junk line = data_loop p (data_field_used line) false (MSG (status_of p line) (time_of line) junk 0).
Proof.
  intros Hc. unfold msg_parse, scan_line, data_field_used, time_of, status_of.
  destruct (split_first line) as [(N & E)|(a & b & -> & Na & E)]; rewrite E.
  - rewrite scan_nocolon by auto. cbn [sc_buf sc_time sc_status sc_data app andb].
    replace (cstring_at (line ++ [0]) 0) with line by (symmetry; exact (until_nul_field line [] Hc)). reflexivity.
  - apply Forall_app in Hc as (Ha & Hb). inversion Hb as [|? ? _ Hb']; subst. clear Hb.
    rewrite scan1 by auto. rewrite !Nat.add_0_l.
    destruct (split_first b) as [(Nb & Eb)|(b1 & c & -> & Nb & Eb)]; rewrite Eb.
    + rewrite scan_nocolon by auto. cbn [sc_time sc_status sc_data sc_field sc_buf andb].
      rewrite <- !app_assoc. cbn [app].
      replace (cstring_at (a ++ 0 :: b ++ [0]) 0) with a by (symmetry; apply until_nul_field; auto).
      replace (cstring_at (a ++ 0 :: b ++ [0]) (S (length a))) with b.
      2:{ symmetry. replace (a ++ 0 :: b ++ [0]) with ((a ++ [0]) ++ b ++ [0]) by (rewrite <- app_assoc; reflexivity).
          replace (S (length a)) with (length (a ++ [0])) by (rewrite app_length; cbn; lia). apply cstring_at_field; auto. }
      reflexivity.
    + apply Forall_app in Hb' as (Hb1 & Hcc). inversion Hcc as [|? ? _ Hc']; subst. clear Hcc.
      rewrite scan2 by auto.
      edestruct (scan_rest c) as (f & bb & Ec & Hbb); [|rewrite Ec]; [cbn; lia|]. cbn [sc_time sc_status sc_data sc_field sc_buf andb].
      rewrite <- !app_assoc. cbn [app].
      replace (cstring_at (a ++ 0 :: b1 ++ 0 :: bb ++ [0]) 0) with a by (symmetry; apply until_nul_field; auto).
      replace (cstring_at (a ++ 0 :: b1 ++ 0 :: bb ++ [0]) (S (length a))) with b1.
      2:{ symmetry. replace (a ++ 0 :: b1 ++ 0 :: bb ++ [0]) with ((a ++ [0]) ++ b1 ++ 0 :: bb ++ [0]) by (rewrite <- app_assoc; reflexivity).
          replace (S (length a)) with (length (a ++ [0])) by (rewrite app_length; cbn; lia). apply cstring_at_field; auto. }
      replace (cstring_at (a ++ 0 :: b1 ++ 0 :: bb ++ [0]) (S (S (length a) + length b1))) with (hd [] (split c)).
      2:{ symmetry. replace (a ++ 0 :: b1 ++ 0 :: bb ++ [0]) with ((a ++ [0] ++ b1 ++ [0]) ++ bb ++ [0]) by (rewrite <- !app_assoc; reflexivity).
          replace (S (S (length a) + length b1)) with (length (a ++ [0] ++ b1 ++ [0])) by (rewrite !app_length; cbn; lia).
          unfold cstring_at. rewrite skipn_app, skipn_all, Nat.sub_diag. cbn [app skipn]. subst bb. apply first_field_used; auto. }
      destruct (split_cons c) as (f0 & fs0 & ->). reflexivity.
Qed.

(** ** The data loop *)
Definition nibs (p : platform) (l : list Z) : list Z :=
  flat_map (fun c => if c =? 32 then [] else if decode_nibble p c =? -1 then [] else [decode_nibble p c]) (before_comment l).
Fixpoint nib_loop (ns : list Z) (field : bool) (m : message) : res message :=
  match ns with
  | [] => Ok m
  | d :: t =>
      if negb field then
        let* dt := aset (m_data m) (m_length m) (u8 (Z.shiftl d 4)) in
        nib_loop t true (MSG (m_status m) (m_time m) dt (m_length m))
      else
        let* old := aget (m_data m) (m_length m) in
        let* dt := aset (m_data m) (m_length m) (u8 (Z.lor old d)) in
        nib_loop t false (MSG (m_status m) (m_time m) dt (S (m_length m)))
  end.
Lemma bind_ext {A B} (x : res A) (f g : A -> res B) : (forall a, f a = g a) -> bind x f = bind x g.
Proof. intros H. destruct x; cbn; auto. Qed.
Lemma data_nibs p l : forall f m, data_loop p l f m = nib_loop (nibs p l) f m.
Proof.
  unfold nibs. induction l as [|c t IH]; intros f m; cbn [data_loop before_comment flat_map nib_loop]; auto.
  destruct (Z.eqb_spec c 32) as [->|].
  - cbn [Z.eqb Pos.eqb orb flat_map app]. apply IH.
  - destruct ((c =? 35) || (c =? 59)); [reflexivity|]. cbn [flat_map]. destruct (Z.eqb_spec c 32); [contradiction|].
    destruct (decode_nibble p c =? -1); cbn [negb app nib_loop]; [apply IH|].
    destruct f; cbn [negb]; repeat (apply bind_ext; intros); apply IH.
Qed.

Lemma pairb_length l : length (pairb l) = (length l / 2)%nat.
Proof.
  assert (H : forall n l, (length l <= n)%nat -> length (pairb l) = (length l / 2)%nat).
  { induction n as [|n IH]; intros [|a [|b t]] Hn; cbn [length pairb] in *; try reflexivity; try lia.
    rewrite IH by lia. change (S (S (length t))) with (2 + length t)%nat. replace (2 + length t)%nat with (length t + 1 * 2)%nat by lia.
    rewrite Nat.div_add by lia. lia. }
  apply (H (length l)). lia.
Qed.

Lemma firstn_upd_snoc (l : list Z) i x : (i < length l)%nat -> firstn (S i) (upd l i x) = firstn i l ++ [x].
Proof. revert i; induction l as [|a t IH]; intros [|i] H; cbn in *; try lia; auto. f_equal. apply IH; lia. Qed.
Lemma upd_upd (l : list Z) i x y : upd (upd l i x) i y = upd l i y.
Proof. revert i; induction l as [|a t IH]; intros [|i]; cbn; auto. f_equal. auto. Qed.
Lemma firstn_upd_ge (l : list Z) i j x : (j <= i)%nat -> firstn j (upd l i x) = firstn j l.
Proof. revert i j; induction l as [|a t IH]; intros [|i] [|j] H; cbn; auto; try lia. f_equal. apply IH; lia. Qed.

Lemma nib_loop_spec n : forall ns m, (length ns <= n)%nat -> length (m_data m) = 32%nat -> (m_length m <= 32)%nat ->
  if (length ns <=? 2 * (32 - m_length m))%nat
  then exists d, nib_loop ns false m = Ok (MSG (m_status m) (m_time m) d (m_length m + length ns / 2)) /\ length d = 32%nat /\
         firstn (m_length m + length ns / 2) d = firstn (m_length m) (m_data m) ++ pairb ns
  else nib_loop ns false m = UB OutOfBounds.
Proof.
  induction n as [|n IH]; intros ns m Hn Ld Lm.
  - destruct ns; [|cbn in Hn; lia]. cbn [length]. destruct (Nat.leb_spec 0 (2 * (32 - m_length m))); [|lia].
    exists (m_data m). cbn. rewrite Nat.add_0_r, app_nil_r. destruct m; auto.
  - destruct ns as [|a [|b t]].
    + cbn [length]. destruct (Nat.leb_spec 0 (2 * (32 - m_length m))); [|lia].
      exists (m_data m). cbn. rewrite Nat.add_0_r, app_nil_r. destruct m; auto.
    + cbn [length nib_loop negb]. destruct (Nat.leb_spec 1 (2 * (32 - m_length m))).
      * rewrite aset_ok by lia. cbn [bind]. eexists. split; [rewrite Nat.add_0_r; reflexivity|]. rewrite upd_length. split; auto.
        change (1 / 2)%nat with 0%nat. rewrite Nat.add_0_r. cbn [pairb]. rewrite app_nil_r. apply firstn_upd_ge. lia.
      * rewrite aset_oob by lia. reflexivity.
    + cbn [length nib_loop negb] in *. destruct (Nat.leb_spec (S (S (length t))) (2 * (32 - m_length m))).
      * rewrite aset_ok by lia. cbn [bind m_data m_length m_status m_time].
        unfold aget. rewrite nth_error_upd_eq by lia. cbn [bind]. rewrite aset_ok by (rewrite upd_length; lia). cbn [bind].
        rewrite upd_upd.
        specialize (IH t (MSG (m_status m) (m_time m) (upd (m_data m) (m_length m) (u8 (Z.lor (u8 (Z.shiftl a 4)) b))) (S (m_length m)))
          ltac:(lia)). cbn [m_data m_length m_status m_time] in IH. rewrite upd_length in IH. specialize (IH Ld ltac:(lia)).
        destruct (Nat.leb_spec (length t) (2 * (32 - S (m_length m)))); [|lia].
        destruct IH as (d & E & L & F). exists d.
        assert (Hd : (S (S (length t)) / 2 = S (length t / 2))%nat).
        { replace (S (S (length t))) with (length t + 1 * 2)%nat by lia. rewrite Nat.div_add by lia. lia. }
        rewrite Hd. replace (m_length m + S (length t / 2))%nat with (S (m_length m) + length t / 2)%nat by lia.
        split; auto. split; auto. rewrite F, firstn_upd_snoc by lia. rewrite <- app_assoc. reflexivity.
      * destruct (Nat.lt_ge_cases (m_length m) 32).
        -- rewrite aset_ok by lia. cbn [bind m_data m_length m_status m_time].
           unfold aget. rewrite nth_error_upd_eq by lia. cbn [bind]. rewrite aset_ok by (rewrite upd_length; lia). cbn [bind].
           specialize (IH t (MSG (m_status m) (m_time m) (upd (upd (m_data m) (m_length m) (u8 (Z.shiftl a 4))) (m_length m) (u8 (Z.lor (u8 (Z.shiftl a 4)) b))) (S (m_length m)))
             ltac:(lia)). cbn [m_data m_length m_status m_time] in IH. rewrite !upd_length in IH. specialize (IH Ld ltac:(lia)).
           destruct (Nat.leb_spec (length t) (2 * (32 - S (m_length m)))); [lia|]. exact IH.
        -- rewrite aset_oob by lia. reflexivity.
Qed.

(** Everything the parser does, for every line. *)
Lemma parse_general p junk line : Forall is_char line -> length junk = 32%nat ->
  let ns := nibs p (data_field_used line) in
  if (length ns <=? 64)%nat
  then exists m, msg_parse p junk line = Ok m /\ m_time m = time_of line /\ m_status m = status_of p line /\
         m_length m = (length ns / 2)%nat /\ length (m_data m) = 32%nat /\ payload m = pairb ns
  else msg_parse p junk line = UB OutOfBounds.
Proof.
  intros Hc Lj ns. rewrite parse_fields, data_nibs by auto. fold ns.
  pose proof (nib_loop_spec (length ns) ns (MSG (status_of p line) (time_of line) junk 0) (le_n _) Lj ltac:(cbn; lia)) as H.
  cbn [m_length m_data m_status m_time] in H. change (2 * (32 - 0))%nat with 64%nat in H.
  destruct (length ns <=? 64)%nat.
  - destruct H as (d & E & L & F). eexists. split; [exact E|]. unfold payload. cbn [m_time m_status m_length m_data]. cbn in F |- *. auto.
  - exact H.
Qed.
