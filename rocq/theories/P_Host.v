(** P_Host.v -- HostUART refines a machine on lists (C54-C61). *)
From Verif Require Import Base S_Containers D_Containers P_Containers M_Fifo M_Message S_Message D_Message P_Message P_MessageParse P_MessageNum M_HostUart D_Host S_Host.

(** ** The abstract machine *)
Record ahost : Set := AH { a_time : Z; a_err : bool; a_q : list Z; a_b : list Z; a_ms : list message; a_boot : bool }.
Definition ah_new : ahost := AH 0 false [] [] [] false.
Definition a_pump (budget : nat) (a : ahost) : ahost * list Z :=
  (AH (a_time a) (a_err a) (skipn budget (a_q a)) (a_b a) (a_ms a) (a_boot a), firstn budget (a_q a)).
Definition a_recv (cs : list Z) (a : ahost) : ahost :=
  AH (a_time a) (a_err a) (a_q a) (firstn 128 (a_b a ++ cs)) (a_ms a) (a_boot a).
Definition a_send (budget : nat) (a : ahost) (m : message) : ahost * list Z :=
  let line := text_of m ++ [13; 10] in
  let room := (128 - length (a_q a))%nat in
  let a1 := AH (a_time a) (a_err a || (room <? length line)%nat) (a_q a ++ firstn room line) (a_b a) (a_ms a) (a_boot a) in
  if (length (text_of m) <=? room)%nat then a_pump budget a1 else (a1, []).
Definition a_updated (now : Z) (a : ahost) (m : message) : message :=
  MSG (if a_err a then Z.lor (m_status m) 2 else m_status m) (u64 (a_time a + ms_counter now)) (m_data m) (m_length m).
Fixpoint find_nl (l : list Z) : option nat :=
  match l with [] => None | c :: t => if is_nl c then Some 0%nat else option_map S (find_nl t) end.
Definition a_set_b (a : ahost) (b : list Z) : ahost := AH (a_time a) (a_err a) (a_q a) b (a_ms a) (a_boot a).
Definition a_line (now : Z) (junk line : list Z) (a : ahost) : res ahost :=
  if has_prefix bld_cmd line then Ok (AH (a_time a) (a_err a) (a_q a) (a_b a) (a_ms a) true)
  else if is_comment line then Ok a
  else let* m := msg_parse pico junk line in
    Ok (AH (if 0 <? m_time m then s64 (m_time m - ms_counter now) else a_time a) (a_err a) (a_q a) (a_b a)
           (if (0 <? m_length m)%nat && (length (a_ms a) <? 8)%nat then a_ms a ++ [m] else a_ms a) (a_boot a)).
Definition a_rxline (now : Z) (junk : list Z) (a : ahost) : res ahost :=
  match find_nl (a_b a) with
  | None => Ok a
  | Some O => Ok (a_set_b a [])
  | Some (S i) => let* a' := a_line now junk (until_nul (firstn (S i) (a_b a))) a in Ok (a_set_b a' [])
  end.
Definition a_step (a : ahost) (e : Z * host_op) : res (ahost * host_out) :=
  let '(now, op) := e in
  match op with
  | OpSend budget m => let '(a', out) := a_send budget a m in Ok (a', OSent m out (a_err a'))
  | OpReport budget m =>
      let m' := a_updated now a m in
      let '(a', out) := a_send budget (AH (a_time a) false (a_q a) (a_b a) (a_ms a) (a_boot a)) m' in Ok (a', OSent m' out (a_err a'))
  | OpCheck budget junk cs =>
      let '(a1, out) := a_pump budget a in
      let* a2 := a_rxline now junk (a_recv cs a1) in Ok (a2, OWritten out)
  | OpIrq budget cs => let '(a1, out) := a_pump budget a in Ok (a_recv cs a1, OWritten out)
  | OpPop junk => match a_ms a with
      | [] => Ok (a, OPopped (msg_new junk))
      | m :: r => Ok (AH (a_time a) (a_err a) (a_q a) (a_b a) r (a_boot a), OPopped m) end
  | OpHasData => Ok (a, OHas (match a_ms a with [] => false | _ => true end))
  | OpSetTime t => Ok (AH (s64 (t - ms_counter now)) (a_err a) (a_q a) (a_b a) (a_ms a) (a_boot a), ONone)
  | OpGetTime => Ok (a, OTime (u64 (a_time a + ms_counter now)))
  end.

Record host_rel (h : host) (a : ahost) : Prop := {
  r_time : h_time h = a_time a; r_err : h_error h = a_err a; r_q : ff_ok 128 (h_tx h) (a_q a);
  r_b : lr_ok 128 (h_rx h) (a_b a); r_ms : ff_ok 8 (h_msgs h) (a_ms a); r_line : length (h_line h) = 128%nat; r_boot : h_boot h = a_boot a }.

(** Both defined with related results, or both undefined for the same reason. *)
Definition agree {A B} (R : A -> B -> Prop) (x : res A) (y : res B) : Prop :=
  match x, y with Ok a, Ok b => R a b | UB k, UB k' => k = k' | _, _ => False end.

Lemma new_rel : host_rel host_new ah_new.
Proof. constructor; try reflexivity; [apply ff_new_ok; lia|apply lr_new_ok|apply ff_new_ok; lia]. Qed.

(** ** Output *)
Lemma check_tx_ok budget : forall f q, ff_ok 128 f q -> exists f', check_tx_fifo budget f = Ok (f', firstn budget q) /\ ff_ok 128 f' (skipn budget q).
Proof.
  induction budget as [|n IH]; intros f q H; cbn [check_tx_fifo].
  - exists f. auto.
  - assert (Ee : ff_empty f = match q with [] => true | _ => false end) by (unfold ff_empty; destruct H as (_ & _ & -> & _); destruct q; reflexivity).
    rewrite Ee. destruct q as [|c q]; [exists f; rewrite firstn_nil, skipn_nil; auto|].
    destruct (ff_pop_ok 128 f (c :: q) H) as (f1 & -> & H1). cbn [bind tl] in *. destruct (IH f1 q H1) as (f2 & -> & H2). cbn [bind firstn skipn]. eauto.
Qed.

Lemma send_chars_ok cs : forall f q, ff_ok 128 f q -> exists f', send_chars cs f = Ok (f', (length cs <=? 128 - length q)%nat) /\
  ff_ok 128 f' (q ++ firstn (128 - length q) cs).
Proof.
  induction cs as [|c cs IH]; intros f q H; cbn [send_chars].
  - exists f. rewrite firstn_nil, app_nil_r. auto.
  - assert (Hq : (length q <= 128)%nat) by apply H.
    assert (Ee : ff_full 128 f = (length q =? 128)%nat) by (unfold ff_full; destruct H as (_ & _ & -> & _); reflexivity).
    rewrite Ee. destruct (Nat.eqb_spec (length q) 128) as [Eq|Ne].
    + exists f. rewrite Eq. cbn [Nat.sub firstn length]. rewrite app_nil_r. auto.
    + destruct (ff_push_ok 128 f q c H) as (f1 & -> & H1). cbn [bind]. destruct (Nat.ltb_spec (length q) 128) as [_|]; [|lia].
      destruct (IH f1 (q ++ [c]) H1) as (f2 & -> & H2). rewrite app_length in *. cbn [length] in *.
      exists f2. replace (128 - length q)%nat with (S (128 - (length q + 1))) by lia. cbn [firstn]. rewrite <- app_assoc in H2. split; auto.
Qed.

Lemma send_term_ok c h a : host_rel h a -> exists h', send_term c h = Ok h' /\
  host_rel h' (AH (a_time a) (a_err a || (length (a_q a) =? 128)%nat) (a_q a ++ firstn (128 - length (a_q a)) [c]) (a_b a) (a_ms a) (a_boot a)).
Proof.
  intros [R1 R2 R3 R4 R5 R6 R7]. unfold send_term.
  assert (Ee : ff_full 128 (h_tx h) = (length (a_q a) =? 128)%nat) by (unfold ff_full; destruct R3 as (_ & _ & -> & _); reflexivity).
  assert (Hq : (length (a_q a) <= 128)%nat) by apply R3.
  rewrite Ee. destruct (Nat.eqb_spec (length (a_q a)) 128) as [Eq|Ne].
  - eexists. split; [reflexivity|]. rewrite Eq. cbn [Nat.sub firstn]. rewrite app_nil_r, orb_true_r. constructor; auto.
  - destruct (ff_push_ok 128 (h_tx h) (a_q a) c R3) as (f1 & -> & H1). cbn [bind]. destruct (Nat.ltb_spec (length (a_q a)) 128) as [_|]; [|lia].
    eexists. split; [reflexivity|]. replace (128 - length (a_q a))%nat with (S (127 - length (a_q a))) by lia. cbn [firstn]. rewrite firstn_nil, orb_false_r. constructor; auto.
Qed.

Lemma formats_chars time status data text : Forall (fun b => 0 <= b < 256) data -> formats time status data text -> Forall is_char text.
Proof.
  intros Hd (t & s & (ds & -> & Hds & _) & N2 & ->). apply numeral2_digits in N2 as (es & -> & Hes & _).
  apply Forall_app. split; [apply (digits_chars 10); auto; lia|]. apply Forall_app. split; [repeat constructor; unfold is_char; lia|].
  apply Forall_app. split; [apply (digits_chars 16); auto; lia|]. apply Forall_app. split; [repeat constructor; unfold is_char; lia|].
  apply Forall_flat_map. eapply Forall_impl; [|exact Hd]. intros b Hb. destruct (hex2_digits b Hb) as (-> & H1 & H2).
  apply (digits_chars 16); [lia|]. repeat constructor; lia.
Qed.
Lemma payload_range m : Forall (fun b => 0 <= b < 256) (m_data m) -> Forall (fun b => 0 <= b < 256) (payload m).
Proof. intros H. rewrite <- (firstn_skipn (m_length m) (m_data m)) in H. apply Forall_app in H as (H & _). exact H. Qed.

Lemma host_send_ok budget h a m : host_rel h a -> msg_ok m -> exists h', host_send budget h m = Ok (h', snd (a_send budget a m)) /\ host_rel h' (fst (a_send budget a m)).
Proof.
  intros R Hm. destruct (c_str_text m (h_line h) Hm (r_line _ _ R)) as (buf & E & Lb & Hh & Ff & Lt). unfold host_send. rewrite E. cbn [bind].
  assert (Et : cstring_at buf 0 = text_of m).
  { destruct Hh as (rest & ->). unfold cstring_at. cbn [skipn]. apply until_nul_field. eapply formats_chars; [|exact Ff]. apply payload_range. apply Hm. }
  rewrite Et. cbn [h_tx set_line]. pose proof R as [R1 R2 R3 R4 R5 R6 R7].
  assert (Hq : (length (a_q a) <= 128)%nat) by apply R3.
  destruct (send_chars_ok (text_of m) (h_tx h) (a_q a) R3) as (f & -> & Hf). cbn [bind].
  unfold a_send. set (room := (128 - length (a_q a))%nat) in *. rewrite app_length. cbn [length].
  destruct (Nat.leb_spec (length (text_of m)) room) as [Hl|Hl]; cbn [negb].
  - rewrite firstn_all2 in Hf by lia.
    set (h1 := set_tx (set_line h buf) f). assert (Q1 : host_rel h1 (AH (a_time a) (a_err a) (a_q a ++ text_of m) (a_b a) (a_ms a) (a_boot a))) by (constructor; auto).
    destruct (send_term_ok 13 _ _ Q1) as (h2 & -> & Q2). cbn [bind a_q a_time a_err a_b a_ms a_boot] in *.
    destruct (send_term_ok 10 _ _ Q2) as (h3 & -> & Q3). cbn [bind a_q a_time a_err a_b a_ms a_boot] in *.
    match type of Q3 with host_rel _ ?x => set (a3 := x) in * end.
    assert (Ea : a3 = AH (a_time a) (a_err a || (room <? length (text_of m) + 2)%nat) (a_q a ++ firstn room (text_of m ++ [13; 10])) (a_b a) (a_ms a) (a_boot a)).
    { unfold a3. rewrite !app_length. rewrite firstn_app, (firstn_all2 (text_of m)) by lia.
      assert (room = length (text_of m) \/ room = S (length (text_of m)) \/ (room >= length (text_of m) + 2)%nat) as [K|[K|K]] by lia.
      - replace (length (a_q a) + length (text_of m))%nat with 128%nat by lia. cbn [Nat.sub firstn length Nat.add app]. replace (room - length (text_of m))%nat with 0%nat by lia. cbn [firstn].
        rewrite !app_nil_r. change (128 =? 128)%nat with true. destruct (Nat.ltb_spec room (length (text_of m) + 2)); [|lia]. rewrite !orb_true_r. reflexivity.
      - replace (length (a_q a) + length (text_of m))%nat with 127%nat by lia. cbn [Nat.sub firstn length Nat.add app]. replace (room - length (text_of m))%nat with 1%nat by lia. cbn [firstn].
        rewrite !app_nil_r. change (128 =? 128)%nat with true. change (127 =? 128)%nat with false. destruct (Nat.ltb_spec room (length (text_of m) + 2)); [|lia]. rewrite !orb_true_r, <- app_assoc. reflexivity.
      - destruct (Nat.ltb_spec room (length (text_of m) + 2)); [lia|]. rewrite (firstn_all2 [13; 10]) by (cbn [length]; lia).
        destruct (Nat.eqb_spec (length (a_q a) + length (text_of m)) 128); [lia|].
        replace (128 - (length (a_q a) + length (text_of m)))%nat with (S (127 - (length (a_q a) + length (text_of m)))) by lia. cbn [firstn length]. rewrite firstn_nil. cbn [length].
        destruct (Nat.eqb_spec (length (a_q a) + length (text_of m) + 1) 128); [lia|].
        replace (128 - (length (a_q a) + length (text_of m) + 1))%nat with (S (127 - (length (a_q a) + length (text_of m) + 1))) by lia. cbn [firstn]. rewrite firstn_nil, !orb_false_r, <- !app_assoc. reflexivity. }
    rewrite Ea in Q3. clear a3 Ea. destruct Q3 as [S1 S2 S3 S4 S5 S6 S7]. cbn [a_q a_time a_err a_b a_ms a_boot] in *.
    destruct (check_tx_ok budget _ _ S3) as (f2 & -> & Hf2). cbn [bind]. eexists. split; [reflexivity|]. constructor; auto.
  - eexists. split; [reflexivity|]. cbn [fst]. rewrite firstn_app. replace (room - length (text_of m))%nat with 0%nat by lia. cbn [firstn]. rewrite app_nil_r.
    destruct (Nat.ltb_spec room (length (text_of m) + 2)); [|lia]. rewrite orb_true_r. constructor; auto.
Qed.

(** ** Input *)
Lemma check_rx_ok cs : forall h a, host_rel h a -> exists h', check_rx_fifo cs h = Ok h' /\ host_rel h' (a_recv cs a).
Proof.
  induction cs as [|c cs IH]; intros h a R; cbn [check_rx_fifo].
  - exists h. split; auto. destruct R as [R1 R2 R3 R4 R5 R6 R7]. assert ((length (a_b a) <= 128)%nat) by apply R4. constructor; auto. unfold a_recv; cbn [a_b]. rewrite app_nil_r, firstn_all2 by lia. auto.
  - pose proof R as [R1 R2 R3 R4 R5 R6 R7]. assert (Hb : (length (a_b a) <= 128)%nat) by apply R4.
    assert (Ef : lr_full 128 (h_rx h) = (length (a_b a) =? 128)%nat) by (unfold lr_full; destruct R4 as (_ & -> & _); reflexivity).
    rewrite Ef. destruct (Nat.eqb_spec (length (a_b a)) 128) as [Eq|Ne]; cbn [negb].
    + destruct (IH h a R) as (h' & -> & R'). exists h'. split; auto. unfold a_recv in *.
      rewrite firstn_app in R' |- *. rewrite Eq in R' |- *. cbn [Nat.sub firstn] in R' |- *. exact R'.
    + destruct (lr_push_ok 128 (h_rx h) (a_b a) c R4) as (f1 & -> & H1). cbn [bind]. destruct (Nat.ltb_spec (length (a_b a)) 128); [|lia].
      destruct (IH (set_rx h f1) (a_set_b a (a_b a ++ [c]))) as (h' & -> & R'); [constructor; auto|]. exists h'. split; auto.
      unfold a_recv, a_set_b in *. cbn [a_q a_time a_err a_b a_ms a_boot] in *. rewrite <- app_assoc in R'. exact R'.
Qed.

Lemma s64_u64 z : s64 (u64 z) = s64 z.
Proof. unfold s64, u64. rewrite Zplus_mod_idemp_l. reflexivity. Qed.

Lemma on_line_ok now junk line h a : host_rel h a ->
  agree host_rel (on_line_received pico now junk line h) (a_line now junk line a).
Proof.
  intros R. pose proof R as [R1 R2 R3 R4 R5 R6 R7]. unfold on_line_received, a_line. destruct (has_prefix bld_cmd line); [constructor; auto|].
  fold (is_comment line). destruct (is_comment line); [exact R|]. destruct (msg_parse pico junk line) as [m|k]; [|reflexivity]. cbn [bind].
  set (h1 := if 0 <? m_time m then host_set_time now h (m_time m) else h).
  set (t1 := if 0 <? m_time m then s64 (m_time m - ms_counter now) else a_time a).
  assert (Q : host_rel h1 (AH t1 (a_err a) (a_q a) (a_b a) (a_ms a) (a_boot a))).
  { unfold h1, t1. destruct (0 <? m_time m); constructor; auto. cbn. rewrite s64_u64. reflexivity. }
  clearbody h1 t1. destruct (0 <? m_length m)%nat; [|exact Q]. cbn [andb].
  destruct Q as [S1 S2 S3 S4 S5 S6 S7]. destruct (ff_push_ok 8 (h_msgs h1) (a_ms a) m S5) as (f & -> & Hf). cbn [bind].
  constructor; auto.
Qed.

Lemma until_nul_cut x r : until_nul (x ++ 0 :: r) = until_nul x.
Proof. induction x as [|c x IH]; cbn; auto. destruct (c =? 0); auto. f_equal. auto. Qed.
Lemma find_nl_lt l i : find_nl l = Some i -> (i < length l)%nat.
Proof.
  revert i; induction l as [|c l IH]; cbn; intros i H; [discriminate|]. destruct (is_nl c); [injection H as <-; lia|].
  destruct (find_nl l) as [j|]; [|discriminate]. injection H as <-. specialize (IH j eq_refl). lia.
Qed.

Lemma on_line_rx now junk line h h' : on_line_received pico now junk line h = Ok h' -> h_rx h' = h_rx h.
Proof.
  unfold on_line_received. destruct (has_prefix bld_cmd line); [intros H; injection H as <-; reflexivity|].
  destruct (match line with [] => true | c :: _ => (c =? 35) || (c =? 59) end); [intros H; injection H as <-; reflexivity|].
  destruct (msg_parse pico junk line) as [m|k]; [|discriminate]. cbn [bind].
  set (h1 := if 0 <? m_time m then host_set_time now h (m_time m) else h).
  assert (E : h_rx h1 = h_rx h) by (unfold h1; destruct (0 <? m_time m); reflexivity). clearbody h1.
  destruct (0 <? m_length m)%nat; [|intros H; injection H as <-; exact E].
  destruct (ff_push 8 (h_msgs h1) m) as [[q b]|k]; [|discriminate]. cbn [bind]. intros H; injection H as <-. exact E.
Qed.

Lemma loop_stop now junk fuel i h : lr_off (h_rx h) = 0%nat -> rx_line_loop pico now junk fuel i h = Ok h.
Proof. intros E. destruct fuel; cbn [rx_line_loop]; auto. unfold lr_length. rewrite E. destruct (Nat.ltb_spec i 0); [lia|]. reflexivity. Qed.

Lemma rx_loop_ok now junk h a : host_rel h a -> forall fuel i, (i <= length (a_b a))%nat -> (length (a_b a) - i < fuel)%nat ->
  agree host_rel (rx_line_loop pico now junk fuel i h)
    (match find_nl (skipn i (a_b a)) with
     | None => Ok a
     | Some k => if (i + k =? 0)%nat then Ok (a_set_b a [])
                 else let* a' := a_line now junk (until_nul (firstn (i + k) (a_b a))) a in Ok (a_set_b a' [])
     end).
Proof.
  intros R. pose proof R as [R1 R2 R3 R4 R5 R6 R7]. assert (Hb := R4). destruct Hb as (Ld & Lo & Lb & Hc).
  induction fuel as [|fuel IH]; intros i Hi Hf; [lia|]. cbn [rx_line_loop]. unfold lr_length. rewrite Lo.
  destruct (Nat.ltb_spec i (length (a_b a))) as [Hlt|Hge].
  2:{ rewrite skipn_all2 by lia. cbn. exact R. }
  destruct (nth_error (a_b a) i) as [c|] eqn:Ec; [|apply nth_error_None in Ec; lia].
  unfold aget. rewrite Hc, Ec by lia. cbn [bind]. rewrite (skipn_nth_cons _ _ _ Ec). cbn [find_nl]. unfold is_nl at 1.
  destruct ((c =? 10) || (c =? 13)) eqn:En.
  - replace (i + 0)%nat with i by lia. destruct (Nat.eqb_spec i 0) as [->|Hne].
    + rewrite loop_stop by reflexivity. constructor; auto. cbn. split; [exact Ld|]. split; [reflexivity|]. split; [cbn; lia|]. cbn. intros; lia.
    + rewrite aset_ok by lia. cbn [bind]. set (d := upd (lr_data (h_rx h)) i 0).
      assert (Eu : until_nul d = until_nul (firstn i (a_b a))).
      { unfold d. assert (Hs : upd (lr_data (h_rx h)) i 0 = firstn i (lr_data (h_rx h)) ++ 0 :: skipn (S i) (lr_data (h_rx h))) by (apply upd_splice; lia).
        rewrite Hs, until_nul_cut. f_equal. apply nth_error_ext. intros j. rewrite !nth_error_firstn. destruct (Nat.ltb_spec j i); auto. apply Hc; lia. }
      rewrite Eu. set (h1 := set_rx h (LR d (length (a_b a)))). set (b1 := upd (a_b a) i 0).
      assert (Q : host_rel h1 (a_set_b a b1)).
      { constructor; auto. cbn. unfold lr_ok, b1, d; cbn [lr_data lr_off]. rewrite !upd_length. split; [exact Ld|]. split; [reflexivity|]. split; [exact Lb|].
        intros j Hj. rewrite !nth_error_upd. rewrite (Hc j Hj), Ld. bdestr; auto; lia. }
      pose proof (on_line_ok now junk (until_nul (firstn i (a_b a))) h1 _ Q) as Ag.
      assert (Eb : a_line now junk (until_nul (firstn i (a_b a))) (a_set_b a b1) = (let* a' := a_line now junk (until_nul (firstn i (a_b a))) a in Ok (a_set_b a' b1))).
      { unfold a_line. destruct (has_prefix bld_cmd _); [reflexivity|]. destruct (is_comment _); [reflexivity|]. destruct (msg_parse pico junk _); reflexivity. }
      rewrite Eb in Ag. destruct (a_line now junk (until_nul (firstn i (a_b a))) a) as [a'|k] eqn:Ea; cbn [bind] in *.
      * destruct (on_line_received pico now junk (until_nul (firstn i (a_b a))) h1) as [h2|k] eqn:Eh; [|contradiction]. cbn [agree bind] in *.
        rewrite loop_stop by reflexivity. destruct Ag as [S1 S2 S3 S4 S5 S6 S7]. constructor; auto. cbn. split; [apply S4|]. split; [reflexivity|]. split; [cbn; lia|]. cbn. intros; lia.
      * destruct (on_line_received pico now junk (until_nul (firstn i (a_b a))) h1) as [h2|k'] eqn:Eh; [contradiction|]. cbn [agree bind] in *. exact Ag.
  - specialize (IH (S i) ltac:(lia) ltac:(lia)). destruct (find_nl (skipn (S i) (a_b a))) as [k|]; cbn [option_map]; [|exact IH].
    replace (i + S k)%nat with (S i + k)%nat by lia. exact IH.
Qed.

Lemma check_rx_line_ok now junk h a : host_rel h a -> agree host_rel (check_rx_line pico now junk h) (a_rxline now junk a).
Proof.
  intros R. unfold check_rx_line, a_rxline. assert (H4 := r_b _ _ R). destruct H4 as (Ld & Lo & Lb & Hc).
  unfold lr_empty. rewrite Lo. destruct (a_b a) as [|c t] eqn:Eb; [exact R|].
  cbn [length]. change (S (length t) =? 0)%nat with false. cbn iota.
  pose proof (rx_loop_ok now junk h a R 129 0 ltac:(lia) ltac:(rewrite Eb; cbn [length] in *; lia)) as X. rewrite Eb in X. cbn [skipn Nat.add] in X.
  destruct (find_nl (c :: t)) as [[|i]|]; exact X.
Qed.

Lemma msg_ok_updated now a m : msg_ok m -> msg_ok (a_updated now a m).
Proof.
  intros (Ht & Hs & Ld & Ll & Hb). unfold msg_ok, a_updated. cbn [m_time m_status m_data m_length].
  split; [unfold u64; apply Z.mod_pos_bound; reflexivity|]. split; [|auto]. destruct (a_err a); [|exact Hs].
  split; [apply Z.lor_nonneg; lia|]. apply Z.log2_lt_pow2 with (b := 32); [|].
  - assert (0 <= Z.lor (m_status m) 2) by (apply Z.lor_nonneg; lia). assert (Z.lor (m_status m) 2 <> 0) by (intros E; apply Z.lor_eq_0_iff in E; lia). lia.
  - rewrite Z.log2_lor by lia. apply Z.max_lub_lt; [|reflexivity]. destruct (Z.eq_dec (m_status m) 0) as [->|]; [reflexivity|]. apply Z.log2_lt_pow2; lia.
Qed.

(** ** One call *)
Lemma step_ok h a e : host_rel h a -> hop_ok e ->
  agree (fun x y => snd x = snd y /\ host_rel (fst x) (fst y)) (host_step h e) (a_step a e).
Proof.
  intros R He. destruct e as (now & [budget m|budget m|budget junk cs|budget cs|junk| |t|]); cbn [host_step a_step hop_ok snd] in *.
  - destruct (host_send_ok budget h a m R He) as (h' & -> & R'). cbn [bind]. destruct (a_send budget a m) as (a' & out). cbn [fst snd] in *. cbn. split; [f_equal; apply (r_err _ _ R')|exact R'].
  - unfold host_update_and_send. rewrite (r_err _ _ R).
    set (m' := MSG _ _ _ _). assert (Em : m' = a_updated now a m).
    { unfold m', a_updated, host_get_time. rewrite (r_time _ _ R). reflexivity. }
    rewrite Em. assert (R0 : host_rel (set_herr h false) (AH (a_time a) false (a_q a) (a_b a) (a_ms a) (a_boot a))) by (destruct R; constructor; auto).
    destruct (host_send_ok budget _ _ (a_updated now a m) R0 (msg_ok_updated now a m He)) as (h' & -> & R'). cbn [bind].
    destruct (a_send budget _ (a_updated now a m)) as (a' & out). cbn [fst snd] in *. cbn. split; [f_equal; apply (r_err _ _ R')|exact R'].
  - unfold host_check. destruct (check_tx_ok budget _ _ (r_q _ _ R)) as (f & -> & Hf). cbn [bind a_pump].
    assert (R1 : host_rel (set_tx h f) (fst (a_pump budget a))) by (destruct R; constructor; auto).
    destruct (check_rx_ok cs _ _ R1) as (h1 & -> & R2). cbn [bind].
    pose proof (check_rx_line_ok now junk _ _ R2) as X. cbn [a_pump fst] in X. unfold agree in X.
    destruct (check_rx_line pico now junk h1) as [h2|k], (a_rxline now junk _) as [a2|k']; try contradiction; cbn; auto.
  - destruct (check_tx_ok budget _ _ (r_q _ _ R)) as (f & -> & Hf). cbn [bind a_pump].
    assert (R1 : host_rel (set_tx h f) (fst (a_pump budget a))) by (destruct R; constructor; auto).
    destruct (check_rx_ok cs _ _ R1) as (h1 & -> & R2). cbn. auto.
  - unfold host_pop. assert (Em : ff_empty (h_msgs h) = match a_ms a with [] => true | _ => false end) by (unfold ff_empty; destruct (r_ms _ _ R) as (_ & _ & -> & _); destruct (a_ms a); reflexivity).
    rewrite Em. destruct (a_ms a) as [|m r] eqn:Es; [cbn; auto|].
    pose proof (r_ms _ _ R) as H5. rewrite Es in H5. destruct (ff_pop_ok 8 _ _ H5) as (f & -> & Hf). cbn. split; auto. destruct R; constructor; auto.
  - cbn. split; auto. unfold host_has_data, ff_empty. destruct (r_ms _ _ R) as (_ & _ & -> & _). destruct (a_ms a); reflexivity.
  - cbn. split; auto. destruct R; constructor; auto. cbn. apply s64_u64.
  - cbn. split; auto. unfold host_get_time. rewrite (r_time _ _ R). reflexivity.
Qed.

Lemma runs_agree l : forall h a, host_rel h a -> Forall hop_ok l ->
  agree (fun x y => snd x = snd y /\ host_rel (fst x) (fst y)) (mrun host_step h l) (mrun a_step a l).
Proof.
  induction l as [|e l IH]; intros h a R F; cbn [mrun].
  - cbn. auto.
  - inversion F as [|? ? F1 F2]; subst. pose proof (step_ok h a e R F1) as X. unfold agree in X.
    destruct (host_step h e) as [(h1 & o1)|k], (a_step a e) as [(a1 & o1')|k']; try contradiction; cbn [bind fst snd] in *; [|exact X].
    destruct X as (-> & R1). specialize (IH h1 a1 R1 F2). unfold agree in IH.
    destruct (mrun host_step h1 l) as [(h2 & o2)|k], (mrun a_step a1 l) as [(a2 & o2')|k']; try contradiction; cbn [bind fst snd agree] in *; [|exact IH].
    destruct IH as (-> & R2). auto.
Qed.
