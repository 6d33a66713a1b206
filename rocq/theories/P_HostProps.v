(** P_HostProps.v -- consequences of the refinement of HostUART (C54-C61). *)
From Verif Require Import Base S_Containers D_Containers P_Containers M_Fifo M_Message S_Message D_Message P_Message P_MessageParse P_MessageNum M_HostUart D_Host S_Host P_Host.

Lemma run_rel l h o : Forall hop_ok l -> host_run l = Ok (h, o) -> exists a, mrun a_step ah_new l = Ok (a, o) /\ host_rel h a.
Proof.
  intros F E. pose proof (runs_agree l _ _ new_rel F) as X. unfold host_run in E. rewrite E in X. unfold agree in X.
  destruct (mrun a_step ah_new l) as [(a & o')|k]; [|contradiction]. cbn in X. destruct X as (-> & R). eauto.
Qed.
Lemma drain_ok n : forall h a, host_rel h a -> (length (a_ms a) < n)%nat -> drain n h = a_ms a.
Proof.
  induction n as [|n IH]; intros h a R Hl; [lia|]. cbn [drain].
  pose proof (step_ok h a (0, OpHasData) R Logic.I) as X. cbn in X. destruct X as (X & _). injection X as ->.
  destruct (a_ms a) as [|m r] eqn:Es; [reflexivity|].
  pose proof (step_ok h a (0, OpPop []) R Logic.I) as X. cbn [host_step a_step] in X. rewrite Es in X.
  destruct (host_pop [] h) as [(h' & m')|k]; [|contradiction]. cbn in X. destruct X as (X & R'). injection X as ->. f_equal.
  rewrite (IH h' _ R'); cbn in *; [reflexivity|lia].
Qed.
Lemma pending_ok h a : host_rel h a -> pending h = a_ms a.
Proof. intros R. apply drain_ok; auto. pose proof (r_ms _ _ R) as (_ & _ & _ & H & _). lia. Qed.
Lemma received_ok h a : host_rel h a -> received h = a_b a.
Proof.
  intros R. destruct (r_b _ _ R) as (Ld & Lo & Lb & Hc). unfold received, lr_length. rewrite Lo. apply nth_error_ext. intros i. rewrite nth_error_firstn.
  destruct (Nat.ltb_spec i (length (a_b a))); [apply Hc; auto|]. symmetry. apply nth_error_None. lia.
Qed.
Definition aview (a : ahost) : host_view := VIEW (a_time a) (a_ms a) (a_boot a).
Lemma view_ok h a : host_rel h a -> view_of h = aview a.
Proof. intros R. unfold view_of, aview. rewrite (pending_ok _ _ R), (r_time _ _ R), (r_boot _ _ R). reflexivity. Qed.

(** ** Output *)
Definition piece_of (x : message * bool) (piece : list Z) : Prop :=
  exists t cut, formats (m_time (fst x)) (m_status (fst x)) (payload (fst x)) t /\ piece ++ cut = t ++ [13; 10] /\ (snd x = false -> cut = []).

Lemma text_formats m : msg_ok m -> formats (m_time m) (m_status m) (payload m) (text_of m) /\ (length (text_of m) <= 94)%nat.
Proof. intros H. destruct (c_str_text m (repeat 0 128) H (repeat_length _ _)) as (b & _ & _ & _ & X). exact X. Qed.

Lemma a_send_piece budget a m a' out : msg_ok m -> a_send budget a m = (a', out) -> (length (a_q a) <= 128)%nat ->
  exists piece, piece_of (m, a_err a') piece /\ out ++ a_q a' = a_q a ++ piece /\
    a_err a' = (a_err a || (128 - length (a_q a) <? length (text_of m) + 2)%nat) /\ (length (a_q a') <= 128)%nat.
Proof.
  intros Hm E Hq. set (room := (128 - length (a_q a))%nat) in *. exists (firstn room (text_of m ++ [13; 10])).
  unfold a_send in E. fold room in E. rewrite app_length in E. cbn [length] in E.
  assert (Pc : forall b, (b = false -> (room <? length (text_of m) + 2)%nat = false) -> piece_of (m, b) (firstn room (text_of m ++ [13; 10]))).
  { intros b Hb. exists (text_of m), (skipn room (text_of m ++ [13; 10])). split; [apply text_formats; auto|]. split; [apply firstn_skipn|]. cbn. intros ->.
    specialize (Hb eq_refl). apply Nat.ltb_ge in Hb. apply skipn_all2. rewrite app_length. cbn [length]. exact Hb. }
  destruct (Nat.leb_spec (length (text_of m)) room); unfold a_pump in E; cbn [a_q a_time a_err a_b a_ms a_boot] in E; injection E as <- <-; cbn [a_q a_err].
  - split; [apply Pc; intros Hb; apply orb_false_elim in Hb; apply Hb|]. split; [apply firstn_skipn|]. split; [reflexivity|].
    rewrite skipn_length, app_length, firstn_length. unfold room; lia.
  - split; [apply Pc; intros Hb; apply orb_false_elim in Hb; apply Hb|]. split; [reflexivity|]. split; [reflexivity|].
    rewrite app_length, firstn_length. unfold room; lia.
Qed.

Lemma a_rxline_q now junk a a' : a_rxline now junk a = Ok a' -> a_q a' = a_q a /\ a_err a' = a_err a.
Proof.
  unfold a_rxline. destruct (find_nl (a_b a)) as [[|i]|]; try (intros H; injection H as <-; auto; fail).
  unfold a_line. destruct (has_prefix bld_cmd _); [intros H; injection H as <-; auto|]. destruct (is_comment _); [intros H; injection H as <-; auto|].
  destruct (msg_parse pico junk _) as [m|k]; [|discriminate]. cbn. intros H; injection H as <-. auto.
Qed.

Lemma a_out_run l : forall a a' o, Forall hop_ok l -> (length (a_q a) <= 128)%nat -> mrun a_step a l = Ok (a', o) ->
  exists pieces, Forall2 piece_of (sends o) pieces /\ written o ++ a_q a' = a_q a ++ concat pieces /\ (length (a_q a') <= 128)%nat.
Proof.
  induction l as [|e l IH]; intros a a' o F Hq E; cbn [mrun] in E.
  - injection E as <- <-. exists []. split; [constructor|]. cbn. rewrite app_nil_r. auto.
  - inversion F as [|? ? F1 F2]; subst. destruct (a_step a e) as [(a1 & x)|k] eqn:E1; [|discriminate]. cbn [bind] in E.
    destruct (mrun a_step a1 l) as [(a2 & os)|k] eqn:E2; [|discriminate]. cbn [bind] in E. injection E as <- <-.
    assert (St : exists p1, Forall2 piece_of (sends [x]) p1 /\ written [x] ++ a_q a1 = a_q a ++ concat p1 /\ (length (a_q a1) <= 128)%nat).
    { destruct e as (now & [budget m|budget m|budget junk cs|budget cs|junk| |t|]); cbn [a_step hop_ok snd] in *.
      - destruct (a_send budget a m) as (b & out) eqn:Es. injection E1 as <- <-. destruct (a_send_piece _ _ _ _ _ F1 Es Hq) as (p & Hp & Ho & _ & Hl).
        exists [p]. split; [repeat constructor; exact Hp|]. cbn. rewrite !app_nil_r. auto.
      - destruct (a_send budget _ (a_updated now a m)) as (b & out) eqn:Es. injection E1 as <- <-. destruct (a_send_piece _ _ _ _ _ (msg_ok_updated now a m F1) Es Hq) as (p & Hp & Ho & _ & Hl).
        exists [p]. split; [repeat constructor; exact Hp|]. cbn. rewrite !app_nil_r. auto.
      - cbn [a_pump] in E1. destruct (a_rxline now junk _) as [b|k] eqn:Er; [|discriminate]. cbn [bind] in E1. injection E1 as <- <-. apply a_rxline_q in Er as (Er & _). cbn in Er.
        exists []. split; [constructor|]. rewrite Er. cbn. rewrite !app_nil_r, firstn_skipn, skipn_length. split; [auto|lia].
      - cbn [a_pump] in E1. injection E1 as <- <-. exists []. split; [constructor|]. cbn. rewrite !app_nil_r, firstn_skipn, skipn_length. split; [auto|lia].
      - destruct (a_ms a); injection E1 as <- <-; exists []; (split; [constructor|]); cbn; rewrite app_nil_r; auto.
      - injection E1 as <- <-; exists []; (split; [constructor|]); cbn; rewrite app_nil_r; auto.
      - injection E1 as <- <-; exists []; (split; [constructor|]); cbn; rewrite app_nil_r; auto.
      - injection E1 as <- <-; exists []; (split; [constructor|]); cbn; rewrite app_nil_r; auto. }
    destruct St as (p1 & P1 & W1 & Q1). destruct (IH _ _ _ F2 Q1 E2) as (p2 & P2 & W2 & Q2). exists (p1 ++ p2).
    split; [replace (sends (x :: os)) with (sends [x] ++ sends os) by (destruct x; reflexivity); apply Forall2_app; auto|].
    split; [|exact Q2]. replace (written (x :: os)) with (written [x] ++ written os) by (destruct x; cbn; rewrite ?app_nil_r; reflexivity).
    rewrite concat_app, <- app_assoc, W2, app_assoc, W1, <- app_assoc. reflexivity.
Qed.

Lemma out_pieces l h o : Forall hop_ok l -> host_run l = Ok (h, o) ->
  exists pieces rest, Forall2 piece_of (sends o) pieces /\ written o ++ rest = concat pieces /\ length rest = ff_length (h_tx h).
Proof.
  intros F E. destruct (run_rel l h o F E) as (a & Ea & R). destruct (a_out_run l ah_new _ _ F (Nat.le_0_l _) Ea) as (p & P & W & _).
  exists p, (a_q a). split; [exact P|]. split; [exact W|]. unfold ff_length. destruct (r_q _ _ R) as (_ & _ & -> & _). reflexivity.
Qed.
Lemma out_whole l h o : Forall hop_ok l -> host_run l = Ok (h, o) -> no_overflow o ->
  exists texts rest, Forall2 (fun m t => formats (m_time m) (m_status m) (payload m) t) (sent o) texts /\
    written o ++ rest = flat_map (fun t => t ++ [13; 10]) texts /\ length rest = ff_length (h_tx h).
Proof.
  intros F E N. destruct (out_pieces l h o F E) as (ps & rest & P & W & L).
  assert (X : forall o ps, no_overflow o -> Forall2 piece_of (sends o) ps -> exists texts, Forall2 (fun m t => formats (m_time m) (m_status m) (payload m) t) (sent o) texts /\ concat ps = flat_map (fun t => t ++ [13; 10]) texts).
  { clear. induction o as [|x o IH]; intros ps N P.
    - inversion P; subst. exists []. split; [constructor|reflexivity].
    - inversion N as [|? ? N1 N2]; subst. destruct x; cbn in P; try (apply IH; auto; fail).
      inversion P as [|? ? ? ? P1 P2]; subst. destruct (IH _ N2 P2) as (ts & T & C). destruct P1 as (t & cut & Ft & Ec & Hc). rewrite (Hc eq_refl), app_nil_r in Ec. subst.
      exists (t :: ts). split; [constructor; auto|]. cbn. rewrite C. reflexivity. }
  destruct (X o ps N P) as (ts & T & C). exists ts, rest. split; [exact T|]. split; [congruence|exact L].
Qed.

Lemma run_snoc_host l e h' o' : host_run (l ++ [e]) = Ok (h', o') -> exists h o x, host_run l = Ok (h, o) /\ host_step h e = Ok (h', x) /\ o' = o ++ [x].
Proof.
  unfold host_run. rewrite mrun_app. destruct (mrun host_step host_new l) as [(h & o)|k]; [|discriminate]. cbn [bind mrun].
  destruct (host_step h e) as [(h1 & x)|k] eqn:E; [|discriminate]. cbn [bind]. intros H; injection H as <- <-. exists h, o, x. auto.
Qed.

(** The error flag and the reported status. *)
Lemma send_flag l h o budget m now h' m' c e : Forall hop_ok l -> msg_ok m -> host_run l = Ok (h, o) ->
  (host_step h (now, OpSend budget m) = Ok (h', OSent m' c e) -> m' = m /\
     exists t, formats (m_time m') (m_status m') (payload m') t /\ (e = true <-> h_error h = true \/ (128 - ff_length (h_tx h) < length t + 2)%nat)) /\
  (host_step h (now, OpReport budget m) = Ok (h', OSent m' c e) ->
     m_status m' = (if h_error h then Z.lor (m_status m) STATUS_ERR_OVERFLOW else m_status m) /\ m_time m' = host_get_time now h /\ m_data m' = m_data m /\ m_length m' = m_length m /\
     exists t, formats (m_time m') (m_status m') (payload m') t /\ (e = true <-> (128 - ff_length (h_tx h) < length t + 2)%nat)).
Proof.
  intros F Hm E. destruct (run_rel l h o F E) as (a & Ea & R). destruct (a_out_run l ah_new _ _ F (Nat.le_0_l _) Ea) as (_ & _ & _ & Hq).
  assert (Eq : ff_length (h_tx h) = length (a_q a)) by (unfold ff_length; destruct (r_q _ _ R) as (_ & _ & -> & _); reflexivity). rewrite Eq, (r_err _ _ R).
  split; intros Es.
  - pose proof (step_ok h a (now, OpSend budget m) R Hm) as X. rewrite Es in X. unfold agree in X. cbn [a_step] in X.
    destruct (a_send budget a m) as (a' & out) eqn:Ed. cbn in X. destruct X as (X & _). injection X as -> -> ->.
    destruct (a_send_piece _ _ _ _ _ Hm Ed Hq) as (p & _ & _ & Ee & _). split; [reflexivity|]. exists (text_of m). split; [apply text_formats; auto|].
    rewrite Ee, orb_true_iff, Nat.ltb_lt. tauto.
  - pose proof (step_ok h a (now, OpReport budget m) R Hm) as X. rewrite Es in X. unfold agree in X. cbn [a_step] in X.
    destruct (a_send budget _ (a_updated now a m)) as (a' & out) eqn:Ed. cbn in X. destruct X as (X & _). injection X as -> -> ->.
    destruct (a_send_piece _ _ _ _ _ (msg_ok_updated now a m Hm) Ed Hq) as (p & _ & _ & Ee & _).
    split; [reflexivity|]. split; [unfold host_get_time; rewrite (r_time _ _ R); reflexivity|]. split; [reflexivity|]. split; [reflexivity|].
    exists (text_of (a_updated now a m)). split; [apply text_formats, msg_ok_updated; auto|]. rewrite Ee. cbn [a_err a_q orb]. apply Nat.ltb_lt.
Qed.

Definition not_report (e : Z * host_op) : Prop := match snd e with OpReport _ _ => False | _ => True end.
Lemma flag_kept l : forall a a' o, Forall not_report l -> a_err a = true -> mrun a_step a l = Ok (a', o) -> a_err a' = true.
Proof.
  induction l as [|e l IH]; intros a a' o F H E; cbn [mrun] in E.
  - injection E as <- <-. auto.
  - inversion F as [|? ? F1 F2]; subst. destruct (a_step a e) as [(a1 & x)|k] eqn:E1; [|discriminate]. cbn [bind] in E.
    destruct (mrun a_step a1 l) as [(a2 & os)|k] eqn:E2; [|discriminate]. cbn [bind] in E. injection E as <- <-. eapply IH; [exact F2| |exact E2].
    destruct e as (now & [budget m|budget m|budget junk cs|budget cs|junk| |t|]); cbn [a_step snd not_report] in *; try contradiction.
    + unfold a_send, a_pump in E1. destruct (_ <=? _)%nat; injection E1 as <- <-; cbn; rewrite H; reflexivity.
    + cbn [a_pump] in E1. destruct (a_rxline now junk _) as [b|k] eqn:Er; [|discriminate]. cbn [bind] in E1. injection E1 as <- <-. apply a_rxline_q in Er as (_ & Er). rewrite Er. exact H.
    + injection E1 as <- <-. exact H.
    + destruct (a_ms a); injection E1 as <- <-; exact H.
    + injection E1 as <- <-. exact H.
    + injection E1 as <- <-. exact H.
    + injection E1 as <- <-. exact H.
Qed.

Lemma overflow_reported l1 e1 l2 now budget m h o m1 c1 :
  Forall hop_ok (l1 ++ [e1] ++ l2 ++ [(now, OpReport budget m)]) -> Forall not_report l2 ->
  host_run (l1 ++ [e1] ++ l2 ++ [(now, OpReport budget m)]) = Ok (h, o) ->
  nth_error o (length l1) = Some (OSent m1 c1 true) ->
  exists m' c e o', o = o' ++ [OSent m' c e] /\ m_status m' = Z.lor (m_status m) STATUS_ERR_OVERFLOW.
Proof.
  intros F N E Hn. destruct (run_rel _ _ _ F E) as (a & Ea & _).
  rewrite mrun_app in Ea. destruct (mrun a_step ah_new l1) as [(a1 & o1)|k] eqn:E1; [|discriminate]. cbn [bind] in Ea.
  rewrite mrun_app in Ea. cbn [mrun] in Ea. destruct (a_step a1 e1) as [(a2 & x)|k] eqn:E2; [|discriminate]. cbn [bind] in Ea.
  rewrite mrun_app in Ea. destruct (mrun a_step a2 l2) as [(a3 & o3)|k] eqn:E3; [|discriminate]. cbn [bind mrun] in Ea.
  assert (Hx : x = OSent m1 c1 true).
  { destruct (a_step a3 (now, OpReport budget m)) as [(a4 & y)|k]; [|discriminate]. cbn [bind] in Ea. injection Ea as <- <-.
    apply mrun_length in E1. rewrite <- E1, nth_error_app2, Nat.sub_diag in Hn by lia. cbn in Hn. injection Hn as ->. reflexivity. }
  assert (H2 : a_err a2 = true).
  { subst x. destruct e1 as (now1 & [b m0|b m0|b junk cs|b cs|junk| |t|]); cbn [a_step] in E2.
    - destruct (a_send b a1 m0) as (aa & out). injection E2 as <- _ _ Ee. exact Ee.
    - destruct (a_send b _ _) as (aa & out). injection E2 as <- _ _ Ee. exact Ee.
    - cbn [a_pump] in E2. destruct (a_rxline _ _ _); discriminate.
    - discriminate.
    - destruct (a_ms a1); discriminate.
    - discriminate.
    - discriminate.
    - discriminate. }
  pose proof (flag_kept l2 _ _ _ N H2 E3) as H3. cbn [a_step] in Ea.
  destruct (a_send budget _ (a_updated now a3 m)) as (a4 & out). cbn [bind] in Ea. injection Ea as <- <-.
  eexists _, _, _, (o1 ++ [x] ++ o3). split; [rewrite <- !app_assoc; reflexivity|]. cbn. rewrite H3. reflexivity.
Qed.

(** ** Input *)
Lemma prefix_iff p : forall line, has_prefix p line = true <-> firstn (length p) line = p.
Proof.
  induction p as [|x p IH]; intros line; cbn [has_prefix length firstn]; [tauto|].
  destruct line as [|y line]; [split; discriminate|]. rewrite andb_true_iff, Z.eqb_eq, IH. split.
  - intros (-> & ->). reflexivity.
  - intros H; injection H as -> ->. auto.
Qed.
Lemma prefix_boot line : has_prefix bld_cmd line = boot_command line.
Proof.
  unfold boot_command. pose proof (prefix_iff bld_cmd line) as H. change (length bld_cmd) with 7%nat in H. unfold bld_cmd at 2 in H.
  destruct (list_eq_dec Z.eq_dec (firstn 7 line) _) as [E|E]; [apply H; exact E|].
  destruct (has_prefix bld_cmd line); [|reflexivity]. exfalso. apply E, H. reflexivity.
Qed.
Lemma a_line_effect now junk line a : (let* a' := a_line now junk line a in Ok (aview a')) = line_effect (aview a) (now, junk, line) /\
  (forall a', a_line now junk line a = Ok a' -> a_b a' = a_b a /\ a_err a' = a_err a).
Proof.
  unfold a_line, line_effect, aview. rewrite prefix_boot. destruct (boot_command line); [split; [reflexivity|intros ? H; injection H as <-; auto]|].
  destruct (is_comment line); [split; [reflexivity|intros ? H; injection H as <-; auto]|]. destruct (msg_parse pico junk line); [split; [reflexivity|intros ? H; injection H as <-; auto]|split; [reflexivity|discriminate]].
Qed.

Lemma lines_first l : forall acc, (exists i, find_nl l = Some i /\ exists r, lines_of acc l = (acc ++ firstn i l) :: r) \/ (find_nl l = None /\ lines_of acc l = []).
Proof.
  induction l as [|c l IH]; intros acc; cbn [find_nl lines_of]; auto.
  destruct (is_nl c).
  - left. exists 0%nat. split; auto. cbn. rewrite app_nil_r. eauto.
  - destruct (IH (acc ++ [c])) as [(i & -> & r & ->)|(-> & ->)]; [left|right; auto]. exists (S i). split; auto. cbn. rewrite <- app_assoc. eauto.
Qed.

(** Exactly what a Check does with the characters received: the first line counts, the rest is dropped. *)
Lemma rxline_first now junk a : agree (fun a' v => aview a' = v /\ a_b a' = (match first_line (a_b a) with None => a_b a | Some _ => [] end))
  (a_rxline now junk a) (match first_line (a_b a) with None => Ok (aview a) | Some line => line_effect (aview a) (now, junk, until_nul line) end).
Proof.
  unfold a_rxline, first_line. destruct (lines_first (a_b a) []) as [(i & -> & r & ->)|(-> & ->)]; [|cbn; auto]. cbn [app].
  destruct i as [|i]; [cbn; auto|]. destruct (a_line_effect now junk (until_nul (firstn (S i) (a_b a))) a) as (<- & _).
  destruct (a_line now junk (until_nul (firstn (S i) (a_b a))) a) as [a'|k]; cbn; auto.
Qed.

Lemma check_first l h o now budget junk cs : Forall hop_ok l -> hop_ok (now, OpCheck budget junk cs) -> host_run l = Ok (h, o) ->
  agree (fun x v => view_of (fst x) = v /\ received (fst x) = (match first_line (firstn 128 (received h ++ cs)) with None => firstn 128 (received h ++ cs) | Some _ => [] end))
    (host_step h (now, OpCheck budget junk cs))
    (match first_line (firstn 128 (received h ++ cs)) with None => Ok (view_of h) | Some line => line_effect (view_of h) (now, junk, until_nul line) end).
Proof.
  intros F He E. destruct (run_rel l h o F E) as (a & Ea & R). rewrite (received_ok _ _ R), (view_ok _ _ R).
  pose proof (step_ok h a _ R He) as X. cbn [a_step a_pump] in X.
  pose proof (rxline_first now junk (a_recv cs (fst (a_pump budget a)))) as Y. cbn [a_pump fst] in Y. cbn [a_recv a_b] in Y.
  set (b1 := firstn 128 (a_b a ++ cs)) in *.
  change (aview (a_recv cs (AH (a_time a) (a_err a) (skipn budget (a_q a)) (a_b a) (a_ms a) (a_boot a)))) with (aview a) in Y.
  unfold agree in *. destruct (a_rxline now junk _) as [a2|k]; cbn [bind] in X.
  - destruct (host_step h (now, OpCheck budget junk cs)) as [(h2 & x)|k]; [|contradiction]. cbn in X. destruct X as (_ & R2). cbn [fst].
    rewrite (view_ok _ _ R2), (received_ok _ _ R2). exact Y.
  - destruct (host_step h (now, OpCheck budget junk cs)) as [(h2 & x)|k0]; [contradiction|]. subst k0.
    destruct (first_line b1) as [line|]; exact Y.
Qed.

(** A full buffer without line end is for ever. *)
Lemma dead_run l : forall a a' o, a_b a = firstn 128 (a_b a) -> length (a_b a) = 128%nat -> find_nl (a_b a) = None -> a_ms a = [] -> mrun a_step a l = Ok (a', o) ->
  Forall (fun x => match x with OHas b => b = false | OPopped m => m_length m = 0%nat | _ => True end) o /\ a_ms a' = [] /\ a_boot a' = a_boot a.
Proof.
  induction l as [|e l IH]; intros a a' o Hf Hl Hn Hm E; cbn [mrun] in E.
  - injection E as <- <-. split; [constructor|auto].
  - destruct (a_step a e) as [(a1 & x)|k] eqn:E1; [|discriminate]. cbn [bind] in E.
    destruct (mrun a_step a1 l) as [(a2 & os)|k] eqn:E2; [|discriminate]. cbn [bind] in E. injection E as <- <-.
    assert (St : a_b a1 = a_b a /\ a_ms a1 = [] /\ a_boot a1 = a_boot a /\ match x with OHas b => b = false | OPopped m => m_length m = 0%nat | _ => True end).
    { assert (Hr : forall cs, firstn 128 (a_b a ++ cs) = a_b a) by (intros cs; rewrite firstn_app, Hl, Nat.sub_diag; cbn [firstn]; rewrite app_nil_r; symmetry; exact Hf).
      destruct e as (now & [budget m|budget m|budget junk cs|budget cs|junk| |t|]); cbn [a_step] in E1.
      - unfold a_send, a_pump in E1. destruct (_ <=? _)%nat; injection E1 as <- <-; cbn; auto.
      - unfold a_send, a_pump in E1. destruct (_ <=? _)%nat; injection E1 as <- <-; cbn; auto.
      - cbn [a_pump] in E1. unfold a_rxline, a_recv in E1. cbn [a_b] in E1. rewrite Hr, Hn in E1. cbn [bind] in E1. injection E1 as <- <-. cbn. auto.
      - cbn [a_pump] in E1. unfold a_recv in E1. cbn [a_b] in E1. rewrite Hr in E1. injection E1 as <- <-. cbn. auto.
      - rewrite Hm in E1. injection E1 as <- <-. auto.
      - rewrite Hm in E1. injection E1 as <- <-. auto.
      - injection E1 as <- <-. cbn. auto.
      - injection E1 as <- <-. auto. }
    destruct St as (S1 & S2 & S3 & S4). destruct (IH a1 a2 os) as (I1 & I2 & I3); try (rewrite ?S1; auto; fail); auto.
    split; [constructor; auto|]. split; [auto|congruence].
Qed.

Lemma find_nl_none l : no_nl l -> find_nl l = None.
Proof. induction 1 as [|c l Hc _ IH]; cbn; auto. rewrite Hc, IH. reflexivity. Qed.
Lemma find_nl_end l c : no_nl l -> is_nl c = true -> find_nl (l ++ [c]) = Some (length l).
Proof. intros H Hc. induction H as [|x l Hx _ IH]; cbn; [rewrite Hc; auto|]. rewrite Hx, IH. reflexivity. Qed.

Lemma dead now budget junk cs l h o : Forall hop_ok ((now, OpCheck budget junk cs) :: l) -> (128 <= length cs)%nat -> no_nl (firstn 128 cs) ->
  host_run ((now, OpCheck budget junk cs) :: l) = Ok (h, o) ->
  Forall (fun x => match x with OHas b => b = false | OPopped m => m_length m = 0%nat | _ => True end) o /\ pending h = [] /\ h_boot h = false.
Proof.
  intros F Hl Hn E. destruct (run_rel _ _ _ F E) as (a & Ea & R). rewrite (pending_ok _ _ R), (r_boot _ _ R). cbn [mrun a_step a_pump] in Ea.
  unfold a_rxline, a_recv in Ea. cbn [a_b ah_new app] in Ea. rewrite (find_nl_none _ Hn) in Ea. cbn [bind] in Ea.
  destruct (mrun a_step _ l) as [(a2 & os)|k] eqn:E2; [|discriminate]. cbn [bind] in Ea. injection Ea as <- <-.
  apply dead_run in E2; cbn [a_b a_ms a_boot]; auto.
  - destruct E2 as (I1 & I2 & I3). split; [constructor; auto|]. split; [auto|exact I3].
  - rewrite firstn_firstn. reflexivity.
  - rewrite firstn_length. lia.
  - apply find_nl_none; auto.
Qed.

(** ** Paced input *)
Lemma ends_split l : ends_nl l = true -> exists c, l = removelast l ++ [c] /\ is_nl c = true.
Proof.
  unfold ends_nl. destruct l as [|c l] using rev_ind; [discriminate|]. rewrite rev_app_distr. cbn. intros H. exists c. rewrite removelast_last. auto.
Qed.
Lemma ends_not l : no_nl (removelast l) -> ends_nl l = false -> no_nl l.
Proof.
  unfold ends_nl. destruct l as [|c l] using rev_ind; [constructor|]. rewrite rev_app_distr, removelast_last. cbn. intros H E. apply Forall_app. repeat constructor; auto.
Qed.
Lemma until_nul_all l : Forall is_char l -> until_nul l = l.
Proof. induction 1 as [|c l Hc _ IH]; cbn; auto. unfold is_char in Hc. destruct (Z.eqb_spec c 0); [lia|]. f_equal. auto. Qed.

(** One step of a paced history. *)
Lemma paced_step now op acc a : a_b a = acc -> Forall is_char acc ->
  let total := acc ++ delivered op in
  no_nl (removelast total) -> (length total <= 128)%nat -> Forall is_char (delivered op) ->
  match op with
  | OpPop _ => True | OpSetTime _ => True
  | OpCheck _ junk _ =>
      if ends_nl total then agree (fun x v => aview (fst x) = v /\ a_b (fst x) = []) (a_step a (now, op)) (line_effect (aview a) (now, junk, removelast total))
      else agree (fun x v => aview (fst x) = v /\ a_b (fst x) = total) (a_step a (now, op)) (Ok (aview a))
  | _ => agree (fun x v => aview (fst x) = v /\ a_b (fst x) = total) (a_step a (now, op)) (Ok (aview a))
  end.
Proof.
  intros Hb Hc total Hn Hl Hd. destruct op as [budget m|budget m|budget junk cs|budget cs|junk| |t|]; cbn [delivered] in *; auto; unfold total in *; rewrite ?app_nil_r in *.
  - cbn [a_step]. unfold a_send, a_pump. destruct (_ <=? _)%nat; cbn; auto.
  - cbn [a_step]. unfold a_send, a_pump. destruct (_ <=? _)%nat; cbn; auto.
  - cbn [a_step a_pump]. unfold a_rxline, a_recv. cbn [a_b]. rewrite Hb. rewrite firstn_all2 by lia. 
    destruct (ends_nl (acc ++ cs)) eqn:En.
    + destruct (ends_split _ En) as (c & Ec & Hnl). pose proof (find_nl_end (removelast (acc ++ cs)) c Hn Hnl) as Fe. rewrite <- Ec in Fe. rewrite Fe.
      assert (Hch : Forall is_char (removelast (acc ++ cs))) by (assert (H : Forall is_char (acc ++ cs)) by (apply Forall_app; auto); rewrite Ec in H; apply Forall_app in H; apply H).
      destruct (length (removelast (acc ++ cs))) as [|i] eqn:Ei.
      * destruct (removelast (acc ++ cs)); [|discriminate]. cbn. auto.
      * rewrite <- Ei. assert (Ef : firstn (length (removelast (acc ++ cs))) (acc ++ cs) = removelast (acc ++ cs)) by (rewrite Ec at 2; rewrite firstn_app, firstn_all, Nat.sub_diag; cbn; apply app_nil_r).
        rewrite Ef, (until_nul_all _ Hch). set (A1 := AH _ _ _ _ _ _). destruct (a_line_effect now junk (removelast (acc ++ cs)) A1) as (El & _).
        change (aview A1) with (aview a) in El. rewrite <- El. destruct (a_line now junk (removelast (acc ++ cs)) A1) as [a'|k]; cbn; auto.
    + rewrite (find_nl_none _ (ends_not _ Hn En)). cbn. auto.
  - cbn [a_step a_pump]. unfold a_recv. cbn [a_b]. rewrite Hb. rewrite firstn_all2 by lia. cbn. auto.
  - cbn. auto.
  - cbn. auto.
Qed.

Definition plain_op (e : Z * host_op) : Prop := match snd e with OpPop _ => False | OpSetTime _ => False | _ => True end.
Lemma paced_run l : forall acc a, a_b a = acc -> Forall is_char acc -> paced acc l -> Forall plain_op l ->
  agree (fun x v => aview (fst x) = v) (mrun a_step a l) (mfold line_effect (aview a) (paced_lines acc l)).
Proof.
  induction l as [|(now & op) l IH]; intros acc a Hb Hc P Pl; cbn [mrun paced_lines mfold].
  - cbn. reflexivity.
  - cbn [paced] in P. destruct P as (P1 & P2 & _ & P3 & P4). inversion Pl as [|? ? Pl1 Pl2]; subst.
    assert (Hct : Forall is_char (a_b a ++ delivered op)) by (apply Forall_app; auto).
    pose proof (paced_step now op (a_b a) a eq_refl Hc P1 P2 P3) as St.
    assert (Go : forall b1 rest, (exists x v, a_step a (now, op) = Ok x /\ aview (fst x) = v /\ a_b (fst x) = b1 /\ Forall is_char b1 /\ paced b1 l /\ rest = mfold line_effect v (paced_lines b1 l)) ->
      agree (fun x v => aview (fst x) = v) (let* (s1, o) := a_step a (now, op) in let* (s2, os) := mrun a_step s1 l in Ok (s2, o :: os)) rest).
    { intros b1 rest ((a1 & x) & v & -> & Hv & Hb1 & Hcb & Pb & ->). cbn [bind fst] in *. specialize (IH b1 a1 Hb1 Hcb Pb Pl2). rewrite Hv in IH.
      unfold agree in *. destruct (mrun a_step a1 l) as [(a2 & os)|k]; cbn [bind fst] in *; exact IH. }
    unfold agree in St.
    assert (Go2 : match a_step a (now, op) with Ok x => aview (fst x) = aview a /\ a_b (fst x) = a_b a ++ delivered op | UB _ => False end ->
      paced (a_b a ++ delivered op) l ->
      agree (fun x v => aview (fst x) = v) (let* (s1, o) := a_step a (now, op) in let* (s2, os) := mrun a_step s1 l in Ok (s2, o :: os))
        (mfold line_effect (aview a) (paced_lines (a_b a ++ delivered op) l))).
    { intros Hs Hp. apply (Go (a_b a ++ delivered op)). destruct (a_step a (now, op)) as [x|k]; [|contradiction]. destruct Hs as (Hs1 & Hs2).
      exists x, (aview a). split; [reflexivity|]. split; [exact Hs1|]. split; [exact Hs2|]. split; [exact Hct|]. split; [exact Hp|reflexivity]. }
    destruct op as [budget m|budget m|budget junk cs|budget cs|junk| |t|]; cbn [plain_op snd] in Pl1; try contradiction;
      try (apply Go2; [exact St|exact P4]).
    destruct (ends_nl (a_b a ++ delivered (OpCheck budget junk cs))) eqn:En.
    + cbn [mfold]. destruct (line_effect (aview a) (now, junk, removelast (a_b a ++ delivered (OpCheck budget junk cs)))) as [v|k] eqn:Ev; cbn [bind].
      * apply (Go []). destruct (a_step a _) as [x|k]; [|contradiction]. destruct St. exists x, v. auto 8.
      * destruct (a_step a _) as [x|k']; [contradiction|]. cbn. congruence.
    + apply (Go (a_b a ++ delivered (OpCheck budget junk cs))). destruct (a_step a _) as [x|k]; [|contradiction]. destruct St. exists x, (aview a). auto 8.
Qed.

Lemma lines_app_nonl x : no_nl x -> forall acc y, lines_of acc (x ++ y) = lines_of (acc ++ x) y.
Proof. induction 1 as [|c x Hc _ IH]; intros acc y; cbn; [rewrite app_nil_r; auto|]. rewrite Hc, IH, <- app_assoc. reflexivity. Qed.
Lemma paced_typed l : forall acc, no_nl (removelast acc) -> paced acc l ->
  exists tail, lines_of [] (acc ++ typed l) = map snd (paced_lines acc l) ++ tail /\ (length tail <= 1)%nat.
Proof.
  induction l as [|(now & op) l IH]; intros acc Hn P.
  - cbn [typed flat_map paced_lines map app]. rewrite app_nil_r. exists (lines_of [] acc). split; auto.
    destruct (ends_nl acc) eqn:En.
    + destruct (ends_split _ En) as (c & Ec & Hc). rewrite Ec, (lines_app_nonl _ Hn). cbn. rewrite Hc. cbn. lia.
    + pose proof (lines_app_nonl _ (ends_not _ Hn En) [] []) as X. rewrite app_nil_r in X. rewrite X. cbn. lia.
  - cbn [paced] in P. destruct P as (P1 & P2 & _ & P3 & P4).
    change (typed ((now, op) :: l)) with (delivered op ++ typed l). rewrite app_assoc.
    cbn [paced_lines]. set (total := acc ++ delivered op) in *.
    assert (Dn : paced total l -> exists tail, lines_of [] (total ++ typed l) = map snd (paced_lines total l) ++ tail /\ (length tail <= 1)%nat) by (intros; apply IH; auto).
    destruct op as [budget m|budget m|budget junk cs|budget cs|junk| |t|]; auto.
    destruct (ends_nl total) eqn:En; [|auto].
    destruct (ends_split _ En) as (c & Ec & Hc). destruct (IH [] ltac:(constructor) P4) as (tail & Et & Lt). exists tail. split; auto.
    rewrite Ec at 1. rewrite <- app_assoc, (lines_app_nonl _ P1). cbn [app lines_of]. rewrite Hc. cbn [map snd app]. f_equal. exact Et.
Qed.

Lemma paced_exact l : Forall hop_ok l -> Forall plain_op l -> paced [] l ->
  agree (fun x v => view_of (fst x) = v) (host_run l) (mfold line_effect (VIEW 0 [] false) (paced_lines [] l)) /\
  exists tail, lines_of [] (typed l) = map snd (paced_lines [] l) ++ tail /\ (length tail <= 1)%nat.
Proof.
  intros F Pl P. split; [|apply (paced_typed l []); auto; constructor].
  pose proof (paced_run l [] ah_new eq_refl (Forall_nil _) P Pl) as X. pose proof (runs_agree l _ _ new_rel F) as Y. fold (host_run l) in Y.
  change (aview ah_new) with (VIEW 0 [] false) in X. unfold agree in *.
  destruct (host_run l) as [(h & o)|k], (mrun a_step ah_new l) as [(a & o')|k']; try contradiction; cbn [fst snd] in *.
  - destruct Y as (-> & R). rewrite (view_ok _ _ R). exact X.
  - subst k'. exact X.
Qed.

(** ** The queue of host messages *)
Definition line_msgs (e : Z * list Z * list Z) : list message := match line_message (snd (fst e)) (snd e) with Some m => [m] | None => [] end.
Lemma effect_msgs v now junk line v' : line_effect v (now, junk, line) = Ok v' ->
  (length (v_msgs v) + length (line_msgs (now, junk, line)) <= 8)%nat -> v_msgs v' = v_msgs v ++ line_msgs (now, junk, line) /\ Forall (fun m => (0 < m_length m)%nat) (line_msgs (now, junk, line)).
Proof.
  unfold line_effect, line_msgs, line_message. cbn [fst snd]. destruct (boot_command line); cbn [orb].
  { intros H _; injection H as <-. cbn. rewrite app_nil_r. auto. }
  destruct (is_comment line); [intros H _; injection H as <-; cbn; rewrite app_nil_r; auto|].
  destruct (msg_parse pico junk line) as [m|k]; [|discriminate]. cbn [bind]. intros H Hl; injection H as <-. cbn [v_msgs].
  destruct (Nat.ltb_spec 0 (m_length m)) as [Hm|Hm]; cbn [andb] in *; [|rewrite app_nil_r; auto].
  cbn [length] in Hl. destruct (Nat.ltb_spec (length (v_msgs v)) 8); [|lia]. auto.
Qed.

Lemma queue_run l : forall acc a a' o, a_b a = acc -> Forall is_char acc -> paced acc l -> Forall (fun m => (0 < m_length m)%nat) (a_ms a) ->
  (forall l1 l2 a1 o1, l = l1 ++ l2 -> mrun a_step a l1 = Ok (a1, o1) -> (length (a_ms a) + length (messages (paced_lines acc l1)) <= 8 + length (popped o1))%nat) ->
  mrun a_step a l = Ok (a', o) -> popped o ++ a_ms a' = a_ms a ++ messages (paced_lines acc l).
Proof.
  induction l as [|(now & op) l IH]; intros acc a a' o Hb Hc P Hm Cap E; cbn [mrun] in E.
  - injection E as <- <-. cbn. rewrite app_nil_r. reflexivity.
  - cbn [paced] in P. destruct P as (P1 & P2 & _ & P3 & P4).
    destruct (a_step a (now, op)) as [(a1 & x)|k] eqn:E1; [|discriminate]. cbn [bind] in E.
    destruct (mrun a_step a1 l) as [(a2 & os)|k] eqn:E2; [|discriminate]. cbn [bind] in E. injection E as <- <-.
    assert (Hct : Forall is_char (acc ++ delivered op)) by (apply Forall_app; auto).
    set (total := acc ++ delivered op) in *.
    set (acc1 := match op with OpCheck _ _ _ => if ends_nl total then [] else total | _ => total end) in *.
    set (new := match op with OpCheck _ junk _ => if ends_nl total then line_msgs (now, junk, removelast total) else [] | _ => [] end).
    assert (Epl : forall r, messages (paced_lines acc ((now, op) :: r)) = new ++ messages (paced_lines acc1 r)).
    { intros r. cbn [paced_lines]. fold total. unfold acc1, new. destruct op; try reflexivity. destruct (ends_nl total); reflexivity. }
    assert (Hc1 : Forall is_char acc1) by (unfold acc1; destruct op; auto; destruct (ends_nl total); auto).
    assert (Cap1 : (length (a_ms a) + length new <= 8 + length (popped [x]))%nat).
    { specialize (Cap [(now, op)] l a1 [x] eq_refl). rewrite Epl in Cap. cbn [paced_lines messages flat_map] in Cap. rewrite app_nil_r in Cap. apply Cap.
      cbn [mrun]. rewrite E1. reflexivity. }
    assert (St : a_b a1 = acc1 /\ popped [x] ++ a_ms a1 = a_ms a ++ new /\ Forall (fun m => (0 < m_length m)%nat) (a_ms a1)).
    { pose proof (paced_step now op acc a Hb Hc P1 P2 P3) as Sp. fold total in Sp. cbn zeta in Sp. unfold agree in Sp.
      destruct op as [budget m|budget m|budget junk cs|budget cs|junk| |t|].
      - rewrite E1 in Sp. cbn [fst] in Sp. destruct Sp as (S1 & S2). injection S1 as S0 S1 S3. cbn [a_step] in E1. destruct (a_send budget a m) as (aa & out). injection E1 as <- <-.
        unfold new, acc1. rewrite S1. cbn. rewrite app_nil_r. auto.
      - rewrite E1 in Sp. cbn [fst] in Sp. destruct Sp as (S1 & S2). injection S1 as S0 S1 S3. cbn [a_step] in E1. destruct (a_send budget _ _) as (aa & out). injection E1 as <- <-.
        unfold new, acc1. rewrite S1. cbn. rewrite app_nil_r. auto.
      - assert (Hx : popped [x] = []) by (cbn [a_step a_pump] in E1; destruct (a_rxline now junk _); [|discriminate]; cbn [bind] in E1; injection E1 as _ <-; reflexivity).
        rewrite Hx in *. rewrite E1 in Sp. unfold acc1, new in *. destruct (ends_nl total) eqn:En.
        + destruct (line_effect (aview a) (now, junk, removelast total)) as [v|k] eqn:Ev; [|contradiction]. cbn [fst] in Sp. destruct Sp as (S1 & S2).
          destruct (effect_msgs _ _ _ _ _ Ev) as (M1 & M2); [cbn [v_msgs aview length] in *; lia|]. rewrite <- S1 in M1. cbn [v_msgs aview] in M1. rewrite M1. split; [exact S2|]. split; [reflexivity|]. apply Forall_app; auto.
        + cbn [fst] in Sp. destruct Sp as (S1 & S2). injection S1 as S0 S1 S3. rewrite S1, app_nil_r. auto.
      - rewrite E1 in Sp. cbn [fst] in Sp. destruct Sp as (S1 & S2). injection S1 as S0 S1 S3. cbn [a_step a_pump] in E1. injection E1 as <- <-.
        unfold new, acc1. rewrite S1. cbn [popped flat_map app]. rewrite app_nil_r. auto.
      - cbn [a_step] in E1. unfold new, acc1, total. cbn [delivered]. rewrite !app_nil_r. destruct (a_ms a) as [|m r] eqn:Es; injection E1 as <- <-; cbn.
        + rewrite Es. auto.
        + inversion Hm as [|? ? Hm1 Hm2]; subst. destruct (Nat.ltb_spec 0 (m_length m)); [|lia]. cbn. auto.
      - rewrite E1 in Sp. cbn [fst] in Sp. destruct Sp as (S1 & S2). injection S1 as S0 S1 S3. cbn [a_step] in E1. injection E1 as <- <-.
        unfold new, acc1. cbn. rewrite app_nil_r. auto.
      - cbn [a_step] in E1. injection E1 as <- <-. unfold new, acc1, total. cbn. rewrite !app_nil_r. auto.
      - rewrite E1 in Sp. cbn [fst] in Sp. destruct Sp as (S1 & S2). injection S1 as S0 S1 S3. cbn [a_step] in E1. injection E1 as <- <-.
        unfold new, acc1. cbn. rewrite app_nil_r. auto. }
    destruct St as (S1 & S2 & S3).
    assert (Pop : forall r, popped (x :: r) = popped [x] ++ popped r) by (intros r; unfold popped; cbn [flat_map]; rewrite app_nil_r; reflexivity).
    assert (Ln : (length (popped [x]) + length (a_ms a1) = length (a_ms a) + length new)%nat) by (rewrite <- !app_length, S2; reflexivity).
    assert (IHr := IH acc1 a1 a2 os S1 Hc1 P4 S3).
    rewrite Pop, Epl, <- app_assoc, IHr; auto.
    + rewrite !app_assoc, S2. reflexivity.
    + intros l1 l2 b1 o1 -> Eb. specialize (Cap ((now, op) :: l1) l2 b1 (x :: o1) eq_refl). rewrite Epl, Pop, !app_length in Cap.
      cbn [mrun] in Cap. rewrite E1 in Cap. cbn [bind] in Cap. rewrite Eb in Cap. specialize (Cap eq_refl). lia.
Qed.

Lemma host_queue l h o : Forall hop_ok l -> paced [] l -> host_run l = Ok (h, o) ->
  (forall l1 l2 h1 o1, l = l1 ++ l2 -> host_run l1 = Ok (h1, o1) -> (length (messages (paced_lines [] l1)) <= 8 + length (popped o1))%nat) ->
  popped o ++ pending h = messages (paced_lines [] l).
Proof.
  intros F P E Cap. destruct (run_rel l h o F E) as (a & Ea & R). rewrite (pending_ok _ _ R).
  apply (queue_run l [] ah_new a o eq_refl (Forall_nil _) P (Forall_nil _)); [|exact Ea].
  intros l1 l2 a1 o1 El E1. cbn [ah_new a_ms length Nat.add]. assert (F1 : Forall hop_ok l1) by (rewrite El in F; apply Forall_app in F; apply F).
  pose proof (runs_agree l1 _ _ new_rel F1) as Y. fold (host_run l1) in Y. rewrite E1 in Y. unfold agree in Y. destruct (host_run l1) as [(h1 & o1')|k] eqn:Eh; [|contradiction].
  cbn in Y. destruct Y as (-> & _). eapply Cap; eauto.
Qed.

(** ** Time *)
Lemma time_exact now1 now2 h t : 0 <= t -> now1 <= now2 -> 0 <= now1 -> now2 / 1000 < 4294967296 -> t + (now2 / 1000 - now1 / 1000) < 18446744073709551616 ->
  host_get_time now2 (host_set_time now1 h t) = t + (now2 / 1000 - now1 / 1000).
Proof.
  intros Ht H12 H1 H2 Hw. unfold host_get_time, host_set_time, ms_since_boot. cbn [h_time set_time_off]. rewrite s64_u64.
  assert (0 <= now1 / 1000) by (apply Z.div_pos; lia). assert (now1 / 1000 <= now2 / 1000) by (apply Z.div_le_mono; lia).
  rewrite !u32_id by lia. unfold s64, u64.
  replace ((t - now1 / 1000 + 9223372036854775808) mod 18446744073709551616 - 9223372036854775808 + now2 / 1000)
    with ((t - now1 / 1000 + 9223372036854775808) mod 18446744073709551616 + (now2 / 1000 - 9223372036854775808)) by lia.
  rewrite Zplus_mod_idemp_l. rewrite Z.mod_small; lia.
Qed.
Lemma time_wraps now h : host_get_time (now + 4294967296000) h = host_get_time now h.
Proof.
  unfold host_get_time, ms_since_boot. do 2 f_equal. replace 4294967296000 with (4294967296 * 1000) by reflexivity. rewrite Z.div_add by lia.
  unfold u32. replace (now / 1000 + 4294967296) with (now / 1000 + 1 * 4294967296) by lia. apply Z.mod_add. lia.
Qed.
Definition keeps_time (e : Z * host_op) : Prop := match snd e with OpCheck _ _ _ => False | OpSetTime _ => False | _ => True end.
Lemma time_kept l : forall a a' o, Forall keeps_time l -> mrun a_step a l = Ok (a', o) -> a_time a' = a_time a.
Proof.
  induction l as [|e l IH]; intros a a' o F E; cbn [mrun] in E.
  - injection E as <- <-. auto.
  - inversion F as [|? ? F1 F2]; subst. destruct (a_step a e) as [(a1 & x)|k] eqn:E1; [|discriminate]. cbn [bind] in E.
    destruct (mrun a_step a1 l) as [(a2 & os)|k] eqn:E2; [|discriminate]. cbn [bind] in E. injection E as <- <-. rewrite (IH _ _ _ F2 E2).
    destruct e as (now & [budget m|budget m|budget junk cs|budget cs|junk| |t|]); cbn [a_step snd keeps_time] in *; try contradiction.
    + unfold a_send, a_pump in E1. destruct (_ <=? _)%nat; injection E1 as <- <-; reflexivity.
    + unfold a_send, a_pump in E1. destruct (_ <=? _)%nat; injection E1 as <- <-; reflexivity.
    + injection E1 as <- <-. reflexivity.
    + destruct (a_ms a); injection E1 as <- <-; reflexivity.
    + injection E1 as <- <-. reflexivity.
    + injection E1 as <- <-. reflexivity.
Qed.
Lemma time_after_set l1 now1 t l2 now2 h o : Forall hop_ok (l1 ++ [(now1, OpSetTime t)] ++ l2 ++ [(now2, OpGetTime)]) -> Forall keeps_time l2 ->
  0 <= t -> 0 <= now1 <= now2 -> now2 / 1000 < 4294967296 -> t + (now2 / 1000 - now1 / 1000) < 18446744073709551616 ->
  host_run (l1 ++ [(now1, OpSetTime t)] ++ l2 ++ [(now2, OpGetTime)]) = Ok (h, o) ->
  exists o', o = o' ++ [OTime (t + (now2 / 1000 - now1 / 1000))].
Proof.
  intros F K Ht H12 H2 Hw E. destruct (run_rel _ _ _ F E) as (a & Ea & _).
  rewrite mrun_app in Ea. destruct (mrun a_step ah_new l1) as [(a1 & o1)|k] eqn:E1; [|discriminate]. cbn [bind] in Ea.
  rewrite mrun_app in Ea. cbn [mrun a_step bind] in Ea. set (a2 := AH (s64 _) _ _ _ _ _) in *.
  rewrite mrun_app in Ea. destruct (mrun a_step a2 l2) as [(a3 & o3)|k] eqn:E3; [|discriminate]. cbn [bind mrun a_step] in Ea. injection Ea as <- <-.
  rewrite (time_kept _ _ _ _ K E3). cbn [a2 a_time].
  pose proof (time_exact now1 now2 host_new t Ht ltac:(lia) ltac:(lia) H2 Hw) as X. unfold host_get_time, host_set_time in X. cbn [h_time set_time_off] in X. rewrite s64_u64 in X.
  unfold ms_since_boot in X. unfold ms_counter. unfold a2. cbn [a_time]. unfold ms_counter. rewrite X. exists (o1 ++ [ONone] ++ o3). rewrite <- !app_assoc. reflexivity.
Qed.

(** ** More on single calls *)
Definition docd (s : Z) : Prop := 0 <= s <= 5.
Lemma reported_status l h o : Forall hop_ok l ->
  Forall (fun e => match snd e with OpSend _ m | OpReport _ m => docd (m_status m) | _ => True end) l ->
  host_run l = Ok (h, o) -> Forall (fun m => exists s, docd s /\ (m_status m = s \/ m_status m = Z.lor s 2)) (sent o).
Proof.
  intros F D E. destruct (run_rel l h o F E) as (a & Ea & _). clear E F. generalize dependent ah_new. revert o a.
  induction D as [|e l D1 D2 IH]; intros o a a0 Ea; cbn [mrun] in Ea.
  - injection Ea as <- <-. constructor.
  - destruct (a_step a0 e) as [(a1 & x)|k] eqn:E1; [|discriminate]. cbn [bind] in Ea.
    destruct (mrun a_step a1 l) as [(a2 & os)|k] eqn:E2; [|discriminate]. cbn [bind] in Ea. injection Ea as <- <-.
    specialize (IH _ _ _ E2). replace (sent (x :: os)) with (sent [x] ++ sent os) by (unfold sent; cbn [flat_map]; rewrite app_nil_r; reflexivity).
    apply Forall_app. split; [|exact IH].
    destruct e as (now & [budget m|budget m|budget junk cs|budget cs|junk| |t|]); cbn [a_step snd] in *.
    + destruct (a_send budget a0 m). injection E1 as <- <-. repeat constructor. eauto.
    + destruct (a_send budget _ _). injection E1 as <- <-. repeat constructor. exists (m_status m). split; auto. cbn. destruct (a_err a0); auto.
    + cbn [a_pump] in E1. destruct (a_rxline _ _ _); [|discriminate]. injection E1 as <- <-. constructor.
    + injection E1 as <- <-. constructor.
    + destruct (a_ms a0); injection E1 as <- <-; constructor.
    + injection E1 as <- <-. constructor.
    + injection E1 as <- <-. constructor.
    + injection E1 as <- <-. constructor.
Qed.

Lemma first_line_at line nl rest : no_nl line -> is_nl nl = true -> (length line < 128)%nat -> first_line (firstn 128 (line ++ nl :: rest)) = Some line.
Proof.
  intros Hn Hc Hl. assert (E : firstn 128 (line ++ nl :: rest) = line ++ nl :: firstn (127 - length line) rest).
  { rewrite firstn_app, firstn_all2 by lia. replace (128 - length line)%nat with (S (127 - length line)) by lia. reflexivity. }
  rewrite E. unfold first_line. rewrite (lines_app_nonl _ Hn). cbn [lines_of app]. rewrite Hc. reflexivity.
Qed.
Lemma rest_dropped l h o now budget junk line nl rest rest' x x' :
  Forall hop_ok l -> host_run l = Ok (h, o) -> received h = [] -> length junk = 32%nat ->
  no_nl line -> is_nl nl = true -> (length line < 128)%nat ->
  Forall byte_char (line ++ nl :: rest) -> Forall byte_char (line ++ nl :: rest') ->
  host_step h (now, OpCheck budget junk (line ++ nl :: rest)) = Ok x ->
  host_step h (now, OpCheck budget junk (line ++ nl :: rest')) = Ok x' ->
  view_of (fst x) = view_of (fst x') /\ received (fst x) = [] /\ received (fst x') = [].
Proof.
  intros F E Hr Hj Hn Hc Hl B B' Ex Ex'.
  pose proof (check_first l h o now budget junk (line ++ nl :: rest) F (conj Hj B) E) as X. rewrite Hr, Ex in X. cbn [app] in X. rewrite (first_line_at _ _ rest Hn Hc Hl) in X.
  pose proof (check_first l h o now budget junk (line ++ nl :: rest') F (conj Hj B') E) as X'. rewrite Hr, Ex' in X'. cbn [app] in X'. rewrite (first_line_at _ _ rest' Hn Hc Hl) in X'.
  unfold agree in *. destruct (line_effect (view_of h) (now, junk, until_nul line)) as [v|k]; [|contradiction]. destruct X as (-> & ->), X' as (-> & ->). auto.
Qed.
Lemma boot_prefix line : boot_command line = true -> exists t, line = [59; 33; 66; 76; 68; 33; 59] ++ t.
Proof.
  unfold boot_command. destruct (list_eq_dec Z.eq_dec (firstn 7 line) _) as [E|E]; [|discriminate]. intros _. exists (skipn 7 line).
  rewrite <- E, firstn_skipn. reflexivity.
Qed.
Lemma line_cases v now junk line v' : line_effect v (now, junk, line) = Ok v' ->
  (line = [] \/ (exists c t, line = c :: t /\ (c = 35 \/ c = 59)) -> v_boot v' = v_boot v -> v' = v) /\
  (v_boot v = false -> v_boot v' = true -> exists t, line = [59; 33; 66; 76; 68; 33; 59] ++ t).
Proof.
  unfold line_effect. destruct (boot_command line) eqn:Eb.
  - intros H; injection H as <-. split; [|intros; apply boot_prefix; auto]. cbn. intros _ Hb. destruct v; cbn in *. congruence.
  - destruct (is_comment line) eqn:Ec.
    + intros H; injection H as <-. split; [auto|]. intros; congruence.
    + destruct (msg_parse pico junk line) as [m|k]; [|discriminate]. cbn [bind]. intros H; injection H as <-. cbn. split; [|intros; congruence].
      intros [->|(c & t & -> & [->| ->])]; discriminate.
Qed.
Lemma time_back h t : 4294967296 <= t < 9223372036854775808 -> exists now1 now2, 0 <= now1 <= now2 /\ now2 = now1 + 1000 /\
  host_get_time now1 (host_set_time now1 h t) = t /\ host_get_time now2 (host_set_time now1 h t) = t + 1 - 4294967296.
Proof.
  intros Ht. exists (4294967295 * 1000), (4294967296 * 1000). split; [lia|]. split; [reflexivity|].
  unfold host_get_time, host_set_time, ms_since_boot. cbn [h_time set_time_off]. rewrite s64_u64. rewrite !Z.div_mul by lia.
  change (u32 4294967295) with 4294967295. change (u32 4294967296) with 0. unfold s64, u64.
  rewrite (Z.mod_small (t - 4294967295 + 9223372036854775808)) by lia. split; rewrite Z.mod_small; lia.
Qed.
Lemma line_pending l h o now budget junk line nl x : Forall hop_ok l -> host_run l = Ok (h, o) -> received h = [] -> length junk = 32%nat ->
  Forall is_char line -> no_nl line -> is_nl nl = true -> (length line < 128)%nat ->
  host_step h (now, OpCheck budget junk (line ++ [nl])) = Ok x -> exists v, line_effect (view_of h) (now, junk, line) = Ok v /\ pending (fst x) = v_msgs v.
Proof.
  intros F E Hr Hj Hch Hn Hc Hl Ex.
  assert (Bc : Forall byte_char (line ++ [nl])).
  { apply Forall_app. split; [eapply Forall_impl; [|exact Hch]; unfold is_char, byte_char; intros; lia|]. repeat constructor; unfold byte_char, is_nl in *; lia. }
  pose proof (check_first l h o now budget junk (line ++ [nl]) F (conj Hj Bc) E) as X. rewrite Hr, Ex in X. cbn [app] in X. rewrite (first_line_at _ _ [] Hn Hc Hl) in X.
  rewrite (until_nul_all _ Hch) in X. unfold agree in X. destruct (line_effect (view_of h) (now, junk, line)) as [v|k]; [|contradiction]. destruct X as (<- & _). exists (view_of (fst x)). auto.
Qed.
Lemma ninth_dropped l h o now budget junk line nl x : Forall hop_ok l -> host_run l = Ok (h, o) -> received h = [] -> length junk = 32%nat ->
  Forall is_char line -> no_nl line -> is_nl nl = true -> (length line < 128)%nat -> line_message junk line <> None -> length (pending h) = 8%nat ->
  host_step h (now, OpCheck budget junk (line ++ [nl])) = Ok x ->
  pending (fst x) = pending h /\ h_error (fst x) = h_error h.
Proof.
  intros F E Hr Hj Hch Hn Hc Hl Hm Hp Ex. split.
  - destruct (line_pending _ _ _ _ _ _ _ _ _ F E Hr Hj Hch Hn Hc Hl Ex) as (v & Ev & ->). unfold line_effect in Ev.
    destruct (boot_command line); [injection Ev as <-; reflexivity|]. destruct (is_comment line); [injection Ev as <-; reflexivity|].
    destruct (msg_parse pico junk line) as [m|k]; [|discriminate]. cbn [bind] in Ev. injection Ev as <-. cbn [v_msgs view_of]. rewrite Hp. rewrite andb_false_r. reflexivity.
  - destruct (run_rel l h o F E) as (a & Ea & R).
    assert (Bc : Forall byte_char (line ++ [nl])).
    { apply Forall_app. split; [eapply Forall_impl; [|exact Hch]; unfold is_char, byte_char; intros; lia|]. repeat constructor; unfold byte_char, is_nl in *; lia. }
    pose proof (step_ok h a (now, OpCheck budget junk (line ++ [nl])) R (conj Hj Bc)) as X. rewrite Ex in X. unfold agree in X. cbn [a_step a_pump] in X.
    destruct (a_rxline now junk _) as [b|k] eqn:Er; [|contradiction]. cbn [bind] in X. destruct X as (_ & R'). cbn [fst] in R'.
    apply a_rxline_q in Er as (_ & Er). rewrite (r_err _ _ R'), (r_err _ _ R), Er. reflexivity.
Qed.
Lemma below_eight l h o now budget junk line nl x m : Forall hop_ok l -> host_run l = Ok (h, o) -> received h = [] -> length junk = 32%nat ->
  Forall is_char line -> no_nl line -> is_nl nl = true -> (length line < 128)%nat -> line_message junk line = Some m -> (length (pending h) < 8)%nat ->
  host_step h (now, OpCheck budget junk (line ++ [nl])) = Ok x -> pending (fst x) = pending h ++ [m].
Proof.
  intros F E Hr Hj Hch Hn Hc Hl Hm Hp Ex.
  destruct (line_pending _ _ _ _ _ _ _ _ _ F E Hr Hj Hch Hn Hc Hl Ex) as (v & Ev & ->). unfold line_effect in Ev. unfold line_message in Hm.
  destruct (boot_command line); [discriminate|]. destruct (is_comment line); [discriminate|]. cbn [orb] in Hm.
  destruct (msg_parse pico junk line) as [m'|k]; [|discriminate]. cbn [bind] in Ev. injection Ev as <-. cbn [v_msgs view_of].
  destruct (0 <? m_length m')%nat; [|discriminate]. injection Hm as ->. destruct (Nat.ltb_spec (length (pending h)) 8); [reflexivity|lia].
Qed.

Lemma mfold_comments l : forall v, 
  mfold line_effect v (filter (fun e => negb (is_comment (snd e)) || boot_command (snd e)) l) = mfold line_effect v l.
Proof.
  induction l as [|[[now junk] line] t IH]; intros v; [reflexivity|]. cbn [filter mfold snd].
  destruct (boot_command line) eqn:Eb; [rewrite orb_true_r|rewrite orb_false_r; destruct (is_comment line) eqn:Ec; cbn [negb]].
  - cbn [mfold]. unfold line_effect at 1 3. rewrite Eb. cbn [bind]. apply IH.
  - unfold line_effect at 2. rewrite Eb, Ec. cbn [bind]. apply IH.
  - cbn [mfold]. destruct (line_effect v (now, junk, line)); cbn [bind]; auto.
Qed.
Lemma mfold_boot l : forall v v', mfold line_effect v l = Ok v' -> v_boot v = false -> v_boot v' = true ->
  exists t, In ([59; 33; 66; 76; 68; 33; 59] ++ t) (map snd l).
Proof.
  induction l as [|[[now junk] line] r IH]; intros v v' E Hv Hv'; cbn [mfold] in E.
  - injection E as <-. congruence.
  - destruct (line_effect v (now, junk, line)) as [v1|k] eqn:E1; [|discriminate]. cbn [bind] in E.
    destruct (v_boot v1) eqn:Eb.
    + destruct (proj2 (line_cases _ _ _ _ _ E1) Hv Eb) as (t & Et). exists t. left. cbn [snd]. exact Et.
    + destruct (IH _ _ E Eb Hv') as (t & Ht). exists t. right. exact Ht.
Qed.
Lemma paced_comments l h o : Forall hop_ok l -> Forall plain_op l -> paced [] l -> host_run l = Ok (h, o) ->
  mfold line_effect (VIEW 0 [] false) (filter (fun e => negb (is_comment (snd e)) || boot_command (snd e)) (paced_lines [] l)) = Ok (view_of h) /\
  (v_boot (view_of h) = true -> exists t, In ([59; 33; 66; 76; 68; 33; 59] ++ t) (lines_of [] (typed l))).
Proof.
  intros H1 H2 H3 E. destruct (paced_exact l H1 H2 H3) as (P & tail & Et & _). rewrite E in P.
  destruct (mfold line_effect (VIEW 0 [] false) (paced_lines [] l)) as [v|k] eqn:Em; [|contradiction].
  cbn [fst] in P. split; [rewrite mfold_comments, Em, P; reflexivity|].
  intros Hb. rewrite P in Hb. destruct (mfold_boot _ _ _ Em eq_refl Hb) as (t & Ht). exists t. rewrite Et. apply in_or_app. left. exact Ht.
Qed.

(** ** Over-long lines *)
Lemma lines_none b : forall acc, lines_of acc b = [] -> no_nl b.
Proof.
  induction b as [|c b IH]; intros acc H; [constructor|]. cbn [lines_of] in H. destruct (is_nl c) eqn:Ec; [discriminate|]. constructor; [exact Ec|exact (IH _ H)].
Qed.
Lemma first_line_none b : first_line b = None -> no_nl b.
Proof. unfold first_line. destruct (lines_of [] b) eqn:E; [|discriminate]. intros _. eapply lines_none; eauto. Qed.
Lemma host_run_snoc l e h o : host_run (l ++ [e]) = Ok (h, o) -> exists h0 o0 x, host_run l = Ok (h0, o0) /\ host_step h0 e = Ok (h, x) /\ o = o0 ++ [x].
Proof.
  unfold host_run. generalize host_new. revert o. induction l as [|f l IH]; intros o h1 E; cbn [app mrun] in E.
  - destruct (host_step h1 e) as [(h2 & x)|k] eqn:E1; [|discriminate]. cbn [bind] in E. injection E as <- <-. exists h1, [], x. auto.
  - destruct (host_step h1 f) as [(h2 & x)|k] eqn:E1; [|discriminate]. cbn [bind] in E.
    destruct (mrun host_step h2 (l ++ [e])) as [(h3 & os)|k] eqn:E2; [|discriminate]. cbn [bind] in E. injection E as <- <-.
    destruct (IH _ _ E2) as (h0 & o0 & y & A & B & ->). exists h0, (x :: o0), y. cbn [mrun]. rewrite E1. cbn [bind]. rewrite A. cbn. auto.
Qed.
Lemma received_len l h o : Forall hop_ok l -> host_run l = Ok (h, o) -> (length (received h) <= 128)%nat.
Proof. intros F E. destruct (run_rel l h o F E) as (a & _ & R). rewrite (received_ok _ _ R). destruct (r_b _ _ R) as (_ & _ & X & _). exact X. Qed.
Lemma flushed l h o now budget junk nl : Forall hop_ok l -> hop_ok (now, OpCheck budget junk [nl]) -> is_nl nl = true ->
  host_run (l ++ [(now, OpCheck budget junk [nl])]) = Ok (h, o) -> (forall h0 o0, host_run l = Ok (h0, o0) -> ~ stuck h0) -> received h = [].
Proof.
  intros F He Hn E Hs. apply host_run_snoc in E as (h0 & o0 & x & E0 & Ex & ->). pose proof (check_first _ _ _ _ _ _ _ F He E0) as X. rewrite Ex in X.
  specialize (Hs _ _ E0). pose proof (received_len _ _ _ F E0) as Hl. unfold agree in X.
  destruct (first_line (firstn 128 (received h0 ++ [nl]))) as [line|] eqn:Ef.
  - destruct (line_effect _ _); [|contradiction]. apply X.
  - exfalso. apply first_line_none in Ef. apply Hs. unfold stuck.
    destruct (Nat.eq_dec (length (received h0)) 128) as [e|ne].
    + split; [exact e|]. rewrite firstn_app, e, Nat.sub_diag, app_nil_r, firstn_all2 in Ef by lia. exact Ef.
    + rewrite firstn_all2 in Ef by (rewrite app_length; cbn; lia). apply Forall_app in Ef as (_ & Ef). inversion Ef; congruence.
Qed.
Lemma recovers l h o now1 b1 junk1 nl1 now2 b2 junk2 line nl2 :
  Forall hop_ok l -> (forall h0 o0, host_run l = Ok (h0, o0) -> ~ stuck h0) -> is_nl nl1 = true -> is_nl nl2 = true -> length junk1 = 32%nat -> length junk2 = 32%nat ->
  host_run (l ++ [(now1, OpCheck b1 junk1 [nl1])]) = Ok (h, o) ->
  Forall is_char line -> no_nl line -> (length line < 128)%nat ->
  agree (fun x v => view_of (fst x) = v /\ received (fst x) = []) (host_step h (now2, OpCheck b2 junk2 (line ++ [nl2]))) (line_effect (view_of h) (now2, junk2, line)).
Proof.
  intros F Hs H1 H2 J1 J2 E Hc Hn Hl. assert (B : forall c, is_nl c = true -> byte_char c) by (unfold is_nl, byte_char; intros; lia).
  assert (He : hop_ok (now1, OpCheck b1 junk1 [nl1])) by (split; [auto|constructor; [auto|constructor]]).
  pose proof (flushed _ _ _ _ _ _ _ F He H1 E Hs) as Hr.
  assert (Bc : Forall byte_char (line ++ [nl2])) by (apply Forall_app; split; [eapply Forall_impl; [|exact Hc]; unfold is_char, byte_char; intros; lia|constructor; [auto|constructor]]).
  assert (F' : Forall hop_ok (l ++ [(now1, OpCheck b1 junk1 [nl1])])) by (apply Forall_app; split; [auto|constructor; [auto|constructor]]).
  pose proof (check_first _ _ _ now2 b2 junk2 (line ++ [nl2]) F' (conj J2 Bc) E) as X. rewrite Hr in X. cbn [app] in X. rewrite (first_line_at _ _ [] Hn H2 Hl) in X.
  rewrite (until_nul_all _ Hc) in X. exact X.
Qed.

(** A stuck receiver stays stuck: it takes nothing more. *)
Lemma stuck_a l : forall a a' o, a_b a = firstn 128 (a_b a) -> length (a_b a) = 128%nat -> find_nl (a_b a) = None -> mrun a_step a l = Ok (a', o) ->
  a_b a' = a_b a /\ a_boot a' = a_boot a /\ exists n, a_ms a' = skipn n (a_ms a).
Proof.
  induction l as [|e l IH]; intros a a' o Hf Hl Hn E; cbn [mrun] in E.
  - injection E as <- <-. split; [auto|]. split; [auto|]. exists 0%nat. reflexivity.
  - destruct (a_step a e) as [(a1 & x)|k] eqn:E1; [|discriminate]. cbn [bind] in E.
    destruct (mrun a_step a1 l) as [(a2 & os)|k] eqn:E2; [|discriminate]. cbn [bind] in E. injection E as <- <-.
    assert (St : a_b a1 = a_b a /\ (exists n, a_ms a1 = skipn n (a_ms a)) /\ a_boot a1 = a_boot a).
    { assert (Hr : forall cs, firstn 128 (a_b a ++ cs) = a_b a) by (intros cs; rewrite firstn_app, Hl, Nat.sub_diag; cbn [firstn]; rewrite app_nil_r; symmetry; exact Hf).
      assert (N0 : exists n, a_ms a = skipn n (a_ms a)) by (exists 0%nat; reflexivity).
      destruct e as (now & [budget m|budget m|budget junk cs|budget cs|junk| |t|]); cbn [a_step] in E1.
      - unfold a_send, a_pump in E1. destruct (_ <=? _)%nat; injection E1 as <- <-; cbn; auto.
      - unfold a_send, a_pump in E1. destruct (_ <=? _)%nat; injection E1 as <- <-; cbn; auto.
      - cbn [a_pump] in E1. unfold a_rxline, a_recv in E1. cbn [a_b] in E1. rewrite Hr, Hn in E1. cbn [bind] in E1. injection E1 as <- <-. cbn. auto.
      - cbn [a_pump] in E1. unfold a_recv in E1. cbn [a_b] in E1. rewrite Hr in E1. injection E1 as <- <-. cbn. auto.
      - destruct (a_ms a) as [|m ms] eqn:Em; injection E1 as <- <-; [split; [auto|]; split; [exists 0%nat; rewrite Em; reflexivity|auto]|].
        cbn. split; [auto|]. split; [exists 1%nat; reflexivity|auto].
      - destruct (a_ms a) as [|m ms] eqn:Em; injection E1 as <- <-; (split; [auto|]; split; [exists 0%nat; rewrite Em; reflexivity|auto]).
      - injection E1 as <- <-. cbn. auto.
      - injection E1 as <- <-. auto. }
    destruct St as (S1 & (n & S2) & S3). destruct (IH a1 a2 os) as (I1 & I2 & (k & I3)); try (rewrite ?S1; auto; fail); auto.
    split; [congruence|]. split; [congruence|]. exists (k + n)%nat. rewrite I3, S2, skipn_skipn. reflexivity.
Qed.
Lemma stuck_forever l l2 h o h2 o2 : Forall hop_ok (l ++ l2) -> host_run l = Ok (h, o) -> stuck h -> host_run (l ++ l2) = Ok (h2, o2) ->
  received h2 = received h /\ h_boot h2 = h_boot h /\ exists n, pending h2 = skipn n (pending h).
Proof.
  intros F E (Hl & Hn) E2. destruct (run_rel (l ++ l2) h2 o2 F E2) as (a2 & Ea2 & R2). apply Forall_app in F as (F & _). destruct (run_rel l h o F E) as (a & Ea & R).
  rewrite (received_ok _ _ R), (received_ok _ _ R2), (pending_ok _ _ R), (pending_ok _ _ R2), (r_boot _ _ R), (r_boot _ _ R2). rewrite (received_ok _ _ R) in Hl, Hn.
  assert (E3 : exists o3, mrun a_step a l2 = Ok (a2, o3)).
  { clear - Ea Ea2. revert Ea Ea2. generalize ah_new. revert o o2. induction l as [|e l IH]; intros o o2 a0 E1 E2; cbn [app mrun] in *.
    - injection E1 as <- <-. eauto.
    - destruct (a_step a0 e) as [(a1 & x)|k]; [|discriminate]. cbn [bind] in *. destruct (mrun a_step a1 l) as [(a3 & os)|k] eqn:E3; [|discriminate]. cbn [bind] in E1. injection E1 as -> <-.
      destruct (mrun a_step a1 (l ++ l2)) as [(a4 & os4)|k] eqn:E4; [|discriminate]. cbn [bind] in E2. injection E2 as -> <-. eapply IH; eauto. }
  destruct E3 as (o3 & E3). apply (stuck_a l2 a a2 o3); auto.
  - symmetry. apply firstn_all2. lia.
  - apply find_nl_none; auto.
Qed.
