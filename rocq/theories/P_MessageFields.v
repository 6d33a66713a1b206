(** P_MessageFields.v -- the numeric fields of a line (C84). *)
From Verif Require Import Base M_Message S_Message D_Message P_MessageParse.

Lemma is_space_blank c : is_space c = true <-> blank c.
Proof. unfold is_space, blank. rewrite orb_true_iff, andb_true_iff, Z.eqb_eq, !Z.leb_le. lia. Qed.
Lemma skip_space_split s : exists sp, s = sp ++ skip_space s /\ Forall blank sp /\ ~ begins blank (skip_space s).
Proof.
  induction s as [|c t (sp & E & F & N)]; cbn [skip_space].
  - exists []. split; [reflexivity|]. split; [constructor|]. intros (c & r & H & _). discriminate.
  - destruct (is_space c) eqn:S.
    + exists (c :: sp). cbn [app]. split; [congruence|]. split; [|exact N]. constructor; [apply is_space_blank; auto|auto].
    + exists []. split; [reflexivity|]. split; [constructor|]. intros (c' & r & H & B). injection H as <- <-.
      apply is_space_blank in B. congruence.
Qed.
Lemma digit_val_hex b c d : b <= 16 -> (digit_val c = Some d /\ d < b) <-> digit_in b c d.
Proof.
  intros Hb. unfold digit_in, digit_val, hexval.
  destruct ((48 <=? c) && (c <=? 57)) eqn:A; [tauto|].
  destruct ((97 <=? c) && (c <=? 122)) eqn:B; destruct ((97 <=? c) && (c <=? 102)) eqn:B'.
  - tauto.
  - rewrite andb_true_iff in B. rewrite andb_false_iff in B'. rewrite !Z.leb_le in B. rewrite !Z.leb_gt in B'.
    destruct ((65 <=? c) && (c <=? 70)) eqn:C; [rewrite andb_true_iff, !Z.leb_le in C; lia|].
    split; [|intros (H & _); discriminate]. intros (H & L). injection H as <-. lia.
  - rewrite andb_false_iff in B. rewrite andb_true_iff in B'. rewrite !Z.leb_gt in B. rewrite !Z.leb_le in B'. lia.
  - destruct ((65 <=? c) && (c <=? 90)) eqn:C; destruct ((65 <=? c) && (c <=? 70)) eqn:C'; try tauto.
    + rewrite andb_true_iff in C. rewrite andb_false_iff in C'. rewrite !Z.leb_le in C. rewrite !Z.leb_gt in C'.
      split; [|intros (H & _); discriminate]. intros (H & L). injection H as <-. lia.
    + rewrite andb_false_iff in C. rewrite andb_true_iff in C'. rewrite !Z.leb_gt in C. rewrite !Z.leb_le in C'. lia.
Qed.
Lemma scan_digits_split b : b <= 16 -> forall l acc, exists ds rest vs, l = ds ++ rest /\ Forall2 (digit_in b) ds vs /\
  ~ begins (fun c => exists d, digit_in b c d) rest /\ scan_digits b l acc = fold_left (fun a d => a * b + d) vs acc.
Proof.
  intros Hb. induction l as [|c t IH]; intros acc; cbn [scan_digits].
  - exists [], [], []. split; [reflexivity|]. split; [constructor|]. split; [intros (c & r & H & _); discriminate|reflexivity].
  - destruct (digit_val c) as [d|] eqn:D; [destruct (d <? b) eqn:L|].
    + destruct (IH (acc * b + d)) as (ds & rest & vs & E & F & N & R).
      exists (c :: ds), rest, (d :: vs). cbn [app fold_left]. split; [congruence|]. split; [|split; auto].
      constructor; auto. apply (digit_val_hex b c d Hb). split; auto. lia.
    + exists [], (c :: t), []. split; [reflexivity|]. split; [constructor|]. split; [|reflexivity].
      intros (c' & r & H & d' & B). injection H as <- <-. apply (digit_val_hex b c d' Hb) in B as (B & ?). assert (d' = d) by congruence. lia.
    + exists [], (c :: t), []. split; [reflexivity|]. split; [constructor|]. split; [|reflexivity].
      intros (c' & r & H & d' & B). injection H as <- <-. apply (digit_val_hex b c d' Hb) in B as (B & ?). congruence.
Qed.
Lemma take_sign_split l : exists sg, l = sg ++ snd (take_sign l) /\
  (sg = [43] /\ fst (take_sign l) = false \/ sg = [45] /\ fst (take_sign l) = true \/
   sg = [] /\ fst (take_sign l) = false /\ ~ begins (fun c => c = 43 \/ c = 45) (snd (take_sign l))).
Proof.
  destruct l as [|c t]; cbn [take_sign].
  - exists []. split; [reflexivity|]. right. right. split; [reflexivity|]. split; [reflexivity|]. intros (c & r & H & _). discriminate.
  - destruct (c =? 45) eqn:A; [exists [45]; apply Z.eqb_eq in A; subst; auto|].
    destruct (c =? 43) eqn:B; [exists [43]; apply Z.eqb_eq in B; subst; auto|].
    exists []. split; [reflexivity|]. right. right. split; [reflexivity|]. split; [reflexivity|]. intros (c' & r & H & P). cbn [snd] in H. injection H as <- <-. lia.
Qed.
Lemma take_0x_split l : exists pre, l = pre ++ take_0x l /\
  ((pre = [48; 120] \/ pre = [48; 88]) \/ pre = [] /\ ~ exists r, take_0x l = 48 :: 120 :: r \/ take_0x l = 48 :: 88 :: r).
Proof.
  destruct l as [|a [|b t]]; cbn [take_0x].
  - exists []. split; [reflexivity|]. right. split; [reflexivity|]. intros (r & [H|H]); discriminate.
  - exists []. split; [reflexivity|]. right. split; [reflexivity|]. intros (r & [H|H]); discriminate.
  - destruct ((a =? 48) && ((b =? 120) || (b =? 88))) eqn:A.
    + apply andb_true_iff in A as (A & B). apply orb_true_iff in B. rewrite !Z.eqb_eq in *. subst a. exists [48; b]. split; [reflexivity|]. left.
      destruct B as [-> | ->]; auto.
    + exists []. split; [reflexivity|]. right. split; [reflexivity|].
      intros (r & [H|H]); injection H as -> -> ->; discriminate.
Qed.
Lemma saturate_limited max v : 0 <= max -> saturate max v = limited max v.
Proof. intros. unfold saturate, limited. destruct (v <? - max - 1) eqn:A, (max <? v) eqn:B; lia. Qed.

Lemma atoll_reads s : exists v, reads 10 s v /\ atoll s = limited 9223372036854775807 v.
Proof.
  destruct (skip_space_split s) as (sp & Es & Fs & Ns). unfold atoll.
  destruct (take_sign_split (skip_space s)) as (sg & Eg & Hg). destruct (take_sign (skip_space s)) as (neg, l). cbn [fst snd] in *.
  destruct (scan_digits_split 10 ltac:(lia) l 0) as (ds & rest & vs & El & F & N & R).
  exists (if neg then - scan_digits 10 l 0 else scan_digits 10 l 0). split; [|apply saturate_limited; lia].
  exists sp, sg, [], ds, rest, vs. cbn [app]. rewrite <- El, <- Eg. split; [exact Es|]. split; [exact Fs|]. split; [exact Ns|].
  split; [intuition|]. split; [right; split; [reflexivity|lia]|]. split; [exact F|]. split; [exact N|].
  rewrite R. fold (value_of 10 vs). destruct Hg as [(-> & ->)|[(-> & ->)|(-> & -> & _)]]; reflexivity.
Qed.
Lemma strtol16_reads lm s : 0 <= lm -> exists v, reads 16 s v /\ strtol16 lm s = limited lm v.
Proof.
  intros Hlm. destruct (skip_space_split s) as (sp & Es & Fs & Ns). unfold strtol16.
  destruct (take_sign_split (skip_space s)) as (sg & Eg & Hg). destruct (take_sign (skip_space s)) as (neg, l). cbn [fst snd] in *.
  destruct (take_0x_split l) as (pre & Ep & Hp).
  destruct (scan_digits_split 16 ltac:(lia) (take_0x l) 0) as (ds & rest & vs & El & F & N & R).
  exists (if neg then - scan_digits 16 (take_0x l) 0 else scan_digits 16 (take_0x l) 0). split; [|apply saturate_limited; lia].
  exists sp, sg, pre, ds, rest, vs. rewrite <- El, <- Ep, <- Eg. split; [exact Es|]. split; [exact Fs|]. split; [exact Ns|].
  split; [intuition|]. split; [destruct Hp as [Hp|(-> & Hp)]; [left|right]; auto|]. split; [exact F|]. split; [exact N|].
  rewrite R. fold (value_of 16 vs). destruct Hg as [(-> & ->)|[(-> & ->)|(-> & -> & _)]]; reflexivity.
Qed.

(** ** [reads] gives one value *)
Lemma maximal_prefix (P : Z -> Prop) a b : forall a' b', a ++ b = a' ++ b' -> Forall P a -> Forall P a' -> ~ begins P b -> ~ begins P b' ->
  a = a' /\ b = b'.
Proof.
  induction a as [|x a IH]; intros [|x' a'] b' E F F' N N'; cbn [app] in E.
  - auto.
  - exfalso. apply N. exists x', (a' ++ b'). split; auto. inversion F'; auto.
  - exfalso. apply N'. exists x, (a ++ b). split; auto. inversion F; auto.
  - injection E as -> E. inversion F; inversion F'; subst. destruct (IH a' b' E) as (-> & ->); auto.
Qed.
Lemma digits_prefix b ds vs : forall ds' vs' r r', ds ++ r = ds' ++ r' -> Forall2 (digit_in b) ds vs -> Forall2 (digit_in b) ds' vs' ->
  ~ begins (fun c => exists d, digit_in b c d) r -> ~ begins (fun c => exists d, digit_in b c d) r' -> vs = vs'.
Proof.
  revert vs. induction ds as [|x ds IH]; intros vs [|x' ds'] vs' r r' E F F' N N'; inversion F; inversion F'; subst; cbn [app] in E.
  - auto.
  - exfalso. apply N. eexists _, _. split; [exact E|]. eauto.
  - exfalso. apply N'. eexists _, _. split; [symmetry; exact E|]. eauto.
  - injection E as -> E. f_equal; [|eauto]. unfold digit_in in *. destruct H1, H6. congruence.
Qed.
Lemma reads_unique b t v w : reads b t v -> reads b t w -> v = w.
Proof.
  intros (sp & sg & pre & ds & r & vs & E & F & N & S & P & D & R & V) (sp' & sg' & pre' & ds' & r' & vs' & E' & F' & N' & S' & P' & D' & R' & V').
  destruct (maximal_prefix blank _ _ _ _ (eq_trans (eq_sym E) E') F F' N N') as (_ & E1).
  assert (sg = sg' /\ pre ++ ds ++ r = pre' ++ ds' ++ r') as (-> & E2).
  { destruct S as [-> |[-> |(-> & S)]], S' as [-> |[-> |(-> & S')]]; cbn [app] in E1; try discriminate; try (injection E1 as E1; auto); auto.
    - exfalso. apply S'. eexists _, _. split; [symmetry; exact E1|]. auto.
    - exfalso. apply S'. eexists _, _. split; [symmetry; exact E1|]. auto.
    - exfalso. apply S. eexists _, _. split; [exact E1|]. auto.
    - exfalso. apply S. eexists _, _. split; [exact E1|]. auto. }
  assert (ds ++ r = ds' ++ r') as E3.
  { destruct P as [(B & P)|(-> & P)], P' as [(B' & P')|(-> & P')]; cbn [app] in E2.
    - destruct P as [-> | ->], P' as [-> | ->]; cbn [app] in E2; injection E2 as E2; auto; discriminate.
    - exfalso. apply (P' B). destruct P as [-> | ->]; cbn [app] in E2; eexists; [left|right]; symmetry; exact E2.
    - exfalso. apply (P B'). destruct P' as [-> | ->]; cbn [app] in E2; eexists; [left|right]; exact E2.
    - exact E2. }
  rewrite V, V', (digits_prefix b ds vs ds' vs' r r' E3 D D' R R'). reflexivity.
Qed.

(** ** The message of a line *)
Lemma number_fields p junk line m : 0 <= long_max p -> Forall is_char line -> length junk = 32%nat -> msg_parse p junk line = Ok m ->
  match split line with
  | t :: s :: _ => exists tv sv, reads 10 t tv /\ reads 16 s sv /\
      m_time m = u64 (limited 9223372036854775807 tv) /\ m_status m = u32 (limited (long_max p) sv)
  | _ => m_time m = 0 /\ m_status m = 0
  end.
Proof.
  intros Hl Hc Lj E. pose proof (parse_general p junk line Hc Lj) as G. cbv zeta in G.
  destruct (length (nibs p (data_field_used line)) <=? 64)%nat; [|congruence].
  destruct G as (m' & E' & A & B & _). rewrite E in E'. injection E' as <-. rewrite A, B. unfold time_of, status_of.
  destruct (split line) as [|t [|s r]]; auto.
  destruct (atoll_reads t) as (tv & Rt & Et). destruct (strtol16_reads (long_max p) s Hl) as (sv & Rs & Es).
  exists tv, sv. split; auto. split; auto. rewrite <- Et, <- Es.
  assert (Z0 : strtol16 (long_max p) [] = 0) by (unfold strtol16, saturate; cbn [skip_space take_sign take_0x scan_digits]; lia).
  split; [destruct t; reflexivity|]. destruct s; [rewrite Z0|]; reflexivity.
Qed.
