(** P_Comment.v -- comments at the end of a host line. *)
From Verif Require Import Base M_Fifo M_Message S_Message D_Message P_Message P_MessageParse M_HostUart S_Host.

Definition cmark (c : Z) : Prop := c = 35 \/ c = 59.
Lemma cmark_char c : cmark c -> is_char c.
Proof. intros [->| ->]; unfold is_char; lia. Qed.

Lemma scan_digits_cut base c com : cmark c -> forall s a, scan_digits base (s ++ c :: com) a = scan_digits base s a.
Proof.
  intros Hc. induction s as [|x t IH]; intros a; cbn [app scan_digits].
  - destruct Hc as [->| ->]; reflexivity.
  - destruct (digit_val x) as [d|]; auto. destruct (d <? base); auto.
Qed.
Lemma skip_space_cut c com s : cmark c -> skip_space (s ++ c :: com) = skip_space s ++ c :: com.
Proof.
  intros Hc. induction s as [|x t IH]; cbn [app skip_space]; [destruct Hc as [->| ->]; reflexivity|]. destruct (is_space x); auto.
Qed.
Lemma take_sign_cut c com s : cmark c -> take_sign (s ++ c :: com) = (fst (take_sign s), snd (take_sign s) ++ c :: com).
Proof.
  intros Hc. destruct s as [|x t]; cbn [app take_sign]; [destruct Hc as [->| ->]; reflexivity|]. destruct (x =? 45); auto. destruct (x =? 43); auto.
Qed.
Lemma take_0x_cut c com s : cmark c -> take_0x (s ++ c :: com) = take_0x s ++ c :: com.
Proof.
  intros Hc. destruct s as [|x [|y t]]; cbn [app take_0x].
  - destruct com; auto. destruct Hc as [->| ->]; reflexivity.
  - destruct Hc as [->| ->]; cbn; rewrite andb_false_r; reflexivity.
  - destruct ((x =? 48) && _); auto.
Qed.
Lemma strtol_cut lm c com s : cmark c -> strtol16 lm (s ++ c :: com) = strtol16 lm s.
Proof.
  intros Hc. unfold strtol16. rewrite skip_space_cut, take_sign_cut by auto. destruct (take_sign (skip_space s)) as [neg l]. cbn [fst snd].
  rewrite take_0x_cut, scan_digits_cut by auto. reflexivity.
Qed.

Lemma split_app_last l c : nocolon c -> forall f fs, split l = f :: fs -> split (l ++ c) = match fs with [] => [f ++ c] | _ => f :: removelast fs ++ [last fs [] ++ c] end.
Proof.
  intros Hc. induction l as [|x t IH]; intros f fs E; cbn [app split] in *.
  - injection E as <- <-. destruct (split_first c) as [(_ & E)|(a & b & -> & _ & _)]; auto. exfalso. apply Forall_app in Hc as (_ & Hc). inversion Hc. congruence.
  - destruct (split_cons t) as (g & gs & Et). rewrite Et in E. specialize (IH _ _ Et). destruct (x =? 58).
    + injection E as <- <-. rewrite IH. destruct gs as [|g2 gs]; [reflexivity|]. cbn [removelast last app]. reflexivity.
    + injection E as <- <-. rewrite IH. destruct gs as [|g2 gs]; reflexivity.
Qed.
Lemma split_app_far l c a b d ds : split l = a :: b :: d :: ds -> exists d' ds', split (l ++ c) = a :: b :: d' :: ds' /\ (ds = [] /\ (exists e, d' = d ++ e /\ (exists e2, c = e ++ e2 /\ (e2 = [] \/ exists r, e2 = 58 :: r))) \/ ds <> [] /\ d' = d).
Proof.
  revert a b d ds. induction l as [|x t IH]; intros a b d ds E; cbn [app split] in *; [discriminate|].
  destruct (split_cons t) as (g & gs & Et). rewrite Et in E. destruct (x =? 58).
  - injection E as <- Ea Ed. subst gs. subst g.
    (* t has at least two fields *)
    clear IH. revert b d ds Et. induction t as [|y t IH]; intros b d ds Et; cbn [app split] in *; [discriminate|].
    destruct (split_cons t) as (g & gs & Et2). rewrite Et2 in Et. destruct (y =? 58).
    + injection Et as <- Ed Eds. subst g gs. clear IH. revert d ds Et2. induction t as [|z t IH]; intros d ds Et2; cbn [app split] in *.
      * injection Et2 as <- <-. destruct (split_first c) as [(_ & E)|(p & q & -> & _ & E)]; rewrite E.
        -- exists c, []. split; auto. left. split; auto. exists c. split; auto. exists []. rewrite app_nil_r. auto.
        -- exists p, (split q). split; auto. left. split; auto. exists p. split; auto. exists (58 :: q). eauto.
      * destruct (split_cons t) as (g & gs & Et3). rewrite Et3 in Et2. destruct (z =? 58).
        -- injection Et2 as <- <-. exists [], (split (t ++ c)). split; auto. right. split; congruence.
        -- injection Et2 as <- <-. destruct (IH _ _ Et3) as (d' & ds' & E & D). injection E as E. 
           destruct D as [(-> & e & -> & D)|(N & ->)]; rewrite E.
           ++ exists (z :: g ++ e), ds'. split; auto. left. split; auto. exists e. auto.
           ++ exists (z :: g), ds'. split; auto.
    + injection Et as <- Egs. subst gs. destruct (IH _ _ _ Et2) as (d' & ds' & E & D). injection E as E. rewrite E. exists d', ds'. auto.
  - injection E as <- Egs. subst gs. destruct (IH _ _ _ _ Et) as (d' & ds' & E & D). rewrite E. exists d', ds'. auto.
Qed.

(** The data loop stops at a comment mark. *)
Lemma data_loop_cut p c com : cmark c -> forall l f m, data_loop p (l ++ c :: com) f m = data_loop p l f m.
Proof.
  intros Hc. induction l as [|x t IH]; intros f m; cbn [app data_loop].
  - destruct Hc as [->| ->]; reflexivity.
  - destruct (x =? 32); auto. destruct ((x =? 35) || (x =? 59)); auto. cbv zeta. destruct (decode_nibble p x =? -1); cbn [negb]; [apply IH|].
    destruct f; cbn [negb].
    + destruct (aget (m_data m) (m_length m)); cbn [bind]; auto. destruct (aset _ _ _); cbn [bind]; auto.
    + destruct (aset _ _ _); cbn [bind]; auto.
Qed.

Theorem comment_cut p junk line c com : 0 <= long_max p -> Forall is_char line -> Forall is_char com -> cmark c ->
  (nocolon com \/ (3 <= length (split line))%nat) -> msg_parse p junk (line ++ c :: com) = msg_parse p junk line.
Proof.
  intros Hlm Hl Hcom Hc H. assert (Hall : Forall is_char (line ++ c :: com)) by (apply Forall_app; split; auto; constructor; auto; apply cmark_char; auto).
  rewrite (parse_fields p junk _ Hall), (parse_fields p junk _ Hl). unfold data_field_used, time_of, status_of.
  destruct (split line) as [|a [|b [|d ds]]] eqn:E; [destruct (split_cons line) as (? & ? & ?); congruence| | |].
  - destruct H as [H|H]; [|cbn in H; lia]. assert (Hn : nocolon (c :: com)) by (constructor; auto; destruct Hc; subst; lia).
    rewrite (split_app_last line _ Hn _ _ E). apply data_loop_cut; auto.
  - destruct H as [H|H]; [|cbn in H; lia]. assert (Hn : nocolon (c :: com)) by (constructor; auto; destruct Hc; subst; lia).
    rewrite (split_app_last line _ Hn _ _ E). cbn [removelast last app]. do 2 f_equal. rewrite strtol_cut by auto.
    destruct b as [|y b]; [|reflexivity]. cbn [app length]. change (strtol16 (long_max p) []) with (saturate (long_max p) 0). unfold saturate.
    replace (Z.max (- long_max p - 1) (Z.min (long_max p) 0)) with 0 by lia. reflexivity.
  - destruct (split_app_far line (c :: com) _ _ _ _ E) as (d' & ds' & E' & D). rewrite E'.
    destruct D as [(-> & e & -> & e2 & Ee & De)|(N & ->)]; auto.
    destruct e as [|x e]; [cbn [app] in *; destruct De as [->|(r & ->)]; [discriminate|injection Ee as -> _; destruct Hc; discriminate]|].
    injection Ee as -> _. apply data_loop_cut; auto.
Qed.
