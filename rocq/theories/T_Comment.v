(** T_Comment.v -- property theorem C111 (comments at the end of a host line). *)
From Coq Require Import String.
From Verif Require Import Base M_Fifo M_Message S_Message D_Message P_Message P_MessageParse M_HostUart S_Host P_HostProps P_Comment T_Message T_Host.

(** A comment: '#' or ';' and any text after it. *)
Definition comment (l : list Z) : Prop := exists c com, l = c :: com /\ (c = 35 \/ c = 59) /\ Forall is_char com.

(** C111, as one would expect: a comment appended to a line changes nothing.  FALSE: colons in the comment count as field separators, so
    that other bytes are transmitted, or the clock is set. *)
Theorem C111_trailing_comment_refuted :
  (exists line com m m', Forall is_char line /\ comment com /\ msg_parse pico junk0 line = Ok m /\ payload m = [64; 240] /\
     msg_parse pico junk0 (line ++ com) = Ok m' /\ payload m' = [171; 205]) /\
  (exists line com m m', Forall is_char line /\ comment com /\ msg_parse pico junk0 line = Ok m /\ m_time m = 0 /\
     msg_parse pico junk0 (line ++ com) = Ok m' /\ m_time m' = 40).
Proof.
  split.
  - exists (str "40 F0"), (str "# a: b: abcd"). do 2 eexists.
    split; [repeat constructor|]. split; [exists 35; eexists; split; [reflexivity|]; split; [auto|repeat constructor]|].
    split; [vm_compute; reflexivity|]. split; [vm_compute; reflexivity|]. split; vm_compute; reflexivity.
  - exists (str "40 F0"), (str "; note: x"). do 2 eexists.
    split; [repeat constructor|]. split; [exists 59; eexists; split; [reflexivity|]; split; [auto|repeat constructor]|].
    split; [vm_compute; reflexivity|]. split; [vm_compute; reflexivity|]. split; vm_compute; reflexivity.
Qed.
Print Assumptions C111_trailing_comment_refuted.
(** What holds: a comment without colons, or any comment on a line with both colons before it, changes nothing: neither the message
    (nor whether reading it leaves the message's memory) ... *)
Theorem C111_trailing_comment_partial : forall p junk line com, 0 <= long_max p -> Forall is_char line -> comment com ->
  (~ In 58 com \/ (2 <= count_occ Z.eq_dec line (58%Z))%nat) -> msg_parse p junk (line ++ com) = msg_parse p junk line.
Proof.
  intros p junk line com Hlm Hl (c & co & -> & Hc & Hco) H. apply comment_cut; auto. destruct H as [H|H].
  - left. apply Forall_forall. intros x Hx ->. apply H. right. exact Hx.
  - right. assert (E : forall l, length (split l) = S (count_occ Z.eq_dec l 58)).
    { induction l as [|x t IH]; cbn [split count_occ]; auto. destruct (Z.eq_dec x 58) as [->|N]; [cbn [length]; rewrite <- IH; reflexivity|].
      destruct (Z.eqb_spec x 58); [contradiction|]. destruct (split_cons t) as (f & fs & Et). rewrite Et in *. exact IH. }
    rewrite E. lia.
Qed.
Print Assumptions C111_trailing_comment_partial.
(** ... nor anything else the line does (clock, waiting messages), unless the comment completes the bootloader command. *)
Theorem C111_line_effect_partial : forall now junk line com h, Forall is_char line -> comment com ->
  (~ In 58 com \/ (2 <= count_occ Z.eq_dec line (58%Z))%nat) -> boot_command (line ++ com) = false ->
  on_line_received pico now junk (line ++ com) h = on_line_received pico now junk line h.
Proof.
  intros now junk line com h Hl Hc H Hb. pose proof (C111_trailing_comment_partial pico junk line com ltac:(cbn; lia) Hl Hc H) as P.
  assert (B := prefix_boot).
  assert (Hb2 : boot_command line = false).
  { apply not_true_is_false. intros T. destruct (boot_prefix line T) as (t & ->). rewrite <- app_assoc in Hb. discriminate. }
  unfold on_line_received. rewrite !B, Hb, Hb2, P. destruct line as [|x t]; [|reflexivity]. destruct Hc as (c & co & -> & [->| ->] & _); reflexivity.
Qed.
Print Assumptions C111_line_effect_partial.
Example C111_ex : exists m, msg_parse pico junk0 (str "7:0:40 F0" ++ str "# a: b: abcd") = Ok m /\ m_time m = 7 /\ payload m = [64; 240] /\
  (2 <= count_occ Z.eq_dec (str "7:0:40 F0") (58%Z))%nat /\ boot_command (str "7:0:40 F0" ++ str "# a: b: abcd") = false.
Proof. eexists. split; [vm_compute; reflexivity|]. repeat split; vm_compute; auto. Qed.
