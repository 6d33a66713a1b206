(** P_TypedLine.v -- what the parser makes of a documented line. *)
From Verif Require Import Base M_Fifo M_Message S_Message D_Message P_Message P_MessageParse P_MessageNum P_HostProps M_HostUart S_Host S_TypedLine T_Message.

Lemma hexadecimal_val c : hexadecimal c -> exists v, hexval c = Some v.
Proof.
  unfold hexadecimal, decimal, hexval. intros H. destruct ((48 <=? c) && (c <=? 57)) eqn:E1; [eauto|]. destruct ((97 <=? c) && (c <=? 102)) eqn:E2; [eauto|]. destruct ((65 <=? c) && (c <=? 70)) eqn:E3; [eauto|].
  exfalso. rewrite andb_false_iff, !Z.leb_gt in *. lia.
Qed.
Lemma hexadecimal_char c : hexadecimal c -> is_char c /\ c <> 58 /\ c <> 35 /\ c <> 59.
Proof. unfold hexadecimal, decimal, is_char. lia. Qed.
Lemma data_char c : c = 32 \/ hexadecimal c -> is_char c /\ c <> 58 /\ c <> 35 /\ c <> 59 /\ plain c = true.
Proof.
  intros [->|H]; [unfold is_char; repeat split; lia|]. destruct (hexadecimal_char c H) as (A & B & C & D). repeat split; auto; try apply A. unfold plain. destruct (hexadecimal_val c H) as (v & ->). apply orb_true_r.
Qed.

Lemma before_data data com : Forall (fun c => c = 32 \/ hexadecimal c) data -> (com = [] \/ exists c t, com = c :: t /\ (c = 35 \/ c = 59)) -> before_comment (data ++ com) = data.
Proof.
  intros H Hc. induction H as [|c data Hd _ IH]; cbn [app].
  - destruct Hc as [->|(c & t & -> & [->| ->])]; reflexivity.
  - cbn [before_comment]. rewrite IH. destruct (data_char c Hd) as (_ & _ & N1 & N2 & _). destruct (Z.eqb_spec c 35); [contradiction|]. destruct (Z.eqb_spec c 59); [contradiction|]. reflexivity.
Qed.
Lemma fw_plain data : Forall (fun c => c = 32 \/ hexadecimal c) data -> firmware_digits data = hexdigits data.
Proof.
  unfold firmware_digits, hexdigits. induction 1 as [|c data [->|H] _ IH]; cbn [flat_map]; [reflexivity|rewrite IH; reflexivity|]. rewrite IH. destruct (hexadecimal_val c H) as (v & E).
  destruct (Z.eqb_spec c 32) as [->|_]; [discriminate|]. rewrite E. reflexivity.
Qed.
Lemma pairs_bytes bs : Forall (fun b => 0 <= b < 256) bs -> pair_up (flat_map (fun b => [b / 16; b mod 16]) bs) = bs.
Proof. induction 1 as [|b bs H _ IH]; cbn [flat_map app pair_up]; auto. rewrite IH. f_equal. pose proof (Z.div_mod b 16 ltac:(lia)). lia. Qed.
Lemma pairs_len (bs : list Z) : length (flat_map (fun b => [b / 16; b mod 16]) bs) = (2 * length bs)%nat.
Proof. induction bs as [|b bs IH]; cbn [flat_map length app]; auto. rewrite IH. lia. Qed.

Lemma split_part a : Forall (fun c => c <> 58) a -> forall r, split (a ++ 58 :: r) = a :: split r.
Proof.
  induction 1 as [|c a H _ IH]; intros r; cbn [app split]; [reflexivity|]. rewrite IH. destruct (Z.eqb_spec c 58); [contradiction|reflexivity].
Qed.
Lemma split_head a : Forall (fun c => c <> 58) a -> forall r, exists f fs e, split (a ++ r) = (a ++ f) :: fs /\ r = f ++ e.
Proof.
  intros H r. induction H as [|c a H _ IH]; cbn [app].
  - destruct (split_first r) as [(_ & E)|(p & q & -> & _ & E)]; rewrite E; [exists r, [], []; rewrite app_nil_r; auto|]. eexists p, _, _. split; reflexivity.
  - cbn [split]. destruct IH as (f & fs & e & -> & ->). destruct (Z.eqb_spec c 58); [contradiction|]. exists f, fs, e. auto.
Qed.

Lemma documented_field line bs : documented_line line bs -> exists data, spells data bs /\ before_comment (data_field_used line) = data /\ Forall is_char line /\ (bs <> [] -> is_comment line = false /\ boot_command line = false).
Proof.
  intros (head & data & com & -> & (S1 & S2 & S3) & Hc & Hh). exists data. split; [split; auto|].
  assert (Hd : Forall (fun c => c <> 58) data). { eapply Forall_impl; [|exact S1]. intros c H. apply data_char in H. tauto. }
  assert (Hb : before_comment (data ++ com) = data). { apply before_data; auto. destruct Hc as [->|(c & t & -> & Hc & _)]; [auto|]. right. eauto. }
  assert (Hf : forall c r, c <> 35 -> c <> 59 -> is_comment (c :: r) = false /\ boot_command (c :: r) = false).
  { intros c r N1 N2. split; [cbn; destruct (Z.eqb_spec c 35); [contradiction|]; destruct (Z.eqb_spec c 59); [contradiction|reflexivity]|].
    destruct (boot_command (c :: r)) eqn:E; auto. apply boot_prefix in E as (t & E). injection E as -> _. contradiction. }
  assert (Cd : Forall is_char (data ++ com)).
  { apply Forall_app. split; [eapply Forall_impl; [|exact S1]; intros c H; apply data_char in H; tauto|]. destruct Hc as [->|(c & t & -> & Hc & Ht)]; [constructor|]. constructor; auto. destruct Hc as [->| ->]; unfold is_char; lia. }
  destruct Hh as [(-> & Hn)|(t & s & -> & Ht & Hs)].
  - cbn [app]. split; [|split; [exact Cd|]].
    + unfold data_field_used. rewrite split_single; [exact Hb|]. unfold nocolon. apply Forall_app. split; auto. apply Forall_forall. intros x Hx ->. auto.
    + intros N. destruct data as [|c data]; [destruct bs; [congruence|discriminate]|]. cbn [app]. inversion S1 as [|? ? Hd1 _]; subst. apply data_char in Hd1. apply Hf; tauto.
  - assert (Nt : Forall (fun c => c <> 58) t) by (eapply Forall_impl; [|exact Ht]; unfold decimal; intros; lia).
    assert (Ns : Forall (fun c => c <> 58) s) by (eapply Forall_impl; [|exact Hs]; intros c H; apply hexadecimal_char in H; tauto).
    replace ((t ++ [58] ++ s ++ [58]) ++ data ++ com) with (t ++ 58 :: s ++ 58 :: data ++ com) by (rewrite <- !app_assoc; reflexivity).
    split; [|split].
    + unfold data_field_used. rewrite split_part, split_part by auto. destruct (split_head data Hd com) as (f & fs & e & -> & ->). 
      apply before_data; auto. destruct f as [|c0 f]; auto. right. destruct Hc as [Hc|(c & t0 & Hc & Hm & _)]; [discriminate|]. injection Hc as -> _. eauto.
    + apply Forall_app. split; [eapply Forall_impl; [|exact Ht]; unfold decimal, is_char; intros; lia|]. constructor; [unfold is_char; lia|].
      apply Forall_app. split; [eapply Forall_impl; [|exact Hs]; intros c H; apply hexadecimal_char in H; tauto|]. constructor; [unfold is_char; lia|exact Cd].
    + intros _. destruct t as [|c t]; cbn [app]; [apply Hf; lia|]. inversion Ht as [|? ? H1 _]; subst. unfold decimal in H1. apply Hf; lia.
Qed.

Lemma documented_message junk line bs : length junk = 32%nat -> documented_line line bs -> (1 <= length bs <= 32)%nat ->
  exists m, line_message junk line = Some m /\ payload m = bs.
Proof.
  intros L H Hb. destruct (documented_field line bs H) as (data & (S1 & S2 & S3) & E & Hc & Hx).
  destruct Hx as (X1 & X2); [intros ->; cbn in Hb; lia|].
  assert (Ld : length (firmware_digits data) = (2 * length bs)%nat) by (rewrite fw_plain, S3, pairs_len by auto; reflexivity).
  destruct (C34_hex_only_partial junk line L Hc) as (m & P & _ & Pl); [rewrite E, Ld; lia|].
  exists m. unfold line_message. rewrite X1, X2, P. cbn [orb].
  assert (Pm : payload m = bs).
  { rewrite Pl; [unfold data_bytes; rewrite E, S3; apply pairs_bytes; auto|]. rewrite E. apply forallb_forall. intros c Hi. rewrite Forall_forall in S1. apply S1, data_char in Hi. tauto. }
  split; [|exact Pm]. assert (Lm : (0 < m_length m)%nat). { apply (f_equal (@length Z)) in Pm. unfold payload in Pm. rewrite firstn_length in Pm. lia. }
  apply Nat.ltb_lt in Lm. rewrite Lm. reflexivity.
Qed.
