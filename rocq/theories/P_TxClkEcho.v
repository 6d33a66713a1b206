(** P_TxClkEcho.v -- C133: a success means the echo of the message, with separate clock readings. *)
From Verif Require Import Base M_Message M_Tx D_Tx M_TxClk D_TxClk P_Ctrl P_Tx P_TxRun P_TxHist P_TxClk P_TxClkRun T_Tx.

Lemma map_snd_app {A B C} (l : list (A * B)) (x y : list (C * B)) : map snd l = map snd (x ++ y) ->
  exists a b, l = a ++ b /\ map snd a = map snd x /\ map snd b = map snd y.
Proof.
  intros H. exists (firstn (length x) l), (skipn (length x) l). split; [symmetry; apply firstn_skipn|].
  rewrite map_app in H. rewrite <- firstn_map, <- skipn_map, H. replace (length x) with (length (map snd x)) by apply map_length.
  rewrite firstn_app, skipn_app, firstn_all, skipn_all, Nat.sub_diag. cbn. rewrite app_nil_r. auto.
Qed.


Lemma untimed_snd l l' : map snd l' = map snd l -> map (fun e : Z * tx_ev => (0, snd e)) l' = untimed l.
Proof.
  revert l'; induction l as [|a l IH]; intros [|b l'] H; try discriminate; [reflexivity|]. cbn in *. injection H as H1 H2. rewrite H1. f_equal. auto.
Qed.
Lemma echoes_untimed l : echoes l = echoes (map (fun e => (0, snd e)) l).
Proof. unfold echoes. induction l as [|(n, e) l IH]; [reflexivity|]. cbn [flat_map map snd]. rewrite IH. reflexivity. Qed.
Lemma norx_untimed l : no_rx_error l -> no_rx_error (map (fun e => (0, snd e)) l).
Proof. unfold no_rx_error. intros H. apply Forall_map. exact H. Qed.
Lemma held_untimed l : line_held l -> line_held (map (fun e => (0, snd e)) l).
Proof.
  intros H x e y E S. apply map_eq_app in E. destruct E as (a & b & -> & Ea & Eb). destruct b as [|b0 b]; [discriminate|]. cbn in Eb. injection Eb as <- <-.
  cbn [snd]. apply (H a b0 b eq_refl). subst x. clear - S. induction a as [|a l IH]; [discriminate|]. cbn in *. apply Bool.orb_true_iff in S. apply Bool.orb_true_iff.
  destruct S as [S|S]; [left; exact S|right; auto].
Qed.

Section S1.
Context (j1 j2 : list Z) (L : length j2 = 32%nat).

(** A prefix of the retimed schedule and the corresponding prefix. *)
Lemma cut {A B} (x y : list A) (x' y' : list B) : length x = length x' -> firstn (length x) (x ++ y) = x /\ firstn (length x) (x' ++ y') = x'.
Proof. intros E. split; [|rewrite E]; rewrite firstn_app, Nat.sub_diag, firstn_O, app_nil_r, firstn_all; reflexivity. Qed.

Lemma clk_echo l1 rw m l2 t h o :
  Forall (evc_ok 1) (l1 ++ [(rw, Wake m)]) -> Forall (evc_ok 1) l2 ->
  (exists s o, tx_run_clk j1 j2 l1 = Ok (s, o) /\ tx_is_idle (fst s) = true) ->
  busy_during_clk j1 j2 (l1 ++ [(rw, Wake m)]) l2 ->
  tx_run_clk j1 j2 ((l1 ++ [(rw, Wake m)]) ++ l2) = Ok ((t, h), o) ->
  t_tx t = m /\
  (tx_is_idle t = true -> t_err t = false -> ~ In (Some true) (skipn (length (l1 ++ [(rw, Wake m)])) o) ->
   exists ha hb hc, l2 = ha ++ hb ++ hc /\ handed_over_clk j1 j2 ((l1 ++ [(rw, Wake m)]) ++ ha) (tx_bytes m) /\
    echoes (untimed hb) = tx_bytes m /\ no_rx_error (untimed hb) /\ line_held (untimed hb)).
Proof using L.
  intros Fb F (s0 & o0 & R0 & Hi0) B E.
  assert (FA : Forall (evc_ok 1) ((l1 ++ [(rw, Wake m)]) ++ l2)) by (apply Forall_app; auto).
  destruct (retime j1 j2 _ L FA) as (l' & Le & Ms & F' & K).
  destruct (map_snd_app _ _ _ Ms) as (b' & l2' & -> & Mb & M2).
  destruct (map_snd_app _ _ _ Mb) as (l1' & w' & -> & M1 & Mw).
  destruct w' as [|(tw, ev) [|? ?]]; try discriminate. cbn in Mw. injection Mw as ->.
  assert (Lb : length (l1 ++ [(rw, Wake m)]) = length (l1' ++ [(tw, Wake m)])) by (apply (f_equal (@length _)) in Mb; rewrite !map_length in Mb; auto).
  assert (Ll : length l1 = length l1') by (apply (f_equal (@length _)) in M1; rewrite !map_length in M1; auto).
  apply Forall_app in F'. destruct F' as (Fb' & F2').
  (* prefixes of the second part *)
  assert (KP : forall p q p' q', l2 = p ++ q -> l2' = p' ++ q' -> length p = length p' ->
    exists t w h o, tx_run_clk j1 j2 ((l1 ++ [(rw, Wake m)]) ++ p) = Ok ((t, h), o) /\ tx_run j1 j2 ((l1' ++ [(tw, Wake m)]) ++ p') = Ok ((setw w t, h), o)).
  { intros p q p' q' -> -> El. specialize (K (length ((l1 ++ [(rw, Wake m)]) ++ p))).
    destruct (cut ((l1 ++ [(rw, Wake m)]) ++ p) q ((l1' ++ [(tw, Wake m)]) ++ p') q') as (C1 & C2).
    { rewrite (app_length (l1 ++ _)), (app_length (l1' ++ _)), Lb, El. reflexivity. }
    rewrite <- (app_assoc (l1 ++ _)) in C1. rewrite <- (app_assoc (l1' ++ _)) in C2. rewrite C1, C2 in K. exact K. }
  assert (L2 : length l2 = length l2') by (apply (f_equal (@length _)) in M2; rewrite !map_length in M2; auto).
  destruct (KP l2 [] l2' []) as (ta & w & ha & oa & A1 & A2); [rewrite app_nil_r; reflexivity|rewrite app_nil_r; reflexivity|exact L2|].
  rewrite E in A1. injection A1 as <- <- <-.
  assert (S' : exists s o, tx_run j1 j2 l1' = Ok (s, o) /\ tx_is_idle (fst s) = true).
  { specialize (K (length l1)). rewrite <- !app_assoc in K. destruct (cut l1 ([(rw, Wake m)] ++ l2) l1' ([(tw, Wake m)] ++ l2') Ll) as (C1 & C2).
    rewrite C1, C2 in K. destruct K as (tb & wb & hb & ob & B1 & B2). rewrite R0 in B1. injection B1 as -> ->. eexists _, _. split; [exact B2|]. exact Hi0. }
  assert (B' : busy_during j1 j2 (l1' ++ [(tw, Wake m)]) l2').
  { intros p' q' -> Hq. assert (M2' := M2). symmetry in M2'. destruct (map_snd_app _ _ _ M2') as (p & q & -> & Mp & Mq).
    assert (Hq2 : q <> []) by (intros ->; destruct q'; [contradiction|discriminate]).
    destruct (B p q eq_refl Hq2) as (s1 & o1 & R1 & I1).
    destruct (KP p q p' q' eq_refl eq_refl) as (tb & wb & hb & ob & B1 & B2); [apply (f_equal (@length _)) in Mp; rewrite !map_length in Mp; auto|].
    rewrite R1 in B1. injection B1 as -> ->. eexists _, _. split; [exact B2|]. exact I1. }
  split.
  { apply (C49_message_stable j1 j2 l1' tw m l2' _ _ _ L Fb' F2' S' B' A2). }
  intros Hi He Hn.
  destruct (C47_echo j1 j2 l1' tw m l2' (setw w t) h o L Fb' F2' S' B' A2 Hi He) as (xa & xb & xc & -> & Hh & He1 & He2 & He3).
  { rewrite <- Lb. exact Hn. }
  symmetry in M2. destruct (map_snd_app _ _ _ M2) as (ya & yr & -> & Ma & Mr). destruct (map_snd_app _ _ _ Mr) as (yb & yc & -> & Myb & Myc).
  exists ya, yb, yc. split; [reflexivity|].
  assert (U : untimed yb = map (fun e : Z * tx_ev => (0, snd e)) xb) by (symmetry; apply untimed_snd; symmetry; exact Myb).
  split.
  { destruct (KP ya (yb ++ yc) xa (xb ++ xc) eq_refl eq_refl) as (tb & wb & hb & ob & B1 & B2); [apply (f_equal (@length _)) in Ma; rewrite !map_length in Ma; auto|].
    destruct Hh as (s9 & o9 & R9 & D9 & X9). rewrite B2 in R9. injection R9 as <- <-. eexists _, _. split; [exact B1|]. cbn [snd] in *. auto. }
  rewrite U. split; [rewrite <- echoes_untimed; exact He1|]. split; [apply norx_untimed; exact He2|apply held_untimed; exact He3].
Qed.
End S1.
