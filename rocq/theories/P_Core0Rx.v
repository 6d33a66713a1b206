(** P_Core0Rx.v -- assembling packets and the busy time-out (C66, C67, C68). *)
From Verif Require Import Base M_Message D_Message M_HostUart M_Core1 M_Core0 S_Core0 D_Core0 P_Core0 P_Core0Run.

Lemma a_run_app l1 l2 : forall x, a_run x (l1 ++ l2) = (let '(y, o1) := a_run x l1 in let '(z, o2) := a_run y l2 in (z, o1 ++ o2)).
Proof.
  induction l1 as [|i t IH]; intros x; cbn [app a_run]; [destruct (a_run x l2); reflexivity|].
  destruct (a_iter x i) as (y & o). rewrite IH. destruct (a_run y t) as (z & o1). destruct (a_run z l2) as (w & o2). reflexivity.
Qed.
Lemma a_run_length l : forall x, length (snd (a_run x l)) = length l.
Proof. induction l as [|i t IH]; intros x; cbn [a_run]; [reflexivity|]. destruct (a_iter x i) as (y & o). specialize (IH y). destruct (a_run y t). cbn in *. congruence. Qed.

Definition calm (o : list (reason * rxs) * list rxs) : Prop := ~ In R_timeout (map fst (fst o)).
(** An iteration without time-out and queue error. *)
Lemma iter_plain i r ls o : in_fifoerr i = false -> calm (snd (a_iter (r, ls) i)) -> o = snd (a_iter (r, ls) i) ->
  exists ls', a_iter (r, ls) i = (fst (fst (rx_iter false i r)), ls', (snd (fst (rx_iter false i r)), snd (rx_iter false i r))).
Proof.
  intros Hf Hc _. destruct ls as (b & since). unfold a_iter in *. destruct (busy_timeout (in_now i) b since).
  - exfalso. apply Hc. unfold rx_iter, flush_if. rewrite Hf.
    destruct (line_free i && _); destruct (length _ =? 32)%nat; cbn; auto.
  - destruct (rx_iter false i r) as ((r' & oo) & c). eauto.
Qed.

Definition add (r : rxs) (l : list inp0) : rxs := (fold_left (fun s i => status_after s (event_of i)) l (fst r), snd r ++ bytes_of l).
Lemma iter_byte i r ls : in_fifoerr i = false -> line_free i = false -> calm (snd (a_iter (r, ls) i)) ->
  (length (snd r ++ bytes_of [i]) <= 31)%nat -> exists ls', a_iter (r, ls) i = (add r [i], ls', ([], [])).
Proof.
  intros Hf Hl Hc Hn. destruct (iter_plain i r ls _ Hf Hc eq_refl) as (ls' & ->). exists ls'. unfold rx_iter, flush_if. rewrite Hf, Hl. cbn [andb fst snd app].
  unfold add, bytes_of in *. cbn [flat_map fold_left] in *. rewrite app_nil_r in *.
  destruct (Nat.eqb_spec (length (snd r ++ byte_of (event_of i))) 32); [lia|]. reflexivity.
Qed.
Lemma bytes_app a b : bytes_of (a ++ b) = bytes_of a ++ bytes_of b.
Proof. apply flat_map_app. Qed.
Lemma seg_quiet l : forall r ls, nothing_lost l -> Forall (fun i => line_free i = false) l -> Forall calm (snd (a_run (r, ls) l)) ->
  (length (snd r ++ bytes_of l) <= 31)%nat -> exists ls', a_run (r, ls) l = (add r l, ls', map (fun _ => ([], [])) l).
Proof.
  induction l as [|i t IH]; intros r ls Hf Hl Hc Hn.
  - exists ls. unfold add. cbn. rewrite app_nil_r. destruct r; reflexivity.
  - inversion Hf; inversion Hl; subst. change (i :: t) with ([i] ++ t) in Hn. rewrite bytes_app, app_assoc in Hn.
    cbn [a_run] in Hc |- *. assert (C1 : calm (snd (a_iter (r, ls) i))).
    { destruct (a_iter (r, ls) i) as (y & o). destruct (a_run y t) as (z & os). cbn [snd] in Hc. inversion Hc; auto. }
    destruct (iter_byte i r ls) as (ls1 & E); auto. { rewrite app_length in Hn. lia. }
    rewrite E in *. specialize (IH (add r [i]) ls1). destruct (a_run (add r [i], ls1) t) as (z & os). cbn [snd] in *. inversion Hc; subst.
    destruct IH as (ls' & IH); auto. injection IH as -> ->. exists ls'. cbn [map]. f_equal. f_equal.
    unfold add. cbn [fst snd fold_left]. f_equal. change (i :: t) with ([i] ++ t). rewrite bytes_app, app_assoc. reflexivity.
Qed.
(** The iteration with the line-free event. *)
Lemma iter_free i r ls : in_fifoerr i = false -> line_free i = true -> calm (snd (a_iter (r, ls) i)) ->
  exists ls', a_iter (r, ls) i = ((0, []), ls',
    if ((0 <? length (snd (add r [i])))%nat || negb (fst (add r [i]) =? 0)) then ([(R_packet, add r [i])], [add r [i]]) else ([], [])).
Proof.
  intros Hf Hl Hc. destruct (iter_plain i r ls _ Hf Hc eq_refl) as (ls' & ->). exists ls'. unfold rx_iter. rewrite Hf, Hl. cbn [flush_if andb fst snd app].
  unfold add, bytes_of. cbn [flat_map fold_left fst snd]. rewrite app_nil_r.
  set (st := status_after (fst r) (event_of i)). set (bs := snd r ++ byte_of (event_of i)).
  destruct ((0 <? length bs)%nat || negb (st =? 0)) eqn:E.
  - reflexivity.
  - apply orb_false_elim in E as (E1 & E2). apply Nat.ltb_ge in E1. destruct bs; [|cbn in E1; lia]. cbn. apply negb_false_iff, Z.eqb_eq in E2. rewrite E2. reflexivity.
Qed.
(** After a line-free event nothing is pending. *)
Lemma free_empty x i : line_free i = true -> fst (fst (a_iter x i)) = (0, []).
Proof.
  intros Hl. destruct x as (r & (b & since)). unfold a_iter. set (t := busy_timeout _ _ _). clearbody t.
  destruct (rx_iter t i r) as ((r' & o) & c) eqn:E. cbn [fst]. unfold rx_iter in E. rewrite Hl in E.
  destruct (flush_if t R_timeout 4 r) as (r1 & o1). destruct (flush_if (in_fifoerr i) R_fifo 2 r1) as (r2 & o2). cbn [andb fst snd] in E.
  set (st := status_after (fst r2) (event_of i)) in *. set (bs := snd r2 ++ byte_of (event_of i)) in *.
  destruct ((0 <? length bs)%nat || negb (st =? 0)) eqn:Ed; cbn [flush_if] in E; cbn [fst snd] in E.
  - change (flush_if (length [] =? 32)%nat R_full 2 (0, [])) with ((0, []) : rxs, @nil (reason * rxs)) in E. cbv iota beta in E. injection E as <- _ _. reflexivity.
  - apply orb_false_elim in Ed as (E1 & E2). apply Nat.ltb_ge in E1. apply negb_false_iff, Z.eqb_eq in E2. destruct bs; [|cbn in E1; lia].
    change (flush_if (length [] =? 32)%nat R_full 2 (st, [])) with ((st, []) : rxs, @nil (reason * rxs)) in E. cbv iota beta in E. injection E as <- _ _. congruence.
Qed.
Lemma seg_start l1 x : fst x = (0, []) -> fresh_start l1 -> fst (fst (a_run x l1)) = (0, []).
Proof.
  intros Hx [->|(l0 & j & -> & Hj)]; [exact Hx|]. rewrite a_run_app. destruct (a_run x l0) as (y & o1). cbn [a_run].
  pose proof (free_empty y j Hj). destruct (a_iter y j). exact H.
Qed.

Lemma seg_report l1 l2 i x : fst x = (0, []) -> fresh_start l1 -> Forall (fun j => line_free j = false) l2 -> line_free i = true -> nothing_lost (l2 ++ [i]) ->
  let o := snd (a_run (fst (a_run x l1)) (l2 ++ [i])) in Forall calm o -> (1 <= length (bytes_of (l2 ++ [i])) <= 31)%nat ->
  flat_map fst o = [(R_packet, (status_of (l2 ++ [i]), bytes_of (l2 ++ [i])))] /\ flat_map snd o = [(status_of (l2 ++ [i]), bytes_of (l2 ++ [i]))].
Proof.
  intros Hx Hs Hl Hi Hn o Hc Hb. pose proof (seg_start l1 x Hx Hs) as S. unfold o in *. clear o. destruct (fst (a_run x l1)) as (r & ls). cbn [fst] in S. apply (fun p => conj p I) in S.
  rewrite a_run_app in Hc |- *. apply Forall_app in Hn as (Hn1 & Hn2). inversion Hn2; subst. 
  rewrite bytes_app in Hb |- *. rewrite app_length in Hb.
  revert Hc. destruct (a_run (r, ls) l2) as (y & o1) eqn:E1. cbn [a_run] in *. destruct (a_iter y i) as (z & o2) eqn:E2. cbn [snd] in *. intros Hc.
  apply Forall_app in Hc as (C1 & C2). inversion C2; subst.
  destruct (seg_quiet l2 r ls Hn1 Hl) as (ls' & Q). { rewrite E1. exact C1. } { rewrite (proj1 S). cbn [app snd]. lia. }
  rewrite E1 in Q. injection Q as -> ->. destruct (iter_free i (add r l2) ls') as (ls2 & F); auto. { rewrite E2. auto. }
  rewrite E2 in F. apply (f_equal snd) in F. cbn [snd] in F. subst o2. 
  assert (AD : add (add r l2) [i] = (status_of (l2 ++ [i]), bytes_of l2 ++ bytes_of [i])).
  { rewrite (proj1 S). unfold add, status_of. cbn [fst snd app]. rewrite fold_left_app. reflexivity. }
  rewrite AD. cbn [fst snd]. rewrite app_length. destruct (Nat.ltb_spec 0 (length (bytes_of l2) + length (bytes_of [i]))); [|lia]. cbn [orb].
  rewrite !flat_map_app. cbn [flat_map app fst snd]. 
  assert (Z1 : flat_map fst (map (fun _ : inp0 => (@nil (reason * rxs), @nil rxs)) l2) = []) by (clear; induction l2; cbn; auto).
  assert (Z2 : flat_map snd (map (fun _ : inp0 => (@nil (reason * rxs), @nil rxs)) l2) = []) by (clear; induction l2; cbn; auto).
  rewrite Z1, Z2. auto.
Qed.

(** ** 32 bytes *)
Lemma clean_status l : Forall clean l -> forall s, fold_left (fun s i => status_after s (event_of i)) l s = s.
Proof. induction 1 as [|i t (A & B) F IH]; intros s; cbn [fold_left]; auto. unfold status_after at 2. rewrite A, B. apply IH. Qed.
Lemma byte_at l : forall n, (n < length (bytes_of l))%nat -> exists a i b, l = a ++ i :: b /\ length (bytes_of a) = n /\ length (bytes_of [i]) = 1%nat.
Proof.
  induction l as [|i t IH]; intros n H; [cbn in H; lia|]. change (i :: t) with ([i] ++ t) in H. rewrite bytes_app, app_length in H.
  assert (D : length (bytes_of [i]) = 0%nat \/ length (bytes_of [i]) = 1%nat).
  { unfold bytes_of. cbn. rewrite app_nil_r. unfold byte_of. destruct (_ && _); cbn; auto. }
  destruct n as [|n]; [destruct D as [D|D]|].
  - destruct (IH 0%nat ltac:(lia)) as (a & j & b & -> & L & J). exists (i :: a), j, b. split; [reflexivity|]. split; [|exact J].
    change (i :: a) with ([i] ++ a). rewrite bytes_app, app_length. lia.
  - exists [], i, t. auto.
  - destruct D as [D|D].
    + destruct (IH (S n) ltac:(lia)) as (a & j & b & -> & L & J). exists (i :: a), j, b. split; [reflexivity|]. split; [|exact J].
      change (i :: a) with ([i] ++ a). rewrite bytes_app, app_length. lia.
    + destruct (IH n ltac:(lia)) as (a & j & b & -> & L & J). exists (i :: a), j, b. split; [reflexivity|]. split; [|exact J].
      change (i :: a) with ([i] ++ a). rewrite bytes_app, app_length. lia.
Qed.
Lemma iter_full i r ls : in_fifoerr i = false -> line_free i = false -> calm (snd (a_iter (r, ls) i)) -> length (snd r ++ bytes_of [i]) = 32%nat ->
  exists ls', a_iter (r, ls) i = ((0, []), ls', ([(R_full, (2, snd r ++ bytes_of [i]))], [])).
Proof.
  intros Hf Hl Hc Hn. destruct (iter_plain i r ls _ Hf Hc eq_refl) as (ls' & ->). exists ls'. unfold rx_iter. rewrite Hf, Hl. cbn [andb fst snd app flush_if].
  unfold bytes_of in *. cbn [flat_map] in *. rewrite app_nil_r in *. rewrite Hn. reflexivity.
Qed.
Lemma nil_outputs (l : list inp0) : flat_map fst (map (fun _ : inp0 => (@nil (reason * rxs), @nil rxs)) l) = [] /\ flat_map snd (map (fun _ : inp0 => (@nil (reason * rxs), @nil rxs)) l) = [].
Proof. induction l as [|a l IH]; cbn; auto. Qed.
Lemma seg_full l1 l2 i x : fst x = (0, []) -> fresh_start l1 -> Forall (fun j => line_free j = false) l2 -> line_free i = true -> nothing_lost (l2 ++ [i]) ->
  Forall clean (l2 ++ [i]) ->
  let o := snd (a_run (fst (a_run x l1)) (l2 ++ [i])) in Forall calm o -> length (bytes_of l2) = 32%nat -> bytes_of [i] = [] ->
  flat_map fst o = [(R_full, (2, bytes_of l2))] /\ flat_map snd o = [].
Proof.
  intros Hx Hs Hl Hi Hn Hcl o Hc Hb Hbi. pose proof (seg_start l1 x Hx Hs) as S. unfold o in *. clear o. destruct (fst (a_run x l1)) as (r & ls). cbn [fst] in S. apply (fun p => conj p I) in S.
  destruct (byte_at l2 31) as (a & j & b & -> & La & Lj); [lia|].
  rewrite <- app_assoc in *. cbn [app] in *. change (a ++ j :: b ++ [i]) with (a ++ ([j] ++ b ++ [i])) in *. change (a ++ j :: b) with (a ++ ([j] ++ b)) in *.
  rewrite (a_run_app a) in Hc |- *. change ([j] ++ b ++ [i]) with (j :: (b ++ [i])) in Hc |- *.
  apply Forall_app in Hn as (Hn1 & Hn2). apply Forall_app in Hn2 as (Hn2 & Hn3). apply Forall_app in Hn3 as (Hn3 & Hn4). inversion Hn2; inversion Hn4; subst.
  apply Forall_app in Hl as (Hl1 & Hl2). apply Forall_app in Hl2 as (Hl2 & Hl3). inversion Hl2; subst.
  apply Forall_app in Hcl as (_ & Hcl). apply Forall_app in Hcl as (_ & Hcl). pose proof Hcl as HclA. apply Forall_app in Hcl as (Hcl1 & Hcl2).
  rewrite !bytes_app, !app_length in Hb. assert (Lb : bytes_of b = []) by (destruct (bytes_of b); [reflexivity|cbn [length] in Hb; lia]).
  revert Hc. destruct (a_run (r, ls) a) as (y & o1) eqn:E1. cbn [a_run]. destruct (a_iter y j) as (z & o2) eqn:E2. 
  rewrite ?a_run_app. destruct (a_run z b) as (w & o3) eqn:E3. cbn [a_run] in *. destruct (a_iter w i) as (v & o4) eqn:E4. cbn [snd app] in *. intros Hc.
  apply Forall_app in Hc as (C1 & C2). inversion C2 as [|? ? C3 C4]; subst. apply Forall_app in C4 as (C4 & C5). inversion C5; subst.
  destruct (seg_quiet a r ls Hn1 Hl1) as (ls1 & Q1). { rewrite E1; exact C1. } { rewrite (proj1 S). cbn [app snd]. lia. }
  rewrite E1 in Q1. injection Q1 as -> ->.
  destruct (iter_full j (add r a) ls1) as (ls2 & Q2); auto. { rewrite E2; auto. } { rewrite (proj1 S). cbn [add snd app]. rewrite app_length. lia. }
  rewrite E2 in Q2. pose proof (f_equal snd Q2) as Q2'. apply (f_equal fst) in Q2. cbn [fst snd] in Q2, Q2'. subst z o2.
  destruct (seg_quiet b (0, []) ls2 Hn3 Hl3) as (ls3 & Q3). { exact (eq_ind_r (x := (w, o3)) (fun q => Forall calm (snd q)) C4 E3). } { cbn [app snd]. rewrite Lb. cbn. lia. }
  apply (eq_trans (eq_sym E3)) in Q3. injection Q3 as -> ->.
  destruct (iter_free i (add (0, []) b) ls3) as (ls4 & Q4); auto. { rewrite E4; auto. }
  rewrite E4 in Q4. apply (f_equal snd) in Q4. cbn [snd] in Q4. subst o4.
  assert (AD : add (add (0, []) b) [i] = (0, [])).
  { unfold add. cbn [fst snd app]. rewrite Lb, Hbi. rewrite <- fold_left_app. rewrite (clean_status _ HclA). reflexivity. }
  rewrite AD. cbn [fst snd length Nat.ltb Nat.leb orb negb Z.eqb].
  destruct (nil_outputs a) as (A1 & A2). destruct (nil_outputs b) as (B1 & B2).
  cbn [flat_map]. rewrite !flat_map_app, A1, A2. cbn [flat_map app fst snd]. rewrite !flat_map_app, B1, B2. rewrite (proj1 S). cbn [app fst snd add]. split; [|reflexivity]. change (a ++ j :: b) with (a ++ [j] ++ b). rewrite !bytes_app, Lb, !app_nil_r. reflexivity.
Qed.
