(** P_HostIrq.v -- interrupted output and input (C53, C74). *)
From Coq Require Import Permutation.
From Verif Require Import Base S_Containers D_Containers P_Containers M_Fifo M_HostUart M_HostIrq S_Host D_HostIrq P_Host P_HostProps.

(** ** Output *)
Lemma ff_empty_q q f : ff_ok 128 f q -> @ff_empty Z f = match q with [] => true | _ => false end.
Proof. intros H. unfold ff_empty; destruct H as (_ & _ & -> & _); destruct q; reflexivity. Qed.
Lemma left_over_ok s q : ff_ok 128 (o_fifo s) q -> left_over s = q.
Proof.
  intros H. unfold left_over. destruct (check_tx_ok 128 _ _ H) as (f & -> & _). apply firstn_all2. destruct H as (_ & _ & _ & H & _). lia.
Qed.
Lemma out_inv l : forall s q s', ff_ok 128 (o_fifo s) q -> out_run l s = Ok s' -> exists q', ff_ok 128 (o_fifo s') q' /\
  Permutation (o_uart s' ++ holding s' ++ q') ((o_uart s ++ holding s ++ q) ++ queued l s) /\
  (no_irq_in_gap l s -> o_uart s' ++ holding s' ++ q' = (o_uart s ++ holding s ++ q) ++ queued l s).
Proof.
  induction l as [|e l IH]; intros s q s' H E; cbn [out_run] in E.
  - injection E as <-. exists q. cbn. rewrite app_nil_r. auto.
  - destruct (out_step s e) as [s1|k] eqn:E1; [|discriminate]. cbn [bind] in E.
    cbn [queued no_irq_in_gap]. rewrite E1.
    set (new := match e with OutQueue c => if (ff_length (o_fifo s) <? ff_length (o_fifo s1))%nat then [c] else [] | _ => [] end).
    assert (St : exists q1, ff_ok 128 (o_fifo s1) q1 /\ Permutation (o_uart s1 ++ holding s1 ++ q1) ((o_uart s ++ holding s ++ q) ++ new) /\
      (match e with OutIrq _ => holding s = [] | _ => True end -> o_uart s1 ++ holding s1 ++ q1 = (o_uart s ++ holding s ++ q) ++ new)).
    { destruct e as [c|w|budget]; cbn [out_step] in E1; unfold new, holding.
      - destruct (o_pc s) eqn:Ep; [|injection E1 as <-; exists q; rewrite Ep, Nat.ltb_irrefl, app_nil_r; auto..].
        assert (Ef : ff_full 128 (o_fifo s) = (length q =? 128)%nat) by (unfold ff_full; destruct H as (_ & _ & -> & _); reflexivity).
        rewrite Ef in E1. destruct (Nat.eqb_spec (length q) 128); [injection E1 as <-; exists q; rewrite Ep, Nat.ltb_irrefl, app_nil_r; auto|].
        destruct (ff_push_ok 128 _ _ c H) as (f & Ef1 & Hf). rewrite Ef1 in E1. cbn [bind] in E1. injection E1 as <-.
        assert (Hq : (length q <= 128)%nat) by apply H. destruct (Nat.ltb_spec (length q) 128); [|lia].
        cbn [o_fifo o_uart o_pc]. unfold ff_length. destruct H as (_ & _ & Lq & _). destruct Hf as (F1 & F2 & F3 & F4) eqn:Eh. rewrite Lq, F3, app_length. cbn [length].
        destruct (Nat.ltb_spec (length q) (length q + 1)); [|lia]. exists (q ++ [c]). cbn [app].
        assert (Eq : o_uart s ++ q ++ [c] = (o_uart s ++ q) ++ [c]) by (rewrite app_assoc; reflexivity). rewrite Eq. auto.
      - destruct (o_pc s) eqn:Ep.
        + injection E1 as <-. exists q. cbn [o_fifo o_uart o_pc]. rewrite app_nil_r. destruct (w && negb (ff_empty (o_fifo s))); cbn [app]; auto.
        + destruct (ff_pop_ok 128 _ _ H) as (f & Ef & Hf). rewrite Ef in E1. cbn [bind] in E1. injection E1 as <-. cbn [o_fifo o_uart o_pc].
          exists (tl q). rewrite app_nil_r. destruct q as [|c q]; cbn [tl app] in *; auto.
        + injection E1 as <-. exists q. cbn [o_fifo o_uart o_pc app]. rewrite app_nil_r. rewrite <- app_assoc. cbn [app]. auto.
      - destruct (check_tx_ok budget _ _ H) as (f & Ef & Hf). rewrite Ef in E1. cbn [bind] in E1. injection E1 as <-. cbn [o_fifo o_uart o_pc].
        exists (skipn budget q). split; [exact Hf|]. rewrite app_nil_r. split.
        + rewrite <- app_assoc. apply Permutation_app_head. rewrite app_assoc.
          rewrite (Permutation_app_comm (firstn budget q)). rewrite <- app_assoc, firstn_skipn. reflexivity.
        + intros Hh. rewrite Hh. cbn [app]. rewrite <- app_assoc, firstn_skipn. reflexivity. }
    destruct St as (q1 & H1 & P1 & O1). destruct (IH s1 q1 s' H1 E) as (q2 & H2 & P2 & O2). exists q2. split; [exact H2|]. split.
    + rewrite P2. rewrite (app_assoc _ new). apply Permutation_app_tail. exact P1.
    + intros (G1 & G2). rewrite (O2 G2), (O1 G1), <- app_assoc. reflexivity.
Qed.
Lemma out_any l s : out_run l out_new = Ok s -> Permutation (o_uart s ++ holding s ++ left_over s) (queued l out_new) /\
  (no_irq_in_gap l out_new -> o_uart s ++ holding s ++ left_over s = queued l out_new).
Proof.
  intros E. destruct (out_inv l out_new [] s (ff_new_ok 128 0 ltac:(lia)) E) as (q & H & P & O). rewrite (left_over_ok _ _ H). cbn in P, O. auto.
Qed.
Lemma out_defined l : forall s q, ff_ok 128 (o_fifo s) q -> exists s', out_run l s = Ok s'.
Proof.
  induction l as [|e l IH]; intros s q H; cbn [out_run]; [eauto|].
  assert (St : exists s1 q1, out_step s e = Ok s1 /\ ff_ok 128 (o_fifo s1) q1).
  { destruct e as [c|w|budget]; cbn [out_step].
    - destruct (o_pc s); eauto. destruct (ff_full 128 (o_fifo s)); eauto. destruct (ff_push_ok 128 _ _ c H) as (f & -> & Hf). cbn. eauto.
    - destruct (o_pc s); eauto. destruct (ff_pop_ok 128 _ _ H) as (f & -> & Hf). cbn. eauto.
    - destruct (check_tx_ok budget _ _ H) as (f & -> & Hf). cbn. eauto. }
  destruct St as (s1 & q1 & -> & H1). cbn [bind]. eauto.
Qed.

(** ** Input *)
Lemma in_buffer_ok s b : lr_ok 128 (i_rx s) b -> in_buffer s = b.
Proof.
  intros (Ld & Lo & Lb & Hc). unfold in_buffer, lr_length. rewrite Lo. apply nth_error_ext. intros i. rewrite nth_error_firstn.
  destruct (Nat.ltb_spec i (length b)); [apply Hc; auto|]. symmetry. apply nth_error_None. lia.
Qed.
Lemma rx_all_ok cs : forall r b, lr_ok 128 r b -> exists r', rx_all cs r = Ok r' /\ lr_ok 128 r' (firstn 128 (b ++ cs)).
Proof.
  induction cs as [|c cs IH]; intros r b H; cbn [rx_all].
  - exists r. rewrite app_nil_r, firstn_all2; [auto|apply H].
  - assert (Hb : (length b <= 128)%nat) by apply H. unfold lr_full. assert (Lo : lr_off r = length b) by apply H. rewrite Lo.
    destruct (Nat.eqb_spec (length b) 128) as [Eb|Nb]; cbn [negb].
    + destruct (IH r b H) as (r' & -> & H'). exists r'. split; auto. rewrite firstn_app, Eb, Nat.sub_diag, firstn_O, app_nil_r in *. exact H'.
    + destruct (lr_push_ok 128 r b c H) as (r1 & -> & H1). cbn [bind]. destruct (Nat.ltb_spec (length b) 128); [|lia].
      destruct (IH r1 _ H1) as (r' & -> & H'). exists r'. split; auto. rewrite <- app_assoc in H'. exact H'.
Qed.
Lemma first_nl_find l : first_nl l = find_nl l.
Proof. induction l as [|c l IH]; cbn [first_nl find_nl]; [reflexivity|]. rewrite IH. reflexivity. Qed.
Lemma clear_ok r b : lr_ok 128 r b -> @lr_ok Z 128 (lr_clear r) [].
Proof. intros (Ld & _). split; [exact Ld|]. split; [reflexivity|]. split; [cbn; lia|]. cbn. intros; lia. Qed.
Lemma zero_ok r b i : lr_ok 128 r b -> @lr_ok Z 128 (LR (upd (lr_data r) i 0) (lr_off r)) (upd b i 0).
Proof.
  intros (Ld & Lo & Lb & Hc). unfold lr_ok. cbn [lr_data lr_off]. rewrite !upd_length. split; [exact Ld|]. split; [exact Lo|]. split; [exact Lb|].
  intros j Hj. rewrite !nth_error_upd. rewrite (Hc j Hj), Ld. bdestr; auto; lia.
Qed.
Lemma in_defined l : forall s b, lr_ok 128 (i_rx s) b -> exists s', in_run l s = Ok s'.
Proof.
  induction l as [|e l IH]; intros s b H; cbn [in_run]; [eauto|].
  assert (St : exists s1 b1, in_step s e = Ok s1 /\ lr_ok 128 (i_rx s1) b1).
  { destruct e as [c| |cs]; cbn [in_step].
    - destruct (i_pc s) as [|x|]; [eauto| |].
      + destruct (rx_all_ok [x] _ _ H) as (r & -> & Hr). cbn [bind]. eexists _, _. split; [reflexivity|exact Hr].
      + eexists _, _. split; [reflexivity|]. cbn. eapply clear_ok; eauto.
    - destruct (i_pc s); [|eauto..]. destruct (first_nl _) as [[|i]|] eqn:En; eauto.
      + eexists _, _. split; [reflexivity|]. cbn. eapply clear_ok; eauto.
      + assert (Hi : (S i < 128)%nat).
        { fold (in_buffer s) in En. rewrite (in_buffer_ok _ _ H), first_nl_find in En. destruct H as (_ & _ & Lb & _). clear - En Lb.
          assert (X : forall l i, find_nl l = Some i -> (i < length l)%nat).
          { induction l as [|c l IHl]; intros j Hj; [discriminate|]. cbn [find_nl] in Hj. destruct (is_nl c); [injection Hj as <-; cbn; lia|].
            destruct (find_nl l); [|discriminate]. injection Hj as <-. specialize (IHl _ eq_refl). cbn. lia. }
          apply X in En. lia. }
        assert (Ld : length (lr_data (i_rx s)) = 128%nat) by apply H.
        rewrite aset_ok by lia. cbn. eexists _, _. split; [reflexivity|]. cbn. apply zero_ok. exact H.
    - destruct (rx_all_ok cs _ _ H) as (r & -> & Hr). cbn. eauto. }
  destruct St as (s1 & b1 & -> & H1). cbn [bind]. eauto.
Qed.

(** [A]: characters arrived so far. *)
Definition ends_line (d : list Z) : Prop := d = [] \/ ends_nl d = true.
Definition in_good (A : list Z) (s : in_state) : Prop :=
  exists done tail b, A = done ++ tail /\ ends_line done /\ i_lines s = nonempty (lines_of [] done) /\ lr_ok 128 (i_rx s) b /\
    match i_pc s with
    | InIdle => b = tail /\ no_nl (removelast tail)
    | InGot c => tail = b ++ [c] /\ no_nl b /\ (length b < 128)%nat
    | InLine => tail = []
    end.
Lemma lines_ends d : ends_line d -> forall acc t, (d = [] -> acc = []) -> lines_of acc (d ++ t) = lines_of acc d ++ lines_of [] t.
Proof.
  induction d as [|c d IH]; intros He acc t Ha; cbn [app lines_of].
  - rewrite Ha by reflexivity. reflexivity.
  - assert (He' : ends_line d).
    { destruct He as [He|He]; [discriminate|]. destruct d as [|x d]; [left; auto|right]. unfold ends_nl in *. cbn [rev] in *.
      destruct (rev d ++ [x]) eqn:Er; [destruct (rev d); discriminate|]. cbn [app] in He. exact He. }
    destruct (is_nl c) eqn:Ec.
    + cbn [app]. f_equal. apply IH; auto.
    + apply IH; auto. intros ->. destruct He as [He|He]; [discriminate|]. unfold ends_nl in He. cbn in He. congruence.
Qed.
Lemma ends_app d t : ends_line d -> ends_line t -> ends_line (d ++ t).
Proof.
  intros Hd [->|Ht]; [rewrite app_nil_r; auto|]. right. unfold ends_nl in *. rewrite rev_app_distr. destruct (rev t); [discriminate|]. exact Ht.
Qed.
Lemma no_nl_removelast l : no_nl l -> no_nl (removelast l).
Proof. intros H. destruct l as [|c l] using rev_ind; [constructor|]. rewrite removelast_last. apply Forall_app in H. apply H. Qed.
Lemma line_tail tail : no_nl (removelast tail) -> forall i, find_nl tail = Some i -> ends_nl tail = true /\ i = length (removelast tail) /\ lines_of [] tail = [removelast tail].
Proof.
  intros Hn i Hf. destruct (ends_nl tail) eqn:En.
  - destruct (ends_split _ En) as (c & Ec & Hc). pose proof (find_nl_end _ c Hn Hc) as X. rewrite <- Ec in X. split; auto. split; [congruence|].
    rewrite Ec at 1. rewrite (lines_app_nonl _ Hn). cbn. rewrite Hc. reflexivity.
  - pose proof (find_nl_none _ (ends_not _ Hn En)). congruence.
Qed.
Lemma nonempty_app a b : nonempty (a ++ b) = nonempty a ++ nonempty b.
Proof. apply filter_app. Qed.

Lemma in_inv l : forall A s s', in_good A s -> calm l s -> in_run l s = Ok s' -> in_good (A ++ arrived l s) s'.
Proof.
  induction l as [|e l IH]; intros A s s' G C E; cbn [in_run] in E.
  - injection E as <-. cbn. rewrite app_nil_r. exact G.
  - destruct (in_step s e) as [s1|k] eqn:E1; [|discriminate]. cbn [bind] in E. cbn [calm arrived] in *. rewrite E1 in *. destruct C as (C1 & C2).
    rewrite app_assoc. eapply IH; [|exact C2|exact E]. clear IH C2 E.
    destruct G as (done & tail & b & EA & Hd & Hl & Hb & Hp).
    destruct e as [c| |cs]; cbn [in_step] in E1.
    + destruct (i_pc s) as [|x|] eqn:Ep.
      * injection E1 as <-. destruct Hp as (-> & Hn). rewrite (in_buffer_ok _ _ Hb) in C1. destruct c as [c|].
        -- destruct (C1 eq_refl) as (C2 & C3). exists done, (tail ++ [c]), tail. rewrite EA, <- app_assoc. split; [reflexivity|]. split; [exact Hd|]. split; [exact Hl|]. split; [exact Hb|]. cbn. auto.
        -- exists done, tail, tail. rewrite app_nil_r. split; [exact EA|]. split; [exact Hd|]. split; [exact Hl|]. split; [exact Hb|]. cbn. auto.
      * destruct Hp as (-> & Hn & Hlt). destruct (rx_all_ok [x] _ _ Hb) as (r & Er & Hr). rewrite Er in E1. cbn [bind] in E1. injection E1 as <-.
        rewrite firstn_all2 in Hr by (rewrite app_length; cbn [length]; lia).
        exists done, (b ++ [x]), (b ++ [x]). split; [destruct c; rewrite app_nil_r; exact EA|]. split; [exact Hd|]. split; [exact Hl|]. split; [exact Hr|]. cbn [i_pc]. rewrite removelast_last. auto.
      * injection E1 as <-. subst tail. exists done, [], []. split; [destruct c; rewrite app_nil_r; exact EA|]. split; [exact Hd|]. split; [exact Hl|]. split; [eapply clear_ok; exact Hb|]. cbn. split; [auto|constructor].
    + rewrite app_nil_r. destruct (i_pc s) as [|x|] eqn:Ep.
      * destruct Hp as (-> & Hn). fold (in_buffer s) in E1. rewrite (in_buffer_ok _ _ Hb), first_nl_find in E1.
        destruct (find_nl tail) as [i|] eqn:En.
        2:{ injection E1 as <-. exists done, tail, tail. rewrite Ep. auto 8. }
        destruct (line_tail _ Hn _ En) as (Ee & Ei & El).
        destruct i as [|i].
        -- injection E1 as <-. exists (done ++ tail), [], []. rewrite app_nil_r. split; [exact EA|]. split; [apply ends_app; auto; right; auto|].
           split; [cbn [i_lines]; rewrite Hl, (lines_ends _ Hd) by auto; rewrite El; destruct (removelast tail); [|discriminate]; rewrite nonempty_app; cbn; rewrite app_nil_r; reflexivity|].
           split; [eapply clear_ok; exact Hb|]. cbn. split; [auto|constructor].
        -- assert (Ld : length (lr_data (i_rx s)) = 128%nat) by apply Hb. assert (Lt : (length tail <= 128)%nat) by apply Hb.
           assert (Hi : (S i < length tail)%nat).
           { destruct (ends_split _ Ee) as (c & Ec & _). rewrite Ec, app_length. cbn [length]. lia. }
           rewrite aset_ok in E1 by lia. cbn [bind] in E1. injection E1 as <-. exists (done ++ tail), [], (upd tail (S i) 0). rewrite app_nil_r. split; [exact EA|]. split; [apply ends_app; auto; right; auto|].
           split; [|split; [apply zero_ok; exact Hb|reflexivity]]. cbn [i_lines]. rewrite Hl, (lines_ends _ Hd) by auto. rewrite El, nonempty_app.
           assert (Ef : firstn (S i) (lr_data (i_rx s)) = removelast tail).
           { transitivity (firstn (S i) tail).
             - apply nth_error_ext. intros j. rewrite !nth_error_firstn. destruct (Nat.ltb_spec j (S i)); auto. apply Hb. lia.
             - destruct (ends_split _ Ee) as (c & Ec & _). rewrite Ec at 1. rewrite Ei, firstn_app, firstn_all, Nat.sub_diag, firstn_O, app_nil_r. reflexivity. }
           change (match lr_data (i_rx s) with [] => [] | a :: l0 => a :: firstn i l0 end) with (firstn (S i) (lr_data (i_rx s))). rewrite Ef. destruct (removelast tail); [discriminate|reflexivity].
      * injection E1 as <-. exists done, tail, b. rewrite Ep. auto 8.
      * injection E1 as <-. exists done, tail, b. rewrite Ep. auto 8.
    + destruct (rx_all_ok cs _ _ Hb) as (r & Er & Hr). rewrite Er in E1. cbn [bind] in E1. injection E1 as <-. destruct C1 as (Cp & Cn & Cr & Cl). rewrite Cp in *.
      rewrite (in_buffer_ok _ _ Hb) in *. destruct Hp as (-> & Hn). rewrite firstn_all2 in Hr by (rewrite app_length; lia).
      exists done, (tail ++ cs), (tail ++ cs). rewrite EA, <- app_assoc. split; [reflexivity|]. split; [exact Hd|]. split; [exact Hl|]. split; [exact Hr|]. cbn [i_pc].
      split; [reflexivity|]. destruct cs as [|c cs']; [rewrite app_nil_r; exact Hn|]. rewrite removelast_app by discriminate. apply Forall_app. auto.
Qed.

Lemma calm_exact l s : calm l in_new -> in_run l in_new = Ok s -> i_pc s = InIdle -> no_nl (in_buffer s) ->
  i_lines s = nonempty (lines_of [] (arrived l in_new)) /\ exists done, arrived l in_new = done ++ in_buffer s /\ ends_line done.
Proof.
  intros C E Hp Hn. assert (G : in_good [] in_new).
  { exists [], [], []. split; [reflexivity|]. split; [left; auto|]. split; [reflexivity|]. split; [apply lr_new_ok|]. cbn. split; [auto|constructor]. }
  destruct (in_inv l [] in_new s G C E) as (done & tail & b & EA & Hd & Hl & Hb & Hx). rewrite Hp in Hx. destruct Hx as (-> & _). rewrite (in_buffer_ok _ _ Hb) in *. cbn [app] in EA.
  split; [|exists done; auto]. rewrite EA, (lines_ends _ Hd) by auto. rewrite nonempty_app, Hl.
  pose proof (lines_app_nonl _ Hn [] []) as X. rewrite app_nil_r in X. rewrite X. cbn. rewrite app_nil_r. reflexivity.
Qed.
