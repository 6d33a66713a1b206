(** P_Core0Run.v -- histories of the main loop. *)
From Verif Require Import Base S_Containers D_Containers P_Containers M_Fifo M_Message S_Message D_Message P_Message P_MessageParse
  M_Standalone S_Crc S_Ctrl D_Ctrl P_Ctrl M_Tx D_Tx P_Tx P_TxRun M_HostUart D_Host S_Host P_Host P_HostProps M_Led M_Core1 M_Core0 S_Core0 D_Core0 P_Core0.

(** ** Start *)
Definition start_parts (b : boot) (c : ctrl) : parts := PT (tx_new hw_new (b_j1 b) (b_j2 b)) c host_new lm_init.
Lemma boot_good b : boot_ok b -> exists c s, ctrl_new (b_ctrl b) = Ok c /\ core0_boot b = Ok s /\ inv0 [] s /\ parts_of s = start_parts b c /\
  content (z_rx s) = (0, []) /\ (z_busy s, z_since s) = (true, ms_since_boot (b_now b)).
Proof.
  intros ((L1 & F1) & (L2 & F2) & (L3 & F3) & Be). destruct (new_sim (b_ctrl b)) as (c & E & S). exists c.
  unfold core0_boot. rewrite E. cbn [bind]. eexists. split; [reflexivity|]. split; [reflexivity|]. split; [|split; [reflexivity|split; reflexivity]].
  assert (MO : forall j, length j = 32%nat -> Forall is_byte8 j -> msg_ok (msg_new j)).
  { intros j L F. split; [cbn; lia|]. split; [cbn; lia|]. split; [exact L|]. split; [cbn; lia|exact F]. }
  constructor.
  - constructor.
    + split; [apply (new_inv (b_j1 b) (b_j2 b)); exact L2|]. split; [split; [exact L1|exact F1]|]. apply MO; auto.
    + split; [eauto|]. cbn. unfold ctrl_new in E. injection E as <-. cbn [c_answer m_data]. repeat (apply Forall_cons; [split; vm_compute; congruence|]). apply Forall_nil.
    + exists ah_new. split; [apply new_rel|]. split; [constructor|]. split; [constructor|]. split; [constructor|]. exists []. reflexivity.
  - split; [apply MO; auto|cbn; lia].
  - exact Be.
Qed.

(** ** Runs *)
Definition line_st : Set := (bool * Z)%type.
Definition a_iter (x : rxs * line_st) (i : inp0) : (rxs * line_st) * (list (reason * rxs) * list rxs) :=
  let '(r, (b, since)) := x in
  let t := busy_timeout (in_now i) b since in
  let '(r', o, c) := rx_iter t i r in
  ((r', line_state (in_now i) (event_of i) b (if t then ms_since_boot (in_now i) else since)), (o, c)).
Fixpoint a_run (x : rxs * line_st) (l : list inp0) : (rxs * line_st) * list (list (reason * rxs) * list rxs) :=
  match l with
  | [] => (x, [])
  | i :: t => let '(y, o) := a_iter x i in let '(z, os) := a_run y t in (z, o :: os)
  end.
Definition seen (o : list (Z * act)) : list (reason * rxs) * list rxs := (map described (rx_reports o), map content (to_ctrl o)).
Definition view (s : core0) : rxs * line_st := (content (z_rx s), (z_busy s, z_since s)).

Lemma input_ok_prefix a b : input_ok (a ++ b) -> input_ok a.
Proof.
  assert (F : forall x, factor x a -> factor x (a ++ b)) by (intros x (p & q & ->); exists p, (q ++ b); rewrite <- !app_assoc; reflexivity).
  intros (A & B). split; auto.
Qed.
Lemma text_app a b : text (a ++ b) = text a ++ text b.
Proof. apply flat_map_app. Qed.

Lemma run_from : forall l txt s, inv0 txt s -> Forall in_ok l -> input_ok (txt ++ text l) ->
  exists s' logs, mrun core0_step s l = Ok (s', logs) /\ inv0 (txt ++ text l) s' /\ moves (concat logs) (parts_of s) (parts_of s') /\
    a_run (view s) l = (view s', map seen logs) /\ Forall2 (fun i log => exists a, log = stamp (in_now i) a) l logs.
Proof.
  induction l as [|i l IH]; intros txt s I F T.
  - exists s, []. cbn. rewrite app_nil_r. split; [reflexivity|]. split; [exact I|]. split; [apply moves_nil|]. split; [reflexivity|constructor].
  - inversion F as [|? ? Fi Fl]; subst. cbn [text flat_map] in T. fold (text l) in T. rewrite app_assoc in T.
    destruct (iter_good txt s i I Fi (input_ok_prefix _ _ T)) as (s1 & a & E & I1 & M1 & V & L & _).
    destruct (IH _ s1 I1 Fl T) as (s' & logs & Er & I' & M' & Ar & Fs).
    exists s', (stamp (in_now i) a :: logs). cbn [mrun]. unfold core0_step at 1. rewrite E. cbn [bind]. rewrite Er. cbn [bind].
    split; [reflexivity|]. split; [cbn [text flat_map]; fold (text l); rewrite app_assoc; exact I'|]. split; [cbn [concat]; eapply moves_app; eauto|].
    split; [|constructor; [eauto|exact Fs]].
    cbn [a_run]. unfold view at 1, a_iter. fold (tmo s i). rewrite <- V, <- L. fold (view s1). rewrite Ar. reflexivity.
Qed.

Definition x0 (t : Z) : rxs * line_st := ((0, []), (true, ms_since_boot t)).
Lemma run_good b l : boot_ok b -> Forall in_ok l -> input_ok (text l) ->
  exists c s logs, ctrl_new (b_ctrl b) = Ok c /\ core0_run b l = Ok (s, logs) /\ inv0 (text l) s /\ moves (concat logs) (start_parts b c) (parts_of s) /\
    a_run (x0 (b_now b)) l = (view s, map seen logs) /\ Forall2 (fun i log => exists a, log = stamp (in_now i) a) l logs.
Proof.
  intros B F T. destruct (boot_good b B) as (c & s0 & Ec & E0 & I0 & P0 & V0 & L0). destruct (run_from l [] s0 I0 F T) as (s & logs & Er & I & M & A & Fs).
  exists c, s, logs. unfold core0_run. rewrite E0. cbn [bind]. split; [exact Ec|]. split; [exact Er|]. split; [exact I|]. split; [rewrite <- P0; exact M|].
  split; [|exact Fs]. unfold view in A at 1. rewrite V0, L0 in A. exact A.
Qed.
