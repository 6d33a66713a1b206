(** T_Two.v -- property theorems C126 (two modems transmitting at the same time). *)
From Verif Require Import Base M_Message M_Tx D_Tx S_Two P_Two.

(** After a successful transmission, the last busy period of the bus begins with the bytes of the message; whatever else was heard in
    it was heard within 4 ms of the last byte. *)
Theorem C126_own_period : forall j1 j2 l1 tw m l2, length j2 = 32%nat -> Forall (ev_ok 1) (l1 ++ [(tw, Wake m)]) -> Forall (ev_ok 1) l2 ->
  Forall real_ev ((l1 ++ [(tw, Wake m)]) ++ l2) -> succeeds j1 j2 l1 tw m l2 ->
  exists before a v c hc z re rv x,
    l2 = a ++ (v, Update true false true c) :: hc ++ [(z, Update false re rv x)] /\ z < v + 4000 /\
    periods [] (hears false ((l1 ++ [(tw, Wake m)]) ++ l2)) = before ++ [map HByte (tx_bytes m) ++ hears true hc].
Proof. exact own_period. Qed.
Print Assumptions C126_own_period.

(** Two modems on one bus (they hear the same events, each polling at its own times; one may be behind the other), both transmit
    successfully, in the same busy period: then one message is the beginning of the other. *)
Theorem C126_two_modems_partial : forall j1 j2 l1 tw m l2 k1 k2 l1' tw' m' l2' X Y,
  length j2 = 32%nat -> Forall (ev_ok 1) (l1 ++ [(tw, Wake m)]) -> Forall (ev_ok 1) l2 -> Forall real_ev ((l1 ++ [(tw, Wake m)]) ++ l2) ->
  length k2 = 32%nat -> Forall (ev_ok 1) (l1' ++ [(tw', Wake m')]) -> Forall (ev_ok 1) l2' -> Forall real_ev ((l1' ++ [(tw', Wake m')]) ++ l2') ->
  succeeds j1 j2 l1 tw m l2 -> succeeds k1 k2 l1' tw' m' l2' ->
  hears false ((l1 ++ [(tw, Wake m)]) ++ l2) ++ X = hears false ((l1' ++ [(tw', Wake m')]) ++ l2') ++ Y ->
  length (periods [] (hears false ((l1 ++ [(tw, Wake m)]) ++ l2))) = length (periods [] (hears false ((l1' ++ [(tw', Wake m')]) ++ l2'))) ->
  (exists r, tx_bytes m' = tx_bytes m ++ r) \/ (exists r, tx_bytes m = tx_bytes m' ++ r).
Proof. exact two_modems. Qed.
Print Assumptions C126_two_modems_partial.

Definition two_junk : list Z := repeat 0 32.
Definition two_short : message := MSG 0 0 ([64] ++ repeat 0 31) 1.
Definition two_long : message := MSG 0 0 ([64; 7] ++ repeat 0 30) 2.
(** The bus as both hear it: free for 32 ms, then 64 and 7, then free. *)
Definition two_bus : list (Z * tx_ev) :=
  [(100, Update false false false 0); (20000, Update false false false 0); (32100, Update false false false 0);
   (32400, Update true false false 0); (33200, Update true false true 64); (34400, Update true false true 7); (36000, Update false false false 0)].

(** REFUTED in general: the modem that sends 64 and the modem that sends 64, 7 both succeed. *)
Theorem C126_two_modems_refuted : exists j1 j2 m m' l,
  length j2 = 32%nat /\ Forall (ev_ok 1) ([(0, Wake m)] ++ l) /\ Forall (ev_ok 1) ([(0, Wake m')] ++ l) /\ Forall real_ev l /\
  succeeds j1 j2 [] 0 m l /\ succeeds j1 j2 [] 0 m' l /\ tx_bytes m <> tx_bytes m'.
Proof.
  exists two_junk, two_junk, two_short, two_long, two_bus. split; [reflexivity|].
  assert (A : Forall (ev_ok 1) two_bus) by (repeat (constructor; [cbn; lia|]); constructor).
  split; [|split; [|split; [|split; [|split]]]].
  - constructor; [|exact A]. cbn. split; [|lia]. split; [reflexivity|]. split; [cbn; lia|]. repeat constructor; lia.
  - constructor; [|exact A]. cbn. split; [|lia]. split; [reflexivity|]. split; [cbn; lia|]. repeat constructor; lia.
  - repeat constructor.
  - split; [eexists _, _; split; vm_compute; reflexivity|]. split; [apply busyb_ok; vm_compute; reflexivity|].
    eexists _, _, _. split; [vm_compute; reflexivity|]. split; [reflexivity|]. split; [reflexivity|]. cbn. intuition discriminate.
  - split; [eexists _, _; split; vm_compute; reflexivity|]. split; [apply busyb_ok; vm_compute; reflexivity|].
    eexists _, _, _. split; [vm_compute; reflexivity|]. split; [reflexivity|]. split; [reflexivity|]. cbn. intuition discriminate.
  - discriminate.
Qed.
Print Assumptions C126_two_modems_refuted.
(** The busy period of that bus. *)
Example C126_ex : periods [] (hears false ([(0, Wake two_short)] ++ two_bus)) = [[HByte 64; HByte 7]] /\
  periods [] (hears false ([(0, Wake two_short)] ++ two_bus)) = [] ++ [map HByte (tx_bytes two_short) ++ hears true [(34400, Update true false true 7)]].
Proof. split; reflexivity. Qed.
(** With different bytes the one that does not hear its own reports an error. *)
Example C126_ex_collision : exists t h o, tx_run two_junk two_junk ([(0, Wake (MSG 0 0 ([65; 7] ++ repeat 0 30) 2))] ++ two_bus) = Ok ((t, h), o) /\
  tx_is_idle t = true /\ t_err t = true.
Proof. ex_solve. Qed.
