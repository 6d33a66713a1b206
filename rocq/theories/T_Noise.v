(** T_Noise.v -- property theorem C92 (reception of a disturbed line). *)
From Verif Require Import Base M_Dsp M_Core1 S_Dsp S_Pio S_Core1 S_Noise D_Core1 P_Noise.

(** C92: whatever the disturbance, as long as flat pulse tops, edges and the quiet line stay in the bounds of S_Noise,
    and whatever the amplitude and polarity of each packet, the receive chain reports exactly the packets on the line:
    each one's bytes in order, without error, between one busy and one free event, and nothing else.
    (Packets with at most 172 not-receiving samples inside, see C65, at least 177 idle samples apart.) *)
Theorem C92_noisy_line : forall e0 pkts ys, heard pkts ys ->
  Forall (fun p => Forall (fun c => Z.of_nat (fst c) < 4294967000 /\ 0 <= snd c < 256) (pk_chars p)) pkts ->
  Forall (fun p => (177 <= pk_gap p)%nat /\ inner_quiet p <= 172) pkts ->
  exists c c' es, lchain_new e0 = Ok c /\ mrun lchain_step c ys = Ok (c', es) /\ log_of es = LFree :: flat_map one_packet pkts.
Proof. exact noisy_packets. Qed.
Print Assumptions C92_noisy_line.

(** Two packets of different amplitude and polarity, with a deterministic disturbance of up to 500 mV everywhere and
    half-height edges. *)
Definition disturb (A sg : Z) : Z -> nat -> list Z -> list Z :=
  fix go (prev : Z) (n : nat) (ws : list Z) : list Z :=
  match ws with
  | [] => []
  | w :: t => (if w =? prev then A * sg * w else A * sg * (w + prev) / 2) + ((Z.of_nat n * 7919) mod 601 - 300) :: go w (S n) t
  end.
Definition ex_p1 : packet := PK 180 64 [(1%nat, 0)].
Definition ex_p2 : packet := PK 190 255 [(20%nat, 17)].
Definition ex_line : list Z :=
  disturb 2300 (-1) 0 5 (waves (pk_chars ex_p1)) ++ disturb 3700 1 0 9 (waves (pk_chars ex_p2)) ++ map (fun n => (Z.of_nat n * 7919) mod 1199 - 599) (seq 0 250).
Example C92_ex : heard [ex_p1; ex_p2] ex_line /\
  exists c c' es, lchain_new true = Ok c /\ mrun lchain_step c ex_line = Ok (c', es) /\
    log_of es = [LFree; LBusy; LByte 64 false; LByte 0 false; LFree; LBusy; LByte 255 false; LByte 17 false; LFree].
Proof.
  split.
  - unfold ex_line. apply heard_packet with (sg := -1) (P := 2000) (Q := 2600); [auto|unfold clear; lia|apply followsb_ok; vm_compute; reflexivity|].
    apply heard_packet with (sg := 1) (P := 3400) (Q := 4000); [auto|unfold clear; lia|apply followsb_ok; vm_compute; reflexivity|].
    constructor; [rewrite map_length, seq_length; lia|rewrite map_length, seq_length; lia|].
    unfold bounded. apply Forall_map, Forall_forall. intros n _. pose proof (Z.mod_pos_bound ((Z.of_nat n * 7919)) 1199 ltac:(lia)). lia.
  - eexists _, _, _. split; [vm_compute; reflexivity|]. split; vm_compute; reflexivity.
Qed.
