(** T_Slow.v -- property theorems C98 (samples per bit), C99 (reception of a line that is sampled slowly), C100 (reception of
    own messages at the actual sampling rate). *)
From Verif Require Import Base M_Dsp M_Core1 M_Clock S_Dsp S_Pio S_Core1 S_Noise S_Slow S_Clock D_Core1 P_Noise P_Slow P_Clock P_SlowOwn.

(** C98, refuted: the receiver does not take 16 samples per bit; whenever it begins ([tau]) and whenever the bits begin ([a]), at least one
    of any 14 bits in a row gets only 15. *)
Theorem C98_sixteen_samples_refuted : forall tau a, exists k ns, 0 <= k < 14 /\
  instants tau sample_time (a + bit_time * k) (a + bit_time * k + bit_time) ns /\ length ns = 15%nat.
Proof. exact short_bit. Qed.
Print Assumptions C98_sixteen_samples_refuted.
(** C98, guarded: every bit gets 15 or 16 samples, and [n] bits get 15.92 [n] to 15.93 [n], up to one. *)
Theorem C98_samples_partial : forall tau a,
  (forall ns, instants tau sample_time a (a + bit_time) ns -> length ns = 15%nat \/ length ns = 16%nat) /\
  (forall n ns, 0 <= n -> instants tau sample_time a (a + bit_time * n) ns ->
     1592 * n - 100 < 100 * Z.of_nat (length ns) < 1593 * n + 100).
Proof.
  intros tau a. split; [exact (per_bit tau a)|]. intros n ns Hn H. change bit_time with 10000000 in H.
  assert (Hl : 0 <= 10000000 * n) by lia. pose proof (instants_count _ _ _ _ _ (eq_refl : 0 < sample_time) Hl H) as C.
  change sample_time with 628000 in C. lia.
Qed.
Print Assumptions C98_samples_partial.
Example C98_ex : sample_time = 628000 /\ bit_time = 10000000 /\ instants 0 sample_time (bit_time * 13) (bit_time * 13 + bit_time) (range 208 15).
Proof.
  split; [reflexivity|]. split; [reflexivity|]. split; [apply range_NoDup|]. intros n. rewrite range_In.
  change sample_time with 628000. change bit_time with 10000000. lia.
Qed.

Fixpoint fallsb (E prev : Z) (ws ys : list Z) : bool :=
  match ws, ys with w :: wt, y :: yt => (negb (w =? 0) || (prev * y <=? E)) && fallsb E w wt yt | _, _ => true end.
Lemma fallsb_ok E ws : forall prev ys, fallsb E prev ws ys = true -> falls E prev ws ys.
Proof.
  induction ws as [|w ws IH]; intros prev [|y ys] H; cbn [falls fallsb] in *; auto. apply andb_true_iff in H as (H1 & H2). split; [|auto].
  intros ->. cbn [Z.eqb negb orb] in H1. apply Z.leb_le. exact H1.
Qed.
(** C99: packets on a line that is sampled up to 1/175 too slowly, with disturbance, are received exactly: each one's bytes in order,
    without error, between one busy and one free event, and nothing else. *)
Theorem C99_slow_line : forall e0 pkts ys, heard_slow pkts ys ->
  exists c c' es, lchain_new e0 = Ok c /\ mrun lchain_step c ys = Ok (c', es) /\ log_of es = LFree :: flat_map packet_log pkts.
Proof. exact slow_packets. Qed.
Print Assumptions C99_slow_line.
(** The firmware's clocks are within that: reading the transmitter's line ([ws], one value per PIO cycle) with the receiver's clock
    skips at most one cycle in 175, whatever the phase. *)
Theorem C99_clocks : forall tau ws vs, 0 <= tau < sample_time -> read_at pio_cycle_time sample_time tau ws vs -> thinned 0 ws vs.
Proof. intros tau ws vs Ht R. exact (proj1 (clocks_thin tau ws vs Ht R)). Qed.
Print Assumptions C99_clocks.
Definition ex99_ws : list Z := waves [(0%nat, 64); (9%nat, 3)].
Definition ex99_vs : list Z := Eval vm_compute in reads 624999 628000 500000 ex99_ws.
Definition disturb99 (A sg : Z) : Z -> nat -> list Z -> list Z :=
  fix go (prev : Z) (n : nat) (ws : list Z) : list Z :=
  match ws with
  | [] => []
  | w :: t => (if w =? prev then A * sg * w else A * sg * (w + prev) / 2) + ((Z.of_nat n * 7919) mod 361 - 180) :: go w (S n) t
  end.
Definition ex99_ys : list Z := Eval vm_compute in disturb99 2300 (-1) 0 5 ex99_vs.
Definition ex99_line : list Z := repeat 100 177 ++ ex99_ys ++ repeat (-100) 250.
Example C99_ex : read_at pio_cycle_time sample_time 500000 ex99_ws ex99_vs /\ length ex99_ws = 359%nat /\ length ex99_vs = 357%nat /\
  heard_slow [[64; 3]] ex99_line /\
  exists c c' es, lchain_new true = Ok c /\ mrun lchain_step c ex99_line = Ok (c', es) /\
    log_of es = [LFree; LBusy; LByte 64 false; LByte 3 false; LFree].
Proof.
  assert (E : ex99_vs = reads 624999 628000 500000 ex99_ws) by (vm_compute; reflexivity).
  assert (R : read_at pio_cycle_time sample_time 500000 ex99_ws ex99_vs).
  { change pio_cycle_time with 624999. change sample_time with 628000. rewrite E. apply reads_at; lia. }
  split; [exact R|]. split; [reflexivity|]. split; [reflexivity|]. split.
  - unfold ex99_line. apply (hs_packet (repeat 100 177) 64 [(9%nat, 3)]).
    + rewrite repeat_length. lia.
    + rewrite repeat_length. lia.
    + apply Forall_forall. intros x Hx. apply repeat_spec in Hx. subst. lia.
    + constructor; [lia|]. constructor; [cbn; lia|constructor].
    + exists (-1), 2100, 2500, 2300, 0%nat, ex99_vs. split; [auto|]. split; [unfold clear_fall; lia|].
      split; [apply (C99_clocks 500000); [change sample_time with 628000; lia|exact R]|].
      split; [apply followsb_ok; vm_compute; reflexivity|]. split; [apply fallsb_ok; vm_compute; reflexivity|]. vm_compute. discriminate.
    + constructor; rewrite ?repeat_length; try lia. apply Forall_forall. intros x Hx. apply repeat_spec in Hx. subst. lia.
  - eexists _, _, _. split; [vm_compute; reflexivity|]. split; vm_compute; reflexivity.
Qed.

(** C100: a message of up to 34 bytes that the transmitter sends without pause (C22-C24) is received exactly, at the actual clocks, whatever the
    phase [tau] of the receiver's clock, in either polarity and with disturbance. *)
Theorem C100_own_message : forall e0 bs tau vs sg P Q idle ys tail, (1 <= length bs <= 34)%nat -> Forall (fun b => 0 <= b < 256) bs ->
  0 <= tau < sample_time -> read_at pio_cycle_time sample_time tau (waves (map (fun b => (0%nat, b)) bs)) vs ->
  sg = 1 \/ sg = -1 -> clear6 P Q -> follows P Q 0 (map (Z.mul sg) vs) ys ->
  (177 <= length idle)%nat -> Z.of_nat (length idle) < 4294960000 -> bounded 599 idle ->
  (200 <= length tail)%nat -> Z.of_nat (length tail) < 4294960000 -> bounded 599 tail ->
  exists c c' es, lchain_new e0 = Ok c /\ mrun lchain_step c (idle ++ ys ++ tail) = Ok (c', es) /\
    log_of es = [LFree; LBusy] ++ map (fun b => LByte b false) bs ++ [LFree].
Proof. exact own_received. Qed.
Print Assumptions C100_own_message.
(** 32 bytes, each 175 cycles: 5600 cycles are read as 5574 samples. *)
Definition ex100_bs : list Z := map (fun n => 7 * Z.of_nat n) (seq 1 32).
Definition ex100_vs : list Z := reads 624999 628000 1000 (waves (map (fun b => (0%nat, b)) ex100_bs)).
Example C100_ex : Forall (fun b => 0 <= b < 256) ex100_bs /\ length ex100_bs = 32%nat /\
  read_at pio_cycle_time sample_time 1000 (waves (map (fun b => (0%nat, b)) ex100_bs)) ex100_vs /\ Z.of_nat (length ex100_vs) = 5574 /\
  clear6 2000 2000 /\ follows 2000 2000 0 (map (Z.mul (-1)) ex100_vs) (map (Z.mul (-2000)) ex100_vs).
Proof.
  split; [apply Forall_map, Forall_forall; intros n Hn; apply in_seq in Hn; lia|]. split; [reflexivity|].
  split; [change pio_cycle_time with 624999; change sample_time with 628000; apply reads_at; lia|].
  split; [vm_compute; reflexivity|]. split; [unfold clear6; lia|]. apply followsb_ok. vm_compute. reflexivity.
Qed.

(** C101: packets of another device that keeps the nominal timing (9600 baud, 11 bits per byte, no pause), at the actual sampling clock.
    Refuted: a packet of 31 or more bytes is always cut in two: the line-free event is raised after some of its bytes [b1], and a
    new packet begins with the next byte [x]. *)
Theorem C101_nominal_packet_refuted : forall e0 b bs tau vs sg P Q idle ys tail, (31 <= length (b :: bs))%nat -> Forall (fun b => 0 <= b < 256) (b :: bs) ->
  0 <= tau < sample_time -> read_at (bit_time / 16) sample_time tau (waves ((0%nat, b) :: map (fun b => (1%nat, b)) bs)) vs ->
  sg = 1 \/ sg = -1 -> clear6 P Q -> follows P Q 0 (map (Z.mul sg) vs) ys ->
  (177 <= length idle)%nat -> Z.of_nat (length idle) < 4294960000 -> bounded 599 idle ->
  (200 <= length tail)%nat -> Z.of_nat (length tail) < 4294960000 -> bounded 599 tail ->
  exists c c' es b1 x b2 more, lchain_new e0 = Ok c /\ mrun lchain_step c (idle ++ ys ++ tail) = Ok (c', es) /\
    b :: bs = b1 ++ x :: b2 /\ b1 <> [] /\ log_of es = LFree :: LBusy :: map (fun b => LByte b false) b1 ++ LFree :: LBusy :: LByte x false :: more.
Proof. exact nominal_cut. Qed.
Print Assumptions C101_nominal_packet_refuted.
(** Guarded: up to 28 bytes are received as one packet. *)
Theorem C101_nominal_packet_partial : forall e0 b bs tau vs sg P Q idle ys tail, (length (b :: bs) <= 28)%nat -> Forall (fun b => 0 <= b < 256) (b :: bs) ->
  0 <= tau < sample_time -> read_at (bit_time / 16) sample_time tau (waves ((0%nat, b) :: map (fun b => (1%nat, b)) bs)) vs ->
  sg = 1 \/ sg = -1 -> clear6 P Q -> follows P Q 0 (map (Z.mul sg) vs) ys ->
  (177 <= length idle)%nat -> Z.of_nat (length idle) < 4294960000 -> bounded 599 idle ->
  (200 <= length tail)%nat -> Z.of_nat (length tail) < 4294960000 -> bounded 599 tail ->
  exists c c' es, lchain_new e0 = Ok c /\ mrun lchain_step c (idle ++ ys ++ tail) = Ok (c', es) /\
    log_of es = [LFree; LBusy] ++ map (fun b => LByte b false) (b :: bs) ++ [LFree].
Proof. exact nominal_received. Qed.
Print Assumptions C101_nominal_packet_partial.
(** [waves] with one idle sixteenth between the (short) characters is the nominal line; 31 bytes of it are read as 5429 or 5430 samples. *)
Definition ex101 (bs : list Z) : list Z := waves ((0%nat, 7) :: map (fun b => (1%nat, b)) bs).
Definition ex101_vs (n : nat) : list Z := reads 625000 628000 0 (ex101 (repeat 7 n)).
Example C101_ex : ex101 [9; 200] ++ [0] = waves_full [(0%nat, 7); (0%nat, 9); (0%nat, 200)] /\
  read_at (bit_time / 16) sample_time 0 (ex101 (repeat 7 30)) (ex101_vs 30) /\ Z.of_nat (length (ex101_vs 30)) = 5429 /\ Z.of_nat (length (ex101_vs 27)) = 4904 /\
  clear6 2000 2000 /\ follows 2000 2000 0 (map (Z.mul 1) (ex101_vs 30)) (map (Z.mul 2000) (ex101_vs 30)).
Proof.
  split; [vm_compute; reflexivity|].
  split; [change (bit_time / 16) with 625000; change sample_time with 628000; apply reads_at; lia|].
  split; [vm_compute; reflexivity|]. split; [vm_compute; reflexivity|]. split; [unfold clear6; lia|]. apply followsb_ok. vm_compute. reflexivity.
Qed.
