(** T_Front.v -- property theorem C94 (from the ADC samples of a line to its packets). *)
From Verif Require Import Base M_Dsp M_Adc M_Core1 S_Adc S_Dsp S_Pio S_Core1 S_Noise S_Front P_Recover P_Front.

(** C94: the ADC converts a line that carries packets of any strong amplitude and either polarity, on any common voltage [V] and with
    every sample off by up to [n]; whatever it converted before ([garb]), and whatever its buffer held, once the line has been quiet for
    [q] >= 5000 samples (16 ms) the receive core has reported the line free, and then it reports exactly the packets of the line. *)
Theorem C94_line_to_packets : forall e0 mem garb q n V l tail raw, Forall (fun x => -255 <= x <= 255) mem -> Forall (fun x => -255 <= x <= 255) (garb ++ raw) ->
  0 <= n <= 410 -> (5000 <= q)%nat -> (410 <= tail)%nat -> Forall (burst_ok n) l -> digitised n V (repeat 0 q ++ voltage l tail) raw ->
  Z.of_nat (length (garb ++ raw)) < 3900000000 ->
  exists s s1 s2 es1 es2 old, core1_new e0 = Ok s /\ mrun core1_sample s (firstn (length garb + q) (values firmware_gain mem (garb ++ raw))) = Ok (s1, es1) /\
    mrun core1_sample s1 (skipn (length garb + q) (values firmware_gain mem (garb ++ raw))) = Ok (s2, es2) /\
    log_of es1 = old ++ [LFree] /\ log_of es2 = flat_map one_packet (map bu_packet l).
Proof. exact front_free. Qed.
Print Assumptions C94_line_to_packets.

(** Two packets of opposite polarity (64, 0 with 62.5 steps, 255, 17 with 90.2 steps), the second one starting at an odd sample, on a common
    voltage of 99.6 steps with a disturbance of up to 70/256 steps and rounding to full steps, after 200 samples of noise. *)
Fixpoint convert (k : Z) (V : Z) (us : list Z) : list Z :=
  match us with [] => [] | u :: t => (V + u + ((k * 7919) mod 141 - 70) + 128) / 256 :: convert (k + 1) (- V) t end.
Fixpoint digitisedb (n V : Z) (us rs : list Z) : bool :=
  match us, rs with [], [] => true | u :: ut, r :: rt => (- n <=? 256 * r - (V + u)) && (256 * r - (V + u) <=? n) && digitisedb n (- V) ut rt | _, _ => false end.
Lemma digitisedb_ok n : forall us V rs, digitisedb n V us rs = true -> digitised n V us rs.
Proof.
  induction us as [|u us IH]; intros V [|r rs] H; cbn [digitised digitisedb] in *; try discriminate; auto.
  apply andb_true_iff in H as (H & H3). apply andb_true_iff in H as (H1 & H2). apply Z.leb_le in H1, H2. auto.
Qed.
Definition ex_bursts : list burst := [BURST 0 16000 (PK 1400 64 [(1%nat, 0)]); BURST 1 (-23100) (PK 1450 255 [(20%nat, 17)])].
Definition ex_ideal : list Z := repeat 0 5000 ++ voltage ex_bursts 410.
Definition ex_raw : list Z := convert 0 25500 ex_ideal.
Definition ex_noise : list Z := map (fun i => (Z.of_nat i * 7919) mod 401 - 200) (seq 0 200).
Example C94_ex : Forall (fun x => -255 <= x <= 255) (ex_noise ++ ex_raw) /\ Forall (burst_ok 198) ex_bursts /\ digitised 198 25500 ex_ideal ex_raw /\
  exists s s1 s2 es1 es2, core1_new true = Ok s /\ mrun core1_sample s (firstn (200 + 5000) (values firmware_gain (repeat 0 256) (ex_noise ++ ex_raw))) = Ok (s1, es1) /\
    mrun core1_sample s1 (skipn (200 + 5000) (values firmware_gain (repeat 0 256) (ex_noise ++ ex_raw))) = Ok (s2, es2) /\
    log_of es2 = [LBusy; LByte 64 false; LByte 0 false; LFree; LBusy; LByte 255 false; LByte 17 false; LFree].
Proof.
  assert (H1 : Forall (fun x => -255 <= x <= 255) (ex_noise ++ ex_raw)) by (apply (boundedb_ok 255); vm_compute; reflexivity).
  assert (H2 : Forall (burst_ok 198) ex_bursts).
  { unfold ex_bursts, burst_ok, strong. repeat (apply Forall_cons || apply Forall_nil); cbn [bu_amp bu_packet pk_gap pk_chars pk_first pk_rest inner_quiet fold_right fst snd Z.abs];
      (split; [lia|]; split; [apply Nat.leb_le; vm_compute; reflexivity|]; split; [cbn; lia|]; repeat (apply Forall_cons || apply Forall_nil); cbn; lia). }
  assert (H3 : digitised 198 25500 ex_ideal ex_raw) by (apply digitisedb_ok; vm_compute; reflexivity).
  split; [exact H1|]. split; [exact H2|]. split; [exact H3|].
  destruct (C94_line_to_packets true (repeat 0 256) ex_noise 5000 198 25500 ex_bursts 410 ex_raw) as (s & s1 & s2 & es1 & es2 & old & E1 & E2 & E3 & _ & E4); auto; try lia.
  { apply (boundedb_ok 255). vm_compute. reflexivity. }
  { rewrite app_length. apply Z.ltb_lt. vm_compute. reflexivity. }
  replace (length ex_noise) with 200%nat in E2, E3 by (vm_compute; reflexivity). exists s, s1, s2, es1, es2. auto.
Qed.
