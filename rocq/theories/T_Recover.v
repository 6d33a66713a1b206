(** T_Recover.v -- property theorem C93 (recovery from any disturbance). *)
From Verif Require Import Base M_Dsp M_Core1 S_Dsp S_Pio S_Core1 S_Noise D_Core1 P_Noise P_Recover P_LineLog T_Noise.

(** C93: whatever was on the line before ([gs]), once it has been quiet for 400 samples ([qs]; 2.6 ms) the line has been
    reported free (nothing is pending from before) and everything from there on is received as by a freshly started receiver: exactly the packets on the (disturbed) line.
    (Less than 2^31 samples altogether: see C20 for what happens after 2^32 idle samples.) *)
Theorem C93_recovery : forall e0 gs qs pkts ys, bounded 1000000 gs -> bounded 599 qs -> (400 <= length qs)%nat ->
  Z.of_nat (length gs + length qs) < 2000000000 -> heard pkts ys -> Z.of_nat (length ys) < 2000000000 ->
  Forall (fun p => Forall (fun c => Z.of_nat (fst c) < 2000000000 /\ 0 <= snd c < 256) (pk_chars p)) pkts ->
  Forall (fun p => (177 <= pk_gap p)%nat /\ inner_quiet p <= 172) pkts ->
  exists c c1 c2 es1 es2 old, lchain_new e0 = Ok c /\ mrun lchain_step c (gs ++ qs) = Ok (c1, es1) /\ mrun lchain_step c1 ys = Ok (c2, es2) /\
    log_of es1 = old ++ [LFree] /\ log_of es2 = flat_map one_packet pkts.
Proof. exact recovered_free. Qed.
Print Assumptions C93_recovery.

(** A frame cut off at both ends (here mistaken for another byte) and a burst of noise; then the disturbed line of C92_ex. *)
Definition ex_garbage : list Z := map (Z.mul 2500) (firstn 100 (skipn 16 (char_wave 37))) ++ map (fun n => (Z.of_nat n * 7919) mod 12001 - 6000) (seq 0 40).
Definition ex_quiet : list Z := map (fun n => (Z.of_nat n * 7919) mod 1199 - 599) (seq 0 400).
Example C93_ex : bounded 1000000 ex_garbage /\ bounded 599 ex_quiet /\ heard [ex_p1; ex_p2] ex_line /\
  exists c c1 c2 es1 es2, lchain_new true = Ok c /\ mrun lchain_step c (ex_garbage ++ ex_quiet) = Ok (c1, es1) /\ mrun lchain_step c1 ex_line = Ok (c2, es2) /\
    log_of es1 = [LByte 217 false; LFree] /\
    log_of es2 = [LBusy; LByte 64 false; LByte 0 false; LFree; LBusy; LByte 255 false; LByte 17 false; LFree].
Proof.
  split; [apply boundedb_ok; vm_compute; reflexivity|]. split; [apply boundedb_ok; vm_compute; reflexivity|]. split; [exact (proj1 C92_ex)|].
  eexists _, _, _, _, _. split; [vm_compute; reflexivity|]. split; [vm_compute; reflexivity|]. split; [vm_compute; reflexivity|]. split; vm_compute; reflexivity.
Qed.
