(** T_Chain.v -- property theorem C26 (loopback). *)
From Verif Require Import Base M_Uart M_Pio S_Line S_Pio D_Uart D_Chain P_Chain.

(** C26: whatever bytes [bs] are sent, by whatever schedule they reach the transmitter, and for every
    line amplitude from 1400 to 4681 mV, a receiver chain sampling the ideal line once per PIO cycle
    reports exactly those bytes, in order, without error flag, and nothing else.  (The run is limited
    to about 2^32 samples because of C20.  12 further idle samples let the last character through.) *)
Theorem C26_loopback : forall sched bs n A l,
  Forall2 word_of bs (concat sched) -> (175 * length bs + 2 <= n)%nat ->
  1400 <= A <= 4681 -> Z.of_nat (length sched + n) < 4294960000 ->
  map sym_of l = map (fun pins => A * line_level pins) (fst (tx_run pio_init (sched ++ repeat [] n))) ++ repeat 0 12 ->
  exists c c' outs, chain_new = Ok c /\ mrun chain_call c l = Ok (c', outs) /\
    reports outs = map (fun b => (b, false)) bs.
Proof. exact loopback_pio. Qed.
Print Assumptions C26_loopback.

(** C26 for the specified waveform with arbitrary gaps (each below about 2^32 samples). *)
Theorem C26_loopback_wave : forall A cs tail l, 1400 <= A <= 4681 ->
  Forall (fun p => 0 <= snd p < 256) cs -> Forall (fun p => Z.of_nat (fst p) < 4294967000) cs ->
  (12 <= tail)%nat -> Z.of_nat tail < 4294967000 ->
  map sym_of l = map (Z.mul A) (waves cs ++ repeat 0 tail) ->
  exists c c' outs, chain_new = Ok c /\ mrun chain_call c l = Ok (c', outs) /\
    reports outs = map (fun p => (snd p, false)) cs.
Proof. exact loopback. Qed.
Print Assumptions C26_loopback_wave.

(** Two bytes, back to back, at 1400 mV, on the model itself. *)
Example C26_ex :
  let l := map (fun x => (x, 77, true)) (map (fun pins => 1400 * line_level pins)
     (fst (tx_run pio_init ([[]; [165; 60]] ++ repeat [] 400))) ++ repeat 0 12) in
  match chain_new with
  | Ok c => match mrun chain_call c l with
            | Ok (_, outs) => reports outs = [(165, false); (60, false)]
            | UB _ => False end
  | UB _ => False end.
Proof. vm_compute. reflexivity. Qed.
