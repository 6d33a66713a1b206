(** T_Pio.v -- property theorems C22..C25 (PIO programs). *)
From Verif Require Import Base M_Pio S_Pio S_Line P_Pio P_PioTc.

(** C22: for every schedule by which the bytes [bs] reach the TX FIFO (followed by enough cycles to
    send them), the line carries exactly the characters of [bs], in order, each preceded by some
    idle gap, and nothing else; the FIFO ends empty. *)
Theorem C22_tx_line_code : forall sched bs n,
  Forall2 word_of bs (concat sched) -> (175 * length bs + 2 <= n)%nat ->
  exists tr sf gaps tail, tx_run pio_init (sched ++ repeat [] n) = (tr, sf) /\
    map line_level tr = waves (combine gaps bs) ++ repeat 0 tail /\
    length gaps = length bs /\ p_tx sf = [].
Proof. exact tx_all_schedules. Qed.
Print Assumptions C22_tx_line_code.

(** C22: the symbols of each character are a valid even-parity AMI frame of the byte. *)
Theorem C22_char_is_frame : forall b, 0 <= b < 256 -> frame_ok (char_symbols b) b.
Proof. exact char_symbols_ok. Qed.
Print Assumptions C22_char_is_frame.

(** Two bytes, the second arriving in the middle of the first. *)
Example C22_ex : exists sf,
  tx_run pio_init ([[]; [165]] ++ repeat [] 50 ++ [[60 * 16843009]] ++ repeat [] 400) =
    (fst (tx_run pio_init ([[]; [165]] ++ repeat [] 50 ++ [[60 * 16843009]] ++ repeat [] 400)), sf) /\
  map line_level (fst (tx_run pio_init ([[]; [165]] ++ repeat [] 50 ++ [[60 * 16843009]] ++ repeat [] 400)))
  = waves [(2%nat, 165); (0%nat, 60)] ++ repeat 0 101 /\ p_tx sf = [].
Proof. ex_solve. Qed.
Example C22_ex_symbols : char_symbols 165 = [1; 0; -1; 0; 1; -1; 0; 1; 0; -1; 0].
Proof. reflexivity. Qed.

(** C23: at any moment of any schedule (no draining needed) the running sum of the line level lies
    between 0 and 8 cycles of "up" -- one half-bit pulse -- and it is 0 when all bytes are sent. *)
Theorem C23_dc_balance : forall sched bs, Forall2 word_of bs (concat sched) ->
  0 <= fold_right Z.add 0 (map line_level (fst (tx_run pio_init sched))) <= 8.
Proof. exact tx_running_balance. Qed.
Print Assumptions C23_dc_balance.
Theorem C23_dc_balance_end : forall sched bs n, Forall2 word_of bs (concat sched) -> (175 * length bs + 2 <= n)%nat ->
  fold_right Z.add 0 (map line_level (fst (tx_run pio_init (sched ++ repeat [] n)))) = 0.
Proof. exact tx_total_balance. Qed.
Print Assumptions C23_dc_balance_end.

Example C23_ex : fold_right Z.add 0 (map line_level (fst (tx_run pio_init ([7] :: repeat [] 9)))) = 8 /\
  fold_right Z.add 0 (map line_level (fst (tx_run pio_init ([7] :: repeat [] 60)))) = 8 /\
  fold_right Z.add 0 (map line_level (fst (tx_run pio_init ([7] :: repeat [] 177)))) = 0.
Proof. ex_solve. Qed.

(** C24 is false: with back-to-back bytes the line does not carry characters of 11 * 16 cycles. *)
Theorem C24_bit_time_refuted : exists sched bs n tr sf,
  Forall2 word_of bs (concat sched) /\ tx_run pio_init (sched ++ repeat [] n) = (tr, sf) /\
  forall gaps tail, length gaps = length bs -> map line_level tr <> waves_full (combine gaps bs) ++ repeat 0 tail.
Proof. exact tx_back_to_back_short. Qed.
Print Assumptions C24_bit_time_refuted.

(** C24, what holds: start, data and parity bits take exactly 16 cycles; the stop bit takes 15 plus
    the gap. *)
Theorem C24_bit_time_partial : forall sched bs n,
  Forall2 word_of bs (concat sched) -> (175 * length bs + 2 <= n)%nat ->
  exists tr sf gaps tail, tx_run pio_init (sched ++ repeat [] n) = (tr, sf) /\
    map line_level tr = waves_15 (combine gaps bs) ++ repeat 0 tail /\ length gaps = length bs.
Proof. exact tx_timing. Qed.
Print Assumptions C24_bit_time_partial.

(** Start pulses of two back-to-back bytes are 175 cycles apart. *)
Example C24_ex : exists tr sf, tx_run pio_init ([255; 255] :: repeat [] 400) = (tr, sf) /\
  nth 1 (map line_level tr) 0 = 0 /\ nth 2 (map line_level tr) 0 = 1 /\
  nth 176 (map line_level tr) 0 = 0 /\ nth 177 (map line_level tr) 0 = 1.
Proof. ex_solve. Qed.

(** C25: for every arrival schedule the output words are the specified ones, nothing else ... *)
Theorem C25_twos_complement : forall sched bs n,
  Forall2 word_of bs (concat sched) -> (62 * length bs + 2 <= n)%nat ->
  exists tr sf, tc_run pio_init (sched ++ repeat [] n) = (tr, sf) /\ p_rx sf = tc_spec true bs /\ p_tx sf = [].
Proof. exact tc_all_schedules. Qed.
Print Assumptions C25_twos_complement.
(** ... and at any moment before that a prefix of them. *)
Theorem C25_twos_complement_prefix : forall sched bs, Forall2 word_of bs (concat sched) ->
  exists l, p_rx (snd (tc_run pio_init sched)) ++ l = tc_spec true bs.
Proof. exact tc_prefix. Qed.
Print Assumptions C25_twos_complement_prefix.

Example C25_ex : exists tr sf, tc_run pio_init ([1; 2] :: repeat [] 60 ++ [[0; 255]; [128 * 16843009]] ++ repeat [] 300) = (tr, sf) /\
  p_rx sf = [65535; 2; 0; 255; 65408].
Proof. ex_solve. Qed.
