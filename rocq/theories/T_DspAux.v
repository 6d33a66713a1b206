(** T_DspAux.v -- property theorems C78..C80 (detectors that are not part of the firmware image). *)
From Verif Require Import Base S_Containers M_ShiftReg S_Dsp M_Dsp M_BitRef P_DspAux.

(** C78: LineBusy reports busy exactly when more than N/8 and at most N*5/8 of the last N samples (zeros
    before the first one) lie beyond the level, for every window length, level and history; nothing is undefined. *)
Theorem C78_line_busy : forall N level xs, (1 <= N)%nat -> - 2147483648 < level <= 2147483647 ->
  exists b r, mfold (lb_update N) (lb_new N level) xs = Ok b /\ lb_busy N b = Ok r /\
    (r = true <-> (N / 8 < length (filter (fun x => (level <? x)%Z || (x <? - level)%Z) (lastn N (repeat 0%Z N ++ xs))) <= N * 5 / 8)%nat).
Proof. exact linebusy_spec. Qed.
Print Assumptions C78_line_busy.
Example C78_ex : exists b, mfold (lb_update 16) (lb_new 16 100) (repeat 500 5 ++ [-101; 100; -100]) = Ok b /\ lb_busy 16 b = Ok true.
Proof. ex_solve. Qed.
(** A constant level is not a symbol. *)
Example C78_ex_dc : exists b, mfold (lb_update 16) (lb_new 16 100) (repeat 500 16) = Ok b /\ lb_busy 16 b = Ok false.
Proof. ex_solve. Qed.

(** C79: UARTEdge holds the position (modulo 256) of the first strongest positive value since Reset, 0 if
    there was none. *)
Theorem C79_edge_phase : forall xs,
  (Forall (fun x => x <= 0) xs /\ ed_phase (fold_left ed_update xs ed_new) = 0) \/
  (exists i m, nth_error xs i = Some m /\ 0 < m /\ Forall (fun x => x <= m) xs /\ Forall (fun x => x < m) (firstn i xs) /\
     ed_phase (fold_left ed_update xs ed_new) = Z.of_nat i mod 256).
Proof. exact edge_phase. Qed.
Print Assumptions C79_edge_phase.
Example C79_ex : ed_phase (fold_left ed_update [0; 5; 9; -20; 9; 3] ed_new) = 2.
Proof. reflexivity. Qed.

(** C80: for every signal within +-2340 mV the fast bit detector of the firmware outputs exactly the
    decision on the two probabilities of the reference detector with its coefficient tables. *)
Theorem C80_fast_is_reference : forall xs, bounded 2340 xs ->
  exists b b' ys r r' ps, bit_new = Ok b /\ mrun bit_update b xs = Ok (b', ys) /\
    rb_new = Ok r /\ mrun rb_update r xs = Ok (r', ps) /\
    ys = map (fun p => if 4921 <=? fst p then fst p else if 4921 <=? snd p then - snd p else 0) ps.
Proof. exact fast_is_reference. Qed.
Print Assumptions C80_fast_is_reference.
Example C80_ex : exists r r' ps, rb_new = Ok r /\ mrun rb_update r (repeat 1400 8 ++ repeat 0 8) = Ok (r', ps) /\
  nth_error ps 14 = Some (9800, -9800) /\ nth_error ps 15 = Some (8400, -11200).
Proof. ex_solve. Qed.
