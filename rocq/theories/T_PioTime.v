(** T_PioTime.v -- property theorem C116 (exact timing of the transmitter). *)
From Verif Require Import Base M_Pio S_Pio S_PioRate S_PioTime P_Pio P_PioTime.

(** C116: for every schedule on which characters reach the FIFO, the line carries, cycle by cycle and at every moment, exactly these
    characters in order, the start pulse of each beginning one cycle after it reached the FIFO or 175 cycles after the one before it, whichever is
    later (the first one not before cycle 2), and nothing else. *)
Theorem C116_exact_timing : forall sched bs, Forall2 word_of bs (concat sched) ->
  map line_level (fst (tx_run pio_init sched)) =
  firstn (length sched) (line_of (starts first_ready (arrivals 0 sched)) bs ++ repeat 0 (length sched)).
Proof. exact tx_exact. Qed.
Print Assumptions C116_exact_timing.

(** ... so a sequence of which every character reaches the FIFO before the one before it has been sent (the [k]-th one before
    cycle [s + 175 * k], [s]: beginning of the first start pulse) goes out without a pause. *)
Theorem C116_no_pause : forall sched a0 arr b bs, Forall2 word_of (b :: bs) (concat sched) -> arrivals 0 sched = a0 :: arr ->
  (forall k x, nth_error arr k = Some x -> x < Z.max (a0 + 1) first_ready + char_cycles * (Z.of_nat k + 1)) ->
  line_of (starts first_ready (arrivals 0 sched)) (b :: bs) = repeat 0 (Z.to_nat (Z.max (a0 + 1) first_ready)) ++ flat_map char_wave_short (b :: bs).
Proof. exact tx_exact_burst. Qed.
Print Assumptions C116_no_pause.

(** Two characters, the second 52 cycles after the first; a third one 400 cycles later. *)
Definition ex116 : list (list Z) := [[]; [165]] ++ repeat [] 50 ++ [[]; [60]] ++ repeat [] 399 ++ [[7]] ++ repeat [] 200.
Example C116_ex : Forall2 word_of [165; 60; 7] (concat ex116) /\ arrivals 0 ex116 = [1; 53; 453] /\ starts first_ready (arrivals 0 ex116) = [2; 177; 454] /\
  nth 453 (map line_level (fst (tx_run pio_init ex116))) 5 = 0 /\ nth 454 (map line_level (fst (tx_run pio_init ex116))) 5 = 1.
Proof.
  split; [|vm_compute; repeat split; reflexivity].
  assert (E : concat ex116 = [165; 60; 7]) by (vm_compute; reflexivity). rewrite E. repeat constructor; unfold word_of; lia.
Qed.
(** Three characters at once: no pause. *)
Example C116_no_pause_ex : Forall2 word_of [1; 2; 3] (concat [[1; 2; 3]]) /\ arrivals 0 [[1; 2; 3]] = [0; 0; 0] /\
  (forall k x, nth_error [0; 0] k = Some x -> x < Z.max (0 + 1) first_ready + char_cycles * (Z.of_nat k + 1)) /\
  starts first_ready [0; 0; 0] = [2; 177; 352].
Proof.
  split; [repeat constructor; unfold word_of; lia|]. split; [reflexivity|]. split; [|reflexivity].
  intros k x H. assert (x = 0) as -> by (destruct k as [|[|k]]; cbn in H; congruence || (destruct k; discriminate)). unfold first_ready, char_cycles. lia.
Qed.
