(** T_Uart.v -- property theorems C14..C20 (UART receiver). *)
From Verif Require Import Base S_Containers M_ShiftReg S_Line M_Dsp M_Uart D_Uart P_UartRun P_UartErr.

(** C14: in every stream, a byte reported without error at call [k] is carried by a valid AMI frame
    found in the 168 samples before that call (at the strongest phase). *)
Theorem C14_uart_sound : forall l, exists u outs, mrun ua_call (ua_new PARITY_EVEN) l = Ok (u, outs) /\
  forall k o, nth_error outs k = Some (Some (o, false)) ->
    (168 <= k)%nat /\
    let w := map s16 (lastn 168 (map sym_of (firstn k l))) in
    exists ph, dominant w ph /\ frame_ok (symbols w ph) o.
Proof. exact uart_sound. Qed.
Print Assumptions C14_uart_sound.

(** A line signal: each symbol is 8 samples of pulse and 8 samples of nothing. *)
Definition ex_wave (s : list Z) : list (Z * Z * bool) :=
  flat_map (fun v => repeat (v, 0, false) 8 ++ repeat (0, 0, false) 8) s.
Definition ex_A5 : list Z := [100; 0; -100; 0; 100; -100; 0; 100; 0; -100; 0].

(** 0xA5 after one idle sample: reported at call 169 (idle sample, 168 samples, report). *)
Example C14_ex : exists u outs,
  mrun ua_call (ua_new PARITY_EVEN) ((0, 7, true) :: ex_wave ex_A5) = Ok (u, outs) /\
  nth_error outs 169 = Some (Some (165, false)).
Proof. ex_solve. Qed.
Example C14_ex_frame : frame_ok ex_A5 165.
Proof.
  constructor; try (vm_compute; congruence); try (cbn; lia); auto.
  intros i Hi. do 8 (destruct i as [|i]; [vm_compute; split; congruence|]). lia.
Qed.

(** C15: after any history that left the receiver waiting for a start pulse, every window of 168
    samples beginning with a pulse whose strongest phase carries a frame for [d] is reported at the
    169th sample as [d] without error, and nothing is reported before. *)
Theorem C15_uart_complete : forall h u outs frame x o0 e0 y o1 e1 p d,
  mrun ua_call (ua_new PARITY_EVEN) h = Ok (u, outs) -> ua_receiving u = false ->
  length frame = 167%nat -> s16 x <> 0 ->
  let w := map s16 (x :: map sym_of frame) in
  dominant w p -> frame_ok (symbols w p) d ->
  exists u', mrun ua_call u ((x, o0, e0) :: frame ++ [(y, o1, e1)]) =
      Ok (u', repeat None 168 ++ [Some (d, false)]).
Proof. exact uart_frame_decoded. Qed.
Print Assumptions C15_uart_complete.

(** The hypotheses are met by the waveform above: phase 0 is dominant and carries 0xA5. *)
Example C15_ex :
  let w := map s16 (map sym_of (firstn 168 (ex_wave ex_A5))) in
  dominant w 0 /\ symbols w 0 = ex_A5 /\
  exists u, mrun ua_call (ua_new PARITY_EVEN) [(0, 0, false)] = Ok (u, [None]) /\ ua_receiving u = false.
Proof.
  cbn zeta. split; [|split; [vm_compute; reflexivity|ex_solve]].
  split; [lia|]. split; [vm_compute; reflexivity|]. split; [intros; lia|].
  intros p (H1 & H2). do 8 (destruct p as [|p]; [vm_compute; congruence|]). lia.
Qed.

(** C16: if the strongest phase differs from a valid frame in exactly one symbol, the report has the
    error flag set. *)
Theorem C16_single_symbol_error_flagged : forall h u outs frame x o0 e0 y o1 e1 p s d,
  mrun ua_call (ua_new PARITY_EVEN) h = Ok (u, outs) -> ua_receiving u = false ->
  length frame = 167%nat -> s16 x <> 0 ->
  let w := map s16 (x :: map sym_of frame) in
  dominant w p -> frame_ok s d -> one_symbol_corrupted s (symbols w p) ->
  exists u' o, mrun ua_call u ((x, o0, e0) :: frame ++ [(y, o1, e1)]) =
      Ok (u', repeat None 168 ++ [Some (o, true)]).
Proof. exact uart_corrupted_flagged. Qed.
Print Assumptions C16_single_symbol_error_flagged.

(** Lost pulse, spurious pulse, flipped polarity. *)
Definition ex_bad1 : list Z := [100; 0; 0; 0; 100; -100; 0; 100; 0; -100; 0].
Definition ex_bad2 : list Z := [100; 0; -100; 0; 100; -100; 0; 100; 0; -100; 100].
Definition ex_bad3 : list Z := [100; 0; -100; 0; -100; -100; 0; 100; 0; -100; 0].
Example C16_ex_corrupted :
  one_symbol_corrupted ex_A5 ex_bad1 /\ one_symbol_corrupted ex_A5 ex_bad2 /\ one_symbol_corrupted ex_A5 ex_bad3.
Proof.
  split; [|split]; (split; [reflexivity|]); [exists 2%nat|exists 10%nat|exists 4%nat];
  (split; [cbn; lia|]); (split; [vm_compute; congruence|]);
  intros j Hj; do 11 (destruct j as [|j]; [first [congruence|reflexivity]|]); destruct j; reflexivity.
Qed.
Example C16_ex : exists u1 o1 u2 o2 u3 o3,
  mrun ua_call (ua_new PARITY_EVEN) ((0, 7, true) :: ex_wave ex_bad1) = Ok (u1, o1) /\
  mrun ua_call (ua_new PARITY_EVEN) ((0, 7, true) :: ex_wave ex_bad2) = Ok (u2, o2) /\
  mrun ua_call (ua_new PARITY_EVEN) ((0, 7, true) :: ex_wave ex_bad3) = Ok (u3, o3) /\
  nth_error o1 169 = Some (Some (167, true)) /\ nth_error o2 169 = Some (Some (165, true)) /\
  nth_error o3 169 = Some (Some (165, true)).
Proof. ex_solve. Qed.

(** C17: negating every sample changes no output, in any parity mode. *)
Theorem C17_polarity_independent : forall p l, Forall (fun i => s16 (sym_of i) <> -32768) l ->
  exists u v outs, mrun ua_call (ua_new p) l = Ok (u, outs) /\
    mrun ua_call (ua_new p) (map (fun i => let '(x, o, e) := i in (- x, o, e)) l) = Ok (v, outs).
Proof. exact uart_polarity. Qed.
Print Assumptions C17_polarity_independent.

Example C17_ex : exists u outs,
  mrun ua_call (ua_new PARITY_EVEN) ((0, 7, true) :: ex_wave (map Z.opp ex_A5)) = Ok (u, outs) /\
  nth_error outs 169 = Some (Some (165, false)).
Proof. ex_solve. Qed.

(** C18: no sequence of Update calls is undefined, in any parity mode, whatever the samples. *)
Theorem C18_uart_no_ub : forall p l, exists u outs, mrun ua_call (ua_new p) l = Ok (u, outs).
Proof. exact uart_no_ub. Qed.
Print Assumptions C18_uart_no_ub.

Example C18_ex : exists u outs,
  mrun ua_call (ua_new PARITY_NONE) ((0, 7, true) :: ex_wave [-32768; 65536; 5; 0; 99999999; 1; 2; 3; 4; 5]) = Ok (u, outs) /\
  nth_error outs 153 = Some (Some (5, true)).
Proof. ex_solve. Qed.

(** C19 is false: with a parity bit PrintShiftreg reads past the end of the register. *)
Theorem C19_print_refuted : forall p l u outs, mrun ua_call (ua_new p) l = Ok (u, outs) -> p <> PARITY_NONE ->
  ua_print_shiftreg u = UB AssertFailed.
Proof. exact print_parity_ub. Qed.
Print Assumptions C19_print_refuted.

(** C19 holds without parity: 160 values are printed. *)
Theorem C19_print_partial : forall l u outs, mrun ua_call (ua_new PARITY_NONE) l = Ok (u, outs) ->
  exists vs, ua_print_shiftreg u = Ok vs /\ length vs = 160%nat.
Proof. exact print_none_ok. Qed.
Print Assumptions C19_print_partial.

Example C19_ex : exists u outs, mrun ua_call (ua_new PARITY_EVEN) [(0, 0, false)] = Ok (u, outs) /\
  ua_print_shiftreg u = UB AssertFailed.
Proof. ex_solve. Qed.

(** C20 is false: after 2^32+2 zero samples a byte is reported. *)
Theorem C20_idle_refuted : forall p, exists l u outs,
  Forall (fun i => s16 (sym_of i) = 0) l /\ Z.of_nat (length l) = 4294967298 /\
  mrun ua_call (ua_new p) l = Ok (u, outs) /\ exists k o e, nth_error outs k = Some (Some (o, e)).
Proof. exact uart_idle_reports. Qed.
Print Assumptions C20_idle_refuted.

(** C20, what holds: up to 2^32+1 zero samples after construction report nothing. *)
Theorem C20_idle_partial : forall p l, Forall (fun i => s16 (sym_of i) = 0) l ->
  Z.of_nat (length l) <= 4294967297 ->
  exists u, mrun ua_call (ua_new p) l = Ok (u, repeat None (length l)).
Proof. exact uart_idle_upto. Qed.
Print Assumptions C20_idle_partial.

(** C20, what holds for any stream of up to 2^32 samples: every report, with or without error, is
    made exactly 168 calls after a non-zero sample. *)
Theorem C20_reports_need_pulse_partial : forall l u outs, mrun ua_call (ua_new PARITY_EVEN) l = Ok (u, outs) ->
  (Z.of_nat (length l) <= 4294967296) ->
  forall k o e, nth_error outs k = Some (Some (o, e)) ->
    (168 <= k)%nat /\ exists i, nth_error l (k - 168) = Some i /\ s16 (sym_of i) <> 0.
Proof. exact uart_reports_need_pulse. Qed.
Print Assumptions C20_reports_need_pulse_partial.

Example C20_ex : exists u, mrun ua_call (ua_new PARITY_EVEN) (repeat (0, 0, false) 300) = Ok (u, repeat None 300).
Proof. ex_solve. Qed.
