(** T_UartModes.v -- property C81: the UART receiver with no, even and odd parity. *)
From Verif Require Import Base S_Containers M_ShiftReg S_Line S_LineModes M_Dsp M_Uart D_Uart P_UartModes.

(** C81 (soundness): in every parity mode and every stream, a byte reported without error at call [k]
    is carried by a valid character of that mode in the samples just before that call. *)
Theorem C81_mode_sound : forall p l, exists u outs, mrun ua_call (ua_new p) l = Ok (u, outs) /\
  forall k o, nth_error outs k = Some (Some (o, false)) ->
    let m := mode_of p in
    (nsamp m <= k)%nat /\
    let w := map s16 (lastn (nsamp m) (map sym_of (firstn k l))) in
    exists ph, mdominant m w ph /\ char_ok m (msymbols m w ph) o.
Proof. exact uart_sound_mode. Qed.
Print Assumptions C81_mode_sound.

(** C81 (completeness): after any history that left the receiver waiting for a start pulse, a window of
    152 (no parity bit) or 168 samples beginning with a pulse whose strongest phase carries a character
    for [d] is reported with the next sample as [d] without error, and nothing is reported before. *)
Theorem C81_mode_complete : forall p h u outs mid x o0 e0 y o1 e1 ph d,
  mrun ua_call (ua_new p) h = Ok (u, outs) -> ua_receiving u = false ->
  let m := mode_of p in
  length mid = (nsamp m - 1)%nat -> s16 x <> 0 ->
  let w := map s16 (x :: map sym_of mid) in
  mdominant m w ph -> char_ok m (msymbols m w ph) d ->
  exists u', mrun ua_call u ((x, o0, e0) :: mid ++ [(y, o1, e1)]) = Ok (u', repeat None (nsamp m) ++ [Some (d, false)]).
Proof. exact uart_complete_mode. Qed.
Print Assumptions C81_mode_complete.

(** C81 (one damaged symbol, parity bit present): it is flagged, or the byte is still the one sent. *)
Theorem C81_mode_one_symbol : forall p odd h u outs mid x o0 e0 y o1 e1 ph s d,
  mode_of p = Some odd ->
  mrun ua_call (ua_new p) h = Ok (u, outs) -> ua_receiving u = false -> length mid = 167%nat -> s16 x <> 0 ->
  let w := map s16 (x :: map sym_of mid) in
  mdominant (Some odd) w ph -> char_ok (Some odd) s d -> one_symbol_corrupted s (msymbols (Some odd) w ph) ->
  exists u' o e, mrun ua_call u ((x, o0, e0) :: mid ++ [(y, o1, e1)]) = Ok (u', repeat None 168 ++ [Some (o, e)]) /\
    (e = true \/ o = d).
Proof. exact uart_one_symbol_mode. Qed.
Print Assumptions C81_mode_one_symbol.

(** Without a parity bit the same is false: losing the last pulse of the data turns one valid
    character into another one. *)
Theorem C81_none_one_symbol_refuted : exists s s' d d',
  char_ok None s d /\ char_ok None s' d' /\ one_symbol_corrupted s s' /\ d <> d'.
Proof.
  exists [100; 0; 0; 0; 0; 0; 0; 0; -100; 0], [100; 0; 0; 0; 0; 0; 0; 0; 0; 0], 127, 255.
  assert (T : forall s d, length s = 10%nat -> 0 <= d < 256 -> nth 0 s 0 <> 0 ->
    forallb (fun i => eqb (Z.testbit d (Z.of_nat i)) (nth (S i) s 0 =? 0)) (seq 0 8) = true -> nth 9 s 0 = 0 ->
    alternating (filter nonzero s) -> char_ok None s d).
  { intros s d L B S0 D St A. constructor; auto.
    - intros i Hi. rewrite forallb_forall in D. specialize (D i ltac:(apply in_seq; lia)). apply eqb_prop in D. rewrite D. apply Z.eqb_eq.
    - discriminate. }
  split; [apply T; [reflexivity|lia|discriminate|reflexivity|reflexivity|cbn; lia]|].
  split; [apply T; [reflexivity|lia|discriminate|reflexivity|reflexivity|cbn; lia]|].
  split; [|lia]. split; [reflexivity|]. exists 8%nat. split; [cbn; lia|]. split; [discriminate|].
  intros j Hj. do 10 (destruct j as [|j]; [first [congruence|reflexivity]|]). destruct j; reflexivity.
Qed.
Print Assumptions C81_none_one_symbol_refuted.

(** A line signal: each symbol is 8 samples of pulse and 8 samples of nothing. *)
Definition exm_wave (s : list Z) : list (Z * Z * bool) :=
  flat_map (fun v => repeat (v, 0, false) 8 ++ repeat (0, 0, false) 8) s.
(** 0x7F without parity bit, and 0xFF with an odd parity bit. *)
Definition exm_7F : list Z := [100; 0; 0; 0; 0; 0; 0; 0; -100; 0].
Definition exm_FF : list Z := [100; 0; 0; 0; 0; 0; 0; 0; 0; 0; 0].
Example C81_ex : exists u1 o1 u2 o2 u3 o3,
  mrun ua_call (ua_new PARITY_NONE) ((0, 7, true) :: exm_wave exm_7F) = Ok (u1, o1) /\
  mrun ua_call (ua_new PARITY_ODD) ((0, 7, true) :: exm_wave exm_FF) = Ok (u2, o2) /\
  mrun ua_call (ua_new PARITY_EVEN) ((0, 7, true) :: exm_wave exm_FF) = Ok (u3, o3) /\
  nth_error o1 153 = Some (Some (127, false)) /\ nth_error o2 169 = Some (Some (255, false)) /\
  nth_error o3 169 = Some (Some (255, true)).
Proof. ex_solve. Qed.
Example C81_ex_hyp :
  let w := map s16 (map sym_of (firstn 152 (exm_wave exm_7F))) in
  mdominant None w 0 /\ msymbols None w 0 = exm_7F /\
  let w := map s16 (map sym_of (firstn 168 (exm_wave exm_FF))) in
  mdominant (Some true) w 0 /\ msymbols (Some true) w 0 = exm_FF.
Proof.
  cbn zeta. split; [|split; [vm_compute; reflexivity|split; [|vm_compute; reflexivity]]];
  (split; [lia|]; split; [vm_compute; reflexivity|]; split; [intros; lia|];
   intros p (H1 & H2); do 8 (destruct p as [|p]; [vm_compute; congruence|]); lia).
Qed.
(** The flipped start pulse of 0xFF with odd parity is not noticed, and the byte is right. *)
Example C81_ex_flip : exists u o,
  one_symbol_corrupted exm_FF (map Z.opp exm_FF) /\
  mrun ua_call (ua_new PARITY_ODD) ((0, 7, true) :: exm_wave (map Z.opp exm_FF)) = Ok (u, o) /\
  nth_error o 169 = Some (Some (255, false)).
Proof.
  eexists _, _. split; [|split; [vm_compute; reflexivity|vm_compute; reflexivity]].
  split; [reflexivity|]. exists 0%nat. split; [cbn; lia|]. split; [discriminate|].
  intros j Hj. do 11 (destruct j as [|j]; [first [congruence|reflexivity]|]). destruct j; reflexivity.
Qed.
