(** T_Dsp.v -- property theorems C06..C13, C21. *)
From Verif Require Import Base S_Containers M_ShiftReg S_Dsp M_Dsp P_Dsp.

(** C06: a resampler built with n passes exactly the samples whose index is a multiple of n+1. *)
Theorem C06_resample : forall (A : Type) (n : Z) (xs : list A), 0 <= n < 4294967296 ->
  exists s ys, mrun (fun r x => Ok (rs_update r x)) (rs_new n) xs = Ok (s, ys) /\
    length ys = length xs /\
    forall k x, nth_error xs k = Some x ->
      nth_error ys k = Some (if Z.of_nat k mod (n + 1) =? 0 then Some x else None).
Proof. exact @resample_spec. Qed.
Print Assumptions C06_resample.

Example C06_ex : exists s,
  mrun (fun r x => Ok (rs_update r x)) (rs_new 2) [10; 11; 12; 13; 14; 15; 16]
  = Ok (s, [Some 10; None; None; Some 13; None; None; Some 16]).
Proof. ex_solve. Qed.

(** C07: no overflow in the DC blocker for inputs within +-16000, outputs within +-32001. *)
Theorem C07_dcblock_no_overflow : forall xs, bounded 16000 xs ->
  exists d ys, mrun dc_update dc_new xs = Ok (d, ys) /\ bounded 32001 ys.
Proof. exact dcblock_no_overflow. Qed.
Print Assumptions C07_dcblock_no_overflow.

Example C07_ex : exists d, mrun dc_update dc_new [16000; -16000; 16000] = Ok (d, [16000; -16125; 16000]).
Proof. ex_solve. Qed.

(** The hypothesis is needed: larger steps do overflow. *)
Example C07_needed : mrun dc_update dc_new (repeat (-17000) 1500 ++ [17000; 17000]) = UB SignedOverflow.
Proof. vm_compute. reflexivity. Qed.

(** ... and they are exactly those of the recursion s_k = 256 (x_k - x_(k-1)) + floor(254 s_(k-1) / 256), y_k = floor(s_k / 256), from s = x = 0. *)
Fixpoint dc_spec (s x : Z) (xs : list Z) : list Z :=
  match xs with
  | [] => []
  | v :: t => let s' := 256 * (v - x) + 254 * s / 256 in s' / 256 :: dc_spec s' v t
  end.
Theorem C07_dcblock_exact : forall xs, bounded 16000 xs -> exists d, mrun dc_update dc_new xs = Ok (d, dc_spec 0 0 xs).
Proof.
  intros xs B. enough (H : forall xs, bounded 16000 xs -> forall d x, dc_inv d -> dc_x d = 256 * x -> exists d', mrun dc_update d xs = Ok (d', dc_spec (dc_y d) x xs)) by exact (H xs B dc_new 0 dc_new_inv eq_refl).
  clear xs B. induction xs as [|v xs IH]; intros B d x I E; [exists d; reflexivity|]. inversion B; subst.
  destruct (dc_step d v I ltac:(lia)) as (d1 & E1 & I1 & Ey & Ex). destruct (IH ltac:(assumption) d1 v I1 Ex) as (d' & E').
  exists d'. cbn [mrun]. rewrite E1. cbn [bind]. rewrite E'. cbn [bind dc_spec]. rewrite Ey, E. replace (256 * v - 256 * x + 254 * dc_y d / 256) with (256 * (v - x) + 254 * dc_y d / 256) by ring. reflexivity.
Qed.
Print Assumptions C07_dcblock_exact.
Example C07_exact_ex : dc_spec 0 0 [1400; 1400; -3] = [1400; 1389; -25].
Proof. vm_compute. reflexivity. Qed.

(** C08: after any history, when the input stays constant the output magnitude never grows, is 0 or
    -1 from the 1486th constant sample on, and does not change any more. *)
Theorem C08_dcblock_settles : forall hist c m,
  bounded 16000 hist -> -16000 <= c <= 16000 ->
  exists d ys, mrun dc_update dc_new (hist ++ repeat c (S m)) = Ok (d, ys) /\
    length ys = (length hist + S m)%nat /\
    (forall k a b, (length hist <= k)%nat ->
       nth_error ys k = Some a -> nth_error ys (S k) = Some b -> Z.abs b <= Z.abs a) /\
    (forall k a, (length hist + 1485 <= k)%nat -> nth_error ys k = Some a -> a = 0 \/ a = -1) /\
    (forall k a b, (length hist + 1485 <= k)%nat ->
       nth_error ys k = Some a -> nth_error ys (S k) = Some b -> b = a).
Proof. exact dcblock_settles. Qed.
Print Assumptions C08_dcblock_settles.

Example C08_ex : exists d ys,
  mrun dc_update dc_new ([-3000; 2500] ++ repeat 1200 2000) = Ok (d, ys) /\
  nth_error ys 2 = Some 1203 /\ nth_error ys 1900 = Some 0.
Proof. ex_solve. Qed.
Example C08_ex_neg : exists d ys,
  mrun dc_update dc_new (repeat (-1200) 2000) = Ok (d, ys) /\ nth_error ys 1900 = Some (-1).
Proof. ex_solve. Qed.

(** C09: the FIR filter outputs floor(dot(last 7 samples, taps) / 2^15), without overflow. *)
Theorem C09_fir_exact : forall buf xs, length buf = 14%nat -> bounded 50000 xs ->
  exists f f' ys, fir_new buf = Ok f /\ mrun fir_update f xs = Ok (f', ys) /\ pointwise fir_spec xs ys.
Proof. exact fir_correct. Qed.
Print Assumptions C09_fir_exact.

(** C09: time invariance -- after any history [h] the output depends on the last seven samples only. *)
Theorem C09_fir_time_invariant : forall buf h w, length buf = 14%nat -> bounded 50000 (h ++ w) -> length w = 7%nat ->
  exists f f' ys, fir_new buf = Ok f /\ mrun fir_update f (h ++ w) = Ok (f', ys ++ [dot w taps / 32768]).
Proof. exact fir_run_window. Qed.
Print Assumptions C09_fir_time_invariant.

(** C09: DC gain 33237/32768: from the seventh equal sample on, after any history. *)
Theorem C09_fir_dc_gain : forall buf h x n, length buf = 14%nat -> bounded 50000 (h ++ repeat x (7 + n)) ->
  exists f f' ys, fir_new buf = Ok f /\
    mrun fir_update f (h ++ repeat x (7 + n)) = Ok (f', ys ++ repeat (33237 * x / 32768) (S n)) /\ length ys = (length h + 6)%nat.
Proof. exact fir_run_dc. Qed.
Print Assumptions C09_fir_dc_gain.

Example C09_ex : exists f f', fir_new (repeat 77 14) = Ok f /\
  mrun fir_update f [1000; 0; 0; 0; 0; 0; 0; -1000] = Ok (f', [-72; 55; 304; 436; 304; 55; -72; 71]).
Proof. ex_solve. Qed.

(** C10: Level follows the documented hysteresis and attenuation. *)
Theorem C10_level_hysteresis : forall xs, bounded 80000000 xs ->
  exists st ys ss, mrun (lv_update (fun z => z)) lv_new xs = Ok (st, ys) /\ hyst_run Idle xs ss /\
    length ss = length xs /\ ys = map (fun p => level_out (fst p) (snd p)) (combine ss xs).
Proof. exact level_correct. Qed.
Print Assumptions C10_level_hysteresis.

Example C10_ex : exists st,
  mrun (lv_update (fun z => z)) lv_new [1399; 1400; 600; 599; -1400; -600; -599; -1399]
  = Ok (st, [142; 1400; 600; 60; -1400; -600; -61; -143]).
Proof. ex_solve. Qed.

(** C11 is false of the code: a full-level sample right after the other polarity is attenuated. *)
Theorem C11_full_level_passes_refuted : exists xs st ys x,
  mrun (lv_update (fun z => z)) lv_new xs = Ok (st, ys) /\
  nth_error xs 1 = Some x /\ 1400 <= Z.abs x /\ nth_error ys 1 <> Some x.
Proof. exists [1400; -1400]. ex_solve. Qed.
Print Assumptions C11_full_level_passes_refuted.

(** C11, guarded: it is passed unchanged if the sample before it was not at or beyond the low level
    of the opposite polarity. *)
Theorem C11_full_level_passes_partial : forall xs st ys k x,
  bounded 80000000 xs ->
  mrun (lv_update (fun z => z)) lv_new xs = Ok (st, ys) ->
  nth_error xs k = Some x -> 1400 <= Z.abs x ->
  (forall p, k <> 0%nat -> nth_error xs (k - 1) = Some p -> (x > 0 -> p > -600) /\ (x < 0 -> p < 600)) ->
  nth_error ys k = Some x.
Proof. exact level_full_passes. Qed.
Print Assumptions C11_full_level_passes_partial.

Example C11_ex : exists st,
  mrun (lv_update (fun z => z)) lv_new [-2000; -599; 1400] = Ok (st, [-2000; -61; 1400]).
Proof. ex_solve. Qed.

(** C12: the bit detector is the matched filter of the last 16 samples. *)
Theorem C12_bit_detector_matched_filter : forall xs, bounded 130000000 xs ->
  exists b b' ys, bit_new = Ok b /\ mrun bit_update b xs = Ok (b', ys) /\ pointwise mf_spec xs ys.
Proof. exact bit_correct. Qed.
Print Assumptions C12_bit_detector_matched_filter.

Example C12_ex : exists b b' ys, bit_new = Ok b /\
  mrun bit_update b (repeat 1400 8 ++ repeat 0 8) = Ok (b', ys) /\
  nth_error ys 14 = Some 9800 /\ nth_error ys 15 = Some 8400.
Proof. ex_solve. Qed.

(** C13: a constant level gives no symbol, from its 16th sample on and after any history [h]. *)
Theorem C13_bit_detector_dc : forall h c n, bounded 130000000 (h ++ repeat c (16 + n)) ->
  exists b b' ys, bit_new = Ok b /\
    mrun bit_update b (h ++ repeat c (16 + n)) = Ok (b', ys ++ repeat 0 (S n)) /\ length ys = (length h + 15)%nat.
Proof. exact bit_run_dc. Qed.
Print Assumptions C13_bit_detector_dc.
(** C13: a line that stays within +-702 mV gives no symbol at all. *)
Theorem C13_bit_detector_quiet : forall xs, bounded 702 xs ->
  exists b b', bit_new = Ok b /\ mrun bit_update b xs = Ok (b', repeat 0 (length xs)).
Proof. exact bit_run_quiet. Qed.
Print Assumptions C13_bit_detector_quiet.
(** C13: the inverted signal gives the inverted symbols. *)
Theorem C13_bit_detector_polarity : forall xs, bounded 130000000 xs ->
  exists b b1 b2 ys, bit_new = Ok b /\ mrun bit_update b xs = Ok (b1, ys) /\
    mrun bit_update b (map Z.opp xs) = Ok (b2, map Z.opp ys).
Proof. exact bit_run_opp. Qed.
Print Assumptions C13_bit_detector_polarity.

(** 702 is the exact limit: +-703 mV can give a symbol. *)
Example C13_ex : bounded 702 [702; -702; 5] /\ exists b b' ys, bit_new = Ok b /\
  mrun bit_update b (repeat 703 8 ++ repeat 0 7) = Ok (b', ys) /\ nth_error ys 14 = Some 4921 /\
  exists b1 zs, mrun bit_update b (map Z.opp (repeat 703 8 ++ repeat 0 7)) = Ok (b1, zs) /\ nth_error zs 14 = Some (-4921).
Proof.
  split; [repeat constructor; lia|]. eexists _, _, _. split; [vm_compute; reflexivity|]. split; [vm_compute; reflexivity|].
  split; [vm_compute; reflexivity|]. eexists _, _. split; vm_compute; reflexivity.
Qed.

(** C21 is false of the code: with a signal inside the ADC range a positive pulse reaches the UART
    as a negative symbol. *)
Theorem C21_symbol_survives_refuted : exists xs b b' ys y,
  bit_new = Ok b /\ mrun bit_update b xs = Ok (b', ys) /\ bounded 4972 xs /\
  nth_error ys 14 = Some y /\ 0 < y /\ s16 y < 0.
Proof.
  exists (repeat 4900 8 ++ repeat 0 7).
  repeat match goal with |- ex _ => eexists end.
  split; [vm_compute; reflexivity|]. split; [vm_compute; reflexivity|].
  split; [repeat constructor; lia|]. ex_conj.
Qed.
Print Assumptions C21_symbol_survives_refuted.

(** C21, guarded: for signals within +-4681 mV every symbol survives the narrowing unchanged. *)
Theorem C21_symbol_survives_partial : forall xs b b' ys,
  bounded 4681 xs -> bit_new = Ok b -> mrun bit_update b xs = Ok (b', ys) ->
  Forall (fun y => s16 y = y) ys.
Proof. exact bit_narrowing_safe. Qed.
Print Assumptions C21_symbol_survives_partial.

Example C21_ex : exists b b' ys, bit_new = Ok b /\
  mrun bit_update b (repeat 4681 8 ++ repeat 0 7) = Ok (b', ys) /\ nth_error ys 14 = Some 32767.
Proof. ex_solve. Qed.
