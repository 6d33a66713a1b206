(** P_SlowDet.v -- the bit detector on the pulses of a line that is sampled a little too slowly (C98). *)
From Verif Require Import Base M_ShiftReg M_Dsp S_Containers S_Dsp P_Containers P_Dsp P_NoiseDet.

(** A pulse of positive polarity at [t], before or at the place where a sample is missing: six or seven sure tops, the next pulse may
    begin at 15. *)
Record pulseA (P Q E : Z) (z : Z -> Z) (t : Z) : Prop := {
  pa_before : forall k, -6 <= k < 0 -> small (z (t + k));
  pa_first : -61 <= z (t + 0) <= Q;
  pa_top : forall k, 0 < k < 7 -> P <= z (t + k) <= Q;
  pa_last : (P <= z (t + 7) <= Q /\ -61 <= z (t + 8) <= E) \/ (-61 <= z (t + 7) <= Q /\ small (z (t + 8)));
  pa_after : forall k, 8 < k < 15 -> small (z (t + k));
  pa_next : forall k, 15 <= k <= 21 -> - Q <= z (t + k) <= 61 }.
(** A pulse behind that place: seven sure tops, the next pulse begins at 16. *)
Record pulseB (P Q : Z) (z : Z -> Z) (t : Z) : Prop := {
  pb_before : forall k, -6 <= k < 0 -> small (z (t + k));
  pb_first : -61 <= z (t + 0) <= Q;
  pb_top : forall k, 0 < k < 8 -> P <= z (t + k) <= Q;
  pb_last : -61 <= z (t + 8) <= Q;
  pb_after : forall k, 8 < k < 16 -> small (z (t + k));
  pb_next : forall k, 16 <= k <= 21 -> - Q <= z (t + k) <= 61 }.

Definition raw (z : Z -> Z) (n : Z) : Z := hsum z n - asum z n.

Section A.
  Variables P Q E : Z.
  Variable z : Z -> Z.
  Variable t : Z.
  Hypothesis HP : 1700 <= P.
  Hypothesis HR : 20 * Q <= 27 * P.
  Hypothesis HE : 0 <= E <= Q.
  Hypothesis HS : Q + 2 * E + 680 <= 4 * P.
  Hypothesis H : pulseA P Q E z t.
  Lemma qa_b k : -6 <= k < 0 -> -61 <= z (t + k) <= 61. Proof. apply (pa_before _ _ _ _ _ H). Qed.
  Lemma qa_f : -61 <= z (t + 0) <= Q. Proof. apply (pa_first _ _ _ _ _ H). Qed.
  Lemma qa_t k : 0 < k < 7 -> P <= z (t + k) <= Q. Proof. apply (pa_top _ _ _ _ _ H). Qed.
  Lemma qa_l : (P <= z (t + 7) <= Q /\ -61 <= z (t + 8) <= E) \/ (-61 <= z (t + 7) <= Q /\ -61 <= z (t + 8) <= 61).
  Proof. apply (pa_last _ _ _ _ _ H). Qed.
  Lemma qa_7 : -61 <= z (t + 7) <= Q. Proof using HE HP H. destruct qa_l; lia. Qed.
  Lemma qa_8 : -61 <= z (t + 8) <= Q. Proof using HE HP H. pose proof (qa_t 1 ltac:(lia)). destruct qa_l; lia. Qed.
  Lemma qa_a k : 8 < k < 15 -> -61 <= z (t + k) <= 61. Proof. apply (pa_after _ _ _ _ _ H). Qed.
  Lemma qa_n k : 15 <= k <= 21 -> -Q <= z (t + k) <= 61. Proof. apply (pa_next _ _ _ _ _ H). Qed.
  Ltac fact1 k := first
    [ let E := fresh in assert (E : 0 < k < 7) by lia; pose proof (qa_t k E); clear E
    | let E := fresh in assert (E : -6 <= k < 0) by lia; pose proof (qa_b k E); clear E
    | let E := fresh in assert (E : 8 < k < 15) by lia; pose proof (qa_a k E); clear E
    | let E := fresh in assert (E : 15 <= k <= 21) by lia; pose proof (qa_n k E); clear E
    | let E := fresh in assert (E : k = 0) by lia; pose proof qa_f; clear E
    | let E := fresh in assert (E : k = 7) by lia; pose proof qa_7; clear E
    | let E := fresh in assert (E : k = 8) by lia; pose proof qa_8; clear E ].
  Ltac all_facts := repeat match goal with |- context [z (t + ?k)] =>
    let v := fresh "v" in fact1 k; set (v := z (t + k)) in *; clearbody v end.
  Ltac abs1 x :=
    assert (0 <= Z.abs x) by apply Z.abs_nonneg; assert (x <= Z.abs x) by lia;
    first [ let E := fresh in assert (E : 0 <= x) by lia; pose proof (Z.abs_eq x E); clear E
          | assert (Z.abs x <= 61) by lia
          | assert (Z.abs x <= Q) by lia; try assert (Z.abs x <= x + 122) by lia | idtac ];
    let a := fresh "a" in set (a := Z.abs x) in *; clearbody a.
  Ltac all_abs := repeat match goal with |- context [Z.abs ?x] => abs1 x end.
  Lemma qa_PQ : P <= Q. Proof. pose proof (qa_t 1 ltac:(lia)). lia. Qed.
  Ltac prep := unfold raw, hsum, asum; norm_idx t; pose proof qa_l; all_facts; pose proof qa_PQ; clear H; all_abs.

  Lemma A13 : 4921 <= raw z (t + 13).  Proof using HP HR HE HS H. prep. lia. Qed.
  Lemma A14 : 4921 <= raw z (t + 14).  Proof using HP HR HE HS H. prep. lia. Qed.
  Lemma A15 : 4921 <= raw z (t + 15).  Proof using HP HR HE HS H. prep. lia. Qed.
  Lemma A_low k : 9 <= k <= 12 -> raw z (t + k) < raw z (t + 13).
  Proof using HP HR HE HS H.
    intros Hk. destruct (Z.eq_dec k 9) as [->|]; [clear Hk; prep; lia|]. destruct (Z.eq_dec k 10) as [->|]; [clear Hk; prep; lia|].
    destruct (Z.eq_dec k 11) as [->|]; [clear Hk; prep; lia|]. destruct (Z.eq_dec k 12) as [->|]; [clear Hk; prep; lia|]. lia.
  Qed.
  Lemma A16 : 2 * raw z (t + 16) < raw z (t + 14) + raw z (t + 15).  Proof using HP HR HE HS H. prep. lia. Qed.
  Lemma A_high k : 17 <= k <= 20 -> raw z (t + k) < raw z (t + 15).
  Proof using HP HR HE HS H.
    intros Hk. destruct (Z.eq_dec k 17) as [->|]; [clear Hk; prep; lia|]. destruct (Z.eq_dec k 18) as [->|]; [clear Hk; prep; lia|].
    destruct (Z.eq_dec k 19) as [->|]; [clear Hk; prep; lia|]. destruct (Z.eq_dec k 20) as [->|]; [clear Hk; prep; lia|]. lia.
  Qed.
  Lemma A_h k : 9 <= k <= 20 -> -1000 <= hsum z (t + k).
  Proof using HP HR HE HS H.
    intros Hk.
    repeat match goal with |- context [t + ?k] => is_var k;
      first [ let go n := (destruct (Z.eq_dec k n) as [->|]) in
        (go 9; [|go 10; [|go 11; [|go 12; [|go 13; [|go 14; [|go 15; [|go 16; [|go 17; [|go 18; [|go 19; [|go 20; [|lia]]]]]]]]]]]]) ] end;
      clear Hk; prep; lia.
  Qed.
End A.

Section B.
  Variables P Q : Z.
  Variable z : Z -> Z.
  Variable t : Z.
  Hypothesis HP : 1700 <= P.
  Hypothesis HR : 20 * Q <= 27 * P.
  Hypothesis H : pulseB P Q z t.
  Lemma qb_b k : -6 <= k < 0 -> -61 <= z (t + k) <= 61. Proof. apply (pb_before _ _ _ _ H). Qed.
  Lemma qb_f : -61 <= z (t + 0) <= Q. Proof. apply (pb_first _ _ _ _ H). Qed.
  Lemma qb_t k : 0 < k < 8 -> P <= z (t + k) <= Q. Proof. apply (pb_top _ _ _ _ H). Qed.
  Lemma qb_l : -61 <= z (t + 8) <= Q. Proof. apply (pb_last _ _ _ _ H). Qed.
  Lemma qb_a k : 8 < k < 16 -> -61 <= z (t + k) <= 61. Proof. apply (pb_after _ _ _ _ H). Qed.
  Lemma qb_n k : 16 <= k <= 21 -> -Q <= z (t + k) <= 61. Proof. apply (pb_next _ _ _ _ H). Qed.
  Ltac fact1 k := first
    [ let E := fresh in assert (E : 0 < k < 8) by lia; pose proof (qb_t k E); clear E
    | let E := fresh in assert (E : -6 <= k < 0) by lia; pose proof (qb_b k E); clear E
    | let E := fresh in assert (E : 8 < k < 16) by lia; pose proof (qb_a k E); clear E
    | let E := fresh in assert (E : 16 <= k <= 21) by lia; pose proof (qb_n k E); clear E
    | let E := fresh in assert (E : k = 0) by lia; pose proof qb_f; clear E
    | let E := fresh in assert (E : k = 8) by lia; pose proof qb_l; clear E ].
  Ltac all_facts := repeat match goal with |- context [z (t + ?k)] =>
    let v := fresh "v" in fact1 k; set (v := z (t + k)) in *; clearbody v end.
  Ltac abs1 x :=
    assert (0 <= Z.abs x) by apply Z.abs_nonneg; assert (x <= Z.abs x) by lia;
    first [ let E := fresh in assert (E : 0 <= x) by lia; pose proof (Z.abs_eq x E); clear E
          | assert (Z.abs x <= 61) by lia
          | assert (Z.abs x <= Q) by lia; try assert (Z.abs x <= x + 122) by lia | idtac ];
    let a := fresh "a" in set (a := Z.abs x) in *; clearbody a.
  Ltac all_abs := repeat match goal with |- context [Z.abs ?x] => abs1 x end.
  Lemma qb_PQ : P <= Q. Proof. pose proof (qb_t 1 ltac:(lia)). lia. Qed.
  Ltac prep := unfold raw, hsum, asum; norm_idx t; all_facts; pose proof qb_PQ; clear H; all_abs.

  Lemma B14 : 4921 <= raw z (t + 14).  Proof using HP HR H. prep. lia. Qed.
  Lemma B15 : 4921 <= raw z (t + 15).  Proof using HP HR H. prep. lia. Qed.
  Lemma B16 : 4921 <= raw z (t + 16).  Proof using HP HR H. prep. lia. Qed.
  Lemma B_low k : 10 <= k <= 13 -> raw z (t + k) < raw z (t + 14).
  Proof using HP HR H.
    intros Hk. destruct (Z.eq_dec k 10) as [->|]; [clear Hk; prep; lia|]. destruct (Z.eq_dec k 11) as [->|]; [clear Hk; prep; lia|].
    destruct (Z.eq_dec k 12) as [->|]; [clear Hk; prep; lia|]. destruct (Z.eq_dec k 13) as [->|]; [clear Hk; prep; lia|]. lia.
  Qed.
  Lemma B17 : 2 * raw z (t + 17) < raw z (t + 15) + raw z (t + 16).  Proof using HP HR H. prep. lia. Qed.
  Lemma B_high k : 18 <= k <= 21 -> raw z (t + k) < raw z (t + 16).
  Proof using HP HR H.
    intros Hk. destruct (Z.eq_dec k 18) as [->|]; [clear Hk; prep; lia|]. destruct (Z.eq_dec k 19) as [->|]; [clear Hk; prep; lia|].
    destruct (Z.eq_dec k 20) as [->|]; [clear Hk; prep; lia|]. destruct (Z.eq_dec k 21) as [->|]; [clear Hk; prep; lia|]. lia.
  Qed.
  Lemma B_h k : 10 <= k <= 21 -> -1000 <= hsum z (t + k).
  Proof using HP HR H.
    intros Hk.
    repeat match goal with |- context [t + ?k] => is_var k;
      first [ let go n := (destruct (Z.eq_dec k n) as [->|]) in
        (go 10; [|go 11; [|go 12; [|go 13; [|go 14; [|go 15; [|go 16; [|go 17; [|go 18; [|go 19; [|go 20; [|go 21; [|lia]]]]]]]]]]]]) ] end;
      clear Hk; prep; lia.
  Qed.
End B.

(** The detector output is at most seven times the largest level. *)
Lemma det_bound z n q : (forall i, n - 14 <= i <= n - 8 -> - q <= z i <= q) -> Z.abs (det z n) <= 7 * q.
Proof.
  intros Hz. unfold det, dval.
  assert (A : 0 <= asum z n) by (unfold asum; lia).
  assert (B : - (7 * q) <= hsum z n <= 7 * q).
  { unfold hsum. pose proof (Hz (n - 14) ltac:(lia)). pose proof (Hz (n - 13) ltac:(lia)). pose proof (Hz (n - 12) ltac:(lia)). pose proof (Hz (n - 11) ltac:(lia)).
    pose proof (Hz (n - 10) ltac:(lia)). pose proof (Hz (n - 9) ltac:(lia)). pose proof (Hz (n - 8) ltac:(lia)). lia. }
  repeat match goal with |- context [?a <=? ?b] => destruct (Z.leb_spec a b); try lia end.
Qed.
(** A quiet window gives nothing. *)
Lemma det_nothing z n : (forall i, n - 14 <= i <= n - 8 -> small (z i)) -> det z n = 0.
Proof.
  intros Hz. unfold det, dval.
  assert (A : 0 <= asum z n) by (unfold asum; lia).
  assert (B : -427 <= hsum z n <= 427).
  { unfold hsum, small in *. pose proof (Hz (n - 14) ltac:(lia)). pose proof (Hz (n - 13) ltac:(lia)). pose proof (Hz (n - 12) ltac:(lia)).
    pose proof (Hz (n - 11) ltac:(lia)). pose proof (Hz (n - 10) ltac:(lia)). pose proof (Hz (n - 9) ltac:(lia)). pose proof (Hz (n - 8) ltac:(lia)). lia. }
  repeat match goal with |- context [?a <=? ?b] => destruct (Z.leb_spec a b); try lia end.
Qed.
(** Where the high sum is not strongly negative the output is the raw difference or nothing. *)
Lemma det_raw z n : -1000 <= hsum z n -> det z n = if 4921 <=? raw z n then raw z n else 0.
Proof.
  intros Hh. unfold det, dval, raw. assert (A : 0 <= asum z n) by (unfold asum; lia).
  destruct (Z.leb_spec 4921 (hsum z n - asum z n)); auto. destruct (Z.leb_spec 4921 (- hsum z n - asum z n)); lia.
Qed.
Lemma raw_det_le z n : -1000 <= hsum z n -> 0 <= det z n <= Z.max 0 (raw z n).
Proof. intros Hh. rewrite det_raw by auto. destruct (Z.leb_spec 4921 (raw z n)); lia. Qed.
Lemma raw_det_eq z n : -1000 <= hsum z n -> 4921 <= raw z n -> det z n = raw z n.
Proof. intros Hh L. rewrite det_raw by auto. destruct (Z.leb_spec 4921 (raw z n)); lia. Qed.

(** What the detector makes of the two kinds of pulses. *)
Lemma det_A P Q E z t : 1700 <= P -> 20 * Q <= 27 * P -> 0 <= E <= Q -> Q + 2 * E + 680 <= 4 * P -> pulseA P Q E z t ->
  (forall k, 9 <= k <= 20 -> 0 <= det z (t + k)) /\ (forall k, 13 <= k <= 15 -> 4921 <= det z (t + k)) /\
  (forall k, 9 <= k <= 12 -> det z (t + k) < det z (t + 13)) /\ 2 * det z (t + 16) < det z (t + 14) + det z (t + 15) /\
  (forall k, 17 <= k <= 20 -> det z (t + k) < det z (t + 15)).
Proof.
  intros HP HR HE HS H.
  pose proof (A13 P Q E z t HP HR HE HS H) as M13. pose proof (A14 P Q E z t HP HR HE HS H) as M14. pose proof (A15 P Q E z t HP HR HE HS H) as M15.
  pose proof (A16 P Q E z t HP HR HE HS H) as M16. pose proof (A_h P Q E z t HP HR HE HS H) as Hh.
  pose proof (raw_det_eq _ _ (Hh 13 ltac:(lia)) M13) as E13. pose proof (raw_det_eq _ _ (Hh 14 ltac:(lia)) M14) as E14.
  pose proof (raw_det_eq _ _ (Hh 15 ltac:(lia)) M15) as E15.
  split; [|split; [|split; [|split]]].
  - intros k Hk. apply raw_det_le, Hh; auto.
  - intros k Hk. destruct (Z.eq_dec k 13) as [->|]; [lia|]. destruct (Z.eq_dec k 14) as [->|]; [lia|]. replace k with 15 by lia. lia.
  - intros k Hk. pose proof (A_low P Q E z t HP HR HE HS H k Hk). pose proof (raw_det_le _ _ (Hh k ltac:(lia))). lia.
  - pose proof (raw_det_le _ _ (Hh 16 ltac:(lia))). lia.
  - intros k Hk. pose proof (A_high P Q E z t HP HR HE HS H k Hk). pose proof (raw_det_le _ _ (Hh k ltac:(lia))). lia.
Qed.
Lemma det_B P Q z t : 1700 <= P -> 20 * Q <= 27 * P -> pulseB P Q z t ->
  (forall k, 10 <= k <= 21 -> 0 <= det z (t + k)) /\ (forall k, 14 <= k <= 16 -> 4921 <= det z (t + k)) /\
  (forall k, 10 <= k <= 13 -> det z (t + k) < det z (t + 14)) /\ 2 * det z (t + 17) < det z (t + 15) + det z (t + 16) /\
  (forall k, 18 <= k <= 21 -> det z (t + k) < det z (t + 16)).
Proof.
  intros HP HR H.
  pose proof (B14 P Q z t HP HR H) as M14. pose proof (B15 P Q z t HP HR H) as M15. pose proof (B16 P Q z t HP HR H) as M16.
  pose proof (B17 P Q z t HP HR H) as M17. pose proof (B_h P Q z t HP HR H) as Hh.
  pose proof (raw_det_eq _ _ (Hh 14 ltac:(lia)) M14) as E14. pose proof (raw_det_eq _ _ (Hh 15 ltac:(lia)) M15) as E15.
  pose proof (raw_det_eq _ _ (Hh 16 ltac:(lia)) M16) as E16.
  split; [|split; [|split; [|split]]].
  - intros k Hk. apply raw_det_le, Hh; auto.
  - intros k Hk. destruct (Z.eq_dec k 14) as [->|]; [lia|]. destruct (Z.eq_dec k 15) as [->|]; [lia|]. replace k with 16 by lia. lia.
  - intros k Hk. pose proof (B_low P Q z t HP HR H k Hk). pose proof (raw_det_le _ _ (Hh k ltac:(lia))). lia.
  - pose proof (raw_det_le _ _ (Hh 17 ltac:(lia))). lia.
  - intros k Hk. pose proof (B_high P Q z t HP HR H k Hk). pose proof (raw_det_le _ _ (Hh k ltac:(lia))). lia.
Qed.
