(** S_Dsp.v -- specifications of the signal-processing blocks, independent of the model. *)
From Verif Require Import Base S_Containers.

(** All samples of [l] lie within [-b, b]. *)
Definition bounded (b : Z) (l : list Z) : Prop := Forall (fun x => - b <= x <= b) l.

(** The documented filter taps (fir_filter.cpp, scaled by 2^15 and truncated). *)
Definition taps : list Z := [-2339; 1817; 9984; 14313; 9984; 1817; -2339].

(** The filter output after the samples [h]: floor(sum of tap * sample / 2^15) over the last seven
    samples, zeros before the first sample. *)
Definition fir_spec (h : list Z) : Z := dot (lastn 7 (repeat 0 7 ++ h)) taps / 32768.

(** Hysteresis of the P1P2 bus. *)
Inductive line3 : Set := Idle | High | Low.
(** [hyst s x s']: documented behaviour on sample [x]. *)
Inductive hyst : line3 -> Z -> line3 -> Prop :=
| hy_rise : forall x, 1400 <= x -> hyst Idle x High
| hy_fall : forall x, x <= -1400 -> hyst Idle x Low
| hy_stay : forall x, -1400 < x < 1400 -> hyst Idle x Idle
| hy_keep_high : forall x, 600 <= x -> hyst High x High
| hy_drop_high : forall x, x < 600 -> hyst High x Idle
| hy_keep_low : forall x, x <= -600 -> hyst Low x Low
| hy_drop_low : forall x, -600 < x -> hyst Low x Idle.
(** What is passed on for sample [x] when the line state after it is [s]. *)
Definition level_out (s : line3) (x : Z) : Z := match s with Idle => 26 * x / 256 | _ => x end.
(** Line states and outputs along a stream. *)
Inductive hyst_run : line3 -> list Z -> list line3 -> Prop :=
| hr_nil : forall s, hyst_run s [] []
| hr_cons : forall s x t s' ss, hyst s x s' -> hyst_run s' t ss -> hyst_run s (x :: t) (s' :: ss).

(** The matched filter of the bit detector on a 16-sample window [w] (oldest first). *)
Definition sumZ (l : list Z) : Z := fold_right Z.add 0 l.
Definition mf_high (w : list Z) : Z := sumZ (firstn 7 (skipn 1 w)).
Definition mf_abs (w : list Z) : Z := Z.abs (nth 0 w 0) + sumZ (map Z.abs (firstn 6 (skipn 10 w))).
Definition mf (w : list Z) : Z :=
  if 4921 <=? mf_high w - mf_abs w then mf_high w - mf_abs w
  else if 4921 <=? - mf_high w - mf_abs w then mf_high w + mf_abs w
  else 0.
(** Detector output after the samples [h]. *)
Definition mf_spec (h : list Z) : Z := mf (lastn 16 (repeat 0 16 ++ h)).

(** An output stream [ys] is [f] applied to every non-empty prefix of [xs]. *)
Definition pointwise {A B} (f : list A -> B) (xs : list A) (ys : list B) : Prop :=
  length ys = length xs /\ forall k, (k < length xs)%nat -> nth_error ys k = Some (f (firstn (S k) xs)).
