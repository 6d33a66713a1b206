(** S_AdcIl.v -- what the ADC should deliver when DMA transfers happen while Update runs (C124). *)
From Verif Require Import Base S_Adc.

(** A transfer, or a poll during which the DMA transfers [w1] (only if the poll restarts the channel: before the new block's count
    is looked at) and [w2], [w3], [w4] (before each of the three samples is read). *)
Inductive il_ev : Set := ISample (v : Z) | IPoll (ch1_done : bool) (w1 w2 w3 w4 : list Z).

(** Transfers, in the bookkeeping of S_Adc. *)
Definition add (v : view) (w : list Z) : view := fold_left (fun v x => fst (spec_step v (Sample x))) w v.
(** [INone]: nothing to hand out; [IData i p0 p1]: sample [i] is due, [p0] samples pending when the count was read and [p1] when
    the last sample was read. *)
Inductive il_expect : Set := INone | IData (i p0 p1 : Z).
Definition il_step (v : view) (e : il_ev) : view * option il_expect :=
  match e with
  | ISample x => (add v [x], None)
  | IPoll _ w1 w2 w3 w4 =>
      let v1 := if left v =? 0 then add (View (transferred v) (count v) BLOCK) w1 else v in
      if next v1 =? count v1 then (v1, Some INone)
      else let v2 := add v1 (w2 ++ w3 ++ w4) in
           (View (transferred v2) (next v2 + 1) (left v2), Some (IData (next v1) (count v1 - next v1) (count v2 - next v1)))
  end.
Fixpoint il_run (v : view) (l : list il_ev) : view * list (option il_expect) :=
  match l with
  | [] => (v, [])
  | e :: t => let '(v1, o) := il_step v e in let '(v2, os) := il_run v1 t in (v2, o :: os)
  end.
Definition il_range (e : il_ev) : Prop :=
  match e with ISample x => sample_range x | IPoll _ w1 w2 w3 w4 => Forall sample_range (w1 ++ w2 ++ w3 ++ w4) end.
Definition il_clean (e : il_ev) : Prop := match e with ISample _ => True | IPoll c _ _ _ _ => c = true end.

(** Right: nothing exactly when nothing is due; the value of the due sample if at most 254 samples are pending up to the last read;
    the error flag if 256 or more are pending when the count is read, and (when no restart finds the companion channel unfinished)
    only then. *)
Definition il_ok (gain : Z) (mem T : list Z) (x : option il_expect) (r : option (option (Z * bool))) : Prop :=
  match x, r with
  | None, None => True
  | Some INone, Some None => True
  | Some (IData i p0 p1), Some (Some (v, e)) => (p1 <= 254 -> v = value_at gain mem T i) /\ (256 <= p0 -> e = true)
  | _, _ => False
  end.
Definition il_exact (x : option il_expect) (r : option (option (Z * bool))) : Prop :=
  match x, r with Some (IData i p0 p1), Some (Some (v, e)) => e = (256 <=? p0) | _, _ => True end.
