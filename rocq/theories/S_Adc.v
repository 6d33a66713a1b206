(** S_Adc.v -- what the ADC ring should deliver, independent of the model. *)
From Verif Require Import Base.

(** A history of the DMA and the consumer: a sample is transferred, or the consumer polls
    ([ch1_done]: whether the companion DMA channel has finished when the transfer count is 0). *)
Inductive adc_ev : Set := Sample (v : Z) | Poll (ch1_done : bool).

(** Bookkeeping: all samples ever transferred, index of the next sample to hand out, transfers left
    before the DMA channel stops. *)
Record view : Set := View { transferred : list Z; next : Z; left : Z }.
Definition count (v : view) : Z := Z.of_nat (length (transferred v)).
Definition BLOCK : Z := 268435456. (* 2^28 transfers per DMA block *)
Definition view0 : view := View [] 0 BLOCK.

(** What a poll should give: nothing, or the value for sample [i] with [p] samples pending. *)
Inductive expect : Set := Nothing | Data (i p : Z).
Definition spec_step (v : view) (e : adc_ev) : view * option expect :=
  match e with
  | Sample x => (if left v =? 0 then v else View (transferred v ++ [x]) (next v) (left v - 1), None)
  | Poll _ =>
      if left v =? 0 then (View (transferred v) (count v) BLOCK, Some Nothing)   (* block restart *)
      else if next v =? count v then (v, Some Nothing)
      else (View (transferred v) (next v + 1) (left v), Some (Data (next v) (count v - next v)))
  end.
Fixpoint spec_run (v : view) (l : list adc_ev) : view * list (option expect) :=
  match l with
  | [] => (v, [])
  | e :: t => let '(v1, o) := spec_step v e in let '(v2, os) := spec_run v1 t in (v2, o :: os)
  end.

(** Sample number [i]; before the first sample the ring holds its old content [mem]. *)
Definition sample_at (mem T : list Z) (i : Z) : Z :=
  if i <? 0 then nth (Z.to_nat (256 + i)) mem 0 else nth (Z.to_nat i) T 0.
(** The differential value in mV: average of samples i and i-2 plus the (negated) sample i-1, scaled. *)
Definition diff_value (gain a b y : Z) : Z := ((Z.quot (a + b) 2 + y) * gain) / 256.
Definition value_at (gain : Z) (mem T : list Z) (i : Z) : Z :=
  diff_value gain (sample_at mem T i) (sample_at mem T (i - 2)) (sample_at mem T (i - 1)).

Definition sample_range (x : Z) : Prop := -16000 <= x <= 16000.
Definition ev_range (e : adc_ev) : Prop := match e with Sample x => sample_range x | Poll _ => True end.
Definition poll_clean (e : adc_ev) : Prop := match e with Sample _ => True | Poll c => c = true end.

(** A poll result is right: nothing exactly when nothing is expected; the value is that of the
    expected sample when at most 254 samples are pending; the error flag is set when 256 or more are
    (the ring has been overrun). *)
Definition poll_ok (gain : Z) (mem T : list Z) (x : option expect) (r : option (option (Z * bool))) : Prop :=
  match x, r with
  | None, None => True
  | Some Nothing, Some None => True
  | Some (Data i p), Some (Some (v, e)) =>
      (p <= 254 -> v = value_at gain mem T i) /\ (256 <= p -> e = true)
  | _, _ => False
  end.
(** No false alarm: the flag is set only by an overrun. *)
Definition poll_exact (x : option expect) (r : option (option (Z * bool))) : Prop :=
  match x, r with Some (Data i p), Some (Some (v, e)) => e = (256 <=? p) | _, _ => True end.
(** Number of values handed out. *)
Definition delivered (outs : list (option (option (Z * bool)))) : nat :=
  length (filter (fun r => match r with Some (Some _) => true | _ => false end) outs).
(** Number of samples in a history. *)
Definition samples (l : list adc_ev) : nat := length (filter (fun e => match e with Sample _ => true | Poll _ => false end) l).
(** The samples of a history, in order. *)
Definition sampled (l : list adc_ev) : list Z := flat_map (fun e => match e with Sample x => [x] | Poll _ => [] end) l.
(** What the ADC sees when channel 1 is constantly [p] and channel 2 constantly [q] (round robin). *)
Fixpoint altern (p q : Z) (n : nat) : list Z := match n with O => [] | S k => p :: altern q p k end.

(** The error flag each value should come with: 256 or more samples pending, or -- since the last value -- a block
    restart during which the companion channel did not finish ([failed]). *)
Fixpoint flags (v : view) (failed : bool) (l : list adc_ev) : list (option bool) :=
  match l with
  | [] => []
  | Sample x :: t => None :: flags (fst (spec_step v (Sample x))) failed t
  | Poll c :: t =>
      let v' := fst (spec_step v (Poll c)) in
      match snd (spec_step v (Poll c)) with
      | Some (Data _ p) => Some ((256 <=? p) || failed) :: flags v' false t
      | _ => None :: flags v' (failed || ((left v =? 0) && negb c)) t
      end
  end.
