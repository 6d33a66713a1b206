(** S_Noise.v -- what counts as a clearly received line, independent of the model.
    Samples are in mV, 16 per symbol, with the DC removed. *)
From Verif Require Import Base S_Dsp S_Pio S_Core1.

(** The measured sample [y] where the ideal line (-1, 0 or 1) is [now] and was [prev] one sample before:
    a flat pulse top lies between [P] and [Q], a quiet line within 599 mV of zero, and the sample in which the line
    changes is anywhere in between. *)
Definition within (P Q prev now y : Z) : Prop :=
  if now =? 0 then if prev =? 0 then -599 <= y <= 599 else -599 <= prev * y <= Q
  else if prev =? 0 then -599 <= now * y <= Q else P <= now * y <= Q.
(** Samples [ys] along the ideal line [ws]. *)
Fixpoint follows (P Q prev : Z) (ws ys : list Z) : Prop :=
  match ws, ys with
  | [], [] => True
  | w :: wt, y :: yt => within P Q prev w y /\ follows P Q w wt yt
  | _, _ => False
  end.
(** Pulse tops of at least 1700 mV, at most 4681 mV, and the largest at most 1.35 times the smallest. *)
Definition clear (P Q : Z) : Prop := 1700 <= P <= Q /\ 20 * Q <= 27 * P /\ Q <= 4681.

(** A line on which the packets are heard one after the other, each with its own amplitude and polarity; at the end
    the line is quiet for at least 200 samples. *)
Inductive heard : list packet -> list Z -> Prop :=
| heard_quiet : forall ys, (200 <= length ys)%nat -> Z.of_nat (length ys) < 4294960000 -> bounded 599 ys -> heard [] ys
| heard_packet : forall p sg P Q ys pkts rest, sg = 1 \/ sg = -1 -> clear P Q ->
    follows P Q 0 (map (Z.mul sg) (waves (pk_chars p))) ys -> heard pkts rest -> heard (p :: pkts) (ys ++ rest).

(** Does a log of events leave the line busy, when it was [b] before it? *)
Fixpoint busy_end (b : bool) (l : list logline) : bool :=
  match l with [] => b | LFree :: t => busy_end false t | LBusy :: t => busy_end true t | LByte _ _ :: t => busy_end b t end.
