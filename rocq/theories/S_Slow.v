(** S_Slow.v -- what counts as a clearly received line when the samples are taken a little too slowly,
    independent of the model.  The ideal line has 16 places per symbol; now and then the receiver skips one. *)
From Verif Require Import Base S_Dsp S_Pio S_Core1 S_Noise.

(** [vs] is [ws] with some places skipped, the next [n] not; between two skipped places there are at least 174
    others, so at most one place in 175 is missing. *)
Inductive thinned : nat -> list Z -> list Z -> Prop :=
| th_nil : forall n, thinned n [] []
| th_keep : forall n w ws vs, thinned (pred n) ws vs -> thinned n (w :: ws) (w :: vs)
| th_drop : forall w ws vs, thinned 174 ws vs -> thinned 0 (w :: ws) vs.

(** Pulse tops of at least 1700 mV, at most 4681 mV, and the largest at most 1.2 times the smallest. *)
Definition clear6 (P Q : Z) : Prop := 1700 <= P <= Q /\ 5 * Q <= 6 * P /\ Q <= 4681.

(** A wider mask: the largest top may be up to 1.35 times the smallest ([P], [Q]) if the first sample behind a pulse, where the line
    falls, stays below [E].  (With [E = Q] that is [clear6].) *)
Definition clear_fall (P Q E : Z) : Prop := 1700 <= P <= Q /\ 20 * Q <= 27 * P /\ Q <= 4681 /\ 61 <= E <= Q /\ Q + 2 * E + 680 <= 4 * P.
Fixpoint falls (E prev : Z) (ws ys : list Z) : Prop :=
  match ws, ys with
  | w :: wt, y :: yt => (w = 0 -> prev * y <= E) /\ falls E w wt yt
  | _, _ => True
  end.

(** A packet of the bytes [b :: map snd r] with [fst] further idle places before each byte of [r], heard as [ys]: sampled
    too slowly, with disturbance ([follows], see S_Noise), in either polarity; it takes at most 169 samples per byte and 177
    more. *)
Definition heard_packet_slow (b : Z) (r : list (nat * Z)) (ys : list Z) : Prop :=
  exists sg P Q E n vs, (sg = 1 \/ sg = -1) /\ clear_fall P Q E /\ thinned n (waves ((0%nat, b) :: r)) vs /\
    follows P Q 0 (map (Z.mul sg) vs) ys /\ falls E 0 (map (Z.mul sg) vs) ys /\ Z.of_nat (length ys) <= 169 * (1 + Z.of_nat (length r)) + 177.

(** A line with those packets, one after the other, each after at least 177 quiet samples; at the end the line is quiet for
    at least 200. *)
Inductive heard_slow : list (list Z) -> list Z -> Prop :=
| hs_quiet : forall ys, (200 <= length ys)%nat -> Z.of_nat (length ys) < 4294960000 -> bounded 599 ys -> heard_slow [] ys
| hs_packet : forall idle b r ys pkts rest, (177 <= length idle)%nat -> Z.of_nat (length idle) < 4294960000 -> bounded 599 idle ->
    Forall (fun x => 0 <= x < 256) (b :: map snd r) -> heard_packet_slow b r ys -> heard_slow pkts rest ->
    heard_slow ((b :: map snd r) :: pkts) (idle ++ ys ++ rest).

(** What the other core should see of a packet: one busy/free pair around all of its bytes. *)
Definition packet_log (bs : list Z) : list logline := LBusy :: map (fun b => LByte b false) bs ++ [LFree].
