(** S_AdcReset.v -- what the sample converter and the ADC deliver after resets of the ADC (C123). *)
From Verif Require Import Base M_Pio M_AdcReset S_Pio S_Adc.

(** The converter after a history: for every entry it runs along the schedule of arriving words (one list per cycle), then the
    ADC is reset. *)
Fixpoint after_resets (s : pio) (segs : list (list (list Z))) : pio :=
  match segs with [] => s | sched :: t => after_resets (tc_restart (snd (tc_run s sched))) t end.
(** How many words it took from its input FIFO during that history: those that arrived, except those still waiting at the reset. *)
Fixpoint taken (s : pio) (segs : list (list (list Z))) : nat :=
  match segs with
  | [] => O
  | sched :: t =>
      let s1 := snd (tc_run s sched) in
      ((length (concat sched) - length (p_tx s1)) + taken (tc_restart s1) t)%nat
  end.

(** The ADC converts its two inputs in turn, constantly [p] (input 0, the one to be inverted) and [q] (input 1): the results number
    [c], [c+1], ... ([n] of them).  A reset does not touch the selection of the next input (adc.cpp:168-171). *)
Definition conversions (p q : Z) (c n : nat) : list Z := if Nat.even c then altern p q n else altern q p n.
