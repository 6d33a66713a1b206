(** S_SysTime.v -- schedules in real time. *)
From Verif Require Import Base M_Core0 M_System.
(** A schedule [l] in which ([k] conversions having been made before, [j] of them since the last iteration of the main loop) the main loop runs
    at least once in [w] conversions and reads a clock that agrees with the ADC's to within [slack]: conversions take [period], the first
    one is at time [t0] (in units of 1/96000000000 s; the main loop's clock counts microseconds, that is 96000 units). *)
Fixpoint real_time (period t0 slack : Z) (w k j : nat) (l : list sys_in) : Prop :=
  match l with
  | [] => True
  | Y_dma _ :: t => (j < w)%nat /\ real_time period t0 slack w (S k) (S j) t
  | Y_core0 i :: t => Z.abs (96000 * in_now i - (t0 + period * Z.of_nat k)) <= slack /\ real_time period t0 slack w k 0 t
  | _ :: t => real_time period t0 slack w k j t
  end.
