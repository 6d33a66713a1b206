(** S_Restart.v -- schedules in which the ADC's DMA block is used up and restarted (C129). *)
From Verif Require Import Base M_Core1 D_Core1 M_Led M_Adc S_Adc S_Core1 M_Core0 D_Core0 M_System S_System.

(** During a schedule [l] (from the start) core 1 never falls 255 samples behind, and every restart of the block finds the companion channel finished. *)
Definition never_behind (l : list sys_in) : Prop :=
  Forall (fun x => match x with Some (Data _ p) => p <= 254 | _ => True end) (snd (spec_run view0 (sys_adc l))) /\ Forall poll_clean (sys_adc l).
(** After [l] the current block of 2^28 transfers is used up, so that core 1's next poll restarts it. *)
Definition block_over (l : list sys_in) : Prop := left (fst (spec_run view0 (sys_adc l))) = 0.
(** 3.9 billion values: 3 h 24 min at the firmware's conversion time. *)
Definition UPTIME : Z := 3900000000.
(** The number of values core 1 gets from the ADC in a schedule [l] from the start. *)
Definition handed_out (l : list sys_in) : Z :=
  Z.of_nat (length (filter (fun x => match x with Some (Data _ _) => true | _ => false end) (snd (spec_run view0 (sys_adc l))))).
(** Before value [n], and at most [UPTIME] values before the end of [l], the modem was switched on or core 1 received a byte: that is the event it has
    pending at some point of the history. *)
Definition heard_since (b : boot) (mem : list Z) (e0 : bool) (l : list sys_in) (n : Z) : Prop :=
  handed_out l < UPTIME \/
  exists la lb sa oa, l = la ++ lb /\ sys_run b mem e0 la = Ok (sa, oa) /\ is_byte (c1_pend (y_c1 sa)) = true /\ handed_out la <= n /\ handed_out l - handed_out la < UPTIME.
