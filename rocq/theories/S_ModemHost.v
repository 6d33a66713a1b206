(** S_ModemHost.v -- a modem that listens to a line (C117, C118): the conditions of C105, in one place. *)
From Verif Require Import Base M_Fifo M_Message M_Tx M_HostUart M_Led M_Adc M_Clock S_Dsp S_Pio M_Core1 S_Core1 S_Adc D_Adc S_Front
  M_Core0 S_Core0 D_Core0 M_System S_System S_SysTime.

(** The firmware [b] runs through the events [l] and gets to state [s] with the observations [outs]: its receive core keeps up with the ADC (whose block does not end), no
    event is lost between the cores and none left waiting, the main loop runs at least once in 15000 conversions and its clock agrees with the ADC's
    to within 5 ms. *)
Definition listens (b : boot) (mem : list Z) (e0 : bool) (l : list sys_in) (s : sys) (outs : list (option (inp0 * list (Z * act)))) : Prop :=
  boot_ok b /\ length mem = 256%nat /\ Forall (fun x => -255 <= x <= 255) mem /\ Forall sys_ok l /\ input_ok (text (sys_loop_inputs l)) /\
  sys_run b mem e0 l = Ok (s, outs) /\ keeps_up l /\ Z.of_nat (length (dma_samples l)) < BLOCK /\
  Forall (fun x => ~ overflow_in (snd x)) (loops outs) /\ k_queue (y_link s) = [] /\ k_ferr (y_link s) = false /\
  0 <= b_now b /\ in_time (b_now b) (sys_loop_inputs l) /\
  exists t0 sl w, real_time conversion_time t0 sl w 0 0 l /\ t0 <= 96000 * 4000000000000 /\ Z.of_nat w <= 15000 /\ sl <= 480000000.
