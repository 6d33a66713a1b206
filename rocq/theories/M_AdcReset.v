(** M_AdcReset.v -- a reset of the ADC (adc.cpp:188-191), as seen by the sample converter. *)
From Verif Require Import Base M_Pio.

(** adc.cpp:168-179 (Stop) and 153-156 (Start), as far as the state machine of the converter is concerned: Stop disables it
    (between two cycles) and clears both FIFOs, Start calls pio_sm_restart and enables it again.  pio_sm_restart
    (RP2040 datasheet, SM_RESTART) clears the shift counters, the input shift register and the delay counter; the program
    counter, the output shift register and x, y keep their values. *)
Definition tc_restart (s : pio) : pio :=
  PIO (p_pc s) (p_x s) (p_y s) (p_osr s) 32 0 0 (p_pins s) (p_irq s) [] [].
