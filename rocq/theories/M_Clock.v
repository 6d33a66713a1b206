(** M_Clock.v -- how the two sampling clocks are derived: model of the divider arithmetic in adc.cpp and p1p2_uart_tx.pio.
    The SDK is not part of the repository; what its divider functions and the dividers do is taken from the RP2040 datasheet and is an
    assumption (DESIGN.md section 6): clk_adc = 48 MHz, clk_sys = 125 MHz (the SDK's default; the firmware does not set clocks). *)
From Verif Require Import Base.

(** pico/src/defines.hpp:6-13: 16 samples per bit at the detector, twice that at the ADC, 9600 baud. *)
Definition UART_OVERSAMPLING_RATE : Z := 16.
Definition FIR_OVERSAMPLING_RATE : Z := UART_OVERSAMPLING_RATE * 2.
Definition ADC_OVERSAMPLING_RATE : Z := FIR_OVERSAMPLING_RATE.
Definition UART_BAUD_RATE : Z := 9600.

(** pico/src/adc.cpp:67: adc_set_clkdiv(48000000 / (UART_BAUD_RATE * ADC_OVERSAMPLING_RATE)); an integer division, its result
    converted to float without loss. *)
Definition adc_clkdiv : Z := 48000000 / (UART_BAUD_RATE * ADC_OVERSAMPLING_RATE).
(** RP2040 datasheet, ADC DIV register: conversions are started every 1 + INT + FRAC/256 cycles of clk_adc (FRAC = 0 here). *)
Definition adc_cycles : Z := 1 + adc_clkdiv.
(** pico/src/p1p2_uart_tx.pio:125-126: div = clk_sys / (16 * baud), a float, put into a 16.8 fixed-point register by truncation.  The
    float division is replaced by the exact one (125000000/153600 = 813.8020..., not near a multiple of 1/256). *)
Definition pio_div256 : Z := 125000000 * 256 / (16 * UART_BAUD_RATE).

(** Times in units of 1/96000000000 s, in which all periods are integers: *)
(** one cycle of clk_adc is 2000 units; a detector sample takes two conversions (pico/src/main.cpp:42-60, the FIR filter
    decimates by two); *)
Definition conversion_time : Z := adc_cycles * 2000.
Definition sample_time : Z := 2 * conversion_time.
(** 1/256 of a cycle of clk_sys is 3 units. *)
Definition pio_cycle_time : Z := pio_div256 * 3.
(** A bit at 9600 baud. *)
Definition bit_time : Z := 96000000000 / UART_BAUD_RATE.
