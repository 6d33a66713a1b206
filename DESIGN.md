# Formal model of P1P2_HBS_USBCdc_Modem in Rocq (Coq 8.16.1)

## 1. Layout

| files | content |
|---|---|
| `rocq/theories/Base.v` | outcomes (`Ok` / `UB kind`), bounds-checked arrays, C integer wrap / overflow checks, platform record |
| `M_*.v` | the model: one file per source unit, every definition cites file and lines in /repo |
| `S_*.v` | small independent specifications (queues, line code, checksum as polynomial, text format, ...) that do not mention the model |
| `D_*.v` | drivers: histories of calls, schedules of hardware and interrupt events, runs of the model over them, argument ranges (`*_ok`) and observations |
| `P_*.v` | proofs (lemmas, invariants) |
| `T_*.v` | the property theorems only: statement, `exact lemma`, `Print Assumptions`, and beside each a concrete `Example` showing its hypotheses can be met |
| `Conformance.v` | the repository's own unit tests replayed on the model (tests of the model, not proofs) |

`properties.jsonl` lists the properties, `MANIFEST.json` maps them to theorem names,
`seeded/LOG.jsonl` records the wrong-program experiments.

Conventions. A property the code violates keeps its English statement; the theorem
`..._refuted` exhibits (or characterises) the violation on the model and a guarded or
characterising theorem says exactly when the property does hold. Such a property has MANIFEST
status `partial` with a note starting `REFUTED`.

## 2. Trusted base

* Coq 8.16.1's kernel including `vm_compute` (the bytecode VM is part of the kernel).
* `Print Assumptions` is printed in `T_*.v` for every property theorem; all of them are
  "Closed under the global context" unless section 6 lists an exception. Only Coq's standard
  library is imported; no axioms are added.
* The hand translation of the C++/PIO sources into `M_*.v` (section 3), in particular:
  * C integers are `Z` with explicit `u8/u16/u32/u64/s16/s32/s64` conversions; signed 32-bit
    arithmetic out of range is `UB SignedOverflow`; `>>` on negatives is arithmetic (GCC).
  * array accesses are bounds-checked against the declared object; a miss is `UB OutOfBounds`;
    `assert` failure is `UB AssertFailed`.
  * the platform (`char` signedness, `LONG_MAX`) is a parameter: `pico` (RP2040,
    arm-none-eabi-gcc) and `host64` (the unit test host).
  * pico-sdk and newlib calls are modelled by their documented behaviour: time as unbounded
    microseconds, `to_ms_since_boot` as uint32_t, `strtol`/`atoll` saturating, `snprintf`
    truncating, PIO instruction semantics from the RP2040 datasheet.

## 3. What is modelled

| source | model |
|---|---|
| shiftreg.hpp | M_ShiftReg.v (all methods) |
| fifo_irqsafe.hpp, line_receiver_irqsafe.hpp | M_Fifo.v (all methods; a method is atomic because it runs with interrupts disabled) |
| resample.hpp, dcblock.cpp, fir_filter.cpp, level_detect.hpp, uart_bit_detect_fast.cpp, line_busy.hpp, uart_edge_detect.hpp | M_Dsp.v |
| uart_bit_detect.hpp (reference detector, not compiled into the firmware; its shift register constructor calls predate the external buffers and are read as the current ones) | M_BitRef.v |
| uart.cpp | M_Uart.v (all methods) |
| message.cpp | M_Message.v (all methods) |
| standalone.cpp | M_Standalone.v (all methods) |
| uart_pio.cpp, tx_state.hpp, tx_statemachine.hpp | M_Tx.v, M_TxIl.v (hardware activity between the register accesses of a call), M_Dma.v (the transmitter's buffer and channel), M_TxClk.v (the clock read separately at each use) |
| host_uart.cpp | M_HostUart.v (call level), M_HostIrq.v (interrupt preemption at instruction level of the pumps) |
| led_driver.hpp, led_manager.hpp | M_Led.v, M_LedIl.v (calls interrupted by the timer) |
| adc.cpp | M_Dma.v (the sampling channel: addresses, bytes), M_Adc.v (ring, Update, Error, Reset, DMARestart, SetGain), M_AdcReset.v (Stop/Start for the PIO state machine), M_AdcIl.v (Update with transfers between its memory accesses) |
| p1p2_uart_tx.pio, twos_complement.pio | M_Pio.v (cycle-accurate interpreter plus both programs) |
| main.cpp | M_Core1.v (core1 loop), M_Core0.v (core0 loop), M_Core0Il.v (hardware activity inside an iteration), M_System.v (both cores, inter-core FIFO, FifoErr) |

Not modelled: hardware register set-up (GPIO, PWM; the two clock dividers are in M_Clock.v, the DMA channels in M_Dma.v), USB CDC and
stdio internals, multicore launch, linker placement, `best_effort_wfe_or_timeout` beyond "time
passes", the analog front end (an ideal line is assumed where a property mentions amplitudes),
the KiCad files. Absolute time (64-bit us)
is unbounded. The pico multicore FIFO is modelled as "an event arrives or not"; core1's loss of
an event when it is full is in `core1_iter`.

## 4. Plan per property

| id | how it is modelled and proved |
|---|---|
| C01 | invariant: doubled buffer = window rotated by off, twice; induction over updates |
| C02 | loop lemma: result = fold of products; UB iff a partial result leaves int32 |
| C03, C05 | refinement to a list queue / list buffer; induction over operation lists |
| C04 | counterexample after Push,Push,Pop (`_refuted`); equality characterised: At(i) is right when nothing has been popped since Clear |
| C06 | invariant counter = index mod (n+1) |
| C07, C08 | invariant on y - x; integer decay argument with explicit step bound |
| C09 | C01 + C02 with the literal coefficients; bounds by `lia` |
| C10, C11 | relational specification of the hysteresis; C11 refuted by a direct flip, guarded version for pulses separated by an idle sample |
| C12, C13 | window lemma as C01; sums as list folds; symmetry and DC by algebra |
| C14-C17 | characterise ExtractDataAndParity over the 11 sampled symbols (relation to `frame_ok` in S_Line.v); maximum over phases by induction; C15 uses the invariant that after 168 samples the register is exactly those samples |
| C18, C19 | totality of all register accesses; C19 refuted (index 168) |
| C20 | induction over idle samples with the counter as measure; refuted at 2^32 by a closed form for n idle steps (no 2^32-step computation) |
| C21 | refuted with a 4900 mV pulse; guarded version for amplitudes up to 4681 |
| C22-C24 | interpreter runs from `pull` to `pull` computed for all 256 bytes, with arbitrary arrivals handled by a commutation lemma (non-pull cycles do not look at the FIFO); induction over the byte stream; C24 refuted (stop bit is 15 cycles), exact 175-cycle law proved |
| C25 | as C22 with symbolic sample words: all 256 low bytes computed |
| C26 | composition: waveform -> scaled unit pattern -> detector pattern per threshold class -> UART; all 256 bytes by computation on the unit pattern, amplitude by scaling lemma, stream by induction |
| C27-C29 | ring invariant relating hardware count, software count and ring index to the sample history; C28 refuted at backlog 255, C29 refuted with unread samples |
| C30-C33 | digit lemmas for printing/scanning, buffer-write lemma, induction over data; C33 characterised: UB iff more than 64 nibbles |
| C34 | data loop related to filtering hex digits (host64), refuted on pico |
| C35, C36 | list refinement; counterexample |
| C37 | CRC step is xor-linear and injective in the register; induction over length |
| C38-C44 | invariant over all call sequences; case analysis of Receive |
| C45-C52 | invariant over all schedules of Wake/Update/hardware events with ghost history for echoes; explicit timeout arithmetic |
| C53 | micro-step interleaving semantics of two pumps; refuted; ordered when the pop-put pair is not interrupted |
| C54-C61 | refinement of HostUART to line-level specification |
| C62, C63 | event-list specification; induction over ticks |
| C64, C65 | invariant over `line_step`; C65 refuted by running the model on a 32-byte transmission |
| C66-C70 | every iteration returns the log of the calls it makes; one-iteration lemma (`iter_good`) with the invariants of all parts, induction over histories; C67 and C68 refuted |
| C71 | exact value of the two-channel sum from the PIO/DMA bytes |
| C72 | the CRC as a polynomial remainder; order of x modulo the generator |
| C73 | the transmitter invariant of C45-C52 (queue empty whenever a message is handed over) |
| C74 | interleaving semantics of loop polling and interrupt; refuted, exact for calm schedules |
| C75, C76 | invariant of the receive loop over all sample streams and schedules |
| C77 | the logged calls, projected to each part, are a run of that part from its start state |
| C78, C79 | window lemma of C01; induction over the history with the maximum so far |
| C80 | both detectors are sums over the same window; equality of the two fixed-point forms within the bound |
| C81 | the loop without parity bit is related to the one with it; the proofs of C14/C15 redone with the mode as parameter |
| C82 | the ADC invariant extended by a history of faults since the last value |
| C83 | the loop of core 1 decomposed into ADC (`D_Core1Adc`), decoder chain and queue: a simulation over the schedule |
| C84 | a specification of C number syntax (`reads`, functional), related to the model's atoll/strtol by induction over the field |
| C85 | one-iteration lemma on the logged Update calls, then induction over histories with the line state of `S_Core0` |
| C86 | C45-C52 lifted through C77: the schedule of the transmitter is located in the iterations, C85 turns its Updates into line states |
| C87 | one-iteration lemma on failure reports; receive status as a monotone flag until the next report; a weight function for the bound |
| C88 | M_System.v joins the cores by an explicit FIFO and flag; simulation of the queue by counting; the flag stays up until a test sees it |
| C89 | abstract packet assembly over the events taken (e_run); concrete history for the refutation |
| C90 | invariant of core 1 (C75) and C69 lifted through the decomposition of a schedule into core 1's and core 0's |
| C91 | no loss (C88) gives events taken = events produced; the line rules (C64) give that reports depend on the event log only |
| C92 | detector output as a function of the sample index; for a pulse inside the tolerance mask linear arithmetic gives sign, threshold and that the samples 13-16 after its start beat all others; so the receiver's best phase lies there and the frame decodes; Level shrinks the mask's idle part to 61 mV; induction over the characters for the line tracker |
| C93 | any chain state reached within 2^31 samples is, after 400 quiet samples, related to a fresh one: detector window zero, no frame in progress, line free; then C92's run lemma, stated from such a state |
| C94 | ADC averaging and FIR together are a 9-tap weighting of the line voltage up to an explicit error; a pulse at even / odd sampling phase gives one of two tables of 16 values; the baseline of the DC blocker stays in an explicit tube during a pulse (16 steps of linear arithmetic), returns during quiet by halving; continuation-passing lemmas over symbols, characters and packets build the tolerance mask of C92; then C93 |
| C95 | a schedule in which the consumer keeps up hands out every sample's value unflagged (induction over the ring's specification); C94 gives the events; bytes are told only between busy and free, so a log ending in free leaves the packet assembly empty; then the run lemma of C91. Queue: the backlog bounds the queue length |
| C96 | `S_Tx.v` states what an undisturbed transmission looks like to the polls; each phase of the schedule is an induction over the schedule with the machine's state invariant (`P_TxLive.v`); main loop: one-iteration lemma for a working transmitter (its calls are the hardware steps, Error and one Update), then induction over the iterations (`P_Core0Live.v`) |
| C97 | C65 gives the log of the receive core for the waveform of the message; negative: a one-iteration lemma for the data phase (each poll keeps it, or sets the error flag), induction to the line-free event, which aborts; positive: the log and the timing (`S_Loop.v`) make the polls `undisturbed`, then C96 |
| C98 | clock dividers of the ADC and the PIO as computed by the code, in units of 1/96 GHz (`M_Clock.v`); the sampling instants in an interval are counted by division (`P_Clock.v`) |
| C99 | the detector run lemma of C92 with some samples missing: a pulse that loses one sample still peaks in the receiver's window (`P_SlowDet.v`), at most 11 missing samples between two characters' start and stop bits never move a bit out of its window (`P_SlowChar.v`), then the induction of C92; the clocks thin the stream to at least 174 of 175 |
| C100, C101 | count of not-receiving samples (those the idle counter sees) in terms of the clock ratio: 175 cycles per own character, 176 per nominal one, against 174 (or 173) samples of the receiver; then C99, or, for the refutation, the run lemma up to the byte at which the counter is certain to expire |
| C97 at the actual clocks | C100 gives the log, then as before |
| C102 | the line in continuous time (S_Analog.v: arrival time, sender's cycle, amplitude per packet), converted every 157 cycles of clk_adc; every pulse gets 15 or 16 conversions from an odd or even one: four tables of what ADC and FIR make of it and of the DC blocker's baseline before it (an invariant tube kept by alternating pulses); induction over the pulses of a packet; the ideal detector line is the line read at the conversions in the middle of the FIR window, which is C99's thinned line; then C103 |
| C103 | as C93, with C99's run in place of C92's |
| C104 | as C95, with C102 in place of C94 |
| C105 | as C104; schedules carry the main loop's clock (S_SysTime.v); P_SysTime.v bounds the latency from a conversion to the iteration that handles what it produced, P_SysQuiet.v shows that every packet is preceded by a point at which the receiver is free and nothing is collected, so a packet of 31 bytes plus latency stays below 500 ms |
| C106 | P_Core0Answer.v cuts one main-loop iteration at the hand-over to the controller and at the start of a transmission (`iter_cut`); C39's answer lemma, C66 and determinism of the specification's controller give the answer; `granted` (S_Answer.v) says when a started transmission reaches the hardware (phases of P_TxLive.v) |
| C107 | same cut; C61's queue lemma for the typed line; the oldest waiting message is popped |
| C108 | C105 gives the list of packets handed to the controller; the log is split at the call for the packet (`P_SystemAnswer.v`), then the cut of C106 |
| C109, C110 | the program is run from both waiting states for all 256 values (computation over the whole byte domain, lifted to every schedule by C25's frame lemma); induction over the schedule with "waiting, nothing queued" as invariant (`P_PioRate.v`, spec `S_PioRate.v`); this also justifies C25's unbounded FIFOs |
| C111 | field splitting, the C number readers and the data loop all stop at, or do not reach, the comment (`P_Comment.v`); counterexamples by computation |
| C112 | the calls of each iteration (`iter_leds`) composed with the panel theorem C62 over windows of iterations (`P_Core0Led.v`); invariant on how a failed transmission ends; counterexample by computation |
| C113 | as C112 |
| C114 | as C112 |
| C115 | as C112; the calls follow the code of the loop body, the panel is C62 through C77 |
| C116 | model of the PIO program (M_Pio); spec: start times by a recurrence on the arrival times (S_PioTime); the drain lemma of C22 with exact cycle numbers, then a prefix argument for runs cut at any cycle |
| C117 | C116 gives the pin levels as a function of time; they are a line of packets in the sense of S_Analog, with the sender's clock from M_Clock; then C105 |
| C118 | documented form of a line specified on characters (S_TypedLine), parsed by C34's theorem; then C107 and C106's bus theorem |
| C119 | C118 for the sender, C117 for the receiver; the bytes handed to the DMA are the ones that arrive at the FIFO |
| C120 | invariant over the control states of the PIO program (flag clear only at pull and right after it); simulation of PIO cycles by the hardware events of M_Tx; computed frames of C22 for the duration |
| C121 | the DMA channel as a promptness condition on the arrival schedule (S_TxDma.v); induction over the characters (frame decomposition of C22): with an empty FIFO for 175 cycles something must arrive; then C116 and C119 |
| C122 | calls and hardware events as one history with a log of what can be seen (S_UartPio.v); invariant: accepted = taken ++ FIFO ++ DMA |
| C123 | M_AdcReset models Stop/Start's effect on the state machine (pio_sm_restart keeps the program counter, x, y and the OSR). P_AdcReset: an inductive invariant over all 22 program positions (`wf`), preserved by every cycle and by a reset at any cycle, with a distance to the next pull, at most one word owed, and the parity of the words taken; then the drain lemma of C25 and the ring theorem C27. REFUTED for the sign itself (a conversion dropped by Stop); the exact condition is proved. |
| C124 | Update as in M_Adc but with lists of transfers before each memory access that matters (M_AdcIl); specification: the bookkeeping of S_Adc with the number pending when the count is read and when the last sample is read; invariant of C27 kept by every transfer, conserved quantity transferred + left in the block |
| C125 | calls as load, compare, load, compare, store with lists of timer callbacks in between (M_LedIl, loads once or twice); every such history is explained by a history of uninterrupted events (`explains`, S_LedIl), whose panels are the documented ones (C62); counting lemma: errors exactly once |
| C126 | line events a schedule of Updates stands for (`hears`) and completed busy periods (`periods`, S_Two); the induction of C47 extended to what is heard after the last byte (`follows`); the last busy period begins with the message, two equal last periods give the prefix relation. Bytes are heard only while the line is busy (C64) |
| C127 | M_TxIl: each call as the sequence of its register accesses with lists of hardware events in the gaps. Each call is shown to commute: events before the last access that could see them go first, later ones after; events that ClearFifo wipes out drop out (`serial`). Refuted for Transmitting()'s order of reads |
| C128 | M_Core0Il: the loop body with gaps before, inside and after SM.Update; `iter_il` turns an iteration into an atomic one with the hardware events before it and the remaining ones handed to the next iteration; induction over the history |
| C129 | A restart leaves the ADC in the state of a fresh start with the ring's content (`adc_to_restart`); the filter, DC, level and detector lemmas of C104 hold with arbitrary values before; a received byte leaves the byte receiver waiting for idle, which resets its counter, so that recovery (C94) needs no bound on the time before it. Induction over the blocks |
| C130 | The offset compared by Done() is followed through a transmission beside the invariant of C47: below the length until the last byte is taken in, unchanged afterwards |
| C131 | M_Dma: memory as a byte per address, the channel's write address with the wrap of the low 9 bits. Invariant: outside unchanged, address = data + 2 * ring index, array read back = ring of M_Adc |
| C132 | M_Dma: Data[32], read address and count. Simulation with the list of M_Tx: the list is the `count` bytes from the read address, because Send writes Data only when count = 0 |
| C133 | M_TxClk: Update with a clock reading per use. Simulation with M_Tx modulo the deadline: for each Update one time is chosen (the deadline, or one less) that answers as the reading that mattered did - IsError's, or in WAIT_POWERON, where a timeout is no error, TimedOut's. Times by cases of one Update |

## 5. Findings

Places where the code does not have the property a user would rely on; each is a theorem.

| id | where | what happens | theorem |
|---|---|---|---|
| C04 | fifo_irqsafe.hpp At | At(i) returns data[i], wrong after any Pop | `C04_fifo_at_oldest_refuted` |
| C11 | level_detect.hpp | a direct swing between polarities attenuates one full-level sample | `C11_full_level_passes_refuted` |
| C19 | uart.cpp PrintShiftreg | with a parity bit PrintShiftreg reads index 168 of a 168-entry register (assert fails), from every reachable state | `C19_print_refuted` |
| C20 | uart.cpp Receive (bit counter) | the bit counter runs on while waiting and reports a byte at the (2^32+2)-th zero sample | `C20_idle_refuted` |
| C21 | level_detect.hpp / dcblock.cpp (int16_t narrowing) | int16_t narrowing flips the sign of pulses above 4681 mV, inside the ADC range | `C21_symbol_survives_refuted` |
| C24 | p1p2_uart_tx.pio | the stop bit lasts 15 PIO cycles when characters are sent back to back, a frame is 175 cycles; start, data and parity bits are exactly 16 | `C24_bit_time_refuted` |
| C28 | adc.cpp Update | with exactly 255 samples pending the value uses an overwritten sample and no error is flagged | `C28_overwrite_refuted` |
| C29 | adc.cpp DMARestart | every block restart (2^28 samples) loses at least one transferred sample | `C29_restart_refuted` |
| C32 | message.cpp | every time >= 2^63 and every status >= 2^31 is saturated by atoll/strtol on the target | `C32_roundtrip_refuted` |
| C33 | message.cpp Message(const char*) | more than 64 digits in the data part write past the message | `C33_parse_safe_refuted` |
| C34 | message.cpp (char signedness) | plain char is unsigned, so every other character except space counts as 0xFF | `C34_hex_only_refuted` |
| C36 | message.cpp (one colon) | with a single colon the data is taken from the time stamp | `C36_one_colon_refuted` |
| C40 | standalone.cpp GenerateAnswer | cells beyond Length (left over from earlier packets) are copied into the answer | `C40_packet_only_refuted` |
| C41 | standalone.cpp Receive | packets of at most 3 bytes return early and leave the pending answer | `C41_withdrawn_refuted` |
| C43 | standalone.cpp IsTxAnswer | the address test is inverted, IsTxAnswer is false for every answer the controller hands out | `C43_recognises_own_refuted` |
| C50 | tx_statemachine.hpp (status of a mismatch) | a byte mismatch is always reported as status 21 (decimal); the collision itself is detected, flagged and the transmitter emptied | `C50_status_refuted` |
| C51 | tx_statemachine.hpp (Length 0) | for messages of Length 0 (out-of-bounds read after 33 echoed bytes) | `C51_memory_refuted` |
| C52 | tx_statemachine.hpp (timeout abort) | a timeout abort leaves bytes queued in DMA/FIFO | `C52_queue_refuted` |
| C53 | host_uart.cpp CheckTXFIFO | an interrupt between Pop and putchar_raw swaps characters | `C53_refuted` |
| C55 | host_uart.cpp UpdateAndSend | the overflow bit is OR-ed in, so 4 becomes 6 | `C55_refuted` |
| C56 | host_uart.cpp CheckRxLine | everything after the first line end of a poll is dropped | `C56_refuted` |
| C57 | line_receiver_irqsafe.hpp / host_uart.cpp | after 128 characters without a line end host input is dead for ever (`C57_forever_refuted`; otherwise it recovers: `C57_recovers_partial`) | `C57_refuted` |
| C59 | host_uart.cpp GetTime | GetTime jumps back by 2^32 ms | `C59_refuted` |
| C61 | host_uart.cpp (message queue) | a message arriving while eight are pending is dropped and no error is flagged | `C61_refuted` |
| C65 | main.cpp core1_entry (LineIdleCounter) | the idle counter is cumulative over a packet, every packet of 31 or more bytes (27 at nominal timing) is cut in two, at exactly 16 samples per bit (C101 at the actual sampling clock) | `C65_one_packet_refuted` |
| C67 | main.cpp core0_entry (Overflow check) | every packet of exactly 32 correct bytes is reported with status 2 and never handed to the controller | `C67_full_packet_refuted` |
| C68 | main.cpp core0_entry (LineBusySinceMsec) | the 32-bit sum LineBusySinceMsec + 500 wraps, a time-out is reported 1 ms after the line became busy at 49.7 days of uptime | `C68_busy_timeout_refuted` |
| C74 | host_uart.cpp CheckRXFIFO, CheckRxLine | interrupts reorder and lose received characters | `C74_refuted` |
| C85 | main.cpp core0_entry (Core1Data) | the first Update gets the uninitialised Core1Data as receive event | `C85_first_refuted` |
| C87 | tx_statemachine.hpp (mismatch, then RUNNING_WAIT_FOR_IDLE) | after a mismatch the line busy for 4 ms raises a second error for the same transmission | `C87_once_refuted` |
| C88 | main.cpp:248-254 (FifoErr tested, then cleared) | an event lost between test and clearing is noticed by no later test | `C88_noticed_refuted` |
| C89 | main.cpp:248-254 | overflow report flushes the data collected before the gap; the packet with the gap is reported with status 0 | `C89_complete_refuted` |
| C97 | tx_state.hpp LineFreeIsError / main.cpp core1_entry | the echo of a message of 31 or 32 bytes is cut by a line-free event, so such a message could never be transmitted at 16 samples per bit; the too slow ADC clock (C98) happens to hide this, `C97_actual_clocks` | `C97_long_message_refuted` |
| C98 | adc.cpp:67 `adc_set_clkdiv` | the divider is a period minus one: 48000000/(9600*32) = 156 gives 157 ADC clocks, 15.92 samples per bit instead of 16 | `C98_sixteen_samples_refuted` |
| C101 | main.cpp core1_entry (LineIdleCounter) | at the actual clocks a packet of 31 or more bytes from a device with nominal timing is always cut in two | `C101_nominal_packet_refuted` |
| C109 | twos_complement.pio | documented worst-case latency 36 cycles; the value 0 takes 38 (and the best case is 30, not 29); harmless at the ADC's rate (C110) | `C109_latency_refuted` |
| C111 | message.cpp Message(char*) | `40 F0# a: b: abcd` sends AB CD instead of 40 F0: colons inside a comment split fields | `C111_trailing_comment_refuted` |
| C112 | main.cpp:229-234 | a transmission that fails because a byte differs is not shown on the LEDs: SM.Error() is read while IsTransmitting() is still true, and is cleared | `C112_failure_shown_refuted` |
| C113 | main.cpp:229-234, 248-254 | data lost between the cores during a transmission is not shown on the LEDs | `C113_internal_shown_refuted` |
| C114 | main.cpp:229-234, doc/leds.md | the "impossible" panel TX-only appears whenever the panel is updated between the start of a transmission and its first byte (at least 32 ms) | `C114_tx_only_refuted` |
| C120, C52 | uart_pio.cpp:49-53, p1p2_uart_tx.pio:28-31 | Transmitting() answers no in the PIO cycle between `pull` and `irq set`; a byte left over by an aborted transmission can then be sent while the amplifier is powered up for the next message | `C120_transmitting_refuted`, `C52_leftover_refuted` |
| C123 | adc.cpp:153-179, Stop/Start | `pio_sm_restart` does not reset the program counter: if an odd number of conversions is dropped while stopping (adc_fifo_drain pops the one in progress), the converter negates the other input from then on and every voltage changes its sign (harmless for decoding, C17, except for a step in the DC blocker); a reset in the middle of a conversion also leaves one meaningless word in the ring | C123_sign_refuted |
| C124 | adc.cpp:199-238, Update | the overrun check looks at the transfer count before the three samples are read: with 254 samples waiting at that moment and one transfer before the reads, an overwritten sample is used and no error is flagged (C28 needs 255 waiting) | `C124_count_refuted` |
| C125 | led_manager.hpp:34-47, ActivityRx/ActivityTx | the timer interrupt between the comparison and the store: an activity is stored as RX_TX although the other activity belongs to the window before (shown 500 ms too long); if newState is loaded twice the event is lost | `C125_repeated_refuted`, `C125_lost_refuted` |
| C126 | tx_statemachine.hpp:133-138, RUNNING_WAIT_FOR_IDLE | bytes heard after the last byte of the message are ignored: two modems sending at once, one the beginning of the other's message, both report success | `C126_two_modems_refuted` |
| C127 | uart_pio.cpp:49-53 | Transmitting() looks at the FIFO before the DMA channel: a channel that fills the empty FIFO just between the two reads and is then done makes it answer no (needs a DMA delay of several ms) | `C127_late_dma_refuted` |

Further observations made while modelling (not stated as properties):

* `Core1Data` in core0_entry is uninitialised until the first event and is passed to `SM.Update` in the
  first iterations (main.cpp:211, 341; see C85). It is harmless only because the state machine is idle then.
* `multicore_fifo_drain()` (main.cpp:217) may discard an event core 1 has pushed already, because core 1 is launched before; the
  model takes the FIFO as empty there (the first event of core 1 comes no earlier than 178 decimated samples after its start).

## 6. Assumptions and exceptions

* `Print Assumptions` of every property theorem says "Closed under the global context": no exception.
* A listing of all library axioms in the compiled closure shows seven fields of module types in
  `Coq.ssr.ssrunder`/`Coq.ssr.*` (pulled in by the standard library's `ssreflect` plug-in files); no theorem uses them.
* Loop-level models (M_Core0, M_Core1) treat one iteration as atomic with respect to the other core and to
  interrupts; the time is constant during one core0 iteration. Interrupt preemption inside the host interface is
  modelled separately at the granularity of single accesses (M_HostIrq.v), without the locking inside the SDK's
  putchar/getchar. Hardware activity of the transmitter happens between iterations, in any amount; C127 and
  C128 show that activity during the calls and iterations adds nothing but the case of `C127_late_dma_refuted`.
* The loop-back theorems (C26, C65) feed the transmitted waveform behind the ADC and the FIR filter/DC blocker
  (documented at the definition of the chain); C94 covers these blocks, for ideal rectangular pulses plus a bounded
  deviation of every conversion (edges of finite slope count as deviation).
* C69 and C77 assume host lines of at most 127 characters and fields of at most 64 non-blank characters
  (`input_ok`): C33, C57 and `C69_long_line_refuted` show what happens otherwise.
* C26, C65 and C92-C95 assume exactly 16 samples per bit (one per PIO cycle). C98-C104 and `C97_actual_clocks` use the
  rate the code sets up: the ADC divider register gives a period of 1+INT clocks (RP2040 data sheet), clk_adc is 48 MHz
  and clk_sys 125 MHz (SDK defaults), the PIO divider is the float rounded down to 1/256; the dividers' float divisions are exact.
* Theorems about successful transmissions (C96, C97, C106, C107, C117-C119) start from a transmitter at rest (`at_rest`: nothing in DMA or FIFO, the PIO
  waiting in `pull`), not merely from "Transmitting() is false": C120 shows the difference, one PIO cycle. The hardware events of M_Tx
  (DMA, pull, start, done, in any number and order) cover every run of the PIO program (`C120_events_cover`).
