import json
C=[]
def c(p,st,th,note=""): C.append(dict(property=p,status=st,theorems=th.split(),note=note))
c("C01","proved","C01_shiftreg_window C01_shiftreg_window_init")
c("C02","proved","C02_convolute")
c("C03","proved","C03_fifo_is_bounded_queue C03_fifo_init_is_bounded_queue")
c("C04","partial","C04_fifo_at_oldest_refuted C04_fifo_at_without_pop_partial","REFUTED: At(i) returns data[i], wrong after any Pop; proved only for histories without Pop")
c("C05","proved","C05_line_receiver_is_buffer")
c("C06","proved","C06_resample")
c("C07","proved","C07_dcblock_no_overflow C07_dcblock_exact")
c("C08","proved","C08_dcblock_settles")
c("C09","proved","C09_fir_exact C09_fir_time_invariant C09_fir_dc_gain")
c("C10","proved","C10_level_hysteresis")
c("C11","partial","C11_full_level_passes_refuted C11_full_level_passes_partial","REFUTED: a direct swing between polarities attenuates one full-level sample; proved when the preceding sample is not beyond the opposite low level")
c("C12","proved","C12_bit_detector_matched_filter")
c("C13","proved","C13_bit_detector_dc C13_bit_detector_quiet C13_bit_detector_polarity")
c("C21","partial","C21_symbol_survives_refuted C21_symbol_survives_partial","REFUTED: int16_t narrowing flips the sign of pulses above 4681 mV, inside the ADC range; proved for |x| <= 4681")
c("C14","proved","C14_uart_sound")
c("C15","proved","C15_uart_complete")
c("C16","proved","C16_single_symbol_error_flagged")
c("C17","proved","C17_polarity_independent")
c("C18","proved","C18_uart_no_ub")
c("C19","partial","C19_print_refuted C19_print_partial C19_print_content_partial","REFUTED: with a parity bit PrintShiftreg reads index 168 of a 168-entry register (assert fails), from every reachable state; proved safe for PARITY_NONE")
c("C20","partial","C20_idle_refuted C20_idle_partial C20_reports_need_pulse_partial","REFUTED: the bit counter runs on while waiting and reports a byte at the (2^32+2)-th zero sample; proved up to 2^32+1 zero samples, and that every report in a stream of at most 2^32 samples follows a pulse by 168 samples")
c("C22","proved","C22_tx_line_code C22_char_is_frame")
c("C23","proved","C23_dc_balance C23_dc_balance_end")
c("C24","partial","C24_bit_time_refuted C24_bit_time_partial","REFUTED: the stop bit lasts 15 PIO cycles when characters are sent back to back, a frame is 175 cycles; start, data and parity bits are exactly 16")
c("C25","proved","C25_twos_complement C25_twos_complement_prefix")
c("C26","proved","C26_loopback C26_loopback_wave","ideal line sampled once per PIO cycle; run shorter than 2^32 samples")
c("C27","proved","C27_adc_in_order C27_reset_is_start")
c("C28","partial","C28_overwrite_refuted C28_overwrite_partial","REFUTED: with exactly 255 samples pending the value uses an overwritten sample and no error is flagged; proved that this is the only such case")
c("C29","partial","C29_restart_refuted C29_block_refuted C29_restart_partial","REFUTED: every block restart (2^28 samples) loses at least one transferred sample; proved nothing is lost within a block")
c("C71","proved","C71_differential")
c("C30","proved","C30_text_format")
c("C31","proved","C31_roundtrip")
c("C32","partial","C32_roundtrip_refuted C32_roundtrip_partial","REFUTED: every time >= 2^63 and every status >= 2^31 is saturated by atoll/strtol on the target; proved exactly what the parser returns for every formatted message")
c("C33","partial","C33_parse_safe_refuted C33_parse_safe_partial","REFUTED: more than 64 digits in the data part write past the message; proved that exactly those lines do")
c("C34","partial","C34_hex_only_refuted C34_hex_only_partial C34_hex_only_host_partial","REFUTED on the target: plain char is unsigned, so every other character except space counts as 0xFF; proved for hex digits and spaces, and for all lines on a signed-char host")
c("C35","proved","C35_append_clear C35_constructed")
c("C36","partial","C36_one_colon_refuted C36_one_colon_partial","REFUTED: with a single colon the data is taken from the time stamp; proved for lines with no or at least two colons")
c("C37","proved","C37_crc_polynomial C37_crc_linear C37_crc_burst C37_packet_burst C37_damaged_not_answered")
c("C72","proved","C72_crc_odd_and_double")
c("C38","proved","C38_controller_refines C38_only_valid_requests")
c("C39","proved","C39_answer")
c("C40","partial","C40_packet_only_refuted C40_packet_only_partial","REFUTED: cells beyond Length (left over from earlier packets) are copied into the answer; proved for packets of at least 17 (0x30) or 15 (0x31) bytes")
c("C41","partial","C41_withdrawn_refuted C41_withdrawn_partial","REFUTED: packets of at most 3 bytes return early and leave the pending answer; proved for longer packets")
c("C42","proved","C42_silent_outside_operation C42_silence_after_collision C42_silence_after_start C42_operation_ends")
c("C43","partial","C43_recognises_own_refuted C43_recognises_own_partial","REFUTED: the address test is inverted, IsTxAnswer is false for every answer the controller hands out")
c("C44","proved","C44_memory_safe")
c("C45","proved","C45_driver_off C45_constructed")
c("C46","proved","C46_free_line")
c("C47","proved","C47_echo")
c("C48","proved","C48_terminates C48_no_state_held")
c("C49","proved","C49_wake_ignored C49_message_stable")
c("C50","partial","C50_status_refuted C50_detected_partial","REFUTED: a byte mismatch is always reported as status 21 (decimal); the collision itself is detected, flagged and the transmitter emptied")
c("C51","partial","C51_memory_refuted C51_memory_partial","REFUTED for messages of Length 0 (out-of-bounds read after 33 echoed bytes); proved for 1..32 bytes")
c("C52","partial","C52_queue_refuted C52_leftover_refuted C52_queue_partial","REFUTED: a timeout abort leaves bytes queued in DMA/FIFO, and such a byte can be on the line while the amplifier is powered up for the next message; proved: clean on every end via WAIT_IDLE, and when the amplifier is powered up DMA and FIFO are empty")
c("C73","proved","C73_no_tx_overrun")
c("C53","partial","C53_refuted C53_partial","REFUTED: an interrupt between Pop and putchar_raw swaps characters; proved: nothing lost/duplicated under any interrupt timing, order kept when no interrupt strikes in that gap")
c("C54","proved","C54_whole_lines C54_pieces C54_flag C54_reported")
c("C55","partial","C55_refuted C55_partial","REFUTED: the overflow bit is OR-ed in, so 4 becomes 6; proved: the status sent is the message's status or that status with bit 2")
c("C56","partial","C56_refuted C56_first_line_partial","REFUTED: everything after the first line end of a poll is dropped; proved: each poll handles exactly its first line")
c("C57","partial","C57_refuted C57_forever_refuted C57_recovers_partial","REFUTED: after 128 characters without a line end host input is dead for ever; proved: this is the only way, after every other history the next line is processed exactly")
c("C58","proved","C58_paced C58_lines")
c("C59","partial","C59_refuted C59_partial","REFUTED: GetTime jumps back by 2^32 ms; proved exact before the counter wraps")
c("C60","proved","C60_queue")
c("C61","partial","C61_refuted C61_partial","REFUTED: a message arriving while eight are pending is dropped and no error is flagged; proved: queued while fewer than eight are pending")
c("C74","partial","C74_refuted C74_partial","REFUTED: interrupts reorder and lose received characters; proved exact for calm schedules")
c("C62","proved","C62_panel C62_startup","for every history of events and ticks")
c("C63","proved","C63_blink C63_dark_first","for every history of mode settings and ticks")
c("C64","proved","C64_line_events C64_core1_events","for every stream of detector values, and for the complete chain on every stream of ADC values")
c("C65","partial","C65_one_packet_refuted C65_quiet_refuted C65_one_packet_partial","REFUTED: the idle counter is cumulative over a packet, every packet of 31 or more bytes (27 at nominal timing) is cut in two, at exactly 16 samples per bit (C101 for the actual sampling clock); proved: exact delivery of any sequence of packets with at most 176 not-receiving samples inside")
c("C75","proved","C75_receive_core_safe","ADC, filters, detector, receiver and queue together")
c("C76","proved","C76_events_pushed_or_flagged C76_nothing_lost","for every schedule of samples and queue fill levels")
c("C66","proved","C66_one_report_per_packet","for every history of the main loop (its parts arbitrary), between line-free events")
c("C67","partial","C67_full_packet_refuted C67_full_packet_partial","REFUTED: every packet of exactly 32 correct bytes is reported with status 2 and never handed to the controller; proved: up to 31 correct bytes give status 0")
c("C68","partial","C68_busy_timeout_refuted C68_busy_timeout_partial","REFUTED: the 32-bit sum LineBusySinceMsec + 500 wraps, a time-out is reported 1 ms after the line became busy at 49.7 days of uptime; proved: exact (if and only if) characterisation for shorter uptimes")
c("C69","proved","C69_main_loop_safe C69_long_line_refuted","for every history, provided no input line exceeds 127 characters and no field 64 non-blank characters (the property's restriction; without it a 66-digit line overruns the message: C69_long_line_refuted)")
c("C70","proved","C70_transmission_start C70_transmission_prompt","for every history; plus promptness: an iteration that starts no transmission has nothing to send or found the transmitter occupied")
c("C77","proved","C77_parts","the histories in the log are admissible for the theorems about the parts")
c("C78","proved","C78_line_busy")
c("C79","proved","C79_edge_phase")
c("C80","proved","C80_fast_is_reference")
c("C81","proved","C81_mode_sound C81_mode_complete C81_mode_one_symbol C81_none_one_symbol_refuted","C81_none_one_symbol_refuted shows that the error-detection part needs a parity bit")
c("C82","proved","C82_adc_error_exact")
c("C83","proved","C83_receive_loop","the receive loop joined with the ADC driver")
c("C84","proved","C84_number_fields","both targets; values and saturation exact")
c("C85","partial","C85_transmitter_informed C85_first_refuted","REFUTED for the very first iteration (Core1Data is uninitialised); proved for every other iteration and for a first one with an event")
c("C86","proved","C86_bus_access","main loop, transmit state machine and transmitter together")
c("C87","partial","C87_failure_reported C87_rx_error_reported C87_once_refuted C87_twice_partial","REFUTED: one failed transmission can be reported twice; proved: every failure is reported, at most two reports per transmission")
c("C88","partial","C88_queue C88_loss_reported C88_no_false_alarm C88_noticed_refuted","order, capacity and report after every loss proved; REFUTED: a loss between the test of FifoErr and its clearing is noticed by no later test")
c("C89","partial","C89_complete_refuted C89_complete_partial","REFUTED: the overflow report closes the data before the gap, the packet with the gap is reported with status 0; proved when nothing is lost and no time-out occurs")
c("C90","proved","C90_firmware_safe C90_firmware_parts","both cores, ADC and queue together")
c("C91","proved","C91_decoded_to_host","decoder events to host reports, complete firmware")
c("C92","proved","C92_noisy_line","any disturbance within the stated tolerance mask; packets with at most 172 not-receiving samples inside (cf. C65)")
c("C93","proved","C93_recovery","less than 2^31 samples altogether (cf. C20)")
c("C94","proved","C94_line_to_packets","ideal rectangular pulses plus bounded deviation per conversion; less than 3.9e9 conversions; the ADC hand-out of values is C27")
c("C95","proved","C95_line_to_host C95_no_overflow","less than 2^28 conversions (one DMA block, cf. C29); preemption model as in M_System.v")
c("C96","proved","C96_undisturbed C96_firmware","the converse of C47: a sufficient condition for success; the condition speaks about the polls only")
c("C97","partial","C97_actual_clocks C97_long_message_refuted C97_cut_echo_fails C97_short_message_partial","at the clocks the firmware sets (C98) proved for every message, assuming the main loop keeps up (prompt); at exactly 16 samples per bit refuted for 31 and 32 bytes and proved for messages whose waveform has at most 176 not-receiving samples")
c("C98","partial","C98_sixteen_samples_refuted C98_samples_partial","REFUTED: adc.cpp:67 sets the divider to 156 where the hardware adds one; 15 or 16 samples per bit")
c("C99","proved","C99_slow_line C99_clocks","packets with at most 172 not-receiving samples inside after thinning (as in C92); the line-code level, after the DC blocker")
c("C100","proved","C100_own_message","up to 34 bytes, the modem sends at most 32")
c("C101","partial","C101_nominal_packet_refuted C101_nominal_packet_partial","REFUTED for 31 bytes or more; proved up to 28 bytes; 29 and 30 depend on phase and bytes")
c("C102","proved","C102_time_to_packets C102_senders","C94 without the assumption of exactly 16 samples per bit; rectangular pulses plus bounded deviation per conversion; packets of at most 169 samples per byte and 176 more (28 bytes of a nominal sender, cf. C101)")
c("C103","proved","C103_recovery_slow","less than 2^31 samples altogether (cf. C20)")
c("C104","proved","C104_time_to_host","less than 2^28 conversions (one DMA block, cf. C29); C129 has the statement for later blocks; preemption model as in M_System.v")
c("C105","proved","C105_real_time_to_host","less than 2^28 conversions (one DMA block, cf. C29); preemption model as in M_System.v")
c("C106","proved","C106_request_answered C106_on_the_bus","the answer is S_Ctrl.answer; hw at rest is a hypothesis (cf. C96)")
c("C107","proved","C107_typed_line C106_on_the_bus","")
c("C108","proved","C108_request_on_the_line","")
c("C109","partial","C109_latency_refuted C109_latency_partial","the documented worst case of 36 cycles and best case of 29 do not hold: the value 0 takes 38 cycles, no value takes fewer than 30; the documented 33 cycles of the unmodified samples hold")
c("C110","proved","C110_keeps_pace C110_at_adc_rate","")
c("C111","partial","C111_trailing_comment_refuted C111_trailing_comment_partial C111_line_effect_partial","false: colons in a comment count as field separators (other bytes are sent, or the clock is set); proved for comments without colons and for lines with both colons before the comment")
c("C112","partial","C112_failure_shown_refuted C112_failure_shown_partial C112_collision_true","false: a collision found by comparing bytes leaves the state machine waiting for the line, so the loop shows activity instead; proved for all failures with another status in iterations without data loss, and the converse without restriction")
c("C113","partial","C113_internal_shown_refuted C113_internal_shown_partial C113_internal_true","false: data lost between the cores while a transmission is in progress is not shown; proved for all other cases, and the converse without restriction")
c("C114","partial","C114_tx_only_refuted C114_tx_only_partial","false: a panel update between the start of a transmission and its first byte; proved: only if nothing was received in the window")
c("C115","proved","C115_calls C115_panel C115_idle","")
c("C116","proved","C116_exact_timing C116_no_pause","")
c("C117","proved","C117_modem_to_modem","the receiver's side under the conditions of C105 (receive core keeps up, queue does not overflow, main loop at least every 49 ms); the DMA's schedule is an input")
c("C118","proved","C118_documented_message C118_documented_line","no ':' in the comment of a line without time and status (C111 shows why)")
c("C119","proved","C119_host_to_host","the DMA moves the bytes handed to it in order; its schedule is an input")
c("C120","partial","C120_transmitting_refuted C120_pulse_partial C120_no_partial C120_twice_partial C120_flag_partial C120_events_cover","REFUTED: for one PIO cycle between pull and irq set the answer is no although a byte is about to be sent; proved: yes during every pulse, otherwise no means silence, exact duration of the flag, and the hardware events of the state machine's model cover every run of the PIO program")
c("C121","proved","C121_contiguous C121_host_to_host","DMA reaction time at most 175 PIO cycles is a hypothesis (fed_promptly)")
c("C122","proved","C122_uart_pio C122_send","")
c("C123","partial","C123_sign_refuted C123_converter_partial C123_sign_partial","REFUTED: Stop throws away the conversion that ends meanwhile but the converter program goes on where it was, so the other input is negated afterwards; proved: exactly when that happens (parity of lost conversions), and at most one extra word per reset")
c("C124","proved","C124_during_update C124_count_refuted","C124_count_refuted shows that the bound must be taken at the last read (extends C28's finding)")
c("C125","partial","C125_repeated_refuted C125_lost_refuted C125_interrupted_partial C125_nothing_lost_partial","REFUTED: an interrupted activity may repeat the other activity in the next window, and is lost altogether if the compiler loads newState twice; proved: nothing else can happen, and errors are always exact")
c("C126","partial","C126_two_modems_refuted C126_own_period C126_two_modems_partial","REFUTED: after its last byte a modem waits for the free line without looking at the bytes, so a message that is the beginning of the other one also succeeds; proved: that is the only case, and the rest is heard within 4 ms")
c("C127","partial","C127_late_dma_refuted C127_serial_partial C127_safe_partial","REFUTED for a DMA channel that fills the empty FIFO exactly between Transmitting()'s look at the FIFO and its look at the channel; proved for all other schedules")
c("C128","partial","C128_serial_partial C128_safe_partial C128_reports_partial C128_same_program","all histories except those with the DMA activity of C127_late_dma_refuted")
c("C129","proved","C129_beyond_block C129_fresh_block","not more than 3.9 billion conversions since start or since a received byte (C20_idle_refuted); the companion channel is finished at each restart (cf. C29)")
c("C130","proved","C130_done_heard C130_not_done_failed C130_done_kept C130_never_done","")
c("C131","proved","C131_stays_in_buffer C131_cell","")
c("C132","proved","C132_same_as_list","")
c("C133","proved","C133_retimed C133_driver_off C133_free_line C133_echo C133_no_state_held C133_terminates C133_one_reading","")
#MORE
open('/verif/MANIFEST.json','w').write(json.dumps({"claims":C},indent=1)+"\n")
