{
 "claims": [
  {
   "property": "C01",
   "status": "proved",
   "theorems": [
    "C01_shiftreg_window",
    "C01_shiftreg_window_init"
   ],
   "note": ""
  },
  {
   "property": "C02",
   "status": "proved",
   "theorems": [
    "C02_convolute"
   ],
   "note": ""
  },
  {
   "property": "C03",
   "status": "proved",
   "theorems": [
    "C03_fifo_is_bounded_queue",
    "C03_fifo_init_is_bounded_queue"
   ],
   "note": ""
  },
  {
   "property": "C04",
   "status": "partial",
   "theorems": [
    "C04_fifo_at_oldest_refuted",
    "C04_fifo_at_without_pop_partial"
   ],
   "note": "REFUTED: At(i) returns data[i], wrong after any Pop; proved only for histories without Pop"
  },
  {
   "property": "C05",
   "status": "proved",
   "theorems": [
    "C05_line_receiver_is_buffer"
   ],
   "note": ""
  },
  {
   "property": "C06",
   "status": "proved",
   "theorems": [
    "C06_resample"
   ],
   "note": ""
  },
  {
   "property": "C07",
   "status": "proved",
   "theorems": [
    "C07_dcblock_no_overflow",
    "C07_dcblock_exact"
   ],
   "note": ""
  },
  {
   "property": "C08",
   "status": "proved",
   "theorems": [
    "C08_dcblock_settles"
   ],
   "note": ""
  },
  {
   "property": "C09",
   "status": "proved",
   "theorems": [
    "C09_fir_exact",
    "C09_fir_time_invariant",
    "C09_fir_dc_gain"
   ],
   "note": ""
  },
  {
   "property": "C10",
   "status": "proved",
   "theorems": [
    "C10_level_hysteresis"
   ],
   "note": ""
  },
  {
   "property": "C11",
   "status": "partial",
   "theorems": [
    "C11_full_level_passes_refuted",
    "C11_full_level_passes_partial"
   ],
   "note": "REFUTED: a direct swing between polarities attenuates one full-level sample; proved when the preceding sample is not beyond the opposite low level"
  },
  {
   "property": "C12",
   "status": "proved",
   "theorems": [
    "C12_bit_detector_matched_filter"
   ],
   "note": ""
  },
  {
   "property": "C13",
   "status": "proved",
   "theorems": [
    "C13_bit_detector_dc",
    "C13_bit_detector_quiet",
    "C13_bit_detector_polarity"
   ],
   "note": ""
  },
  {
   "property": "C21",
   "status": "partial",
   "theorems": [
    "C21_symbol_survives_refuted",
    "C21_symbol_survives_partial"
   ],
   "note": "REFUTED: int16_t narrowing flips the sign of pulses above 4681 mV, inside the ADC range; proved for |x| <= 4681"
  },
  {
   "property": "C14",
   "status": "proved",
   "theorems": [
    "C14_uart_sound"
   ],
   "note": ""
  },
  {
   "property": "C15",
   "status": "proved",
   "theorems": [
    "C15_uart_complete"
   ],
   "note": ""
  },
  {
   "property": "C16",
   "status": "proved",
   "theorems": [
    "C16_single_symbol_error_flagged"
   ],
   "note": ""
  },
  {
   "property": "C17",
   "status": "proved",
   "theorems": [
    "C17_polarity_independent"
   ],
   "note": ""
  },
  {
   "property": "C18",
   "status": "proved",
   "theorems": [
    "C18_uart_no_ub"
   ],
   "note": ""
  },
  {
   "property": "C19",
   "status": "partial",
   "theorems": [
    "C19_print_refuted",
    "C19_print_partial",
    "C19_print_content_partial"
   ],
   "note": "REFUTED: with a parity bit PrintShiftreg reads index 168 of a 168-entry register (assert fails), from every reachable state; proved safe for PARITY_NONE"
  },
  {
   "property": "C20",
   "status": "partial",
   "theorems": [
    "C20_idle_refuted",
    "C20_idle_partial",
    "C20_reports_need_pulse_partial"
   ],
   "note": "REFUTED: the bit counter runs on while waiting and reports a byte at the (2^32+2)-th zero sample; proved up to 2^32+1 zero samples, and that every report in a stream of at most 2^32 samples follows a pulse by 168 samples"
  },
  {
   "property": "C22",
   "status": "proved",
   "theorems": [
    "C22_tx_line_code",
    "C22_char_is_frame"
   ],
   "note": ""
  },
  {
   "property": "C23",
   "status": "proved",
   "theorems": [
    "C23_dc_balance",
    "C23_dc_balance_end"
   ],
   "note": ""
  },
  {
   "property": "C24",
   "status": "partial",
   "theorems": [
    "C24_bit_time_refuted",
    "C24_bit_time_partial"
   ],
   "note": "REFUTED: the stop bit lasts 15 PIO cycles when characters are sent back to back, a frame is 175 cycles; start, data and parity bits are exactly 16"
  },
  {
   "property": "C25",
   "status": "proved",
   "theorems": [
    "C25_twos_complement",
    "C25_twos_complement_prefix"
   ],
   "note": ""
  },
  {
   "property": "C26",
   "status": "proved",
   "theorems": [
    "C26_loopback",
    "C26_loopback_wave"
   ],
   "note": "ideal line sampled once per PIO cycle; run shorter than 2^32 samples"
  },
  {
   "property": "C27",
   "status": "proved",
   "theorems": [
    "C27_adc_in_order",
    "C27_reset_is_start"
   ],
   "note": ""
  },
  {
   "property": "C28",
   "status": "partial",
   "theorems": [
    "C28_overwrite_refuted",
    "C28_overwrite_partial"
   ],
   "note": "REFUTED: with exactly 255 samples pending the value uses an overwritten sample and no error is flagged; proved that this is the only such case"
  },
  {
   "property": "C29",
   "status": "partial",
   "theorems": [
    "C29_restart_refuted",
    "C29_block_refuted",
    "C29_restart_partial"
   ],
   "note": "REFUTED: every block restart (2^28 samples) loses at least one transferred sample; proved nothing is lost within a block"
  },
  {
   "property": "C71",
   "status": "proved",
   "theorems": [
    "C71_differential"
   ],
   "note": ""
  },
  {
   "property": "C30",
   "status": "proved",
   "theorems": [
    "C30_text_format"
   ],
   "note": ""
  },
  {
   "property": "C31",
   "status": "proved",
   "theorems": [
    "C31_roundtrip"
   ],
   "note": ""
  },
  {
   "property": "C32",
   "status": "partial",
   "theorems": [
    "C32_roundtrip_refuted",
    "C32_roundtrip_partial"
   ],
   "note": "REFUTED: every time >= 2^63 and every status >= 2^31 is saturated by atoll/strtol on the target; proved exactly what the parser returns for every formatted message"
  },
  {
   "property": "C33",
   "status": "partial",
   "theorems": [
    "C33_parse_safe_refuted",
    "C33_parse_safe_partial"
   ],
   "note": "REFUTED: more than 64 digits in the data part write past the message; proved that exactly those lines do"
  },
  {
   "property": "C34",
   "status": "partial",
   "theorems": [
    "C34_hex_only_refuted",
    "C34_hex_only_partial",
    "C34_hex_only_host_partial"
   ],
   "note": "REFUTED on the target: plain char is unsigned, so every other character except space counts as 0xFF; proved for hex digits and spaces, and for all lines on a signed-char host"
  },
  {
   "property": "C35",
   "status": "proved",
   "theorems": [
    "C35_append_clear",
    "C35_constructed"
   ],
   "note": ""
  },
  {
   "property": "C36",
   "status": "partial",
   "theorems": [
    "C36_one_colon_refuted",
    "C36_one_colon_partial"
   ],
   "note": "REFUTED: with a single colon the data is taken from the time stamp; proved for lines with no or at least two colons"
  },
  {
   "property": "C37",
   "status": "proved",
   "theorems": [
    "C37_crc_polynomial",
    "C37_crc_linear",
    "C37_crc_burst",
    "C37_packet_burst",
    "C37_damaged_not_answered"
   ],
   "note": ""
  },
  {
   "property": "C72",
   "status": "proved",
   "theorems": [
    "C72_crc_odd_and_double"
   ],
   "note": ""
  },
  {
   "property": "C38",
   "status": "proved",
   "theorems": [
    "C38_controller_refines",
    "C38_only_valid_requests"
   ],
   "note": ""
  },
  {
   "property": "C39",
   "status": "proved",
   "theorems": [
    "C39_answer"
   ],
   "note": ""
  },
  {
   "property": "C40",
   "status": "partial",
   "theorems": [
    "C40_packet_only_refuted",
    "C40_packet_only_partial"
   ],
   "note": "REFUTED: cells beyond Length (left over from earlier packets) are copied into the answer; proved for packets of at least 17 (0x30) or 15 (0x31) bytes"
  },
  {
   "property": "C41",
   "status": "partial",
   "theorems": [
    "C41_withdrawn_refuted",
    "C41_withdrawn_partial"
   ],
   "note": "REFUTED: packets of at most 3 bytes return early and leave the pending answer; proved for longer packets"
  },
  {
   "property": "C42",
   "status": "proved",
   "theorems": [
    "C42_silent_outside_operation",
    "C42_silence_after_collision",
    "C42_silence_after_start",
    "C42_operation_ends"
   ],
   "note": ""
  },
  {
   "property": "C43",
   "status": "partial",
   "theorems": [
    "C43_recognises_own_refuted",
    "C43_recognises_own_partial"
   ],
   "note": "REFUTED: the address test is inverted, IsTxAnswer is false for every answer the controller hands out"
  },
  {
   "property": "C44",
   "status": "proved",
   "theorems": [
    "C44_memory_safe"
   ],
   "note": ""
  },
  {
   "property": "C45",
   "status": "proved",
   "theorems": [
    "C45_driver_off",
    "C45_constructed"
   ],
   "note": ""
  },
  {
   "property": "C46",
   "status": "proved",
   "theorems": [
    "C46_free_line"
   ],
   "note": ""
  },
  {
   "property": "C47",
   "status": "proved",
   "theorems": [
    "C47_echo"
   ],
   "note": ""
  },
  {
   "property": "C48",
   "status": "proved",
   "theorems": [
    "C48_terminates",
    "C48_no_state_held"
   ],
   "note": ""
  },
  {
   "property": "C49",
   "status": "proved",
   "theorems": [
    "C49_wake_ignored",
    "C49_message_stable"
   ],
   "note": ""
  },
  {
   "property": "C50",
   "status": "partial",
   "theorems": [
    "C50_status_refuted",
    "C50_detected_partial"
   ],
   "note": "REFUTED: a byte mismatch is always reported as status 21 (decimal); the collision itself is detected, flagged and the transmitter emptied"
  },
  {
   "property": "C51",
   "status": "partial",
   "theorems": [
    "C51_memory_refuted",
    "C51_memory_partial"
   ],
   "note": "REFUTED for messages of Length 0 (out-of-bounds read after 33 echoed bytes); proved for 1..32 bytes"
  },
  {
   "property": "C52",
   "status": "partial",
   "theorems": [
    "C52_queue_refuted",
    "C52_leftover_refuted",
    "C52_queue_partial"
   ],
   "note": "REFUTED: a timeout abort leaves bytes queued in DMA/FIFO, and such a byte can be on the line while the amplifier is powered up for the next message; proved: clean on every end via WAIT_IDLE, and when the amplifier is powered up DMA and FIFO are empty"
  },
  {
   "property": "C73",
   "status": "proved",
   "theorems": [
    "C73_no_tx_overrun"
   ],
   "note": ""
  },
  {
   "property": "C53",
   "status": "partial",
   "theorems": [
    "C53_refuted",
    "C53_partial"
   ],
   "note": "REFUTED: an interrupt between Pop and putchar_raw swaps characters; proved: nothing lost/duplicated under any interrupt timing, order kept when no interrupt strikes in that gap"
  },
  {
   "property": "C54",
   "status": "proved",
   "theorems": [
    "C54_whole_lines",
    "C54_pieces",
    "C54_flag",
    "C54_reported"
   ],
   "note": ""
  },
  {
   "property": "C55",
   "status": "partial",
   "theorems": [
    "C55_refuted",
    "C55_partial"
   ],
   "note": "REFUTED: the overflow bit is OR-ed in, so 4 becomes 6; proved: the status sent is the message's status or that status with bit 2"
  },
  {
   "property": "C56",
   "status": "partial",
   "theorems": [
    "C56_refuted",
    "C56_first_line_partial"
   ],
   "note": "REFUTED: everything after the first line end of a poll is dropped; proved: each poll handles exactly its first line"
  },
  {
   "property": "C57",
   "status": "partial",
   "theorems": [
    "C57_refuted",
    "C57_forever_refuted",
    "C57_recovers_partial"
   ],
   "note": "REFUTED: after 128 characters without a line end host input is dead for ever; proved: this is the only way, after every other history the next line is processed exactly"
  },
  {
   "property": "C58",
   "status": "proved",
   "theorems": [
    "C58_paced",
    "C58_lines"
   ],
   "note": ""
  },
  {
   "property": "C59",
   "status": "partial",
   "theorems": [
    "C59_refuted",
    "C59_partial"
   ],
   "note": "REFUTED: GetTime jumps back by 2^32 ms; proved exact before the counter wraps"
  },
  {
   "property": "C60",
   "status": "proved",
   "theorems": [
    "C60_queue"
   ],
   "note": ""
  },
  {
   "property": "C61",
   "status": "partial",
   "theorems": [
    "C61_refuted",
    "C61_partial"
   ],
   "note": "REFUTED: a message arriving while eight are pending is dropped and no error is flagged; proved: queued while fewer than eight are pending"
  },
  {
   "property": "C74",
   "status": "partial",
   "theorems": [
    "C74_refuted",
    "C74_partial"
   ],
   "note": "REFUTED: interrupts reorder and lose received characters; proved exact for calm schedules"
  },
  {
   "property": "C62",
   "status": "proved",
   "theorems": [
    "C62_panel",
    "C62_startup"
   ],
   "note": "for every history of events and ticks"
  },
  {
   "property": "C63",
   "status": "proved",
   "theorems": [
    "C63_blink",
    "C63_dark_first"
   ],
   "note": "for every history of mode settings and ticks"
  },
  {
   "property": "C64",
   "status": "proved",
   "theorems": [
    "C64_line_events",
    "C64_core1_events"
   ],
   "note": "for every stream of detector values, and for the complete chain on every stream of ADC values"
  },
  {
   "property": "C65",
   "status": "partial",
   "theorems": [
    "C65_one_packet_refuted",
    "C65_quiet_refuted",
    "C65_one_packet_partial"
   ],
   "note": "REFUTED: the idle counter is cumulative over a packet, every packet of 31 or more bytes (27 at nominal timing) is cut in two, at exactly 16 samples per bit (C101 for the actual sampling clock); proved: exact delivery of any sequence of packets with at most 176 not-receiving samples inside"
  },
  {
   "property": "C75",
   "status": "proved",
   "theorems": [
    "C75_receive_core_safe"
   ],
   "note": "ADC, filters, detector, receiver and queue together"
  },
  {
   "property": "C76",
   "status": "proved",
   "theorems": [
    "C76_events_pushed_or_flagged",
    "C76_nothing_lost"
   ],
   "note": "for every schedule of samples and queue fill levels"
  },
  {
   "property": "C66",
   "status": "proved",
   "theorems": [
    "C66_one_report_per_packet"
   ],
   "note": "for every history of the main loop (its parts arbitrary), between line-free events"
  },
  {
   "property": "C67",
   "status": "partial",
   "theorems": [
    "C67_full_packet_refuted",
    "C67_full_packet_partial"
   ],
   "note": "REFUTED: every packet of exactly 32 correct bytes is reported with status 2 and never handed to the controller; proved: up to 31 correct bytes give status 0"
  },
  {
   "property": "C68",
   "status": "partial",
   "theorems": [
    "C68_busy_timeout_refuted",
    "C68_busy_timeout_partial"
   ],
   "note": "REFUTED: the 32-bit sum LineBusySinceMsec + 500 wraps, a time-out is reported 1 ms after the line became busy at 49.7 days of uptime; proved: exact (if and only if) characterisation for shorter uptimes"
  },
  {
   "property": "C69",
   "status": "proved",
   "theorems": [
    "C69_main_loop_safe",
    "C69_long_line_refuted"
   ],
   "note": "for every history, provided no input line exceeds 127 characters and no field 64 non-blank characters (the property's restriction; without it a 66-digit line overruns the message: C69_long_line_refuted)"
  },
  {
   "property": "C70",
   "status": "proved",
   "theorems": [
    "C70_transmission_start",
    "C70_transmission_prompt"
   ],
   "note": "for every history; plus promptness: an iteration that starts no transmission has nothing to send or found the transmitter occupied"
  },
  {
   "property": "C77",
   "status": "proved",
   "theorems": [
    "C77_parts"
   ],
   "note": "the histories in the log are admissible for the theorems about the parts"
  },
  {
   "property": "C78",
   "status": "proved",
   "theorems": [
    "C78_line_busy"
   ],
   "note": ""
  },
  {
   "property": "C79",
   "status": "proved",
   "theorems": [
    "C79_edge_phase"
   ],
   "note": ""
  },
  {
   "property": "C80",
   "status": "proved",
   "theorems": [
    "C80_fast_is_reference"
   ],
   "note": ""
  },
  {
   "property": "C81",
   "status": "proved",
   "theorems": [
    "C81_mode_sound",
    "C81_mode_complete",
    "C81_mode_one_symbol",
    "C81_none_one_symbol_refuted"
   ],
   "note": "C81_none_one_symbol_refuted shows that the error-detection part needs a parity bit"
  },
  {
   "property": "C82",
   "status": "proved",
   "theorems": [
    "C82_adc_error_exact"
   ],
   "note": ""
  },
  {
   "property": "C83",
   "status": "proved",
   "theorems": [
    "C83_receive_loop"
   ],
   "note": "the receive loop joined with the ADC driver"
  },
  {
   "property": "C84",
   "status": "proved",
   "theorems": [
    "C84_number_fields"
   ],
   "note": "both targets; values and saturation exact"
  },
  {
   "property": "C85",
   "status": "partial",
   "theorems": [
    "C85_transmitter_informed",
    "C85_first_refuted"
   ],
   "note": "REFUTED for the very first iteration (Core1Data is uninitialised); proved for every other iteration and for a first one with an event"
  },
  {
   "property": "C86",
   "status": "proved",
   "theorems": [
    "C86_bus_access"
   ],
   "note": "main loop, transmit state machine and transmitter together"
  },
  {
   "property": "C87",
   "status": "partial",
   "theorems": [
    "C87_failure_reported",
    "C87_rx_error_reported",
    "C87_once_refuted",
    "C87_twice_partial"
   ],
   "note": "REFUTED: one failed transmission can be reported twice; proved: every failure is reported, at most two reports per transmission"
  },
  {
   "property": "C88",
   "status": "partial",
   "theorems": [
    "C88_queue",
    "C88_loss_reported",
    "C88_no_false_alarm",
    "C88_noticed_refuted"
   ],
   "note": "order, capacity and report after every loss proved; REFUTED: a loss between the test of FifoErr and its clearing is noticed by no later test"
  },
  {
   "property": "C89",
   "status": "partial",
   "theorems": [
    "C89_complete_refuted",
    "C89_complete_partial"
   ],
   "note": "REFUTED: the overflow report closes the data before the gap, the packet with the gap is reported with status 0; proved when nothing is lost and no time-out occurs"
  },
  {
   "property": "C90",
   "status": "proved",
   "theorems": [
    "C90_firmware_safe",
    "C90_firmware_parts"
   ],
   "note": "both cores, ADC and queue together"
  },
  {
   "property": "C91",
   "status": "proved",
   "theorems": [
    "C91_decoded_to_host"
   ],
   "note": "decoder events to host reports, complete firmware"
  },
  {
   "property": "C92",
   "status": "proved",
   "theorems": [
    "C92_noisy_line"
   ],
   "note": "any disturbance within the stated tolerance mask; packets with at most 172 not-receiving samples inside (cf. C65)"
  },
  {
   "property": "C93",
   "status": "proved",
   "theorems": [
    "C93_recovery"
   ],
   "note": "less than 2^31 samples altogether (cf. C20)"
  },
  {
   "property": "C94",
   "status": "proved",
   "theorems": [
    "C94_line_to_packets"
   ],
   "note": "ideal rectangular pulses plus bounded deviation per conversion; less than 3.9e9 conversions; the ADC hand-out of values is C27"
  },
  {
   "property": "C95",
   "status": "proved",
   "theorems": [
    "C95_line_to_host",
    "C95_no_overflow"
   ],
   "note": "less than 2^28 conversions (one DMA block, cf. C29); preemption model as in M_System.v"
  },
  {
   "property": "C96",
   "status": "proved",
   "theorems": [
    "C96_undisturbed",
    "C96_firmware"
   ],
   "note": "the converse of C47: a sufficient condition for success; the condition speaks about the polls only"
  },
  {
   "property": "C97",
   "status": "partial",
   "theorems": [
    "C97_actual_clocks",
    "C97_long_message_refuted",
    "C97_cut_echo_fails",
    "C97_short_message_partial"
   ],
   "note": "at the clocks the firmware sets (C98) proved for every message, assuming the main loop keeps up (prompt); at exactly 16 samples per bit refuted for 31 and 32 bytes and proved for messages whose waveform has at most 176 not-receiving samples"
  },
  {
   "property": "C98",
   "status": "partial",
   "theorems": [
    "C98_sixteen_samples_refuted",
    "C98_samples_partial"
   ],
   "note": "REFUTED: adc.cpp:67 sets the divider to 156 where the hardware adds one; 15 or 16 samples per bit"
  },
  {
   "property": "C99",
   "status": "proved",
   "theorems": [
    "C99_slow_line",
    "C99_clocks"
   ],
   "note": "packets with at most 172 not-receiving samples inside after thinning (as in C92); the line-code level, after the DC blocker"
  },
  {
   "property": "C100",
   "status": "proved",
   "theorems": [
    "C100_own_message"
   ],
   "note": "up to 34 bytes, the modem sends at most 32"
  },
  {
   "property": "C101",
   "status": "partial",
   "theorems": [
    "C101_nominal_packet_refuted",
    "C101_nominal_packet_partial"
   ],
   "note": "REFUTED for 31 bytes or more; proved up to 28 bytes; 29 and 30 depend on phase and bytes"
  },
  {
   "property": "C102",
   "status": "proved",
   "theorems": [
    "C102_time_to_packets",
    "C102_senders"
   ],
   "note": "C94 without the assumption of exactly 16 samples per bit; rectangular pulses plus bounded deviation per conversion; packets of at most 169 samples per byte and 176 more (28 bytes of a nominal sender, cf. C101)"
  },
  {
   "property": "C103",
   "status": "proved",
   "theorems": [
    "C103_recovery_slow"
   ],
   "note": "less than 2^31 samples altogether (cf. C20)"
  },
  {
   "property": "C104",
   "status": "proved",
   "theorems": [
    "C104_time_to_host"
   ],
   "note": "less than 2^28 conversions (one DMA block, cf. C29); C129 has the statement for later blocks; preemption model as in M_System.v"
  },
  {
   "property": "C105",
   "status": "proved",
   "theorems": [
    "C105_real_time_to_host"
   ],
   "note": "less than 2^28 conversions (one DMA block, cf. C29); preemption model as in M_System.v"
  },
  {
   "property": "C106",
   "status": "proved",
   "theorems": [
    "C106_request_answered",
    "C106_on_the_bus"
   ],
   "note": "the answer is S_Ctrl.answer; hw at rest is a hypothesis (cf. C96)"
  },
  {
   "property": "C107",
   "status": "proved",
   "theorems": [
    "C107_typed_line",
    "C106_on_the_bus"
   ],
   "note": ""
  },
  {
   "property": "C108",
   "status": "proved",
   "theorems": [
    "C108_request_on_the_line"
   ],
   "note": ""
  },
  {
   "property": "C109",
   "status": "partial",
   "theorems": [
    "C109_latency_refuted",
    "C109_latency_partial"
   ],
   "note": "the documented worst case of 36 cycles and best case of 29 do not hold: the value 0 takes 38 cycles, no value takes fewer than 30; the documented 33 cycles of the unmodified samples hold"
  },
  {
   "property": "C110",
   "status": "proved",
   "theorems": [
    "C110_keeps_pace",
    "C110_at_adc_rate"
   ],
   "note": ""
  },
  {
   "property": "C111",
   "status": "partial",
   "theorems": [
    "C111_trailing_comment_refuted",
    "C111_trailing_comment_partial",
    "C111_line_effect_partial"
   ],
   "note": "false: colons in a comment count as field separators (other bytes are sent, or the clock is set); proved for comments without colons and for lines with both colons before the comment"
  },
  {
   "property": "C112",
   "status": "partial",
   "theorems": [
    "C112_failure_shown_refuted",
    "C112_failure_shown_partial",
    "C112_collision_true"
   ],
   "note": "false: a collision found by comparing bytes leaves the state machine waiting for the line, so the loop shows activity instead; proved for all failures with another status in iterations without data loss, and the converse without restriction"
  },
  {
   "property": "C113",
   "status": "partial",
   "theorems": [
    "C113_internal_shown_refuted",
    "C113_internal_shown_partial",
    "C113_internal_true"
   ],
   "note": "false: data lost between the cores while a transmission is in progress is not shown; proved for all other cases, and the converse without restriction"
  },
  {
   "property": "C114",
   "status": "partial",
   "theorems": [
    "C114_tx_only_refuted",
    "C114_tx_only_partial"
   ],
   "note": "false: a panel update between the start of a transmission and its first byte; proved: only if nothing was received in the window"
  },
  {
   "property": "C115",
   "status": "proved",
   "theorems": [
    "C115_calls",
    "C115_panel",
    "C115_idle"
   ],
   "note": ""
  },
  {
   "property": "C116",
   "status": "proved",
   "theorems": [
    "C116_exact_timing",
    "C116_no_pause"
   ],
   "note": ""
  },
  {
   "property": "C117",
   "status": "proved",
   "theorems": [
    "C117_modem_to_modem"
   ],
   "note": "the receiver's side under the conditions of C105 (receive core keeps up, queue does not overflow, main loop at least every 49 ms); the DMA's schedule is an input"
  },
  {
   "property": "C118",
   "status": "proved",
   "theorems": [
    "C118_documented_message",
    "C118_documented_line"
   ],
   "note": "no ':' in the comment of a line without time and status (C111 shows why)"
  },
  {
   "property": "C119",
   "status": "proved",
   "theorems": [
    "C119_host_to_host"
   ],
   "note": "the DMA moves the bytes handed to it in order; its schedule is an input"
  },
  {
   "property": "C120",
   "status": "partial",
   "theorems": [
    "C120_transmitting_refuted",
    "C120_pulse_partial",
    "C120_no_partial",
    "C120_twice_partial",
    "C120_flag_partial",
    "C120_events_cover"
   ],
   "note": "REFUTED: for one PIO cycle between pull and irq set the answer is no although a byte is about to be sent; proved: yes during every pulse, otherwise no means silence, exact duration of the flag, and the hardware events of the state machine's model cover every run of the PIO program"
  },
  {
   "property": "C121",
   "status": "proved",
   "theorems": [
    "C121_contiguous",
    "C121_host_to_host"
   ],
   "note": "DMA reaction time at most 175 PIO cycles is a hypothesis (fed_promptly)"
  },
  {
   "property": "C122",
   "status": "proved",
   "theorems": [
    "C122_uart_pio",
    "C122_send"
   ],
   "note": ""
  },
  {
   "property": "C123",
   "status": "partial",
   "theorems": [
    "C123_sign_refuted",
    "C123_converter_partial",
    "C123_sign_partial"
   ],
   "note": "REFUTED: Stop throws away the conversion that ends meanwhile but the converter program goes on where it was, so the other input is negated afterwards; proved: exactly when that happens (parity of lost conversions), and at most one extra word per reset"
  },
  {
   "property": "C124",
   "status": "proved",
   "theorems": [
    "C124_during_update",
    "C124_count_refuted"
   ],
   "note": "C124_count_refuted shows that the bound must be taken at the last read (extends C28's finding)"
  },
  {
   "property": "C125",
   "status": "partial",
   "theorems": [
    "C125_repeated_refuted",
    "C125_lost_refuted",
    "C125_interrupted_partial",
    "C125_nothing_lost_partial"
   ],
   "note": "REFUTED: an interrupted activity may repeat the other activity in the next window, and is lost altogether if the compiler loads newState twice; proved: nothing else can happen, and errors are always exact"
  },
  {
   "property": "C126",
   "status": "partial",
   "theorems": [
    "C126_two_modems_refuted",
    "C126_own_period",
    "C126_two_modems_partial"
   ],
   "note": "REFUTED: after its last byte a modem waits for the free line without looking at the bytes, so a message that is the beginning of the other one also succeeds; proved: that is the only case, and the rest is heard within 4 ms"
  },
  {
   "property": "C127",
   "status": "partial",
   "theorems": [
    "C127_late_dma_refuted",
    "C127_serial_partial",
    "C127_safe_partial"
   ],
   "note": "REFUTED for a DMA channel that fills the empty FIFO exactly between Transmitting()'s look at the FIFO and its look at the channel; proved for all other schedules"
  },
  {
   "property": "C128",
   "status": "partial",
   "theorems": [
    "C128_serial_partial",
    "C128_safe_partial",
    "C128_reports_partial",
    "C128_same_program"
   ],
   "note": "all histories except those with the DMA activity of C127_late_dma_refuted"
  },
  {
   "property": "C129",
   "status": "proved",
   "theorems": [
    "C129_beyond_block",
    "C129_fresh_block"
   ],
   "note": "not more than 3.9 billion conversions since start or since a received byte (C20_idle_refuted); the companion channel is finished at each restart (cf. C29)"
  },
  {
   "property": "C130",
   "status": "proved",
   "theorems": [
    "C130_done_heard",
    "C130_not_done_failed",
    "C130_done_kept",
    "C130_never_done"
   ],
   "note": ""
  },
  {
   "property": "C131",
   "status": "proved",
   "theorems": [
    "C131_stays_in_buffer",
    "C131_cell"
   ],
   "note": ""
  },
  {
   "property": "C132",
   "status": "proved",
   "theorems": [
    "C132_same_as_list"
   ],
   "note": ""
  },
  {
   "property": "C133",
   "status": "proved",
   "theorems": [
    "C133_retimed",
    "C133_driver_off",
    "C133_free_line",
    "C133_echo",
    "C133_no_state_held",
    "C133_terminates",
    "C133_one_reading"
   ],
   "note": ""
  }
 ]
}
