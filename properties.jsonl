{"id": "C01", "title": "ShiftReg always holds the last N samples, in order, and never leaves its buffer", "statement": "After any sequence of Update calls on a ShiftReg<T,N> (N>=1) no access is out of bounds and no assertion fails; At(i) and Data()[i] for i<N return the i-th oldest of the N most recent samples (constructor contents for samples before the first N updates), and the value popped by Update(in,&out) is the sample that entered exactly N updates earlier.", "quantifier": "all element types, all N>=1, all initial contents, all finite update sequences, all i<N", "why_tests_cant": "Infinitely many histories; a unit test exercises a handful of short ones. The wrap of the doubled buffer happens at every multiple of N.", "anchors": ["pico/src/shiftreg.hpp: ShiftReg::ShiftReg, Update, At, Data"]}
{"id": "C02", "title": "Convolute is the exact dot product of the two windows", "statement": "Convolute(reg) on two shift registers returns sum over i<min(X,Y) of (i-th oldest of this)*(i-th oldest of other), and is free of undefined behaviour exactly when every product and partial sum fits int32_t.", "quantifier": "all window contents, all sizes X,Y, all histories that produced them", "why_tests_cant": "Overflow depends on arbitrary sample values; tests use small ones.", "anchors": ["pico/src/shiftreg.hpp: ShiftReg::Convolute"]}
{"id": "C03", "title": "FifoIrqSafe is a bounded FIFO queue", "statement": "For every sequence of Push/Pop/Clear/Length/Empty/Full calls a FifoIrqSafe<T,N> (N>=1) behaves as a queue of capacity N: Push succeeds iff fewer than N items are stored, Pop returns items in push order, each exactly once, and no access leaves the buffer.", "quantifier": "all N>=1, all item types, all finite operation histories", "why_tests_cant": "Infinitely many histories; a unit test exercises a handful of short ones. Wrap-around interacts with the fill level.", "anchors": ["pico/src/fifo_irqsafe.hpp: FifoIrqSafe::Push, Pop, Length, Empty, Full, Clear"]}
{"id": "C04", "title": "FifoIrqSafe::At(i) returns the i-th oldest queued item", "statement": "At(0) returns the oldest queued item and At(i) the i-th oldest, in every reachable fifo state with more than i items (documented: '0 being the oldest').", "quantifier": "all reachable fifo states and indices", "why_tests_cant": "Infinitely many histories; a unit test exercises a handful of short ones.", "anchors": ["pico/src/fifo_irqsafe.hpp: FifoIrqSafe::At"]}
{"id": "C05", "title": "LineReceiver is a bounded append-only buffer", "statement": "For every sequence of Push/Clear/Length/Empty/Full/At calls the line receiver contains exactly the items pushed successfully since the last Clear, in order; Push succeeds iff fewer than N items are stored; At(i) below the length returns the i-th of them; nothing is out of bounds.", "quantifier": "all N, all finite operation histories", "why_tests_cant": "Infinitely many histories; a unit test exercises a handful of short ones.", "anchors": ["pico/src/line_receiver_irqsafe.hpp: LineReceiverIrqSafe"]}
{"id": "C06", "title": "Resample(n) passes exactly every (n+1)-th sample", "statement": "A resampler constructed with n outputs, from any input stream, exactly the samples with index 0, n+1, 2(n+1), ... unmodified and nothing else (n < 2^32-1).", "quantifier": "all n, all streams of any length", "why_tests_cant": "Infinitely many histories; a unit test exercises a handful of short ones.", "anchors": ["pico/src/resample.hpp: Resample::Update"]}
{"id": "C07", "title": "The DC blocker never overflows for bus-level inputs", "statement": "For every input stream whose samples stay within +-16000 mV, DCblock::Update performs no signed overflow and every output stays within twice that bound plus one. The output for sample x_k is floor(s_k/256) with s_k = 256(x_k - x_(k-1)) + floor(254 s_(k-1)/256), s and x starting at 0.", "quantifier": "all streams (any length) with bounded samples", "why_tests_cant": "The internal state is recursive: the worst case history is unbounded in length.", "anchors": ["pico/src/dcblock.cpp: DCblock::Update"]}
{"id": "C08", "title": "The DC blocker removes any constant offset", "statement": "From every reachable state, if the input becomes constant the output magnitude never grows and after at most 1486 constant samples the output is 0 or -1 and never changes again.", "quantifier": "all reachable states, all constants within +-16000, all times after the stated settling bound", "why_tests_cant": "Convergence is a statement about an infinite tail; fixed-point rounding could leave a limit cycle.", "anchors": ["pico/src/dcblock.cpp: DCblock::Update"]}
{"id": "C09", "title": "The FIR filter computes the documented 7-tap convolution exactly and never overflows on ADC-range input", "statement": "For every stream with |sample| <= 50000 the filter output is floor(sum_{k<7} c[k]*x[n-6+k] / 2^15) with the documented coefficients and samples before the stream taken as 0, with no signed overflow; the filter is time-invariant and a constant input X gives floor(33237*X/32768) from the seventh sample on.", "quantifier": "all streams of any length with bounded samples", "why_tests_cant": "Infinitely many histories; a unit test exercises a handful of short ones.", "anchors": ["pico/src/fir_filter.cpp: FIRFilter::FIRFilter, Update"]}
{"id": "C10", "title": "Level implements the documented hysteresis", "statement": "For every stream: a sample is passed unchanged iff the line is in the high state after it, otherwise it is attenuated to floor(26*x/256); the high state of a polarity is entered only from the idle state by a sample at or beyond 1400 mV of that polarity and left exactly on a sample below 600 mV of that polarity; no overflow for |x| <= 80000000.", "quantifier": "all sample streams", "why_tests_cant": "Infinitely many histories; a unit test exercises a handful of short ones.", "anchors": ["pico/src/level_detect.hpp: Level::Update"]}
{"id": "C11", "title": "A full-amplitude pulse edge is never attenuated by Level", "statement": "Every sample at or beyond +-1400 mV is passed unattenuated ('High level signals are passed through').", "quantifier": "all streams and every sample in them", "why_tests_cant": "Infinitely many histories; a unit test exercises a handful of short ones.", "anchors": ["pico/src/level_detect.hpp: Level::Update"]}
{"id": "C12", "title": "The bit detector is a sliding matched filter on the last 16 samples only", "statement": "After any history the output of UARTBit::Update depends only on the last 16 samples (zeros before the first 16): it is H-A if that is at least the configured level, -( -H-A) if -H-A is, otherwise 0, where H sums samples 1..7 (oldest=0) of the window and A sums the magnitudes of samples 0 and 10..15; the configured level is floor(7*(high-low)*(error_rate+1)/256) = 4921 for the firmware; no overflow for |x| <= 130000000.", "quantifier": "all histories, all bounded samples", "why_tests_cant": "Infinitely many histories; a unit test exercises a handful of short ones.", "anchors": ["pico/src/uart_bit_detect_fast.cpp: UARTBit::UARTBit, Update, ShiftIn"]}
{"id": "C13", "title": "The bit detector ignores DC and small signals and is polarity symmetric", "statement": "For every history: a constant input of any magnitude gives output 0 once 16 constant samples were seen; inputs that stay within +-702 mV give output 0; negating all samples negates all outputs.", "quantifier": "all histories and amplitudes", "why_tests_cant": "Infinitely many histories; a unit test exercises a handful of short ones.", "anchors": ["pico/src/uart_bit_detect_fast.cpp: UARTBit::Update"]}
{"id": "C14", "title": "The UART never reports a byte without error unless the samples form a valid AMI frame carrying it", "statement": "Whenever UART::Update returns true with *err=false (even parity), there is a phase at which the 11 symbol-spaced samples ending with the most recent ones are: non-zero start, 8 data bits with zero meaning 1, parity making the number of ones even, zero stop, all non-zero symbols alternating in sign, and *out is exactly the byte those 8 symbols encode (LSB first).", "quantifier": "all sample streams of any length and any history", "why_tests_cant": "Any line noise is an input; tests check a few clean frames.", "anchors": ["pico/src/uart.cpp: UART::Update, FindBestPhase, ExtractDataAndParity"]}
{"id": "C15", "title": "The UART decodes every well-formed frame", "statement": "From the waiting-for-start state, for every byte and either start polarity, any symbol stream whose dominant phase (the phase with the strictly largest magnitude sum among the eight examined) samples to that byte's frame makes Update return true exactly at the 169th sample with *err=false and *out equal to that byte.", "quantifier": "all bytes, both polarities, all pulse shapes and magnitudes, all earlier shift register contents", "why_tests_cant": "256 bytes x shapes x magnitudes x register histories.", "anchors": ["pico/src/uart.cpp: UART::Update, FindBestPhase, ExtractDataAndParity"]}
{"id": "C16", "title": "Any single corrupted symbol in a frame is flagged", "statement": "If a frame's samples at the dominant phase differ from a valid frame in exactly one of the 11 symbols (pulse lost, spurious pulse, or polarity flipped), the byte is reported with *err=true.", "quantifier": "all bytes, all 11 positions, all kinds of corruption, all magnitudes", "why_tests_cant": "Combinatorial.", "anchors": ["pico/src/uart.cpp: UART::ExtractDataAndParity"]}
{"id": "C17", "title": "Decoding is independent of signal polarity", "statement": "Negating every detector sample leaves every return value, decoded byte and error flag of the UART unchanged, for every stream (samples other than -32768).", "quantifier": "all streams", "why_tests_cant": "Infinitely many histories; a unit test exercises a handful of short ones.", "anchors": ["pico/src/uart.hpp: UART"]}
{"id": "C18", "title": "The UART never accesses its buffer out of bounds", "statement": "No sequence of Update calls with any sample values and any parity mode causes an out-of-bounds access or assertion failure.", "quantifier": "all streams, all parity modes", "why_tests_cant": "Infinitely many histories; a unit test exercises a handful of short ones.", "anchors": ["pico/src/uart.hpp: UART", "pico/src/uart.hpp: UART_BUFFER_LEN"]}
{"id": "C19", "title": "PrintShiftreg is memory safe", "statement": "PrintShiftreg never reads outside the shift register nor fails an assertion, in any parity mode.", "quantifier": "all reachable UART states", "why_tests_cant": "Not covered by any test; prints 176 cells of a 168-cell register when parity is used.", "anchors": ["pico/src/uart.cpp: UART::PrintShiftreg"]}
{"id": "C20", "title": "An idle line never produces a byte", "statement": "As long as only zero symbols arrive, UART::Update never reports a byte, however long the line stays idle.", "quantifier": "all idle durations", "why_tests_cant": "The counter wraps only after 2^32 samples (7.8 hours); no test runs that long.", "anchors": ["pico/src/uart.cpp: UART::Update (WAIT_FOR_START fall-through decrements counter)"]}
{"id": "C21", "title": "Symbol magnitudes survive the detector-to-UART interface", "statement": "Every detector output reachable with ADC full-scale input is seen by the UART with the same sign and zero-ness (the int32_t to int16_t narrowing does not change it).", "quantifier": "all signals the ADC can produce (|x| <= 4972 mV)", "why_tests_cant": "Needs a corner amplitude above 4681 mV.", "anchors": ["pico/src/uart.cpp: UART::Update (int16_t narrowing)", "pico/src/uart_bit_detect_fast.cpp: Update"]}
{"id": "C22", "title": "The transmit PIO program emits exactly the P1P2 line code for every byte stream and any FIFO timing", "statement": "For every sequence of bytes and every schedule of their arrival in the TX FIFO the pins carry, for each byte, start pulse, 8 data bits LSB first, even parity and stop; zeros are half-bit pulses strictly alternating up/down starting up; ones and gaps drive no pulse; between frames the line is idle; bytes appear in order, none lost or duplicated.", "quantifier": "all byte streams, all arrival schedules, any length", "why_tests_cant": "Arrival timing relative to the 175-cycle frame is unbounded.", "anchors": ["pico/src/p1p2_uart_tx.pio"]}
{"id": "C23", "title": "Transmitted frames are DC balanced", "statement": "In every frame the number of up cycles equals the number of down cycles, so the transmitter never puts net DC on the bus, for any byte stream at any frame boundary.", "quantifier": "all byte streams and schedules", "why_tests_cant": "Infinitely many histories; a unit test exercises a handful of short ones.", "anchors": ["pico/src/p1p2_uart_tx.pio"]}
{"id": "C24", "title": "Every bit on the wire lasts exactly 16 PIO cycles", "statement": "Start, data, parity and stop bit of every transmitted frame each last 16 cycles (1/9600 s), including back-to-back bytes.", "quantifier": "all byte streams and schedules", "why_tests_cant": "Requires cycle counting along every path of the program.", "anchors": ["pico/src/p1p2_uart_tx.pio: stop bit, jmp next_byte"]}
{"id": "C25", "title": "The ADC helper PIO program negates every second sample", "statement": "For any stream of sample pairs in any arrival schedule twos_complement outputs for each pair (a, b): a's 8-bit value negated as a 16-bit two's complement number, then b unchanged; nothing else.", "quantifier": "all sample streams, all schedules", "why_tests_cant": "Infinitely many histories; a unit test exercises a handful of short ones.", "anchors": ["pico/src/twos_complement.pio"]}
{"id": "C26", "title": "A transmitted message is received back unchanged by the receiver chain (loopback)", "statement": "For every message of any bytes, any inter-byte gaps below 2^32 samples (7.7 h, see C20) and any line amplitude from 1400 to 4681 mV, feeding the transmitter's ideal waveform through Level, bit detector and UART yields exactly those bytes in order with no error and nothing else.", "quantifier": "all byte sequences, all gaps, all amplitudes in the range", "why_tests_cant": "Infinitely many histories; a unit test exercises a handful of short ones.", "anchors": ["pico/src/p1p2_uart_tx.pio", "pico/src/level_detect.hpp", "pico/src/uart_bit_detect_fast.cpp", "pico/src/uart.cpp"]}
{"id": "C27", "title": "The ADC delivers every sample exactly once, in order, or raises its error flag", "statement": "As long as no more than 254 samples are pending, successive ADC::Update calls return the differential value computed from three consecutive ring samples, one per DMA sample, in order, with no gap or repeat; if more than 255 samples are pending the error flag is set.", "quantifier": "all interleavings of DMA writes and Update calls between two channel restarts", "why_tests_cant": "Interleavings of hardware and software are unbounded.", "anchors": ["pico/src/adc.cpp: Update, Error"]}
{"id": "C28", "title": "The ADC never returns a value computed from overwritten samples without flagging an error", "statement": "If the ring has been overwritten past the oldest sample Update reads, the error flag is set by that Update.", "quantifier": "all backlog sizes", "why_tests_cant": "Needs exactly 255 pending samples.", "anchors": ["pico/src/adc.cpp: Update (0xffffff00 mask)"]}
{"id": "C29", "title": "An ADC transfer-count restart loses no samples", "statement": "When channel2's transfer count reaches zero all samples transferred before the restart are still returned by later Update calls.", "quantifier": "all backlog sizes at restart", "why_tests_cant": "Happens once every 2^28 samples (~14 minutes).", "anchors": ["pico/src/adc.cpp: Update, DMARestart"]}
{"id": "C30", "title": "Message text format is exact and never truncated", "statement": "For every message (Time<2^64, Status<2^32, Length<=32, byte data) c_str returns decimal time, ':', at least two lower-case hex digits of status, ':', two hex digits per data byte, NUL terminated, entirely inside its 128-byte buffer.", "quantifier": "all messages and all previous buffer contents", "why_tests_cant": "2^64 times x 2^32 states x 256^32 payloads.", "anchors": ["pico/src/message.cpp: Message::c_str"]}
{"id": "C31", "title": "Parsing a formatted message gives it back (Time < 2^63, Status < 2^31)", "statement": "For every message with Time<2^63 and Status<2^31 and at most 32 bytes, Message(m.c_str()) has the same Time, Status, Length and Data bytes, on the target.", "quantifier": "all messages in range", "why_tests_cant": "Infinitely many histories; a unit test exercises a handful of short ones.", "anchors": ["pico/src/message.cpp: Message::c_str, Message::Message(char*)"]}
{"id": "C32", "title": "Parsing a formatted message gives it back for all field values", "statement": "The round trip of C31 holds for every uint64_t time and uint32_t status.", "quantifier": "all messages", "why_tests_cant": "The host test passes for status 0xffffffff because long is 64 bits there; the target's is 32.", "anchors": ["pico/src/message.cpp: Message::Message(char*) (atoll, strtol)"]}
{"id": "C33", "title": "Parsing any line from the host is memory safe", "statement": "No line received from the host makes Message(char*) access memory outside the message or the line.", "quantifier": "all NUL-terminated lines up to the 127 characters the receiver accepts", "why_tests_cant": "Needs more than 64 hex digits in one line.", "anchors": ["pico/src/message.cpp: Message::Message(char*) data loop"]}
{"id": "C34", "title": "Only hex digits contribute to a parsed message", "statement": "In the data part of a line every character that is not a hex digit (before a '#' or ';') is ignored; the message consists of the hex digit pairs in order; '#' and ';' end the data; a dangling digit is dropped.", "quantifier": "all lines", "why_tests_cant": "Plain char is signed on the test host and unsigned on the target.", "anchors": ["pico/src/message.cpp: Message::Message(char*) (char decoded = -1)"]}
{"id": "C35", "title": "Message::Append / Clear / Overflow keep a bounded byte list", "statement": "For every sequence of Append/Clear a message holds the first 32 bytes appended since the last Clear, Overflow is true iff 32 are held, no access is out of bounds.", "quantifier": "all operation sequences", "why_tests_cant": "Infinitely many histories; a unit test exercises a handful of short ones.", "anchors": ["pico/src/message.cpp: Append, Clear, Overflow"]}
{"id": "C36", "title": "A line with one colon is a time stamp followed by data", "statement": "For a line '<time>:<hex data>' the data part consists only of the bytes after the colon.", "quantifier": "all lines with a single colon", "why_tests_cant": "Infinitely many histories; a unit test exercises a handful of short ones.", "anchors": ["pico/src/message.cpp: Message::Message(char*) (field counting)"]}
{"id": "C37", "title": "The packet checksum is linear and detects every single-bit error and every burst of up to 8 bits, at any length", "statement": "For packets of any length, GenCRC of the xor of two equal-length packets is the xor of their checksums, and changing any one bit, or any set of bits within 8 consecutive bit positions (in transmission order), changes the checksum.", "quantifier": "all packets of all lengths, all error positions", "why_tests_cant": "Infinitely many histories; a unit test exercises a handful of short ones.", "anchors": ["pico/src/standalone.cpp: GenCRC"]}
{"id": "C38", "title": "A checksum mismatch is never answered; only valid requests to our address are", "statement": "In every history an answer becomes ready (or is ready after a packet of more than 3 bytes) only through Receive in the operation phase, and only if the packet is longer than 3 bytes, starts with 00, our address and type 0x30 or 0x31, and its last byte is the checksum of the bytes before it.", "quantifier": "all controller histories, all packets", "why_tests_cant": "Infinitely many histories; a unit test exercises a handful of short ones.", "anchors": ["pico/src/standalone.cpp: StandaloneController::Receive, NeedToHandlePacket"]}
{"id": "C39", "title": "The generated answer echoes the request and carries a valid checksum", "statement": "The answer to a 0x30 request is 18 bytes 40 addr 30, bytes 3..16 of the request, checksum; to a 0x31 request 16 bytes 40 addr 31, bytes 3..14 of the request with bytes 7,8 replaced by B4 10, checksum; handed out unchanged by TxAnswer.", "quantifier": "all requests, all controller histories", "why_tests_cant": "Infinitely many histories; a unit test exercises a handful of short ones.", "anchors": ["pico/src/standalone.cpp: GenerateAnswer, TxAnswer"]}
{"id": "C40", "title": "An answer depends only on the received packet", "statement": "Two packets with the same Length and the same first Length bytes produce the same answer.", "quantifier": "all packets", "why_tests_cant": "Needs packets shorter than the answer template, and stale bytes behind them.", "anchors": ["pico/src/standalone.cpp: GenerateAnswer"]}
{"id": "C41", "title": "A pending answer is withdrawn as soon as another packet is received", "statement": "HasTxData returns true only until another packet is received (documented), for every packet.", "quantifier": "all histories", "why_tests_cant": "Infinitely many histories; a unit test exercises a handful of short ones.", "anchors": ["pico/src/standalone.cpp: Receive, HasTxData"]}
{"id": "C42", "title": "The controller stays silent outside operation and follows the documented timing", "statement": "No answer is ever ready in the idle and bus-scan phases; idle lasts at least 100 ms, bus scan at least 2 s and an operation phase is left at the first Check after 600 s; a bus collision always leads to silence for at least 2.1 s; the address is always 0xF0 or 0xF1.", "quantifier": "all schedules of Check/Receive/TxAnswer/BusCollision calls with non-decreasing time", "why_tests_cant": "Infinitely many histories; a unit test exercises a handful of short ones.", "anchors": ["pico/src/standalone.cpp: Check, Receive, BusCollision"]}
{"id": "C43", "title": "The controller recognises its own transmitted answers", "statement": "IsTxAnswer returns true for every message handed out by TxAnswer, so a failed transmission of an own answer triggers BusCollision.", "quantifier": "all controller histories", "why_tests_cant": "The only test of it uses a foreign address.", "anchors": ["pico/src/standalone.cpp: IsTxAnswer", "pico/src/main.cpp: core0_entry"]}
{"id": "C44", "title": "The controller is memory safe for every message", "statement": "No call sequence with messages of any Length<=32 makes the controller access memory out of bounds.", "quantifier": "all call sequences", "why_tests_cant": "Infinitely many histories; a unit test exercises a handful of short ones.", "anchors": ["pico/src/standalone.cpp"]}
{"id": "C45", "title": "The line driver is powered down whenever the transmitter is idle", "statement": "In every reachable state of the transmit state machine, whenever it is idle or waiting for the line the amplifier shutdown pin is asserted.", "quantifier": "all event, time and hardware schedules", "why_tests_cant": "Infinitely many histories; a unit test exercises a handful of short ones.", "anchors": ["pico/src/tx_statemachine.hpp: ChangeState", "pico/src/uart_pio.cpp: EnableShutdown"]}
{"id": "C46", "title": "Transmission starts only on a line observed free", "statement": "Data is handed to the transmitter only after an update that saw the line free and no ongoing transmission, followed by at least 32 ms during which every update saw the line free.", "quantifier": "all event and time schedules", "why_tests_cant": "Infinitely many histories; a unit test exercises a handful of short ones.", "anchors": ["pico/src/tx_statemachine.hpp: Update", "pico/src/tx_state.hpp"]}
{"id": "C47", "title": "A transmission that ends without error was echoed byte for byte", "statement": "If a transmission returns to idle without the error flag, then every byte of the message was received back, in order, unmodified, without parity error, and from the first sign of data to the last byte the line was seen busy at every poll.", "quantifier": "all event schedules, all messages of 1..32 bytes", "why_tests_cant": "Infinitely many histories; a unit test exercises a handful of short ones.", "anchors": ["pico/src/tx_statemachine.hpp: Update"]}
{"id": "C48", "title": "Every transmission attempt terminates", "statement": "For every event schedule, once started the state machine is idle again at the first update at or after a bound computed from the message length (34+32+2+4*(Length+1) ms plus the gaps between updates), and no state is held beyond its own timeout.", "quantifier": "all schedules, all messages", "why_tests_cant": "Infinitely many histories; a unit test exercises a handful of short ones.", "anchors": ["pico/src/tx_state.hpp: TimeoutForState", "pico/src/tx_statemachine.hpp: Update"]}
{"id": "C49", "title": "A message is never replaced while it is being transmitted", "statement": "WakeAndTransmit while not idle changes nothing; while a transmission runs the message to be sent does not change.", "quantifier": "all states and messages", "why_tests_cant": "Infinitely many histories; a unit test exercises a handful of short ones.", "anchors": ["pico/src/tx_statemachine.hpp: WakeAndTransmit"]}
{"id": "C50", "title": "A bus collision detected by byte comparison is reported with the documented status 1", "statement": "If a received byte differs from the transmitted byte, the reported message has status STATUS_ERR_BUS_COLLISION.", "quantifier": "all collisions", "why_tests_cant": "Infinitely many histories; a unit test exercises a handful of short ones.", "anchors": ["pico/src/tx_statemachine.hpp: Update (Status = 21)"]}
{"id": "C51", "title": "The transmit state machine is memory safe", "statement": "No call sequence makes the transmit state machine read or write outside its messages.", "quantifier": "all messages of Length 0..32 and all schedules", "why_tests_cant": "Needs Length 0 or late echo bytes.", "anchors": ["pico/src/tx_statemachine.hpp: Update"]}
{"id": "C52", "title": "After a transmission ends no byte of it is left queued in the transmitter", "statement": "When the state machine returns to idle after an abort the DMA and PIO FIFO hold no bytes of the aborted message.", "quantifier": "all abort paths", "why_tests_cant": "Infinitely many histories; a unit test exercises a handful of short ones.", "anchors": ["pico/src/tx_statemachine.hpp: ChangeState, Update"]}
{"id": "C53", "title": "Characters reach the host in the order they were queued, under any interrupt timing", "statement": "For every interleaving of the main loop's output pump with the output pump run by the UART interrupt, characters are written to the UART in queue order.", "quantifier": "all interleavings", "why_tests_cant": "Depends on an interrupt between two instructions.", "anchors": ["pico/src/host_uart.cpp: CheckTXFIFO, on_uart_irq"]}
{"id": "C54", "title": "Output to the host is a sequence of whole lines unless the error flag is raised", "statement": "For every history of Send and pump calls, the concatenated host output is the concatenation, in order, of the complete lines sent (text, CR, LF) whenever no Send overflowed; a Send that does not fit sets the error flag, and the next message sent reports overflow status bit 2.", "quantifier": "all histories and pump rates", "why_tests_cant": "Infinitely many histories; a unit test exercises a handful of short ones.", "anchors": ["pico/src/host_uart.cpp: Send, UpdateAndSend, CheckTXFIFO"]}
{"id": "C55", "title": "A reported status is always one of the documented codes", "statement": "Every status sent to the host is one of 0..5.", "quantifier": "all histories", "why_tests_cant": "The overflow bit is or-ed into other codes (1|2=3, 4|2=6, 5|2=7) and 21 is used for collisions.", "anchors": ["pico/src/host_uart.cpp: UpdateAndSend", "pico/src/message.hpp: status enumeration"]}
{"id": "C56", "title": "Every complete line typed by the host is processed exactly once", "statement": "For every chunking of host input, each non-empty line terminated by CR or LF is handed to the line handler exactly once, in order.", "quantifier": "all input streams and chunkings", "why_tests_cant": "Depends on how many characters arrive between two polls.", "anchors": ["pico/src/host_uart.cpp: CheckRXFIFO, CheckRxLine, OnLineReceived"]}
{"id": "C57", "title": "The host receiver survives over-long lines", "statement": "After a line that is too long for the buffer, later lines are processed again.", "quantifier": "all input streams", "why_tests_cant": "Needs 128 characters without line end.", "anchors": ["pico/src/host_uart.cpp: CheckRXFIFO, CheckRxLine"]}
{"id": "C58", "title": "Paced host input is processed exactly", "statement": "If every poll delivers at most one complete line (at most 127 characters, the line end being the last character), each line is handled exactly once with exactly its text; comment and empty lines have no effect; only a line starting with ;!BLD!; enters the bootloader.", "quantifier": "all such input streams", "why_tests_cant": "Infinitely many histories; a unit test exercises a handful of short ones.", "anchors": ["pico/src/host_uart.cpp: CheckRxLine, OnLineReceived"]}
{"id": "C59", "title": "Time set by the host keeps advancing monotonically", "statement": "After SetTime(t) GetTime returns t plus the elapsed milliseconds, at all later times.", "quantifier": "all times", "why_tests_cant": "32-bit millisecond counter wraps after 49.7 days.", "anchors": ["pico/src/host_uart.cpp: SetTime, GetTime"]}
{"id": "C60", "title": "Host messages are queued in order, up to eight", "statement": "Valid host lines are transmitted in arrival order; while fewer than eight are pending none is lost.", "quantifier": "all histories", "why_tests_cant": "Infinitely many histories; a unit test exercises a handful of short ones.", "anchors": ["pico/src/host_uart.cpp: OnLineReceived, Pop"]}
{"id": "C61", "title": "No accepted host message is dropped silently", "statement": "Every valid host line is either transmitted or reported.", "quantifier": "all histories", "why_tests_cant": "Needs nine pending messages.", "anchors": ["pico/src/host_uart.cpp: OnLineReceived (Push result ignored)"]}
{"id": "C62", "title": "LED patterns reflect the events of the last 500 ms with the documented priority", "statement": "After each 500 ms update the LED pattern is the one documented for the most severe event reported since the previous update (bus/internal error latest wins, then rx/tx error latest wins, then activity), and idle if there was none.", "quantifier": "all event histories", "why_tests_cant": "Infinitely many histories; a unit test exercises a handful of short ones.", "anchors": ["pico/src/led_manager.hpp: LEDManager"]}
{"id": "C63", "title": "Blink timing", "statement": "A slowly blinking LED toggles exactly every 5th 100 ms tick and a fast one at every tick, for any tick count, regardless of history.", "quantifier": "all histories and tick counts", "why_tests_cant": "Infinitely many histories; a unit test exercises a handful of short ones.", "anchors": ["pico/src/led_driver.hpp: LEDdriver"]}
{"id": "C64", "title": "Line busy/free events strictly alternate and bytes are only reported while busy", "statement": "For every sample stream the events produced by core1 alternate busy/free (starting from busy), a line-free event is only raised after at least 176 not-receiving samples since the line became busy, and every byte event lies in a busy period.", "quantifier": "all sample streams", "why_tests_cant": "Infinitely many histories; a unit test exercises a handful of short ones.", "anchors": ["pico/src/main.cpp: core1_entry"]}
{"id": "C65", "title": "A packet of any supported length is delivered as one packet", "statement": "A bus packet of up to 32 contiguous bytes is delimited by exactly one line-free event after its last byte.", "quantifier": "all packets of 1..32 bytes", "why_tests_cant": "The idle counter is cumulative; failing needs about 25 contiguous bytes.", "anchors": ["pico/src/main.cpp: core1_entry (LineIdleCounter)"]}
{"id": "C66", "title": "Received bytes are assembled into exactly one report per packet", "statement": "For every event sequence between two line-free events with 1..31 bytes and no overflow/timeout, core0 hands exactly those bytes in order to the controller and the host once, with status 0 if no byte had an error and 3 if the last status-setting event was a byte error.", "quantifier": "all event sequences", "why_tests_cant": "Infinitely many histories; a unit test exercises a handful of short ones.", "anchors": ["pico/src/main.cpp: core0_entry"]}
{"id": "C67", "title": "A maximum-size packet is reported without error", "statement": "A packet of exactly 32 valid bytes is reported with status 0.", "quantifier": "all 32-byte packets", "why_tests_cant": "Infinitely many histories; a unit test exercises a handful of short ones.", "anchors": ["pico/src/main.cpp: core0_entry (Overflow check)"]}
{"id": "C68", "title": "The busy timeout fires only after 500 ms of continuous busy", "statement": "A no-framing report is only generated if the line has been busy for more than 500 ms.", "quantifier": "all uptimes", "why_tests_cant": "32-bit millisecond wrap.", "anchors": ["pico/src/main.cpp: core0_entry (LineBusySinceMsec)"]}
{"id": "C69", "title": "The main loop is memory safe", "statement": "No sequence of bus events, host input (lines of at most 64 hex digits and at least one byte) and hardware events makes core0 access memory out of bounds.", "quantifier": "all event schedules", "why_tests_cant": "Infinitely many histories; a unit test exercises a handful of short ones.", "anchors": ["pico/src/main.cpp: core0_entry"]}
{"id": "C70", "title": "Host messages have priority and transmissions never overlap", "statement": "A new transmission is started only when the transmitter is idle; a pending controller answer is only sent if no host message is pending.", "quantifier": "all schedules", "why_tests_cant": "Infinitely many histories; a unit test exercises a handful of short ones.", "anchors": ["pico/src/main.cpp: core0_entry"]}
{"id": "C71", "title": "The ADC delivers the differential voltage of its two inputs", "statement": "With constant input codes p (inverted channel) and q, every value from the third on is floor((q-p)*gain/256), whichever of the two channels was sampled last.", "quantifier": "all 8-bit codes, gains, sample indices", "why_tests_cant": "Infinitely many histories; a unit test exercises a handful of short ones.", "anchors": ["pico/src/adc.cpp: Update", "pico/src/twos_complement.pio"]}
{"id": "C72", "title": "The checksum detects every odd number of bit errors and every double error up to 126 positions apart", "statement": "Changing an odd number of bits of a packet with a correct checksum (of any length, checksum byte included) makes the checksum wrong; changing exactly two bits does so unless their distance is a multiple of 127.", "quantifier": "all packets, all error positions", "why_tests_cant": "Infinitely many histories; a unit test exercises a handful of short ones.", "anchors": ["pico/src/standalone.cpp: GenCRC"]}
{"id": "C73", "title": "The transmitter is never overrun by the state machine", "statement": "In every history (messages of 1..32 bytes, any hardware timing) the transmitter's error flag (new data while old data is waiting, or too much data) is never raised.", "quantifier": "all event, time and hardware schedules", "why_tests_cant": "Infinitely many histories; a unit test exercises a handful of short ones.", "anchors": ["pico/src/uart_pio.cpp: Send", "pico/src/tx_statemachine.hpp: ChangeState"]}
{"id": "C74", "title": "Characters typed by the host reach the line handler in order, under any interrupt timing", "statement": "For every interleaving of the main loop's input polling and line handling with the UART interrupt, every complete non-empty line that arrives is handed to the line handler exactly as typed, once and in order.", "quantifier": "all interleavings and input streams", "why_tests_cant": "Infinitely many histories; a unit test exercises a handful of short ones.", "anchors": ["pico/src/host_uart.cpp: CheckRXFIFO, CheckRxLine, on_uart_irq"]}
{"id": "C75", "title": "The receive core never runs into undefined behaviour", "statement": "For every content of the DMA buffer, every stream of 8-bit difference samples and every timing of DMA, loop and queue, the receive path (ADC ring, FIR, resampler, DC blocker, level, bit detector, UART, line tracking, queue) makes no out-of-bounds access and no signed overflow.", "quantifier": "all sample streams and schedules", "why_tests_cant": "Infinitely many histories; a unit test exercises a handful of short ones.", "anchors": ["pico/src/main.cpp: core1_entry", "pico/src/adc.cpp: Update", "pico/src/fir_filter.cpp", "pico/src/dcblock.cpp", "pico/src/uart_bit_detect_fast.cpp", "pico/src/uart.cpp"]}
{"id": "C76", "title": "Every receive event reaches the queue between the cores or is flagged", "statement": "Each event the receive core produces is pushed to the inter-core queue in the next iteration, in order and once, or the FIFO error flag is raised in that iteration, the latter exactly if the queue is full.", "quantifier": "all sample streams and queue fill levels", "why_tests_cant": "Infinitely many histories; a unit test exercises a handful of short ones.", "anchors": ["pico/src/main.cpp: core1_entry"]}
{"id": "C77", "title": "The main loop uses its parts only through their interfaces", "statement": "In every history of the main loop the state of transmitter, controller, host interface and LED manager is exactly the result of the calls made to them, in order and with admissible arguments (messages of 1..32 bytes, byte values, non-decreasing times), so every property of a part holds in the running firmware.", "quantifier": "all histories of the main loop", "why_tests_cant": "Infinitely many histories; a unit test exercises a handful of short ones.", "anchors": ["pico/src/main.cpp: core0_entry"]}
{"id": "C78", "title": "LineBusy counts samples beyond the level in its window", "statement": "After every history of samples, LineBusy reports busy exactly when more than N/8 and at most 5N/8 of the last N samples lie beyond +-level.", "quantifier": "all window lengths, levels and sample histories", "why_tests_cant": "Infinitely many histories; a unit test exercises a handful of short ones.", "anchors": ["pico/src/line_busy.hpp: LineBusy"]}
{"id": "C79", "title": "The edge detector remembers the first strongest edge", "statement": "After every history since Reset, the phase of UARTEdge is the position (modulo 256) of the first largest positive value, 0 if there was none.", "quantifier": "all sample histories", "why_tests_cant": "Infinitely many histories; a unit test exercises a handful of short ones.", "anchors": ["pico/src/uart_edge_detect.hpp: UARTEdge"]}
{"id": "C80", "title": "The fast bit detector is equivalent to the reference bit detector", "statement": "For every signal within +-2340 mV the fast detector's output is exactly the threshold decision on the two probabilities the reference detector computes with its coefficient tables.", "quantifier": "all signals within the amplitude bound", "why_tests_cant": "Infinitely many histories; a unit test exercises a handful of short ones.", "anchors": ["pico/src/uart_bit_detect_fast.cpp: Update", "pico/src/uart_bit_detect.hpp: UARTBit"]}
{"id": "C81", "title": "The UART receiver is sound and complete in every parity mode", "statement": "With no, even or odd parity: a byte reported without error was carried by a valid character of that mode in the samples just before; every valid character at the strongest phase is reported; with a parity bit one damaged symbol is flagged or leaves the byte unchanged.", "quantifier": "all parity modes, streams, histories and single-symbol errors", "why_tests_cant": "Infinitely many histories; a unit test exercises a handful of short ones.", "anchors": ["pico/src/uart.cpp: Update, FindBestPhase, ExtractData, ExtractDataAndParity"]}
{"id": "C82", "title": "The ADC error flag is exact", "statement": "In every history of conversions, buffer polls and block restarts, the error flag delivered with a value is set exactly if since the last delivered value 256 or more samples were waiting in the ring or a block ended with one of the two channels' transfers unfinished; reading the flag clears it.", "quantifier": "all DMA timings, poll times and ring contents", "why_tests_cant": "Infinitely many histories; a unit test exercises a handful of short ones.", "anchors": ["pico/src/adc.cpp: Update, Error, Reset"]}
{"id": "C83", "title": "The receive loop decodes unflagged samples and reports flagged ones", "statement": "In every run of the receive loop, the samples fed to the decoder are exactly the unflagged values the ADC delivers, in order; each flagged one is reported as an event with the error flag and followed by an ADC restart; and everything that is news is pushed in the following iteration or the FIFO error is raised.", "quantifier": "all sample streams, DMA timings and queue fill levels", "why_tests_cant": "Infinitely many histories; a unit test exercises a handful of short ones.", "anchors": ["pico/src/main.cpp: core1_entry", "pico/src/adc.cpp: Update, Error, Reset"]}
{"id": "C84", "title": "The numeric fields of an accepted line are read as C numbers", "statement": "For every line the parser accepts: without a colon time and status are 0; otherwise time is the first field read as a C decimal number limited to 64 bits signed and status the second field read as a C hexadecimal number limited to a signed long, each stored in its unsigned field.", "quantifier": "all input lines, both targets", "why_tests_cant": "Infinitely many histories; a unit test exercises a handful of short ones.", "anchors": ["pico/src/message.cpp: Message(const char*)"]}
{"id": "C85", "title": "The transmitter is told the truth about the bus, once per iteration", "statement": "Every main-loop iteration with an event, and every one while the line is busy, tells the transmit state machine exactly once the state of the line and what this iteration's event says about a received byte; a byte is never told twice and never lost.", "quantifier": "all histories of the main loop", "why_tests_cant": "Infinitely many histories; a unit test exercises a handful of short ones.", "anchors": ["pico/src/main.cpp: core0_entry", "pico/src/tx_statemachine.hpp: Update"]}
{"id": "C86", "title": "The firmware puts data on the bus only after 32 ms of free line", "statement": "Whenever an iteration of the main loop hands data to the transmitter, the data is exactly the payload of the message whose transmission was started last, and according to the receiver's events the line was free at some iteration at least 32 ms before and at every iteration since.", "quantifier": "all histories of events, host input, times and hardware activity", "why_tests_cant": "Infinitely many histories; a unit test exercises a handful of short ones.", "anchors": ["pico/src/main.cpp: core0_entry", "pico/src/tx_statemachine.hpp: Update", "pico/src/uart_pio.cpp: Send"]}
{"id": "C87", "title": "Every failed transmission is reported to the host, once", "statement": "A failed transmission is reported in the next iteration with the bytes transmitted and the status of the failure; failures by a receive error are reported by the receive path before the line is free again; each failed transmission is reported once.", "quantifier": "all histories of the main loop", "why_tests_cant": "Infinitely many histories; a unit test exercises a handful of short ones.", "anchors": ["pico/src/main.cpp: core0_entry", "pico/src/tx_statemachine.hpp: Update, Error"]}
{"id": "C88", "title": "Events between the cores arrive in order; a lost one is reported", "statement": "For every interleaving of the two cores: the main loop takes the receive core's events in order, at most 8 wait, lost are exactly those that find 8 waiting, and every loss is reported to the host as an overflow (status 2) by the next main-loop iteration (the one after it if the flag had been tested already). No loss goes unnoticed by an iteration that tests the flag after it, and there are never more overflow reports than losses.", "quantifier": "every interleaving of receive-core events, flag tests and main-loop iterations, every boot content and host input", "why_tests_cant": "Infinitely many histories; a unit test exercises a handful of short ones.", "anchors": ["pico/src/main.cpp: core0_entry", "pico/src/main.cpp: core1_entry", "pico/src/main.cpp: FifoErr"]}
{"id": "C89", "title": "A packet reported with status 0 is complete", "statement": "A packet reported to the host with status 0 contains every byte the receive core decoded between its line-free events.", "quantifier": "every interleaving and event stream", "why_tests_cant": "Infinitely many histories; a unit test exercises a handful of short ones.", "anchors": ["pico/src/main.cpp: core0_entry", "pico/src/main.cpp: FifoErr"]}
{"id": "C90", "title": "The complete firmware never runs into undefined behaviour", "statement": "For every interleaving of DMA transfers, receive-core iterations and main-loop iterations, all samples and all host input with lines of at most 127 characters and fields of at most 64 digits, the complete firmware runs without undefined behaviour, and its observable behaviour is that of ADC, decoder chain, queue and main loop one after the other.", "quantifier": "every schedule, sample stream, host input, initial memory content", "why_tests_cant": "Infinitely many histories; a unit test exercises a handful of short ones.", "anchors": ["pico/src/main.cpp: core0_entry", "pico/src/main.cpp: core1_entry"]}
{"id": "C91", "title": "What the receive core decodes is what the host sees", "statement": "In every run of the complete firmware without ADC overrun, overflow report or line time-out in which nothing is left waiting, the packets reported to the host and given to the controller are exactly, in order and with status 0, the packets spelled by the decoder's events (up to 31 bytes each).", "quantifier": "every interleaving, sample stream and packet sequence", "why_tests_cant": "Infinitely many histories; a unit test exercises a handful of short ones.", "anchors": ["pico/src/main.cpp: core0_entry", "pico/src/main.cpp: core1_entry"]}
{"id": "C92", "title": "A disturbed line is received correctly", "statement": "For every conditioned signal (exactly 16 samples per bit, DC removed; C99 for the actual rate) whose flat pulse tops lie between P and Q (1700 mV <= P, Q <= 1.35 P, Q <= 4681 mV), whose quiet samples stay within 599 mV of zero and whose edge samples are anywhere in between - each packet with its own amplitude and polarity - the receive chain reports exactly the packets on the line, their bytes without error and in order, each between one line-busy and one line-free event.", "quantifier": "every noise pattern within the bounds, every packet sequence, amplitude and polarity", "why_tests_cant": "Infinitely many histories; a unit test exercises a handful of short ones.", "anchors": ["pico/src/level_detect.hpp: Level::Update", "pico/src/uart_bit_detect_fast.cpp: UARTBit::Update", "pico/src/uart.hpp: UART", "pico/src/main.cpp: core1_entry"]}
{"id": "C93", "title": "The receiver recovers from any disturbance", "statement": "Whatever was on the line before (any samples up to 1000 V), after 400 quiet samples (2.6 ms below 600 mV) the line is reported free and the packets that follow, within the tolerance mask of C92, are reported exactly: no byte of them is lost, altered or mixed with the disturbance.", "quantifier": "every preceding signal, every quiet stretch, every packet sequence and noise pattern", "why_tests_cant": "Infinitely many histories; a unit test exercises a handful of short ones.", "anchors": ["pico/src/main.cpp: core1_entry", "pico/src/uart.hpp: UART", "pico/src/uart_bit_detect_fast.cpp: UARTBit::Update", "pico/src/line_busy.hpp: LineBusy"]}
{"id": "C94", "title": "From the analogue line to the decoded packets", "statement": "When the ADC converts a line carrying packets of any amplitude between about 1.9 V and 4.1 V and either polarity - on any common voltage, each conversion off by up to n/256 steps (the permitted amplitude range narrows with n; up to 1.6 steps), whatever was converted before, with at least 16 ms of quiet before the first packet and 9 ms between packets - the receive core (ADC averaging, FIR filter, decimation, DC blocker, level detector, bit detector, byte receiver, line tracker) reports the line free before the first packet and then exactly the packets on the line.", "quantifier": "every noise and rounding pattern, common voltage, sampling phase, amplitude, polarity, packet sequence, earlier samples and buffer content", "why_tests_cant": "Infinitely many histories; a unit test exercises a handful of short ones.", "anchors": ["pico/src/adc.cpp: Update", "pico/src/fir_filter.cpp: FIRFilter::Update", "pico/src/resample.hpp: Resample", "pico/src/dcblock.cpp: DCblock::Update", "pico/src/main.cpp: core1_entry"]}
{"id": "C95", "title": "From the analogue line to the host", "statement": "For every interleaving of ADC transfers, the receive core and the main core in which the receive core keeps up with the ADC and neither a queue overflow nor a time-out is reported: when the line carries packets of up to 31 bytes as in C94, after any disturbance and 16 ms of quiet, the reports to the host (and the packets handed to the controller) end with exactly these packets, in order, complete and with status 0. If the main core makes an iteration for every iteration of the receive core, at most eight late, no queue overflow is reported.", "quantifier": "every interleaving, host input, transmit activity, noise pattern, common voltage, amplitude, polarity, packet sequence, earlier samples and buffer content", "why_tests_cant": "Infinitely many histories; a unit test exercises a handful of short ones.", "anchors": ["pico/src/main.cpp: core0_entry", "pico/src/main.cpp: core1_entry", "pico/src/adc.cpp: Update", "pico/src/host_uart.cpp: UpdateAndSend"]}
{"id": "C96", "title": "An undisturbed transmission succeeds", "statement": "Take any history of the transmit state machine after which it is idle and the transmit hardware is at rest, and request a transmission of a message of 1..32 bytes. If the line is seen free within 34 ms and stays free until the data is sent (32 ms later or more), becomes busy within 2 ms, exactly the bytes of the message are received back without error, never more than 4 ms apart, and the line is free again at most 4 ms after the last one, then, whatever other calls and hardware steps are interleaved, the machine ends idle with the error flag clear, Error() never returned true, the received copy equals the message with status 0, the line driver is off and no data is left over. The same for the main loop: when such a transmission is started by an iteration and the receiver's events say the line is undisturbed, the transmission succeeds, no failure is reported to the host and no other transmission is started meanwhile.", "quantifier": "all prior histories, all messages, all timings within the limits, all interleavings of polls, hardware steps and Error() calls; for the main loop all boots and histories", "why_tests_cant": "Infinitely many histories; a unit test exercises a handful of short ones.", "anchors": ["pico/src/tx_statemachine.hpp: Update, Wake, Error", "pico/src/main.cpp: core0_entry"]}
{"id": "C97", "title": "Every message of up to 32 bytes can be transmitted", "statement": "A user may send any message of 1..32 bytes and, on an undisturbed line, it is transmitted successfully: the modem reads back its own transmission through the receive core and reports no failure - at the clocks the firmware sets, and at the 16 samples per bit it is written for. (The code: at the clocks it sets, 15.92 samples per bit, every message goes through if the main loop keeps up. At exactly 16 samples per bit a message of 31 or 32 bytes can never be transmitted, whatever the timing, because the receive core declares the line free in the middle of the echo and the transmitter takes that for a fault; every transmission whose echo is interrupted by a line-free event fails; a message with at most 176 not-receiving samples inside, up to 26 bytes at nominal timing, succeeds.)", "quantifier": "all messages, gaps, amplitudes, boots, sampling phases, disturbances, histories and schedules of the main loop", "why_tests_cant": "Infinitely many histories; a unit test exercises a handful of short ones.", "anchors": ["pico/src/main.cpp: core0_entry, core1_entry", "pico/src/tx_statemachine.hpp: Update", "pico/src/tx_state.hpp: LineFreeIsError", "pico/src/adc.cpp: ADC"]}
{"id": "C98", "title": "The receiver takes 16 samples per bit", "statement": "The bit detector is written for 16 samples per bit: whatever the phase of the ADC clock against the line, every bit of 1/9600 s gets 16 samples. (The code: the ADC divider register holds the period minus one but is given 156, so a conversion takes 157 clocks instead of 156.25; every bit gets 15 or 16 samples and every 14 successive bits contain one with 15; n bits get 15.92 n to 15.93 n, up to one.)", "quantifier": "all phases, all positions in the stream, any number of bits", "why_tests_cant": "Infinitely many histories; a unit test exercises a handful of short ones.", "anchors": ["pico/src/adc.cpp: ADC", "pico/src/main.cpp: core1_entry"]}
{"id": "C99", "title": "A line sampled too slowly is received exactly", "statement": "Packets on a line sampled up to 1/175 too slowly (one sample in 175 missing, at any places), with any disturbance within the mask of C92 (and a bound on the sample in which a pulse falls), are received exactly: each one's bytes in order, without error, between one line-busy and one line-free event, and nothing else. The clocks the firmware sets are within that, whatever the phase.", "quantifier": "every placement of the missing samples, noise pattern, amplitude, polarity, packet sequence and phase", "why_tests_cant": "Infinitely many histories; a unit test exercises a handful of short ones.", "anchors": ["pico/src/uart_bit_detect_fast.cpp: UARTBit::Update", "pico/src/uart.hpp: UART", "pico/src/line_busy.hpp: LineBusy", "pico/src/adc.cpp: ADC", "pico/src/uart_pio.cpp: UARTPio"]}
{"id": "C100", "title": "The modem receives its own messages", "statement": "At the clocks the firmware sets, a message of up to 34 bytes that the transmitter sends without pause is received exactly and as one packet, whatever the phase of the receiver's clock, in either polarity and with disturbance.", "quantifier": "every message, phase, polarity and disturbance within the mask", "why_tests_cant": "Infinitely many histories; a unit test exercises a handful of short ones.", "anchors": ["pico/src/adc.cpp: ADC", "pico/src/uart_pio.cpp: UARTPio, Send", "pico/src/main.cpp: core1_entry"]}
{"id": "C101", "title": "A packet of another device is received as one packet", "statement": "At the clocks the firmware sets, a packet of another device that keeps the nominal timing (9600 baud, 11 bits per byte, no pause) is received as one packet, whatever its length. (The code: up to 28 bytes; a packet of 31 or more bytes is always cut in two.)", "quantifier": "every packet, phase, polarity and disturbance within the mask", "why_tests_cant": "Infinitely many histories; a unit test exercises a handful of short ones.", "anchors": ["pico/src/adc.cpp: ADC", "pico/src/line_busy.hpp: LineBusy", "pico/src/main.cpp: core1_entry"]}
{"id": "C102", "title": "From the line in continuous time to the packets, at the actual clocks", "statement": "Packets arrive on the line at any times, each from a sender with a clock of its own (9554 to 9608 baud, so also the modem's own transmitter and an exact 9600 baud), any strong amplitude and either polarity, at least 9.2 ms apart. The ADC converts the line with the clock the firmware sets (157 cycles of 48 MHz), on any common voltage and with every sample off by a bounded amount. Whatever was converted before, once the line has been quiet for 5000 conversions (16 ms) the receive core has reported the line free, and from then on it reports exactly the packets on the line, each one's bytes in order without error between one line-busy and one line-free event.", "quantifier": "every arrival time, sender clock, noise and rounding pattern, common voltage, amplitude, polarity, packet sequence, earlier samples and buffer content", "why_tests_cant": "Infinitely many histories; a unit test exercises a handful of short ones.", "anchors": ["pico/src/adc.cpp: ADC, Update", "pico/src/fir_filter.cpp: FIRFilter::Update", "pico/src/resample.hpp: Resample", "pico/src/dcblock.cpp: DCblock::Update", "pico/src/uart_bit_detect_fast.cpp: UARTBit::Update", "pico/src/main.cpp: core1_entry"]}
{"id": "C103", "title": "Recovery on a line sampled too slowly", "statement": "Whatever was on the line before, once it has been quiet for 400 samples (2.6 ms) the line has been reported free and everything from there on is received as in C99: exactly the packets on the disturbed line, also when one sample in 175 is missing.", "quantifier": "every earlier content of the line, placement of the missing samples, noise pattern, amplitude, polarity and packet sequence", "why_tests_cant": "Infinitely many histories; a unit test exercises a handful of short ones.", "anchors": ["pico/src/uart_bit_detect_fast.cpp: UARTBit::Update", "pico/src/uart.hpp: UART", "pico/src/line_busy.hpp: LineBusy", "pico/src/main.cpp: core1_entry"]}
{"id": "C104", "title": "From the line in continuous time to the host, at the actual clocks", "statement": "For every interleaving of ADC transfers, the receive core and the main core in which the receive core keeps up with the ADC and neither a queue overflow nor a time-out is reported: when the line carries packets of up to 31 bytes as in C102 (any arrival times and sender clocks; the firmware's ADC clock), after any disturbance and 16 ms of quiet, the reports to the host (and the packets handed to the controller) end with exactly these packets, in order, complete and with status 0.", "quantifier": "every interleaving, host input, transmit activity, arrival time, sender clock, noise pattern, common voltage, amplitude, polarity, packet sequence, earlier samples and buffer content", "why_tests_cant": "Infinitely many histories; a unit test exercises a handful of short ones.", "anchors": ["pico/src/main.cpp: core0_entry", "pico/src/main.cpp: core1_entry", "pico/src/adc.cpp: ADC, Update", "pico/src/host_uart.cpp: UpdateAndSend"]}
{"id": "C105", "title": "From the line in continuous time to the host, in real time", "statement": "For every interleaving of ADC transfers, the receive core and the main core in which the receive core keeps up with the ADC, the queue between the cores does not overflow, the main loop runs at least once in 15000 conversions (49 ms) and its microsecond clock agrees with the ADC's conversions to within 5 ms: when the line carries packets of up to 31 bytes as in C102, after any disturbance and 16 ms of quiet, no packet is given up by the 500 ms time-out and the reports to the host (and the packets handed to the controller) end with exactly these packets, in order, complete and with status 0.", "quantifier": "every interleaving and clock within these bounds, host input, transmit activity, arrival time, sender clock, noise pattern, common voltage, amplitude, polarity, packet sequence, earlier samples and buffer content", "why_tests_cant": "Infinitely many histories; a unit test exercises a handful of short ones.", "anchors": ["pico/src/main.cpp: core0_entry", "pico/src/main.cpp: core1_entry", "pico/src/adc.cpp: ADC, Update", "pico/src/host_uart.cpp: UpdateAndSend"]}
{"id": "C106", "title": "A request is answered on the bus", "statement": "In every history of the main loop: when the bytes told between two line-free events (1 to 31, nothing lost, no time-out) form a request to the controller's address with a correct checksum, the emulated controller is in its operation phase and the transmitter is idle, the very iteration that sees the line-free event starts exactly one transmission: that of the specified answer, or of a line the host typed before. If the transmit hardware is at rest, the line is given free within 34 ms and is not claimed by anyone in the 32 ms after that, exactly the bytes of the message are handed to the transmit hardware at the first iteration after these 32 ms, without a reported failure and without any other transmission in between.", "quantifier": "every boot state, history of iterations (times, host input, receive events, transmit-hardware progress), packet, and later iterations", "why_tests_cant": "Infinitely many histories; a unit test exercises a handful of short ones.", "anchors": ["pico/src/main.cpp: core0_entry", "pico/src/standalone.cpp: Receive, TxAnswer", "pico/src/tx_statemachine.hpp: WakeAndTransmit, Update"]}
{"id": "C107", "title": "A typed line goes out on the bus", "statement": "In every history of the main loop: when the end of a line that describes a message arrives in an iteration, with no unfinished line, fewer than eight messages waiting and the transmitter idle, this very iteration starts exactly one transmission, that of the oldest waiting message; the typed message is then the last one waiting, or the one transmitted if none was waiting. The bytes reach the transmit hardware as in C106.", "quantifier": "every boot state, history of iterations, typed line and memory content, and later iterations", "why_tests_cant": "Infinitely many histories; a unit test exercises a handful of short ones.", "anchors": ["pico/src/main.cpp: core0_entry", "pico/src/host_uart.cpp: Check, OnLineReceived, Pop", "pico/src/tx_statemachine.hpp: WakeAndTransmit, Update"]}
{"id": "C108", "title": "A request on the line in continuous time is answered", "statement": "Line, schedule and clocks as in C105. Each packet on the line is handed to the controller, complete and in order, by some iteration of the main loop; if it is a request to the controller's address, the controller is (by its documented state machine, given the calls made before) in its operation phase and the transmitter is idle, this iteration starts exactly one transmission: that of the specified answer, or of a line the host typed before.", "quantifier": "every interleaving and clock within the bounds of C105, host input, transmit activity, arrival time, sender clock, noise pattern, amplitude, polarity, packet sequence, earlier samples, buffer content, and choice of the packet", "why_tests_cant": "Infinitely many histories; a unit test exercises a handful of short ones.", "anchors": ["pico/src/main.cpp: core0_entry", "pico/src/main.cpp: core1_entry", "pico/src/standalone.cpp: Receive, TxAnswer", "pico/src/adc.cpp: ADC, Update"]}
{"id": "C109", "title": "Documented latency of the sample converter", "statement": "Whatever was converted before (then a pause), the converter in front of the ADC buffer takes 29 to 36 cycles for a sample it negates and 33 for one it does not, from the cycle in which the sample arrives to the one in which the result is delivered, both included.", "quantifier": "every earlier schedule of samples, every sample, both kinds of DMA words", "why_tests_cant": "Infinitely many histories; a unit test exercises a handful of short ones.", "anchors": ["pico/src/twos_complement.pio: twos_complement"]}
{"id": "C110", "title": "The sample converter keeps up with the ADC", "statement": "When samples arrive at least 40 cycles apart - in particular at the ADC's rate of one conversion in 408.85 cycles, each at most 369 cycles late - never more than one sample waits in the input FIFO, and 39 cycles after any moment every sample that had arrived by then has been delivered, in order, every second one negated and the others unchanged.", "quantifier": "every schedule of arrivals with that spacing, every number of samples and every sample value", "why_tests_cant": "Infinitely many histories; a unit test exercises a handful of short ones.", "anchors": ["pico/src/twos_complement.pio: twos_complement", "pico/src/adc.cpp: DifferentialADC"]}
{"id": "C111", "title": "A comment at the end of a host line changes nothing", "statement": "Appending '#' or ';' and any text to a line from the host changes neither the message read from it nor the clock setting nor anything else the line does.", "quantifier": "all lines and all comments", "why_tests_cant": "Infinitely many histories; a unit test exercises a handful of short ones.", "anchors": ["pico/src/message.cpp: Message::Message(char*)", "pico/src/host_uart.cpp: OnLineReceived"]}
{"id": "C112", "title": "A failed transmission is shown on the LEDs", "statement": "If a transmission fails, the panel shows an error at its next 500 ms update (a bus collision, unless another error happened as well); and it shows a bus collision only if a transmission failed.", "quantifier": "all histories of main-loop iterations: every host input, receive event, hardware activity and timer schedule, and every window between two panel updates", "why_tests_cant": "Infinitely many histories; a unit test exercises a handful of short ones.", "anchors": ["pico/src/main.cpp: core0_entry", "pico/src/led_manager.hpp: LEDManager", "pico/doc/leds.md"]}
{"id": "C113", "title": "Internal errors are shown on the LEDs", "statement": "If the line is busy for too long, the ADC reports an error or data is lost between the cores, the panel shows an internal error at its next update; and it shows an internal error only if there was one.", "quantifier": "all histories of main-loop iterations and every window between two panel updates", "why_tests_cant": "Infinitely many histories; a unit test exercises a handful of short ones.", "anchors": ["pico/src/main.cpp: core0_entry", "pico/src/led_manager.hpp: LEDManager", "pico/doc/leds.md"]}
{"id": "C114", "title": "The panel TX-only is impossible", "statement": "The panel never shows transmit activity without receive activity (documented as an impossible state).", "quantifier": "all histories of main-loop iterations and every window between two panel updates", "why_tests_cant": "Infinitely many histories; a unit test exercises a handful of short ones.", "anchors": ["pico/src/main.cpp: core0_entry", "pico/src/led_manager.hpp: LEDManager", "pico/doc/leds.md"]}
{"id": "C115", "title": "The LEDs are told what happens", "statement": "In every iteration the LED manager is told exactly what happened (transmission in progress, data lost, transmission failed, line busy too long, byte received with or without error, ADC error), the panel is the documented one for these calls, and the idle panel means that nothing was received, transmitted or failed since the previous update.", "quantifier": "all histories of main-loop iterations and every window between two panel updates", "why_tests_cant": "Infinitely many histories; a unit test exercises a handful of short ones.", "anchors": ["pico/src/main.cpp: core0_entry", "pico/src/led_manager.hpp: LEDManager"]}
{"id": "C116", "title": "Exact timing of the transmitter", "statement": "Whenever and in whatever groups bytes reach the transmitter's FIFO, the line carries exactly these characters, cycle by cycle: the start pulse of each begins one cycle after it reached the FIFO or 175 cycles after the start of the one before it, whichever is later, and the line is idle otherwise; bytes that arrive in time go out without a pause.", "quantifier": "all schedules of bytes arriving at the FIFO, at every moment", "why_tests_cant": "Infinitely many histories; a unit test exercises a handful of short ones.", "anchors": ["pico/src/p1p2_uart_tx.pio: p1p2_uart_tx"]}
{"id": "C117", "title": "Modem to modem", "statement": "What the transmitter of one modem drives onto the line (messages of 1..31 bytes, each supplied in time, at least 9.2 ms apart) is reported by a second modem to its host and controller exactly: the same messages in order, status 0 - with the clocks both derive from their crystals, any phase, polarity, common voltage, sufficient amplitude, bounded noise, and whatever the second one saw before 16 ms of quiet.", "quantifier": "all messages, arrival schedules, interleavings of the receiver's cores, phases, noise and prior histories", "why_tests_cant": "Infinitely many histories; a unit test exercises a handful of short ones.", "anchors": ["pico/src/p1p2_uart_tx.pio: p1p2_uart_tx", "pico/src/main.cpp: core0_entry, core1_entry", "pico/src/adc.cpp: ADC"]}
{"id": "C118", "title": "A documented line goes out on the bus", "statement": "A line of the documented form - optionally time:status:, then hexadecimal digits in upper or lower case with spaces anywhere, then an optional comment - has exactly the bytes it spells handed to the transmit hardware (no other line waiting, transmitter idle, line free for 32 ms), and no failure is reported.", "quantifier": "all documented lines of 1..32 bytes and all histories of main-loop iterations", "why_tests_cant": "Infinitely many histories; a unit test exercises a handful of short ones.", "anchors": ["pico/src/message.cpp: Message", "pico/src/host_uart.cpp: HostUART", "pico/src/main.cpp: core0_entry"]}
{"id": "C119", "title": "Host to host", "statement": "A documented line of 1..31 bytes typed at one modem is reported by a second modem on the same line to its host as one packet of exactly these bytes with status 0.", "quantifier": "all documented lines, histories of both modems, interleavings, phases and noise as in C117 and C118", "why_tests_cant": "Infinitely many histories; a unit test exercises a handful of short ones.", "anchors": ["pico/src/host_uart.cpp: HostUART", "pico/src/uart_pio.cpp: UARTPio", "pico/src/p1p2_uart_tx.pio: p1p2_uart_tx", "pico/src/main.cpp: core0_entry, core1_entry"]}
{"id": "C120", "title": "Transmitting() tells whether the transmitter is sending", "statement": "UARTPio::Transmitting() answers yes from the moment data is handed over until the line is idle for good: if it answers no, the line stays idle until new data is handed over.", "quantifier": "all schedules by which bytes reach the PIO and all moments at which the software asks", "why_tests_cant": "Infinitely many histories; a unit test exercises a handful of short ones.", "anchors": ["pico/src/uart_pio.cpp: UARTPio::Transmitting", "pico/src/p1p2_uart_tx.pio: p1p2_uart_tx", "pico/src/tx_statemachine.hpp: TXStateMachine::Update"]}
{"id": "C121", "title": "No pause within a transmitted message", "statement": "The bytes of a message handed to the transmitter go out as one uninterrupted run of characters, provided the DMA channel reacts within the time of one character (1.14 ms); so a documented line typed at one modem is reported by another one on the line to its host.", "quantifier": "all messages, all schedules of a DMA channel with any reaction time up to 175 PIO cycles, any fill of the 8-deep FIFO; for the second part all histories of both modems as in C119", "why_tests_cant": "Infinitely many histories; a unit test exercises a handful of short ones.", "anchors": ["pico/src/uart_pio.cpp: UARTPio::Send", "pico/src/p1p2_uart_tx.pio: p1p2_uart_tx"]}
{"id": "C122", "title": "The transmitter driver on its own", "statement": "UARTPio sends exactly the bytes of the messages it accepts, in order, one at a time; it rejects a message exactly if an earlier one still waits in the DMA channel or it is longer than 32 bytes, and Error() tells so once; ClearFifo discards exactly what is queued; no call sequence is undefined.", "quantifier": "all sequences of calls (any messages, any lengths, Send at any time, ClearFifo at any time) interleaved with everything the hardware does", "why_tests_cant": "Infinitely many histories; a unit test exercises a handful of short ones.", "anchors": ["pico/src/uart_pio.cpp: UARTPio", "pico/src/uart_pio.hpp: UARTPio"]}
{"id": "C123", "title": "A reset of the ADC keeps the sign of the measured voltage", "statement": "After any number of resets of the ADC (data overrun), at any moments, constant input codes p and q are again delivered as floor((q-p)*gain/256), from the fourth value on.", "quantifier": "all histories of the sample converter, all moments of all resets, all 8-bit codes and gains, all interleavings of the DMA and the polls", "why_tests_cant": "Infinitely many histories; a unit test exercises a handful of short ones.", "anchors": ["pico/src/adc.cpp: Reset, Stop, Start", "pico/src/twos_complement.pio: twos_complement"]}
{"id": "C124", "title": "Measured voltages stay right while new samples arrive during the measurement", "statement": "The DMA writes new samples into the ring at any time, also between the memory accesses of DifferentialADC::Update. Every call still hands out exactly the next sample's voltage, in order, computed from the right three samples, as long as at most 254 samples are waiting when the last of the three is read; an overrun (256 or more waiting when Update looks at the transfer count) is flagged by Error(), and nothing else is. Whether the voltage is right does not depend on the number waiting when Update looks: with 254 waiting then, one more transfer makes it wrong without a flag.", "quantifier": "every history of DMA transfers and Update calls, every number of transfers between any two memory accesses of Update, every gain and initial memory", "why_tests_cant": "The transfers are not synchronised with the CPU; a test cannot place them between two loads of one call, nor try all ring positions and backlogs.", "anchors": ["pico/src/adc.cpp: DifferentialADC::Update, DMARestart"]}
{"id": "C125", "title": "LED events are shown even if the LED timer interrupts the call", "statement": "Whenever the 500 ms LED timer fires in the middle of ActivityRx, ActivityTx, TransmissionErrorRx, TransmissionErrorTx, InternalError or BusError, the panels shown are the documented ones of a history in which the call takes place at one moment: no event is lost and none is shown in two windows.", "quantifier": "all histories of LED calls and timers, timers inside any call at any place, newState loaded once or twice per call (it is neither volatile nor atomic)", "why_tests_cant": "The timer interrupt must fall between two instructions of a call; no test can place it there for every history.", "anchors": ["pico/src/led_manager.hpp: LEDManager", "pico/src/led_driver.hpp: LEDdriver"]}
{"id": "C126", "title": "Two modems never both succeed with different messages", "statement": "If two modems on one bus transmit at the same time and both end without an error, they sent the same message: a transmission ends without error only if the busy period of the bus in which it took place consists of the message, so two different messages in one busy period cannot both succeed.", "quantifier": "all histories of two transmitters that hear the same line events, each polling at its own times, all messages of 1 to 32 bytes, all start times", "why_tests_cant": "Needs every interleaving of two devices with a shared bus; a test sees one device.", "anchors": ["pico/src/tx_statemachine.hpp: TxStateMachine::Update", "pico/src/tx_state.hpp: TxState"]}
{"id": "C127", "title": "The transmitter works the same while its hardware goes on during the calls", "statement": "The PIO and the DMA channel go on between any two register accesses of TXStateMachine::Update, UARTPio::Transmitting, Send and ClearFifo. What the machine does, the state it ends in and the answers of Error() are those of a schedule in which every hardware event takes place before or after the calls; nothing undefined happens and the amplifier is never on while the machine is idle.", "quantifier": "all schedules of calls, waking and hardware events, with any number of hardware events at every place between two register accesses", "why_tests_cant": "The hardware is not synchronised with the CPU; a test cannot place its transitions between two register accesses of one call.", "anchors": ["pico/src/uart_pio.cpp: Transmitting, Send, ClearFifo", "pico/src/tx_statemachine.hpp: TXStateMachine::Update"]}
{"id": "C128", "title": "The main loop works the same while the transmitter hardware goes on during an iteration", "statement": "Hardware activity of the transmitter in the middle of a main-loop iteration changes nothing: the reports to the host, the packets handed to the controller and the calls made with their arguments, results and times are those of a history in which the hardware works only between iterations; nothing undefined happens.", "quantifier": "all boots, all histories of inputs, typed text, reports and hardware events, at every place inside every iteration", "why_tests_cant": "The hardware is not synchronised with the loop; a test cannot place its transitions.", "anchors": ["pico/src/main.cpp: core0_entry", "pico/src/tx_statemachine.hpp: TXStateMachine::Update"]}
{"id": "C129", "title": "Packets are received in every DMA block, however long the modem has been on", "statement": "After 2^28 conversions (one DMA block, 14 minutes) the ADC's channels are restarted. In every later block the modem receives exactly as in the first: the packets whose signals arrive in it, after any disturbance and a quiet line, are reported to the host and handed to the controller in order, exactly once and unchanged, provided not more than 3.9 billion conversions have passed since the start or since a byte was received.", "quantifier": "all histories of any number of DMA blocks, all earlier line signals, all disturbances, all packets and all timing and amplitude tolerances of C104", "why_tests_cant": "It needs histories of 2^28 samples and more with arbitrary earlier signals; no test can run these.", "anchors": ["pico/src/adc.cpp: ADC::Update, ADC::DMARestart", "pico/src/main.cpp: core1_entry, core0_entry"]}
{"id": "C130", "title": "Done() tells whether the whole message was heard", "statement": "After WakeAndTransmit(m), Done() answers yes only if m was handed to the transmitter and as many bytes as m has were received since, without a receive error, all but perhaps the last being those of m. If it answers no when the machine is idle again, Error() reports the failure. The answer stays until the next WakeAndTransmit; before the first one it is no.", "quantifier": "all histories of calls, hardware events and received bytes, all messages of 1 to 32 bytes", "why_tests_cant": "The unit tests call Done() once, after one undisturbed transmission with a mocked UART.", "anchors": ["pico/src/tx_statemachine.hpp: TxStateMachine::Done, Update"]}
{"id": "C131", "title": "The sampling DMA never writes outside its buffer", "statement": "With the 512-byte aligned sample buffer and the 9-bit address wrap, no history of DMA transfers and restarts changes a byte outside data[256]; the k-th transfer of a block changes element k mod 256 only, to the sample moved.", "quantifier": "all buffers on a 512-byte boundary, all memory contents, all sequences of samples and restarts, of any length", "why_tests_cant": "A wrong wrap or alignment shows only on the hardware, as corruption of another variable; the tests mock the DMA.", "anchors": ["pico/src/adc.cpp: DifferentialADC::DifferentialADC, DMARestart", "pico/src/main.cpp: adc_data"]}
{"id": "C132", "title": "The transmitter's buffer is never overwritten or overread by its DMA", "statement": "The bytes the DMA channel takes from the buffer while the transmitter works are those of the message given to Send, whatever calls come in between: a message is sent as it was when Send was called, a Send to a busy channel changes nothing but the error flag, an aborted message leaves nothing behind, and no byte outside the 32-byte buffer is read.", "quantifier": "all histories of Send, ClearFifo, EnableShutdown, Error, Transmitting calls and hardware steps, all messages of any length", "why_tests_cant": "The buffer is shared by the CPU and the DMA; the mock in the tests has neither.", "anchors": ["pico/src/uart_pio.cpp: UARTPio::Send, ClearFifo, Transmitting", "pico/src/uart_pio.hpp: Data"]}
{"id": "C133", "title": "The transmitter's timing does not depend on how long an Update takes", "statement": "TxStateMachine::Update reads the clock up to five times. Whatever these readings are, a history is, but for the deadline kept, one in which every call reads the clock once: same messages, states, transmitter, amplifier and answers. So the amplifier is off exactly when idle or waiting for the line, success still means the exact echo, a message is sent only 32 ms or more (by the readings) after the amplifier was switched on with the line free all the time, and no state outlives its own deadline: every transmission ends within a bound given by the message length, the interval of the Updates and their duration.", "quantifier": "all histories of calls, hardware events and received bytes, all five clock readings of every Update (in any order), all messages of 1 to 32 bytes", "why_tests_cant": "The unit tests freeze or step a mocked clock between calls; they do not let it advance within one.", "anchors": ["pico/src/tx_statemachine.hpp: TxStateMachine::Update, ChangeState", "pico/src/tx_state.hpp: TxState::TimedOut, IsError"]}
