{"id": "C01", "title": "NEC-family words carry the command and decode back to it", "statement": "Packing any Nec, SamsungNec, Nec16 or NecDebug command gives the 32-bit word whose bytes (least significant first) are the documented ones (addr,!addr,cmd,!cmd / addr,addr,cmd,!cmd / 16-bit addr,cmd,!cmd / the raw bits), and unpacking that word with a given repeat flag returns the same address and command with that flag.", "quantifier": "every address and command in the field ranges, every repeat flag", "why_tests_cant": "2^16 to 2^32 commands per variant; tests check a handful", "anchors": ["src/protocol/nec/standard.rs: NecCommand::pack, unpack", "src/protocol/nec/samsung.rs: SamsungNecCommand::pack, unpack", "src/protocol/nec/nec16.rs: Nec16Command::pack, unpack", "src/protocol/nec/raw.rs: NecDebugCmd"]}
{"id": "C02", "title": "validate accepts exactly the words a command can produce", "statement": "For Nec, SamsungNec and Nec16, validate(word) is true if and only if some command packs to that word.", "quantifier": "every 32-bit word", "why_tests_cant": "the claim is an equivalence over 2^32 words", "anchors": ["src/protocol/nec/standard.rs: NecCommand::validate", "src/protocol/nec/samsung.rs: SamsungNecCommand::validate", "src/protocol/nec/nec16.rs: Nec16Command::validate"]}
{"id": "C03", "title": "Apple words: accepted exactly on vendor and parity, and no information is lost", "statement": "AppleNecCommand::unpack returns a command exactly when bits 5..15 are the Apple vendor code and the number of set bits is odd; the fields are the documented bit ranges; two different accepted words never give the same command.", "quantifier": "every 32-bit word and pair of words", "why_tests_cant": "2^32 words, and injectivity is a statement about pairs", "anchors": ["src/protocol/nec/apple.rs: AppleNecCommand::validate, unpack"]}
{"id": "C04", "title": "AddressCommand::command of an Apple command identifies the button", "statement": "Two Apple commands with a different (command_page, command) never report the same AddressCommand::command().", "quantifier": "every pair of decoded Apple commands", "why_tests_cant": "pairs of commands; the loss only shows for pages whose difference is shifted out of the byte", "anchors": ["src/protocol/nec/apple.rs: AddressCommand for AppleNecCommand"]}
{"id": "C05", "title": "RC5 pack and unpack are inverse", "statement": "For every command with 5-bit address, 6-bit command and 2-bit start, unpack(pack(c)) = c, and for every 14-bit word pack(unpack(w)) = w; the bit layout is start(2) toggle(1) address(5) command(6).", "quantifier": "every in-range command and every 14-bit word", "why_tests_cant": "exhaustive domain with bit-layout claims", "anchors": ["src/protocol/rc5/mod.rs: Rc5Command::pack, unpack"]}
{"id": "C06", "title": "RC6 data word and command correspond one to one", "statement": "The 16 data bits sent for a command are its address byte then its command byte, and decoding that word with a toggle returns exactly the command.", "quantifier": "every address, command byte and toggle; every 16-bit word", "why_tests_cant": "exhaustive domain", "anchors": ["src/protocol/rc6/cmd.rs: Rc6Command::from_bits", "src/protocol/rc6/encoder.rs: encode, payload"]}
{"id": "C07", "title": "SBP validity flag is exactly the complement check", "statement": "A Samsung BluRay command reports its address, its command byte (bits 4..11 of the 20 received) and valid = true exactly when bits 12..19 are the bitwise complement of the command byte.", "quantifier": "every 16-bit address and every 20-bit command word", "why_tests_cant": "2^36 inputs", "anchors": ["src/protocol/sbp/mod.rs: SbpCommand::unpack"]}
{"id": "C08", "title": "AddressCommand::create is exact for RC6 and SBP", "statement": "create(addr, cmd) succeeds exactly when both values fit the protocol fields (RC6: 8/8 bits, SBP: 16/8 bits) and then address() and command() give the same values back and it is not a repeat.", "quantifier": "every pair of 32-bit numbers", "why_tests_cant": "2^64 inputs with boundary behaviour", "anchors": ["src/cmd.rs: AddressCommand", "src/protocol/rc6/cmd.rs: AddressCommand for Rc6Command", "src/protocol/sbp/mod.rs: AddressCommand for SbpCommand"]}
{"id": "C09", "title": "AddressCommand::create is exact for NEC, Samsung and RC5", "statement": "create(addr, cmd) returns None when addr or cmd cannot be represented in the protocol (NEC, Samsung: 8/8 bits, RC5: 5/6 bits), and otherwise a command reporting the same address and command.", "quantifier": "every pair of 32-bit numbers", "why_tests_cant": "2^64 inputs; the failures are silent truncations", "anchors": ["src/protocol/nec/standard.rs: AddressCommand for NecCommand", "src/protocol/nec/samsung.rs: AddressCommand for SamsungNecCommand", "src/protocol/rc5/mod.rs: AddressCommand for Rc5Command"]}
{"id": "C10", "title": "AnyCommand keeps different commands apart", "statement": "Converting to AnyCommand never maps two different commands of the same protocol to the same value, and commands of different protocols never become equal.", "quantifier": "every pair of commands of the protocols convertible to AnyCommand", "why_tests_cant": "a statement about all pairs of commands", "anchors": ["src/cmd.rs: AnyCommand, From<Cmd> for AnyCommand", "src/protocol/denon/mod.rs: From<DenonCommand> for AnyCommand"]}
{"id": "C11", "title": "Protocol ids survive the conversion to a byte", "statement": "ProtocolId::from(id as u8) = id for every id, ids are pairwise distinct as bytes, and every byte that is not the number of a protocol maps to Unknown.", "quantifier": "every protocol id and every byte", "why_tests_cant": "exhaustive claim over both directions", "anchors": ["src/protocol.rs: ProtocolId, From<u8>"]}
{"id": "C12", "title": "Sample-rate scaling is total and accurate", "statement": "scale_with_samplerate(len, rate) terminates; it panics exactly when len*(rate/10^6) does not fit in 32 bits; otherwise it is at most len*rate/10^6 and, for every length used by a protocol, at least that minus one tick and minus 1/318 of it, and exactly the floor when len*rate fits in 32 bits.", "quantifier": "every 32-bit length and rate", "why_tests_cant": "2^64 inputs and three overflow regimes", "anchors": ["src/protocol/utils.rs: scale_with_samplerate"]}
{"id": "C13", "title": "Building a decoder never panics", "statement": "Creating a decoder for any protocol of the crate succeeds for every sample rate, in debug and release builds alike, with the same tolerance windows in both.", "quantifier": "every 32-bit sample rate, every protocol, u32/u64/fugit time base", "why_tests_cant": "2^32 rates times protocols; overflow only shows at extreme rates", "anchors": ["src/receiver/time.rs: PulseSpans::new", "src/receiver/time/primitives.rs: Span::new, Span::scaled", "src/receiver/time/fgt.rs"]}
{"id": "C14", "title": "The tolerance window is the advertised percentage", "statement": "A duration is accepted for a nominal pulse whenever it deviates from the nominal tick count by at most the tolerance t percent (t-1 percent above 318 kHz where scaling truncates), and never when it deviates by more than t+1 percent; up to 318 kHz, at multiples of 1 kHz up to 318 MHz, at multiples of 1 MHz, and at every rate with fugit timestamps the window is exactly t percent.", "quantifier": "every sample rate, every duration, every pulse of every protocol", "why_tests_cant": "universally quantified over rates and durations", "anchors": ["src/receiver/time.rs: Span::contains", "src/receiver/time/primitives.rs", "src/protocol/utils.rs"]}
{"id": "C15", "title": "Different pulses of a protocol are never confused", "statement": "For NEC, Samsung, Denon, SBP and RC5 no duration falls in two different pulse windows once the sample rate reaches a small protocol-specific threshold (893 Hz NEC/Samsung, 1191 Hz Denon, 1000 Hz SBP, 1125 Hz RC5), and for RC6 the one-, two- and three-unit windows are disjoint from 2253 Hz on.", "quantifier": "every sample rate from the threshold up to 2^32-1, every duration", "why_tests_cant": "2^32 rates", "anchors": ["src/receiver/time.rs: PulseSpans::get", "src/protocol/nec/decoder.rs: pulselens, TOL", "src/protocol/denon/mod.rs", "src/protocol/sbp/mod.rs", "src/protocol/rc5/decoder.rs", "src/protocol/rc6/decoder.rs"]}
{"id": "C16", "title": "check_overlaps reports exactly shared durations", "statement": "PulseSpans::check_overlaps is true if and only if some duration lies in two different windows of the table.", "quantifier": "every table of windows with low <= high", "why_tests_cant": "quantifies over all tables, including nested windows where the one-sided test alone misses the overlap", "anchors": ["src/receiver/time.rs: PulseSpans::check_overlaps, Span::overlaps"]}
{"id": "C17", "title": "check_overlaps is a usable self-check of the built-in protocols", "statement": "For the built-in protocols with disjoint pulses check_overlaps is false.", "quantifier": "every sample rate", "why_tests_cant": "2^32 rates", "anchors": ["src/receiver/time.rs: PulseSpans::check_overlaps"]}
{"id": "C18", "title": "A NEC frame is decoded from any receiver state", "statement": "When a correctly timed frame for (address, command) arrives, with every pulse within tolerance, the receiver reports exactly that command on the last edge and nothing before. The receiver may have seen any history of edges before (garbage, truncated frames, noise), as long as the frame is preceded by a gap longer than every pulse of the protocol.", "quantifier": "every history, every jitter, every command, every sample rate from 10 kHz, u32/u64/fugit, debug and release", "why_tests_cant": "all histories, all jitter within tolerance and all sample rates cannot be enumerated", "anchors": ["src/protocol/nec/decoder.rs: event, command, reset", "src/protocol/nec/standard.rs", "src/receiver.rs: Receiver::event_edge"]}
{"id": "C19", "title": "SamsungNec, Nec16, NecDebug and AppleNec frames are decoded from any receiver state", "statement": "As C18 for the other NEC variants with their own header timing and bit layout; AppleNec reports the command exactly when the word is valid and nothing otherwise.", "quantifier": "every history, jitter, word and sample rate from 10 kHz", "why_tests_cant": "all histories, all jitter within tolerance and all sample rates cannot be enumerated", "anchors": ["src/protocol/nec/decoder.rs", "src/protocol/nec/samsung.rs", "src/protocol/nec/nec16.rs", "src/protocol/nec/raw.rs", "src/protocol/nec/apple.rs"]}
{"id": "C20", "title": "A Samsung BluRay frame is decoded from any receiver state", "statement": "As C18 for the SBP protocol (16 address bits, pause, 20 command bits).", "quantifier": "every history, jitter, word and sample rate from 10 kHz", "why_tests_cant": "all histories, all jitter within tolerance and all sample rates cannot be enumerated", "anchors": ["src/protocol/sbp/mod.rs: event, command, reset"]}
{"id": "C21", "title": "An RC5 frame is decoded from any receiver state", "statement": "When the Manchester waveform of a 14-bit word whose first bit is 1 arrives with every interval within tolerance, the receiver reports the command of that word exactly once, on the edge completing the last bit. The receiver may have seen any history of edges before (garbage, truncated frames, noise), as long as the frame is preceded by a gap longer than every pulse of the protocol.", "quantifier": "every history, jitter, word and sample rate from 10 kHz", "why_tests_cant": "all histories, all jitter within tolerance and all sample rates cannot be enumerated", "anchors": ["src/protocol/rc5/decoder.rs: event", "src/protocol/rc5/mod.rs: unpack"]}
{"id": "C22", "title": "An RC6 frame is decoded from any receiver state", "statement": "When the waveform of an RC6 mode-0 frame (leader, start bit, mode bits, double-width toggle, 16 data bits) arrives with every interval within tolerance, the receiver reports its address, command and toggle exactly once. The receiver may have seen any history of edges before (garbage, truncated frames, noise), as long as the frame is preceded by a gap longer than every pulse of the protocol.", "quantifier": "every history, jitter, command, toggle and sample rate from 10 kHz", "why_tests_cant": "all histories, all jitter within tolerance and all sample rates cannot be enumerated", "anchors": ["src/protocol/rc6/decoder.rs: event", "src/protocol/rc6/cmd.rs"]}
{"id": "C23", "title": "A Denon frame is decoded from any receiver state", "statement": "When a Denon frame of 48 bits arrives, the receiver reports exactly these 48 bits. The receiver may have seen any history of edges before (garbage, truncated frames, noise), as long as the frame is preceded by a gap longer than every pulse of the protocol.", "quantifier": "every history, jitter, word and sample rate", "why_tests_cant": "all histories, all jitter within tolerance and all sample rates cannot be enumerated", "anchors": ["src/protocol/denon/mod.rs: event, reset"]}
{"id": "C24", "title": "NEC-family encoder output decodes to the sent command", "statement": "Feeding the pulse buffer produced by the Nec, SamsungNec, Nec16 or NecDebug encoder at frequency F to a receiver at the same F yields exactly the encoded command.", "quantifier": "every command and every F from 14 kHz (Samsung) / 13 kHz (others) for which the encoder compiles", "why_tests_cant": "every F times 2^32 words; rounding differs per F", "anchors": ["src/protocol/nec/encoder.rs: encode, calc_ticks", "src/protocol/nec/decoder.rs", "src/receiver/bufferinput.rs"]}
{"id": "C25", "title": "RC5 encoder output decodes to the sent command", "statement": "As C24 for RC5 and every command with start bits 2 or 3, F from 13 kHz.", "quantifier": "every in-range command and every F >= 13 kHz for which the encoder compiles", "why_tests_cant": "every F times 2^13 words", "anchors": ["src/protocol/rc5/encoder.rs: encode, calc_freq", "src/protocol/rc5/decoder.rs"]}
{"id": "C26", "title": "RC6 encoder output decodes to the sent command", "statement": "As C24 for RC6, at every frequency at which a user may run sender and receiver (the documentation uses 20 kHz).", "quantifier": "every command, toggle and F for which the encoder compiles", "why_tests_cant": "every F times 2^17 commands; fails at isolated frequencies", "anchors": ["src/protocol/rc6/encoder.rs: encode", "src/protocol/rc6/decoder.rs"]}
{"id": "C27", "title": "A NEC command is only reported after a complete frame", "statement": "If a NEC-family receiver reports a non-repeat command, the edges seen end with a complete frame: a header period and 32 data periods, each within its tolerance window, spelling exactly that command.", "quantifier": "every history of edges, every sample rate and initial receiver", "why_tests_cant": "a claim about every possible noise history", "anchors": ["src/protocol/nec/decoder.rs: event, command"]}
{"id": "C28", "title": "A repeat code repeats the last complete command", "statement": "After a complete NEC frame has been received, a following repeat code reports the same address and command with the repeat flag set; any number of repeat codes in a row does so.", "quantifier": "every history before, every command, every number of repeats, every jitter", "why_tests_cant": "unbounded number of repeats and histories", "anchors": ["src/protocol/nec/decoder.rs: event, command, reset"]}
{"id": "C29", "title": "A repeat code never invents a command", "statement": "A repeat is only reported for a command that was reported before.", "quantifier": "every history of edges", "why_tests_cant": "the counterexamples need a truncated frame or a fresh receiver followed by a repeat code", "anchors": ["src/protocol/nec/decoder.rs: event, reset"]}
{"id": "C30", "title": "Corrupted frames are not reported", "statement": "A NEC receiver only reports commands whose received word passes the protocol checksum.", "quantifier": "every history of edges", "why_tests_cant": "requires considering every corrupted word", "anchors": ["src/protocol/nec/decoder.rs: command", "src/protocol/nec/standard.rs: validate", "src/protocol/nec/apple.rs: validate"]}
{"id": "C31", "title": "An SBP command is only reported after a complete frame", "statement": "If an SBP receiver reports a command, the edges seen end with header, 16 address periods, pause and 20 command periods, each within its window, spelling exactly that command.", "quantifier": "every history of edges and sample rate", "why_tests_cant": "a claim about every possible noise history", "anchors": ["src/protocol/sbp/mod.rs: event"]}
{"id": "C32", "title": "An RC5 command is only reported after a complete bit stream", "statement": "If an RC5 receiver reports a command, then since some rising start edge every interval matched a one-, two- or zero-length window, exactly 13 edges fell on bit boundaries of the recovered clock, the last one being the reporting edge, and their directions spell the command.", "quantifier": "every history of edges and sample rate", "why_tests_cant": "a claim about every possible noise history", "anchors": ["src/protocol/rc5/decoder.rs: event"]}
{"id": "C33", "title": "An RC6 command is only reported after a complete frame", "statement": "If an RC6 receiver reports a command, then the history ends with a start edge, a 6-unit mark, a 2-unit space, and a run of valid intervals containing 4 header samples, the trailer and 16 data samples spelling the command.", "quantifier": "every history of edges and sample rate", "why_tests_cant": "a claim about every possible noise history", "anchors": ["src/protocol/rc6/decoder.rs: event"]}
{"id": "C34", "title": "A Denon command is only reported after a complete frame", "statement": "If a Denon receiver reports a command, the edges seen end with a sync period and 48 data periods each within its window.", "quantifier": "every history of edges and sample rate", "why_tests_cant": "a claim about every possible noise history", "anchors": ["src/protocol/denon/mod.rs: event"]}
{"id": "C35", "title": "command() is None until a frame is complete", "statement": "ProtocolDecoder::command returns Some only after event returned State::Done (documented contract of the trait).", "quantifier": "every decoder state reachable by events and resets", "why_tests_cant": "a claim about every reachable state", "anchors": ["src/receiver/decoder.rs: ProtocolDecoder::command", "src/protocol/nec/decoder.rs", "src/protocol/denon/mod.rs", "src/protocol/rc5/decoder.rs", "src/protocol/rc6/decoder.rs", "src/protocol/sbp/mod.rs"]}
{"id": "C36", "title": "A finished decoder stays finished until reset", "statement": "After event returns Done (or Error) every further event without reset returns the same state and command() keeps returning the same command.", "quantifier": "every decoder, every later history", "why_tests_cant": "unbounded later histories", "anchors": ["src/receiver/decoder.rs", "src/protocol/nec/decoder.rs", "src/protocol/rc5/decoder.rs", "src/protocol/rc6/decoder.rs", "src/protocol/denon/mod.rs", "src/protocol/sbp/mod.rs"]}
{"id": "C37", "title": "A pulse-distance receiver cannot get stuck mid-frame", "statement": "NEC, SBP and Denon receivers report a command, report an error or are idle again within a fixed number of rising edges (33, 38, 49), whatever the timing of the edges.", "quantifier": "every history and every continuation", "why_tests_cant": "a bound over all continuations", "anchors": ["src/protocol/nec/decoder.rs", "src/protocol/sbp/mod.rs", "src/protocol/denon/mod.rs"]}
{"id": "C38", "title": "A biphase receiver cannot get stuck mid-frame", "statement": "RC5 and RC6 receivers complete, fail or return to idle after a bounded number of edges.", "quantifier": "every continuation", "why_tests_cant": "the counterexample is an infinite waveform", "anchors": ["src/protocol/rc5/decoder.rs", "src/protocol/rc6/decoder.rs"]}
{"id": "C39", "title": "Pulse-distance receivers never panic", "statement": "NEC, SBP and Denon receivers never panic, in debug or release, on any history whose durations stay below half the range of the duration type; in release builds never at all with integer time bases.", "quantifier": "every history, sample rate and build", "why_tests_cant": "quantifies over all histories; the panic needs extreme durations", "anchors": ["src/protocol/nec/decoder.rs: event", "src/protocol/sbp/mod.rs: event", "src/protocol/denon/mod.rs: event"]}
{"id": "C40", "title": "Biphase receivers never panic", "statement": "RC5 and RC6 receivers never panic on any history.", "quantifier": "every history, usize width 16/32/64, debug and release", "why_tests_cant": "the panic needs tens of thousands of edges without a completed frame", "anchors": ["src/protocol/rc5/decoder.rs: event", "src/protocol/rc6/decoder.rs: event"]}
{"id": "C41", "title": "Debug and release builds behave the same", "statement": "Whenever the debug build does not panic, the release build produces the same outcomes on the same history.", "quantifier": "every history, protocol and sample rate", "why_tests_cant": "relates two builds on all histories", "anchors": ["src/protocol/nec/decoder.rs", "src/protocol/rc5/decoder.rs", "src/protocol/rc6/decoder.rs", "src/protocol/sbp/mod.rs", "src/protocol/denon/mod.rs"]}
{"id": "C42", "title": "A disturbed reception is reported as an error", "statement": "When a reception in progress is interrupted by an interval that matches no pulse of the protocol, the receiver reports a decoding error.", "quantifier": "every history", "why_tests_cant": "every point of interruption of every frame", "anchors": ["src/protocol/nec/decoder.rs", "src/protocol/rc5/decoder.rs: event", "src/protocol/rc6/decoder.rs: event", "src/protocol/sbp/mod.rs", "src/protocol/denon/mod.rs"]}
{"id": "C43", "title": "After reporting, a receiver behaves like a new one", "statement": "Once a receiver has reported a command or an error, all its later outcomes are those of a freshly created receiver.", "quantifier": "every history, every continuation", "why_tests_cant": "an observational equivalence over all continuations", "anchors": ["src/receiver.rs: event_edge", "src/protocol/nec/decoder.rs: reset", "src/protocol/rc5/decoder.rs: reset", "src/protocol/rc6/decoder.rs: reset", "src/protocol/sbp/mod.rs: reset", "src/protocol/denon/mod.rs: reset"]}
{"id": "C44", "title": "Timestamps and durations are interchangeable", "statement": "Feeding non-decreasing timestamps to event_instant gives the same outcomes as feeding their differences to event.", "quantifier": "every protocol, every non-decreasing sequence of timestamps", "why_tests_cant": "unbounded sequences", "anchors": ["src/receiver.rs: event_instant, event"]}
{"id": "C45", "title": "Timestamp wrap-around is harmless", "statement": "When a 32-bit timer wraps between two edges, event_instant still uses the elapsed time.", "quantifier": "every pair of timestamps", "why_tests_cant": "the failure needs the wrap to fall inside a frame", "anchors": ["src/receiver.rs: event_instant", "src/receiver/time/primitives.rs: checked_sub"]}
{"id": "C46", "title": "A failing pin read changes nothing", "statement": "If reading the pin fails, event, event_instant, poll and MultiReceiver::event return the pin error, and all later outcomes are as if that call had not been made.", "quantifier": "every protocol, history and position of the failing reads", "why_tests_cant": "every placement of failures in every history", "anchors": ["src/receiver.rs: event, event_instant", "src/receiver/ppoll.rs: poll", "src/receiver/multi.rs: event"]}
{"id": "C47", "title": "Polling sees the same signal as edge interrupts", "statement": "A PeriodicPoll fed level samples behaves exactly like a Receiver fed one edge per level change with the number of samples between changes as duration, including across the wrap of its 32-bit clock; polls without a level change report nothing.", "quantifier": "every protocol, every sequence of samples with runs shorter than 2^32", "why_tests_cant": "unbounded sample sequences and clock wrap", "anchors": ["src/receiver/ppoll.rs: poll_base, poll"]}
{"id": "C48", "title": "BufferInputReceiver yields the commands the event receiver would report", "statement": "Iterating over a buffer of intervals yields, in order, exactly the commands a Receiver reports on the same alternating edges.", "quantifier": "every protocol and every buffer", "why_tests_cant": "every buffer content including errors in the middle", "anchors": ["src/receiver/iter.rs: next", "src/receiver/bufferinput.rs: iter"]}
{"id": "C49", "title": "MultiReceiver runs its protocols independently", "statement": "Slot k of MultiReceiver::event_generic on any history is exactly what a separate receiver of that protocol reports (errors shown as None), independent of the other protocols and their order; the iterator variants list exactly the Some slots in order.", "quantifier": "every list of protocols and every history", "why_tests_cant": "all combinations of protocols and histories", "anchors": ["src/receiver/multi.rs: ReceiverWrapper, event_generic, event_generic_iter, event_iter"]}
{"id": "C50", "title": "Builder calls may come in any order", "statement": "The receiver built depends only on the last frequency, pin, monotonic and protocol set (default 1 MHz, no pin, u32); selecting a protocol resets an earlier remote-control selection.", "quantifier": "every sequence of builder calls", "why_tests_cant": "all sequences of calls", "anchors": ["src/receiver/builder.rs: Builder"]}
{"id": "C51", "title": "All entry points agree", "statement": "event_edge, event with a pin reading, event_instant and event_total report the same command for the same edge and duration; error kinds are preserved by the conversion to the pin error type.", "quantifier": "every protocol, state, edge, duration", "why_tests_cant": "every state of every decoder", "anchors": ["src/receiver.rs", "src/receiver/decoder.rs: event_total", "src/receiver/error.rs"]}
{"id": "C52", "title": "NEC encoder writes a well-formed frame and stays in its buffer", "statement": "encode writes exactly 67 entries: 0, header mark, header space, then per bit (least significant first) the mark and the zero/one space; it leaves the rest of the buffer untouched and panics exactly when the buffer is shorter than 67.", "quantifier": "every command, buffer content and length, every F", "why_tests_cant": "all buffers and words", "anchors": ["src/protocol/nec/encoder.rs: encode"]}
{"id": "C53", "title": "RC5 encoder writes the Manchester run lengths", "statement": "encode writes 0 and then the run lengths of the Manchester waveform of the 14-bit word (first bit 1), each run one or two half-bits, at most 27 entries, the rest of the buffer untouched.", "quantifier": "every command and buffer", "why_tests_cant": "all words and buffers", "anchors": ["src/protocol/rc5/encoder.rs: encode"]}
{"id": "C54", "title": "RC6 encoder writes the run lengths of the RC6 waveform", "statement": "encode writes 0 and then the run lengths of leader, start bit, mode bits, double-width toggle and 16 data bits, the rest of the buffer untouched.", "quantifier": "every command and buffer", "why_tests_cant": "all words and buffers", "anchors": ["src/protocol/rc6/encoder.rs: encode, leader, payload"]}
{"id": "C55", "title": "Apple commands can be sent", "statement": "Encoding an AppleNec command succeeds.", "quantifier": "every Apple command", "why_tests_cant": "an encoder exists for the type, so users will call it", "anchors": ["src/protocol/nec/apple.rs: pack", "src/protocol/nec/encoder.rs"]}
{"id": "C56", "title": "The sender reproduces the pulse buffer on the pin", "statement": "After load, successive ticks switch the pin on for entry 1 ticks, off for entry 2 ticks, and so on: the pin waveform is exactly the alternating runs of the loaded pulses.", "quantifier": "every sequence of positive pulses, every length", "why_tests_cant": "all pulse sequences and their cumulative timing", "anchors": ["src/sender/hal.rs: load, tick", "src/sender/senders.rs: tick, load_command", "src/sender/buffer.rs"]}
{"id": "C57", "title": "The sender always finishes", "statement": "From any loaded state the sender is idle with the pin off after finitely many ticks (bounded by the sum of the pulses plus the buffer size) and stays so until the next load.", "quantifier": "every buffer content, every state", "why_tests_cant": "termination is about all executions", "anchors": ["src/sender/senders.rs: tick", "src/sender/hal.rs: tick"]}
{"id": "C58", "title": "Loading while transmitting does not disturb the transmission", "statement": "load is ignored while a transmission is on; once idle, load starts the new command from its first pulse whatever was sent before.", "quantifier": "every state and command", "why_tests_cant": "every point in every transmission", "anchors": ["src/sender/hal.rs: load", "src/sender/senders.rs: reset, load_command"]}
{"id": "C59", "title": "Nothing is transmitted beyond the loaded command", "statement": "After the last pulse of the loaded command the pin stays off; a sender with nothing loaded keeps the pin off.", "quantifier": "every buffer size and command, every earlier command", "why_tests_cant": "depends on leftover contents of earlier commands and on the buffer size", "anchors": ["src/sender/buffer.rs: get, reset", "src/sender/senders.rs: tick"]}
{"id": "C60", "title": "A command sent by Sender is received by PeriodicPoll", "statement": "Ticking a Sender and polling a PeriodicPoll at the same frequency F with the pin level yields exactly the loaded command.", "quantifier": "every Nec/Samsung/Nec16/RC5 command and every F from 14 kHz for which the encoder compiles", "why_tests_cant": "end-to-end over every command and frequency", "anchors": ["src/sender/hal.rs", "src/receiver/ppoll.rs", "src/protocol/nec/encoder.rs", "src/protocol/rc5/encoder.rs"]}
{"id": "C61", "title": "Remote controls: decode inverts encode", "statement": "For SamsungTv, SpecialForMp3, CdPlayer and SamsungBluRayPlayer, encode(a) succeeds exactly for the actions in the button table and decode(encode(a)) = a; two actions never share a code.", "quantifier": "every action and every remote", "why_tests_cant": "all actions, plus absence of shadowed table entries", "anchors": ["src/remotecontrol/mod.rs: RemoteControlModel::decode, encode", "src/remotecontrol/nec/samsungtv.rs", "src/remotecontrol/nec/specialformp3.rs", "src/remotecontrol/rc5/cdplayer.rs", "src/remotecontrol/sbp/blurayplayer.rs"]}
{"id": "C62", "title": "A remote never reacts to another device", "statement": "decode returns an action only for commands with the address of the remote and a code in its table; Button keeps the command and its repeat state.", "quantifier": "every command", "why_tests_cant": "2^24 and more commands", "anchors": ["src/remotecontrol/mod.rs: decode", "src/remotecontrol/mapper.rs: Button"]}
{"id": "C63", "title": "The Apple remote can encode its buttons", "statement": "Apple2009::encode(a) gives a command that decodes to a for every action the remote can decode.", "quantifier": "every action", "why_tests_cant": "the table shadowing is invisible to decode tests", "anchors": ["src/remotecontrol/nec/apple2009.rs"]}
{"id": "C64", "title": "Action names are distinct", "statement": "Action::to_str maps different actions to different strings.", "quantifier": "every pair of actions", "why_tests_cant": "a statement on all pairs", "anchors": ["src/remotecontrol/mod.rs: Action::to_str"]}
{"id": "C65", "title": "An action sent by a remote model arrives as that action", "statement": "Encoding an action with SamsungTv, SpecialForMp3 or CdPlayer, transmitting the command and receiving it with a Button receiver of the same model at the same frequency gives that action.", "quantifier": "every action of the remote, every F from 14 kHz for which the encoder compiles", "why_tests_cant": "end-to-end over every button and frequency", "anchors": ["src/remotecontrol/mod.rs", "src/remotecontrol/mapper.rs", "src/protocol/nec/encoder.rs", "src/protocol/rc5/encoder.rs", "src/receiver/bufferinput.rs"]}
{"id": "C66", "title": "A frame is not mistaken for another protocol", "statement": "After any history and a silence longer than every header, a transmission of one protocol (NEC, Samsung, Samsung BluRay, Denon, RC5, RC6; for NEC and Samsung also a repeat code) within its tolerances and with marks within 12 percent (leading marks 8), with or without the edge that ends its last mark, is never reported as a command by a receiver of another protocol, at any tick rate from 20 kHz.", "quantifier": "every pair of protocols, every frame, every jitter within the tolerances, every earlier history, every tick rate from 20 kHz", "why_tests_cant": "the tolerance windows of several protocols overlap; whether some jittered frame of one spells a frame of another is a question about all frames and all jitters", "anchors": ["src/protocol/nec/decoder.rs", "src/protocol/sbp/mod.rs", "src/protocol/denon/mod.rs", "src/protocol/rc5/decoder.rs", "src/protocol/rc6/decoder.rs", "src/receiver/multi.rs"]}
{"id": "C67", "title": "On mixed traffic every receiver reports exactly its own transmissions", "statement": "For any series of NEC, NEC16, raw NEC (any 32 bits, Apple frames among them), Samsung, Samsung BluRay, Denon, RC5 and RC6 transmissions, each with or without the edge that ends its last mark, separated by silences longer than every header, after any history, a receiver reports exactly the commands of its own protocol, once each and in order; the same holds for each component of a MultiReceiver.", "quantifier": "every series of any length, every command, every jitter within the tolerances, every earlier history, every tick rate from 20 kHz", "why_tests_cant": "a statement about series of unbounded length and about what earlier foreign frames leave behind in the decoder", "anchors": ["src/receiver/multi.rs: MultiReceiver::event", "src/receiver.rs: Receiver::event", "src/protocol/denon/mod.rs: reset"]}
{"id": "C68", "title": "A transmission is decoded whatever the phase of the clock", "statement": "A transmission in real time whose intervals are off by at most 3 or 4 percent is decoded from the readings of any counter of the given tick rate: the counter may be in any phase and each reading may be late, so that a measured interval is off by less than j ticks. A tick rate in proportion to j suffices (for NEC 7 kHz for each of j+1 ticks, so 14 kHz for plain rounding). Mixed traffic of all protocols is likewise heard correctly by a MultiReceiver. For Denon the claim is limited to what the decoder can do at all (see C23): the history contains no header, and the last bit of the word is not reported.", "quantifier": "every command, every real-valued timing within the tolerance (at any resolution), every phase of the clock, every reading error below j ticks, every tick rate that is high enough, every earlier history", "why_tests_cant": "tests feed tick counts; whether every way of rounding a real signal to ticks stays in the windows is a question about all phases and all rates", "anchors": ["src/receiver/time.rs", "src/receiver.rs: event_instant", "src/protocol/nec/decoder.rs", "src/protocol/sbp/mod.rs", "src/protocol/denon/mod.rs", "src/protocol/rc5/decoder.rs", "src/protocol/rc6/decoder.rs"]}
{"id": "C69", "title": "A transmission is received by polling, whatever the phase of the sampling", "statement": "A PeriodicPoll that samples the pin at the rate it was built for, in any phase and after any samples, followed by a silence and a transmission within 3 or 4 percent of the nominal timing, reports nothing but that transmission from the end of the silence on, exactly once, provided the samples reach its end and no mark or space is shorter than a sampling period. Rates: NEC and Samsung from 14 kHz, Samsung BluRay 20 kHz, 40 kHz or from 41 kHz, RC5 20 kHz or from 30 kHz, RC6 40 kHz or from 60 kHz, Denon 40 kHz or from 42 kHz, on a line that was quiet before and without the last bit of the word (see C23).", "quantifier": "every command, every real timing within the tolerance, every phase of the sampling, every earlier samples, every such rate", "why_tests_cant": "quantifies over all phases of the sampling against the signal and over all timings", "anchors": ["src/receiver/ppoll.rs: PeriodicPoll::poll", "src/receiver/time.rs", "src/protocol/nec/decoder.rs", "src/protocol/sbp/mod.rs", "src/protocol/denon/mod.rs", "src/protocol/rc5/decoder.rs", "src/protocol/rc6/decoder.rs"]}
{"id": "C70", "title": "The dump reader prints what the receiver reports for the recorded wire", "statement": "For any value change dump with a time scale in milliseconds or microseconds, the example program prints exactly the commands and errors a Samsung receiver reports for the changes of the chosen wire, each with the time since the change before; other wires and commands in the dump do not matter, an unreadable item ends the output; it comes to its end for every dump (other time scales are rejected). A Samsung transmission recorded anywhere in the dump is printed.", "quantifier": "every dump, every time scale, every wire, every transmission within the tolerances", "why_tests_cant": "files of any length with any interleaving of wires and time stamps", "anchors": ["examples/vcd-parser/src/main.rs: main, vcd_ir_parser", "src/receiver.rs: event_instant"]}
{"id": "C71", "title": "The periodic sender transmits its command every two seconds, and it is heard", "statement": "The interrupt handler of the bluepill sender example never panics; after the first two seconds the pin carries the RC5 waveform of the command for Next at the start of every period of 40000 ticks; a receiver polling the pin at the same rate reports this command once per period and nothing else, for ever.", "quantifier": "every number of periods, every build, every time base at 20 kHz", "why_tests_cant": "an execution without end; state carried over from one period to the next (contents of the buffer, decoder state)", "anchors": ["examples/bluepill/src/bin/sender.rs: TIM2", "src/sender/hal.rs: Sender::load, tick", "src/receiver/ppoll.rs: poll", "src/remotecontrol/rc5/cdplayer.rs"]}
{"id": "C72", "title": "The mouse example moves the pointer in the right direction, with acceleration", "statement": "For the i-th event of a button (the press, then its repeats) the report moves the pointer in the direction of the action by 2^(i+1) steps, at most 64, independently of what was pressed before.", "quantifier": "every button, every number of repeats below 2^32-1, every earlier state", "why_tests_cant": "all sequences of events", "anchors": ["examples/bluepill/src/bin/mouse.rs: process_ir_cmd, button_to_mousereport"]}
{"id": "C73", "title": "Play/pause presses the mouse button", "statement": "A press of play/pause sends a report with the mouse button pressed, its repeat one with the button released.", "quantifier": "every sequence of button events", "why_tests_cant": "depends on the counter kept between events", "anchors": ["examples/bluepill/src/bin/mouse.rs: process_ir_cmd, button_to_mousereport"]}
{"id": "C74", "title": "Commands reach the main loop of the Arduino examples", "statement": "For every interleaving of timer interrupts, pin changes and rounds of the main loop, the receiver is given every pin change with the number of timer interrupts since the one before, and the main loop prints every command received, in order; the LEDs show the pin changes and whether the last report was an error.", "quantifier": "every interleaving of any length (below 2^32 timer interrupts)", "why_tests_cant": "all interleavings of interrupts and main loop", "anchors": ["examples/arduino_uno/src/bin/external-interrupt.rs: PCINT2, TIMER0_COMPA, main", "examples/arduino_uno/src/bin/polled.rs: TIMER0_COMPA, main"]}
{"id": "C75", "title": "A key held down is reported once, then once more for every repeat code", "statement": "A remote control of the NEC, NEC16, Samsung or Apple kind sends keys, each with any number of repeat codes, all intervals within 4 percent of their nominal length and at least 27 ms (Samsung 18 ms) of silence before each burst. A receiver that measures each interval with an error of less than j ticks of a clock of at least 7000*(2j+1) Hz (Samsung 7700*(2j+1) Hz) reports exactly these keys, in order: each one once as a press and once as a repeat per repeat code, with no error after the first pause, whatever it received before.", "quantifier": "every series of keys, every number of repeat codes, every timing within the tolerance, every clock rate and every error of each measurement, every history", "why_tests_cant": "arbitrarily long sequences of arbitrarily timed and arbitrarily measured presses", "anchors": ["src/protocol/nec/decoder.rs: NecDecoder", "src/protocol/nec/mod.rs: Nec, NecSamsung, Nec16, NecApple", "src/receiver.rs: Receiver::event_edge"]}
{"id": "C76", "title": "The event-driven example prints the keys pressed on the remote control", "statement": "The event-driven bluepill example measures the time between edges with a 32-bit counter of 48 MHz that wraps every 89.5 s and is read twice in each interrupt handler. Whatever keys of an Apple remote are pressed and held, if all intervals are within 4 percent of nominal, the last mark of each burst lasts at most 1 ms, every handler reads the counter at most 70 microseconds after its edge, and every pause, modulo the range of the counter, shows at least 27 ms and ends at least 1.25 ms before the range, then the example prints exactly the keys, each press once and once more for every repeat code. Both limits on the pauses are needed: with a pause of 89.49 s the next key is lost, with one of 89.4783 s the example panics when overflow checks are on.", "quantifier": "every series of keys and repeat codes, every timing within the tolerance, every latency of each handler, every build", "why_tests_cant": "the latency of each of unboundedly many handlers, pauses of any length, wrap-around of the counter", "anchors": ["examples/bluepill/src/bin/receiver-event-driven.rs: EXTI9_5", "src/receiver.rs: Receiver::event", "src/protocol/nec/decoder.rs: NecDecoder", "src/remotecontrol/nec/apple2009.rs: Apple2009"]}
{"id": "C77", "title": "The USB examples send the reports that belong to the keys pressed", "statement": "The mouse and the media keyboard example time the edges with a 100 kHz timer of 32 bits. Whatever keys of an Apple remote are pressed and held, if all intervals are within 4 percent of nominal, the last mark of each burst lasts at most 1 ms, every handler reads the timer at most 50 microseconds after its edge and every pause, modulo the range of the timer, shows at least 27 ms and ends at least 1.12 ms before the range, then: the media keyboard sends, for every press and every repeat code, the media key of the key and then the release, and nothing for unknown keys; the mouse sends one report per press and per repeat code of a known key, in the direction of the key, the steps doubling from 2 to 64 while the key is held and starting again from 2 with the next press.", "quantifier": "every series of keys and repeat codes, every timing within the tolerance, every latency of each handler, every build", "why_tests_cant": "the whole path from the timing of the edges to the reports, for sequences of any length and pauses beyond the range of the timer", "anchors": ["examples/bluepill/src/bin/mouse.rs: ir_rx, process_ir_cmd, button_to_mousereport", "examples/bluepill/src/bin/mediakeyboard.rs: ir_rx, keydown, keyup", "src/receiver.rs: Receiver::event_instant", "src/receiver/time/fgt.rs: InfraMonotonic", "src/remotecontrol/nec/apple2009.rs: Apple2009"]}
{"id": "C78", "title": "A poller reports held keys for as long as it runs, and the polled example prints exactly the keys", "statement": "A receiver that samples the pin of the demodulator at a fixed rate, at any phase, reports each press of a key once, then once more per repeat code, marked as a repeat, and no error, however many keys are pressed and however long it runs, if all intervals are within 4 percent of nominal, longer than one sampling period and shorter than 2^31 of them. This holds for NEC, NEC with 16-bit addresses and Apple at 14 kHz and more, for Samsung at 15.4 kHz and more, whatever was sampled before. The polled receiver example (20 kHz), from power-on, prints exactly one line for each press and each repeat code of a known key of the Apple remote, with the name of the key, nothing for unknown keys and no error line.", "quantifier": "every series of presses and repeat codes, every real timing within the tolerance, every phase of the sampling, every earlier samples, every build", "why_tests_cant": "the phase of the sampling and the running time are unbounded, and the effect of sampling on each interval depends on everything before it", "anchors": ["examples/bluepill/src/bin/receiver-polled.rs: TIM2", "src/receiver/ppoll.rs: PeriodicPoll::poll", "src/protocol/nec/decoder.rs: NecDecoder", "src/remotecontrol/nec/apple2009.rs: Apple2009"]}
{"id": "C79", "title": "A poller reports every RC5 and RC6 command for as long as it runs, and the tutorials print exactly the commands", "statement": "A receiver that samples the pin of the demodulator at a fixed rate, at any phase, reports each RC5 or RC6 transmission exactly once, in order and with its address, command and toggle bit, however many there are and however long it runs, if all intervals are within 3 percent of nominal, longer than one sampling period and shorter than 2^31 of them, and each transmission comes after a silence of 3 ms (RC5) or 4 ms (RC6). Rates of 30 kHz and 20 kHz (RC5), 60 kHz and 40 kHz (RC6) are enough, whatever was sampled before (in debug builds of a machine with w-bit usize: fewer than 2^w / 8 samples). The first tutorial (RC6, 40 kHz), from power-on, prints one line per transmission with its address and command. The second prints one line per transmission: a fixed text for the teletext and power keys of its television, otherwise the command with the name of the key, also if the key or the device is unknown. Neither prints anything else.", "quantifier": "every series of transmissions, every real timing within the tolerance, every phase of the sampling, every earlier samples, every build with usize of at least 8 bits", "why_tests_cant": "the phase of the sampling and the running time are unbounded, and the effect of sampling on each interval depends on everything before it", "anchors": ["examples/bluepill/src/bin/tutorial1a.rs: TIM2", "examples/bluepill/src/bin/tutorial1b.rs: TIM2, Rc6Tv", "src/receiver/ppoll.rs: PeriodicPoll::poll", "src/protocol/rc5/decoder.rs: Rc5Decoder", "src/protocol/rc6/decoder.rs: Rc6Decoder"]}
{"id": "C80", "title": "The multireceiver example prints exactly the keys of all its protocols", "statement": "The multireceiver example times the edges with a 32-bit counter of 48 MHz read twice in each interrupt handler and feeds six receivers (Samsung, RC5, RC6, Apple, NEC, Denon). After at least one edge, whatever was received before, remote controls of all kinds send one after the other, all intervals within 3 percent of nominal, every handler reads the counter at most 22 microseconds after its edge, and every pause, modulo the range of the counter, shows at least 20 ms and at most half the range (44 s). Then the example never panics and prints one line per transmission of Samsung, RC5, RC6 and NEC (with 8- or 16-bit addresses or any 32 bits), in order, two for an Apple key (one of Apple, then one of NEC), and no other lines but those of Denon. If no SBP remote is among them and nothing before looked like the header of Denon, the lines of Denon are also exactly one per Denon transmission. The first edge after power-on is lost: an RC5 key that starts with it is not printed.", "quantifier": "every sequence of transmissions, every timing within the tolerance, every latency of each handler, every history, every build (in builds with overflow checks fewer than 2^29 edges before)", "why_tests_cant": "six decoders fed with the same unbounded mixture of signals, the latency of each handler, wrap-around of the counter", "anchors": ["examples/bluepill/src/bin/multireceiver.rs: EXTI9_5", "src/receiver/multi.rs: MultiReceiver, event, event_iter", "src/protocol/nec/decoder.rs: NecDecoder", "src/protocol/rc5/decoder.rs: Rc5Decoder", "src/protocol/rc6/decoder.rs: Rc6Decoder", "src/protocol/denon/mod.rs: DenonDecoder"]}
{"id": "C81", "title": "The length of a pause does not matter", "statement": "Once an interval is longer than 15 ms, its length has no influence on anything a receiver reports: two signals with the same levels whose intervals are equal, or both longer than 15 ms, give the same outcome at every edge, for the NEC family, SBP, Denon, RC5 and RC6, on every time base. For the NEC family, SBP and Denon the intervals must be below half of the range of the duration type.", "quantifier": "all receivers, build modes, time bases and resolutions below 2^32; all pairs of signals that differ only in the length of intervals longer than 15 ms", "why_tests_cant": "pauses range over everything from 15 ms to months, and each can come in any state of a decoder, as a mark or as a space", "anchors": ["src/receiver.rs: Receiver::event", "src/protocol/nec/decoder.rs: NecDecoder", "src/protocol/sbp/mod.rs: SbpDecoder", "src/protocol/denon/mod.rs: DenonDecoder", "src/protocol/rc5/decoder.rs: Rc5Decoder", "src/protocol/rc6/decoder.rs: Rc6Decoder", "src/receiver/time.rs: PulseSpans::get"]}
{"id": "C82", "title": "The Raspberry Pi Pico example prints exactly the keys of an Apple remote", "statement": "The event-driven example for the Raspberry Pi Pico, with 64-bit timestamps in microseconds, prints one line for every key pressed on an Apple remote and one repeat line for every repeat code, with the right page, command and device, in order and nothing else, if the remote keeps within 4 percent of nominal timing, keys and repeat codes are at least 27 ms apart, and every handler reads the timer at most 69 microseconds after its edge. Pauses may be of any length up to 2^63 microseconds, also longer than a 32-bit timer can count.", "quantifier": "all series of keys and repeat codes, all timings within 4 percent, all pauses, all latencies up to 69 microseconds, debug and release builds", "why_tests_cant": "the handler needs the hardware timer and interrupts; pauses of days or months cannot be tried out and the timings form a continuum", "anchors": ["examples/rp-pico/src/bin/receiver-event-driven-rtic.rs: do_ir", "src/receiver.rs: Receiver::with_fugit64, event_instant", "src/receiver/time/fgt.rs: InfraMonotonic for Instant<u64>", "src/protocol/nec/decoder.rs: NecDecoder"]}
{"id": "C83", "title": "Commands sent one after another by one sender all arrive", "statement": "A program that hands any series of commands to one Sender, each when the one before has been sent, and calls tick long enough for each (110 ms for the NEC family, 50 ms for RC5, 63 ms for RC6, and one more tick per entry of the buffer), is received by a PeriodicPoll of the same frequency that is polled with the pin once per tick: it reports exactly these commands, in order, each once, and nothing else and no error - although the sender appends left-over entries of longer earlier frames and switches the pin for unused entries of its buffer. The sender is idle after each command. From 13 kHz on (Samsung 14 kHz, RC6 27028 Hz).", "quantifier": "all lists of commands (any length), all frequencies from the limit on, all buffer sizes that hold a frame, all numbers of ticks from the bound up to 2^31, debug and release builds", "why_tests_cant": "whether the left-overs are mistaken for a frame depends on the pair of frames, the buffer size and the frequency; the series can be of any length", "anchors": ["src/sender/hal.rs: Sender::load, tick", "src/sender/senders.rs: PulsedataSender::tick, load_command", "src/sender/buffer.rs: PulsedataBuffer", "src/receiver/ppoll.rs: PeriodicPoll::poll", "src/protocol/rc5/encoder.rs: encode", "src/protocol/rc6/encoder.rs: encode", "src/protocol/nec/encoder.rs: encode"]}
{"id": "C84", "title": "A command sent with one clock is received with another", "statement": "Sender and receiver are two devices with two clocks. A command is sent by a Sender whose tick is called from an interrupt that is early or late by a few microseconds, or by a PulsedataSender whose tick is called at irregular times with the reading of a timer. The edges on the pin are then the frame of the protocol (NEC, NEC16, Samsung, raw NEC, RC5, RC6) with every period within 3 percent of its nominal length, and a Receiver with its own timer, of any rate from 14 kHz (NEC family), 30 kHz (RC5) or 60 kHz (RC6) on, whatever it received before, reports exactly this command at the last edge of the frame. The PulsedataSender comes to an end after the sum of all entries and the largest delay per entry.", "quantifier": "all commands, all sender frequencies from the limits on (and the usual lower ones), all irregularities within the limits, all timer phases and wrap-arounds, all receiver rates, clocks and histories, all buffer sizes and contents, debug and release builds", "why_tests_cant": "depends on the phase of two clocks, on every single delay of an interrupt or of a polling loop, and on the pair of rates", "anchors": ["src/sender/hal.rs: Sender::load, tick", "src/sender/senders.rs: PulsedataSender::load_command, tick", "src/receiver.rs: Receiver::event", "src/protocol/nec/encoder.rs: encode", "src/protocol/rc5/encoder.rs: encode", "src/protocol/rc6/encoder.rs: encode", "src/protocol/nec/decoder.rs: event", "src/protocol/rc5/decoder.rs: event", "src/protocol/rc6/decoder.rs: event"]}
{"id": "C85", "title": "A polled receiver reports exactly its own transmissions among those of other protocols", "statement": "Remote controls of any protocols (NEC with 8- and 16-bit addresses, Apple and other words in the timing of NEC, Samsung, Samsung BluRay, Denon, RC5, RC6) send any series of transmissions, each after at least 20 ms of silence, with intervals within 3 percent. A PeriodicPoll receiver of one protocol, polled at 40 kHz or at 60 kHz and more, in any phase and after any samples seen before, reports exactly the transmissions of its protocol, in order, each once, and nothing for the others; it never panics. NEC, NEC16 and raw NEC have the same frames and read those of each other in their own way. For Denon the poller is fresh and no Samsung BluRay transmission is among them (C67 shows that this is needed).", "quantifier": "all series of transmissions of any length, all timings within 3 percent, all phases of the sampling, all earlier samples, all frequencies from the limit on, debug and release builds", "why_tests_cant": "the number of mixed series, of their timings and of phases is unbounded; whether some part of one frame, seen through the sampling, looks like a frame of another protocol is a question about all of them", "anchors": ["src/receiver/ppoll.rs: PeriodicPoll::poll", "src/protocol/nec/decoder.rs: event", "src/protocol/sbp/mod.rs: event", "src/protocol/denon/mod.rs: event", "src/protocol/rc5/decoder.rs: event", "src/protocol/rc6/decoder.rs: event"]}
{"id": "C86", "title": "Keys held down on several remote controls are told apart", "statement": "Remote controls of any protocols send any series of transmissions; those of the NEC family (NEC, NEC16, Apple, Samsung) follow each with any number of repeat codes while the key stays pressed. Whatever came before, a receiver of the NEC family reports each transmission of its protocol once and then the same command, marked as a repetition, exactly once for every repeat code that follows; it reports nothing for the frames and repeat codes of other remote controls. Receivers of Samsung BluRay, RC5, RC6 (and Denon, under the conditions of C67) report their own transmissions and no repeat code of any remote control. This holds for single receivers, for every receiver in a multi receiver, for signals in real time within 3 percent as measured by a timer, and for a poller, which does not panic.", "quantifier": "all series of key presses of any protocols with any number of repeat codes, all timings within the tolerances, all earlier signals, all phases, debug and release builds", "why_tests_cant": "what a repeat code means depends on the frame the decoder remembers; other transmissions in between change what it remembers, so all interleavings and all timings have to be covered", "anchors": ["src/protocol/nec/decoder.rs: event, command", "src/receiver.rs: Receiver::event", "src/receiver/multi.rs: event_generic_iter", "src/receiver/ppoll.rs: PeriodicPoll::poll"]}
{"id": "C87", "title": "The rates at which RC6 works with one clock", "statement": "When a program encodes an RC6 command for a tick rate F and a receiver runs at the same rate, then either every command arrives, once and without errors, or no command is ever reported; which of the two depends only on F. They arrive at every rate from 27028 Hz up to the last one the encoder compiles for, and below it exactly in eleven bands (2253-2627, 4505-4954, 6757-7657, 9010-9909, 11262-12162, 13514-14864, 15766-17117, 18019-19369, 20271-22072, 22523-24324, 24775-26576 Hz); the 20 kHz of the documentation are outside.", "quantifier": "all tick rates for which the encoder exists, all commands, addresses and toggles, all time bases, all buffers, debug and release builds", "why_tests_cant": "tests run at one or two rates; whether a rate works depends on how the rounding of one unit multiplies in the leader and on the order in which overlapping windows are searched", "anchors": ["src/protocol/rc6/encoder.rs: encode", "src/protocol/rc6/decoder.rs: PULSE, TOL, event", "src/receiver/time.rs: PulseSpans::get", "src/receiver/iter.rs: BufferIterator::next"]}
{"id": "C88", "title": "What a pulse-distance receiver reports on any signal", "statement": "Any sequence of edges can be cut in exactly one way into complete frames, frames that break off, repeat codes and noise (the end of the recording may lie inside a frame), and a receiver for NEC, its 16-bit, raw, Samsung and Apple variants, Denon or Samsung BluRay reports exactly what this cutting says, edge by edge: one command at the edge that completes a frame; for the NEC family one report per repeat code, with the bits of the last frame that was begun, complete or not; one error at the sign with which a frame breaks off (none for Denon, whose broken frames instead leave their bits in the next complete frame); and nothing at any other edge. Nothing else is reported and nothing that fits the description is missed. A frame that breaks off with a header swallows that header. When rising edges follow each other the mark between them counts as zero, except that a BluRay receiver adds the mark that ended last if nothing was reported since.", "quantifier": "all sequences of edges whose periods fit the clock type, all tick rates from about 1 kHz (NEC 893 Hz, BluRay 1000 Hz, Denon 1191 Hz) to 318 kHz, above that multiples of 1 kHz up to 318 MHz and multiples of 1 MHz, with fugit timestamps every rate; all time bases, debug and release builds", "why_tests_cant": "tests feed well-formed frames and a few broken ones; the claim gives the report for every possible signal, in both directions, so that any change of the state machine, its windows, its counters or what it keeps between frames changes it", "anchors": ["src/protocol/nec/decoder.rs: event, command, reset", "src/protocol/nec/standard.rs: unpack", "src/protocol/nec/nec16.rs: unpack", "src/protocol/nec/raw.rs: unpack", "src/protocol/nec/samsung.rs: unpack", "src/protocol/nec/apple.rs: unpack", "src/protocol/denon/mod.rs: event, command, reset", "src/protocol/sbp/mod.rs: event, command, reset", "src/receiver/time.rs: PulseSpans::get"]}
{"id": "C89", "title": "What an RC5 or RC6 receiver reports on any signal", "statement": "Any sequence of edges can be read in exactly one way as frames, frames that break off and noise (the end of the recording may lie inside a frame), and an RC5 or RC6 receiver reports exactly the complete frames, each once, at the edge with its last bit, and nothing at any other edge; it never reports an error. For RC5 the first rising edge opens a frame, intervals count one or two units (zero ticks count three), and the edges in the middle of a bit give the 13 further bits; an interval that cannot be counted breaks the frame off and its edge is looked at anew. For RC6 the first rising edge must be followed by a falling edge six units later and a rising edge two units after that, then come four bits that are not looked at, the trailer with the toggle bit and 16 data bits; an edge that is counted but does not fit the leader or trailer breaks the frame off and is itself swallowed (a frame that begins with it is missed), while an interval that cannot be counted breaks it off and its edge is looked at anew.", "quantifier": "all sequences of edges (in builds with overflow checks: those in which no unbroken stretch of countable intervals adds up to the range of usize), all tick rates up to 318 kHz, above that multiples of 1 kHz up to 318 MHz and multiples of 1 MHz, with fugit timestamps every rate; all time bases, all word sizes from 8 bits on", "why_tests_cant": "tests feed well-formed frames and one or two broken ones; the claim gives the report for every possible signal, in both directions, so that any change of the state machine, its windows, the order in which they are tried, its counters or what it keeps between frames changes it", "anchors": ["src/protocol/rc5/decoder.rs: event, command, reset", "src/protocol/rc5/mod.rs: Rc5Command::unpack", "src/protocol/rc6/decoder.rs: event, command, reset", "src/protocol/rc6/cmd.rs: Rc6Command::from_bits", "src/receiver/time.rs: PulseSpans::get"]}
{"id": "C90", "title": "What a polled pin or a recorded buffer gives, whatever the signal", "statement": "The readings of C88 and C89 also settle the other two ways of receiving. A periodic poller reports, for any sequence of sampled levels, exactly what the reading of the changes of level gives, at the sample with the change, and nothing at the samples in between. A recorded buffer, read by calling next at least once per entry, gives exactly the commands of the reading of its entries, in their order; collected in one go, it gives those before the first failure (for RC5 and RC6, which never fail, all of them; for the Apple protocol see C48).", "quantifier": "all sequences of levels with no level held for 2^31 samples, all buffers with entries below 2^31, all protocols, all time bases, all tick rates as in C88 and C89", "why_tests_cant": "tests poll a pin or read a buffer with one or two well-formed frames; the claim fixes the outcome of every call for every signal, also for broken, noisy and interleaved ones", "anchors": ["src/receiver/ppoll.rs: PeriodicPoll::poll, poll_base", "src/receiver/iter.rs: BufferIterator::next", "src/receiver/builder.rs", "src/protocol/nec/decoder.rs: event", "src/protocol/sbp/mod.rs: event", "src/protocol/denon/mod.rs: event", "src/protocol/rc5/decoder.rs: event", "src/protocol/rc6/decoder.rs: event"]}
{"id": "C91", "title": "What a receiver for several protocols gives, whatever the signal", "statement": "A receiver for several protocols, in any selection and order and also with a protocol taken twice, never panics and gives at each edge one entry for each protocol; the entries of a protocol are exactly the complete frames (and repeat codes) that this protocol reads in the signal according to C88 and C89, as AnyCommand with protocol, address, command and repeat flag, whatever the other protocols make of the same edges; where a protocol fails there is no entry.", "quantifier": "all sequences of edges with intervals below 2^31 (in builds with overflow checks: without overlong stretches, see C89), all lists of the seven protocols that can be combined, all tick rates from 1191 on as in C88 and C89, all time bases", "why_tests_cant": "tests combine two or three protocols and send a frame of one of them; interference between the parts, wrong order, or a frame of one protocol that another one half understands shows only on particular signals and selections", "anchors": ["src/receiver/multi.rs: MultiReceiver::event, event_iter, ReceiverWrapper", "src/cmd.rs: AnyCommand, From", "src/protocol/denon/mod.rs: From<DenonCommand> for AnyCommand"]}
{"id": "C92", "title": "What a sender does under any sequence of calls", "statement": "For every sequence of tick, load and buffer calls on a new Sender, with commands of any of the protocols that can be sent: a load is dropped exactly while an earlier frame is being shown, that is from its first mark until the tick after its last entry; every other load replaces what has not begun, writes its frame over the front of the buffer and has the whole buffer shown from the start; the pin is off in between; buffer() returns the frame loaded last; the only panic is a frame longer than the buffer. A new sender behaves as if a buffer of zeros had been loaded.", "quantifier": "all finite sequences of calls in any order and of any length, all commands, all buffer sizes, all pulse lengths below 2^32 ticks", "why_tests_cant": "a test plays one or two scripted sequences; a load that arrives at the wrong tick (the last level of a frame, before the first tick, in the pause before the first mark) is one of unboundedly many interleavings", "anchors": ["src/sender/hal.rs: Sender::new, load, tick, buffer", "src/sender/senders.rs: PulsedataSender::load_command, tick, reset", "src/sender/buffer.rs: PulsedataBuffer"]}
{"id": "C93", "title": "The rates at which NEC, NEC16, raw NEC, Samsung and RC5 work with one clock", "statement": "What an encoder of the crate writes for tick rate F is decoded by a receiver built for F, for every command, exactly at these rates: NEC, NEC16 and raw NEC from 13 kHz on and in thirteen bands below (592; 667-740; 778-814; 2000-2222; 4000-4370; 5000-5333; 6000-6518; 7000-7111; 8000-8666; 9000-9703; 10000-10666; 11000-11851; 12000-12962 Hz), Samsung from 14 kHz on and in eleven bands, RC5 from 13 kHz on and in seven bands. At every other rate a command exists that is never reported (NEC, NEC16 and Samsung address 1 command 0; raw NEC word 2; RC5 address 0 command 0).", "quantifier": "all tick rates below 2^32 at which the encoder compiles, all commands, all time bases, debug and release builds", "why_tests_cant": "a test tries a few rates; the bands are the result of two roundings (whole kHz in the sender, whole ticks in both) against five tolerance windows, and a rate between two that work may fail", "anchors": ["src/sender/mod.rs: ProtocolEncoder", "src/protocol/nec/encoder.rs: calc_ticks, encode", "src/protocol/rc5/encoder.rs: calc_freq, encode", "src/protocol/nec/decoder.rs", "src/protocol/rc5/decoder.rs", "src/protocol/utils.rs: scale_with_samplerate"]}
{"id": "C94", "title": "Frames in a row arrive unless a pause looks like a header", "statement": "A new receiver is fed correctly timed frames one after the other, with any pauses between them. NEC, NEC16, raw, Samsung and Apple: a frame is reported unless the time from the last edge before it is as long as a header (13.5 ms, Samsung 9 ms, within 7 percent), in which case the frame is lost and one error is reported; if that time is as long as a repeat code, the word before is first reported again as a repeat. Denon: a frame is lost without a report exactly if that time is as long as its header (5 ms). Samsung BluRay: lost with an error exactly if it is as long as its header (9 ms). RC5 and RC6: every frame is reported, however short the pause.", "quantifier": "all lists of frames with all words or commands, all timings within tolerance, all pauses including none, all tick rates with exact windows from about 1 kHz (RC6: 4130 Hz) on, all time bases, debug and release builds", "why_tests_cant": "tests send frames with one fixed pause; the pauses that break a series lie in narrow windows, and the effect on the following frames depends on what came before", "anchors": ["src/protocol/nec/decoder.rs: event", "src/protocol/denon/mod.rs: event", "src/protocol/sbp/mod.rs: event", "src/protocol/rc5/decoder.rs: event", "src/protocol/rc6/decoder.rs: event", "src/receiver.rs: Receiver::event"]}
{"id": "C95", "title": "A frame with a missing pulse is not taken for another command", "statement": "After any history and a silence of more than 14.6 ms a correctly timed frame is sent, but some of its pulses, or of the pauses between them, go unnoticed (both edges missing). Denon, Samsung BluRay, RC5 and RC6 receivers then report no command, however many are missing (at least one). NEC, NEC16, raw and Apple receivers report nothing if one to four are missing, Samsung if one or two. If more are missing, NEC, NEC16, Apple and Samsung receivers may report a repeat, and some frame makes them do so with five (Samsung: three), but never a new press.", "quantifier": "all histories, all frames and timings within tolerance, all sets of missing pulses, all tick rates from 20 kHz on (RC6: from 38 kHz on, and exactly representable), all time bases, debug and release builds", "why_tests_cant": "tests use complete recordings; the ways to lose pulses from a frame are too many to try, and a lost pulse changes how everything after it is read", "anchors": ["src/protocol/nec/decoder.rs: event", "src/protocol/denon/mod.rs: event", "src/protocol/sbp/mod.rs: event", "src/protocol/rc5/decoder.rs: event", "src/protocol/rc6/decoder.rs: event", "src/receiver.rs: Receiver::event"]}
{"id": "C96", "title": "A short disturbance inside a frame does not turn it into another command", "statement": "After any history and a silence of more than 14.6 ms a correctly timed frame is sent, but its marks are interrupted by drop-outs of the carrier, or its spaces contain short spurious pulses. The receiver then reports the command that was sent or nothing. This fails for spurious pulses in NEC, Denon and Samsung BluRay frames, where a one can become two zeros. It holds for drop-outs in the marks of bits in NEC, NEC16, raw, Apple, Samsung, Denon and Samsung BluRay frames (nothing is reported); for drop-outs in the header mark, too (not raw), except that NEC, NEC16, Apple and Samsung receivers may report a repeat, and that what Denon receivers report may have additional ones from a frame that was broken off before, as without drop-outs (C23); and for RC5 and RC6 frames with any disturbances of up to 600 (RC6: 300) microseconds each.", "quantifier": "all histories, all frames and timings within tolerance, any number of disturbances at any places, all tick rates from 20 kHz on, all time bases, debug and release builds", "why_tests_cant": "tests use clean recordings; places, lengths and numbers of disturbances are too many to try", "anchors": ["src/protocol/nec/decoder.rs: event", "src/protocol/denon/mod.rs: event", "src/protocol/sbp/mod.rs: event", "src/protocol/rc5/decoder.rs: event", "src/protocol/rc6/decoder.rs: event", "src/receiver.rs: Receiver::event"]}
{"id": "C97", "title": "How long a command takes to send", "statement": "The number of ticks from loading a command into an idle sender until the pin is off for good is known in advance. Every Nec command takes the same time, whatever its address and command: at a rate of whole kHz at most 67.42 ms, less by under one tick for each of its 66 pulses, plus one tick for each entry of the buffer the frame does not use. For SamsungNec, Nec16 and raw NEC words the time depends only on the number of ones among the address bits (of the word). Every RC5 command takes 26 half-bits, every RC6 command 51 or 52 units, plus at most one tick for each entry of the buffer.", "quantifier": "all commands, all rates (from 2 kHz; RC6 from 2253 Hz) for which the encoder exists, all buffer sizes that hold the frame; for NEC all idle senders whose buffer is unused beyond a NEC frame, for RC5 and RC6 new senders", "why_tests_cant": "a test measures single commands at one rate; that all commands take the same time needs all 65536 of them", "anchors": ["src/sender/hal.rs: Sender::load, tick", "src/sender/senders.rs: PulsedataSender::tick", "src/protocol/nec/encoder.rs: encode", "src/protocol/rc5/encoder.rs: encode", "src/protocol/rc6/encoder.rs: encode"]}
{"id": "C98", "title": "An input wired the wrong way round reports nothing", "statement": "The crate takes a low pin for a mark. If the demodulator drives the pin the other way, every edge a receiver sees is inverted. Then no command is reported from a transmission of its own protocol, frame or repeat code, after a silence: not by the receivers of the NEC family, Samsung BluRay, Denon and RC6. An RC5 receiver reports nothing either, with one exception: the word of 14 ones (address 31, command 63, toggle set) is reported as itself.", "quantifier": "all tick rates from 20 kHz, all histories before, all words (RC5: with the first start bit set), all timings within the tolerances of the protocol (marks within 8 percent for the first and 12 for the others), a silence of at least 14.6 ms before the transmission", "why_tests_cant": "a test tries single words with exact timing; that none of the others, with any timing within tolerance, looks like a frame when inverted takes all of them, and the one RC5 word that does was found by the proof", "anchors": ["src/receiver.rs: Receiver::event, event_instant", "src/receiver/multi.rs: MultiReceiver::event", "src/receiver/ppoll.rs: PeriodicPoll::poll", "src/protocol/nec/decoder.rs: event", "src/protocol/rc5/decoder.rs: event", "src/protocol/rc6/decoder.rs: event", "src/protocol/denon/mod.rs: event", "src/protocol/sbp/mod.rs: event"]}
{"id": "C99", "title": "A receiver switched on in the middle of a transmission reports nothing for it", "statement": "A new receiver is started while a transmission of its own protocol is under way, so that it sees only the end of it and its first interval is cut short. If the header mark is over by then, no command is reported from the rest: not by the receivers of the NEC family, Samsung, Samsung BluRay, Denon and RC6. An RC5 receiver reports nothing if it has missed at least the first edge. A NEC or Samsung receiver started within the header mark reports nothing either unless what it saw of mark and space was as long as a repeat code; in that case it can report a repeat of a command that nobody has sent. From 44 kHz on the same (header mark over, or first two RC5 edges missed) holds for a transmission of any other protocol, so that a multi receiver of any of the protocols has no entry either.", "quantifier": "all tick rates from 20 kHz, all words (RC5: with the first start bit set), frames and repeat codes, all timings within the tolerances of the protocol, all moments at which the receiver is started", "why_tests_cant": "the moment of the start is arbitrary, and what is left depends on the word and on the timing: a test tries a few moments with exact timing, and the false repeat happens in a window of less than 2 ms", "anchors": ["src/receiver.rs: Receiver::event, event_edge", "src/receiver/builder.rs: Builder::build", "src/protocol/nec/decoder.rs: event", "src/protocol/rc5/decoder.rs: event", "src/protocol/rc6/decoder.rs: event", "src/protocol/denon/mod.rs: event", "src/protocol/sbp/mod.rs: event"]}
{"id": "C100", "title": "A transmission that breaks off is not reported and does no harm", "statement": "In a series of transmissions of any protocols some break off: the sender stops anywhere between the first edge and the last, in a space or in the middle of a mark (not the last one). Every receiver (NEC, 16-bit NEC, raw, Apple, Samsung, Samsung BluRay, RC5, RC6), whatever it has seen before, reports exactly the whole transmissions of its own protocol, in order and unaltered: nothing for a transmission that broke off, and nothing of it is mixed into a later command. A multi receiver does it in every component for one of these protocols. A Denon receiver does it as well (each command without its last bit, C23), if nothing before looked like the start of a Denon frame and the series contains no Samsung BluRay transmissions (C67) and no Denon transmissions that break off; if one does, its ones are mixed into the next Denon command. The receivers of the eight protocols do it, too, when the signal is given in real time (timing within 3 percent, 20 ms of silence) and measured by a counter of any phase as in C68, provided that what is left of a mark cut short lasts at least as long as the counter is uncertain. So do pollers (PeriodicPoll) that sample such a line with their period, whatever they have sampled before, if no interval is shorter than the period or as long as 2^31 of them; no poll panics (RC5 and RC6 in debug builds: not too many samples before, C40). A Denon receiver or poller that is fresh does it in real time under the conditions above.", "quantifier": "all tick rates from 20 kHz, all histories, all series of transmissions (any length, any protocols and words, any timing within the tolerances) with at least 14.58 ms of silence before each, and all points at which they break off", "why_tests_cant": "there are as many ways to break off as edges, times all words, times what the decoder was left with; a test tries one or two, and what would go wrong shows only in a later, correct frame", "anchors": ["src/receiver.rs: Receiver::event, event_edge", "src/receiver/ppoll.rs: PeriodicPoll::poll", "src/receiver/multi.rs: MultiReceiver, event, event_iter", "src/protocol/nec/decoder.rs: event", "src/protocol/rc5/decoder.rs: event", "src/protocol/rc6/decoder.rs: event", "src/protocol/sbp/mod.rs: event", "src/protocol/denon/mod.rs: event"]}
