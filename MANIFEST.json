{
 "claims": [
  {
   "property": "C01",
   "status": "proved",
   "theorems": [
    "C01_nec_words",
    "C01_samsung_words",
    "C01_nec16_words",
    "C01_raw_words"
   ],
   "note": "All words of the four variants, byte layouts stated with bytes4."
  },
  {
   "property": "C02",
   "status": "proved",
   "theorems": [
    "C02_nec_validate",
    "C02_samsung_validate",
    "C02_nec16_validate"
   ],
   "note": "Both directions, for every 32-bit word."
  },
  {
   "property": "C03",
   "status": "proved",
   "theorems": [
    "C03_apple_unpack",
    "C03_apple_injective"
   ],
   "note": "Exact acceptance condition, field layout and injectivity."
  },
  {
   "property": "C04",
   "status": "partial",
   "theorems": [
    "C04_apple_command_refuted",
    "C04_apple_command_partial"
   ],
   "note": "False in the code: the page is shifted out of the u8. The refuted theorem has two buttons of Apple2009 with the same code; the partial theorem says exactly what the code does identify."
  },
  {
   "property": "C05",
   "status": "proved",
   "theorems": [
    "C05_rc5_unpack_pack",
    "C05_rc5_pack_unpack"
   ],
   "note": "Both directions."
  },
  {
   "property": "C06",
   "status": "proved",
   "theorems": [
    "C06_rc6_word",
    "C06_rc6_word_inv"
   ],
   "note": "Both directions."
  },
  {
   "property": "C07",
   "status": "proved",
   "theorems": [
    "C07_sbp_valid"
   ],
   "note": "Exact."
  },
  {
   "property": "C08",
   "status": "proved",
   "theorems": [
    "C08_rc6_create",
    "C08_sbp_create"
   ],
   "note": "Exact."
  },
  {
   "property": "C09",
   "status": "partial",
   "theorems": [
    "C09_create_refuted",
    "C09_create_partial",
    "C09_create_exact_partial"
   ],
   "note": "False in the code: out-of-range values are truncated or leave their field. Refuted with witnesses; C09_create_exact_partial says exactly which values survive (NEC, Samsung: those of 8 bits; RC5: those of 5 and 6 bits) and which are refused."
  },
  {
   "property": "C10",
   "status": "partial",
   "theorems": [
    "C10_any_refuted",
    "C10_any_partial",
    "C10_any_exact_partial"
   ],
   "note": "False in the code for RC5 start bits, SBP validity and Apple device and page; refuted with an RC5 witness. C10_any_exact_partial says exactly which commands become the same AnyCommand."
  },
  {
   "property": "C11",
   "status": "proved",
   "theorems": [
    "C11_protocol_id"
   ],
   "note": "Exact."
  },
  {
   "property": "C12",
   "status": "proved",
   "theorems": [
    "C12_scale_total",
    "C12_scale_accurate"
   ],
   "note": "Totality, exact panic condition, accuracy for all protocol lengths; the fuel of the model loop never runs out."
  },
  {
   "property": "C13",
   "status": "proved",
   "theorems": [
    "C13_build_never_panics",
    "C13_build_profile_independent"
   ],
   "note": "All nine protocol types, any tick rate below 2^32, u32/u64/fugit."
  },
  {
   "property": "C14",
   "status": "proved",
   "theorems": [
    "C14_exact",
    "C14_window"
   ],
   "note": "All pulses of all protocols."
  },
  {
   "property": "C15",
   "status": "proved",
   "theorems": [
    "C15_pulses_distinct"
   ],
   "note": "Thresholds are the smallest possible ones found by the sweep."
  },
  {
   "property": "C16",
   "status": "proved",
   "theorems": [
    "C16_check_overlaps",
    "C16_windows_ordered"
   ],
   "note": "Exact, plus the proof that built-in windows meet the hypothesis."
  },
  {
   "property": "C17",
   "status": "partial",
   "theorems": [
    "C17_check_overlaps_refuted",
    "C17_check_overlaps_partial"
   ],
   "note": "False in the code for every rate: padding entries always overlap. The partial theorem shows the check on the real pulses only."
  },
  {
   "property": "C18",
   "status": "proved",
   "theorems": [
    "C18_nec_frame"
   ],
   "note": "From any history, after a gap, any jitter within tolerance; the gap edge reports nothing or a data error when it breaks off a frame."
  },
  {
   "property": "C19",
   "status": "proved",
   "theorems": [
    "C19_samsung_frame",
    "C19_nec16_frame",
    "C19_raw_frame",
    "C19_apple_frame"
   ],
   "note": "Samsung, Nec16, NecDebug and Apple; Apple words failing vendor/parity are dropped silently."
  },
  {
   "property": "C20",
   "status": "proved",
   "theorems": [
    "C20_sbp_frame"
   ],
   "note": "Any 16-bit address and 20-bit command field; the valid flag is the complement check."
  },
  {
   "property": "C21",
   "status": "proved",
   "theorems": [
    "C21_rc5_frame"
   ],
   "note": "Any history the receiver processes without panicking (C40), usize of at least 8 bits, from 1125 Hz."
  },
  {
   "property": "C22",
   "status": "partial",
   "theorems": [
    "C22_rc6_frame_refuted",
    "C22_rc6_frame_partial",
    "C22_leader_partial"
   ],
   "note": "Refuted for leaders 4 to 12 percent too short (overlapping windows of 5 and 6 units); proved when the leader is at most 4/5/6 percent too short, from 4130 Hz. C22_leader_partial says exactly which leaders are read: those within 12 percent of six units that are longer than five units plus 12 percent; with any other leader nothing is reported."
  },
  {
   "property": "C23",
   "status": "partial",
   "theorems": [
    "C23_denon_frame_refuted",
    "C23_denon_frame_partial"
   ],
   "note": "Refuted: bit 47 is dropped and bits of a broken-off frame are mixed in; partial theorem says exactly what is reported."
  },
  {
   "property": "C24",
   "status": "proved",
   "theorems": [
    "C24_nec_roundtrip",
    "C24_nec16_roundtrip",
    "C24_samsung_roundtrip",
    "C24_raw_roundtrip",
    "C24_limit_sharp"
   ],
   "note": "Exact outcome list and buffer iterator, for every command and every frequency from the stated limits for which the encoder compiles; C24_limit_sharp shows 12999 Hz fails. C93 lists all the rates, also those below the limits."
  },
  {
   "property": "C25",
   "status": "proved",
   "theorems": [
    "C25_rc5_roundtrip"
   ],
   "note": "Every in-range command with start bits 2 or 3 and every F from 13 kHz to 2^32; C93 lists the rates below."
  },
  {
   "property": "C26",
   "status": "partial",
   "theorems": [
    "C26_rc6_roundtrip_refuted",
    "C26_rc6_roundtrip_partial"
   ],
   "note": "False at 20 kHz (leader read as 5 units). Proved at the rates of C87, which are all from 27028 Hz on and eleven bands below; at the other rates it is false for every command (C87)."
  },
  {
   "property": "C27",
   "status": "proved",
   "theorems": [
    "C27_nec",
    "C27_samsung",
    "C27_nec16",
    "C27_raw",
    "C27_apple"
   ],
   "note": "Five variants, every sample rate below 2^32, every history whose periods fit u32 (needed: in debug builds a longer period panics, in release it wraps, see C39/C40). One percent is added to the tolerances for rounding. A report flagged as repeat ends a repeat code instead; what that repeats is C29."
  },
  {
   "property": "C28",
   "status": "proved",
   "theorems": [
    "C28_any_variant",
    "C28_nec",
    "C28_samsung",
    "C28_nec16",
    "C28_apple"
   ],
   "note": "Any number of repeat codes after a frame, each preceded by a pause, from any earlier history; per variant (the variant without repeat, raw, is excluded because it never flags repeats)."
  },
  {
   "property": "C29",
   "status": "partial",
   "theorems": [
    "C29_nec_exact_partial",
    "C29_nec16_exact_partial",
    "C29_samsung_exact_partial",
    "C29_apple_exact_partial",
    "C29_fresh_refuted",
    "C29_truncated_refuted",
    "C29_nec_partial",
    "C29_samsung_partial",
    "C29_nec16_partial",
    "C29_apple_partial"
   ],
   "note": "False in the code: a repeat code on a fresh receiver reports command 0, and a truncated frame followed by a repeat code reports the truncated bits (refuted theorems). Partial theorems: a repeat carries the last reported command when no error was reported in between; on any signal a repeat carries exactly the bits of the last frame begun, complete or not, or 0 (exact_partial). Missing: histories with errors in between, where it is false."
  },
  {
   "property": "C30",
   "status": "partial",
   "theorems": [
    "C30_nec_exact_partial",
    "C30_nec16_exact_partial",
    "C30_samsung_exact_partial",
    "C30_nec_refuted",
    "C30_samsung_refuted",
    "C30_nec16_refuted",
    "C30_apple_partial"
   ],
   "note": "False in the code for Nec, Samsung and Nec16: they never compare a byte with its inverse (refuted theorems). Proved for Apple (parity and vendor), the only variant that validates. Missing: the other variants, where it is false. What they report for a word, valid or not, is said by the _exact theorems (and for every signal by C88): the fields where they stand in the word, whatever the other bytes are."
  },
  {
   "property": "C31",
   "status": "proved",
   "theorems": [
    "C31_sbp",
    "C31_sbp_periods"
   ],
   "note": "Every history. The periods the receiver measures are spelled out by the relation 'readings', because the decoder does not forget a mark when a second rising edge follows; the second theorem shows they are the periods of the signal when marks and spaces alternate."
  },
  {
   "property": "C32",
   "status": "proved",
   "theorems": [
    "C32_rc5"
   ],
   "note": "Every history and every sample rate below 2^32. The reported bits are exactly the directions of the 13 edges sampled after a start edge."
  },
  {
   "property": "C33",
   "status": "proved",
   "theorems": [
    "C33_rc6"
   ],
   "note": "Every history and every sample rate below 2^32. The stream relation spells out leader, four header samples, trailer and 16 data samples."
  },
  {
   "property": "C34",
   "status": "proved",
   "theorems": [
    "C34_denon",
    "C34_denon_exact"
   ],
   "note": "Every history whose periods fit u32. The command contains the low 47 bits of the frame; it is equal to them when no frame broke off before (second theorem). Bit 47 is never stored and old bits may be mixed in (C23)."
  },
  {
   "property": "C35",
   "status": "partial",
   "theorems": [
    "C35_refuted",
    "C35_nec_partial",
    "C35_denon_partial",
    "C35_nec_done_partial"
   ],
   "note": "Refuted for RC5, RC6 and SBP, whose command() is Some in every state; proved for the NEC family and Denon."
  },
  {
   "property": "C36",
   "status": "partial",
   "theorems": [
    "C36_rc5_exact_partial",
    "C36_rc6_exact_partial",
    "C36_nec",
    "C36_sbp",
    "C36_denon",
    "C36_refuted",
    "C36_rc5_partial",
    "C36_rc6_partial"
   ],
   "note": "Proved for NEC, SBP and Denon. Refuted for RC5 and RC6 (an unmatched interval resets them); proved for them while all intervals match. The _exact theorems say what happens on any further signal: they stay finished up to the first interval that cannot be counted and are like new decoders from then on."
  },
  {
   "property": "C37",
   "status": "proved",
   "theorems": [
    "C37_nec",
    "C37_sbp",
    "C37_denon"
   ],
   "note": "At most 32 (NEC), 37 (SBP), 48 (Denon) rising edges can pass with the state Receiving throughout; from every reachable decoder."
  },
  {
   "property": "C38",
   "status": "partial",
   "theorems": [
    "C38_rc5_exact_partial",
    "C38_rc6_exact_partial",
    "C38_rc5_refuted",
    "C38_rc6_refuted",
    "C38_rc5_partial",
    "C38_rc6_partial",
    "C38_pause_partial"
   ],
   "note": "Refuted: a square wave of two units keeps RC5 and RC6 receiving for ever. Proved: bounds on the number of one-unit (RC5, 26) and rising odd-unit (RC6, 43) intervals, and that an overlong mark ends the reception. The _exact theorems say for every signal whether the receiver reports Receiving at its last edge: exactly if the signal ends inside a frame."
  },
  {
   "property": "C39",
   "status": "proved",
   "theorems": [
    "C39_nec",
    "C39_sbp",
    "C39_denon",
    "C39_nec_exact",
    "C39_denon_exact",
    "C39_sbp_exact"
   ],
   "note": "Durations below half the range of the duration type, any build; or any durations in release builds with u32/u64. The _exact theorems say on exactly which signals a panic occurs where sums are checked: a mark and the space after it that together exceed the range."
  },
  {
   "property": "C40",
   "status": "partial",
   "theorems": [
    "C40_rc5_exact_partial",
    "C40_rc6_exact_partial",
    "C40_refuted",
    "C40_rc5_partial",
    "C40_rc6_partial",
    "C40_rc5_stretch_partial",
    "C40_rc6_stretch_partial"
   ],
   "note": "Refuted for every debug build (the clock overflows on an endless square wave). Proved for release builds, and for debug builds on signals of any length in which every stretch of consecutive countable intervals has fewer than 2^usize_bits units (the _stretch theorems). The _exact theorems say on exactly which signals a debug build panics."
  },
  {
   "property": "C41",
   "status": "proved",
   "theorems": [
    "C41_nec",
    "C41_sbp",
    "C41_denon",
    "C41_rc5",
    "C41_rc6"
   ],
   "note": "One theorem per protocol, any usize width, time base and rate, no side condition."
  },
  {
   "property": "C42",
   "status": "partial",
   "theorems": [
    "C42_refuted",
    "C42_silent_refuted",
    "C42_nec_partial",
    "C42_sbp_partial"
   ],
   "note": "Refuted for RC5, RC6 and Denon, which never report any error. Proved for the NEC family and SBP. C88 says for every signal where errors are reported and that there are no others."
  },
  {
   "property": "C43",
   "status": "partial",
   "theorems": [
    "C43_nec_refuted",
    "C43_partial",
    "C43_rc6_partial",
    "C43_nec_partial"
   ],
   "note": "Refuted for NEC: a repeat code reuses the previous word. Proved for RC5, SBP, Denon and RC6 in full, for NEC up to the contents of repeat codes."
  },
  {
   "property": "C44",
   "status": "proved",
   "theorems": [
    "C44_instants"
   ],
   "note": "u32, u64 and fugit time bases; fugit's checked_duration_since is assumed exact below half its range."
  },
  {
   "property": "C45",
   "status": "partial",
   "theorems": [
    "C45_wrap_refuted",
    "C45_wrap_partial"
   ],
   "note": "False in the code for u32 and u64 instants: the interval in which the timer wraps is taken as 0 and the frame is lost (refuted theorem). Partial theorem: fugit instants survive the wrap; what the integer time bases do instead is stated exactly. Missing: integer time bases."
  },
  {
   "property": "C46",
   "status": "proved",
   "theorems": [
    "C46_event",
    "C46_event_instant",
    "C46_poll",
    "C46_multi"
   ],
   "note": "All four pin-reading entry points, any history with any failures in it."
  },
  {
   "property": "C47",
   "status": "proved",
   "theorems": [
    "C47_poll",
    "C47_poll_any_state"
   ],
   "note": "From a new poller and from any state of the poller; runs below 2^32 samples."
  },
  {
   "property": "C48",
   "status": "partial",
   "theorems": [
    "C48_buffer_refuted",
    "C48_buffer_partial",
    "C48_next_all",
    "C48_apple_partial"
   ],
   "note": "False in the code: an error (or, for AppleNec, a frame that is not Apple's) ends the iteration although commands follow. Partial theorems: collect yields the commands before the first error (and, for AppleNec, before the first such frame); calling next once per entry yields all, for every protocol. Missing: collecting past an error, where it is false."
  },
  {
   "property": "C49",
   "status": "proved",
   "theorems": [
    "C49_multi_independent",
    "C49_multi_no_panic",
    "C49_multi_iter"
   ],
   "note": "Any list of protocols in any order, any history; no panic unless one of the receivers panics."
  },
  {
   "property": "C50",
   "status": "proved",
   "theorems": [
    "C50_builder",
    "C50_builder_order"
   ],
   "note": "All sequences of builder calls."
  },
  {
   "property": "C51",
   "status": "proved",
   "theorems": [
    "C51_entry_points"
   ],
   "note": "All entry points, all protocols, panics included."
  },
  {
   "property": "C52",
   "status": "proved",
   "theorems": [
    "C52_nec_encoder_exists",
    "C52_nec_encoder",
    "C52_ticks_accurate"
   ],
   "note": "Contents, untouched rest, exact panic condition, where the encoder compiles, accuracy of the ticks."
  },
  {
   "property": "C53",
   "status": "proved",
   "theorems": [
    "C53_rc5_encoder",
    "C53_rc5_runs"
   ],
   "note": "All commands, also those whose first start bit is 0 (sent as 1)."
  },
  {
   "property": "C54",
   "status": "proved",
   "theorems": [
    "C54_rc6_encoder"
   ],
   "note": "All commands and buffers; a trailing space adds one more entry when the last bit is 0."
  },
  {
   "property": "C55",
   "status": "partial",
   "theorems": [
    "C55_apple_exact_partial",
    "C55_apple_encode_refuted"
   ],
   "note": "False in the code: pack is unimplemented!() for AppleNec, so encode panics, for every command, buffer and tick rate; C55_apple_exact_partial says so and what loading such a command into a sender does."
  },
  {
   "property": "C56",
   "status": "proved",
   "theorems": [
    "C56_waveform",
    "C56_runs"
   ],
   "note": "Any encoder, any idle state, any number of ticks. The waveform covers the whole buffer, also the entries beyond the frame (see C59); the level after the last entry lasts one tick."
  },
  {
   "property": "C57",
   "status": "proved",
   "theorems": [
    "C57_finishes"
   ],
   "note": "From every state, also unreachable ones."
  },
  {
   "property": "C58",
   "status": "proved",
   "theorems": [
    "C58_load_ignored",
    "C58_load_restarts"
   ],
   "note": "During the whole waveform of a command whose first entry is 0, as all encoders of the crate write it. Before the first tick the sender is idle and a second load replaces the command."
  },
  {
   "property": "C59",
   "status": "partial",
   "theorems": [
    "C59_beyond_refuted",
    "C59_stale_refuted",
    "C59_unloaded_refuted",
    "C59_exact_partial",
    "C59_tail_partial",
    "C59_first_partial"
   ],
   "note": "False: tick runs through the whole array, so entries beyond the frame (zeros or an earlier, longer frame) switch the pin, and a sender without a command does as well. Proved for commands that fill the buffer; for larger buffers it is false, and C59_tail_partial says exactly what the pin shows instead (the rest of the buffer as further marks and spaces, each at least one tick; for the first command of a new sender, C59_first_partial, one change at every tick)."
  },
  {
   "property": "C60",
   "status": "proved",
   "theorems": [
    "C60_nec",
    "C60_nec16",
    "C60_samsung",
    "C60_raw",
    "C60_rc5",
    "C60_rc6"
   ],
   "note": "Nec, Nec16, Samsung, raw NEC from 13 (Samsung 14) kHz, RC5 from 13 kHz, RC6 from 27028 Hz; any idle sender whose buffer holds 0 or 1 after the frame, any number of ticks from the end of the frame on."
  },
  {
   "property": "C61",
   "status": "proved",
   "theorems": [
    "C61_any_model",
    "C61_remotes"
   ],
   "note": "C61_any_model holds for every model with the default methods, also models defined by users; C61_remotes for the four of the crate."
  },
  {
   "property": "C62",
   "status": "proved",
   "theorems": [
    "C62_any_model",
    "C62_remotes",
    "C62_apple",
    "C62_button"
   ],
   "note": "Both directions (if and only if). Apple2009 matches page and code and does not look at the device id."
  },
  {
   "property": "C63",
   "status": "partial",
   "theorems": [
    "C63_apple_refuted",
    "C63_apple_never_encodes"
   ],
   "note": "False: encode gives None for every action, because the table is not the associated constant that the default encode searches."
  },
  {
   "property": "C64",
   "status": "proved",
   "theorems": [
    "C64_names_distinct"
   ],
   "note": "All pairs of actions."
  },
  {
   "property": "C65",
   "status": "proved",
   "theorems": [
    "C65_samsungtv",
    "C65_specialformp3",
    "C65_cdplayer",
    "C65_cdplayer_on_air"
   ],
   "note": "All buttons of SamsungTv (from 14 kHz), SpecialForMp3 and CdPlayer (from 13 kHz), from a buffer and through a fresh sender and PeriodicPoll."
  },
  {
   "property": "C66",
   "status": "proved",
   "theorems": [
    "C66_nec",
    "C66_samsung",
    "C66_sbp",
    "C66_denon",
    "C66_rc5",
    "C66_rc6"
   ],
   "note": "All 30 pairs of protocols; derived from the soundness theorems C27, C31-C34 plus the separation of the windows. Pulse-distance receivers need periods that fit u32 (Samsung BluRay: durations below 2^31); RC5 and RC6 receivers need none."
  },
  {
   "property": "C67",
   "status": "partial",
   "theorems": [
    "C67_nec",
    "C67_nec16",
    "C67_raw",
    "C67_apple",
    "C67_samsung",
    "C67_sbp",
    "C67_rc5",
    "C67_rc6",
    "C67_denon_refuted",
    "C67_denon_partial",
    "C67_multi"
   ],
   "note": "Proved for NEC, NEC16, raw NEC, Apple, Samsung, Samsung BluRay, RC5 and RC6 receivers and for the components of a multi receiver (RC6 transmissions with the leader restriction of C22). Refuted for Denon: a Samsung BluRay frame with short bits leaves bits behind that are mixed into the next Denon command; C67_denon_partial covers series without Samsung BluRay frames. NEC and NEC16 share their signal, each reads the other in its own way."
  },
  {
   "property": "C68",
   "status": "proved",
   "theorems": [
    "C68_nec",
    "C68_nec16",
    "C68_samsung",
    "C68_sbp",
    "C68_rc5",
    "C68_rc6",
    "C68_denon",
    "C68_clock_any_phase",
    "C68_clock_late",
    "C68_traffic"
   ],
   "note": "NEC, NEC16, Samsung, Samsung BluRay, RC5 and RC6 after any history (RC5 and RC6: where the history did not panic); the traffic theorem is for a multi receiver. Two more theorems show that a rounding counter in any phase and a late reader meet the hypothesis on the clock. Denon as limited in the statement."
  },
  {
   "property": "C69",
   "status": "proved",
   "theorems": [
    "C69_nec",
    "C69_nec16",
    "C69_samsung",
    "C69_sbp",
    "C69_rc5",
    "C69_rc6",
    "C69_denon"
   ],
   "note": "NEC, NEC16, Samsung and Samsung BluRay after any samples; RC5 and RC6 when the whole run does not panic (C40 shows that a debug build may); Denon as limited in the statement. Below 2^31 samples."
  },
  {
   "property": "C70",
   "status": "proved",
   "theorems": [
    "C70_lines",
    "C70_ends",
    "C70_samsung"
   ],
   "note": "The vcd crate is external: its parser is the list of items it yields. Opening the file and finding the wire are not modelled. The recording shipped with the example is replayed in Crate_tests.v (a test)."
  },
  {
   "property": "C71",
   "status": "proved",
   "theorems": [
    "C71_waveform",
    "C71_heard"
   ],
   "note": "From start-up, whole periods. The first period carries the alternation of the empty buffer only (C59); the poller ignores it."
  },
  {
   "property": "C72",
   "status": "proved",
   "theorems": [
    "C72_motion"
   ],
   "note": "Any sequence: one press followed by repeats, from any count. The spawning of the tasks and the USB side are not modelled."
  },
  {
   "property": "C73",
   "status": "partial",
   "theorems": [
    "C73_click_refuted",
    "C73_no_click_partial"
   ],
   "note": "Refuted: the counter is incremented before it is used, so the report never has the button pressed (for fewer than 2^32 events)."
  },
  {
   "property": "C74",
   "status": "partial",
   "theorems": [
    "C74_handover_refuted",
    "C74_interrupts_partial",
    "C74_polled_partial",
    "C74_delivered_partial"
   ],
   "note": "Refuted as stated: of several commands between two rounds of the main loop only the last is printed. Proved: everything else, and that all commands are printed if at most one arrives per round, and the last one always. Each handler is one atomic step (interrupts are disabled in it)."
  },
  {
   "property": "C75",
   "status": "proved",
   "theorems": [
    "C75_nec",
    "C75_nec16",
    "C75_samsung",
    "C75_apple",
    "C75_one_clock"
   ],
   "note": "Four protocols of the family; the last theorem shows that readings of one clock meet the hypothesis on the measurements."
  },
  {
   "property": "C76",
   "status": "proved",
   "theorems": [
    "C76_event_driven",
    "C76_limits_needed"
   ],
   "note": "The limits on the pauses are part of the property; C76_limits_needed shows that both are needed."
  },
  {
   "property": "C77",
   "status": "proved",
   "theorems": [
    "C77_mediakeyboard",
    "C77_mouse"
   ],
   "note": "Spawned tasks are taken to have run before the next edge; the timer starts at 0, where the receiver's clock starts too."
  },
  {
   "property": "C78",
   "status": "proved",
   "theorems": [
    "C78_nec",
    "C78_nec16",
    "C78_samsung",
    "C78_apple",
    "C78_polled_example"
   ],
   "note": "Per-interval limits only; no limit on the total time. The example's theorem starts from power-on."
  },
  {
   "property": "C79",
   "status": "proved",
   "theorems": [
    "C79_rc5",
    "C79_rc6",
    "C79_tutorial1a",
    "C79_tutorial1b"
   ],
   "note": "Per-interval limits only; no limit on the total time. The tutorials' theorems start from power-on."
  },
  {
   "property": "C80",
   "status": "proved",
   "theorems": [
    "C80_multireceiver",
    "C80_multireceiver_all",
    "C80_first_edge_needed"
   ],
   "note": "Lines of Denon under the conditions of C67_denon_partial (no SBP transmissions, no period like the header of Denon before). The loss of the first edge is shown by C80_first_edge_needed."
  },
  {
   "property": "C81",
   "status": "proved",
   "theorems": [
    "C81_nec",
    "C81_sbp",
    "C81_denon",
    "C81_rc5",
    "C81_rc6",
    "C81_half_range_needed"
   ],
   "note": "C81_half_range_needed: with overflow checks on a 32-bit time base two intervals of half of the range stop the program."
  },
  {
   "property": "C82",
   "status": "proved",
   "theorems": [
    "C82_pico"
   ],
   "note": "The timer starts at 0, where the clock of the receiver starts too; the pin is taken to be read before the next edge."
  },
  {
   "property": "C83",
   "status": "proved",
   "theorems": [
    "C83_nec",
    "C83_nec16",
    "C83_samsung",
    "C83_raw",
    "C83_rc5",
    "C83_rc6"
   ],
   "note": "The sender may be fresh or any idle one whose buffer holds entries of such frames (hypotheses on the contents). The poller is polled exactly once per tick, from the first tick on."
  },
  {
   "property": "C84",
   "status": "proved",
   "theorems": [
    "C84_nec",
    "C84_nec16",
    "C84_samsung",
    "C84_raw",
    "C84_rc5",
    "C84_rc6",
    "C84_regular",
    "C84_late",
    "C84_ends"
   ],
   "note": "The delays allowed are in nec_accurate, rc5_accurate and rc6_accurate. The receiver is given the edges of the pin directly (no optical detector). Values left over in the buffer are assumed below 2^31."
  },
  {
   "property": "C85",
   "status": "proved",
   "theorems": [
    "C85_nec",
    "C85_nec16",
    "C85_raw",
    "C85_apple",
    "C85_samsung",
    "C85_sbp",
    "C85_rc5",
    "C85_rc6",
    "C85_denon"
   ],
   "note": "Repeat codes of held keys are not among the transmissions (C86 adds them). RC5 and RC6 in debug builds: fewer than 2^w/8 samples before (C40), usize of 16 bits or more."
  },
  {
   "property": "C86",
   "status": "proved",
   "theorems": [
    "C86_nec",
    "C86_nec16",
    "C86_raw",
    "C86_apple",
    "C86_samsung",
    "C86_sbp",
    "C86_rc5",
    "C86_rc6",
    "C86_denon",
    "C86_multi",
    "C86_real",
    "C86_polled"
   ],
   "note": "A repeat code belongs to the frame before it: nothing of another remote control comes between. C29 and C30 tell what stray repeat codes do. Theorems for single and multi receivers assume that the run does not panic (C39, C40); the one for pollers proves it."
  },
  {
   "property": "C87",
   "status": "proved",
   "theorems": [
    "C87_rc6_rates"
   ],
   "note": "Exact: both directions, for every rate."
  },
  {
   "property": "C88",
   "status": "proved",
   "theorems": [
    "C88_nec",
    "C88_nec16",
    "C88_raw",
    "C88_samsung",
    "C88_apple",
    "C88_denon",
    "C88_sbp",
    "C88_sbp_any",
    "C88_nec_one",
    "C88_denon_one",
    "C88_sbp_one",
    "C88_sbp_any_one"
   ],
   "note": "Exact: every signal has one reading (the theorems ending in _one), and for it the reports are as stated."
  },
  {
   "property": "C89",
   "status": "proved",
   "theorems": [
    "C89_rc5",
    "C89_rc6",
    "C89_rc5_exact",
    "C89_rc6_exact",
    "C89_rc5_long",
    "C89_rc6_long",
    "C89_rc5_one",
    "C89_rc6_one"
   ],
   "note": "Exact: every signal has one reading (the theorems ending in _one), and for it the reports are as stated. In builds with overflow checks a condition is needed, see C40; the theorems ending in _long ask only that no stretch of countable intervals is too long. The theorems ending in _exact ask only that the signal is not one of those on which a debug build panics."
  },
  {
   "property": "C90",
   "status": "proved",
   "theorems": [
    "C90_nec",
    "C90_nec16",
    "C90_raw",
    "C90_samsung",
    "C90_apple",
    "C90_denon",
    "C90_sbp",
    "C90_rc5",
    "C90_rc6"
   ],
   "note": "Exact. Existence of a reading for every signal is in C88 and C89."
  },
  {
   "property": "C91",
   "status": "proved",
   "theorems": [
    "C91_multi"
   ],
   "note": "All seven protocols with an AnyCommand conversion, any list of them, any signal; columns stated with the readings of C88 and C89."
  },
  {
   "property": "C92",
   "status": "proved",
   "theorems": [
    "C92_sender",
    "C92_nec",
    "C92_rc5",
    "C92_rc6"
   ],
   "note": "Exact for every sequence of calls; C92_nec, C92_rc5 and C92_rc6 show that the encoders of the crate meet the hypothesis on load."
  },
  {
   "property": "C93",
   "status": "proved",
   "theorems": [
    "C93_nec",
    "C93_nec16",
    "C93_samsung",
    "C93_raw",
    "C93_rc5"
   ],
   "note": "Exact: both directions, for every rate. At the other rates some commands may still arrive, so the second half names one that does not."
  },
  {
   "property": "C94",
   "status": "proved",
   "theorems": [
    "C94_nec",
    "C94_nec16",
    "C94_raw",
    "C94_samsung",
    "C94_apple",
    "C94_denon",
    "C94_sbp",
    "C94_rc5",
    "C94_rc6"
   ],
   "note": "The first conjunct says that every series has a list of reports, the second that it is the plain list of commands when no pause is in a window, the third that the receiver makes these reports. RC6 with the leader limits of C22."
  },
  {
   "property": "C95",
   "status": "proved",
   "theorems": [
    "C95_nec",
    "C95_samsung",
    "C95_nec_repeats",
    "C95_nec16_repeats",
    "C95_apple_repeats",
    "C95_samsung_repeats",
    "C95_denon",
    "C95_sbp",
    "C95_rc5",
    "C95_nec_five",
    "C95_samsung_three",
    "C95_rc6"
   ],
   "note": "Reports are judged from the edge that ends the silence on, as in C66. For RC6 a silence longer than the leader is enough; the rates are those of C89, from 38 kHz on. C95_nec_five and C95_samsung_three are the witnesses that four and two are the most."
  },
  {
   "property": "C96",
   "status": "partial",
   "theorems": [
    "C96_nec_dropout_partial",
    "C96_samsung_dropout_partial",
    "C96_denon_dropout_partial",
    "C96_sbp_dropout_partial",
    "C96_nec_header_partial",
    "C96_samsung_header_partial",
    "C96_rc5_partial",
    "C96_rc6_partial",
    "C96_nec_spike_refuted",
    "C96_denon_spike_refuted",
    "C96_sbp_spike_refuted",
    "C96_rc5_long",
    "C96_rc6_long",
    "C96_denon_header_partial",
    "C96_sbp_header_partial",
    "C96_nec16_header_partial",
    "C96_apple_header_partial"
   ],
   "note": "Refuted by the code for spurious pulses in the spaces of NEC, Denon and Samsung BluRay frames. A raw NEC receiver does not mark repeats, so there is no theorem about drop-outs in its header marks. C96_rc5_long shows that the 600 microseconds for RC5 cannot become 800, C96_rc6_long that the 300 for RC6 cannot become 450."
  },
  {
   "property": "C97",
   "status": "proved",
   "theorems": [
    "C97_nec",
    "C97_nec_time",
    "C97_samsung",
    "C97_nec16",
    "C97_raw",
    "C97_rc5",
    "C97_rc6"
   ],
   "note": "C97_nec: one tick count for all commands; C97_nec_time: that count in milliseconds. In C97_rc5 and C97_rc6 the count is given up to the number of entries in the buffer, because the number of pulses depends on the command."
  },
  {
   "property": "C98",
   "status": "proved",
   "theorems": [
    "C98_nec",
    "C98_samsung",
    "C98_denon",
    "C98_sbp",
    "C98_rc5",
    "C98_rc5_ones",
    "C98_rc6"
   ],
   "note": "C98_nec covers NEC, 16-bit NEC, raw and Apple, frames and repeat codes. C98_rc5 says that whatever is reported is the word of ones; C98_rc5_ones that it always is."
  },
  {
   "property": "C99",
   "status": "proved",
   "theorems": [
    "C99_nec",
    "C99_samsung",
    "C99_nec_mark",
    "C99_samsung_mark",
    "C99_denon",
    "C99_sbp",
    "C99_rc6",
    "C99_rc5",
    "C99_any_nec",
    "C99_any_sbp",
    "C99_any_denon",
    "C99_any_rc5",
    "C99_any_rc6",
    "C99_multi"
   ],
   "note": "C99_nec covers NEC, 16-bit NEC, raw and Apple, frames and repeat codes. C99_nec_mark and C99_samsung_mark say what a start within the header mark needs for a report; C99_nec_header_needed and C99_example_samsung show the false repeat. C99_any_* and C99_multi: transmissions of all protocols, any single or multi receiver, from 44 kHz."
  },
  {
   "property": "C100",
   "status": "proved",
   "theorems": [
    "C100_nec",
    "C100_nec16",
    "C100_raw",
    "C100_apple",
    "C100_samsung",
    "C100_sbp",
    "C100_rc5",
    "C100_rc6",
    "C100_multi",
    "C100_denon",
    "C100_denon_whole_needed",
    "C100_polled",
    "C100_denon_polled",
    "C100_denon_real",
    "C100_real"
   ],
   "note": "Extends C67 to series in which transmissions break off. For RC5 and RC6 a mark cut short could count as the missing edge; C100_rc5 and C100_rc6 show it comes too early to complete a command. The conditions of C100_denon are those of C67_denon_partial and that no Denon frame breaks off; C100_denon_whole_needed shows that the latter cannot be dropped. C100_real is C100_multi for signals in real time. C100_polled is it for pollers; for RC5 and RC6 in debug builds under the condition of C40 on the samples before. C100_denon_real and C100_denon_polled are C100_denon for signals in real time and for pollers."
  }
 ]
}