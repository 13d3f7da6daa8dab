# Formal model of the `infrared` crate

Rocq/Coq 8.16.1, standard library only. Sources: `rocq/theories/`.

## Layout

| File | Content |
|---|---|
| `Machine.v` | Rust semantics used: panic, `Result`, wrapping/checked arithmetic, slices |
| `Time.v` | `protocol/utils.rs`, `receiver/time.rs`, `receiver/time/*.rs` |
| `Decoder.v` | `receiver/decoder.rs`, `receiver/error.rs`, `cmd.rs`, `ProtocolId` |
| `Nec.v` `Rc5.v` `Rc6.v` `Denon.v` `Sbp.v` | commands, decoders, encoders per protocol |
| `Receiver.v` | `Receiver`, `BufferIterator`, `PeriodicPoll`, `MultiReceiver`, `Builder` |
| `Sender.v` | `PulsedataBuffer`, `PulsedataSender`, hal `Sender` |
| `Remote.v` | `Action`, `RemoteControlModel`, `Button`, the five remotes |
| `Apps.v` | the example applications: vcd-parser, bluepill sender, mouse, media keyboard, event-driven, polled and multi receiver, the two tutorials, the Raspberry Pi Pico receiver, Arduino receivers |
| `Spec.v` | the specification vocabulary, written without the model's helpers |
| `Spec_receiver.v` `Spec_state.v` | vocabulary for receivers and for decoders driven by hand (histories, outcomes, reachability) |
| `Spec_sender.v` | pulse buffers of the three encoders, writing to the front of a buffer, the waveform a buffer makes on a pin |
| `Spec_sound.v` | what a history of edges spells: complete frames, repeat codes, sampled biphase streams |
| `Spec_cross.v` | transmissions of each protocol and series of them, as heard by any receiver |
| `Spec_keys.v` | keys held down on a remote control, in real time (specification only) |
| `Spec_listen.v` | handlers that read a 32-bit counter some time after each edge (specification only) |
| `Spec_phys.v` | signals in real time, what a clock or a sampler sees of them (specification only: no code of the crate is involved) |
| `Spec_apps.v` | vocabulary for the example applications (dumps, rounds of the main loop, displacements) |
| `*_facts.v` | lemmas about the model |
| `Props_*.v` | the property theorems, `Print Assumptions` for each, and concrete examples |
| `Crate_tests.v` | the crate's own unit tests replayed on the model; these are tests of the model, not proofs of a property |

Every model definition cites the file and lines it transcribes.

## Trusted base

* Coq's kernel (including `vm_compute`, used for finite sweeps).
* What `Print Assumptions` prints for each theorem. It prints "Closed under the global context" for every theorem that
  `MANIFEST.json` names, so no axiom of the standard library is used either.
  `coqchk` also lists constants of `Coq.ssr.ssrunder`: they belong to a module signature of a standard library
  file that is loaded; no theorem here depends on them.
* The transcription of the Rust text into the model definitions (by reading, not by extraction).
* `Spec.v` and the theorem statements.

### Modelled

All of `src/` that computes something: time scaling, windows, the five decoders
(NEC with its five variants, RC5, RC6, Denon, SBP), the three encoders, all receivers,
the builder, the sender side and the remote-control tables. Two build parameters are explicit:
overflow checks (debug panics, release wraps) and the width of `usize` (16, 32, 64).
Of `examples/`: the dump reader, the periodic sender, the mouse, the media keyboard, the event-driven receiver,
the polled receiver, the multi receiver, the two tutorials, the Raspberry Pi Pico receiver and the two Arduino receivers, from the point where the hardware is set up; interrupt handlers and rounds of the main loop are atomic steps
that may come in any order.

### Not modelled, or simplified

* `fugit` is an external crate: its `micros()` and `checked_duration_since` are parameters of the
  time base `MFugit`; theorems that use it state what they need (`micros p` = floor(p*freq/10^6)).
* Pins: an `InputPin` read is an input value (`Ok level` or an error); the PWM pin is the list of
  levels it is set to. Pin accessors (`pin`, `pin_mut`, `release`) move a value and are left out.
* Const generics (`F`, `S`, `N`) become arguments; a `const` whose evaluation overflows is a
  compile error and is modelled by `None`.
* Tuples of receivers become lists. Fixed arrays become lists.
* Logging (`trace!`, `defmt`), `Debug` formatting, feature gates, `MODEL`/`DEVTYPE` constants, the
  `rc6` remote module (empty) and the accessor `spans()` are not modelled.
* Loops become structural recursion; the only fuelled loop (`scale_with_samplerate`) is proved never
  to run out of fuel.
* Of the examples: hardware set-up, USB, task spawning, file access and the external `vcd` parser (its
  items are the input).
* In the USB examples a spawned task has run before the next edge, and `fugit`'s differences are written out in
  `Apps.v` (`fugit_u32`, `fugit_u64`: wrap-around difference, `None` from half of the range on). `MonoTimer::elapsed` of the
  event-driven example is the wrap-around difference of two readings.
* Memory, stack use and real time (how long `event` takes) are not modelled.

## How the properties are stated

* An *edge* is `(rising, dt)`: a mark begins (`true`) or ends (`false`), `dt` ticks after the previous edge.
* `near freq p t d`: the duration `d` deviates by at most `t` percent from the nominal number of ticks
  of `p` microseconds at `freq`.
* Frames are described as lists of marks/spaces (pulse-distance protocols) or as half-bit levels turned
  into run lengths (biphase protocols), with arbitrary jitter within `near`.
* Receiver theorems start from a freshly built receiver followed by *any* history of edges.
* `timebase m freq`: `m` is `u32`, `u64` or a fugit time base ticking at `freq`.

Where the code does not satisfy the natural property, the manifest says `partial`: a theorem
`..._refuted` exhibits the failing case and a `..._partial` theorem (or a theorem with the needed
restriction spelled out) proves what does hold.

## Plan per property

Codecs
* C01-C03, C05-C07: bit-level lemmas over `N` (`testbit` extensionality or arithmetic by `lia`).
* C04: refuted (page is shifted out of the `u8`); the restriction to equal pages is proved.
* C08: case analysis. C09: refuted (truncation, out-of-field RC5 values); in-range part proved; `Props_create.v`: exactly which values survive, and exactly which commands share an AnyCommand.
* C10: injectivity proved for NEC, Samsung, RC6, Denon and across protocols; refuted for RC5 (start bits), SBP (valid), Apple.
* C11: finite.

Timing
* C12: case split on the three overflow regimes. C13, C14: from C12 by arithmetic. `Spec_rate.v` lists the rates that are converted without loss, `Rate_facts.v` proves it.
* C15: arithmetic for large rates, verified sweep by computation for the small ones.
* C16: interval reasoning. C17: refuted: padding windows are all `[0,0]`.

Decoding and soundness
* C18-C22: invariant "after any history the receiver is idle or receiving", the gap forces idle, then
  induction over the bits of the frame. C23: refuted (bit 47 dropped, old bits ORed in after an abort);
  proved with the restriction.
* C24-C26: encoder output is a jitter-free frame; `near` holds for every `F` above the threshold; C26 refuted at 20 kHz, proved at the rates of C87.
* C27, C31-C34: invariant relating the decoder state to the suffix of the history.
* C28 from C18 and the repeat window. C29 refuted; `C29_*_exact_partial` says what is reported instead. C30 refuted for NEC/Samsung/Nec16, proved for Apple; `C30_*_exact_partial` says what is reported for any word.

State machine
* C35: proved for NEC and Denon, refuted for RC5/RC6/SBP. C36: case analysis and induction.
* C37: measure on the state. C38: refuted (square wave with odd clock).
* C39: bound on sums. C40: refuted in debug builds; proved in release and for histories shorter than the counter allows.
* C41: simulation. C42: proved for NEC/SBP, refuted for RC5/RC6/Denon.
* C43: proved for RC5, RC6, SBP, Denon; NEC differs by repeat codes only.

Receivers (generic over the decoder)
* C44, C46-C49, C51: induction over the history, for an arbitrary decoder. C45: refuted.
* C48: refuted in full (an error or unparseable frame ends the iteration), proved up to that point; for AppleNec the raw receiver on the same edges tells where frames end. C50: induction over the calls.

Sender and remotes
* C52-C54: induction over the encoder loops. C55: refuted (`unimplemented!()`); `C55_apple_exact_partial` has it for every command, buffer and rate.
* C56-C58: induction over ticks. C59: refuted (entries past the command are sent); `Props_tail.v` says what the pin shows after the frame when the buffer is larger.
* C60: C56 + C47 + C24/C25. C61-C65: finite tables by computation plus the codec/round-trip theorems. C63: refuted.

Several protocols, real time
* C66, C67: from the soundness theorems plus the separation of the windows of different protocols; induction over the series. The edge that ends a transmission's last mark comes after the report; for RC5 and RC6 the decoder has just been reset.
* C68: the reading of a clock turns a real signal into a frame with a little more jitter; then C18-C23. C69: a sampler is such a clock; then C47.

Example applications
* C70: induction over the dump, then C44/C45 and C19. C71: one period by C56, induction over periods; heard by C21 and C47.
* C72: induction over the repeats. C73: refuted. C74: refuted for two commands per round; the rest by induction over the rounds.
* C75: induction over presses and repeat codes on the idle state of the decoder (the buffer keeps the last word), with the slack computation of C68 for twice the error.
* C76: the latency of the handlers is an error of each interval, so C75 applies to every part without a long pause; the pauses are taken modulo the counter's range and shown to end in the idle state.
* C77: the same for one reading per edge; then C72 and the tables of the two examples over the list of keys.
* C78: the samples of an alternating signal give the receiver the edges with at most one sampling period of error each (C47), so C75 applies without a limit on the total time.
* C79: the same for RC5 and RC6: each frame is decoded from any state (C21, C22) and leaves the receiver idle; the closing edge of a last mark changes nothing.
* C80: C67 for the six columns of the rows the multi receiver returns. Apple and NEC decoders share their timing and so run through the same states: where the Apple slot reports, the NEC slot reports at the same edge, which fixes the order of the lines. Pauses are cut to 32 bits as in C76. No panic: RC5 and RC6 clocks stay bounded in traffic because each pause resets them.
* C81: two runs side by side. The decoders agree in all but the saved mark, and the saved marks are equal or both longer than 15 ms; the windows of no table reach 15 ms, so that a total with a long part matches nothing.
* C82: the 64-bit timestamps give intervals with an error of less than 70 ticks (C45); by C81 all intervals above a second can be replaced by a second, then C75 applies.
* C83: one round of the program at a time. The left-overs of RC5 are at most 13 edges, and a report needs 14; those of RC6 contain no pulse as long as the leading one; entries not used yet give edges one tick apart, which no table matches. The pause before the next frame puts every decoder back to its start.
* C84: real time in units of 1/G second. An edge set by a tick comes at most the delay of that tick after the point where it is due; PulsedataSender measures from the edge before, so delays do not add up within a pulse. With the rounding of the entries every period stays within 3 percent, which C68 accepts from any other clock.
* C85: sampling turns the signal into one read by the clock that counts samples (C69), so a poller sees traffic in the sense of C67; the first silence can only appear longer. C67 asks for bit marks within 12 percent, leading marks within 8.
* C86: `Spec_held.v` adds repeat codes to the series of C67. A key press with its repeat codes is heard the same after any history: for the receiver's own family because the decoder keeps the word of the last frame while it is idle, for the others by C66.
* C87: `rc6_rate` in `Spec.v` lists the rates. At a rate in the list all lookups of the frame's intervals are right; at any other the leader is below the window of six units or inside that of five, which is searched first, and no other interval is long enough, so the receiver never leaves its two waiting states.
* C88: `Spec_grammar.v` says how a signal is cut into phrases and what is heard of each. `Grammar_facts.v` relates the decoder's states to how much of a phrase has been read (at the rates of `Spec_rate.v`, among them all up to 318 kHz and 1 MHz, the windows are exactly those of the percentages), shows that every sequence of signs can be cut, and that the state machine hears a phrase as stated. `Props_grammar.v` has one theorem for each protocol and what follows for the repeat codes of C29.
* C89: `Spec_biread.v` says how a signal is read as biphase frames (counts of units, sampled edges, the places of an RC6 frame). `Biread_facts.v` shows that every signal has a reading and follows the decoders through one; only the parity of the decoder's clock is tied to the counts, so that the clock may wrap in release builds. `Props_biread.v` has the two theorems.
* C88, C89: `Props_unique.v` shows that a signal has only one reading: phrases delimit themselves and signs exclude each other; for RC5 and RC6 from the determinism of the decoder.
* C40, C89: `Props_stretch.v` replaces the bound on the length of the signal by one on the stretches of countable intervals: the clock never exceeds the units since the last uncountable one.
* C40, C89: `Spec_overflow.v` describes the signals on which the units reach the range of `usize`, without mention of the decoder; `Props_overflow.v` shows that a build with overflow checks panics on these and on no others.
* C36: `Props_finished.v` says exactly how long a finished RC5 or RC6 decoder stays finished, in the words of `Spec_biread.v`: up to the first interval that cannot be counted.
* C38: `Spec_inside.v` says which signals end inside a frame; `Props_inside.v` shows that the receiver reports `Receiving` at the last edge of these and of no others. What is missing for C38 itself is false: such signals can be continued for ever.
* C39: `Props_sums.v` shows that a mark and a space whose sum does not fit are the only cause of a panic, whatever the state of the decoder, for signals that do not rise twice in a row (needed for Samsung BluRay only).
* C90: C88 and C89 carried over to the poller with C47 and to buffers with C48; `Props_anywhere.v`.
* C91: C49 (the parts are independent) with C88 and C89 for each part.
* C92: `session` (Spec_calls.v) keeps the levels still to be shown instead of position,
  status, counter and time stamp; C56-C59 are about one load, this is about any sequence
  of calls.
* C93: `Spec_bands.v` lists the rates. Up to 1 kHz by computing all 1001 of them, above by linear
  arithmetic for each kHz. At the other rates the frame of one word is read with every combination of
  signs (NEC) or counts (RC5) its lengths can have, and the word never comes out.
* C94: `Spec_pauses.v` describes frames in a row and, by induction over the series, what is reported.
  Only outcomes other than "nothing yet" are listed (`loud`). The pulse-distance protocols follow from
  C88, RC5 and RC6 from the frame lemmas of C21 and C22 started in the idle state.
* C95: `Spec_damage.v` says what is left of a signal when pulses go unnoticed (`misses`). In terms of
  periods, neighbours are added up; a frame then has too few periods (`Damage_facts.v`). The
  theorems follow from the soundness theorems (C27, C31, C32, C34); for RC5 an interval with a lost
  pulse counts as three half-bits or more, which no RC5 bit contains. An RC6 receiver skips over lost
  edges; `Damage6_facts.v` keeps track of the clock of the decoder and the place in the frame: whoever
  skips a bit runs out of edges before the last bit, or waits for an edge that the frame does not have.
* C96: `Spec_glitch.v` says what becomes of marks with drop-outs (`dropouts`) and of intervals with
  short disturbances (`glitches`). The first piece of an interrupted mark is shorter than any bit,
  and it comes before the last bit is complete; a header may be read from the last piece of its mark
  (`Glitchd_facts.v`). For RC5 nothing that is read contains a disturbance,
  so what is read has at most the half-bits of the frame, and needs all of them (`Glitch_facts.v`).
  An RC6 receiver starts anew after a disturbance and then waits for a leader, which no other interval
  of the frame resembles; up to there it has read the frame, the last interval shortened (`Glitch6_facts.v`).
* C97: `Spec_air.v` says that a pin is off for good after n ticks (`off_after`) and adds up the pulses of
  a NEC frame by its number of ones (`nec_air`). The levels of the pin are those of C56, the
  pulses those of C52 to C54; a byte and its complement have eight ones together.
* C98: `Spec_invert.v` exchanges the directions of all edges. In the protocols with pulse distances
  the periods become a space and the mark after it, and none is as long as a header or a repeat
  code (from C27, C31, C34). An RC5 command takes 26 half-bits, which leaves one place
  where it can start; there the edges between equal bits are read. In RC6 no mark is a leader.
* C99: `Spec_join.v` says what a receiver sees that misses the beginning of a signal. No period that
  is left is as long as a header or a repeat code (from C27, C31, C34), no RC6 mark is as long as
  a leader, and of an RC5 frame fewer half-bits are left than a command takes. `C99_multi` does it for
  all pairs of transmission and receiver and adds C49.
* C100: `Spec_broken.v` describes a series as in C67 in which some transmissions break off. On the
  whole transmission nothing but its last edge can report a command (C18 to C22, C66), so a beginning
  of it reports none. A mark that is cut short cannot complete an RC5 or RC6 command, because too
  few half-bits have passed.
  For Denon the argument is that of C67: a beginning of another protocol's transmission has no
  period like the start of a Denon frame.
  `Spec_brokenreal.v` has the series in real time; a broken transmission is measured as the beginning
  of the measured whole one, because the clock is a function of time.
  `Props_brokenpoll.v` does it for pollers, whose clock is the number of polls (as C85).
