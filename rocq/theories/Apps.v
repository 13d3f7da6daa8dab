(** * Model of the example applications (the parts that compute; no hardware set-up)

    [examples/vcd-parser/src/main.rs], [examples/bluepill/src/bin/sender.rs],
    [examples/bluepill/src/bin/mouse.rs], [examples/bluepill/src/bin/mediakeyboard.rs],
    [examples/bluepill/src/bin/receiver-event-driven.rs],
    [examples/bluepill/src/bin/receiver-polled.rs],
    [examples/bluepill/src/bin/multireceiver.rs],
    [examples/bluepill/src/bin/tutorial1a.rs], [examples/bluepill/src/bin/tutorial1b.rs],
    [examples/arduino_uno/src/bin/*.rs] *)
From Coq Require Import ZArith.
From Verif Require Export Machine Receiver Sender Remote Rc5 Rc6 Denon.
Open Scope N_scope.

(** ** examples/vcd-parser/src/main.rs *)

(** What the (external) [vcd] crate reads, as used in examples/vcd-parser/src/main.rs:28-50 and :72-78: scalar values,
    the commands the program looks at, the units of the time scale ([UOther]: seconds, ns, ps, fs). *)
Inductive vcd_value := V0 | V1 | VX | VZ.
(** examples/vcd-parser/src/main.rs:28-48, the commands matched. *)
Inductive vcd_command :=
| ChangeScalar (i : N) (v : vcd_value)
| Timestamp (ts : N)
| OtherCommand.
(** examples/vcd-parser/src/main.rs:72-78, the units matched. *)
Inductive vcd_unit := UMs | UUs | UOther.

(** examples/vcd-parser/src/main.rs:72-78: the sample rate; a division by zero panics. *)
Definition vcd_samplerate (scale : N) (unit : vcd_unit) : res N :=
  match unit with
  | UMs => if scale =? 0 then Panic else Val (1000 / scale)
  | UUs => if scale =? 0 then Panic else Val (1000000 / scale)
  | UOther => Panic
  end.

(** examples/vcd-parser/src/main.rs:35 and :39, what is printed for an event. *)
Inductive printed (C : Type) := PrintCmd (c : C) | PrintError (e : decoding_error).
Arguments PrintCmd {C} _.
Arguments PrintError {C} _.

Section Vcd.
  Context {D : decoder} {C : Type} (into : dcmd D -> C).

  (** examples/vcd-parser/src/main.rs:33-41, the inner [match]. *)
  Definition print_outcome (o : outcome C) : list (printed C) :=
    match o with
    | ROk (Some cmd) => [PrintCmd cmd]
    | ROk None => []
    | RErr err => [PrintError err]
    end.

  (** examples/vcd-parser/src/main.rs:28-50, the loop; [irdata] is the code of the wire.  An item that cannot be parsed
      ends the program ([false]). *)
  Fixpoint vcd_loop (irdata : N) (r : receiver D) (clock : N) (parser : list (option vcd_command))
    : res (list (printed C) * bool) :=
    match parser with
    | [] => Val ([], true)
    | None :: _ => Val ([], false)
    | Some (ChangeScalar i v) :: rest =>
        if i =? irdata then
          let edge := match v with V1 => true | _ => false end in
          let* (r1, o) := event_instant into MU64 r clock edge in
          let* (ps, ok) := vcd_loop irdata r1 clock rest in
          Val (print_outcome o ++ ps, ok)
        else vcd_loop irdata r clock rest
    | Some (Timestamp ts) :: rest => vcd_loop irdata r ts rest
    | Some OtherCommand :: rest => vcd_loop irdata r clock rest
    end.
End Vcd.

(** examples/vcd-parser/src/main.rs:16-50, the program from the time scale on. *)
Definition vcd_main (b : build) (scale : N) (unit : vcd_unit) (irdata : N) (parser : list (option vcd_command))
  : res (list (printed samsung_command) * bool) :=
  let* resolution := vcd_samplerate scale unit in
  let* r := receiver_new (nec_protocol b MU64 NecSamsung) resolution in
  vcd_loop (D := nec_dec b MU64 NecSamsung) (fun c => c) irdata r 0 parser.

(** ** examples/bluepill/src/bin/sender.rs *)

(** examples/bluepill/src/bin/sender.rs:19, [TIMER_FREQ]; :24, the size of the transmitter's buffer. *)
Definition TIMER_FREQ : N := 20000.
(** examples/bluepill/src/bin/sender.rs:24. *)
Definition TRANSMITTER_SIZE : nat := 128.

(** examples/bluepill/src/bin/sender.rs:78, [COUNTER], and the transmitter. *)
Record sender_app := mkApp { app_counter : N; app_transmitter : hal_sender }.

(** examples/bluepill/src/bin/sender.rs:60-64. *)
Definition sender_app_new : sender_app := mkApp 0 (hs_new TRANSMITTER_SIZE).

(** examples/bluepill/src/bin/sender.rs:76-97, the interrupt handler [TIM2]; the level is what the pin is set to. *)
Definition tim2 (b : build) (s : sender_app) : res (sender_app * bool) :=
  let counter := wrapping_add32 (app_counter s) 1 in
  let '(t1, level) := hs_tick (app_transmitter s) in
  if counter =? TIMER_FREQ * 2 then
    match rm_encode CdPlayer A_Next, rc5_calc_freq 20000 with
    | Some cmd, Some l =>
        let* t2 := hs_load (mkEncoder rc5_command (rc5_encode b l)) t1 cmd in
        Val (mkApp 0 t2, level)
    | _, _ => Panic
    end
  else Val (mkApp counter t1, level).

(** [n] interrupts of examples/bluepill/src/bin/sender.rs:76-97. *)
Fixpoint tim2s (b : build) (n : nat) (s : sender_app) : res (sender_app * list bool) :=
  match n with
  | O => Val (s, [])
  | S k => let* (s1, l) := tim2 b s in
           let* (s2, ls) := tim2s b k s1 in Val (s2, l :: ls)
  end.

(** ** examples/bluepill/src/bin/mouse.rs *)

(** The fields of (external) [MouseReport] that examples/bluepill/src/bin/mouse.rs:180-210 sets: a byte and
    two [i8]. *)
Record mouse_report := mkReport { mr_buttons : N; mr_x : Z; mr_y : Z }.

(** examples/bluepill/src/bin/mouse.rs:180-210, [button_to_mousereport]; [wheel] and [pan] are always 0. *)
Definition button_to_mousereport (a : action) (repeats : N) : mouse_report :=
  let steps := if repeats <=? 6 then Z.shiftl 1 (Z.of_N repeats) else 64%Z in
  match a with
  | A_Play_Pause => mkReport (if repeats =? 0 then 1 else 0) 0 0
  | A_Up => mkReport 0 0 (- steps)
  | A_Down => mkReport 0 0 steps
  | A_Right => mkReport 0 steps 0
  | A_Left => mkReport 0 (- steps) 0
  | _ => mkReport 0 0 0
  end.

(** examples/bluepill/src/bin/mouse.rs:132-149, the task [process_ir_cmd]: the counter of repeats ([u32]) and the report it
    sends, if any.  That the spawned task has room is not modelled. *)
Definition process_ir_cmd (b : build) (repeats : N) (x : button Apple2009) : res (N * option mouse_report) :=
  let r0 := if button_is_repeat x then repeats else 0 in
  let* r1 := uadd (overflow_checks b) 32 r0 1 in
  Val (r1, match btn_action x with
           | Some a => Some (button_to_mousereport a r1)
           | None => None
           end).

(** The time base of the two USB examples (examples/bluepill/src/bin/mouse.rs:30-50,
    examples/bluepill/src/bin/mediakeyboard.rs:29-50; external: fugit's [TimerInstantU32<HZ>]): 32 bits,
    [hz] ticks per second; [checked_duration_since] is the wrap-around difference, [None]
    from half of the range on. *)
Definition fugit_u32 (hz : N) : mono :=
  MFugit 32 (fun p => p * hz / 1000000)
    (fun t prev => let d := wrapping_sub32 t prev in if d <? 2 ^ 31 then Some d else None).

(** examples/bluepill/src/bin/mouse.rs:30, [MONOTIMER_FREQ]; :48-50 and :133, the receiver and the counter of repeats. *)
Definition MONOTIMER_FREQ : N := 100000.
(** examples/bluepill/src/bin/mouse.rs:48-50 and :133. *)
Record mouse_app (b : build) := mkMouse {
  mo_recv : receiver (nec_dec b (fugit_u32 MONOTIMER_FREQ) NecApple); mo_repeated : N }.
Arguments mkMouse {b} _ _.
Arguments mo_recv {b} _.
Arguments mo_repeated {b} _.

(** examples/bluepill/src/bin/mouse.rs:101, [with_fugit]. *)
Definition mouse_new (b : build) : res (mouse_app b) :=
  let* r := receiver_new (nec_protocol b (fugit_u32 MONOTIMER_FREQ) NecApple) MONOTIMER_FREQ in Val (mkMouse r 0).

(** examples/bluepill/src/bin/mouse.rs:119-130, the interrupt handler [ir_rx], with the task it spawns (:126; simplified: it
    has run before the next edge); whether the pin reads low, the time, the reports sent. *)
Definition mouse_irq {b} (s : mouse_app b) (x : bool * N) : res (mouse_app b * list mouse_report) :=
  let '(low, now) := x in
  let* (r1, o) := event_instant (D := nec_dec b (fugit_u32 MONOTIMER_FREQ) NecApple) (button_from Apple2009)
                    (fugit_u32 MONOTIMER_FREQ) (mo_recv s) now low in
  match o with
  | ROk (Some btn) =>
      let* (n, rep) := process_ir_cmd b (mo_repeated s) btn in
      Val (mkMouse r1 n, match rep with Some r => [r] | None => [] end)
  | _ => Val (mkMouse r1 (mo_repeated s), [])
  end.

(** ** examples/bluepill/src/bin/mediakeyboard.rs *)

(** The (external) media keys in use in examples/bluepill/src/bin/mediakeyboard.rs:185-195. *)
Inductive media_key := MPlayPause | MVolumeIncrement | MVolumeDecrement | MNextTrack | MPrevTrack | MStop | MZero.

(** examples/bluepill/src/bin/mediakeyboard.rs:185-195. *)
Definition action_to_mediakey (a : action) : media_key :=
  match a with
  | A_Play_Pause => MPlayPause
  | A_Up => MVolumeIncrement
  | A_Down => MVolumeDecrement
  | A_Right => MNextTrack
  | A_Left => MPrevTrack
  | A_Stop => MStop
  | _ => MZero
  end.

(** examples/bluepill/src/bin/mediakeyboard.rs:29, [TIM_FREQ]; :101: the receiver is made for 1 MHz, although the timer counts at
    [TIM_FREQ]. *)
Definition TIM_FREQ : N := 100000.
(** examples/bluepill/src/bin/mediakeyboard.rs:101. *)
Definition media_new (b : build) : res (receiver (nec_dec b (fugit_u32 TIM_FREQ) NecApple)) :=
  receiver_new (nec_protocol b (fugit_u32 TIM_FREQ) NecApple) 1000000.

(** examples/bluepill/src/bin/mediakeyboard.rs:129-144, the interrupt handler [ir_rx], with the tasks [keydown] (:146-151) and [keyup]
    (:153-158); returns the keys sent to the host.  That the tasks have room, and the 20 ms
    between the two, are not modelled. *)
Definition media_irq {b} (r : receiver (nec_dec b (fugit_u32 TIM_FREQ) NecApple)) (x : bool * N)
  : res (receiver (nec_dec b (fugit_u32 TIM_FREQ) NecApple) * list media_key) :=
  let '(low, now) := x in
  let* (r1, o) := event_instant (D := nec_dec b (fugit_u32 TIM_FREQ) NecApple) (button_from Apple2009)
                    (fugit_u32 TIM_FREQ) r now low in
  Val (r1, match o with
           | ROk (Some btn) => match btn_action btn with
                               | Some a => [action_to_mediakey a; MZero]
                               | None => []
                               end
           | _ => []
           end).

(** ** examples/bluepill/src/bin/receiver-event-driven.rs *)

(** examples/bluepill/src/bin/receiver-event-driven.rs:79, [LAST] (a reading of the 32-bit cycle counter), and the receiver (:28). *)
Record listener (D : decoder) := mkListener { ln_last : option N; ln_recv : receiver D }.
Arguments mkListener {D} _ _.
Arguments ln_last {D} _.
Arguments ln_recv {D} _.

(** examples/bluepill/src/bin/receiver-event-driven.rs:39-44 and :53-58: 48 MHz; the receiver's time type is the default [u32]. *)
Definition MONO_FREQ : N := 48000000.
(** examples/bluepill/src/bin/receiver-event-driven.rs:53-58. *)
Definition listener_new (b : build) : res (listener (nec_dec b MU32 NecApple)) :=
  let* r := receiver_new (nec_protocol b MU32 NecApple) MONO_FREQ in Val (mkListener None r).

(** examples/bluepill/src/bin/receiver-event-driven.rs:78-94, the interrupt handler [EXTI9_5].  Inputs: whether the pin reads low, the reading
    of the counter by [now] (:83), and the one by [elapsed] (:85), which subtracts the earlier
    reading with wrap-around (external: [stm32f1xx_hal::time::Instant]).  Output: the
    commands printed. *)
Definition exti9_5 {D C} (into : dcmd D -> C) (s : listener D) (x : bool * N * N) : res (listener D * list C) :=
  let '(low, now, later) := x in
  match ln_last s with
  | None => Val (mkListener (Some now) (ln_recv s), [])
  | Some i =>
      let* (r1, o) := event_edge into (ln_recv s) (wrapping_sub32 later i) low in
      Val (mkListener (Some now) r1, match o with ROk (Some cmd) => [cmd] | _ => [] end)
  end.

(** ** examples/bluepill/src/bin/multireceiver.rs *)

(** examples/bluepill/src/bin/multireceiver.rs:70, [LAST], and the receivers (:19). *)
Record multi_app := mkMultiApp { ma_last : option N; ma_slots : list slot }.

(** examples/bluepill/src/bin/multireceiver.rs:17, the protocols of [IrReceiver], with the default time type [u32]. *)
Definition multi_protocols (b : build) : list any_protocol_ :=
  [ mkAnyP (nec_protocol b MU32 NecSamsung) (any_from samsung_ac);
    mkAnyP (rc5_protocol b MU32) (any_from rc5_ac);
    mkAnyP (rc6_protocol b MU32) (any_from rc6_ac);
    mkAnyP (nec_protocol b MU32 NecApple) (any_from apple_ac);
    mkAnyP (nec_protocol b MU32 NecStandard) (any_from nec_ac);
    mkAnyP (denon_protocol b MU32) denon_any ].

(** examples/bluepill/src/bin/multireceiver.rs:31-36 and :45-48: 48 MHz. *)
Definition multi_app_new (b : build) : res multi_app :=
  let* ss := multi_make (multi_protocols b) MONO_FREQ in Val (mkMultiApp None ss).

(** examples/bluepill/src/bin/multireceiver.rs:68-88, the interrupt handler [EXTI9_5]; inputs as for [exti9_5].  Output: the commands
    printed. *)
Definition multi_exti (s : multi_app) (x : bool * N * N) : res (multi_app * list any_command) :=
  let '(low, now, later) := x in
  match ma_last s with
  | None => Val (mkMultiApp (Some now) (ma_slots s), [])
  | Some i =>
      let* (ss1, o) := multi_event_pin (E := Empty_set) (ma_slots s) (ROk low) (wrapping_sub32 later i) in
      Val (mkMultiApp (Some now) ss1, match o with ROk os => flatten_opts os | RErr _ => [] end)
  end.

(** ** examples/arduino_uno/src/bin/external-interrupt.rs *)

(** examples/arduino_uno/src/bin/external-interrupt.rs:41-46, the statics: the counter of [CLOCK], the receiver, the LEDs and the mailbox. *)
Record uno (b : build) := mkUno {
  un_clock : N; un_recv : receiver (nec_dec b MU32 NecStandard);
  un_led : bool; un_error : bool; un_cmd : option nec_command }.
Arguments mkUno {b} _ _ _ _ _.
Arguments un_clock {b} _.
Arguments un_recv {b} _.
Arguments un_led {b} _.
Arguments un_error {b} _.
Arguments un_cmd {b} _.

(** The steps (examples/arduino_uno/src/bin/external-interrupt.rs:85-127), each of
    which runs with interrupts disabled: the timer interrupt, the
    pin change interrupt with the reading of [is_low] (which cannot fail on this chip), a
    round of the main loop. *)
Inductive uno_step := UTimer | UPin (low : bool) | UMain.

(** examples/arduino_uno/src/bin/external-interrupt.rs:71, [Clock::FREQ] = 20000 (:134); the LEDs are off (:61-63). *)
Definition uno_new (b : build) : res (uno b) :=
  let* r := receiver_new (nec_protocol b MU32 NecStandard) 20000 in
  Val (mkUno 0 r false false None).

(** examples/arduino_uno/src/bin/external-interrupt.rs:124-127 and :158-165 (timer), :100-122 (pin change), :85-94 (main loop); returns the
    command printed, if any. *)
Definition uno_do {b} (u : uno b) (s : uno_step) : res (uno b * option nec_command) :=
  match s with
  | UTimer => Val (mkUno (wrapping_add32 (un_clock u) 1) (un_recv u) (un_led u) (un_error u) (un_cmd u), None)
  | UPin low =>
      let* (r1, o) := event_instant (D := nec_dec b MU32 NecStandard) (fun c => c) MU32 (un_recv u) (un_clock u) low in
      let '(err, cmd) := match o with
                         | ROk (Some c) => (false, Some c)
                         | ROk None => (un_error u, un_cmd u)
                         | RErr _ => (true, un_cmd u)
                         end in
      Val (mkUno (un_clock u) r1 (negb (un_led u)) err cmd, None)
  | UMain => Val (mkUno (un_clock u) (un_recv u) (un_led u) (un_error u) None, un_cmd u)
  end.

(** A run of the program examples/arduino_uno/src/bin/external-interrupt.rs (:85-127); what is printed. *)
Fixpoint uno_run {b} (u : uno b) (ss : list uno_step) : res (uno b * list nec_command) :=
  match ss with
  | [] => Val (u, [])
  | s :: rest =>
      let* (u1, o) := uno_do u s in
      let* (u2, ps) := uno_run u1 rest in
      Val (u2, match o with Some c => c :: ps | None => ps end)
  end.

(** ** examples/arduino_uno/src/bin/polled.rs *)

(** examples/arduino_uno/src/bin/polled.rs:41-43, the receiver and the mailbox. *)
Record uno_polled (b : build) := mkUnoP {
  up_recv : periodic_poll (nec_dec b MU32 NecStandard); up_cmd : option nec_command }.
Arguments mkUnoP {b} _ _.
Arguments up_recv {b} _.
Arguments up_cmd {b} _.

(** examples/arduino_uno/src/bin/polled.rs:78-116: the timer interrupt with the reading of [is_low], a
    round of the main loop. *)
Inductive uno_polled_step := PTimer (low : bool) | PMain.

(** examples/arduino_uno/src/bin/polled.rs:45, :65. *)
Definition uno_polled_new (b : build) : res (uno_polled b) :=
  let* p := poll_new (nec_protocol b MU32 NecStandard) 20000 in Val (mkUnoP p None).

(** examples/arduino_uno/src/bin/polled.rs:103-116 (timer), :78-87 (main loop). *)
Definition uno_polled_do {b} (u : uno_polled b) (s : uno_polled_step) : res (uno_polled b * option nec_command) :=
  match s with
  | PTimer low =>
      let* (p1, o) := poll_base (D := nec_dec b MU32 NecStandard) (fun c => c) (up_recv u) low in
      Val (mkUnoP p1 (match o with ROk (Some c) => Some c | _ => up_cmd u end), None)
  | PMain => Val (mkUnoP (up_recv u) None, up_cmd u)
  end.

(** A run of the program examples/arduino_uno/src/bin/polled.rs (:78-116); what is printed. *)
Fixpoint uno_polled_run {b} (u : uno_polled b) (ss : list uno_polled_step) : res (uno_polled b * list nec_command) :=
  match ss with
  | [] => Val (u, [])
  | s :: rest =>
      let* (u1, o) := uno_polled_do u s in
      let* (u2, ps) := uno_polled_run u1 rest in
      Val (u2, match o with Some c => c :: ps | None => ps end)
  end.

(** ** examples/bluepill/src/bin/receiver-polled.rs *)

(** examples/bluepill/src/bin/receiver-polled.rs:27, [SAMPLERATE]; :57, the receiver, that turns commands into [Button<Apple2009>] (:24). *)
Definition SAMPLERATE : N := 20000.
(** examples/bluepill/src/bin/receiver-polled.rs:24. *)
Definition polled_app (b : build) := periodic_poll (nec_dec b MU32 NecApple).
(** examples/bluepill/src/bin/receiver-polled.rs:57. *)
Definition polled_app_new (b : build) : res (polled_app b) := poll_new (nec_protocol b MU32 NecApple) SAMPLERATE.

(** examples/bluepill/src/bin/receiver-polled.rs:83-95, the lines the handler can print. *)
Inductive polled_line := LPlay | LPower | LButton (a : action) | LErr (e : decoding_error).

(** examples/bluepill/src/bin/receiver-polled.rs:77-100, the interrupt handler [TIM2], with the reading of [is_low]. *)
Definition polled_tim2 {b} (p : polled_app b) (low : bool) : res (polled_app b * list polled_line) :=
  let* (p1, o) := poll_base (D := nec_dec b MU32 NecApple) (button_from Apple2009) p low in
  Val (p1, match o with
           | ROk (Some c) => match btn_action c with
                             | Some A_Play_Pause => [LPlay]
                             | Some A_Power => [LPower]
                             | Some a => [LButton a]
                             | None => []
                             end
           | ROk None => []
           | RErr e => [LErr e]
           end).

(** ** examples/bluepill/src/bin/tutorial1a.rs and tutorial1b.rs *)

(** examples/bluepill/src/bin/tutorial1a.rs:17 and tutorial1b.rs:20, [TIMER_FREQ]; the receiver is made in
    tutorial1a.rs:48 and tutorial1b.rs:78. *)
Definition TUTORIAL_FREQ : N := 40000.
(** examples/bluepill/src/bin/tutorial1a.rs:48 and tutorial1b.rs:78. *)
Definition tutorial_app (b : build) := periodic_poll (rc6_dec b).
(** examples/bluepill/src/bin/tutorial1a.rs:48 and tutorial1b.rs:78. *)
Definition tutorial_new (b : build) : res (tutorial_app b) := poll_new (rc6_protocol b MU32) TUTORIAL_FREQ.

(** examples/bluepill/src/bin/tutorial1a.rs:72-76, the lines the handler can print. *)
Inductive line1a := L1a (addr cmd : N) | L1aErr (e : decoding_error).

(** examples/bluepill/src/bin/tutorial1a.rs:68-81, the interrupt handler [TIM2], with the reading of [is_low]. *)
Definition tutorial1a_tim2 {b} (p : tutorial_app b) (low : bool) : res (tutorial_app b * list line1a) :=
  let* (p1, o) := poll_base (D := rc6_dec b) (fun c => c) p low in
  Val (p1, match o with
           | ROk (Some c) => [L1a (rc6_addr c) (rc6_cmd c)]
           | ROk None => []
           | RErr e => [L1aErr e]
           end).

(** examples/bluepill/src/bin/tutorial1b.rs:32-54. *)
Definition Rc6Tv : remote := default_remote rc6_ac PRc6 0
  [ (1, A_One); (2, A_Two); (3, A_Three); (4, A_Four); (5, A_Five); (6, A_Six); (7, A_Seven);
    (8, A_Eight); (9, A_Nine); (12, A_Power); (76, A_VolumeUp); (77, A_VolumeDown); (60, A_Teletext) ].

(** examples/bluepill/src/bin/tutorial1b.rs:105-109, the lines the handler can print. *)
Inductive line1b := L1bTeletext | L1bPower | L1bCmd (c : button Rc6Tv).

(** examples/bluepill/src/bin/tutorial1b.rs:98-115, the interrupt handler [TIM2], with the reading of [is_low]. *)
Definition tutorial1b_tim2 {b} (p : tutorial_app b) (low : bool) : res (tutorial_app b * list line1b) :=
  let* (p1, o) := poll_base (D := rc6_dec b) (button_from Rc6Tv) p low in
  Val (p1, match o with
           | ROk (Some c) => match btn_action c with
                             | Some A_Teletext => [L1bTeletext]
                             | Some A_Power => [L1bPower]
                             | _ => [L1bCmd c]
                             end
           | _ => []
           end).

(** ** examples/rp-pico/src/bin/receiver-event-driven-rtic.rs *)

(** The time base of examples/rp-pico/src/bin/receiver-event-driven-rtic.rs:25-31 (external: fugit's
    [TimerInstantU64<HZ>]): as [fugit_u32] with 64 bits. *)
Definition fugit_u64 (hz : N) : mono :=
  MFugit 64 (fun p => p * hz / 1000000)
    (fun t prev => let d := (t + 2 ^ 64 - prev) mod 2 ^ 64 in if d <? 2 ^ 63 then Some d else None).

(** examples/rp-pico/src/bin/receiver-event-driven-rtic.rs:25-26, the (external) [Rp2040Monotonic] counts microseconds; :30-31 and :71,
    [with_fugit64]. *)
Definition PICO_HZ : N := 1000000.
(** examples/rp-pico/src/bin/receiver-event-driven-rtic.rs:30-31. *)
Definition pico_app (b : build) := receiver (nec_dec b (fugit_u64 PICO_HZ) NecApple).
(** examples/rp-pico/src/bin/receiver-event-driven-rtic.rs:71. *)
Definition pico_new (b : build) : res (pico_app b) :=
  receiver_new (nec_protocol b (fugit_u64 PICO_HZ) NecApple) PICO_HZ.

(** examples/rp-pico/src/bin/receiver-event-driven-rtic.rs:85-99, the interrupt handler [do_ir]: whether the pin reads low, the time; returns the
    commands printed.  Clearing the interrupt flags (:95-98) is not modelled. *)
Definition pico_irq {b} (r : pico_app b) (x : bool * N) : res (pico_app b * list apple_command) :=
  let '(low, now) := x in
  let* (r1, o) := event_instant (D := nec_dec b (fugit_u64 PICO_HZ) NecApple) (fun c => c) (fugit_u64 PICO_HZ) r now low in
  Val (r1, match o with ROk (Some c) => [c] | _ => [] end).
