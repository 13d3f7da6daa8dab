(** * Model of [src/protocol/nec/*.rs] *)
From Verif Require Export Machine Time Decoder.

(** ** Timing: src/protocol/nec/mod.rs:60-93 *)

(** src/protocol/nec/mod.rs:80-93, [NecPulseLen] (microseconds). *)
Record nec_pulse_len := mkPulseLen {
  header_high : N; header_low : N; repeat_low : N;
  data_high : N; data_zero_low : N; data_one_low : N
}.

(** src/protocol/nec/mod.rs:60-67. *)
Definition NEC_STANDARD_TIMING : nec_pulse_len :=
  {| header_high := 9000; header_low := 4500; repeat_low := 2250;
     data_high := 560; data_zero_low := 560; data_one_low := 1690 |}.

(** src/protocol/nec/mod.rs:69-76. *)
Definition NEC_SAMSUNG_TIMING : nec_pulse_len :=
  {| header_high := 4500; header_low := 4500; repeat_low := 2250;
     data_high := 560; data_zero_low := 560; data_one_low := 1690 |}.

(** src/protocol/nec/mod.rs:47-58, [NecCommandVariant].  [pack] returns in [res]
    because the Apple variant's is [unimplemented!()]. *)
Record nec_variant := mkVariant {
  nv_cmd : Type;
  nv_timing : nec_pulse_len;
  nv_validate : N -> bool;
  nv_unpack : N -> bool -> option nv_cmd;
  nv_pack : nv_cmd -> res N
}.

(** ** Standard: src/protocol/nec/standard.rs *)

(** src/protocol/nec/standard.rs:11-15. *)
Record nec_command := mkNec { nec_addr : N; nec_cmd : N; nec_repeat : bool }.

(** src/protocol/nec/standard.rs:20-22. *)
Definition nec_validate (bits : N) : bool :=
  (N.land (N.lxor (N.shiftr bits 24) (N.shiftr bits 16)) 255 =? 255) &&
  (N.land (N.lxor (N.shiftr bits 8) bits) 255 =? 255).

(** src/protocol/nec/standard.rs:24-29. *)
Definition nec_unpack (bits : N) (rep : bool) : option nec_command :=
  let addr := as_u8 (N.land bits 255) in
  let cmd := as_u8 (N.land (N.shiftr bits 16) 255) in
  Some (mkNec addr cmd rep).

(** src/protocol/nec/standard.rs:31-35.  The [<<] on [u32] keeps the low 32 bits;
    the shifted values here are bytes, shifted by at most 24. *)
Definition nec_pack (c : nec_command) : res N :=
  let addr := N.lor (nec_addr c) (N.shiftl (N.land (not_u8 (nec_addr c)) 255) 8) in
  let cmd := N.lor (N.shiftl (nec_cmd c) 16) (N.shiftl (not_u8 (nec_cmd c)) 24) in
  Val (N.lor addr cmd).

(** src/protocol/nec/standard.rs:17-36, [NecCommandVariant for NecCommand]. *)
Definition NecStandard : nec_variant :=
  mkVariant nec_command NEC_STANDARD_TIMING nec_validate nec_unpack nec_pack.

(** src/protocol/nec/standard.rs:38-62.  [addr as u8] truncates. *)
Definition nec_ac : address_command nec_command :=
  mkAC _ PNec nec_repeat nec_addr nec_cmd
    (fun addr cmd => Some (mkNec (as_u8 addr) (as_u8 cmd) false)).

(** ** Samsung: src/protocol/nec/samsung.rs *)

(** src/protocol/nec/samsung.rs:11-15. *)
Record samsung_command := mkSamsung { sam_addr : N; sam_cmd : N; sam_repeat : bool }.

(** src/protocol/nec/samsung.rs:20-22. *)
Definition samsung_validate (bits : N) : bool :=
  (N.land (N.lxor (N.shiftr bits 24) (N.shiftr bits 16)) 255 =? 255) &&
  (N.land (N.lxor (N.shiftr bits 8) bits) 255 =? 0).

(** src/protocol/nec/samsung.rs:24-28. *)
Definition samsung_unpack (bits : N) (rep : bool) : option samsung_command :=
  let addr := as_u8 (N.land bits 255) in
  let cmd := as_u8 (N.land (N.shiftr bits 16) 255) in
  Some (mkSamsung addr cmd rep).

(** src/protocol/nec/samsung.rs:30-34. *)
Definition samsung_pack (c : samsung_command) : res N :=
  let addr := N.lor (sam_addr c) (N.shiftl (sam_addr c) 8) in
  let cmd := N.lor (N.shiftl (sam_cmd c) 16) (N.shiftl (not_u8 (sam_cmd c)) 24) in
  Val (N.lor addr cmd).

(** src/protocol/nec/samsung.rs:17-35, [NecCommandVariant for SamsungNecCommand]. *)
Definition NecSamsung : nec_variant :=
  mkVariant samsung_command NEC_SAMSUNG_TIMING samsung_validate samsung_unpack samsung_pack.

(** src/protocol/nec/samsung.rs:37-61. *)
Definition samsung_ac : address_command samsung_command :=
  mkAC _ PNecSamsung sam_repeat sam_addr sam_cmd
    (fun addr cmd => Some (mkSamsung (as_u8 addr) (as_u8 cmd) false)).

(** ** Nec16: src/protocol/nec/nec16.rs *)

(** src/protocol/nec/nec16.rs:8-12. *)
Record nec16_command := mkNec16 { n16_addr : N; n16_cmd : N; n16_repeat : bool }.

(** src/protocol/nec/nec16.rs:17-19. *)
Definition nec16_validate (bits : N) : bool :=
  N.land (N.lxor (N.shiftr bits 24) (N.shiftr bits 16)) 255 =? 255.

(** src/protocol/nec/nec16.rs:21-26. *)
Definition nec16_unpack (bits : N) (rep : bool) : option nec16_command :=
  let addr := as_u16 (N.land bits 65535) in
  let cmd := as_u8 (N.land (N.shiftr bits 16) 255) in
  Some (mkNec16 addr cmd rep).

(** src/protocol/nec/nec16.rs:28-32. *)
Definition nec16_pack (c : nec16_command) : res N :=
  let cmd := N.lor (N.shiftl (n16_cmd c) 16) (N.shiftl (not_u8 (n16_cmd c)) 24) in
  Val (N.lor (n16_addr c) cmd).

(** src/protocol/nec/nec16.rs:14-33, [NecCommandVariant for Nec16Command]. *)
Definition Nec16Bit : nec_variant :=
  mkVariant nec16_command NEC_STANDARD_TIMING nec16_validate nec16_unpack nec16_pack.

(** ** Debug/raw: src/protocol/nec/raw.rs *)

(** src/protocol/nec/raw.rs:8-10. *)
Record nec_debug_cmd := mkNecDebug { dbg_bits : N }.

(** src/protocol/nec/raw.rs:15-25. *)
Definition NecRaw : nec_variant :=
  mkVariant nec_debug_cmd NEC_STANDARD_TIMING
    (fun _ => true)
    (fun bits _ => Some (mkNecDebug bits))
    (fun c => Val (dbg_bits c)).

(** ** Apple: src/protocol/nec/apple.rs *)

(** src/protocol/nec/apple.rs:11-16. *)
Record apple_command := mkApple {
  apl_page : N; apl_command : N; apl_device : N; apl_repeat : bool }.

(** [u32::count_ones] of src/protocol/nec/apple.rs:27: number of set bits among the low 32. *)
Definition count_ones32 (bits : N) : N :=
  fold_right (fun i acc => N.b2n (N.testbit bits (N.of_nat i)) + acc) 0 (seq 0 32).

(** src/protocol/nec/apple.rs:21-28. *)
Definition apple_validate (bits : N) : bool :=
  let vendor := as_u16 (N.land (N.shiftr bits 5) 2047) in
  (vendor =? 1087) && (N.land (count_ones32 bits) 1 =? 1).

(** src/protocol/nec/apple.rs:30-52. *)
Definition apple_unpack (bits : N) (rep : bool) : option apple_command :=
  if negb (apple_validate bits) then None
  else
    let page := as_u8 (N.land bits 31) in
    let command := as_u8 (N.land (N.shiftr bits 17) 127) in
    let device := as_u8 (N.land (N.shiftr bits 24) 255) in
    Some (mkApple page command device rep).

(** src/protocol/nec/apple.rs:54-56: [unimplemented!()]. *)
Definition apple_pack (_ : apple_command) : res N := Panic.

(** src/protocol/nec/apple.rs:18-57, [NecCommandVariant for AppleNecCommand]. *)
Definition NecApple : nec_variant :=
  mkVariant apple_command NEC_STANDARD_TIMING apple_validate apple_unpack apple_pack.

(** src/protocol/nec/apple.rs:59-79.  [self.command_page << 7] is a [u8] shift:
    bits shifted out of the byte are lost. *)
Definition apple_ac : address_command apple_command :=
  mkAC _ PNecApple apl_repeat (fun _ => 0)
    (fun c => N.lor (as_u8 (N.shiftl (apl_page c) 7)) (apl_command c))
    (fun _ _ => None).

(** ** Decoder: src/protocol/nec/decoder.rs *)

(** src/protocol/nec/decoder.rs:14-27, [pulselens] zipped with [TOL]. *)
Definition nec_pulses (t : nec_pulse_len) : list (N * N) :=
  [ (header_high t + header_low t, 7);
    (header_high t + repeat_low t, 7);
    (data_high t + data_zero_low t, 25);
    (data_high t + data_one_low t, 12);
    (0, 0); (0, 0); (0, 0); (0, 0) ].

(** src/protocol/nec/decoder.rs:59-70, [NecState]. *)
Inductive nec_state :=
| NInit | NReceiving (bit : N) | NDone | NRepeatDone | NErr (e : decoding_error).

(** src/protocol/nec/decoder.rs:72-82. *)
Definition nec_to_state (s : nec_state) : state :=
  match s with
  | NInit => Idle
  | NDone | NRepeatDone => Done
  | NErr e => Error e
  | NReceiving _ => Receiving
  end.

(** src/protocol/nec/decoder.rs:156-174, [PulseWidth] and [From<usize>]. *)
Inductive nec_pw := PSync | PRepeat | PZero | POne | PInvalid.
(** src/protocol/nec/decoder.rs:164-174, [From<usize> for PulseWidth]. *)
Definition nec_pw_from (v : N) : nec_pw :=
  match v with 0 => PSync | 1 => PRepeat | 2 => PZero | 3 => POne | _ => PInvalid end.

(** src/protocol/nec/decoder.rs:43-54, [NecDecoder]. *)
Record nec_decoder := mkNecDec {
  ns_state : nec_state; ns_bitbuf : N; ns_dt_save : N; ns_spans : list span }.

(** src/protocol/nec/decoder.rs:32-40, [build]. *)
Definition nec_build (b : build) (m : mono) (V : nec_variant) (freq : N) : res nec_decoder :=
  let* ss := pulse_spans_new b m freq (nec_pulses (nv_timing V)) in
  Val (mkNecDec NInit 0 0 ss).

(** src/protocol/nec/decoder.rs:102-116: the [match (self.state, pulsewidth)],
    returning the new bit buffer and the new state. *)
Definition nec_transition (b : build) (st : nec_state) (buf : N) (pw : nec_pw)
  : res (N * nec_state) :=
  let chk := overflow_checks b in
  match st, pw with
  | NInit, PSync => Val (0, NReceiving 0)
  | NInit, PRepeat => Val (buf, NRepeatDone)
  | NInit, _ => Val (buf, NInit)
  | NReceiving bit, POne =>
      if bit =? 31
      then let* m := ushl1 chk 32 31 in Val (N.lor buf m, NDone)
      else let* m := ushl1 chk 32 bit in
           let* nb := uadd chk 32 bit 1 in
           Val (N.lor buf m, NReceiving nb)
  | NReceiving bit, PZero =>
      if bit =? 31
      then Val (buf, NDone)
      else let* nb := uadd chk 32 bit 1 in Val (buf, NReceiving nb)
  | NReceiving _, _ => Val (buf, NErr EData)
  | NDone, _ => Val (buf, NDone)
  | NRepeatDone, _ => Val (buf, NRepeatDone)
  | NErr e, _ => Val (buf, NErr e)
  end.

(** src/protocol/nec/decoder.rs:90-134, [event].  The [trace!] call has no
    effect on the state. *)
Definition nec_event (b : build) (m : mono) (d : nec_decoder) (rising : bool) (dur : N)
  : res (nec_decoder * state) :=
  if rising then
    let* total := dur_add b m dur (ns_dt_save d) in
    let pw := match spans_get (ns_spans d) total with
              | Some i => nec_pw_from i
              | None => PInvalid
              end in
    let* (buf, st) := nec_transition b (ns_state d) (ns_bitbuf d) pw in
    Val (mkNecDec st buf 0 (ns_spans d), nec_to_state st)
  else
    Val (mkNecDec (ns_state d) (ns_bitbuf d) dur (ns_spans d), nec_to_state (ns_state d)).

(** src/protocol/nec/decoder.rs:136-142, [command]. *)
Definition nec_command_of (V : nec_variant) (d : nec_decoder) : option (nv_cmd V) :=
  match ns_state d with
  | NDone => nv_unpack V (ns_bitbuf d) false
  | NRepeatDone => nv_unpack V (ns_bitbuf d) true
  | _ => None
  end.

(** src/protocol/nec/decoder.rs:144-147, [reset]: the bit buffer is kept. *)
Definition nec_reset (d : nec_decoder) : nec_decoder :=
  mkNecDec NInit (ns_bitbuf d) 0 (ns_spans d).

(** src/protocol/nec/decoder.rs:84-152, [ProtocolDecoder for NecDecoder]. *)
Definition nec_dec (b : build) (m : mono) (V : nec_variant) : decoder :=
  mkDecoder nec_decoder (nv_cmd V) (nec_event b m) (nec_command_of V) nec_reset.

(** ** Encoder: src/protocol/nec/encoder.rs *)

(** src/protocol/nec/encoder.rs:6-16, [calc_ticks].  Evaluated in a [const], so
    an overflow of [f * l] is a compile-time error in every profile: [None]. *)
Definition calc_ticks (l f : N) : option N :=
  let '(f', div) := if 1000 <? f then (f / 1000, 1000) else (f, 1000000) in
  if f' * l <? 2 ^ 32 then Some (f' * l / div) else None.

(** src/protocol/nec/encoder.rs:23-30, [DATA]. *)
Definition nec_data (t : nec_pulse_len) (F : N) : option (N * N * N * N * N * N) :=
  match calc_ticks (header_high t) F, calc_ticks (header_low t) F,
        calc_ticks (repeat_low t) F, calc_ticks (data_high t) F,
        calc_ticks (data_zero_low t) F, calc_ticks (data_one_low t) F with
  | Some a, Some b, Some c, Some d, Some e, Some f => Some (a, b, c, d, e, f)
  | _, _, _, _, _, _ => None
  end.

(** src/protocol/nec/encoder.rs:41-50, the [for i in 0..32] loop: writes
    [b[bi]], [b[bi+1]] and advances [bi] by 2. *)
Fixpoint nec_encode_bits (bits dh dz d1 : N) (is : list nat) (b : list N) (bi : nat)
  : res (list N * nat) :=
  match is with
  | [] => Val (b, bi)
  | i :: rest =>
      let one := negb (N.land (N.shiftr bits (N.of_nat i)) 1 =? 0) in
      let* b1 := slice_set b bi dh in
      let* b2 := slice_set b1 (bi + 1) (if one then d1 else dz) in
      nec_encode_bits bits dh dz d1 rest b2 (bi + 2)
  end.

(** src/protocol/nec/encoder.rs:32-53, [encode]: returns the updated buffer and
    the number of entries written. *)
Definition nec_encode (V : nec_variant) (data : N * N * N * N * N * N)
    (cmd : nv_cmd V) (b : list N) : res (list N * nat) :=
  let '(hh, hl, _, dh, dz, d1) := data in
  let* b0 := slice_set b 0 0 in
  let* b1 := slice_set b0 1 hh in
  let* b2 := slice_set b1 2 hl in
  let* bits := nv_pack V cmd in
  nec_encode_bits bits dh dz d1 (seq 0 32) b2 3.
