(** * Model of [src/protocol/rc5/*.rs] *)
From Verif Require Export Machine Time Decoder.

(** src/protocol/rc5/mod.rs:17. *)
Definition ADDR_MASK : N := 1984.     (* 0b0000_0111_1100_0000 *)
(** src/protocol/rc5/mod.rs:18. *)
Definition CMD_MASK : N := 63.        (* 0b0000_0000_0011_1111 *)
(** src/protocol/rc5/mod.rs:19. *)
Definition START_MASK : N := 12288.   (* 0b0011_0000_0000_0000 *)
(** src/protocol/rc5/mod.rs:20. *)
Definition TOGGLE_MASK : N := 2048.   (* 0b0000_1000_0000_0000 *)
(** src/protocol/rc5/mod.rs:22. *)
Definition ADDR_SHIFT : N := 6.
(** src/protocol/rc5/mod.rs:23. *)
Definition START_SHIFT : N := 12.
(** src/protocol/rc5/mod.rs:24. *)
Definition TOGGLE_SHIFT : N := 11.

(** src/protocol/rc5/mod.rs:35-40, [Rc5Command]. *)
Record rc5_command := mkRc5 { rc5_addr : N; rc5_cmd : N; rc5_start : N; rc5_toggle : bool }.

(** src/protocol/rc5/mod.rs:43-50, [Rc5Command::new]. *)
Definition rc5_new (addr cmd : N) (toggle : bool) : rc5_command := mkRc5 addr cmd 3 toggle.

(** src/protocol/rc5/mod.rs:52-64, [unpack]. *)
Definition rc5_unpack (bits : N) : rc5_command :=
  mkRc5 (as_u8 (N.shiftr (N.land bits ADDR_MASK) ADDR_SHIFT))
        (as_u8 (N.land bits CMD_MASK))
        (as_u8 (N.shiftr (N.land bits START_MASK) START_SHIFT))
        (negb (N.land bits TOGGLE_MASK =? 0)).

(** src/protocol/rc5/mod.rs:66-71, [pack].  [<<] on [u16] drops the bits shifted
    out of the 16-bit type, hence the [as_u16]. *)
Definition rc5_pack (c : rc5_command) : N :=
  N.lor (N.lor (N.lor (as_u16 (N.shiftl (rc5_addr c) ADDR_SHIFT))
                      (rc5_cmd c))
               (as_u16 (N.shiftl (N.b2n (rc5_toggle c)) TOGGLE_SHIFT)))
        (as_u16 (N.shiftl (rc5_start c) START_SHIFT)).

(** src/protocol/rc5/mod.rs:74-97. *)
Definition rc5_ac : address_command rc5_command :=
  mkAC _ PRc5 rc5_toggle rc5_addr rc5_cmd
    (fun addr cmd =>
       match try_u8 addr with
       | None => None
       | Some a => match try_u8 cmd with
                   | None => None
                   | Some c => Some (rc5_new a c false)
                   end
       end).

(** ** Decoder: src/protocol/rc5/decoder.rs *)

(** src/protocol/rc5/decoder.rs:9-11, [PULSE] zipped with [TOL]. *)
Definition rc5_pulses : list (N * N) :=
  [ (889, 12); (2 * 889, 10); (0, 0); (0, 0); (0, 0); (0, 0); (0, 0); (0, 0) ].

(** src/protocol/rc5/decoder.rs:94-100, [Rc5State]. *)
Inductive rc5_state := R5Idle | R5Data (bit : N) | R5Done | R5Err (e : decoding_error).

(** src/protocol/rc5/decoder.rs:102-111. *)
Definition rc5_to_state (s : rc5_state) : state :=
  match s with
  | R5Idle => Idle | R5Data _ => Receiving | R5Done => Done | R5Err e => Error e
  end.

(** src/protocol/rc5/decoder.rs:85-90, [Rc5Decoder]. *)
Record rc5_decoder := mkRc5Dec {
  r5_state : rc5_state; r5_bitbuf : N; r5_clock : N; r5_spans : list span }.

(** src/protocol/rc5/decoder.rs:16-23, [build]. *)
Definition rc5_build (b : build) (m : mono) (freq : N) : res rc5_decoder :=
  let* ss := pulse_spans_new b m freq rc5_pulses in
  Val (mkRc5Dec R5Idle 0 0 ss).

(** src/protocol/rc5/decoder.rs:74-78, [reset]. *)
Definition rc5_reset (d : rc5_decoder) : rc5_decoder := mkRc5Dec R5Idle 0 0 (r5_spans d).

(** src/protocol/rc5/decoder.rs:41-65: the [match (self.state, rising,
    clock_ticks)]; returns (state, bitbuf, clock).  [is_odd] is the source's
    (misnamed) flag for an even clock. *)
Definition rc5_transition (b : build) (st : rc5_state) (rising : bool) (ticks : option N)
    (is_odd : bool) (buf clock : N) : res (rc5_state * N * N) :=
  let chk := overflow_checks b in
  match st with
  | R5Idle =>
      if rising
      then let* m := ushl1 chk 16 13 in Val (R5Data 12, N.lor buf m, 0)
      else Val (R5Idle, buf, clock)
  | R5Data bit =>
      match ticks with
      | Some _ =>
          if is_odd then
            if bit =? 0 then
              if rising then Val (R5Done, N.lor buf 1, clock) else Val (R5Done, buf, clock)
            else
              if rising
              then let* m := ushl1 chk 16 bit in
                   let* nb := usub chk 8 bit 1 in
                   Val (R5Data nb, N.lor buf m, clock)
              else let* nb := usub chk 8 bit 1 in Val (R5Data nb, buf, clock)
          else Val (R5Data bit, buf, clock)
      | None => Val (R5Err EData, buf, clock)
      end
  | R5Done => Val (R5Done, buf, clock)
  | R5Err e => Val (R5Err e, buf, clock)
  end.

(** src/protocol/rc5/decoder.rs:27-68, [event]. *)
Definition rc5_event (b : build) (d : rc5_decoder) (rising : bool) (delta_t : N)
  : res (rc5_decoder * state) :=
  let chk := overflow_checks b in
  let clock_ticks := spans_get (r5_spans d) delta_t in
  let* d1 := match clock_ticks with
             | Some ticks =>
                 let* t1 := uadd chk (usize_bits b) ticks 1 in
                 let* ck := uadd chk (usize_bits b) (r5_clock d) t1 in
                 Val (mkRc5Dec (r5_state d) (r5_bitbuf d) ck (r5_spans d))
             | None => Val (rc5_reset d)
             end in
  let is_odd := N.land (r5_clock d1) 1 =? 0 in
  let* (st, buf, ck) := rc5_transition b (r5_state d1) rising clock_ticks is_odd
                          (r5_bitbuf d1) (r5_clock d1) in
  Val (mkRc5Dec st buf ck (r5_spans d1), rc5_to_state st).

(** src/protocol/rc5/decoder.rs:70-72, [command]: [Some] in every state. *)
Definition rc5_command_of (d : rc5_decoder) : option rc5_command :=
  Some (rc5_unpack (r5_bitbuf d)).

(** src/protocol/rc5/decoder.rs:26-83, [ProtocolDecoder for Rc5Decoder]. *)
Definition rc5_dec (b : build) : decoder :=
  mkDecoder rc5_decoder rc5_command (rc5_event b) rc5_command_of rc5_reset.

(** ** Encoder: src/protocol/rc5/encoder.rs *)

(** src/protocol/rc5/encoder.rs:4-13, [calc_freq]; a [const], so overflow is a
    compile-time error ([None]). *)
Definition rc5_calc_freq (f : N) : option N :=
  let '(f', div) := if 1000 <? f then (f / 1000, 1000) else (f, 1000000) in
  if 889 * f' <? 2 ^ 32 then Some (889 * f' / div) else None.

(** src/protocol/rc5/encoder.rs:30-43, the [for b in 0..13] loop.  [rc5len * 2]
    is a [u32] multiplication. *)
Fixpoint rc5_encode_bits (b : build) (bits rc5len : N) (bs : list nat) (prev : bool)
    (buf : list N) (index : nat) : res (list N * nat) :=
  match bs with
  | [] => Val (buf, index)
  | i :: rest =>
      let cur := negb (N.land bits (N.shiftl 1 (12 - N.of_nat i)) =? 0) in
      if Bool.eqb prev cur then
        let* b1 := slice_set buf index rc5len in
        let* b2 := slice_set b1 (index + 1) rc5len in
        rc5_encode_bits b bits rc5len rest cur b2 (index + 2)
      else
        let* l2 := umul (overflow_checks b) 32 rc5len 2 in
        let* b1 := slice_set buf index l2 in
        rc5_encode_bits b bits rc5len rest cur b1 (index + 1)
  end.

(** src/protocol/rc5/encoder.rs:19-46, [encode]. *)
Definition rc5_encode (b : build) (rc5len : N) (cmd : rc5_command) (buf : list N)
  : res (list N * nat) :=
  let bits := rc5_pack cmd in
  let* b0 := slice_set buf 0 0 in
  rc5_encode_bits b bits rc5len (seq 0 13) true b0 1.
