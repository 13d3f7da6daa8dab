(** * Model of [src/protocol/sbp/mod.rs] *)
From Verif Require Export Machine Time Decoder.

(** src/protocol/sbp/mod.rs:31-41, [PULSE] zipped with [TOL]. *)
Definition sbp_pulses : list (N * N) :=
  [ (4500 + 4500, 5); (500 + 4500, 5); (500 + 500, 10); (500 + 1500, 10);
    (0, 0); (0, 0); (0, 0); (0, 0) ].

(** src/protocol/sbp/mod.rs:68-72, [SbpCommand]. *)
Record sbp_command := mkSbp { sbp_address : N; sbp_command_ : N; sbp_valid : bool }.

(** src/protocol/sbp/mod.rs:75-87, [SbpCommand::unpack]. *)
Definition sbp_unpack (address command : N) : sbp_command :=
  let command := N.shiftr command 4 in
  let valid := N.land (N.lxor command (N.shiftr command 8)) 255 =? 255 in
  mkSbp address (as_u8 command) valid.

(** src/protocol/sbp/mod.rs:90-114. *)
Definition sbp_ac : address_command sbp_command :=
  mkAC _ PSbp (fun _ => false) sbp_address sbp_command_
    (fun address command =>
       match try_u16 address with
       | None => None
       | Some a => match try_u8 command with None => None | Some c => Some (mkSbp a c true) end
       end).

(** src/protocol/sbp/mod.rs:119-132, [SbpState]. *)
Inductive sbp_state :=
| SInit | SAddress (bit : N) | SDivider | SCommand (bit : N) | SDone | SErr (e : decoding_error).

(** src/protocol/sbp/mod.rs:188-198. *)
Definition sbp_to_state (s : sbp_state) : state :=
  match s with SInit => Idle | SDone => Done | SErr e => Error e | _ => Receiving end.

(** src/protocol/sbp/mod.rs:228-246, [SbpPulse] and [From<usize>]. *)
Inductive sbp_pw := SbSync | SbPaus | SbZero | SbOne | SbNot.
(** src/protocol/sbp/mod.rs:236-246, [From<usize> for SbpPulse]. *)
Definition sbp_pw_from (v : N) : sbp_pw :=
  match v with 0 => SbSync | 1 => SbPaus | 2 => SbZero | 3 => SbOne | _ => SbNot end.

(** src/protocol/sbp/mod.rs:58-64, [SbpDecoder]. *)
Record sbp_decoder := mkSbpDec {
  sb_state : sbp_state; sb_address : N; sb_command : N; sb_since_rising : N;
  sb_spans : list span }.

(** src/protocol/sbp/mod.rs:46-54, [build]. *)
Definition sbp_build (b : build) (m : mono) (freq : N) : res sbp_decoder :=
  let* ss := pulse_spans_new b m freq sbp_pulses in
  Val (mkSbpDec SInit 0 0 0 ss).

(** src/protocol/sbp/mod.rs:144-165, the [match (self.state, pulsewidth)];
    returns (state, address, command). *)
Definition sbp_transition (b : build) (st : sbp_state) (addr cmd : N) (pw : sbp_pw)
  : res (sbp_state * N * N) :=
  let chk := overflow_checks b in
  match st, pw with
  | SInit, SbSync => Val (SAddress 0, addr, cmd)
  | SInit, _ => Val (SInit, addr, cmd)
  | SAddress bit, SbOne =>
      if bit =? 15 then let* m := ushl1 chk 16 15 in Val (SDivider, N.lor addr m, cmd)
      else let* m := ushl1 chk 16 bit in
           let* nb := uadd chk 16 bit 1 in
           Val (SAddress nb, N.lor addr m, cmd)
  | SAddress bit, SbZero =>
      if bit =? 15 then Val (SDivider, addr, cmd)
      else let* nb := uadd chk 16 bit 1 in Val (SAddress nb, addr, cmd)
  | SAddress _, _ => Val (SErr EAddress, addr, cmd)
  | SDivider, SbPaus => Val (SCommand 0, addr, cmd)
  | SDivider, _ => Val (SErr EData, addr, cmd)
  | SCommand bit, SbOne =>
      if bit =? 19 then let* m := ushl1 chk 32 19 in Val (SDone, addr, N.lor cmd m)
      else let* m := ushl1 chk 32 bit in
           let* nb := uadd chk 16 bit 1 in
           Val (SCommand nb, addr, N.lor cmd m)
  | SCommand bit, SbZero =>
      if bit =? 19 then Val (SDone, addr, cmd)
      else let* nb := uadd chk 16 bit 1 in Val (SCommand nb, addr, cmd)
  | SCommand _, _ => Val (SErr EData, addr, cmd)
  | SDone, _ => Val (SDone, addr, cmd)
  | SErr e, _ => Val (SErr e, addr, cmd)
  end.

(** src/protocol/sbp/mod.rs:136-171, [event].  [since_rising] is not cleared on
    a rising edge. *)
Definition sbp_event (b : build) (m : mono) (d : sbp_decoder) (rising : bool) (dt : N)
  : res (sbp_decoder * state) :=
  if rising then
    let* total := dur_add b m (sb_since_rising d) dt in
    let pw := match spans_get (sb_spans d) total with
              | Some i => sbp_pw_from i
              | None => SbNot
              end in
    let* (st, addr, cmd) := sbp_transition b (sb_state d) (sb_address d) (sb_command d) pw in
    Val (mkSbpDec st addr cmd (sb_since_rising d) (sb_spans d), sbp_to_state st)
  else
    Val (mkSbpDec (sb_state d) (sb_address d) (sb_command d) dt (sb_spans d),
         sbp_to_state (sb_state d)).

(** src/protocol/sbp/mod.rs:172-174, [command]: [Some] in every state. *)
Definition sbp_command_of (d : sbp_decoder) : option sbp_command :=
  Some (sbp_unpack (sb_address d) (sb_command d)).

(** src/protocol/sbp/mod.rs:176-181, [reset]. *)
Definition sbp_reset (d : sbp_decoder) : sbp_decoder := mkSbpDec SInit 0 0 0 (sb_spans d).

(** src/protocol/sbp/mod.rs:134-186, [ProtocolDecoder for SbpDecoder]. *)
Definition sbp_dec (b : build) (m : mono) : decoder :=
  mkDecoder sbp_decoder sbp_command (sbp_event b m) sbp_command_of sbp_reset.
