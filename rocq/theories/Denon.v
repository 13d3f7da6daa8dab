(** * Model of [src/protocol/denon/mod.rs] *)
From Verif Require Export Machine Time Decoder.

(** src/protocol/denon/mod.rs:14-30, [PULSE] zipped with [TOL]. *)
Definition denon_pulses : list (N * N) :=
  [ (3400 + 1600, 8); (480 + 360, 10); (480 + 1200, 10);
    (0, 0); (0, 0); (0, 0); (0, 0); (0, 0) ].

(** src/protocol/denon/mod.rs:61-63, [DenonCommand]. *)
Record denon_command := mkDenon { denon_bits : N }.

(** src/protocol/denon/mod.rs:65-75, [From<DenonCommand> for AnyCommand]. *)
Definition denon_any (c : denon_command) : any_command := mkAny PDenon (denon_bits c) 0 0 false.

(** src/protocol/denon/mod.rs:124-128, [DenonState]. *)
Inductive denon_state := DIdle | DData (idx : N) | DDone.

(** src/protocol/denon/mod.rs:130-138. *)
Definition denon_to_state (s : denon_state) : state :=
  match s with DIdle => Idle | DData _ => Receiving | DDone => Done end.

(** src/protocol/denon/mod.rs:142-158, [PulseWidth] and [From<usize>]. *)
Inductive denon_pw := DSync | DZero | DOne | DFail.
(** src/protocol/denon/mod.rs:149-158, [From<usize> for PulseWidth]. *)
Definition denon_pw_from (v : N) : denon_pw :=
  match v with 0 => DSync | 1 => DZero | 2 => DOne | _ => DFail end.

(** src/protocol/denon/mod.rs:52-57, [DenonDecoder]. *)
Record denon_decoder := mkDenonDec {
  dn_state : denon_state; dn_buf : N; dn_dt_save : N; dn_spans : list span }.

(** src/protocol/denon/mod.rs:42-49, [build]. *)
Definition denon_build (b : build) (m : mono) (freq : N) : res denon_decoder :=
  let* ss := pulse_spans_new b m freq denon_pulses in
  Val (mkDenonDec DIdle 0 0 ss).

(** src/protocol/denon/mod.rs:85-94, the [match (self.state, pulsewidth)]. *)
Definition denon_transition (b : build) (st : denon_state) (buf : N) (pw : denon_pw)
  : res (N * denon_state) :=
  let chk := overflow_checks b in
  match st, pw with
  | DIdle, DSync => Val (buf, DData 0)
  | DIdle, _ => Val (buf, DIdle)
  | DData idx, DZero =>
      if idx =? 47 then Val (buf, DDone)
      else let* i1 := uadd chk 8 idx 1 in Val (buf, DData i1)
  | DData idx, DOne =>
      if idx =? 47 then Val (buf, DDone)
      else let* m := ushl1 chk 64 idx in
           let* i1 := uadd chk 8 idx 1 in
           Val (N.lor buf m, DData i1)
  | DData _, _ => Val (buf, DIdle)
  | DDone, _ => Val (buf, DDone)
  end.

(** src/protocol/denon/mod.rs:79-102, [event]. *)
Definition denon_event (b : build) (m : mono) (d : denon_decoder) (rising : bool) (dt : N)
  : res (denon_decoder * state) :=
  if rising then
    let* total := dur_add b m (dn_dt_save d) dt in
    let pw := match spans_get (dn_spans d) total with
              | Some i => denon_pw_from i
              | None => DFail
              end in
    let* (buf, st) := denon_transition b (dn_state d) (dn_buf d) pw in
    Val (mkDenonDec st buf 0 (dn_spans d), denon_to_state st)
  else
    Val (mkDenonDec (dn_state d) (dn_buf d) dt (dn_spans d), denon_to_state (dn_state d)).

(** src/protocol/denon/mod.rs:104-110, [command]. *)
Definition denon_command_of (d : denon_decoder) : option denon_command :=
  match dn_state d with DDone => Some (mkDenon (dn_buf d)) | _ => None end.

(** src/protocol/denon/mod.rs:111-115, [reset]. *)
Definition denon_reset (d : denon_decoder) : denon_decoder :=
  mkDenonDec DIdle 0 0 (dn_spans d).

(** src/protocol/denon/mod.rs:77-120, [ProtocolDecoder for DenonDecoder]. *)
Definition denon_dec (b : build) (m : mono) : decoder :=
  mkDecoder denon_decoder denon_command (denon_event b m) denon_command_of denon_reset.
