(** * Model of [src/receiver/decoder.rs], [src/receiver/error.rs],
      [src/cmd.rs] and the [ProtocolId] part of [src/protocol.rs] *)
From Verif Require Export Machine.

(** src/receiver/error.rs:4-13, [DecodingError]. *)
Inductive decoding_error := EAddress | EData | EValidation | ERemoteControl.

(** src/receiver/error.rs:17-23, [Error<PinErr>]. *)
Inductive error (P : Type) := XAddress | XData | XValidation | XRemoteControl | XHal (e : P).
Arguments XAddress {P}.
Arguments XData {P}.
Arguments XValidation {P}.
Arguments XRemoteControl {P}.
Arguments XHal {P} _.

(** src/receiver/error.rs:25-34, [From<DecodingError> for Error<PinErr>]. *)
Definition lift_error {P} (e : decoding_error) : error P :=
  match e with
  | EAddress => XAddress
  | EData => XData
  | EValidation => XValidation
  | ERemoteControl => XRemoteControl
  end.

(** src/receiver/decoder.rs:67-76, [State]. *)
Inductive state := Idle | Receiving | Done | Error (e : decoding_error).

(** src/receiver/decoder.rs:23-41, the required methods of [ProtocolDecoder]
    ([spans] is an accessor and is left out).  A value of this record is one
    instantiation [Proto: DecoderBuilder<Mono>] together with [build] (:14-20);
    [d_event], being able to panic, returns in [res]. *)
Record decoder := mkDecoder {
  dst : Type;
  dcmd : Type;
  d_event : dst -> bool -> N -> res (dst * state);
  d_command : dst -> option dcmd;
  d_reset : dst -> dst
}.

(** src/receiver/decoder.rs:44-61, [ProtocolDecoder::event_total]. *)
Definition event_total (D : decoder) (d : dst D) (edge : bool) (dt : N)
  : res (dst D * result (option (dcmd D)) decoding_error) :=
  let* (d1, st) := d_event D d edge dt in
  match st with
  | Idle | Receiving => Val (d1, ROk None)
  | Done => Val (d_reset D d1, ROk (d_command D d1))
  | Error e => Val (d_reset D d1, RErr e)
  end.

(** src/protocol.rs:42-61, [ProtocolId]. *)
Inductive protocol_id :=
| PNec | PNec16 | PNecSamsung | PNecApple | PRc5 | PRc6 | PSbp | PDenon | PUnknown.

(** The discriminants, src/protocol.rs:44-60 ([#[repr(u8)]]). *)
Definition protocol_id_as_u8 (p : protocol_id) : N :=
  match p with
  | PNec => 1 | PNec16 => 2 | PNecSamsung => 3 | PNecApple => 4
  | PRc5 => 5 | PRc6 => 6 | PSbp => 7 | PDenon => 8 | PUnknown => 255
  end.

(** src/protocol.rs:63-77, [From<u8> for ProtocolId]. *)
Definition protocol_id_from_u8 (u : N) : protocol_id :=
  match u with
  | 1 => PNec | 2 => PNec16 | 3 => PNecSamsung | 4 => PNecApple
  | 5 => PRc5 | 6 => PRc6 | 7 => PSbp | 8 => PDenon | _ => PUnknown
  end.

(** src/cmd.rs:25-31, [AnyCommand]. *)
Record any_command := mkAny {
  any_protocol : protocol_id;
  any_raw : N;
  any_address : N;
  any_command_ : N;
  any_repeat : bool
}.

(** src/cmd.rs:4-21, the [Command] and [AddressCommand] traits: one record per
    implementing command type.  [raw] (:12-14) is never overridden in the crate
    and is the constant 0. *)
Record address_command (C : Type) := mkAC {
  ac_id : protocol_id;
  ac_is_repeat : C -> bool;
  ac_address : C -> N;
  ac_command : C -> N;
  ac_create : N -> N -> option C
}.
Arguments ac_id {C} _.
Arguments ac_is_repeat {C} _ _.
Arguments ac_address {C} _ _.
Arguments ac_command {C} _ _.
Arguments ac_create {C} _ _ _.

(** src/cmd.rs:33-43, [From<Cmd: AddressCommand> for AnyCommand]. *)
Definition any_from {C} (ac : address_command C) (c : C) : any_command :=
  mkAny (ac_id ac) 0 (ac_address ac c) (ac_command ac c) (ac_is_repeat ac c).
