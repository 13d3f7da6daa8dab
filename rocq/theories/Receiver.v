(** * Model of [src/receiver.rs], [src/receiver/iter.rs], [src/receiver/bufferinput.rs],
      [src/receiver/ppoll.rs], [src/receiver/multi.rs] and [src/receiver/builder.rs] *)
From Verif Require Export Machine Time Decoder Nec Rc5 Rc6 Denon Sbp.

(** What [event_edge] (src/receiver.rs:188-192), [event], [poll] ... return:
    [Result<Option<Cmd>, DecodingError>]. *)
Definition outcome (C : Type) := result (option C) decoding_error.

(** ** Event-driven receiver: src/receiver.rs *)

(** src/receiver.rs:138-151, [Receiver].  The pin is not part of the state: its
    readings are arguments of the pin-reading methods below. *)
Record receiver (D : decoder) := mkRecv { rv_dec : dst D; rv_prev : N }.
Arguments mkRecv {D} _ _.
Arguments rv_dec {D} _.
Arguments rv_prev {D} _.

(** src/receiver/decoder.rs:14-20, [DecoderBuilder]: a decoder and its [build]. *)
Record protocol := mkProtocol { p_dec : decoder; p_build : N -> res (dst p_dec) }.

(** src/protocol/nec/decoder.rs:29-41. *)
Definition nec_protocol (b : build) (m : mono) (V : nec_variant) : protocol :=
  mkProtocol (nec_dec b m V) (nec_build b m V).
(** src/protocol/rc5/decoder.rs:13-24. *)
Definition rc5_protocol (b : build) (m : mono) : protocol :=
  mkProtocol (rc5_dec b) (rc5_build b m).
(** src/protocol/rc6/decoder.rs:22-35. *)
Definition rc6_protocol (b : build) (m : mono) : protocol :=
  mkProtocol (rc6_dec b) (rc6_build b m).
(** src/protocol/denon/mod.rs:39-50. *)
Definition denon_protocol (b : build) (m : mono) : protocol :=
  mkProtocol (denon_dec b m) (denon_build b m).
(** src/protocol/sbp/mod.rs:43-55. *)
Definition sbp_protocol (b : build) (m : mono) : protocol :=
  mkProtocol (sbp_dec b m) (sbp_build b m).

(** src/receiver.rs:159-168 [new], :177-186 [with_input], :220-222 [with_pin],
    :233-235 and :246-248 [with_fugit(64)] (which pass [HZ] as [freq]). *)
Definition receiver_new (P : protocol) (freq : N) : res (receiver (p_dec P)) :=
  let* d := p_build P freq in Val (mkRecv d 0).

Section Receiver.
  Context {D : decoder} {C : Type} (into : dcmd D -> C).

  (** src/receiver.rs:188-208, [event_edge]. *)
  Definition event_edge (r : receiver D) (dt : N) (edge : bool) : res (receiver D * outcome C) :=
    let* (d1, st) := d_event D (rv_dec r) edge dt in
    match st with
    | Done =>
        let cmd := option_map into (d_command D d1) in
        Val (mkRecv (d_reset D d1) (rv_prev r), ROk cmd)
    | Error e => Val (mkRecv (d_reset D d1) (rv_prev r), RErr e)
    | Idle | Receiving => Val (mkRecv d1 (rv_prev r), ROk None)
    end.

  (** src/receiver.rs:257-259, [event] without a pin. *)
  Definition event (r : receiver D) (dt : N) (edge : bool) := event_edge r dt edge.

  (** src/receiver.rs:261-270, [event_instant] without a pin. *)
  Definition event_instant (m : mono) (r : receiver D) (t : N) (edge : bool)
    : res (receiver D * outcome C) :=
    let dt := match checked_sub m t (rv_prev r) with Some x => x | None => 0 end in
    event_edge (mkRecv (rv_dec r) t) dt edge.

  (** [Ok(self.event_edge(..)?)]: conversion of the error type (src/receiver/error.rs, [From]). *)
  Definition lift_outcome {E} (o : outcome C) : result (option C) (error E) :=
    match o with ROk c => ROk c | RErr e => RErr (lift_error e) end.

  (** src/receiver.rs:281-284, [event] with a pin; [reading] is what
      [self.pin.is_low()] returns. *)
  Definition event_pin {E} (r : receiver D) (reading : result bool E) (dt : N)
    : res (receiver D * result (option C) (error E)) :=
    match reading with
    | RErr e => Val (r, RErr (XHal e))
    | ROk edge => let* (r1, o) := event_edge r dt edge in Val (r1, lift_outcome o)
    end.

  (** src/receiver.rs:286-293, [event_instant] with a pin. *)
  Definition event_instant_pin {E} (m : mono) (r : receiver D) (reading : result bool E) (t : N)
    : res (receiver D * result (option C) (error E)) :=
    match reading with
    | RErr e => Val (r, RErr (XHal e))
    | ROk edge => let* (r1, o) := event_instant m r t edge in Val (r1, lift_outcome o)
    end.

  (** A whole history of edges fed one after the other to src/receiver.rs:188-207; collects the outcomes. *)
  Fixpoint run_edges (r : receiver D) (evs : list (bool * N))
    : res (receiver D * list (outcome C)) :=
    match evs with
    | [] => Val (r, [])
    | (edge, dt) :: rest =>
        let* (r1, o) := event_edge r dt edge in
        let* (r2, os) := run_edges r1 rest in
        Val (r2, o :: os)
    end.

  (** The same through [event_instant] (src/receiver.rs). *)
  Fixpoint run_instants (m : mono) (r : receiver D) (evs : list (bool * N))
    : res (receiver D * list (outcome C)) :=
    match evs with
    | [] => Val (r, [])
    | (edge, t) :: rest =>
        let* (r1, o) := event_instant m r t edge in
        let* (r2, os) := run_instants m r1 rest in
        Val (r2, o :: os)
    end.
End Receiver.

(** ** Buffer iterator: src/receiver/iter.rs *)

(** src/receiver/iter.rs:8-18, [BufferIterator]. *)
Record buffer_iter (D : decoder) := mkIter { it_pos : nat; it_buf : list N; it_dec : dst D }.
Arguments mkIter {D} _ _ _.
Arguments it_pos {D} _.
Arguments it_buf {D} _.
Arguments it_dec {D} _.

(** src/receiver/iter.rs:26-33, [BufferIterator::new];
    src/receiver/bufferinput.rs:46-60, [with_frequenzy] followed by [iter]. *)
Definition iter_new (P : protocol) (freq : N) (buf : list N) : res (buffer_iter (p_dec P)) :=
  let* d := p_build P freq in Val (mkIter 0 buf d).

Section Iter.
  Context {D : decoder} {C : Type} (into : dcmd D -> C).

  (** src/receiver/iter.rs:45-70, the [loop] of [next], by recursion on the
      not-yet-consumed part of the buffer. *)
  Fixpoint iter_loop (rest : list N) (pos : nat) (d : dst D) : res (nat * dst D * option C) :=
    match rest with
    | [] => Val (pos, d, None)
    | dt :: rest' =>
        let pos_edge := Nat.even pos in
        let* (d1, st) := d_event D d pos_edge dt in
        match st with
        | Idle | Receiving => iter_loop rest' (S pos) d1
        | Done => Val (S pos, d_reset D d1, option_map into (d_command D d1))
        | Error _ => Val (S pos, d_reset D d1, None)
        end
    end.

  (** src/receiver/iter.rs:44-71, [next]. *)
  Definition iter_next (it : buffer_iter D) : res (buffer_iter D * option C) :=
    let* (pos, d, c) := iter_loop (skipn (it_pos it) (it_buf it)) (it_pos it) (it_dec it) in
    Val (mkIter pos (it_buf it) d, c).

  (** [Iterator::collect] (core library) on src/receiver/iter.rs: calls [next] until the first [None].
      [fuel] bounds the number of calls; every [Some] consumes at least one
      entry, so [length buf + 1] calls are enough. *)
  Fixpoint iter_collect (fuel : nat) (it : buffer_iter D) : res (buffer_iter D * list C) :=
    match fuel with
    | O => Diverge
    | S k =>
        let* (it1, c) := iter_next it in
        match c with
        | None => Val (it1, [])
        | Some x => let* (it2, xs) := iter_collect k it1 in Val (it2, x :: xs)
        end
    end.
  (** [collect] on src/receiver/iter.rs with enough fuel. *)
  Definition collect (it : buffer_iter D) : res (buffer_iter D * list C) :=
    iter_collect (S (length (it_buf it))) it.
End Iter.

(** ** Polled receiver: src/receiver/ppoll.rs *)

(** src/receiver/ppoll.rs:12-29, [PeriodicPoll]. *)
Record periodic_poll (D : decoder) := mkPoll {
  pp_clock : N; pp_edge : bool; pp_last_edge : N; pp_dec : dst D }.
Arguments mkPoll {D} _ _ _ _.
Arguments pp_clock {D} _.
Arguments pp_edge {D} _.
Arguments pp_last_edge {D} _.
Arguments pp_dec {D} _.

(** src/receiver/ppoll.rs:36-45, [with_input] ([new] :69-71, [with_pin] :85-87). *)
Definition poll_new (P : protocol) (freq : N) : res (periodic_poll (p_dec P)) :=
  let* d := p_build P freq in Val (mkPoll 0 false 0 d).

Section Poll.
  Context {D : decoder} {C : Type} (into : dcmd D -> C).

  (** src/receiver/ppoll.rs:47-61, [poll_base] ([poll] without pin, :73-75). *)
  Definition poll_base (p : periodic_poll D) (edge : bool) : res (periodic_poll D * outcome C) :=
    let clock := wrapping_add32 (pp_clock p) 1 in
    if Bool.eqb edge (pp_edge p)
    then Val (mkPoll clock (pp_edge p) (pp_last_edge p) (pp_dec p), ROk None)
    else
      let ds := wrapping_sub32 clock (pp_last_edge p) in
      let* (d1, o) := event_total D (pp_dec p) edge ds in
      let o' := match o with ROk c => ROk (option_map into c) | RErr e => RErr e end in
      Val (mkPoll clock edge clock d1, o').

  (** src/receiver/ppoll.rs:89-93, [poll] with a pin. *)
  Definition poll_pin {E} (p : periodic_poll D) (reading : result bool E)
    : res (periodic_poll D * result (option C) (error E)) :=
    match reading with
    | RErr e => Val (p, RErr (XHal e))
    | ROk edge =>
        let* (p1, o) := poll_base p edge in Val (p1, lift_outcome o)
    end.

  (** A whole sequence of polls (src/receiver/ppoll.rs:47-61). *)
  Fixpoint run_polls (p : periodic_poll D) (levels : list bool)
    : res (periodic_poll D * list (outcome C)) :=
    match levels with
    | [] => Val (p, [])
    | l :: rest =>
        let* (p1, o) := poll_base p l in
        let* (p2, os) := run_polls p1 rest in
        Val (p2, o :: os)
    end.
End Poll.

(** ** Multi receiver: src/receiver/multi.rs *)

(** One component of the [Receivers] tuple (src/receiver/multi.rs:160,183-187,...):
    a pin-less receiver whose command type converts into [AnyCommand].  The
    five [impl]s for tuples of 2 to 6 protocols (:153-328) differ only in their
    arity; the model uses a list. *)
Record slot := mkSlot {
  sl_dec : decoder; sl_into : dcmd sl_dec -> any_command; sl_recv : receiver sl_dec }.

(** [rs.k.event(dt, edge).unwrap_or_default().map(Into::into)], e.g. src/receiver/multi.rs:168. *)
Definition slot_event (s : slot) (dt : N) (edge : bool) : res (slot * option any_command) :=
  let* (r1, o) := event (fun c => c) (sl_recv s) dt edge in
  let oc := match o with ROk c => c | RErr _ => None end in
  Val (mkSlot (sl_dec s) (sl_into s) r1, option_map (sl_into s) oc).

(** [ReceiverWrapper::event], src/receiver/multi.rs:166-171, :193-199, :229-236,
    :270-278, :318-327 ([event_generic] :30-32). *)
Fixpoint multi_event (ss : list slot) (dt : N) (edge : bool)
  : res (list slot * list (option any_command)) :=
  match ss with
  | [] => Val ([], [])
  | s :: rest =>
      let* (s1, o) := slot_event s dt edge in
      let* (rest1, os) := multi_event rest dt edge in
      Val (s1 :: rest1, o :: os)
  end.

(** [arr.into_iter().flatten()], src/receiver/multi.rs:34-41 and :55-61. *)
Fixpoint flatten_opts {A} (l : list (option A)) : list A :=
  match l with
  | [] => []
  | Some x :: r => x :: flatten_opts r
  | None :: r => flatten_opts r
  end.

(** src/receiver/multi.rs:50-53, [event] with a pin. *)
Definition multi_event_pin {E} (ss : list slot) (reading : result bool E) (dt : N)
  : res (list slot * result (list (option any_command)) E) :=
  match reading with
  | RErr e => Val (ss, RErr e)
  | ROk edge => let* (ss1, os) := multi_event ss dt edge in Val (ss1, ROk os)
  end.

(** A protocol usable in a multi receiver, and [ReceiverWrapper::make]
    (src/receiver/multi.rs:162-164 etc.). *)
Record any_protocol_ := mkAnyP { ap_proto : protocol; ap_into : dcmd (p_dec ap_proto) -> any_command }.
(** src/receiver/multi.rs:162-164, :189-191, :220-227, :260-268, :307-316, [make]. *)
Fixpoint multi_make (ps : list any_protocol_) (freq : N) : res (list slot) :=
  match ps with
  | [] => Val []
  | p :: rest =>
      let* r := receiver_new (ap_proto p) freq in
      let* rs := multi_make rest freq in
      Val (mkSlot (p_dec (ap_proto p)) (ap_into p) r :: rs)
  end.

(** A history of edges through a multi receiver (src/receiver/multi.rs:30-32). *)
Fixpoint run_multi (ss : list slot) (evs : list (bool * N))
  : res (list slot * list (list (option any_command))) :=
  match evs with
  | [] => Val (ss, [])
  | (edge, dt) :: rest =>
      let* (ss1, o) := multi_event ss dt edge in
      let* (ss2, os) := run_multi ss1 rest in
      Val (ss2, o :: os)
  end.

(** ** Builder: src/receiver/builder.rs *)

(** The type parameters [Proto], [Mono], [Cmd] of src/receiver/builder.rs:24-30 are phantom; the model keeps them
    as tags so that the final configuration can be stated. *)
Inductive proto_tag := TNec | TNec16 | TNecSamsung | TNecApple | TRc5 | TRc6 | TSbp | TDenon.
(** src/receiver/builder.rs:29, [Mono]. *)
Inductive mono_tag := TU32 | TU64 | TFugit.
(** src/receiver/builder.rs:28, [Cmd]. *)
Inductive cmd_tag (R : Type) := CUnit | CProto (p : proto_tag) | CButton (r : R).
Arguments CUnit {R}.
Arguments CProto {R} _.
Arguments CButton {R} _.

(** src/receiver/builder.rs:24-30, [Builder].  [bd_pin = None] is [NoPin]. *)
Record builder (Pin R : Type) := mkBuilder {
  bd_proto : option proto_tag; bd_pin : option Pin; bd_freq : N;
  bd_cmd : cmd_tag R; bd_mono : mono_tag }.
Arguments mkBuilder {Pin R} _ _ _ _ _.
Arguments bd_proto {Pin R} _.
Arguments bd_pin {Pin R} _.
Arguments bd_freq {Pin R} _.
Arguments bd_cmd {Pin R} _.
Arguments bd_mono {Pin R} _.

(** src/receiver/builder.rs:32-42, [Default]; src/lib.rs:35-37, [receiver()]. *)
Definition builder_default {Pin R} : builder Pin R :=
  mkBuilder None None 1000000 CUnit TU32.

(** src/receiver/builder.rs:49-139, the methods that change the configuration. *)
Inductive builder_op (Pin R : Type) :=
| OpMonotonic (m : mono_tag)
| OpProtocol (p : proto_tag)
| OpRemote (r : R)
| OpPin (p : Pin)
| OpFrequency (hz : N).
Arguments OpMonotonic {Pin R} _.
Arguments OpProtocol {Pin R} _.
Arguments OpRemote {Pin R} _.
Arguments OpPin {Pin R} _.
Arguments OpFrequency {Pin R} _.

(** src/receiver/builder.rs:49-139: [monotonic] (:49-57), [protocol] and its
    shorthands (:59-107), [remotecontrol] (:111-122), [pin] (:126-134),
    [frequency] (:136-139). *)
Definition builder_step {Pin R} (b : builder Pin R) (o : builder_op Pin R) : builder Pin R :=
  match o with
  | OpMonotonic m => mkBuilder (bd_proto b) (bd_pin b) (bd_freq b) (bd_cmd b) m
  | OpProtocol p => mkBuilder (Some p) (bd_pin b) (bd_freq b) (CProto p) (bd_mono b)
  | OpRemote r => mkBuilder (bd_proto b) (bd_pin b) (bd_freq b) (CButton r) (bd_mono b)
  | OpPin p => mkBuilder (bd_proto b) (Some p) (bd_freq b) (bd_cmd b) (bd_mono b)
  | OpFrequency hz => mkBuilder (bd_proto b) (bd_pin b) hz (bd_cmd b) (bd_mono b)
  end.
