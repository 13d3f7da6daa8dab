(** * Model of [src/sender/*.rs] *)
From Verif Require Export Machine Nec Rc5 Rc6.

(** src/sender/mod.rs:15-20, [ProtocolEncoder<FREQ>] at a fixed frequency: the
    command type and [encode], which fills a slice and returns the number of
    entries written. *)
Record encoder := mkEncoder {
  e_cmd : Type;
  e_encode : e_cmd -> list N -> res (list N * nat) }.

(** src/protocol/nec/encoder.rs:18-54, src/protocol/rc5/encoder.rs:15-47,
    src/protocol/rc6/encoder.rs:3-47.  [None]: the [DATA] constant overflows and
    the program does not compile for this frequency. *)
Definition nec_encoder (V : nec_variant) (F : N) : option encoder :=
  match nec_data (nv_timing V) F with
  | Some data => Some (mkEncoder (nv_cmd V) (nec_encode V data))
  | None => None
  end.
(** src/protocol/rc5/encoder.rs:15-47. *)
Definition rc5_encoder (b : build) (F : N) : option encoder :=
  match rc5_calc_freq F with
  | Some l => Some (mkEncoder rc5_command (rc5_encode b l))
  | None => None
  end.
(** src/protocol/rc6/encoder.rs:3-47. *)
Definition rc6_encoder (b : build) (F : N) : option encoder :=
  match rc6_data_len F with
  | Some l => Some (mkEncoder rc6_command (rc6_encode b l))
  | None => None
  end.

(** ** src/sender/buffer.rs *)

(** src/sender/buffer.rs:3-6, [PulsedataBuffer<S>]; [length pb_buf = S]. *)
Record pulse_buffer := mkPB { pb_buf : list N; pb_offset : nat }.

(** src/sender/buffer.rs:9-14, [new]. *)
Definition pb_new (S : nat) : pulse_buffer := mkPB (repeat 0 S) 0.

(** src/sender/buffer.rs:16-18, [reset]: the contents are kept. *)
Definition pb_reset (p : pulse_buffer) : pulse_buffer := mkPB (pb_buf p) 0.

(** src/sender/buffer.rs:20-23, [load]: encodes into [&mut self.buf[self.offset..]]
    (the slicing panics if [offset > S]). *)
Definition pb_load (e : encoder) (p : pulse_buffer) (c : e_cmd e) : res pulse_buffer :=
  if Nat.leb (pb_offset p) (length (pb_buf p)) then
    let* (tail, len) := e_encode e c (skipn (pb_offset p) (pb_buf p)) in
    Val (mkPB (firstn (pb_offset p) (pb_buf p) ++ tail) (pb_offset p + len))
  else Panic.

(** src/sender/buffer.rs:25-27, [get]: an entry of the whole array, whatever
    [offset] is. *)
Definition pb_get (p : pulse_buffer) (i : nat) : option N := nth_error (pb_buf p) i.

(** src/sender/buffer.rs:29-31, [buffer]: [&self.buf[..self.offset]] (panics if
    [offset > S]); also the items of [into_iter] (:34-63). *)
Definition pb_buffer (p : pulse_buffer) : res (list N) :=
  if Nat.leb (pb_offset p) (length (pb_buf p))
  then Val (firstn (pb_offset p) (pb_buf p)) else Panic.

(** ** src/sender/senders.rs *)

(** src/sender/senders.rs:63-71, [Status]. *)
Inductive status := StIdle | StTransmit (on : bool) | StError.

(** src/sender/senders.rs:3-8, [PulsedataSender<S>]. *)
Record pulse_sender := mkPS { ps_ptb : pulse_buffer; ps_pos : nat; ps_status : status; ps_ts : N }.

(** src/sender/senders.rs:12-20, [new]. *)
Definition ps_new (S : nat) : pulse_sender := mkPS (pb_new S) 0 StIdle 0.

(** src/sender/senders.rs:22-27, [reset]. *)
Definition ps_reset (s : pulse_sender) : pulse_sender := mkPS (pb_reset (ps_ptb s)) 0 StIdle 0.

(** src/sender/senders.rs:30-33, [load_command]. *)
Definition ps_load (e : encoder) (s : pulse_sender) (c : e_cmd e) : res pulse_sender :=
  let s1 := ps_reset s in
  let* p := pb_load e (ps_ptb s1) c in
  Val (mkPS p (ps_pos s1) (ps_status s1) (ps_ts s1)).

(** src/sender/senders.rs:35-53, [tick]. *)
Definition ps_tick (s : pulse_sender) (ts : N) : pulse_sender * status :=
  match pb_get (ps_ptb s) (ps_pos s) with
  | Some dist =>
      let delta := wrapping_sub32 ts (ps_ts s) in
      if dist <=? delta then
        let st := match ps_status s with
                  | StIdle | StTransmit false => StTransmit true
                  | _ => StTransmit false
                  end in
        (mkPS (ps_ptb s) (ps_pos s + 1) st ts, st)
      else (s, ps_status s)
  | None => (mkPS (ps_ptb s) (ps_pos s) StIdle (ps_ts s), StIdle)
  end.

(** ** src/sender/hal.rs *)

(** src/sender/hal.rs:6-10, [Sender].  The PWM pin is write-only: [hs_tick]
    returns the level it is set to. *)
Record hal_sender := mkHS { hs_counter : N; hs_buffer : pulse_sender }.

(** src/sender/hal.rs:16-22, [new]. *)
Definition hs_new (S : nat) : hal_sender := mkHS 0 (ps_new S).

(** src/sender/hal.rs:24-32, [load]: ignored unless idle. *)
Definition hs_load (e : encoder) (h : hal_sender) (c : e_cmd e) : res hal_sender :=
  match ps_status (hs_buffer h) with
  | StIdle => let* s := ps_load e (hs_buffer h) c in Val (mkHS 0 s)
  | _ => Val h
  end.

(** src/sender/hal.rs:39-49, [tick]: [true] is [pin.enable()], [false] is
    [pin.disable()]. *)
Definition hs_tick (h : hal_sender) : hal_sender * bool :=
  let '(s1, st) := ps_tick (hs_buffer h) (hs_counter h) in
  let h1 := mkHS (wrapping_add32 (hs_counter h) 1) s1 in
  (h1, match st with StTransmit true => true | _ => false end).

(** [n] consecutive ticks (src/sender/hal.rs:39-49); the pin levels set. *)
Fixpoint hs_ticks (n : nat) (h : hal_sender) : hal_sender * list bool :=
  match n with
  | O => (h, [])
  | S k => let '(h1, l) := hs_tick h in
           let '(h2, ls) := hs_ticks k h1 in (h2, l :: ls)
  end.
