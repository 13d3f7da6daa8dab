(** * Model of [src/protocol/rc6/*.rs] *)
From Verif Require Export Machine Time Decoder.

(** src/protocol/rc6/cmd.rs:10-14, [Rc6Command]. *)
Record rc6_command := mkRc6 { rc6_addr : N; rc6_cmd : N; rc6_toggle : bool }.

(** src/protocol/rc6/cmd.rs:17-23. *)
Definition rc6_new (addr cmd : N) : rc6_command := mkRc6 addr cmd false.

(** src/protocol/rc6/cmd.rs:25-29, [from_bits]. *)
Definition rc6_from_bits (bits : N) (toggle : bool) : rc6_command :=
  mkRc6 (as_u8 (N.shiftr bits 8)) (as_u8 (N.land bits 255)) toggle.

(** src/protocol/rc6/cmd.rs:32-52. *)
Definition rc6_ac : address_command rc6_command :=
  mkAC _ PRc6 rc6_toggle rc6_addr rc6_cmd
    (fun addr cmd =>
       match try_u8 addr with
       | None => None
       | Some a => match try_u8 cmd with None => None | Some c => Some (rc6_new a c) end
       end).

(** ** Decoder: src/protocol/rc6/decoder.rs *)

(** src/protocol/rc6/decoder.rs:9-20, [PULSE] zipped with [TOL]. *)
Definition rc6_pulses : list (N * N) :=
  [ (444, 12); (444 * 2, 12); (444 * 3, 12); (444 * 4, 12); (444 * 5, 12); (444 * 6, 12);
    (0, 12); (0, 12) ].

(** src/protocol/rc6/decoder.rs:122-131, [Rc6State]. *)
Inductive rc6_state :=
| R6Idle | R6Leading | R6LeadingPaus | R6HeaderData (n : N) | R6Trailing
| R6Data (n : N) | R6Done | R6Err (e : decoding_error).

(** src/protocol/rc6/decoder.rs:133-142. *)
Definition rc6_to_state (s : rc6_state) : state :=
  match s with R6Idle => Idle | R6Done => Done | R6Err e => Error e | _ => Receiving end.

(** src/protocol/rc6/decoder.rs:111-118, [Rc6Decoder]. *)
Record rc6_decoder := mkRc6Dec {
  r6_state : rc6_state; r6_data : N; r6_headerdata : N; r6_toggle : bool; r6_clock : N;
  r6_spans : list span }.

(** src/protocol/rc6/decoder.rs:25-34, [build]. *)
Definition rc6_build (b : build) (m : mono) (freq : N) : res rc6_decoder :=
  let* ss := pulse_spans_new b m freq rc6_pulses in
  Val (mkRc6Dec R6Idle 0 0 false 0 ss).

(** src/protocol/rc6/decoder.rs:99-104, [reset]: [toggle] is kept. *)
Definition rc6_reset (d : rc6_decoder) : rc6_decoder :=
  mkRc6Dec R6Idle 0 0 (r6_toggle d) 0 (r6_spans d).

(** src/protocol/rc6/decoder.rs:54-89: the [match (self.state, rising, ticks)]
    on the decoder after the clock update; returns the new decoder.  At :63 the
    operand of [<< n] is 0 or 1 at [u16]; [n <= 3]. *)
Definition rc6_transition (b : build) (d : rc6_decoder) (rising : bool) (ticks : option N)
    (odd : bool) : res rc6_decoder :=
  let chk := overflow_checks b in
  let set_state st := mkRc6Dec st (r6_data d) (r6_headerdata d) (r6_toggle d) (r6_clock d) (r6_spans d) in
  match r6_state d with
  | R6Idle =>
      if rising
      then Val (mkRc6Dec R6Leading (r6_data d) (r6_headerdata d) (r6_toggle d) 0 (r6_spans d))
      else Val (set_state R6Idle)
  | R6Leading =>
      match rising, ticks with
      | false, Some 6 => Val (set_state R6LeadingPaus)
      | _, _ => Val (set_state R6Idle)
      end
  | R6LeadingPaus =>
      match rising, ticks with
      | true, Some 2 => Val (set_state (R6HeaderData 3))
      | _, _ => Val (set_state R6Idle)
      end
  | R6HeaderData n =>
      match ticks with
      | Some _ =>
          if odd then
            let* m := if rising then Val 0 else ushl1 chk 16 n in
            let hd := N.lor (r6_headerdata d) m in
            let* st := if n =? 0 then Val R6Trailing
                       else let* n1 := usub chk 32 n 1 in Val (R6HeaderData n1) in
            Val (mkRc6Dec st (r6_data d) hd (r6_toggle d) (r6_clock d) (r6_spans d))
          else Val (set_state (R6HeaderData n))
      | None => Val (set_state R6Idle)
      end
  | R6Trailing =>
      match rising, ticks with
      | false, Some 3 =>
          Val (mkRc6Dec (R6Data 15) (r6_data d) (r6_headerdata d) true (r6_clock d) (r6_spans d))
      | true, Some 2 =>
          Val (mkRc6Dec (R6Data 15) (r6_data d) (r6_headerdata d) false (r6_clock d) (r6_spans d))
      | false, Some 1 => Val (set_state R6Trailing)
      | _, _ => Val (set_state R6Idle)
      end
  | R6Data n =>
      match ticks with
      | Some _ =>
          if odd then
            if n =? 0 then
              if rising then Val (set_state R6Done)
              else Val (mkRc6Dec R6Done (N.lor (r6_data d) 1) (r6_headerdata d) (r6_toggle d)
                          (r6_clock d) (r6_spans d))
            else
              if rising then let* n1 := usub chk 32 n 1 in Val (set_state (R6Data n1))
              else let* m := ushl1 chk 16 n in
                   let* n1 := usub chk 32 n 1 in
                   Val (mkRc6Dec (R6Data n1) (N.lor (r6_data d) m) (r6_headerdata d) (r6_toggle d)
                          (r6_clock d) (r6_spans d))
          else Val (set_state (R6Data n))
      | None => Val (set_state (R6Err EData))
      end
  | R6Done => Val (set_state R6Done)
  | R6Err e => Val (set_state (R6Err e))
  end.

(** src/protocol/rc6/decoder.rs:39-93, [event]. *)
Definition rc6_event (b : build) (d : rc6_decoder) (rising : bool) (dt : N)
  : res (rc6_decoder * state) :=
  let chk := overflow_checks b in
  let* ticks := match spans_get (r6_spans d) dt with
                | Some v => let* v1 := uadd chk (usize_bits b) v 1 in Val (Some v1)
                | None => Val None
                end in
  let* d1 := match ticks with
             | Some t =>
                 let* ck := uadd chk (usize_bits b) (r6_clock d) t in
                 Val (mkRc6Dec (r6_state d) (r6_data d) (r6_headerdata d) (r6_toggle d) ck (r6_spans d))
             | None => Val (rc6_reset d)
             end in
  let odd := N.land (r6_clock d1) 1 =? 1 in
  let* d2 := rc6_transition b d1 rising ticks odd in
  Val (d2, rc6_to_state (r6_state d2)).

(** src/protocol/rc6/decoder.rs:95-97, [command]: [Some] in every state. *)
Definition rc6_command_of (d : rc6_decoder) : option rc6_command :=
  Some (rc6_from_bits (r6_data d) (r6_toggle d)).

(** src/protocol/rc6/decoder.rs:37-109, [ProtocolDecoder for Rc6Decoder]. *)
Definition rc6_dec (b : build) : decoder :=
  mkDecoder rc6_decoder rc6_command (rc6_event b) rc6_command_of rc6_reset.

(** ** Encoder: src/protocol/rc6/encoder.rs *)

(** src/protocol/rc6/encoder.rs:5, [DATA]; a [const]: overflow of [444 * F] is a
    compile-time error ([None]). *)
Definition rc6_data_len (F : N) : option N :=
  if 444 * F <? 2 ^ 32 then Some (444 * F / 1000000) else None.

(** src/protocol/rc6/encoder.rs:50-53, [Level]. *)
Inductive level := High (t : N) | Low (t : N).

(** src/protocol/rc6/encoder.rs:56-84, [leader].  [k * rc6len] cannot overflow:
    [rc6len <= 4294]. *)
Definition rc6_leader (toggle : bool) (l : N) : list level :=
  [ High (6 * l); Low (2 * l);
    High l; Low l;
    Low l; High l; Low l; High l; Low l; High l;
    (if toggle then High (2 * l) else Low (2 * l));
    (if toggle then Low (2 * l) else High (2 * l)) ].

(** src/protocol/rc6/encoder.rs:86-108, [payload]: the loop over [b = 0..16]
    writing [lvls[2b]], [lvls[2b+1]]. *)
Definition rc6_payload (bits l : N) : list level :=
  flat_map (fun b =>
    if negb (N.land bits (N.shiftl 1 (15 - N.of_nat b)) =? 0)
    then [High l; Low l] else [Low l; High l]) (seq 0 16).

(** src/protocol/rc6/encoder.rs:24-43, the merging loop.  [lt + nlt] and
    [ht + nht] are [u32] additions. *)
Fixpoint rc6_merge (b : build) (all : list level) (prev : level) (buf : list N) (index : nat)
  : res (list N * nat) :=
  match all with
  | [] => Val (buf, index)
  | lv :: rest =>
      match prev, lv with
      | Low lt, Low nlt =>
          let* s := uadd (overflow_checks b) 32 lt nlt in rc6_merge b rest (Low s) buf index
      | Low lt, High ht =>
          let* b1 := slice_set buf index lt in rc6_merge b rest (High ht) b1 (index + 1)
      | High ht, Low lt =>
          let* b1 := slice_set buf index ht in rc6_merge b rest (Low lt) b1 (index + 1)
      | High ht, High nht =>
          let* s := uadd (overflow_checks b) 32 ht nht in rc6_merge b rest (High s) buf index
      end
  end.

(** src/protocol/rc6/encoder.rs:7-46, [encode]. *)
Definition rc6_encode (b : build) (rc6len : N) (cmd : rc6_command) (buf : list N)
  : res (list N * nat) :=
  let header := rc6_leader (rc6_toggle cmd) rc6len in
  let bits := N.lor (as_u16 (N.shiftl (rc6_addr cmd) 8)) (rc6_cmd cmd) in
  let payload := rc6_payload bits rc6len in
  rc6_merge b (header ++ payload ++ [Low (6 * rc6len)]) (Low 0) buf 0.
