(** * Model of [src/protocol/utils.rs], [src/receiver/time.rs],
      [src/receiver/time/primitives.rs] and [src/receiver/time/fgt.rs] *)
From Verif Require Export Machine.

(** src/protocol/utils.rs:1-10, [scale_with_samplerate].  The [while] loop of
    lines 4-7 becomes recursion on fuel.  [len.checked_mul(samplerate)] is the
    32-bit product test; [div /= 1000] and [samplerate /= 1000] cannot
    overflow; the final division (line 9) panics when [div] has reached 0.
    Each round divides [samplerate] by 1000, so a [u32] is 0 after at most 4
    rounds and 5 units of fuel are always enough. *)
Fixpoint scale_loop (fuel : nat) (len samplerate div : N) : res N :=
  match fuel with
  | O => Diverge
  | S k =>
      if len * samplerate <? 2 ^ 32
      then if div =? 0 then Panic else Val (len * samplerate / div)
      else scale_loop k len (samplerate / 1000) (div / 1000)
  end.
(** src/protocol/utils.rs:1-10, with [div] = 1000000 (line 2). *)
Definition scale_with_samplerate (len samplerate : N) : res N :=
  scale_loop 5 len samplerate 1000000.

(** src/receiver/time.rs:26-30, [Span].  Inclusive bounds. *)
Record span := mkSpan { low : N; high : N }.

(** src/receiver/time.rs:84-86, [Span::contains]. *)
Definition contains (s : span) (d : N) : bool := (low s <=? d) && (d <=? high s).

(** src/receiver/time.rs:88-90, [Span::overlaps]. *)
Definition overlaps (s o : span) : bool := contains s (low o) || contains s (high o).

(** The time bases implementing [InfraMonotonic] (src/receiver/time.rs:7-24).
    - [MU32], [MU64]: src/receiver/time/primitives.rs:6-34;
    - [MFugit bits micros csub]: src/receiver/time/fgt.rs:5-44 for
      [fugit::Instant<u32|u64, NOM, DENOM>].  The external crate is abstracted
      by two functions: [micros p] is the tick count of [p.micros()] and
      [csub a b] is [a.checked_duration_since(b)] in ticks. *)
Inductive mono :=
| MU32
| MU64
| MFugit (bits : N) (micros : N -> N) (csub : N -> N -> option N).

(** Width of the tick count of the [Duration] of src/receiver/time/primitives.rs:6-34 and
    src/receiver/time/fgt.rs:5-44. *)
Definition dur_bits (m : mono) : N :=
  match m with MU32 => 32 | MU64 => 64 | MFugit w _ _ => w end.

(** [Duration + Duration] (the bound [Add] in src/receiver/time.rs:7-24).  Primitive integers: overflow panics or wraps
    according to the profile.  fugit: [Add] is checked and panics in every
    profile. *)
Definition dur_add (b : build) (m : mono) (x y : N) : res N :=
  match m with
  | MU32 => uadd (overflow_checks b) 32 x y
  | MU64 => uadd (overflow_checks b) 64 x y
  | MFugit w _ _ => uadd true w x y
  end.

(** [InfraMonotonic::checked_sub], src/receiver/time/primitives.rs:12-14,27-29
    and src/receiver/time/fgt.rs:11-13,36-38. *)
Definition checked_sub (m : mono) (a b : N) : option N :=
  match m with
  | MU32 | MU64 => if b <=? a then Some (a - b) else None
  | MFugit _ _ csub => csub a b
  end.

(** src/receiver/time/primitives.rs:36-43 and :51-61, [Span::<u32>::new] and
    [Span::<u64>::new].  The [u64] version computes in [u32] and widens at the
    end, so both have the same bounds. *)
Definition span_new_prim (b : build) (base tol : N) : res span :=
  let* m := umul (overflow_checks b) 32 base tol in
  let tol' := m / 100 in
  let* lo := usub (overflow_checks b) 32 base tol' in
  let* hi := uadd (overflow_checks b) 32 base tol' in
  Val (mkSpan lo hi).

(** src/receiver/time/fgt.rs:20-28 and :46-54, [Span::new] for fugit durations.
    [Duration * u32] multiplies the ticks with the profile's overflow
    behaviour; [-] and [+] on durations are checked and panic. *)
Definition span_new_fugit (b : build) (w base tol : N) : res span :=
  let* m := umul (overflow_checks b) w base tol in
  let tol' := m / 100 in
  let* lo := usub true w base tol' in
  let* hi := uadd true w base tol' in
  Val (mkSpan lo hi).

(** [InfraMonotonic::create_span]: primitives.rs:16-18, :31-33 with
    [Span::scaled] (:45-48, :62-65); fgt.rs:15-17, :40-43 (ignores [freq]). *)
Definition create_span (b : build) (m : mono) (freq p t : N) : res span :=
  match m with
  | MU32 | MU64 => let* base := scale_with_samplerate p freq in span_new_prim b base t
  | MFugit w micros _ => span_new_fugit b w (micros p) t
  end.

(** src/receiver/time.rs:41-54, [PulseSpans::new]: one span per entry of the
    two arrays, in order.  The model uses lists of (pulse, tolerance) pairs; all
    tables in the crate have length 8. *)
Fixpoint pulse_spans_new (b : build) (m : mono) (freq : N) (pt : list (N * N)) : res (list span) :=
  match pt with
  | [] => Val []
  | (p, t) :: rest =>
      let* s := create_span b m freq p t in
      let* ss := pulse_spans_new b m freq rest in
      Val (s :: ss)
  end.

(** src/receiver/time.rs:56-61, [PulseSpans::get]: index of the first span
    containing the duration. *)
Fixpoint spans_get_from (i : N) (ss : list span) (d : N) : option N :=
  match ss with
  | [] => None
  | s :: rest => if contains s d then Some i else spans_get_from (i + 1) rest d
  end.
(** src/receiver/time.rs:56-61. *)
Definition spans_get (ss : list span) (d : N) : option N := spans_get_from 0 ss d.

(** src/receiver/time.rs:63-77, [PulseSpans::check_overlaps]: the double loop
    over [i], [j] with [i == j] skipped; [true] as soon as one pair overlaps. *)
Definition check_overlaps (ss : list span) : bool :=
  let idx := seq 0 (length ss) in
  existsb (fun i =>
    existsb (fun j =>
      negb (Nat.eqb i j) &&
      match nth_error ss i, nth_error ss j with
      | Some si, Some sj => overlaps si sj
      | _, _ => false
      end) idx) idx.
