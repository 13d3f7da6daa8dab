(** * Rust machine-level semantics used by the model

    Everything the model needs to know about Rust's execution model that is not
    specific to the [infrared] crate: panics, [Result], fixed-width integer
    arithmetic with and without overflow checks, shifts, bounds-checked slices.

    Integers are unbounded [N]; the *wrap* or *panic* at the type's boundary is
    written explicitly in each operation.  *)
From Coq Require Export NArith List Bool.
Export ListNotations.
Open Scope N_scope.

(** Outcome of running a Rust function of src/*.rs.  [Panic]: the function panicked.
    [Diverge]: a loop did not finish within the model's fuel (shown
    unreachable, see [Props_time.C12_scale_total]). *)
Inductive res (A : Type) : Type :=
| Val (a : A)
| Panic
| Diverge.
Arguments Val {A} _.
Arguments Panic {A}.
Arguments Diverge {A}.

(** A panic ends the caller as well, as everywhere in src/*.rs (e.g. src/receiver.rs:188-207). *)
Definition bind {A B} (x : res A) (f : A -> res B) : res B :=
  match x with Val a => f a | Panic => Panic | Diverge => Diverge end.
(** Sequencing of statements (e.g. src/receiver.rs:188-207). *)
Notation "'let*' x ':=' e 'in' k" := (bind e (fun x => k))
  (at level 200, x pattern, e at level 100, k at level 200, right associativity).

(** Rust's [Result<A, E>], e.g. of src/receiver/decoder.rs:44-61. *)
Inductive result (A E : Type) : Type :=
| ROk (a : A)
| RErr (e : E).
Arguments ROk {A E} _.
Arguments RErr {A E} _.

(** Compilation parameters of the target (Cargo.toml sets no profile): whether integer-overflow checks are
    on (debug profile) or off (release profile, two's-complement wrap), and the
    width of [usize] (16 on AVR, 32 on Cortex-M, 64 on hosts). *)
Record build := mkBuild { overflow_checks : bool; usize_bits : N }.

(** The dev profile of Cargo.toml (default settings). *)
Definition debug_build (w : N) : build := mkBuild true w.
(** The release profile of Cargo.toml (default settings). *)
Definition release_build (w : N) : build := mkBuild false w.

(** [a + b], [a - b], [a * b] at a [w]-bit unsigned type, e.g. src/receiver/time/primitives.rs:38-40,
    src/protocol/rc5/decoder.rs:26-68. [chk] says whether an
    overflow panics (otherwise it wraps). *)
Definition uadd (chk : bool) (w a b : N) : res N :=
  if a + b <? 2 ^ w then Val (a + b)
  else if chk then Panic else Val ((a + b) mod 2 ^ w).
(** As [uadd], e.g. src/receiver/time/primitives.rs:39. *)
Definition usub (chk : bool) (w a b : N) : res N :=
  if b <=? a then Val (a - b)
  else if chk then Panic else Val ((a + 2 ^ w - b) mod 2 ^ w).
(** As [uadd], e.g. src/receiver/time/primitives.rs:38. *)
Definition umul (chk : bool) (w a b : N) : res N :=
  if a * b <? 2 ^ w then Val (a * b)
  else if chk then Panic else Val ((a * b) mod 2 ^ w).
(** [1 << n] at a [w]-bit type (src/protocol/nec/decoder.rs:107-109 and likewise in the other decoders): a shift amount [>= w] panics with overflow
    checks, otherwise the amount is taken modulo the width. *)
Definition ushl1 (chk : bool) (w n : N) : res N :=
  if n <? w then Val (N.shiftl 1 n)
  else if chk then Panic else Val (N.shiftl 1 (n mod w)).

(** [a.wrapping_add(b)] at [u32], src/sender/hal.rs:41. *)
Definition wrapping_add32 (a b : N) : N := (a + b) mod 2 ^ 32.
(** [a.wrapping_sub(b)] at [u32], src/sender/senders.rs:37. *)
Definition wrapping_sub32 (a b : N) : N := (a + 2 ^ 32 - b) mod 2 ^ 32.

(** [x as u8], e.g. src/protocol/nec/standard.rs:25. *)
Definition as_u8 (x : N) : N := x mod 2 ^ 8.
(** [x as u16], e.g. src/protocol/nec/nec16.rs:22. *)
Definition as_u16 (x : N) : N := x mod 2 ^ 16.
(** [!x] at [u8], e.g. src/protocol/nec/standard.rs:31-35. *)
Definition not_u8 (x : N) : N := N.lxor x 255.

(** [x.try_into().ok()] at [u8], e.g. src/protocol/rc5/mod.rs:92-93. *)
Definition try_u8 (x : N) : option N := if x <? 2 ^ 8 then Some x else None.
(** [x.try_into().ok()] at [u16], src/protocol/sbp/mod.rs:109. *)
Definition try_u16 (x : N) : option N := if x <? 2 ^ 16 then Some x else None.

(** [buf[i] = v] on a slice, e.g. src/protocol/nec/encoder.rs:33-35: panics out of bounds. *)
Fixpoint slice_set (buf : list N) (i : nat) (v : N) : res (list N) :=
  match buf, i with
  | [], _ => Panic
  | _ :: t, O => Val (v :: t)
  | h :: t, S j => let* t' := slice_set t j v in Val (h :: t')
  end.
