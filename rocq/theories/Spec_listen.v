(** * Interrupt handlers that time edges with a 32-bit counter

    Real time is counted in units of [1/G] seconds, as in [Spec_phys.v]. *)
From Coq Require Import NArith List Bool.
From Verif Require Import Spec Spec_phys Spec_keys.
Import ListNotations.
Open Scope N_scope.

(** The handler of an edge reads the counter twice, in this order, at most [L] after the
    edge, and after the handler of the edge before: [t] is the time of the edge before,
    [read] the time at which its handler read the counter first.  The counter shows
    [clock] modulo 2^32. *)
Fixpoint handled (clock : N -> N) (L t read : N) (evs : list edge) (xs : list (bool * N * N)) : Prop :=
  match evs, xs with
  | [], [] => True
  | (l, D) :: evs, (low, now, later) :: xs =>
      low = l /\ exists a c, read <= t + D + a /\ a <= c /\ c <= L /\
        now = clock (t + D + a) mod 2 ^ 32 /\ later = clock (t + D + c) mod 2 ^ 32 /\
        handled clock L (t + D) (t + D + a) evs xs
  | _, _ => False
  end.

(** A pause as a 32-bit counter of [freq] ticks per second shows it, in [1/G] ticks. *)
Definition shown (freq G gap : N) : N := (gap * freq) mod (2 ^ 32 * G).

(** The same with one reading of a counter of [w] bits per edge. *)
Fixpoint stamped (w : N) (clock : N -> N) (L t read : N) (evs : list edge) (xs : list (bool * N)) : Prop :=
  match evs, xs with
  | [], [] => True
  | (l, D) :: evs, (low, now) :: xs =>
      low = l /\ exists a, read <= t + D + a /\ a <= L /\ now = clock (t + D + a) mod 2 ^ w /\
        stamped w clock L (t + D) (t + D + a) evs xs
  | _, _ => False
  end.

(** A pause of [D] is measured to less than half the range of a 32-bit counter of [freq]
    ticks per second, if the measurement is off by less than [j] ticks. *)
Definition pause_ok (freq G j D : N) : Prop :=
  (D * freq < 2 ^ 32 * G \/ j * G <= shown freq G D) /\ shown freq G D + j * G <= 2 ^ 31 * G.
