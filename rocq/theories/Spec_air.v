(** * How long a command takes to send: vocabulary *)
From Coq Require Import NArith List Bool.
From Verif Require Import Spec Spec_sender.
Import ListNotations.
Open Scope N_scope.

(** The levels [f] of a pin, tick by tick: on for the last time in one of the last two of
    the first [n] ticks, and off from then on. *)
Definition off_after (f : nat -> bool) (n : N) : Prop :=
  (forall i, n <= N.of_nat i -> f i = false) /\
  exists i, f i = true /\ N.of_nat i < n <= N.of_nat i + 2.

(** Ticks of the 67 entries of a NEC frame of which [k] bits are ones: header of [hm] and
    [hs] microseconds, 560 microseconds of mark for each bit, 560 or 1690 of space. *)
Definition nec_air (ticks : N -> N) (hm hs k : N) : N :=
  ticks hm + ticks hs + k * (ticks 560 + ticks 1690) + (32 - k) * (2 * ticks 560).
