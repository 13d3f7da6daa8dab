(** * Specification: pulses that are not noticed *)
From Coq Require Import NArith List Bool.
From Verif Require Import Spec.
Import ListNotations.
Open Scope N_scope.

(** [misses h h']: [h'] is what is left of the signal [h] if some of its pulses, or some of the
    pauses between them, go unnoticed.  Both edges are missing, and the next edge comes after
    the time since the last edge that was noticed. *)
Inductive misses : list edge -> list edge -> Prop :=
| misses_none : misses [] []
| misses_keep x h h' : misses h h' -> misses (x :: h) (x :: h')
| misses_drop e d1 d2 d3 h h' : misses ((e, d1 + d2 + d3) :: h) h' ->
    misses ((e, d1) :: (negb e, d2) :: (e, d3) :: h) h'.

(** At least one, and at most [n] of them are missed. *)
Definition misses_some (h h' : list edge) : Prop := misses h h' /\ (length h' < length h)%nat.
Definition misses_upto (n : nat) (h h' : list edge) : Prop := misses_some h h' /\ (length h <= 2 * n + length h')%nat.

(** A transmission after a silence of [gap] ticks: the pairs [ps], and the end of the last mark,
    which may be missing. *)
Definition stopped (tail : list edge) : Prop := tail = [] \/ exists d, tail = [(false, d)].
Definition transmitted (gap : N) (ps : list (N * N)) (tail : list edge) : list edge := (true, gap) :: pair_edges ps ++ tail.
