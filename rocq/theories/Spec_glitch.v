(** * Specification: marks that are interrupted, and short disturbances *)
From Coq Require Import NArith List Bool.
From Verif Require Import Spec.
Import ListNotations.
Open Scope N_scope.

(** [dropouts ps qs]: [qs] is what becomes of the marks and spaces [ps] if the carrier drops out
    in the middle of some marks, once or several times: such a mark is seen as a mark of [a], a
    pause of [b], and another mark. *)
Inductive dropouts : list (N * N) -> list (N * N) -> Prop :=
| dropouts_none : dropouts [] []
| dropouts_keep x ps qs : dropouts ps qs -> dropouts (x :: ps) (x :: qs)
| dropouts_cut a b m s ps qs : dropouts ((m, s) :: ps) qs -> dropouts ((a + b + m, s) :: ps) ((a, b) :: qs).

(** [glitches freq us h h']: in [h'] some of the intervals of [h] are disturbed, once or several
    times, by a change of level that lasts at most [us] microseconds. *)
Inductive glitches (freq us : N) : list edge -> list edge -> Prop :=
| glitches_none : glitches freq us [] []
| glitches_keep x h h' : glitches freq us h h' -> glitches freq us (x :: h) (x :: h')
| glitches_hit e d1 d2 d3 h h' : 0 < d1 -> 0 < d2 -> d2 <= nominal freq us -> 0 < d3 ->
    glitches freq us ((e, d3) :: h) h' ->
    glitches freq us ((e, d1 + d2 + d3) :: h) ((e, d1) :: (negb e, d2) :: h').
