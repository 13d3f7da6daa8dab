(** * Specification: signals on which the units of a biphase receiver reach a bound *)
From Coq Require Import NArith List Bool.
From Verif Require Import Spec Spec_sound Spec_biread.
Import ListNotations.
Open Scope N_scope.

(** ** RC5

    The receiver counts units from the first edge of a frame on.  [rc5_overflows freq M ck h]: it is
    outside a frame and has counted [ck] units; on [h] the units reach [M].  The first three cases are outside
    a frame, the fourth is inside a frame, the other two pass over a frame or a broken frame. *)
Inductive rc5_overflows (freq M : N) : N -> list edge -> Prop :=
| Over5Now ck e d n h : rc5_counts freq n d -> M <= ck + n -> rc5_overflows freq M ck ((e, d) :: h)
| Over5Fall ck d n h : rc5_counts freq n d -> rc5_overflows freq M (ck + n) h -> rc5_overflows freq M ck ((false, d) :: h)
| Over5Anew ck d h : rc5_uncounted freq d -> rc5_overflows freq M 0 h -> rc5_overflows freq M ck ((false, d) :: h)
| Over5Inside ck g l ns e d n h :
    lacks (rc5_counts freq) false 0 l ns 13 -> rc5_counts freq n d -> M <= total ns + n ->
    rc5_overflows freq M ck ((true, g) :: l ++ (e, d) :: h)
| Over5Frame ck g l ns bits h :
    holds (rc5_counts freq) false 0 l ns bits -> length bits = 13%nat -> rc5_overflows freq M 0 h ->
    rc5_overflows freq M ck ((true, g) :: l ++ h)
| Over5Lost ck g l ns e d h :
    lacks (rc5_counts freq) false 0 l ns 13 -> rc5_uncounted freq d -> rc5_overflows freq M 0 ((e, d) :: h) ->
    rc5_overflows freq M ck ((true, g) :: l ++ (e, d) :: h).

(** ** RC6

    The same; but after an edge that can be counted and does not fit, the units are kept. *)
Inductive rc6_overflows (freq M : N) : N -> list edge -> Prop :=
| Over6Now ck e d n h : rc6_counts freq n d -> M <= ck + n -> rc6_overflows freq M ck ((e, d) :: h)
| Over6Fall ck d n h : rc6_counts freq n d -> rc6_overflows freq M (ck + n) h -> rc6_overflows freq M ck ((false, d) :: h)
| Over6Anew ck d h : rc6_uncounted freq d -> rc6_overflows freq M 0 h -> rc6_overflows freq M ck ((false, d) :: h)
| Over6Inside ck g l p ns e d n h :
    rc6_part freq l p -> Forall2 (rc6_counts freq) ns (map snd l) -> rc6_counts freq n d -> M <= total ns + n ->
    rc6_overflows freq M ck ((true, g) :: l ++ (e, d) :: h)
| Over6Frame ck g l1 toggle c l2 ns bits h :
    rc6_to_data freq l1 toggle c -> holds (rc6_counts freq) true c l2 ns bits -> length bits = 16%nat -> rc6_overflows freq M 0 h ->
    rc6_overflows freq M ck ((true, g) :: (l1 ++ l2) ++ h)
| Over6Lost ck g l p e d h :
    rc6_part freq l p -> rc6_uncounted freq d -> rc6_overflows freq M 0 ((e, d) :: h) ->
    rc6_overflows freq M ck ((true, g) :: l ++ (e, d) :: h)
| Over6Wrong ck g l p ns e d n h :
    rc6_part freq l p -> Forall2 (rc6_counts freq) ns (map snd l) -> rc6_counts freq n d -> rc6_wrong p e n ->
    rc6_overflows freq M (total ns + n) h ->
    rc6_overflows freq M ck ((true, g) :: l ++ (e, d) :: h).
