(** * Whether a biphase receiver is inside a frame at the end of a signal: vocabulary

    Stated with the frames of [Spec_biread.v]. *)
From Coq Require Import NArith List Bool.
From Verif Require Import Spec Spec_sound Spec_biread.
Import ListNotations.
Open Scope N_scope.

(** The signal ends inside an RC5 frame ([true]) or outside of any. *)
Inductive rc5_ends (freq : N) : list edge -> bool -> Prop :=
| E5None : rc5_ends freq [] false
| E5Idle d h i : rc5_ends freq h i -> rc5_ends freq ((false, d) :: h) i
| E5Frame g l ns bits h i :
    holds (rc5_counts freq) false 0 l ns bits -> length bits = 13%nat -> rc5_ends freq h i ->
    rc5_ends freq ((true, g) :: l ++ h) i
| E5Lost g l ns e d h i :
    lacks (rc5_counts freq) false 0 l ns 13 -> rc5_uncounted freq d -> rc5_ends freq ((e, d) :: h) i ->
    rc5_ends freq ((true, g) :: l ++ (e, d) :: h) i
| E5Inside g l ns :
    lacks (rc5_counts freq) false 0 l ns 13 -> rc5_ends freq ((true, g) :: l) true.

(** RC6. *)
Inductive rc6_ends (freq : N) : list edge -> bool -> Prop :=
| E6None : rc6_ends freq [] false
| E6Idle d h i : rc6_ends freq h i -> rc6_ends freq ((false, d) :: h) i
| E6Frame g l1 toggle ck l2 ns bits h i :
    rc6_to_data freq l1 toggle ck -> holds (rc6_counts freq) true ck l2 ns bits -> length bits = 16%nat -> rc6_ends freq h i ->
    rc6_ends freq ((true, g) :: (l1 ++ l2) ++ h) i
| E6Lost g l p e d h i :
    rc6_part freq l p -> rc6_uncounted freq d -> rc6_ends freq ((e, d) :: h) i ->
    rc6_ends freq ((true, g) :: l ++ (e, d) :: h) i
| E6Wrong g l p e d n h i :
    rc6_part freq l p -> rc6_counts freq n d -> rc6_wrong p e n -> rc6_ends freq h i ->
    rc6_ends freq ((true, g) :: l ++ (e, d) :: h) i
| E6Inside g l p : rc6_part freq l p -> rc6_ends freq ((true, g) :: l) true.
