(** * Specification: a signal with its levels exchanged *)
From Coq Require Import NArith List Bool.
From Verif Require Import Spec.
Import ListNotations.
Open Scope N_scope.

(** Marks are seen as spaces and spaces as marks: each edge goes the other way. *)
Definition inverted (l : list edge) : list edge := map (fun x => (negb (fst x), snd x)) l.
