(** * Specification: transmissions that break off, in real time *)
From Coq Require Import NArith List Bool.
From Verif Require Import Spec Spec_cross Spec_phys Spec_broken.
Import ListNotations.
Open Scope N_scope.

(** As [broken], for a transmission in units of [1/G] seconds within [x] percent.  If it breaks off in the
    middle of a mark, what is left of the mark lasts at least [j] ticks of the receiver's clock, the
    uncertainty of its readings: a shorter rest may be measured as nothing. *)
Definition real_broken (freq G j x : N) (t : transmission) (evs : list edge) : Prop :=
  exists p y rest, real_sent G x t (p ++ y :: rest) /\
    (evs = p \/ fst y = false /\ rest <> [] /\ exists D, j * G <= D * freq /\ D <= snd y /\ evs = p ++ [(false, D)]).

(** A series with at least 20 ms of silence before each transmission; the flag says whether one is whole. *)
Definition real_noisy (freq G j x : N) (l : list (bool * (transmission * N * list edge))) : Prop :=
  Forall (fun y : bool * (transmission * N * list edge) => let '(whole, (t, gap, evs)) := y in
    real_long G 20000 gap /\
    if whole : bool then real_ended G x t evs else real_broken freq G j x t evs) l.
