(** * Specification: transmissions that break off

    The beginning of a transmission: the sender stops somewhere between the first edge
    and the last (the remote control loses power or line of sight). *)
From Coq Require Import NArith List Bool.
From Verif Require Import Spec Spec_cross.
Import ListNotations.
Open Scope N_scope.

(** [evs] is what follows the first rising edge of a transmission of [t] that breaks off: at least one
    edge is missing.  It breaks off in a space, or in the middle of a mark (not the last one), and then
    a falling edge comes too early. *)
Definition broken (freq : N) (t : transmission) (evs : list edge) : Prop :=
  exists p x rest, sent freq t (p ++ x :: rest) /\
    (evs = p \/ fst x = false /\ rest <> [] /\ exists d, 1 <= d /\ d <= snd x /\ evs = p ++ [(false, d)]).

(** A series of transmissions of which some break off; the flag says whether one is whole. *)
Definition noisy_traffic (freq : N) (l : list (bool * (transmission * N * list edge))) : Prop :=
  Forall (fun y : bool * (transmission * N * list edge) => let '(whole, (t, gap, evs)) := y in
    longer freq 13500 8 gap /\
    if whole : bool then ended freq (end_mark t) (sent freq t) evs else broken freq t evs) l.

(** What is said by the transmissions that are whole. *)
Definition whole_said {C : Type} (heard : transmission -> list C) (l : list (bool * (transmission * N * list edge)))
  : list C :=
  flat_map (fun y : bool * (transmission * N * list edge) => if fst y then heard (fst (fst (snd y))) else []) l.
