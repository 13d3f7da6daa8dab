(** * Specification: a receiver that is started while a signal is under way *)
From Coq Require Import NArith List Bool.
From Verif Require Import Spec Spec_cross.
Import ListNotations.
Open Scope N_scope.

(** The receiver misses at least the first [k] edges of [l] and sees [seen].  The time of its first edge
    runs from its start, which is after the edge before. *)
Definition joins (k : nat) (l seen : list edge) : Prop :=
  exists l1 e d d' l2, l = l1 ++ (e, d) :: l2 /\ (k <= length l1)%nat /\ d' <= d /\ seen = (e, d') :: l2.

(** A transmission of any of the protocols: frames and repeat codes, RC5 with the first start bit set. *)
Definition sent_rc5_start (freq : N) (evs : list edge) : Prop :=
  exists w gap, N.testbit w 13 = true /\ rc5_edges freq w gap ((true, gap) :: evs).
Definition sent_any (freq : N) (evs : list edge) : Prop :=
  ended freq 560 (sent_nec freq) evs \/ ended freq 560 (sent_nec_repeat freq) evs \/
  ended freq 560 (sent_samsung freq) evs \/ ended freq 560 (sent_samsung_repeat freq) evs \/
  ended freq 500 (sent_sbp freq) evs \/ ended freq 480 (sent_denon freq) evs \/
  ended freq 889 (sent_rc5_start freq) evs \/ ended freq 444 (sent_rc6 freq) evs.
