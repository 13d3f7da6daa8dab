(** * Keys held down on a remote control of the NEC family

    Real time is counted in units of [1/G] seconds, as in [Spec_phys.v]. *)
From Coq Require Import NArith List Bool.
From Verif Require Import Spec Spec_phys.
Import ListNotations.
Open Scope N_scope.

(** A burst of marks: the silence before it, mark-space pairs, the last mark. *)
Definition burst := (N * list (N * N) * N)%type.
Definition burst_edges (x : burst) : list edge :=
  let '(gap, ps, stop) := x in (true, gap) :: pair_edges ps ++ [(false, stop)].

(** A key, the burst with its code, and the bursts that tell that it is still held. *)
Definition press (K : Type) := (K * burst * list burst)%type.
Definition press_edges {K} (x : press K) : list edge :=
  let '(_, f, rs) := x in burst_edges f ++ flat_map burst_edges rs.
Definition presses_edges {K} (l : list (press K)) : list edge := flat_map press_edges l.

(** All bursts of a series of presses. *)
Definition bursts {K} (l : list (press K)) : list burst := flat_map (fun y => snd (fst y) :: snd y) l.

(** Timing within [x] percent: frames with a header of [header] microseconds, repeat
    codes of [again] microseconds, at least [silence] microseconds between them. *)
Definition real_press {K} (G x header again silence : N) (word : K -> N) (y : press K) : Prop :=
  let '(k, (gap, ps, _), rs) := y in
  real_long G silence gap /\ real_nec G x header (word k) ps /\
  Forall (fun r : burst => let '(gap, ps, _) := r in
            real_long G silence gap /\ exists d, ps = [d] /\ real_period G x again d) rs.

(** What should be reported: each key once, then a repeat of it for every repeat code. *)
Definition held {K} (l : list (press K)) : list (K * bool) :=
  flat_map (fun y => let '(k, _, rs) := y in (k, false) :: repeat (k, true) (length rs)) l.

(** A measured interval is off by less than [j] ticks of a clock of [freq] ticks per
    second, each interval on its own. *)
Definition timed (freq G j : N) (real meas : edge) : Prop :=
  fst meas = fst real /\
  snd meas * G < snd real * freq + j * G /\ snd real * freq < snd meas * G + j * G.

(** A mark and the space after it, in ticks, add up to less than 2^32 ([before]: the last mark). *)
Fixpoint fit (before : N) (evs : list edge) : Prop :=
  match evs with
  | [] => True
  | (true, d) :: r => before + d < 2 ^ 32 /\ fit 0 r
  | (false, d) :: r => fit d r
  end.
