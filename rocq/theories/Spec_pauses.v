(** * Specification: frames in a row, with any pauses between them *)
From Coq Require Import NArith List Bool.
From Verif Require Import Spec Spec_grammar.
Import ListNotations.
Open Scope N_scope.

(** One transmission of a pulse-distance protocol: the mark that ends the one before (missing
    before the first), the pause, and the marks and spaces of the frame. *)
Record shot := mkShot { s_mark : option N; s_pause : N; s_body : list (N * N) }.
Definition shot_edges (s : shot) : list edge :=
  match s_mark s with Some a => [(false, a)] | None => [] end ++ (true, s_pause s) :: pair_edges (s_body s).
(** The time from the last edge of the frame before to the first edge of this one. *)
Definition silence (s : shot) : N := match s_mark s with Some a => a | None => 0 end + s_pause s.
Definition row (l : list shot) : list edge := flat_map shot_edges l.
Definition lengths (s : shot) : list N := map (fun p => fst p + snd p) (s_body s).

(** What is heard at all. *)
Fixpoint news {A E} (l : list (heard A E)) : list (heard A E) :=
  match l with [] => [] | Nothing :: r => news r | o :: r => o :: news r end.

(** NEC: a frame is lost, with an error, if the time before it is as long as a header;
    if that time is as long as a repeat code, the word before is reported again first.
    [last] is what a repeat code repeats. *)
Inductive nec_row (freq header again : N) : N -> list (shot * N) -> list (heard (N * bool) unit) -> Prop :=
| NecRowEnd last : nec_row freq header again last [] []
| NecRowLost last s w r os : near freq header 7 (silence s) -> nec_row freq header again 0 r os ->
    nec_row freq header again last ((s, w) :: r) (Failed tt :: os)
| NecRowAgain last s w r os : near freq again 7 (silence s) -> nec_row freq header again w r os ->
    nec_row freq header again last ((s, w) :: r) (Said (last, true) :: Said (w, false) :: os)
| NecRowFine last s w r os : ~ near freq header 7 (silence s) -> ~ near freq again 7 (silence s) -> nec_row freq header again w r os ->
    nec_row freq header again last ((s, w) :: r) (Said (w, false) :: os).
Definition nec_shot (freq header again : N) (x : shot * N) : Prop :=
  snd x < 2 ^ 32 /\ Forall2 (nec_says freq header again) (nec_signs (NecFrame (snd x))) (lengths (fst x)).

(** Denon: a frame is lost without a trace if the time before it is as long as a header. *)
Inductive denon_row (freq : N) : list (shot * list bool) -> list (heard N unit) -> Prop :=
| DnRowEnd : denon_row freq [] []
| DnRowLost s bits r os : near freq 5000 8 (silence s) -> denon_row freq r os -> denon_row freq ((s, bits) :: r) os
| DnRowFine s bits r os : ~ near freq 5000 8 (silence s) -> denon_row freq r os ->
    denon_row freq ((s, bits) :: r) (Said (val_lsb (firstn 47 bits)) :: os).
Definition denon_shot (freq : N) (x : shot * list bool) : Prop :=
  length (snd x) = 48%nat /\ Forall2 (denon_says freq) (denon_signs (DnFrame (snd x))) (lengths (fst x)).

(** Samsung BluRay: a frame is lost, with an error, if the time before it is as long as a header. *)
Inductive sbp_row (freq : N) : list (shot * (list bool * list bool)) -> list (heard (N * N) bool) -> Prop :=
| SbRowEnd : sbp_row freq [] []
| SbRowLost s a c r os : near freq 9000 5 (silence s) -> sbp_row freq r os -> sbp_row freq ((s, (a, c)) :: r) (Failed true :: os)
| SbRowFine s a c r os : ~ near freq 9000 5 (silence s) -> sbp_row freq r os ->
    sbp_row freq ((s, (a, c)) :: r) (Said (val_lsb a, val_lsb c) :: os).
Definition sbp_shot (freq : N) (x : shot * (list bool * list bool)) : Prop :=
  length (fst (snd x)) = 16%nat /\ length (snd (snd x)) = 20%nat /\
  Forall2 (sbp_says freq) (sbp_signs (SbFrame (fst (snd x)) (snd (snd x)))) (lengths (fst x)).

(** No pause looks like the beginning of a frame or a repeat code. *)
Definition nec_clear (freq header again : N) (s : shot) : Prop := ~ near freq header 7 (silence s) /\ ~ near freq again 7 (silence s).
Definition denon_clear (freq : N) (s : shot) : Prop := ~ near freq 5000 8 (silence s).
Definition sbp_clear (freq : N) (s : shot) : Prop := ~ near freq 9000 5 (silence s).

(** RC5 and RC6: frames in a row, any number of falling edges at any times before each (the
    end of the frame before, if it ends with a mark) and any pause, also none. *)
Definition falls (ds : list N) : list edge := map (fun d => (false, d)) ds.
Inductive rc5_series (freq : N) : list edge -> list N -> Prop :=
| Rc5SeriesEnd ds : rc5_series freq (falls ds) []
| Rc5SeriesFrame ds w gap evs h ws :
    w < 2 ^ 14 -> N.testbit w 13 = true -> rc5_edges freq w gap evs -> rc5_series freq h ws ->
    rc5_series freq (falls ds ++ evs ++ h) (w :: ws).
Inductive rc6_series (freq : N) : list edge -> list (N * N * bool) -> Prop :=
| Rc6SeriesEnd ds : rc6_series freq (falls ds) []
| Rc6SeriesFrame ds a c toggle gap evs h ws :
    a < 2 ^ 8 -> c < 2 ^ 8 -> rc6_edges freq (rc6_leader_safe freq) toggle (2 ^ 8 * a + c) gap evs -> rc6_series freq h ws ->
    rc6_series freq (falls ds ++ evs ++ h) ((a, c, toggle) :: ws).
