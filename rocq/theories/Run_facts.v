(** * Lemmas about running a receiver over a history *)
From Coq Require Import NArith ZArith List Bool Lia ZifyBool ZifyNat ZifyN.
From Verif Require Import Machine Spec Bits Time Decoder Receiver Time_facts Window_facts.
Import ListNotations.
Open Scope N_scope.

Lemma run_edges_app {D C} (into : dcmd D -> C) (h1 h2 : list (bool * N)) (r : receiver D) :
  run_edges into r (h1 ++ h2) =
  let* (r1, o1) := run_edges into r h1 in
  let* (r2, o2) := run_edges into r1 h2 in
  Val (r2, o1 ++ o2).
Proof.
  revert r. induction h1 as [|[e dt] h1 IH]; intros r; cbn [app run_edges bind].
  - destruct (run_edges into r h2) as [[r2 o2]| |]; reflexivity.
  - destruct (event_edge into r dt e) as [[r1 o]| |]; cbn [bind]; auto.
    rewrite IH. destruct (run_edges into r1 h1) as [[r2 o1]| |]; cbn [bind]; auto.
    destruct (run_edges into r2 h2) as [[r3 o2]| |]; reflexivity.
Qed.

Lemma run_edges_app_val {D C} (into : dcmd D -> C) h1 h2 (r r1 r2 : receiver D) o1 o2 :
  run_edges into r h1 = Val (r1, o1) -> run_edges into r1 h2 = Val (r2, o2) ->
  run_edges into r (h1 ++ h2) = Val (r2, o1 ++ o2).
Proof. intros E1 E2. rewrite run_edges_app, E1. cbn [bind]. rewrite E2. reflexivity. Qed.

Lemma run_edges_length {D C} (into : dcmd D -> C) h (r r' : receiver D) os :
  run_edges into r h = Val (r', os) -> length os = length h.
Proof.
  revert r os. induction h as [|[e dt] h IH]; intros r os E; cbn [run_edges] in E.
  - injection E as _ <-. reflexivity.
  - destruct (event_edge into r dt e) as [[r1 o]| |]; cbn [bind] in E; try discriminate.
    destruct (run_edges into r1 h) as [[r2 os']| |] eqn:E2; cbn [bind] in E; try discriminate.
    injection E as <- <-. cbn [length]. f_equal. eauto.
Qed.

(** Splitting the last edge off a run. *)
Lemma run_edges_snoc {D C} (into : dcmd D -> C) h e dt (r r' : receiver D) os :
  run_edges into r (h ++ [(e, dt)]) = Val (r', os) ->
  exists r1 os1 o, run_edges into r h = Val (r1, os1) /\ event_edge into r1 dt e = Val (r', o) /\
    os = os1 ++ [o].
Proof.
  intros E. rewrite run_edges_app in E.
  destruct (run_edges into r h) as [[r1 o1]| |]; cbn [bind] in E; try discriminate.
  cbn [run_edges] in E.
  destruct (event_edge into r1 dt e) as [[r2 o]| |] eqn:E1; cbn [bind] in E; try discriminate.
  injection E as <- <-. exists r1, o1, o. auto.
Qed.

(** A property kept by every event holds after every history. *)
Lemma run_edges_inv {D C} (into : dcmd D -> C) (Q : receiver D -> Prop) (ok : edge -> Prop) :
  (forall r e dt, Q r -> ok (e, dt) -> exists r' o, event_edge into r dt e = Val (r', o) /\ Q r') ->
  forall h r, Q r -> Forall ok h ->
  exists r' os, run_edges into r h = Val (r', os) /\ Q r'.
Proof.
  intros Hs. induction h as [|[e dt] h IH]; intros r Hr Hh.
  - exists r, []. auto.
  - inversion Hh as [|x l H1 H2]; subst. destruct (Hs r e dt Hr H1) as (r1 & o & E & Hr1).
    destruct (IH r1 Hr1 H2) as (r2 & os & E2 & Hr2).
    exists r2, (o :: os). cbn [run_edges]. rewrite E. cbn [bind]. rewrite E2. auto.
Qed.

Lemma dur_add_short b m freq x y : timebase m freq -> x < 2 ^ 31 -> y < 2 ^ 31 ->
  dur_add b m x y = Val (x + y).
Proof.
  intros Hm Hx Hy. change (2 ^ 31) with 2147483648 in *.
  destruct m as [| |w mi cs]; cbn [dur_add]; unfold uadd; rewrite (proj2 (N.ltb_lt _ _)); auto.
  - change (2 ^ 32) with 4294967296. lia.
  - change (2 ^ 64) with 18446744073709551616. lia.
  - destruct Hm as [Hw _]. pose proof (pow_ge w Hw). unfold M32 in *. lia.
Qed.

(** The first matching window. *)
Lemma spans_get_hit ss i s d :
  nth_error ss i = Some s -> contains s d = true ->
  (forall j s', (j < i)%nat -> nth_error ss j = Some s' -> contains s' d = false) ->
  spans_get ss d = Some (N.of_nat i).
Proof.
  intros E H Hb. unfold spans_get. pose proof (spans_get_from_spec ss 0 d) as S.
  destruct (spans_get_from 0 ss d) as [k|].
  - destruct S as (j & s1 & -> & E1 & C1 & B1). f_equal.
    destruct (Nat.lt_trichotomy j i) as [L|[->|L]]; [|lia|].
    + rewrite (Hb j s1 L E1) in C1. discriminate.
    + rewrite (B1 i s L E) in H. discriminate.
  - rewrite (S s (nth_error_In _ _ E)) in H. discriminate.
Qed.

Lemma spans_get_miss ss d : (forall s, In s ss -> contains s d = false) -> spans_get ss d = None.
Proof.
  intros H. unfold spans_get. pose proof (spans_get_from_spec ss 0 d) as S.
  destruct (spans_get_from 0 ss d) as [k|]; auto.
  destruct S as (j & s1 & -> & E1 & C1 & _). rewrite (H s1 (nth_error_In _ _ E1)) in C1. discriminate.
Qed.

Lemma spans_get_some ss d k : spans_get ss d = Some k ->
  exists s, nth_error ss (N.to_nat k) = Some s /\ contains s d = true.
Proof.
  unfold spans_get. intros E. pose proof (spans_get_from_spec ss 0 d) as S. rewrite E in S.
  destruct S as (j & s1 & -> & E1 & C1 & _). exists s1. rewrite N.add_0_l, Nnat.Nat2N.id. auto.
Qed.

(** In a table, a duration near pulse [i] selects entry [i]. *)
Lemma spans_get_near k pt m freq i p t d :
  timebase m freq -> freq < M32 -> table_ok pt ->
  pulses_distinct k (spans_of m freq pt) ->
  (i < k)%nat -> nth_error pt i = Some (p, t) -> 1 <= t ->
  near freq p (guaranteed freq t) d -> spans_get (spans_of m freq pt) d = Some (N.of_nat i).
Proof.
  intros Hm Hf Ht Hd Hi E H1 Hn.
  assert (A : p <= 13500 /\ t <= 25).
  { unfold table_ok in Ht. rewrite Forall_forall in Ht. specialize (Ht _ (nth_error_In _ _ E)).
    cbn [fst snd] in Ht. lia. }
  assert (Es : nth_error (spans_of m freq pt) i = Some (window (base_of m freq p) t)).
  { unfold spans_of. rewrite nth_error_map, E. reflexivity. }
  assert (C : contains (window (base_of m freq p) t) d = true).
  { apply contains_window; [lia|]. apply near_inwin with (freq := freq) (p := p); auto; try lia.
    apply base_of_ok; auto; lia. }
  apply spans_get_hit with (s := window (base_of m freq p) t); auto.
  intros j s' Hj Ej. apply (Hd i j _ _ d Hi) with (2 := Es); auto. lia.
Qed.

(** An entry found in a table is near its pulse. *)
Lemma spans_get_near_inv pt m freq k d :
  timebase m freq -> freq < M32 -> table_ok pt ->
  spans_get (spans_of m freq pt) d = Some k ->
  exists p t, nth_error pt (N.to_nat k) = Some (p, t) /\ (1 <= t -> near freq p (t + 1) d) /\
    (p = 0 -> d = 0).
Proof.
  intros Hm Hf Ht E. apply spans_get_some in E. destruct E as (s & E & C).
  unfold spans_of in E. rewrite nth_error_map in E.
  destruct (nth_error pt (N.to_nat k)) as [[p t]|] eqn:Ep; [|discriminate].
  cbn [option_map fst snd] in E. injection E as <-. exists p, t. split; auto.
  unfold table_ok in Ht. rewrite Forall_forall in Ht. specialize (Ht _ (nth_error_In _ _ Ep)).
  cbn [fst snd] in Ht. destruct Ht as (H1 & H2 & H3).
  apply contains_window in C; [|lia].
  pose proof (base_of_ok m freq p Hm Hf H1) as Hb. split.
  - intros Ht1. apply inwin_near with (n := base_of m freq p); auto.
  - intros ->. apply base_zero in Hb. rewrite Hb in C. unfold inwin in C. lia.
Qed.

(** Nothing matches a duration longer than every pulse. *)
Lemma spans_get_long pt m freq pmax tmax d :
  timebase m freq -> freq < M32 -> table_ok pt ->
  Forall (fun x => (100 + snd x) * nominal freq (fst x) <= (100 + tmax) * nominal freq pmax) pt ->
  longer freq pmax tmax d -> spans_get (spans_of m freq pt) d = None.
Proof.
  intros Hm Hf Ht Hw Hl. apply spans_get_miss. intros s Hs.
  unfold spans_of in Hs. apply in_map_iff in Hs. destruct Hs as ((p & t) & <- & Hin). cbn [fst snd].
  rewrite Forall_forall in Hw. specialize (Hw _ Hin). cbn [fst snd] in Hw.
  unfold table_ok in Ht. rewrite Forall_forall in Ht. specialize (Ht _ Hin).
  cbn [fst snd] in Ht. destruct Ht as (H1 & H2 & H3).
  apply contains_window_false; [lia|]. unfold inwin, longer in *. intros [C _].
  pose proof (base_of_ok m freq p Hm Hf H1) as (Hb & _).
  assert (base_of m freq p <= nominal freq p) by (unfold nominal; lia).
  assert ((100 + t) * base_of m freq p <= (100 + t) * nominal freq p) by (apply N.mul_le_mono_l; auto).
  lia.
Qed.
