(** * Property theorems: transmissions that break off, in real time *)
From Coq Require Import NArith ZArith List Bool Lia ZifyBool ZifyNat ZifyN.
From Verif Require Import Machine Time Decoder Nec Rc5 Rc6 Denon Sbp Receiver Spec Bits Codec_facts Time_facts Run_facts Nec_facts
  Spec_receiver Spec_cross Cross_facts Traffic_facts Props_cross Props_traffic Example_facts Spec_phys Phys_facts Props_phys
  Props_polltraffic Spec_broken Broken_facts Props_broken Spec_brokenreal.
Import ListNotations.
Open Scope N_scope.

(** ** C100 for signals in real time, measured by a clock of any phase (as C68) *)
Definition parts (l : list (bool * (transmission * N * list edge))) : list (bool * transmission) :=
  map (fun y : bool * (transmission * N * list edge) => (fst y, fst (fst (snd y)))) l.

Lemma said_parts {C} (heard : transmission -> list C) l l' : parts l = parts l' -> whole_said heard l = whole_said heard l'.
Proof.
  revert l'. induction l as [|y l IH]; intros [|y' l'] E; try discriminate E; [reflexivity|]. unfold parts in E. cbn [map] in E. injection E as E1 E2 E3.
  unfold whole_said in *. cbn [flat_map]. rewrite E1, E2, (IH l' E3). reflexivity.
Qed.

Section Measured.
  Variables (freq G j : N) (clock : N -> N).
  Hypothesis HG : 0 < G.
  Hypothesis Hc : counts freq G j clock.
  Hypothesis Hr : rate_ok 30000 [40000] freq j.

  Lemma broken_measured t x evs : real_broken freq G j 3 x evs -> broken freq x (measured clock t evs).
  Proof.
    intros (p & [e X] & rest & Hs & H). apply (sent_measured freq G j clock HG Hc Hr t) in Hs.
    rewrite measured_app in Hs. cbn [measured] in Hs. eexists _, _, _. split; [exact Hs|]. cbn [fst snd] in *.
    destruct H as [->|(-> & Hn & D & Hj & HD & ->)]; [left; reflexivity|right]. split; [reflexivity|]. split.
    { destruct rest as [|[? ?] ?]; [congruence|discriminate]. }
    rewrite measured_app. cbn [measured]. set (s := after t p). eexists. split; [|split; [|reflexivity]].
    - destruct (Hc s (s + D) ltac:(lia)) as (_ & _ & H2). replace (s + D - s) with D in H2 by lia.
      destruct (N.eq_dec (clock (s + D) - clock s) 0) as [Z|Z]; [rewrite Z in H2|]; lia.
    - destruct (Hc (s + D) (s + X) ltac:(lia)) as (H1 & _). lia.
  Qed.

  Lemma noisy_measured l : real_noisy freq G j 3 l -> forall t, exists l',
    measured clock t (on_air (map snd l)) = on_air (map snd l') /\ parts l' = parts l /\ noisy_traffic freq l'.
  Proof.
    induction 1 as [|[w [[x gap] evs]] l [Hg Hx] Hl IH]; intros t.
    - exists []. repeat split. constructor.
    - destruct (IH (after (t + gap) evs)) as (l' & E & Em & Ht).
      exists ((w, (x, clock (t + gap) - clock t, measured clock (t + gap) evs)) :: l').
      unfold on_air, parts in *. cbn [map flat_map fst snd app measured]. rewrite measured_app, E, Em.
      split; [reflexivity|]. split; [reflexivity|]. constructor; [|exact Ht]. split.
      + eapply (gap_read freq G j clock HG Hc _ 20000); [|exact Hg]. room 30000.
      + destruct w; [apply (ended_measured freq G j clock HG Hc Hr), Hx|apply broken_measured, Hx].
  Qed.
End Measured.

(** Every component of a multi receiver for one of the eight protocols of C100. *)
Theorem C100_real :
  forall ps freq G j clock t0 ss ss' hist l rows k p heard,
  freq < 2 ^ 32 -> 0 < G -> counts freq G j clock -> rate_ok 30000 [40000] freq j ->
  real_noisy freq G j 3 l ->
  let signal := measured clock t0 (hist ++ on_air (map snd l)) in
  short signal ->
  multi_make ps freq = Val ss -> run_multi ss signal = Val (ss', rows) ->
  nth_error ps k = Some p -> hears freq p heard ->
  column k (skipn (length hist) rows) = whole_said heard l.
Proof.
  intros ps freq G j clock t0 ss ss' hist l rows k p heard Hf HG Hc Hr Ht signal Hs Em Er Hk Hh. subst signal.
  rewrite measured_app in *. destruct (noisy_measured freq G j clock HG Hc Hr l Ht (after t0 hist)) as (l' & E & Em' & Ht').
  rewrite E in *. rewrite <- (measured_length clock hist t0).
  etransitivity; [apply (C100_multi ps freq ss ss' (measured clock t0 hist) l' rows k p heard); auto; exact (rate_20 _ _ Hr)|].
  apply said_parts, Em'.
Qed.
Print Assumptions C100_real.

(** A concrete case in microseconds, read at 40 kHz with the counter a third of a tick on: after some noise a NEC
    frame that breaks off 60 microseconds into the mark of its 21st bit, then a whole one. *)
Definition c100_real_pairs : list (N * N) :=
  (9100, 4550) :: map (fun bit : bool => if bit then (570, 1690) else (570, 560)) (bits_lsb 32 (bytes4 7 (compl8 7) 9 (compl8 9))).
Definition c100_real : list (bool * (transmission * N * list edge)) :=
  [(false, (TNec 7 9, 40000, firstn 42 (pair_edges c100_real_pairs) ++ [(false, 60)]));
   (true, (TNec 7 9, 30000, pair_edges c100_real_pairs ++ [(false, 565)]))].
Lemma c100_real_sent : real_sent 1000000 3 (TNec 7 9) (pair_edges c100_real_pairs).
Proof.
  split; [reflexivity|]. split; [reflexivity|]. exists c100_real_pairs. split; [reflexivity|].
  split; [apply real_nec_ok; vm_compute; reflexivity|].
  eexists _, _. split; [reflexivity|]. split; [apply real_nearb_ok; vm_compute; reflexivity|].
  apply Forall_forall. intros x Hx. apply in_map_iff in Hx. destruct Hx as ([|] & <- & _); apply real_nearb_ok; vm_compute; reflexivity.
Qed.
Example C100_example_real :
  let clock t := (t * 40000 + 333333) / 1000000 in
  let hist := [(true, 777); (false, 612)] in
  let signal := measured clock 123 (hist ++ on_air (map snd c100_real)) in
  counts 40000 1000000 1 clock /\ rate_ok 30000 [40000] 40000 1 /\ real_noisy 40000 1000000 1 3 c100_real /\ short signal /\
  option_map commands (outcomes (nec_protocol (debug_build 32) MU32 NecStandard) 40000 signal) = Some [mkNec 7 9 false].
Proof.
  intros clock hist signal. split; [apply C68_clock_any_phase; lia|]. split; [split; [lia|right; split; [reflexivity|cbn [In]; auto]]|].
  split; [|split; [apply shortb_ok; vm_compute; reflexivity|vm_compute; reflexivity]].
  constructor; [|constructor; [|constructor]]; (split; [vm_compute; discriminate|]).
  - exists (firstn 42 (pair_edges c100_real_pairs)), (false, 570), (skipn 43 (pair_edges c100_real_pairs)).
    split; [exact c100_real_sent|]. right. split; [reflexivity|]. split; [discriminate|]. exists 60.
    split; [vm_compute; discriminate|]. split; [discriminate|reflexivity].
  - right. eexists _, _. split; [reflexivity|]. split; [exact c100_real_sent|apply real_nearb_ok; vm_compute; reflexivity].
Qed.
