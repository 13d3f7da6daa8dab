(** * Properties C40, C89: exactly when a biphase receiver panics

    In a build with overflow checks the receivers of RC5 and RC6 panic on exactly the signals of
    [Spec_overflow.v]; on all others they report what [Spec_biread.v] says. *)
From Coq Require Import NArith ZArith List Bool Lia ZifyBool ZifyNat ZifyN.
From Verif Require Import Machine Spec Bits Time Decoder Rc5 Rc6 Receiver Time_facts Window_facts Codec_facts Run_facts Rc5_facts Rc6_facts
  Encode_facts Spec_receiver Spec_state State_facts Spec_sound Sound_facts Spec_rate Rate_facts Spec_biread Biread_facts Spec_overflow Overflow_facts
  Props_state Props_biread Props_stretch.
Import ListNotations.
Open Scope N_scope.

Lemma run_ends {D : decoder} {C} (into : dcmd D -> C) : (forall d e dt, d_event D d e dt <> Diverge) -> forall h r, run_edges into r h <> Diverge.
Proof.
  intros He. induction h as [|[e dt] h IH]; intros r; cbn [run_edges]; [discriminate|]. unfold event_edge. pose proof (He (rv_dec r) e dt) as K.
  destruct (d_event D (rv_dec r) e dt) as [[d s]| |]; cbn [bind]; [|discriminate|congruence].
  destruct s; cbn [bind];
    match goal with |- context [run_edges into ?x h] => specialize (IH x); destruct (run_edges into x h) as [[? ?]| |] end; cbn [bind]; congruence.
Qed.
Lemma uadd_ends c w a b : uadd c w a b <> Diverge.
Proof. unfold uadd. destruct (_ <? _); [discriminate|]. destruct c; discriminate. Qed.
Lemma usub_ends c w a b : usub c w a b <> Diverge.
Proof. unfold usub. destruct (_ <=? _); [discriminate|]. destruct c; discriminate. Qed.
Lemma ushl1_ends c w n : ushl1 c w n <> Diverge.
Proof. unfold ushl1. destruct (_ <? _); [discriminate|]. destruct c; discriminate. Qed.
Ltac ends :=
  repeat first
    [ discriminate
    | match goal with
      | |- context [uadd ?c ?w ?a ?b] => let K := fresh in pose proof (uadd_ends c w a b) as K; destruct (uadd c w a b); cbn [bind]; [|discriminate|congruence]; clear K
      | |- context [usub ?c ?w ?a ?b] => let K := fresh in pose proof (usub_ends c w a b) as K; destruct (usub c w a b); cbn [bind]; [|discriminate|congruence]; clear K
      | |- context [ushl1 ?c ?w ?n] => let K := fresh in pose proof (ushl1_ends c w n) as K; destruct (ushl1 c w n); cbn [bind]; [|discriminate|congruence]; clear K
      | |- context [match ?x with _ => _ end] => destruct x; cbn [bind]
      end ].
Lemma rc5_ends b d e dt : d_event (rc5_dec b) d e dt <> Diverge.
Proof. cbn [d_event rc5_dec]. unfold rc5_event, rc5_transition. cbv zeta. ends. Qed.
Lemma rc6_ends b d e dt : d_event (rc6_dec b) d e dt <> Diverge.
Proof. cbn [d_event rc6_dec]. unfold rc6_event, rc6_transition. cbv zeta. ends. Qed.

(** Full claim, for every signal [h]: [exists os, outcomes_of P freq into h = Val os].  It is false exactly
    on the signals on which the units reach the range of [usize]. *)
Theorem C40_rc5_exact_partial : forall w m freq C (into : rc5_command -> C) h,
  timebase m freq -> exact_rate m freq -> 8 <= w ->
  (rc5_overflows freq (2 ^ w) 0 h <-> outcomes_of (rc5_protocol (debug_build w) m) freq into h = Panic) /\
  (~ rc5_overflows freq (2 ^ w) 0 h <-> exists os, outcomes_of (rc5_protocol (debug_build w) m) freq into h = Val os).
Proof.
  intros w m freq C into h Hm Hf Hu. pose proof (exact_rate_lt m freq Hf) as Hlt.
  assert (P : rc5_overflows freq (2 ^ w) 0 h <-> outcomes_of (rc5_protocol (debug_build w) m) freq into h = Panic).
  { unfold outcomes_of. rewrite rc5_new_val by auto. cbn [bind p_dec rc5_protocol].
    split; intros H.
    - rewrite (overflows5_panic w m freq Hm Hf Hu into 0 h H 0). reflexivity.
    - apply (panic_overflows5 w m freq Hm Hf Hu into h 0 0).
      destruct (run_edges _ _ _) as [[? ?]| |]; cbn [outs bind] in H; [discriminate|reflexivity|discriminate]. }
  split; [exact P|]. rewrite P.
  assert (K : outcomes_of (rc5_protocol (debug_build w) m) freq into h <> Diverge).
  { unfold outcomes_of. rewrite rc5_new_val by auto. cbn [bind p_dec rc5_protocol].
    match goal with |- context [run_edges ?i ?r h] => pose proof (run_ends (D := rc5_dec (debug_build w)) i (rc5_ends _) h r) as K; destruct (run_edges (D := rc5_dec (debug_build w)) i r h) as [[? ?]| |] end; cbn [outs bind]; congruence. }
  destruct (outcomes_of (rc5_protocol (debug_build w) m) freq into h) as [os| |]; split; intros H; try congruence; [exists os; reflexivity|].
  destruct H; discriminate.
Qed.
Print Assumptions C40_rc5_exact_partial.

Theorem C40_rc6_exact_partial : forall w m freq C (into : rc6_command -> C) h,
  timebase m freq -> exact_rate m freq -> 8 <= w ->
  (rc6_overflows freq (2 ^ w) 0 h <-> outcomes_of (rc6_protocol (debug_build w) m) freq into h = Panic) /\
  (~ rc6_overflows freq (2 ^ w) 0 h <-> exists os, outcomes_of (rc6_protocol (debug_build w) m) freq into h = Val os).
Proof.
  intros w m freq C into h Hm Hf Hu. pose proof (exact_rate_lt m freq Hf) as Hlt.
  assert (P : rc6_overflows freq (2 ^ w) 0 h <-> outcomes_of (rc6_protocol (debug_build w) m) freq into h = Panic).
  { unfold outcomes_of. rewrite rc6_new_val by auto. cbn [bind p_dec rc6_protocol].
    split; intros H.
    - rewrite (overflows6_panic w m freq Hm Hf Hu into 0 h H 0 false 0). reflexivity.
    - apply (panic_overflows6 w m freq Hm Hf Hu into h 0 false 0 0).
      destruct (run_edges _ _ _) as [[? ?]| |]; cbn [outs bind] in H; [discriminate|reflexivity|discriminate]. }
  split; [exact P|]. rewrite P.
  assert (K : outcomes_of (rc6_protocol (debug_build w) m) freq into h <> Diverge).
  { unfold outcomes_of. rewrite rc6_new_val by auto. cbn [bind p_dec rc6_protocol].
    match goal with |- context [run_edges ?i ?r h] => pose proof (run_ends (D := rc6_dec (debug_build w)) i (rc6_ends _) h r) as K; destruct (run_edges (D := rc6_dec (debug_build w)) i r h) as [[? ?]| |] end; cbn [outs bind]; congruence. }
  destruct (outcomes_of (rc6_protocol (debug_build w) m) freq into h) as [os| |]; split; intros H; try congruence; [exists os; reflexivity|].
  destruct H; discriminate.
Qed.
Print Assumptions C40_rc6_exact_partial.

(** ** C89 without any bound: the reports on every signal on which there is no panic. *)
Theorem C89_rc5_exact : forall w m freq C (into : rc5_command -> C) h os,
  timebase m freq -> exact_rate m freq -> 8 <= w -> rc5_reads freq h os -> ~ rc5_overflows freq (2 ^ w) 0 h ->
  outcomes_of (rc5_protocol (debug_build w) m) freq into h = Val (map (rc5_reports into) os).
Proof.
  intros w m freq C into h os Hm Hf Hu R H.
  destruct (proj1 (proj2 (C40_rc5_exact_partial w m freq C into h Hm Hf Hu)) H) as (os' & E).
  pose proof (C41_rc5 w m freq C into h os' E) as E'.
  destruct (proj2 (C89_rc5 (release_build w) m freq C into h Hm Hf Hu (or_introl eq_refl)) os R) as (r0 & r & E0 & Er).
  unfold outcomes_of in E'. rewrite E0 in E'. cbn [bind p_dec rc5_protocol] in E'. rewrite Er in E'. cbn [outs bind] in E'. injection E' as <-.
  exact E.
Qed.
Print Assumptions C89_rc5_exact.

Theorem C89_rc6_exact : forall w m freq C (into : rc6_command -> C) h os,
  timebase m freq -> exact_rate m freq -> 8 <= w -> rc6_reads freq h os -> ~ rc6_overflows freq (2 ^ w) 0 h ->
  outcomes_of (rc6_protocol (debug_build w) m) freq into h = Val (map (rc6_reports into) os).
Proof.
  intros w m freq C into h os Hm Hf Hu R H.
  destruct (proj1 (proj2 (C40_rc6_exact_partial w m freq C into h Hm Hf Hu)) H) as (os' & E).
  pose proof (C41_rc6 w m freq C into h os' E) as E'.
  destruct (proj2 (C89_rc6 (release_build w) m freq C into h Hm Hf Hu (or_introl eq_refl)) os R) as (r0 & r & E0 & Er).
  unfold outcomes_of in E'. rewrite E0 in E'. cbn [bind p_dec rc6_protocol] in E'. rewrite Er in E'. cbn [outs bind] in E'. injection E' as <-.
  exact E.
Qed.
Print Assumptions C89_rc6_exact.

(** A [usize] of 8 bits: 127 intervals of two units after one of one unit are 255 units, 128 are 257.
    Falling edges alone are counted without a frame, and an interval that cannot be counted starts the count anew;
    RC6 keeps its count when an edge does not fit. *)
Lemma two_units : rc5_counts 1000000 2 1778.
Proof.
  right. left. split; [reflexivity|]. unfold near, nominal. change (1778 * 1000000 / 1000000) with 1778. change (889 * 1000000 / 1000000) with 889. lia.
Qed.
Example C40_exact_example :
  (forall M n, M <= 2 * N.of_nat n -> (1 <= n)%nat -> rc5_overflows 1000000 M 0 (repeat (false, 1778) n)) /\
  ~ rc5_overflows 1000000 (2 ^ 8) 0 (repeat (false, 1778) 127) /\
  ~ rc5_overflows 1000000 (2 ^ 8) 0 (repeat (false, 1778) 127 ++ [(false, 9000)] ++ repeat (false, 1778) 127) /\
  ~ rc5_overflows 1000000 (2 ^ 8) 0 (alternating true (30000 :: 889 :: repeat 1778 127)) /\
  rc5_overflows 1000000 (2 ^ 8) 0 (alternating true (30000 :: 889 :: repeat 1778 128)) /\
  rc6_overflows 1000000 (2 ^ 8) 0 ([(true, 30000); (false, 2664); (true, 2664)] ++ repeat (false, 2664) 41) /\
  ~ rc6_overflows 1000000 (2 ^ 8) 0 ([(true, 30000); (false, 2664); (true, 2664)] ++ repeat (false, 2664) 40).
Proof.
  pose proof (exact_mhz MU32 1 ltac:(lia)) as X. change (1 * 1000000) with 1000000 in X.
  assert (Y5 : forall h, match outcome_kind (outcomes_of (rc5_protocol (debug_build 8) MU32) 1000000 (fun c => c) h) with
    Some false => rc5_overflows 1000000 (2 ^ 8) 0 h | _ => ~ rc5_overflows 1000000 (2 ^ 8) 0 h end).
  { intros h. destruct (C40_rc5_exact_partial 8 MU32 1000000 _ (fun c => c) h Logic.I X ltac:(lia)) as (A & B).
    destruct (outcomes_of _ _ _ h); cbn [outcome_kind]; [apply B; eauto|apply A; reflexivity|rewrite A; discriminate]. }
  assert (Y6 : forall h, match outcome_kind (outcomes_of (rc6_protocol (debug_build 8) MU32) 1000000 (fun c => c) h) with
    Some false => rc6_overflows 1000000 (2 ^ 8) 0 h | _ => ~ rc6_overflows 1000000 (2 ^ 8) 0 h end).
  { intros h. destruct (C40_rc6_exact_partial 8 MU32 1000000 _ (fun c => c) h Logic.I X ltac:(lia)) as (A & B).
    destruct (outcomes_of _ _ _ h); cbn [outcome_kind]; [apply B; eauto|apply A; reflexivity|rewrite A; discriminate]. }
  split.
  { assert (G : forall M n ck, M <= ck + 2 * N.of_nat n -> (1 <= n)%nat -> rc5_overflows 1000000 M ck (repeat (false, 1778) n)).
    { intros M. induction n as [|n IH]; intros ck H L; [lia|]. cbn [repeat]. destruct (N.le_gt_cases M (ck + 2)) as [K|K].
      - exact (Over5Now _ _ _ _ _ 2 _ two_units K).
      - apply (Over5Fall _ _ _ _ 2 _ two_units). apply IH; lia. }
    intros M n H L. apply G; lia. }
  split; [|split; [|split; [|split; [|split]]]];
    match goal with |- context [rc5_overflows _ _ _ ?h] => pose proof (Y5 h) as K | |- context [rc6_overflows _ _ _ ?h] => pose proof (Y6 h) as K end;
    revert K; vm_compute (outcome_kind _); exact (fun K => K).
Qed.

(** Forty RC5 frames, forty RC6 frames with a [usize] of 8 bits: there is a reading, no overflow, and so the
    reports are those of the reading. *)
Example C89_exact_example :
  (exists os, rc5_reads 1000000 (concat (repeat (rc5_word_edges 4242) 40)) os /\
     ~ rc5_overflows 1000000 (2 ^ 8) 0 (concat (repeat (rc5_word_edges 4242) 40)) /\
     outcomes_of (rc5_protocol (debug_build 8) MU32) 1000000 (fun c => c) (concat (repeat (rc5_word_edges 4242) 40)) = Val (map (rc5_reports (fun c => c)) os)) /\
  (exists os, rc6_reads 1000000 (concat (repeat (rc6_word_edges true 4242) 40)) os /\
     ~ rc6_overflows 1000000 (2 ^ 8) 0 (concat (repeat (rc6_word_edges true 4242) 40)) /\
     outcomes_of (rc6_protocol (debug_build 8) MU32) 1000000 (fun c => c) (concat (repeat (rc6_word_edges true 4242) 40)) = Val (map (rc6_reports (fun c => c)) os)).
Proof.
  pose proof (exact_mhz MU32 1 ltac:(lia)) as X. change (1 * 1000000) with 1000000 in X.
  destruct C40_stretch_example as (_ & _ & K5 & K6). split.
  - set (h := concat (repeat (rc5_word_edges 4242) 40)) in *.
    destruct (proj1 (C89_rc5 (release_build 8) MU32 1000000 _ (fun c => c) h Logic.I X ltac:(cbn; lia) (or_introl eq_refl))) as (os & R).
    assert (~ rc5_overflows 1000000 (2 ^ 8) 0 h).
    { intros O. apply (proj1 (C40_rc5_exact_partial 8 MU32 1000000 _ (fun c => c) h Logic.I X ltac:(lia))) in O. change (outcome_kind (outcomes_of (rc5_protocol (debug_build 8) MU32) 1000000 (fun c : rc5_command => c) h) = Some true) in K5.
      rewrite O in K5. discriminate K5. }
    exists os. split; [exact R|]. split; [assumption|]. apply C89_rc5_exact; auto; [exact Logic.I|lia].
  - set (h := concat (repeat (rc6_word_edges true 4242) 40)) in *.
    destruct (proj1 (C89_rc6 (release_build 8) MU32 1000000 _ (fun c => c) h Logic.I X ltac:(cbn; lia) (or_introl eq_refl))) as (os & R).
    assert (~ rc6_overflows 1000000 (2 ^ 8) 0 h).
    { intros O. apply (proj1 (C40_rc6_exact_partial 8 MU32 1000000 _ (fun c => c) h Logic.I X ltac:(lia))) in O. change (outcome_kind (outcomes_of (rc6_protocol (debug_build 8) MU32) 1000000 (fun c : rc6_command => c) h) = Some true) in K6.
      rewrite O in K6. discriminate K6. }
    exists os. split; [exact R|]. split; [assumption|]. apply C89_rc6_exact; auto; [exact Logic.I|lia].
Qed.
