(** * Properties C40, C89: how long a biphase receiver can run with overflow checks

    A receiver of RC5 or RC6 adds up the units of the intervals it can count, and starts
    again at 0 when it meets one that it cannot count.  In a build with overflow checks it is
    therefore enough that no unbroken stretch of countable intervals is too long; the signal
    as a whole may have any length. *)
From Coq Require Import NArith ZArith List Bool Lia ZifyBool ZifyNat ZifyN.
From Verif Require Import Machine Spec Bits Time Decoder Rc5 Rc6 Receiver Time_facts Window_facts Codec_facts Run_facts Rc5_facts Rc6_facts
  Encode_facts Spec_receiver Spec_state State_facts Spec_sound Sound_facts Spec_rate Rate_facts Spec_biread Biread_facts Props_state Props_biread.
Import ListNotations.
Open Scope N_scope.
Ltac Zify.zify_post_hook ::= Z.div_mod_to_equations.

(** Every stretch of consecutive edges that can all be counted has fewer than [M] units. *)
Definition stretches_below (counts : N -> N -> Prop) (M : N) (h : list edge) : Prop :=
  forall h1 s h2 ns, h = h1 ++ s ++ h2 -> Forall2 counts ns (map snd s) -> total ns < M.

Lemma stretches_tail counts M x h : stretches_below counts M (x :: h) -> stretches_below counts M h.
Proof. intros H h1 s h2 ns -> F. apply (H (x :: h1) s h2 ns); auto. Qed.

(** A short signal has only short stretches, so that [C89_rc5_long] and [C89_rc6_long] below contain [C89_rc5] and [C89_rc6]. *)
Lemma stretches_short (counts : N -> N -> Prop) M h : (forall n d, counts n d -> n <= 8) -> 8 * N.of_nat (length h) < M -> stretches_below counts M h.
Proof.
  intros Hc Hl h1 s h2 ns -> F.
  assert (G : forall ns ds, Forall2 counts ns ds -> total ns <= 8 * N.of_nat (length ds)).
  { unfold total. induction 1 as [|n d ns' ds Hn _ IH]; cbn [fold_right length]; [lia|]. specialize (Hc n d Hn). lia. }
  specialize (G _ _ F). rewrite map_length in G. rewrite !app_length in Hl. unfold edge in *. lia.
Qed.
Lemma rc5_counts_8 freq n d : rc5_counts freq n d -> n <= 8.
Proof. unfold rc5_counts. lia. Qed.
Lemma rc6_counts_8 freq n d : rc6_counts freq n d -> n <= 8.
Proof. unfold rc6_counts. lia. Qed.

Lemma run_stretches {D : decoder} {C} (into : dcmd D -> C) (Q : dst D -> Prop) (clock : dst D -> N) (counts : N -> N -> Prop) M :
  (forall d e dt, Q d -> (forall n, counts n dt -> clock d + n < M) ->
     exists d' s, d_event D d e dt = Val (d', s) /\ Q d' /\ (clock d' = 0 \/ exists n, counts n dt /\ clock d' <= clock d + n)) ->
  (forall d, Q d -> Q (d_reset D d) /\ clock (d_reset D d) = 0) ->
  forall h r, Q (rv_dec r) ->
  (forall s h2 ns, h = s ++ h2 -> Forall2 counts ns (map snd s) -> clock (rv_dec r) + total ns < M) ->
  stretches_below counts M h ->
  exists r' os, run_edges into r h = Val (r', os).
Proof.
  intros Hs Hr. induction h as [|[e dt] h IH]; intros r HQ Hp Hst; [do 2 eexists; reflexivity|].
  cbn [run_edges]. unfold event_edge.
  destruct (Hs (rv_dec r) e dt HQ) as (d' & s & E & Q' & L).
  { intros n Hn. pose proof (Hp [(e, dt)] h [n] eq_refl) as K. cbn [map snd total fold_right] in K. rewrite N.add_0_r in K.
    apply K. constructor; [exact Hn|constructor]. }
  rewrite E. cbn [bind]. destruct (Hr d' Q') as (Qr & Lr). pose proof (stretches_tail _ _ _ _ Hst) as Hst'.
  assert (G2 : exists r' os, run_edges into (mkRecv (d_reset D d') (rv_prev r)) h = Val (r', os)).
  { apply IH; [exact Qr| |exact Hst']. cbn [rv_dec]. intros s1 h2 ns Eh F. rewrite Lr, N.add_0_l. exact (Hst' [] s1 h2 ns Eh F). }
  assert (G1 : exists r' os, run_edges into (mkRecv d' (rv_prev r)) h = Val (r', os)).
  { apply IH; [exact Q'| |exact Hst']. cbn [rv_dec]. intros s1 h2 ns Eh F. destruct L as [L|(n & Hn & L)].
    - rewrite L, N.add_0_l. exact (Hst' [] s1 h2 ns Eh F).
    - assert (K : clock (rv_dec r) + total (n :: ns) < M).
      { apply (Hp ((e, dt) :: s1) h2); [rewrite Eh; reflexivity|]. constructor; [exact Hn|exact F]. }
      cbn [total fold_right] in K. unfold total. lia. }
  destruct G1 as (ra & oa & Ea), G2 as (rb & ob & Eb).
  destruct s; cbn [bind]; rewrite ?Ea, ?Eb; cbn [bind]; do 2 eexists; reflexivity.
Qed.

Lemma rc5_step_stretch b m freq d e dt : timebase m freq -> exact_rate m freq -> 8 <= usize_bits b ->
  rc5_in_range d -> r5_spans d = spans_of m freq rc5_pulses ->
  (forall n, rc5_counts freq n dt -> r5_clock d + n < 2 ^ usize_bits b) ->
  exists d' s, rc5_event b d e dt = Val (d', s) /\ (rc5_in_range d' /\ r5_spans d' = spans_of m freq rc5_pulses) /\
    (r5_clock d' = 0 \/ exists n, rc5_counts freq n dt /\ r5_clock d' <= r5_clock d + n).
Proof.
  intros Hm Hf Hu HR Hsp Hn. pose proof (rc5_counts_some m freq dt Hm Hf) as HS. rewrite <- Hsp in HS.
  unfold rc5_event. destruct (spans_get (r5_spans d) dt) as [k|] eqn:Ek.
  - pose proof (Hn _ HS) as B. unfold uadd. rewrite (proj2 (N.ltb_lt (k + 1) _)) by lia. cbn [bind].
    rewrite (proj2 (N.ltb_lt (r5_clock d + (k + 1)) _)) by lia. cbn [bind r5_state r5_clock r5_bitbuf r5_spans].
    edestruct (rc5_transition_total b (r5_state d)) as (s' & buf' & ck' & Et & K & Kc); [exact HR|].
    rewrite Et. cbn [bind]. do 2 eexists. split; [reflexivity|]. split; [split; [exact K|exact Hsp]|]. cbn [r5_clock].
    destruct Kc as [-> | ->]; [right|left; reflexivity]. exists (k + 1). split; [exact HS|lia].
  - cbn [bind rc5_reset r5_state r5_clock r5_bitbuf r5_spans].
    edestruct (rc5_transition_total b R5Idle) as (s' & buf' & ck' & Et & K & Kc); [exact I|].
    rewrite Et. cbn [bind]. do 2 eexists. split; [reflexivity|]. split; [split; [exact K|exact Hsp]|]. left. cbn [r5_clock]. destruct Kc; auto.
Qed.

Lemma rc6_step_stretch b m freq d e dt : timebase m freq -> exact_rate m freq -> 8 <= usize_bits b ->
  rc6_in_range d -> r6_spans d = spans_of m freq rc6_pulses ->
  (forall n, rc6_counts freq n dt -> r6_clock d + n < 2 ^ usize_bits b) ->
  exists d' s, rc6_event b d e dt = Val (d', s) /\ (rc6_in_range d' /\ r6_spans d' = spans_of m freq rc6_pulses) /\
    (r6_clock d' = 0 \/ exists n, rc6_counts freq n dt /\ r6_clock d' <= r6_clock d + n).
Proof.
  intros Hm Hf Hu HR Hsp Hn. pose proof (rc6_counts_some m freq dt Hm Hf) as HS. rewrite <- Hsp in HS.
  assert (G : exists d' s, rc6_event b d e dt = Val (d', s) /\ rc6_in_range d' /\
    (r6_clock d' = 0 \/ exists n, rc6_counts freq n dt /\ r6_clock d' <= r6_clock d + n)).
  { unfold rc6_event. destruct (spans_get (r6_spans d) dt) as [k|] eqn:Ek.
    - pose proof (Hn _ HS) as B. unfold uadd. rewrite (proj2 (N.ltb_lt (k + 1) _)) by lia. cbn [bind].
      rewrite (proj2 (N.ltb_lt (r6_clock d + (k + 1)) _)) by lia. cbn [bind].
      edestruct (rc6_transition_total b (mkRc6Dec (r6_state d) (r6_data d) (r6_headerdata d) (r6_toggle d) (r6_clock d + (k + 1)) (r6_spans d)))
        as (d2 & -> & R2 & K2); [exact HR|]. cbn [bind]. do 2 eexists. split; [reflexivity|]. split; [exact R2|].
      cbn [r6_clock] in K2. destruct K2 as [-> | ->]; [right|left; reflexivity]. exists (k + 1). split; [exact HS|lia].
    - cbn [bind]. edestruct (rc6_transition_total b (rc6_reset d)) as (d2 & -> & R2 & K2); [exact I|].
      cbn [bind]. do 2 eexists. split; [reflexivity|]. split; [exact R2|]. left. cbn [r6_clock rc6_reset] in K2. destruct K2; auto. }
  destruct G as (d' & s & E & R' & L). exists d', s. split; [exact E|]. split; [split; [exact R'|]|exact L].
  rewrite (rc6_event_spans _ _ _ _ _ _ E). exact Hsp.
Qed.

(** Full claim, for every signal [h]: [exists os, outcomes_of P freq into h = Val os].  Missing: builds with
    overflow checks on signals with an overlong stretch, where it is false ([C40_refuted]). *)
Theorem C40_rc5_stretch_partial : forall b m freq C (into : rc5_command -> C) h,
  timebase m freq -> exact_rate m freq -> 8 <= usize_bits b ->
  stretches_below (rc5_counts freq) (2 ^ usize_bits b) h ->
  exists os, outcomes_of (rc5_protocol b m) freq into h = Val os.
Proof.
  intros b m freq C into h Hm Hf Hu H. unfold outcomes_of. rewrite rc5_new_val by (auto; exact (exact_rate_lt _ _ Hf)). cbn [bind].
  destruct (run_stretches (D := rc5_dec b) into (fun d => rc5_in_range d /\ r5_spans d = spans_of m freq rc5_pulses) r5_clock
    (rc5_counts freq) (2 ^ usize_bits b)) with (h := h)
    (r := mkRecv (D := rc5_dec b) (mkRc5Dec R5Idle 0 0 (spans_of m freq rc5_pulses)) 0) as (r' & os & E).
  - intros d e dt (R1 & R2) Hd. exact (rc5_step_stretch b m freq d e dt Hm Hf Hu R1 R2 Hd).
  - intros d (R1 & R2). cbn [d_reset rc5_dec]. unfold rc5_reset. cbn. auto.
  - cbn. auto.
  - intros s h2 ns Eh F. cbn [rv_dec r5_clock]. rewrite N.add_0_l. exact (H [] s h2 ns Eh F).
  - exact H.
  - eexists. cbn [p_dec rc5_protocol]. rewrite E. reflexivity.
Qed.
Print Assumptions C40_rc5_stretch_partial.

Theorem C40_rc6_stretch_partial : forall b m freq C (into : rc6_command -> C) h,
  timebase m freq -> exact_rate m freq -> 8 <= usize_bits b ->
  stretches_below (rc6_counts freq) (2 ^ usize_bits b) h ->
  exists os, outcomes_of (rc6_protocol b m) freq into h = Val os.
Proof.
  intros b m freq C into h Hm Hf Hu H. unfold outcomes_of. rewrite rc6_new_val by (auto; exact (exact_rate_lt _ _ Hf)). cbn [bind].
  destruct (run_stretches (D := rc6_dec b) into (fun d => rc6_in_range d /\ r6_spans d = spans_of m freq rc6_pulses) r6_clock
    (rc6_counts freq) (2 ^ usize_bits b)) with (h := h)
    (r := mkRecv (D := rc6_dec b) (mkRc6Dec R6Idle 0 0 false 0 (spans_of m freq rc6_pulses)) 0) as (r' & os & E).
  - intros d e dt (R1 & R2) Hd. exact (rc6_step_stretch b m freq d e dt Hm Hf Hu R1 R2 Hd).
  - intros d (R1 & R2). cbn [d_reset rc6_dec]. unfold rc6_reset. cbn. auto.
  - cbn. auto.
  - intros s h2 ns Eh F. cbn [rv_dec r6_clock]. rewrite N.add_0_l. exact (H [] s h2 ns Eh F).
  - exact H.
  - eexists. cbn [p_dec rc6_protocol]. rewrite E. reflexivity.
Qed.
Print Assumptions C40_rc6_stretch_partial.

(** ** C89 for signals of any length *)
Theorem C89_rc5_long :
  forall b m freq C (into : rc5_command -> C) h os,
  timebase m freq -> exact_rate m freq -> 8 <= usize_bits b ->
  overflow_checks b = false \/ stretches_below (rc5_counts freq) (2 ^ usize_bits b) h -> rc5_reads freq h os ->
  exists r0 r, receiver_new (rc5_protocol b m) freq = Val r0 /\
    run_edges (D := rc5_dec b) into r0 h = Val (r, map (rc5_reports into) os).
Proof.
  intros [[|] w] m freq C into h os Hm Hf Hu H R.
  - destruct H as [H|H]; [discriminate H|].
    destruct (C40_rc5_stretch_partial (debug_build w) m freq C into h Hm Hf Hu H) as (os' & E).
    pose proof (C41_rc5 w m freq C into h os' E) as E'.
    destruct (proj2 (C89_rc5 (release_build w) m freq C into h Hm Hf Hu (or_introl eq_refl)) os R) as (r0 & r & E0 & Er).
    unfold outcomes_of in E'. rewrite E0 in E'. cbn [bind p_dec rc5_protocol] in E'. rewrite Er in E'. cbn [outs bind] in E'. injection E' as <-.
    unfold outcomes_of in E. change (mkBuild true w) with (debug_build w). destruct (receiver_new (rc5_protocol (debug_build w) m) freq) as [r1| |]; cbn [bind] in E; try discriminate.
    cbn [p_dec rc5_protocol] in *. destruct (run_edges (D := rc5_dec (debug_build w)) into r1 h) as [[r2 os2]| |] eqn:E2; cbn [outs bind] in E; try discriminate.
    injection E as ->. exists r1, r2. auto.
  - exact (proj2 (C89_rc5 (release_build w) m freq C into h Hm Hf Hu (or_introl eq_refl)) os R).
Qed.
Print Assumptions C89_rc5_long.

Theorem C89_rc6_long :
  forall b m freq C (into : rc6_command -> C) h os,
  timebase m freq -> exact_rate m freq -> 8 <= usize_bits b ->
  overflow_checks b = false \/ stretches_below (rc6_counts freq) (2 ^ usize_bits b) h -> rc6_reads freq h os ->
  exists r0 r, receiver_new (rc6_protocol b m) freq = Val r0 /\
    run_edges (D := rc6_dec b) into r0 h = Val (r, map (rc6_reports into) os).
Proof.
  intros [[|] w] m freq C into h os Hm Hf Hu H R.
  - destruct H as [H|H]; [discriminate H|].
    destruct (C40_rc6_stretch_partial (debug_build w) m freq C into h Hm Hf Hu H) as (os' & E).
    pose proof (C41_rc6 w m freq C into h os' E) as E'.
    destruct (proj2 (C89_rc6 (release_build w) m freq C into h Hm Hf Hu (or_introl eq_refl)) os R) as (r0 & r & E0 & Er).
    unfold outcomes_of in E'. rewrite E0 in E'. cbn [bind p_dec rc6_protocol] in E'. rewrite Er in E'. cbn [outs bind] in E'. injection E' as <-.
    unfold outcomes_of in E. change (mkBuild true w) with (debug_build w). destruct (receiver_new (rc6_protocol (debug_build w) m) freq) as [r1| |]; cbn [bind] in E; try discriminate.
    cbn [p_dec rc6_protocol] in *. destruct (run_edges (D := rc6_dec (debug_build w)) into r1 h) as [[r2 os2]| |] eqn:E2; cbn [outs bind] in E; try discriminate.
    injection E as ->. exists r1, r2. auto.
  - exact (proj2 (C89_rc6 (release_build w) m freq C into h Hm Hf Hu (or_introl eq_refl)) os R).
Qed.
Print Assumptions C89_rc6_long.

(** ** A key held for any length of time *)

(** The units of the longest stretch, counting with [f]. *)
Fixpoint climb (f : N -> option N) (c : N) (h : list edge) : N :=
  match h with
  | [] => c
  | (_, d) :: t => match f d with Some n => climb f (c + n) t | None => N.max c (climb f 0 t) end
  end.
Lemma climb_ge f h : forall c, c <= climb f c h.
Proof. induction h as [|[e d] h IH]; intros c; cbn [climb]; [lia|]. destruct (f d) as [n|]; [specialize (IH (c + n))|]; lia. Qed.
Lemma climb_start f h : forall c s h2 ns, h = s ++ h2 -> Forall2 (fun n d => f d = Some n) ns (map snd s) -> c + total ns <= climb f c h.
Proof.
  induction h as [|[e d] h IH]; intros c s h2 ns Eh F; destruct s as [|x s]; cbn [app map] in *; try discriminate;
    inversion F as [|n d' ns' ds Hn F' En Ed]; subst; cbn [total fold_right]; try (rewrite N.add_0_r; apply climb_ge).
  injection Eh as <- ->. cbn [climb snd] in *. rewrite Hn. pose proof (IH (c + n) s h2 ns' eq_refl F') as K. unfold total in K. lia.
Qed.
Lemma climb_mono f h : forall c c', c <= c' -> climb f c h <= climb f c' h.
Proof. induction h as [|[e d] h IH]; intros c c' L; cbn [climb]; [exact L|]. destruct (f d) as [n|]; [apply IH|]; lia. Qed.
Lemma climb_below f M h : climb f 0 h < M -> stretches_below (fun n d => f d = Some n) M h.
Proof.
  intros H h1 s h2 ns Eh F. revert h Eh H. induction h1 as [|[e d] h1 IH]; intros h Eh H.
  - pose proof (climb_start f h 0 s h2 ns Eh F). lia.
  - subst h. cbn [app climb] in H. apply (IH _ eq_refl). destruct (f d) as [n|]; [|lia].
    pose proof (climb_mono f (h1 ++ s ++ h2) 0 (0 + n)). lia.
Qed.
Lemma stretches_weaken (c1 c2 : N -> N -> Prop) M h : (forall n d, c1 n d -> c2 n d) -> stretches_below c2 M h -> stretches_below c1 M h.
Proof. intros Hc H h1 s h2 ns Eh F. apply (H h1 s h2 ns Eh). revert F. generalize (map snd s). induction 1; constructor; auto. Qed.
Lemma climb_frames f M x rest n : f (snd x) = None -> climb f 0 rest < M -> climb f 0 (concat (repeat (x :: rest) n)) < M.
Proof.
  intros Hx Hr. destruct x as [e d]. cbn [snd] in Hx.
  assert (G0 : forall n c, climb f c (concat (repeat ((e, d) :: rest) n)) <= N.max c (climb f 0 (concat (repeat ((e, d) :: rest) n)))).
  { intros k c. destruct k as [|k]; cbn [repeat concat]; [cbn; lia|]. cbn [app climb]. rewrite Hx. lia. }
  assert (G : forall n l c, climb f c (l ++ concat (repeat ((e, d) :: rest) n)) <= N.max (climb f c l) (climb f 0 (concat (repeat ((e, d) :: rest) n)))).
  { intros k. induction l as [|[e' d'] l IH]; intros c; cbn [app climb]; [apply G0|]. destruct (f d'); [apply IH|]. specialize (IH 0). lia. }
  induction n as [|n IH]; [cbn; lia|]. cbn [repeat concat app climb]. rewrite Hx. specialize (G n rest 0). lia.
Qed.

Definition counted (ss : list span) (d : N) : option N := option_map (fun k => k + 1) (spans_get ss d).
Lemma rc5_counted n d : rc5_counts 1000000 n d -> counted rc5_windows d = Some n.
Proof.
  intros H. unfold counted, rc5_windows. pose proof (rc5_counts_some MU32 1000000 d I (exact_mhz MU32 1 ltac:(lia))) as K.
  destruct (spans_get _ d) as [k|]; cbn [option_map].
  - f_equal. exact (rc5_counts_one _ _ _ _ K H).
  - destruct (rc5_counts_not _ _ _ H K).
Qed.
Lemma rc6_counted n d : rc6_counts 1000000 n d -> counted rc6_windows d = Some n.
Proof.
  intros H. unfold counted, rc6_windows. pose proof (rc6_counts_some MU32 1000000 d I (exact_mhz MU32 1 ltac:(lia))) as K.
  destruct (spans_get _ d) as [k|]; cbn [option_map].
  - f_equal. exact (rc6_counts_one _ _ _ _ K H).
  - destruct (rc6_counts_not _ _ _ H K).
Qed.

(** A frame repeated any number of times, on a machine with a [usize] of only 8 bits; the test
    with 40 frames is far beyond the length that C40_rc5_partial allows. *)
Example C40_stretch_example :
  (forall n, stretches_below (rc5_counts 1000000) (2 ^ usize_bits (debug_build 8)) (concat (repeat (rc5_word_edges 4242) n))) /\
  (forall n, stretches_below (rc6_counts 1000000) (2 ^ usize_bits (debug_build 8)) (concat (repeat (rc6_word_edges true 4242) n))) /\
  outcome_kind (outcomes_of (rc5_protocol (debug_build 8) MU32) 1000000 (fun c => c) (concat (repeat (rc5_word_edges 4242) 40))) = Some true /\
  outcome_kind (outcomes_of (rc6_protocol (debug_build 8) MU32) 1000000 (fun c => c) (concat (repeat (rc6_word_edges true 4242) 40))) = Some true.
Proof.
  split; [|split].
  - intros n. apply (stretches_weaken _ (fun n d => counted rc5_windows d = Some n)); [exact rc5_counted|]. apply climb_below.
    replace (rc5_word_edges 4242) with (hd (true, 0) (rc5_word_edges 4242) :: tl (rc5_word_edges 4242)) by (vm_compute; reflexivity).
    apply climb_frames; vm_compute; reflexivity.
  - intros n. apply (stretches_weaken _ (fun n d => counted rc6_windows d = Some n)); [exact rc6_counted|]. apply climb_below.
    replace (rc6_word_edges true 4242) with (hd (true, 0) (rc6_word_edges true 4242) :: tl (rc6_word_edges true 4242)) by (vm_compute; reflexivity).
    apply climb_frames; vm_compute; reflexivity.
  - split; vm_compute; reflexivity.
Qed.
