(** * Properties C12-C17: scaling and tolerance windows *)
From Coq Require Import NArith ZArith List Bool Lia ZifyBool ZifyNat ZifyN.
From Verif Require Import Machine Spec Bits Time Decoder Nec Rc5 Rc6 Denon Sbp Receiver Time_facts Window_facts.
Import ListNotations.
Open Scope N_scope.

(** ** C12 *)
Theorem C12_scale_total :
  forall len rate, len < 2 ^ 32 -> rate < 2 ^ 32 ->
  (scale_with_samplerate len rate = Panic <-> 2 ^ 32 <= len * (rate / 1000000)) /\
  (len * (rate / 1000000) < 2 ^ 32 ->
     exists n, scale_with_samplerate len rate = Val n /\ n <= nominal rate len /\
       (len * rate < 2 ^ 32 -> n = nominal rate len)).
Proof.
  intros len rate Hl Hr. rewrite M32_eq in *. rewrite scale_cases by auto. unfold nominal.
  pose proof (mul_div_le len rate 1000). pose proof (mul_div_le len rate 1000000).
  destruct (N.ltb_spec (len * rate) M32) as [H1|H1].
  - split; [split; [discriminate|lia]|]. intros _. eexists. split; [reflexivity|]. auto with arith.
    split; auto. lia.
  - destruct (N.ltb_spec (len * (rate / 1000)) M32) as [H2|H2].
    + assert (len * (rate / 1000000) <= len * (rate / 1000)) by (apply N.mul_le_mono_l; lia).
      split; [split; [discriminate|lia]|]. intros _. eexists. split; [reflexivity|].
      split; [|lia]. lia.
    + destruct (N.ltb_spec (len * (rate / 1000000)) M32) as [H3|H3].
      * split; [split; [discriminate|lia]|]. intros _. eexists. split; [reflexivity|].
        split; [|lia]. lia.
      * split; [tauto|lia].
Qed.
Print Assumptions C12_scale_total.

(** Every length used by a protocol is at most 13500 microseconds. *)
Theorem C12_scale_accurate :
  forall len rate, len <= 13500 -> rate < 2 ^ 32 ->
  exists n, scale_with_samplerate len rate = Val n /\
    1000000 * n <= len * rate /\
    318 * (len * rate) <= 318 * (1000000 * (n + 1)) + len * rate.
Proof.
  intros len rate Hl Hr. destruct (scale_base len rate Hl Hr) as (n & E & H1 & _ & H3 & _).
  exists n. auto.
Qed.
Print Assumptions C12_scale_accurate.

Example C12_example :
  scale_with_samplerate 9000 40000 = Val 360 /\
  scale_with_samplerate 13500 1000999 = Val 13500 /\
  scale_with_samplerate 2000000 4294000000 = Panic.
Proof. repeat split; vm_compute; reflexivity. Qed.

(** ** C13 *)

(** The protocols of the crate. *)
Definition all_protocols (b : build) (m : mono) : list protocol :=
  [ nec_protocol b m NecStandard; nec_protocol b m NecSamsung; nec_protocol b m Nec16Bit;
    nec_protocol b m NecRaw; nec_protocol b m NecApple;
    rc5_protocol b m; rc6_protocol b m; denon_protocol b m; sbp_protocol b m ].

Theorem C13_build_never_panics :
  forall b m freq, timebase m freq -> freq < 2 ^ 32 ->
  Forall (fun P => exists d, p_build P freq = Val d) (all_protocols b m).
Proof.
  intros b m freq Hm Hf.
  pose proof nec_std_ok. pose proof nec_samsung_ok. pose proof rc5_ok.
  pose proof rc6_ok. pose proof denon_ok. pose proof sbp_ok.
  repeat (apply Forall_cons;
    [cbn [p_build nec_protocol rc5_protocol rc6_protocol denon_protocol sbp_protocol];
     unfold nec_build, rc5_build, rc6_build, denon_build, sbp_build;
     cbn [nv_timing NecStandard NecSamsung Nec16Bit NecRaw NecApple];
     rewrite pulse_spans_val by auto; eexists; reflexivity |]).
  apply Forall_nil.
Qed.
Print Assumptions C13_build_never_panics.

(** Debug and release builds, and any width of [usize], give the same decoder. *)
Theorem C13_build_profile_independent :
  forall b b' m freq, timebase m freq -> freq < 2 ^ 32 ->
  nec_build b m NecStandard freq = nec_build b' m NecStandard freq /\
  nec_build b m NecSamsung freq = nec_build b' m NecSamsung freq /\
  nec_build b m Nec16Bit freq = nec_build b' m Nec16Bit freq /\
  nec_build b m NecRaw freq = nec_build b' m NecRaw freq /\
  nec_build b m NecApple freq = nec_build b' m NecApple freq /\
  rc5_build b m freq = rc5_build b' m freq /\
  rc6_build b m freq = rc6_build b' m freq /\
  denon_build b m freq = denon_build b' m freq /\
  sbp_build b m freq = sbp_build b' m freq.
Proof.
  intros b b' m freq Hm Hf.
  pose proof nec_std_ok. pose proof nec_samsung_ok. pose proof rc5_ok.
  pose proof rc6_ok. pose proof denon_ok. pose proof sbp_ok.
  unfold nec_build, rc5_build, rc6_build, denon_build, sbp_build;
     cbn [nv_timing NecStandard NecSamsung Nec16Bit NecRaw NecApple].
  repeat split; rewrite !pulse_spans_val by auto; reflexivity.
Qed.
Print Assumptions C13_build_profile_independent.

Example C13_example :
  timebase MU32 4294967295 /\
  nec_build (debug_build 32) MU32 NecStandard 40000 =
    Val (mkNecDec NInit 0 0
      [mkSpan 503 577; mkSpan 419 481; mkSpan 33 55; mkSpan 80 100;
       mkSpan 0 0; mkSpan 0 0; mkSpan 0 0; mkSpan 0 0]).
Proof. split; [exact I|vm_compute; reflexivity]. Qed.

(** ** C14 *)

(** All (pulse, tolerance) pairs of all protocols. *)
Definition all_pulses : list (N * N) :=
  nec_pulses NEC_STANDARD_TIMING ++ nec_pulses NEC_SAMSUNG_TIMING ++ rc5_pulses ++ rc6_pulses
  ++ denon_pulses ++ sbp_pulses.

Theorem C14_window :
  forall b m freq p t d, timebase m freq -> freq < 2 ^ 32 -> In (p, t) all_pulses -> 0 < p ->
  exists s, create_span b m freq p t = Val s /\
    (near freq p (guaranteed freq t) d -> contains s d = true) /\
    (contains s d = true -> near freq p (t + 1) d) /\
    (freq <= 318000 -> (contains s d = true <-> near freq p t d)).
Proof.
  intros b m freq p t d Hm Hf Hin Hp.
  assert (A : p <= 13500 /\ p * t <= 100000 /\ t <= 25 /\ 1 <= t).
  { assert (E : forallb (fun x => (fst x =? 0) || ((fst x <=? 13500) && (fst x * snd x <=? 100000)
                 && (snd x <=? 25) && (1 <=? snd x))) all_pulses = true) by reflexivity.
    rewrite forallb_forall in E. apply E in Hin. cbn [fst snd] in Hin. lia. }
  destruct A as (A1 & A2 & A3 & A4).
  eexists. split; [apply create_span_val; auto|].
  pose proof (base_of_ok m freq p Hm Hf A1) as Hb.
  rewrite contains_window by lia. split; [|split].
  - apply near_inwin; auto.
  - apply inwin_near; auto.
  - intros H. rewrite (base_exact _ _ _ Hb (small_freq _ _ A1 H)). reflexivity.
Qed.
Print Assumptions C14_window.

(** The zero bit of NEC at 40 kHz: 44 ticks, accepted from 33 to 55. *)
Example C14_example :
  In (1120, 25) all_pulses /\ near 40000 1120 (guaranteed 40000 25) 55 /\
  ~ near 40000 1120 25 56 /\
  create_span (debug_build 32) MU32 40000 1120 25 = Val (mkSpan 33 55).
Proof.
  split; [|split; [|split]].
  - vm_compute. tauto.
  - vm_compute. split; discriminate.
  - vm_compute. intros [H _]. apply H. reflexivity.
  - vm_compute. reflexivity.
Qed.

(** ** C15 *)

Theorem C15_pulses_distinct :
  forall b m freq, timebase m freq -> freq < 2 ^ 32 ->
  (893 <= freq -> exists ss, pulse_spans_new b m freq (nec_pulses NEC_STANDARD_TIMING) = Val ss /\ pulses_distinct 4 ss) /\
  (893 <= freq -> exists ss, pulse_spans_new b m freq (nec_pulses NEC_SAMSUNG_TIMING) = Val ss /\ pulses_distinct 4 ss) /\
  (1191 <= freq -> exists ss, pulse_spans_new b m freq denon_pulses = Val ss /\ pulses_distinct 3 ss) /\
  (1000 <= freq -> exists ss, pulse_spans_new b m freq sbp_pulses = Val ss /\ pulses_distinct 4 ss) /\
  (1125 <= freq -> exists ss, pulse_spans_new b m freq rc5_pulses = Val ss /\ pulses_distinct 2 ss) /\
  (2253 <= freq -> exists ss, pulse_spans_new b m freq rc6_pulses = Val ss /\ pulses_distinct 3 ss).
Proof.
  intros b m freq Hm Hf. repeat split; intros H.
  all: eexists; split; [apply pulse_spans_val; auto using nec_std_ok, nec_samsung_ok, denon_ok, sbp_ok, rc5_ok, rc6_ok|].
  - apply nec_distinct; auto.
  - apply nec_distinct; auto.
  - apply denon_distinct; auto.
  - apply sbp_distinct; auto.
  - apply rc5_distinct; auto.
  - apply rc6_distinct; auto.
Qed.
Print Assumptions C15_pulses_distinct.

(** At 892 Hz the zero bit (0 ticks) cannot be told from an unused entry; the
    four-, five- and six-unit windows of RC6 overlap at every practical rate. *)
Example C15_example :
  (exists ss, pulse_spans_new (debug_build 32) MU32 893 (nec_pulses NEC_STANDARD_TIMING) = Val ss /\
     exists s, nth_error ss 2 = Some s /\ contains s 1 = true) /\
  (exists ss, pulse_spans_new (debug_build 32) MU32 892 (nec_pulses NEC_STANDARD_TIMING) = Val ss /\
     ~ pulses_distinct 4 ss) /\
  (exists ss, pulse_spans_new (debug_build 32) MU32 1000000 rc6_pulses = Val ss /\
     exists s4 s5, nth_error ss 3 = Some s4 /\ nth_error ss 4 = Some s5 /\
       contains s4 1980 = true /\ contains s5 1980 = true).
Proof.
  split; [|split]; eexists; (split; [vm_compute; reflexivity|]).
  - eexists. split; reflexivity.
  - intros H. specialize (H 2%nat 4%nat _ _ 0 ltac:(lia) ltac:(lia) eq_refl eq_refl eq_refl). discriminate H.
  - do 2 eexists. repeat split.
Qed.

(** ** C16 *)

(** [PulseSpans::new] always gives windows with [low <= high], as for every table
    below; the statement is about any such table. *)
Theorem C16_check_overlaps :
  forall ss, (forall s, In s ss -> low s <= high s) ->
  (check_overlaps ss = true <->
   exists i j s1 s2 d, i <> j /\ nth_error ss i = Some s1 /\ nth_error ss j = Some s2 /\
     contains s1 d = true /\ contains s2 d = true).
Proof.
  intros ss Hw. rewrite check_overlaps_spec by auto. unfold share. split.
  - intros (i & j & s1 & s2 & H1 & H2 & H3 & d & H4 & H5). exists i, j, s1, s2, d. auto.
  - intros (i & j & s1 & s2 & d & H1 & H2 & H3 & H4 & H5). exists i, j, s1, s2. eauto 6.
Qed.
Print Assumptions C16_check_overlaps.

(** Windows built by [PulseSpans::new] meet the hypothesis of the theorem above. *)
Theorem C16_windows_ordered :
  forall b m freq pt ss, timebase m freq -> freq < 2 ^ 32 ->
  (forall p t, In (p, t) pt -> In (p, t) all_pulses) ->
  pulse_spans_new b m freq pt = Val ss -> forall s, In s ss -> low s <= high s.
Proof.
  intros b m freq pt ss Hm Hf Hin E s Hs.
  assert (Ht : table_ok pt).
  { apply Forall_forall. intros [p t] H. apply Hin in H. cbn [fst snd].
    assert (T : table_ok all_pulses) by (apply table_ok_dec; reflexivity).
    unfold table_ok in T. rewrite Forall_forall in T. apply T in H. exact H. }
  rewrite pulse_spans_val in E by auto. injection E as <-.
  unfold spans_of in Hs. apply in_map_iff in Hs. destruct Hs as ((p & t) & <- & _).
  unfold window. cbn [low high]. lia.
Qed.
Print Assumptions C16_windows_ordered.

Example C16_example :
  check_overlaps [mkSpan 3 5; mkSpan 6 9] = false /\ check_overlaps [mkSpan 3 6; mkSpan 6 9] = true /\
  check_overlaps [mkSpan 6 9; mkSpan 0 20] = true.
Proof. repeat split; reflexivity. Qed.

(** ** C17: refuted.  All tables are padded with zero entries to eight windows,
    and two padding windows share the duration 0, so the check reports an overlap
    for every table, at every rate. *)
Theorem C17_check_overlaps_refuted :
  forall b m freq, timebase m freq -> freq < 2 ^ 32 ->
  Forall (fun pt => exists ss, pulse_spans_new b m freq pt = Val ss /\ check_overlaps ss = true)
    [ nec_pulses NEC_STANDARD_TIMING; nec_pulses NEC_SAMSUNG_TIMING; rc5_pulses; rc6_pulses;
      denon_pulses; sbp_pulses ].
Proof.
  intros b m freq Hm Hf.
  assert (K : forall pt p1 t1 t2, table_ok pt -> nth_error pt 6 = Some (0, t1) -> nth_error pt 7 = Some (p1, t2) ->
    p1 = 0 -> exists ss, pulse_spans_new b m freq pt = Val ss /\ check_overlaps ss = true).
  { intros pt p1 t1 t2 Ht E6 E7 ->. eexists. split; [apply pulse_spans_val; auto|].
    apply C16_check_overlaps.
    - intros s Hs. unfold spans_of in Hs. apply in_map_iff in Hs. destruct Hs as ((p & t) & <- & _).
      unfold window. cbn [low high]. lia.
    - exists 6%nat, 7%nat. do 2 eexists. exists 0. split; [discriminate|].
      unfold spans_of. rewrite !nth_error_map, E6, E7. cbn [option_map fst snd].
      split; [reflexivity|]. split; [reflexivity|].
      pose proof (base_of_ok m freq 0 Hm Hf ltac:(lia)) as Z. apply base_zero in Z. rewrite Z.
      split; vm_compute; reflexivity. }
  repeat apply Forall_cons; try apply Forall_nil; eapply K; try reflexivity;
    auto using nec_std_ok, nec_samsung_ok, rc5_ok, rc6_ok, denon_ok, sbp_ok.
Qed.
Print Assumptions C17_check_overlaps_refuted.

(** The part of the check that concerns the real pulses does work: restricted to
    the pulses of the protocol the windows have no overlap. *)
Theorem C17_check_overlaps_partial :
  forall b m freq, timebase m freq -> freq < 2 ^ 32 -> 1191 <= freq ->
  Forall (fun kpt => exists ss, pulse_spans_new b m freq (snd kpt) = Val ss /\
                       check_overlaps (firstn (fst kpt) ss) = false)
    [ (4%nat, nec_pulses NEC_STANDARD_TIMING); (4%nat, nec_pulses NEC_SAMSUNG_TIMING);
      (2%nat, rc5_pulses); (3%nat, denon_pulses); (4%nat, sbp_pulses) ].
Proof.
  intros b m freq Hm Hf H.
  assert (K : forall k pt, table_ok pt -> pulses_distinct k (spans_of m freq pt) ->
    exists ss, pulse_spans_new b m freq pt = Val ss /\ check_overlaps (firstn k ss) = false).
  { intros k pt Ht Hd. eexists. split; [apply pulse_spans_val; auto|].
    apply not_true_is_false. intros C. apply C16_check_overlaps in C.
    - destruct C as (i & j & s1 & s2 & d & Hij & E1 & E2 & D1 & D2).
      assert (Hi : (i < k)%nat).
      { assert (Q : (i < length (firstn k (spans_of m freq pt)))%nat) by (apply nth_error_Some; congruence).
        rewrite firstn_length in Q. lia. }
      assert (S : forall n s, nth_error (firstn k (spans_of m freq pt)) n = Some s ->
                  nth_error (spans_of m freq pt) n = Some s).
      { intros n s E. rewrite <- (firstn_skipn k (spans_of m freq pt)).
        rewrite nth_error_app1; auto. apply nth_error_Some. congruence. }
      rewrite (Hd i j s1 s2 d Hi Hij (S _ _ E1) (S _ _ E2) D1) in D2. discriminate D2.
    - intros s Hs.
      assert (Hs' : In s (spans_of m freq pt)).
      { rewrite <- (firstn_skipn k (spans_of m freq pt)). apply in_or_app. auto. }
      unfold spans_of in Hs'. apply in_map_iff in Hs'. destruct Hs' as ((p & t) & <- & _).
      unfold window. cbn [low high]. lia. }
  repeat apply Forall_cons; try apply Forall_nil; cbn [fst snd]; apply K;
    auto using nec_std_ok, nec_samsung_ok, rc5_ok, denon_ok, sbp_ok.
  - apply nec_distinct; auto. lia.
  - apply nec_distinct; auto. lia.
  - apply rc5_distinct; auto. lia.
  - apply denon_distinct; auto.
  - apply sbp_distinct; auto. lia.
Qed.
Print Assumptions C17_check_overlaps_partial.

Example C17_example :
  exists ss, pulse_spans_new (debug_build 32) MU32 40000 (nec_pulses NEC_STANDARD_TIMING) = Val ss /\
    check_overlaps ss = true /\ check_overlaps (firstn 4 ss) = false.
Proof. eexists. split; [vm_compute; reflexivity|]. split; vm_compute; reflexivity. Qed.
