(** * Property C90: what a polled pin or a recorded buffer gives, whatever the signal *)
From Coq Require Import NArith ZArith List Bool Lia ZifyBool ZifyNat ZifyN.
From Verif Require Import Machine Spec Spec_receiver Bits Time Decoder Nec Rc5 Rc6 Denon Sbp Receiver
  Time_facts Run_facts Receiver_facts Nec_facts Denon_facts Sbp_facts Example_facts Spec_sound Sound_facts Cross_facts Spec_rate Rate_facts
  Props_decode Props_receiver Spec_grammar Grammar_facts Props_grammar Spec_biread Biread_facts Props_biread Props_stretch.
Import ListNotations.
Open Scope N_scope.

(** ** From the outcomes at the edges to those of a poller and of a buffer *)

Section entries.
  Context (P : protocol) (freq : N) {C : Type} (into : dcmd (p_dec P) -> C).
  Let reported (h : list edge) (os : list (outcome C)) : Prop :=
    exists r0 r, receiver_new P freq = Val r0 /\ run_edges into r0 h = Val (r, os).

  Lemma polled_any levels os : short (level_edges false 1 levels) -> reported (level_edges false 1 levels) os ->
    exists p0, poll_new P freq = Val p0 /\ outs (run_polls into p0 levels) = Val (at_changes (ROk None) false levels os).
  Proof.
    intros Hs (r0 & r & E0 & E).
    assert (Ep : exists p0, poll_new P freq = Val p0).
    { unfold poll_new, receiver_new in *. destruct (p_build P freq); cbn [bind] in *; try discriminate. eauto. }
    destruct Ep as (p0 & Ep). exists p0. split; [exact Ep|]. rewrite (C47_poll P freq C into levels p0 r0 Ep E0).
    - rewrite E. reflexivity.
    - eapply Forall_impl; [|exact Hs]. cbn. intros a Ha. etransitivity; [exact Ha|reflexivity].
  Qed.

  Lemma buffer_any buf os : reported (alternating true buf) os ->
    exists it0, iter_new P freq buf = Val it0 /\
      (forall calls, (length buf <= calls)%nat -> outs (drain into calls it0) = Val (commands os)).
  Proof.
    intros (r0 & r & E0 & E).
    assert (Ei : exists it0, iter_new P freq buf = Val it0).
    { unfold iter_new, receiver_new in *. destruct (p_build P freq); cbn [bind] in *; try discriminate. eauto. }
    destruct Ei as (it0 & Ei). exists it0. split; [exact Ei|]. intros calls Hc.
    destruct (C48_next_all P freq buf C into r0 r os it0 calls E0 Ei E Hc) as (it & ->). reflexivity.
  Qed.

  Lemma collected_any b m buf os : In P (parsing_protocols b m) -> reported (alternating true buf) os ->
    exists it0, iter_new P freq buf = Val it0 /\ outs (collect into it0) = Val (commands_before_error os) /\
      (forall calls, (length buf <= calls)%nat -> outs (drain into calls it0) = Val (commands os)).
  Proof.
    intros HP R. destruct (buffer_any buf os R) as (it0 & Ei & D). exists it0. split; [exact Ei|]. split; [|exact D].
    destruct R as (r0 & r & E0 & E).
    destruct (C48_buffer_partial b m P freq buf C into r0 r os it0 HP E0 Ei E) as ((it & ->) & _). reflexivity.
  Qed.
End entries.

Lemma alt_no_double h : forall f, alt f h -> no_double_rise h.
Proof.
  induction h as [|[[|] d] h IH]; intros f A; [exact I| |].
  - destruct A as (<- & A). destruct h as [|[[|] d'] h]; [exact I|destruct A; discriminate|]. exact (IH _ A).
  - destruct A as (<- & A). exact (IH _ A).
Qed.
Lemma alt_alternating buf : forall f, alt f (alternating f buf).
Proof. induction buf as [|d buf IH]; intros f; [exact I|]. split; [reflexivity|apply IH]. Qed.
Lemma short_alternating buf : Forall (fun d => d < 2 ^ 31) buf -> forall f, short (alternating f buf).
Proof. induction 1 as [|d buf Hd H IH]; intros f; constructor; [exact Hd|apply IH]. Qed.
Lemma alternating_length buf : forall f, length (alternating f buf) = length buf.
Proof. induction buf as [|d buf IH]; intros f; [reflexivity|]. cbn [alternating length]. rewrite IH. reflexivity. Qed.

(** ** C90

    [level_edges false 1 levels]: the changes of the sampled pin, with the number of samples
    since the change before.  [alternating true buf]: the entries of the buffer as intervals
    before alternately rising and falling edges.  The readings ([nec_reading], [rc5_reads], ...)
    and the reports are those of C88 and C89; C88 and C89 say that every signal has a reading.
    A poller reports at each sample, a buffer is read with [next] or collected in one go. *)

Theorem C90_nec :
  forall b m freq C (into : nec_command -> C),
  timebase m freq -> 893 <= freq /\ exact_rate m freq ->
  let said h ps (rest : list nec_sign) :=
    map (reports (fun '(w, rep) => Some (into (mkNec (field w 0 8) (field w 16 8) rep)))
                 (fun _ => EData))
        (at_rises h (nec_hears 0 ps ++ repeat Nothing (length rest))) in
  (forall levels ps rest, let h := level_edges false 1 levels in short h -> nec_reading freq 13500 11250 h ps rest ->
   exists p0, poll_new (nec_protocol b m NecStandard) freq = Val p0 /\
     outs (run_polls (D := nec_dec b m NecStandard) into p0 levels) = Val (at_changes (ROk None) false levels (said h ps rest))) /\
  (forall buf ps rest, let h := alternating true buf in Forall (fun d => d < 2 ^ 31) buf -> nec_reading freq 13500 11250 h ps rest ->
   exists it0, iter_new (nec_protocol b m NecStandard) freq buf = Val it0 /\
     outs (collect (D := nec_dec b m NecStandard) into it0) = Val (commands_before_error (said h ps rest)) /\
     forall calls, (length buf <= calls)%nat -> outs (drain (D := nec_dec b m NecStandard) into calls it0) = Val (commands (said h ps rest))).
Proof.
  intros b m freq C into Hm Hf said. split.
  - intros levels ps rest h Hs R. apply (polled_any (nec_protocol b m NecStandard) freq into); [exact Hs|].
    exact (proj2 (C88_nec b m freq C into h Hm Hf (short_fits h Hs)) ps rest R).
  - intros buf ps rest h Hs R. apply (collected_any (nec_protocol b m NecStandard) freq into b m); [unfold parsing_protocols; cbn [In]; tauto|].
    exact (proj2 (C88_nec b m freq C into h Hm Hf (short_fits h (short_alternating buf Hs true))) ps rest R).
Qed.
Print Assumptions C90_nec.

Theorem C90_nec16 :
  forall b m freq C (into : nec16_command -> C),
  timebase m freq -> 893 <= freq /\ exact_rate m freq ->
  let said h ps (rest : list nec_sign) :=
    map (reports (fun '(w, rep) => Some (into (mkNec16 (field w 0 16) (field w 16 8) rep)))
                 (fun _ => EData))
        (at_rises h (nec_hears 0 ps ++ repeat Nothing (length rest))) in
  (forall levels ps rest, let h := level_edges false 1 levels in short h -> nec_reading freq 13500 11250 h ps rest ->
   exists p0, poll_new (nec_protocol b m Nec16Bit) freq = Val p0 /\
     outs (run_polls (D := nec_dec b m Nec16Bit) into p0 levels) = Val (at_changes (ROk None) false levels (said h ps rest))) /\
  (forall buf ps rest, let h := alternating true buf in Forall (fun d => d < 2 ^ 31) buf -> nec_reading freq 13500 11250 h ps rest ->
   exists it0, iter_new (nec_protocol b m Nec16Bit) freq buf = Val it0 /\
     outs (collect (D := nec_dec b m Nec16Bit) into it0) = Val (commands_before_error (said h ps rest)) /\
     forall calls, (length buf <= calls)%nat -> outs (drain (D := nec_dec b m Nec16Bit) into calls it0) = Val (commands (said h ps rest))).
Proof.
  intros b m freq C into Hm Hf said. split.
  - intros levels ps rest h Hs R. apply (polled_any (nec_protocol b m Nec16Bit) freq into); [exact Hs|].
    exact (proj2 (C88_nec16 b m freq C into h Hm Hf (short_fits h Hs)) ps rest R).
  - intros buf ps rest h Hs R. apply (collected_any (nec_protocol b m Nec16Bit) freq into b m); [unfold parsing_protocols; cbn [In]; tauto|].
    exact (proj2 (C88_nec16 b m freq C into h Hm Hf (short_fits h (short_alternating buf Hs true))) ps rest R).
Qed.
Print Assumptions C90_nec16.

Theorem C90_raw :
  forall b m freq C (into : nec_debug_cmd -> C),
  timebase m freq -> 893 <= freq /\ exact_rate m freq ->
  let said h ps (rest : list nec_sign) :=
    map (reports (fun '(w, _) => Some (into (mkNecDebug w)))
                 (fun _ => EData))
        (at_rises h (nec_hears 0 ps ++ repeat Nothing (length rest))) in
  (forall levels ps rest, let h := level_edges false 1 levels in short h -> nec_reading freq 13500 11250 h ps rest ->
   exists p0, poll_new (nec_protocol b m NecRaw) freq = Val p0 /\
     outs (run_polls (D := nec_dec b m NecRaw) into p0 levels) = Val (at_changes (ROk None) false levels (said h ps rest))) /\
  (forall buf ps rest, let h := alternating true buf in Forall (fun d => d < 2 ^ 31) buf -> nec_reading freq 13500 11250 h ps rest ->
   exists it0, iter_new (nec_protocol b m NecRaw) freq buf = Val it0 /\
     outs (collect (D := nec_dec b m NecRaw) into it0) = Val (commands_before_error (said h ps rest)) /\
     forall calls, (length buf <= calls)%nat -> outs (drain (D := nec_dec b m NecRaw) into calls it0) = Val (commands (said h ps rest))).
Proof.
  intros b m freq C into Hm Hf said. split.
  - intros levels ps rest h Hs R. apply (polled_any (nec_protocol b m NecRaw) freq into); [exact Hs|].
    exact (proj2 (C88_raw b m freq C into h Hm Hf (short_fits h Hs)) ps rest R).
  - intros buf ps rest h Hs R. apply (collected_any (nec_protocol b m NecRaw) freq into b m); [unfold parsing_protocols; cbn [In]; tauto|].
    exact (proj2 (C88_raw b m freq C into h Hm Hf (short_fits h (short_alternating buf Hs true))) ps rest R).
Qed.
Print Assumptions C90_raw.

Theorem C90_samsung :
  forall b m freq C (into : samsung_command -> C),
  timebase m freq -> 893 <= freq /\ exact_rate m freq ->
  let said h ps (rest : list nec_sign) :=
    map (reports (fun '(w, rep) => Some (into (mkSamsung (field w 0 8) (field w 16 8) rep)))
                 (fun _ => EData))
        (at_rises h (nec_hears 0 ps ++ repeat Nothing (length rest))) in
  (forall levels ps rest, let h := level_edges false 1 levels in short h -> nec_reading freq 9000 6750 h ps rest ->
   exists p0, poll_new (nec_protocol b m NecSamsung) freq = Val p0 /\
     outs (run_polls (D := nec_dec b m NecSamsung) into p0 levels) = Val (at_changes (ROk None) false levels (said h ps rest))) /\
  (forall buf ps rest, let h := alternating true buf in Forall (fun d => d < 2 ^ 31) buf -> nec_reading freq 9000 6750 h ps rest ->
   exists it0, iter_new (nec_protocol b m NecSamsung) freq buf = Val it0 /\
     outs (collect (D := nec_dec b m NecSamsung) into it0) = Val (commands_before_error (said h ps rest)) /\
     forall calls, (length buf <= calls)%nat -> outs (drain (D := nec_dec b m NecSamsung) into calls it0) = Val (commands (said h ps rest))).
Proof.
  intros b m freq C into Hm Hf said. split.
  - intros levels ps rest h Hs R. apply (polled_any (nec_protocol b m NecSamsung) freq into); [exact Hs|].
    exact (proj2 (C88_samsung b m freq C into h Hm Hf (short_fits h Hs)) ps rest R).
  - intros buf ps rest h Hs R. apply (collected_any (nec_protocol b m NecSamsung) freq into b m); [unfold parsing_protocols; cbn [In]; tauto|].
    exact (proj2 (C88_samsung b m freq C into h Hm Hf (short_fits h (short_alternating buf Hs true))) ps rest R).
Qed.
Print Assumptions C90_samsung.

(** An Apple receiver drops a complete frame that is not an Apple frame, which ends a collection
    (C48); with [next] nothing is lost. *)
Theorem C90_apple :
  forall b m freq C (into : apple_command -> C),
  timebase m freq -> 893 <= freq /\ exact_rate m freq ->
  let said h ps (rest : list nec_sign) :=
    map (reports (fun '(w, rep) => if (field w 5 11 =? 1087) && Nat.odd (ones (bits_lsb 32 w))
                   then Some (into (mkApple (field w 0 5) (field w 17 7) (field w 24 8) rep)) else None)
                 (fun _ => EData))
        (at_rises h (nec_hears 0 ps ++ repeat Nothing (length rest))) in
  (forall levels ps rest, let h := level_edges false 1 levels in short h -> nec_reading freq 13500 11250 h ps rest ->
   exists p0, poll_new (nec_protocol b m NecApple) freq = Val p0 /\
     outs (run_polls (D := nec_dec b m NecApple) into p0 levels) = Val (at_changes (ROk None) false levels (said h ps rest))) /\
  (forall buf ps rest, let h := alternating true buf in Forall (fun d => d < 2 ^ 31) buf -> nec_reading freq 13500 11250 h ps rest ->
   exists it0, iter_new (nec_protocol b m NecApple) freq buf = Val it0 /\
     forall calls, (length buf <= calls)%nat -> outs (drain (D := nec_dec b m NecApple) into calls it0) = Val (commands (said h ps rest))).
Proof.
  intros b m freq C into Hm Hf said. split.
  - intros levels ps rest h Hs R. apply (polled_any (nec_protocol b m NecApple) freq into); [exact Hs|].
    exact (proj2 (C88_apple b m freq C into h Hm Hf (short_fits h Hs)) ps rest R).
  - intros buf ps rest h Hs R. apply (buffer_any (nec_protocol b m NecApple) freq into).
    exact (proj2 (C88_apple b m freq C into h Hm Hf (short_fits h (short_alternating buf Hs true))) ps rest R).
Qed.
Print Assumptions C90_apple.

Theorem C90_denon :
  forall b m freq C (into : denon_command -> C),
  timebase m freq -> 1191 <= freq /\ exact_rate m freq ->
  let said h ps (rest : list denon_sign) :=
    map (reports (fun bits => Some (into (mkDenon bits)))
                 (fun _ => EData))
        (at_rises h (denon_hears 0 ps ++ repeat Nothing (length rest))) in
  (forall levels ps rest, let h := level_edges false 1 levels in short h -> denon_reading freq h ps rest ->
   exists p0, poll_new (denon_protocol b m) freq = Val p0 /\
     outs (run_polls (D := denon_dec b m) into p0 levels) = Val (at_changes (ROk None) false levels (said h ps rest))) /\
  (forall buf ps rest, let h := alternating true buf in Forall (fun d => d < 2 ^ 31) buf -> denon_reading freq h ps rest ->
   exists it0, iter_new (denon_protocol b m) freq buf = Val it0 /\
     outs (collect (D := denon_dec b m) into it0) = Val (commands_before_error (said h ps rest)) /\
     forall calls, (length buf <= calls)%nat -> outs (drain (D := denon_dec b m) into calls it0) = Val (commands (said h ps rest))).
Proof.
  intros b m freq C into Hm Hf said. split.
  - intros levels ps rest h Hs R. apply (polled_any (denon_protocol b m) freq into); [exact Hs|].
    exact (proj2 (C88_denon b m freq C into h Hm Hf (short_fits h Hs)) ps rest R).
  - intros buf ps rest h Hs R. apply (collected_any (denon_protocol b m) freq into b m); [unfold parsing_protocols; cbn [In]; tauto|].
    exact (proj2 (C88_denon b m freq C into h Hm Hf (short_fits h (short_alternating buf Hs true))) ps rest R).
Qed.
Print Assumptions C90_denon.

Theorem C90_sbp :
  forall b m freq C (into : sbp_command -> C),
  timebase m freq -> 1000 <= freq /\ exact_rate m freq ->
  let said h ps (rest : list sbp_sign) :=
    map (reports (fun '(a, c) => Some (into (mkSbp a (field c 4 8) (field c 12 8 =? compl8 (field c 4 8)))))
                 (fun in_address : bool => if in_address then EAddress else EData))
        (at_rises h (sbp_hears ps ++ repeat Nothing (length rest))) in
  (forall levels ps rest, let h := level_edges false 1 levels in short h -> sbp_reading freq h ps rest ->
   exists p0, poll_new (sbp_protocol b m) freq = Val p0 /\
     outs (run_polls (D := sbp_dec b m) into p0 levels) = Val (at_changes (ROk None) false levels (said h ps rest))) /\
  (forall buf ps rest, let h := alternating true buf in Forall (fun d => d < 2 ^ 31) buf -> sbp_reading freq h ps rest ->
   exists it0, iter_new (sbp_protocol b m) freq buf = Val it0 /\
     outs (collect (D := sbp_dec b m) into it0) = Val (commands_before_error (said h ps rest)) /\
     forall calls, (length buf <= calls)%nat -> outs (drain (D := sbp_dec b m) into calls it0) = Val (commands (said h ps rest))).
Proof.
  intros b m freq C into Hm Hf said. split.
  - intros levels ps rest h Hs R. apply (polled_any (sbp_protocol b m) freq into); [exact Hs|].
    exact (proj2 (C88_sbp b m freq C into h Hm Hf (alt_no_double h true (alt_level levels false 1)) (short_fits h Hs)) ps rest R).
  - intros buf ps rest h Hs R. apply (collected_any (sbp_protocol b m) freq into b m); [unfold parsing_protocols; cbn [In]; tauto|].
    exact (proj2 (C88_sbp b m freq C into h Hm Hf (alt_no_double h true (alt_alternating buf true)) (short_fits h (short_alternating buf Hs true))) ps rest R).
Qed.
Print Assumptions C90_sbp.

(** RC5 and RC6 receivers report no errors. *)
Lemma rc5_no_errors {C} (into : rc5_command -> C) os : commands_before_error (map (rc5_reports into) os) = commands (map (rc5_reports into) os).
Proof.
  unfold commands. induction os as [|o os IH]; [reflexivity|]. cbn [map flat_map commands_before_error].
  destruct o as [[|s [|t rest]]|]; cbn [rc5_reports app]; rewrite IH; reflexivity.
Qed.
Lemma rc6_no_errors {C} (into : rc6_command -> C) os : commands_before_error (map (rc6_reports into) os) = commands (map (rc6_reports into) os).
Proof.
  unfold commands. induction os as [|o os IH]; [reflexivity|]. cbn [map flat_map commands_before_error].
  destruct o as [[t bits]|]; cbn [rc6_reports app]; rewrite IH; reflexivity.
Qed.

Theorem C90_rc5 :
  forall b m freq C (into : rc5_command -> C),
  timebase m freq -> exact_rate m freq -> 8 <= usize_bits b ->
  (forall levels os, let h := level_edges false 1 levels in short h ->
   overflow_checks b = false \/ stretches_below (rc5_counts freq) (2 ^ usize_bits b) h -> rc5_reads freq h os ->
   exists p0, poll_new (rc5_protocol b m) freq = Val p0 /\
     outs (run_polls (D := rc5_dec b) into p0 levels) = Val (at_changes (ROk None) false levels (map (rc5_reports into) os))) /\
  (forall buf os, overflow_checks b = false \/ stretches_below (rc5_counts freq) (2 ^ usize_bits b) (alternating true buf) ->
   rc5_reads freq (alternating true buf) os ->
   exists it0, iter_new (rc5_protocol b m) freq buf = Val it0 /\
     outs (collect (D := rc5_dec b) into it0) = Val (commands (map (rc5_reports into) os)) /\
     forall calls, (length buf <= calls)%nat -> outs (drain (D := rc5_dec b) into calls it0) = Val (commands (map (rc5_reports into) os))).
Proof.
  intros b m freq C into Hm Hf Hu. split.
  - intros levels os h Hs Hl R. apply (polled_any (rc5_protocol b m) freq into); [exact Hs|].
    exact (C89_rc5_long b m freq C into h os Hm Hf Hu Hl R).
  - intros buf os Hl R. destruct (collected_any (rc5_protocol b m) freq into b m buf (map (rc5_reports into) os)) as (it0 & Ei & Ec & Ed).
    + unfold parsing_protocols; cbn [In]; tauto.
    + exact (C89_rc5_long b m freq C into _ os Hm Hf Hu Hl R).
    + exists it0. rewrite <- rc5_no_errors at 1. auto.
Qed.
Print Assumptions C90_rc5.

Theorem C90_rc6 :
  forall b m freq C (into : rc6_command -> C),
  timebase m freq -> exact_rate m freq -> 8 <= usize_bits b ->
  (forall levels os, let h := level_edges false 1 levels in short h ->
   overflow_checks b = false \/ stretches_below (rc6_counts freq) (2 ^ usize_bits b) h -> rc6_reads freq h os ->
   exists p0, poll_new (rc6_protocol b m) freq = Val p0 /\
     outs (run_polls (D := rc6_dec b) into p0 levels) = Val (at_changes (ROk None) false levels (map (rc6_reports into) os))) /\
  (forall buf os, overflow_checks b = false \/ stretches_below (rc6_counts freq) (2 ^ usize_bits b) (alternating true buf) ->
   rc6_reads freq (alternating true buf) os ->
   exists it0, iter_new (rc6_protocol b m) freq buf = Val it0 /\
     outs (collect (D := rc6_dec b) into it0) = Val (commands (map (rc6_reports into) os)) /\
     forall calls, (length buf <= calls)%nat -> outs (drain (D := rc6_dec b) into calls it0) = Val (commands (map (rc6_reports into) os))).
Proof.
  intros b m freq C into Hm Hf Hu. split.
  - intros levels os h Hs Hl R. apply (polled_any (rc6_protocol b m) freq into); [exact Hs|].
    exact (C89_rc6_long b m freq C into h os Hm Hf Hu Hl R).
  - intros buf os Hl R. destruct (collected_any (rc6_protocol b m) freq into b m buf (map (rc6_reports into) os)) as (it0 & Ei & Ec & Ed).
    + unfold parsing_protocols; cbn [In]; tauto.
    + exact (C89_rc6_long b m freq C into _ os Hm Hf Hu Hl R).
    + exists it0. rewrite <- rc6_no_errors at 1. auto.
Qed.
Print Assumptions C90_rc6.

(** ** Examples *)

(** Marks and spaces of half a period each. *)
Definition halves (ps : list N) : list N := flat_map (fun p => [p / 2; p - p / 2]) ps.
Fixpoint samples (on : bool) (ds : list N) : list bool :=
  match ds with [] => [] | d :: r => repeat on (N.to_nat d) ++ samples (negb on) r end.
Definition noted {C E} (os : list (result (option C) E)) : list (result (option C) E) :=
  filter (fun o => match o with ROk None => false | _ => true end) os.

(** A pin sampled at 40 kHz: a NEC frame that breaks off after two bits, a repeat code
    (of which the word with these two bits is reported), noise. *)
Example C90_poll_example :
  let levels := samples false (199 :: halves [540; 90; 45; 450; 450; 700]) ++ [true] in
  let h := level_edges false 1 levels in
  let ps := [NecNoise Other; NecBroken [true; false] Again; NecAgain; NecNoise Other] in
  short h /\ nec_reading 40000 13500 11250 h ps [] /\
  (let* p0 := poll_new (nec_protocol (debug_build 32) MU32 NecStandard) 40000 in
   let* os := outs (run_polls (D := nec_dec (debug_build 32) MU32 NecStandard) (fun c => c) p0 levels) in Val (noted os)) =
    Val [RErr EData; ROk (Some (mkNec 1 0 true))].
Proof.
  intros levels h ps.
  assert (Eh : h = (true, 200) :: example_pairs [540; 90; 45; 450; 450; 700]) by (vm_compute; reflexivity).
  split; [rewrite Eh; unfold short; cbn; repeat constructor; reflexivity|]. split.
  - rewrite Eh. split; [repeat constructor; discriminate|]. split; [left; reflexivity|].
    change (periods _) with [200; 540; 90; 45; 450; 450; 700]. cbn [flat_map nec_signs app map bit_of ps].
    repeat (apply Forall2_cons; [unfold nec_says, near, nominal; vm_compute; intuition discriminate|]). apply Forall2_nil.
  - vm_compute. reflexivity.
Qed.

(** The same recorded in a buffer: collecting stops at the failure, [next] goes on. *)
Example C90_buffer_example :
  let buf := 200 :: halves [540; 90; 45; 450; 450; 700] in
  let ps := [NecNoise Other; NecBroken [true; false] Again; NecAgain; NecNoise Other] in
  Forall (fun d => d < 2 ^ 31) buf /\ nec_reading 40000 13500 11250 (alternating true buf) ps [] /\
  (let* it0 := iter_new (nec_protocol (debug_build 32) MU32 NecStandard) 40000 buf in
   outs (collect (D := nec_dec (debug_build 32) MU32 NecStandard) (fun c => c) it0)) = Val [] /\
  (let* it0 := iter_new (nec_protocol (debug_build 32) MU32 NecStandard) 40000 buf in
   outs (drain (D := nec_dec (debug_build 32) MU32 NecStandard) (fun c => c) 13 it0)) = Val [mkNec 1 0 true].
Proof.
  intros buf ps. split; [vm_compute halves in buf; subst buf; repeat constructor; reflexivity|]. split.
  - split; [repeat constructor; discriminate|]. split; [left; reflexivity|].
    change (periods _) with [200; 540; 90; 45; 450; 450; 700]. cbn [flat_map nec_signs app map bit_of ps].
    repeat (apply Forall2_cons; [unfold nec_says, near, nominal; vm_compute; intuition discriminate|]). apply Forall2_nil.
  - split; vm_compute; reflexivity.
Qed.

(** The signal of [C89_example_rc5] without its first edge, as a buffer and as samples. *)
Example C90_rc5_example :
  let acts := jitter (fun n => if n =? 1 then 31 else 77) (tl (level_edges false 0 (rc5_wave (2 ^ 13 + 2 ^ 11 + 2 ^ 6 * 5 + 53)))) in
  let bits := [false; true; false; false; true; false; true; true; true; false; true; false; true] in
  let buf := [800; 35; 36; 71; 500] ++ map snd acts ++ [12] in
  let os := repeat None 4 ++ repeat None (length acts) ++ [Some bits; None] in
  let levels := samples false (799 :: tl buf) ++ [false] in
  rc5_reads 40000 (alternating true buf) os /\ level_edges false 1 levels = alternating true buf /\
  (let* it0 := iter_new (rc5_protocol (debug_build 32) MU32) 40000 buf in
   outs (collect (D := rc5_dec (debug_build 32)) (fun c => c) it0)) = Val [mkRc5 5 53 2 true].
Proof.
  intros acts bits buf os levels. split; [|split; vm_compute; reflexivity].
  change (rc5_reads 40000 ((true, 800) :: [(false, 35); (true, 36); (false, 71)] ++ (true, 500) :: acts ++ [(false, 12)]) os).
  apply (Rc5Lost 40000 800 [(false, 35); (true, 36); (false, 71)] [1; 1; 2] true 500).
  - split; [cbn [map snd]; all_counts rc5_at_40k|vm_compute; lia].
  - apply rc5_not_at_40k. vm_compute. reflexivity.
  - apply (Rc5Frame 40000 500 acts (map snd (tl (level_edges false 0 (rc5_wave (2 ^ 13 + 2 ^ 11 + 2 ^ 6 * 5 + 53)))))).
    + subst acts. split; [vm_compute level_edges; cbn [tl map snd jitter]; all_counts rc5_at_40k|]. split; [vm_compute; reflexivity|].
      set (l := tl (level_edges _ _ _)). exists (removelast (jitter (fun n => if n =? 1 then 31 else 77) l)), (last (jitter (fun n => if n =? 1 then 31 else 77) l) (true, 0)).
      exists (map snd (removelast l)), (snd (last l (true, 0))). repeat split; vm_compute; reflexivity.
    + reflexivity.
    + repeat constructor.
Qed.
