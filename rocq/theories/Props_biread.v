(** * Property C89: what an RC5 or RC6 receiver reports on any signal whatsoever *)
From Coq Require Import NArith ZArith List Bool Lia ZifyBool ZifyNat ZifyN.
From Verif Require Import Machine Spec Bits Time Decoder Rc5 Rc6 Receiver Time_facts Window_facts Codec_facts Run_facts
  Spec_sound Sound_facts Spec_rate Rate_facts Spec_biread Biread_facts Props_decode Props_sound.
Import ListNotations.
Open Scope N_scope.

(** What is reported for a frame of thirteen bits (second start bit, toggle bit, address,
    command) after the first start bit. *)
Definition rc5_reports {C} (into : rc5_command -> C) (o : option (list bool)) : outcome C :=
  match o with
  | Some (start2 :: toggle :: rest) =>
      ROk (Some (into (mkRc5 (val_msb (firstn 5 rest)) (val_msb (skipn 5 rest)) (2 + N.b2n start2) toggle)))
  | _ => ROk None
  end.
(** ... for sixteen data bits (address, command). *)
Definition rc6_reports {C} (into : rc6_command -> C) (o : option (bool * list bool)) : outcome C :=
  match o with
  | Some (toggle, bits) => ROk (Some (into (mkRc6 (val_msb (firstn 8 bits)) (val_msb (skipn 8 bits)) toggle)))
  | None => ROk None
  end.

Theorem C89_rc5 :
  forall b m freq C (into : rc5_command -> C) h,
  timebase m freq -> exact_rate m freq -> 8 <= usize_bits b ->
  (overflow_checks b = false \/ 8 * N.of_nat (length h) < 2 ^ usize_bits b) ->
  (exists os, rc5_reads freq h os) /\
  forall os, rc5_reads freq h os ->
  exists r0 r, receiver_new (rc5_protocol b m) freq = Val r0 /\
    run_edges (D := rc5_dec b) into r0 h = Val (r, map (rc5_reports into) os).
Proof.
  intros b m freq C into h Hm Hhi Hu Hr. split; [apply rc5_reads_some|].
  intros os H. exact (rc5_reads_all b m freq Hm Hhi Hu into h os Hr H).
Qed.
Print Assumptions C89_rc5.

Theorem C89_rc6 :
  forall b m freq C (into : rc6_command -> C) h,
  timebase m freq -> exact_rate m freq -> 8 <= usize_bits b ->
  (overflow_checks b = false \/ 8 * N.of_nat (length h) < 2 ^ usize_bits b) ->
  (exists os, rc6_reads freq h os) /\
  forall os, rc6_reads freq h os ->
  exists r0 r, receiver_new (rc6_protocol b m) freq = Val r0 /\
    run_edges (D := rc6_dec b) into r0 h = Val (r, map (rc6_reports into) os).
Proof.
  intros b m freq C into h Hm Hhi Hu Hr. split; [apply rc6_reads_some|].
  intros os H. exact (rc6_reads_all b m freq Hm Hhi Hu into h os Hr H).
Qed.
Print Assumptions C89_rc6.

(** The count of an interval at 40 kHz. *)
Lemma rc5_at_40k d k : spans_get (spans_of MU32 40000 rc5_pulses) d = Some k -> rc5_counts 40000 (k + 1) d.
Proof. intros H. pose proof (rc5_counts_some MU32 40000 d I (exact_low MU32 40000 ltac:(lia))) as S. rewrite H in S. exact S. Qed.
Lemma rc6_at_40k d k : spans_get (spans_of MU32 40000 rc6_pulses) d = Some k -> rc6_counts 40000 (k + 1) d.
Proof. intros H. pose proof (rc6_counts_some MU32 40000 d I (exact_low MU32 40000 ltac:(lia))) as S. rewrite H in S. exact S. Qed.
Lemma rc5_not_at_40k d : spans_get (spans_of MU32 40000 rc5_pulses) d = None -> rc5_uncounted 40000 d.
Proof. intros H. pose proof (rc5_counts_some MU32 40000 d I (exact_low MU32 40000 ltac:(lia))) as S. rewrite H in S. exact S. Qed.
Lemma rc6_not_at_40k d : spans_get (spans_of MU32 40000 rc6_pulses) d = None -> rc6_uncounted 40000 d.
Proof. intros H. pose proof (rc6_counts_some MU32 40000 d I (exact_low MU32 40000 ltac:(lia))) as S. rewrite H in S. exact S. Qed.
Ltac all_counts lem :=
  repeat (apply Forall2_cons; [match goal with |- ?f ?n ?d =>
    let k := eval vm_compute in (n - 1) in change n with (k + 1); apply lem; vm_compute; reflexivity end|]); apply Forall2_nil.

(** At 40 kHz: noise, a frame that breaks off at a gap of 500 ticks, a complete frame, a stray edge. *)
Example C89_example_rc5 :
  let acts := jitter (fun n => if n =? 1 then 31 else 77) (tl (level_edges false 0 (rc5_wave (2 ^ 13 + 2 ^ 11 + 2 ^ 6 * 5 + 53)))) in
  let bits := [false; true; false; false; true; false; true; true; true; false; true; false; true] in
  rc5_reads 40000 ((false, 9) :: (true, 800) :: [(false, 35); (true, 36); (false, 71)] ++ (true, 500) :: acts ++ [(false, 0)])
    (None :: repeat None 4 ++ repeat None (length acts) ++ [Some bits; None]) /\
  rc5_reports (fun c => c) (Some bits) = ROk (Some (mkRc5 5 53 2 true)).
Proof.
  split; [|vm_compute; reflexivity]. apply Rc5Idle. apply (Rc5Lost 40000 800 [(false, 35); (true, 36); (false, 71)] [1; 1; 2] true 500).
  - split; [cbn [map snd]; all_counts rc5_at_40k|vm_compute; lia].
  - apply rc5_not_at_40k. vm_compute. reflexivity.
  - apply (Rc5Frame 40000 500 (jitter (fun n => if n =? 1 then 31 else 77) (tl (level_edges false 0 (rc5_wave (2 ^ 13 + 2 ^ 11 + 2 ^ 6 * 5 + 53)))))
      (map snd (tl (level_edges false 0 (rc5_wave (2 ^ 13 + 2 ^ 11 + 2 ^ 6 * 5 + 53)))))).
    + split; [vm_compute level_edges; cbn [tl map snd jitter]; all_counts rc5_at_40k|]. split; [vm_compute; reflexivity|].
      set (l := tl (level_edges _ _ _)). exists (removelast (jitter (fun n => if n =? 1 then 31 else 77) l)), (last (jitter (fun n => if n =? 1 then 31 else 77) l) (true, 0)).
      exists (map snd (removelast l)), (snd (last l (true, 0))). repeat split; vm_compute; reflexivity.
    + reflexivity.
    + repeat constructor.
Qed.

(** At 40 kHz: a mark of three units in place of the leader, so that the receiver begins anew,
    then a complete frame with the toggle bit set. *)
Example C89_example_rc6 :
  let noms := level_edges false 0 (rc6_wave true (bits_msb 16 (2 ^ 8 * 4 + 12))) in
  let acts := (false, 106) :: jitter (fun n => 18 * n) (skipn 2 noms) in
  rc6_reads 40000 ((true, 800) :: [] ++ (false, 53) :: (true, 1000) :: acts)
    (repeat None 2 ++ repeat None (length acts) ++ [Some (true, bits_msb 16 (2 ^ 8 * 4 + 12))]) /\
  rc6_reports (fun c => c) (Some (true, bits_msb 16 (2 ^ 8 * 4 + 12))) = ROk (Some (mkRc6 4 12 true)).
Proof.
  split; [|vm_compute; reflexivity]. apply (Rc6Wrong 40000 800 [] AtLeader false 53 3); [reflexivity|apply (rc6_at_40k 53 2); vm_compute; reflexivity|cbn; lia|].
  set (nd := skipn 9 (skipn 1 (level_edges false 0 (rc6_wave true (bits_msb 16 (2 ^ 8 * 4 + 12)))))).
  apply (Rc6Frame 40000 1000 ((false, 106) :: jitter (fun n => 18 * n) [(true, 2); (false, 1); (true, 2); (false, 1); (true, 1); (false, 1); (true, 1); (false, 3)])
    true 18 (jitter (fun n => 18 * n) nd) (map snd nd) (map negb (bits_msb 16 (2 ^ 8 * 4 + 12))) [] []).
  - exists ((false, 106) :: jitter (fun n => 18 * n) [(true, 2); (false, 1); (true, 2); (false, 1); (true, 1); (false, 1); (true, 1)]), 15, [], (false, 54).
    split; [reflexivity|]. split; [|split; [constructor|split; [split; [reflexivity|apply (rc6_at_40k 54 2); vm_compute; reflexivity]|reflexivity]]].
    exists 106, 36, (jitter (fun n => 18 * n) [(false, 1); (true, 2); (false, 1); (true, 1); (false, 1); (true, 1)]), [1; 2; 1; 1; 1; 1], [false; true; true; true].
    split; [reflexivity|]. split; [apply (rc6_at_40k 106 5); vm_compute; reflexivity|]. split; [apply (rc6_at_40k 36 1); vm_compute; reflexivity|].
    split; [|split; reflexivity]. split; [cbn [map snd jitter fst]; all_counts rc6_at_40k|]. split; [vm_compute; reflexivity|].
    exists (jitter (fun n => 18 * n) [(false, 1); (true, 2); (false, 1); (true, 1); (false, 1)]), (true, 18), [1; 2; 1; 1; 1], 1.
    repeat split; vm_compute; reflexivity.
  - split; [unfold nd; vm_compute level_edges; cbn [skipn map snd jitter]; all_counts rc6_at_40k|]. split; [vm_compute; reflexivity|].
    exists (jitter (fun n => 18 * n) (removelast nd)), (true, 18), (map snd (removelast nd)), 1. repeat split; vm_compute; reflexivity.
  - reflexivity.
  - constructor.
Qed.
