(** * Property theorems: words that fail the protocol check *)
From Coq Require Import NArith ZArith List Bool Lia ZifyBool ZifyNat ZifyN.
From Verif Require Import Machine Time Decoder Nec Receiver Spec Bits Codec_facts Time_facts Run_facts Nec_facts Props_decode Example_facts.
Import ListNotations.
Open Scope N_scope.

(** ** C30: what the receivers that do not check report

    C30 asks that only words be reported whose inverted bytes match.  It is refuted in
    [Props_sound.v] for NEC, Samsung and 16-bit NEC.  Exactly: after any history a correctly timed
    frame of any word whatever is reported, with the fields where they stand in the word; the
    other bytes have no influence.  (For Apple see C19 and [C30_apple_partial].) *)
Theorem C30_nec_exact_partial :
  forall b m freq w hist gap ps C (into : nec_command -> C),
  timebase m freq -> 893 <= freq -> freq < 2 ^ 32 -> w < 2 ^ 32 ->
  nec_frame freq 13500 w ps -> longer freq 13500 7 gap ->
  short (hist ++ (true, gap) :: pair_edges ps) ->
  exists r0 r os o,
    receiver_new (nec_protocol b m NecStandard) freq = Val r0 /\
    run_edges (D := nec_dec b m NecStandard) into r0 (hist ++ (true, gap) :: pair_edges ps) =
      Val (r, os ++ o :: repeat (ROk None) 65 ++ [ROk (Some (into (mkNec (field w 0 8) (field w 16 8) false)))]) /\
    length os = length hist /\ (o = ROk None \/ o = RErr EData).
Proof.
  intros b m freq w hist gap ps C into Hm H893 Hf Hw Hfr Hg Hs.
  destruct (nec_decode b m freq NecStandard Hm Hf (or_introl eq_refl) into H893 w hist gap ps)
    as (r0 & os & o & pv & E0 & E1 & L & Ho); auto.
  cbn [nv_unpack NecStandard] in E1. rewrite nec_unpack_word in E1 by auto.
  exists r0. eexists. exists os, o. split; [exact E0|]. split; [exact E1|]. auto.
Qed.
Print Assumptions C30_nec_exact_partial.

Theorem C30_nec16_exact_partial :
  forall b m freq w hist gap ps C (into : nec16_command -> C),
  timebase m freq -> 893 <= freq -> freq < 2 ^ 32 -> w < 2 ^ 32 ->
  nec_frame freq 13500 w ps -> longer freq 13500 7 gap ->
  short (hist ++ (true, gap) :: pair_edges ps) ->
  exists r0 r os o,
    receiver_new (nec_protocol b m Nec16Bit) freq = Val r0 /\
    run_edges (D := nec_dec b m Nec16Bit) into r0 (hist ++ (true, gap) :: pair_edges ps) =
      Val (r, os ++ o :: repeat (ROk None) 65 ++ [ROk (Some (into (mkNec16 (field w 0 16) (field w 16 8) false)))]) /\
    length os = length hist /\ (o = ROk None \/ o = RErr EData).
Proof.
  intros b m freq w hist gap ps C into Hm H893 Hf Hw Hfr Hg Hs.
  destruct (nec_decode b m freq Nec16Bit Hm Hf (or_introl eq_refl) into H893 w hist gap ps)
    as (r0 & os & o & pv & E0 & E1 & L & Ho); auto.
  cbn [nv_unpack Nec16Bit] in E1. rewrite nec16_unpack_word in E1 by auto.
  exists r0. eexists. exists os, o. split; [exact E0|]. split; [exact E1|]. auto.
Qed.
Print Assumptions C30_nec16_exact_partial.

Theorem C30_samsung_exact_partial :
  forall b m freq w hist gap ps C (into : samsung_command -> C),
  timebase m freq -> 893 <= freq -> freq < 2 ^ 32 -> w < 2 ^ 32 ->
  nec_frame freq 9000 w ps -> longer freq 9000 7 gap ->
  short (hist ++ (true, gap) :: pair_edges ps) ->
  exists r0 r os o,
    receiver_new (nec_protocol b m NecSamsung) freq = Val r0 /\
    run_edges (D := nec_dec b m NecSamsung) into r0 (hist ++ (true, gap) :: pair_edges ps) =
      Val (r, os ++ o :: repeat (ROk None) 65 ++ [ROk (Some (into (mkSamsung (field w 0 8) (field w 16 8) false)))]) /\
    length os = length hist /\ (o = ROk None \/ o = RErr EData).
Proof.
  intros b m freq w hist gap ps C into Hm H893 Hf Hw Hfr Hg Hs.
  destruct (nec_decode b m freq NecSamsung Hm Hf (or_intror eq_refl) into H893 w hist gap ps)
    as (r0 & os & o & pv & E0 & E1 & L & Ho); auto.
  cbn [nv_unpack NecSamsung] in E1. rewrite samsung_unpack_word in E1 by auto.
  exists r0. eexists. exists os, o. split; [exact E0|]. split; [exact E1|]. auto.
Qed.
Print Assumptions C30_samsung_exact_partial.

(** A concrete case: 33 in place of the inverse of 21, 34 in place of the inverse of 200. *)
Example C30_exact_example :
  let w := bytes4 21 33 200 34 in
  let ps := nec_example_pairs (360, 180) w in
  nec_frame 40000 13500 w ps /\ field w 8 8 <> compl8 (field w 0 8) /\ field w 24 8 <> compl8 (field w 16 8) /\
  longer 40000 13500 7 1200 /\ short (nec_example_history ++ (true, 1200) :: pair_edges ps) /\
  outcome_at (nec_protocol (debug_build 32) MU32 NecStandard) 40000 (nec_example_history ++ (true, 1200) :: pair_edges ps) 74 =
    Some (ROk (Some (mkNec 21 200 false))).
Proof.
  split; [frame_example|]. split; [vm_compute; discriminate|]. split; [vm_compute; discriminate|].
  split; [vm_compute; reflexivity|]. split; [short_example|vm_compute; reflexivity].
Qed.
