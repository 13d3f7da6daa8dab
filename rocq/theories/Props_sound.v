(** * Properties C27-C34: what a reported command says about the signal *)
From Coq Require Import NArith ZArith List Bool Lia ZifyBool ZifyNat ZifyN.
From Verif Require Import Machine Spec Bits Time Decoder Nec Rc5 Rc6 Denon Sbp Receiver Sender
  Time_facts Window_facts Codec_facts Run_facts Nec_facts Sbp_facts Denon_facts Example_facts Encode_facts Spec_sound Sound_facts Biphase_facts Props_decode.
Import ListNotations.
Open Scope N_scope.

(** ** C27 *)

(** In every history of a fresh receiver that ends with a report, the last edge begins
    a mark; a report without repeat flag is the content of a complete frame that ends
    with that edge, a report with repeat flag ends a repeat code. *)
Theorem C27_nec :
  forall b m freq C (into : nec_command -> C) h e d r0 r os x,
  timebase m freq -> freq < 2 ^ 32 ->
  receiver_new (nec_protocol b m NecStandard) freq = Val r0 ->
  periods_fit (h ++ [(e, d)]) ->
  run_edges (D := nec_dec b m NecStandard) into r0 (h ++ [(e, d)]) = Val (r, os ++ [ROk (Some x)]) ->
  e = true /\ exists c, x = into c /\
    (nec_repeat c = false -> exists w, ends_in_nec_frame freq 13500 w (periods (h ++ [(e, d)])) /\
       nec_addr c = field w 0 8 /\ nec_cmd c = field w 16 8) /\
    (nec_repeat c = true -> ends_in_repeat freq 11250 (periods (h ++ [(e, d)]))).
Proof.
  intros b m freq C into h e d r0 r os x Hm Hf E0 Hfit E.
  destruct (nec_sound_report b m freq NecStandard Hm Hf (or_introl eq_refl) into h e d r0 r os x E0 Hfit E)
    as (-> & w & pv & c & -> & -> & K). split; auto. exists c. split; auto.
  destruct K as [[K1 K2]|[K1 K2]]; cbn [nv_unpack NecStandard] in K2.
  - assert (Hw : w < 2 ^ 32) by (destruct K1 as (? & ? & ? & _ & _ & Hw & _); exact Hw).
    rewrite nec_unpack_word in K2 by auto. apply some_inj in K2. subst c. split; [|discriminate].
    intros _. exists w. split; [exact K1|]. auto.
  - unfold nec_unpack in K2. apply some_inj in K2. subst c. split; [discriminate|]. intros _. exact K1.
Qed.
Print Assumptions C27_nec.

Theorem C27_samsung :
  forall b m freq C (into : samsung_command -> C) h e d r0 r os x,
  timebase m freq -> freq < 2 ^ 32 ->
  receiver_new (nec_protocol b m NecSamsung) freq = Val r0 ->
  periods_fit (h ++ [(e, d)]) ->
  run_edges (D := nec_dec b m NecSamsung) into r0 (h ++ [(e, d)]) = Val (r, os ++ [ROk (Some x)]) ->
  e = true /\ exists c, x = into c /\
    (sam_repeat c = false -> exists w, ends_in_nec_frame freq 9000 w (periods (h ++ [(e, d)])) /\
       sam_addr c = field w 0 8 /\ sam_cmd c = field w 16 8) /\
    (sam_repeat c = true -> ends_in_repeat freq 6750 (periods (h ++ [(e, d)]))).
Proof.
  intros b m freq C into h e d r0 r os x Hm Hf E0 Hfit E.
  destruct (nec_sound_report b m freq NecSamsung Hm Hf (or_intror eq_refl) into h e d r0 r os x E0 Hfit E)
    as (-> & w & pv & c & -> & -> & K). split; auto. exists c. split; auto.
  destruct K as [[K1 K2]|[K1 K2]]; cbn [nv_unpack NecSamsung] in K2.
  - assert (Hw : w < 2 ^ 32) by (destruct K1 as (? & ? & ? & _ & _ & Hw & _); exact Hw).
    rewrite samsung_unpack_word in K2 by auto. apply some_inj in K2. subst c. split; [|discriminate].
    intros _. exists w. split; [exact K1|]. auto.
  - unfold samsung_unpack in K2. apply some_inj in K2. subst c. split; [discriminate|]. intros _. exact K1.
Qed.
Print Assumptions C27_samsung.

Theorem C27_nec16 :
  forall b m freq C (into : nec16_command -> C) h e d r0 r os x,
  timebase m freq -> freq < 2 ^ 32 ->
  receiver_new (nec_protocol b m Nec16Bit) freq = Val r0 ->
  periods_fit (h ++ [(e, d)]) ->
  run_edges (D := nec_dec b m Nec16Bit) into r0 (h ++ [(e, d)]) = Val (r, os ++ [ROk (Some x)]) ->
  e = true /\ exists c, x = into c /\
    (n16_repeat c = false -> exists w, ends_in_nec_frame freq 13500 w (periods (h ++ [(e, d)])) /\
       n16_addr c = field w 0 16 /\ n16_cmd c = field w 16 8) /\
    (n16_repeat c = true -> ends_in_repeat freq 11250 (periods (h ++ [(e, d)]))).
Proof.
  intros b m freq C into h e d r0 r os x Hm Hf E0 Hfit E.
  destruct (nec_sound_report b m freq Nec16Bit Hm Hf (or_introl eq_refl) into h e d r0 r os x E0 Hfit E)
    as (-> & w & pv & c & -> & -> & K). split; auto. exists c. split; auto.
  destruct K as [[K1 K2]|[K1 K2]]; cbn [nv_unpack Nec16Bit] in K2.
  - assert (Hw : w < 2 ^ 32) by (destruct K1 as (? & ? & ? & _ & _ & Hw & _); exact Hw).
    rewrite nec16_unpack_word in K2 by auto. apply some_inj in K2. subst c. split; [|discriminate].
    intros _. exists w. split; [exact K1|]. auto.
  - unfold nec16_unpack in K2. apply some_inj in K2. subst c. split; [discriminate|]. intros _. exact K1.
Qed.
Print Assumptions C27_nec16.

(** The raw command has no repeat flag. *)
Theorem C27_raw :
  forall b m freq C (into : nec_debug_cmd -> C) h e d r0 r os x,
  timebase m freq -> freq < 2 ^ 32 ->
  receiver_new (nec_protocol b m NecRaw) freq = Val r0 ->
  periods_fit (h ++ [(e, d)]) ->
  run_edges (D := nec_dec b m NecRaw) into r0 (h ++ [(e, d)]) = Val (r, os ++ [ROk (Some x)]) ->
  e = true /\ exists w, x = into (mkNecDebug w) /\
    (ends_in_nec_frame freq 13500 w (periods (h ++ [(e, d)])) \/
     ends_in_repeat freq 11250 (periods (h ++ [(e, d)]))).
Proof.
  intros b m freq C into h e d r0 r os x Hm Hf E0 Hfit E.
  destruct (nec_sound_report b m freq NecRaw Hm Hf (or_introl eq_refl) into h e d r0 r os x E0 Hfit E)
    as (-> & w & pv & c & -> & -> & K). split; auto. exists w.
  destruct K as [[K1 K2]|[K1 K2]]; cbn [nv_unpack NecRaw] in K2; apply some_inj in K2; subst c; auto.
Qed.
Print Assumptions C27_raw.

Theorem C27_apple :
  forall b m freq C (into : apple_command -> C) h e d r0 r os x,
  timebase m freq -> freq < 2 ^ 32 ->
  receiver_new (nec_protocol b m NecApple) freq = Val r0 ->
  periods_fit (h ++ [(e, d)]) ->
  run_edges (D := nec_dec b m NecApple) into r0 (h ++ [(e, d)]) = Val (r, os ++ [ROk (Some x)]) ->
  e = true /\ exists c, x = into c /\
    (apl_repeat c = false -> exists w, ends_in_nec_frame freq 13500 w (periods (h ++ [(e, d)])) /\
       apl_page c = field w 0 5 /\ apl_command c = field w 17 7 /\ apl_device c = field w 24 8) /\
    (apl_repeat c = true -> ends_in_repeat freq 11250 (periods (h ++ [(e, d)]))).
Proof.
  intros b m freq C into h e d r0 r os x Hm Hf E0 Hfit E.
  destruct (nec_sound_report b m freq NecApple Hm Hf (or_introl eq_refl) into h e d r0 r os x E0 Hfit E)
    as (-> & w & pv & c & -> & -> & K). split; auto. exists c. split; auto.
  destruct K as [[K1 K2]|[K1 K2]]; cbn [nv_unpack NecApple] in K2.
  - assert (Hw : w < 2 ^ 32) by (destruct K1 as (? & ? & ? & _ & _ & Hw & _); exact Hw).
    apply apple_unpack_char in K2; auto. destruct K2 as (_ & _ & ->). split; [|discriminate].
    intros _. exists w. split; [exact K1|]. auto.
  - unfold apple_unpack in K2. destruct (negb _); [discriminate|]. apply some_inj in K2. subst c.
    split; [discriminate|]. intros _. exact K1.
Qed.
Print Assumptions C27_apple.

(** A frame after a pause, followed by a repeat code. *)
Example C27_example :
  let h := (true, 4000) :: pair_edges (nec_example_pairs (360, 180) (bytes4 21 (compl8 21) 200 (compl8 200))) in
  let h' := h ++ pair_edges [(22, 1600); (360, 90)] in
  periods_fit h /\ periods_fit h' /\
  outcome_at (nec_protocol (debug_build 32) MU32 NecStandard) 40000 h 66 = Some (ROk (Some (mkNec 21 200 false))) /\
  outcome_at (nec_protocol (debug_build 32) MU32 NecStandard) 40000 h' 70 = Some (ROk (Some (mkNec 21 200 true))).
Proof.
  split; [apply short_fits; short_example|]. split; [apply short_fits; short_example|]. split; vm_compute; reflexivity.
Qed.

(** ** C28 *)

Theorem C28_any_variant :
  forall b m freq V header code w hist gap ps blocks C (into : nv_cmd V -> C),
  timebase m freq -> 893 <= freq -> freq < 2 ^ 32 -> w < 2 ^ 32 ->
  (nv_timing V = NEC_STANDARD_TIMING /\ header = 13500 /\ code = 11250 \/
   nv_timing V = NEC_SAMSUNG_TIMING /\ header = 9000 /\ code = 6750) ->
  nec_frame freq header w ps -> longer freq header 7 gap ->
  Forall (repeat_code freq header code) blocks ->
  short (hist ++ (true, gap) :: pair_edges ps ++ pair_edges (repeat_pairs blocks)) ->
  exists r0 r os,
    receiver_new (nec_protocol b m V) freq = Val r0 /\
    run_edges (D := nec_dec b m V) into r0 (hist ++ (true, gap) :: pair_edges ps ++ pair_edges (repeat_pairs blocks)) =
      Val (r, os ++ [ROk (option_map into (nv_unpack V w false))] ++
              flat_map (fun _ => [ROk None; ROk None; ROk None; ROk (option_map into (nv_unpack V w true))]) blocks) /\
    length os = (length hist + 66)%nat.
Proof.
  intros b m freq V header code w hist gap ps blocks C into Hm H893 Hf Hw HV Hfr Hg HB Hs.
  assert (HT : nec_timing_ok (nv_timing V)) by (destruct HV as [(E & _)|(E & _)]; [left|right]; exact E).
  assert (Eh : header = header_high (nv_timing V) + header_low (nv_timing V))
    by (destruct HV as [(E & -> & _)|(E & -> & _)]; rewrite E; reflexivity).
  assert (Ec : code = header_high (nv_timing V) + repeat_low (nv_timing V))
    by (destruct HV as [(E & _ & ->)|(E & _ & ->)]; rewrite E; reflexivity).
  rewrite app_comm_cons, app_assoc in Hs. unfold short, edge in Hs. apply Forall_app in Hs. destruct Hs as [Hs HsB].
  rewrite Eh in Hfr, Hg.
  destruct (nec_decode b m freq V Hm Hf HT into H893 w hist gap ps Hw Hfr Hg Hs)
    as (r0 & os & o & pv & E0 & E1 & L & Ho).
  assert (HB' : Forall (fun x => is_pulse m freq V PInvalid (fst x) /\ is_pulse m freq V PRepeat (snd x)) blocks).
  { clear -HB HsB Eh Ec Hm Hf HT H893. induction blocks as [|[x y] blocks IH]; [constructor|].
    inversion HB as [|z l [B1 B2] HB']; subst z l. cbn [repeat_pairs flat_map app fst snd] in HsB.
    apply short_pair in HsB. destruct HsB as (X1 & X2 & HsB).
    apply short_pair in HsB. destruct HsB as (Y1 & Y2 & HsB).
    constructor; [|apply IH; auto]. cbn [fst snd] in *. split; (split; [auto|]); (split; [auto|]).
    - apply nec_class_long; auto. rewrite <- Eh. rewrite N.add_comm. exact B1.
    - apply (nec_class_near m freq V Hm Hf HT H893). rewrite <- Ec. rewrite N.add_comm. exact B2. }
  pose proof (nec_repeat_run b m freq V Hm into w pv blocks HB') as E2.
  exists r0. eexists. exists (os ++ o :: repeat (ROk None) 65). split; auto. split.
  - rewrite app_comm_cons, app_assoc. unfold edge in *.
    etransitivity; [eapply run_edges_app_val; [exact E1|exact E2]|].
    rewrite <- !app_assoc. cbn [app]. rewrite <- !app_assoc. reflexivity.
  - rewrite app_length. cbn [length]. rewrite repeat_length. lia.
Qed.
Print Assumptions C28_any_variant.

(** The four variants whose commands carry a repeat flag: every repeat code reports the
    same address and command, flagged. *)
Theorem C28_nec :
  forall b m freq a c hist gap ps blocks C (into : nec_command -> C),
  timebase m freq -> 893 <= freq -> freq < 2 ^ 32 -> a < 2 ^ 8 -> c < 2 ^ 8 ->
  nec_frame freq 13500 (bytes4 a (compl8 a) c (compl8 c)) ps -> longer freq 13500 7 gap ->
  Forall (repeat_code freq 13500 11250) blocks ->
  short (hist ++ (true, gap) :: pair_edges ps ++ pair_edges (repeat_pairs blocks)) ->
  exists r0 r os,
    receiver_new (nec_protocol b m NecStandard) freq = Val r0 /\
    run_edges (D := nec_dec b m NecStandard) into r0
      (hist ++ (true, gap) :: pair_edges ps ++ pair_edges (repeat_pairs blocks)) =
      Val (r, os ++ [ROk (Some (into (mkNec a c false)))] ++
              flat_map (fun _ => [ROk None; ROk None; ROk None; ROk (Some (into (mkNec a c true)))]) blocks) /\
    length os = (length hist + 66)%nat.
Proof.
  intros b m freq a c hist gap ps blocks C into Hm H893 Hf Ha Hc Hfr Hg HB Hs.
  pose proof (C28_any_variant b m freq NecStandard 13500 11250 _ hist gap ps blocks C into Hm H893 Hf
    (bytes4_lt _ _ _ _ Ha (compl8_lt a) Hc (compl8_lt c)) (or_introl (conj eq_refl (conj eq_refl eq_refl))) Hfr Hg HB Hs) as K.
  cbn [nv_unpack NecStandard] in K. rewrite !nec_unpack_layout in K by auto. exact K.
Qed.
Print Assumptions C28_nec.

Theorem C28_samsung :
  forall b m freq a c hist gap ps blocks C (into : samsung_command -> C),
  timebase m freq -> 893 <= freq -> freq < 2 ^ 32 -> a < 2 ^ 8 -> c < 2 ^ 8 ->
  nec_frame freq 9000 (bytes4 a a c (compl8 c)) ps -> longer freq 9000 7 gap ->
  Forall (repeat_code freq 9000 6750) blocks ->
  short (hist ++ (true, gap) :: pair_edges ps ++ pair_edges (repeat_pairs blocks)) ->
  exists r0 r os,
    receiver_new (nec_protocol b m NecSamsung) freq = Val r0 /\
    run_edges (D := nec_dec b m NecSamsung) into r0
      (hist ++ (true, gap) :: pair_edges ps ++ pair_edges (repeat_pairs blocks)) =
      Val (r, os ++ [ROk (Some (into (mkSamsung a c false)))] ++
              flat_map (fun _ => [ROk None; ROk None; ROk None; ROk (Some (into (mkSamsung a c true)))]) blocks) /\
    length os = (length hist + 66)%nat.
Proof.
  intros b m freq a c hist gap ps blocks C into Hm H893 Hf Ha Hc Hfr Hg HB Hs.
  pose proof (C28_any_variant b m freq NecSamsung 9000 6750 _ hist gap ps blocks C into Hm H893 Hf
    (bytes4_lt _ _ _ _ Ha Ha Hc (compl8_lt c)) (or_intror (conj eq_refl (conj eq_refl eq_refl))) Hfr Hg HB Hs) as K.
  cbn [nv_unpack NecSamsung] in K. rewrite !samsung_unpack_layout in K by auto. exact K.
Qed.
Print Assumptions C28_samsung.

Theorem C28_nec16 :
  forall b m freq a c hist gap ps blocks C (into : nec16_command -> C),
  timebase m freq -> 893 <= freq -> freq < 2 ^ 32 -> a < 2 ^ 16 -> c < 2 ^ 8 ->
  nec_frame freq 13500 (bytes4 (a mod 2 ^ 8) (a / 2 ^ 8) c (compl8 c)) ps -> longer freq 13500 7 gap ->
  Forall (repeat_code freq 13500 11250) blocks ->
  short (hist ++ (true, gap) :: pair_edges ps ++ pair_edges (repeat_pairs blocks)) ->
  exists r0 r os,
    receiver_new (nec_protocol b m Nec16Bit) freq = Val r0 /\
    run_edges (D := nec_dec b m Nec16Bit) into r0
      (hist ++ (true, gap) :: pair_edges ps ++ pair_edges (repeat_pairs blocks)) =
      Val (r, os ++ [ROk (Some (into (mkNec16 a c false)))] ++
              flat_map (fun _ => [ROk None; ROk None; ROk None; ROk (Some (into (mkNec16 a c true)))]) blocks) /\
    length os = (length hist + 66)%nat.
Proof.
  intros b m freq a c hist gap ps blocks C into Hm H893 Hf Ha Hc Hfr Hg HB Hs.
  assert (Hw : bytes4 (a mod 2 ^ 8) (a / 2 ^ 8) c (compl8 c) < 2 ^ 32).
  { change (2 ^ 8) with 256 in *. change (2 ^ 16) with 65536 in *.
    apply bytes4_lt; auto using compl8_lt; lia. }
  pose proof (C28_any_variant b m freq Nec16Bit 13500 11250 _ hist gap ps blocks C into Hm H893 Hf
    Hw (or_introl (conj eq_refl (conj eq_refl eq_refl))) Hfr Hg HB Hs) as K.
  cbn [nv_unpack Nec16Bit] in K. change (2 ^ 8) with 256 in *. change (2 ^ 16) with 65536 in *.
  rewrite !nec16_unpack_layout in K by auto. exact K.
Qed.
Print Assumptions C28_nec16.

Theorem C28_apple :
  forall b m freq w hist gap ps blocks C (into : apple_command -> C),
  timebase m freq -> 893 <= freq -> freq < 2 ^ 32 -> w < 2 ^ 32 ->
  field w 5 11 = 1087 -> Nat.odd (ones (bits_lsb 32 w)) = true ->
  nec_frame freq 13500 w ps -> longer freq 13500 7 gap ->
  Forall (repeat_code freq 13500 11250) blocks ->
  short (hist ++ (true, gap) :: pair_edges ps ++ pair_edges (repeat_pairs blocks)) ->
  let c flag := mkApple (field w 0 5) (field w 17 7) (field w 24 8) flag in
  exists r0 r os,
    receiver_new (nec_protocol b m NecApple) freq = Val r0 /\
    run_edges (D := nec_dec b m NecApple) into r0
      (hist ++ (true, gap) :: pair_edges ps ++ pair_edges (repeat_pairs blocks)) =
      Val (r, os ++ [ROk (Some (into (c false)))] ++
              flat_map (fun _ => [ROk None; ROk None; ROk None; ROk (Some (into (c true)))]) blocks) /\
    length os = (length hist + 66)%nat.
Proof.
  intros b m freq w hist gap ps blocks C into Hm H893 Hf Hw Hv Hp Hfr Hg HB Hs c.
  pose proof (C28_any_variant b m freq NecApple 13500 11250 w hist gap ps blocks C into Hm H893 Hf
    Hw (or_introl (conj eq_refl (conj eq_refl eq_refl))) Hfr Hg HB Hs) as K.
  cbn [nv_unpack NecApple] in K.
  assert (E : forall f, apple_unpack w f = Some (c f)) by (intros f; apply apple_unpack_char; auto).
  rewrite !E in K. exact K.
Qed.
Print Assumptions C28_apple.

(** A concrete case: the C18 frame at 40 kHz followed by three jittered repeat codes. *)
Example C28_example :
  let w := bytes4 21 (compl8 21) 200 (compl8 200) in
  let ps := nec_example_pairs (355, 190) w in
  let blocks := [((22, 1600), (360, 90)); ((20, 3900), (365, 100)); ((24, 3800), (350, 85))] in
  nec_frame 40000 13500 w ps /\ Forall (repeat_code 40000 13500 11250) blocks /\
  let h := nec_example_history ++ (true, 1200) :: pair_edges ps ++ pair_edges (repeat_pairs blocks) in
  let P := nec_protocol (debug_build 32) MU32 NecStandard in
  outcome_at P 40000 h 74 = Some (ROk (Some (mkNec 21 200 false))) /\
  outcome_at P 40000 h 78 = Some (ROk (Some (mkNec 21 200 true))) /\
  outcome_at P 40000 h 82 = Some (ROk (Some (mkNec 21 200 true))) /\
  outcome_at P 40000 h 86 = Some (ROk (Some (mkNec 21 200 true))).
Proof.
  split; [frame_example|]. split.
  { repeat (apply Forall_cons; [split; [vm_compute; reflexivity|split; vm_compute; discriminate]|]). constructor. }
  split; [|split; [|split]]; vm_compute; reflexivity.
Qed.

(** ** C29 *)

(** Refuted: a fresh receiver that sees nothing but a repeat code reports a command
    (address 0, command 0) that was never sent. *)
Theorem C29_fresh_refuted :
  exists h c, outcomes (nec_protocol (debug_build 32) MU32 NecStandard) 40000 h =
                Some (repeat (ROk None) 2 ++ [ROk (Some c)]) /\ nec_repeat c = true.
Proof.
  exists [(true, 4000); (false, 360); (true, 90)], (mkNec 0 0 true). split; vm_compute; reflexivity.
Qed.
Print Assumptions C29_fresh_refuted.

(** Refuted: after a complete frame, the start of another frame that breaks off leaves
    its bits behind; a repeat code then reports a command nobody sent. *)
Theorem C29_truncated_refuted :
  exists h os c c', outcomes (nec_protocol (debug_build 32) MU32 NecStandard) 40000 h =
                    Some (os ++ [ROk (Some c')]) /\
    nec_repeat c' = true /\ filter (fun o => match o with ROk (Some _) => true | _ => false end) os = [ROk (Some c)] /\
    (nec_addr c, nec_cmd c) <> (nec_addr c', nec_cmd c').
Proof.
  set (h := (true, 4000) :: pair_edges (nec_example_pairs (360, 180) (bytes4 21 (compl8 21) 200 (compl8 200)) ++
    [(22, 1600); (360, 180); (25, 69); (25, 69); (22, 1600); (360, 90)])).
  exists h, (match outcomes (nec_protocol (debug_build 32) MU32 NecStandard) 40000 h with
             | Some os => removelast os | None => [] end), (mkNec 21 200 false), (mkNec 3 0 true).
  split; [vm_compute; reflexivity|]. split; [reflexivity|]. split; [vm_compute; reflexivity|]. discriminate.
Qed.
Print Assumptions C29_truncated_refuted.

(** What holds: if a command was reported and no error since, a repeat report has the
    address and command of the last report. *)
Lemma nec_repeats_last b m freq V C (into : nv_cmd V -> C)
    (flagless : forall w, nv_unpack V w false = None -> nv_unpack V w true = None)
    h1 e1 d1 h2 e2 d2 r0 r os1 x os2 y :
  timebase m freq -> freq < 2 ^ 32 -> nec_timing_ok (nv_timing V) ->
  receiver_new (nec_protocol b m V) freq = Val r0 ->
  periods_fit ((h1 ++ [(e1, d1)]) ++ h2 ++ [(e2, d2)]) ->
  run_edges (D := nec_dec b m V) into r0 ((h1 ++ [(e1, d1)]) ++ h2 ++ [(e2, d2)]) =
    Val (r, (os1 ++ [ROk (Some x)]) ++ os2 ++ [ROk (Some y)]) ->
  length os1 = length h1 -> Forall (fun o => o = ROk None) os2 ->
  exists w c c', x = into c /\ y = into c' /\
    (nv_unpack V w false = Some c \/ nv_unpack V w true = Some c) /\
    (nv_unpack V w true = Some c' \/ exists w', nv_unpack V w' false = Some c').
Proof.
  intros Hm Hf HT E0 Hfit E L HF. unfold edge in *. rewrite run_edges_app in E.
  destruct (run_edges (D := nec_dec b m V) into r0 (h1 ++ [(e1, d1)])) as [[r1 o1]| |] eqn:E1; cbn [bind] in E; try discriminate.
  destruct (run_edges (D := nec_dec b m V) into r1 (h2 ++ [(e2, d2)])) as [[r2 o2]| |] eqn:E2; cbn [bind] in E; try discriminate.
  injection E as <- E.
  assert (L1 := run_edges_length _ _ _ _ _ E1).
  apply app_eq_len in E; [|rewrite L1, !app_length, L; reflexivity]. destruct E as [-> ->].
  assert (Fit1 : periods_fit (h1 ++ [(e1, d1)])) by (eapply periods_fit_app; exact Hfit).
  destruct (nec_sound_report b m freq V Hm Hf HT into h1 e1 d1 r0 r1 os1 x E0 Fit1 E1)
    as (-> & w & pv & c & Er1 & -> & K).
  apply run_edges_snoc in E2. destruct E2 as (r3 & o3 & o & E3 & E4 & Eo).
  apply app_inj_tail in Eo. destruct Eo as [<- <-].
  unfold edge in *. rewrite app_assoc in Hfit. apply periods_fit_snoc in Hfit. destruct Hfit as [Hfit Hd].
  destruct (nec_sound_between b m freq V Hm Hf HT into flagless _ r0 r1 _ w pv h2 r3 os2 E0 Hfit E1) as
    (s & buf & -> & Hl & Ht & Hw); auto.
  { rewrite last_mark_snoc. exact Er1. }
  destruct (nec_sound_step b m freq V Hm Hf HT into s buf _ pv _ e2 d2 Hl Ht Hd) as (s' & buf' & o' & E' & _ & _ & K').
  unfold edge in *. rewrite E' in E4. injection E4 as _ ->.
  assert (Hc : nv_unpack V w false = Some c \/ nv_unpack V w true = Some c) by tauto.
  destruct K' as [(K' & _)|[K'|[(_ & _ & _ & K')|(_ & Es & _ & -> & _ & K')]]]; try discriminate.
  - destruct (nv_unpack V buf' false) as [c'|] eqn:Ec; [|discriminate]. cbn [option_map] in K'. injection K' as ->.
    exists w, c, c'. split; auto. split; auto. split; auto. right. exists buf'. exact Ec.
  - destruct (nv_unpack V buf true) as [c'|] eqn:Ec; [|discriminate]. cbn [option_map] in K'. injection K' as ->.
    exists w, c, c'. split; auto. split; auto. split; auto. left.
    destruct (Hw Es) as [-> | Hn]; [exact Ec|]. rewrite Hn in Ec. discriminate.
Qed.

Theorem C29_nec_partial :
  forall b m freq h1 e1 d1 h2 e2 d2 r0 r os1 x os2 y,
  timebase m freq -> freq < 2 ^ 32 ->
  receiver_new (nec_protocol b m NecStandard) freq = Val r0 ->
  periods_fit ((h1 ++ [(e1, d1)]) ++ h2 ++ [(e2, d2)]) ->
  run_edges (D := nec_dec b m NecStandard) (fun c => c) r0 ((h1 ++ [(e1, d1)]) ++ h2 ++ [(e2, d2)]) =
    Val (r, (os1 ++ [ROk (Some x)]) ++ os2 ++ [ROk (Some y)]) ->
  length os1 = length h1 -> Forall (fun o => o = ROk None) os2 ->
  nec_repeat y = true -> nec_addr y = nec_addr x /\ nec_cmd y = nec_cmd x.
Proof.
  intros b m freq h1 e1 d1 h2 e2 d2 r0 r os1 x os2 y Hm Hf E0 Hfit E L HF Hy.
  destruct (nec_repeats_last b m freq NecStandard _ (fun c => c) ltac:(discriminate)
    h1 e1 d1 h2 e2 d2 r0 r os1 x os2 y Hm Hf (or_introl eq_refl) E0 Hfit E L HF)
    as (w & c & c' & <- & <- & K1 & K2).
  cbn [nv_unpack NecStandard] in *. unfold nec_unpack in *. 
  destruct K2 as [K2|[w' K2]].
  - apply some_inj in K2. subst y. destruct K1 as [K1|K1]; apply some_inj in K1; subst x; cbn; auto.
  - apply some_inj in K2. subst y. discriminate.
Qed.
Print Assumptions C29_nec_partial.

Theorem C29_samsung_partial :
  forall b m freq h1 e1 d1 h2 e2 d2 r0 r os1 x os2 y,
  timebase m freq -> freq < 2 ^ 32 ->
  receiver_new (nec_protocol b m NecSamsung) freq = Val r0 ->
  periods_fit ((h1 ++ [(e1, d1)]) ++ h2 ++ [(e2, d2)]) ->
  run_edges (D := nec_dec b m NecSamsung) (fun c => c) r0 ((h1 ++ [(e1, d1)]) ++ h2 ++ [(e2, d2)]) =
    Val (r, (os1 ++ [ROk (Some x)]) ++ os2 ++ [ROk (Some y)]) ->
  length os1 = length h1 -> Forall (fun o => o = ROk None) os2 ->
  sam_repeat y = true -> sam_addr y = sam_addr x /\ sam_cmd y = sam_cmd x.
Proof.
  intros b m freq h1 e1 d1 h2 e2 d2 r0 r os1 x os2 y Hm Hf E0 Hfit E L HF Hy.
  destruct (nec_repeats_last b m freq NecSamsung _ (fun c => c) ltac:(discriminate)
    h1 e1 d1 h2 e2 d2 r0 r os1 x os2 y Hm Hf (or_intror eq_refl) E0 Hfit E L HF)
    as (w & c & c' & <- & <- & K1 & K2).
  cbn [nv_unpack NecSamsung] in *. unfold samsung_unpack in *. 
  destruct K2 as [K2|[w' K2]].
  - apply some_inj in K2. subst y. destruct K1 as [K1|K1]; apply some_inj in K1; subst x; cbn; auto.
  - apply some_inj in K2. subst y. discriminate.
Qed.
Print Assumptions C29_samsung_partial.

Theorem C29_nec16_partial :
  forall b m freq h1 e1 d1 h2 e2 d2 r0 r os1 x os2 y,
  timebase m freq -> freq < 2 ^ 32 ->
  receiver_new (nec_protocol b m Nec16Bit) freq = Val r0 ->
  periods_fit ((h1 ++ [(e1, d1)]) ++ h2 ++ [(e2, d2)]) ->
  run_edges (D := nec_dec b m Nec16Bit) (fun c => c) r0 ((h1 ++ [(e1, d1)]) ++ h2 ++ [(e2, d2)]) =
    Val (r, (os1 ++ [ROk (Some x)]) ++ os2 ++ [ROk (Some y)]) ->
  length os1 = length h1 -> Forall (fun o => o = ROk None) os2 ->
  n16_repeat y = true -> n16_addr y = n16_addr x /\ n16_cmd y = n16_cmd x.
Proof.
  intros b m freq h1 e1 d1 h2 e2 d2 r0 r os1 x os2 y Hm Hf E0 Hfit E L HF Hy.
  destruct (nec_repeats_last b m freq Nec16Bit _ (fun c => c) ltac:(discriminate)
    h1 e1 d1 h2 e2 d2 r0 r os1 x os2 y Hm Hf (or_introl eq_refl) E0 Hfit E L HF)
    as (w & c & c' & <- & <- & K1 & K2).
  cbn [nv_unpack Nec16Bit] in *. unfold nec16_unpack in *. 
  destruct K2 as [K2|[w' K2]].
  - apply some_inj in K2. subst y. destruct K1 as [K1|K1]; apply some_inj in K1; subst x; cbn; auto.
  - apply some_inj in K2. subst y. discriminate.
Qed.
Print Assumptions C29_nec16_partial.

Theorem C29_apple_partial :
  forall b m freq h1 e1 d1 h2 e2 d2 r0 r os1 x os2 y,
  timebase m freq -> freq < 2 ^ 32 ->
  receiver_new (nec_protocol b m NecApple) freq = Val r0 ->
  periods_fit ((h1 ++ [(e1, d1)]) ++ h2 ++ [(e2, d2)]) ->
  run_edges (D := nec_dec b m NecApple) (fun c => c) r0 ((h1 ++ [(e1, d1)]) ++ h2 ++ [(e2, d2)]) =
    Val (r, (os1 ++ [ROk (Some x)]) ++ os2 ++ [ROk (Some y)]) ->
  length os1 = length h1 -> Forall (fun o => o = ROk None) os2 ->
  apl_repeat y = true -> apl_page y = apl_page x /\ apl_command y = apl_command x /\ apl_device y = apl_device x.
Proof.
  intros b m freq h1 e1 d1 h2 e2 d2 r0 r os1 x os2 y Hm Hf E0 Hfit E L HF Hy.
  destruct (nec_repeats_last b m freq NecApple _ (fun c => c) ltac:(intros w0; cbn; unfold apple_unpack; destruct (negb _); auto; discriminate)
    h1 e1 d1 h2 e2 d2 r0 r os1 x os2 y Hm Hf (or_introl eq_refl) E0 Hfit E L HF)
    as (w & c & c' & <- & <- & K1 & K2).
  cbn [nv_unpack NecApple] in *. unfold apple_unpack in *. destruct (negb (apple_validate w)); [destruct K1; discriminate|].
  destruct K2 as [K2|[w' K2]].
  - apply some_inj in K2. subst y. destruct K1 as [K1|K1]; apply some_inj in K1; subst x; cbn; auto.
  - destruct (negb (apple_validate w')); [discriminate|]. apply some_inj in K2. subst y. discriminate.
Qed.
Print Assumptions C29_apple_partial.

(** A concrete case: frame, two repeat codes; the last report repeats the one before. *)
Example C29_example :
  let h := (true, 4000) :: pair_edges (nec_example_pairs (360, 180) (bytes4 21 (compl8 21) 200 (compl8 200)) ++
    [(22, 1600); (360, 90)]) in
  outcomes (nec_protocol (debug_build 32) MU32 NecStandard) 40000 h =
    Some ((repeat (ROk None) 66 ++ [ROk (Some (mkNec 21 200 false))]) ++ repeat (ROk None) 3 ++
          [ROk (Some (mkNec 21 200 true))]).
Proof. vm_compute. reflexivity. Qed.

(** ** C30 *)

(** Refuted for the standard, Samsung and 16-bit variants: frames whose inverted byte
    does not match are reported like any other. *)
Theorem C30_nec_refuted :
  exists w h c, w < 2 ^ 32 /\ field w 24 8 <> compl8 (field w 16 8) /\ field w 8 8 <> compl8 (field w 0 8) /\
    ends_in_nec_frame 40000 13500 w (periods h) /\
    outcome_at (nec_protocol (debug_build 32) MU32 NecStandard) 40000 h (length h - 1) = Some (ROk (Some c)).
Proof.
  set (w := bytes4 21 22 200 201).
  exists w, ((true, 4000) :: pair_edges (nec_example_pairs (360, 180) w)), (mkNec 21 200 false).
  split; [reflexivity|]. split; [vm_compute; discriminate|]. split; [vm_compute; discriminate|]. split.
  - exists [4000], 540, (map (fun bit : bool => if bit then 94 else 46) (bits_lsb 32 w)).
    split; [vm_compute; reflexivity|]. split; [split; vm_compute; discriminate|]. split; [reflexivity|].
    eapply forall2b_ok with (f := fun (bit : bool) d => if bit then nearb 40000 2250 13 d else nearb 40000 1120 26 d).
    + intros [|] d H; apply nearb_ok; exact H.
    + vm_compute. reflexivity.
  - vm_compute. reflexivity.
Qed.
Print Assumptions C30_nec_refuted.

Theorem C30_samsung_refuted :
  exists w h c, w < 2 ^ 32 /\ field w 24 8 <> compl8 (field w 16 8) /\ field w 8 8 <> field w 0 8 /\
    ends_in_nec_frame 40000 9000 w (periods h) /\
    outcome_at (nec_protocol (debug_build 32) MU32 NecSamsung) 40000 h (length h - 1) = Some (ROk (Some c)).
Proof.
  set (w := bytes4 21 22 200 201).
  exists w, ((true, 4000) :: pair_edges (nec_example_pairs (180, 180) w)), (mkSamsung 21 200 false).
  split; [reflexivity|]. split; [vm_compute; discriminate|]. split; [vm_compute; discriminate|]. split.
  - exists [4000], 360, (map (fun bit : bool => if bit then 94 else 46) (bits_lsb 32 w)).
    split; [vm_compute; reflexivity|]. split; [split; vm_compute; discriminate|]. split; [reflexivity|].
    eapply forall2b_ok with (f := fun (bit : bool) d => if bit then nearb 40000 2250 13 d else nearb 40000 1120 26 d).
    + intros [|] d H; apply nearb_ok; exact H.
    + vm_compute. reflexivity.
  - vm_compute. reflexivity.
Qed.
Print Assumptions C30_samsung_refuted.

Theorem C30_nec16_refuted :
  exists w h c, w < 2 ^ 32 /\ field w 24 8 <> compl8 (field w 16 8) /\
    ends_in_nec_frame 40000 13500 w (periods h) /\
    outcome_at (nec_protocol (debug_build 32) MU32 Nec16Bit) 40000 h (length h - 1) = Some (ROk (Some c)).
Proof.
  set (w := bytes4 21 22 200 201).
  exists w, ((true, 4000) :: pair_edges (nec_example_pairs (360, 180) w)), (mkNec16 5653 200 false).
  split; [reflexivity|]. split; [vm_compute; discriminate|]. split.
  - exists [4000], 540, (map (fun bit : bool => if bit then 94 else 46) (bits_lsb 32 w)).
    split; [vm_compute; reflexivity|]. split; [split; vm_compute; discriminate|]. split; [reflexivity|].
    eapply forall2b_ok with (f := fun (bit : bool) d => if bit then nearb 40000 2250 13 d else nearb 40000 1120 26 d).
    + intros [|] d H; apply nearb_ok; exact H.
    + vm_compute. reflexivity.
  - vm_compute. reflexivity.
Qed.
Print Assumptions C30_nec16_refuted.

(** The Apple variant is the only one that checks: whatever is reported, from a frame or
    a repeat code, comes from a word with the vendor code and odd parity. *)
Theorem C30_apple_partial :
  forall b m freq C (into : apple_command -> C) h e d r0 r os x,
  timebase m freq -> freq < 2 ^ 32 ->
  receiver_new (nec_protocol b m NecApple) freq = Val r0 ->
  periods_fit (h ++ [(e, d)]) ->
  run_edges (D := nec_dec b m NecApple) into r0 (h ++ [(e, d)]) = Val (r, os ++ [ROk (Some x)]) ->
  exists w c, x = into c /\ w < 2 ^ 32 /\
    field w 5 11 = 1087 /\ Nat.odd (ones (bits_lsb 32 w)) = true /\
    apl_page c = field w 0 5 /\ apl_command c = field w 17 7 /\ apl_device c = field w 24 8 /\
    (apl_repeat c = false -> ends_in_nec_frame freq 13500 w (periods (h ++ [(e, d)]))).
Proof.
  intros b m freq C into h e d r0 r os x Hm Hf E0 Hfit E.
  destruct (nec_sound_report b m freq NecApple Hm Hf (or_introl eq_refl) into h e d r0 r os x E0 Hfit E)
    as (-> & w & pv & c & Er & -> & K).
  pose proof (nec_sound_word b m freq NecApple Hm Hf (or_introl eq_refl) into _ r0 r _ E0 Hfit E) as Hw.
  rewrite Er in Hw. cbn [rv_dec ns_bitbuf] in Hw.
  exists w, c. split; auto. split; auto.
  destruct K as [[K1 K2]|[K1 K2]]; cbn [nv_unpack NecApple] in K2; apply apple_unpack_char in K2; auto;
    destruct K2 as (A1 & A2 & ->); cbn [apl_page apl_command apl_device apl_repeat];
    (split; [exact A1|]); (split; [exact A2|]); do 3 (split; [reflexivity|]).
  - intros _. exact K1.
  - discriminate.
Qed.
Print Assumptions C30_apple_partial.

Example C30_example :
  let w := 1510115310 in
  let h w := (true, 4000) :: pair_edges (nec_example_pairs (360, 180) w) in
  let P := nec_protocol (debug_build 32) MU32 NecApple in
  outcome_at P 40000 (h w) 66 = Some (ROk (Some (mkApple 14 1 90 false))) /\
  outcome_at P 40000 (h (w + 2 ^ 31)) 66 = Some (ROk None).
Proof. split; vm_compute; reflexivity. Qed.

(** ** C31 *)

(** Every history: the measured periods end with a complete frame that spells the
    reported command. *)
Theorem C31_sbp :
  forall b m freq C (into : sbp_command -> C) h e d r0 r os x,
  timebase m freq -> freq < 2 ^ 32 ->
  receiver_new (sbp_protocol b m) freq = Val r0 -> short (h ++ [(e, d)]) ->
  run_edges (D := sbp_dec b m) into r0 (h ++ [(e, d)]) = Val (r, os ++ [ROk (Some x)]) ->
  e = true /\ exists a w ps sv, readings (h ++ [(e, d)]) ps sv /\ ends_in_sbp_frame freq a w ps /\
    x = into (mkSbp a (field w 4 8) (field w 12 8 =? compl8 (field w 4 8))).
Proof.
  intros b m freq C into h e d r0 r os x Hm Hf E0 Hs E.
  destruct (sbp_sound_report b m freq Hm Hf into h e d r0 r os x E0 (or_introl Hs) E)
    as (-> & a & w & ps & sv & -> & R & F). split; auto. exists a, w, ps, sv. split; auto. split; auto.
  destruct F as (pre & hd & ads & pause & cds & _ & _ & _ & Ha & Hw & _). rewrite sbp_unpack_char by auto. reflexivity.
Qed.
Print Assumptions C31_sbp.

(** When every mark that begins also ends before the next one, as on a real pin, the
    measured periods are the periods of the signal. *)
Theorem C31_sbp_periods :
  forall b m freq C (into : sbp_command -> C) h e d r0 r os x,
  timebase m freq -> freq < 2 ^ 32 ->
  receiver_new (sbp_protocol b m) freq = Val r0 ->
  no_double_rise (h ++ [(e, d)]) -> periods_fit (h ++ [(e, d)]) ->
  run_edges (D := sbp_dec b m) into r0 (h ++ [(e, d)]) = Val (r, os ++ [ROk (Some x)]) ->
  e = true /\ exists a w, ends_in_sbp_frame freq a w (periods (h ++ [(e, d)])) /\
    x = into (mkSbp a (field w 4 8) (field w 12 8 =? compl8 (field w 4 8))).
Proof.
  intros b m freq C into h e d r0 r os x Hm Hf E0 Hn Hp E.
  destruct (sbp_sound_report b m freq Hm Hf into h e d r0 r os x E0 (or_intror (conj Hn Hp)) E)
    as (-> & a & w & ps & sv & -> & R & F). split; auto. exists a, w.
  destruct (readings_periods _ _ _ R Hn) as [-> _]. split; auto.
  destruct F as (pre & hd & ads & pause & cds & _ & _ & _ & Ha & Hw & _). rewrite sbp_unpack_char by auto. reflexivity.
Qed.
Print Assumptions C31_sbp_periods.

(** A concrete case, and what makes [readings] necessary: the receiver reports a frame
    although the second half of its marks never ended. *)
Example C31_example :
  let w := 5 + 2 ^ 4 * 77 + 2 ^ 12 * compl8 77 in
  let bit (b : bool) := if b then (21, 62) else (21, 19) in
  let ps := (170, 185) :: map bit (bits_lsb 16 4660) ++ (20, 178) :: map bit (bits_lsb 20 w) in
  let h := (true, 2000) :: pair_edges ps in
  let h' := (true, 2000) :: pair_edges (firstn 20 ps) ++ map (fun x => (true, snd x)) (skipn 20 ps) in
  no_double_rise h /\ short h /\ short h' /\
  outcome_at (sbp_protocol (debug_build 32) MU32) 40000 h (length h - 1) = Some (ROk (Some (mkSbp 4660 77 true))) /\
  outcome_at (sbp_protocol (debug_build 32) MU32) 40000 h' (length h' - 1) = Some (ROk (Some (mkSbp 4660 77 true))).
Proof.
  split; [vm_compute; exact I|]. split; [short_example|]. split; [short_example|]. split; vm_compute; reflexivity.
Qed.

(** ** C32 *)

Theorem C32_rc5 :
  forall b m freq C (into : rc5_command -> C) h e d r0 r os x,
  timebase m freq -> freq < 2 ^ 32 -> 8 <= usize_bits b ->
  receiver_new (rc5_protocol b m) freq = Val r0 ->
  run_edges (D := rc5_dec b) into r0 (h ++ [(e, d)]) = Val (r, os ++ [ROk (Some x)]) ->
  exists h1 gap evs s2 toggle abits cbits,
    h ++ [(e, d)] = h1 ++ (true, gap) :: evs /\
    rc5_stream freq evs (s2 :: toggle :: abits ++ cbits) /\ length abits = 5%nat /\ length cbits = 6%nat /\
    x = into (mkRc5 (val_msb abits) (val_msb cbits) (2 + N.b2n s2) toggle).
Proof.
  intros b m freq C into h e d r0 r os x Hm Hf Hu E0 E.
  destruct (rc5_sound_report b m freq Hm Hf Hu into h e d r0 r os x E0 E) as (c & -> & h1 & g & evs & bits & Eh & S & L & ->).
  destruct bits as [|s2 [|tg bits]]; try discriminate L.
  exists h1, g, evs, s2, tg, (firstn 5 bits), (skipn 5 bits). rewrite firstn_skipn.
  split; auto. split; auto.
  assert (L1 : length (firstn 5 bits) = 5%nat) by (rewrite firstn_length; cbn [length] in L; lia).
  assert (L2 : length (skipn 5 bits) = 6%nat) by (rewrite skipn_length; cbn [length] in L; lia).
  split; auto. split; auto. f_equal. rewrite rc5_unpack_layout.
  replace (s2 :: tg :: bits) with ([s2] ++ [tg] ++ firstn 5 bits ++ skipn 5 bits) by (rewrite firstn_skipn; reflexivity).
  rewrite !val_msb_app, !app_length, L1, L2. cbn [length Nat.add].
  pose proof (val_msb_lt (firstn 5 bits)) as B1. pose proof (val_msb_lt (skipn 5 bits)) as B2.
  rewrite L1 in B1. rewrite L2 in B2. set (a := val_msb (firstn 5 bits)) in *. set (c := val_msb (skipn 5 bits)) in *.
  clearbody a c. clear -B1 B2. unfold field.
  change (2 ^ N.of_nat 5) with 32 in *. change (2 ^ N.of_nat 6) with 64 in *. change (2 ^ N.of_nat 11) with 2048.
  change (2 ^ N.of_nat 12) with 4096. change (2 ^ 13) with 8192. change (2 ^ 0) with 1. change (2 ^ 6) with 64.
  change (2 ^ 5) with 32. change (2 ^ 12) with 4096. change (2 ^ 2) with 4. change (2 ^ 11) with 2048. change (2 ^ 1) with 2.
  unfold val_msb. cbn [rev app val_lsb]. f_equal; destruct s2, tg; cbn [N.b2n]; lia.
Qed.
Print Assumptions C32_rc5.

(** The bits of the example frame of C21, one reading per sampled edge. *)
Example C32_example :
  let w := 2 ^ 13 + 2 ^ 11 + 2 ^ 6 * 5 + 53 in
  let acts := jitter (fun n => if n =? 1 then 31 else 77) (tl (level_edges false 0 (rc5_wave w))) in
  let ns := map snd (tl (level_edges false 0 (rc5_wave w))) in
  samples false 0 acts ns = [false; true; false; false; true; false; true; true; true; false; true; false; true] /\
  outcome_at (rc5_protocol (debug_build 16) MU32) 40000 ((true, 500) :: acts) (length acts) =
    Some (ROk (Some (mkRc5 5 53 2 true))).
Proof. split; vm_compute; reflexivity. Qed.

(** ** C33 *)

Theorem C33_rc6 :
  forall b m freq C (into : rc6_command -> C) h e d r0 r os x,
  timebase m freq -> freq < 2 ^ 32 -> 8 <= usize_bits b ->
  receiver_new (rc6_protocol b m) freq = Val r0 ->
  run_edges (D := rc6_dec b) into r0 (h ++ [(e, d)]) = Val (r, os ++ [ROk (Some x)]) ->
  exists h1 gap evs toggle abits cbits,
    h ++ [(e, d)] = h1 ++ (true, gap) :: evs /\
    rc6_stream freq evs toggle (abits ++ cbits) /\ length abits = 8%nat /\ length cbits = 8%nat /\
    x = into (mkRc6 (val_msb abits) (val_msb cbits) toggle).
Proof.
  intros b m freq C into h e d r0 r os x Hm Hf Hu E0 E.
  destruct (rc6_sound_report b m freq Hm Hf Hu into h e d r0 r os x E0 E) as (c & -> & h1 & g & evs & tg & bits & Eh & S & L & ->).
  exists h1, g, evs, tg, (firstn 8 bits), (skipn 8 bits). rewrite firstn_skipn.
  split; auto. split; auto.
  assert (L1 : length (firstn 8 bits) = 8%nat) by (rewrite firstn_length; lia).
  assert (L2 : length (skipn 8 bits) = 8%nat) by (rewrite skipn_length; lia).
  split; auto. split; auto. f_equal.
  pose proof (val_msb_lt bits) as B. rewrite L in B. rewrite rc6_from_bits_word by exact B.
  replace bits with (firstn 8 bits ++ skipn 8 bits) at 1 2 by apply firstn_skipn. rewrite val_msb_app, L2.
  pose proof (val_msb_lt (firstn 8 bits)) as B1. pose proof (val_msb_lt (skipn 8 bits)) as B2.
  rewrite L1 in B1. rewrite L2 in B2. set (a := val_msb (firstn 8 bits)) in *. set (k := val_msb (skipn 8 bits)) in *.
  clearbody a k. clear -B1 B2. unfold field. change (2 ^ N.of_nat 8) with 256 in *. change (2 ^ 8) with 256. change (2 ^ 0) with 1.
  f_equal; lia.
Qed.
Print Assumptions C33_rc6.

(** The example frame of C22: address 4, command 12, with toggle. *)
Example C33_example :
  let l := level_edges false 0 (rc6_wave true (bits_msb 16 (2 ^ 8 * 4 + 12))) in
  let acts := jitter (fun n => 19 * n) (tl (tl l)) in
  outcome_at (rc6_protocol (debug_build 16) MU32) 40000 ((true, 1000) :: (false, 100) :: acts) (length acts + 1) =
    Some (ROk (Some (mkRc6 4 12 true))).
Proof. vm_compute. reflexivity. Qed.

(** ** C34 *)

Theorem C34_denon :
  forall b m freq C (into : denon_command -> C) h e d r0 r os x,
  timebase m freq -> freq < 2 ^ 32 ->
  receiver_new (denon_protocol b m) freq = Val r0 -> periods_fit (h ++ [(e, d)]) ->
  run_edges (D := denon_dec b m) into r0 (h ++ [(e, d)]) = Val (r, os ++ [ROk (Some x)]) ->
  e = true /\ exists c pre hd ds w, x = into c /\
    periods (h ++ [(e, d)]) = pre ++ hd :: ds /\ is_denon_frame freq w hd ds /\
    Denon.denon_bits c < 2 ^ 47 /\
    (forall k, k < 47 -> N.testbit w k = true -> N.testbit (Denon.denon_bits c) k = true).
Proof.
  intros b m freq C into h e d r0 r os x Hm Hf E0 Hfit E.
  apply run_edges_snoc in E. destruct E as (r1 & os1 & o & E1 & E2 & Eo).
  apply app_inj_tail in Eo. destruct Eo as [<- <-].
  apply periods_fit_snoc in Hfit. destruct Hfit as [Hfit Hd].
  destruct (denon_sound_run b m freq Hm Hf into h r0 r1 os E0 Hfit E1) as (s & buf & pv & pre & ps & -> & Ep & Ht).
  destruct (denon_sound_step b m freq Hm Hf into s buf (last_mark h) pv ps e d Ht Hd) as (s' & buf' & o' & E & K).
  rewrite E in E2. injection E2 as <- Eo.
  destruct K as [(K & _)|(-> & _ & _ & c & K & T)]; rewrite K in Eo; [discriminate|]. injection Eo as <-.
  split; auto. destruct T as (pre' & hd & ds & w & E' & F & T1 & T2 & _).
  exists c, (pre ++ pre'), hd, ds, w. rewrite periods_snoc, Ep, <- app_assoc, E', <- app_assoc. auto 6.
Qed.
Print Assumptions C34_denon.

(** The command is the low 47 bits of the frame, unless a frame broke off before
    (C23): [h1] is empty or ends with a report, nothing is reported in [h2], and no
    period since then looks like the start of a frame, except that of this one. *)
Theorem C34_denon_exact :
  forall b m freq C (into : denon_command -> C) h1 h2 e d r0 r1 os1 r os2 x,
  timebase m freq -> freq < 2 ^ 32 ->
  receiver_new (denon_protocol b m) freq = Val r0 -> periods_fit ((h1 ++ h2) ++ [(e, d)]) ->
  run_edges (D := denon_dec b m) into r0 h1 = Val (r1, os1) ->
  h1 = [] \/ (exists os y, os1 = os ++ [ROk (Some y)]) ->
  run_edges (D := denon_dec b m) into r1 (h2 ++ [(e, d)]) = Val (r, os2 ++ [ROk (Some x)]) ->
  Forall (fun o => o = ROk None) os2 ->
  exists c pre hd ds w, x = into c /\
    periods ((h1 ++ h2) ++ [(e, d)]) = periods h1 ++ pre ++ hd :: ds /\ is_denon_frame freq w hd ds /\
    (Forall (fun p => ~ near freq 5000 9 p) pre -> Denon.denon_bits c = w mod 2 ^ 47).
Proof.
  intros b m freq C into h1 h2 e d r0 r1 os1 r os2 x Hm Hf E0 Hfit E1 H1 E HF.
  apply run_edges_snoc in E. destruct E as (r2 & os' & o & E2 & E3 & Eo).
  apply app_inj_tail in Eo. destruct Eo as [<- <-].
  apply periods_fit_snoc in Hfit. destruct Hfit as [Hfit Hd].
  destruct (denon_sound_since b m freq Hm Hf into h1 h2 r0 r1 os1 r2 os2 E0 Hfit E1 E2 H1 HF)
    as (s & buf & pv & ps & -> & Ep & Ht).
  destruct (denon_sound_step b m freq Hm Hf into s buf _ pv ps e d Ht Hd) as (s' & buf' & o' & E & K).
  unfold edge in *. rewrite E in E3. injection E3 as <- Eo.
  destruct K as [(K & _)|(-> & _ & _ & c & K & T)]; rewrite K in Eo; [discriminate|]. injection Eo as <-.
  destruct T as (pre' & hd & ds & w & E' & F & _ & _ & T3).
  exists c, pre', hd, ds, w. rewrite periods_snoc, Ep, <- app_assoc, E'. auto.
Qed.
Print Assumptions C34_denon_exact.

Example C34_example :
  let w := 2 ^ 46 + 2 ^ 33 + 1234567 in
  let ps := (70, 130) :: map (fun b : bool => if b then (20, 48) else (18, 16)) (bits_lsb 48 w) in
  let h := [(true, 7); (false, 30); (true, 2000)] ++ pair_edges ps in
  periods h = [7; 2030] ++ 200 :: map (fun b : bool => if b then 68 else 34) (bits_lsb 48 w) /\
  periods_fit h /\ Forall (fun p => ~ near 40000 5000 9 p) [7; 2030] /\
  outcome_at (denon_protocol (debug_build 32) MU32) 40000 h (length h - 1) = Some (ROk (Some (mkDenon w))).
Proof.
  split; [vm_compute; reflexivity|]. split; [apply short_fits; short_example|]. split.
  - apply Forall_cons; [|apply Forall_cons; [|apply Forall_nil]]; intros [H1 H2]; vm_compute in H1, H2;
      first [apply H1; reflexivity|apply H2; reflexivity].
  - vm_compute. reflexivity.
Qed.
