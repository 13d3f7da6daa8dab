(** * Property theorems: multi receivers started while a transmission is under way (C99) *)
From Coq Require Import NArith ZArith List Bool Lia ZifyBool ZifyNat ZifyN.
From Verif Require Import Machine Time Decoder Nec Rc5 Rc6 Denon Sbp Receiver Spec Bits Time_facts Run_facts Nec_facts Rc5_facts Rc6_facts Encode_facts
  Spec_receiver Spec_sound Sound_facts Biphase_facts Spec_cross Cross_facts Example_facts Spec_damage Damage_facts Props_damage Spec_invert Invert_facts Props_invert
  Props_receiver Props_every Spec_join Join_facts Joinany_facts Props_join.
Import ListNotations.
Open Scope N_scope.

(** [evs] is a transmission of any protocol.  The tick rate is at least 44 kHz; at some lower rates (22.3 kHz)
    rounding can make the rest of a NEC header as long as a Samsung repeat code. *)

Theorem C99_any_nec :
  forall b m freq V C (into : nv_cmd V -> C) gap evs seen r0 r os,
  timebase m freq -> 44000 <= freq -> freq < 2 ^ 32 -> nv_timing V = NEC_STANDARD_TIMING \/ nv_timing V = NEC_SAMSUNG_TIMING ->
  sent_any freq evs -> joins 2 ((true, gap) :: evs) seen ->
  receiver_new (nec_protocol b m V) freq = Val r0 ->
  run_edges (D := nec_dec b m V) into r0 seen = Val (r, os) ->
  commands os = [].
Proof.
  intros b m freq V C into gap evs seen r0 r os Hm Hlo Hf HT Hs J E0 E.
  destruct (joined_any freq evs gap seen Hlo Hs J) as (Q & _).
  refine (nec_silent b m freq V C into seen r0 r os Hm Hf HT (periods_small _ _ _ Hf _ Q) _ E0 E).
  - clear. nom freq 6750. nom freq 13500. lia.
  - assert (L : nominal freq 6750 <= nominal freq (header_high (nv_timing V) + repeat_low (nv_timing V))).
    { apply nominal_le. destruct HT as [-> | ->]; vm_compute; discriminate. }
    eapply Forall_impl; [|exact Q]. cbv beta. intros q Hq. lia.
Qed.
Print Assumptions C99_any_nec.

Theorem C99_any_sbp :
  forall b m freq C (into : sbp_command -> C) gap evs seen r0 r os,
  timebase m freq -> 44000 <= freq -> freq < 2 ^ 32 ->
  sent_any freq evs -> joins 2 ((true, gap) :: evs) seen ->
  receiver_new (sbp_protocol b m) freq = Val r0 ->
  run_edges (D := sbp_dec b m) into r0 seen = Val (r, os) ->
  commands os = [].
Proof.
  intros b m freq C into gap evs seen r0 r os Hm Hlo Hf Hs J E0 E.
  destruct (joined_any freq evs gap seen Hlo Hs J) as (Q & S & _).
  refine (sbp_silent b m freq C into seen r0 r os Hm Hf (periods_small _ _ _ Hf _ Q) S _ E0 E).
  - clear. nom freq 6750. nom freq 13500. lia.
  - pose proof (nominal_le freq 6750 9000 ltac:(lia)) as L. eapply Forall_impl; [|exact Q]. cbv beta. intros q Hq. lia.
Qed.
Print Assumptions C99_any_sbp.

Theorem C99_any_denon :
  forall b m freq C (into : denon_command -> C) gap evs seen r0 r os,
  timebase m freq -> 44000 <= freq -> freq < 2 ^ 32 ->
  sent_any freq evs -> joins 2 ((true, gap) :: evs) seen ->
  receiver_new (denon_protocol b m) freq = Val r0 ->
  run_edges (D := denon_dec b m) into r0 seen = Val (r, os) ->
  commands os = [].
Proof.
  intros b m freq C into gap evs seen r0 r os Hm Hlo Hf Hs J E0.
  destruct (joined_any freq evs gap seen Hlo Hs J) as (Q & _ & _ & D & _).
  assert (Hfit : periods_fit seen).
  { refine (periods_small _ _ _ Hf _ Q). clear. nom freq 6750. nom freq 13500. lia. }
  destruct D as [D|D]; [intros E; exact (denon_silent b m freq C into seen r0 r os Hm Hf Hfit D E0 E)|].
  apply (quiet_run (D := denon_dec b m) into r0 [] seen). intros k e d rest r' os' x Ek E. cbn [app] in E.
  change ((e, d) :: rest) with ([(e, d)] ++ rest) in Ek. rewrite app_assoc in Ek.
  assert (Hfit' : periods_fit (k ++ [(e, d)])) by (apply periods_fit_app with (h2 := rest); unfold edge in *; rewrite <- Ek; exact Hfit).
  destruct (denon_sound_report b m freq C into k e d r0 r' os' x Hm Hf E0 Hfit' E) as (-> & pre & hd & ds & w & Eps & _ & _ & F).
  apply forall2_length in F. change (length (bits_lsb 48 w)) with 48%nat in F.
  assert (P : forall l1 l2 sv, (length (periods_from sv l1) <= length (periods_from sv (l1 ++ l2)))%nat).
  { clear. induction l1 as [|[[|] y] l1 IH]; intros l2 sv; cbn [app periods_from length]; [lia| |]; [specialize (IH l2 0)|specialize (IH l2 y)]; lia. }
  specialize (P (k ++ [(true, d)]) rest 0). fold (periods (k ++ [(true, d)])) in P. fold (periods ((k ++ [(true, d)]) ++ rest)) in P.
  unfold edge in *. rewrite Eps, <- Ek, app_length in P. unfold periods in D. cbn [length] in P. lia.
Qed.
Print Assumptions C99_any_denon.

Theorem C99_any_rc5 :
  forall b m freq C (into : rc5_command -> C) gap evs seen r0 r os,
  timebase m freq -> 44000 <= freq -> freq < 2 ^ 32 -> 8 <= usize_bits b ->
  sent_any freq evs -> joins 2 ((true, gap) :: evs) seen ->
  receiver_new (rc5_protocol b m) freq = Val r0 ->
  run_edges (D := rc5_dec b) into r0 seen = Val (r, os) ->
  commands os = [].
Proof.
  intros b m freq C into gap evs seen r0 r os Hm Hlo Hf Hu Hs J E0 E. revert E.
  destruct (joined_any freq evs gap seen Hlo Hs J) as (_ & _ & _ & _ & R5).
  apply (quiet_run (D := rc5_dec b) into r0 [] seen). intros k e d rest r' os' x Ek E. cbn [app] in E.
  destruct (rc5_sound_report b m freq Hm Hf Hu into k e d r0 r' os' x E0 E) as (c & -> & h1 & g & seg & bits & E1 & S & L & _).
  apply (R5 h1 g seg rest bits); auto.
  change ((e, d) :: rest) with ([(e, d)] ++ rest) in Ek. rewrite app_assoc in Ek. unfold edge in *. rewrite Ek, E1, <- app_assoc. reflexivity.
Qed.
Print Assumptions C99_any_rc5.

Theorem C99_any_rc6 :
  forall b m freq C (into : rc6_command -> C) gap evs seen r0 r os,
  timebase m freq -> 44000 <= freq -> freq < 2 ^ 32 -> 8 <= usize_bits b ->
  sent_any freq evs -> joins 2 ((true, gap) :: evs) seen ->
  receiver_new (rc6_protocol b m) freq = Val r0 ->
  run_edges (D := rc6_dec b) into r0 seen = Val (r, os) ->
  commands os = [].
Proof.
  intros b m freq C into gap evs seen r0 r os Hm Hlo Hf Hu Hs J E0 E.
  destruct (joined_any freq evs gap seen Hlo Hs J) as (_ & _ & Q & _).
  exact (rc6_silent b m freq C into seen r0 r os Hm Hf ltac:(lia) Hu Q E0 E).
Qed.
Print Assumptions C99_any_rc6.

Lemma quiet_outcomes {C E D} (f : C -> D) (os : list (result (option C) E)) : commands os = [] ->
  map (fun o => Some (match o with ROk (Some c) => Some (f c) | _ => None end)) os = map (fun _ => Some None) os.
Proof.
  intros H. apply map_ext_in. intros [[c|]|] Hi; try reflexivity. exfalso.
  apply in_split in Hi. destruct Hi as (o1 & o2 & ->). unfold commands in H. rewrite flat_map_app in H. apply app_eq_nil in H. destruct H as [_ H].
  discriminate H.
Qed.

(** A new multi receiver of any of the protocols: all entries are empty. *)
Theorem C99_multi :
  forall b m freq ks gap evs seen ss ss' rows,
  timebase m freq -> 44000 <= freq -> freq < 2 ^ 32 -> 8 <= usize_bits b ->
  sent_any freq evs -> joins 2 ((true, gap) :: evs) seen ->
  multi_make (map (of_kind b m) ks) freq = Val ss -> run_multi ss seen = Val (ss', rows) ->
  rows = map (fun _ => map (fun _ => None) ks) seen.
Proof.
  intros b m freq ks gap evs seen ss ss' rows Hm Hlo Hf Hu Hs J Em Er.
  destruct (C49_multi_independent _ _ _ _ _ _ Em Er) as (L & H).
  assert (Ln : length rows = length seen).
  { clear - Er. revert ss ss' rows Er. induction seen as [|[e d] h IH]; intros ss ss' rows Er; cbn [run_multi] in Er; [injection Er as _ <-; reflexivity|].
    destruct (multi_event ss d e) as [[s1 o]| |]; cbn [bind] in Er; try discriminate.
    destruct (run_multi s1 h) as [[s2 os]| |] eqn:E; cbn [bind] in Er; try discriminate. injection Er as _ <-. cbn [length]. f_equal. eauto. }
  assert (R : forall row, In row rows -> row = map (fun _ => None) ks).
  { intros row Hr. rewrite Forall_forall in L. specialize (L row Hr). rewrite map_length in L.
    assert (Q : forall i k, nth_error ks i = Some k -> nth_error row i = Some None).
    { intros i k Hk. destruct (H i (of_kind b m k)) as (r0 & r & os & E0 & E & Ec); [rewrite nth_error_map, Hk; reflexivity|].
      assert (K : commands os = []).
      { destruct k; cbn [of_kind ap_proto] in *.
        - exact (C99_any_nec b m freq NecStandard _ _ gap evs seen r0 r os Hm Hlo Hf (or_introl eq_refl) Hs J E0 E).
        - exact (C99_any_nec b m freq NecSamsung _ _ gap evs seen r0 r os Hm Hlo Hf (or_intror eq_refl) Hs J E0 E).
        - exact (C99_any_nec b m freq NecApple _ _ gap evs seen r0 r os Hm Hlo Hf (or_introl eq_refl) Hs J E0 E).
        - exact (C99_any_rc5 b m freq _ _ gap evs seen r0 r os Hm Hlo Hf Hu Hs J E0 E).
        - exact (C99_any_rc6 b m freq _ _ gap evs seen r0 r os Hm Hlo Hf Hu Hs J E0 E).
        - exact (C99_any_denon b m freq _ _ gap evs seen r0 r os Hm Hlo Hf Hs J E0 E).
        - exact (C99_any_sbp b m freq _ _ gap evs seen r0 r os Hm Hlo Hf Hs J E0 E). }
      rewrite (quiet_outcomes _ os K) in Ec.
      assert (I : In (nth_error row i) (map (fun row => nth_error row i) rows)) by (apply in_map_iff; eauto).
      rewrite Ec in I. apply in_map_iff in I. destruct I as (o & <- & _). reflexivity. }
    clear -L Q. revert row L Q. induction ks as [|k ks IH]; intros [|o row] L Q; cbn [length] in L; try discriminate L; [reflexivity|].
    cbn [map]. f_equal; [specialize (Q O k eq_refl); injection Q as ->; reflexivity|]. apply IH; [lia|]. intros i k' Hk. exact (Q (S i) k' Hk). }
  clear -Ln R. revert rows Ln R. induction seen as [|x seen IH]; intros [|row rows] Ln R; cbn [length] in Ln; try discriminate Ln; [reflexivity|].
  cbn [map]. f_equal; [apply R; left; reflexivity|]. apply IH; [lia|]. intros r Hr. apply R. right. exact Hr.
Qed.
Print Assumptions C99_multi.

(** All seven protocols, started in the header space of a NEC frame: nothing.  The whole frame: the NEC part reports
    the command. *)
Definition joinany_rows (l : list edge) : option (list (list (option any_command))) :=
  match multi_make (map (of_kind (debug_build 32) MU32) [KNec; KSamsung; KApple; KRc5; KRc6; KDenon; KSbp]) 50000 with
  | Val ss => match run_multi ss l with Val (_, rows) => Some rows | _ => None end
  | _ => None
  end.
Definition joinany_pairs (w : N) : list (N * N) := (450, 225) :: map (fun b : bool => if b then (28, 84) else (28, 28)) (bits_lsb 32 w).
Example C99_example_multi :
  let evs := pair_edges (joinany_pairs c95_second) in
  let l := (true, 1000) :: evs in
  sent_any 50000 evs /\ joins 2 l (joinb 2 l 120) /\
  option_map (fun rows => length (filter (fun o => match o with Some _ => true | None => false end) (concat rows))) (joinany_rows l) = Some 1%nat /\
  option_map (fun rows => length (filter (fun o => match o with Some _ => true | None => false end) (concat rows))) (joinany_rows (joinb 2 l 120)) = Some 0%nat.
Proof.
  split.
  { left. left. exists c95_second, (joinany_pairs c95_second). split; [reflexivity|]. split; [apply nec_frameb_ok|apply marks_nearb_ok]; vm_compute; reflexivity. }
  split; [eapply joinb_ok; [vm_compute; reflexivity|vm_compute; discriminate]|]. split; vm_compute; reflexivity.
Qed.

(** An RC5 signal with 44 kHz. *)
Example C99_example_any_rc5 :
  let w := 12 * 1024 + 5 * 64 + 35 in
  let evs := map (fun x : edge => (fst x, 39 * snd x)) (tl (level_edges false 0 (rc5_wave w))) in
  let l := (true, 700) :: evs in
  sent_any 44000 evs /\ joins 2 l (joinb 2 l 20) /\
  option_map commands (outcomes (rc5_protocol (debug_build 32) MU32) 44000 l) = Some [mkRc5 5 35 3 false] /\
  option_map commands (outcomes (rc5_protocol (debug_build 32) MU32) 44000 (joinb 2 l 20)) = Some [] /\
  option_map commands (outcomes (rc6_protocol (debug_build 32) MU32) 44000 (joinb 2 l 20)) = Some [] /\
  option_map commands (outcomes (denon_protocol (debug_build 32) MU32) 44000 (joinb 2 l 20)) = Some [] /\
  option_map commands (outcomes (sbp_protocol (debug_build 32) MU32) 44000 (joinb 2 l 20)) = Some [].
Proof.
  split.
  { do 6 right. left. left. exists (12 * 1024 + 5 * 64 + 35), 700. split; [reflexivity|]. apply rc5_edges_ok; vm_compute; reflexivity. }
  split; [eapply joinb_ok; [vm_compute; reflexivity|vm_compute; discriminate]|]. repeat split; vm_compute; reflexivity.
Qed.
