(** * Property theorems: a receiver that is started while a transmission is under way *)
From Coq Require Import NArith ZArith List Bool Lia ZifyBool ZifyNat ZifyN.
From Verif Require Import Machine Time Decoder Nec Rc5 Rc6 Denon Sbp Receiver Spec Bits Time_facts Run_facts Nec_facts Rc5_facts Rc6_facts Encode_facts
  Spec_receiver Spec_sound Sound_facts Biphase_facts Spec_cross Cross_facts Example_facts Spec_damage Damage_facts Props_damage Spec_invert Invert_facts Props_invert
  Spec_join Join_facts.
Import ListNotations.
Open Scope N_scope.

(** ** C99: a receiver started in the middle of a transmission does not take the rest for a command

    [evs] is a transmission of the receiver's own protocol that begins with a rising edge, [seen] what
    a new receiver sees of it.  It starts after the header mark ([joins 2]) or, for RC5, after the
    first edge ([joins 1]).  What it makes of the next transmission is said by C18 to C23. *)

Lemma nec_join_frame freq evs : 20000 <= freq -> ended freq 560 (fun l => sent_nec freq l \/ sent_nec_repeat freq l) evs ->
  exists h ds tail, evs = pair_edges (h :: ds) ++ tail /\ stopped tail /\ near freq 9000 8 (fst h) /\ 100 * snd h < 92 * nominal freq 11250 /\
    Forall (fun x => 100 * (fst x + snd x) < 92 * nominal freq 11250) ds.
Proof.
  intros Hlo Hs. apply ended_tail in Hs. destruct Hs as (body & tail & -> & Hb & Ht).
  assert (St : stopped tail) by (destruct Ht as [->|(d & -> & _)]; [left|right]; eauto).
  destruct Hb as [(w & ps & -> & F & M)|(x & -> & Hx & Hk)].
  - pose proof (nec_spaces freq 13500 9000 11250 w ps Hlo ltac:(auto) F M) as Q. destruct F as (h & ds & -> & Hh & F). exists h, ds, tail.
    destruct M as (h' & ds' & Eh & Hk & _). injection Eh as <- <-.
    split; [reflexivity|]. split; [exact St|]. split; [exact Hk|]. inversion Q as [|? ? Q1 _]; subst. split; [lia|].
    clear -F Hlo. induction F as [|bt x bs ds H F IH]; constructor; auto. clear IH F. destruct bt; apply period_upper in H.
    + nom freq 2250. nom freq 11250. lia.
    + nom freq 1120. nom freq 11250. lia.
  - pose proof (nec_repeat_space freq 11250 9000 x Hlo ltac:(auto) Hx Hk) as Q. exists x, [], tail.
    split; [reflexivity|]. split; [exact St|]. split; [exact Hk|]. inversion Q as [|? ? Q1 _]; subst. split; [lia|constructor].
Qed.

Lemma samsung_join_frame freq evs : 20000 <= freq -> ended freq 560 (fun l => sent_samsung freq l \/ sent_samsung_repeat freq l) evs ->
  exists h ds tail, evs = pair_edges (h :: ds) ++ tail /\ stopped tail /\ near freq 4500 8 (fst h) /\ 100 * snd h < 92 * nominal freq 6750 /\
    Forall (fun x => 100 * (fst x + snd x) < 92 * nominal freq 6750) ds.
Proof.
  intros Hlo Hs. apply ended_tail in Hs. destruct Hs as (body & tail & -> & Hb & Ht).
  assert (St : stopped tail) by (destruct Ht as [->|(d & -> & _)]; [left|right]; eauto).
  destruct Hb as [(w & ps & -> & F & M)|(x & -> & Hx & Hk)].
  - pose proof (nec_spaces freq 9000 4500 6750 w ps Hlo ltac:(auto) F M) as Q. destruct F as (h & ds & -> & Hh & F). exists h, ds, tail.
    destruct M as (h' & ds' & Eh & Hk & _). injection Eh as <- <-.
    split; [reflexivity|]. split; [exact St|]. split; [exact Hk|]. inversion Q as [|? ? Q1 _]; subst. split; [lia|].
    clear -F Hlo. induction F as [|bt x bs ds H F IH]; constructor; auto. clear IH F. destruct bt; apply period_upper in H.
    + nom freq 2250. nom freq 6750. lia.
    + nom freq 1120. nom freq 6750. lia.
  - pose proof (nec_repeat_space freq 6750 4500 x Hlo ltac:(auto) Hx Hk) as Q. exists x, [], tail.
    split; [reflexivity|]. split; [exact St|]. split; [exact Hk|]. inversion Q as [|? ? Q1 _]; subst. split; [lia|constructor].
Qed.

Theorem C99_nec :
  forall b m freq V C (into : nv_cmd V -> C) gap evs seen r0 r os,
  timebase m freq -> 20000 <= freq -> freq < 2 ^ 32 -> nv_timing V = NEC_STANDARD_TIMING ->
  ended freq 560 (fun l => sent_nec freq l \/ sent_nec_repeat freq l) evs ->
  joins 2 ((true, gap) :: evs) seen ->
  receiver_new (nec_protocol b m V) freq = Val r0 ->
  run_edges (D := nec_dec b m V) into r0 seen = Val (r, os) ->
  commands os = [].
Proof.
  intros b m freq V C into gap evs seen r0 r os Hm Hlo Hf HT Hs J E0 E.
  destruct (nec_join_frame freq evs Hlo Hs) as (h & ds & tail & -> & St & _ & Hh & F).
  pose proof (joined_periods _ _ _ _ _ _ J St Hh F) as Q.
  refine (nec_silent b m freq V C into seen r0 r os Hm Hf (or_introl HT) (periods_small _ _ _ Hf _ Q) _ E0 E).
  - clear. nom freq 11250. nom freq 13500. lia.
  - rewrite HT. exact Q.
Qed.
Print Assumptions C99_nec.

Theorem C99_samsung :
  forall b m freq C (into : samsung_command -> C) gap evs seen r0 r os,
  timebase m freq -> 20000 <= freq -> freq < 2 ^ 32 ->
  ended freq 560 (fun l => sent_samsung freq l \/ sent_samsung_repeat freq l) evs ->
  joins 2 ((true, gap) :: evs) seen ->
  receiver_new (nec_protocol b m NecSamsung) freq = Val r0 ->
  run_edges (D := nec_dec b m NecSamsung) into r0 seen = Val (r, os) ->
  commands os = [].
Proof.
  intros b m freq C into gap evs seen r0 r os Hm Hlo Hf Hs J E0 E.
  destruct (samsung_join_frame freq evs Hlo Hs) as (h & ds & tail & -> & St & _ & Hh & F).
  pose proof (joined_periods _ _ _ _ _ _ J St Hh F) as Q.
  refine (nec_silent b m freq NecSamsung C into seen r0 r os Hm Hf (or_intror eq_refl) (periods_small _ _ _ Hf _ Q) _ E0 E).
  - clear. nom freq 6750. nom freq 13500. lia.
  - exact Q.
Qed.
Print Assumptions C99_samsung.

(** A NEC or Samsung receiver started within the header mark: either it reports nothing, or what it saw of
    mark and space was as long as a repeat code (8 percent less at most). *)
Theorem C99_nec_mark :
  forall b m freq V C (into : nv_cmd V -> C) gap evs seen r0 r os,
  timebase m freq -> 20000 <= freq -> freq < 2 ^ 32 -> nv_timing V = NEC_STANDARD_TIMING ->
  ended freq 560 (fun l => sent_nec freq l \/ sent_nec_repeat freq l) evs ->
  joins 1 ((true, gap) :: evs) seen ->
  receiver_new (nec_protocol b m V) freq = Val r0 ->
  run_edges (D := nec_dec b m V) into r0 seen = Val (r, os) ->
  commands os = [] \/ exists mark space rest, seen = (false, mark) :: (true, space) :: rest /\ 92 * nominal freq 11250 <= 100 * (mark + space).
Proof.
  intros b m freq V C into gap evs seen r0 r os Hm Hlo Hf HT Hs J E0 E.
  destruct (nec_join_frame freq evs Hlo Hs) as (h & ds & tail & -> & St & _ & Hh & F).
  destruct (joined_mark _ _ _ _ _ _ J St Hh F) as [Q|(d1 & d2 & l & -> & _ & _ & Q)]; [left|right; eauto].
  refine (nec_silent b m freq V C into seen r0 r os Hm Hf (or_introl HT) (periods_small _ _ _ Hf _ Q) _ E0 E).
  - clear. nom freq 11250. nom freq 13500. lia.
  - rewrite HT. exact Q.
Qed.
Print Assumptions C99_nec_mark.

Theorem C99_samsung_mark :
  forall b m freq C (into : samsung_command -> C) gap evs seen r0 r os,
  timebase m freq -> 20000 <= freq -> freq < 2 ^ 32 ->
  ended freq 560 (fun l => sent_samsung freq l \/ sent_samsung_repeat freq l) evs ->
  joins 1 ((true, gap) :: evs) seen ->
  receiver_new (nec_protocol b m NecSamsung) freq = Val r0 ->
  run_edges (D := nec_dec b m NecSamsung) into r0 seen = Val (r, os) ->
  commands os = [] \/ exists mark space rest, seen = (false, mark) :: (true, space) :: rest /\ 92 * nominal freq 6750 <= 100 * (mark + space).
Proof.
  intros b m freq C into gap evs seen r0 r os Hm Hlo Hf Hs J E0 E.
  destruct (samsung_join_frame freq evs Hlo Hs) as (h & ds & tail & -> & St & _ & Hh & F).
  destruct (joined_mark _ _ _ _ _ _ J St Hh F) as [Q|(d1 & d2 & l & -> & _ & _ & Q)]; [left|right; eauto].
  refine (nec_silent b m freq NecSamsung C into seen r0 r os Hm Hf (or_intror eq_refl) (periods_small _ _ _ Hf _ Q) _ E0 E).
  - clear. nom freq 6750. nom freq 13500. lia.
  - exact Q.
Qed.
Print Assumptions C99_samsung_mark.

Theorem C99_denon :
  forall b m freq C (into : denon_command -> C) gap evs seen r0 r os,
  timebase m freq -> 20000 <= freq -> freq < 2 ^ 32 ->
  ended freq 480 (sent_denon freq) evs ->
  joins 2 ((true, gap) :: evs) seen ->
  receiver_new (denon_protocol b m) freq = Val r0 ->
  run_edges (D := denon_dec b m) into r0 seen = Val (r, os) ->
  commands os = [].
Proof.
  intros b m freq C into gap evs seen r0 r os Hm Hlo Hf Hs J E0 E.
  apply ended_tail in Hs. destruct Hs as (body & tail & -> & (w & ps & -> & F & M) & Ht).
  assert (St : stopped tail) by (destruct Ht as [->|(d & -> & _)]; [left|right]; eauto).
  destruct F as (h & ds & -> & Hh & F). destruct M as (h' & ds' & Eh & [_ Hk] & _). injection Eh as <- <-.
  assert (Q : Forall (fun q => 100 * q < 91 * nominal freq 5000) (periods seen)).
  { apply (joined_periods _ _ _ _ _ _ J St).
    - apply period_upper in Hh. clear -Hh Hk Hlo. nom freq 5000. nom freq 3400. lia.
    - clear -F Hlo. induction F as [|bt x bs ds H F IH]; constructor; auto. clear IH F. apply period_upper in H. destruct bt.
      + nom freq 1680. nom freq 5000. lia.
      + nom freq 840. nom freq 5000. lia. }
  refine (denon_silent b m freq C into seen r0 r os Hm Hf (periods_small _ _ _ Hf _ Q) Q E0 E).
  clear. nom freq 5000. nom freq 13500. lia.
Qed.
Print Assumptions C99_denon.

Theorem C99_sbp :
  forall b m freq C (into : sbp_command -> C) gap evs seen r0 r os,
  timebase m freq -> 20000 <= freq -> freq < 2 ^ 32 ->
  ended freq 500 (sent_sbp freq) evs ->
  joins 2 ((true, gap) :: evs) seen ->
  receiver_new (sbp_protocol b m) freq = Val r0 ->
  run_edges (D := sbp_dec b m) into r0 seen = Val (r, os) ->
  commands os = [].
Proof.
  intros b m freq C into gap evs seen r0 r os Hm Hlo Hf Hs J E0 E.
  apply ended_tail in Hs. destruct Hs as (body & tail & -> & (a & c & ps & -> & F & M) & Ht).
  assert (St : stopped tail) by (destruct Ht as [->|(d & -> & _)]; [left|right]; eauto).
  assert (A : alt true ((true, gap) :: pair_edges ps ++ tail)).
  { split; [reflexivity|]. change (alt false (pair_edges ps ++ tail)). clear -St. induction ps as [|[mk sp] ps IH]; cbn [pair_edges app].
    - destruct St as [->|(d & ->)]; cbn; auto.
    - split; [reflexivity|]. split; [reflexivity|exact IH]. }
  destruct (joined_alt _ _ _ _ J A) as (f & Af).
  destruct F as (h & ads & pause & cds & -> & Hh & Fa & Hp & Fc). destruct M as (h' & ds' & Eh & [_ Hk] & _). injection Eh as <- _.
  assert (B : forall bs ds, Forall2 (sbp_bit freq) bs ds -> Forall (fun x => 100 * (fst x + snd x) < 94 * nominal freq 9000) ds).
  { clear -Hlo. intros bs ds F. induction F as [|bt x bs ds H F IH]; constructor; auto. clear IH F. apply period_upper in H. destruct bt.
    + nom freq 2000. nom freq 9000. lia.
    + nom freq 1000. nom freq 9000. lia. }
  assert (Q : Forall (fun q => 100 * q < 94 * nominal freq 9000) (periods seen)).
  { apply (joined_periods _ _ _ _ _ _ J St).
    - apply period_upper in Hh. clear -Hh Hk Hlo. nom freq 9000. nom freq 4500. lia.
    - apply Forall_app. split; [exact (B _ _ Fa)|]. constructor; [|exact (B _ _ Fc)].
      apply period_upper in Hp. clear -Hp Hlo. nom freq 5000. nom freq 9000. lia. }
  refine (sbp_silent b m freq C into seen r0 r os Hm Hf (periods_small _ _ _ Hf _ Q) (alt_single _ _ Af) Q E0 E).
  clear. nom freq 9000. nom freq 13500. lia.
Qed.
Print Assumptions C99_sbp.

Theorem C99_rc6 :
  forall b m freq C (into : rc6_command -> C) gap w toggle frame tail seen r0 r os,
  timebase m freq -> 20000 <= freq -> freq < 2 ^ 32 -> 8 <= usize_bits b ->
  rc6_edges freq (rc6_leader_full freq) toggle w gap frame ->
  tail = [] \/ (exists d, tail = [(false, d)] /\ near freq 444 12 d) ->
  joins 2 (frame ++ tail) seen ->
  receiver_new (rc6_protocol b m) freq = Val r0 ->
  run_edges (D := rc6_dec b) into r0 seen = Val (r, os) ->
  commands os = [].
Proof.
  intros b m freq C into gap w toggle frame tail seen r0 r os Hm Hlo Hf Hu Hfr Ht J E0 E.
  exact (rc6_silent b m freq C into seen r0 r os Hm Hf Hlo Hu (rc6_joined freq toggle w gap frame tail seen Hlo Hfr Ht J) E0 E).
Qed.
Print Assumptions C99_rc6.

Theorem C99_rc5 :
  forall b m freq C (into : rc5_command -> C) gap w frame tail seen r0 r os,
  timebase m freq -> 20000 <= freq -> freq < 2 ^ 32 -> 8 <= usize_bits b ->
  N.testbit w 13 = true -> rc5_edges freq w gap frame ->
  tail = [] \/ (exists d, tail = [(false, d)] /\ near freq 889 12 d) ->
  joins 1 (frame ++ tail) seen ->
  receiver_new (rc5_protocol b m) freq = Val r0 ->
  run_edges (D := rc5_dec b) into r0 seen = Val (r, os) ->
  commands os = [].
Proof.
  intros b m freq C into gap w frame tail seen r0 r os Hm Hlo Hf Hu Hw Hfr Ht J E0 E. revert E.
  apply (quiet_run (D := rc5_dec b) into r0 [] seen). intros k e d rest r' os' x Ek E. cbn [app] in E.
  destruct (rc5_sound_report b m freq Hm Hf Hu into k e d r0 r' os' x E0 E) as (c & -> & h1 & g & seg & bits & E1 & S & L & _).
  apply (rc5_joined freq w gap frame tail seen h1 g seg rest bits Hlo Hw Hfr Ht J); auto.
  change ((e, d) :: rest) with ([(e, d)] ++ rest) in Ek. rewrite app_assoc in Ek. unfold edge in *. rewrite Ek, E1, <- app_assoc. reflexivity.
Qed.
Print Assumptions C99_rc5.

(** ** Examples *)

Definition joinb (k : nat) (l : list edge) (d' : N) : list edge :=
  match skipn k l with [] => [] | (e, _) :: r => (e, d') :: r end.
Lemma joinb_ok k l d' e d r : skipn k l = (e, d) :: r -> d' <= d -> joins k l (joinb k l d').
Proof.
  intros E Hd. unfold edge in *. assert (L : length (skipn k l) <> O) by (rewrite E; discriminate).
  exists (firstn k l), e, d, d', r. split; [rewrite <- E; symmetry; apply firstn_skipn|].
  split; [rewrite firstn_length; rewrite skipn_length in L; lia|]. split; [exact Hd|]. unfold joinb, edge in *. rewrite E. reflexivity.
Qed.

(** From the middle of the header space on: nothing.  The whole: the command. *)
Example C99_example_nec :
  let evs := pair_edges (nec_pairs c95_second) ++ [(false, 22)] in
  let l := (true, 1000) :: evs in
  ended 40000 560 (fun l => sent_nec 40000 l \/ sent_nec_repeat 40000 l) evs /\ joins 2 l (joinb 2 l 60) /\
  option_map commands (outcomes (nec_protocol (debug_build 32) MU32 NecStandard) 40000 l) = Some [mkNec 31 2 false] /\
  option_map commands (outcomes (nec_protocol (debug_build 32) MU32 NecStandard) 40000 (joinb 2 l 60)) = Some [].
Proof.
  split.
  { right. exists (pair_edges (nec_pairs c95_second)), 22. split; [reflexivity|]. split; [|apply nearb_ok; vm_compute; reflexivity].
    left. exists c95_second, (nec_pairs c95_second). split; [reflexivity|]. split; [apply nec_frameb_ok|apply marks_nearb_ok]; vm_compute; reflexivity. }
  split; [eapply joinb_ok; [vm_compute; reflexivity|vm_compute; discriminate]|]. split; vm_compute; reflexivity.
Qed.

(** [joins 2] is needed: when 6750 of the 9000 microseconds of the header mark are seen, the new receiver
    takes the header for a repeat code and reports a repeat of a command nobody has sent. *)
Example C99_nec_header_needed :
  let evs := pair_edges (nec_pairs c95_second) in
  let l := (true, 1000) :: evs in
  sent_nec 40000 evs /\ joins 1 l (joinb 1 l 270) /\
  option_map commands (outcomes (nec_protocol (debug_build 32) MU32 NecStandard) 40000 (joinb 1 l 270)) = Some [mkNec 0 0 true].
Proof.
  split.
  { exists c95_second, (nec_pairs c95_second). split; [reflexivity|]. split; [apply nec_frameb_ok|apply marks_nearb_ok]; vm_compute; reflexivity. }
  split; [eapply joinb_ok; [vm_compute; reflexivity|vm_compute; discriminate]|]. vm_compute; reflexivity.
Qed.

(** Less of the mark: nothing. *)
Example C99_example_nec_mark :
  let l := (true, 1000) :: pair_edges (nec_pairs c95_second) in
  joins 1 l (joinb 1 l 200) /\
  option_map commands (outcomes (nec_protocol (debug_build 32) MU32 NecStandard) 40000 (joinb 1 l 200)) = Some [].
Proof. split; [eapply joinb_ok; [vm_compute; reflexivity|vm_compute; discriminate]|]. vm_compute; reflexivity. Qed.

Example C99_example_samsung :
  let w := bytes4 7 7 2 (compl8 2) in
  let evs := pair_edges (samsung_pairs w) ++ [(false, 22)] in
  let l := (true, 1000) :: evs in
  ended 40000 560 (fun l => sent_samsung 40000 l \/ sent_samsung_repeat 40000 l) evs /\
  joins 2 l (joinb 2 l 100) /\ joins 1 l (joinb 1 l 60) /\ joins 1 l (joinb 1 l 90) /\
  option_map commands (outcomes (nec_protocol (debug_build 32) MU32 NecSamsung) 40000 l) = Some [mkSamsung 7 2 false] /\
  option_map commands (outcomes (nec_protocol (debug_build 32) MU32 NecSamsung) 40000 (joinb 2 l 100)) = Some [] /\
  option_map commands (outcomes (nec_protocol (debug_build 32) MU32 NecSamsung) 40000 (joinb 1 l 60)) = Some [] /\
  option_map commands (outcomes (nec_protocol (debug_build 32) MU32 NecSamsung) 40000 (joinb 1 l 90)) = Some [mkSamsung 0 0 true].
Proof.
  intros w evs l. split.
  { right. eexists. exists 22. split; [reflexivity|]. split; [|apply nearb_ok; vm_compute; reflexivity].
    left. exists w, (samsung_pairs w). split; [reflexivity|]. split; [apply nec_frameb_ok|apply marks_nearb_ok]; vm_compute; reflexivity. }
  do 3 (split; [eapply joinb_ok; [vm_compute; reflexivity|vm_compute; discriminate]|]). repeat split; vm_compute; reflexivity.
Qed.

Example C99_example_denon :
  let w := 2 ^ 45 + 12345678 in
  let ps := (140, 60) :: map (fun b : bool => if b then (20, 47) else (20, 13)) (bits_lsb 48 w) in
  let l := (true, 700) :: pair_edges ps in
  ended 40000 480 (sent_denon 40000) (pair_edges ps) /\ joins 2 l (joinb 2 l 30) /\
  option_map (fun os => length (commands os)) (outcomes (denon_protocol (debug_build 32) MU32) 40000 l) = Some 1%nat /\
  option_map commands (outcomes (denon_protocol (debug_build 32) MU32) 40000 (joinb 2 l 30)) = Some [].
Proof.
  intros w ps l. split.
  { left. exists w, ps. split; [reflexivity|]. split; [apply denon_frame_ok|apply marks_nearb_ok]; vm_compute; reflexivity. }
  split; [eapply joinb_ok; [vm_compute; reflexivity|vm_compute; discriminate]|]. split; vm_compute; reflexivity.
Qed.

Example C99_example_sbp :
  let c := 2 ^ 4 * 77 + 2 ^ 12 * compl8 77 in
  let bit := fun b : bool => if b then (20, 60) else (20, 20) in
  let ps := (180, 180) :: map bit (bits_lsb 16 4660) ++ (20, 180) :: map bit (bits_lsb 20 c) in
  let l := (true, 700) :: pair_edges ps in
  ended 40000 500 (sent_sbp 40000) (pair_edges ps) /\ joins 2 l (joinb 2 l 180) /\
  option_map commands (outcomes (sbp_protocol (debug_build 32) MU32) 40000 l) = Some [mkSbp 4660 77 true] /\
  option_map commands (outcomes (sbp_protocol (debug_build 32) MU32) 40000 (joinb 2 l 180)) = Some [].
Proof.
  intros c bit ps l. split.
  { left. exists 4660, c, ps. split; [reflexivity|]. split; [apply sbp_frame_ok|apply marks_nearb_ok]; vm_compute; reflexivity. }
  split; [eapply joinb_ok; [vm_compute; reflexivity|vm_compute; discriminate]|]. split; vm_compute; reflexivity.
Qed.

Example C99_example_rc5 :
  let w := 12 * 1024 + 5 * 64 + 35 in
  let l := rc5_signal w ++ [(false, 35)] in
  N.testbit w 13 = true /\ rc5_edges 40000 w 700 (rc5_signal w) /\ near 40000 889 12 35 /\ joins 1 l (joinb 1 l 20) /\
  option_map commands (outcomes (rc5_protocol (debug_build 32) MU32) 40000 l) = Some [mkRc5 5 35 3 false] /\
  option_map commands (outcomes (rc5_protocol (debug_build 32) MU32) 40000 (joinb 1 l 20)) = Some [].
Proof.
  split; [reflexivity|]. split; [apply rc5_edges_ok; vm_compute; reflexivity|]. split; [apply nearb_ok; vm_compute; reflexivity|].
  split; [eapply joinb_ok; [vm_compute; reflexivity|vm_compute; discriminate]|]. split; vm_compute; reflexivity.
Qed.

Example C99_example_rc6 :
  let w := 2 ^ 8 * 5 + 36 in
  let l := (true, 700) :: map (fun x : edge => (fst x, 18 * snd x)) (List.tl (level_edges false 0 (rc6_wave true (bits_msb 16 w)))) in
  rc6_edges 40000 (rc6_leader_full 40000) true w 700 l /\ joins 2 l (joinb 2 l 18) /\
  option_map commands (outcomes (rc6_protocol (debug_build 32) MU32) 40000 l) = Some [mkRc6 5 36 true] /\
  option_map commands (outcomes (rc6_protocol (debug_build 32) MU32) 40000 (joinb 2 l 18)) = Some [].
Proof.
  split; [apply rc6_edges_ok; [apply nearb_ok|]; vm_compute; reflexivity|].
  split; [eapply joinb_ok; [vm_compute; reflexivity|vm_compute; discriminate]|]. split; vm_compute; reflexivity.
Qed.
