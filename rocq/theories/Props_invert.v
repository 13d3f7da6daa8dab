(** * Property theorems: the level of the input the wrong way round *)
From Coq Require Import NArith ZArith List Bool Lia ZifyBool ZifyNat ZifyN.
From Verif Require Import Machine Time Decoder Nec Rc5 Rc6 Denon Sbp Receiver Spec Bits Time_facts Run_facts Nec_facts Rc5_facts Rc6_facts Encode_facts
  Spec_receiver Spec_sound Sound_facts Biphase_facts Spec_cross Cross_facts Example_facts Spec_damage Damage_facts Props_damage Spec_invert Invert_facts.
Import ListNotations.
Open Scope N_scope.

(** ** C98: an inverted signal is not taken for a command

    [hist] is any history, [evs] a transmission of the receiver's own protocol after a silence of
    [gap] ticks.  The receiver sees each edge the other way round.  [skipn (length hist) os] are
    the outcomes from there on. *)

Lemma nominal_bounds freq p : 1000000 * nominal freq p <= p * freq /\ p * freq < 1000000 * nominal freq p + 1000000.
Proof.
  unfold nominal. pose proof (N.div_mod (p * freq) 1000000 ltac:(lia)) as D. pose proof (N.mod_lt (p * freq) 1000000 ltac:(lia)) as L.
  set (q := p * freq / 1000000) in *. clearbody q. lia.
Qed.

Ltac nom freq p := pose proof (nominal_bounds freq p); generalize dependent (nominal freq p); intros.

Lemma period_upper freq p t x : period_near freq p t x -> 100 * (fst x + snd x) <= (100 + t) * nominal freq p.
Proof. intros H. apply near_guaranteed in H. apply H. Qed.

Lemma nec_spaces freq header lead rest w ps : 20000 <= freq -> header = 13500 /\ lead = 9000 /\ rest = 11250 \/ header = 9000 /\ lead = 4500 /\ rest = 6750 ->
  nec_frame freq header w ps -> marks_near freq lead 560 ps ->
  Forall (fun x => 100 * snd x + 112 * nominal freq 560 < 92 * nominal freq rest) ps.
Proof.
  intros Hlo Ht (h & ds & -> & Hh & F) (h' & ds' & E & [_ Hm] & _). injection E as <- <-. constructor.
  - apply period_upper in Hh. destruct Ht as [(-> & -> & ->)|(-> & -> & ->)].
    + nom freq 13500. nom freq 9000. nom freq 11250. nom freq 560. lia.
    + nom freq 9000. nom freq 4500. nom freq 6750. nom freq 560. lia.
  - assert (L : nominal freq 6750 <= nominal freq rest) by (apply nominal_le; lia).
    clear -F L Hlo. induction F as [|bt x bs ds H F IH]; constructor; auto. clear IH F.
    destruct bt; apply period_upper in H.
    + nom freq 2250. nom freq 560. nom freq 6750. lia.
    + nom freq 1120. nom freq 560. nom freq 6750. lia.
Qed.

Lemma nec_repeat_space freq p lead x : 20000 <= freq -> p = 11250 /\ lead = 9000 \/ p = 6750 /\ lead = 4500 ->
  period_near freq p 7 x -> near freq lead 8 (fst x) ->
  Forall (fun x => 100 * snd x + 112 * nominal freq 560 < 92 * nominal freq p) [x].
Proof.
  intros Hlo Ht H [_ Hm]. constructor; [|constructor]. apply period_upper in H. destruct Ht as [(-> & ->)|(-> & ->)].
  - nom freq 11250. nom freq 9000. nom freq 560. lia.
  - nom freq 6750. nom freq 4500. nom freq 560. lia.
Qed.

Lemma one_mark freq lead bit x : near freq lead 8 (fst x) -> marks_near freq lead bit [x].
Proof. intros H. exists x, []. auto. Qed.

(** NEC, NEC with 16-bit addresses, raw, Apple: frames and repeat codes. *)
Theorem C98_nec :
  forall b m freq V C (into : nv_cmd V -> C) hist gap evs r0 r os,
  timebase m freq -> 20000 <= freq -> freq < 2 ^ 32 -> nv_timing V = NEC_STANDARD_TIMING ->
  longer freq 13500 8 gap ->
  ended freq 560 (fun l => sent_nec freq l \/ sent_nec_repeat freq l) evs ->
  periods_fit (hist ++ inverted ((true, gap) :: evs)) ->
  receiver_new (nec_protocol b m V) freq = Val r0 ->
  run_edges (D := nec_dec b m V) into r0 (hist ++ inverted ((true, gap) :: evs)) = Val (r, os) ->
  commands (skipn (length hist) os) = [].
Proof.
  intros b m freq V C into hist gap evs r0 r os Hm Hlo Hf HT Hg Hs Hfit E0 E.
  apply ended_tail in Hs. destruct Hs as (body & tail & -> & Hb & Ht).
  assert (K : exists ps, body = pair_edges ps /\ marks_near freq 9000 560 ps /\
    Forall (fun x => 100 * snd x + 112 * nominal freq 560 < 92 * nominal freq 11250) ps).
  { destruct Hb as [(w & ps & -> & F & M)|(x & -> & Hx & Hk)].
    - exists ps. split; [reflexivity|]. split; [exact M|]. eapply nec_spaces; eauto.
    - exists [x]. split; [reflexivity|]. split; [apply one_mark, Hk|]. eapply nec_repeat_space; eauto. }
  destruct K as (ps & -> & M & F). destruct (inverted_frame freq 9000 560 ps tail gap M Ht) as (m1 & k & Ei & _ & B). rewrite Ei in *.
  refine (nec_quiet b m freq V C into hist gap m1 k r0 r os Hm Hf Hlo (or_introl HT) Hg Hfit _ E0 E). rewrite HT. apply B. exact F.
Qed.
Print Assumptions C98_nec.

Theorem C98_samsung :
  forall b m freq C (into : samsung_command -> C) hist gap evs r0 r os,
  timebase m freq -> 20000 <= freq -> freq < 2 ^ 32 ->
  longer freq 13500 8 gap ->
  ended freq 560 (fun l => sent_samsung freq l \/ sent_samsung_repeat freq l) evs ->
  periods_fit (hist ++ inverted ((true, gap) :: evs)) ->
  receiver_new (nec_protocol b m NecSamsung) freq = Val r0 ->
  run_edges (D := nec_dec b m NecSamsung) into r0 (hist ++ inverted ((true, gap) :: evs)) = Val (r, os) ->
  commands (skipn (length hist) os) = [].
Proof.
  intros b m freq C into hist gap evs r0 r os Hm Hlo Hf Hg Hs Hfit E0 E.
  apply ended_tail in Hs. destruct Hs as (body & tail & -> & Hb & Ht).
  assert (K : exists ps, body = pair_edges ps /\ marks_near freq 4500 560 ps /\
    Forall (fun x => 100 * snd x + 112 * nominal freq 560 < 92 * nominal freq 6750) ps).
  { destruct Hb as [(w & ps & -> & F & M)|(x & -> & Hx & Hk)].
    - exists ps. split; [reflexivity|]. split; [exact M|]. eapply nec_spaces; eauto.
    - exists [x]. split; [reflexivity|]. split; [apply one_mark, Hk|]. eapply nec_repeat_space; eauto. }
  destruct K as (ps & -> & M & F). destruct (inverted_frame freq 4500 560 ps tail gap M Ht) as (m1 & k & Ei & _ & B). rewrite Ei in *.
  refine (nec_quiet b m freq NecSamsung C into hist gap m1 k r0 r os Hm Hf Hlo (or_intror eq_refl) Hg Hfit _ E0 E). apply B. exact F.
Qed.
Print Assumptions C98_samsung.

Theorem C98_denon :
  forall b m freq C (into : denon_command -> C) hist gap evs r0 r os,
  timebase m freq -> 20000 <= freq -> freq < 2 ^ 32 ->
  longer freq 13500 8 gap -> ended freq 480 (sent_denon freq) evs ->
  periods_fit (hist ++ inverted ((true, gap) :: evs)) ->
  receiver_new (denon_protocol b m) freq = Val r0 ->
  run_edges (D := denon_dec b m) into r0 (hist ++ inverted ((true, gap) :: evs)) = Val (r, os) ->
  commands (skipn (length hist) os) = [].
Proof.
  intros b m freq C into hist gap evs r0 r os Hm Hlo Hf Hg Hs Hfit E0 E.
  apply ended_tail in Hs. destruct Hs as (body & tail & -> & (w & ps & -> & F & M) & Ht).
  destruct (inverted_frame freq 3400 480 ps tail gap M Ht) as (m1 & k & Ei & _ & B). rewrite Ei in *.
  refine (denon_quiet b m freq C into hist gap m1 k r0 r os Hm Hf Hlo Hg Hfit _ E0 E). apply B.
  destruct F as (h & ds & -> & Hh & F). destruct M as (h' & ds' & Eh & [_ Hk] & _). injection Eh as <- <-. constructor.
  - apply period_upper in Hh. clear -Hh Hk Hlo. nom freq 5000. nom freq 3400. nom freq 480. lia.
  - clear -F Hlo. induction F as [|bt x bs ds H F IH]; constructor; auto. clear IH F. apply period_upper in H. destruct bt.
    + nom freq 1680. nom freq 480. nom freq 5000. lia.
    + nom freq 840. nom freq 480. nom freq 5000. lia.
Qed.
Print Assumptions C98_denon.

Theorem C98_sbp :
  forall b m freq C (into : sbp_command -> C) hist gap evs r0 r os,
  timebase m freq -> 20000 <= freq -> freq < 2 ^ 32 ->
  longer freq 13500 8 gap -> ended freq 500 (sent_sbp freq) evs ->
  short (hist ++ inverted ((true, gap) :: evs)) ->
  receiver_new (sbp_protocol b m) freq = Val r0 ->
  run_edges (D := sbp_dec b m) into r0 (hist ++ inverted ((true, gap) :: evs)) = Val (r, os) ->
  commands (skipn (length hist) os) = [].
Proof.
  intros b m freq C into hist gap evs r0 r os Hm Hlo Hf Hg Hs Hfit E0 E.
  apply ended_tail in Hs. destruct Hs as (body & tail & -> & (a & c & ps & -> & F & M) & Ht).
  destruct (inverted_frame freq 4500 500 ps tail gap M Ht) as (m1 & k & Ei & A & B). rewrite Ei in *.
  refine (sbp_quiet b m freq C into hist gap m1 k r0 r os Hm Hf Hlo Hg Hfit A _ E0 E). apply B.
  destruct F as (h & ads & pause & cds & -> & Hh & Fa & Hp & Fc). destruct M as (h' & ds' & Eh & [_ Hk] & _). injection Eh as <- _.
  assert (Q : forall bs ds, Forall2 (sbp_bit freq) bs ds -> Forall (fun x => 100 * snd x + 112 * nominal freq 500 < 94 * nominal freq 9000) ds).
  { clear -Hlo. intros bs ds F. induction F as [|bt x bs ds H F IH]; constructor; auto. clear IH F. apply period_upper in H. destruct bt.
    + nom freq 2000. nom freq 500. nom freq 9000. lia.
    + nom freq 1000. nom freq 500. nom freq 9000. lia. }
  constructor; [|apply Forall_app; split; [exact (Q _ _ Fa)|constructor; [|exact (Q _ _ Fc)]]].
  - apply period_upper in Hh. clear -Hh Hk Hlo. nom freq 9000. nom freq 4500. nom freq 500. lia.
  - apply period_upper in Hp. clear -Hp Hlo. nom freq 5000. nom freq 500. nom freq 9000. lia.
Qed.
Print Assumptions C98_sbp.

(** RC5: the word of ones is the exception; it is read as itself.  There is a mark to end only if
    the last bit is a one. *)
Theorem C98_rc5 :
  forall b m freq C (into : rc5_command -> C) hist gap w frame tail r0 r os x,
  timebase m freq -> 20000 <= freq -> freq < 2 ^ 32 -> 8 <= usize_bits b ->
  longer freq 13500 8 gap -> w < 2 ^ 14 -> N.testbit w 13 = true ->
  rc5_edges freq w gap frame ->
  tail = [] \/ (N.testbit w 0 = true /\ exists d, tail = [(false, d)] /\ near freq 889 12 d) ->
  receiver_new (rc5_protocol b m) freq = Val r0 ->
  run_edges (D := rc5_dec b) into r0 (hist ++ inverted (frame ++ tail)) = Val (r, os) ->
  In x (commands (skipn (length hist) os)) ->
  w = 2 ^ 14 - 1 /\ x = into (mkRc5 31 63 3 true).
Proof.
  intros b m freq C into hist gap w frame tail r0 r os x Hm Hlo Hf Hu Hg Hw0 Hw Hfr Ht E0 E Hi.
  assert (Ht' : tail = [] \/ (exists d, tail = [(false, d)] /\ near freq 889 12 d)) by (destruct Ht as [->|(_ & d & -> & Hd)]; eauto).
  destruct (reported_at (D := rc5_dec b) into r0 hist _ r os x E Hi) as (k & e & d & rest & r' & os' & Ek & Er). rewrite app_assoc in Er.
  destruct (rc5_sound_report b m freq Hm Hf Hu into _ e d r0 r' os' x E0 Er) as (c & -> & h1 & g & seg & bits & E1 & S & L & ->).
  assert (Ef : exists evs, inverted (frame ++ tail) = (false, gap) :: evs).
  { destruct Hfr as (n & noms & acts & _ & -> & _). eexists. reflexivity. }
  destruct Ef as (evs & Ef). rewrite Ef in Ek.
  assert (K : exists a, evs = a ++ (true, g) :: seg ++ rest).
  { rewrite <- app_assoc in E1. destruct k as [|y k]; cbn [app] in Ek.
    - exfalso. injection Ek as <- <- <-. cbn [app] in E1. destruct seg as [|z seg] using rev_ind.
      + apply app_inj_tail in E1. destruct E1 as [_ E1]. discriminate E1.
      + change (h1 ++ (true, g) :: seg ++ [z]) with (h1 ++ ((true, g) :: seg) ++ [z]) in E1. rewrite app_assoc in E1.
        apply app_inj_tail in E1. destruct E1 as [_ <-].
        destruct S as (s' & last & ns & n & _ & F & _). rewrite map_app in F. cbn [map snd] in F.
        destruct (forall2_mid _ _ _ _ _ F) as (n' & H). clear -H Hg Hlo.
        destruct H as [[_ H]|[[_ H]|[_ [_ ->]]]].
        * eapply (longer_not_near freq 889 13 gap gap); eauto; try lia.
        * eapply (longer_not_near freq 1778 11 gap gap); eauto; try lia.
        * unfold longer in Hg. lia.
    - injection Ek as <- ->. cbn [app] in E1. apply split_at in E1. destruct E1 as [(p & Ep & _)|(p & Ep & _)].
      + exfalso. destruct p as [|y p]; cbn [app] in Ep; injection Ep as Ey Ep; [discriminate Ey|].
        destruct S as (s' & last & ns & n & _ & F & _). rewrite Ep, map_app in F. cbn [map snd] in F.
        destruct (forall2_mid _ _ _ _ _ F) as (n' & H). clear -H Hg Hlo.
        destruct H as [[_ H]|[[_ H]|[_ [_ ->]]]].
        * eapply (longer_not_near freq 889 13 gap gap); eauto; try lia.
        * eapply (longer_not_near freq 1778 11 gap gap); eauto; try lia.
        * unfold longer in Hg. lia.
      + exists p. change ((e, d) :: rest) with ([(e, d)] ++ rest). rewrite app_assoc, Ep, <- app_assoc. reflexivity. }
  destruct K as (a & ->).
  destruct (rc5_inverted freq w gap frame tail a g seg rest bits Hlo Hw0 Hw Hfr Ht' Ef S L) as [-> ->]. split; [reflexivity|]. reflexivity.
Qed.
Print Assumptions C98_rc5.

(** The exception: it is always reported. *)
Theorem C98_rc5_ones :
  forall b m freq C (into : rc5_command -> C) hist gap frame d r0 r1 os1,
  timebase m freq -> 20000 <= freq -> freq < 2 ^ 32 -> 8 <= usize_bits b ->
  longer freq 13500 8 gap -> rc5_edges freq (2 ^ 14 - 1) gap frame -> near freq 889 (guaranteed freq 12) d ->
  receiver_new (rc5_protocol b m) freq = Val r0 ->
  run_edges (D := rc5_dec b) into r0 hist = Val (r1, os1) ->
  exists r os, run_edges (D := rc5_dec b) into r0 (hist ++ inverted (frame ++ [(false, d)])) = Val (r, os1 ++ os) /\
    commands os = [into (mkRc5 31 63 3 true)].
Proof.
  intros b m freq C into hist gap frame d r0 r1 os1 Hm Hlo Hf Hu Hg Hfr Hd E0 E1.
  destruct (rc5_ones_inverted freq gap frame d Hfr Hd) as (n0 & noms & d1 & acts & El & Ei & F). rewrite Ei.
  rewrite (rc5_new_val b m freq Hm Hf) in E0. injection E0 as <-.
  pose proof (rc5_run_spans b into _ _ _ _ E1) as S1. cbn [rv_dec r5_spans] in S1.
  pose proof (rc5_frame_run b m freq Hm Hf into ltac:(lia) Hu (2 ^ 14 - 1) (rv_prev r1) noms n0 acts eq_refl El eq_refl F) as Er.
  eexists. exists ([ROk None; ROk None] ++ repeat (ROk None) (length acts - 1) ++ [ROk (Some (into (rc5_unpack (2 ^ 14 - 1))))]).
  split.
  - rewrite run_edges_app, E1. cbn [bind run_edges]. rewrite (rc5_fall b m freq C into r1 gap Hm Hf Hlo S1 Hg Hu). cbn [bind].
    rewrite (rc5_idle_start b m freq C into d1 _ Hu). cbn [bind]. rewrite Er. cbn [bind app]. reflexivity.
  - unfold commands. rewrite !flat_map_app. generalize (length acts - 1)%nat. intros k. induction k as [|k IH]; [reflexivity|exact IH].
Qed.
Print Assumptions C98_rc5_ones.

Theorem C98_rc6 :
  forall b m freq C (into : rc6_command -> C) hist gap w toggle frame tail r0 r os,
  timebase m freq -> 20000 <= freq -> freq < 2 ^ 32 -> 8 <= usize_bits b ->
  longer freq 13500 8 gap ->
  rc6_edges freq (rc6_leader_full freq) toggle w gap frame ->
  tail = [] \/ (exists d, tail = [(false, d)] /\ near freq 444 12 d) ->
  receiver_new (rc6_protocol b m) freq = Val r0 ->
  run_edges (D := rc6_dec b) into r0 (hist ++ inverted (frame ++ tail)) = Val (r, os) ->
  commands (skipn (length hist) os) = [].
Proof.
  intros b m freq C into hist gap w toggle frame tail r0 r os Hm Hlo Hf Hu Hg Hfr Ht E0 E.
  destruct (rc6_inverted freq toggle w gap frame tail Hlo Hfr Ht) as (evs & Ei & F). rewrite Ei in E.
  exact (rc6_quiet b m freq C into hist gap evs r0 r os Hm Hf Hlo Hu Hg F E0 E).
Qed.
Print Assumptions C98_rc6.

(** ** Examples *)

Definition marks_nearb (freq lead bit : N) (ps : list (N * N)) : bool :=
  match ps with [] => false | h :: ds => nearb freq lead 8 (fst h) && forallb (fun x => nearb freq bit 12 (fst x)) ds end.
Lemma marks_nearb_ok freq lead bit ps : marks_nearb freq lead bit ps = true -> marks_near freq lead bit ps.
Proof.
  destruct ps as [|h ds]; cbn [marks_nearb]; intros H; [discriminate|]. apply andb_true_iff in H. destruct H as [H1 H2].
  exists h, ds. split; [reflexivity|]. split; [apply nearb_ok, H1|]. apply Forall_forall. intros x Hx. rewrite forallb_forall in H2.
  apply nearb_ok, H2, Hx.
Qed.

(** A command, then another inverted: one command and no more. *)
Example C98_example_nec :
  let evs := pair_edges (nec_pairs c95_second) ++ [(false, 22)] in
  let l := (true, 1000) :: evs in
  ended 40000 560 (fun l => sent_nec 40000 l \/ sent_nec_repeat 40000 l) evs /\ longer 40000 13500 8 1000 /\
  periods_fit (c95_hist ++ inverted l) /\
  option_map commands (outcomes (nec_protocol (debug_build 32) MU32 NecStandard) 40000 (c95_hist ++ l)) = Some [mkNec 7 9 false; mkNec 31 2 false] /\
  option_map commands (outcomes (nec_protocol (debug_build 32) MU32 NecStandard) 40000 (c95_hist ++ inverted l)) = Some [mkNec 7 9 false].
Proof.
  split.
  { right. exists (pair_edges (nec_pairs c95_second)), 22. split; [reflexivity|]. split; [|apply nearb_ok; vm_compute; reflexivity].
    left. exists c95_second, (nec_pairs c95_second). split; [reflexivity|]. split; [apply nec_frameb_ok|apply marks_nearb_ok]; vm_compute; reflexivity. }
  split; [vm_compute; reflexivity|]. split; [|split; vm_compute; reflexivity].
  unfold periods_fit. match goal with |- Forall _ ?l => let l' := eval vm_compute in l in change l with l' end.
  repeat (apply Forall_cons; [reflexivity|]). apply Forall_nil.
Qed.
Example C98_example_samsung :
  let w := bytes4 7 7 2 (compl8 2) in
  let evs := pair_edges (samsung_pairs w) ++ [(false, 22)] in
  let l := (true, 1000) :: evs in
  ended 40000 560 (fun l => sent_samsung 40000 l \/ sent_samsung_repeat 40000 l) evs /\
  option_map commands (outcomes (nec_protocol (debug_build 32) MU32 NecSamsung) 40000 l) = Some [mkSamsung 7 2 false] /\
  option_map commands (outcomes (nec_protocol (debug_build 32) MU32 NecSamsung) 40000 (inverted l)) = Some [].
Proof.
  split; [|split; vm_compute; reflexivity].
  right. eexists. exists 22. split; [reflexivity|]. split; [|apply nearb_ok; vm_compute; reflexivity].
  left. exists (bytes4 7 7 2 (compl8 2)), (samsung_pairs (bytes4 7 7 2 (compl8 2))). split; [reflexivity|]. split; [apply nec_frameb_ok|apply marks_nearb_ok]; vm_compute; reflexivity.
Qed.

Example C98_example_denon :
  let w := 2 ^ 45 + 12345678 in
  let ps := (140, 60) :: map (fun b : bool => if b then (20, 47) else (20, 13)) (bits_lsb 48 w) in
  let l := (true, 700) :: pair_edges ps in
  ended 40000 480 (sent_denon 40000) (pair_edges ps) /\
  option_map (fun os => length (commands os)) (outcomes (denon_protocol (debug_build 32) MU32) 40000 l) = Some 1%nat /\
  option_map commands (outcomes (denon_protocol (debug_build 32) MU32) 40000 (inverted l)) = Some [].
Proof.
  intros w ps l. split; [|split; vm_compute; reflexivity].
  left. exists w, ps. split; [reflexivity|]. split; [apply denon_frame_ok|apply marks_nearb_ok]; vm_compute; reflexivity.
Qed.

Example C98_example_sbp :
  let c := 2 ^ 4 * 77 + 2 ^ 12 * compl8 77 in
  let bit := fun b : bool => if b then (20, 60) else (20, 20) in
  let ps := (180, 180) :: map bit (bits_lsb 16 4660) ++ (20, 180) :: map bit (bits_lsb 20 c) in
  let l := (true, 700) :: pair_edges ps in
  ended 40000 500 (sent_sbp 40000) (pair_edges ps) /\ short (inverted l) /\
  option_map commands (outcomes (sbp_protocol (debug_build 32) MU32) 40000 l) = Some [mkSbp 4660 77 true] /\
  option_map commands (outcomes (sbp_protocol (debug_build 32) MU32) 40000 (inverted l)) = Some [].
Proof.
  intros c bit ps l. split; [|split; [apply shortb_ok; vm_compute; reflexivity|split; vm_compute; reflexivity]].
  left. exists 4660, c, ps. split; [reflexivity|]. split; [apply sbp_frame_ok|apply marks_nearb_ok]; vm_compute; reflexivity.
Qed.

Definition rc5_signal (w : N) : list edge :=
  (true, 700) :: map (fun x : edge => (fst x, 35 * snd x)) (tl (level_edges false 0 (rc5_wave w))).
Example C98_example_rc5 :
  let w := 12 * 1024 + 5 * 64 + 35 in
  let tail := [(false, 35)] in
  N.testbit w 13 = true /\ N.testbit w 0 = true /\ rc5_edges 40000 w 700 (rc5_signal w) /\ near 40000 889 12 35 /\
  option_map commands (outcomes (rc5_protocol (debug_build 32) MU32) 40000 (rc5_signal w ++ tail)) = Some [mkRc5 5 35 3 false] /\
  option_map commands (outcomes (rc5_protocol (debug_build 32) MU32) 40000 (inverted (rc5_signal w ++ tail))) = Some [].
Proof.
  split; [reflexivity|]. split; [reflexivity|]. split; [apply rc5_edges_ok; vm_compute; reflexivity|].
  split; [apply nearb_ok; vm_compute; reflexivity|]. split; vm_compute; reflexivity.
Qed.

Example C98_example_rc5_ones :
  let w := 2 ^ 14 - 1 in
  let tail := [(false, 35)] in
  rc5_edges 40000 w 700 (rc5_signal w) /\ near 40000 889 (guaranteed 40000 12) 35 /\
  option_map commands (outcomes (rc5_protocol (debug_build 32) MU32) 40000 (inverted (rc5_signal w ++ tail))) = Some [mkRc5 31 63 3 true].
Proof. split; [apply rc5_edges_ok; vm_compute; reflexivity|]. split; [apply nearb_ok; vm_compute; reflexivity|vm_compute; reflexivity]. Qed.

Example C98_example_rc6 :
  let w := 2 ^ 8 * 5 + 36 in
  let frame := (true, 700) :: map (fun x : edge => (fst x, 18 * snd x)) (List.tl (level_edges false 0 (rc6_wave true (bits_msb 16 w)))) in
  rc6_edges 40000 (rc6_leader_full 40000) true w 700 frame /\
  option_map commands (outcomes (rc6_protocol (debug_build 32) MU32) 40000 frame) = Some [mkRc6 5 36 true] /\
  option_map commands (outcomes (rc6_protocol (debug_build 32) MU32) 40000 (inverted frame)) = Some [].
Proof.
  split; [apply rc6_edges_ok; [apply nearb_ok|]; vm_compute; reflexivity|]. split; vm_compute; reflexivity.
Qed.
