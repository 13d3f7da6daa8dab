(** * Property C38: on exactly which signals a biphase receiver is inside a frame *)
From Coq Require Import NArith ZArith List Bool Lia ZifyBool ZifyNat ZifyN.
From Verif Require Import Machine Spec Spec_receiver Spec_state Bits Time Decoder Rc5 Rc6 Receiver
  Time_facts Window_facts Codec_facts Run_facts Example_facts Spec_sound Sound_facts
  Rc5_facts Rc6_facts Spec_rate Rate_facts Spec_biread Biread_facts Spec_inside.
Import ListNotations.
Open Scope N_scope.

Lemma rc5_ends_some freq h os : rc5_reads freq h os -> exists i, rc5_ends freq h i.
Proof.
  induction 1 as [|d h os H (i & IH)|g l ns bits h os Hh Hb H (i & IH)|g l ns e d h os Hl Hd H (i & IH)|g l ns Hl].
  - exists false. constructor.
  - exists i. constructor. exact IH.
  - exists i. eapply E5Frame; eauto.
  - exists i. eapply E5Lost; eauto.
  - exists true. eapply E5Inside; eauto.
Qed.
Lemma rc6_ends_some freq h os : rc6_reads freq h os -> exists i, rc6_ends freq h i.
Proof.
  induction 1 as [|d h os H (i & IH)|g l1 toggle ck0 l2 ns bits h os Hd Hh Lb H (i & IH)|g l p e d h os Hp Hd H (i & IH)|g l p e d n h os Hp Hn Hw H (i & IH)|g l p Hp].
  - exists false. constructor.
  - exists i. constructor. exact IH.
  - exists i. eapply E6Frame; eauto.
  - exists i. eapply E6Lost; eauto.
  - exists i. eapply E6Wrong; eauto.
  - exists true. eapply E6Inside; eauto.
Qed.

(** The run of a receiver and that of its decoder. *)
Section drive.
  Context (D : decoder) (inside : dst D -> bool).
  Hypothesis agrees : forall d x d' s, drive D d x = Val (d', s) -> (s = Receiving <-> inside d' = true).
  Lemma drive_last h : forall (r r' : receiver D) os s0, run_edges (D := D) (fun c => c) r h = Val (r', os) ->
    (s0 = Receiving <-> inside (rv_dec r) = true) ->
    exists ss, run_states D (rv_dec r) h = Val (rv_dec r', ss) /\ (last ss s0 = Receiving <-> inside (rv_dec r') = true).
  Proof.
    induction h as [|[e d] h IH]; intros r r' os s0 H H0.
    - cbn in H. inversion H; subst. exists []. split; [reflexivity|exact H0].
    - cbn [run_edges] in H. unfold event_edge in H.
      destruct (d_event D (rv_dec r) e d) as [[d1 s]| |] eqn:E; cbn [bind] in H; try discriminate.
      set (d2 := match s with Done | Error _ => d_reset D d1 | Idle | Receiving => d1 end).
      assert (Ed : drive D (rv_dec r) (e, d) = Val (d2, s)).
      { unfold drive. cbn [fst snd]. rewrite E. cbn [bind]. unfold d2. destruct s; reflexivity. }
      assert (X : exists r1 os1, rv_dec r1 = d2 /\ run_edges (D := D) (fun c => c) r1 h = Val (r', os1)).
      { unfold d2. destruct s; cbn [bind] in H;
          match type of H with context [run_edges ?f ?r1 h] => destruct (run_edges f r1 h) as [[r2 os1]| |] eqn:E2; cbn [bind] in H; try discriminate;
            exists r1, os1; split; [reflexivity|]; inversion H; subst; exact E2 end. }
      destruct X as (r1 & os1 & E1 & E2). pose proof (agrees _ _ _ _ Ed) as A. rewrite <- E1 in A.
      destruct (IH r1 r' os1 s E2 A) as (ss & Es & L). exists (s :: ss). split.
      + unfold run_states in *. cbn [run_res]. rewrite Ed. cbn [bind]. rewrite <- E1, Es. reflexivity.
      + destruct ss as [|s1 ss]; [exact L|]. cbn [last] in *. 
        assert (Q : forall l (a x y : state), last (a :: l) x = last (a :: l) y).
        { clear. induction l as [|z l IH]; intros a x y; [reflexivity|]. cbn [last] in *. apply (IH z). }
        specialize (Q ss s1 s0 s). cbn [last] in Q. rewrite Q. exact L.
  Qed.
End drive.

Definition in5 (d : rc5_decoder) : bool := match r5_state d with R5Data _ => true | _ => false end.
Definition in6 (d : rc6_decoder) : bool := match rc6_to_state (r6_state d) with Receiving => true | _ => false end.
Lemma rc5_event_says b d e dt d1 s : rc5_event b d e dt = Val (d1, s) -> s = rc5_to_state (r5_state d1).
Proof.
  unfold rc5_event. cbv zeta. match goal with |- bind ?X _ = _ -> _ => destruct X as [d2| |]; cbn [bind]; try discriminate end.
  destruct (rc5_transition b (r5_state d2) e (spans_get (r5_spans d) dt) _ _ _) as [[[st buf] ck]| |]; cbn [bind]; intros H; inversion H; reflexivity.
Qed.
Lemma rc6_event_says b d e dt d1 s : rc6_event b d e dt = Val (d1, s) -> s = rc6_to_state (r6_state d1).
Proof.
  unfold rc6_event. cbv zeta. match goal with |- bind ?X _ = _ -> _ => destruct X as [tk| |]; cbn [bind]; try discriminate end.
  match goal with |- bind ?X _ = _ -> _ => destruct X as [d2| |]; cbn [bind]; try discriminate end.
  match goal with |- bind ?X _ = _ -> _ => destruct X as [d3| |]; cbn [bind]; try discriminate end.
  intros H; inversion H; reflexivity.
Qed.
Lemma in5_agrees b d x d' s : drive (rc5_dec b) d x = Val (d', s) -> (s = Receiving <-> in5 d' = true).
Proof.
  unfold drive. change (d_event (rc5_dec b) d (fst x) (snd x)) with (rc5_event b d (fst x) (snd x)).
  destruct (rc5_event b d (fst x) (snd x)) as [[d1 s1]| |] eqn:E; cbn [bind]; try discriminate.
  apply rc5_event_says in E. unfold in5. destruct (r5_state d1) eqn:E1; cbn [rc5_to_state] in E; subst s1;
    intros H; inversion H; subst; cbn; rewrite ?E1; split; congruence.
Qed.
Lemma in6_agrees b d x d' s : drive (rc6_dec b) d x = Val (d', s) -> (s = Receiving <-> in6 d' = true).
Proof.
  unfold drive. change (d_event (rc6_dec b) d (fst x) (snd x)) with (rc6_event b d (fst x) (snd x)).
  destruct (rc6_event b d (fst x) (snd x)) as [[d1 s1]| |] eqn:E; cbn [bind]; try discriminate.
  apply rc6_event_says in E. unfold in6. destruct (r6_state d1) eqn:E1; cbn [rc6_to_state] in E; subst s1;
    intros H; inversion H; subst; cbn; rewrite ?E1; cbn; split; congruence.
Qed.

Section Rc5.
  Variables (b : build) (m : mono) (freq : N).
  Hypothesis (Hm : timebase m freq) (Hhi : exact_rate m freq) (Hu : 8 <= usize_bits b).
  Let ss := spans_of m freq rc5_pulses.
  Notation D := (rc5_dec b).
  Notation into := (fun c : rc5_command => c).
  Notation run := (@run_edges D rc5_command into).
  Notation ev := (@event_edge D rc5_command into).
  Notation st s buf ck pv := (@mkRecv D (mkRc5Dec s buf ck ss) pv).
  Notation mid := (rc5_mid b m freq).
  Lemma rc5_ends_run h i : rc5_ends freq h i -> forall ck pv, room b ck (length h) ->
    exists r os, run (st R5Idle 0 ck pv) h = Val (r, os) /\ in5 (rv_dec r) = i.
  Proof.
    induction 1 as [|d h i H IH|g l ns bits h i Hh Hb H IH|g l ns e d h i Hl Hd H IH|g l ns Hl]; intros ck pv Hr; cbn [length] in Hr.
    - eexists. exists []. split; reflexivity.
    - destruct (rc5_idle_any b m freq Hm Hhi Hu into _ ck pv d false Hr) as (ck' & R & E). destruct (IH ck' pv R) as (r & os & E2 & Ei).
      exists r. eexists. split; [exact (run_cons_val (D := D) into _ _ _ _ _ _ _ _ E E2)|exact Ei].
    - destruct (rc5_idle_any b m freq Hm Hhi Hu into _ ck pv g true Hr) as (ck' & R & E). change (ev (st R5Idle 0 ck pv) g true = Val (mid [] 0 pv, ROk None)) in E. rewrite app_length in R.
      pose proof (rc5_mid_holds b m freq Hm Hhi Hu into l ns bits pv (length h) Hh Hb (room_zero _ _ _ R)) as E1.
      destruct (IH 0 pv) as (r & os & E2 & Ei); [eapply room_less; [eapply room_zero; exact R|lia]|].
      exists r. eexists. split; [exact (run_cons_val (D := D) into _ _ _ _ _ _ _ _ E (run_edges_app_val (D := D) into _ _ _ _ _ _ _ E1 E2))|exact Ei].
    - destruct (rc5_idle_any b m freq Hm Hhi Hu into _ ck pv g true Hr) as (ck' & R & E). change (ev (st R5Idle 0 ck pv) g true = Val (mid [] 0 pv, ROk None)) in E. rewrite app_length in R. cbn [length] in R.
      destruct (rc5_mid_run b m freq Hm Hhi Hu into l [] 0 0 pv ns (S (length h)) eq_refl ltac:(cbn; lia) Hl (room_zero _ _ _ R)) as (ck2 & R2 & _ & E2).
      destruct (IH 0 pv) as (r & os & E3 & Ei); [eapply room_zero; exact R2|].
      assert (E4 : run (mid ([] ++ samples false 0 l ns) ck2 pv) ((e, d) :: h) = Val (r, os)).
      { rewrite <- E3. cbn [run_edges]. unfold rc5_mid. rewrite (rc5_anew b m freq Hm Hhi into _ _ _ pv d e Hd). reflexivity. }
      exists r. eexists. split; [exact (run_cons_val (D := D) into _ _ _ _ _ _ _ _ E (run_edges_app_val (D := D) into _ _ _ _ _ _ _ E2 E4))|exact Ei].
    - destruct (rc5_idle_any b m freq Hm Hhi Hu into _ ck pv g true Hr) as (ck' & R & E). change (ev (st R5Idle 0 ck pv) g true = Val (mid [] 0 pv, ROk None)) in E.
      destruct (rc5_mid_run b m freq Hm Hhi Hu into l [] 0 0 pv ns 0 eq_refl ltac:(cbn; lia) Hl) as (ck2 & R2 & _ & E2); [rewrite Nat.add_0_r; eapply room_zero; exact R|].
      eexists. eexists. split; [exact (run_cons_val (D := D) into _ _ _ _ _ _ _ _ E E2)|reflexivity].
  Qed.
End Rc5.

Section Rc6.
  Variables (b : build) (m : mono) (freq : N).
  Hypothesis (Hm : timebase m freq) (Hhi : exact_rate m freq) (Hu : 8 <= usize_bits b).
  Let ss := spans_of m freq rc6_pulses.
  Notation D := (rc6_dec b).
  Notation into := (fun c : rc6_command => c).
  Notation run := (@run_edges D rc6_command into).
  Notation ev := (@event_edge D rc6_command into).
  Notation st s data hd tg ck pv := (@mkRecv D (mkRc6Dec s data hd tg ck ss) pv).
  Notation leading hd tg pv := (st R6Leading 0 hd tg 0 pv).
  Lemma rc6_part_inside l p hd tg pv k : rc6_part freq l p -> room b 0 (length l + k) ->
    exists s data hd' tg' ck, rc6_stage p s data /\ rc6_to_state s = Receiving /\ room b ck k /\
      run (leading hd tg pv) l = Val (st s data hd' tg' ck pv, repeat (ROk None) (length l)).
  Proof.
    destruct p; cbn [rc6_part rc6_stage]; intros H Hr.
    - subst l. exists R6Leading, 0, hd, tg, 0. auto.
    - destruct H as (lead & -> & H6). cbn [length Nat.add] in Hr.
      destruct (rc6_leader_step b m freq Hm Hhi Hu into hd tg 0 pv lead false 6 _ H6 Hr) as (c1 & R1 & O1 & E1).
      exists R6LeadingPaus, 0, hd, tg, c1. split; [auto|]. split; [reflexivity|]. split; [exact R1|].
      exact (run_cons_val (D := D) into _ _ _ _ _ [] _ [] E1 eq_refl).
    - destruct H as (lead & space & hs & ns & -> & H6 & H2 & Hl). cbn [length Nat.add] in Hr.
      destruct (rc6_leader_step b m freq Hm Hhi Hu into hd tg 0 pv lead false 6 _ H6 Hr) as (c1 & R1 & O1 & E1).
      destruct (rc6_space_step b m freq Hm Hhi Hu into hd tg c1 pv space true 2 _ H2 R1) as (c2 & R2 & O2 & E2).
      assert (Ob : N.odd c2 = N.odd 8) by (rewrite O2, N.odd_add, O1; reflexivity).
      destruct (rc6_hmid_run b m freq Hm Hhi Hu into tg pv hs [] hd 8 c2 ns k Ob ltac:(cbn; lia) Hl R2) as (c3 & hd3 & R3 & O3 & E3).
      do 5 eexists. split; [exact Logic.I|]. split; [|split; [exact R3|
      exact (run_cons_val (D := D) into _ _ _ _ _ _ _ _ E1 (run_cons_val (D := D) into _ _ _ _ _ _ _ _ E2 E3))]]. reflexivity.
    - destruct H as (l1 & hc & ws & -> & Hh & Hw). rewrite app_length, <- Nat.add_assoc in Hr.
      destruct (rc6_head_run b m freq Hm Hhi Hu into l1 hc hd tg pv _ Hh Hr) as (c1 & hd1 & R1 & O1 & E1).
      destruct (rc6_waits_run b m freq Hm Hhi Hu into ws tg hd1 pv hc c1 k Hw O1 R1) as (c2 & R2 & O2 & E2).
      do 5 eexists. split; [split; reflexivity|]. split; [reflexivity|]. split; [exact R2|].
      refine (eq_trans (run_edges_app_val (D := D) into _ _ _ _ _ _ _ E1 E2) _). rewrite app_length, repeat_app. reflexivity.
    - destruct H as (l1 & toggle & ck & l2 & ns & -> & Hd & Hl). rewrite app_length, <- Nat.add_assoc in Hr.
      destruct (rc6_data_run b m freq Hm Hhi Hu into l1 toggle ck hd tg pv _ Hd Hr) as (c1 & hd1 & R1 & O1 & E1).
      destruct (rc6_dmid_run b m freq Hm Hhi Hu into hd1 toggle pv l2 [] ck c1 ns k O1 ltac:(cbn; lia) Hl R1) as (c2 & R2 & O2 & E2).
      do 5 eexists. split; [exact Logic.I|]. split; [|split; [exact R2|
      refine (eq_trans (run_edges_app_val (D := D) into _ _ _ _ _ _ _ E1 E2) _); rewrite app_length, repeat_app; reflexivity]]. reflexivity.
  Qed.

  Lemma rc6_ends_run h i : rc6_ends freq h i -> forall hd tg ck pv, room b ck (length h) ->
    exists r os, run (st R6Idle 0 hd tg ck pv) h = Val (r, os) /\ in6 (rv_dec r) = i.
  Proof.
    intros H. induction H as [|d h i _ IH|g l1 toggle ck0 l2 ns bits h i Hd Hh Lb _ IH|g l p e d h i Hp Hd _ IH|g l p e d n h i Hp Hn Hw _ IH|g l p Hp];
      intros hd tg ck pv Hr; cbn [length] in Hr.
    - eexists. exists []. split; reflexivity.
    - destruct (rc6_idle_any b m freq Hm Hhi Hu into _ hd tg ck pv d false Hr) as (hd1 & c1 & R1 & E). destruct (IH hd1 tg c1 pv R1) as (r & os & E2 & Ei). exists r.
      eexists. split; [exact (run_cons_val (D := D) into _ _ _ _ _ _ _ _ E E2)|exact Ei].
    - destruct (rc6_idle_any b m freq Hm Hhi Hu into _ hd tg ck pv g true Hr) as (hd1 & c1 & R1 & E). rewrite app_length in Hr.
      assert (R0 : room b 0 (length (l1 ++ l2))) by (eapply room_less; [eapply room_zero; exact Hr|unfold edge in *; cbn [length]; lia]).
      destruct (rc6_frame_run b m freq Hm Hhi Hu into l1 toggle ck0 l2 ns bits hd1 tg pv Hd Hh Lb R0) as (q & Eq & E2).
      destruct (IH 0 toggle 0 pv) as (r & os & E3 & Ei); [eapply room_less; [eapply room_zero; exact Hr|unfold edge in *; cbn [length]; lia]|].
      exists r. eexists. split; [exact (run_cons_val (D := D) into _ _ _ _ _ _ _ _ E (run_edges_app_val (D := D) into _ _ _ _ _ _ _ E2 E3))|exact Ei].
    - destruct (rc6_idle_any b m freq Hm Hhi Hu into _ hd tg ck pv g true Hr) as (hd1 & c1 & R1 & E). rewrite app_length in Hr.
      assert (R0 : room b 0 (length l + length ((e, d) :: h))) by (eapply room_less; [eapply room_zero; exact Hr|unfold edge in *; cbn [length]; lia]).
      destruct (rc6_part_inside l p hd1 tg pv _ Hp R0) as (s & data & hd2 & tg2 & c2 & Hs & _ & R2 & E2).
      destruct (IH 0 tg2 0 pv) as (r & os & E3 & Ei); [eapply room_less; [eapply room_zero; exact R2|unfold edge in *; cbn [length]; lia]|].
      exists r. assert (E4 : run (st s data hd2 tg2 c2 pv) ((e, d) :: h) = Val (r, os)).
      { etransitivity; [|exact E3]. pose proof (rc6_anew b m freq Hm Hhi into s data hd2 tg2 c2 pv d e Hd) as A. fold ss in A. cbn [run_edges]. rewrite A. reflexivity. }
      eexists. split; [exact (run_cons_val (D := D) into _ _ _ _ _ _ _ _ E (run_edges_app_val (D := D) into _ _ _ _ _ _ _ E2 E4))|exact Ei].
    - destruct (rc6_idle_any b m freq Hm Hhi Hu into _ hd tg ck pv g true Hr) as (hd1 & c1 & R1 & E). rewrite app_length in Hr. cbn [length] in Hr.
      assert (R0 : room b 0 (length l + S (length h))) by (eapply room_less; [eapply room_zero; exact Hr|unfold edge in *; cbn [length]; lia]).
      destruct (rc6_part_inside l p hd1 tg pv _ Hp R0) as (s & data & hd2 & tg2 & c2 & Hs & _ & R2 & E2).
      destruct (rc6_wrong_step b m freq Hm Hhi Hu into p s data hd2 tg2 c2 pv d e n _ Hs Hw Hn R2) as (c3 & R3 & E3).
      destruct (IH hd2 tg2 c3 pv R3) as (r & os & E4 & Ei). exists r. eexists. split;
      [exact (run_cons_val (D := D) into _ _ _ _ _ _ _ _ E (run_edges_app_val (D := D) into _ _ _ _ _ _ _ E2 (run_cons_val (D := D) into _ _ _ _ _ _ _ _ E3 E4)))|exact Ei].
    - destruct (rc6_idle_any b m freq Hm Hhi Hu into _ hd tg ck pv g true Hr) as (hd1 & c1 & R1 & E).
      assert (R0 : room b 0 (length l + 0)) by (eapply room_less; [eapply room_zero; exact Hr|unfold edge in *; cbn [length]; lia]).
      destruct (rc6_part_inside l p hd1 tg pv 0 Hp R0) as (s & data & hd2 & tg2 & c2 & Hs & Hi & R2 & E2).
      eexists. eexists. split; [exact (run_cons_val (D := D) into _ _ _ _ _ _ _ _ E E2)|]. cbn [rv_dec]. unfold in6. cbn [r6_state]. rewrite Hi. reflexivity.
  Qed.
End Rc6.

(** The state an RC5 decoder reports at the last edge of a signal is [Receiving] exactly if
    the signal ends inside a frame.  Release builds, or signals short enough for the clock. *)
Theorem C38_rc5_exact_partial : forall b m freq h,
  timebase m freq -> exact_rate m freq -> 8 <= usize_bits b ->
  overflow_checks b = false \/ 8 * N.of_nat (length h) < 2 ^ usize_bits b ->
  exists d0 d ss, p_build (rc5_protocol b m) freq = Val d0 /\ run_states (rc5_dec b) d0 h = Val (d, ss) /\
    (last_state ss = Receiving <-> rc5_ends freq h true).
Proof.
  intros b m freq h Hm Hhi Hu Hr.
  assert (Hf : freq < M32) by exact (exact_rate_lt m freq Hhi). pose proof (rc5_new_val b m freq Hm Hf) as E0.
  assert (R : room b 0 (length h)) by (unfold room; rewrite N.add_0_l; exact Hr).
  unfold receiver_new in E0. destruct (p_build (rc5_protocol b m) freq) as [d0| |] eqn:Ep; cbn [bind] in E0; try discriminate.
  assert (Ed : d0 = mkRc5Dec R5Idle 0 0 (spans_of m freq rc5_pulses)) by (inversion E0; reflexivity).
  exists d0. destruct (rc5_reads_some freq h) as (rs & Hrd). destruct (rc5_ends_some _ _ _ Hrd) as (i & Hi).
  destruct (rc5_ends_run b m freq Hm Hhi Hu h i Hi 0 0 R) as (r & os & E & Ei). 
  destruct (drive_last (rc5_dec b) in5 (in5_agrees b) h _ _ _ Idle E) as (ss & Es & L); [cbn; split; discriminate|].
  exists (rv_dec r), ss. split; [reflexivity|]. split; [rewrite Ed; exact Es|]. unfold last_state. rewrite L. cbn [dst rc5_dec] in *. rewrite Ei.
  split; [intros ->; exact Hi|]. intros Ht. destruct (rc5_ends_run b m freq Hm Hhi Hu h true Ht 0 0 R) as (r2 & os2 & E2 & E3).
  rewrite E in E2. inversion E2; subst. exact E3.
Qed.
Print Assumptions C38_rc5_exact_partial.

Theorem C38_rc6_exact_partial : forall b m freq h,
  timebase m freq -> exact_rate m freq -> 8 <= usize_bits b ->
  overflow_checks b = false \/ 8 * N.of_nat (length h) < 2 ^ usize_bits b ->
  exists d0 d ss, p_build (rc6_protocol b m) freq = Val d0 /\ run_states (rc6_dec b) d0 h = Val (d, ss) /\
    (last_state ss = Receiving <-> rc6_ends freq h true).
Proof.
  intros b m freq h Hm Hhi Hu Hr.
  assert (Hf : freq < M32) by exact (exact_rate_lt m freq Hhi). pose proof (rc6_new_val b m freq Hm Hf) as E0.
  assert (R : room b 0 (length h)) by (unfold room; rewrite N.add_0_l; exact Hr).
  unfold receiver_new in E0. destruct (p_build (rc6_protocol b m) freq) as [d0| |] eqn:Ep; cbn [bind] in E0; try discriminate.
  assert (Ed : d0 = mkRc6Dec R6Idle 0 0 false 0 (spans_of m freq rc6_pulses)) by (inversion E0; reflexivity).
  exists d0. destruct (rc6_reads_some freq h) as (rs & Hrd). destruct (rc6_ends_some _ _ _ Hrd) as (i & Hi).
  destruct (rc6_ends_run b m freq Hm Hhi Hu h i Hi 0 false 0 0 R) as (r & os & E & Ei).
  destruct (drive_last (rc6_dec b) in6 (in6_agrees b) h _ _ _ Idle E) as (ss & Es & L); [cbn; split; discriminate|].
  exists (rv_dec r), ss. split; [reflexivity|]. split; [rewrite Ed; exact Es|]. unfold last_state. rewrite L. cbn [dst rc6_dec] in *. rewrite Ei.
  split; [intros ->; exact Hi|]. intros Ht. destruct (rc6_ends_run b m freq Hm Hhi Hu h true Ht 0 false 0 0 R) as (r2 & os2 & E2 & E3).
  rewrite E in E2. inversion E2; subst. exact E3.
Qed.
Print Assumptions C38_rc6_exact_partial.

(** A frame broken off by a long interval: the rising edge that ends it begins another one, a
    falling edge leaves the receiver outside. *)
Definition c38_in : list edge := [(true, 50000); (false, 889); (true, 5000); (false, 889)].
Definition c38_out : list edge := [(true, 50000); (false, 889); (true, 1778); (false, 5000)].
Example C38_exact_example :
  timebase MU32 1000000 /\ exact_rate MU32 1000000 /\
  rc5_ends 1000000 c38_in true /\ ~ rc5_ends 1000000 c38_out true /\
  rc6_ends 1000000 [(true, 50000); (false, 2664); (true, 888); (false, 444)] true.
Proof.
  assert (E : exact_rate MU32 1000000) by (repeat split; auto).
  assert (T : timebase MU32 1000000) by (repeat split; auto).
  assert (Q : forall p, nominal 1000000 p = p) by (intros p; unfold nominal; apply N.div_mul; lia).
  assert (K : forall n d, 1 <= n <= 2 -> d = 889 * n -> rc5_counts 1000000 n d).
  { intros n d Hn ->. unfold rc5_counts, near. rewrite !Q. lia. }
  assert (U : rc5_uncounted 1000000 5000) by (unfold rc5_uncounted, near; rewrite !Q; lia).
  split; [exact T|]. split; [exact E|]. split; [|split].
  - refine (E5Lost _ 50000 [(false, 889)] [1] true 5000 [(false, 889)] true _ U (E5Inside _ 5000 [(false, 889)] [1] _));
      (split; [constructor; [apply K; [lia|reflexivity]|constructor]|cbn; lia]).
  - intros H. destruct (C38_rc5_exact_partial (release_build 32) MU32 1000000 c38_out T E) as (d0 & d & ss & E0 & E1 & H1); [cbn; lia|left; reflexivity|].
    apply H1 in H. vm_compute in E0. inversion E0; subst d0. vm_compute in E1. inversion E1; subst ss. discriminate H.
  - apply (E6Inside _ 50000 [(false, 2664); (true, 888); (false, 444)] AtHeader). exists 2664, 888, [(false, 444)], [1].
    assert (N6 : forall n d, 1 <= n <= 6 -> d = 444 * n -> rc6_counts 1000000 n d).
    { intros n d Hn ->. left. split; [exact Hn|]. unfold near. rewrite !Q. split; [lia|]. intros k Hk. rewrite Q. lia. }
    split; [reflexivity|]. split; [apply N6; lia|]. split; [apply N6; lia|]. split; [constructor; [apply N6; [lia|reflexivity]|constructor]|cbn; lia].
Qed.
