(** * Lemmas: receivers that are started while a signal is under way *)
From Coq Require Import NArith ZArith List Bool Lia ZifyBool ZifyNat ZifyN.
From Verif Require Import Machine Time Decoder Nec Rc5 Rc6 Denon Sbp Receiver Spec Bits Time_facts Run_facts Nec_facts Rc5_facts Rc6_facts
  Spec_receiver Spec_sound Sound_facts Biphase_facts Spec_cross Cross_facts Spec_damage Damage_facts Spec_glitch Glitch6_facts State_facts Invert_facts Spec_join.
Import ListNotations.
Open Scope N_scope.

(** ** New receivers that see no header *)

Lemma nec_silent b m freq V (C : Type) (into : nv_cmd V -> C) h r0 r os :
  timebase m freq -> freq < 2 ^ 32 -> nec_timing_ok (nv_timing V) -> periods_fit h ->
  Forall (fun q => 100 * q < 92 * nominal freq (header_high (nv_timing V) + repeat_low (nv_timing V))) (periods h) ->
  receiver_new (nec_protocol b m V) freq = Val r0 ->
  run_edges (D := nec_dec b m V) into r0 h = Val (r, os) -> commands os = [].
Proof.
  intros Hm Hf HT Hfit Hq E0 E.
  assert (Lr : nominal freq (header_high (nv_timing V) + repeat_low (nv_timing V)) <= nominal freq (header_high (nv_timing V) + header_low (nv_timing V))).
  { apply nominal_le. destruct HT as [-> | ->]; vm_compute; discriminate. }
  revert E. apply (quiet_run (D := nec_dec b m V) into r0 [] h). intros k e d rest r' os' x Ek E. cbn [app] in E.
  change ((e, d) :: rest) with ([(e, d)] ++ rest) in Ek. rewrite app_assoc in Ek.
  assert (Hfit' : periods_fit (k ++ [(e, d)])) by (apply periods_fit_app with (h2 := rest); unfold edge in *; rewrite <- Ek; exact Hfit).
  unfold edge in *. rewrite Ek in Hq. apply short_periods_app in Hq. fold (periods (k ++ [(e, d)])) in Hq.
  destruct (nec_sound_report b m freq V Hm Hf HT into k e d r0 r' os' x E0 Hfit' E) as (-> & w & pv & c & _ & _ & K).
  destruct K as [[(pre & hd & ds & Eps & [_ Hhd] & _) _]|[(pre & dd & Eps & [_ Hdd]) _]]; rewrite Eps in Hq; apply Forall_app in Hq; destruct Hq as [_ Hq];
    inversion Hq as [|? ? Q _]; subst; lia.
Qed.

Lemma denon_silent b m freq (C : Type) (into : denon_command -> C) h r0 r os :
  timebase m freq -> freq < 2 ^ 32 -> periods_fit h ->
  Forall (fun q => 100 * q < 91 * nominal freq 5000) (periods h) ->
  receiver_new (denon_protocol b m) freq = Val r0 ->
  run_edges (D := denon_dec b m) into r0 h = Val (r, os) -> commands os = [].
Proof.
  intros Hm Hf Hfit Hq E0. apply (quiet_run (D := denon_dec b m) into r0 [] h). intros k e d rest r' os' x Ek E. cbn [app] in E.
  change ((e, d) :: rest) with ([(e, d)] ++ rest) in Ek. rewrite app_assoc in Ek.
  assert (Hfit' : periods_fit (k ++ [(e, d)])) by (apply periods_fit_app with (h2 := rest); unfold edge in *; rewrite <- Ek; exact Hfit).
  unfold edge in *. rewrite Ek in Hq. apply short_periods_app in Hq. fold (periods (k ++ [(e, d)])) in Hq.
  destruct (denon_sound_report b m freq C into k e d r0 r' os' x Hm Hf E0 Hfit' E) as (-> & pre & hd & ds & w & Eps & [_ Hhd] & _).
  rewrite Eps in Hq. apply Forall_app in Hq. destruct Hq as [_ Hq]. inversion Hq as [|? ? Q _]; subst. lia.
Qed.

Lemma alt_single f l : alt f l -> no_double_rise l.
Proof.
  revert f. induction l as [|[e d] [|[e' d'] l] IH]; intros f A; [exact Logic.I|destruct e; exact Logic.I|].
  destruct A as (-> & A). pose proof (IH _ A) as Q. destruct A as (-> & A). destruct f; cbn [negb no_double_rise] in *; auto.
Qed.

Lemma no_double_prefix l1 : forall l2, no_double_rise (l1 ++ l2) -> no_double_rise l1.
Proof.
  induction l1 as [|[e d] l1 IH]; intros l2 H; [exact Logic.I|]. cbn [app] in H. destruct e; [|exact (IH l2 H)].
  destruct l1 as [|[[|] x] l1]; [exact Logic.I|destruct H|exact (IH l2 H)].
Qed.

Lemma sbp_silent b m freq (C : Type) (into : sbp_command -> C) h r0 r os :
  timebase m freq -> freq < 2 ^ 32 -> periods_fit h -> no_double_rise h ->
  Forall (fun q => 100 * q < 94 * nominal freq 9000) (periods h) ->
  receiver_new (sbp_protocol b m) freq = Val r0 ->
  run_edges (D := sbp_dec b m) into r0 h = Val (r, os) -> commands os = [].
Proof.
  intros Hm Hf Hs Ha Hq E0. apply (quiet_run (D := sbp_dec b m) into r0 [] h). intros k e d rest r' os' x Ek E. cbn [app] in E.
  change ((e, d) :: rest) with ([(e, d)] ++ rest) in Ek. rewrite app_assoc in Ek.
  assert (Hs' : periods_fit (k ++ [(e, d)])) by (apply periods_fit_app with (h2 := rest); unfold edge in *; rewrite <- Ek; exact Hs).
  unfold edge in *. rewrite Ek in Hq, Ha. apply short_periods_app in Hq. fold (periods (k ++ [(e, d)])) in Hq. apply no_double_prefix in Ha.
  destruct (sbp_sound_report b m freq Hm Hf into k e d r0 r' os' x E0 (or_intror (conj Ha Hs')) E)
    as (-> & aw & cw & ps & sv & _ & R & pre & hd & ads & pause & cds & Eps & [_ Hhd] & _).
  destruct (readings_periods _ _ _ R Ha) as [Ep _]. rewrite Ep in Eps. unfold periods in Hq, Eps. rewrite Eps in Hq.
  apply Forall_app in Hq. destruct Hq as [_ Hq]. inversion Hq as [|? ? Q _]; subst. lia.
Qed.

(** ** What is left of a series of pairs *)

Lemma joined_pairs L tail ds : forall l1 e d d' l2, pair_edges ds ++ tail = l1 ++ (e, d) :: l2 -> stopped tail -> d' <= d ->
  Forall (fun x => 100 * (fst x + snd x) < L) ds -> Forall (fun q => 100 * q < L) (periods ((e, d') :: l2)).
Proof.
  assert (T : forall tl ds, stopped tl -> Forall (fun x => 100 * (fst x + snd x) < L) ds -> Forall (fun q => 100 * q < L) (periods_from 0 (pair_edges ds ++ tl))).
  { clear. intros tl ds Ht F. induction F as [|[mk sp] ds H F IH]; cbn [pair_edges app periods_from fst snd] in *.
    - destruct Ht as [->|(x & ->)]; constructor.
    - constructor; [exact H|exact IH]. }
  induction ds as [|[mk sp] ds IH]; intros l1 e d d' l2 E Ht Hd F; cbn [pair_edges app] in E.
  - destruct Ht as [->|(x & ->)]; destruct l1 as [|y [|z l1]]; try discriminate E. injection E as <- <- <-. constructor.
  - inversion F as [|? ? H F']; subst. cbn [fst snd] in H. destruct l1 as [|y [|z l1]]; cbn [app] in E.
    + injection E as <- <- <-. unfold periods. cbn [periods_from]. constructor; [lia|]. apply T; auto.
    + injection E as <- <- <- <-. unfold periods. cbn [periods_from]. constructor; [lia|]. apply T; auto.
    + injection E as <- <- E. exact (IH l1 e d d' l2 E Ht Hd F').
Qed.

Lemma joined_periods L h ds tail gap seen : joins 2 ((true, gap) :: pair_edges (h :: ds) ++ tail) seen -> stopped tail ->
  100 * snd h < L -> Forall (fun x => 100 * (fst x + snd x) < L) ds -> Forall (fun q => 100 * q < L) (periods seen).
Proof.
  intros (l1 & e & d & d' & l2 & E & Hk & Hd & ->) Ht Hh F. destruct h as [mk sp]. cbn [pair_edges app snd] in *.
  destruct l1 as [|y [|z l1]]; cbn [length] in Hk; try lia. cbn [app] in E. injection E as _ _ E.
  destruct l1 as [|u l1]; cbn [app] in E.
  - injection E as <- <- <-. unfold periods. cbn [periods_from]. constructor; [lia|].
    pose proof (joined_pairs L tail ds) as J. destruct (pair_edges ds ++ tail) as [|[e1 d1] l] eqn:El; [constructor|].
    exact (J [] e1 d1 d1 l eq_refl Ht ltac:(lia) F).
  - injection E as _ E. exact (joined_pairs L tail ds l1 e d d' l2 E Ht Hd F).
Qed.

Lemma joined_mark L h ds tail gap seen : joins 1 ((true, gap) :: pair_edges (h :: ds) ++ tail) seen -> stopped tail ->
  100 * snd h < L -> Forall (fun x => 100 * (fst x + snd x) < L) ds ->
  Forall (fun q => 100 * q < L) (periods seen) \/ (exists d1 d2 l, seen = (false, d1) :: (true, d2) :: l /\ d1 <= fst h /\ d2 = snd h /\ L <= 100 * (d1 + d2)).
Proof.
  intros (l1 & e & d & d' & l2 & E & Hk & Hd & Es) Ht Hh F. destruct l1 as [|y [|z l1]]; cbn [length] in Hk; try lia.
  - destruct h as [mk sp]. cbn [pair_edges app fst snd] in *. injection E as <- <- <- <-. subst seen.
    destruct (N.lt_ge_cases (100 * (d' + sp)) L) as [Q|Q]; [left|right; eauto 9].
    unfold periods. cbn [periods_from]. constructor; [lia|].
    pose proof (joined_pairs L tail ds) as J. destruct (pair_edges ds ++ tail) as [|[e1 d1] l] eqn:El; [constructor|].
    exact (J [] e1 d1 d1 l eq_refl Ht ltac:(lia) F).
  - left. apply (joined_periods L h ds tail gap seen); auto. exists (y :: z :: l1), e, d, d', l2. cbn [length]. repeat split; auto. lia.
Qed.

Lemma periods_small (L : N) h freq : freq < 2 ^ 32 -> L <= 100 * nominal freq 13500 -> Forall (fun q => 100 * q < L) (periods h) -> periods_fit h.
Proof.
  intros Hf HL F. assert (B : nominal freq 13500 <= 2 ^ 32).
  { unfold nominal. apply N.div_le_upper_bound; lia. }
  eapply Forall_impl; [|exact F]. cbv beta. lia.
Qed.

Lemma joined_alt k f l seen : joins k l seen -> alt f l -> exists f', alt f' seen.
Proof.
  intros (l1 & e & d & d' & l2 & -> & _ & _ & ->) A. apply alt_app in A. destruct A as [_ (f' & A)]. exists f'. exact A.
Qed.

(** ** RC5: too few bits are left *)

Lemma rc5_joined freq w gap frame tail seen a g seg c bits : 20000 <= freq -> N.testbit w 13 = true ->
  rc5_edges freq w gap frame -> tail = [] \/ (exists d, tail = [(false, d)] /\ near freq 889 12 d) ->
  joins 1 (frame ++ tail) seen -> seen = a ++ (true, g) :: seg ++ c ->
  rc5_stream freq seg bits -> length bits = 13%nat -> False.
Proof.
  intros Hlo Hw (n & noms & acts & El & -> & F) Ht (l1 & e & d & d' & l2 & E & Hk & _ & ->) Es (evs1 & last & ks & k & _ & Fk & Sb & _) Lb.
  destruct (rc5_noms w n noms El) as [B A].
  assert (D : exists data, bits_msb 14 w = true :: data /\ length data = 13%nat).
  { exists (bits_msb 13 w). rewrite bits_msb_S. change (N.of_nat 13) with 13. rewrite Hw. split; [reflexivity|apply bits_msb_length]. }
  destruct D as (data & Ed & Ld). unfold rc5_wave in El. rewrite Ed in El. cbn [flat_map rc5_half app level_edges Bool.eqb] in El.
  injection El as <- <-. set (noms := level_edges true 1 (flat_map rc5_half data)) in *.
  pose proof (level_total_less (flat_map rc5_half data) true 1 ltac:(lia)) as T. fold noms in T. rewrite rc5_half_length, Ld in T. clearbody noms.
  destruct l1 as [|y l1]; cbn [length] in Hk; [lia|]. cbn [app] in E. injection E as <- E.
  set (tn := match tail with [] => [] | _ => [1] end : list N).
  assert (U : Forall2 (unit_of freq) (map snd noms ++ tn) (acts ++ tail)).
  { apply Forall2_app.
    - clear -F B. induction F as [|nom act noms acts H F IH]; cbn [map]; constructor.
      + inversion B as [|x l [H1 H2] _]; subst. apply biphase_wide in H. unfold rc5_tol in H.
        assert (E : snd nom = 1 \/ snd nom = 2) by lia. unfold unit_of. cbn [snd]. destruct E as [E|E]; rewrite E in H; rewrite E; [left|right; left]; split; auto.
      + inversion B; subst. auto.
    - unfold tn. destruct Ht as [->|(x & -> & Hd)]; [constructor|]. constructor; [left; auto|constructor]. }
  assert (Tt : total (map snd noms ++ tn) <= 27).
  { unfold tn. rewrite total_app. destruct Ht as [->|(x & -> & Hd)]; cbn [total fold_right]; lia. }
  assert (Al : l1 = [] -> e = false).
  { intros ->. cbn [app] in E. destruct F as [|nom act noms' acts' [H _] F]; cbn [app] in E.
    - destruct Ht as [->|(x & -> & Hd)]; [discriminate E|]. injection E as <- _ _. reflexivity.
    - injection E as E _. subst act. cbn [fst] in H. rewrite H. destruct nom. exact (proj1 A). }
  unfold edge in *. rewrite E in U. apply Forall2_app_inv_r in U. destruct U as (na & nr & Ua & Ur & En).
  inversion Ur as [|ne y nr' z Ue Us Ey Ez]; subst nr y z. clear Ur. rewrite En, total_app, total_cons in Tt. apply unit_low in Ue; [|exact Hlo].
  assert (P : forall ns l, Forall2 (unit_of freq) ns l -> l <> [] -> 1 <= total ns).
  { intros ns l Fz Nz. inversion Fz as [|n1 x1 ns1 l1' U1 _]; subst; [destruct Nz; reflexivity|]. apply unit_low in U1; [|exact Hlo]. rewrite total_cons. lia. }
  assert (G : forall nseg, Forall2 (unit_of freq) nseg seg -> 26 <= total nseg).
  { intros nseg Uz. assert (Q : nseg = ks ++ [k] /\ Forall (fun n => 1 <= n) nseg).
    { set (kk := ks ++ [k]) in *. clearbody kk. clear -Hlo Uz Fk. revert kk Fk. induction Uz as [|n x nseg seg U Fs IH]; intros kk Fk.
      - inversion Fk; subst. auto.
      - cbn [map] in Fk. inversion Fk as [|k0 y kk0 z Hk Fk0]; subst. destruct (IH _ Fk0) as [-> Q].
        destruct (unit_read freq Hlo n x k0 U Hk) as [-> H2]. apply unit_low in U; [|exact Hlo]. split; [reflexivity|]. constructor; [lia|exact Q]. }
    destruct Q as [Q1 Q2]. rewrite <- Q1 in Sb.
    pose proof (samples_time seg nseg 0 Q2) as St. rewrite Sb, Lb in St. change (N.odd 0) with false in St. cbn iota in St. lia. }
  destruct a as [|y a]; cbn [app] in Es.
  - injection Es as -> -> ->. apply Forall2_app_inv_r in Us. destruct Us as (nseg & nc & Us & _ & ->). rewrite total_app in Tt.
    specialize (G _ Us). assert (1 <= total na); [|lia]. apply (P na l1 Ua). intros K. specialize (Al K). discriminate Al.
  - injection Es as <- ->. apply Forall2_app_inv_r in Us. destruct Us as (n1 & n2 & _ & Us & ->).
    inversion Us as [|ng y n3 z Ug Us' Ey Ez]; subst n2 y z. apply unit_low in Ug; [|exact Hlo].
    apply Forall2_app_inv_r in Us'. destruct Us' as (nseg & nc & Us' & _ & ->). specialize (G _ Us'). rewrite total_app, total_cons, total_app in Tt. lia.
Qed.

(** ** RC6: no leader *)

Lemma rc6_silent b m freq (C : Type) (into : rc6_command -> C) evs r0 r os :
  timebase m freq -> freq < 2 ^ 32 -> 20000 <= freq -> 8 <= usize_bits b ->
  Forall (fun x => fst x = false -> 100 * snd x < 87 * nominal freq 2664) evs ->
  receiver_new (rc6_protocol b m) freq = Val r0 ->
  run_edges (D := rc6_dec b) into r0 evs = Val (r, os) -> commands os = [].
Proof.
  intros Hm Hf Hlo Hu F E0 E. rewrite (rc6_new_val b m freq Hm Hf) in E0. injection E0 as <-.
  assert (W : Forall (no_leader m freq) evs).
  { eapply Forall_impl; [|exact F]. intros [e d] H He X. specialize (H He). cbn [snd] in *.
    destruct (rc6_interval_of b m freq Hm Hf Hu d 5 X) as [[(_ & _ & _ & K)|(K & _)] _]; [|lia].
    change (444 * (5 + 1)) with 2664 in K. lia. }
  destruct (waiting_run b m freq Hm Hf Hlo Hu into evs _ r os (waiting_st b m freq R6Idle 0 0 _ 0 _ (or_introl eq_refl)) W E) as [_ K].
  exact K.
Qed.

Lemma rc6_joined freq toggle w gap frame tail seen : 20000 <= freq -> rc6_edges freq (rc6_leader_full freq) toggle w gap frame ->
  tail = [] \/ (exists d, tail = [(false, d)] /\ near freq 444 12 d) -> joins 2 (frame ++ tail) seen ->
  Forall (fun x => fst x = false -> 100 * snd x < 87 * nominal freq 2664) seen.
Proof.
  intros Hlo (n & noms & lead & acts & En & -> & Hl & HF) Ht (l1 & e & d & d' & l2 & E & Hk & Hd & ->).
  assert (Q : Forall (fun x : edge => 100 * snd x < 87 * nominal freq 2664) (acts ++ tail)).
  { assert (P : 0 < nominal freq 1332) by (unfold nominal; apply N.div_str_pos; lia).
    pose proof (nominal_sum freq 1332 1332) as L2. change (1332 + 1332) with 2664 in L2. apply Forall_app. split.
    - pose proof (proj1 (rc6_noms toggle w n noms En)) as B. clear -HF B Hlo L2 P. induction HF as [|x y xs ys [H1 H2] HF IH]; [constructor|].
      inversion B as [|? ? [B1 B2] B3]; subst. constructor; [|auto].
      apply near_guaranteed in H2. destruct H2 as [H2 _]. unfold rc6_tol in H2.
      pose proof (nominal_le freq (444 * snd x) 1332 ltac:(lia)) as L1. lia.
    - destruct Ht as [->|(x & -> & Hx & _)]; constructor; [|constructor]. cbn [snd].
      pose proof (nominal_le freq 444 1332 ltac:(lia)) as L1. lia. }
  destruct l1 as [|y [|z l1]]; cbn [length] in Hk; try lia. cbn [app] in E. injection E as _ _ E. unfold edge in *. rewrite E in Q.
  apply Forall_app in Q. destruct Q as [_ Q]. inversion Q as [|? ? Q1 Q2]; subst. cbn [snd] in Q1. constructor; [intros _; cbn [snd]; lia|].
  eapply Forall_impl; [|exact Q2]. auto.
Qed.
