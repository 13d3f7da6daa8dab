(** * C22: which leaders of an RC6 frame are read *)
From Coq Require Import NArith ZArith List Bool Lia ZifyBool ZifyNat ZifyN.
From Verif Require Import Machine Spec Spec_receiver Spec_state Bits Time Decoder Rc6 Receiver
  Time_facts Window_facts Run_facts Rc5_facts Rc6_facts Codec_facts Receiver_facts Encode_facts Roundtrip_facts Cross_facts Props_decode Props_rates Spec_rate Rate_facts.
Import ListNotations.
Open Scope N_scope.

(** A leader that is read as six units: within 12 percent of six units, and longer than five
    units plus 12 percent, whose window is searched first. *)
Definition rc6_leader_read (freq lead : N) : Prop := near freq 2664 12 lead /\ longer freq 2220 12 lead.

Lemma rc6_read_iff m freq d : timebase m freq -> exact_rate m freq ->
  spans_get (spans_of m freq rc6_pulses) d = Some 5 <-> rc6_leader_read freq d.
Proof.
  intros Hm Hf. rewrite spans_of_exact by (auto using rc6_ok).
  assert (O : nominal freq 444 <= nominal freq 2220 /\ nominal freq 888 <= nominal freq 2220 /\ nominal freq 1332 <= nominal freq 2220
    /\ nominal freq 1776 <= nominal freq 2220 /\ nominal freq 2220 <= nominal freq 2664)
    by (repeat split; apply nominal_le; lia).
  unfold rc6_leader_read, near, longer. change (100 - 12) with 88. split.
  - intros E. unfold spans_get in E. pose proof (spans_get_from_spec (nominal_spans freq rc6_pulses) 0 d) as S. rewrite E in S.
    destruct S as (j & s & Ej & E1 & C1 & B1). assert (j = 5%nat) as -> by lia. clear Ej E.
    cbn [nth_error nominal_spans map fst snd rc6_pulses N.mul Pos.mul Pos.add Pos.succ] in E1. injection E1 as <-.
    apply contains_window in C1; [|lia].
    pose proof (B1 4%nat (window (nominal freq 2220) 12) ltac:(lia) eq_refl) as N5. clear B1.
    assert (M5 : ~ inwin (nominal freq 2220) 12 d) by (intros Q; apply contains_window in Q; [congruence|lia]).
    unfold inwin in *. revert O C1 M5. clear. generalize (nominal freq 444) (nominal freq 888) (nominal freq 1332) (nominal freq 1776) (nominal freq 2220) (nominal freq 2664).
    intros. lia.
  - intros ((H1 & H2) & H3). change (Some 5) with (Some (N.of_nat 5)).
    apply spans_get_hit with (s := window (nominal freq 2664) 12); [reflexivity| |].
    + apply contains_window; [lia|]. split; [exact H1|exact H2].
    + intros j s' Hj E. destruct j as [|[|[|[|[|j]]]]]; try lia;
        cbn [nth_error nominal_spans map fst snd rc6_pulses N.mul Pos.mul Pos.add Pos.succ] in E; injection E as <-;
        (apply contains_window_false; [lia|]); unfold inwin; revert O H3; clear;
        generalize (nominal freq 444) (nominal freq 888) (nominal freq 1332) (nominal freq 1776) (nominal freq 2220) (nominal freq 2664);
        intros; lia.
Qed.

Lemma alt_alternating l : forall up, alt up l -> l = alternating up (map snd l).
Proof. induction l as [|[e d] l IH]; intros up H; cbn [alternating map snd alt] in *; [reflexivity|]. destruct H as (-> & H). f_equal. apply IH, H. Qed.

(** At rates where the windows are exact: after any history and a long gap, a frame whose
    other intervals are within tolerance is reported exactly if its leader is read; if it is not,
    the receiver reports nothing.  Every length of the leader is covered. *)
Theorem C22_leader_partial :
  forall b m freq a c toggle hist gap lead noms n acts C (into : rc6_command -> C) r0 r1 os,
  timebase m freq -> 2253 <= freq -> exact_rate m freq -> 8 <= usize_bits b -> a < 2 ^ 8 -> c < 2 ^ 8 ->
  level_edges false 0 (rc6_wave toggle (bits_msb 16 (2 ^ 8 * a + c))) = (true, n) :: (false, 6) :: noms ->
  Forall2 (biphase_near freq 444 rc6_tol) noms acts -> longer freq 2664 12 gap ->
  receiver_new (rc6_protocol b m) freq = Val r0 ->
  run_edges (D := rc6_dec b) into r0 hist = Val (r1, os) ->
  exists r last,
    run_edges (D := rc6_dec b) into r0 (hist ++ (true, gap) :: (false, lead) :: acts) =
      Val (r, os ++ repeat (ROk None) (S (length acts)) ++ [last]) /\
    (rc6_leader_read freq lead -> last = ROk (Some (into (mkRc6 a c toggle)))) /\
    (~ rc6_leader_read freq lead -> last = ROk None).
Proof.
  intros b m freq a c toggle hist gap lead noms n acts C into r0 r1 os Hm Hlo Hhi Hu Ha Hc En HF Hg E0 E1.
  assert (Hw : 2 ^ 8 * a + c < 2 ^ 16) by (change (2 ^ 8) with 256 in *; change (2 ^ 16) with 65536; lia).
  assert (Hf : freq < 2 ^ 32) by exact (exact_rate_lt m freq Hhi).
  rewrite (rc6_new_val b m freq Hm Hf) in E0. injection E0 as <-.
  pose proof (rc6_run_spans b into _ _ _ _ E1) as Es. cbn [rv_dec r6_spans] in Es.
  destruct (rc6_gap b m freq Hm Hf into r1 gap Es Hg) as (t & Et).
  destruct (N.eq_dec (match spans_get (spans_of m freq rc6_pulses) lead with Some k => k | None => 0 end) 5) as [D5|D5].
  - assert (G5 : spans_get (spans_of m freq rc6_pulses) lead = Some 5)
      by (destruct (spans_get (spans_of m freq rc6_pulses) lead); [f_equal; exact D5|discriminate D5]).
    destruct (rc6_frame_run_at b m freq Hm Hf into Hlo Hu toggle (2 ^ 8 * a + c) t (rv_prev r1) lead noms n acts Hw En G5 HF) as (j & Ej).
    assert (Eq : run_edges (D := rc6_dec b) into r1 ((true, gap) :: (false, lead) :: acts) =
      Val (@mkRecv (rc6_dec b) (mkRc6Dec R6Idle 0 0 toggle 0 (spans_of m freq rc6_pulses)) (rv_prev r1),
        repeat (ROk None) (S j) ++ [ROk (Some (into (rc6_from_bits (2 ^ 8 * a + c) toggle)))])).
    { rewrite run_edges_cons. rewrite Et. cbn [bind]. rewrite Ej. reflexivity. }
    pose proof (run_edges_length _ _ _ _ _ Eq) as L. rewrite app_length, repeat_length in L. cbn [length] in L.
    assert (Lj : j = length acts) by (unfold edge in *; lia). rewrite Lj in Eq.
    rewrite rc6_from_bits_word in Eq by auto.
    assert (F : field (2 ^ 8 * a + c) 8 8 = a /\ field (2 ^ 8 * a + c) 0 8 = c).
    { unfold field. change (2 ^ 0) with 1. change (2 ^ 8) with 256 in *. clear -Ha Hc. split.
      - rewrite N.mul_comm, N.div_add_l by lia. rewrite (N.div_small c) by lia. rewrite N.add_0_r. apply N.mod_small; lia.
      - rewrite N.div_1_r, N.add_comm, N.mul_comm, N.mod_add by lia. apply N.mod_small; lia. }
    destruct F as [F1 F2]. rewrite F1, F2 in Eq.
    eexists. eexists. split; [|split].
    + apply run_edges_app_val with (r1 := r1); [exact E1|]. exact Eq.
    + reflexivity.
    + intros Q. exfalso. apply Q. apply (rc6_read_iff m freq lead Hm Hhi), G5.
  - assert (G5 : spans_get (spans_of m freq rc6_pulses) lead <> Some 5) by (intros Q; rewrite Q in D5; apply D5; reflexivity).
    destruct (rc6_noms _ _ _ _ En) as (B1 & B2 & _).
    pose proof (alt_near _ _ _ _ _ HF _ B2) as Ba.
    assert (Ha5 : Forall (fun d => spans_get (spans_of m freq rc6_pulses) d <> Some 5) (lead :: map snd acts)).
    { apply Forall_cons; [exact G5|]. clear -HF B1 Hm Hf Hlo Hhi Hu.
      revert B1. induction HF as [|[e k] [e' d] noms acts H F IH]; intros B; [constructor|].
      apply Forall_cons_iff in B. destruct B as (Bk & B). cbn [snd map] in *. constructor; [|apply IH, B].
      destruct H as (_ & H). cbn [snd] in H.
      rewrite (rc6_ticks b m freq Hm Hf Hlo Hu k d) by (auto; lia). intros Q. injection Q as Q. lia. }
    destruct (rc6_deaf b C into (spans_of m freq rc6_pulses) Hu ltac:(apply Nat.le_refl) (lead :: map snd acts) Ha5 false 0 0 t 0 (rv_prev r1) eq_refl) as (r & R).
    cbn [length alternating negb] in R. rewrite <- (alt_alternating acts true Ba), map_length in R.
    assert (Eq : run_edges (D := rc6_dec b) into r1 ((true, gap) :: (false, lead) :: acts) =
      Val (r, repeat (ROk None) (S (length acts)) ++ [ROk None])).
    { rewrite run_edges_cons. rewrite Et. cbn [bind]. rewrite R. cbn [bind]. do 2 f_equal.
      apply (repeat_cons (S (length acts)) (ROk None : outcome C)). }
    exists r, (ROk None). split; [|split].
    + apply run_edges_app_val with (r1 := r1); [exact E1|]. exact Eq.
    + intros Q. exfalso. apply G5. apply (rc6_read_iff m freq lead Hm Hhi), Q.
    + reflexivity.
Qed.
Print Assumptions C22_leader_partial.

(** At 40 kHz six units are 106 ticks; leaders from 99 ticks on are read, 95 ticks (as in
    [C22_rc6_frame_refuted]) are within 12 percent but not read; nor is a leader that is too long. *)
Example C22_leader_example :
  rc6_leader_read 40000 99 /\ rc6_leader_read 40000 118 /\
  rc6_leader_full 40000 95 /\ ~ rc6_leader_read 40000 98 /\ ~ rc6_leader_read 40000 119 /\
  exists n noms, level_edges false 0 (rc6_wave true (bits_msb 16 (2 ^ 8 * 4 + 12))) = (true, n) :: (false, 6) :: noms /\
    Forall2 (biphase_near 40000 444 rc6_tol) noms (jitter (fun n => 19 * n) noms) /\ longer 40000 2664 12 1000 /\
    2253 <= 40000 /\ (forall m, exact_rate m 40000).
Proof.
  unfold rc6_leader_read, rc6_leader_full, near, longer, guaranteed, nominal.
  split; [vm_compute; intuition discriminate|]. split; [vm_compute; intuition discriminate|].
  split; [vm_compute; intuition discriminate|]. split; [vm_compute; intuition discriminate|]. split; [vm_compute; intuition discriminate|].
  eexists. eexists. split; [vm_compute; reflexivity|]. split; [|split; [vm_compute; reflexivity|split; [lia|intros m; apply exact_low; lia]]].
  vm_compute. repeat (apply Forall2_cons; [repeat split; discriminate|]). apply Forall2_nil.
Qed.
