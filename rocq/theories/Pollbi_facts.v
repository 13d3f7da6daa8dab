(** * Series of RC5 and RC6 transmissions, sampled *)
From Coq Require Import NArith ZArith List Bool Lia ZifyBool ZifyNat ZifyN.
From Verif Require Import Machine Time Decoder Rc5 Rc6 Receiver Spec Bits Time_facts Run_facts Rc5_facts Rc6_facts
  Spec_receiver Receiver_facts Cross_facts Traffic_facts Spec_cross Spec_phys Phys_facts Poll_facts State_facts Keys_facts Pollkeys_facts.
Import ListNotations.
Open Scope N_scope.

Lemma pow2_8 b : 8 <= usize_bits b -> 256 <= 2 ^ usize_bits b.
Proof. intros H. change 256 with (2 ^ 8). apply N.pow_le_mono_r; [discriminate|exact H]. Qed.

(** The closing edge of a last mark changes nothing. *)
Lemma rc5_fall b (C : Type) (into : rc5_command -> C) ss pv d : length ss = 8%nat -> 8 <= usize_bits b ->
  exists ck, event_edge (D := rc5_dec b) into (mkRecv (D := rc5_dec b) (mkRc5Dec R5Idle 0 0 ss) pv) d false =
    Val (mkRecv (D := rc5_dec b) (mkRc5Dec R5Idle 0 ck ss) pv, ROk None).
Proof.
  intros Hl Hu. unfold event_edge. cbn [d_event rc5_dec rv_dec]. unfold rc5_event. cbn [r5_spans r5_clock r5_state r5_bitbuf].
  destruct (spans_get ss d) as [k|] eqn:Ek.
  - apply spans_get_below in Ek. rewrite Hl in Ek. change (N.of_nat 8) with 8 in Ek.
    pose proof (pow2_8 b Hu). rewrite (uadd_small _ _ k 1) by lia. cbn [bind]. rewrite uadd_small by lia. cbn [bind r5_state r5_clock r5_bitbuf r5_spans rc5_transition].
    eexists. reflexivity.
  - cbn [bind rc5_reset r5_state r5_clock r5_bitbuf r5_spans rc5_transition]. eexists. reflexivity.
Qed.

Lemma rc6_fall b (C : Type) (into : rc6_command -> C) ss pv tg d : length ss = 8%nat -> 8 <= usize_bits b ->
  exists ck, event_edge (D := rc6_dec b) into (mkRecv (D := rc6_dec b) (mkRc6Dec R6Idle 0 0 tg 0 ss) pv) d false =
    Val (mkRecv (D := rc6_dec b) (mkRc6Dec R6Idle 0 0 tg ck ss) pv, ROk None).
Proof.
  intros Hl Hu. unfold event_edge. cbn [d_event rc6_dec rv_dec]. unfold rc6_event. cbn [r6_spans r6_clock r6_state r6_data r6_headerdata r6_toggle].
  destruct (spans_get ss d) as [k|] eqn:Ek.
  - apply spans_get_below in Ek. rewrite Hl in Ek. change (N.of_nat 8) with 8 in Ek.
    pose proof (pow2_8 b Hu). rewrite (uadd_small _ _ k 1) by lia. cbn [bind]. rewrite uadd_small by lia. cbn [bind].
    eexists. reflexivity.
  - cbn [bind]. eexists. reflexivity.
Qed.

(** One transmission after a silence, whatever the receiver did before. *)
Definition bi_ended (P : list edge -> Prop) (evs : list edge) : Prop :=
  P evs \/ exists body d, evs = body ++ [(false, d)] /\ P body.

Lemma rc5_one b m freq (C : Type) (into : rc5_command -> C) w (r1 : receiver (rc5_dec b)) g evs :
  timebase m freq -> 1125 <= freq -> freq < 2 ^ 32 -> 8 <= usize_bits b -> w < 2 ^ 14 -> N.testbit w 13 = true ->
  r5_spans (rv_dec r1) = spans_of m freq rc5_pulses -> longer freq 1778 10 g ->
  bi_ended (fun body => rc5_edges freq w g ((true, g) :: body)) evs ->
  exists r os, run_edges (D := rc5_dec b) into r1 ((true, g) :: evs) = Val (r, os) /\ r5_spans (rv_dec r) = spans_of m freq rc5_pulses /\
    commands os = [into (rc5_unpack w)] /\ no_error os.
Proof.
  intros Hm Hlo Hf Hu Hw H13 Es Hg H.
  assert (G : forall body, rc5_edges freq w g ((true, g) :: body) ->
    exists pv os, run_edges (D := rc5_dec b) into r1 ((true, g) :: body) = Val (mkRecv (D := rc5_dec b) (mkRc5Dec R5Idle 0 0 (spans_of m freq rc5_pulses)) pv, os) /\
      commands os = [into (rc5_unpack w)] /\ no_error os).
  { intros body Hb. destruct (rc5_decode b m freq Hm Hf into Hlo Hu w r1 [] r1 [] g _ Hw H13 Es eq_refl Hg Hb) as (pv & E).
    cbn [app] in E. exists pv. eexists. split; [exact E|]. split.
    - etransitivity; [apply commands_app|]. rewrite commands_none. reflexivity.
    - apply no_error_app; [apply no_error_none|repeat constructor; eauto]. }
  destruct H as [H|(body & d & -> & H)].
  - destruct (G _ H) as (pv & os & E & K). do 2 eexists. split; [exact E|]. split; [reflexivity|exact K].
  - destruct (G _ H) as (pv & os & E & Kc & Ke).
    destruct (rc5_fall b C into (spans_of m freq rc5_pulses) pv d) as (ck & Ef); [unfold spans_of; rewrite map_length; reflexivity|exact Hu|].
    eexists. exists (os ++ [ROk None]). change ((true, g) :: body ++ [(false, d)]) with (((true, g) :: body) ++ [(false, d)]).
    split; [eapply run_edges_app_val; [exact E|]; cbn [run_edges]; rewrite Ef; reflexivity|]. split; [reflexivity|]. split.
    + etransitivity; [apply commands_app|]. rewrite Kc. reflexivity.
    + apply no_error_app; [exact Ke|repeat constructor; eauto].
Qed.

Lemma rc6_one b m freq (C : Type) (into : rc6_command -> C) tg w (r1 : receiver (rc6_dec b)) g evs :
  timebase m freq -> 4130 <= freq -> freq < 2 ^ 32 -> 8 <= usize_bits b -> w < 2 ^ 16 ->
  r6_spans (rv_dec r1) = spans_of m freq rc6_pulses -> longer freq 2664 12 g ->
  bi_ended (fun body => rc6_edges freq (rc6_leader_safe freq) tg w g ((true, g) :: body)) evs ->
  exists r os, run_edges (D := rc6_dec b) into r1 ((true, g) :: evs) = Val (r, os) /\ r6_spans (rv_dec r) = spans_of m freq rc6_pulses /\
    commands os = [into (rc6_from_bits w tg)] /\ no_error os.
Proof.
  intros Hm Hlo Hf Hu Hw Es Hg H.
  assert (G : forall body, rc6_edges freq (rc6_leader_safe freq) tg w g ((true, g) :: body) ->
    exists pv os, run_edges (D := rc6_dec b) into r1 ((true, g) :: body) = Val (mkRecv (D := rc6_dec b) (mkRc6Dec R6Idle 0 0 tg 0 (spans_of m freq rc6_pulses)) pv, os) /\
      commands os = [into (rc6_from_bits w tg)] /\ no_error os).
  { intros body Hb. destruct (rc6_decode b m freq Hm Hf into ltac:(lia) Hu tg w r1 [] r1 [] g _ Hlo Hw Es eq_refl Hg Hb) as (pv & E).
    cbn [app] in E. exists pv. eexists. split; [exact E|]. split.
    - etransitivity; [apply commands_app|]. rewrite commands_none. reflexivity.
    - apply no_error_app; [apply no_error_none|repeat constructor; eauto]. }
  destruct H as [H|(body & d & -> & H)].
  - destruct (G _ H) as (pv & os & E & K). do 2 eexists. split; [exact E|]. split; [reflexivity|exact K].
  - destruct (G _ H) as (pv & os & E & Kc & Ke).
    destruct (rc6_fall b C into (spans_of m freq rc6_pulses) pv tg d) as (ck & Ef); [unfold spans_of; rewrite map_length; reflexivity|exact Hu|].
    eexists. exists (os ++ [ROk None]). change ((true, g) :: body ++ [(false, d)]) with (((true, g) :: body) ++ [(false, d)]).
    split; [eapply run_edges_app_val; [exact E|]; cbn [run_edges]; rewrite Ef; reflexivity|]. split; [reflexivity|]. split.
    + etransitivity; [apply commands_app|]. rewrite Kc. reflexivity.
    + apply no_error_app; [exact Ke|repeat constructor; eauto].
Qed.

(** A series of transmissions of one protocol, each after a silence. *)
Definition series {K} (l : list (K * N * list edge)) : list edge := flat_map (fun y => (true, snd (fst y)) :: snd y) l.

Section Series.
  Variables (P : protocol) (K C : Type) (into : dcmd (p_dec P) -> C) (cmd : K -> dcmd (p_dec P)).
  Variables (Q : receiver (p_dec P) -> Prop) (good : K -> N -> list edge -> Prop) (ok : K -> N -> list edge -> Prop) (clock : N -> N).
  Hypothesis Hmono : forall x g g' evs, ok x g evs -> g <= g' -> ok x g' evs.
  Hypothesis Hone : forall x g evs r, Q r -> ok x g evs ->
    exists r' os, run_edges into r ((true, g) :: evs) = Val (r', os) /\ Q r' /\ commands os = [into (cmd x)] /\ no_error os.
  Hypothesis Hmeas : forall t x g evs, good x g evs -> ok x (clock (t + g) - clock t) (measured clock (t + g) evs).

  Lemma series_run (l : list (K * N * list edge)) : forall r, Q r -> Forall (fun y => ok (fst (fst y)) (snd (fst y)) (snd y)) l ->
    exists r' os, run_edges into r (series l) = Val (r', os) /\ Q r' /\ commands os = map (fun y => into (cmd (fst (fst y)))) l /\ no_error os.
  Proof.
    induction l as [|[[x g] evs] l IH]; intros r Hr Hl; [exists r, []; split; [reflexivity|]; split; [exact Hr|]; split; [reflexivity|constructor]|].
    inversion_clear Hl as [|? ? H1 H2]. cbn [fst snd] in H1.
    destruct (Hone x g evs r Hr H1) as (r1 & os1 & E1 & Q1 & C1 & N1).
    destruct (IH r1 Q1 H2) as (r2 & os2 & E2 & Q2 & C2 & N2).
    exists r2, (os1 ++ os2). split; [|split; [exact Q2|split]].
    - unfold series. cbn [flat_map fst snd]. eapply run_edges_app_val; [exact E1|exact E2].
    - etransitivity; [apply commands_app|]. rewrite C1, C2. reflexivity.
    - apply no_error_app; auto.
  Qed.

  Lemma series_measured (l : list (K * N * list edge)) : forall t, Forall (fun y => good (fst (fst y)) (snd (fst y)) (snd y)) l ->
    exists l', measured clock t (series l) = series l' /\ map (fun y => fst (fst y)) l' = map (fun y => fst (fst y)) l /\
      Forall (fun y => ok (fst (fst y)) (snd (fst y)) (snd y)) l'.
  Proof.
    induction l as [|[[x g] evs] l IH]; intros t Hl; [exists []; repeat split; constructor|].
    inversion_clear Hl as [|? ? H1 H2]. cbn [fst snd] in H1.
    destruct (IH (after (t + g) evs) H2) as (l' & E & M & F).
    exists ((x, clock (t + g) - clock t, measured clock (t + g) evs) :: l'). split; [|split].
    - unfold series. cbn [flat_map fst snd app measured]. rewrite measured_app. cbn [app]. do 2 f_equal. exact E.
    - cbn [map fst]. rewrite M. reflexivity.
    - constructor; [cbn [fst snd]; auto|exact F].
  Qed.

  (** After any history and a silence of [g], not shorter than measured. *)
  Lemma series_seen (l : list (K * N * list edge)) gap fr g r : clock 0 = 0 ->
    Forall (fun y => good (fst (fst y)) (snd (fst y)) (snd y)) l -> series l = (true, gap) :: fr -> clock gap <= g -> Q r ->
    exists r' os, run_edges into r ((true, g) :: measured clock gap fr) = Val (r', os) /\
      commands os = map (fun y => into (cmd (fst (fst y)))) l /\ no_error os.
  Proof.
    intros H0 Hl El Hg Hr. destruct (series_measured l 0 Hl) as (l' & E & M & F).
    rewrite El in E. cbn [measured] in E. rewrite N.add_0_l, H0, N.sub_0_r in E.
    destruct l' as [|[[x g0] evs0] l']; [discriminate|]. unfold series in E. cbn [flat_map fst snd app] in E.
    injection E as Eg Em.
    inversion_clear F as [|? ? F1 F2]. cbn [fst snd] in F1.
    destruct (series_run ((x, g, evs0) :: l') r Hr) as (r' & os & Er & _ & Ec & En).
    { constructor; [cbn [fst snd]; apply (Hmono x g0); [exact F1|lia]|exact F2]. }
    exists r', os. split; [unfold series in Er; cbn [flat_map fst snd app] in Er; rewrite Em; exact Er|]. split; [|exact En].
    rewrite Ec. rewrite <- (map_map (fun y => fst (fst y)) (fun x => into (cmd x)) l), <- M, map_map. reflexivity.
  Qed.
End Series.
