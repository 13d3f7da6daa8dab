(** * Property theorems: transmissions in real time *)
From Coq Require Import NArith ZArith List Bool Lia ZifyBool ZifyNat ZifyN.
From Verif Require Import Machine Time Decoder Nec Rc5 Rc6 Denon Sbp Receiver Spec Bits Codec_facts Time_facts Run_facts
  Spec_receiver Spec_sound Spec_cross Cross_facts Spec_phys Phys_facts Props_decode Traffic_facts Props_receiver Props_traffic Example_facts.
Import ListNotations.
Open Scope N_scope.

(** ** C68: a transmission is decoded whatever the phase of the receiver's clock

    The transmitter may be off by 4 (NEC family) or 3 percent, the receiver's readings
    by less than [j] ticks; the higher [j], the higher the tick rate must be.  For mere
    rounding ([j = 1]) the rates of the crate's examples, 20 kHz and 40 kHz, are covered
    too where they suffice. *)

Definition rate_ok (k : N) (usual : list N) (freq j : N) : Prop :=
  1 <= j /\ (k * (j + 1) <= freq \/ j = 1 /\ In freq usual).

Ltac usual :=
  match goal with
  | [ H : In _ _ |- _ ] => cbn [In] in H; repeat (destruct H as [<- | H]); try contradiction; reflexivity || lia
  end.
Ltac room k :=
  match goal with
  | [ H : rate_ok k _ _ _ |- _ ] =>
      let Hj := fresh in let Hk := fresh in
      destruct H as (Hj & [Hk | (-> & Hk)]);
      [first [apply (slack_guaranteed _ _ _ _ _ k); [exact Hj|lia|lia|exact Hk|vm_compute; discriminate]
             |apply (slack_rate _ _ _ _ _ k); [exact Hj|lia|lia|exact Hk|vm_compute; discriminate]
             |apply (gap_room _ _ _ _ _ k); [exact Hj|exact Hk|lia|vm_compute; discriminate]]
      |usual]
  end.

Section NecFamily.
  Variables (freq G j : N) (clock : N -> N).
  Hypothesis HG : 0 < G.
  Hypothesis Hc : counts freq G j clock.
  Hypothesis Hr : rate_ok 7000 [] freq j.

  Lemma nec_measured t header w gap ps : header = 13500 \/ header = 9000 ->
    real_nec G 4 header w ps -> real_long G (2 * header) gap ->
    exists gap' ps', measured clock t ((true, gap) :: pair_edges ps) = (true, gap') :: pair_edges ps' /\
      nec_frame freq header w ps' /\ longer freq header 7 gap'.
  Proof.
    intros Hh Hf Hl. cbn [measured]. destruct (measured_pairs freq G j clock HG Hc ps (t + gap)) as (ps' & E & R).
    eexists. exists ps'. rewrite E. split; [reflexivity|]. split.
    - eapply (nec_read freq G j clock HG Hc 4); [| | |exact Hf|exact R]; [destruct Hh as [-> | ->]| |]; room 7000.
    - eapply (gap_read freq G j clock HG Hc _ (2 * header)); [|exact Hl]. destruct Hh as [-> | ->]; room 7000.
  Qed.
End NecFamily.

Theorem C68_nec :
  forall b m freq G j clock t0 a c hist gap ps C (into : nec_command -> C),
  timebase m freq -> freq < 2 ^ 32 -> 0 < G -> counts freq G j clock -> rate_ok 7000 [] freq j ->
  a < 2 ^ 8 -> c < 2 ^ 8 ->
  real_nec G 4 13500 (bytes4 a (compl8 a) c (compl8 c)) ps -> real_long G 27000 gap ->
  let signal := measured clock t0 (hist ++ (true, gap) :: pair_edges ps) in
  short signal ->
  exists r0 r os o,
    receiver_new (nec_protocol b m NecStandard) freq = Val r0 /\
    run_edges (D := nec_dec b m NecStandard) into r0 signal =
      Val (r, os ++ o :: repeat (ROk None) 65 ++ [ROk (Some (into (mkNec a c false)))]) /\
    length os = length hist /\ (o = ROk None \/ o = RErr EData).
Proof.
  intros b m freq G j clock t0 a c hist gap ps C into Hm Hf HG Hc Hr Ha Hcc Hfr Hg signal Hs. subst signal.
  rewrite measured_app in *.
  destruct (nec_measured freq G j clock HG Hc Hr (after t0 hist) 13500 _ gap ps (or_introl eq_refl) Hfr Hg) as (g' & ps' & E & F' & G').
  rewrite E in *.
  destruct (C18_nec_frame b m freq a c (measured clock t0 hist) g' ps' C into) as (r0 & r & os & o & E0 & E1 & L & Ho); auto.
  { destruct Hr as (Hj & [Hk|[_ []]]). lia. }
  exists r0, r, os, o. pose proof (eq_trans L (measured_length clock hist t0)) as L'. auto.
Qed.
Print Assumptions C68_nec.

Theorem C68_nec16 :
  forall b m freq G j clock t0 a c hist gap ps C (into : nec16_command -> C),
  timebase m freq -> freq < 2 ^ 32 -> 0 < G -> counts freq G j clock -> rate_ok 7000 [] freq j ->
  a < 2 ^ 16 -> c < 2 ^ 8 ->
  real_nec G 4 13500 (bytes4 (a mod 2 ^ 8) (a / 2 ^ 8) c (compl8 c)) ps -> real_long G 27000 gap ->
  let signal := measured clock t0 (hist ++ (true, gap) :: pair_edges ps) in
  short signal ->
  exists r0 r os o,
    receiver_new (nec_protocol b m Nec16Bit) freq = Val r0 /\
    run_edges (D := nec_dec b m Nec16Bit) into r0 signal =
      Val (r, os ++ o :: repeat (ROk None) 65 ++ [ROk (Some (into (mkNec16 a c false)))]) /\
    length os = length hist /\ (o = ROk None \/ o = RErr EData).
Proof.
  intros b m freq G j clock t0 a c hist gap ps C into Hm Hf HG Hc Hr Ha Hcc Hfr Hg signal Hs. subst signal.
  rewrite measured_app in *.
  destruct (nec_measured freq G j clock HG Hc Hr (after t0 hist) 13500 _ gap ps (or_introl eq_refl) Hfr Hg) as (g' & ps' & E & F' & G').
  rewrite E in *.
  destruct (C19_nec16_frame b m freq a c (measured clock t0 hist) g' ps' C into) as (r0 & r & os & o & E0 & E1 & L & Ho); auto.
  { destruct Hr as (Hj & [Hk|[_ []]]). lia. }
  exists r0, r, os, o. pose proof (eq_trans L (measured_length clock hist t0)) as L'. auto.
Qed.
Print Assumptions C68_nec16.

Theorem C68_samsung :
  forall b m freq G j clock t0 a c hist gap ps C (into : samsung_command -> C),
  timebase m freq -> freq < 2 ^ 32 -> 0 < G -> counts freq G j clock -> rate_ok 7000 [] freq j ->
  a < 2 ^ 8 -> c < 2 ^ 8 ->
  real_nec G 4 9000 (bytes4 a a c (compl8 c)) ps -> real_long G 18000 gap ->
  let signal := measured clock t0 (hist ++ (true, gap) :: pair_edges ps) in
  short signal ->
  exists r0 r os o,
    receiver_new (nec_protocol b m NecSamsung) freq = Val r0 /\
    run_edges (D := nec_dec b m NecSamsung) into r0 signal =
      Val (r, os ++ o :: repeat (ROk None) 65 ++ [ROk (Some (into (mkSamsung a c false)))]) /\
    length os = length hist /\ (o = ROk None \/ o = RErr EData).
Proof.
  intros b m freq G j clock t0 a c hist gap ps C into Hm Hf HG Hc Hr Ha Hcc Hfr Hg signal Hs. subst signal.
  rewrite measured_app in *.
  destruct (nec_measured freq G j clock HG Hc Hr (after t0 hist) 9000 _ gap ps (or_intror eq_refl) Hfr Hg) as (g' & ps' & E & F' & G').
  rewrite E in *.
  destruct (C19_samsung_frame b m freq a c (measured clock t0 hist) g' ps' C into) as (r0 & r & os & o & E0 & E1 & L & Ho); auto.
  { destruct Hr as (Hj & [Hk|[_ []]]). lia. }
  exists r0, r, os, o. pose proof (eq_trans L (measured_length clock hist t0)) as L'. auto.
Qed.
Print Assumptions C68_samsung.

Theorem C68_sbp :
  forall b m freq G j clock t0 a c hist gap ps C (into : sbp_command -> C),
  timebase m freq -> freq < 2 ^ 32 -> 0 < G -> counts freq G j clock -> rate_ok 20500 [20000; 40000] freq j ->
  a < 2 ^ 16 -> c < 2 ^ 20 ->
  real_sbp G 3 a c ps -> real_long G 18000 gap ->
  let signal := measured clock t0 (hist ++ (true, gap) :: pair_edges ps) in
  short signal ->
  exists r0 r os o,
    receiver_new (sbp_protocol b m) freq = Val r0 /\
    run_edges (D := sbp_dec b m) into r0 signal =
      Val (r, os ++ o :: repeat (ROk None) 75 ++
        [ROk (Some (into (mkSbp a (field c 4 8) (field c 12 8 =? compl8 (field c 4 8)))))]) /\
    length os = length hist /\ (o = ROk None \/ o = RErr EData \/ o = RErr EAddress).
Proof.
  intros b m freq G j clock t0 a c hist gap ps C into Hm Hf HG Hc Hr Ha Hcc Hfr Hg signal Hs. subst signal.
  rewrite measured_app in *. cbn [measured] in *.
  destruct (measured_pairs freq G j clock HG Hc ps (after t0 hist + gap)) as (ps' & E & R). rewrite E in *.
  destruct (C20_sbp_frame b m freq a c (measured clock t0 hist) (clock (after t0 hist + gap) - clock (after t0 hist)) ps' C into)
    as (r0 & r & os & o & E0 & E1 & L & Ho); auto.
  { destruct Hr as (Hj & [Hk|[_ Hk]]); [lia|usual]. }
  { eapply (sbp_read freq G j clock HG Hc 3); [| | | |exact Hfr|exact R]; room 20500. }
  { eapply (gap_read freq G j clock HG Hc _ 18000); [|exact Hg]. room 20500. }
  exists r0, r, os, o. pose proof (eq_trans L (measured_length clock hist t0)) as L'. auto.
Qed.
Print Assumptions C68_sbp.

Theorem C68_rc5 :
  forall b m freq G j clock t0 w hist gap evs C (into : rc5_command -> C) r0 r1 os,
  timebase m freq -> freq < 2 ^ 32 -> 8 <= usize_bits b -> 0 < G -> counts freq G j clock -> rate_ok 15000 [20000] freq j ->
  w < 2 ^ 14 -> N.testbit w 13 = true ->
  real_rc5 G 3 w evs -> real_long G 3000 gap ->
  receiver_new (rc5_protocol b m) freq = Val r0 ->
  run_edges (D := rc5_dec b) into r0 (measured clock t0 hist) = Val (r1, os) ->
  exists r,
    run_edges (D := rc5_dec b) into r0 (measured clock t0 (hist ++ (true, gap) :: evs)) =
      Val (r, os ++ repeat (ROk None) (length evs) ++
        [ROk (Some (into (mkRc5 (field w 6 5) (field w 0 6) (field w 12 2) (negb (field w 11 1 =? 0)))))]).
Proof.
  intros b m freq G j clock t0 w hist gap evs C into r0 r1 os Hm Hf Hu HG Hc Hr Hw H13 Hfr Hg E0 E1.
  rewrite measured_app. cbn [measured]. destruct Hfr as (n & noms & El & F).
  set (gap' := clock (after t0 hist + gap) - clock (after t0 hist)).
  destruct (C21_rc5_frame b m freq w (measured clock t0 hist) gap' ((true, gap') :: measured clock (after t0 hist + gap) evs) C into r0 r1 os)
    as (r & E); auto.
  { destruct Hr as (Hj & [Hk|[_ Hk]]); [lia|usual]. }
  { exists n, noms, (measured clock (after t0 hist + gap) evs). split; [exact El|]. split; [reflexivity|].
    eapply (units_read freq G j clock HG Hc 3); [|exact F]. intros nom Hn. destruct (rc5_noms w n noms El) as [B _].
    rewrite Forall_forall in B. destruct (B nom Hn) as [B1 B2].
    assert (K : snd nom = 1 \/ snd nom = 2) by lia. unfold rc5_tol. destruct K as [-> | ->]; cbn [N.eqb Pos.eqb N.mul Pos.mul]; room 15000. }
  { eapply (gap_read freq G j clock HG Hc _ 3000); [|exact Hg]. room 15000. }
  exists r. cbn [length] in E. rewrite measured_length, Nat.sub_succ, Nat.sub_0_r in E. exact E.
Qed.
Print Assumptions C68_rc5.

Lemma rc6_lead tg data n noms : level_edges false 0 (rc6_wave tg (bits_msb 16 data)) = (true, n) :: noms ->
  exists noms', noms = (false, 6) :: noms'.
Proof.
  intros E. unfold rc6_wave in E. set (ds := bits_msb 16 data) in E. clearbody ds.
  destruct tg; cbn [app level_edges Bool.eqb rc6_half N.add] in E; injection E as _ <-; eexists; reflexivity.
Qed.

Lemma rc6_measured_at freq G j clock (HG : 0 < G) (Hc : counts freq G j clock) (Hr : rate_ok 30000 [40000] freq j) t tg data gap evs :
  real_rc6 G 3 tg data evs -> rc6_edges freq (rc6_leader_safe freq) tg data gap ((true, gap) :: measured clock t evs).
Proof.
  intros (n & noms & El & F).
  destruct (rc6_lead _ _ _ _ El) as (noms' & ->). inversion F as [|x0 [l D] y0 evs' F1 F2]; subst. destruct F1 as [F1 F1']. cbn [fst snd] in *. subst l.
  cbn [measured]. assert (Hlo : 37913 <= freq) by (destruct Hr as (Hj & [Hk|[_ Hk]]); [lia|usual]).
  exists n, noms', (clock (t + D) - clock t), (measured clock (t + D) evs'). split; [exact El|]. split; [reflexivity|]. split.
  - assert (K : near freq 2664 6 (clock (t + D) - clock t)).
    { apply (read_near freq G j clock HG Hc 3); [|exact F1']. room 30000. }
    destruct K as [K1 K2]. split; [split|].
    + etransitivity; [exact K1|]. apply N.mul_le_mono_r. unfold guaranteed. destruct (freq <=? 318000); lia.
    + etransitivity; [|exact K2]. apply N.mul_le_mono_r. unfold guaranteed. destruct (freq <=? 318000); lia.
    + unfold rc6_leader_short. rewrite (proj2 (N.ltb_ge freq 15391)), (proj2 (N.ltb_ge freq 37913)) by lia. exact K2.
  - eapply (units_read freq G j clock HG Hc 3); [|exact F2]. intros nom Hn. destruct (rc6_noms tg _ n noms' El) as [B _].
    rewrite Forall_forall in B. destruct (B nom Hn) as [B1 B2].
    assert (K : snd nom = 1 \/ snd nom = 2 \/ snd nom = 3) by lia. unfold rc6_tol.
    destruct K as [-> | [-> | ->]]; cbn [N.eqb Pos.eqb N.mul Pos.mul]; room 30000.
Qed.

Theorem C68_rc6 :
  forall b m freq G j clock t0 a c toggle hist gap evs C (into : rc6_command -> C) r0 r1 os,
  timebase m freq -> freq < 2 ^ 32 -> 8 <= usize_bits b -> 0 < G -> counts freq G j clock -> rate_ok 30000 [40000] freq j ->
  a < 2 ^ 8 -> c < 2 ^ 8 ->
  real_rc6 G 3 toggle (2 ^ 8 * a + c) evs -> real_long G 4000 gap ->
  receiver_new (rc6_protocol b m) freq = Val r0 ->
  run_edges (D := rc6_dec b) into r0 (measured clock t0 hist) = Val (r1, os) ->
  exists r,
    run_edges (D := rc6_dec b) into r0 (measured clock t0 (hist ++ (true, gap) :: evs)) =
      Val (r, os ++ repeat (ROk None) (length evs) ++ [ROk (Some (into (mkRc6 a c toggle)))]).
Proof.
  intros b m freq G j clock t0 a c toggle hist gap evs C into r0 r1 os Hm Hf Hu HG Hc Hr Ha Hcc Hfr Hg E0 E1.
  rewrite measured_app. cbn [measured].
  set (gap' := clock (after t0 hist + gap) - clock (after t0 hist)).
  destruct (C22_rc6_frame_partial b m freq a c toggle (measured clock t0 hist) gap'
     ((true, gap') :: measured clock (after t0 hist + gap) evs) C into r0 r1 os) as (r & E); auto.
  { destruct Hr as (Hj & [Hk|[_ Hk]]); [lia|usual]. }
  { apply (rc6_measured_at freq G j clock HG Hc Hr _ _ _ _ _ Hfr). }
  { eapply (gap_read freq G j clock HG Hc _ 4000); [|exact Hg]. room 30000. }
  exists r. cbn [length] in E. rewrite measured_length, Nat.sub_succ, Nat.sub_0_r in E. exact E.
Qed.
Print Assumptions C68_rc6.

(** Denon with the restrictions of C23: the last bit is lost, and the history must not have
    contained anything like the start of a frame.  Both limits are part of the property. *)
Theorem C68_denon :
  forall b m freq G j clock t0 w hist gap ps C (into : denon_command -> C),
  timebase m freq -> freq < 2 ^ 32 -> 0 < G -> counts freq G j clock -> rate_ok 21000 [40000] freq j ->
  w < 2 ^ 48 ->
  real_denon G 3 w ps -> real_long G 10000 gap ->
  let signal := measured clock t0 (hist ++ (true, gap) :: pair_edges ps) in
  short signal ->
  (forall d, In d (periods (measured clock t0 hist)) -> ~ near freq 5000 9 d) ->
  exists r0 r,
    receiver_new (denon_protocol b m) freq = Val r0 /\
    run_edges (D := denon_dec b m) into r0 signal =
      Val (r, repeat (ROk None) (length hist) ++ repeat (ROk None) 98 ++ [ROk (Some (into (mkDenon (w mod 2 ^ 47))))]).
Proof.
  intros b m freq G j clock t0 w hist gap ps C into Hm Hf HG Hc Hr Hw Hfr Hg signal Hs Hq. subst signal.
  rewrite measured_app in *. cbn [measured] in *.
  destruct (measured_pairs freq G j clock HG Hc ps (after t0 hist + gap)) as (ps' & E & R). rewrite E in *.
  destruct (C23_denon_frame_partial b m freq w (measured clock t0 hist) (clock (after t0 hist + gap) - clock (after t0 hist)) ps' C into)
    as (r0 & r & os & old & E0 & E1 & L & _ & Ho); auto.
  { destruct Hr as (Hj & [Hk|[_ Hk]]); [lia|usual]. }
  { eapply (denon_read freq G j clock HG Hc 3); [| | |exact Hfr|exact R]; room 21000. }
  { eapply (gap_read freq G j clock HG Hc _ 10000); [|exact Hg]. room 21000. }
  destruct (Ho Hq) as [-> ->]. exists r0, r. split; [exact E0|]. rewrite N.lor_0_l in E1. etransitivity; [exact E1|].
  do 4 f_equal. apply measured_length.
Qed.
Print Assumptions C68_denon.

(** The clocks meant: a counter of [freq] ticks per second, in any phase, ... *)
Theorem C68_clock_any_phase :
  forall freq G phase, 0 < G -> counts freq G 1 (fun t => (t * freq + phase) / G).
Proof.
  intros freq G phase HG s t Hst. 
  pose proof (N.div_mod (s * freq + phase) G ltac:(lia)) as Es. pose proof (N.mod_lt (s * freq + phase) G ltac:(lia)) as Ls.
  pose proof (N.div_mod (t * freq + phase) G ltac:(lia)) as Et. pose proof (N.mod_lt (t * freq + phase) G ltac:(lia)) as Lt.
  assert (M : (s * freq + phase) / G <= (t * freq + phase) / G).
  { apply N.div_le_mono; [lia|]. apply N.add_le_mono_r, N.mul_le_mono_r, Hst. }
  split; [exact M|]. rewrite !N.mul_sub_distr_r. 
  set (qs := (s * freq + phase) / G) in *. set (qt := (t * freq + phase) / G) in *.
  apply N.mul_le_mono_r with (p := G) in M. apply N.mul_le_mono_r with (p := freq) in Hst.
  rewrite (N.mul_comm G qs) in Es. rewrite (N.mul_comm G qt) in Et. rewrite N.mul_1_l.
  set (A := qs * G) in *. set (B := qt * G) in *. set (S := s * freq) in *. set (T := t * freq) in *.
  set (rs := (S + phase) mod G) in *. set (rt := (T + phase) mod G) in *. clearbody A B S T rs rt. clear qs qt. lia.
Qed.
Print Assumptions C68_clock_any_phase.

(** ... also when it is read up to [late] ticks late. *)
Theorem C68_clock_late :
  forall freq G j late clock read, 0 < G -> counts freq G j clock ->
  (forall s t, s <= t -> read s <= read t) -> (forall t, clock t <= read t /\ read t <= clock t + late) ->
  counts freq G (j + late) read.
Proof.
  intros freq G j late clock read HG Hc Hm Hl s t Hst. destruct (Hc s t Hst) as (H1 & H2 & H3). split; [apply Hm, Hst|].
  destruct (Hl s) as [L1 L2]. destruct (Hl t) as [L3 L4]. specialize (Hm s t Hst).
  assert (A : read t - read s <= clock t - clock s + late) by lia.
  assert (B : clock t - clock s <= read t - read s + late) by lia.
  apply N.mul_le_mono_r with (p := G) in A. apply N.mul_le_mono_r with (p := G) in B.
  rewrite N.mul_add_distr_r in A, B |- *. lia.
Qed.
Print Assumptions C68_clock_late.

(** Series of transmissions of different protocols: every component of a multi receiver hears
    exactly its own (C67), in real time, if marks are within 3 percent as well. *)
Section Series.
  Variables (freq G j : N) (clock : N -> N).
  Hypothesis HG : 0 < G.
  Hypothesis Hc : counts freq G j clock.
  Hypothesis Hr : rate_ok 30000 [40000] freq j.

  Lemma rc5_measured t w gap evs : real_rc5 G 3 w evs -> rc5_edges freq w gap ((true, gap) :: measured clock t evs).
  Proof.
    intros (n & noms & El & F). exists n, noms, (measured clock t evs). split; [exact El|]. split; [reflexivity|].
    eapply (units_read freq G j clock HG Hc 3); [|exact F]. intros nom Hn. destruct (rc5_noms w n noms El) as [B _].
    rewrite Forall_forall in B. destruct (B nom Hn) as [B1 B2].
    assert (K : snd nom = 1 \/ snd nom = 2) by lia. unfold rc5_tol. destruct K as [-> | ->]; cbn [N.eqb Pos.eqb N.mul Pos.mul]; room 30000.
  Qed.

  Lemma rc6_measured t tg data gap evs : real_rc6 G 3 tg data evs ->
    rc6_edges freq (rc6_leader_safe freq) tg data gap ((true, gap) :: measured clock t evs).
  Proof.
    apply (rc6_measured_at freq G j clock HG Hc). destruct Hr as (Hj & [Hk|Hk]); (split; [exact Hj|]); [left; lia|right; exact Hk].
  Qed.

  Lemma sent_measured t x evs : real_sent G 3 x evs -> sent freq x (measured clock t evs).
  Proof.
    destruct x; cbn [real_sent sent].
    - intros (Ha & Hcc & ps & -> & Hf & Hmk). split; [exact Ha|]. split; [exact Hcc|].
      destruct (measured_pairs freq G j clock HG Hc ps t) as (ps' & E & R). exists ps'. split; [exact E|]. split.
      + eapply (nec_read freq G j clock HG Hc 3); [| | |exact Hf|exact R]; room 30000.
      + eapply (marks_read freq G j clock HG Hc 3); [| |exact Hmk|exact R]; room 30000.
    - intros (Ha & Hcc & ps & -> & Hf & Hmk). split; [exact Ha|]. split; [exact Hcc|].
      destruct (measured_pairs freq G j clock HG Hc ps t) as (ps' & E & R). exists ps'. split; [exact E|]. split.
      + eapply (nec_read freq G j clock HG Hc 3); [| | |exact Hf|exact R]; room 30000.
      + eapply (marks_read freq G j clock HG Hc 3); [| |exact Hmk|exact R]; room 30000.
    - intros (Hw & ps & -> & Hf & Hmk). split; [exact Hw|].
      destruct (measured_pairs freq G j clock HG Hc ps t) as (ps' & E & R). exists ps'. split; [exact E|]. split.
      + eapply (nec_read freq G j clock HG Hc 3); [| | |exact Hf|exact R]; room 30000.
      + eapply (marks_read freq G j clock HG Hc 3); [| |exact Hmk|exact R]; room 30000.
    - intros (Ha & Hcc & ps & -> & Hf & Hmk). split; [exact Ha|]. split; [exact Hcc|].
      destruct (measured_pairs freq G j clock HG Hc ps t) as (ps' & E & R). exists ps'. split; [exact E|]. split.
      + eapply (nec_read freq G j clock HG Hc 3); [| | |exact Hf|exact R]; room 30000.
      + eapply (marks_read freq G j clock HG Hc 3); [| |exact Hmk|exact R]; room 30000.
    - intros (Ha & Hcc & ps & -> & Hf & Hmk). split; [exact Ha|]. split; [exact Hcc|].
      destruct (measured_pairs freq G j clock HG Hc ps t) as (ps' & E & R). exists ps'. split; [exact E|]. split.
      + eapply (sbp_read freq G j clock HG Hc 3); [| | | |exact Hf|exact R]; room 30000.
      + eapply (marks_read freq G j clock HG Hc 3); [| |exact Hmk|exact R]; room 30000.
    - intros (Hw & ps & -> & Hf & Hmk). split; [exact Hw|].
      destruct (measured_pairs freq G j clock HG Hc ps t) as (ps' & E & R). exists ps'. split; [exact E|]. split.
      + eapply (denon_read freq G j clock HG Hc 3); [| | |exact Hf|exact R]; room 30000.
      + eapply (marks_read freq G j clock HG Hc 3); [| |exact Hmk|exact R]; room 30000.
    - intros (Hw & H13 & Hf). split; [exact Hw|]. split; [exact H13|]. exists 0. apply rc5_measured, Hf.
    - intros (Ha & Hcc & Hf). split; [exact Ha|]. split; [exact Hcc|]. exists 0. apply rc6_measured, Hf.
  Qed.

  Lemma ended_measured t x evs : real_ended G 3 x evs -> ended freq (end_mark x) (sent freq x) (measured clock t evs).
  Proof.
    intros [H|(body & D & -> & H & Hd)]; [left; apply sent_measured, H|right].
    rewrite measured_app. cbn [measured]. eexists _, _. split; [reflexivity|]. split; [apply sent_measured, H|].
    apply (read_near freq G j clock HG Hc 3); [|exact Hd]. destruct x; cbn [end_mark]; room 30000.
  Qed.

  Lemma traffic_measured l : real_traffic G 3 l -> forall t, exists l',
    measured clock t (on_air l) = on_air l' /\ map (fun x => fst (fst x)) l' = map (fun x => fst (fst x)) l /\ traffic freq l'.
  Proof.
    induction 1 as [|[[x gap] evs] l [Hx Hg] Hl IH]; intros t.
    - exists []. repeat split. constructor.
    - cbn [fst snd] in *. destruct (IH (after (t + gap) evs)) as (l' & E & Em & Ht).
      exists ((x, clock (t + gap) - clock t, measured clock (t + gap) evs) :: l').
      unfold on_air in *. cbn [flat_map fst snd app measured map]. rewrite measured_app, E, Em.
      split; [reflexivity|]. split; [reflexivity|]. constructor; [|exact Ht]. cbn [fst snd].
      split; [apply ended_measured, Hx|]. eapply (gap_read freq G j clock HG Hc _ 20000); [|exact Hg]. room 30000.
  Qed.
End Series.

Theorem C68_traffic :
  forall ps freq G j clock t0 ss ss' hist l rows k p heard,
  freq < 2 ^ 32 -> 0 < G -> counts freq G j clock -> rate_ok 30000 [40000] freq j ->
  real_traffic G 3 l ->
  let signal := measured clock t0 (hist ++ on_air l) in
  short signal ->
  multi_make ps freq = Val ss -> run_multi ss signal = Val (ss', rows) ->
  nth_error ps k = Some p -> hears freq p heard ->
  column k (skipn (length hist) rows) = flat_map (fun x => heard (fst (fst x))) l.
Proof.
  intros ps freq G j clock t0 ss ss' hist l rows k p heard Hf HG Hc Hr Ht signal Hs Em Er Hk Hh. subst signal.
  rewrite measured_app in *. destruct (traffic_measured freq G j clock HG Hc Hr l Ht (after t0 hist)) as (l' & E & Em' & Ht').
  rewrite E in *. rewrite <- (measured_length clock hist t0).
  assert (Hlo : 20000 <= freq) by (destruct Hr as (Hj & [Hk'|[_ Hk']]); [lia|usual]).
  etransitivity; [apply (C67_multi ps freq ss ss' (measured clock t0 hist) l' rows k p heard); auto|].
  assert (F : forall y, flat_map (fun x : transmission * N * list edge => heard (fst (fst x))) y =
                        flat_map heard (map (fun x => fst (fst x)) y)).
  { clear. induction y as [|z y IH]; [reflexivity|]. cbn [flat_map map]. rewrite IH. reflexivity. }
  rewrite !F, Em'. reflexivity.
Qed.
Print Assumptions C68_traffic.

(** A transmission in microseconds, 2 % slow, measured at 20 kHz with the counter one
    third of a tick on when the signal starts. *)
Definition real_nearb (G x p D : N) : bool :=
  (100 * 1000000 * D <=? (100 + x) * p * G) && ((100 - x) * p * G <=? 100 * 1000000 * D).
Lemma real_nearb_ok G x p D : real_nearb G x p D = true -> real_near G x p D.
Proof. unfold real_nearb, real_near. intros H. apply andb_true_iff in H. rewrite !N.leb_le in H. exact H. Qed.

Lemma real_nec_ok G x header w h ds :
  real_nearb G x header (fst h + snd h) &&
  forall2b (fun (bit : bool) d => real_nearb G x (if bit then 2250 else 1120) (fst d + snd d)) (bits_lsb 32 w) ds = true ->
  real_nec G x header w (h :: ds).
Proof.
  intros H. apply andb_true_iff in H. destruct H as [H1 H2]. exists h, ds. split; [reflexivity|].
  split; [apply real_nearb_ok; exact H1|]. eapply forall2b_ok; [|exact H2].
  intros bit d Hd. apply real_nearb_ok. exact Hd.
Qed.

Definition slow_nec (w : N) : list (N * N) :=
  (9200, 4570) :: map (fun bit : bool => if bit then (580, 1715) else (580, 562)) (bits_lsb 32 w).

Example C68_example :
  let w := bytes4 21 (compl8 21) 200 (compl8 200) in
  let clock t := (t * 20000 + 333333) / 1000000 in
  let evs := [(true, 777); (false, 612)] ++ (true, 45678) :: pair_edges (slow_nec w) in
  real_nec 1000000 4 13500 w (slow_nec w) /\ real_long 1000000 27000 45678 /\
  counts 20000 1000000 1 clock /\ rate_ok 7000 [] 20000 1 /\ short (measured clock 123 evs) /\
  firstn 5 (measured clock 123 evs) = [(true, 16); (false, 12); (true, 914); (false, 184); (true, 91)] /\
  outcome_at (nec_protocol (debug_build 32) MU32 NecStandard) 20000 (measured clock 123 evs) 68 =
    Some (ROk (Some (mkNec 21 200 false))).
Proof.
  intros w clock evs. split; [apply real_nec_ok; vm_compute; reflexivity|]. split; [vm_compute; discriminate|].
  split; [apply C68_clock_any_phase; lia|]. split; [split; [lia|left; lia]|]. split; [short_example|].
  split; vm_compute; reflexivity.
Qed.
