(** * Lemmas about receiving what the encoders produce *)
From Coq Require Import NArith ZArith List Bool Lia ZifyBool ZifyNat ZifyN.
From Verif Require Import Machine Spec Spec_sender Spec_receiver Spec_state Bits Time Decoder Nec Rc5 Rc6 Receiver Sender
  Time_facts Window_facts Run_facts Nec_facts Rc5_facts Rc6_facts Codec_facts Receiver_facts State_facts Encode_facts.
Import ListNotations.
Open Scope N_scope.
Ltac Zify.zify_post_hook ::= Z.div_mod_to_equations.

Lemma firstn_written vs (r : list N) : firstn (length vs) (vs ++ r) = vs.
Proof. rewrite firstn_app, firstn_all, Nat.sub_diag. cbn [firstn]. apply app_nil_r. Qed.

Lemma written_val vs buf : (length vs <= length buf)%nat -> written vs buf = Val (vs ++ skipn (length vs) buf, length vs).
Proof. intros H. unfold written. rewrite (proj2 (Nat.leb_le _ _)) by exact H. reflexivity. Qed.

Lemma commands_cbe {C} (os : list (outcome C)) :
  Forall (fun o => match o with ROk _ => True | RErr _ => False end) os -> commands_before_error os = commands os.
Proof.
  induction 1 as [|o os H H' IH]; auto. destruct o as [[c|]|e]; try contradiction; cbn [commands_before_error commands flat_map app].
  - f_equal. exact IH.
  - exact IH.
Qed.

Lemma run_edges_cons {D C} (into : dcmd D -> C) (r : receiver D) e d h :
  run_edges into r ((e, d) :: h) =
  let* (r1, o) := event_edge into r d e in let* (r2, os) := run_edges into r1 h in Val (r2, o :: os).
Proof. reflexivity. Qed.

(** ** NEC *)

Lemma khz_above F p : 1000 < F -> khz_ticks F p = F / 1000 * p / 1000.
Proof. intros H. unfold khz_ticks. rewrite (proj2 (N.leb_gt _ _)) by exact H. reflexivity. Qed.

Ltac khz F :=
  let k := fresh "k" in let r := fresh "r" in
  set (k := F / 1000) in *;
  assert (exists r, F = 1000 * k + r /\ r < 1000) as (r & ? & ?) by (exists (F mod 1000); subst k; lia);
  clearbody k; subst F.

Lemma nec_near_sync F : 13000 <= F ->
  near F 13500 (guaranteed F 7) (khz_ticks F 4500 + khz_ticks F 9000).
Proof.
  intros HF. rewrite !khz_above by lia. unfold near, guaranteed, nominal. khz F.
  destruct (N.lt_ge_cases k 18) as [L|L].
  - assert (K : k = 13 \/ k = 14 \/ k = 15 \/ k = 16 \/ k = 17) by lia.
    destruct K as [-> | [-> | [-> | [-> | ->]]]]; destruct (_ <=? 318000) eqn:E; lia.
  - destruct (_ <=? 318000) eqn:E; lia.
Qed.

Lemma samsung_near_sync F : 14000 <= F ->
  near F 9000 (guaranteed F 7) (khz_ticks F 4500 + khz_ticks F 4500).
Proof.
  intros HF. rewrite !khz_above by lia. unfold near, guaranteed, nominal. khz F.
  destruct (N.lt_ge_cases k 18) as [L|L].
  - assert (K : k = 14 \/ k = 15 \/ k = 16 \/ k = 17) by lia.
    destruct K as [-> | [-> | [-> | ->]]]; destruct (_ <=? 318000) eqn:E; lia.
  - destruct (_ <=? 318000) eqn:E; lia.
Qed.

Lemma nec_near_zero F : 13000 <= F ->
  near F 1120 (guaranteed F 25) (khz_ticks F 560 + khz_ticks F 560).
Proof.
  intros HF. rewrite !khz_above by lia. unfold near, guaranteed, nominal. khz F.
  destruct (_ <=? 318000) eqn:E; lia.
Qed.

Lemma nec_near_one F : 13000 <= F ->
  near F 2250 (guaranteed F 12) (khz_ticks F 1690 + khz_ticks F 560).
Proof.
  intros HF. rewrite !khz_above by lia. unfold near, guaranteed, nominal. khz F.
  destruct (N.lt_ge_cases k 18) as [L|L].
  - assert (K : k = 13 \/ k = 14 \/ k = 15 \/ k = 16 \/ k = 17) by lia.
    destruct K as [-> | [-> | [-> | [-> | ->]]]]; destruct (_ <=? 318000) eqn:E; lia.
  - destruct (_ <=? 318000) eqn:E; lia.
Qed.

Lemma khz_small F p : 1000 < F -> F < 2 ^ 32 -> p <= 9000 -> khz_ticks F p < 2 ^ 31.
Proof.
  intros H1 H2 H3. rewrite khz_above by exact H1. change (2 ^ 32) with 4294967296 in H2. change (2 ^ 31) with 2147483648.
  assert (F / 1000 * p <= F / 1000 * 9000) by (apply N.mul_le_mono_l; exact H3).
  revert H. generalize (F / 1000 * p). intros z Hz.
  assert (F / 1000 <= 4294968) by lia. revert Hz H. generalize (F / 1000). clear. intros. lia.
Qed.

Definition nec_floor (V : nec_variant) : N :=
  if header_high (nv_timing V) =? 9000 then 13000 else 14000.

Lemma alternating_pairs (l : list bool) (x y z : N) :
  alternating false (flat_map (fun bit : bool => [x; if bit then y else z]) l) =
  pair_edges (map (fun bit : bool => (x, if bit then y else z)) l).
Proof. induction l as [|[] l IH]; cbn [flat_map map app alternating pair_edges negb]; auto; do 2 f_equal; exact IH. Qed.

Lemma nec_run_buffer_any b m F V C (into : nv_cmd V -> C) w buf sv d0 : timebase m F -> F < 2 ^ 32 ->
  nec_timing_ok (nv_timing V) -> nec_floor V <= F -> w < 2 ^ 32 ->
  event_edge (D := nec_dec b m V) into (@mkRecv (nec_dec b m V) (mkNecDec NInit buf sv (spans_of m F (nec_pulses (nv_timing V)))) 0) d0 true =
    Val (@mkRecv (nec_dec b m V) (mkNecDec NInit buf 0 (spans_of m F (nec_pulses (nv_timing V)))) 0, ROk None) ->
  run_edges (D := nec_dec b m V) into (@mkRecv (nec_dec b m V) (mkNecDec NInit buf sv (spans_of m F (nec_pulses (nv_timing V)))) 0)
    ((true, d0) :: alternating false (tl (nec_buffer (khz_ticks F) (header_high (nv_timing V)) (header_low (nv_timing V)) w))) =
  Val (@mkRecv (nec_dec b m V) (mkNecDec NInit w 0 (spans_of m F (nec_pulses (nv_timing V)))) 0,
       repeat (ROk None) 66 ++ [ROk (option_map into (nv_unpack V w false))]).
Proof.
  intros Hm Hf HT HF Hw Et.
  assert (H13 : 13000 <= F) by (unfold nec_floor in HF; destruct HT as [E|E]; rewrite E in HF; cbn in HF; lia).
  unfold nec_buffer. cbn [tl].
  set (hm := header_high (nv_timing V)). set (hs := header_low (nv_timing V)).
  set (ds := map (fun bit : bool => (khz_ticks F 560, if bit then khz_ticks F 1690 else khz_ticks F 560)) (bits_lsb 32 w)).
  assert (Ea : alternating false (khz_ticks F hm :: khz_ticks F hs ::
      flat_map (fun bit : bool => [khz_ticks F 560; khz_ticks F (if bit then 1690 else 560)]) (bits_lsb 32 w)) =
      pair_edges ((khz_ticks F hm, khz_ticks F hs) :: ds)).
  { cbn [alternating negb pair_edges]. do 2 f_equal. unfold ds. rewrite <- alternating_pairs. f_equal.
    generalize (bits_lsb 32 w). intros l. induction l as [|[] l IH]; cbn [flat_map]; auto; f_equal; exact IH. }
  rewrite Ea. clear Ea.
  assert (Sm : forall p, p <= 9000 -> khz_ticks F p < 2 ^ 31) by (intros p Hp; apply khz_small; lia).
  assert (Hh : hm <= 9000 /\ hs <= 9000) by (unfold hm, hs; destruct HT as [-> | ->]; cbn; lia).
  pose proof (nec_class_near m F V Hm Hf HT) as K.
  pose proof (nec_frame_run b m F V Hm Hf into w (khz_ticks F hm, khz_ticks F hs) ds buf 0 Hw) as R.
  rewrite run_edges_cons, Et. cbn [bind].
  rewrite R.
  - reflexivity.
  - unfold is_pulse. cbn [fst snd]. split; [apply Sm; tauto|]. split; [apply Sm; tauto|].
    destruct (K ltac:(lia) (khz_ticks F hs + khz_ticks F hm)) as (K1 & _). apply K1. unfold hm, hs, nec_floor in *.
    clear -HT HF H13. destruct HT as [E|E]; rewrite E in *; cbn [header_high header_low NEC_STANDARD_TIMING NEC_SAMSUNG_TIMING] in *.
    + apply nec_near_sync. exact H13.
    + apply samsung_near_sync. exact HF.
  - clear R Et. unfold ds. generalize (bits_lsb 32 w). intros l. induction l as [|x l IH]; constructor; auto.
    unfold is_pulse. cbn [fst snd]. split; [apply Sm; lia|]. split; [destruct x; apply Sm; lia|].
    destruct (K ltac:(lia) ((if x then khz_ticks F 1690 else khz_ticks F 560) + khz_ticks F 560)) as (_ & _ & K2 & K3).
    assert (EE : data_high (nv_timing V) = 560 /\ data_zero_low (nv_timing V) = 560 /\ data_one_low (nv_timing V) = 1690)
      by (destruct HT as [-> | ->]; auto).
    destruct EE as (E1 & E2 & E3). rewrite E1, E2, E3 in *.
    destruct x; [apply K3, nec_near_one|apply K2, nec_near_zero]; exact H13.
Qed.

Lemma nec_still b m F V C (into : nv_cmd V -> C) buf sv pv : timebase m F -> F < 2 ^ 32 ->
  nec_timing_ok (nv_timing V) -> 13000 <= F -> sv <= 1 -> forall d, d <= 1 ->
  event_edge (D := nec_dec b m V) into (@mkRecv (nec_dec b m V) (mkNecDec NInit buf sv (spans_of m F (nec_pulses (nv_timing V)))) pv) d true =
    Val (@mkRecv (nec_dec b m V) (mkNecDec NInit buf 0 (spans_of m F (nec_pulses (nv_timing V)))) pv, ROk None).
Proof.
  intros Hm Hf HT HF Hs d Hd. rewrite nec_ev_rise by (exact Hm || (change (2 ^ 31) with 2147483648; lia)).
  assert (Et : nec_transition b NInit buf (nec_class (spans_of m F (nec_pulses (nv_timing V))) (d + sv)) = Val (buf, NInit)).
  { pose proof (nec_class_inv m F V Hm Hf HT (d + sv)) as I.
    destruct (nec_class _ (d + sv)); auto; exfalso; revert I; unfold near, nominal; clear -HT HF Hs Hd;
      destruct HT as [-> | ->]; cbn [header_high header_low repeat_low NEC_STANDARD_TIMING NEC_SAMSUNG_TIMING]; intros [_ I]; lia. }
  rewrite Et. reflexivity.
Qed.

Lemma nec_run_buffer b m F V C (into : nv_cmd V -> C) w d0 : timebase m F -> F < 2 ^ 32 ->
  nec_timing_ok (nv_timing V) -> nec_floor V <= F -> w < 2 ^ 32 -> d0 <= 1 ->
  run_edges (D := nec_dec b m V) into (@mkRecv (nec_dec b m V) (mkNecDec NInit 0 0 (spans_of m F (nec_pulses (nv_timing V)))) 0)
    ((true, d0) :: alternating false (tl (nec_buffer (khz_ticks F) (header_high (nv_timing V)) (header_low (nv_timing V)) w))) =
  Val (@mkRecv (nec_dec b m V) (mkNecDec NInit w 0 (spans_of m F (nec_pulses (nv_timing V)))) 0,
       repeat (ROk None) 66 ++ [ROk (option_map into (nv_unpack V w false))]).
Proof.
  intros Hm Hf HT HF Hw Hd0.
  assert (H13 : 13000 <= F) by (unfold nec_floor in HF; destruct HT as [E|E]; rewrite E in HF; cbn in HF; lia).
  apply nec_run_buffer_any; auto. apply nec_still; auto. lia.
Qed.

Lemma nec_receives b m F V C (into : nv_cmd V -> C) w : timebase m F -> F < 2 ^ 32 ->
  nec_timing_ok (nv_timing V) -> nec_floor V <= F -> w < 2 ^ 32 ->
  outcomes_of (nec_protocol b m V) F into
    (alternating true (nec_buffer (khz_ticks F) (header_high (nv_timing V)) (header_low (nv_timing V)) w)) =
  Val (repeat (ROk None) 66 ++ [ROk (option_map into (nv_unpack V w false))]).
Proof.
  intros Hm Hf HT HF Hw. unfold outcomes_of. rewrite (nec_new_val b m F V Hm Hf HT). cbn [bind].
  pose proof (nec_run_buffer b m F V C into w 0 Hm Hf HT HF Hw ltac:(lia)) as R.
  change (alternating true (nec_buffer (khz_ticks F) (header_high (nv_timing V)) (header_low (nv_timing V)) w)) with
    ((true, 0) :: alternating false (tl (nec_buffer (khz_ticks F) (header_high (nv_timing V)) (header_low (nv_timing V)) w))).
  cbn [p_dec nec_protocol]. rewrite R. reflexivity.
Qed.

(** ** RC5 *)

Lemma rc5_near F n : 13000 <= F -> n = 1 \/ n = 2 ->
  near F (889 * n) (guaranteed F (rc5_tol n)) (khz_ticks F 889 * n).
Proof.
  intros HF Hn. rewrite khz_above by lia. unfold near, guaranteed, nominal, rc5_tol. khz F.
  destruct (N.lt_ge_cases k 22) as [L|L].
  - assert (K : k = 13 \/ k = 14 \/ k = 15 \/ k = 16 \/ k = 17 \/ k = 18 \/ k = 19 \/ k = 20 \/ k = 21) by lia.
    destruct K as [-> | [-> | [-> | [-> | [-> | [-> | [-> | [-> | ->]]]]]]]]; destruct Hn as [-> | ->]; destruct (_ <=? 318000) eqn:E;
      cbn [N.eqb Pos.eqb]; lia.
  - destruct Hn as [-> | ->]; destruct (_ <=? 318000) eqn:E; cbn [N.eqb Pos.eqb]; lia.
Qed.

(** The runs of a biphase-coded waveform are one or two units long. *)
Lemma rc5_runs bs : forall c, Forall (fun x : edge => snd x = 1 \/ snd x = 2) (level_edges c 1 (flat_map rc5_half bs)).
Proof.
  induction bs as [|x bs IH]; intros c; cbn [flat_map]; [constructor|].
  destruct x, c; cbn [rc5_half app level_edges Bool.eqb]; repeat constructor; cbn [snd]; auto; apply IH.
Qed.

Lemma alternating_edges l ls : forall c n, alternating (negb c) (map (fun x : edge => l * snd x) (level_edges c n ls)) =
  map (fun x : edge => (fst x, l * snd x)) (level_edges c n ls).
Proof.
  induction ls as [|x ls IH]; intros c n; cbn [level_edges]; auto.
  destruct (Bool.eqb x c) eqn:E; [apply IH|].
  assert (x = negb c) as -> by (destruct x, c; auto; discriminate).
  cbn [map alternating fst snd]. f_equal. apply IH.
Qed.

(** The first edge of a frame, whatever the time before it. *)
Lemma rc5_first b m F C (into : rc5_command -> C) d0 : 8 <= usize_bits b ->
  @event_edge (rc5_dec b) C into (@mkRecv (rc5_dec b) (mkRc5Dec R5Idle 0 0 (spans_of m F rc5_pulses)) 0) d0 true =
  Val (@mkRecv (rc5_dec b) (mkRc5Dec (R5Data 12) (2 ^ 13) 0 (spans_of m F rc5_pulses)) 0, ROk None).
Proof.
  intros Hu. unfold event_edge. cbn [d_event rc5_dec rv_dec]. unfold rc5_event. cbn [r5_spans r5_clock r5_state r5_bitbuf].
  destruct (spans_get (spans_of m F rc5_pulses) d0) as [k|] eqn:Ek.
  - apply spans_get_below in Ek. unfold spans_of in Ek. rewrite map_length in Ek. cbn in Ek.
    pose proof (usize8 b Hu). rewrite (uadd_small _ _ k 1) by lia. cbn [bind].
    rewrite uadd_small by lia. cbn [bind r5_clock r5_state r5_bitbuf r5_spans rc5_transition].
    destruct b as [[] uw]; reflexivity.
  - cbn [bind]. unfold rc5_reset. cbn [r5_clock r5_state r5_bitbuf r5_spans rc5_transition bind].
    destruct b as [[] uw]; reflexivity.
Qed.

Lemma rc5_run_buffer b m F C (into : rc5_command -> C) w d0 : timebase m F -> F < 2 ^ 32 -> 8 <= usize_bits b ->
  13000 <= F -> w < 2 ^ 14 -> N.testbit w 13 = true ->
  exists j, run_edges (D := rc5_dec b) into (@mkRecv (rc5_dec b) (mkRc5Dec R5Idle 0 0 (spans_of m F rc5_pulses)) 0)
    ((true, d0) :: alternating false (tl (rc5_buffer (khz_ticks F 889) w))) =
  Val (@mkRecv (rc5_dec b) (mkRc5Dec R5Idle 0 0 (spans_of m F rc5_pulses)) 0,
       repeat (ROk None) j ++ [ROk (Some (into (rc5_unpack w)))]).
Proof.
  intros Hm Hf Hu HF Hw H13. unfold rc5_buffer. cbn [tl].
  set (l := khz_ticks F 889).
  assert (En : exists noms, level_edges false 0 (rc5_wave w) = (true, 1) :: noms /\
     Forall (fun x : edge => snd x = 1 \/ snd x = 2) noms /\
     alternating false (map (fun x : edge => l * snd x) noms) = map (fun x : edge => (fst x, l * snd x)) noms).
  { unfold rc5_wave. rewrite bits_msb_S. change (N.of_nat 13) with 13. rewrite H13. cbn [flat_map rc5_half app level_edges Bool.eqb].
    eexists. split; [reflexivity|]. split; [apply rc5_runs|]. apply (alternating_edges l _ true 1). }
  destruct En as (noms & En & Hn & Ha). rewrite En. cbn [tl]. unfold edge in Ha. rewrite Ha.
  set (acts := map (fun x : bool * N => (fst x, l * snd x)) noms).
  assert (HN : Forall2 (biphase_near F 889 rc5_tol) noms acts).
  { unfold acts. clear -Hn HF. induction Hn as [|x xs Hx Hxs IH]; cbn [map]; constructor; auto.
    split; [reflexivity|]. cbn [snd]. apply rc5_near; auto. }
  rewrite run_edges_cons, rc5_first by exact Hu. cbn [bind].
  rewrite (rc5_frame_run b m F Hm Hf into ltac:(lia) Hu w 0 noms 1 acts Hw En H13 HN).
  cbn [bind]. exists (S (length acts - 1)). reflexivity.
Qed.

Lemma rc5_receives b m F C (into : rc5_command -> C) w : timebase m F -> F < 2 ^ 32 -> 8 <= usize_bits b ->
  13000 <= F -> w < 2 ^ 14 -> N.testbit w 13 = true ->
  exists j, outcomes_of (rc5_protocol b m) F into (alternating true (rc5_buffer (khz_ticks F 889) w)) =
    Val (repeat (ROk None) j ++ [ROk (Some (into (rc5_unpack w)))]).
Proof.
  intros Hm Hf Hu HF Hw H13. unfold outcomes_of. rewrite (rc5_new_val b m F Hm Hf). cbn [bind].
  destruct (rc5_run_buffer b m F C into w 0 Hm Hf Hu HF Hw H13) as (j & R). exists j.
  change (alternating true (rc5_buffer (khz_ticks F 889) w)) with
    ((true, 0) :: alternating false (tl (rc5_buffer (khz_ticks F 889) w))).
  cbn [p_dec rc5_protocol]. rewrite R. reflexivity.
Qed.

(** ** RC6 *)

Lemma rc6_rate_high F : 27028 <= F -> rc6_rate F.
Proof. left. assumption. Qed.
Lemma rc6_rate_low F : rc6_rate F -> 2253 <= F.
Proof.
  intros [H|H]; [lia|]. unfold rc6_rates in H.
  repeat (apply Exists_cons in H; destruct H as [H|H]; [cbn [fst snd] in H; lia|]). inversion H.
Qed.

(** One unit is [k] ticks; below 27028 Hz the rates are those at which the leader is within
    12 percent. *)
Lemma rc6_rate_facts F : rc6_rate F ->
  1 <= nominal F 444 /\ 88 * nominal F 2664 <= 600 * nominal F 444 /\ 112 * nominal F 2220 < 600 * nominal F 444 /\
  88 * nominal F 888 <= 200 * nominal F 444 /\ 88 * nominal F 1332 <= 300 * nominal F 444 /\
  (F <= 318000 \/ 89 * nominal F 2664 <= 600 * nominal F 444 /\ 89 * nominal F 888 <= 200 * nominal F 444 /\
     89 * nominal F 1332 <= 300 * nominal F 444).
Proof.
  intros [H|H].
  - assert (A : 12 <= nominal F 444 /\ nominal F 2664 <= 6 * nominal F 444 + 5 /\ nominal F 2220 <= 5 * nominal F 444 + 4 /\
       nominal F 888 <= 2 * nominal F 444 + 1 /\ nominal F 1332 <= 3 * nominal F 444 + 2) by (unfold nominal; lia).
    assert (B : F <= 318000 \/ 140 <= nominal F 444) by (destruct (N.le_gt_cases F 318000); [left; auto|right; unfold nominal; lia]).
    assert (G : 112 * nominal F 2220 < 600 * nominal F 444) by (unfold nominal; lia).
    revert A B G. generalize (nominal F 444) (nominal F 888) (nominal F 1332) (nominal F 2220) (nominal F 2664). intros. lia.
  - unfold rc6_rates in H.
    repeat (apply Exists_cons in H; destruct H as [H|H];
      [cbn [fst snd] in H; unfold nominal;
       match type of H with ?lo <= F /\ _ => let k := eval vm_compute in (444 * lo / 1000000) in
         assert (K : 444 * F / 1000000 = k) by lia; rewrite K end; lia|]).
    inversion H.
Qed.

Lemma rc6_near F n : rc6_rate F -> n = 1 \/ n = 2 \/ n = 3 ->
  near F (444 * n) (guaranteed F (rc6_tol n)) (nominal F 444 * n).
Proof.
  intros HF Hn. destruct (rc6_rate_facts F HF) as (A1 & A2 & A3 & A4 & A5 & A6). unfold near, guaranteed, rc6_tol.
  assert (B : nominal F 444 * n <= nominal F (444 * n)) by (unfold nominal; destruct Hn as [-> | [-> | ->]]; lia).
  destruct Hn as [-> | [-> | ->]]; [change (444 * 1) with 444 in *|change (444 * 2) with 888 in *|change (444 * 3) with 1332 in *];
    revert A1 A2 A3 A4 A5 A6 B; generalize (nominal F 444) (nominal F 888) (nominal F 1332) (nominal F 2220) (nominal F 2664);
    intros l l2 l3 l5 l6 A1 A2 A3 A4 A5 A6 B; destruct (N.leb_spec F 318000); lia.
Qed.

Lemma rc6_lead F m : timebase m F -> F < 2 ^ 32 -> rc6_rate F ->
  spans_get (spans_of m F rc6_pulses) (nominal F 444 * 6) = Some 5.
Proof.
  intros Hm Hf HF. destruct (rc6_rate_facts F HF) as (A1 & A2 & A3 & A4 & A5 & A6). set (d := nominal F 444 * 6).
  change (Some 5) with (Some (N.of_nat 5)).
  apply spans_get_hit with (s := window (base_of m F 2664) 12).
  - reflexivity.
  - apply contains_window; [lia|]. apply near_inwin with (freq := F) (p := 2664); try lia.
    + apply base_of_ok; auto; lia.
    + assert (B : d <= nominal F 2664) by (unfold d, nominal; lia).
      unfold near, guaranteed. unfold d in *. revert A1 A2 A6 B.
      generalize (nominal F 2664) (nominal F 444). intros l6 l A1 A2 A6 B. destruct (N.leb_spec F 318000); lia.
  - intros j s' Hj E.
    assert (B : forall p, p <= 2220 -> contains (window (base_of m F p) 12) d = false).
    { intros p Hp. apply contains_window_false; [lia|]. unfold inwin. intros [Q _].
      pose proof (base_of_ok m F p Hm Hf ltac:(lia)) as (Hb & _).
      assert (base_of m F p <= nominal F 2220) by (unfold nominal; nia).
      unfold d in *. lia. }
    destruct j as [|[|[|[|[|j]]]]]; try lia;
      cbn [nth_error spans_of map fst snd rc6_pulses] in E; injection E as <-; apply B; lia.
Qed.

Lemma rc6_runs bs : forall c n, n = 1 \/ n = 2 ->
  Forall (fun x : edge => snd x = 1 \/ snd x = 2 \/ snd x = 3) (level_edges c n (flat_map rc6_half bs)).
Proof.
  induction bs as [|x bs IH]; intros c n Hn; cbn [flat_map]; [constructor|].
  destruct x, c; cbn [rc6_half app level_edges Bool.eqb]; repeat (apply Forall_cons; [cbn [snd]; lia|]); apply IH; lia.
Qed.

Lemma level_edges_snoc ls x : forall c n, exists t, level_edges c n (ls ++ [x]) = level_edges c n ls ++ t /\
  (t = [] \/ exists k, t = [(x, k)]).
Proof.
  induction ls as [|y ls IH]; intros c n; cbn [app level_edges].
  - destruct (Bool.eqb x c); [exists []; auto|]. exists [(x, n)]. split; eauto.
  - destruct (Bool.eqb y c); [apply IH|]. destruct (IH y 1) as (t & E & Ht). exists t. rewrite E. auto.
Qed.

(** Edges in the idle state. *)
Lemma rc6_idle_edge b m F C (into : rc6_command -> C) tg d e : 8 <= usize_bits b ->
  exists tg' st', @event_edge (rc6_dec b) C into (@mkRecv (rc6_dec b) (mkRc6Dec R6Idle 0 0 tg 0 (spans_of m F rc6_pulses)) 0) d e =
     Val (@mkRecv (rc6_dec b) (mkRc6Dec (if e then R6Leading else R6Idle) 0 0 tg' st' (spans_of m F rc6_pulses)) 0, ROk None) /\
     (e = true -> st' = 0) /\ st' <= 8.
Proof.
  intros Hu. set (ss := spans_of m F rc6_pulses).
  unfold event_edge. cbn [d_event rc6_dec rv_dec]. unfold rc6_event. cbn [r6_spans r6_clock].
  destruct (spans_get ss d) as [k|] eqn:Ek.
  - apply spans_get_below in Ek. unfold ss, spans_of in Ek. rewrite map_length in Ek. cbn in Ek.
    pose proof (usize8 b Hu). rewrite (uadd_small _ _ k 1) by lia. cbn [bind].
    rewrite uadd_small by lia. cbn [bind r6_clock]. unfold rc6_transition. cbn [r6_state r6_data r6_headerdata r6_toggle r6_spans].
    destruct e; cbn [bind r6_state rc6_to_state]; eexists; eexists; (split; [reflexivity|]); (split; [auto; discriminate|cbn [r6_clock]; lia]).
  - cbn [bind]. unfold rc6_reset, rc6_transition. cbn [r6_state r6_data r6_headerdata r6_toggle r6_spans r6_clock].
    destruct e; cbn [bind r6_state rc6_to_state]; eexists; eexists; (split; [reflexivity|]); (split; [auto|lia]).
Qed.

Lemma rc6_run_buffer_any b m F C (into : rc6_command -> C) tg t w d0 : timebase m F -> F < 2 ^ 32 -> 8 <= usize_bits b ->
  rc6_rate F -> w < 2 ^ 16 ->
  exists tg2 st2 i j, run_edges (D := rc6_dec b) into (@mkRecv (rc6_dec b) (mkRc6Dec R6Idle 0 0 tg 0 (spans_of m F rc6_pulses)) 0)
    ((true, d0) :: alternating false (tl (rc6_buffer (nominal F 444) t w))) =
    Val (@mkRecv (rc6_dec b) (mkRc6Dec R6Idle 0 0 tg2 st2 (spans_of m F rc6_pulses)) 0, repeat (ROk None) i ++ ROk (Some (into (rc6_from_bits w t))) :: repeat (ROk None) j) /\ (j <= 1)%nat /\ st2 <= 8.
Proof.
  intros Hm Hf Hu HF Hw. unfold rc6_buffer.
  set (l := nominal F 444).
  destruct (level_edges_snoc (rc6_wave t (bits_msb 16 w)) false false 0) as (tl' & E & Ht).
  assert (En : exists noms, level_edges false 0 (rc6_wave t (bits_msb 16 w)) = (true, 0) :: (false, 6) :: noms /\
     Forall (fun x : edge => snd x = 1 \/ snd x = 2 \/ snd x = 3) noms).
  { unfold rc6_wave. destruct t; cbn [app level_edges Bool.eqb rc6_half N.add Pos.add Pos.succ];
      eexists; (split; [reflexivity|]); repeat (apply Forall_cons; [cbn [snd]; lia|]); apply rc6_runs; lia. }
  destruct En as (noms & En & Hn).
  set (acts := map (fun x : bool * N => (fst x, l * snd x)) noms).
  assert (Ea : alternating false (tl (map (fun x : edge => l * snd x) (level_edges false 0 (rc6_wave t (bits_msb 16 w) ++ [false])))) =
     (false, l * 6) :: acts ++ map (fun x : edge => (fst x, l * snd x)) tl').
  { pose proof (alternating_edges l (rc6_wave t (bits_msb 16 w) ++ [false]) false 0) as A.
    rewrite E, En in A |- *. cbn [app map tl snd fst alternating negb] in A |- *. injection A as A. rewrite A.
    rewrite map_app. reflexivity. }
  unfold edge in *. rewrite Ea. clear Ea E.
  assert (HN : Forall2 (biphase_near F 444 rc6_tol) noms acts).
  { unfold acts. clear -Hn HF. induction Hn as [|x xs Hx Hxs IH]; cbn [map]; constructor; auto.
    split; [reflexivity|]. cbn [snd]. apply rc6_near; auto. }
  rewrite run_edges_cons.
  destruct (rc6_idle_edge b m F C into tg d0 true Hu) as (tg' & st' & Ev & Es & _).
  set (ss := spans_of m F rc6_pulses) in *.
  rewrite Es in Ev by reflexivity. rewrite Ev. cbn [bind].
  destruct (rc6_frame_run_at b m F Hm Hf into (rc6_rate_low F HF) Hu t w tg' 0 (l * 6) noms 0 acts Hw En (rc6_lead F m Hm Hf HF) HN) as (i & Ei).
  fold ss in Ei.
  destruct Ht as [-> | (k & ->)]; cbn [map fst snd].
  - do 2 eexists. exists (S i), O. rewrite app_nil_r. rewrite Ei. cbn [bind]. split; [reflexivity|]. split; lia.
  - destruct (rc6_idle_edge b m F C into t (l * k) false Hu) as (tg2 & st2 & Ev2 & _ & L2). fold ss in Ev2.
    assert (Ee : @run_edges (rc6_dec b) C into (@mkRecv (rc6_dec b) (mkRc6Dec R6Idle 0 0 t 0 ss) 0) [(false, l * k)] =
      Val (@mkRecv (rc6_dec b) (mkRc6Dec R6Idle 0 0 tg2 st2 ss) 0, [ROk None])).
    { cbn [run_edges]. rewrite Ev2. reflexivity. }
    exists tg2, st2, (S i), 1%nat. split; [|split; [lia|]].
    + pose proof (run_edges_app_val _ _ _ _ _ _ _ _ Ei Ee) as R. rewrite app_comm_cons. rewrite R.
      cbn [bind]. rewrite <- app_assoc. reflexivity.
    + exact L2.
Qed.

Lemma rc6_run_buffer b m F C (into : rc6_command -> C) t w d0 : timebase m F -> F < 2 ^ 32 -> 8 <= usize_bits b ->
  rc6_rate F -> w < 2 ^ 16 ->
  exists r i j, run_edges (D := rc6_dec b) into (@mkRecv (rc6_dec b) (mkRc6Dec R6Idle 0 0 false 0 (spans_of m F rc6_pulses)) 0)
    ((true, d0) :: alternating false (tl (rc6_buffer (nominal F 444) t w))) =
    Val (r, repeat (ROk None) i ++ ROk (Some (into (rc6_from_bits w t))) :: repeat (ROk None) j) /\ (j <= 1)%nat /\
    r6_spans (rv_dec r) = spans_of m F rc6_pulses.
Proof.
  intros Hm Hf Hu HF Hw. destruct (rc6_run_buffer_any b m F C into false t w d0 Hm Hf Hu HF Hw) as (tg2 & st2 & i & j & R & Hj & _).
  eexists. exists i, j. split; [exact R|]. split; [exact Hj|reflexivity].
Qed.

Lemma rc6_receives b m F C (into : rc6_command -> C) t w : timebase m F -> F < 2 ^ 32 -> 8 <= usize_bits b ->
  rc6_rate F -> w < 2 ^ 16 ->
  exists i j, outcomes_of (rc6_protocol b m) F into (alternating true (rc6_buffer (nominal F 444) t w)) =
    Val (repeat (ROk None) i ++ ROk (Some (into (rc6_from_bits w t))) :: repeat (ROk None) j) /\ (j <= 1)%nat.
Proof.
  intros Hm Hf Hu HF Hw. unfold outcomes_of. rewrite (rc6_new_val b m F Hm Hf). cbn [bind].
  destruct (rc6_run_buffer b m F C into t w 0 Hm Hf Hu HF Hw) as (r & i & j & R & Hj & _). exists i, j.
  assert (Eb : alternating true (rc6_buffer (nominal F 444) t w) = (true, 0) :: alternating false (tl (rc6_buffer (nominal F 444) t w))).
  { unfold rc6_buffer, rc6_wave. cbn [app level_edges Bool.eqb map snd tl alternating negb]. rewrite N.mul_0_r. reflexivity. }
  rewrite Eb. cbn [p_dec rc6_protocol]. rewrite R. split; [reflexivity|exact Hj].
Qed.

(** ** Edges one tick apart *)

Lemma nec_quiet_any b m F V C (into : nv_cmd V -> C) h : timebase m F -> F < 2 ^ 32 ->
  nec_timing_ok (nv_timing V) -> 13000 <= F -> Forall (fun e : edge => snd e = 1) h ->
  forall buf sv pv, sv <= 1 ->
  exists sv', sv' <= 1 /\
    run_edges (D := nec_dec b m V) into (@mkRecv (nec_dec b m V) (mkNecDec NInit buf sv (spans_of m F (nec_pulses (nv_timing V)))) pv) h =
    Val (@mkRecv (nec_dec b m V) (mkNecDec NInit buf sv' (spans_of m F (nec_pulses (nv_timing V)))) pv, repeat (ROk None) (length h)).
Proof.
  intros Hm Hf HT HF Hh. induction Hh as [|[e d] h Hx Hh IH]; intros buf sv pv Hs; [exists sv; split; [exact Hs|reflexivity]|].
  cbn [snd] in Hx. subst d. rewrite run_edges_cons. destruct e.
  - rewrite nec_still by (auto; lia). cbn [bind]. destruct (IH buf 0 pv ltac:(lia)) as (sv' & Hs' & R). rewrite R. cbn [bind].
    exists sv'. split; [exact Hs'|reflexivity].
  - rewrite nec_ev_fall by exact I. cbn [bind]. destruct (IH buf 1 pv ltac:(lia)) as (sv' & Hs' & R). rewrite R. cbn [bind].
    exists sv'. split; [exact Hs'|reflexivity].
Qed.

Lemma nec_quiet b m F V C (into : nv_cmd V -> C) h : timebase m F -> F < 2 ^ 32 ->
  nec_timing_ok (nv_timing V) -> 13000 <= F -> Forall (fun e : edge => snd e = 1) h ->
  forall buf sv pv, sv <= 1 ->
  exists r, run_edges (D := nec_dec b m V) into (@mkRecv (nec_dec b m V) (mkNecDec NInit buf sv (spans_of m F (nec_pulses (nv_timing V)))) pv) h =
    Val (r, repeat (ROk None) (length h)).
Proof.
  intros Hm Hf HT HF Hh buf sv pv Hs. destruct (nec_quiet_any b m F V C into h Hm Hf HT HF Hh buf sv pv Hs) as (sv' & _ & R).
  eexists. exact R.
Qed.

Lemma rc5_one_none m F : timebase m F -> F < 2 ^ 32 -> 13000 <= F -> spans_get (spans_of m F rc5_pulses) 1 = None.
Proof.
  intros Hm Hf HF. destruct (spans_get (spans_of m F rc5_pulses) 1) as [k|] eqn:E; auto. exfalso.
  apply spans_get_near_inv in E; auto using rc5_ok. destruct E as (p & t & En & Hn & H0).
  generalize dependent (N.to_nat k). intros j En.
  do 2 (destruct j as [|j]; [cbn [rc5_pulses nth_error] in En; injection En as <- <-; destruct (Hn ltac:(lia)) as [_ Q];
    unfold nominal in Q; clear -Q HF; lia|]).
  do 6 (destruct j as [|j]; [cbn [rc5_pulses nth_error] in En; injection En as <- <-; specialize (H0 eq_refl); discriminate|]).
  destruct j; discriminate.
Qed.

Lemma rc5_quiet b m F C (into : rc5_command -> C) h : timebase m F -> F < 2 ^ 32 -> 13000 <= F ->
  Forall (fun e : edge => snd e = 1) h ->
  forall r : receiver (rc5_dec b), r5_spans (rv_dec r) = spans_of m F rc5_pulses ->
  exists r', run_edges (D := rc5_dec b) into r h = Val (r', repeat (ROk None) (length h)).
Proof.
  intros Hm Hf HF Hh. induction Hh as [|[e d] h Hx Hh IH]; intros r Es; [eexists; reflexivity|].
  cbn [snd] in Hx. subst d. rewrite run_edges_cons.
  assert (Ev : exists r1, @event_edge (rc5_dec b) C into r 1 e = Val (r1, ROk None)).
  { destruct r as [d pv]. cbn [rv_dec] in Es. unfold event_edge. cbn [d_event rc5_dec rv_dec]. unfold rc5_event.
    rewrite Es, rc5_one_none by auto. cbn [bind]. unfold rc5_reset. cbn [r5_clock r5_state r5_bitbuf r5_spans rc5_transition].
    destruct e; [destruct b as [[] uw]|]; eexists; reflexivity. }
  destruct Ev as (r1 & Ev). rewrite Ev. cbn [bind]. apply rc5_ev_spans in Ev.
  destruct (IH r1 ltac:(congruence)) as (r' & R). rewrite R. exists r'. reflexivity.
Qed.

Lemma rc6_one_none m F : timebase m F -> F < 2 ^ 32 -> 27028 <= F -> spans_get (spans_of m F rc6_pulses) 1 = None.
Proof.
  intros Hm Hf HF. destruct (spans_get (spans_of m F rc6_pulses) 1) as [k|] eqn:E; auto. exfalso.
  apply spans_get_near_inv in E; auto using rc6_ok. destruct E as (p & t & En & Hn & H0).
  generalize dependent (N.to_nat k). intros j En.
  do 6 (destruct j as [|j]; [cbn [rc6_pulses nth_error] in En; injection En as <- <-; destruct (Hn ltac:(lia)) as [_ Q];
    unfold nominal in Q; clear -Q HF; lia|]).
  do 2 (destruct j as [|j]; [cbn [rc6_pulses nth_error] in En; injection En as <- <-; specialize (H0 eq_refl); discriminate|]).
  destruct j; discriminate.
Qed.

Lemma rc6_quiet b m F C (into : rc6_command -> C) h : timebase m F -> F < 2 ^ 32 -> 27028 <= F ->
  Forall (fun e : edge => snd e = 1) h ->
  forall r : receiver (rc6_dec b), r6_spans (rv_dec r) = spans_of m F rc6_pulses ->
  exists r', run_edges (D := rc6_dec b) into r h = Val (r', repeat (ROk None) (length h)).
Proof.
  intros Hm Hf HF Hh. induction Hh as [|[e d] h Hx Hh IH]; intros r Es; [eexists; reflexivity|].
  cbn [snd] in Hx. subst d. rewrite run_edges_cons.
  assert (Ev : exists r1, @event_edge (rc6_dec b) C into r 1 e = Val (r1, ROk None) /\ r6_spans (rv_dec r1) = spans_of m F rc6_pulses).
  { destruct r as [d pv]. cbn [rv_dec] in Es. unfold event_edge. cbn [d_event rc6_dec rv_dec]. unfold rc6_event.
    rewrite Es, rc6_one_none by auto. cbn [bind]. unfold rc6_reset, rc6_transition. cbn [r6_state r6_data r6_headerdata r6_toggle r6_spans r6_clock].
    destruct e; eexists; (split; [reflexivity|exact Es]). }
  destruct Ev as (r1 & Ev & Es1). rewrite Ev. cbn [bind].
  destruct (IH r1 Es1) as (r' & R). rewrite R. exists r'. reflexivity.
Qed.
