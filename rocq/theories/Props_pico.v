(** * Property theorems: 64-bit timestamps, from the remote control to the lines printed *)
From Coq Require Import NArith ZArith List Bool Lia ZifyBool ZifyNat ZifyN.
From Verif Require Import Machine Time Decoder Nec Receiver Remote Spec Bits Codec_facts Time_facts Run_facts Nec_facts
  Spec_receiver Receiver_facts Spec_state State_facts Spec_phys Phys_facts Spec_keys Keys_facts Apps Spec_apps Spec_listen Listen_facts
  Props_decode Props_receiver Props_phys Props_keys Props_apps Props_listen Props_usb Props_pause Example_facts.
Import ListNotations.
Open Scope N_scope.

(** The difference of two readings of a counter of [w] bits. *)
Lemma wrapped_readings w x y : y <= x -> wrapped w (y mod 2 ^ w) (x mod 2 ^ w) = (x - y) mod 2 ^ w.
Proof.
  intros H. unfold wrapped. set (M := 2 ^ w). assert (HN : M <> 0) by (apply N.pow_nonzero; discriminate). clearbody M.
  pose proof (N.div_mod x M HN) as Ex. pose proof (N.div_mod y M HN) as Ey.
  pose proof (N.mod_lt x M HN). pose proof (N.mod_lt y M HN).
  assert (Hq : y / M <= x / M) by (apply N.div_le_mono; auto).
  assert (A : exists q, x / M = y / M + q) by (exists (x / M - y / M); lia). destruct A as (q & Eq). rewrite Eq in Ex.
  transitivity ((x - y + 1 * M) mod M); [|apply N.mod_add; exact HN].
  replace (x - y + 1 * M) with (x mod M + M - y mod M + q * M) by nia.
  symmetry. apply N.mod_add. exact HN.
Qed.

Lemma stamped_timed w freq G j clock L : 0 < w -> 0 < G -> counts freq G 1 clock -> G + L * freq <= j * G ->
  forall evs xs t read, t <= read -> read <= t + L -> stamped w clock L t read evs xs ->
  Forall (fun e : edge => snd e * freq + j * G <= 2 ^ (w - 1) * G) evs ->
  Forall2 (timed freq G j) evs (intervals (wrapped w) (clock read mod 2 ^ w) xs) /\
  steps (fun prev t => prev < 2 ^ w /\ t < 2 ^ w /\ wrapped w prev t < 2 ^ (w - 1)) (clock read mod 2 ^ w) xs.
Proof.
  intros Hw HG Hc Hj. induction evs as [|[l D] evs IH]; intros [|[low now] xs] t read H1 H2 H Hb; cbn [stamped] in H; try contradiction;
    cbn [intervals steps]; [split; constructor|].
  destruct H as (-> & a & Ha & Hal & -> & H). apply Forall_cons_iff in Hb. destruct Hb as [Hb1 Hb]. cbn [snd] in Hb1.
  destruct (Hc read (t + D + a) ltac:(lia)) as (Hm & U1 & U2).
  assert (A1 : (t + D + a - read) * freq <= D * freq + L * freq).
  { rewrite <- N.mul_add_distr_r. apply N.mul_le_mono_r. lia. }
  assert (A2 : D * freq <= (t + D + a - read) * freq + L * freq).
  { rewrite <- N.mul_add_distr_r. apply N.mul_le_mono_r. lia. }
  set (n := clock (t + D + a) - clock read) in *.
  assert (T1 : n * G < D * freq + j * G) by lia. assert (T2 : D * freq < n * G + j * G) by lia.
  assert (Hn : n < 2 ^ (w - 1)) by (apply (N.mul_lt_mono_pos_r G); lia).
  assert (Hp : 2 ^ w = 2 * 2 ^ (w - 1)) by (rewrite <- N.pow_succ_r'; f_equal; lia).
  assert (P0 : 2 ^ w <> 0) by (apply N.pow_nonzero; discriminate).
  rewrite wrapped_readings by exact Hm. fold n. rewrite N.mod_small by lia.
  destruct (IH xs (t + D) (t + D + a) ltac:(lia) ltac:(lia) H Hb) as [I1 I2]. split.
  - constructor; [|exact I1]. split; [reflexivity|]. cbn [fst snd]. split; assumption.
  - split; [|exact I2]. repeat split; [apply N.mod_lt, P0|apply N.mod_lt, P0|exact Hn].
Qed.

(** ** Cutting intervals to a second *)

Definition cap (G D : N) : N := if G <? D then G else D.
Definition cap_edge (G : N) (e : edge) : edge := (fst e, cap G (snd e)).
Definition cap_burst (G : N) (y : burst) : burst :=
  let '(gap, ps, stop) := y in (cap G gap, map (fun d => (cap G (fst d), cap G (snd d))) ps, cap G stop).
Definition cap_press {K} (G : N) (y : press K) : press K :=
  let '(k, f, rs) := y in (k, cap_burst G f, map (cap_burst G) rs).

Lemma cap_pairs G ps : map (cap_edge G) (pair_edges ps) = pair_edges (map (fun d => (cap G (fst d), cap G (snd d))) ps).
Proof. induction ps as [|[m s] ps IH]; [reflexivity|]. cbn [pair_edges map fst snd]. rewrite IH. reflexivity. Qed.
Lemma cap_burst_edges G y : map (cap_edge G) (burst_edges y) = burst_edges (cap_burst G y).
Proof. destruct y as [[gap ps] stop]. cbn [burst_edges cap_burst map]. rewrite map_app, cap_pairs. reflexivity. Qed.
Lemma cap_edges {K} G (l : list (press K)) : map (cap_edge G) (presses_edges l) = presses_edges (map (cap_press G) l).
Proof.
  assert (R : forall rs, map (cap_edge G) (flat_map burst_edges rs) = flat_map burst_edges (map (cap_burst G) rs)).
  { induction rs as [|y rs IH]; [reflexivity|]. cbn [flat_map map]. rewrite map_app, IH, cap_burst_edges. reflexivity. }
  unfold presses_edges. induction l as [|[[k f] rs] l IH]; [reflexivity|]. cbn [flat_map map press_edges cap_press].
  rewrite !map_app, IH, cap_burst_edges, R. reflexivity.
Qed.
Lemma cap_held {K} G (l : list (press K)) : held (map (cap_press G) l) = held l.
Proof. unfold held. induction l as [|[[k f] rs] l IH]; [reflexivity|]. cbn [flat_map map cap_press]. rewrite IH, map_length. reflexivity. Qed.

Lemma cap_long G p D : p <= 1000000 -> real_long G p D -> real_long G p (cap G D).
Proof. unfold real_long, cap. intros Hp H. destruct (G <? D) eqn:E; nia. Qed.
Lemma cap_period G p d : p <= 13500 -> real_period G 4 p d -> (cap G (fst d), cap G (snd d)) = d.
Proof.
  intros Hp (H & _). assert (A : fst d + snd d <= G).
  { assert ((100 + 4) * p * G <= 1404000 * G) by (apply N.mul_le_mono_r; lia). lia. }
  unfold cap. destruct d as [x y]. cbn [fst snd] in *. destruct (G <? x) eqn:E1, (G <? y) eqn:E2; f_equal; lia.
Qed.
Lemma cap_ok {K} G header again silence (word : K -> N) y : header <= 13500 -> again <= 13500 -> silence <= 1000000 ->
  real_press G 4 header again silence word y -> real_press G 4 header again silence word (cap_press G y).
Proof.
  intros Hh Ha Hs. destruct y as [[k [[gap ps] stop]] rs]. cbn [real_press cap_press cap_burst]. intros (H1 & H2 & H3).
  split; [apply cap_long; assumption|]. split.
  - destruct H2 as (h & ds & -> & Q1 & Q2).
    replace (map (fun d => (cap G (fst d), cap G (snd d))) (h :: ds)) with (h :: ds); [exists h, ds; auto|].
    cbn [map]. rewrite (cap_period G header h Hh Q1). f_equal. symmetry.
    induction Q2 as [|bit d bs ds Q Q2 IH]; [reflexivity|]. cbn [map]. rewrite IH. f_equal.
    apply (cap_period G (if bit then 2250 else 1120)); [destruct bit; vm_compute; discriminate|exact Q].
  - induction H3 as [|[[g p] s] rs (Q1 & d & -> & Q2) H3 IH]; [constructor|]. cbn [map cap_burst]. constructor; [|exact IH].
    split; [apply cap_long; assumption|]. exists d. split; [|exact Q2]. f_equal. apply (cap_period G again); assumption.
Qed.

(** Measured intervals of more than a second can be replaced by a second. *)
Lemma cap_measured freq G j : 0 < G -> 1 <= j -> 7000 * (2 * j + 1) <= freq -> freq < 2 ^ 30 ->
  forall evs ms, Forall2 (timed freq G j) evs ms ->
  exists ms', Forall2 (timed freq G j) (map (cap_edge G) evs) ms' /\ Forall2 (same_but_pauses freq) ms ms' /\ short ms'.
Proof.
  intros HG Hj Hk Hf. induction 1 as [|[l D] [l' n] evs ms (T0 & T1 & T2) F IH].
  - exists []. repeat split; constructor.
  - destruct IH as (ms' & I1 & I2 & I3). cbn [fst snd] in T0, T1, T2. subst l'. cbn [map]. unfold cap_edge at 1, cap. cbn [fst snd].
    destruct (G <? D) eqn:E.
    + exists ((l, freq) :: ms'). split; [|split].
      * constructor; [|exact I1]. split; [reflexivity|]. cbn [fst snd]. nia.
      * constructor; [|exact I2]. split; [reflexivity|]. right. unfold pause. cbn [snd].
        assert (G * freq <= D * freq) by (apply N.mul_le_mono_r; lia).
        assert (freq < n + j) by (apply (N.mul_lt_mono_pos_r G); lia). lia.
      * constructor; [cbn [snd]; lia|exact I3].
    + exists ((l, n) :: ms'). split; [|split].
      * constructor; [|exact I1]. split; [reflexivity|]. cbn [fst snd]. split; assumption.
      * constructor; [|exact I2]. split; [reflexivity|left; reflexivity].
      * constructor; [|exact I3]. cbn [snd]. assert (D * freq <= G * freq) by (apply N.mul_le_mono_r; lia).
        assert (n < freq + j) by (apply (N.mul_lt_mono_pos_r G); lia). lia.
Qed.

(** Keys held on a remote of the NEC family, heard with 64-bit timestamps. *)
Lemma fugit64_held b mi cs freq G j L V header again silence k C (into : nv_cmd V -> C) {K} (word : K -> N) (l : list (press K)) clock xs :
  timebase (MFugit 64 mi cs) freq -> fugit_ok (MFugit 64 mi cs) -> freq < 2 ^ 30 -> 0 < G -> 1 <= j -> k * (2 * j + 1) <= freq ->
  nec_timing_ok (nv_timing V) -> header_high (nv_timing V) + header_low (nv_timing V) = header ->
  header_high (nv_timing V) + repeat_low (nv_timing V) = again -> silence = 2 * header ->
  header = 13500 /\ k = 7000 \/ header = 9000 /\ k = 7700 ->
  Forall (fun y => word (fst (fst y)) < 2 ^ 32) l ->
  Forall (real_press G 4 header again silence word) l ->
  counts freq G 1 clock -> clock 0 = 0 -> G + L * freq <= j * G ->
  Forall (fun y : burst => let '(gap, _, stop) := y in gap * freq + j * G <= 2 ^ 63 * G /\ stop * freq + j * G <= 2 ^ 63 * G) (bursts l) ->
  stamped 64 clock L 0 0 (presses_edges l) xs ->
  exists r0 r os, receiver_new (nec_protocol b (MFugit 64 mi cs) V) freq = Val r0 /\
    run_instants (D := nec_dec b (MFugit 64 mi cs) V) into (MFugit 64 mi cs) r0 xs = Val (r, os) /\
    commands os = flat_map (fun x => said V into (word (fst x)) (snd x)) (held l).
Proof.
  intros Hm Hok Hf HG Hj Hk HT Eh Ea Es Hh Hw Hl Hc Hc0 HL Hb Hx. set (m := MFugit 64 mi cs) in *.
  assert (Hf32 : freq < 2 ^ 32) by (change (2 ^ 32) with (4 * 2 ^ 30); lia).
  assert (Hk7 : 7000 * (2 * j + 1) <= freq) by (destruct Hh as [[_ ->]|[_ ->]]; lia).
  assert (Hha : header <= 13500 /\ again <= 13500 /\ silence <= 1000000).
  { subst silence. destruct HT as [ET|ET]; rewrite ET in Eh, Ea; cbn in Eh, Ea; subst; lia. }
  destruct Hha as (Hh1 & Ha1 & Hs1).
  assert (Hall : Forall (fun e : edge => snd e * freq + j * G <= 2 ^ (64 - 1) * G) (presses_edges l)).
  { change (2 ^ (64 - 1)) with (2 ^ 63). rewrite presses_bursts. clear - Hl Hb HG Hf32 Hk7 Hh1 Ha1.
    assert (P : forall p d, p <= 13500 -> real_period G 4 p d -> fst d * freq + j * G <= 2 ^ 63 * G /\ snd d * freq + j * G <= 2 ^ 63 * G).
    { intros p d Hp Hd. destruct (pair_small freq G j 4 p d HG Hf32 ltac:(lia) Hp Hk7 Hd).
      assert (2 ^ 31 * G <= 2 ^ 63 * G) by (apply N.mul_le_mono_r; vm_compute; discriminate). lia. }
    assert (Q : forall ps, Forall (fun d => exists p, p <= 13500 /\ real_period G 4 p d) ps ->
      Forall (fun e : edge => snd e * freq + j * G <= 2 ^ 63 * G) (pair_edges ps)).
    { induction 1 as [|[x y] ps (p & Hp & Hd) F IH]; [constructor|]. cbn [pair_edges]. apply P in Hd; [|exact Hp]. cbn [fst snd] in Hd.
      constructor; [apply Hd|]. constructor; [apply Hd|exact IH]. }
    assert (R : forall gap ps stop, gap * freq + j * G <= 2 ^ 63 * G /\ stop * freq + j * G <= 2 ^ 63 * G ->
      Forall (fun d => exists p, p <= 13500 /\ real_period G 4 p d) ps ->
      Forall (fun e : edge => snd e * freq + j * G <= 2 ^ 63 * G) (burst_edges (gap, ps, stop))).
    { intros gap ps stop [B1 B2] F. cbn [burst_edges]. constructor; [exact B1|]. apply Forall_app. split; [auto|]. constructor; [exact B2|constructor]. }
    unfold bursts in *. induction Hl as [|[[key [[gap ps] stop]] rs] l (_ & Hfr & Hrs) Hl IH]; [constructor|].
    cbn [flat_map fst snd] in Hb |- *. apply Forall_app in Hb. destruct Hb as [Hb1 Hb2]. rewrite flat_map_app. apply Forall_app. split; [|auto].
    apply Forall_cons_iff in Hb1. destruct Hb1 as (B & Hb1). cbn [flat_map]. apply Forall_app. split.
    - apply R; [exact B|]. destruct Hfr as (h & ds & -> & F1 & F2). constructor; [eauto|].
      clear -F2. induction F2 as [|bit d bs ds H F2 IH]; constructor; auto.
      exists (if bit then 2250 else 1120). split; [destruct bit; vm_compute; discriminate|exact H].
    - clear -R Ha1 Hrs Hb1. induction Hrs as [|[[g p] s] rs (_ & d & -> & Hd) Hrs IH]; [constructor|].
      apply Forall_cons_iff in Hb1. destruct Hb1 as (B & Hb1). cbn [flat_map]. apply Forall_app. split; [|auto].
      apply R; [exact B|]. constructor; [eauto|constructor]. }
  destruct (stamped_timed 64 freq G j clock L ltac:(reflexivity) HG Hc HL (presses_edges l) xs 0 0) as [T St]; auto; try lia.
  rewrite Hc0 in T, St. change (0 mod 2 ^ 64) with 0 in T, St. set (ms := intervals (wrapped 64) 0 xs) in *.
  destruct (cap_measured freq G j HG Hj Hk7 Hf _ _ T) as (ms' & T' & Hp & Hs). rewrite cap_edges in T'.
  destruct (family_held b m freq G j V header again silence k C into word (map (cap_press G) l) [] ms')
    as (r0 & r & os1 & os2 & E0 & E & L1 & Hco & He); auto.
  { rewrite Forall_forall in Hw |- *. intros y Hy. apply in_map_iff in Hy. destruct Hy as ([[key f] rs] & <- & Hy). apply (Hw _ Hy). }
  { rewrite Forall_forall in Hl |- *. intros y Hy. apply in_map_iff in Hy. destruct Hy as (y' & <- & Hy). apply cap_ok; auto. }
  destruct os1; [|discriminate L1]. cbn [app] in E. rewrite cap_held in Hco.
  assert (H1 : in_half m ms).
  { unfold in_half. change (dur_bits m) with 64. change (2 ^ 64) with (2 * 2 ^ 63). clear - T Hall HG.
    induction T as [|x y evs ms (_ & T1 & _) T IH]; [constructor|]. apply Forall_cons_iff in Hall. destruct Hall as [A1 A2].
    constructor; [|auto]. assert (snd y < 2 ^ 63) by (apply (N.mul_lt_mono_pos_r G); change (2 ^ (64 - 1)) with (2 ^ 63) in A1; lia). lia. }
  assert (H2 : in_half m ms').
  { unfold in_half. change (dur_bits m) with 64. eapply Forall_impl; [|exact Hs]. intros e He'. cbv beta in He'. 
    apply N.lt_le_trans with (2 * 2 ^ 31); [lia|vm_compute; discriminate]. }
  pose proof (C81_nec b m freq V into ms ms' Hm Hf32 HT Hp H1 H2) as O. unfold outcomes_of in O. rewrite E0 in O. cbn [bind] in O.
  assert (O2 : outs (run_edges (D := nec_dec b m V) into r0 ms) = Val os2).
  { refine (eq_trans O _). refine (eq_trans (f_equal outs E) _). reflexivity. }
  assert (P0 : rv_prev r0 = 0).
  { assert (N1 := nec_new_val b m freq V Hm Hf32 HT). rewrite N1 in E0. injection E0 as <-. reflexivity. }
  destruct (C45_wrap_partial (nec_dec b m V) C into r0 xs) as [W _]. specialize (W 64 mi cs Hok).
  assert (P1 : @rv_prev (nec_dec b m V) r0 = 0) by exact P0. rewrite P1 in W. specialize (W St). fold ms in W. fold m in W.
  assert (O3 : outs (run_instants (D := nec_dec b m V) into m r0 xs) = Val os2) by (refine (eq_trans W O2)).
  destruct (run_instants (D := nec_dec b m V) into m r0 xs) as [[r2 os]| |] eqn:E2; try discriminate O3.
  cbn [outs bind] in O3. injection O3 as ->. exists r0, r2, os2. auto.
Qed.

(** ** C82: the example for the Raspberry Pi Pico

    [examples/rp-pico/src/bin/receiver-event-driven-rtic.rs]: an Apple remote, handlers that
    read the microsecond timer at most 69 microseconds after their edges; pauses of any
    length below 2^63 microseconds. *)

Lemma pico_prints b xs : forall (r r' : pico_app b) os,
  run_instants (D := nec_dec b (fugit_u64 PICO_HZ) NecApple) (fun c => c) (fugit_u64 PICO_HZ) r xs = Val (r', os) ->
  exists ps, run_res pico_irq r xs = Val (r', ps) /\ concat ps = commands os.
Proof.
  induction xs as [|[low now] xs IH]; intros r r' os E; cbn [run_instants] in E.
  - injection E as -> <-. exists []. split; reflexivity.
  - cbn [run_res pico_irq].
    destruct (event_instant (D := nec_dec b (fugit_u64 PICO_HZ) NecApple) (fun c => c) (fugit_u64 PICO_HZ) r now low) as [[r1 o]| |]; cbn [bind] in E |- *; try discriminate.
    destruct (run_instants (D := nec_dec b (fugit_u64 PICO_HZ) NecApple) (fun c => c) (fugit_u64 PICO_HZ) r1 xs) as [[r2 os2]| |] eqn:E2; cbn [bind] in E; try discriminate.
    injection E as -> <-. destruct (IH r1 r' os2 E2) as (ps & E3 & Ec).
    rewrite E3. cbn [bind]. eexists. split; [reflexivity|]. cbn [concat]. rewrite Ec.
    destruct o as [[c|]|e]; reflexivity.
Qed.

Theorem C82_pico :
  forall b G L (l : list (press N)) clock xs,
  0 < G -> 1000000 * L <= 69 * G -> counts 1000000 G 1 clock -> clock 0 = 0 ->
  Forall (fun y => apple_key (fst (fst y))) l ->
  Forall (real_press G 4 13500 11250 27000 (fun w => w)) l ->
  Forall (fun y : burst => let '(gap, _, stop) := y in
            gap * 1000000 + 70 * G <= 2 ^ 63 * G /\ stop * 1000000 + 70 * G <= 2 ^ 63 * G) (bursts l) ->
  stamped 64 clock L 0 0 (presses_edges l) xs ->
  exists r0 r ps, pico_new b = Val r0 /\ run_res pico_irq r0 xs = Val (r, ps) /\
    concat ps = map (fun x => mkApple (field (fst x) 0 5) (field (fst x) 17 7) (field (fst x) 24 8) (snd x)) (held l).
Proof.
  intros b G L l clock xs HG HL Hc Hc0 Hp Hl Hb Hx.
  destruct (fugit64_held b (fun p => p * 1000000 / 1000000) (fun t prev => let d := (t + 2 ^ 64 - prev) mod 2 ^ 64 in if d <? 2 ^ 63 then Some d else None)
    1000000 G 70 L NecApple 13500 11250 27000 7000 _ (fun c => c) (fun w => w) l clock xs)
    as (r0 & r & os & E0 & E & Ec); auto; try reflexivity; try lia.
  - split; [discriminate|reflexivity].
  - intros prev t _ _ H. change (2 ^ (64 - 1)) with (2 ^ 63) in H. unfold wrapped in *. apply N.ltb_lt in H. rewrite H. reflexivity.
  - left. reflexivity.
  - eapply (words_fit apple_key (fun w => w)); [exact Hp|]. intros k [H1 _]. exact H1.
  - destruct (pico_prints b xs r0 r os E) as (ps & Ep & Eq). exists r0, r, ps. split; [exact E0|]. split; [exact Ep|].
    rewrite Eq. refine (eq_trans Ec _). rewrite <- flat_map_map. apply said_all with (P := apple_key); [exact Hp|].
    intros k rep Hkey. cbn [fst snd]. exact (apple_said k rep apple_command (fun c => c) Hkey).
Qed.
Print Assumptions C82_pico.

(** Right, held for a repeat code, and menu, forty days later.  Time is counted in
    microseconds, each handler reads the timer up to 68 of them after its edge. *)
Definition pico_keys : list (press N) :=
  [ (1510442990, (50000, slow_nec 1510442990, 560), [(98000, [(9180, 2300)], 570)]);
    (1510115310, (3456000000000, slow_nec 1510115310, 555), []) ].
Fixpoint stamps64 (i t : N) (evs : list edge) : list (bool * N) :=
  match evs with
  | [] => []
  | (l, D) :: r => (l, ((t + D + i mod 69)) mod 2 ^ 64) :: stamps64 (i + 17) (t + D) r
  end.
Lemma stamps64_ok evs : forall i t read, read <= t + 69 -> (forall l D, In (l, D) evs -> 69 <= D) ->
  stamped 64 (fun t => t) 69 t read evs (stamps64 i t evs).
Proof.
  induction evs as [|[l D] evs IH]; intros i t read Hr H; cbn [stamps64 stamped]; [exact I|].
  split; [reflexivity|]. pose proof (N.mod_lt i 69 ltac:(discriminate)) as Hi.
  pose proof (H l D (or_introl eq_refl)) as HD. exists (i mod 69).
  repeat split; try lia. apply IH; [lia|]. intros l' D' HI. apply (H l'). right. exact HI.
Qed.

Definition pico_printed (b : build) (xs : list (bool * N)) : option (list apple_command) :=
  match pico_new b with
  | Val r => match run_res pico_irq r xs with Val (_, ps) => Some (concat ps) | _ => None end
  | _ => None
  end.

Example C82_example :
  let xs := stamps64 5 0 (presses_edges pico_keys) in
  1000000 * 69 <= 69 * 1000000 /\ counts 1000000 1000000 1 (fun t => t) /\
  Forall (fun y => apple_key (fst (fst y))) pico_keys /\
  Forall (real_press 1000000 4 13500 11250 27000 (fun w => w)) pico_keys /\
  Forall (fun y : burst => let '(gap, _, stop) := y in
            gap * 1000000 + 70 * 1000000 <= 2 ^ 63 * 1000000 /\ stop * 1000000 + 70 * 1000000 <= 2 ^ 63 * 1000000) (bursts pico_keys) /\
  stamped 64 (fun t => t) 69 0 0 (presses_edges pico_keys) xs /\
  pico_printed (debug_build 32) xs = Some [mkApple 14 3 90 false; mkApple 14 3 90 true; mkApple 14 1 90 false].
Proof.
  intros xs.
  assert (H1 : counts 1000000 1000000 1 (fun t => t)) by (apply exact_clock; reflexivity).
  assert (H2 : Forall (fun y => apple_key (fst (fst y))) pico_keys).
  { unfold pico_keys. apply Forall_cons; [|apply Forall_cons; [|apply Forall_nil]]; (split; [|split]; vm_compute; reflexivity). }
  assert (H3 : Forall (real_press 1000000 4 13500 11250 27000 (fun w => w)) pico_keys).
  { unfold pico_keys. apply Forall_cons; [|apply Forall_cons; [|apply Forall_nil]]; cbn [real_press].
    - split; [vm_compute; discriminate|]. split; [apply real_nec_ok; vm_compute; reflexivity|].
      apply Forall_cons; [|apply Forall_nil]. split; [vm_compute; discriminate|].
      exists (9180, 2300). split; [reflexivity|]. apply real_nearb_ok. vm_compute. reflexivity.
    - split; [vm_compute; discriminate|]. split; [apply real_nec_ok; vm_compute; reflexivity|apply Forall_nil]. }
  assert (H4 : Forall (fun y : burst => let '(gap, _, stop) := y in
            gap * 1000000 + 70 * 1000000 <= 2 ^ 63 * 1000000 /\ stop * 1000000 + 70 * 1000000 <= 2 ^ 63 * 1000000) (bursts pico_keys)).
  { unfold pico_keys, bursts. cbn [flat_map fst snd app].
    repeat (apply Forall_cons; [split; vm_compute; discriminate|]). apply Forall_nil. }
  assert (H5 : stamped 64 (fun t => t) 69 0 0 (presses_edges pico_keys) xs).
  { apply stamps64_ok; [lia|]. assert (H : forallb (fun e : edge => 69 <=? snd e) (presses_edges pico_keys) = true) by (vm_compute; reflexivity).
    intros l D HI. rewrite forallb_forall in H. apply H in HI. apply N.leb_le. exact HI. }
  split; [vm_compute; discriminate|]. split; [exact H1|]. split; [exact H2|]. split; [exact H3|]. split; [exact H4|]. split; [exact H5|].
  destruct (C82_pico (debug_build 32) 1000000 69 pico_keys (fun t => t) xs ltac:(reflexivity) ltac:(discriminate) H1 eq_refl H2 H3 H4 H5)
    as (r0 & r & ps & E0 & E & Ec).
  unfold pico_printed. rewrite E0, E, Ec. vm_compute. reflexivity.
Qed.
