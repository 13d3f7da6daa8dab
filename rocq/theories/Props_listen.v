(** * Property theorems: the event-driven example with its 32-bit counter *)
From Coq Require Import NArith ZArith List Bool Lia ZifyBool ZifyNat ZifyN.
From Verif Require Import Machine Time Decoder Nec Receiver Spec Bits Codec_facts Time_facts Run_facts Nec_facts
  Spec_receiver Receiver_facts Spec_phys Phys_facts Spec_keys Keys_facts Apps Spec_listen Listen_facts
  Props_decode Props_phys Props_keys Example_facts.
Import ListNotations.
Open Scope N_scope.

Lemma listener_held b freq G j L S V header again silence k C (into : nv_cmd V -> C) {K} (word : K -> N) (l : list (press K))
    clock t xs :
  freq < 2 ^ 32 -> 0 < G -> k * (2 * j + 1) <= freq ->
  nec_timing_ok (nv_timing V) -> header_high (nv_timing V) + header_low (nv_timing V) = header ->
  header_high (nv_timing V) + repeat_low (nv_timing V) = again -> silence = 2 * header ->
  header = 13500 /\ k = 7000 \/ header = 9000 /\ k = 7700 ->
  Forall (fun y => word (fst (fst y)) < 2 ^ 32) l ->
  Forall (real_press G 4 header again silence word) l ->
  counts freq G 1 clock -> G + L * freq <= j * G -> S * freq + j * G < 2 ^ 31 * G ->
  Forall (fun y : burst => let '(gap, _, stop) := y in silence * (G * freq) <= 1000000 * shown freq G gap /\
            shown freq G gap + S * freq + 2 * (j * G) <= 2 ^ 32 * G /\ stop <= S) (bursts l) ->
  handled clock L t t (presses_edges l) xs ->
  exists r0 s ps, receiver_new (nec_protocol b MU32 V) freq = Val r0 /\
    run_res (exti9_5 (D := nec_dec b MU32 V) into) (mkListener None r0) xs = Val (s, ps) /\
    concat ps = flat_map (fun x => said V into (word (fst x)) (snd x)) (held l).
Proof.
  intros Hf HG Hk HT Eh Ea Es Hh Hw Hl Hc HL HS Hb Hx.
  assert (A : (header = 13500 /\ again = 11250 /\ k = 7000) \/ (header = 9000 /\ again = 6750 /\ k = 7700)).
  { destruct HT as [ET|ET]; rewrite ET in *; cbn in Eh, Ea; subst; destruct Hh as [[? ?]|[? ?]]; try discriminate; auto. }
  assert (Hj : 1 <= j). { destruct j as [|p]; [exfalso; lia|lia]. }
  assert (H893 : 893 <= freq) by lia.
  exists (@mkRecv (nec_dec b MU32 V) (mkNecDec NInit 0 0 (spans_of MU32 freq (nec_pulses (nv_timing V)))) 0).
  assert (E0 : receiver_new (nec_protocol b MU32 V) freq =
    Val (@mkRecv (nec_dec b MU32 V) (mkNecDec NInit 0 0 (spans_of MU32 freq (nec_pulses (nv_timing V)))) 0)).
  { apply nec_new_val; auto. exact I. }
  destruct l as [|y l0].
  { destruct xs; [|contradiction]. exists (mkListener None (@mkRecv (nec_dec b MU32 V) (mkNecDec NInit 0 0 (spans_of MU32 freq (nec_pulses (nv_timing V)))) 0)), [].
    split; [exact E0|]. split; reflexivity. }
  set (l := y :: l0) in *.
  (* the first edge is not given to the receiver; pretend that it measured the pause *)
  assert (Ex : exists gap evs now later xs', presses_edges l = (true, gap) :: evs /\ xs = (true, now, later) :: xs' /\
     Forall2 (cut_timed freq G j) evs (read_intervals now xs')).
  { destruct y as [[k0 [[gap ps] stop]] rs]. unfold l in Hx |- *. unfold presses_edges in Hx |- *.
    cbn [flat_map press_edges burst_edges app] in Hx |- *. destruct xs as [|[[low now] later] xs']; [contradiction|].
    cbn [handled] in Hx. destruct Hx as (-> & a & c & Ha & Hac & HcL & -> & -> & Hx).
    exists gap. eexists. do 3 eexists. split; [reflexivity|]. split; [reflexivity|].
    eapply handled_timed; [exact Hc|exact HL| | |exact Hx]; lia. }
  destruct Ex as (gap & evs & now & later & xs' & El & -> & F).
  set (d0 := (gap * freq / G) mod 2 ^ 32).
  assert (F' : Forall2 (cut_timed freq G j) (presses_edges l) ((true, d0) :: read_intervals now xs')).
  { rewrite El. constructor; [|exact F]. split; [reflexivity|]. exists (gap * freq / G). split; [|reflexivity].
    unfold timed. cbn [fst snd]. split; [reflexivity|].
    pose proof (N.div_mod (gap * freq) G ltac:(lia)) as Ed. pose proof (N.mod_lt (gap * freq) G ltac:(lia)) as Hr.
    assert (G <= j * G) by (replace G with (1 * G) at 1 by ring; apply N.mul_le_mono_r; exact Hj). lia. }
  destruct (cut_series freq G j S header again silence k (S * freq + j * G) word Hf HG Hj Hk A Es HS) with (l := l) (ms := (true, d0) :: read_intervals now xs')
    as (l' & Em & Eh' & Ek & Hl2 & Hfit & _); auto.
  { replace (S * freq + j * G) with ((S * freq + j * G) * 1) at 1 by ring. apply N.mul_le_mono_l. lia. }
  pose proof (fun Hw' => presses_run b MU32 freq V I Hf HT H893 into word l' Hw') as R. rewrite Eh, Ea in R. specialize (R) with (2 := Hl2).
  destruct (R) with (buf := 0) (sv := 0) (pv := 0) as (r & os & E & Hco & _).
  { rewrite Forall_forall in Hw |- *. intros z Hz.
    apply (in_map (fun y : K * burst * list burst => fst (fst y))) in Hz. pose proof (eq_ind _ (fun q => In _ q) Hz _ Ek) as Hz2. cbv beta in Hz2. apply in_map_iff in Hz2.
    destruct Hz2 as (z' & Ez & Hz'). rewrite <- Ez. apply Hw, Hz'. }
  { rewrite <- Em. exact Hfit. }
  rewrite <- Em in E. cbn [run_edges] in E.
  assert (Hd0 : longer freq header 7 d0).
  { destruct y as [[k0 [[gap0 ps] stop]] rs]. destruct l' as [|[[k1 [[gap1 ps1] stop1]] rs1] l1]; [discriminate Em|].
    unfold presses_edges in Em. cbn [flat_map press_edges burst_edges app] in Em. injection Em as -> _.
    apply Forall_cons_iff in Hl2. destruct Hl2 as ((H & _) & _). exact H. }
  rewrite (idle_gap b MU32 freq V I Hf HT H893 into 0 0 0 d0) in E; [|cbn [fit] in Hfit; tauto|rewrite Eh; exact Hd0].
  cbn [bind] in E.
  destruct (run_edges (D := nec_dec b MU32 V) into (@mkRecv (nec_dec b MU32 V) (mkNecDec NInit 0 0 (spans_of MU32 freq (nec_pulses (nv_timing V)))) 0) (read_intervals now xs'))
    as [[r' os']| |] eqn:E4; cbn [bind] in E; try discriminate.
  injection E as <- <-.
  destruct (exti_run (D := nec_dec b MU32 V) into xs' now _ _ _ E4) as (i' & ps & E5 & Ec).
  exists (mkListener (Some i') r'), ([] :: ps). split; [exact E0|]. split.
  - cbn [run_res exti9_5 ln_last ln_recv bind]. rewrite E5. reflexivity.
  - cbn [concat app]. rewrite Ec, <- Eh'. exact Hco.
Qed.

(** Receivers that take timestamps (fugit, 32 bits), from the start of the timer. *)
Lemma stamped_intervals xs : forall prev,
  Spec_receiver.intervals (fun p t => let d := wrapping_sub32 t p in if d <? 2 ^ 31 then d else 0) prev xs =
  map half (read_intervals prev (map (fun x => (fst x, snd x, snd x)) xs)).
Proof.
  induction xs as [|[l n] xs IH]; intros prev; [reflexivity|].
  cbn [Spec_receiver.intervals map read_intervals fst snd]. rewrite IH. reflexivity.
Qed.

Lemma stamped_handled clock L evs : forall t read xs, stamped 32 clock L t read evs xs ->
  handled clock L t read evs (map (fun x => (fst x, snd x, snd x)) xs).
Proof.
  induction evs as [|[l D] evs IH]; intros t read [|[low now] xs] H; cbn [stamped] in H; try contradiction; cbn [map handled]; [exact I|].
  destruct H as (-> & a & Ha & HaL & -> & H). split; [reflexivity|]. cbn [fst snd]. exists a, a. repeat split; auto. lia.
Qed.

(** The outcomes for timestamps are those for the differences, 0 where they are unknown. *)
Lemma fugit_outs hz {D : decoder} {C} (into : dcmd D -> C) xs : forall r : receiver D,
  outs (run_instants into (fugit_u32 hz) r xs) =
  outs (run_edges into r (Spec_receiver.intervals (fun p t => let d := wrapping_sub32 t p in if d <? 2 ^ 31 then d else 0) (rv_prev r) xs)).
Proof.
  induction xs as [|[e t] xs IH]; intros r; [reflexivity|].
  cbn [run_instants run_edges Spec_receiver.intervals]. unfold event_instant. cbn [checked_sub fugit_u32].
  replace (match (if wrapping_sub32 t (rv_prev r) <? 2 ^ 31 then Some (wrapping_sub32 t (rv_prev r)) else None) with Some x => x | None => 0 end)
    with (if wrapping_sub32 t (rv_prev r) <? 2 ^ 31 then wrapping_sub32 t (rv_prev r) else 0) by (destruct (_ <? _); reflexivity).
  set (d := if wrapping_sub32 t (rv_prev r) <? 2 ^ 31 then wrapping_sub32 t (rv_prev r) else 0).
  change (let d0 := wrapping_sub32 t (rv_prev r) in if d0 <? 2 ^ 31 then d0 else 0) with d. clearbody d.
  destruct r as [dd p]. cbn [rv_dec rv_prev] in *.
  rewrite (event_edge_prev into dd t), (event_edge_prev into dd p).
  destruct (event_edge into (mkRecv dd 0) d e) as [[r1 o]| |]; cbn [bind]; auto.
  assert (I1 := IH (mkRecv (rv_dec r1) t)). cbn [rv_prev] in I1.
  rewrite (run_edges_outs_prev into _ (rv_dec r1) t p) in I1.
  destruct (run_instants into (fugit_u32 hz) _ xs) as [[r2 os]| |];
    destruct (run_edges into _ (Spec_receiver.intervals _ t xs)) as [[r3 os']| |];
    cbn [outs bind] in *; try discriminate; try (injection I1 as ->); reflexivity.
Qed.

Lemma stamped_held b freq G j L S V header again silence k lim C (into : nv_cmd V -> C) {K} (word : K -> N) (l : list (press K))
    resolution clock xs :
  freq < 2 ^ 32 -> 0 < G -> k * (2 * j + 1) <= freq ->
  nec_timing_ok (nv_timing V) -> header_high (nv_timing V) + header_low (nv_timing V) = header ->
  header_high (nv_timing V) + repeat_low (nv_timing V) = again -> silence = 2 * header ->
  header = 13500 /\ k = 7000 \/ header = 9000 /\ k = 7700 ->
  Forall (fun y => word (fst (fst y)) < 2 ^ 32) l ->
  Forall (real_press G 4 header again silence word) l ->
  counts freq G 1 clock -> clock 0 = 0 -> G + L * freq <= j * G -> S * freq + j * G < 2 ^ 31 * G -> S * freq + j * G <= lim * G ->
  100 * lim <= 92 * nominal freq header -> 100 * lim <= 92 * nominal freq again ->
  Forall (shows freq G j S silence) (bursts l) ->
  stamped 32 clock L 0 0 (presses_edges l) xs ->
  exists r0 r os, receiver_new (nec_protocol b (fugit_u32 freq) V) resolution = Val r0 /\
    run_instants (D := nec_dec b (fugit_u32 freq) V) into (fugit_u32 freq) r0 xs = Val (r, os) /\
    commands os = flat_map (fun x => said V into (word (fst x)) (snd x)) (held l).
Proof.
  intros Hf HG Hk HT Eh Ea Es Hh Hw Hl Hc Hc0 HL HS Hlim Hl1 Hl2 Hb Hx.
  assert (A : (header = 13500 /\ again = 11250 /\ k = 7000) \/ (header = 9000 /\ again = 6750 /\ k = 7700)).
  { destruct HT as [ET|ET]; rewrite ET in *; cbn in Eh, Ea; subst; destruct Hh as [[? ?]|[? ?]]; try discriminate; auto. }
  assert (Hj : 1 <= j). { destruct j as [|p]; [exfalso; lia|lia]. }
  assert (H893 : 893 <= freq) by lia.
  assert (Hm : timebase (fugit_u32 freq) freq) by (split; [discriminate|reflexivity]).
  apply stamped_handled in Hx. apply (handled_timed freq G j clock L Hc HL) in Hx; [|lia|lia].
  rewrite Hc0 in Hx. change (0 mod 2 ^ 32) with 0 in Hx.
  destruct (cut_series freq G j S header again silence k lim word Hf HG Hj Hk A Es HS Hlim l _ Hl Hb Hx)
    as (l' & Em & Eh' & Ek & Hl' & Hfit & Hmarks). rewrite Em in Hfit, Hmarks.
  rewrite <- Eh, <- Ea in Hl'. rewrite <- Eh in Hl1. rewrite <- Ea in Hl2.
  destruct (half_run b (fugit_u32 freq) freq V Hm Hf HT H893 into lim Hl1 Hl2 word l') as (r & os & E & Hco); auto.
  { rewrite Forall_forall in Hw |- *. intros z Hz.
    apply (in_map (fun y : K * burst * list burst => fst (fst y))) in Hz. pose proof (eq_ind _ (fun q => In _ q) Hz _ Ek) as Hz2. cbv beta in Hz2. apply in_map_iff in Hz2.
    destruct Hz2 as (z' & Ez & Hz'). rewrite <- Ez. apply Hw, Hz'. }
  set (r0 := @mkRecv (nec_dec b (fugit_u32 freq) V) (mkNecDec NInit 0 0 (spans_of (fugit_u32 freq) freq (nec_pulses (nv_timing V)))) 0) in *.
  assert (E0 : receiver_new (nec_protocol b (fugit_u32 freq) V) resolution = Val r0).
  { assert (N1 : receiver_new (nec_protocol b (fugit_u32 freq) V) freq = Val r0) by (apply nec_new_val; auto). rewrite <- N1. reflexivity. }
  pose proof (fugit_outs freq (D := nec_dec b (fugit_u32 freq) V) into xs r0) as O. cbn [rv_prev] in O.
  change (rv_prev r0) with 0 in O. rewrite stamped_intervals, Em in O.
  assert (E' : run_edges (D := nec_dec b (fugit_u32 freq) V) into r0 (map half (presses_edges l')) = Val (r, os)) by exact E.
  rewrite E' in O. unfold outs in O at 2. cbn [bind] in O.
  destruct (run_instants (D := nec_dec b (fugit_u32 freq) V) into (fugit_u32 freq) r0 xs) as [[r2 os2]| |] eqn:E2; try discriminate O.
  cbn [outs bind] in O. injection O as ->.
  exists r0, r2, os. split; [exact E0|]. split; [exact E2|]. rewrite Hco, Eh'. reflexivity.
Qed.

(** ** C76: the event-driven example prints the keys of an Apple remote

    [examples/bluepill/src/bin/receiver-event-driven.rs]: each handler runs at most 70
    microseconds after its edge.  A pause is seen by the 32-bit cycle counter modulo 2^32
    ticks, 89.5 seconds; it must not show as less than 27 ms or lie within 1.25 ms of the
    wrap. *)
Theorem C76_event_driven :
  forall b G L (l : list (press N)) clock t xs,
  0 < G -> 1000000 * L <= 70 * G -> counts 48000000 G 1 clock ->
  Forall (fun y => apple_key (fst (fst y))) l ->
  Forall (real_press G 4 13500 11250 27000 (fun w => w)) l ->
  Forall (fun y : burst => let '(gap, _, stop) := y in 1000 * stop <= G /\
            1296000 * G <= shown 48000000 G gap /\ shown 48000000 G gap + 60000 * G <= 2 ^ 32 * G) (bursts l) ->
  handled clock L t t (presses_edges l) xs ->
  exists a s ps, listener_new b = Val a /\ run_res (exti9_5 (D := nec_dec b MU32 NecApple) (fun c => c)) a xs = Val (s, ps) /\
    concat ps = map (fun x => mkApple (field (fst x) 0 5) (field (fst x) 17 7) (field (fst x) 24 8) (snd x)) (held l).
Proof.
  intros b G L l clock t xs HG HL Hc Hp Hl Hb Hx.
  assert (HS : 1000 * (G / 1000) <= G) by (apply N.mul_div_le; discriminate).
  destruct (listener_held b 48000000 G 3361 L (G / 1000) NecApple 13500 11250 27000 7000 _ (fun c => c) (fun w => w) l clock t xs)
    as (r0 & s & ps & E0 & E & Ec); auto; try reflexivity; try lia.
  - left. reflexivity.
  - eapply (words_fit apple_key (fun w => w)); [exact Hp|]. intros k [H1 _]. exact H1.
  - eapply Forall_impl; [|exact Hb]. intros [[gap ps] stop] (B1 & B2 & B3). split; [lia|]. split; [lia|].
    apply N.div_le_lower_bound; [discriminate|exact B1].
  - exists (mkListener None r0), s, ps. unfold listener_new. unfold MONO_FREQ. rewrite E0. split; [reflexivity|]. split; [exact E|].
    refine (eq_trans Ec _). rewrite <- flat_map_map. apply said_all with (P := apple_key); [exact Hp|].
    intros k rep Hkey. cbn [fst snd]. apply apple_said, Hkey.
Qed.
Print Assumptions C76_event_driven.

(** The handlers of an exact signal: time in counter ticks, each handler reads [lag] and
    then [2 * lag] ticks after its edge, [lag] changing from edge to edge. *)
Fixpoint handlers (i t : N) (evs : list edge) : list (bool * N * N) :=
  match evs with
  | [] => []
  | (l, D) :: r => let lag := i mod 1000 in
      (l, (t + D + lag) mod 2 ^ 32, (t + D + 2 * lag) mod 2 ^ 32) :: handlers (i + 397) (t + D) r
  end.
Lemma handlers_ok evs : forall i t read, read <= t + 1000 -> (forall l D, In (l, D) evs -> 1000 <= D) ->
  handled (fun x => x) 2000 t read evs (handlers i t evs).
Proof.
  induction evs as [|[l D] evs IH]; intros i t read Hr H; cbn [handlers handled]; [exact I|].
  split; [reflexivity|]. pose proof (N.mod_lt i 1000 ltac:(discriminate)) as Hi.
  pose proof (H l D (or_introl eq_refl)) as HD. exists (i mod 1000), (2 * (i mod 1000)).
  repeat split; try lia. apply IH; [lia|]. intros l' D' HI. apply (H l'). right. exact HI.
Qed.
Lemma handlers_ok_b evs i t : forallb (fun e : edge => 1000 <=? snd e) evs = true -> handled (fun x => x) 2000 t t evs (handlers i t evs).
Proof.
  intros H. apply handlers_ok; [lia|]. intros l D HI. rewrite forallb_forall in H. apply H in HI. apply N.leb_le. exact HI.
Qed.

Lemma exact_clock freq : 0 < freq -> counts freq freq 1 (fun x => x).
Proof.
  intros Hf s t H. split; [exact H|]. rewrite N.mul_1_l. assert (0 < freq) by exact Hf. lia.
Qed.

(** A key (menu) in counter ticks of 1/48 microseconds, held for one repeat code, then the
    next key after [pause] ticks. *)
Definition in_ticks (d : N * N) : N * N := (48 * fst d, 48 * snd d).
Definition menu_then (w pause : N) : list (press N) :=
  [ (1510115310, (2200000, map in_ticks (slow_nec 1510115310), 27000), [(4700000, [(48 * 9180, 48 * 2300)], 27100)]);
    (w, (pause, map in_ticks (slow_nec w), 26900), []) ].
Definition menu_edges (pause : N) : list edge := presses_edges (menu_then 1510442990 pause).

(** What the example prints. *)
Definition app_prints (b : build) (xs : list (bool * N * N)) : option (list apple_command) :=
  match listener_new b with
  | Val a => match run_res (exti9_5 (D := nec_dec b MU32 NecApple) (fun c => c)) a xs with
             | Val (_, ps) => Some (concat ps)
             | _ => None
             end
  | _ => None
  end.

Lemma menu_press w pause : real_nec 48000000 4 13500 w (map in_ticks (slow_nec w)) -> real_long 48000000 27000 pause ->
  Forall (real_press 48000000 4 13500 11250 27000 (fun w => w)) (menu_then w pause).
Proof.
  intros Hw Hp. unfold menu_then. apply Forall_cons; [|apply Forall_cons; [|apply Forall_nil]]; cbn [real_press].
  - split; [vm_compute; discriminate|]. split; [apply real_nec_ok; vm_compute; reflexivity|].
    apply Forall_cons; [|apply Forall_nil]. split; [vm_compute; discriminate|].
    exists (48 * 9180, 48 * 2300). split; [reflexivity|]. apply real_nearb_ok. vm_compute. reflexivity.
  - split; [exact Hp|]. split; [exact Hw|apply Forall_nil].
Qed.

(** The second key comes more than a counter period later (90 s). *)
Example C76_example :
  let pause := 90 * 48000000 in
  let xs := handlers 5 4294000000 (menu_edges pause) in
  counts 48000000 48000000 1 (fun x => x) /\ 1000000 * 2000 <= 70 * 48000000 /\
  Forall (fun y => apple_key (fst (fst y))) (menu_then 1510442990 pause) /\
  Forall (real_press 48000000 4 13500 11250 27000 (fun w => w)) (menu_then 1510442990 pause) /\
  Forall (fun y : burst => let '(gap, _, stop) := y in 1000 * stop <= 48000000 /\
            1296000 * 48000000 <= shown 48000000 48000000 gap /\ shown 48000000 48000000 gap + 60000 * 48000000 <= 2 ^ 32 * 48000000)
    (bursts (menu_then 1510442990 pause)) /\
  handled (fun x => x) 2000 4294000000 4294000000 (menu_edges pause) xs /\
  app_prints (debug_build 32) xs = Some [mkApple 14 1 90 false; mkApple 14 1 90 true; mkApple 14 3 90 false].
Proof.
  intros pause xs. split; [apply exact_clock; reflexivity|]. split; [vm_compute; discriminate|].
  split. { unfold menu_then. apply Forall_cons; [|apply Forall_cons; [|apply Forall_nil]]; (split; [|split]; vm_compute; reflexivity). }
  split. { apply menu_press; [apply real_nec_ok; vm_compute; reflexivity|vm_compute; discriminate]. }
  split. { unfold menu_then, bursts. cbn [flat_map fst snd app].
    repeat (apply Forall_cons; [split; [|split]; vm_compute; discriminate|]). apply Forall_nil. }
  split; [apply handlers_ok_b; vm_compute; reflexivity|]. vm_compute. reflexivity.
Qed.

(** Both limits on the pauses are needed.  A pause of 89.49 s shows as 12.9 ms: the second
    key is not printed.  A pause of 89.4783 s makes the sum of mark and pause overflow: with
    overflow checks the example panics. *)
Theorem C76_limits_needed :
  exists pause1 pause2,
    Forall (real_press 48000000 4 13500 11250 27000 (fun w => w)) (menu_then 1510442990 pause1) /\
    Forall (real_press 48000000 4 13500 11250 27000 (fun w => w)) (menu_then 1510442990 pause2) /\
    handled (fun x => x) 2000 0 0 (menu_edges pause1) (handlers 5 0 (menu_edges pause1)) /\
    handled (fun x => x) 2000 0 0 (menu_edges pause2) (handlers 5 0 (menu_edges pause2)) /\
    (forall b, app_prints b (handlers 5 0 (menu_edges pause1)) = Some [mkApple 14 1 90 false; mkApple 14 1 90 true]) /\
    app_prints (debug_build 32) (handlers 5 0 (menu_edges pause2)) = None.
Proof.
  exists (2 ^ 32 + 619200), (2 ^ 32 - 9000).
  split; [apply menu_press; [apply real_nec_ok; vm_compute; reflexivity|vm_compute; discriminate]|].
  split; [apply menu_press; [apply real_nec_ok; vm_compute; reflexivity|vm_compute; discriminate]|].
  split; [apply handlers_ok_b; vm_compute; reflexivity|]. split; [apply handlers_ok_b; vm_compute; reflexivity|].
  split; [intros [? []]|]; vm_compute; reflexivity.
Qed.
Print Assumptions C76_limits_needed.
