(** * Keys held down: lemmas *)
From Coq Require Import NArith ZArith List Bool Lia ZifyBool ZifyNat ZifyN.
From Verif Require Import Machine Time Decoder Nec Receiver Spec Bits Codec_facts Time_facts Run_facts Nec_facts
  Spec_receiver Spec_phys Phys_facts Spec_keys.
Import ListNotations.
Open Scope N_scope.

Lemma presses_bursts {K} (l : list (press K)) : presses_edges l = flat_map burst_edges (bursts l).
Proof.
  unfold presses_edges, bursts. induction l as [|[[k f] rs] l IH]; [reflexivity|].
  cbn [flat_map press_edges fst snd]. rewrite IH, flat_map_app. cbn [flat_map]. rewrite <- app_assoc. reflexivity.
Qed.

(** ** In ticks *)
Definition press_near {K} (freq header again : N) (word : K -> N) (y : press K) : Prop :=
  let '(k, (gap, ps, _), rs) := y in
  longer freq header 7 gap /\ nec_frame freq header (word k) ps /\
  Forall (fun r : burst => let '(gap, ps, _) := r in
            longer freq header 7 gap /\ exists d, ps = [d] /\ period_near freq again 7 d) rs.

(** The same without the pauses. *)
Definition press_shape {K} (freq header again : N) (word : K -> N) (y : press K) : Prop :=
  let '(k, (_, ps, _), rs) := y in
  nec_frame freq header (word k) ps /\
  Forall (fun r : burst => let '(_, ps, _) := r in exists d, ps = [d] /\ period_near freq again 7 d) rs.

Lemma near_shape {K} freq header again (word : K -> N) y : press_near freq header again word y -> press_shape freq header again word y.
Proof.
  destruct y as [[k [[gap ps] stop]] rs]. intros (_ & H1 & H2). split; [exact H1|]. eapply Forall_impl; [|exact H2].
  intros [[g p] s] (_ & H). exact H.
Qed.

Lemma commands_app {C E} (a c : list (result (option C) E)) : commands (a ++ c) = commands a ++ commands c.
Proof. unfold commands. apply flat_map_app. Qed.

Lemma commands_none {C E} n : commands (repeat (@ROk (option C) E None) n) = [].
Proof. induction n; auto. Qed.

Definition no_error {C} (os : list (outcome C)) : Prop := Forall (fun o => exists c, o = ROk c) os.

Lemma no_error_app {C} (a c : list (outcome C)) : no_error a -> no_error c -> no_error (a ++ c).
Proof. unfold no_error. intros. apply Forall_app. auto. Qed.

Lemma no_error_none {C} n : no_error (repeat (@ROk (option C) decoding_error None) n).
Proof. apply Forall_forall. intros x H. apply repeat_spec in H. subst. eauto. Qed.

Section Keys.
  Variables (b : build) (m : mono) (freq : N) (V : nec_variant).
  Let T := nv_timing V.
  Hypothesis (Hm : timebase m freq) (Hf : freq < M32) (HT : nec_timing_ok T) (H893 : 893 <= freq).
  Let ss := spans_of m freq (nec_pulses T).
  Notation D := (nec_dec b m V).
  Context {C : Type} (into : nv_cmd V -> C).
  Notation run := (@run_edges D C into).
  Notation ev := (@event_edge D C into).
  Notation st s buf sv pv := (@mkRecv D (mkNecDec s buf sv ss) pv).
  Notation header := (header_high T + header_low T).
  Notation again := (header_high T + repeat_low T).

  Definition said (w : N) (rep : bool) : list C :=
    match nv_unpack V w rep with Some c => [into c] | None => [] end.

  (** A rise, when the sum fits 32 bits. *)
  Lemma rise_fit sv buf pv d : sv + d < 2 ^ 32 -> nec_class ss (d + sv) = PInvalid ->
    ev (st NInit buf sv pv) d true = Val (st NInit buf 0 pv, ROk None).
  Proof.
    intros H1 H2. unfold event_edge. cbn [rv_dec d_event nec_dec rv_prev d_reset d_command].
    unfold nec_event. cbn [ns_dt_save ns_spans ns_state ns_bitbuf].
    assert (E : dur_add b m d sv = Val (d + sv)).
    { clear H2 into. change (2 ^ 32) with 4294967296 in *. destruct m as [| |w mi cs]; cbn [dur_add]; unfold uadd; rewrite (proj2 (N.ltb_lt _ _)); auto.
      - change (2 ^ 32) with 4294967296. lia.
      - change (2 ^ 64) with 18446744073709551616. lia.
      - destruct Hm as [Hw _]. pose proof (pow_ge w Hw). unfold M32 in *. lia. }
    rewrite E. cbn [bind]. unfold nec_class in H2. rewrite H2. reflexivity.
  Qed.

  (** The silence before a burst, on an idle receiver. *)
  Lemma idle_gap buf sv pv gap : sv + gap < 2 ^ 32 -> longer freq header 7 gap ->
    ev (st NInit buf sv pv) gap true = Val (st NInit buf 0 pv, ROk None).
  Proof.
    intros Hs Hl. apply rise_fit; [exact Hs|]. unfold ss, T.
    apply nec_class_long; auto. unfold longer in *. fold T. lia.
  Qed.

  (** The bursts themselves. *)
  Lemma frame_burst buf pv w ps stop : w < 2 ^ 32 -> nec_frame freq header w ps -> short (pair_edges ps) ->
    run (st NInit buf 0 pv) (pair_edges ps ++ [(false, stop)]) =
    Val (st NInit w stop pv, (repeat (ROk None) 65 ++ [ROk (option_map into (nv_unpack V w false))]) ++ [ROk None]).
  Proof.
    intros Hw Hfr Hs. unfold ss, T in *.
    destruct (nec_frame_pulses m freq V Hm Hf HT H893 w ps) as (h & ds & -> & Ph & Pd); auto.
    1-3: destruct HT as [ET|ET]; rewrite ET; reflexivity.
    eapply run_edges_app_val; [exact (nec_frame_run b m freq V Hm Hf into w h ds buf pv Hw Ph Pd)|].
    cbn [run_edges]. rewrite nec_ev_fall by exact I. reflexivity.
  Qed.

  Lemma again_burst w pv d stop : period_near freq again 7 d -> short (pair_edges [d]) ->
    run (st NInit w 0 pv) (pair_edges [d] ++ [(false, stop)]) =
    Val (st NInit w stop pv, [ROk None; ROk (option_map into (nv_unpack V w true)); ROk None]).
  Proof.
    intros Hd Hs. destruct (short_pair d [] Hs) as (S1 & S2 & _). destruct d as [mk sp]. cbn [fst snd] in *.
    unfold ss, T in *. cbn [pair_edges app run_edges]. rewrite nec_ev_fall by exact I. cbn [bind].
    rewrite nec_ev_rise by auto.
    destruct (nec_class_near m freq V Hm Hf HT H893 (sp + mk)) as (_ & K & _).
    rewrite K by (rewrite (N.add_comm sp); exact Hd). cbn [nec_transition bind nec_to_state].
    rewrite nec_ev_fall by exact I. reflexivity.
  Qed.

  Lemma said_map w rep : commands (E := decoding_error) [ROk (option_map into (nv_unpack V w rep))] = said w rep.
  Proof. unfold said. destruct (nv_unpack V w rep); reflexivity. Qed.

  (** The pairs of a frame are short. *)
  Lemma near_lt p t d : p * (100 + t) <= 2000000 -> near freq p t d -> d < 2 ^ 31.
  Proof.
    intros Hp (H & _).
    assert (N1 : nominal freq p * 1000000 <= p * freq) by (unfold nominal; rewrite N.mul_comm; apply N.mul_div_le; discriminate).
    assert (N2 : (100 + t) * nominal freq p * 1000000 <= 2000000 * freq).
    { transitivity (p * (100 + t) * freq); [|apply N.mul_le_mono_r; exact Hp].
      replace ((100 + t) * nominal freq p * 1000000) with ((100 + t) * (nominal freq p * 1000000)) by ring.
      replace (p * (100 + t) * freq) with ((100 + t) * (p * freq)) by ring. apply N.mul_le_mono_l. exact N1. }
    unfold M32 in Hf. change (2 ^ 31) with 2147483648. change (2 ^ 32) with 4294967296 in Hf. lia.
  Qed.

  Lemma pair_short p t d : p * (100 + t) <= 2000000 -> period_near freq p t d -> fst d < 2 ^ 31 /\ snd d < 2 ^ 31.
  Proof.
    intros Hp H. unfold period_near in H.
    assert (fst d + snd d < 2 ^ 31); [|lia].
    apply (near_lt p (guaranteed freq t)); [|exact H]. unfold guaranteed. destruct (freq <=? 318000); [exact Hp|].
    etransitivity; [|exact Hp]. apply N.mul_le_mono_l. lia.
  Qed.

  Lemma again_short d : period_near freq again 7 d -> short (pair_edges [d]).
  Proof.
    intros H. destruct (pair_short again 7 d) as [H1 H2]; [clear -HT; destruct HT as [-> | ->]; vm_compute; discriminate|exact H|].
    destruct d. cbn [pair_edges]. repeat constructor; assumption.
  Qed.

  Lemma frame_short w ps : nec_frame freq header w ps -> short (pair_edges ps).
  Proof.
    intros (h & ds & -> & Hh & Hd).
    assert (A : Forall (fun d => fst d < 2 ^ 31 /\ snd d < 2 ^ 31) (h :: ds)).
    { constructor.
      - apply (pair_short header 7); [clear -HT; destruct HT as [-> | ->]; vm_compute; discriminate|exact Hh].
      - clear Hh. induction Hd as [|bit d bs ds H Hd IH]; constructor; auto. destruct bit.
        + apply (pair_short 2250 12); [vm_compute; discriminate|exact H].
        + apply (pair_short 1120 25); [vm_compute; discriminate|exact H]. }
    clear -A. induction A as [|[mk sp] l [H1 H2] A IH]; cbn [pair_edges]; unfold short in *; constructor; auto.
  Qed.

  Lemma fit_app evs : forall sv rest, fit sv (pair_edges evs ++ rest) -> fit (match evs with [] => sv | _ => 0 end) rest.
  Proof.
    induction evs as [|[mk sp] evs IH]; intros sv rest H; [exact H|].
    cbn [pair_edges app fit] in H. destruct H as [_ H]. apply IH in H. destruct evs; exact H.
  Qed.

  Lemma fit_burst sv gap ps stop rest : fit sv (burst_edges (gap, ps, stop) ++ rest) -> sv + gap < 2 ^ 32 /\ fit stop rest.
  Proof.
    cbn [burst_edges app fit]. intros [H1 H2]. split; [exact H1|]. rewrite <- app_assoc in H2. apply fit_app in H2.
    destruct ps; exact H2.
  Qed.

  (** Pauses that leave an idle receiver idle. *)
  Definition idles (sv gap : N) : Prop :=
    forall buf pv, ev (st NInit buf sv pv) gap true = Val (st NInit buf 0 pv, ROk None).
  Fixpoint quiet (sv : N) (ys : list burst) : Prop :=
    match ys with [] => True | (gap, _, stop) :: r => idles sv gap /\ quiet stop r end.

  Lemma again_bursts w pv rs : Forall (fun r : burst => let '(_, ps, _) := r in exists d, ps = [d] /\ period_near freq again 7 d) rs ->
    forall sv rest, quiet sv (rs ++ rest) ->
    exists sv' os, run (st NInit w sv pv) (flat_map burst_edges rs) = Val (st NInit w sv' pv, os) /\
      quiet sv' rest /\ commands os = concat (repeat (said w true) (length rs)) /\ no_error os.
  Proof.
    induction 1 as [|[[gap ps] stop] rs (d & -> & Hd) Hrs IH]; intros sv rest Hs.
    - exists sv, []. repeat split; auto. constructor.
    - cbn [flat_map app quiet] in *. destruct Hs as [Sg Hs2].
      pose proof (again_short d Hd) as Sp.
      destruct (IH stop rest Hs2) as (sv' & os & E & Hsv' & Hc & He).
      exists sv', ((ROk None :: [ROk None; ROk (option_map into (nv_unpack V w true)); ROk None]) ++ os).
      split; [|split; [exact Hsv'|split]].
      + eapply run_edges_app_val; [|exact E]. cbn [burst_edges run_edges]. rewrite Sg. cbn [bind].
        pose proof (again_burst w pv d stop Hd Sp) as E1. rewrite E1. reflexivity.
      + rewrite commands_app, Hc. cbn [length repeat concat]. f_equal. unfold said.
        destruct (nv_unpack V w true); reflexivity.
      + apply no_error_app; [|exact He]. repeat constructor; eauto.
  Qed.

  Lemma presses_run_quiet {K} (word : K -> N) l : Forall (fun y => word (fst (fst y)) < 2 ^ 32) l -> Forall (press_shape freq header again word) l ->
    forall buf sv pv, quiet sv (bursts l) ->
    exists r os, run (st NInit buf sv pv) (presses_edges l) = Val (r, os) /\
      commands os = flat_map (fun x => said (word (fst x)) (snd x)) (held l) /\ no_error os.
  Proof.
    intros Hw. induction 1 as [|[[k [[gap ps] stop]] rs] l (Hfr & Hrs) Hl IH]; intros buf sv pv Hs.
    - exists (st NInit buf sv pv), []. repeat split; auto. constructor.
    - inversion Hw as [|x0 l0 Hw1 Hw2]; subst. cbn [fst] in Hw1.
      unfold presses_edges, bursts in *. cbn [flat_map press_edges fst snd app quiet] in *. destruct Hs as [Sg Hs3].
      pose proof (frame_short (word k) ps Hfr) as Sp.
      destruct (again_bursts (word k) pv rs Hrs stop _ Hs3) as (sv' & os1 & E1 & Hs2 & Hc1 & He1).
      destruct (IH Hw2 (word k) sv' pv Hs2) as (r & os2 & E2 & Hc2 & He2).
      pose proof (frame_burst buf pv (word k) ps stop Hw1 Hfr Sp) as E0.
      exists r, (((ROk None :: (repeat (ROk None) 65 ++ [ROk (option_map into (nv_unpack V (word k) false))]) ++ [ROk None]) ++ os1) ++ os2).
      split; [|split].
      + eapply run_edges_app_val; [|exact E2]. eapply run_edges_app_val; [|exact E1].
        cbn [burst_edges run_edges]. rewrite Sg. cbn [bind]. rewrite E0. reflexivity.
      + rewrite !commands_app, Hc1, Hc2. unfold held. cbn [flat_map]. rewrite flat_map_app. f_equal.
        cbn [flat_map fst snd]. f_equal.
        * change (ROk None :: (repeat (ROk None) 65 ++ [ROk (option_map into (nv_unpack V (word k) false))]) ++ [ROk None])
            with ([ROk None] ++ (repeat (ROk None) 65 ++ [ROk (option_map into (nv_unpack V (word k) false))]) ++ [ROk None] : list (outcome C)).
          rewrite !commands_app, said_map, commands_none. cbn [commands flat_map app]. apply app_nil_r.
        * clear. induction (length rs) as [|n IHn]; cbn [repeat concat flat_map fst snd]; congruence.
      + apply no_error_app; [apply no_error_app; [|exact He1]|exact He2].
        constructor; [eauto|]. apply no_error_app; [apply no_error_app; [apply no_error_none|]|]; repeat constructor; eauto.
  Qed.

  Lemma fit_quiet ys : forall sv, Forall (fun y : burst => longer freq header 7 (fst (fst y))) ys ->
    fit sv (flat_map burst_edges ys) -> quiet sv ys.
  Proof.
    induction ys as [|[[gap ps] stop] ys IH]; intros sv Hl Hf'; cbn [quiet]; [exact I|].
    apply Forall_cons_iff in Hl. destruct Hl as [Hg Hl]. cbn [fst] in Hg. cbn [flat_map] in Hf'. apply fit_burst in Hf'.
    destruct Hf' as [H1 H2]. split; [|apply IH; assumption]. intros buf pv. apply idle_gap; assumption.
  Qed.

  Lemma near_gaps {K} (word : K -> N) l : Forall (press_near freq header again word) l ->
    Forall (fun y : burst => longer freq header 7 (fst (fst y))) (bursts l).
  Proof.
    unfold bursts. induction 1 as [|[[k [[gap ps] stop]] rs] l (Hg & _ & Hrs) Hl IH]; [constructor|]. cbn [flat_map fst snd].
    apply Forall_app. split; [|exact IH]. constructor; [exact Hg|]. eapply Forall_impl; [|exact Hrs]. intros [[g p] s] (H & _). exact H.
  Qed.

  Lemma presses_run {K} (word : K -> N) l : Forall (fun y => word (fst (fst y)) < 2 ^ 32) l -> Forall (press_near freq header again word) l ->
    forall buf sv pv, fit sv (presses_edges l) ->
    exists r os, run (st NInit buf sv pv) (presses_edges l) = Val (r, os) /\
      commands os = flat_map (fun x => said (word (fst x)) (snd x)) (held l) /\ no_error os.
  Proof.
    intros Hw Hl buf sv pv Hs. apply presses_run_quiet; [exact Hw| |].
    - eapply Forall_impl; [|exact Hl]. intros y. apply near_shape.
    - apply fit_quiet; [exact (near_gaps word l Hl)|]. rewrite <- presses_bursts. exact Hs.
  Qed.

  Lemma short_fit evs : forall sv, sv < 2 ^ 31 -> short evs -> fit sv evs.
  Proof.
    induction evs as [|[l d] evs IH]; intros sv Hsv Hs; [exact I|]. unfold short in Hs. apply Forall_cons_iff in Hs.
    cbn [snd] in Hs. destruct Hs as [Hd Hs]. change (2 ^ 31) with 2147483648 in *. destruct l; cbn [fit].
    - split; [change (2 ^ 32) with 4294967296; lia|]. apply IH; [reflexivity|exact Hs].
    - apply IH; assumption.
  Qed.

  (** After any history. *)
  Lemma presses_heard {K} (word : K -> N) hist l :
    Forall (fun y => word (fst (fst y)) < 2 ^ 32) l -> Forall (press_near freq header again word) l ->
    short (hist ++ presses_edges l) ->
    exists r0 r os1 os2, receiver_new (nec_protocol b m V) freq = Val r0 /\
      run r0 (hist ++ presses_edges l) = Val (r, os1 ++ os2) /\ length os1 = length hist /\
      commands os2 = flat_map (fun x => said (word (fst x)) (snd x)) (held l) /\
      no_error (tl os2).
  Proof.
    intros Hw Hl Hs. exists (st NInit 0 0 0). unfold short in Hs. apply Forall_app in Hs. destruct Hs as [Sh Sr].
    destruct (nec_run_inv b m freq V Hm Hf into hist (st NInit 0 0 0) (nec_new_inv b m freq V) Sh) as (r1 & os1 & E1 & I1).
    pose proof (run_edges_length _ _ _ _ _ E1) as L1.
    destruct l as [|[[k [[gap ps] stop]] rs] l].
    { exists r1, os1, []. split; [apply nec_new_val; auto|]. unfold presses_edges. cbn [flat_map]. rewrite !app_nil_r.
      repeat split; auto. constructor. }
    (* the receiver after the first silence *)
    inversion Hl as [|x0 l0 Hl1 Hl2]; subst. destruct Hl1 as (Hg & Hfr & Hrs).
    pose proof Sr as Sr0. unfold presses_edges in Sr. cbn [flat_map press_edges burst_edges app] in Sr.
    inversion Sr as [|e0 l0 Sg Sr1]; subst. cbn [snd] in Sg.
    destruct (nec_gap b m freq V Hm Hf HT into r1 gap I1 Sg Hg) as (buf & pv & o & E2 & Ho).
    destruct (presses_run word ((k, (gap, ps, stop), rs) :: l) Hw Hl buf 0 pv (short_fit _ 0 ltac:(reflexivity) Sr0)) as (r & os & E3 & Hc3 & He3).
    (* replace the outcome of the first silence *)
    unfold presses_edges in E3. cbn [flat_map press_edges burst_edges app run_edges] in E3.
    rewrite idle_gap in E3 by (auto; change (2 ^ 31) with 2147483648 in Sg; change (2 ^ 32) with 4294967296; lia). cbn [bind] in E3.
    destruct (run (st NInit buf 0 pv) (((pair_edges ps ++ [(false, stop)]) ++ flat_map burst_edges rs) ++ flat_map press_edges l))
      as [[r' os']| |] eqn:E4; cbn [bind] in E3; try discriminate.
    injection E3 as -> <-.
    exists r, os1, (o :: os'). split; [apply nec_new_val; auto|]. split; [|split; [exact L1|split]].
    - eapply run_edges_app_val; [exact E1|]. unfold presses_edges. cbn [flat_map press_edges burst_edges app run_edges].
      rewrite E2. cbn [bind]. unfold ss, T in *. rewrite E4. reflexivity.
    - refine (eq_trans _ Hc3). destruct Ho as [-> | ->]; reflexivity.
    - inversion He3; subst. assumption.
  Qed.
End Keys.

(** ** From real time *)

Lemma timed_weaken freq G j j' x y : j <= j' -> timed freq G j x y -> timed freq G j' x y.
Proof.
  intros Hj (E & H1 & H2). apply N.mul_le_mono_r with (p := G) in Hj. repeat split; auto; lia.
Qed.

Lemma gap_timed freq G j p q t D d : 0 < G -> (100 + t) * p * freq + j * 100000000 <= 100 * q * freq ->
  real_long G q D -> D * freq < d * G + j * G -> longer freq p t d.
Proof.
  intros HG Hq Hl H2. unfold longer, real_long in *.
  assert (K : q * freq < (d + j) * 1000000).
  { apply (N.mul_lt_mono_pos_r G); [exact HG|]. apply N.mul_le_mono_r with (p := freq) in Hl.
    replace (q * freq * G) with (q * G * freq) by ring. replace ((d + j) * 1000000 * G) with (1000000 * (d * G + j * G)) by ring.
    replace (1000000 * D * freq) with (1000000 * (D * freq)) in Hl by ring. clear - Hl H2. lia. }
  assert (N1 : nominal freq p * 1000000 <= p * freq) by (unfold nominal; rewrite N.mul_comm; apply N.mul_div_le; discriminate).
  apply N.mul_le_mono_l with (p := 100 + t) in N1.
  replace ((100 + t) * (nominal freq p * 1000000)) with ((100 + t) * nominal freq p * 1000000) in N1 by ring.
  replace ((100 + t) * (p * freq)) with ((100 + t) * p * freq) in N1 by ring.
  replace (100 * q * freq) with (100 * (q * freq)) in Hq by ring.
  set (A := (100 + t) * nominal freq p) in *. set (B := (100 + t) * p * freq) in *. set (Q := q * freq) in *.
  clearbody A B Q. clear - Hq K N1. lia.
Qed.

(** A pair whose two intervals are off by less than [j] ticks: the period is off by less
    than [2 * j]. *)
Definition pair_timed (freq G j2 : N) (d d' : N * N) : Prop :=
  (fst d' + snd d') * G < (fst d + snd d) * freq + j2 * G /\ (fst d + snd d) * freq < (fst d' + snd d') * G + j2 * G.

Lemma pairs_timed freq G j ps : forall evs', Forall2 (timed freq G j) (pair_edges ps) evs' ->
  exists ps', evs' = pair_edges ps' /\ Forall2 (pair_timed freq G (2 * j)) ps ps'.
Proof.
  induction ps as [|[mk sp] ps IH]; intros evs' F; cbn [pair_edges] in F.
  - inversion F; subst. exists []. split; [reflexivity|constructor].
  - inversion F as [|e1 [l1 d1] r1 r2 (L1 & H1 & H2) F2]; subst.
    inversion F2 as [|e2 [l2 d2] r3 r4 (L2 & H3 & H4) F3]; subst. cbn [fst snd] in *. subst l1 l2.
    destruct (IH _ F3) as (ps' & -> & R). exists ((d1, d2) :: ps'). split; [reflexivity|]. constructor; [|exact R].
    unfold pair_timed. cbn [fst snd]. replace (2 * j * G) with (j * G + j * G) by ring.
    rewrite !N.mul_add_distr_r. lia.
Qed.

Section Real.
  Variables (freq G j2 x : N).
  Hypothesis HG : 0 < G.

  Lemma period_timed p t d d' : slack freq x j2 p (guaranteed freq t) = true ->
    real_period G x p d -> pair_timed freq G j2 d d' -> period_near freq p t d'.
  Proof. intros Hs Hn (H1 & H2). exact (slack_ok freq G x j2 p _ _ _ HG Hs Hn H1 H2). Qed.

  Lemma bits_timed p0 p1 t0 t1 bits : slack freq x j2 p0 (guaranteed freq t0) = true -> slack freq x j2 p1 (guaranteed freq t1) = true ->
    forall ds ds', Forall2 (fun (bit : bool) d => real_period G x (if bit then p1 else p0) d) bits ds ->
    Forall2 (pair_timed freq G j2) ds ds' ->
    Forall2 (fun (bit : bool) d => if bit then period_near freq p1 t1 d else period_near freq p0 t0 d) bits ds'.
  Proof.
    intros S0 S1. induction bits as [|bt bits IH]; intros ds ds' F R; inversion F; subst; inversion R; subst; constructor; auto.
    - destruct bt; eapply period_timed; eauto.
    - eapply IH; eauto.
  Qed.

  Lemma nec_timed header w ps ps' : slack freq x j2 header (guaranteed freq 7) = true ->
    slack freq x j2 2250 (guaranteed freq 12) = true -> slack freq x j2 1120 (guaranteed freq 25) = true ->
    real_nec G x header w ps -> Forall2 (pair_timed freq G j2) ps ps' -> nec_frame freq header w ps'.
  Proof.
    intros Sh S1 S0 (h & ds & -> & Hh & Hd) R. inversion R as [|h0 h' ds0 ds' R1 R2]; subst. exists h', ds'. split; [reflexivity|].
    split; [exact (period_timed header 7 h h' Sh Hh R1)|]. eapply bits_timed; eauto.
  Qed.
End Real.

(** A burst as it is measured: the silence by less than [j] ticks too short, the periods off
    by less than [j2] ticks. *)
Definition burst_seen (freq G j j2 : N) (y y' : burst) : Prop :=
  fst (fst y) * freq < fst (fst y') * G + j * G /\ Forall2 (pair_timed freq G j2) (snd (fst y)) (snd (fst y')).

Lemma bursts_timed freq G j ys : forall evs', Forall2 (timed freq G j) (flat_map burst_edges ys) evs' ->
  exists ys', evs' = flat_map burst_edges ys' /\ Forall2 (burst_seen freq G j (2 * j)) ys ys'.
Proof.
  induction ys as [|[[gap ps] stop] ys IH]; intros evs' F; cbn [flat_map] in F.
  - inversion F; subst. exists []. split; [reflexivity|constructor].
  - apply Forall2_app_inv_l in F. destruct F as (e1 & e2 & F1 & F2 & ->).
    destruct (IH e2 F2) as (ys' & -> & R). cbn [burst_edges] in F1.
    inversion F1 as [|x1 [l1 d1] r1 r2 (L1 & H1 & H2) F3]; subst. cbn [fst snd] in *. subst l1.
    apply Forall2_app_inv_l in F3. destruct F3 as (e3 & e4 & F3 & F4 & ->).
    inversion F4 as [|x3 [l3 d3] r3 r4 (L3 & _) F5]; subst. inversion F5; subst. cbn [fst] in L3. subst l3.
    destruct (pairs_timed freq G j ps e3 F3) as (ps' & -> & Rp).
    exists ((d1, ps', d3) :: ys'). split; [reflexivity|]. constructor; [|exact R]. split; [exact H2|exact Rp].
Qed.

Section Measured.
  Variables (freq G j j2 x header again silence : N).
  Hypothesis HG : 0 < G.
  Hypothesis (S1 : slack freq x j2 header (guaranteed freq 7) = true)
    (S2 : slack freq x j2 2250 (guaranteed freq 12) = true)
    (S3 : slack freq x j2 1120 (guaranteed freq 25) = true)
    (S4 : slack freq x j2 again (guaranteed freq 7) = true)
    (S5 : (100 + 7) * header * freq + j * 100000000 <= 100 * silence * freq).

  Lemma agains_seen rs : forall rs', Forall2 (burst_seen freq G j j2) rs rs' ->
    Forall (fun r : burst => let '(gap, ps, _) := r in
      real_long G silence gap /\ exists d, ps = [d] /\ real_period G x again d) rs ->
    Forall (fun r : burst => let '(gap, ps, _) := r in
        longer freq header 7 gap /\ exists d, ps = [d] /\ period_near freq again 7 d) rs'.
  Proof.
    induction rs as [|[[gap ps] stop] rs IH]; intros rs' F Hr; inversion F as [|y0 [[gap' ps'] stop'] r1 r2 (Hg' & R) F2]; subst; constructor.
    - apply Forall_cons_iff in Hr. destruct Hr as ((Hg & d & -> & Hd) & Hr2). cbn [fst snd] in *.
      split; [exact (gap_timed freq G j header silence 7 gap gap' HG S5 Hg Hg')|].
      inversion R as [|d0 d' r3 r4 R1 R2]; subst. inversion R2; subst. exists d'. split; [reflexivity|].
      exact (period_timed freq G j2 x HG again 7 d d' S4 Hd R1).
    - apply Forall_cons_iff in Hr. apply IH; [exact F2|]. apply Hr.
  Qed.

  Lemma presses_seen {K} (word : K -> N) l : forall ys',
    Forall (real_press G x header again silence word) l -> Forall2 (burst_seen freq G j j2) (bursts l) ys' ->
    exists l', ys' = bursts l' /\ held l' = held l /\ map (fun y => fst (fst y)) l' = map (fun y => fst (fst y)) l /\
      Forall (press_near freq header again word) l'.
  Proof.
    induction l as [|[[k y] rs] l IH]; intros ys' Hl F; unfold bursts in F; cbn [flat_map fst snd] in F.
    - inversion F; subst. exists []. repeat split. constructor.
    - apply Forall_cons_iff in Hl. destruct Hl as (Hp & Hl2). destruct y as [[gap ps] stop]. unfold real_press in Hp. destruct Hp as (Hg & Hfr & Hrs).
      apply Forall2_app_inv_l in F. destruct F as (e1 & e2 & F1 & F2 & ->).
      inversion F1 as [|y0 [[gap' ps'] stop'] r1 rs' (Hg' & R) F3]; subst. cbn [fst snd] in *.
      destruct (IH e2 Hl2 F2) as (l' & -> & Eh & Em & Hl').
      exists ((k, (gap', ps', stop'), rs') :: l'). split; [reflexivity|]. split; [|split].
      + assert (L : length rs' = length rs) by (clear -F3; induction F3; cbn [length]; congruence). unfold held in *. cbn [flat_map]. rewrite Eh, L. reflexivity.
      + cbn [map fst]. rewrite Em. reflexivity.
      + constructor; [|exact Hl']. split; [exact (gap_timed freq G j header silence 7 gap gap' HG S5 Hg Hg')|].
        split; [|exact (agains_seen rs rs' F3 Hrs)].
        exact (nec_timed freq G j2 x HG header (word k) ps ps' S1 S2 S3 Hfr R).
  Qed.
End Measured.

Lemma presses_timed freq G j x header again silence : 0 < G ->
  slack freq x (2 * j) header (guaranteed freq 7) = true -> slack freq x (2 * j) 2250 (guaranteed freq 12) = true ->
  slack freq x (2 * j) 1120 (guaranteed freq 25) = true -> slack freq x (2 * j) again (guaranteed freq 7) = true ->
  (100 + 7) * header * freq + j * 100000000 <= 100 * silence * freq ->
  forall {K} (word : K -> N) l evs',
    Forall (real_press G x header again silence word) l -> Forall2 (timed freq G j) (presses_edges l) evs' ->
    exists l', evs' = presses_edges l' /\ held l' = held l /\ map (fun y => fst (fst y)) l' = map (fun y => fst (fst y)) l /\
      Forall (press_near freq header again word) l'.
Proof.
  intros HG S1 S2 S3 S4 S5 K word l evs' Hl F. rewrite presses_bursts in F.
  destruct (bursts_timed freq G j _ _ F) as (ys' & -> & R).
  destruct (presses_seen freq G j (2 * j) x header again silence HG S1 S2 S3 S4 S5 word l ys' Hl R) as (l' & -> & Eh & Em & Hn).
  exists l'. rewrite presses_bursts. auto.
Qed.

(** The readings of one clock: its error does not add up over a period. *)
Lemma pairs_one_clock freq G j clock : counts freq G j clock -> forall ps t,
  exists ps', measured clock t (pair_edges ps) = pair_edges ps' /\ Forall2 (pair_timed freq G j) ps ps'.
Proof.
  intros Hc. induction ps as [|[mk sp] ps IH]; intros t; cbn [pair_edges measured].
  - exists []. split; [reflexivity|constructor].
  - destruct (IH (t + mk + sp)) as (ps' & -> & R). eexists ((_, _) :: ps'). split; [reflexivity|]. constructor; [|exact R].
    unfold pair_timed. cbn [fst snd]. destruct (Hc t (t + mk + sp) ltac:(lia)) as (M & H1 & H2).
    destruct (Hc t (t + mk) ltac:(lia)) as (M1 & _). destruct (Hc (t + mk) (t + mk + sp) ltac:(lia)) as (M2 & _).
    replace (clock (t + mk) - clock t + (clock (t + mk + sp) - clock (t + mk))) with (clock (t + mk + sp) - clock t) by lia.
    replace (mk + sp) with (t + mk + sp - t) by lia. auto.
Qed.

Lemma bursts_one_clock freq G j clock : counts freq G j clock -> forall ys t,
  exists ys', measured clock t (flat_map burst_edges ys) = flat_map burst_edges ys' /\ Forall2 (burst_seen freq G j j) ys ys'.
Proof.
  intros Hc. induction ys as [|[[gap ps] stop] ys IH]; intros t; cbn [flat_map].
  - exists []. split; [reflexivity|constructor].
  - rewrite measured_app. destruct (IH (after t (burst_edges (gap, ps, stop)))) as (ys' & -> & R).
    cbn [burst_edges measured]. rewrite measured_app. destruct (pairs_one_clock freq G j clock Hc ps (t + gap)) as (ps' & -> & Rp).
    cbn [measured]. eexists ((_, ps', _) :: ys'). split; [cbn [flat_map burst_edges]; rewrite <- ?app_assoc; reflexivity|].
    constructor; [|exact R]. split; [|exact Rp]. cbn [fst snd]. destruct (Hc t (t + gap) ltac:(lia)) as (_ & _ & H2).
    replace (t + gap - t) with gap in H2 by lia. exact H2.
Qed.

(** Readings of one clock are such measurements. *)
Lemma measured_timed freq G j clock evs : counts freq G j clock ->
  forall t, Forall2 (timed freq G j) evs (measured clock t evs).
Proof.
  intros Hc. induction evs as [|[l d] evs IH]; intros t; cbn [measured]; constructor; auto.
  unfold timed. cbn [fst snd]. destruct (Hc t (t + d) ltac:(lia)) as (_ & H1 & H2).
  replace (t + d - t) with d in * by lia. auto.
Qed.
