(** * Property theorems: RC5 and RC6, polled; the tutorials *)
From Coq Require Import NArith ZArith List Bool Lia ZifyBool ZifyNat ZifyN.
From Verif Require Import Machine Time Decoder Rc5 Rc6 Receiver Remote Spec Bits Codec_facts Time_facts Run_facts Rc5_facts Rc6_facts
  Spec_receiver Spec_state Receiver_facts Cross_facts Traffic_facts Spec_cross Spec_phys Phys_facts Poll_facts Keys_facts State_facts
  Props_decode Props_state Props_traffic Props_phys Props_poll Pollkeys_facts Props_pollkeys Pollbi_facts Apps Spec_apps Example_facts Spec_cross.
Import ListNotations.
Open Scope N_scope.
Ltac Zify.zify_post_hook ::= Z.div_mod_to_equations.

(** ** C79: a poller reports every RC5 and RC6 command, for as long as it runs

    As in C78, for series of transmissions of the biphase protocols.  [series l] are the
    edges of the transmissions [l], each given by its command, the silence before it and its
    edges after the first one; the edge that ends a last mark may or may not be counted to
    the transmission.  The poller may have seen any samples [L] before; in a debug build,
    where the receiver of a machine with [usize] of [w] bits could panic after 2^w / 8 edges (C40), fewer
    than that. *)
Definition after_any (b : build) (L : list bool) : Prop :=
  overflow_checks b = false \/ 8 * (N.of_nat (length L) + 1) < 2 ^ usize_bits b.

Section Bi.
  Variables (P : protocol) (K C : Type) (into : dcmd (p_dec P) -> C) (cmd : K -> dcmd (p_dec P)).
  Variables (Q : receiver (p_dec P) -> Prop) (good : K -> N -> list edge -> Prop) (ok : K -> N -> list edge -> Prop).
  Variables (freq T first : N) (p0 : periodic_poll (p_dec P)) (r0 : receiver (p_dec P)).
  Hypothesis (HT : 0 < T) (Hfi : first < T).
  Hypothesis (Ep : poll_new P freq = Val p0) (Er : receiver_new P freq = Val r0).
  Hypothesis Hmono : forall x g g' evs, ok x g evs -> g <= g' -> ok x g' evs.
  Hypothesis Hone : forall x g evs r, Q r -> ok x g evs ->
    exists r' os, run_edges into r ((true, g) :: evs) = Val (r', os) /\ Q r' /\ commands os = [into (cmd x)] /\ no_error os.
  Hypothesis Hmeas : forall t x g evs, good x g evs -> ok x (before T first (t + g) - before T first t) (measured (before T first) (t + g) evs).
  Hypothesis Hprefix : forall h r os, run_edges into r0 h = Val (r, os) -> Q r.

  Lemma bi_polled (l : list (K * N * list edge)) L gap evs n :
    (forall h, (length h <= S (length L))%nat -> exists r os, run_edges into r0 h = Val (r, os)) ->
    Forall (fun y => good (fst (fst y)) (snd (fst y)) (snd y)) l -> series l = (true, gap) :: evs -> alt false evs ->
    swept T first gap evs n L ->
    exists os1 os2 k,
      outs (run_polls into p0 (L ++ map (level_at false 0 ((true, gap) :: evs)) (times first T (S n)))) = Val (os1 ++ os2) /\
      length os1 = (length L + k)%nat /\ (forall i, (i < k)%nat <-> first + N.of_nat i * T < gap) /\
      commands os2 = map (fun y => into (cmd (fst (fst y)))) l /\ (forall e, ~ In (RErr e) os2) /\
      (L = [] -> commands os1 = [] /\ forall e, ~ In (RErr e) os1).
  Proof.
    intros Hany Hl El A (W1 & W2 & W3 & W4).
    destruct (polled_series T first HT Hfi P freq C into L gap evs n p0 r0 Ep Er A W1 W4 W3 W2) as (h & g & G1 & H0 & H1 & _ & Hq).
    destruct (Hany h H1) as (r1 & os1 & E1).
    assert (B0 : before T first 0 = 0) by (unfold before; rewrite N.add_0_l; apply N.div_small; lia).
    destruct (series_seen P K C into cmd Q good ok (before T first) Hmono Hone Hmeas l gap evs g r1 B0 Hl El G1 (Hprefix _ _ _ E1))
      as (r2 & os2 & E2 & C2 & N2).
    destruct (Hq r2 os1 os2) as (q1 & q2 & k & Eo & L1 & Hk & Hf).
    { eapply run_edges_app_val; [exact E1|exact E2]. }
    { apply (run_edges_length into _ _ _ _ E1). }
    exists q1, q2, k. split; [exact Eo|]. split; [exact L1|]. split; [exact Hk|].
    assert (G : forall q os : list (outcome C), (forall X (f : outcome C -> list X), f (ROk None) = [] -> flat_map f q = flat_map f os) ->
      no_error os -> commands q = commands os /\ forall e, ~ In (RErr e) q).
    { intros q os Ht He. split.
      - apply (Ht _ (fun o => match o with ROk (Some c) => [c] | _ => [] end)). reflexivity.
      - intros e Hi. specialize (Ht _ (fun o => match o with RErr e => [e] | _ => [] end) eq_refl).
        assert (B : In e (flat_map (fun o : outcome C => match o with RErr e => [e] | _ => [] end) q)).
        { apply in_flat_map. exists (RErr e). split; [exact Hi|]. left. reflexivity. }
        rewrite Ht in B. apply in_flat_map in B. destruct B as (o & Ho & Hin). unfold no_error in He. rewrite Forall_forall in He.
        destruct (He o Ho) as (c & ->). destruct Hin. }
    destruct (G q2 os2 (fun X f Hz => proj2 (Hf X f Hz)) N2) as (Gc & Ge). split; [rewrite Gc; exact C2|]. split; [exact Ge|].
    intros EL. specialize (H0 EL). subst h. cbn [run_edges] in E1. injection E1 as _ <-.
    destruct (G q1 [] (fun X f Hz => proj1 (Hf X f Hz))) as (Gc1 & Ge1); [constructor|]. split; [exact Gc1|exact Ge1].
  Qed.
End Bi.

Lemma longer_more freq p t d d' : longer freq p t d -> d <= d' -> longer freq p t d'.
Proof. unfold longer. lia. Qed.

Lemma ended_read (P P' : list edge -> Prop) (clock : N -> N) t evs :
  (P evs \/ exists body D, evs = body ++ [(false, D)] /\ P body) ->
  (forall body, P body -> P' (measured clock t body)) -> bi_ended P' (measured clock t evs).
Proof.
  intros [H|(body & D & -> & H)] HP; [left; auto|]. right. rewrite measured_app. cbn [measured]. eexists. eexists. split; [reflexivity|auto].
Qed.

Lemma rc5_measured_at freq G j clock (HG : 0 < G) (Hc : counts freq G j clock) (Hr : rate_ok 15000 [20000] freq j) t w gap evs :
  real_rc5 G 3 w evs -> rc5_edges freq w gap ((true, gap) :: measured clock t evs).
Proof.
  intros (n0 & noms & E & F). exists n0, noms, (measured clock t evs). split; [exact E|]. split; [reflexivity|].
  eapply (units_read freq G j clock HG Hc 3); [|exact F]. intros nom Hn. destruct (rc5_noms w n0 noms E) as [B _].
  rewrite Forall_forall in B. destruct (B nom Hn) as [B1 B2].
  assert (K : snd nom = 1 \/ snd nom = 2) by lia. unfold rc5_tol. destruct K as [-> | ->]; cbn [N.eqb Pos.eqb N.mul Pos.mul]; room 15000.
Qed.

Lemma rc5_gap_read freq G j clock (HG : 0 < G) (Hc : counts freq G j clock) (Hr : rate_ok 15000 [20000] freq j) t gap :
  real_long G 3000 gap -> longer freq 1778 10 (clock (t + gap) - clock t).
Proof. eapply (gap_read freq G j clock HG Hc). room 15000. Qed.

Lemma rc6_gap_read freq G j clock (HG : 0 < G) (Hc : counts freq G j clock) (Hr : rate_ok 30000 [40000] freq j) t gap :
  real_long G 4000 gap -> longer freq 2664 12 (clock (t + gap) - clock t).
Proof. eapply (gap_read freq G j clock HG Hc). room 30000. Qed.

Definition rc5_series (G : N) (l : list (N * N * list edge)) : Prop :=
  Forall (fun y => real_ended G 3 (TRc5 (fst (fst y))) (snd y) /\ real_long G 3000 (snd (fst y))) l.

Definition rc6_key : Type := N * N * bool.
Definition rc6_series (G : N) (l : list (rc6_key * N * list edge)) : Prop :=
  Forall (fun y => let '(a, c, tg) := fst (fst y) in
    real_ended G 3 (TRc6 a c tg) (snd y) /\ real_long G 4000 (snd (fst y))) l.

Section Rc5.
  Variables (b : build) (m : mono) (freq T first : N) (C : Type) (into : rc5_command -> C).
  Hypothesis (Hm : timebase m freq) (Hf : freq < 2 ^ 32) (Hu : 8 <= usize_bits b) (HT : 0 < T) (Hfi : first < T).
  Hypothesis Hr : rate_ok 15000 [20000] freq 1.

  Lemma rc5_polled_full (l : list (N * N * list edge)) L gap evs n p0 :
    after_any b L -> rc5_series (freq * T) l -> series l = (true, gap) :: evs -> alt false evs -> swept T first gap evs n L ->
    poll_new (rc5_protocol b m) freq = Val p0 ->
    exists os1 os2 k,
      outs (run_polls (D := rc5_dec b) into p0 (L ++ map (level_at false 0 ((true, gap) :: evs)) (times first T (S n)))) = Val (os1 ++ os2) /\
      length os1 = (length L + k)%nat /\ (forall i, (i < k)%nat <-> first + N.of_nat i * T < gap) /\
      commands os2 = map (fun y => into (rc5_unpack (fst (fst y)))) l /\ (forall e, ~ In (RErr e) os2) /\
      (L = [] -> commands os1 = [] /\ forall e, ~ In (RErr e) os1).
  Proof.
    intros HL Hl El A W Ep. destruct (poll_recv _ _ _ Ep) as (r0 & Er).
    assert (H1125 : 1125 <= freq) by (destruct Hr as (Hj & [Hk|[_ Hk]]); [lia|usual]).
    pose proof (before_counts T first HT Hfi freq ltac:(lia)) as Hc.
    pose proof (rc5_new_val b m freq Hm Hf) as Er'. rewrite Er in Er'.
    apply (bi_polled (rc5_protocol b m) N C into rc5_unpack (fun r => r5_spans (rv_dec r) = spans_of m freq rc5_pulses)
      (fun w g evs => real_ended (freq * T) 3 (TRc5 w) evs /\ real_long (freq * T) 3000 g)
      (fun w g evs => w < 2 ^ 14 /\ N.testbit w 13 = true /\ longer freq 1778 10 g /\ bi_ended (fun body => rc5_edges freq w g ((true, g) :: body)) evs)
      freq T first p0 r0 HT Hfi Ep Er); auto.
    - intros w g g' es (H1 & H2 & H3 & H4) Hg. split; [exact H1|]. split; [exact H2|]. split; [exact (longer_more _ _ _ _ _ H3 Hg)|].
      destruct H4 as [H4|(body & d & -> & H4)]; [left|right; exists body, d; split; [reflexivity|]]; apply (rc5_edges_gap _ _ g); exact H4.
    - intros w g es r HQ (H1 & H2 & H3 & H4). apply (rc5_one b m freq C into w r g es); auto.
    - intros t w g es [H1 H2].
      assert (H3 : w < 2 ^ 14 /\ N.testbit w 13 = true /\ (real_rc5 (freq * T) 3 w es \/ exists body D, es = body ++ [(false, D)] /\ real_rc5 (freq * T) 3 w body)).
      { destruct H1 as [(K1 & K2 & K3)|(body & D & -> & (K1 & K2 & K3) & _)]; [auto|]. split; [exact K1|]. split; [exact K2|]. right. eauto. }
      destruct H3 as (K1 & K2 & K3). split; [exact K1|]. split; [exact K2|]. split.
      + apply (rc5_gap_read freq (freq * T) 1 _ ltac:(lia) Hc Hr _ _ H2).
      + refine (ended_read (real_rc5 (freq * T) 3 w) _ _ _ _ K3 _). intros body. apply (rc5_measured_at freq (freq * T) 1 _ ltac:(lia) Hc Hr).
    - intros h r os E. refine (eq_trans (rc5_run_spans b into h _ _ _ E) _).
      assert (Ei : forall A (x y : A), Val x = Val y -> x = y) by (intros Z x y H; injection H; auto). apply Ei in Er'. rewrite Er'. reflexivity.
    - intros h Hh. destruct (C40_rc5_partial b m freq C into h Hm Hf) as (os & E).
      { destruct HL as [HL|HL]; [left; exact HL|right]. clear -HL Hh. unfold edge in *. lia. }
      unfold outcomes_of in E. rewrite Er in E. cbn [bind] in E. unfold outs in E. cbn [p_dec rc5_protocol] in E |- *.
      destruct (run_edges (D := rc5_dec b) into r0 h) as [[r os']| |]; cbn [bind] in E; try discriminate. eauto.
  Qed.
End Rc5.

Section Rc6.
  Variables (b : build) (m : mono) (freq T first : N) (C : Type) (into : rc6_command -> C).
  Hypothesis (Hm : timebase m freq) (Hf : freq < 2 ^ 32) (Hu : 8 <= usize_bits b) (HT : 0 < T) (Hfi : first < T).
  Hypothesis Hr : rate_ok 30000 [40000] freq 1.

  Lemma rc6_polled_full (l : list (rc6_key * N * list edge)) L gap evs n p0 :
    after_any b L -> rc6_series (freq * T) l -> series l = (true, gap) :: evs -> alt false evs -> swept T first gap evs n L ->
    poll_new (rc6_protocol b m) freq = Val p0 ->
    exists os1 os2 k,
      outs (run_polls (D := rc6_dec b) into p0 (L ++ map (level_at false 0 ((true, gap) :: evs)) (times first T (S n)))) = Val (os1 ++ os2) /\
      length os1 = (length L + k)%nat /\ (forall i, (i < k)%nat <-> first + N.of_nat i * T < gap) /\
      commands os2 = map (fun y => into (let '(a, c, tg) := fst (fst y) in rc6_from_bits (2 ^ 8 * a + c) tg)) l /\ (forall e, ~ In (RErr e) os2) /\
      (L = [] -> commands os1 = [] /\ forall e, ~ In (RErr e) os1).
  Proof.
    intros HL Hl El A W Ep. destruct (poll_recv _ _ _ Ep) as (r0 & Er).
    assert (H4130 : 4130 <= freq) by (destruct Hr as (Hj & [Hk|[_ Hk]]); [lia|usual]).
    pose proof (before_counts T first HT Hfi freq ltac:(lia)) as Hc.
    pose proof (rc6_new_val b m freq Hm Hf) as Er'. rewrite Er in Er'.
    apply (bi_polled (rc6_protocol b m) rc6_key C into (fun k => let '(a, c, tg) := k in rc6_from_bits (2 ^ 8 * a + c) tg)
      (fun r => r6_spans (rv_dec r) = spans_of m freq rc6_pulses)
      (fun k g evs => let '(a, c, tg) := k in real_ended (freq * T) 3 (TRc6 a c tg) evs /\ real_long (freq * T) 4000 g)
      (fun k g evs => let '(a, c, tg) := k in 2 ^ 8 * a + c < 2 ^ 16 /\ longer freq 2664 12 g /\
         bi_ended (fun body => rc6_edges freq (rc6_leader_safe freq) tg (2 ^ 8 * a + c) g ((true, g) :: body)) evs)
      freq T first p0 r0 HT Hfi Ep Er); auto.
    - intros [[a c] tg] g g' es (H1 & H3 & H4) Hg. split; [exact H1|]. split; [exact (longer_more _ _ _ _ _ H3 Hg)|].
      destruct H4 as [H4|(body & d & -> & H4)]; [left|right; exists body, d; split; [reflexivity|]]; apply (rc6_edges_gap _ _ _ _ g); exact H4.
    - intros [[a c] tg] g es r HQ (H1 & H3 & H4). apply (rc6_one b m freq C into tg _ r g es); auto.
    - intros t [[a c] tg] g es [H1 H2].
      assert (H3 : 2 ^ 8 * a + c < 2 ^ 16 /\ (real_rc6 (freq * T) 3 tg (2 ^ 8 * a + c) es \/
        exists body D, es = body ++ [(false, D)] /\ real_rc6 (freq * T) 3 tg (2 ^ 8 * a + c) body)).
      { change (2 ^ 16) with 65536. destruct H1 as [(K1 & K2 & K3)|(body & D & -> & (K1 & K2 & K3) & _)]; (split; [change (2 ^ 8) with 256 in *; lia|]); [auto|]. right. eauto. }
      destruct H3 as (K1 & K3). split; [exact K1|]. split.
      + apply (rc6_gap_read freq (freq * T) 1 _ ltac:(lia) Hc Hr _ _ H2).
      + refine (ended_read (real_rc6 (freq * T) 3 tg (2 ^ 8 * a + c)) _ _ _ _ K3 _). intros body. apply (rc6_measured_at freq (freq * T) 1 _ ltac:(lia) Hc Hr).
    - intros h r os E. refine (eq_trans (rc6_run_spans b into h _ _ _ E) _).
      assert (Ei : forall A (x y : A), Val x = Val y -> x = y) by (intros Z x y H; injection H; auto). apply Ei in Er'. rewrite Er'. reflexivity.
    - intros h Hh. destruct (C40_rc6_partial b m freq C into h Hm Hf) as (os & E).
      { destruct HL as [HL|HL]; [left; exact HL|right]. clear -HL Hh. unfold edge in *. lia. }
      unfold outcomes_of in E. rewrite Er in E. cbn [bind] in E. unfold outs in E. cbn [p_dec rc6_protocol] in E |- *.
      destruct (run_edges (D := rc6_dec b) into r0 h) as [[r os']| |]; cbn [bind] in E; try discriminate. eauto.
  Qed.
End Rc6.

Lemma rc6_keys_read G (C : Type) (into : rc6_command -> C) l : rc6_series G l ->
  map (fun y => into (let '(a, c, tg) := fst (fst y) in rc6_from_bits (2 ^ 8 * a + c) tg)) l =
  map (fun y => let '(a, c, tg) := fst (fst y) in into (mkRc6 a c tg)) l.
Proof.
  intros Hl. apply map_ext_in. intros [[[[a c] tg] g] es] Hin. cbn [fst].
  unfold rc6_series in Hl. rewrite Forall_forall in Hl. specialize (Hl _ Hin). cbn [fst snd] in Hl.
  assert (H : a < 2 ^ 8 /\ c < 2 ^ 8) by (destruct Hl as [[H|(? & ? & _ & H & _)] _]; split; apply H). destruct H as [Ha Hc].
  rewrite rc6_from_bits_word by (change (2 ^ 16) with 65536; change (2 ^ 8) with 256 in *; lia).
  assert (F : field (2 ^ 8 * a + c) 8 8 = a /\ field (2 ^ 8 * a + c) 0 8 = c).
  { unfold field. change (2 ^ 0) with 1. change (2 ^ 8) with 256 in *. lia. }
  destruct F as [F1 F2]. rewrite F1, F2. reflexivity.
Qed.

Theorem C79_rc5 :
  forall b m freq T first l L gap evs n C (into : rc5_command -> C) p0,
  timebase m freq -> freq < 2 ^ 32 -> 8 <= usize_bits b -> 0 < T -> first < T -> rate_ok 15000 [20000] freq 1 ->
  after_any b L -> rc5_series (freq * T) l -> series l = (true, gap) :: evs -> alt false evs -> swept T first gap evs n L ->
  poll_new (rc5_protocol b m) freq = Val p0 ->
  polled_all (rc5_protocol b m) freq T first into p0 L gap evs n
    (map (fun y => let w := fst (fst y) in
       into (mkRc5 (field w 6 5) (field w 0 6) (field w 12 2) (negb (field w 11 1 =? 0)))) l).
Proof.
  intros b m freq T first l L gap evs n C into p0 Hm Hf Hu HT Hfi Hr HL Hl El A W Ep.
  destruct (rc5_polled_full b m freq T first C into Hm Hf Hu HT Hfi Hr l L gap evs n p0 HL Hl El A W Ep)
    as (os1 & os2 & k & Eo & L1 & Hk & Hc & _). exists os1, os2, k. split; [exact Eo|]. split; [exact L1|]. split; [exact Hk|].
  refine (eq_trans Hc _). apply map_ext_in. intros [[w g] es] Hin. cbn [fst]. rewrite rc5_unpack_layout. reflexivity.
Qed.
Print Assumptions C79_rc5.

Theorem C79_rc6 :
  forall b m freq T first l L gap evs n C (into : rc6_command -> C) p0,
  timebase m freq -> freq < 2 ^ 32 -> 8 <= usize_bits b -> 0 < T -> first < T -> rate_ok 30000 [40000] freq 1 ->
  after_any b L -> rc6_series (freq * T) l -> series l = (true, gap) :: evs -> alt false evs -> swept T first gap evs n L ->
  poll_new (rc6_protocol b m) freq = Val p0 ->
  polled_all (rc6_protocol b m) freq T first into p0 L gap evs n
    (map (fun y => let '(a, c, tg) := fst (fst y) in into (mkRc6 a c tg)) l).
Proof.
  intros b m freq T first l L gap evs n C into p0 Hm Hf Hu HT Hfi Hr HL Hl El A W Ep.
  destruct (rc6_polled_full b m freq T first C into Hm Hf Hu HT Hfi Hr l L gap evs n p0 HL Hl El A W Ep)
    as (os1 & os2 & k & Eo & L1 & Hk & Hc & _). exists os1, os2, k. split; [exact Eo|]. split; [exact L1|]. split; [exact Hk|].
  refine (eq_trans Hc _). exact (rc6_keys_read (freq * T) C into l Hl).
Qed.
Print Assumptions C79_rc6.

(** The tutorials: what they print, from power-on, for the keys of an RC6 remote. *)
Lemma handler_prints {D : decoder} {C X} (into : dcmd D -> C) (f : outcome C -> X) xs : forall (p p' : periodic_poll D) os,
  run_polls into p xs = Val (p', os) ->
  run_res (fun p low => let* (p1, o) := poll_base into p low in Val (p1, f o)) p xs = Val (p', map f os).
Proof.
  induction xs as [|low xs IH]; intros p p' os E; cbn [run_polls] in E.
  - injection E as -> <-. reflexivity.
  - cbn [run_res]. destruct (poll_base into p low) as [[p1 o]| |]; cbn [bind] in E |- *; try discriminate.
    destruct (run_polls into p1 xs) as [[p2 os2]| |] eqn:E2; cbn [bind] in E; try discriminate.
    injection E as -> <-. rewrite (IH p1 p' os2 E2). reflexivity.
Qed.

Lemma tutorial_prints b T first (l : list (rc6_key * N * list edge)) gap evs n C (into : rc6_command -> C) X (f : outcome C -> list X) (line : rc6_key -> X) :
  8 <= usize_bits b -> 0 < T -> first < T -> rc6_series (40000 * T) l ->
  series l = (true, gap) :: evs -> alt false evs -> swept T first gap evs n [] ->
  f (ROk None) = [] -> (forall a c tg, f (ROk (Some (into (mkRc6 a c tg)))) = [line (a, c, tg)]) ->
  exists p0 p ls, tutorial_new b = Val p0 /\
    run_res (fun p low => let* (p1, o) := poll_base (D := rc6_dec b) into p low in Val (p1, f o)) p0
      (map (level_at false 0 ((true, gap) :: evs)) (times first T (S n))) = Val (p, ls) /\
    concat ls = map (fun y => line (fst (fst y))) l.
Proof.
  intros Hu HT Hfi Hl El A W F0 F1.
  assert (Ep : exists p0, tutorial_new b = Val p0).
  { pose proof (rc6_new_val b MU32 40000 I ltac:(reflexivity)) as E.
    unfold tutorial_new, TUTORIAL_FREQ, poll_new. unfold receiver_new in E. destruct (p_build _ _); cbn [bind] in *; try discriminate. eauto. }
  destruct Ep as (p0 & Ep).
  destruct (rc6_polled_full b MU32 40000 T first C into I ltac:(reflexivity) Hu HT Hfi) with (l := l) (L := @nil bool) (gap := gap) (evs := evs) (n := n) (p0 := p0)
    as (os1 & os2 & k & Eo & _ & _ & Hc & He & H0); auto.
  { split; [lia|]. right. split; [reflexivity|left; reflexivity]. }
  { right. apply pow2_8 in Hu. cbn. lia. }
  destruct (H0 eq_refl) as (C1 & N1). cbn [app] in Eo. unfold outs in Eo.
  destruct (run_polls (D := rc6_dec b) into p0 (map (level_at false 0 ((true, gap) :: evs)) (times first T (S n))))
    as [[p os']| |] eqn:E; cbn [bind] in Eo; try discriminate. injection Eo as ->.
  exists p0, p. eexists. split; [exact Ep|]. split; [exact (handler_prints (D := rc6_dec b) into f _ p0 p _ E)|].
  assert (B : forall os : list (outcome C), (forall e, ~ In (RErr e) os) ->
    concat (map f os) = flat_map (fun c => f (ROk (Some c))) (commands os)).
  { clear -F0. induction os as [|o os IH]; intros He; [reflexivity|]. cbn [map concat]. rewrite IH by (intros e Hi; apply (He e); right; exact Hi).
    destruct o as [[c|]|e]; [reflexivity|rewrite F0; reflexivity|]. destruct (He e). left. reflexivity. }
  rewrite map_app, concat_app, (B os1 N1), (B os2 He), C1. cbn [flat_map app].
  rewrite (rc6_keys_read (40000 * T) C into l Hl) in Hc. rewrite Hc. clear -F1.
  induction l as [|[[[[a c] tg] g] es] l IH]; [reflexivity|]. cbn [map flat_map fst]. rewrite IH, F1. reflexivity.
Qed.

Theorem C79_tutorial1a :
  forall b T first (l : list (rc6_key * N * list edge)) gap evs n,
  8 <= usize_bits b -> 0 < T -> first < T -> rc6_series (40000 * T) l ->
  series l = (true, gap) :: evs -> alt false evs -> swept T first gap evs n [] ->
  exists p0 p ls, tutorial_new b = Val p0 /\
    run_res tutorial1a_tim2 p0 (map (level_at false 0 ((true, gap) :: evs)) (times first T (S n))) = Val (p, ls) /\
    concat ls = map (fun y => let '(a, c, _) := fst (fst y) in L1a a c) l.
Proof.
  intros b T first l gap evs n Hu HT Hfi Hl El A W.
  apply (tutorial_prints b T first l gap evs n rc6_command (fun c => c) line1a _ (fun k => let '(a, c, _) := k in L1a a c)); auto.
Qed.
Print Assumptions C79_tutorial1a.

Lemma tv_line_ok a c tg :
  match btn_action (button_from Rc6Tv (mkRc6 a c tg)) with
  | Some A_Teletext => [L1bTeletext]
  | Some A_Power => [L1bPower]
  | _ => [L1bCmd (button_from Rc6Tv (mkRc6 a c tg))]
  end = [tv_line a c tg].
Proof.
  assert (E : button_from Rc6Tv (mkRc6 a c tg) = @mkButton Rc6Tv (mkRc6 a c tg) (tv_button a c)).
  { unfold button_from. f_equal. cbn [rm_decode Rc6Tv default_remote]. unfold default_decode. cbn [ac_address ac_command rc6_ac rc6_addr rc6_cmd].
    destruct a as [|a]; [|destruct a; reflexivity]. cbn [N.eqb negb find fst snd].
    destruct c as [|c]; [reflexivity|]. do 7 (destruct c as [c|c|]; try reflexivity). }
  rewrite E. cbn [btn_action]. unfold tv_line, tv_button.
  destruct a as [|a]; [|destruct a; reflexivity]. destruct c as [|c]; [reflexivity|]. do 7 (destruct c as [c|c|]; try reflexivity).
Qed.

Theorem C79_tutorial1b :
  forall b T first (l : list (rc6_key * N * list edge)) gap evs n,
  8 <= usize_bits b -> 0 < T -> first < T -> rc6_series (40000 * T) l ->
  series l = (true, gap) :: evs -> alt false evs -> swept T first gap evs n [] ->
  exists p0 p ls, tutorial_new b = Val p0 /\
    run_res tutorial1b_tim2 p0 (map (level_at false 0 ((true, gap) :: evs)) (times first T (S n))) = Val (p, ls) /\
    concat ls = map (fun y => let '(a, c, tg) := fst (fst y) in tv_line a c tg) l.
Proof.
  intros b T first l gap evs n Hu HT Hfi Hl El A W.
  apply (tutorial_prints b T first l gap evs n _ (button_from Rc6Tv) line1b (fun o => match o with
     | ROk (Some c) => match btn_action c with Some A_Teletext => [L1bTeletext] | Some A_Power => [L1bPower] | _ => [L1bCmd c] end
     | _ => [] end) (fun k => let '(a, c, tg) := k in tv_line a c tg)); auto.
  intros a c tg. apply tv_line_ok.
Qed.
Print Assumptions C79_tutorial1b.

(** Two keys in microseconds, 2 percent slow, sampled every 25 microseconds from 7 on: volume
    up, then power with the toggle bit changed. *)
Definition slow_rc6 (tg : bool) (data : N) : list edge :=
  map (fun e : edge => (fst e, 453 * snd e)) (tl (level_edges false 0 (rc6_wave tg (bits_msb 16 data)))).
Lemma slow_rc6_ok tg data : (exists n noms, level_edges false 0 (rc6_wave tg (bits_msb 16 data)) = (true, n) :: noms) ->
  real_rc6 1000000 3 tg data (slow_rc6 tg data).
Proof.
  intros (n & noms & E). exists n, noms. split; [exact E|]. unfold slow_rc6. rewrite E. cbn [tl]. clear E.
  induction noms as [|e noms IH]; cbn [map]; constructor; [|exact IH]. split; [reflexivity|]. unfold real_near. cbn [snd]. lia.
Qed.
Definition c79_keys : list (rc6_key * N * list edge) :=
  [ ((0, 76, false), 5000, slow_rc6 false 76 ++ [(false, 450)]); ((0, 12, true), 70000, slow_rc6 true 12 ++ [(false, 450)]) ].
Definition c79_lines (b : build) (xs : list bool) : option (list line1a * list line1b) :=
  match tutorial_new b with
  | Val p => match run_res tutorial1a_tim2 p xs, run_res tutorial1b_tim2 p xs with
             | Val (_, ls), Val (_, ls') => Some (concat ls, concat ls')
             | _, _ => None
             end
  | _ => None
  end.

Lemma c79_meets :
  rc6_series (40000 * 25) c79_keys /\ series c79_keys = (true, 5000) :: tl (series c79_keys) /\ alt false (tl (series c79_keys)) /\
  swept 25 7 5000 (tl (series c79_keys)) (N.to_nat 5000) [].
Proof.
  split.
  { unfold rc6_series, c79_keys. repeat apply Forall_cons; [| |apply Forall_nil]; cbn [fst snd];
      (split; [right; eexists; eexists; split; [reflexivity|]; split; [split; [reflexivity|]; split; [reflexivity|]; apply slow_rc6_ok; do 2 eexists; vm_compute; reflexivity
                |split; vm_compute; discriminate]|vm_compute; discriminate]). }
  split; [reflexivity|]. split; [vm_compute; repeat split|].
  assert (H : forallb (fun e : edge => (25 <=? snd e) && (snd e <=? (2 ^ 31 - 2) * 25)) ((true, 5000) :: tl (series c79_keys)) = true) by (vm_compute; reflexivity).
  rewrite forallb_forall in H. split; [|split; [|split]].
  - apply Forall_forall. intros e He. specialize (H e He). apply andb_prop in H. apply N.leb_le, H.
  - apply Forall_forall. intros e He. specialize (H e (or_intror He)). apply andb_prop in H. apply N.leb_le, H.
  - vm_compute. discriminate.
  - rewrite Nnat.N2Nat.id. vm_compute. discriminate.
Qed.

Example C79_example :
  c79_lines (debug_build 32) (map (level_at false 0 (series c79_keys)) (times 7 25 (S (N.to_nat 5000)))) =
    Some ([L1a 0 76; L1a 0 12], [L1bCmd (@mkButton Rc6Tv (mkRc6 0 76 false) (Some A_VolumeUp)); L1bPower]).
Proof.
  destruct c79_meets as (H1 & H2 & H3 & H4).
  assert (Hu : 8 <= usize_bits (debug_build 32)) by (vm_compute; discriminate).
  destruct (C79_tutorial1a (debug_build 32) 25 7 c79_keys _ _ _ Hu ltac:(reflexivity) ltac:(reflexivity) H1 H2 H3 H4) as (p0 & p & ls & E0 & E & Ec).
  destruct (C79_tutorial1b (debug_build 32) 25 7 c79_keys _ _ _ Hu ltac:(reflexivity) ltac:(reflexivity) H1 H2 H3 H4) as (p0' & p' & ls' & E0' & E' & Ec').
  rewrite E0' in E0. assert (Ei : forall A (x y : A), Val x = Val y -> x = y) by (intros Z x y H; injection H; auto). apply Ei in E0. subst p0'.
  rewrite <- H2 in E, E'. unfold c79_lines. rewrite E0', E, E', Ec, Ec'. vm_compute. reflexivity.
Qed.

(** The hypotheses of C79_rc5, with earlier samples in the middle of a mark. *)
Definition slow_rc5 (w : N) : list edge :=
  map (fun e : edge => (fst e, 907 * snd e)) (tl (level_edges false 0 (rc5_wave w))).
Definition c79_rc5 : list (N * N * list edge) := [ (14348, 4000, slow_rc5 14348); (12300, 90000, slow_rc5 12300) ].
Definition c79_before : list bool := repeat false 9 ++ repeat true 40.

Example C79_rc5_example :
  rc5_series (20000 * 50) c79_rc5 /\ series c79_rc5 = (true, 4000) :: tl (series c79_rc5) /\ alt false (tl (series c79_rc5)) /\
  swept 50 49 4000 (tl (series c79_rc5)) (N.to_nat 3000) c79_before /\ after_any (debug_build 16) c79_before /\
  map (fun y : N * N * list edge => let w := fst (fst y) in (field w 6 5, field w 0 6)) c79_rc5 = [(0, 12); (0, 12)].
Proof.
  split.
  { unfold rc5_series, c79_rc5.
    assert (H : forall w, w < 2 ^ 14 -> N.testbit w 13 = true -> (exists n noms, level_edges false 0 (rc5_wave w) = (true, n) :: noms) ->
      real_ended (20000 * 50) 3 (TRc5 w) (slow_rc5 w)).
    { intros w H1 H2 (n & noms & E). left. split; [exact H1|]. split; [exact H2|]. exists n, noms. split; [exact E|]. unfold slow_rc5. rewrite E. cbn [tl]. clear E.
      induction noms as [|e noms IH]; cbn [map]; constructor; [|exact IH]. split; [reflexivity|]. unfold real_near. cbn [snd]. lia. }
    repeat apply Forall_cons; [| |apply Forall_nil]; cbn [fst snd];
      (split; [apply H; [reflexivity|reflexivity|do 2 eexists; vm_compute; reflexivity]|vm_compute; discriminate]). }
  split; [reflexivity|]. split; [vm_compute; repeat split|]. split.
  { assert (H : forallb (fun e : edge => (50 <=? snd e) && (snd e <=? (2 ^ 31 - 2) * 50)) ((true, 4000) :: tl (series c79_rc5)) = true) by (vm_compute; reflexivity).
    rewrite forallb_forall in H. split; [|split; [|split]].
    - apply Forall_forall. intros e He. specialize (H e He). apply andb_prop in H. apply N.leb_le, H.
    - apply Forall_forall. intros e He. specialize (H e (or_intror He)). apply andb_prop in H. apply N.leb_le, H.
    - vm_compute. discriminate.
    - rewrite Nnat.N2Nat.id. vm_compute. discriminate. }
  split; [right; vm_compute; reflexivity|vm_compute; reflexivity].
Qed.
