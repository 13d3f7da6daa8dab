(** * Property theorems: long pauses *)
From Coq Require Import NArith ZArith List Bool Lia ZifyBool ZifyNat ZifyN.
From Verif Require Import Machine Time Decoder Nec Rc5 Rc6 Denon Sbp Receiver Spec Bits Codec_facts Time_facts Window_facts Run_facts Nec_facts Rc5_facts Rc6_facts
  Denon_facts Sbp_facts Spec_receiver Receiver_facts Spec_state State_facts Props_decode Props_receiver Props_state Props_traffic Cross_facts Multi_facts.
Import ListNotations.
Open Scope N_scope.

(** ** C81: beyond 15 ms the length of an interval does not matter *)

(** Longer than 15 ms. *)
Definition pause (freq d : N) : Prop := 15 * freq < 1000 * d.

(** The same level, and intervals that are equal or both longer than 15 ms. *)
Definition same_but_pauses (freq : N) (x y : edge) : Prop :=
  fst x = fst y /\ (snd x = snd y \/ pause freq (snd x) /\ pause freq (snd y)).
(** Intervals below half of the range of the duration type. *)
Definition in_half (m : mono) (h : list edge) : Prop := Forall (fun x => 2 * snd x < 2 ^ dur_bits m) h.

Definition alike (m : mono) (freq x y : N) : Prop :=
  2 * x < 2 ^ dur_bits m /\ 2 * y < 2 ^ dur_bits m /\ (x = y \/ pause freq x /\ pause freq y).
Definition alike_edge (m : mono) (freq : N) (x y : edge) : Prop := fst x = fst y /\ alike m freq (snd x) (snd y).

(** Two runs side by side. *)
Definition paired {D : decoder} (R : dst D -> dst D -> Prop) (x y : res (dst D * state)) : Prop :=
  match x, y with
  | Val (d, s), Val (e, t) => R d e /\ s = t
  | _, _ => exists f : res (dst D * state), x = f /\ y = f /\ forall z, f <> Val z
  end.

Lemma side_by_side {D : decoder} {C} (into : dcmd D -> C) (R : dst D -> dst D -> Prop) (E : edge -> edge -> Prop) :
  (forall d e x y, R d e -> E x y -> paired R (d_event D d (fst x) (snd x)) (d_event D e (fst y) (snd y))) ->
  (forall d e, R d e -> d_command D d = d_command D e /\ R (d_reset D d) (d_reset D e)) ->
  forall h k, Forall2 E h k -> forall d e p q, R d e ->
  outs (run_edges into (mkRecv d p) h) = outs (run_edges into (mkRecv e q) k).
Proof.
  intros Hs Hr. induction 1 as [|x y h k Hxy F IH]; intros d e p q HR; [reflexivity|]. destruct x as [l u], y as [l' v].
  cbn [run_edges]. unfold event_edge. cbn [rv_dec rv_prev]. specialize (Hs d e _ _ HR Hxy). cbn [fst snd] in Hs.
  assert (Cont : forall d1 e1 (o : outcome C), R d1 e1 ->
    outs (let* (r1, o') := Val (mkRecv d1 p, o) in let* (r2, os) := run_edges into r1 h in Val (r2, o' :: os)) =
    outs (let* (r1, o') := Val (mkRecv e1 q, o) in let* (r2, os) := run_edges into r1 k in Val (r2, o' :: os))).
  { intros d1 e1 o H1. cbn [bind]. specialize (IH d1 e1 p q H1).
    destruct (run_edges into (mkRecv d1 p) h) as [[r2 os]| |], (run_edges into (mkRecv e1 q) k) as [[r3 os']| |];
      cbn [outs bind] in *; try discriminate IH; try reflexivity. injection IH as ->. reflexivity. }
  unfold paired in Hs.
  destruct (d_event D d l u) as [[d1 s]| |], (d_event D e l' v) as [[e1 t]| |];
    try (destruct Hs as (f & F1 & F2 & Fn); subst f; solve [reflexivity | discriminate F2 | destruct (Fn _ eq_refl)]).
  destruct Hs as [H1 <-]. cbn [bind]. destruct s; try (apply Cont, H1).
  - destruct (Hr _ _ H1) as [-> H2]. apply Cont, H2.
  - apply Cont, (Hr _ _ H1).
Qed.

Lemma pause_longer freq d : pause freq d -> longer freq 13500 8 d.
Proof.
  unfold pause, longer, nominal. intros H. pose proof (N.mul_div_le (13500 * freq) 1000000 ltac:(discriminate)). lia.
Qed.


Section Windows.
  Context (m : mono) (freq : N).
  Hypothesis Hm : timebase m freq.
  Hypothesis Hf : freq < 2 ^ 32.

  (** No window of the table reaches 15 ms. *)
  Definition far (pt : list (N * N)) : Prop := forall d, pause freq d -> spans_get (spans_of m freq pt) d = None.

  Lemma far_table pt : table_ok pt -> Forall (fun x => 2 * fst x <= 13500 \/ fst x <= 13500 /\ snd x <= 8) pt -> far pt.
  Proof.
    intros Ht F d Hp. apply (spans_get_long pt m freq 13500 8 d); auto using pause_longer. rewrite Forall_forall in *.
    intros x Hx. specialize (F x Hx). assert (Hx2 : snd x <= 100).
    { unfold table_ok in Ht. rewrite Forall_forall in Ht. specialize (Ht x Hx). lia. }
    destruct F as [F | [F G]].
    - pose proof (nominal_sum freq (fst x) (fst x)). pose proof (nominal_le freq (fst x + fst x) 13500 ltac:(lia)). nia.
    - pose proof (nominal_le freq (fst x) 13500 F). nia.
  Qed.

  Ltac table := repeat (apply Forall_cons; [cbn; lia|]); apply Forall_nil.
  Lemma nec_far T : nec_timing_ok T -> far (nec_pulses T).
  Proof. intros HT. apply far_table; [auto using nec_table_ok|]. destruct HT as [-> | ->]; unfold nec_pulses; table. Qed.
  Lemma sbp_far : far sbp_pulses.
  Proof. apply far_table; [exact sbp_ok|]. unfold sbp_pulses. table. Qed.
  Lemma denon_far : far denon_pulses.
  Proof. apply far_table; [exact denon_ok|]. unfold denon_pulses. table. Qed.
  Lemma rc5_far_table : far rc5_pulses.
  Proof. apply far_table; [exact rc5_ok|]. unfold rc5_pulses. table. Qed.
  Lemma rc6_far_table : far rc6_pulses.
  Proof. apply far_table; [exact rc6_ok|]. unfold rc6_pulses. table. Qed.

  Lemma pause_get pt x y : far pt -> x = y \/ pause freq x /\ pause freq y ->
    spans_get (spans_of m freq pt) x = spans_get (spans_of m freq pt) y.
  Proof. intros F [-> | [Hx Hy]]; [reflexivity|]. rewrite !F; auto. Qed.
  Lemma alike_total b pt x y u v : far pt -> alike m freq x y -> alike m freq u v ->
    exists p q, dur_add b m x u = Val p /\ dur_add b m y v = Val q /\
      spans_get (spans_of m freq pt) p = spans_get (spans_of m freq pt) q.
  Proof.
    intros F (X & Y & Hxy) (U & V & Huv). exists (x + u), (y + v).
    split; [apply dur_add_half; assumption|]. split; [apply dur_add_half; assumption|].
    destruct Hxy as [-> | [Hx Hy]]; [destruct Huv as [-> | [Hu Hv]]; [reflexivity|]|]; rewrite !F; unfold pause in *; lia || reflexivity.
  Qed.
  Lemma alike_zero : alike m freq 0 0.
  Proof. split; [apply half_zero|]. split; [apply half_zero|left; reflexivity]. Qed.
  Lemma alike_all h k : Forall2 (same_but_pauses freq) h k -> in_half m h -> in_half m k -> Forall2 (alike_edge m freq) h k.
  Proof.
    induction 1 as [|x y h k [H1 H2] F IH]; intros Hh Hk; [constructor|]. inversion Hh; inversion Hk; subst.
    apply Forall2_cons; [|auto]. split; [assumption|]. split; [assumption|]. split; assumption.
  Qed.
End Windows.

(** The decoders, side by side: all fields equal except the saved mark. *)
Definition nec_pair m freq T (d e : nec_decoder) : Prop :=
  ns_state d = ns_state e /\ ns_bitbuf d = ns_bitbuf e /\ alike m freq (ns_dt_save d) (ns_dt_save e) /\
  ns_spans d = spans_of m freq (nec_pulses T) /\ ns_spans e = spans_of m freq (nec_pulses T).
Definition sbp_pair m freq (d e : sbp_decoder) : Prop :=
  sb_state d = sb_state e /\ sb_address d = sb_address e /\ sb_command d = sb_command e /\
  alike m freq (sb_since_rising d) (sb_since_rising e) /\
  sb_spans d = spans_of m freq sbp_pulses /\ sb_spans e = spans_of m freq sbp_pulses.
Definition denon_pair m freq (d e : denon_decoder) : Prop :=
  dn_state d = dn_state e /\ dn_buf d = dn_buf e /\ alike m freq (dn_dt_save d) (dn_dt_save e) /\
  dn_spans d = spans_of m freq denon_pulses /\ dn_spans e = spans_of m freq denon_pulses.

Ltac pairing :=
  unfold nec_pair, sbp_pair, denon_pair;
  cbn [ns_state ns_bitbuf ns_dt_save ns_spans sb_state sb_address sb_command sb_since_rising sb_spans dn_state dn_buf dn_dt_save dn_spans];
  repeat match goal with
         | |- alike _ _ 0 0 => apply alike_zero
         | |- alike _ _ _ _ => assumption
         | |- _ /\ _ => split
         | |- _ = _ => first [reflexivity | assumption]
         end.
Ltac fails := cbn [paired bind]; eexists; split; [reflexivity|]; split; [reflexivity|discriminate].

Section Pairs.
  Context (b : build) (m : mono) (freq : N).
  Hypothesis Hm : timebase m freq.
  Hypothesis Hf : freq < 2 ^ 32.

  Lemma nec_paired V d e x y : nec_timing_ok (nv_timing V) -> nec_pair m freq (nv_timing V) d e -> alike_edge m freq x y ->
    paired (D := nec_dec b m V) (nec_pair m freq (nv_timing V)) (nec_event b m d (fst x) (snd x)) (nec_event b m e (fst y) (snd y)).
  Proof.
    intros HT (E1 & E2 & E3 & E4 & E5) [F1 F2]. unfold nec_event. rewrite <- F1, E1, E2, E4, E5. destruct (fst x).
    - destruct (alike_total m freq Hf b (nec_pulses (nv_timing V)) _ _ _ _ (nec_far m freq Hm Hf _ HT) F2 E3) as (p & q & -> & -> & Epq).
      cbn [bind]. rewrite Epq. destruct (nec_transition _ _ _ _) as [[buf s]| |]; cbn [bind]; [|fails|fails].
      cbn [paired]. split; [|reflexivity]. pairing.
    - cbn [paired]. split; [|reflexivity]. pairing.
  Qed.
  Lemma sbp_paired d e x y : sbp_pair m freq d e -> alike_edge m freq x y ->
    paired (D := sbp_dec b m) (sbp_pair m freq) (sbp_event b m d (fst x) (snd x)) (sbp_event b m e (fst y) (snd y)).
  Proof.
    intros (E1 & E2 & E3 & E4 & E5 & E6) [F1 F2]. unfold sbp_event. rewrite <- F1, E1, E2, E3, E5, E6. destruct (fst x).
    - destruct (alike_total m freq Hf b sbp_pulses _ _ _ _ (sbp_far m freq Hm Hf) E4 F2) as (p & q & -> & -> & Epq).
      cbn [bind]. rewrite Epq. destruct (sbp_transition _ _ _ _ _) as [[[s a] c]| |]; cbn [bind]; [|fails|fails].
      cbn [paired]. split; [|reflexivity]. pairing.
    - cbn [paired]. split; [|reflexivity]. pairing.
  Qed.
  Lemma denon_paired d e x y : denon_pair m freq d e -> alike_edge m freq x y ->
    paired (D := denon_dec b m) (denon_pair m freq) (denon_event b m d (fst x) (snd x)) (denon_event b m e (fst y) (snd y)).
  Proof.
    intros (E1 & E2 & E3 & E4 & E5) [F1 F2]. unfold denon_event. rewrite <- F1, E1, E2, E4, E5. destruct (fst x).
    - destruct (alike_total m freq Hf b denon_pulses _ _ _ _ (denon_far m freq Hm Hf) E3 F2) as (p & q & -> & -> & Epq).
      cbn [bind]. rewrite Epq. destruct (denon_transition _ _ _ _) as [[buf s]| |]; cbn [bind]; [|fails|fails].
      cbn [paired]. split; [|reflexivity]. pairing.
    - cbn [paired]. split; [|reflexivity]. pairing.
  Qed.
  Lemma rc5_paired (d e : rc5_decoder) x y : d = e /\ r5_spans d = spans_of m freq rc5_pulses -> same_but_pauses freq x y ->
    paired (D := rc5_dec b) (fun d e => d = e /\ r5_spans d = spans_of m freq rc5_pulses)
      (rc5_event b d (fst x) (snd x)) (rc5_event b e (fst y) (snd y)).
  Proof.
    intros [<- E] [F1 F2].
    assert (K : rc5_event b d (fst x) (snd x) = rc5_event b d (fst y) (snd y)).
    { unfold rc5_event. rewrite <- F1, E. rewrite (pause_get m freq rc5_pulses _ _ (rc5_far_table m freq Hm Hf) F2). reflexivity. }
    rewrite <- K. destruct (rc5_event b d (fst x) (snd x)) as [[d1 s]| |] eqn:Ev; [|fails|fails].
    cbn [paired]. split; [|reflexivity]. split; [reflexivity|].
    apply rc5_event_spans in Ev. rewrite Ev. exact E.
  Qed.
  Lemma rc6_paired (d e : rc6_decoder) x y : d = e /\ r6_spans d = spans_of m freq rc6_pulses -> same_but_pauses freq x y ->
    paired (D := rc6_dec b) (fun d e => d = e /\ r6_spans d = spans_of m freq rc6_pulses)
      (rc6_event b d (fst x) (snd x)) (rc6_event b e (fst y) (snd y)).
  Proof.
    intros [<- E] [F1 F2].
    assert (K : rc6_event b d (fst x) (snd x) = rc6_event b d (fst y) (snd y)).
    { unfold rc6_event. rewrite <- F1, E. rewrite (pause_get m freq rc6_pulses _ _ (rc6_far_table m freq Hm Hf) F2). reflexivity. }
    rewrite <- K. destruct (rc6_event b d (fst x) (snd x)) as [[d1 s]| |] eqn:Ev; [|fails|fails].
    cbn [paired]. split; [|reflexivity]. split; [reflexivity|].
    apply rc6_event_spans in Ev. rewrite Ev. exact E.
  Qed.
End Pairs.

(** Replacing intervals longer than 15 ms by others longer than 15 ms changes no outcome. *)
Theorem C81_nec b m freq V {C} (into : nv_cmd V -> C) h k :
  timebase m freq -> freq < 2 ^ 32 -> nec_timing_ok (nv_timing V) ->
  Forall2 (same_but_pauses freq) h k -> in_half m h -> in_half m k ->
  outcomes_of (nec_protocol b m V) freq into h = outcomes_of (nec_protocol b m V) freq into k.
Proof.
  intros Hm Hf HT F Hh Hk. unfold outcomes_of. rewrite (nec_new_val b m freq V Hm Hf HT). cbn [bind].
  apply (side_by_side (D := nec_dec b m V) into (nec_pair m freq (nv_timing V)) (alike_edge m freq)).
  - intros d e x y HR Hx. apply nec_paired; assumption.
  - intros d e (E1 & E2 & E3 & E4 & E5). cbn [d_command d_reset nec_dec]. unfold nec_command_of, nec_reset. rewrite E1, E2. split; [reflexivity|].
    pairing.
  - apply alike_all; assumption.
  - pairing.
Qed.
Theorem C81_sbp b m freq {C} (into : sbp_command -> C) h k :
  timebase m freq -> freq < 2 ^ 32 -> Forall2 (same_but_pauses freq) h k -> in_half m h -> in_half m k ->
  outcomes_of (sbp_protocol b m) freq into h = outcomes_of (sbp_protocol b m) freq into k.
Proof.
  intros Hm Hf F Hh Hk. unfold outcomes_of. rewrite (sbp_new_val b m freq Hm Hf). cbn [bind].
  apply (side_by_side (D := sbp_dec b m) into (sbp_pair m freq) (alike_edge m freq)).
  - intros d e x y HR Hx. apply sbp_paired; assumption.
  - intros d e (E1 & E2 & E3 & E4 & E5 & E6). cbn [d_command d_reset sbp_dec]. unfold sbp_command_of, sbp_reset. rewrite E2, E3. split; [reflexivity|].
    pairing.
  - apply alike_all; assumption.
  - pairing.
Qed.
Theorem C81_denon b m freq {C} (into : denon_command -> C) h k :
  timebase m freq -> freq < 2 ^ 32 -> Forall2 (same_but_pauses freq) h k -> in_half m h -> in_half m k ->
  outcomes_of (denon_protocol b m) freq into h = outcomes_of (denon_protocol b m) freq into k.
Proof.
  intros Hm Hf F Hh Hk. unfold outcomes_of. rewrite (denon_new_val b m freq Hm Hf). cbn [bind].
  apply (side_by_side (D := denon_dec b m) into (denon_pair m freq) (alike_edge m freq)).
  - intros d e x y HR Hx. apply denon_paired; assumption.
  - intros d e (E1 & E2 & E3 & E4 & E5). cbn [d_command d_reset denon_dec]. unfold denon_command_of, denon_reset. rewrite E1, E2. split; [reflexivity|].
    pairing.
  - apply alike_all; assumption.
  - pairing.
Qed.
(** RC5 and RC6 never add two intervals, so that intervals of any length are meant. *)
Theorem C81_rc5 b m freq {C} (into : rc5_command -> C) h k :
  timebase m freq -> freq < 2 ^ 32 -> Forall2 (same_but_pauses freq) h k ->
  outcomes_of (rc5_protocol b m) freq into h = outcomes_of (rc5_protocol b m) freq into k.
Proof.
  intros Hm Hf F. unfold outcomes_of. rewrite (rc5_new_val b m freq Hm Hf). cbn [bind].
  apply (side_by_side (D := rc5_dec b) into (fun d e => d = e /\ r5_spans d = spans_of m freq rc5_pulses) (same_but_pauses freq)).
  - intros d e x y HR Hx. apply (rc5_paired b m freq); assumption.
  - intros d e [<- E]. split; [reflexivity|]. split; [reflexivity|exact E].
  - exact F.
  - split; reflexivity.
Qed.
Theorem C81_rc6 b m freq {C} (into : rc6_command -> C) h k :
  timebase m freq -> freq < 2 ^ 32 -> Forall2 (same_but_pauses freq) h k ->
  outcomes_of (rc6_protocol b m) freq into h = outcomes_of (rc6_protocol b m) freq into k.
Proof.
  intros Hm Hf F. unfold outcomes_of. rewrite (rc6_new_val b m freq Hm Hf). cbn [bind].
  apply (side_by_side (D := rc6_dec b) into (fun d e => d = e /\ r6_spans d = spans_of m freq rc6_pulses) (same_but_pauses freq)).
  - intros d e x y HR Hx. apply (rc6_paired b m freq); assumption.
  - intros d e [<- E]. split; [reflexivity|]. split; [reflexivity|exact E].
  - exact F.
  - split; reflexivity.
Qed.

Definition nth_outcome {O} (x : res (list O)) (i : nat) : option O := match x with Val os => nth_error os i | _ => None end.
(** A concrete case: the history and frame of [C18_example], once after a pause of 30 ms and once
    after one of 10^12 ticks (more than nine months). *)
Example C81_example :
  let ps := nec_example_pairs (355, 190) (bytes4 21 (compl8 21) 200 (compl8 200)) in
  let h g := nec_example_history ++ (true, g) :: pair_edges ps in
  let P := nec_protocol (debug_build 32) MU64 NecStandard in
  Forall2 (same_but_pauses 40000) (h 1200) (h 1000000000000) /\ in_half MU64 (h 1200) /\ in_half MU64 (h 1000000000000) /\
  h 1200 <> h 1000000000000 /\
  nth_outcome (outcomes_of P 40000 (fun c => c) (h 1200)) 74 = Some (ROk (Some (mkNec 21 200 false))) /\
  nth_outcome (outcomes_of P 40000 (fun c => c) (h 1000000000000)) 74 = Some (ROk (Some (mkNec 21 200 false))).
Proof.
  intros ps h P.
  assert (F : Forall2 (same_but_pauses 40000) (h 1200) (h 1000000000000)).
  { unfold h. apply Forall2_app; [|apply Forall2_cons].
    - induction nec_example_history as [|x l IH]; constructor; [split; [reflexivity|left; reflexivity]|exact IH].
    - split; [reflexivity|right]. split; vm_compute; reflexivity.
    - induction (pair_edges ps) as [|x l IH]; constructor; [split; [reflexivity|left; reflexivity]|exact IH]. }
  assert (K : forall l, forallb (fun x : edge => 2 * snd x <? 2 ^ 64) l = true -> in_half MU64 l).
  { intros l H. rewrite forallb_forall in H. apply Forall_forall. intros x Hx. apply N.ltb_lt, H, Hx. }
  assert (H1 : in_half MU64 (h 1200)) by (apply K; vm_compute; reflexivity).
  assert (H2 : in_half MU64 (h 1000000000000)) by (apply K; vm_compute; reflexivity).
  assert (H3 : nth_outcome (outcomes_of P 40000 (fun c => c) (h 1200)) 74 = Some (ROk (Some (mkNec 21 200 false)))) by (vm_compute; reflexivity).
  split; [exact F|]. split; [exact H1|]. split; [exact H2|]. split; [discriminate|]. split; [exact H3|].
  refine (eq_trans (f_equal (fun q => nth_outcome q 74) _) H3). symmetry.
  apply C81_nec; [exact I|reflexivity|left; reflexivity|exact F|exact H1|exact H2].
Qed.

(** The range matters: with overflow checks, two intervals that fill the 32-bit timer stop the program. *)
Theorem C81_half_range_needed :
  exists h k, Forall2 (same_but_pauses 1000000) h k /\ in_half MU32 h /\ ~ in_half MU32 k /\
  outcomes_of (nec_protocol (debug_build 32) MU32 NecStandard) 1000000 (fun c => c) h = Val [ROk None; ROk None] /\
  outcomes_of (nec_protocol (debug_build 32) MU32 NecStandard) 1000000 (fun c => c) k = Panic.
Proof.
  exists [(false, 20000); (true, 20000)], [(false, 2147483648); (true, 2147483648)].
  split; [repeat (apply Forall2_cons; [split; [reflexivity|right; split; vm_compute; reflexivity]|]); apply Forall2_nil|].
  split; [repeat (apply Forall_cons; [vm_compute; reflexivity|]); apply Forall_nil|].
  split; [intros H; inversion H as [|x l H1 H2]; vm_compute in H1; discriminate H1|].
  split; vm_compute; reflexivity.
Qed.
Print Assumptions C81_nec.
Print Assumptions C81_sbp.
Print Assumptions C81_denon.
Print Assumptions C81_rc5.
Print Assumptions C81_rc6.
