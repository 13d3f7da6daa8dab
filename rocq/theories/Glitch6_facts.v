(** * Lemmas: short disturbances of an RC6 frame *)
From Coq Require Import NArith ZArith List Bool Lia ZifyBool ZifyNat ZifyN.
From Verif Require Import Machine Time Decoder Rc6 Receiver Spec Bits Time_facts Window_facts Run_facts Rc5_facts Rc6_facts
  Spec_receiver Spec_sound Biphase_facts Apps_facts Spec_cross Cross_facts Spec_glitch Glitch_facts.
Import ListNotations.
Open Scope N_scope.

Lemma option_eq_dec_5 (o : option N) : o = Some 5 \/ o <> Some 5.
Proof. destruct o as [k|]; [|right; discriminate]. destruct (N.eq_dec k 5) as [->|H]; [left; reflexivity|right; congruence]. Qed.

Section Rc6Glitch.
  Variables (b : build) (m : mono) (freq : N).
  Hypothesis (Hm : timebase m freq) (Hf : freq < M32) (Hlo : 20000 <= freq) (Hu : 8 <= usize_bits b).
  Notation ss := (spans_of m freq rc6_pulses).
  Notation D := (rc6_dec b).
  Context {C : Type} (into : rc6_command -> C).
  Notation run := (@run_edges D C into).
  Notation ev := (@event_edge D C into).
  Notation st s da h t ck pv := (@mkRecv D (mkRc6Dec s da h t ck ss) pv).

  Lemma low : 2253 <= freq.
  Proof using Hlo. clear - Hlo. lia. Qed.

  (** ** Before a leader *)

  Definition waiting (r : receiver D) : Prop :=
    r6_spans (rv_dec r) = ss /\ (r6_state (rv_dec r) = R6Idle \/ r6_state (rv_dec r) = R6Leading).
  Lemma waiting_st s da h t ck pv : s = R6Idle \/ s = R6Leading -> waiting (st s da h t ck pv).
  Proof using. intros H. split; [reflexivity|exact H]. Qed.
  Definition no_leader (x : edge) : Prop := fst x = false -> spans_get ss (snd x) <> Some 5.

  Lemma waiting_ev r e d r' o : waiting r -> no_leader (e, d) -> ev r d e = Val (r', o) -> waiting r' /\ o = ROk None.
  Proof using Hm Hf Hlo Hu.
    intros [S W] NL E. destruct r as [[s da h t ck sp] pv]. cbn [rv_dec r6_spans r6_state] in *. subst sp.
    unfold event_edge in E. cbn [d_event rc6_dec rv_dec] in E. unfold rc6_event in E. cbn [r6_spans r6_clock r6_state] in E.
    destruct (spans_get ss d) as [v|] eqn:Ev; cbn [bind] in E.
    - pose proof (usize8 b Hu) as HU. destruct (rc6_interval_of b m freq Hm Hf Hu d v Ev) as [_ V8].
      rewrite (uadd_small _ _ v 1) in E by lia. cbn [bind] in E. set (v1 := v + 1) in *.
      destruct (uadd _ _ ck v1) as [c1| |] eqn:E2; cbn [bind] in E; try discriminate.
      destruct W as [->| ->]; unfold rc6_transition in E; cbn [r6_state] in E.
      + destruct e; cbn [bind rc6_to_state r6_state] in E; injection E as <- <-; split; auto; split; cbn; auto.
      + assert (N6 : e = false -> v1 <> 6).
        { intros He X. apply (NL He). cbn [snd]. rewrite Ev. f_equal. unfold v1 in X. lia. }
        clearbody v1.
        revert E N6. destruct e; [|destruct v1 as [|[[]|[[]|[]|]|]]];
          cbn [bind rc6_to_state r6_state]; intros E N6; try (injection E as <- <-; split; auto; split; cbn; auto; fail).
        all: exfalso; apply (N6 eq_refl eq_refl).
    - destruct W as [->| ->]; cbn [rc6_reset rc6_transition r6_state r6_clock r6_spans r6_data r6_headerdata r6_toggle bind] in E;
        destruct e; cbn [bind rc6_to_state r6_state] in E; injection E as <- <-; split; auto; split; cbn; auto.
  Qed.

  Lemma waiting_run h : forall r r' os, waiting r -> Forall no_leader h -> run r h = Val (r', os) -> waiting r' /\ commands os = [].
  Proof using Hm Hf Hlo Hu.
    induction h as [|[e d] h IH]; intros r r' os W F E; cbn [run_edges] in E; [injection E as <- <-; auto|].
    destruct (ev r d e) as [[r1 o]| |] eqn:E1; cbn [bind] in E; try discriminate.
    destruct (run r1 h) as [[r2 o2]| |] eqn:E2; cbn [bind] in E; try discriminate.
    injection E as <- <-. inversion F; subst. destruct (waiting_ev r e d r1 o) as [W1 ->]; auto.
    destruct (IH r1 r2 o2) as [W2 Ec]; auto.
  Qed.

  (** An interval that is not counted ends everything. *)
  Lemma uncounted_ev (r : receiver D) e d r' o : r6_spans (rv_dec r) = ss -> spans_get ss d = None -> ev r d e = Val (r', o) ->
    o = ROk None /\ r' = st (if e then R6Leading else R6Idle) 0 0 (r6_toggle (rv_dec r)) 0 (rv_prev r).
  Proof using Hm Hf Hlo Hu.
    intros S N E. destruct r as [d0 pv]. cbn [rv_dec rv_prev] in *. unfold event_edge in E. cbn [d_event rc6_dec rv_dec] in E.
    unfold rc6_event in E. rewrite S, N in E. cbn [bind] in E. unfold rc6_reset in E.
    cbn [r6_clock r6_state r6_data r6_headerdata r6_toggle r6_spans rc6_transition] in E. rewrite S in E.
    destruct e; cbn [bind rc6_to_state r6_state] in E; injection E as <- <-; auto.
  Qed.

  (** ** A frame that breaks off in the middle of an interval *)

  Inductive cut : list (bool * N) -> list edge -> Prop :=
  | cut_at e n d k noms : spans_get ss d = Some (k - 1) -> 1 <= k -> k <= n -> cut ((e, n) :: noms) [(e, d)]
  | cut_on e n d noms q : spans_get ss d = Some (n - 1) -> cut noms q -> cut ((e, n) :: noms) ((e, d) :: q).

  Definition at_most (x : C) (r : res (receiver D * list (outcome C))) : Prop :=
    forall r' os, r = Val (r', os) -> commands os = [] \/ commands os = [x].

  Lemma at_most_one e d (r : receiver D) x r1 q : ev r d e = Val (r1, ROk None) -> at_most x (run r1 q) -> at_most x (run r ((e, d) :: q)).
  Proof using Hm Hf Hlo Hu.
    intros E A r' os E'. cbn [run_edges] in E'. rewrite E in E'. cbn [bind] in E'.
    destruct (run r1 q) as [[r2 o2]| |] eqn:E2; cbn [bind] in E'; try discriminate. injection E' as <- <-.
    destruct (A r2 o2 eq_refl) as [K|K]; [left|right]; exact K.
  Qed.
  Lemma at_most_nil (r : receiver D) x : at_most x (run r []).
  Proof using Hm Hf Hlo Hu. intros r' os E. injection E as <- <-. left. reflexivity. Qed.
  Lemma at_most_last e d (r : receiver D) x r1 : ev r d e = Val (r1, ROk (Some x)) -> at_most x (run r [(e, d)]).
  Proof using Hm Hf Hlo Hu. intros E r' os E'. cbn [run_edges] in E'. rewrite E in E'. cbn [bind] in E'. injection E' as <- <-. right. reflexivity. Qed.

  Lemma cut_bits w h t pv : forall n k ck l u q, (n < 16)%nat -> u = 1 \/ u = 2 /\ (1 <= n)%nat ->
    (ck + u) mod 2 = 0 -> ck + 3 * N.of_nat (S n) < 200 ->
    cut (level_edges l u (flat_map rc6_half (bits_msb (S n) w))) q ->
    at_most (into (rc6_from_bits (2 ^ N.of_nat (S n) * k + w mod 2 ^ N.of_nat (S n)) t))
      (run (st (R6Data (N.of_nat n)) (2 ^ N.of_nat (S n) * k) h t ck pv) q).
  Proof using Hm Hf Hlo Hu.
    induction n as [|n IH]; intros k ck l u q Hn Hu' He Hck HF;
      rewrite bits_msb_S in HF; cbn [flat_map] in HF.
    - set (x := N.testbit w (N.of_nat 0)) in *.
      assert (Ew : w mod 2 ^ N.of_nat 1 = if x then 1 else 0).
      { unfold x. change (2 ^ N.of_nat 1) with 2. cbn [N.of_nat]. rewrite N.bit0_odd, <- N.bit0_mod, N.bit0_odd.
        destruct (N.odd w); reflexivity. }
      assert (Eb : (if negb x then 2 ^ N.of_nat 1 * k else N.lor (2 ^ N.of_nat 1 * k) 1) =
                   2 ^ N.of_nat 1 * k + w mod 2 ^ N.of_nat 1).
      { rewrite Ew. destruct x; cbn [negb]; [|lia]. pose proof (lor_low k 0) as L. exact L. }
      assert (E : rc6_half x = [x; negb x]) by (destruct x; auto).
      rewrite E in HF. cbn [app level_edges bits_msb] in HF.
      change (flat_map rc6_half (bits_msb 0 w)) with (@nil bool) in HF.
      rewrite <- Eb. clear Eb Ew E. cbn [N.of_nat] in *.
      assert (u = 1) as -> by lia.
      destruct (Bool.eqb x l) eqn:El; cbn [app level_edges] in HF.
      + assert (Bool.eqb (negb x) l = false) as Ex by (destruct x, l; auto; discriminate). rewrite Ex in HF.
        inversion HF as [e0 n0 d0 k0 noms0 G1 G2 G3|e0 n0 d0 noms0 q0 G1 G2]; subst; [|inversion G2].
        pose proof (rc6_last b m freq Hf into low Hu (2 ^ 1 * k) h t ck pv (negb x) d0 k0 G1 G2 ltac:(slia)) as L.
        assert (K : k0 = 1 \/ k0 = 2) by lia. destruct K as [-> | ->].
        * rewrite He in L. cbn [N.eqb Pos.eqb] in L. eapply at_most_one; [exact L|apply at_most_nil].
        * replace ((ck + 2) mod 2) with 1 in L by slia. cbn [N.eqb Pos.eqb] in L. eapply at_most_last. exact L.
      + assert (Bool.eqb (negb x) x = false) as Ex by (destruct x; auto). rewrite Ex in HF.
        assert (L : forall d0, spans_get ss d0 = Some (1 - 1) -> ev (st (R6Data 0) (2 ^ 1 * k) h t ck pv) d0 x = Val (st (R6Data 0) (2 ^ 1 * k) h t (ck + 1) pv, ROk None)).
        { intros d0 G. rewrite (rc6_last b m freq Hf into low Hu _ _ _ _ _ x d0 1 G) by slia. rewrite He. reflexivity. }
        inversion HF as [e0 n0 d0 k0 noms0 G1 G2 G3|e0 n0 d0 noms0 q0 G1 G2]; subst.
        * assert (k0 = 1) as -> by lia. eapply at_most_one; [exact (L d0 G1)|apply at_most_nil].
        * eapply at_most_one; [exact (L d0 G1)|].
          inversion G2 as [e1 n1 d1 k1 noms1 J1 J2 J3|e1 n1 d1 noms1 q1 J1 J2]; subst; [|inversion J2].
          assert (k1 = 1) as -> by lia. eapply at_most_last.
          rewrite (rc6_last b m freq Hf into low Hu _ _ _ _ _ (negb x) d1 1 J1) by slia.
          replace ((ck + 1 + 1) mod 2) with 1 by slia. reflexivity.
    - set (x := N.testbit w (N.of_nat (S n))) in *.
      assert (E2 : 2 ^ N.of_nat (S (S n)) = 2 * 2 ^ N.of_nat (S n)) by (rewrite (Nat2N.inj_succ (S n)), N.pow_succ_r'; lia).
      assert (Ew : w mod 2 ^ N.of_nat (S (S n)) = (if x then 2 ^ N.of_nat (S n) else 0) + w mod 2 ^ N.of_nat (S n)).
      { unfold x. rewrite <- !val_bits_msb, bits_msb_S, val_msb_cons, bits_msb_length. reflexivity. }
      assert (Eb : (if negb x then 2 ^ N.of_nat (S (S n)) * k else N.lor (2 ^ N.of_nat (S (S n)) * k) (N.shiftl 1 (N.of_nat (S n)))) =
                   2 ^ N.of_nat (S n) * (2 * k + (if x then 1 else 0))).
      { destruct x; cbn [negb]; [|rewrite E2; lia]. pose proof (lor_low k (N.of_nat (S n))) as L.
        replace (N.of_nat (S n) + 1) with (N.of_nat (S (S n))) in L by lia. rewrite L, E2. lia. }
      assert (El0 : rc6_half x = [x; negb x]) by (destruct x; auto).
      rewrite El0 in HF. cbn [app level_edges] in HF.
      replace (2 ^ N.of_nat (S (S n)) * k + w mod 2 ^ N.of_nat (S (S n)))
        with (2 ^ N.of_nat (S n) * (2 * k + (if x then 1 else 0)) + w mod 2 ^ N.of_nat (S n))
        by (rewrite Ew, E2; destruct x; lia).
      assert (Hu2 : u = 1 \/ u = 2) by lia.
      assert (Any : forall e d0 k0 X, spans_get ss d0 = Some (k0 - 1) -> 1 <= k0 -> k0 <= 3 ->
        at_most X (run (st (R6Data (N.of_nat (S n))) (2 ^ N.of_nat (S (S n)) * k) h t ck pv) [(e, d0)])).
      { intros e d0 k0 X G1 G2 G3. pose proof (rc6_step b m freq Hf into low Hu (N.of_nat (S n)) (2 ^ N.of_nat (S (S n)) * k) h t ck pv e d0 k0 G1 G2 ltac:(slia) ltac:(slia) ltac:(slia)) as L.
        destruct ((ck + k0) mod 2 =? 1); (eapply at_most_one; [exact L|apply at_most_nil]). }
      destruct (Bool.eqb x l) eqn:El; cbn [app level_edges] in HF.
      + assert (Bool.eqb (negb x) l = false) as Ex by (destruct x, l; auto; discriminate). rewrite Ex in HF.
        inversion HF as [e0 n0 d0 k0 noms0 G1 G2 G3|e0 n0 d0 noms0 q0 G1 G2]; subst; [apply (Any _ _ k0); auto; slia|].
        eapply at_most_one.
        * rewrite (rc6_step b m freq Hf into low Hu _ _ _ _ _ _ (negb x) d0 (u + 1) G1) by slia.
          replace ((ck + (u + 1)) mod 2) with 1 by slia. cbn [N.eqb Pos.eqb]. rewrite Eb.
          replace (N.of_nat (S n) - 1) with (N.of_nat n) by slia. reflexivity.
        * apply (IH (2 * k + (if x then 1 else 0)) (ck + (u + 1)) (negb x) 1 q0); auto; try slia.
      + assert (Bool.eqb (negb x) x = false) as Ex by (destruct x; auto). rewrite Ex in HF.
        inversion HF as [e0 n0 d0 k0 noms0 G1 G2 G3|e0 n0 d0 noms0 q0 G1 G2]; subst; [apply (Any _ _ k0); auto; slia|].
        eapply at_most_one.
        { rewrite (rc6_step b m freq Hf into low Hu _ _ _ _ _ _ x d0 u G1) by slia. rewrite He. cbn [N.eqb Pos.eqb]. reflexivity. }
        inversion G2 as [e1 n1 d1 k1 noms1 J1 J2 J3|e1 n1 d1 noms1 q1 J1 J2]; subst.
        * assert (k1 = 1) as -> by lia.
          eapply at_most_one; [|apply at_most_nil].
          rewrite (rc6_step b m freq Hf into low Hu _ _ _ _ _ _ (negb x) d1 1 J1) by slia.
          replace ((ck + u + 1) mod 2) with 1 by slia. cbn [N.eqb Pos.eqb]. reflexivity.
        * eapply at_most_one.
          { rewrite (rc6_step b m freq Hf into low Hu _ _ _ _ _ _ (negb x) d1 1 J1) by slia.
            replace ((ck + u + 1) mod 2) with 1 by slia. cbn [N.eqb Pos.eqb]. rewrite Eb.
            replace (N.of_nat (S n) - 1) with (N.of_nat n) by slia. reflexivity. }
          apply (IH (2 * k + (if x then 1 else 0)) (ck + u + 1) (negb x) 1 q1); auto; try slia.
  Qed.

  (** Only the last data bit completes a frame. *)
  Lemma quiet_cut s da h t ck pv e d k x : s <> R6Data 0 -> s <> R6Done ->
    spans_get ss d = Some (k - 1) -> 1 <= k -> ck + k < 256 -> at_most x (run (st s da h t ck pv) [(e, d)]).
  Proof using Hm Hf Hlo Hu.
    intros S0 S1 G H1 H2 r' os E. left. cbn [run_edges] in E. rewrite (rc6_ev_hit b m freq Hf into low Hu _ _ _ _ _ _ _ _ k G H1 H2) in E.
    destruct (rc6_transition _ _ _ _ _) as [d2| |] eqn:T; cbn [bind] in E; try discriminate.
    assert (K : r6_state d2 <> R6Done).
    { clear -T S0 S1. intros K. unfold rc6_transition, bind in T. cbn [r6_state] in T.
      assert (Z : forall n, s = R6Data n -> (n =? 0) = false) by (intros n ->; apply N.eqb_neq; congruence).
      destruct s as [| | |n| |n| |]; try (rewrite (Z n eq_refl) in T); try congruence;
        repeat match type of T with context [match ?y with _ => _ end] => destruct y eqn:? end;
        try discriminate; injection T as <-; cbn [r6_state] in K; try discriminate K.
      match goal with H : _ = Val a0 |- _ =>
        repeat match type of H with context [match ?y with _ => _ end] => destruct y end; try discriminate; injection H as <-; discriminate end. }
    destruct (r6_state d2) eqn:Es; cbn [rc6_to_state bind] in E; try (injection E as <- <-; reflexivity). congruence.
  Qed.

  Ltac step k :=
    match goal with
    | H : cut _ ?q |- _ =>
        let G1 := fresh "G" in let G2 := fresh "G" in let G3 := fresh "G" in
        inversion H as [? ? ? ? ? G1 G2 G3|? ? ? ? ? G1 G2]; subst; clear H;
        [eapply quiet_cut; [discriminate|discriminate|exact G1|exact G2|lia]
        |eapply at_most_one;
          [rewrite (rc6_ev_hit b m freq Hf into low Hu _ _ _ _ _ _ _ _ k G1) by lia;
           cbn [rc6_transition r6_state r6_spans r6_clock r6_data r6_headerdata r6_toggle N.add N.modulo N.div_eucl
             N.pos_div_eucl N.leb N.compare Pos.compare Pos.compare_cont N.sub Pos.sub_mask snd N.eqb Pos.eqb
             Pos.add Pos.succ Pos.mul N.mul Pos.double_mask Pos.pred_double N.double N.succ_double ushl1 usub N.ltb N.lor N.shiftl
             Pos.pred_mask Pos.succ_double_mask bind rc6_to_state]; reflexivity
          |]]
    end.

  Lemma cut_frame toggle w t0 pv noms n0 q : w < 2 ^ 16 ->
    level_edges false 0 (rc6_wave toggle (bits_msb 16 w)) = (true, n0) :: (false, 6) :: noms -> cut noms q ->
    at_most (into (rc6_from_bits w toggle)) (run (st R6LeadingPaus 0 0 t0 6 pv) q).
  Proof using Hm Hf Hlo Hu.
    intros Hw E HC.
    assert (Ew : w mod 2 ^ N.of_nat 16 = w) by (apply N.mod_small; exact Hw).
    unfold rc6_wave in E. destruct toggle; cbn [app level_edges Bool.eqb rc6_half] in E;
      injection E as _ E; subst noms; cbn [N.add Pos.add Pos.succ] in HC.
    - step 2. step 1. step 2. step 1. step 1. step 1. step 1. step 3.
      lazymatch goal with H : cut _ ?q0 |- _ =>
        pose proof (cut_bits w 8 true pv 15 0 18 false 2 q0 ltac:(lia) ltac:(lia) eq_refl ltac:(lia) H) as K end.
      rewrite Ew in K. change (2 ^ N.of_nat 16 * 0 + w) with w in K.
      change (2 ^ N.of_nat 16 * 0) with 0 in K. change (N.of_nat 15) with 15 in K. exact K.
    - step 2. step 1. step 2. step 1. step 1. step 1. step 1. step 1. step 2.
      lazymatch goal with H : cut _ ?q0 |- _ =>
        pose proof (cut_bits w 8 false pv 15 0 18 true 2 q0 ltac:(lia) ltac:(lia) eq_refl ltac:(lia) H) as K end.
      rewrite Ew in K. change (2 ^ N.of_nat 16 * 0 + w) with w in K.
      change (2 ^ N.of_nat 16 * 0) with 0 in K. change (N.of_nat 15) with 15 in K. exact K.
  Qed.

  (** ** A disturbed frame *)

  Lemma cmds_app (o1 o2 : list (outcome C)) : commands (o1 ++ o2) = commands o1 ++ commands o2.
  Proof using. exact (commands_app o1 o2). Qed.

  Lemma counted_some d k : 0 < d -> spans_get ss d = Some k -> k < 6 /\ near freq (444 * (k + 1)) 13 d.
  Proof using Hm Hf Hlo Hu.
    intros H0 G. destruct (rc6_interval_of b m freq Hm Hf Hu d k G) as [[(_ & H & N)|(_ & _ & H)] _]; [|lia]. split; [lia|exact N].
  Qed.
  Lemma brief_none d : 0 < d -> d <= nominal freq 300 -> spans_get ss d = None.
  Proof using Hm Hf Hlo Hu.
    intros H0 H. destruct (spans_get ss d) as [k|] eqn:G; [|reflexivity]. exfalso.
    destruct (counted_some d k H0 G) as [_ [_ N]].
    assert (N2 : (100 - 13) * nominal freq 444 <= 100 * d).
    { pose proof (nominal_le freq 444 (444 * (k + 1)) ltac:(lia)). lia. }
    pose proof (below_ok freq 300 0 444 13 d d eq_refl Hlo ltac:(lia) N2). lia.
  Qed.
  Lemma piece_count n d0 d k : 1 <= n -> n <= 3 -> 100 * d0 <= 112 * nominal freq (444 * n) -> d <= d0 -> 0 < d ->
    spans_get ss d = Some k -> k + 1 <= n.
  Proof using Hm Hf Hlo Hu.
    intros H1 H3 B L H0 G. destruct (counted_some d k H0 G) as [_ [_ N]].
    destruct (N.le_gt_cases (k + 1) n) as [K|K]; [exact K|exfalso].
    assert (N2 : (100 - 13) * nominal freq (444 * (n + 1)) <= 100 * d).
    { pose proof (nominal_le freq (444 * (n + 1)) (444 * (k + 1)) ltac:(lia)). lia. }
    assert (E : n = 1 \/ n = 2 \/ n = 3) by lia. clear G N.
    destruct E as [-> |[-> | ->]].
    - pose proof (below_ok freq (444 * 1) 12 (444 * (1 + 1)) 13 d0 d eq_refl Hlo ltac:(lia) N2). lia.
    - pose proof (below_ok freq (444 * 2) 12 (444 * (2 + 1)) 13 d0 d eq_refl Hlo ltac:(lia) N2). lia.
    - pose proof (below_ok freq (444 * 3) 12 (444 * (3 + 1)) 13 d0 d eq_refl Hlo ltac:(lia) N2). lia.
  Qed.
  Lemma short_no_leader x : 100 * snd x <= 112 * nominal freq 1332 -> no_leader x.
  Proof using Hm Hf Hlo Hu.
    intros H _ G. destruct (N.eq_dec (snd x) 0) as [Z|Z].
    - rewrite Z in G. destruct (rc6_interval_of b m freq Hm Hf Hu 0 5 G) as [[(_ & _ & N)|(A & _)] _]; [|lia].
      destruct N as [_ N]. pose proof (below_ok freq 300 0 2664 13 0 0 eq_refl Hlo ltac:(lia) N). lia.
    - destruct (counted_some (snd x) 5 ltac:(lia) G) as [_ [_ N]].
      pose proof (below_ok freq 1332 12 2664 13 (snd x) (snd x) eq_refl Hlo ltac:(lia) N). lia.
  Qed.

  Lemma glitches_bound us B h h' : glitches freq us h h' -> Forall (fun x => 100 * snd x <= B) h -> Forall (fun x => 100 * snd x <= B) h'.
  Proof using Hm Hf Hlo Hu.
    induction 1 as [|x h h' G IH|e d1 d2 d3 h h' H1 H2 H2' H3 G IH]; intros F; [constructor|inversion F; subst; constructor; auto|].
    inversion F as [|y l Fy Fl]; subst. cbn [snd] in Fy. constructor; [cbn [snd]; lia|]. constructor; [cbn [snd]; lia|].
    apply IH. constructor; [cbn [snd]; lia|exact Fl].
  Qed.

  Lemma glitch_split us h h' : glitches freq us h h' -> forall acts tail, h = acts ++ tail ->
    (exists t', h' = acts ++ t') \/
    (exists p e d s d1 d2 rest, acts = p ++ (e, d) :: s /\ h' = p ++ (e, d1) :: (negb e, d2) :: rest /\
       0 < d1 /\ d1 <= d /\ 0 < d2 /\ d2 <= nominal freq us).
  Proof using Hm Hf Hlo Hu.
    induction 1 as [|x h h' G IH|e d1 d2 d3 h h' H1 H2 H2' H3 G IH]; intros acts tail E.
    - destruct acts; [|discriminate]. left. exists []. reflexivity.
    - destruct acts as [|y acts]; [left; eexists; reflexivity|]. cbn [app] in E. injection E as <- E.
      destruct (IH acts tail E) as [(t' & ->)|(p & e & d & s & d1 & d2 & rest & -> & -> & K)].
      + left. exists t'. reflexivity.
      + right. exists (x :: p), e, d, s, d1, d2, rest. auto.
    - destruct acts as [|y acts]; [left; eexists; reflexivity|]. cbn [app] in E. injection E as <- E.
      right. exists [], e, (d1 + d2 + d3), acts, d1, d2, h'. repeat split; auto. lia.
  Qed.

  Definition counted (nom act : edge) : Prop := fst act = fst nom /\ spans_get ss (snd act) = Some (snd nom - 1).

  Lemma cut_prefix noms acts : Forall2 counted noms acts -> forall p s, acts = p ++ s -> p <> [] -> Forall (fun x => 1 <= snd x) noms -> cut noms p.
  Proof using Hm Hf Hlo Hu.
    induction 1 as [|[e n] [e' d] noms acts [He Hc] F IH]; intros p s E Np B; [destruct p; [destruct (Np eq_refl)|discriminate]|].
    cbn [fst snd] in *. subst e'. inversion B; subst. destruct p as [|x p]; [destruct (Np eq_refl)|]. cbn [app] in E. injection E as <- E.
    destruct p as [|y p]; [eapply cut_at; eauto; cbn [snd] in *; lia|]. apply cut_on; [exact Hc|]. apply (IH (y :: p) s); auto. discriminate.
  Qed.
  Lemma cut_there noms acts : Forall2 counted noms acts -> forall np e n ns p d k, noms = np ++ (e, n) :: ns -> length np = length p ->
    (exists s, acts = p ++ s) -> spans_get ss d = Some (k - 1) -> 1 <= k -> k <= n -> cut noms (p ++ [(e, d)]).
  Proof using Hm Hf Hlo Hu.
    induction 1 as [|[e0 n0] [e0' d0] noms acts [He Hc] F IH]; intros np e n ns p d k E L (s & Ea) G H1 H2; [destruct np; discriminate|].
    destruct np as [|y np], p as [|z p]; try discriminate; cbn [app] in *; injection E as E1 E2.
    - subst. eapply cut_at; eauto.
    - injection Ea as <- Ea. cbn [fst snd] in *. subst e0'. apply cut_on; [exact Hc|]. eapply IH; eauto.
  Qed.

  Lemma run_split (r : receiver D) h1 h2 r' os : run r (h1 ++ h2) = Val (r', os) ->
    exists r1 o1 o2, run r h1 = Val (r1, o1) /\ run r1 h2 = Val (r', o2) /\ os = o1 ++ o2.
  Proof using Hm Hf Hlo Hu.
    rewrite run_edges_app. intros E. destruct (run r h1) as [[r1 o1]| |]; cbn [bind] in E; try discriminate.
    destruct (run r1 h2) as [[r2 o2]| |] eqn:E2; cbn [bind] in E; try discriminate. injection E as <- <-. eauto 6.
  Qed.
  Lemma run_first (r : receiver D) e d h r' os : run r ((e, d) :: h) = Val (r', os) ->
    exists r1 o o2, ev r d e = Val (r1, o) /\ run r1 h = Val (r', o2) /\ os = o :: o2.
  Proof using Hm Hf Hlo Hu.
    cbn [run_edges]. intros E. destruct (ev r d e) as [[r1 o]| |]; cbn [bind] in E; try discriminate.
    destruct (run r1 h) as [[r2 o2]| |] eqn:E2; cbn [bind] in E; try discriminate. injection E as <- <-. eauto 6.
  Qed.

  Section Frame.
    Variables (toggle : bool) (w n0 : N) (noms acts tail : list edge).
    Hypothesis (Hw : w < 2 ^ 16)
      (En : level_edges false 0 (rc6_wave toggle (bits_msb 16 w)) = (true, n0) :: (false, 6) :: noms)
      (HF : Forall2 (biphase_near freq 444 rc6_tol) noms acts)
      (Ht : Forall (fun x => 100 * snd x <= 112 * nominal freq 1332) tail).
    Notation x := (into (rc6_from_bits w toggle)).

    Lemma noms_bound : Forall (fun e => 1 <= snd e /\ snd e <= 3) noms.
    Proof using Hm Hf Hlo Hu Hw En HF Ht. apply (rc6_noms toggle w n0 noms En). Qed.
    Lemma acts_counted : Forall2 counted noms acts.
    Proof using Hm Hf Hlo Hu Hw En HF Ht.
      pose proof noms_bound as B. clear En. induction HF as [|[e n] [e' d] ns as' H F IH]; [constructor|]. inversion B as [|y l [B1 B2] Br]; subst. cbn [snd] in *.
      constructor; [|apply IH; [exact F|exact Br]]. destruct H as [Ha Hb]. split; [exact Ha|]. cbn [snd] in *. apply (rc6_ticks b m freq Hm Hf low Hu n d); [lia|exact Hb].
    Qed.
    Lemma acts_bound : Forall (fun x => 100 * snd x <= 112 * nominal freq 1332) acts.
    Proof using Hm Hf Hlo Hu Hw En HF Ht.
      apply (biphase_acts_bound freq 444 rc6_tol 3 1332 noms acts); [|exact noms_bound|exact HF].
      intros k H1 H2. unfold rc6_tol. lia.
    Qed.
    Lemma all_short h' : glitches freq 300 (acts ++ tail) h' -> Forall no_leader h'.
    Proof using Hm Hf Hlo Hu Hw En HF Ht.
      intros G. eapply Forall_impl; [|apply (glitches_bound 300 (112 * nominal freq 1332) _ _ G)].
      - intros y Hy. apply short_no_leader. exact Hy.
      - apply Forall_app. split; [exact acts_bound|exact Ht].
    Qed.

    Lemma glitched_body h' t pv lead : glitches freq 300 (acts ++ tail) h' -> spans_get ss lead = Some 5 ->
      at_most x (run (st R6Leading 0 0 t 0 pv) ((false, lead) :: h')).
    Proof using Hm Hf Hlo Hu Hw En HF Ht.
      intros G H6. pose proof (all_short h' G) as NL. pose proof noms_bound as Bn. pose proof acts_counted as Hc.
      destruct (glitch_split 300 _ _ G acts tail eq_refl) as [(t' & ->)|(p & e & d & s & d1 & d2 & rest & Ea & -> & H1 & H1' & H2 & H2')]; intros r' os E.
      - change ((false, lead) :: acts ++ t') with (((false, lead) :: acts) ++ t') in E. apply run_split in E.
        destruct E as (r1 & o1 & o2 & E1 & E2 & ->).
        destruct (rc6_frame_run_at b m freq Hm Hf into low Hu toggle w t pv lead noms n0 acts Hw En H6 HF) as (j & Ej).
        rewrite Ej in E1. injection E1 as <- <-.
        apply Forall_app in NL. destruct NL as [_ NL]. destruct (waiting_run t' _ _ _ (waiting_st _ _ _ _ _ _ (or_introl eq_refl)) NL E2) as [_ K].
        rewrite cmds_app, K, app_nil_r, cmds_app. right. replace (commands (repeat (ROk None) j)) with (@nil C); [reflexivity|].
        clear. induction j as [|j IH]; [reflexivity|exact IH].
      - assert (E6 : ev (st R6Leading 0 0 t 0 pv) lead false = Val (st R6LeadingPaus 0 0 t 6 pv, ROk None)).
        { rewrite (rc6_ev_hit b m freq Hf into low Hu _ _ _ _ _ _ _ _ 6 H6) by lia. reflexivity. }
        apply run_first in E. destruct E as (ra & oa & ob & Ev0 & Er & ->). rewrite E6 in Ev0. injection Ev0 as <- <-.
        enough (Z : commands ob = [] \/ commands ob = [x]) by exact Z. clear E6.
        (* the part before the disturbance *)
        assert (Cp : forall q, q = p \/ q = p ++ [(e, d1)] /\ spans_get ss d1 <> None -> at_most x (run (st R6LeadingPaus 0 0 t 6 pv) q)).
        { intros q Hq. destruct q as [|z q]; [apply at_most_nil|]. apply (cut_frame toggle w t pv noms n0); auto.
          destruct Hq as [Hq|[Hq Hs]].
          - apply (cut_prefix noms acts Hc (z :: q) ((e, d) :: s)); [rewrite Hq; exact Ea|discriminate|].
            eapply Forall_impl; [|exact Bn]. intros y Hy. apply Hy.
          - rewrite Hq. destruct (spans_get ss d1) as [k|] eqn:Ek; [|destruct (Hs eq_refl)].
            rewrite Ea in HF. destruct (Forall2_app_inv_r _ _ HF) as (np & nr & Fp & Fr & Enp).
            inversion Fr as [|[e' n] y nr' s' Hy Fs]; subst nr y s'. destruct Hy as [He Hn]. cbn [fst snd] in He, Hn. subst e'.
            assert (Bn' : 1 <= n /\ n <= 3).
            { rewrite Enp in Bn. apply Forall_app in Bn. destruct Bn as [_ Bn]. inversion Bn; assumption. }
            apply near_guaranteed in Hn. destruct Hn as [Hn _].
            apply (cut_there noms acts Hc np e n nr' p d1 (k + 1)); auto; try lia.
            + exact (forall2_length _ _ _ Fp).
            + exists ((e, d) :: s). exact Ea.
            + rewrite Ek. f_equal. lia.
            + apply (piece_count n d d1 k); auto; try lia. }
        (* everything after it *)
        assert (After : forall (r1 r2 : receiver D) o2, r6_spans (rv_dec r1) = ss -> run r1 ((negb e, d2) :: rest) = Val (r2, o2) -> commands o2 = []).
        { intros r1 r2 o2 S1 E2. apply run_first in E2. destruct E2 as (r3 & o & o3 & Ev1 & E3 & ->).
          destruct (uncounted_ev r1 _ d2 r3 o S1 (brief_none d2 H2 H2') Ev1) as [-> ->].
          apply Forall_app in NL. destruct NL as [_ NL]. inversion NL as [|? ? _ NL1]; subst. inversion NL1 as [|? ? _ NL2]; subst.
          assert (Wq : waiting (st (if negb e then R6Leading else R6Idle) 0 0 (r6_toggle (rv_dec r1)) 0 (rv_prev r1)))
            by (apply waiting_st; destruct e; auto).
          destruct (waiting_run rest _ _ _ Wq NL2 E3) as [_ K].
          exact K. }
        destruct (spans_get ss d1) as [k|] eqn:Ek.
        + replace (p ++ (e, d1) :: (negb e, d2) :: rest) with ((p ++ [(e, d1)]) ++ (negb e, d2) :: rest) in Er by (rewrite <- app_assoc; reflexivity).
          apply run_split in Er. destruct Er as (r1 & o1 & o2 & E1 & E2 & ->).
          pose proof (rc6_run_spans b into _ _ _ _ E1) as S1. pose proof (cmds_app o1 o2) as X. rewrite (After _ _ _ S1 E2), app_nil_r in X. unfold outcome in *. rewrite X.
          refine (Cp (p ++ [(e, d1)]) (or_intror (conj eq_refl _)) _ _ E1). clear. discriminate.
        + apply run_split in Er. destruct Er as (r1 & o1 & o2 & E1 & E2 & ->).
          pose proof (rc6_run_spans b into _ _ _ _ E1) as S1. apply run_first in E2. destruct E2 as (r3 & o & o3 & Ev1 & E3 & ->).
          destruct (uncounted_ev r1 _ d1 r3 o S1 Ek Ev1) as [-> ->].
          pose proof (cmds_app o1 (ROk None :: o3)) as X. change (commands (ROk None :: o3)) with (commands o3) in X.
          match type of E3 with run ?rr _ = _ => assert (S3 : r6_spans (rv_dec rr) = ss) by reflexivity end.
          rewrite (After _ _ _ S3 E3), app_nil_r in X. unfold outcome in *. rewrite X. exact (Cp _ (or_introl eq_refl) _ _ E1).
    Qed.

    (** The leader may be disturbed as well. *)
    Lemma glitched_frame h h' : glitches freq 300 h h' -> forall lead, h = (false, lead) :: acts ++ tail ->
      forall t pv, at_most x (run (st R6Leading 0 0 t 0 pv) h').
    Proof using Hm Hf Hlo Hu Hw En HF Ht.
      induction 1 as [|y h h' G IH|e d1 d2 d3 h h' H1 H2 H2' H3 G IH]; intros lead Eh t pv; [discriminate| |].
      - injection Eh as -> ->. destruct (option_eq_dec_5 (spans_get ss lead)) as [H6|H6]; [exact (glitched_body h' t pv lead G H6)|].
        intros r' os E. left. apply (waiting_run ((false, lead) :: h') _ _ _ (waiting_st _ _ _ _ _ _ (or_intror eq_refl))) in E; [apply E|].
        constructor; [intros _; exact H6|exact (all_short h' G)].
      - injection Eh as -> _ ->. intros r' os E. apply run_first in E. destruct E as (r1 & o & o1 & Ev & E & ->).
        assert (Q : o = ROk None /\ r6_spans (rv_dec r1) = ss).
        { split; [|exact (rc6_ev_spans b into _ _ _ _ _ Ev)].
          destruct (option_eq_dec_5 (spans_get ss d1)) as [H6|H6].
          - rewrite (rc6_ev_hit b m freq Hf into low Hu _ _ _ _ _ _ _ _ 6 H6) in Ev by lia. injection Ev as _ <-. reflexivity.
          - eapply waiting_ev; [apply waiting_st; right; reflexivity| |exact Ev]. intros _; exact H6. }
        destruct Q as [-> S1]. apply run_first in E. destruct E as (r2 & o2 & o3 & Ev2 & E & ->).
        destruct (uncounted_ev r1 _ d2 r2 o2 S1 (brief_none d2 H2 H2') Ev2) as [-> ->].
        exact (IH d3 eq_refl _ _ _ _ E).
    Qed.
  End Frame.
End Rc6Glitch.
