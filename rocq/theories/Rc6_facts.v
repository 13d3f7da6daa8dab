(** * Lemmas about the RC6 receiver *)
From Coq Require Import NArith ZArith List Bool Lia ZifyBool ZifyNat ZifyN.
From Verif Require Import Machine Spec Bits Time Decoder Rc6 Receiver Time_facts Window_facts Run_facts Rc5_facts.
Import ListNotations.
Open Scope N_scope.

(** A leader that is not too short lies above the window of five units. *)
Lemma rc6_leader_above freq d : 4130 <= freq ->
  (100 - rc6_leader_short freq) * nominal freq 2664 <= 100 * d -> 112 * nominal freq 2220 < 100 * d.
Proof.
  intros H Hd. unfold rc6_leader_short in Hd.
  destruct (N.ltb_spec freq 15391) as [L1|L1]; [|destruct (N.ltb_spec freq 37913) as [L2|L2]].
  - apply (apartb_ok 2220 12 2664 4 4130 15391 200); [vm_compute; reflexivity|auto|auto|auto].
  - apply (apartb_ok 2220 12 2664 5 15391 37913 200); [vm_compute; reflexivity|auto|auto|auto].
  - destruct (N.lt_ge_cases freq 60000) as [L3|L3]; [|unfold nominal in *; lia].
    apply (apartb_ok 2220 12 2664 6 37913 60000 200); [vm_compute; reflexivity|auto|auto|auto].
Qed.

Section Rc6.
  Variables (b : build) (m : mono) (freq : N).
  Hypothesis (Hm : timebase m freq) (Hf : freq < M32).
  Let ss := spans_of m freq rc6_pulses.
  Notation D := (rc6_dec b).
  Context {C : Type} (into : rc6_command -> C).
  Notation run := (@run_edges D C into).
  Notation ev := (@event_edge D C into).
  Notation st s da h t ck pv := (@mkRecv D (mkRc6Dec s da h t ck ss) pv).

  Lemma rc6_new_val : receiver_new (rc6_protocol b m) freq = Val (st R6Idle 0 0 false 0 0).
  Proof.
    unfold receiver_new. cbn [p_build rc6_protocol p_dec]. unfold rc6_build.
    rewrite pulse_spans_val; auto using rc6_ok.
  Qed.

  Lemma rc6_transition_spans d e t odd d' : rc6_transition b d e t odd = Val d' -> r6_spans d' = r6_spans d.
  Proof.
    unfold rc6_transition, bind. intros H.
    repeat match type of H with
    | context [match ?x with _ => _ end] => destruct x
    end; try discriminate; injection H as <-; reflexivity.
  Qed.

  Lemma rc6_event_spans d e dt d' s : rc6_event b d e dt = Val (d', s) -> r6_spans d' = r6_spans d.
  Proof.
    unfold rc6_event. intros H.
    destruct (match spans_get (r6_spans d) dt with Some _ => _ | None => _ end) as [tk| |];
      cbn [bind] in H; try discriminate.
    destruct (match tk with Some _ => _ | None => _ end) as [d1| |] eqn:E1; cbn [bind] in H; try discriminate.
    destruct (rc6_transition _ _ _ _ _) as [d2| |] eqn:E2; cbn [bind] in H; try discriminate.
    injection H as <- _. apply rc6_transition_spans in E2. rewrite E2.
    destruct tk as [k|].
    - destruct (uadd _ _ _ k) as [c1| |]; cbn [bind] in E1; try discriminate.
      injection E1 as <-. reflexivity.
    - injection E1 as <-. reflexivity.
  Qed.

  Lemma rc6_ev_spans (r r' : receiver D) e dt o :
    ev r dt e = Val (r', o) -> r6_spans (rv_dec r') = r6_spans (rv_dec r).
  Proof.
    unfold event_edge. cbn [d_event rc6_dec]. intros H.
    destruct (rc6_event b (rv_dec r) e dt) as [[d1 s]| |] eqn:E; cbn [bind] in H; try discriminate.
    apply rc6_event_spans in E. destruct s; injection H as <- _; cbn; auto.
  Qed.

  Lemma rc6_run_spans h : forall (r r' : receiver D) os,
    run r h = Val (r', os) -> r6_spans (rv_dec r') = r6_spans (rv_dec r).
  Proof.
    induction h as [|[e dt] h IH]; intros r r' os H; cbn [run_edges] in H.
    - injection H as <- _. reflexivity.
    - destruct (ev r dt e) as [[r1 o]| |] eqn:E; cbn [bind] in H; try discriminate.
      destruct (run r1 h) as [[r2 o2]| |] eqn:E2; cbn [bind] in H; try discriminate.
      injection H as <- _. apply IH in E2. apply rc6_ev_spans in E. congruence.
  Qed.

  Lemma rc6_gap (r : receiver D) gap : r6_spans (rv_dec r) = ss -> longer freq 2664 12 gap ->
    exists t, ev r gap true = Val (st R6Leading 0 0 t 0 (rv_prev r), ROk None).
  Proof.
    intros Es Hl. destruct r as [d pv]. cbn [rv_dec] in Es. exists (r6_toggle d).
    unfold event_edge. cbn [d_event rc6_dec rv_dec].
    unfold rc6_event. rewrite Es. unfold ss at 1.
    rewrite (spans_get_long _ m freq 2664 12); auto using rc6_ok.
    - cbn [bind]. unfold rc6_reset.
      cbn [r6_clock r6_state r6_data r6_headerdata r6_toggle r6_spans rc6_transition bind rc6_to_state].
      rewrite Es. reflexivity.
    - unfold rc6_pulses. repeat (apply Forall_cons; [cbn [fst snd]; unfold nominal; lia|]). apply Forall_nil.
  Qed.

  Hypothesis (Hlo : 2253 <= freq) (Hu : 8 <= usize_bits b).

  Lemma rc6_ticks n d : n = 1 \/ n = 2 \/ n = 3 ->
    near freq (444 * n) (guaranteed freq (rc6_tol n)) d -> spans_get ss d = Some (n - 1).
  Proof.
    pose proof (rc6_distinct m freq Hm Hf ltac:(lia)) as Hd. pose proof rc6_ok as Ht. unfold ss.
    intros [-> | [-> | ->]] H.
    - rewrite (spans_get_near 3 rc6_pulses m freq 0 444 12 d Hm Hf Ht Hd); auto; lia.
    - rewrite (spans_get_near 3 rc6_pulses m freq 1 888 12 d Hm Hf Ht Hd); auto; lia.
    - rewrite (spans_get_near 3 rc6_pulses m freq 2 1332 12 d Hm Hf Ht Hd); auto; lia.
  Qed.

  Lemma rc6_ticks_leader d : 4130 <= freq -> rc6_leader_safe freq d -> spans_get ss d = Some 5.
  Proof.
    intros H4 [H1 H2]. pose proof (rc6_leader_above freq d H4 H2) as Ha. unfold ss.
    change (Some 5) with (Some (N.of_nat 5)).
    apply spans_get_hit with (s := window (base_of m freq 2664) 12).
    - reflexivity.
    - apply contains_window; [lia|]. apply near_inwin with (freq := freq) (p := 2664); try lia.
      + apply base_of_ok; auto; lia.
      + exact H1.
    - intros j s' Hj E.
      assert (B : forall p, p <= 2220 -> contains (window (base_of m freq p) 12) d = false).
      { intros p Hp. apply contains_window_false; [lia|]. unfold inwin. intros [Q _].
        pose proof (base_of_ok m freq p Hm Hf ltac:(lia)) as (Hb & _).
        assert (base_of m freq p <= nominal freq 2220) by (unfold nominal; nia). lia. }
      destruct j as [|[|[|[|[|j]]]]]; try lia;
        cbn [nth_error spans_of map fst snd rc6_pulses] in E; injection E as <-; apply B; lia.
  Qed.

  (** An interval of [n] units. *)
  Lemma rc6_ev_hit s da h t ck pv e d n : spans_get ss d = Some (n - 1) -> 1 <= n -> ck + n < 256 ->
    ev (st s da h t ck pv) d e =
      let* d2 := rc6_transition b (mkRc6Dec s da h t (ck + n) ss) e (Some n) ((ck + n) mod 2 =? 1) in
      match rc6_to_state (r6_state d2) with
      | Done => Val (mkRecv (D := D) (rc6_reset d2) pv, ROk (Some (into (rc6_from_bits (r6_data d2) (r6_toggle d2)))))
      | Error x => Val (mkRecv (D := D) (rc6_reset d2) pv, RErr x)
      | Idle | Receiving => Val (mkRecv (D := D) d2 pv, ROk None)
      end.
  Proof.
    intros Hg Hn Hck. pose proof (usize8 b Hu) as HU.
    unfold event_edge. cbn [d_event rc6_dec rv_dec]. unfold rc6_event.
    cbn [r6_spans r6_clock r6_state r6_data r6_headerdata r6_toggle].
    rewrite Hg. rewrite (uadd_small _ _ (n - 1) 1) by lia. cbn [bind].
    replace (n - 1 + 1) with n by lia.
    rewrite uadd_small by lia. cbn [bind r6_clock r6_state r6_data r6_headerdata r6_toggle r6_spans].
    rewrite land1. destruct (rc6_transition _ _ _ _ _) as [d2| |]; cbn [bind]; auto.
  Qed.

  (** One data edge: at an even clock nothing happens, at an odd one a bit is read. *)
  Lemma rc6_step i da h t ck pv e d n : spans_get ss d = Some (n - 1) -> 1 <= n -> ck + n < 256 -> 1 <= i -> i < 16 ->
    ev (st (R6Data i) da h t ck pv) d e =
      if (ck + n) mod 2 =? 1
      then Val (st (R6Data (i - 1)) (if e then da else N.lor da (N.shiftl 1 i)) h t (ck + n) pv, ROk None)
      else Val (st (R6Data i) da h t (ck + n) pv, ROk None).
  Proof.
    intros Hg Hn Hck H1 H2. rewrite (rc6_ev_hit _ _ _ _ _ _ _ _ n) by auto.
    unfold rc6_transition. cbn [r6_state r6_spans r6_clock r6_data r6_headerdata r6_toggle].
    destruct ((ck + n) mod 2 =? 1); [|reflexivity].
    rewrite (proj2 (N.eqb_neq i 0)) by lia. unfold ushl1, usub.
    rewrite (proj2 (N.ltb_lt i 16)) by lia. rewrite (proj2 (N.leb_le 1 i)) by lia.
    destruct e; cbn [bind]; reflexivity.
  Qed.

  Lemma rc6_last da h t ck pv e d n : spans_get ss d = Some (n - 1) -> 1 <= n -> ck + n < 256 ->
    ev (st (R6Data 0) da h t ck pv) d e =
      if (ck + n) mod 2 =? 1
      then Val (st R6Idle 0 0 t 0 pv, ROk (Some (into (rc6_from_bits (if e then da else N.lor da 1) t))))
      else Val (st (R6Data 0) da h t (ck + n) pv, ROk None).
  Proof.
    intros Hg Hn Hck. rewrite (rc6_ev_hit _ _ _ _ _ _ _ _ n) by auto.
    unfold rc6_transition. cbn [r6_state r6_spans r6_clock r6_data r6_headerdata r6_toggle N.eqb].
    destruct ((ck + n) mod 2 =? 1); [|reflexivity]. destruct e; cbn [bind]; reflexivity.
  Qed.

  Lemma near_ticks e n d n' : n' = n -> n = 1 \/ n = 2 \/ n = 3 ->
    biphase_near freq 444 rc6_tol (e, n') (e, d) -> spans_get ss d = Some (n - 1).
  Proof. intros -> Hn [_ H]. apply rc6_ticks; auto. Qed.

  Lemma rc6_bits w h t pv : forall n k ck l u acts, (n < 16)%nat -> u = 1 \/ u = 2 ->
    (ck + u) mod 2 = 0 -> ck + 3 * N.of_nat (S n) < 200 ->
    Forall2 (biphase_near freq 444 rc6_tol) (level_edges l u (flat_map rc6_half (bits_msb (S n) w))) acts ->
    exists j,
    run (st (R6Data (N.of_nat n)) (2 ^ N.of_nat (S n) * k) h t ck pv) acts =
      Val (st R6Idle 0 0 t 0 pv,
           repeat (ROk None) j ++
             [ROk (Some (into (rc6_from_bits (2 ^ N.of_nat (S n) * k + w mod 2 ^ N.of_nat (S n)) t)))]).
  Proof.
    induction n as [|n IH]; intros k ck l u acts Hn Hu' He Hck HF;
      rewrite bits_msb_S in HF; cbn [flat_map] in HF.
    - set (x := N.testbit w (N.of_nat 0)) in *.
      assert (Ew : w mod 2 ^ N.of_nat 1 = if x then 1 else 0).
      { unfold x. change (2 ^ N.of_nat 1) with 2. cbn [N.of_nat]. rewrite N.bit0_odd, <- N.bit0_mod, N.bit0_odd.
        destruct (N.odd w); reflexivity. }
      assert (Eb : (if negb x then 2 ^ N.of_nat 1 * k else N.lor (2 ^ N.of_nat 1 * k) 1) =
                   2 ^ N.of_nat 1 * k + w mod 2 ^ N.of_nat 1).
      { rewrite Ew. destruct x; cbn [negb]; [|lia]. pose proof (lor_low k 0) as L. exact L. }
      assert (E : rc6_half x = [x; negb x]) by (destruct x; auto).
      rewrite E in HF. cbn [app level_edges bits_msb] in HF.
      change (flat_map rc6_half (bits_msb 0 w)) with (@nil bool) in HF.
      rewrite <- Eb. clear Eb Ew E. cbn [N.of_nat] in *.
      destruct (Bool.eqb x l) eqn:El; cbn [app level_edges] in HF.
      + assert (Bool.eqb (negb x) l = false) as Ex by (destruct x, l; auto; discriminate). rewrite Ex in HF.
        inversion HF as [|? [e d] ? acts' H1 H2]; subst. inversion H2; subst.
        assert (e = negb x) as -> by (destruct H1 as [Q1 _]; exact Q1).
        exists O. cbn [run_edges repeat app].
        rewrite (rc6_last _ _ _ _ _ (negb x) d (u + 1)); [|apply (near_ticks _ _ _ _ eq_refl) in H1; auto; slia|slia|slia].
        replace ((ck + (u + 1)) mod 2) with 1 by slia. cbn [N.eqb Pos.eqb bind]. reflexivity.
      + assert (Bool.eqb (negb x) x = false) as Ex by (destruct x; auto). rewrite Ex in HF.
        inversion HF as [|? [e d] ? acts' H1 H2]; subst. inversion H2 as [|? [e' d'] ? acts'' H1' H2']; subst.
        inversion H2'; subst.
        assert (e = x) as -> by (destruct H1 as [Q1 _]; exact Q1).
        assert (e' = negb x) as -> by (destruct H1' as [Q1 _]; exact Q1).
        exists 1%nat. cbn [run_edges repeat app].
        rewrite (rc6_last _ _ _ _ _ x d u); [|apply (near_ticks _ _ _ _ eq_refl) in H1; auto; slia|slia|slia].
        rewrite He. cbn [N.eqb Pos.eqb bind].
        rewrite (rc6_last _ _ _ _ _ (negb x) d' 1); [|apply (near_ticks _ _ _ _ eq_refl) in H1'; auto; slia|slia|slia].
        replace ((ck + u + 1) mod 2) with 1 by slia. cbn [N.eqb Pos.eqb bind]. reflexivity.
    - set (x := N.testbit w (N.of_nat (S n))) in *.
      assert (E2 : 2 ^ N.of_nat (S (S n)) = 2 * 2 ^ N.of_nat (S n)) by (rewrite (Nat2N.inj_succ (S n)), N.pow_succ_r'; lia).
      assert (Ew : w mod 2 ^ N.of_nat (S (S n)) = (if x then 2 ^ N.of_nat (S n) else 0) + w mod 2 ^ N.of_nat (S n)).
      { unfold x. rewrite <- !val_bits_msb, bits_msb_S, val_msb_cons, bits_msb_length. reflexivity. }
      assert (Eb : (if negb x then 2 ^ N.of_nat (S (S n)) * k else N.lor (2 ^ N.of_nat (S (S n)) * k) (N.shiftl 1 (N.of_nat (S n)))) =
                   2 ^ N.of_nat (S n) * (2 * k + (if x then 1 else 0))).
      { destruct x; cbn [negb]; [|rewrite E2; lia]. pose proof (lor_low k (N.of_nat (S n))) as L.
        replace (N.of_nat (S n) + 1) with (N.of_nat (S (S n))) in L by lia. rewrite L, E2. lia. }
      assert (El0 : rc6_half x = [x; negb x]) by (destruct x; auto).
      rewrite El0 in HF. cbn [app level_edges] in HF.
      replace (2 ^ N.of_nat (S (S n)) * k + w mod 2 ^ N.of_nat (S (S n)))
        with (2 ^ N.of_nat (S n) * (2 * k + (if x then 1 else 0)) + w mod 2 ^ N.of_nat (S n))
        by (rewrite Ew, E2; destruct x; lia).
      destruct (Bool.eqb x l) eqn:El; cbn [app level_edges] in HF.
      + assert (Bool.eqb (negb x) l = false) as Ex by (destruct x, l; auto; discriminate). rewrite Ex in HF.
        inversion HF as [|? [e d] ? acts' H1 H2]; subst.
        assert (e = negb x) as -> by (destruct H1 as [Q1 _]; exact Q1).
        destruct (IH (2 * k + (if x then 1 else 0)) (ck + (u + 1)) (negb x) 1 acts') as (j & Ej); auto; try slia.
        exists (S j). cbn [run_edges repeat app].
        rewrite (rc6_step _ _ _ _ _ _ (negb x) d (u + 1)); [|apply (near_ticks _ _ _ _ eq_refl) in H1; auto; slia|slia|slia|slia|slia].
        replace ((ck + (u + 1)) mod 2) with 1 by slia. cbn [N.eqb Pos.eqb bind]. rewrite Eb.
        replace (N.of_nat (S n) - 1) with (N.of_nat n) by slia. rewrite Ej. reflexivity.
      + assert (Bool.eqb (negb x) x = false) as Ex by (destruct x; auto). rewrite Ex in HF.
        inversion HF as [|? [e d] ? acts' H1 H2]; subst. inversion H2 as [|? [e' d'] ? acts'' H1' H2']; subst.
        assert (e = x) as -> by (destruct H1 as [Q1 _]; exact Q1).
        assert (e' = negb x) as -> by (destruct H1' as [Q1 _]; exact Q1).
        destruct (IH (2 * k + (if x then 1 else 0)) (ck + u + 1) (negb x) 1 acts'') as (j & Ej); auto; try slia.
        exists (S (S j)). cbn [run_edges repeat app].
        rewrite (rc6_step _ _ _ _ _ _ x d u); [|apply (near_ticks _ _ _ _ eq_refl) in H1; auto; slia|slia|slia|slia|slia].
        rewrite He. cbn [N.eqb Pos.eqb bind].
        rewrite (rc6_step _ _ _ _ _ _ (negb x) d' 1); [|apply (near_ticks _ _ _ _ eq_refl) in H1'; auto; slia|slia|slia|slia|slia].
        replace ((ck + u + 1) mod 2) with 1 by slia. cbn [N.eqb Pos.eqb bind]. rewrite Eb.
        replace (N.of_nat (S n) - 1) with (N.of_nat n) by slia. rewrite Ej. reflexivity.
  Qed.

  Ltac one_edge HF d :=
    let H1 := fresh "Hd" in let H2 := fresh "HF" in let e := fresh "e" in let a := fresh "acts" in let Q := fresh in
    inversion HF as [|? [e d] ? a H1 H2]; subst; clear HF; rename H2 into HF;
    match type of H1 with
    | biphase_near _ _ _ (?x, ?n) _ =>
        assert (e = x) as -> by (destruct H1 as [Q _]; exact Q);
        apply (near_ticks x n d n eq_refl) in H1; [|lia]
    end.

  Ltac hit Hd k := cbn [run_edges]; rewrite (rc6_ev_hit _ _ _ _ _ _ _ _ k Hd) by lia;
    cbn [rc6_transition r6_state r6_spans r6_clock r6_data r6_headerdata r6_toggle N.add N.modulo N.div_eucl
         N.pos_div_eucl N.leb N.compare Pos.compare Pos.compare_cont N.sub Pos.sub_mask snd N.eqb Pos.eqb
         Pos.add Pos.succ Pos.mul N.mul Pos.double_mask Pos.pred_double N.double N.succ_double ushl1 usub N.ltb N.lor N.shiftl
         Pos.pred_mask Pos.succ_double_mask bind rc6_to_state].

  (** The whole frame after its first edge. *)
  Lemma rc6_frame_run_at toggle w t0 pv lead noms n0 acts : w < 2 ^ 16 ->
    level_edges false 0 (rc6_wave toggle (bits_msb 16 w)) = (true, n0) :: (false, 6) :: noms ->
    spans_get ss lead = Some 5 -> Forall2 (biphase_near freq 444 rc6_tol) noms acts ->
    exists j, run (st R6Leading 0 0 t0 0 pv) ((false, lead) :: acts) =
      Val (st R6Idle 0 0 toggle 0 pv, repeat (ROk None) j ++ [ROk (Some (into (rc6_from_bits w toggle)))]).
  Proof.
    intros Hw E Hl HF.
    assert (H6 : spans_get ss lead = Some (6 - 1)) by exact Hl.
    assert (Ew : w mod 2 ^ N.of_nat 16 = w) by (apply N.mod_small; exact Hw).
    unfold rc6_wave in E. destruct toggle; cbn [app level_edges Bool.eqb rc6_half] in E;
      injection E as _ E; subst noms; cbn [N.add Pos.add Pos.succ] in HF.
    - one_edge HF d1. one_edge HF d2. one_edge HF d3. one_edge HF d4. one_edge HF d5. one_edge HF d6.
      one_edge HF d7. one_edge HF d8.
      match type of HF with Forall2 _ _ ?a => rename a into rest end.
      destruct (rc6_bits w 8 true pv 15 0 18 false 2 rest) as (j & Ej); auto; try lia.
      rewrite Ew in Ej. change (2 ^ N.of_nat 16 * 0 + w) with w in Ej.
      change (2 ^ N.of_nat 16 * 0) with 0 in Ej. change (N.of_nat 15) with 15 in Ej.
      exists (9 + j)%nat.
      hit H6 6. hit Hd 2. hit Hd0 1. hit Hd1 2. hit Hd2 1. hit Hd3 1. hit Hd4 1. hit Hd5 1. hit Hd6 3.
      lazymatch goal with |- context [@run_edges ?D0 ?C0 ?i ?s rest] =>
        change (@run_edges D0 C0 i s rest) with (run (st (R6Data 15) 0 8 true 18 pv) rest) end.
      rewrite Ej. reflexivity.
    - one_edge HF d1. one_edge HF d2. one_edge HF d3. one_edge HF d4. one_edge HF d5. one_edge HF d6.
      one_edge HF d7. one_edge HF d8. one_edge HF d9.
      match type of HF with Forall2 _ _ ?a => rename a into rest end.
      destruct (rc6_bits w 8 false pv 15 0 18 true 2 rest) as (j & Ej); auto; try lia.
      rewrite Ew in Ej. change (2 ^ N.of_nat 16 * 0 + w) with w in Ej.
      change (2 ^ N.of_nat 16 * 0) with 0 in Ej. change (N.of_nat 15) with 15 in Ej.
      exists (10 + j)%nat.
      hit H6 6. hit Hd 2. hit Hd0 1. hit Hd1 2. hit Hd2 1. hit Hd3 1. hit Hd4 1. hit Hd5 1. hit Hd6 1. hit Hd7 2.
      lazymatch goal with |- context [@run_edges ?D0 ?C0 ?i ?s rest] =>
        change (@run_edges D0 C0 i s rest) with (run (st (R6Data 15) 0 8 false 18 pv) rest) end.
      rewrite Ej. reflexivity.
  Qed.

  Lemma rc6_frame_run toggle w t0 pv lead noms n0 acts : 4130 <= freq -> w < 2 ^ 16 ->
    level_edges false 0 (rc6_wave toggle (bits_msb 16 w)) = (true, n0) :: (false, 6) :: noms ->
    rc6_leader_safe freq lead -> Forall2 (biphase_near freq 444 rc6_tol) noms acts ->
    exists j, run (st R6Leading 0 0 t0 0 pv) ((false, lead) :: acts) =
      Val (st R6Idle 0 0 toggle 0 pv, repeat (ROk None) j ++ [ROk (Some (into (rc6_from_bits w toggle)))]).
  Proof.
    intros H4 Hw E Hl HF. apply rc6_ticks_leader in Hl; [|exact H4]. apply (rc6_frame_run_at toggle w t0 pv lead noms n0 acts); auto.
  Qed.

  Lemma rc6_decode toggle w (r0 : receiver D) hist r1 os gap evs : 4130 <= freq -> w < 2 ^ 16 ->
    r6_spans (rv_dec r0) = ss -> run r0 hist = Val (r1, os) -> longer freq 2664 12 gap ->
    rc6_edges freq (rc6_leader_safe freq) toggle w gap evs ->
    exists pv, run r0 (hist ++ evs) =
      Val (st R6Idle 0 0 toggle 0 pv,
           os ++ repeat (ROk None) (length evs - 1) ++ [ROk (Some (into (rc6_from_bits w toggle)))]).
  Proof.
    intros H4 Hw Es E Hg (n & noms & lead & acts & En & -> & Hl & HF). exists (rv_prev r1).
    apply run_edges_app_val with (r1 := r1); auto.
    pose proof (rc6_run_spans _ _ _ _ E) as Es1.
    destruct (rc6_gap r1 gap) as (t & Et); [congruence|auto|].
    destruct (rc6_frame_run toggle w t (rv_prev r1) lead noms n acts H4 Hw En Hl HF) as (j & Ej).
    assert (Eq : run r1 ((true, gap) :: (false, lead) :: acts) =
      Val (st R6Idle 0 0 toggle 0 (rv_prev r1), repeat (ROk None) (S j) ++ [ROk (Some (into (rc6_from_bits w toggle)))])).
    { change (run r1 ((true, gap) :: (false, lead) :: acts)) with
        (let* (r2, o) := ev r1 gap true in
         let* (r3, os) := run r2 ((false, lead) :: acts) in Val (r3, o :: os)).
      rewrite Et. cbn [bind]. rewrite Ej. reflexivity. }
    rewrite Eq. pose proof (run_edges_length _ _ _ _ _ Eq) as L.
    rewrite app_length, repeat_length in L. cbn [length] in L.
    assert (Lj : (@length edge ((true, gap) :: (false, lead) :: acts) - 1)%nat = S j) by (cbn [length]; unfold edge in *; lia).
    rewrite Lj. reflexivity.
  Qed.
End Rc6.
