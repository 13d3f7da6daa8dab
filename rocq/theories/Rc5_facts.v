(** * Lemmas about the RC5 receiver *)
From Coq Require Import NArith ZArith List Bool Lia ZifyBool ZifyNat ZifyN.
From Verif Require Import Machine Spec Bits Time Decoder Rc5 Receiver Time_facts Window_facts Run_facts.
Import ListNotations.
Open Scope N_scope.

Lemma usize8 b : 8 <= usize_bits b -> 256 <= 2 ^ usize_bits b.
Proof. intros H. change 256 with (2 ^ 8). apply N.pow_le_mono_r; [discriminate|auto]. Qed.

Lemma uadd_small chk w a b : a + b < 2 ^ w -> uadd chk w a b = Val (a + b).
Proof. intros H. unfold uadd. rewrite (proj2 (N.ltb_lt _ _)); auto. Qed.

Lemma land1 n : N.land n 1 = n mod 2.
Proof. change 1 with (N.ones 1). rewrite N.land_ones. reflexivity. Qed.

Lemma forall2_length {A B} (R : A -> B -> Prop) l1 l2 : Forall2 R l1 l2 -> length l1 = length l2.
Proof. induction 1; cbn; congruence. Qed.

(** [lia] without the hypotheses about powers and words. *)
Ltac slia :=
  repeat match goal with
  | H : context [N.pow] |- _ => clear H
  | H : context [N.lor] |- _ => clear H
  end; lia.

Section Rc5.
  Variables (b : build) (m : mono) (freq : N).
  Hypothesis (Hm : timebase m freq) (Hf : freq < M32).
  Let ss := spans_of m freq rc5_pulses.
  Notation D := (rc5_dec b).
  Context {C : Type} (into : rc5_command -> C).
  Notation run := (@run_edges D C into).
  Notation ev := (@event_edge D C into).
  Notation st s buf ck pv := (@mkRecv D (mkRc5Dec s buf ck ss) pv).

  Lemma rc5_new_val : receiver_new (rc5_protocol b m) freq = Val (st R5Idle 0 0 0).
  Proof.
    unfold receiver_new. cbn [p_build rc5_protocol p_dec]. unfold rc5_build.
    rewrite pulse_spans_val; auto using rc5_ok.
  Qed.

  (** The windows never change. *)
  Lemma rc5_event_spans d e dt d' s : rc5_event b d e dt = Val (d', s) -> r5_spans d' = r5_spans d.
  Proof.
    unfold rc5_event. intros H.
    destruct (match spans_get (r5_spans d) dt with Some _ => _ | None => _ end) as [d1| |] eqn:E1;
      cbn [bind] in H; try discriminate.
    destruct (rc5_transition _ _ _ _ _ _ _) as [[[st1 buf] ck]| |]; cbn [bind] in H; try discriminate.
    injection H as <- _. cbn [r5_spans].
    destruct (spans_get (r5_spans d) dt) as [k|].
    - destruct (uadd _ _ k 1) as [t1| |]; cbn [bind] in E1; try discriminate.
      destruct (uadd _ _ _ t1) as [c1| |]; cbn [bind] in E1; try discriminate.
      injection E1 as <-. reflexivity.
    - injection E1 as <-. reflexivity.
  Qed.

  Lemma rc5_ev_spans (r r' : receiver D) e dt o :
    ev r dt e = Val (r', o) -> r5_spans (rv_dec r') = r5_spans (rv_dec r).
  Proof.
    unfold event_edge. cbn [d_event rc5_dec]. intros H.
    destruct (rc5_event b (rv_dec r) e dt) as [[d1 s]| |] eqn:E; cbn [bind] in H; try discriminate.
    apply rc5_event_spans in E. destruct s; injection H as <- _; cbn; auto.
  Qed.

  Lemma rc5_run_spans h : forall (r r' : receiver D) os,
    run r h = Val (r', os) -> r5_spans (rv_dec r') = r5_spans (rv_dec r).
  Proof.
    induction h as [|[e dt] h IH]; intros r r' os H; cbn [run_edges] in H.
    - injection H as <- _. reflexivity.
    - destruct (ev r dt e) as [[r1 o]| |] eqn:E; cbn [bind] in H; try discriminate.
      destruct (run r1 h) as [[r2 o2]| |] eqn:E2; cbn [bind] in H; try discriminate.
      injection H as <- _. apply IH in E2. apply rc5_ev_spans in E. congruence.
  Qed.

  (** A long gap, then a rising edge: a frame begins, whatever was going on. *)
  Lemma rc5_gap (r : receiver D) gap : r5_spans (rv_dec r) = ss -> longer freq 1778 10 gap ->
    ev r gap true = Val (st (R5Data 12) (2 ^ 13) 0 (rv_prev r), ROk None).
  Proof.
    intros Es Hl. destruct r as [d pv]. cbn [rv_dec] in Es. unfold event_edge. cbn [d_event rc5_dec rv_dec].
    unfold rc5_event. rewrite Es. unfold ss at 1 2.
    rewrite (spans_get_long _ m freq 1778 10); auto using rc5_ok.
    - cbn [bind]. unfold rc5_reset. cbn [r5_clock r5_state r5_bitbuf r5_spans rc5_transition bind].
      rewrite Es. destruct b as [[] w]; reflexivity.
    - unfold rc5_pulses. repeat (apply Forall_cons; [cbn [fst snd]; unfold nominal; lia|]). apply Forall_nil.
  Qed.

  Hypothesis (Hlo : 1125 <= freq) (Hu : 8 <= usize_bits b).

  Lemma rc5_ticks n d : n = 1 \/ n = 2 ->
    near freq (889 * n) (guaranteed freq (rc5_tol n)) d -> spans_get ss d = Some (n - 1).
  Proof.
    pose proof (rc5_distinct m freq Hm Hf Hlo) as Hd. pose proof rc5_ok as Ht. unfold ss.
    intros [-> | ->] H.
    - rewrite (spans_get_near 2 rc5_pulses m freq 0 889 12 d Hm Hf Ht Hd); auto; lia.
    - rewrite (spans_get_near 2 rc5_pulses m freq 1 1778 10 d Hm Hf Ht Hd); auto; lia.
  Qed.

  (** An interval of [n] half-bits in the middle of a frame. *)
  Lemma rc5_step i buf ck pv e d n : n = 1 \/ n = 2 -> ck + n < 256 -> 1 <= i -> i < 13 ->
    biphase_near freq 889 rc5_tol (e, n) (e, d) ->
    ev (st (R5Data i) buf ck pv) d e =
      if (ck + n) mod 2 =? 0
      then Val (st (R5Data (i - 1)) (if e then N.lor buf (N.shiftl 1 i) else buf) (ck + n) pv, ROk None)
      else Val (st (R5Data i) buf (ck + n) pv, ROk None).
  Proof.
    intros Hn Hck Hi1 Hi2 [_ Hd]. cbn [fst snd] in Hd. pose proof (usize8 b Hu) as HU.
    unfold event_edge. cbn [d_event rc5_dec rv_dec]. unfold rc5_event. cbn [r5_spans r5_clock r5_state r5_bitbuf].
    rewrite (rc5_ticks n d Hn Hd).
    rewrite (uadd_small _ _ (n - 1) 1) by lia. cbn [bind].
    rewrite uadd_small by lia. cbn [bind r5_clock r5_state r5_bitbuf r5_spans].
    replace (ck + (n - 1 + 1)) with (ck + n) by lia. rewrite land1.
    unfold rc5_transition. destruct ((ck + n) mod 2 =? 0).
    - rewrite (proj2 (N.eqb_neq i 0)) by lia. unfold ushl1, usub.
      rewrite (proj2 (N.ltb_lt i 16)) by lia. rewrite (proj2 (N.leb_le 1 i)) by lia.
      destruct e; cbn [bind]; reflexivity.
    - cbn [bind]. reflexivity.
  Qed.

  Lemma rc5_last buf ck pv e d n : n = 1 \/ n = 2 -> ck + n < 256 ->
    biphase_near freq 889 rc5_tol (e, n) (e, d) ->
    ev (st (R5Data 0) buf ck pv) d e =
      if (ck + n) mod 2 =? 0
      then Val (st R5Idle 0 0 pv, ROk (Some (into (rc5_unpack (if e then N.lor buf 1 else buf)))))
      else Val (st (R5Data 0) buf (ck + n) pv, ROk None).
  Proof.
    intros Hn Hck [_ Hd]. cbn [fst snd] in Hd. pose proof (usize8 b Hu) as HU.
    unfold event_edge. cbn [d_event rc5_dec rv_dec]. unfold rc5_event. cbn [r5_spans r5_clock r5_state r5_bitbuf].
    rewrite (rc5_ticks n d Hn Hd).
    rewrite (uadd_small _ _ (n - 1) 1) by lia. cbn [bind].
    rewrite uadd_small by lia. cbn [bind r5_clock r5_state r5_bitbuf r5_spans].
    replace (ck + (n - 1 + 1)) with (ck + n) by lia. rewrite land1.
    unfold rc5_transition. destruct ((ck + n) mod 2 =? 0).
    - cbn [N.eqb]. destruct e; cbn [bind]; reflexivity.
    - cbn [bind]. reflexivity.
  Qed.

  (** The remaining [S n] bits of a frame. *)
  Lemma rc5_bits w pv : forall n k ck l acts, (n < 13)%nat -> ck mod 2 = 0 -> ck + 2 * N.of_nat (S n) < 256 ->
    Forall2 (biphase_near freq 889 rc5_tol) (level_edges l 1 (flat_map rc5_half (bits_msb (S n) w))) acts ->
    exists j,
    run (st (R5Data (N.of_nat n)) (2 ^ N.of_nat (S n) * k) ck pv) acts =
      Val (st R5Idle 0 0 pv,
           repeat (ROk None) j ++
             [ROk (Some (into (rc5_unpack (2 ^ N.of_nat (S n) * k + w mod 2 ^ N.of_nat (S n)))))]).
  Proof.
    induction n as [|n IH]; intros k ck l acts Hn He Hck HF;
      rewrite bits_msb_S in HF; cbn [flat_map] in HF.
    - set (x := N.testbit w (N.of_nat 0)) in *.
      assert (Ew : w mod 2 ^ N.of_nat 1 = if x then 1 else 0).
      { unfold x. change (2 ^ N.of_nat 1) with 2. cbn [N.of_nat]. rewrite N.bit0_odd, <- N.bit0_mod, N.bit0_odd.
        destruct (N.odd w); reflexivity. }
      assert (Eb : (if x then N.lor (2 ^ N.of_nat 1 * k) 1 else 2 ^ N.of_nat 1 * k) =
                   2 ^ N.of_nat 1 * k + w mod 2 ^ N.of_nat 1).
      { rewrite Ew. destruct x; [|lia]. pose proof (lor_low k 0) as L. exact L. }
      assert (E : exists y, rc5_half x = [negb x; x] /\ y = x) by (exists x; destruct x; auto).
      destruct E as (_ & E & _). rewrite E in HF. cbn [app level_edges bits_msb] in HF.
      change (flat_map rc5_half (bits_msb 0 w)) with (@nil bool) in HF.
      rewrite <- Eb. clear Eb Ew E. cbn [N.of_nat] in *.
      destruct (Bool.eqb (negb x) l) eqn:El; cbn [app level_edges] in HF.
      + assert (Bool.eqb x l = false) as Ex by (destruct x, l; auto; discriminate). rewrite Ex in HF.
        inversion HF as [|? [e d] ? acts' H1 H2]; subst. inversion H2; subst.
        destruct H1 as [Q1 Q2]. cbn [fst snd] in Q1. subst e.
        exists O. cbn [run_edges repeat app]. rewrite (rc5_last _ _ _ x d 2); try (split; auto); try slia.
        replace ((ck + 2) mod 2) with 0 by slia. cbn [N.eqb bind]. reflexivity.
      + assert (Bool.eqb x (negb x) = false) as Ex by (destruct x; auto). rewrite Ex in HF.
        inversion HF as [|? [e d] ? acts' H1 H2]; subst. inversion H2 as [|? [e' d'] ? acts'' H1' H2']; subst.
        inversion H2'; subst.
        destruct H1 as [Q1 Q2], H1' as [Q1' Q2']. cbn [fst snd] in Q1, Q1'. subst e e'.
        exists 1%nat. cbn [run_edges repeat app]. rewrite (rc5_last _ _ _ (negb x) d 1); try (split; auto); try slia.
        replace ((ck + 1) mod 2) with 1 by slia. cbn [N.eqb bind].
        rewrite (rc5_last _ _ _ x d' 1); try (split; auto); try slia.
        replace ((ck + 1 + 1) mod 2) with 0 by slia. cbn [N.eqb bind]. reflexivity.
    - set (x := N.testbit w (N.of_nat (S n))) in *.
      assert (E2 : 2 ^ N.of_nat (S (S n)) = 2 * 2 ^ N.of_nat (S n)) by (rewrite (Nat2N.inj_succ (S n)), N.pow_succ_r'; lia).
      assert (Ew : w mod 2 ^ N.of_nat (S (S n)) = (if x then 2 ^ N.of_nat (S n) else 0) + w mod 2 ^ N.of_nat (S n)).
      { unfold x. rewrite <- !val_bits_msb, bits_msb_S, val_msb_cons, bits_msb_length. reflexivity. }
      assert (Eb : (if x then N.lor (2 ^ N.of_nat (S (S n)) * k) (N.shiftl 1 (N.of_nat (S n))) else 2 ^ N.of_nat (S (S n)) * k) =
                   2 ^ N.of_nat (S n) * (2 * k + (if x then 1 else 0))).
      { destruct x; [|rewrite E2; lia]. pose proof (lor_low k (N.of_nat (S n))) as L.
        replace (N.of_nat (S n) + 1) with (N.of_nat (S (S n))) in L by lia. rewrite L, E2. lia. }
      assert (El0 : rc5_half x = [negb x; x]) by (destruct x; auto).
      rewrite El0 in HF. cbn [app level_edges] in HF.
      replace (2 ^ N.of_nat (S (S n)) * k + w mod 2 ^ N.of_nat (S (S n)))
        with (2 ^ N.of_nat (S n) * (2 * k + (if x then 1 else 0)) + w mod 2 ^ N.of_nat (S n))
        by (rewrite Ew, E2; destruct x; lia).
      destruct (Bool.eqb (negb x) l) eqn:El; cbn [app level_edges] in HF.
      + assert (Bool.eqb x l = false) as Ex by (destruct x, l; auto; discriminate). rewrite Ex in HF.
        inversion HF as [|? [e d] ? acts' H1 H2]; subst.
        destruct H1 as [Q1 Q2]. cbn [fst snd] in Q1. subst e.
        destruct (IH (2 * k + (if x then 1 else 0)) (ck + 2) x acts') as (j & Ej); try slia; auto.
        exists (S j). cbn [run_edges repeat app]. rewrite (rc5_step _ _ _ _ x d 2); try (split; auto); try slia.
        replace ((ck + 2) mod 2) with 0 by slia. cbn [N.eqb bind]. rewrite Eb.
        replace (N.of_nat (S n) - 1) with (N.of_nat n) by slia. rewrite Ej. reflexivity.
      + assert (Bool.eqb x (negb x) = false) as Ex by (destruct x; auto). rewrite Ex in HF.
        inversion HF as [|? [e d] ? acts' H1 H2]; subst. inversion H2 as [|? [e' d'] ? acts'' H1' H2']; subst.
        destruct H1 as [Q1 Q2], H1' as [Q1' Q2']. cbn [fst snd] in Q1, Q1'. subst e e'.
        destruct (IH (2 * k + (if x then 1 else 0)) (ck + 1 + 1) x acts'') as (j & Ej); try slia; auto.
        exists (S (S j)). cbn [run_edges repeat app]. rewrite (rc5_step _ _ _ _ (negb x) d 1); try (split; auto); try slia.
        replace ((ck + 1) mod 2) with 1 by slia. cbn [N.eqb bind].
        rewrite (rc5_step _ _ _ _ x d' 1); try (split; auto); try slia.
        replace ((ck + 1 + 1) mod 2) with 0 by slia. cbn [N.eqb bind]. rewrite Eb.
        replace (N.of_nat (S n) - 1) with (N.of_nat n) by slia. rewrite Ej. reflexivity.
  Qed.

  (** After the start edge. *)
  Lemma rc5_frame_run w pv noms n0 acts : w < 2 ^ 14 ->
    level_edges false 0 (rc5_wave w) = (true, n0) :: noms -> N.testbit w 13 = true ->
    Forall2 (biphase_near freq 889 rc5_tol) noms acts ->
    run (st (R5Data 12) (2 ^ 13) 0 pv) acts =
      Val (st R5Idle 0 0 pv, repeat (ROk None) (length acts - 1) ++ [ROk (Some (into (rc5_unpack w)))]).
  Proof.
    intros Hw E H13 HF. unfold rc5_wave in E. rewrite bits_msb_S in E. cbn [flat_map] in E.
    change (N.of_nat 13) with 13 in E. rewrite H13 in E. cbn [rc5_half app level_edges Bool.eqb] in E.
    injection E as _ E. subst noms.
    destruct (rc5_bits w pv 12 1 0 true acts) as (j & Ej); auto; try lia.
    change (2 ^ N.of_nat 13 * 1) with (2 ^ 13) in Ej. change (N.of_nat 12) with 12 in Ej.
    change (N.of_nat 13) with 13 in Ej.
    assert (Ew : 2 ^ 13 + w mod 2 ^ 13 = w).
    { pose proof (val_bits_msb 14 w) as V. rewrite bits_msb_S, val_msb_cons, bits_msb_length, val_bits_msb in V.
      change (N.of_nat 13) with 13 in V. rewrite H13 in V. change (N.of_nat 14) with 14 in V.
      rewrite (N.mod_small w (2 ^ 14)) in V by auto. exact V. }
    rewrite Ew in Ej. rewrite Ej. pose proof (run_edges_length _ _ _ _ _ Ej) as L.
    rewrite app_length, repeat_length in L. cbn [length] in L.
    assert (Lj : (length acts - 1)%nat = j) by (unfold edge in *; rewrite <- L; lia). rewrite Lj. reflexivity.
  Qed.

  Lemma rc5_decode w (r0 : receiver D) hist r1 os gap evs : w < 2 ^ 14 -> N.testbit w 13 = true ->
    r5_spans (rv_dec r0) = ss -> run r0 hist = Val (r1, os) -> longer freq 1778 10 gap -> rc5_edges freq w gap evs ->
    exists pv, run r0 (hist ++ evs) =
      Val (st R5Idle 0 0 pv, os ++ repeat (ROk None) (length evs - 1) ++ [ROk (Some (into (rc5_unpack w)))]).
  Proof.
    intros Hw H13 Es E Hg (n & noms & acts & En & -> & HF). exists (rv_prev r1).
    apply run_edges_app_val with (r1 := r1); auto. cbn [run_edges].
    pose proof (rc5_run_spans _ _ _ _ E) as Es1.
    rewrite (rc5_gap r1 gap) by (congruence || auto). cbn [bind].
    rewrite (rc5_frame_run w _ _ _ _ Hw En H13 HF). cbn [bind length].
    assert (length noms <> O).
    { intros Z. destruct noms; [|discriminate]. unfold rc5_wave in En. rewrite bits_msb_S in En.
      change (N.of_nat 13) with 13 in En. rewrite H13, bits_msb_S in En. cbn [flat_map] in En.
      destruct (N.testbit w (N.of_nat 12)); cbn [rc5_half app level_edges Bool.eqb] in En; discriminate En. }
    apply forall2_length in HF. destruct acts as [|a acts]; [exfalso; exact (H HF)|].
    cbn [length Nat.sub]. rewrite Nat.sub_0_r. reflexivity.
  Qed.
End Rc5.
