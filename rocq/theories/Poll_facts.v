(** * Sampled signals as edges *)
From Coq Require Import NArith ZArith List Bool Lia ZifyBool ZifyNat ZifyN.
From Verif Require Import Machine Decoder Receiver Spec Run_facts Spec_receiver Encode_facts Receiver_facts Props_receiver
  Air_facts Cross_facts Spec_phys Phys_facts.
Import ListNotations.
Open Scope N_scope.

(** Level and length of the run at the end of a list of samples. *)
Fixpoint run_state (c : bool) (n : N) (ls : list bool) : bool * N :=
  match ls with
  | [] => (c, n)
  | l :: r => if Bool.eqb l c then run_state c (n + 1) r else run_state l 1 r
  end.

Lemma run_state_app l1 : forall c n l2, run_state c n (l1 ++ l2) = run_state (fst (run_state c n l1)) (snd (run_state c n l1)) l2.
Proof.
  induction l1 as [|l l1 IH]; intros c n l2; cbn [app run_state fst snd]; [reflexivity|]. destruct (Bool.eqb l c); apply IH.
Qed.

Lemma level_edges_app l1 : forall c n l2,
  level_edges c n (l1 ++ l2) = level_edges c n l1 ++ level_edges (fst (run_state c n l1)) (snd (run_state c n l1)) l2.
Proof.
  induction l1 as [|l l1 IH]; intros c n l2; cbn [app run_state level_edges fst snd]; [reflexivity|].
  destruct (Bool.eqb l c); [apply IH|]. cbn [app]. f_equal. apply IH.
Qed.

Lemma at_changes_split {O} (z : O) l1 : forall c n l2 o1 o2, length o1 = length (level_edges c n l1) ->
  at_changes z c (l1 ++ l2) (o1 ++ o2) = at_changes z c l1 o1 ++ at_changes z (fst (run_state c n l1)) l2 o2.
Proof.
  induction l1 as [|l l1 IH]; intros c n l2 o1 o2 L; cbn [app run_state level_edges fst snd at_changes] in *.
  - destruct o1; [reflexivity|discriminate].
  - destruct (Bool.eqb l c) eqn:E.
    + cbn [app]. f_equal. apply IH, L.
    + destruct o1 as [|o o1]; [discriminate|]. cbn [app]. f_equal. apply (IH l 1). cbn [length] in L. lia.
Qed.

Lemma at_changes_length {O} (z : O) l1 : forall c n o1, length o1 = length (level_edges c n l1) -> length (at_changes z c l1 o1) = length l1.
Proof.
  induction l1 as [|l l1 IH]; intros c n o1 L; cbn [level_edges at_changes length] in *; [reflexivity|].
  destruct (Bool.eqb l c); [cbn [length]; f_equal; eapply IH; eauto|].
  destruct o1 as [|o o1]; [discriminate|]. cbn [length] in *. f_equal. apply (IH l 1). lia.
Qed.

Lemma run_state_same c n k : run_state c n (repeat c k) = (c, n + N.of_nat k).
Proof.
  revert n. induction k as [|k IH]; intros n; cbn [repeat run_state].
  - f_equal. lia.
  - rewrite Bool.eqb_reflx, IH. f_equal. lia.
Qed.

(** After [k + 1] samples of one level, the run of this level is at least that long. *)
Lemma run_state_end c n ls l k : exists g, run_state c n (ls ++ repeat l (S k)) = (l, g) /\ N.of_nat (S k) <= g /\
  g <= n + N.of_nat (length ls) + N.of_nat (S k).
Proof.
  rewrite run_state_app. assert (B : snd (run_state c n ls) <= n + N.of_nat (length ls)).
  { revert c n. induction ls as [|x ls IH]; intros c n; cbn [run_state snd length]; [lia|].
    destruct (Bool.eqb x c); [specialize (IH c (n + 1)); lia|].
    specialize (IH x 1). assert (snd (run_state x 1 ls) <= 1 + N.of_nat (length ls)) by exact IH. lia. }
  destruct (run_state c n ls) as [c' n']. cbn [fst snd] in *. cbn [repeat run_state]. destruct (Bool.eqb l c') eqn:E.
  - apply Bool.eqb_prop in E. subst c'. rewrite run_state_same. eexists. split; [reflexivity|]. lia.
  - rewrite run_state_same. eexists. split; [reflexivity|]. lia.
Qed.

Lemma level_edges_bound ls : forall c n, Forall (fun e => snd e <= n + N.of_nat (length ls)) (level_edges c n ls).
Proof.
  induction ls as [|l ls IH]; intros c n; cbn [level_edges length]; [constructor|].
  destruct (Bool.eqb l c).
  - eapply Forall_impl; [|apply (IH c (n + 1))]. intros e He. cbn beta in *. lia.
  - constructor; [cbn [snd]; lia|]. eapply Forall_impl; [|apply (IH l 1)]. intros e He. cbn beta in *. lia.
Qed.

(** Samples as runs. *)
Fixpoint runs (clock : N -> N) (cur : bool) (t : N) (evs : list edge) (last : nat) : list bool :=
  match evs with
  | [] => repeat cur last
  | (l, D) :: r => repeat cur (N.to_nat (clock (t + D) - clock t)) ++ runs clock l (t + D) r last
  end.

Lemma runs_head clock cur t evs last : (0 < last)%nat ->
  Forall (fun e => 1 <= snd e) (measured clock t evs) -> exists rest, runs clock cur t evs last = cur :: rest.
Proof.
  intros Hl F. destruct evs as [|[l D] r]; cbn [runs measured] in *.
  - destruct last; [lia|]. cbn [repeat]. eauto.
  - inversion F as [|x y F1 F2]; subst. cbn [snd] in F1. destruct (N.to_nat (clock (t + D) - clock t)) eqn:E; [lia|]. cbn [repeat app]. eauto.
Qed.

Lemma runs_edges clock last : (0 < last)%nat -> forall evs cur t, alt (negb cur) evs ->
  Forall (fun e => 1 <= snd e) (measured clock t evs) ->
  level_edges cur 0 (runs clock cur t evs last) = measured clock t evs.
Proof.
  intros Hl. induction evs as [|[l D] r IH]; intros cur t A F; cbn [runs measured] in *.
  - rewrite <- (app_nil_r (repeat cur last)), level_edges_same. reflexivity.
  - destruct A as [A1 A2]. inversion F as [|x y F1 F2]; subst x y. cbn [snd] in F1.
    rewrite level_edges_same. destruct (runs_head clock l (t + D) r last Hl F2) as (rest & Er).
    assert (A3 : alt (negb l) r) by (subst l; exact A2).
    specialize (IH l (t + D) A3 F2). rewrite Er in *. cbn [level_edges] in *. rewrite Bool.eqb_reflx in IH.
    assert (El : Bool.eqb l cur = false) by (subst l; destruct cur; reflexivity). rewrite El. cbn [N.add] in IH.
    f_equal; [|exact IH]. f_equal. lia.
Qed.

(** The samples of a signal: [clock x] of them are taken before time [x]. *)
Section Sampler.
  Variables (T first : N).
  Hypothesis HT : 0 < T.
  Hypothesis Hfirst : first < T.
  Definition before (x : N) : N := (x + (T - 1 - first)) / T.

  Lemma before_spec i x : i < before x <-> first + i * T < x.
  Proof.
    unfold before. split; intros H.
    - assert (K : T * (i + 1) <= x + (T - 1 - first)).
      { etransitivity; [|apply (N.mul_div_le (x + (T - 1 - first)) T); lia]. apply N.mul_le_mono_l. lia. }
      rewrite N.mul_add_distr_l, N.mul_1_r, (N.mul_comm T i) in K. lia.
    - apply N.lt_le_trans with (i + 1); [lia|]. apply N.div_le_lower_bound; [lia|].
      rewrite N.mul_add_distr_l, N.mul_1_r, (N.mul_comm T i). lia.
  Qed.

  Lemma before_mono x y : x <= y -> before x <= before y.
  Proof. intros H. unfold before. apply N.div_le_mono; lia. Qed.

  Lemma before_counts freq : 0 < freq -> counts freq (freq * T) 1 before.
  Proof.
    intros Hf s t Hst. split; [apply before_mono, Hst|].
    pose proof (N.div_mod (s + (T - 1 - first)) T ltac:(lia)) as Es. pose proof (N.mod_lt (s + (T - 1 - first)) T ltac:(lia)) as Ls.
    pose proof (N.div_mod (t + (T - 1 - first)) T ltac:(lia)) as Et. pose proof (N.mod_lt (t + (T - 1 - first)) T ltac:(lia)) as Lt.
    pose proof (before_mono s t Hst) as M. fold (before s) in Es. fold (before t) in Et.
    set (qs := before s) in *. set (qt := before t) in *.
    assert (A : (qt - qs) * T < (t - s) + T /\ t - s < (qt - qs) * T + T).
    { rewrite N.mul_sub_distr_r. apply N.mul_le_mono_r with (p := T) in M.
      rewrite (N.mul_comm T qs) in Es. rewrite (N.mul_comm T qt) in Et.
      set (A := qs * T) in *. set (B := qt * T) in *.
      set (rs := (s + (T - 1 - first)) mod T) in *. set (rt := (t + (T - 1 - first)) mod T) in *.
      clearbody A B rs rt. clear qs qt. lia. }
    destruct A as [A1 A2]. apply (N.mul_lt_mono_pos_r freq) in A1, A2; [|exact Hf|exact Hf].
    rewrite N.mul_add_distr_r in A1, A2. rewrite N.mul_1_l.
    replace ((qt - qs) * (freq * T)) with ((qt - qs) * T * freq) by ring. rewrite (N.mul_comm freq T). auto.
  Qed.

  Lemma before_far x D : T <= D -> before x + 1 <= before (x + D).
  Proof.
    intros H. unfold before. replace (x + D + (T - 1 - first)) with (x + (D - T) + (T - 1 - first) + 1 * T) by lia.
    rewrite N.div_add by lia. apply N.add_le_mono_r, N.div_le_mono; lia.
  Qed.

  Lemma sampled_runs evs : forall cur t n, before (after t evs) <= n ->
    map (fun i => level_at cur t evs (first + N.of_nat i * T)) (seq (N.to_nat (before t)) (N.to_nat (n - before t))) =
    runs before cur t evs (N.to_nat (n - before (after t evs))).
  Proof.
    induction evs as [|[l D] r IH]; intros cur t n Hn; cbn [after runs level_at] in *.
    - assert (G : forall k a, map (fun _ : nat => cur) (seq a k) = repeat cur k).
      { induction k as [|k IHk]; intros a; cbn [seq map repeat]; [reflexivity|]. rewrite IHk. reflexivity. }
      apply G.
    - assert (M1 : before t <= before (t + D)) by (apply before_mono; lia).
      assert (M2 : before (t + D) <= before (after (t + D) r)).
      { apply before_mono. clear. revert t D. induction r as [|[l' D'] r IH]; intros t D; cbn [after]; [lia|].
        specialize (IH (t + D) D'). lia. }
      replace (N.to_nat (n - before t)) with (N.to_nat (before (t + D) - before t) + N.to_nat (n - before (t + D)))%nat by lia.
      rewrite seq_app, map_app. f_equal.
      + assert (G : forall k a, (forall i, (a <= i < a + k)%nat -> first + N.of_nat i * T < t + D) ->
          map (fun i : nat => if t + D <=? first + N.of_nat i * T then level_at l (t + D) r (first + N.of_nat i * T) else cur) (seq a k) =
          repeat cur k).
        { induction k as [|k IHk]; intros a Ha; cbn [seq map repeat]; [reflexivity|]. rewrite IHk by (intros i Hi; apply Ha; lia).
          rewrite (proj2 (N.leb_gt _ _)) by (apply Ha; lia). reflexivity. }
        apply G. intros i Hi. apply before_spec. lia.
      + rewrite <- IH by exact Hn. replace (N.to_nat (before t) + N.to_nat (before (t + D) - before t))%nat with (N.to_nat (before (t + D))) by lia.
        apply map_ext_in. intros i Hi. apply in_seq in Hi. rewrite (proj2 (N.leb_le _ _)); [reflexivity|].
        destruct (N.leb_spec (t + D) (first + N.of_nat i * T)) as [H|H]; [exact H|]. apply before_spec in H. lia.
  Qed.
End Sampler.

Section Polled.
  Variables (T first : N).
  Hypothesis HT : 0 < T.
  Hypothesis Hfirst : first < T.
  Notation clock := (before T first).

  Lemma far_measured evs : Forall (fun e : edge => T <= snd e) evs -> forall t, Forall (fun e : edge => 1 <= snd e) (measured clock t evs).
  Proof.
    induction 1 as [|[l D] r H F IH]; intros t; cbn [measured]; constructor; [|apply IH].
    cbn [snd] in *. pose proof (before_far T first HT Hfirst t D H). lia.
  Qed.

  (** What a poller sees of a signal after a silence of [gap], after any samples [L]. *)
  Lemma polled_levels L gap fr n :
    alt false fr -> Forall (fun e : edge => T <= snd e) ((true, gap) :: fr) ->
    after 0 ((true, gap) :: fr) <= first + N.of_nat n * T ->
    exists h g l2, L ++ map (level_at false 0 ((true, gap) :: fr)) (times first T (S n)) = (L ++ repeat false (N.to_nat (clock gap))) ++ l2 /\
      level_edges false 1 (L ++ repeat false (N.to_nat (clock gap))) = h /\
      fst (run_state false 1 (L ++ repeat false (N.to_nat (clock gap)))) = false /\
      level_edges false (snd (run_state false 1 (L ++ repeat false (N.to_nat (clock gap))))) l2 = (true, g) :: measured clock gap fr /\
      clock gap <= g /\ g <= 1 + N.of_nat (length L) + clock gap.
  Proof.
    intros A F Hn. inversion F as [|x y F1 F2]; subst x y. cbn [snd] in F1. unfold times.
    assert (B0 : clock 0 = 0) by (unfold before; rewrite N.add_0_l; apply N.div_small; lia).
    assert (Hb : clock (after 0 ((true, gap) :: fr)) <= N.of_nat (S n) - 1).
    { destruct (N.le_gt_cases (clock (after 0 ((true, gap) :: fr))) (N.of_nat (S n) - 1)) as [H|H]; [exact H|].
      apply (before_spec T first HT Hfirst) in H. replace (N.of_nat (S n) - 1) with (N.of_nat n) in H by lia. lia. }
    pose proof (sampled_runs T first HT Hfirst ((true, gap) :: fr) false 0 (N.of_nat (S n)) ltac:(lia)) as R.
    rewrite B0, N.sub_0_r, Nnat.Nat2N.id in R. cbn [N.to_nat] in R. change (Pos.to_nat 1) with 1%nat in R.
    rewrite map_map. rewrite R. cbn [runs after]. rewrite N.add_0_l, B0, N.sub_0_r.
    set (last := N.to_nat (N.of_nat (S n) - clock (after gap fr))).
    assert (Hlast : (0 < last)%nat) by (cbn [after] in Hb; rewrite N.add_0_l in Hb; subst last; lia).
    pose proof (before_far T first HT Hfirst 0 gap F1) as Hg. rewrite B0, !N.add_0_l in Hg.
    destruct (N.to_nat (clock gap)) as [|k] eqn:Ek; [lia|].
    destruct (run_state_end false 1 L false k) as (g & Es & G1 & G2).
    exists (level_edges false 1 (L ++ repeat false (S k))), g, (runs clock true gap fr last).
    split; [rewrite app_assoc; reflexivity|]. split; [reflexivity|]. rewrite Es. cbn [fst snd]. split; [reflexivity|].
    pose proof (far_measured fr F2 gap) as Fm.
    pose proof (runs_edges clock last Hlast fr true gap A Fm) as Re.
    destruct (runs_head clock true gap fr last Hlast Fm) as (rest & Er). rewrite Er in *. cbn [level_edges Bool.eqb N.add] in *.
    split; [rewrite Re; reflexivity|]. lia.
  Qed.

  Lemma polled_outcome P freq C (into : dcmd (p_dec P) -> C) L l2 h g fr p0 r0 r os rest :
    poll_new P freq = Val p0 -> receiver_new P freq = Val r0 ->
    level_edges false 1 L = h -> fst (run_state false 1 L) = false ->
    level_edges false (snd (run_state false 1 L)) l2 = (true, g) :: fr ->
    N.of_nat (length (L ++ l2)) + 1 < 2 ^ 32 ->
    run_edges into r0 (h ++ (true, g) :: fr) = Val (r, os ++ rest) -> length os = length h ->
    exists os1 os2, outs (run_polls into p0 (L ++ l2)) = Val (os1 ++ os2) /\ length os1 = length L /\ commands os2 = commands rest.
  Proof.
    intros Ep Er Eh Es El Hn E Lo.
    assert (Ea : level_edges false 1 (L ++ l2) = h ++ (true, g) :: fr) by (rewrite level_edges_app, Eh, Es, El; reflexivity).
    rewrite (C47_poll P freq C into (L ++ l2) p0 r0 Ep Er).
    - rewrite Ea. unfold outs at 1. rewrite E. cbn [bind].
      eexists. eexists. split; [apply (f_equal Val); apply (at_changes_split (ROk None) L false 1 l2 os rest); rewrite Eh; exact Lo|]. split.
      + apply (at_changes_length (ROk None) L false 1). rewrite Eh. exact Lo.
      + rewrite Es. apply (commands_at_changes l2 false (snd (run_state false 1 L))). rewrite El.
        pose proof (run_edges_length into _ _ _ _ E) as K. rewrite !app_length in K. lia.
    - eapply Forall_impl; [|apply level_edges_bound]. intros e He. cbn beta in *. lia.
  Qed.
End Polled.

Section PolledFrame.
  Variables (T first : N).
  Hypothesis HT : 0 < T.
  Hypothesis Hfirst : first < T.
  Notation clock := (before T first).

  Lemma polled_frame P freq C (into : dcmd (p_dec P) -> C) c L gap fr n p0 r0 :
    poll_new P freq = Val p0 -> receiver_new P freq = Val r0 ->
    alt false fr -> Forall (fun e : edge => T <= snd e) ((true, gap) :: fr) ->
    after 0 ((true, gap) :: fr) <= first + N.of_nat n * T ->
    N.of_nat (length L + n) + 2 < 2 ^ 31 ->
    (forall h g, h = level_edges false 1 (L ++ repeat false (N.to_nat (clock gap))) -> clock gap <= g ->
       level_edges false 1 (L ++ map (level_at false 0 ((true, gap) :: fr)) (times first T (S n))) = h ++ (true, g) :: measured clock gap fr ->
       short (h ++ (true, g) :: measured clock gap fr) ->
       exists r os rest, run_edges into r0 (h ++ (true, g) :: measured clock gap fr) = Val (r, os ++ rest) /\
         length os = length h /\ commands rest = [c]) ->
    exists os1 os2 k,
      outs (run_polls into p0 (L ++ map (level_at false 0 ((true, gap) :: fr)) (times first T (S n)))) = Val (os1 ++ os2) /\
      length os1 = (length L + k)%nat /\ (forall i, (i < k)%nat <-> first + N.of_nat i * T < gap) /\ commands os2 = [c].
  Proof.
    intros Ep Er A F Hn Hlen Q.
    destruct (polled_levels T first HT Hfirst L gap fr n A F Hn) as (h & g & l2 & E1 & E2 & E3 & E4 & G1 & G2).
    assert (Ea : level_edges false 1 (L ++ map (level_at false 0 ((true, gap) :: fr)) (times first T (S n))) =
                 h ++ (true, g) :: measured clock gap fr).
    { rewrite E1, level_edges_app, E2, E3, E4. reflexivity. }
    assert (Ln : length (L ++ map (level_at false 0 ((true, gap) :: fr)) (times first T (S n))) = (length L + S n)%nat).
    { unfold times. rewrite app_length, !map_length, seq_length. reflexivity. }
    destruct (Q h g (eq_sym E2) G1 Ea) as (r & os & rest & Erun & Lo & Ec).
    { unfold short. rewrite <- Ea. eapply Forall_impl; [|apply level_edges_bound]. intros e He. cbn beta in *. rewrite Ln in He.
      change (2 ^ 31) with 2147483648 in *. lia. }
    destruct (polled_outcome T first HT Hfirst P freq C into _ l2 h g _ p0 r0 r os rest Ep Er E2 E3 E4) as (os1 & os2 & Eo & Lo1 & Eco); auto.
    { rewrite <- E1, Ln. change (2 ^ 32) with 4294967296. change (2 ^ 31) with 2147483648 in *. lia. }
    rewrite <- E1 in Eo. exists os1, os2, (N.to_nat (clock gap)). split; [exact Eo|]. split.
    { rewrite Lo1, app_length, repeat_length. reflexivity. }
    split; [|rewrite Eco; exact Ec]. intros i. rewrite <- (before_spec T first HT Hfirst). lia.
  Qed.
End PolledFrame.
