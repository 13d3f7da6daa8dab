(** * Lemmas: when the clock of a biphase receiver overflows *)
From Coq Require Import NArith ZArith List Bool Lia ZifyBool ZifyNat ZifyN.
From Verif Require Import Machine Spec Bits Time Decoder Rc5 Rc6 Receiver Time_facts Window_facts Codec_facts Run_facts Rc5_facts Rc6_facts
  Encode_facts Spec_sound Sound_facts Biphase_facts Spec_biread Spec_rate Rate_facts Biread_facts Spec_overflow.
Import ListNotations.
Open Scope N_scope.

(** [x], unless the clock [c] is out of bounds. *)
Definition guard {A} (c M : N) (x : A) : res A := if c <? M then Val x else Panic.

Lemma guard_in {A} c M (x : A) : c < M -> guard c M x = Val x.
Proof. intros H. unfold guard. rewrite (proj2 (N.ltb_lt _ _)) by exact H. reflexivity. Qed.
Lemma guard_out {A} c M (x : A) : M <= c -> guard c M x = Panic.
Proof. intros H. unfold guard. rewrite (proj2 (N.ltb_ge _ _)) by exact H. reflexivity. Qed.

Lemma guard_cons {D C} (into : dcmd D -> C) (r r1 r2 : receiver D) e d l o os c1 c2 M :
  event_edge into r d e = guard c1 M (r1, o) -> c1 <= c2 -> (c1 < M -> run_edges into r1 l = guard c2 M (r2, os)) ->
  run_edges into r ((e, d) :: l) = guard c2 M (r2, o :: os).
Proof.
  intros E1 L E2. cbn [run_edges]. rewrite E1. destruct (N.lt_ge_cases c1 M) as [H|H].
  - rewrite guard_in by exact H. cbn [bind]. rewrite (E2 H). destruct (N.lt_ge_cases c2 M) as [H2|H2].
    + rewrite !guard_in by exact H2. reflexivity.
    + rewrite !guard_out by exact H2. reflexivity.
  - rewrite !guard_out by lia. reflexivity.
Qed.
Lemma guard_app {D C} (into : dcmd D -> C) (r r1 r2 : receiver D) l1 l2 o1 o2 c1 c2 M :
  run_edges into r l1 = guard c1 M (r1, o1) -> c1 <= c2 -> (c1 < M -> run_edges into r1 l2 = guard c2 M (r2, o2)) ->
  run_edges into r (l1 ++ l2) = guard c2 M (r2, o1 ++ o2).
Proof.
  intros E1 L E2. rewrite run_edges_app, E1. destruct (N.lt_ge_cases c1 M) as [H|H].
  - rewrite guard_in by exact H. cbn [bind]. rewrite (E2 H). destruct (N.lt_ge_cases c2 M) as [H2|H2].
    + rewrite !guard_in by exact H2. reflexivity.
    + rewrite !guard_out by exact H2. reflexivity.
  - rewrite !guard_out by lia. reflexivity.
Qed.
Lemma run_panic_app {D C} (into : dcmd D -> C) (r : receiver D) l1 l2 :
  run_edges into r l1 = Panic -> run_edges into r (l1 ++ l2) = Panic.
Proof. intros E. rewrite run_edges_app, E. reflexivity. Qed.
Lemma run_val_panic {D C} (into : dcmd D -> C) (r r1 : receiver D) l1 o1 l2 :
  run_edges into r l1 = Val (r1, o1) -> run_edges into r1 l2 = Panic -> run_edges into r (l1 ++ l2) = Panic.
Proof. intros E1 E2. rewrite run_edges_app, E1. cbn [bind]. rewrite E2. reflexivity. Qed.
Lemma run_val_panic_inv {D C} (into : dcmd D -> C) (r r1 : receiver D) l1 o1 l2 :
  run_edges into r l1 = Val (r1, o1) -> run_edges into r (l1 ++ l2) = Panic -> run_edges into r1 l2 = Panic.
Proof.
  intros E1 E2. rewrite run_edges_app, E1 in E2. cbn [bind] in E2. destruct (run_edges into r1 l2) as [[? ?]| |]; [discriminate|reflexivity|discriminate].
Qed.
Lemma run_cons_panic {D C} (into : dcmd D -> C) (r r1 : receiver D) e d o l :
  event_edge into r d e = Val (r1, o) -> run_edges into r ((e, d) :: l) = Panic <-> run_edges into r1 l = Panic.
Proof.
  intros E. cbn [run_edges]. rewrite E. cbn [bind]. destruct (run_edges into r1 l) as [[? ?]| |]; cbn [bind]; split; intros H; congruence.
Qed.

(** The last edge of a stretch. *)
Lemma lacks_snoc counts par ck l ns k M : lacks counts par ck l ns k -> M <= total ns -> 0 < M ->
  exists l' e d ns' n, l = l' ++ [(e, d)] /\ lacks counts par ck l' ns' k /\ counts n d /\ total ns = total ns' + n.
Proof.
  intros (F & L) Ht HM. destruct l as [|[e d] l' _] using rev_ind.
  { inversion F; subst. cbn in Ht. lia. }
  rewrite map_app in F. cbn [map snd] in F. apply Forall2_app_inv_r in F. destruct F as (ns' & m2 & F1 & F2 & ->).
  inversion F2 as [|n ? ? ? Hn F3]; subst. inversion F3; subst. exists l', e, d, ns', n. split; [reflexivity|].
  assert (Ll : length l' = length ns') by (apply forall2_length in F1; rewrite map_length in F1; auto).
  rewrite samples_snoc in L by exact Ll. rewrite app_length in L.
  split; [split; [exact F1|lia]|]. split; [exact Hn|]. rewrite total_app. cbn [total fold_right]. unfold total. lia.
Qed.

Section Rc5.
  Variables (w : N) (m : mono) (freq : N).
  Notation b := (debug_build w).
  Notation M := (2 ^ w).
  Hypothesis (Hm : timebase m freq) (Hhi : exact_rate m freq) (Hu : 8 <= w).
  Notation ss := (spans_of m freq rc5_pulses).
  Notation D := (rc5_dec b).
  Context {C : Type} (into : rc5_command -> C).
  Notation run := (@run_edges D C into).
  Notation ev := (@event_edge D C into).
  Notation st s buf ck pv := (@mkRecv D (mkRc5Dec s buf ck ss) pv).
  Notation mid := (rc5_mid b m freq).

  Lemma room8 : 256 <= M.
  Proof. exact (usize8 b Hu). Qed.

  Lemma over5 s buf ck pv d (e : bool) n : rc5_counts freq n d -> M <= ck + n -> ev (st s buf ck pv) d e = Panic.
  Proof.
    intros Hn H. destruct (rc5_count_get b m freq Hm Hhi Hu n d Hn) as (Hn3 & Eg). pose proof room8 as U.
    unfold event_edge. cbn [d_event rc5_dec rv_dec rv_prev]. unfold rc5_event. cbn [r5_spans r5_clock r5_state r5_bitbuf usize_bits overflow_checks debug_build].
    rewrite Eg, uadd_small by lia. cbn [bind]. replace (n - 1 + 1) with n by lia. unfold uadd. rewrite (proj2 (N.ltb_ge _ _)) by exact H. reflexivity.
  Qed.

  Lemma idle5 ck pv d (e : bool) n : rc5_counts freq n d -> ck + n < M ->
    ev (st R5Idle 0 ck pv) d e = Val (if e then mid [] 0 pv else st R5Idle 0 (ck + n) pv, ROk None).
  Proof.
    intros Hn H. destruct (rc5_count_get b m freq Hm Hhi Hu n d Hn) as (Hn3 & Eg). pose proof room8 as U.
    unfold event_edge. cbn [d_event rc5_dec rv_dec rv_prev]. unfold rc5_event. cbn [r5_spans r5_clock r5_state r5_bitbuf usize_bits overflow_checks debug_build].
    rewrite Eg, uadd_small by lia. cbn [bind]. replace (n - 1 + 1) with n by lia. rewrite uadd_small by exact H.
    cbn [bind r5_spans r5_clock r5_state r5_bitbuf rc5_transition overflow_checks debug_build]. destruct e; reflexivity.
  Qed.
  Lemma idle5_un ck pv d (e : bool) : rc5_uncounted freq d ->
    ev (st R5Idle 0 ck pv) d e = Val (if e then mid [] 0 pv else st R5Idle 0 0 pv, ROk None).
  Proof.
    intros Hd. unfold event_edge. cbn [d_event rc5_dec rv_dec rv_prev]. unfold rc5_event. cbn [r5_spans r5_clock r5_state r5_bitbuf].
    rewrite (rc5_uncounted_get m freq Hm Hhi d Hd). destruct e; reflexivity.
  Qed.

  Lemma mid5 pre ck pv d (e : bool) n : (length pre <= 12)%nat -> rc5_counts freq n d ->
    ev (mid pre ck pv) d e = guard (ck + n) M
      (if N.odd (ck + n) then (mid pre (ck + n) pv, ROk None)
       else if (length pre =? 12)%nat then (st R5Idle 0 0 pv, ROk (Some (into (rc5_unpack (2 ^ 13 + val_msb (pre ++ [e]))))))
       else (mid (pre ++ [e]) (ck + n) pv, ROk None)).
  Proof.
    intros L Hn. destruct (N.lt_ge_cases (ck + n) M) as [H|H]; [|rewrite guard_out by exact H; apply (over5 _ _ _ _ _ _ n); assumption].
    rewrite guard_in by exact H. destruct (rc5_count_get b m freq Hm Hhi Hu n d Hn) as (Hn3 & Eg). pose proof room8 as U.
    unfold rc5_mid at 1. unfold event_edge. cbn [d_event rc5_dec rv_dec rv_prev]. unfold rc5_event. cbn [r5_spans r5_clock r5_state r5_bitbuf usize_bits overflow_checks debug_build].
    rewrite Eg, uadd_small by lia. cbn [bind]. replace (n - 1 + 1) with n by lia. rewrite uadd_small by exact H. cbn [bind r5_spans r5_clock r5_state r5_bitbuf].
    unfold rc5_transition. rewrite land_even. destruct (N.odd (ck + n)); cbn [negb]; [reflexivity|].
    pose proof (rc5_bit b Hu pre e L) as B.
    destruct (Nat.eqb_spec (length pre) 12) as [L12|L12].
    - rewrite (proj2 (N.eqb_eq _ _)) by lia. rewrite L12 in *. change (12 - N.of_nat 12) with 0 in B. change (N.shiftl 1 0) with 1 in B. change (2 ^ 0) with 1 in B. rewrite N.mul_1_l in B.
      destruct e; cbn [bind rc5_to_state r5_spans r5_state]; rewrite <- B; reflexivity.
    - rewrite (proj2 (N.eqb_neq _ _)) by lia. unfold ushl1, usub. rewrite (proj2 (N.ltb_lt _ _)) by lia. rewrite (proj2 (N.leb_le _ _)) by lia.
      unfold rc5_mid. rewrite app_length. cbn [length].
      replace (13 - N.of_nat (length pre + 1)) with (12 - N.of_nat (length pre)) by lia. rewrite <- B.
      replace (12 - N.of_nat (length pre + 1)) with (12 - N.of_nat (length pre) - 1) by lia.
      destruct e; reflexivity.
  Qed.

  Lemma mid5_run l : forall pre ck pv ns, ck < M -> (length pre <= 12)%nat ->
    lacks (rc5_counts freq) false ck l ns (13 - length pre) ->
    run (mid pre ck pv) l = guard (ck + total ns) M (mid (pre ++ samples false ck l ns) (ck + total ns) pv, repeat (ROk None) (length l)).
  Proof.
    induction l as [|[e d] l IH]; intros pre ck pv ns Hc L (HF & HL).
    - inversion HF; subst. cbn [samples total fold_right length repeat run_edges]. rewrite N.add_0_r, app_nil_r, guard_in by exact Hc. reflexivity.
    - cbn [map snd] in HF. inversion HF as [|n ? ns' ? Hn HF']; subst. cbn [samples] in HL |- *. rewrite app_length in HL.
      pose proof (mid5 pre ck pv d e n L Hn) as E. cbn [total fold_right]. fold (total ns'). replace (ck + (n + total ns')) with (ck + n + total ns') by lia.
      destruct (N.odd (ck + n)) eqn:Eo; cbn [Bool.eqb app length] in HL |- *.
      + apply (guard_cons (D := D) into _ _ _ _ _ _ _ _ _ _ _ E); [lia|]. intros H. apply IH; auto. split; [exact HF'|exact HL].
      + rewrite (proj2 (Nat.eqb_neq _ _)) in E by lia.
        apply (guard_cons (D := D) into _ _ _ _ _ _ _ _ _ _ _ E); [lia|]. intros H.
        replace (pre ++ e :: samples false (ck + n) l ns') with ((pre ++ [e]) ++ samples false (ck + n) l ns') by (rewrite <- app_assoc; reflexivity).
        apply IH; auto; [rewrite app_length; cbn [length]; lia|]. split; [exact HF'|rewrite app_length; cbn [length]; lia].
  Qed.

  Lemma mid5_holds l ns bits pv : holds (rc5_counts freq) false 0 l ns bits -> length bits = 13%nat ->
    exists l' e d ns' n, l = l' ++ [(e, d)] /\ lacks (rc5_counts freq) false 0 l' ns' 13 /\ rc5_counts freq n d /\ total ns = total ns' + n /\
    exists os, run (mid [] 0 pv) l = guard (total ns) M (st R5Idle 0 0 pv, os).
  Proof.
    intros (HF & Hs & l' & [e d] & ns' & n & -> & -> & Ll & Lb) L. exists l', e, d, ns', n. split; [reflexivity|].
    rewrite map_app in HF. cbn [map snd] in HF. apply Forall2_app_inv_l in HF. destruct HF as (m1 & m2 & F1 & F2 & Em).
    inversion F2 as [|? ? ? ? Hn F3]; subst. inversion F3; subst.
    apply app_inj_tail in Em. destruct Em as (<- & <-).
    rewrite samples_snoc in * by exact Ll. rewrite N.add_0_l in *.
    assert (Hl : lacks (rc5_counts freq) false 0 l' ns' 13) by (split; [exact F1|lia]).
    split; [exact Hl|]. split; [exact Hn|]. rewrite total_app. cbn [total fold_right]. fold (total ns'). rewrite N.add_0_r. split; [reflexivity|].
    destruct (N.odd (total ns' + n)) eqn:Eo; cbn [Bool.eqb] in *; [rewrite app_nil_r in Lb; lia|].
    pose proof room8 as U. pose proof (mid5_run l' [] 0 pv ns' ltac:(lia) ltac:(cbn; lia) Hl) as E. rewrite N.add_0_l in E. cbn [app] in E.
    pose proof (mid5 (samples false 0 l' ns') (total ns') pv d e n ltac:(lia) Hn) as E2. rewrite Eo in E2.
    rewrite (proj2 (Nat.eqb_eq _ _)) in E2 by lia. eexists.
    eapply (guard_app (D := D) into); [exact E|lia|]. intros H.
    eapply (guard_cons (D := D) into); [exact E2|lia|]. intros H2. rewrite guard_in by exact H2. reflexivity.
  Qed.

  Lemma overflows5_panic ck h : rc5_overflows freq M ck h -> forall pv, run (st R5Idle 0 ck pv) h = Panic.
  Proof.
    pose proof room8 as U.
    assert (Start : forall ck g h pv, run (mid [] 0 pv) h = Panic -> run (st R5Idle 0 ck pv) ((true, g) :: h) = Panic).
    { intros c g h0 pv E. destruct (rc5_dec_counts freq g) as [(n & Hn)|Hd].
      - destruct (N.lt_ge_cases (c + n) M) as [H|H].
        + apply (run_cons_panic (D := D) into _ _ true g _ h0 (idle5 c pv g true n Hn H)). exact E.
        + cbn [run_edges]. rewrite (over5 _ _ _ _ _ _ n Hn H). reflexivity.
      - apply (run_cons_panic (D := D) into _ _ true g _ h0 (idle5_un c pv g true Hd)). exact E. }
    induction 1 as [ck e d n h Hn H|ck d n h Hn _ IH|ck d h Hd _ IH|ck g l ns e d n h Hl Hn H|ck g l ns bits h Hh Lb _ IH|ck g l ns e d h Hl Hd _ IH]; intros pv.
    - cbn [run_edges]. rewrite (over5 _ _ _ _ _ _ n Hn H). reflexivity.
    - destruct (N.lt_ge_cases (ck + n) M) as [H|H].
      + apply (run_cons_panic (D := D) into _ _ false d _ h (idle5 ck pv d false n Hn H)). apply IH.
      + cbn [run_edges]. rewrite (over5 _ _ _ _ _ _ n Hn H). reflexivity.
    - apply (run_cons_panic (D := D) into _ _ false d _ h (idle5_un ck pv d false Hd)). apply IH.
    - apply Start. pose proof (mid5_run l [] 0 pv ns ltac:(lia) ltac:(cbn; lia) Hl) as E. rewrite N.add_0_l in E. cbn [app] in E.
      destruct (N.lt_ge_cases (total ns) M) as [Ht|Ht].
      + rewrite guard_in in E by exact Ht. apply (run_val_panic (D := D) into _ _ _ _ _ E). cbn [run_edges].
        unfold rc5_mid. rewrite (over5 _ _ _ _ _ _ n Hn H). reflexivity.
      + rewrite guard_out in E by exact Ht. apply run_panic_app, E.
    - apply Start. destruct (mid5_holds l ns bits pv Hh Lb) as (_ & _ & _ & _ & _ & _ & _ & _ & _ & os & E).
      destruct (N.lt_ge_cases (total ns) M) as [Ht|Ht].
      + rewrite guard_in in E by exact Ht. apply (run_val_panic (D := D) into _ _ _ _ _ E). apply IH.
      + rewrite guard_out in E by exact Ht. apply run_panic_app, E.
    - apply Start. pose proof (mid5_run l [] 0 pv ns ltac:(lia) ltac:(cbn; lia) Hl) as E. rewrite N.add_0_l in E. cbn [app] in E.
      destruct (N.lt_ge_cases (total ns) M) as [Ht|Ht].
      + rewrite guard_in in E by exact Ht. apply (run_val_panic (D := D) into _ _ _ _ _ E). rewrite <- (IH pv). cbn [run_edges].
        unfold rc5_mid. rewrite (rc5_anew b m freq Hm Hhi into _ _ _ pv d e Hd). reflexivity.
      + rewrite guard_out in E by exact Ht. apply run_panic_app, E.
  Qed.

  Lemma panic_overflows5 h : forall ck pv, run (st R5Idle 0 ck pv) h = Panic -> rc5_overflows freq M ck h.
  Proof.
    pose proof room8 as U.
    remember (length h) as k eqn:Ek. assert (Lk : (length h <= k)%nat) by lia. clear Ek. revert h Lk.
    induction k as [|k IH]; intros h Lk ck pv E; (destruct h as [|[e d] h]; [discriminate E|]); cbn [length] in Lk; [lia|].
    assert (K : (exists n, rc5_counts freq n d /\ M <= ck + n) \/
      (exists r o, ev (st R5Idle 0 ck pv) d e = Val (r, o) /\
        (e = true /\ r = mid [] 0 pv \/ e = false /\ exists c, r = st R5Idle 0 c pv /\ ((exists n, rc5_counts freq n d /\ c = ck + n) \/ rc5_uncounted freq d /\ c = 0)))).
    { destruct (rc5_dec_counts freq d) as [(n & Hn)|Hd].
      - destruct (N.lt_ge_cases (ck + n) M) as [H|H]; [right|left; eauto]. do 2 eexists. split; [exact (idle5 ck pv d e n Hn H)|].
        destruct e; [left; auto|right]. split; [reflexivity|]. eexists. split; [reflexivity|]. left. eauto.
      - right. do 2 eexists. split; [exact (idle5_un ck pv d e Hd)|]. destruct e; [left; auto|right]. split; [reflexivity|]. eexists. split; [reflexivity|]. right. auto. }
    destruct K as [(n & Hn & H)|(r & o & Ev & K)]; [exact (Over5Now _ _ _ _ _ n _ Hn H)|].
    apply (run_cons_panic (D := D) into _ _ e d _ h Ev) in E.
    destruct K as [(-> & ->)|(-> & c & -> & K)].
    2: { pose proof (IH h ltac:(lia) c pv E) as R. destruct K as [(n & Hn & ->)|(Hd & ->)]; [eapply Over5Fall; eauto|apply Over5Anew; auto]. }
    destruct (cut (rc5_counts freq) (rc5_uncounted freq) (rc5_dec_counts freq) false h 0 13%nat) as
      [(ns & H)|[(l1 & l2 & ns & bits & -> & H & HL)|(l1 & e & x & l2 & ns & -> & H & Hd)]]; [lia| | |].
    - pose proof (mid5_run h [] 0 pv ns ltac:(lia) ltac:(cbn; lia) H) as E2. rewrite N.add_0_l in E2.
      destruct (N.lt_ge_cases (total ns) M) as [Ht|Ht]; [rewrite guard_in in E2 by exact Ht; congruence|].
      destruct (lacks_snoc _ _ _ _ _ _ M H Ht ltac:(lia)) as (l' & e & x & ns' & n & -> & H' & Hn & Et).
      apply (Over5Inside freq M ck d l' ns' e x n [] H' Hn). lia.
    - destruct (mid5_holds l1 ns bits pv H HL) as (l' & e & x & ns' & n & El & H' & Hn & Et & os & E2).
      destruct (N.lt_ge_cases (total ns) M) as [Ht|Ht].
      + rewrite guard_in in E2 by exact Ht. apply (run_val_panic_inv (D := D) into _ _ _ _ _ E2) in E.
        rewrite app_length in Lk. apply (Over5Frame freq M ck d l1 ns bits l2 H HL). apply (IH l2 ltac:(unfold edge in *; lia) 0 pv E).
      + rewrite El, <- app_assoc. apply (Over5Inside freq M ck d l' ns' e x n l2 H' Hn). lia.
    - pose proof (mid5_run l1 [] 0 pv ns ltac:(lia) ltac:(cbn; lia) H) as E2. rewrite N.add_0_l in E2.
      destruct (N.lt_ge_cases (total ns) M) as [Ht|Ht].
      + rewrite guard_in in E2 by exact Ht. apply (run_val_panic_inv (D := D) into _ _ _ _ _ E2) in E.
        rewrite app_length in Lk. cbn [length] in Lk. apply (Over5Lost freq M ck d l1 ns e x l2 H Hd).
        apply (IH ((e, x) :: l2) ltac:(cbn [length]; unfold edge in *; lia) 0 pv). refine (eq_trans _ E). symmetry. cbn [run_edges].
        unfold rc5_mid. rewrite (rc5_anew b m freq Hm Hhi into _ _ _ pv x e Hd). reflexivity.
      + destruct (lacks_snoc _ _ _ _ _ _ M H Ht ltac:(lia)) as (l' & e' & x' & ns' & n & -> & H' & Hn & Et).
        rewrite <- app_assoc. apply (Over5Inside freq M ck d l' ns' e' x' n _ H' Hn). lia.
  Qed.
End Rc5.

(** ** RC6: which units have been counted *)
Lemma counted_unique (counts : N -> N -> Prop) : (forall n n' d, counts n d -> counts n' d -> n = n') ->
  forall (l : list N) (ns ns' : list N), Forall2 counts ns l -> Forall2 counts ns' l -> ns = ns'.
Proof.
  intros One l. induction l as [|d l IH]; intros ns ns' H H'; inversion H; inversion H'; subst; [reflexivity|].
  f_equal; [eapply One; eauto|apply IH; auto].
Qed.

Lemma counted_snoc (counts : N -> N -> Prop) ns (l : list edge) e d : Forall2 counts ns (map snd (l ++ [(e, d)])) ->
  exists ns' n, ns = ns' ++ [n] /\ Forall2 counts ns' (map snd l) /\ counts n d /\ total ns = total ns' + n.
Proof.
  intros F. rewrite map_app in F. cbn [map snd] in F. apply Forall2_app_inv_r in F. destruct F as (ns' & m2 & F1 & F2 & ->).
  inversion F2 as [|n ? ? ? Hn F3]; subst. inversion F3; subst. exists ns', n. repeat split; auto.
  rewrite total_app. cbn [total fold_right]. unfold total. lia.
Qed.
Lemma lacks_less counts par ck l e d ns k : lacks counts par ck (l ++ [(e, d)]) ns k -> exists ns', lacks counts par ck l ns' k.
Proof.
  intros (F & L). apply counted_snoc in F. destruct F as (ns' & n & -> & F & _ & _). exists ns'. split; [exact F|].
  assert (Ll : length l = length ns') by (apply forall2_length in F; rewrite map_length in F; auto).
  rewrite samples_snoc in L by exact Ll. rewrite app_length in L. lia.
Qed.

Section Units.
  Variable freq : N.
  Notation counted l c := (exists ns, Forall2 (rc6_counts freq) ns (map snd l) /\ total ns = c).

  Lemma counted_app (l1 l2 : list edge) c1 c2 : counted l1 c1 -> counted l2 c2 -> counted (l1 ++ l2) (c1 + c2).
  Proof.
    intros (n1 & F1 & <-) (n2 & F2 & <-). exists (n1 ++ n2). rewrite map_app. split; [apply Forall2_app; auto|apply total_app].
  Qed.
  Lemma head_units l hc : rc6_head freq l hc -> counted l hc.
  Proof.
    intros (lead & space & hs & ns & bits & -> & H6 & H2 & (F & _) & _ & ->). exists (6 :: 2 :: ns).
    split; [cbn [map snd]; auto|]. cbn [total fold_right]. fold (total ns). lia.
  Qed.
  Lemma waits_units ws : rc6_waits freq ws -> counted ws (N.of_nat (length ws)).
  Proof.
    induction 1 as [|[e d] ws (_ & Hd) _ (ns & F & E)]; [exists []; split; [constructor|reflexivity]|].
    exists (1 :: ns). split; [cbn [map snd]; auto|]. cbn [total fold_right length]. fold (total ns). lia.
  Qed.
  Lemma data_units l toggle ck : rc6_to_data freq l toggle ck -> counted l ck.
  Proof.
    intros (l1 & hc & ws & [e d] & -> & Hh & Hw & Ht & ->). rewrite <- N.add_assoc.
    apply counted_app; [apply head_units, Hh|]. apply counted_app; [apply waits_units, Hw|].
    destruct toggle; destruct Ht as (_ & Hd); [exists [3]|exists [2]]; (split; [cbn [map snd]; auto|reflexivity]).
  Qed.

  (** A stretch of a frame without its last edge. *)
  Lemma part_less l e d p : rc6_part freq (l ++ [(e, d)]) p -> exists p', rc6_part freq l p'.
  Proof.
    destruct p; cbn [rc6_part].
    - intros H. destruct l; discriminate H.
    - intros (lead & H & _). exists AtLeader. destruct l as [|x l]; [reflexivity|]. destruct l; discriminate H.
    - intros (lead & space & hs & ns & H & H6 & H2 & Hl). destruct hs as [|[e' d'] hs' _] using rev_ind.
      + exists AtSpace, lead. split; [|exact H6]. change [(false, lead); (true, space)] with ([(false, lead)] ++ [(true, space)]) in H.
        apply app_inj_tail in H. tauto.
      + destruct (lacks_less _ _ _ _ _ _ _ _ Hl) as (ns' & Hl'). exists AtHeader, lead, space, hs', ns'. split; [|auto].
        change (l ++ [(e, d)] = ((false, lead) :: (true, space) :: hs') ++ [(e', d')]) in H. apply app_inj_tail in H. tauto.
    - intros (l1 & hc & ws & H & Hh & Hw). destruct ws as [|[e' d'] ws' _] using rev_ind.
      + rewrite app_nil_r in H. destruct Hh as (lead & space & hs & ns & bits & -> & H6 & H2 & Hh & Lb & ->).
        destruct (holds_last (debug_build 8) freq ltac:(cbn; lia) 8 hs ns bits 3 Hh Lb) as (l' & e' & d' & ns' & n & -> & Hl & _).
        exists AtHeader, lead, space, l', ns'. split; [|auto].
        change (l ++ [(e, d)] = ((false, lead) :: (true, space) :: l') ++ [(e', d')]) in H. apply app_inj_tail in H. tauto.
      + exists AtTrailer, l1, hc, ws'. apply Forall_app in Hw. split; [|tauto]. rewrite app_assoc in H. apply app_inj_tail in H. tauto.
    - intros (l1 & toggle & ck & l2 & ns & H & Hd & Hl). destruct l2 as [|[e' d'] l2' _] using rev_ind.
      + rewrite app_nil_r in H. destruct Hd as (l1' & hc & ws & x & -> & Hh & Hw & _). exists AtTrailer, l1', hc, ws. split; [|auto].
        rewrite app_assoc in H. apply app_inj_tail in H. tauto.
      + destruct (lacks_less _ _ _ _ _ _ _ _ Hl) as (ns' & Hl'). exists AtData, l1, toggle, ck, l2', ns'. split; [|auto].
        rewrite app_assoc in H. apply app_inj_tail in H. tauto.
  Qed.
End Units.

Section Rc6.
  Variables (w : N) (m : mono) (freq : N).
  Notation b := (debug_build w).
  Notation M := (2 ^ w).
  Hypothesis (Hm : timebase m freq) (Hhi : exact_rate m freq) (Hu : 8 <= w).
  Notation ss := (spans_of m freq rc6_pulses).
  Notation D := (rc6_dec b).
  Context {C : Type} (into : rc6_command -> C).
  Notation run := (@run_edges D C into).
  Notation ev := (@event_edge D C into).
  Notation st s data hd tg ck pv := (@mkRecv D (mkRc6Dec s data hd tg ck ss) pv).
  Notation hmid := (rc6_hmid b m freq).
  Notation dmid := (rc6_dmid b m freq).
  Notation leading hd tg pv := (st R6Leading 0 hd tg 0 pv).
  Notation counted l c := (exists ns, Forall2 (rc6_counts freq) ns (map snd l) /\ total ns = c).

  Lemma roomy8 : 256 <= M.
  Proof. exact (usize8 b Hu). Qed.

  Lemma count6 s data hd tg ck pv d (e : bool) n : rc6_counts freq n d ->
    ev (st s data hd tg ck pv) d e = if ck + n <? M then
      let* d2 := rc6_transition b (mkRc6Dec s data hd tg (ck + n) ss) e (Some n) (N.odd (ck + n)) in
      match rc6_to_state (r6_state d2) with
      | Done => Val (@mkRecv D (rc6_reset d2) pv, ROk (Some (into (rc6_from_bits (r6_data d2) (r6_toggle d2)))))
      | Error x => Val (@mkRecv D (rc6_reset d2) pv, RErr x)
      | _ => Val (@mkRecv D d2 pv, ROk None)
      end else Panic.
  Proof.
    intros Hn. destruct (rc6_count_get b m freq Hm Hhi Hu n d Hn) as (Hn7 & Eg). pose proof roomy8 as U.
    unfold event_edge. cbn [d_event rc6_dec rv_dec rv_prev]. unfold rc6_event. cbn [r6_spans r6_clock r6_state r6_data r6_headerdata r6_toggle usize_bits overflow_checks debug_build].
    rewrite Eg, uadd_small by lia. cbn [bind]. replace (n - 1 + 1) with n by lia. unfold uadd at 1. destruct (ck + n <? M); [|reflexivity].
    cbn [bind r6_spans r6_clock r6_state r6_data r6_headerdata r6_toggle].
    rewrite odd_land. destruct (rc6_transition _ _ _ _ _) as [d2| |]; cbn [bind]; [|reflexivity|reflexivity].
    destruct (rc6_to_state (r6_state d2)); reflexivity.
  Qed.
  Lemma over6 s data hd tg ck pv d (e : bool) n : rc6_counts freq n d -> M <= ck + n -> ev (st s data hd tg ck pv) d e = Panic.
  Proof. intros Hn H. rewrite (count6 _ _ _ _ _ _ _ _ n Hn), (proj2 (N.ltb_ge _ _)) by exact H. reflexivity. Qed.

  Lemma idle6 hd tg ck pv d (e : bool) n : rc6_counts freq n d ->
    ev (st R6Idle 0 hd tg ck pv) d e = guard (ck + n) M (if e then leading hd tg pv else st R6Idle 0 hd tg (ck + n) pv, ROk None).
  Proof.
    intros Hn. rewrite (count6 _ _ _ _ _ _ _ _ n Hn). unfold guard. destruct (ck + n <? M); [|reflexivity]. destruct e; reflexivity.
  Qed.
  Lemma idle6_un hd tg ck pv d (e : bool) : rc6_uncounted freq d ->
    ev (st R6Idle 0 hd tg ck pv) d e = Val (if e then leading 0 tg pv else st R6Idle 0 0 tg 0 pv, ROk None).
  Proof.
    intros Hd. unfold event_edge. cbn [d_event rc6_dec rv_dec rv_prev]. unfold rc6_event. cbn [r6_spans r6_clock r6_state r6_data r6_headerdata r6_toggle].
    rewrite (rc6_uncounted_get m freq Hm Hhi d Hd). destruct e; reflexivity.
  Qed.

  Lemma units7 n d : rc6_counts freq n d -> n = 1 \/ n = 2 \/ n = 3 \/ n = 4 \/ n = 5 \/ n = 6 \/ n = 7.
  Proof. intros H. pose proof (proj1 (rc6_count_get b m freq Hm Hhi Hu n d H)). lia. Qed.
  Lemma leader6 hd tg ck pv d (e : bool) n : rc6_counts freq n d ->
    ev (st R6Leading 0 hd tg ck pv) d e = guard (ck + n) M (st (if negb e && (n =? 6) then R6LeadingPaus else R6Idle) 0 hd tg (ck + n) pv, ROk None).
  Proof.
    intros Hn. rewrite (count6 _ _ _ _ _ _ _ _ n Hn). unfold guard. destruct (ck + n <? M); [|reflexivity].
    destruct (units7 n d Hn) as [->|[->|[->|[->|[->|[->| ->]]]]]]; destruct e; reflexivity.
  Qed.
  Lemma space6 hd tg ck pv d (e : bool) n : rc6_counts freq n d ->
    ev (st R6LeadingPaus 0 hd tg ck pv) d e = guard (ck + n) M (st (if e && (n =? 2) then R6HeaderData 3 else R6Idle) 0 hd tg (ck + n) pv, ROk None).
  Proof.
    intros Hn. rewrite (count6 _ _ _ _ _ _ _ _ n Hn). unfold guard. destruct (ck + n <? M); [|reflexivity].
    destruct (units7 n d Hn) as [->|[->|[->|[->|[->|[->| ->]]]]]]; destruct e; reflexivity.
  Qed.
  Lemma trailer6 hd tg ck pv d (e : bool) n : rc6_counts freq n d ->
    ev (st R6Trailing 0 hd tg ck pv) d e =
      guard (ck + n) M (if negb e && (n =? 1) then st R6Trailing 0 hd tg (ck + n) pv else if negb e && (n =? 3) then st (R6Data 15) 0 hd true (ck + n) pv
           else if e && (n =? 2) then st (R6Data 15) 0 hd false (ck + n) pv else st R6Idle 0 hd tg (ck + n) pv, ROk None).
  Proof.
    intros Hn. rewrite (count6 _ _ _ _ _ _ _ _ n Hn). unfold guard. destruct (ck + n <? M); [|reflexivity].
    destruct (units7 n d Hn) as [->|[->|[->|[->|[->|[->| ->]]]]]]; destruct e; reflexivity.
  Qed.

  Lemma hmid6 pre hd tg ck pv d (e : bool) n : (length pre <= 3)%nat -> rc6_counts freq n d ->
    exists hd', ev (hmid pre hd tg ck pv) d e =
      guard (ck + n) M (if N.odd (ck + n) then (if (length pre =? 3)%nat then st R6Trailing 0 hd' tg (ck + n) pv else hmid (pre ++ [e]) hd' tg (ck + n) pv)
           else hmid pre hd' tg (ck + n) pv, ROk None).
  Proof.
    intros L Hn. pose proof (count6 (R6HeaderData (3 - N.of_nat (length pre))) 0 hd tg ck pv d e n Hn) as E.
    unfold rc6_transition in E. cbn [r6_spans r6_clock r6_state r6_data r6_headerdata r6_toggle] in E.
    unfold rc6_hmid at 1. unfold guard. destruct (ck + n <? M); [|exists 0; rewrite E; reflexivity]. destruct (N.odd (ck + n)); cycle 1.
    { exists hd. rewrite E. reflexivity. }
    unfold ushl1, usub in E. rewrite (proj2 (N.ltb_lt _ _)) in E by lia.
    destruct (Nat.eqb_spec (length pre) 3) as [L3|L3].
    - rewrite (proj2 (N.eqb_eq _ _)) in E by lia.
      destruct e; eexists; rewrite E; cbn [bind rc6_to_state r6_state]; reflexivity.
    - rewrite (proj2 (N.eqb_neq _ _)) in E by lia. rewrite (proj2 (N.leb_le _ _)) in E by lia. unfold rc6_hmid. rewrite app_length. cbn [length].
      replace (3 - N.of_nat (length pre + 1)) with (3 - N.of_nat (length pre) - 1) by lia.
      destruct e; eexists; rewrite E; reflexivity.
  Qed.

  Lemma dmid6 pre hd tg ck pv d (e : bool) n : (length pre <= 15)%nat -> rc6_counts freq n d ->
    ev (dmid pre hd tg ck pv) d e = guard (ck + n) M
      (if N.odd (ck + n) then
        if (length pre =? 15)%nat then (st R6Idle 0 0 tg 0 pv, ROk (Some (into (rc6_from_bits (val_msb (map negb (pre ++ [e]))) tg))))
        else (dmid (pre ++ [e]) hd tg (ck + n) pv, ROk None)
      else (dmid pre hd tg (ck + n) pv, ROk None)).
  Proof.
    intros L Hn. unfold rc6_dmid at 1. rewrite (count6 _ _ _ _ _ _ _ _ n Hn). unfold guard. destruct (ck + n <? M); [|reflexivity].
    unfold rc6_transition. cbn [r6_spans r6_clock r6_state r6_data r6_headerdata r6_toggle].
    destruct (N.odd (ck + n)); [|reflexivity]. pose proof (rc6_bit b Hu pre e L) as B.
    destruct (Nat.eqb_spec (length pre) 15) as [L15|L15].
    - rewrite (proj2 (N.eqb_eq _ _)) by lia. rewrite L15 in *. change (15 - N.of_nat 15) with 0 in B. change (N.shiftl 1 0) with 1 in B. change (2 ^ 0) with 1 in B. rewrite N.mul_1_l in B.
      rewrite <- B. destruct e; cbn [bind rc6_to_state r6_state r6_data r6_toggle]; reflexivity.
    - rewrite (proj2 (N.eqb_neq _ _)) by lia. unfold ushl1, usub. rewrite (proj2 (N.ltb_lt _ _)) by lia. rewrite (proj2 (N.leb_le _ _)) by lia.
      unfold rc6_dmid. rewrite app_length. cbn [length].
      replace (16 - N.of_nat (length pre + 1)) with (15 - N.of_nat (length pre)) by lia. rewrite <- B.
      replace (15 - N.of_nat (length pre + 1)) with (15 - N.of_nat (length pre) - 1) by lia.
      destruct e; reflexivity.
  Qed.

  Lemma hmid6_run tg pv l : forall pre hd ck ns, ck < M -> (length pre <= 3)%nat ->
    lacks (rc6_counts freq) true ck l ns (4 - length pre) ->
    exists hd' os, run (hmid pre hd tg ck pv) l = guard (ck + total ns) M (hmid (pre ++ samples true ck l ns) hd' tg (ck + total ns) pv, os).
  Proof.
    induction l as [|[e d] l IH]; intros pre hd ck ns Hc L (HF & HL).
    - inversion HF; subst. exists hd, []. cbn [samples total fold_right run_edges]. rewrite N.add_0_r, app_nil_r, guard_in by exact Hc. reflexivity.
    - cbn [map snd] in HF. inversion HF as [|n ? ns' ? Hn HF']; subst. cbn [samples] in HL |- *. rewrite app_length in HL.
      destruct (hmid6 pre hd tg ck pv d e n L Hn) as (hd1 & E). cbn [total fold_right]. fold (total ns').
      replace (ck + (n + total ns')) with (ck + n + total ns') by lia.
      destruct (N.lt_ge_cases (ck + n) M) as [Hc2|Hc2].
      2: { exists 0, []. rewrite guard_out in E by lia. rewrite guard_out by lia. cbn [run_edges]. rewrite E. reflexivity. }
      destruct (N.odd (ck + n)) eqn:Eo; cbn [Bool.eqb app length] in HL |- *.
      + rewrite (proj2 (Nat.eqb_neq _ _)) in E by lia.
        destruct (IH (pre ++ [e]) hd1 (ck + n) ns') as (hd' & os & E2); auto; [rewrite app_length; cbn [length]; lia|split; [exact HF'|rewrite app_length; cbn [length]; lia]|].
        exists hd', (ROk None :: os). rewrite <- app_assoc in E2. eapply (guard_cons (D := D) into); [exact E|lia|]. intros _. exact E2.
      + destruct (IH pre hd1 (ck + n) ns') as (hd' & os & E2); auto; [split; [exact HF'|exact HL]|].
        exists hd', (ROk None :: os). eapply (guard_cons (D := D) into); [exact E|lia|]. intros _. exact E2.
  Qed.
  Lemma dmid6_run hd tg pv l : forall pre ck ns, ck < M -> (length pre <= 15)%nat ->
    lacks (rc6_counts freq) true ck l ns (16 - length pre) ->
    exists os, run (dmid pre hd tg ck pv) l = guard (ck + total ns) M (dmid (pre ++ samples true ck l ns) hd tg (ck + total ns) pv, os).
  Proof.
    induction l as [|[e d] l IH]; intros pre ck ns Hc L (HF & HL).
    - inversion HF; subst. exists []. cbn [samples total fold_right run_edges]. rewrite N.add_0_r, app_nil_r, guard_in by exact Hc. reflexivity.
    - cbn [map snd] in HF. inversion HF as [|n ? ns' ? Hn HF']; subst. cbn [samples] in HL |- *. rewrite app_length in HL.
      pose proof (dmid6 pre hd tg ck pv d e n L Hn) as E. cbn [total fold_right]. fold (total ns').
      replace (ck + (n + total ns')) with (ck + n + total ns') by lia.
      destruct (N.lt_ge_cases (ck + n) M) as [Hc2|Hc2].
      2: { exists []. rewrite guard_out in E by lia. rewrite guard_out by lia. cbn [run_edges]. rewrite E. reflexivity. }
      destruct (N.odd (ck + n)) eqn:Eo; cbn [Bool.eqb app length] in HL |- *.
      + rewrite (proj2 (Nat.eqb_neq _ _)) in E by lia.
        destruct (IH (pre ++ [e]) (ck + n) ns') as (os & E2); auto; [rewrite app_length; cbn [length]; lia|split; [exact HF'|rewrite app_length; cbn [length]; lia]|].
        exists (ROk None :: os). rewrite <- app_assoc in E2. eapply (guard_cons (D := D) into); [exact E|lia|]. intros _. exact E2.
      + destruct (IH pre (ck + n) ns') as (os & E2); auto; [split; [exact HF'|exact HL]|].
        exists (ROk None :: os). eapply (guard_cons (D := D) into); [exact E|lia|]. intros _. exact E2.
  Qed.

  (** The leader and the space cannot reach the bound. *)
  Lemma opening6 lead space hd tg pv hs : rc6_counts freq 6 lead -> rc6_counts freq 2 space ->
    forall r os c, run (hmid [] hd tg 8 pv) hs = guard c M (r, os) -> 8 <= c -> exists os', run (leading hd tg pv) ((false, lead) :: (true, space) :: hs) = guard c M (r, os').
  Proof.
    intros H6 H2 r os c E L. eexists.
    eapply (guard_cons (D := D) into); [exact (leader6 hd tg 0 pv lead false 6 H6)|lia|]. intros _.
    eapply (guard_cons (D := D) into); [exact (space6 hd tg 6 pv space true 2 H2)|lia|]. intros _. exact E.
  Qed.

  Lemma head6 l hc hd tg pv : rc6_head freq l hc ->
    exists hd' os, run (leading hd tg pv) l = guard hc M (st R6Trailing 0 hd' tg hc pv, os).
  Proof.
    intros (lead & space & hs & ns & bits & -> & H6 & H2 & Hh & Lb & ->). pose proof roomy8 as U.
    destruct (holds_last b freq Hu 8 hs ns bits 3 Hh Lb) as (l' & e & d & ns' & n & -> & Hl & Hn & Et & Ls & Oe & _).
    destruct (hmid6_run tg pv l' [] hd 8 ns' ltac:(lia) ltac:(cbn; lia) Hl) as (hd3 & os & E3). cbn [app] in E3.
    destruct (hmid6 (samples true 8 l' ns') hd3 tg (8 + total ns') pv d e n ltac:(lia) Hn) as (hd4 & E4).
    rewrite Oe, (proj2 (Nat.eqb_eq _ _)) in E4 by exact Ls. rewrite <- N.add_assoc, <- Et in E4. exists hd4.
    eapply (opening6 _ _ _ _ _ _ H6 H2); [|lia].
    eapply (guard_app (D := D) into); [exact E3|lia|]. intros _.
    eapply (guard_cons (D := D) into); [exact E4|lia|]. intros H. rewrite guard_in by exact H. reflexivity.
  Qed.

  Lemma waits6 ws tg hd pv : forall ck, rc6_waits freq ws -> ck < M ->
    exists os, run (st R6Trailing 0 hd tg ck pv) ws = guard (ck + N.of_nat (length ws)) M (st R6Trailing 0 hd tg (ck + N.of_nat (length ws)) pv, os).
  Proof.
    induction ws as [|[e d] ws IH]; intros ck Hw Hc.
    - exists []. cbn [length]. rewrite N.add_0_r, guard_in by exact Hc. reflexivity.
    - apply Forall_cons_iff in Hw. destruct Hw as ((He & Hd) & Hw). cbn [fst snd] in He, Hd. subst e.
      pose proof (trailer6 hd tg ck pv d false 1 Hd) as E.
      change (length ((false, d) :: ws)) with (S (length ws)). replace (ck + N.of_nat (S (length ws))) with (ck + 1 + N.of_nat (length ws)) by lia.
      destruct (N.lt_ge_cases (ck + 1) M) as [H|H].
      + destruct (IH (ck + 1) Hw H) as (os & E2). eexists. eapply (guard_cons (D := D) into); [exact E|lia|]. intros _. exact E2.
      + exists []. rewrite guard_out in E by lia. rewrite guard_out by lia. cbn [run_edges]. rewrite E. reflexivity.
  Qed.

  Lemma data6 l toggle ck hd tg pv : rc6_to_data freq l toggle ck ->
    exists hd' os, run (leading hd tg pv) l = guard ck M (dmid [] hd' toggle ck pv, os).
  Proof.
    intros (l1 & hc & ws & [e d] & -> & Hh & Hw & Ht & ->).
    destruct (head6 l1 hc hd tg pv Hh) as (hd1 & os1 & E1).
    destruct (N.lt_ge_cases hc M) as [H|H].
    2: { exists 0, []. rewrite guard_out in E1 by lia. rewrite guard_out by (destruct toggle; lia). apply run_panic_app, E1. }
    destruct (waits6 ws tg hd1 pv hc Hw H) as (os2 & E2).
    assert (T : ev (st R6Trailing 0 hd1 tg (hc + N.of_nat (length ws)) pv) d e =
      guard (hc + N.of_nat (length ws) + (if toggle then 3 else 2)) M (dmid [] hd1 toggle (hc + N.of_nat (length ws) + (if toggle then 3 else 2)) pv, ROk None)).
    { destruct toggle; destruct Ht as (He & Hd); cbn [fst snd] in He, Hd; subst e.
      - exact (trailer6 hd1 tg _ pv d false 3 Hd).
      - exact (trailer6 hd1 tg _ pv d true 2 Hd). }
    exists hd1. eexists. eapply (guard_app (D := D) into); [exact E1|destruct toggle; lia|]. intros _.
    eapply (guard_app (D := D) into); [exact E2|destruct toggle; lia|]. intros _.
    eapply (guard_cons (D := D) into); [exact T|lia|]. intros H2. rewrite guard_in by exact H2. reflexivity.
  Qed.

  Lemma part6 l p hd tg pv : rc6_part freq l p ->
    exists s data hd' tg' c os, rc6_stage p s data /\ counted l c /\ run (leading hd tg pv) l = guard c M (st s data hd' tg' c pv, os).
  Proof.
    pose proof roomy8 as U. destruct p; cbn [rc6_part rc6_stage]; intros H.
    - subst l. exists R6Leading, 0, hd, tg, 0, []. split; [auto|]. split; [exists []; split; [constructor|reflexivity]|]. rewrite guard_in by lia. reflexivity.
    - destruct H as (lead & -> & H6). exists R6LeadingPaus, 0, hd, tg, 6. eexists. split; [auto|]. split; [exists [6]; split; [cbn; auto|reflexivity]|].
      eapply (guard_cons (D := D) into); [exact (leader6 hd tg 0 pv lead false 6 H6)|lia|]. intros H. rewrite guard_in by exact H. reflexivity.
    - destruct H as (lead & space & hs & ns & -> & H6 & H2 & Hl).
      destruct (hmid6_run tg pv hs [] hd 8 ns ltac:(lia) ltac:(cbn; lia) Hl) as (hd3 & os & E3).
      destruct (opening6 _ _ _ _ _ _ H6 H2 _ _ _ E3 ltac:(lia)) as (os' & E). do 6 eexists. split; [exact Logic.I|]. split; [|exact E].
      exists (6 :: 2 :: ns). split; [cbn [map snd]; constructor; auto; constructor; auto; apply Hl|]. cbn [total fold_right]. fold (total ns). lia.
    - destruct H as (l1 & hc & ws & -> & Hh & Hw). destruct (head6 l1 hc hd tg pv Hh) as (hd1 & os1 & E1).
      assert (K : exists os2, hc < M -> run (st R6Trailing 0 hd1 tg hc pv) ws = guard (hc + N.of_nat (length ws)) M (st R6Trailing 0 hd1 tg (hc + N.of_nat (length ws)) pv, os2)).
      { destruct (N.lt_ge_cases hc M) as [H|H]; [|exists []; intros; lia]. destruct (waits6 ws tg hd1 pv hc Hw H) as (os2 & E2). exists os2. auto. }
      destruct K as (os2 & E2). do 6 eexists. split; [split; reflexivity|].
      split; [apply counted_app; [apply head_units, Hh|apply waits_units, Hw]|].
      eapply (guard_app (D := D) into); [exact E1|lia|exact E2].
    - destruct H as (l1 & toggle & ck & l2 & ns & -> & Hd & Hl). destruct (data6 l1 toggle ck hd tg pv Hd) as (hd1 & os1 & E1).
      assert (K : exists os2, ck < M -> run (dmid [] hd1 toggle ck pv) l2 = guard (ck + total ns) M (dmid ([] ++ samples true ck l2 ns) hd1 toggle (ck + total ns) pv, os2)).
      { destruct (N.lt_ge_cases ck M) as [H|H]; [|exists []; intros; lia].
        destruct (dmid6_run hd1 toggle pv l2 [] ck ns H ltac:(cbn; lia) Hl) as (os2 & E2). exists os2. auto. }
      destruct K as (os2 & E2). do 6 eexists. split; [exact Logic.I|].
      split; [apply counted_app; [eapply data_units; exact Hd|exists ns; split; [apply Hl|reflexivity]]|].
      eapply (guard_app (D := D) into); [exact E1|lia|exact E2].
  Qed.

  Lemma frame6 l1 toggle ck l2 ns bits hd tg pv : rc6_to_data freq l1 toggle ck -> holds (rc6_counts freq) true ck l2 ns bits ->
    length bits = 16%nat -> exists l' e d c os, l1 ++ l2 = l' ++ [(e, d)] /\ rc6_part freq l' AtData /\ counted (l1 ++ l2) c /\
    run (leading hd tg pv) (l1 ++ l2) = guard c M (st R6Idle 0 0 toggle 0 pv, os).
  Proof.
    intros Hd Hh Lb. assert (HF := proj1 Hh).
    destruct (holds_last b freq Hu ck l2 ns bits 15 Hh Lb) as (l' & e & d & ns' & n & -> & Hl & Hn & Et & Ls & Oe & Eb).
    assert (Hp : rc6_part freq (l1 ++ l') AtData) by (exists l1, toggle, ck, l', ns'; auto).
    destruct (data6 l1 toggle ck hd tg pv Hd) as (hd1 & os1 & E1).
    assert (K : exists os2, ck < M -> run (dmid [] hd1 toggle ck pv) l' = guard (ck + total ns') M (dmid (samples true ck l' ns') hd1 toggle (ck + total ns') pv, os2)).
    { destruct (N.lt_ge_cases ck M) as [H|H]; [|exists []; intros; lia].
      destruct (dmid6_run hd1 toggle pv l' [] ck ns' H ltac:(cbn; lia) Hl) as (os2 & E2). exists os2. auto. }
    destruct K as (os2 & E2).
    pose proof (dmid6 (samples true ck l' ns') hd1 toggle (ck + total ns') pv d e n ltac:(lia) Hn) as E3.
    rewrite Oe, (proj2 (Nat.eqb_eq _ _)) in E3 by exact Ls.
    exists (l1 ++ l'), e, d, (ck + total ns' + n). eexists. split; [apply app_assoc|]. split; [exact Hp|].
    split; [rewrite <- N.add_assoc, <- Et; apply counted_app; [eapply data_units; exact Hd|exists ns; auto]|].
    eapply (guard_app (D := D) into); [exact E1|lia|]. intros H1.
    eapply (guard_app (D := D) into); [exact (E2 H1)|lia|]. intros _.
    eapply (guard_cons (D := D) into); [exact E3|lia|]. intros H. rewrite guard_in by exact H. reflexivity.
  Qed.

  Lemma wrong6 p s data hd tg ck pv d (e : bool) n : rc6_stage p s data -> rc6_wrong p e n -> rc6_counts freq n d ->
    ev (st s data hd tg ck pv) d e = guard (ck + n) M (st R6Idle 0 hd tg (ck + n) pv, ROk None).
  Proof.
    intros Hs Hw Hn. destruct p; cbn [rc6_stage rc6_wrong] in Hs, Hw; try contradiction; destruct Hs as (-> & ->).
    - rewrite (leader6 _ _ _ _ _ _ n Hn). destruct e; cbn [negb andb]; [reflexivity|]. destruct (N.eqb_spec n 6) as [->|]; [destruct Hw; auto|reflexivity].
    - rewrite (space6 _ _ _ _ _ _ n Hn). destruct e; cbn [negb andb]; [|reflexivity]. destruct (N.eqb_spec n 2) as [->|]; [destruct Hw; auto|reflexivity].
    - rewrite (trailer6 _ _ _ _ _ _ n Hn). destruct Hw as (W1 & W3 & W2). destruct e; cbn [negb andb].
      + destruct (N.eqb_spec n 2) as [->|]; [destruct W2; auto|reflexivity].
      + destruct (N.eqb_spec n 1) as [->|]; [destruct W1; auto|]. destruct (N.eqb_spec n 3) as [->|]; [destruct W3; auto|reflexivity].
  Qed.

  Lemma counted_one (l : list edge) c ns : counted l c -> Forall2 (rc6_counts freq) ns (map snd l) -> total ns = c.
  Proof. intros (ns' & F & <-) F'. rewrite (counted_unique _ (rc6_counts_one freq) _ _ _ F F'). reflexivity. Qed.

  Lemma overflows6_panic ck h : rc6_overflows freq M ck h -> forall hd tg pv, run (st R6Idle 0 hd tg ck pv) h = Panic.
  Proof.
    pose proof roomy8 as U.
    assert (Start : forall c g h, (forall hd tg pv, run (leading hd tg pv) h = Panic) -> forall hd tg pv, run (st R6Idle 0 hd tg c pv) ((true, g) :: h) = Panic).
    { intros c g h0 E hd tg pv. destruct (rc6_dec_counts freq g) as [(n & Hn)|Hd].
      - pose proof (idle6 hd tg c pv g true n Hn) as Ei. destruct (N.lt_ge_cases (c + n) M) as [H|H].
        + rewrite guard_in in Ei by exact H. apply (run_cons_panic (D := D) into _ _ true g _ h0 Ei). apply E.
        + cbn [run_edges]. rewrite (over6 _ _ _ _ _ _ _ _ n Hn H). reflexivity.
      - apply (run_cons_panic (D := D) into _ _ true g _ h0 (idle6_un hd tg c pv g true Hd)). apply E. }
    induction 1 as [ck e d n h Hn H|ck d n h Hn _ IH|ck d h Hd _ IH|ck g l p ns e d n h Hp HF Hn H|ck g l1 toggle c l2 ns bits h Hd Hh Lb _ IH
      |ck g l p e d h Hp Hd _ IH|ck g l p ns e d n h Hp HF Hn Hw _ IH]; [intros hd tg pv|intros hd tg pv|intros hd tg pv|apply Start; intros hd tg pv..].
    - cbn [run_edges]. rewrite (over6 _ _ _ _ _ _ _ _ n Hn H). reflexivity.
    - pose proof (idle6 hd tg ck pv d false n Hn) as Ei. destruct (N.lt_ge_cases (ck + n) M) as [H|H].
      + rewrite guard_in in Ei by exact H. apply (run_cons_panic (D := D) into _ _ false d _ h Ei). apply IH.
      + cbn [run_edges]. rewrite (over6 _ _ _ _ _ _ _ _ n Hn H). reflexivity.
    - apply (run_cons_panic (D := D) into _ _ false d _ h (idle6_un hd tg ck pv d false Hd)). apply IH.
    - destruct (part6 l p hd tg pv Hp) as (s & data & hd' & tg' & c & os & _ & Hc & E). rewrite <- (counted_one _ _ _ Hc HF) in E.
      destruct (N.lt_ge_cases (total ns) M) as [Ht|Ht].
      + rewrite guard_in in E by exact Ht. apply (run_val_panic (D := D) into _ _ _ _ _ E). cbn [run_edges].
        rewrite (over6 _ _ _ _ _ _ _ _ n Hn H). reflexivity.
      + rewrite guard_out in E by exact Ht. apply run_panic_app, E.
    - destruct (frame6 l1 toggle c l2 ns bits hd tg pv Hd Hh Lb) as (_ & _ & _ & k & os & _ & _ & _ & E).
      destruct (N.lt_ge_cases k M) as [Ht|Ht].
      + rewrite guard_in in E by exact Ht. apply (run_val_panic (D := D) into _ _ _ _ _ E). apply IH.
      + rewrite guard_out in E by exact Ht. apply run_panic_app, E.
    - destruct (part6 l p hd tg pv Hp) as (s & data & hd' & tg' & c & os & _ & Hc & E).
      destruct (N.lt_ge_cases c M) as [Ht|Ht].
      + rewrite guard_in in E by exact Ht. apply (run_val_panic (D := D) into _ _ _ _ _ E). refine (eq_trans _ (IH 0 tg' pv)). cbn [run_edges].
        rewrite (rc6_anew b m freq Hm Hhi into s data hd' tg' c pv d e Hd). reflexivity.
      + rewrite guard_out in E by exact Ht. apply run_panic_app, E.
    - destruct (part6 l p hd tg pv Hp) as (s & data & hd' & tg' & c & os & Hs & Hc & E). rewrite <- (counted_one _ _ _ Hc HF) in E.
      destruct (N.lt_ge_cases (total ns) M) as [Ht|Ht].
      + rewrite guard_in in E by exact Ht. apply (run_val_panic (D := D) into _ _ _ _ _ E).
        pose proof (wrong6 p s data hd' tg' (total ns) pv d e n Hs Hw Hn) as Ew. destruct (N.lt_ge_cases (total ns + n) M) as [H|H].
        * rewrite guard_in in Ew by exact H. apply (run_cons_panic (D := D) into _ _ e d _ h Ew). apply IH.
        * rewrite guard_out in Ew by exact H. cbn [run_edges]. rewrite Ew. reflexivity.
      + rewrite guard_out in E by exact Ht. apply run_panic_app, E.
  Qed.

  (** The bound is reached within a stretch of a frame. *)
  Lemma inside6 ck g (l : list edge) c h : (exists l' e d p, l = l' ++ [(e, d)] /\ rc6_part freq l' p) -> counted l c -> M <= c -> rc6_overflows freq M ck ((true, g) :: l ++ h).
  Proof.
    intros (l' & e & d & p & -> & Hp) (ns & F & <-) H. destruct (counted_snoc _ _ _ _ _ F) as (ns' & n & -> & F' & Hn & Et).
    rewrite <- app_assoc. apply (Over6Inside freq M ck g l' p ns' e d n h Hp F' Hn). lia.
  Qed.
  Lemma part_last (l : list edge) p c : rc6_part freq l p -> counted l c -> M <= c -> exists l' e d p, l = l' ++ [(e, d)] /\ rc6_part freq l' p.
  Proof.
    intros Hp (ns & F & <-) H. pose proof roomy8 as U. destruct l as [|[e d] l _] using rev_ind; [inversion F; subst; cbn in H; lia|].
    destruct (part_less _ _ _ _ _ Hp) as (p' & Hp'). exists l, e, d, p'. auto.
  Qed.

  Lemma panic_overflows6 h : forall hd tg ck pv, run (st R6Idle 0 hd tg ck pv) h = Panic -> rc6_overflows freq M ck h.
  Proof.
    pose proof roomy8 as U.
    remember (length h) as z eqn:Ek. assert (Lk : (length h <= z)%nat) by lia. clear Ek. revert h Lk.
    induction z as [|z IH]; intros h Lk hd tg ck pv E; (destruct h as [|[e g] h]; [discriminate E|]); cbn [length] in Lk; [lia|].
    assert (K : (exists n, rc6_counts freq n g /\ M <= ck + n) \/
      (exists r o, ev (st R6Idle 0 hd tg ck pv) g e = Val (r, o) /\
        (e = true /\ (exists hd', r = leading hd' tg pv) \/
         e = false /\ exists c hd', r = st R6Idle 0 hd' tg c pv /\ ((exists n, rc6_counts freq n g /\ c = ck + n) \/ rc6_uncounted freq g /\ c = 0)))).
    { destruct (rc6_dec_counts freq g) as [(n & Hn)|Hd].
      - destruct (N.lt_ge_cases (ck + n) M) as [H|H]; [right|left; eauto].
        pose proof (idle6 hd tg ck pv g e n Hn) as Ei. rewrite guard_in in Ei by exact H. do 2 eexists. split; [exact Ei|].
        destruct e; [left; eauto|right]. split; [reflexivity|]. do 2 eexists. split; [reflexivity|]. left. eauto.
      - right. do 2 eexists. split; [exact (idle6_un hd tg ck pv g e Hd)|]. destruct e; [left; eauto|right]. split; [reflexivity|]. do 2 eexists. split; [reflexivity|]. right. auto. }
    destruct K as [(n & Hn & H)|(r & o & Ev & K)]; [exact (Over6Now _ _ _ _ _ n _ Hn H)|].
    apply (run_cons_panic (D := D) into _ _ e g _ h Ev) in E. clear Ev o.
    destruct K as [(-> & hd' & ->)|(-> & c & hd' & -> & K)].
    2: { pose proof (IH h ltac:(lia) hd' tg c pv E) as R. destruct K as [(n & Hn & ->)|(Hd & ->)]; [eapply Over6Fall; eauto|apply Over6Anew; auto]. }
    clear hd. rename hd' into hd.
    (** What follows when a stretch of a frame has been recognised. *)
    assert (Part : forall l p h2, h = l ++ h2 -> rc6_part freq l p ->
      rc6_overflows freq M ck ((true, g) :: h) \/ exists s data hd' tg' c, rc6_stage p s data /\ counted l c /\ c < M /\ run (st s data hd' tg' c pv) h2 = Panic).
    { intros l p h2 -> Hp. destruct (part6 l p hd tg pv Hp) as (s & data & hd' & tg' & c & os & Hs & Hc & E2).
      destruct (N.lt_ge_cases c M) as [H|H].
      - right. rewrite guard_in in E2 by exact H. exists s, data, hd', tg', c. split; [exact Hs|]. split; [exact Hc|]. split; [exact H|]. exact (run_val_panic_inv (D := D) into _ _ _ _ _ E2 E).
      - left. apply (inside6 ck g l c h2); auto. eapply part_last; eauto. }
    assert (Lost : forall l p e d h2, h = l ++ (e, d) :: h2 -> rc6_part freq l p -> rc6_uncounted freq d -> rc6_overflows freq M ck ((true, g) :: h)).
    { intros l p e d h2 Eh Hp Hd. destruct (Part l p _ Eh Hp) as [R|(s & data & hd' & tg' & c & _ & _ & _ & E2)]; [exact R|].
      subst h. rewrite app_length in Lk. cbn [length] in Lk. apply (Over6Lost freq M ck g l p e d h2 Hp Hd).
      apply (IH ((e, d) :: h2) ltac:(unfold edge in *; cbn [length]; lia) 0 tg' 0 pv). refine (eq_trans _ E2). symmetry. cbn [run_edges].
      rewrite (rc6_anew b m freq Hm Hhi into s data hd' tg' c pv d e Hd). reflexivity. }
    assert (Wrong : forall l p e d k h2, h = l ++ (e, d) :: h2 -> rc6_part freq l p -> rc6_counts freq k d -> rc6_wrong p e k -> rc6_overflows freq M ck ((true, g) :: h)).
    { intros l p e d k h2 Eh Hp Hk Hw. destruct (Part l p _ Eh Hp) as [R|(s & data & hd' & tg' & c & Hs & (ns & F & <-) & _ & E2)]; [exact R|].
      subst h. rewrite app_length in Lk. cbn [length] in Lk.
      pose proof (wrong6 p s data hd' tg' (total ns) pv d e k Hs Hw Hk) as Ew. destruct (N.lt_ge_cases (total ns + k) M) as [H|H].
      - rewrite guard_in in Ew by exact H. apply (run_cons_panic (D := D) into _ _ e d _ h2 Ew) in E2.
        apply (Over6Wrong freq M ck g l p ns e d k h2 Hp F Hk Hw). apply (IH h2 ltac:(unfold edge in *; lia) hd' tg' (total ns + k) pv E2).
      - apply (Over6Inside freq M ck g l p ns e d k h2 Hp F Hk H). }
    assert (Open : forall p, rc6_part freq h p -> rc6_overflows freq M ck ((true, g) :: h)).
    { intros p Hp. destruct (Part h p [] (eq_sym (app_nil_r h)) Hp) as [R|(s & data & hd' & tg' & c & _ & _ & _ & E2)]; [exact R|discriminate E2]. }
    assert (Whole : forall l1 toggle c l2 ns bits h2, h = (l1 ++ l2) ++ h2 -> rc6_to_data freq l1 toggle c -> holds (rc6_counts freq) true c l2 ns bits ->
      length bits = 16%nat -> rc6_overflows freq M ck ((true, g) :: h)).
    { intros l1 toggle c l2 ns bits h2 -> Hd Hh Lb. destruct (frame6 l1 toggle c l2 ns bits hd tg pv Hd Hh Lb) as (l' & e & d & k & os & El & Hp & Hc & E2).
      destruct (N.lt_ge_cases k M) as [H|H].
      - rewrite guard_in in E2 by exact H. apply (run_val_panic_inv (D := D) into _ _ _ _ _ E2) in E. rewrite app_length in Lk.
        apply (Over6Frame freq M ck g l1 toggle c l2 ns bits h2 Hd Hh Lb). apply (IH h2 ltac:(unfold edge in *; lia) 0 toggle 0 pv E).
      - apply (inside6 ck g (l1 ++ l2) k h2); auto. exists l', e, d, AtData. auto. }
    clear E Part IH. destruct h as [|[e lead] h]; [apply (Open AtLeader); reflexivity|].
    destruct (rc6_dec_counts freq lead) as [(k & Hk)|Hd]; [|apply (Lost [] AtLeader e lead h); auto; reflexivity].
    destruct (bool_dec e false) as [->|He]; [|apply (Wrong [] AtLeader e lead k h); auto; [reflexivity|intros (Q & _); auto]].
    destruct (N.eq_dec k 6) as [->|Hk6]; [|apply (Wrong [] AtLeader false lead k h); auto; [reflexivity|intros (_ & Q); auto]].
    assert (P2 : rc6_part freq [(false, lead)] AtSpace) by (exists lead; auto).
    destruct h as [|[e space] h]; [apply (Open AtSpace); exact P2|].
    destruct (rc6_dec_counts freq space) as [(k & Hk2)|Hd]; [|apply (Lost [(false, lead)] AtSpace e space h); auto].
    destruct (bool_dec e true) as [->|He]; [|apply (Wrong [(false, lead)] AtSpace e space k h); auto; intros (Q & _); auto].
    destruct (N.eq_dec k 2) as [->|Hk22]; [|apply (Wrong [(false, lead)] AtSpace true space k h); auto; intros (_ & Q); auto].
    destruct (cut (rc6_counts freq) (rc6_uncounted freq) (rc6_dec_counts freq) true h 8 4%nat) as
        [(ns & H)|[(hs & l2 & ns & hbits & E & H & HL)|(l1 & e & d & l2 & ns & E & H & Hd)]]; [lia| | |].
    { apply (Open AtHeader). exists lead, space, h, ns. auto. }
    2: { apply (Lost ((false, lead) :: (true, space) :: l1) AtHeader e d l2); auto; [rewrite E; reflexivity|]. exists lead, space, l1, ns. auto. }
    set (l1 := (false, lead) :: (true, space) :: hs). assert (Hh : rc6_head freq l1 (8 + total ns)) by (exists lead, space, hs, ns, hbits; repeat split; auto; apply H).
    assert (E1 : (false, lead) :: (true, space) :: h = l1 ++ l2) by (rewrite E; reflexivity).
    destruct (rc6_waiting freq l2) as [Hw|(ws & e & d & l3 & E2 & Hw & Hd)].
    { apply (Open AtTrailer). exists l1, (8 + total ns), l2. auto. }
    assert (Pt : rc6_part freq (l1 ++ ws) AtTrailer) by (exists l1, (8 + total ns), ws; auto).
    assert (E3 : (false, lead) :: (true, space) :: h = (l1 ++ ws) ++ (e, d) :: l3) by (rewrite E1, E2, app_assoc; reflexivity).
    destruct Hd as [Hd|(k & Hk3 & Hne)]; [apply (Lost (l1 ++ ws) AtTrailer e d l3); auto|].
    assert (T : (exists toggle, rc6_turn freq toggle (e, d)) \/ rc6_wrong AtTrailer e k).
    { unfold rc6_turn, rc6_wrong. destruct e.
      - destruct (N.eq_dec k 2) as [->|Q]; [left; exists false; auto|]. right. repeat split; intros (Q1 & Q2); auto; discriminate.
      - destruct (N.eq_dec k 3) as [->|Q]; [left; exists true; auto|]. right. repeat split; intros (Q1 & Q2); auto; discriminate. }
    destruct T as [(toggle & Ht)|Hw']; [|apply (Wrong (l1 ++ ws) AtTrailer e d k l3); auto].
    set (l4 := l1 ++ ws ++ [(e, d)]). set (c4 := 8 + total ns + N.of_nat (length ws) + (if toggle then 3 else 2)).
    assert (Hd4 : rc6_to_data freq l4 toggle c4) by (exists l1, (8 + total ns), ws, (e, d); auto).
    assert (E4 : (false, lead) :: (true, space) :: h = l4 ++ l3) by (rewrite E3; unfold l4; rewrite <- !app_assoc; reflexivity).
    destruct (cut (rc6_counts freq) (rc6_uncounted freq) (rc6_dec_counts freq) true l3 c4 16%nat) as
        [(ns2 & H2)|[(l5 & l6 & ns2 & bits & E5 & H2 & HL2)|(l5 & e5 & d5 & l6 & ns2 & E5 & H2 & Hd5)]]; [lia| | |].
    - apply (Open AtData). exists l4, toggle, c4, l3, ns2. auto.
    - apply (Whole l4 toggle c4 l5 ns2 bits l6); auto. rewrite E4, E5, app_assoc. reflexivity.
    - apply (Lost (l4 ++ l5) AtData e5 d5 l6); auto; [etransitivity; [exact E4|]; rewrite E5, app_assoc; reflexivity|]. exists l4, toggle, c4, l5, ns2. auto.
  Qed.
End Rc6.
