(** * Lemmas: reading any signal with a biphase receiver *)
From Coq Require Import NArith ZArith List Bool Lia ZifyBool ZifyNat ZifyN.
From Verif Require Import Machine Spec Bits Time Decoder Rc5 Rc6 Receiver Time_facts Window_facts Codec_facts Run_facts Rc5_facts Rc6_facts
  Encode_facts Spec_sound Sound_facts Biphase_facts Spec_biread Spec_rate Rate_facts.
Import ListNotations.
Open Scope N_scope.
Ltac Zify.zify_post_hook ::= Z.div_mod_to_equations.

(** ** The first window that matches *)
Lemma spans_first m freq pt d : timebase m freq -> table_ok pt -> exact_rate m freq ->
  match spans_get (spans_of m freq pt) d with
  | Some k => exists p t, nth_error pt (N.to_nat k) = Some (p, t) /\ near freq p t d /\
      forall j p' t', (j < N.to_nat k)%nat -> nth_error pt j = Some (p', t') -> ~ near freq p' t' d
  | None => forall j p' t', nth_error pt j = Some (p', t') -> ~ near freq p' t' d
  end.
Proof.
  intros Hm Ht Hf. rewrite spans_of_exact by auto. unfold spans_get.
  pose proof (spans_get_from_spec (nominal_spans freq pt) 0 d) as S.
  assert (W : forall j p t, nth_error pt j = Some (p, t) ->
    nth_error (nominal_spans freq pt) j = Some (window (nominal freq p) t) /\ t <= 100).
  { intros j p t E. split; [unfold nominal_spans; rewrite nth_error_map, E; reflexivity|].
    unfold table_ok in Ht. rewrite Forall_forall in Ht. pose proof (Ht _ (nth_error_In _ _ E)) as T. cbn [fst snd] in T. lia. }
  destruct (spans_get_from _ _ _) as [k|].
  - destruct S as (j & s & -> & E & Hc & B). replace (N.to_nat (0 + N.of_nat j)) with j by lia.
    unfold nominal_spans in E. rewrite nth_error_map in E. destruct (nth_error pt j) as [[p t]|] eqn:Ep; [|discriminate E].
    cbn [option_map fst snd] in E. injection E as <-. exists p, t. split; [reflexivity|].
    destruct (W j p t Ep) as (_ & T). split; [apply contains_window in Hc; [exact Hc|exact T]|].
    intros j' p' t' Hj Ej Hn. destruct (W j' p' t' Ej) as (W1 & W2). pose proof (B j' _ Hj W1) as Q.
    assert (Q' : contains (window (nominal freq p') t') d = true) by (apply contains_window; [exact W2|exact Hn]). congruence.
  - intros j p t E Hn. destruct (W j p t E) as (W1 & W2).
    assert (Q' : contains (window (nominal freq p) t) d = true) by (apply contains_window; [exact W2|exact Hn]).
    pose proof (S _ (nth_error_In _ _ W1)) as Q. congruence.
Qed.

Lemma near_nothing freq t d : near freq 0 t d <-> d = 0.
Proof. unfold near. assert (E : nominal freq 0 = 0) by reflexivity. rewrite E. lia. Qed.

Lemma rc5_counts_some m freq d : timebase m freq -> exact_rate m freq ->
  match spans_get (spans_of m freq rc5_pulses) d with Some k => rc5_counts freq (k + 1) d | None => rc5_uncounted freq d end.
Proof.
  intros Hm Hf. pose proof (spans_first m freq rc5_pulses d Hm rc5_ok Hf) as S.
  destruct (spans_get _ _) as [k|].
  - destruct S as (p & t & E & Hn & B). assert (L : (N.to_nat k < 8)%nat) by (apply (proj1 (nth_error_Some rc5_pulses (N.to_nat k))); rewrite E; discriminate).
    remember (N.to_nat k) as i eqn:Ei. assert (k = N.of_nat i) as -> by lia. clear Ei.
    pose proof (B 0%nat 889 12) as B0. pose proof (B 1%nat 1778 10) as B1. pose proof (B 2%nat 0 0) as B2.
    unfold rc5_counts. destruct i as [|[|[|i]]].
    + cbn in E. injection E as <- <-. left. auto.
    + cbn in E. injection E as <- <-. right. left. split; [reflexivity|]. split; [exact Hn|]. apply B0; [lia|reflexivity].
    + cbn in E. injection E as <- <-. right. right. split; [reflexivity|]. split; [apply near_nothing in Hn; exact Hn|].
      split; [apply B0|apply B1]; auto; lia.
    + exfalso. apply B2; [lia|reflexivity|]. do 5 (destruct i as [|i]; [cbn in E; injection E as <- <-; exact Hn|]). lia.
  - split; [|split].
    + intros ->. apply (S 2%nat 0 0 eq_refl). apply near_nothing. reflexivity.
    + exact (S 0%nat _ _ eq_refl).
    + exact (S 1%nat _ _ eq_refl).
Qed.
Lemma rc5_counts_one freq n n' d : rc5_counts freq n d -> rc5_counts freq n' d -> n = n'.
Proof. unfold rc5_counts. intros [H|[H|H]] [H'|[H'|H']]; try (destruct H, H'; congruence); exfalso; tauto. Qed.
Lemma rc5_counts_not freq n d : rc5_counts freq n d -> rc5_uncounted freq d -> False.
Proof. unfold rc5_counts, rc5_uncounted. tauto. Qed.

Lemma rc6_counts_some m freq d : timebase m freq -> exact_rate m freq ->
  match spans_get (spans_of m freq rc6_pulses) d with Some k => rc6_counts freq (k + 1) d | None => rc6_uncounted freq d end.
Proof.
  intros Hm Hf. pose proof (spans_first m freq rc6_pulses d Hm rc6_ok Hf) as S.
  assert (T : forall j, 1 <= j <= 6 -> nth_error rc6_pulses (N.to_nat (j - 1)) = Some (444 * j, 12)).
  { intros j Hj. assert (j = 1 \/ j = 2 \/ j = 3 \/ j = 4 \/ j = 5 \/ j = 6) as K by lia.
    destruct K as [->|[->|[->|[->|[->| ->]]]]]; reflexivity. }
  destruct (spans_get _ _) as [k|].
  - destruct S as (p & t & E & Hn & B). assert (L : (N.to_nat k < 8)%nat) by (apply (proj1 (nth_error_Some rc6_pulses (N.to_nat k))); rewrite E; discriminate).
    assert (B' : forall j, 1 <= j <= 6 -> j < k + 1 -> ~ near freq (444 * j) 12 d).
    { intros j Hj Hk. apply (B (N.to_nat (j - 1)) _ _ ltac:(lia)). apply T. exact Hj. }
    destruct (N.le_gt_cases (k + 1) 6) as [K|K].
    + left. split; [lia|]. rewrite <- (N.add_sub k 1) in E. rewrite T in E by lia. injection E as <- <-. split; [exact Hn|].
      intros j Hj. apply B'; lia.
    + assert (k = 6) as -> .
      { assert (k = 6 \/ k = 7) as [->| ->] by lia; [reflexivity|]. exfalso. cbn in E. injection E as <- <-.
        apply (B 6%nat 0 12); [cbn; lia|reflexivity|exact Hn]. }
      right. split; [reflexivity|]. cbn in E. injection E as <- <-. split; [apply near_nothing in Hn; exact Hn|].
      intros j Hj. apply B'; lia.
  - split.
    + intros ->. apply (S 6%nat 0 12 eq_refl). apply near_nothing. reflexivity.
    + intros j Hj. apply (S _ _ _ (T j Hj)).
Qed.
Lemma rc6_counts_one freq n n' d : rc6_counts freq n d -> rc6_counts freq n' d -> n = n'.
Proof.
  unfold rc6_counts. intros [(H1 & H2 & H3)|(H1 & H2 & H3)] [(G1 & G2 & G3)|(G1 & G2 & G3)].
  - destruct (N.lt_trichotomy n n') as [L|[L|L]]; [|exact L|]; exfalso.
    + apply (G3 n); auto; lia.
    + apply (H3 n'); auto; lia.
  - exfalso. apply (G3 n); auto.
  - exfalso. apply (H3 n'); auto.
  - congruence.
Qed.
Lemma rc6_counts_not freq n d : rc6_counts freq n d -> rc6_uncounted freq d -> False.
Proof. unfold rc6_counts, rc6_uncounted. intros [(H1 & H2 & _)|(_ & H & _)] (G1 & G2); [|exact (G1 H)]. exact (G2 n H1 H2). Qed.

(** ** Cutting *)
Section Cut.
  Variables (counts : N -> N -> Prop) (uncounted : N -> Prop).
  Hypothesis dec : forall d, (exists n, counts n d) \/ uncounted d.

  Lemma lacks_nil par ck k : (1 <= k)%nat -> lacks counts par ck [] [] k.
  Proof. intros H. split; [constructor|]. cbn. lia. Qed.
  Lemma lacks_cons par ck e d n l ns k : counts n d ->
    (if Bool.eqb (N.odd (ck + n)) par then (2 <= k)%nat /\ lacks counts par (ck + n) l ns (k - 1) else lacks counts par (ck + n) l ns k) ->
    lacks counts par ck ((e, d) :: l) (n :: ns) k.
  Proof.
    intros Hn H. unfold lacks in *. cbn [map snd samples]. rewrite app_length. destruct (Bool.eqb _ _); cbn [length].
    - destruct H as (Hk & H1 & H2). split; [constructor; auto|lia].
    - destruct H as (H1 & H2). split; [constructor; auto|lia].
  Qed.
  Lemma holds_cons par ck e d n l ns bits : counts n d -> holds counts par (ck + n) l ns bits ->
    holds counts par ck ((e, d) :: l) (n :: ns) ((if Bool.eqb (N.odd (ck + n)) par then [e] else []) ++ bits).
  Proof.
    intros Hn (H1 & H2 & l' & x & ns' & n' & -> & -> & H3 & H4). split; [constructor; auto|]. split; [cbn [samples]; rewrite H2; reflexivity|].
    exists ((e, d) :: l'), x, (n :: ns'), n'. split; [reflexivity|]. split; [reflexivity|]. split; [cbn [length]; lia|].
    cbn [samples]. rewrite !app_length. lia.
  Qed.

  Lemma cut par l : forall ck k, (1 <= k)%nat ->
    (exists ns, lacks counts par ck l ns k) \/
    (exists l1 l2 ns bits, l = l1 ++ l2 /\ holds counts par ck l1 ns bits /\ length bits = k) \/
    (exists l1 e d l2 ns, l = l1 ++ (e, d) :: l2 /\ lacks counts par ck l1 ns k /\ uncounted d).
  Proof.
    induction l as [|[e d] l IH]; intros ck k Hk; [left; exists []; apply lacks_nil; exact Hk|].
    destruct (dec d) as [(n & Hn)|Hd].
    2: { right. right. exists [], e, d, l, []. split; [reflexivity|]. split; [apply lacks_nil; exact Hk|exact Hd]. }
    destruct (Bool.eqb (N.odd (ck + n)) par) eqn:Es.
    - destruct (Nat.eq_dec k 1) as [->|Hk1].
      + right. left. exists [(e, d)], l, [n], [e]. split; [reflexivity|]. split; [|reflexivity].
        split; [repeat constructor; exact Hn|]. split; [cbn [samples]; rewrite Es; reflexivity|].
        exists [], (e, d), [], n. auto.
      + destruct (IH (ck + n) (k - 1)%nat) as [(ns & H)|[(l1 & l2 & ns & bits & -> & H & HL)|(l1 & e1 & d1 & l2 & ns & -> & H & Hd)]]; [lia| | |].
        * left. exists (n :: ns). apply lacks_cons; [exact Hn|]. rewrite Es. split; [lia|exact H].
        * right. left. exists ((e, d) :: l1), l2, (n :: ns), ((if Bool.eqb (N.odd (ck + n)) par then [e] else []) ++ bits). split; [reflexivity|].
          split; [apply holds_cons; auto|]. rewrite Es. cbn [app length]. lia.
        * right. right. exists ((e, d) :: l1), e1, d1, l2, (n :: ns). split; [reflexivity|]. split; [|exact Hd].
          apply lacks_cons; [exact Hn|]. rewrite Es. split; [lia|exact H].
    - destruct (IH (ck + n) k Hk) as [(ns & H)|[(l1 & l2 & ns & bits & -> & H & HL)|(l1 & e1 & d1 & l2 & ns & -> & H & Hd)]].
      * left. exists (n :: ns). apply lacks_cons; [exact Hn|]. rewrite Es. exact H.
      * right. left. exists ((e, d) :: l1), l2, (n :: ns), ((if Bool.eqb (N.odd (ck + n)) par then [e] else []) ++ bits). split; [reflexivity|].
        split; [apply holds_cons; auto|]. rewrite Es. exact HL.
      * right. right. exists ((e, d) :: l1), e1, d1, l2, (n :: ns). split; [reflexivity|]. split; [|exact Hd].
        apply lacks_cons; [exact Hn|]. rewrite Es. exact H.
  Qed.

End Cut.

Lemma holds_pos counts par ck l ns bits : holds counts par ck l ns bits -> (1 <= length l)%nat.
Proof. intros (_ & _ & l' & x & _ & _ & -> & _). rewrite app_length. cbn. lia. Qed.

Lemma near_or freq p t d : near freq p t d \/ ~ near freq p t d.
Proof. unfold near. destruct (N.le_gt_cases (100 * d) ((100 + t) * nominal freq p)), (N.le_gt_cases ((100 - t) * nominal freq p) (100 * d)); [left; auto| | | ]; right; lia. Qed.

Lemma rc5_dec_counts freq d : (exists n, rc5_counts freq n d) \/ rc5_uncounted freq d.
Proof.
  unfold rc5_counts, rc5_uncounted. destruct (near_or freq 889 12 d); [left; exists 1; auto|].
  destruct (near_or freq 1778 10 d); [left; exists 2; auto|]. destruct (N.eq_dec d 0); [left; exists 3; auto 8|]. auto.
Qed.
Lemma rc6_dec_counts freq d : (exists n, rc6_counts freq n d) \/ rc6_uncounted freq d.
Proof.
  assert (S : forall j, (j <= 6)%nat -> (exists n, 1 <= n <= N.of_nat j /\ near freq (444 * n) 12 d /\ forall k, 1 <= k < n -> ~ near freq (444 * k) 12 d) \/
    forall k, 1 <= k <= N.of_nat j -> ~ near freq (444 * k) 12 d).
  { induction j as [|j IH]; intros Hj; [right; intros k Hk; lia|].
    destruct IH as [(n & H1 & H2 & H3)|H]; [lia|left; exists n; split; [lia|auto]|].
    destruct (near_or freq (444 * N.of_nat (S j)) 12 d) as [Hn|Hn].
    - left. exists (N.of_nat (S j)). split; [lia|]. split; [exact Hn|]. intros k Hk. apply H. lia.
    - right. intros k Hk. assert (k = N.of_nat (S j) \/ k <= N.of_nat j) as [->|K] by lia; [exact Hn|]. apply H. lia. }
  destruct (S 6%nat ltac:(lia)) as [(n & H1 & H2 & H3)|H].
  - left. exists n. left. auto.
  - destruct (N.eq_dec d 0) as [E|E]; [left; exists 7; right; auto|right; split; auto].
Qed.

Lemma rc5_reads_some freq h : exists os, rc5_reads freq h os.
Proof.
  remember (length h) as n eqn:En. assert (L : (length h <= n)%nat) by lia. clear En. revert h L.
  induction n as [|n IH]; intros h L; (destruct h as [|[[|] g] h]; [exists []; constructor| |]); cbn [length] in L; try lia.
  - destruct (cut (rc5_counts freq) (rc5_uncounted freq) (rc5_dec_counts freq) false h 0 13%nat) as
      [(ns & H)|[(l1 & l2 & ns & bits & -> & H & HL)|(l1 & e & d & l2 & ns & -> & H & Hd)]]; [lia| | |].
    + eexists. eapply Rc5Open. exact H.
    + rewrite app_length in L. destruct (IH l2 ltac:(unfold edge in *; lia)) as (os & R). eexists. eapply Rc5Frame; eauto.
    + rewrite app_length in L. cbn [length] in L. destruct (IH ((e, d) :: l2) ltac:(unfold edge in *; cbn [length]; lia)) as (os & R). eexists. eapply Rc5Lost; eauto.
  - destruct (IH h ltac:(unfold edge in *; lia)) as (os & R). eexists. apply Rc5Idle. exact R.
Qed.

(** The waiting edges of the trailer. *)
Lemma rc6_waiting freq l : rc6_waits freq l \/ exists ws e d l2, l = ws ++ (e, d) :: l2 /\ rc6_waits freq ws /\
  (rc6_uncounted freq d \/ exists n, rc6_counts freq n d /\ ~ (e = false /\ n = 1)).
Proof.
  induction l as [|[e d] l IH]; [left; constructor|].
  destruct (rc6_dec_counts freq d) as [(n & Hn)|Hd]; [|right; exists [], e, d, l; repeat split; auto; constructor].
  assert (K : (e = false /\ n = 1) \/ ~ (e = false /\ n = 1)).
  { destruct e; [right; intros (K & _); discriminate|]. destruct (N.eq_dec n 1); [auto|right; tauto]. }
  destruct K as [(-> & ->)|K].
  - destruct IH as [H|(ws & e & d' & l2 & -> & H & H')]; [left; constructor; auto|].
    right. exists ((false, d) :: ws), e, d', l2. split; [reflexivity|]. split; [constructor; auto|exact H'].
  - right. exists [], e, d, l. split; [reflexivity|]. split; [constructor|]. right. exists n. auto.
Qed.

Lemma rc6_reads_some freq h : exists os, rc6_reads freq h os.
Proof.
  remember (length h) as n eqn:En. assert (L : (length h <= n)%nat) by lia. clear En. revert h L.
  induction n as [|n IH]; intros h L; (destruct h as [|[[|] g] h]; [exists []; constructor| |]); cbn [length] in L; try lia.
  2: { destruct (IH h ltac:(unfold edge in *; lia)) as (os & R). eexists. apply Rc6Idle. exact R. }
  assert (Lost : forall l p e d h2, h = l ++ (e, d) :: h2 -> rc6_part freq l p -> rc6_uncounted freq d -> exists os, rc6_reads freq ((true, g) :: h) os).
  { intros l p e d h2 -> Hp Hd. rewrite app_length in L. cbn [length] in L. destruct (IH ((e, d) :: h2) ltac:(unfold edge in *; cbn [length]; lia)) as (os & R).
    eexists. eapply Rc6Lost; eauto. }
  assert (Wrong : forall l p e d k h2, h = l ++ (e, d) :: h2 -> rc6_part freq l p -> rc6_counts freq k d -> rc6_wrong p e k -> exists os, rc6_reads freq ((true, g) :: h) os).
  { intros l p e d k h2 -> Hp Hd Hw. rewrite app_length in L. cbn [length] in L. destruct (IH h2 ltac:(unfold edge in *; cbn [length]; lia)) as (os & R).
    eexists. eapply Rc6Wrong; eauto. }
  assert (Open : forall p, rc6_part freq h p -> exists os, rc6_reads freq ((true, g) :: h) os).
  { intros p Hp. eexists. eapply Rc6Open. exact Hp. }
  destruct h as [|[e lead] h]; [apply (Open AtLeader); reflexivity|].
  destruct (rc6_dec_counts freq lead) as [(k & Hk)|Hd]; [|apply (Lost [] AtLeader e lead h); auto; reflexivity].
  destruct (bool_dec e false) as [->|He]; [|apply (Wrong [] AtLeader e lead k h); auto; [reflexivity|intros (Q & _); auto]].
  destruct (N.eq_dec k 6) as [->|Hk6]; [|apply (Wrong [] AtLeader false lead k h); auto; [reflexivity|intros (_ & Q); auto]].
  assert (P2 : rc6_part freq [(false, lead)] AtSpace) by (exists lead; auto).
  destruct h as [|[e space] h]; [apply (Open AtSpace); exact P2|].
  destruct (rc6_dec_counts freq space) as [(k & Hk2)|Hd]; [|apply (Lost [(false, lead)] AtSpace e space h); auto].
  destruct (bool_dec e true) as [->|He]; [|apply (Wrong [(false, lead)] AtSpace e space k h); auto; intros (Q & _); auto].
  destruct (N.eq_dec k 2) as [->|Hk22]; [|apply (Wrong [(false, lead)] AtSpace true space k h); auto; intros (_ & Q); auto].
  destruct (cut (rc6_counts freq) (rc6_uncounted freq) (rc6_dec_counts freq) true h 8 4%nat) as
      [(ns & H)|[(hs & l2 & ns & hbits & E & H & HL)|(l1 & e & d & l2 & ns & E & H & Hd)]]; [lia| | |].
  { apply (Open AtHeader). exists lead, space, h, ns. auto. }
  2: { apply (Lost ((false, lead) :: (true, space) :: l1) AtHeader e d l2); auto; [rewrite E; reflexivity|]. exists lead, space, l1, ns. auto. }
  set (l1 := (false, lead) :: (true, space) :: hs). assert (Hh : rc6_head freq l1 (8 + total ns)) by (exists lead, space, hs, ns, hbits; repeat split; auto; apply H).
  assert (E1 : (false, lead) :: (true, space) :: h = l1 ++ l2) by (rewrite E; reflexivity).
  destruct (rc6_waiting freq l2) as [Hw|(ws & e & d & l3 & E2 & Hw & Hd)].
  { apply (Open AtTrailer). exists l1, (8 + total ns), l2. auto. }
  assert (Pt : rc6_part freq (l1 ++ ws) AtTrailer) by (exists l1, (8 + total ns), ws; auto).
  assert (E3 : (false, lead) :: (true, space) :: h = (l1 ++ ws) ++ (e, d) :: l3) by (rewrite E1, E2, app_assoc; reflexivity).
  destruct Hd as [Hd|(k & Hk3 & Hne)]; [apply (Lost (l1 ++ ws) AtTrailer e d l3); auto|].
  assert (T : (exists toggle, rc6_turn freq toggle (e, d)) \/ rc6_wrong AtTrailer e k).
  { unfold rc6_turn, rc6_wrong. destruct e.
    - destruct (N.eq_dec k 2) as [->|Q]; [left; exists false; auto|]. right. repeat split; intros (Q1 & Q2); auto; discriminate.
    - destruct (N.eq_dec k 3) as [->|Q]; [left; exists true; auto|]. right. repeat split; intros (Q1 & Q2); auto; discriminate. }
  destruct T as [(toggle & Ht)|Hw']; [|apply (Wrong (l1 ++ ws) AtTrailer e d k l3); auto].
  set (l4 := l1 ++ ws ++ [(e, d)]). set (ck := 8 + total ns + N.of_nat (length ws) + (if toggle then 3 else 2)).
  assert (Hd4 : rc6_to_data freq l4 toggle ck) by (exists l1, (8 + total ns), ws, (e, d); auto).
  assert (E4 : (false, lead) :: (true, space) :: h = l4 ++ l3) by (rewrite E3; unfold l4; rewrite <- !app_assoc; reflexivity).
  destruct (cut (rc6_counts freq) (rc6_uncounted freq) (rc6_dec_counts freq) true l3 ck 16%nat) as
      [(ns2 & H2)|[(l5 & l6 & ns2 & bits & E5 & H2 & HL2)|(l5 & e5 & d5 & l6 & ns2 & E5 & H2 & Hd5)]]; [lia| | |].
  - apply (Open AtData). exists l4, toggle, ck, l3, ns2. auto.
  - assert (E6 : (false, lead) :: (true, space) :: h = (l4 ++ l5) ++ l6) by (rewrite E4, E5, app_assoc; reflexivity).
    unfold edge in *. rewrite E6 in L |- *. rewrite app_length in L. destruct (IH l6 ltac:(unfold edge in *; lia)) as (os & R). eexists. eapply Rc6Frame; eauto.
  - apply (Lost (l4 ++ l5) AtData e5 d5 l6); auto; [etransitivity; [exact E4|]; rewrite E5, app_assoc; reflexivity|]. exists l4, toggle, ck, l5, ns2. auto.
Qed.

(** ** Clocks *)

Lemma run_cons_val {D C} (into : dcmd D -> C) (r r1 r2 : receiver D) e d h o os :
  event_edge into r d e = Val (r1, o) -> run_edges into r1 h = Val (r2, os) -> run_edges into r ((e, d) :: h) = Val (r2, o :: os).
Proof. intros E1 E2. cbn [run_edges]. rewrite E1. cbn [bind]. rewrite E2. reflexivity. Qed.


(** With overflow checks the clock must be able to take [n] more edges. *)
Definition room (b : build) (ck : N) (n : nat) : Prop := overflow_checks b = false \/ ck + 8 * N.of_nat n < 2 ^ usize_bits b.

Lemma room_step b ck n t : 8 <= usize_bits b -> t <= 8 -> room b ck (S n) ->
  exists c, uadd (overflow_checks b) (usize_bits b) ck t = Val c /\ N.odd c = N.odd (ck + t) /\ room b c n.
Proof.
  intros Hu Ht Hr. assert (E : exists c, uadd (overflow_checks b) (usize_bits b) ck t = Val c /\ room b c n).
  { unfold uadd. destruct (N.ltb_spec (ck + t) (2 ^ usize_bits b)) as [L|L].
    - eexists. split; [reflexivity|]. destruct Hr as [Hr|Hr]; [left; exact Hr|right; lia].
    - destruct Hr as [Hr|Hr]; [|lia]. rewrite Hr. eexists. split; [reflexivity|]. left. exact Hr. }
  destruct E as (c & E & R). exists c. split; [exact E|]. split; [|exact R]. apply uadd_odd in E; [exact E|lia].
Qed.
Lemma room_zero b ck n : room b ck n -> room b 0 n.
Proof. intros [H|H]; [left; exact H|right; lia]. Qed.
Lemma room_less b ck n k : room b ck n -> (k <= n)%nat -> room b ck k.
Proof. intros [H|H] L; [left; exact H|right; lia]. Qed.

Lemma land_even ck : (N.land ck 1 =? 0) = negb (N.odd ck).
Proof. rewrite land1, <- N.bit0_mod, N.bit0_odd. destruct (N.odd ck); reflexivity. Qed.

Definition rc5_told_as {C} (into : rc5_command -> C) (o : option (list bool)) : outcome C :=
  match o with
  | Some (start2 :: toggle :: rest) =>
      ROk (Some (into (mkRc5 (val_msb (firstn 5 rest)) (val_msb (skipn 5 rest)) (2 + N.b2n start2) toggle)))
  | _ => ROk None
  end.
Definition rc6_told_as {C} (into : rc6_command -> C) (o : option (bool * list bool)) : outcome C :=
  match o with
  | Some (toggle, bits) => ROk (Some (into (mkRc6 (val_msb (firstn 8 bits)) (val_msb (skipn 8 bits)) toggle)))
  | None => ROk None
  end.

Lemma rc5_told_word {C} (into : rc5_command -> C) bits : length bits = 13%nat ->
  ROk (Some (into (rc5_unpack (2 ^ 13 + val_msb bits)))) = rc5_told_as into (Some bits).
Proof.
  intros L. destruct bits as [|s2 [|tg bits]]; try discriminate L. cbn [rc5_told_as]. do 3 f_equal.
  assert (L1 : length (firstn 5 bits) = 5%nat) by (rewrite firstn_length; cbn [length] in L; lia).
  assert (L2 : length (skipn 5 bits) = 6%nat) by (rewrite skipn_length; cbn [length] in L; lia).
  rewrite rc5_unpack_layout.
  replace (s2 :: tg :: bits) with ([s2] ++ [tg] ++ firstn 5 bits ++ skipn 5 bits) by (rewrite firstn_skipn; reflexivity).
  rewrite !val_msb_app, !app_length, L1, L2. cbn [length Nat.add].
  pose proof (val_msb_lt (firstn 5 bits)) as B1. pose proof (val_msb_lt (skipn 5 bits)) as B2.
  rewrite L1 in B1. rewrite L2 in B2. set (a := val_msb (firstn 5 bits)) in *. set (c := val_msb (skipn 5 bits)) in *.
  clearbody a c. clear -B1 B2. unfold field.
  change (2 ^ N.of_nat 5) with 32 in *. change (2 ^ N.of_nat 6) with 64 in *. change (2 ^ N.of_nat 11) with 2048.
  change (2 ^ N.of_nat 12) with 4096. change (2 ^ 13) with 8192. change (2 ^ 0) with 1. change (2 ^ 6) with 64.
  change (2 ^ 5) with 32. change (2 ^ 12) with 4096. change (2 ^ 2) with 4. change (2 ^ 11) with 2048. change (2 ^ 1) with 2.
  unfold val_msb. cbn [rev app val_lsb]. f_equal; destruct s2, tg; cbn [N.b2n]; lia.
Qed.
Lemma rc6_told_word {C} (into : rc6_command -> C) bits tg : length bits = 16%nat ->
  ROk (Some (into (rc6_from_bits (val_msb bits) tg))) = rc6_told_as into (Some (tg, bits)).
Proof.
  intros L. cbn [rc6_told_as]. do 3 f_equal.
  assert (L1 : length (firstn 8 bits) = 8%nat) by (rewrite firstn_length; lia).
  assert (L2 : length (skipn 8 bits) = 8%nat) by (rewrite skipn_length; lia).
  pose proof (val_msb_lt bits) as B. rewrite L in B. rewrite rc6_from_bits_word by exact B.
  replace bits with (firstn 8 bits ++ skipn 8 bits) at 1 2 by apply firstn_skipn. rewrite val_msb_app, L2.
  pose proof (val_msb_lt (firstn 8 bits)) as B1. pose proof (val_msb_lt (skipn 8 bits)) as B2.
  rewrite L1 in B1. rewrite L2 in B2. set (a := val_msb (firstn 8 bits)) in *. set (k := val_msb (skipn 8 bits)) in *.
  clearbody a k. clear -B1 B2. unfold field. change (2 ^ N.of_nat 8) with 256 in *. change (2 ^ 8) with 256. change (2 ^ 0) with 1.
  f_equal; lia.
Qed.

Section Rc5.
  Variables (b : build) (m : mono) (freq : N).
  Hypothesis (Hm : timebase m freq) (Hhi : exact_rate m freq) (Hu : 8 <= usize_bits b).
  Let ss := spans_of m freq rc5_pulses.
  Notation D := (rc5_dec b).
  Context {C : Type} (into : rc5_command -> C).
  Notation run := (@run_edges D C into).
  Notation ev := (@event_edge D C into).
  Notation st s buf ck pv := (@mkRecv D (mkRc5Dec s buf ck ss) pv).
  Notation told := (rc5_told_as into).

  Lemma rc5_count_get n d : rc5_counts freq n d -> 1 <= n <= 3 /\ spans_get ss d = Some (n - 1).
  Proof.
    intros H. assert (Hn : 1 <= n <= 3) by (unfold rc5_counts in H; lia). split; [exact Hn|].
    pose proof (rc5_counts_some m freq d Hm Hhi) as S. fold ss in S. destruct (spans_get ss d) as [k|].
    - rewrite (rc5_counts_one _ _ _ _ H S). f_equal. lia.
    - destruct (rc5_counts_not _ _ _ H S).
  Qed.
  Lemma rc5_uncounted_get d : rc5_uncounted freq d -> spans_get ss d = None.
  Proof.
    intros H. pose proof (rc5_counts_some m freq d Hm Hhi) as S. fold ss in S. destruct (spans_get ss d) as [k|]; [|reflexivity].
    destruct (rc5_counts_not _ _ _ S H).
  Qed.

  Lemma rc5_start : (let* m0 := ushl1 (overflow_checks b) 16 13 in Val (R5Data 12, N.lor 0 m0, 0)) = Val (R5Data 12, 2 ^ 13, 0).
  Proof. destruct b as [[] ?]; reflexivity. Qed.

  Lemma rc5_idle_any k ck pv d (e : bool) : room b ck (S k) -> exists ck', room b ck' k /\
    ev (st R5Idle 0 ck pv) d e = Val (if e then st (R5Data 12) (2 ^ 13) 0 pv else st R5Idle 0 ck' pv, ROk None).
  Proof.
    intros Hr. unfold event_edge. cbn [d_event rc5_dec rv_dec rv_prev]. unfold rc5_event. cbn [r5_spans r5_clock r5_state r5_bitbuf].
    pose proof (rc5_counts_some m freq d Hm Hhi) as Sc. fold ss in Sc. destruct (spans_get ss d) as [j|].
    - assert (Hj : j + 1 <= 3) by (unfold rc5_counts in Sc; lia). pose proof (usize8 b Hu) as U.
      rewrite uadd_small by lia. cbn [bind]. destruct (room_step b ck k (j + 1) Hu ltac:(lia) Hr) as (c & -> & _ & R). cbn [bind].
      exists c. split; [exact R|]. cbn [r5_spans r5_clock r5_state r5_bitbuf rc5_transition].
      destruct e; [rewrite rc5_start|]; reflexivity.
    - exists 0. split; [apply room_less with (n := S k); [eapply room_zero; exact Hr|lia]|]. cbn [bind].
      unfold rc5_reset. cbn [r5_spans r5_clock r5_state r5_bitbuf rc5_transition]. destruct e; [rewrite rc5_start|]; reflexivity.
  Qed.

  Lemma rc5_anew s buf ck pv d (e : bool) : rc5_uncounted freq d -> ev (st s buf ck pv) d e = ev (st R5Idle 0 0 pv) d e.
  Proof.
    intros H. unfold event_edge. cbn [d_event rc5_dec rv_dec rv_prev]. unfold rc5_event. cbn [r5_spans r5_clock r5_state r5_bitbuf].
    rewrite (rc5_uncounted_get d H). reflexivity.
  Qed.

  (** The state after [pre] has been read. *)
  Definition rc5_mid (pre : list bool) (ck pv : N) : receiver D :=
    st (R5Data (12 - N.of_nat (length pre))) (2 ^ 13 + 2 ^ (13 - N.of_nat (length pre)) * val_msb pre) ck pv.

  Lemma rc5_bit pre (e : bool) : (length pre <= 12)%nat ->
    (if e then N.lor (2 ^ 13 + 2 ^ (13 - N.of_nat (length pre)) * val_msb pre) (N.shiftl 1 (12 - N.of_nat (length pre)))
     else 2 ^ 13 + 2 ^ (13 - N.of_nat (length pre)) * val_msb pre) =
    2 ^ 13 + 2 ^ (12 - N.of_nat (length pre)) * val_msb (pre ++ [e]).
  Proof.
    intros L. rewrite val_msb_snoc. set (i := 12 - N.of_nat (length pre)).
    replace (13 - N.of_nat (length pre)) with (i + 1) by lia.
    assert (P : 2 ^ (i + 1) = 2 * 2 ^ i) by (rewrite N.pow_add_r; change (2 ^ 1) with 2; lia).
    destruct e; [|rewrite P, N.mul_add_distr_l; lia].
    assert (P13 : 2 ^ 13 = 2 ^ (i + 1) * 2 ^ (12 - i)) by (rewrite <- N.pow_add_r; f_equal; lia).
    rewrite P13, <- N.mul_add_distr_l, lor_low, P, !N.mul_add_distr_l. lia.
  Qed.

  Lemma rc5_mid_step pre ck pv d (e : bool) n k : (length pre <= 12)%nat -> rc5_counts freq n d -> room b ck (S k) ->
    exists ck', room b ck' k /\ N.odd ck' = N.odd (ck + n) /\
    ev (rc5_mid pre ck pv) d e =
      if N.odd (ck + n) then Val (rc5_mid pre ck' pv, ROk None)
      else if (length pre =? 12)%nat then Val (st R5Idle 0 0 pv, ROk (Some (into (rc5_unpack (2 ^ 13 + val_msb (pre ++ [e]))))))
      else Val (rc5_mid (pre ++ [e]) ck' pv, ROk None).
  Proof.
    intros L Hn Hr. destruct (rc5_count_get n d Hn) as (Hn3 & Eg). pose proof (usize8 b Hu) as U.
    destruct (room_step b ck k n Hu ltac:(lia) Hr) as (c & Ec & Eo & R). exists c. split; [exact R|]. split; [exact Eo|].
    unfold rc5_mid at 1. unfold event_edge. cbn [d_event rc5_dec rv_dec rv_prev]. unfold rc5_event. cbn [r5_spans r5_clock r5_state r5_bitbuf].
    rewrite Eg, uadd_small by lia. cbn [bind]. replace (n - 1 + 1) with n by lia. rewrite Ec. cbn [bind r5_spans r5_clock r5_state r5_bitbuf].
    unfold rc5_transition. rewrite land_even, Eo. destruct (N.odd (ck + n)); cbn [negb]; [reflexivity|].
    pose proof (rc5_bit pre e L) as B.
    destruct (Nat.eqb_spec (length pre) 12) as [L12|L12].
    - rewrite (proj2 (N.eqb_eq _ _)) by lia. rewrite L12 in *. change (12 - N.of_nat 12) with 0 in B. change (N.shiftl 1 0) with 1 in B. change (2 ^ 0) with 1 in B. rewrite N.mul_1_l in B.
      destruct e; cbn [bind rc5_to_state r5_spans r5_state]; rewrite <- B; reflexivity.
    - rewrite (proj2 (N.eqb_neq _ _)) by lia. unfold ushl1, usub. rewrite (proj2 (N.ltb_lt _ _)) by lia. rewrite (proj2 (N.leb_le _ _)) by lia.
      unfold rc5_mid. rewrite app_length. cbn [length].
      replace (13 - N.of_nat (length pre + 1)) with (12 - N.of_nat (length pre)) by lia. rewrite <- B.
      replace (12 - N.of_nat (length pre + 1)) with (12 - N.of_nat (length pre) - 1) by lia.
      destruct e; reflexivity.
  Qed.

  Lemma rc5_mid_run l : forall pre ck0 ck pv ns k, N.odd ck = N.odd ck0 -> (length pre <= 12)%nat ->
    lacks (rc5_counts freq) false ck0 l ns (13 - length pre) -> room b ck (length l + k) ->
    exists ck', room b ck' k /\ N.odd ck' = N.odd (ck0 + total ns) /\
      run (rc5_mid pre ck pv) l = Val (rc5_mid (pre ++ samples false ck0 l ns) ck' pv, repeat (ROk None) (length l)).
  Proof.
    induction l as [|[e d] l IH]; intros pre ck0 ck pv ns k Ho L (HF & HL) Hr.
    - inversion HF; subst. exists ck. cbn [samples total fold_right length repeat run_edges]. rewrite N.add_0_r, app_nil_r. auto.
    - cbn [map snd] in HF. inversion HF as [|n ? ns' ? Hn HF']; subst. cbn [samples] in HL |- *. rewrite app_length in HL.
      cbn [length] in Hr. destruct (rc5_mid_step pre ck pv d e n (length l + k) L Hn Hr) as (ck1 & R1 & O1 & E).
      assert (Oe : N.odd (ck + n) = N.odd (ck0 + n)) by (rewrite !N.odd_add, Ho; reflexivity).
      rewrite Oe in O1, E. cbn [total fold_right]. fold (total ns'). replace (ck0 + (n + total ns')) with (ck0 + n + total ns') by lia.
      destruct (N.odd (ck0 + n)) eqn:Eo; cbn [Bool.eqb app length] in HL |- *.
      + destruct (IH pre (ck0 + n) ck1 pv ns' k) as (ck' & R & O & E2); auto; [congruence|split; [exact HF'|exact HL]|].
        exists ck'. split; [exact R|]. split; [exact O|]. cbn [run_edges]. rewrite E. cbn [bind]. rewrite E2. reflexivity.
      + rewrite (proj2 (Nat.eqb_neq _ _)) in E by lia.
        destruct (IH (pre ++ [e]) (ck0 + n) ck1 pv ns' k) as (ck' & R & O & E2); auto; [congruence|rewrite app_length; cbn [length]; lia|split; [exact HF'|rewrite app_length; cbn [length]; lia]|].
        exists ck'. split; [exact R|]. split; [exact O|]. cbn [run_edges]. rewrite E. cbn [bind]. rewrite E2. rewrite <- app_assoc. reflexivity.
  Qed.

  Lemma rc5_mid_holds l ns bits pv k : holds (rc5_counts freq) false 0 l ns bits -> length bits = 13%nat -> room b 0 (length l + k) ->
    run (rc5_mid [] 0 pv) l = Val (st R5Idle 0 0 pv, repeat (ROk None) (length l - 1) ++ [told (Some bits)]).
  Proof.
    intros (HF & Hs & l' & [e d] & ns' & n & -> & -> & Ll & Lb) L Hr.
    rewrite map_app in HF. cbn [map snd] in HF. apply Forall2_app_inv_l in HF. destruct HF as (m1 & m2 & F1 & F2 & Em).
    assert (Ln := forall2_length _ _ _ F1). inversion F2 as [|? ? ? ? Hn F3]; subst. inversion F3; subst.
    apply app_inj_tail in Em. destruct Em as (<- & <-).
    rewrite samples_snoc in * by exact Ll. rewrite N.add_0_l in *.
    rewrite app_length in Hr. cbn [length] in Hr.
    destruct (rc5_mid_run l' [] 0 0 pv ns' (S k)) as (ck & R & O & E); auto; [cbn; lia|split; [exact F1|rewrite L in Lb; cbn [length]; lia]| |].
    { replace (length l' + S k)%nat with (length l' + 1 + k)%nat by lia. exact Hr. }
    rewrite N.add_0_l in O. cbn [app] in E.
    destruct (rc5_mid_step (samples false 0 l' ns') ck pv d e n k) as (ck' & _ & _ & E2); auto; [lia|].
    assert (Oe : N.odd (ck + n) = N.odd (total ns' + n)) by (rewrite !N.odd_add, O; reflexivity). rewrite Oe in E2.
    destruct (N.odd (total ns' + n)) eqn:Eo; cbn [Bool.eqb app] in *; [rewrite app_nil_r in Lb; lia|].
    rewrite (proj2 (Nat.eqb_eq _ _)) in E2 by lia.
    assert (E3 : run (rc5_mid (samples false 0 l' ns') ck pv) [(e, d)] =
      Val (st R5Idle 0 0 pv, [ROk (Some (into (rc5_unpack (2 ^ 13 + val_msb (samples false 0 l' ns' ++ [e])))))]))
      by (cbn [run_edges]; rewrite E2; reflexivity).
    refine (eq_trans (run_edges_app_val (D := D) into _ _ _ _ _ _ _ E E3) _). rewrite rc5_told_word by exact L. rewrite app_length. cbn [length]. replace (length l' + 1 - 1)%nat with (length l') by lia. reflexivity.
  Qed.

  Lemma rc5_reads_run h os : rc5_reads freq h os -> forall ck pv, room b ck (length h) ->
    exists r, run (st R5Idle 0 ck pv) h = Val (r, map told os).
  Proof.
    assert (Rep : forall n, map told (repeat None n) = repeat (ROk None) n) by (intros n; induction n; cbn [repeat map]; [|rewrite IHn]; reflexivity).
    induction 1 as [|d h os H IH|g l ns bits h os Hh Hb H IH|g l ns e d h os Hl Hd H IH|g l ns Hl]; intros ck pv Hr; cbn [length] in Hr.
    - eexists. reflexivity.
    - destruct (rc5_idle_any _ ck pv d false Hr) as (ck' & R & E). destruct (IH ck' pv R) as (r & E2).
      exists r. exact (run_cons_val (D := D) into _ _ _ _ _ _ _ _ E E2).
    - destruct (rc5_idle_any _ ck pv g true Hr) as (ck' & R & E). change (ev (st R5Idle 0 ck pv) g true = Val (rc5_mid [] 0 pv, ROk None)) in E. rewrite app_length in R.
      pose proof (rc5_mid_holds l ns bits pv (length h) Hh Hb (room_zero _ _ _ R)) as E1.
      destruct (IH 0 pv) as (r & E2); [eapply room_less; [eapply room_zero; exact R|lia]|].
      exists r. refine (eq_trans (run_cons_val (D := D) into _ _ _ _ _ _ _ _ E (run_edges_app_val (D := D) into _ _ _ _ _ _ _ E1 E2)) _). do 2 f_equal.
      rewrite map_app, Rep. cbn [map]. rewrite <- app_assoc. cbn [app]. assert (Hp : (1 <= length l)%nat) by (eapply holds_pos; exact Hh).
      destruct (length l) as [|n]; [lia|]. cbn [repeat app]. replace (S n - 1)%nat with n by lia. reflexivity.
    - destruct (rc5_idle_any _ ck pv g true Hr) as (ck' & R & E). change (ev (st R5Idle 0 ck pv) g true = Val (rc5_mid [] 0 pv, ROk None)) in E. rewrite app_length in R. cbn [length] in R.
      destruct (rc5_mid_run l [] 0 0 pv ns (S (length h)) eq_refl ltac:(cbn; lia) Hl (room_zero _ _ _ R)) as (ck2 & R2 & _ & E2).
      destruct (IH 0 pv) as (r & E3); [eapply room_zero; exact R2|].
      assert (E4 : run (rc5_mid ([] ++ samples false 0 l ns) ck2 pv) ((e, d) :: h) = Val (r, map told os)).
      { rewrite <- E3. cbn [run_edges]. unfold rc5_mid. rewrite (rc5_anew _ _ _ pv d e Hd). reflexivity. }
      exists r. refine (eq_trans (run_cons_val (D := D) into _ _ _ _ _ _ _ _ E (run_edges_app_val (D := D) into _ _ _ _ _ _ _ E2 E4)) _).
      cbn [bind repeat map app rc5_told_as]. do 2 f_equal. rewrite map_app, Rep. reflexivity.
    - destruct (rc5_idle_any _ ck pv g true Hr) as (ck' & R & E). change (ev (st R5Idle 0 ck pv) g true = Val (rc5_mid [] 0 pv, ROk None)) in E.
      destruct (rc5_mid_run l [] 0 0 pv ns 0 eq_refl ltac:(cbn; lia) Hl) as (ck2 & R2 & _ & E2); [rewrite Nat.add_0_r; eapply room_zero; exact R|].
      eexists. refine (eq_trans (run_cons_val (D := D) into _ _ _ _ _ _ _ _ E E2) _).
      cbn [bind repeat map rc5_told_as]. rewrite Rep. reflexivity.
  Qed.

  Lemma rc5_reads_all h os : room b 0 (length h) -> rc5_reads freq h os ->
    exists r0 r, receiver_new (rc5_protocol b m) freq = Val r0 /\ run r0 h = Val (r, map told os).
  Proof.
    intros Hr H. assert (Hf : freq < M32) by exact (exact_rate_lt m freq Hhi). pose proof (rc5_new_val b m freq Hm Hf) as E0. fold ss in E0.
    destruct (rc5_reads_run h os H 0 0 Hr) as (r & E). eexists. exists r. split; [exact E0|exact E].
  Qed.
End Rc5.

Section Rc6.
  Variables (b : build) (m : mono) (freq : N).
  Hypothesis (Hm : timebase m freq) (Hhi : exact_rate m freq) (Hu : 8 <= usize_bits b).
  Let ss := spans_of m freq rc6_pulses.
  Notation D := (rc6_dec b).
  Context {C : Type} (into : rc6_command -> C).
  Notation run := (@run_edges D C into).
  Notation ev := (@event_edge D C into).
  Notation st s data hd tg ck pv := (@mkRecv D (mkRc6Dec s data hd tg ck ss) pv).
  Notation told := (rc6_told_as into).

  Lemma rc6_count_get n d : rc6_counts freq n d -> 1 <= n <= 7 /\ spans_get ss d = Some (n - 1).
  Proof.
    intros H. assert (Hn : 1 <= n <= 7) by (unfold rc6_counts in H; lia). split; [exact Hn|].
    pose proof (rc6_counts_some m freq d Hm Hhi) as Sc. fold ss in Sc. destruct (spans_get ss d) as [k|].
    - rewrite (rc6_counts_one _ _ _ _ H Sc). f_equal. lia.
    - destruct (rc6_counts_not _ _ _ H Sc).
  Qed.
  Lemma rc6_uncounted_get d : rc6_uncounted freq d -> spans_get ss d = None.
  Proof.
    intros H. pose proof (rc6_counts_some m freq d Hm Hhi) as Sc. fold ss in Sc. destruct (spans_get ss d) as [k|]; [|reflexivity].
    destruct (rc6_counts_not _ _ _ Sc H).
  Qed.

  Lemma rc6_anew s data hd tg ck pv d (e : bool) : rc6_uncounted freq d -> ev (st s data hd tg ck pv) d e = ev (st R6Idle 0 0 tg 0 pv) d e.
  Proof.
    intros H. unfold event_edge. cbn [d_event rc6_dec rv_dec rv_prev]. unfold rc6_event.
    cbn [r6_spans r6_clock r6_state r6_data r6_headerdata r6_toggle].
    rewrite (rc6_uncounted_get d H). reflexivity.
  Qed.

  (** An edge that counts [n] units. *)
  Lemma rc6_count_ev s data hd tg ck pv d (e : bool) n k : rc6_counts freq n d -> room b ck (S k) ->
    exists ck', room b ck' k /\ N.odd ck' = N.odd (ck + n) /\
    ev (st s data hd tg ck pv) d e =
      let* d2 := rc6_transition b (mkRc6Dec s data hd tg ck' ss) e (Some n) (N.odd (ck + n)) in
      match rc6_to_state (r6_state d2) with
      | Done => Val (@mkRecv D (rc6_reset d2) pv, ROk (Some (into (rc6_from_bits (r6_data d2) (r6_toggle d2)))))
      | Error x => Val (@mkRecv D (rc6_reset d2) pv, RErr x)
      | _ => Val (@mkRecv D d2 pv, ROk None)
      end.
  Proof.
    intros Hn Hr. destruct (rc6_count_get n d Hn) as (Hn7 & Eg). pose proof (usize8 b Hu) as U.
    destruct (room_step b ck k n Hu ltac:(lia) Hr) as (c & Ec & Eo & R). exists c. split; [exact R|]. split; [exact Eo|].
    unfold event_edge. cbn [d_event rc6_dec rv_dec rv_prev]. unfold rc6_event. cbn [r6_spans r6_clock r6_state r6_data r6_headerdata r6_toggle].
    rewrite Eg, uadd_small by lia. cbn [bind]. replace (n - 1 + 1) with n by lia. rewrite Ec. cbn [bind r6_spans r6_clock r6_state r6_data r6_headerdata r6_toggle].
    rewrite odd_land, Eo. destruct (rc6_transition _ _ _ _ _) as [d2| |]; cbn [bind]; [|reflexivity|reflexivity].
    destruct (rc6_to_state (r6_state d2)); reflexivity.
  Qed.

  Lemma rc6_idle_any k hd tg ck pv d (e : bool) : room b ck (S k) -> exists hd' ck', room b ck' k /\
    ev (st R6Idle 0 hd tg ck pv) d e = Val (if e then st R6Leading 0 hd' tg 0 pv else st R6Idle 0 hd' tg ck' pv, ROk None).
  Proof.
    intros Hr. destruct (rc6_dec_counts freq d) as [(n & Hn)|Hd].
    - destruct (rc6_count_ev R6Idle 0 hd tg ck pv d e n k Hn Hr) as (ck' & R & _ & ->). exists hd, ck'. split; [exact R|].
      unfold rc6_transition. cbn [r6_spans r6_clock r6_state r6_data r6_headerdata r6_toggle]. destruct e; reflexivity.
    - rewrite rc6_anew by exact Hd. exists 0, 0. split; [apply room_less with (n := S k); [eapply room_zero; exact Hr|lia]|].
      unfold event_edge. cbn [d_event rc6_dec rv_dec rv_prev]. unfold rc6_event. cbn [r6_spans r6_clock r6_state r6_data r6_headerdata r6_toggle].
      rewrite (rc6_uncounted_get d Hd). destruct e; reflexivity.
  Qed.

  (** The states that wait for a certain edge. *)
  Lemma rc6_leader_step hd tg ck pv d (e : bool) n k : rc6_counts freq n d -> room b ck (S k) ->
    exists ck', room b ck' k /\ N.odd ck' = N.odd (ck + n) /\
    ev (st R6Leading 0 hd tg ck pv) d e = Val (st (if negb e && (n =? 6) then R6LeadingPaus else R6Idle) 0 hd tg ck' pv, ROk None).
  Proof.
    intros Hn Hr. pose proof (proj1 (rc6_count_get n d Hn)) as Hn7. destruct (rc6_count_ev R6Leading 0 hd tg ck pv d e n k Hn Hr) as (ck' & R & O & ->).
    exists ck'. split; [exact R|]. split; [exact O|]. unfold rc6_transition. cbn [r6_spans r6_clock r6_state r6_data r6_headerdata r6_toggle].
    assert (n = 1 \/ n = 2 \/ n = 3 \/ n = 4 \/ n = 5 \/ n = 6 \/ n = 7) as K by lia.
    destruct K as [->|[->|[->|[->|[->|[->| ->]]]]]]; destruct e; reflexivity.
  Qed.
  Lemma rc6_space_step hd tg ck pv d (e : bool) n k : rc6_counts freq n d -> room b ck (S k) ->
    exists ck', room b ck' k /\ N.odd ck' = N.odd (ck + n) /\
    ev (st R6LeadingPaus 0 hd tg ck pv) d e = Val (st (if e && (n =? 2) then R6HeaderData 3 else R6Idle) 0 hd tg ck' pv, ROk None).
  Proof.
    intros Hn Hr. pose proof (proj1 (rc6_count_get n d Hn)) as Hn7. destruct (rc6_count_ev R6LeadingPaus 0 hd tg ck pv d e n k Hn Hr) as (ck' & R & O & ->).
    exists ck'. split; [exact R|]. split; [exact O|]. unfold rc6_transition. cbn [r6_spans r6_clock r6_state r6_data r6_headerdata r6_toggle].
    assert (n = 1 \/ n = 2 \/ n = 3 \/ n = 4 \/ n = 5 \/ n = 6 \/ n = 7) as K by lia.
    destruct K as [->|[->|[->|[->|[->|[->| ->]]]]]]; destruct e; reflexivity.
  Qed.
  Lemma rc6_trailer_step hd tg ck pv d (e : bool) n k : rc6_counts freq n d -> room b ck (S k) ->
    exists ck', room b ck' k /\ N.odd ck' = N.odd (ck + n) /\
    ev (st R6Trailing 0 hd tg ck pv) d e =
      Val (if negb e && (n =? 1) then st R6Trailing 0 hd tg ck' pv else if negb e && (n =? 3) then st (R6Data 15) 0 hd true ck' pv
           else if e && (n =? 2) then st (R6Data 15) 0 hd false ck' pv else st R6Idle 0 hd tg ck' pv, ROk None).
  Proof.
    intros Hn Hr. pose proof (proj1 (rc6_count_get n d Hn)) as Hn7. destruct (rc6_count_ev R6Trailing 0 hd tg ck pv d e n k Hn Hr) as (ck' & R & O & ->).
    exists ck'. split; [exact R|]. split; [exact O|]. unfold rc6_transition. cbn [r6_spans r6_clock r6_state r6_data r6_headerdata r6_toggle].
    assert (n = 1 \/ n = 2 \/ n = 3 \/ n = 4 \/ n = 5 \/ n = 6 \/ n = 7) as K by lia.
    destruct K as [->|[->|[->|[->|[->|[->| ->]]]]]]; destruct e; reflexivity.
  Qed.

  (** The states that read bits: [j] bits of [last + 1] have been read. *)
  Definition rc6_hmid (pre : list bool) (hd : N) (tg : bool) (ck pv : N) : receiver D :=
    st (R6HeaderData (3 - N.of_nat (length pre))) 0 hd tg ck pv.
  Definition rc6_dmid (pre : list bool) (hd : N) (tg : bool) (ck pv : N) : receiver D :=
    st (R6Data (15 - N.of_nat (length pre))) (2 ^ (16 - N.of_nat (length pre)) * val_msb (map negb pre)) hd tg ck pv.

  Lemma rc6_hmid_step pre hd tg ck pv d (e : bool) n k : (length pre <= 3)%nat -> rc6_counts freq n d -> room b ck (S k) ->
    exists ck' hd', room b ck' k /\ N.odd ck' = N.odd (ck + n) /\
    ev (rc6_hmid pre hd tg ck pv) d e =
      Val (if N.odd (ck + n) then (if (length pre =? 3)%nat then st R6Trailing 0 hd' tg ck' pv else rc6_hmid (pre ++ [e]) hd' tg ck' pv)
           else rc6_hmid pre hd' tg ck' pv, ROk None).
  Proof.
    intros L Hn Hr. destruct (rc6_count_ev (R6HeaderData (3 - N.of_nat (length pre))) 0 hd tg ck pv d e n k Hn Hr) as (ck' & R & O & E).
    exists ck'. unfold rc6_transition in E. cbn [r6_spans r6_clock r6_state r6_data r6_headerdata r6_toggle] in E.
    unfold rc6_hmid at 1. destruct (N.odd (ck + n)); cycle 1.
    { exists hd. split; [exact R|]. split; [exact O|]. rewrite E. reflexivity. }
    unfold ushl1, usub in E. rewrite (proj2 (N.ltb_lt _ _)) in E by lia.
    destruct (Nat.eqb_spec (length pre) 3) as [L3|L3].
    - rewrite (proj2 (N.eqb_eq _ _)) in E by lia.
      destruct e; eexists; (split; [exact R|]); (split; [exact O|]); rewrite E; cbn [bind rc6_to_state r6_state]; reflexivity.
    - rewrite (proj2 (N.eqb_neq _ _)) in E by lia. rewrite (proj2 (N.leb_le _ _)) in E by lia. unfold rc6_hmid. rewrite app_length. cbn [length].
      replace (3 - N.of_nat (length pre + 1)) with (3 - N.of_nat (length pre) - 1) by lia.
      destruct e; eexists; (split; [exact R|]); (split; [exact O|]); rewrite E; reflexivity.
  Qed.

  Lemma rc6_bit pre (e : bool) : (length pre <= 15)%nat ->
    (if e then 2 ^ (16 - N.of_nat (length pre)) * val_msb (map negb pre)
     else N.lor (2 ^ (16 - N.of_nat (length pre)) * val_msb (map negb pre)) (N.shiftl 1 (15 - N.of_nat (length pre)))) =
    2 ^ (15 - N.of_nat (length pre)) * val_msb (map negb (pre ++ [e])).
  Proof.
    intros L. rewrite map_app. cbn [map]. rewrite val_msb_snoc. set (i := 15 - N.of_nat (length pre)).
    replace (16 - N.of_nat (length pre)) with (i + 1) by lia.
    assert (P : 2 ^ (i + 1) = 2 * 2 ^ i) by (rewrite N.pow_add_r; change (2 ^ 1) with 2; lia).
    destruct e; cbn [negb]; [rewrite P, N.mul_add_distr_l; lia|]. rewrite lor_low, P, !N.mul_add_distr_l. lia.
  Qed.

  Lemma rc6_dmid_step pre hd tg ck pv d (e : bool) n k : (length pre <= 15)%nat -> rc6_counts freq n d -> room b ck (S k) ->
    exists ck', room b ck' k /\ N.odd ck' = N.odd (ck + n) /\
    ev (rc6_dmid pre hd tg ck pv) d e =
      if N.odd (ck + n) then
        if (length pre =? 15)%nat then Val (st R6Idle 0 0 tg 0 pv, ROk (Some (into (rc6_from_bits (val_msb (map negb (pre ++ [e]))) tg))))
        else Val (rc6_dmid (pre ++ [e]) hd tg ck' pv, ROk None)
      else Val (rc6_dmid pre hd tg ck' pv, ROk None).
  Proof.
    intros L Hn Hr. unfold rc6_dmid at 1.
    destruct (rc6_count_ev (R6Data (15 - N.of_nat (length pre))) (2 ^ (16 - N.of_nat (length pre)) * val_msb (map negb pre)) hd tg ck pv d e n k Hn Hr) as (ck' & R & O & E).
    exists ck'. split; [exact R|]. split; [exact O|]. rewrite E. clear E. unfold rc6_transition. cbn [r6_spans r6_clock r6_state r6_data r6_headerdata r6_toggle].
    destruct (N.odd (ck + n)); [|reflexivity]. pose proof (rc6_bit pre e L) as B.
    destruct (Nat.eqb_spec (length pre) 15) as [L15|L15].
    - rewrite (proj2 (N.eqb_eq _ _)) by lia. rewrite L15 in *. change (15 - N.of_nat 15) with 0 in B. change (N.shiftl 1 0) with 1 in B. change (2 ^ 0) with 1 in B. rewrite N.mul_1_l in B.
      rewrite <- B. destruct e; cbn [bind rc6_to_state r6_state r6_data r6_toggle]; reflexivity.
    - rewrite (proj2 (N.eqb_neq _ _)) by lia. unfold ushl1, usub. rewrite (proj2 (N.ltb_lt _ _)) by lia. rewrite (proj2 (N.leb_le _ _)) by lia.
      unfold rc6_dmid. rewrite app_length. cbn [length].
      replace (16 - N.of_nat (length pre + 1)) with (15 - N.of_nat (length pre)) by lia. rewrite <- B.
      replace (15 - N.of_nat (length pre + 1)) with (15 - N.of_nat (length pre) - 1) by lia.
      destruct e; reflexivity.
  Qed.

  Lemma rc6_hmid_run tg pv l : forall pre hd ck0 ck ns k, N.odd ck = N.odd ck0 -> (length pre <= 3)%nat ->
    lacks (rc6_counts freq) true ck0 l ns (4 - length pre) -> room b ck (length l + k) ->
    exists ck' hd', room b ck' k /\ N.odd ck' = N.odd (ck0 + total ns) /\
      run (rc6_hmid pre hd tg ck pv) l = Val (rc6_hmid (pre ++ samples true ck0 l ns) hd' tg ck' pv, repeat (ROk None) (length l)).
  Proof.
    induction l as [|[e d] l IH]; intros pre hd ck0 ck ns k Ho L (HF & HL) Hr.
    - inversion HF; subst. exists ck, hd. cbn [samples total fold_right length repeat run_edges]. rewrite N.add_0_r, app_nil_r. auto.
    - cbn [map snd] in HF. inversion HF as [|n ? ns' ? Hn HF']; subst. cbn [samples] in HL |- *. rewrite app_length in HL.
      cbn [length] in Hr. destruct (rc6_hmid_step pre hd tg ck pv d e n (length l + k) L Hn Hr) as (ck1 & hd1 & R1 & O1 & E).
      assert (Oe : N.odd (ck + n) = N.odd (ck0 + n)) by (rewrite !N.odd_add, Ho; reflexivity).
      rewrite Oe in O1, E. cbn [total fold_right]. fold (total ns'). replace (ck0 + (n + total ns')) with (ck0 + n + total ns') by lia.
      destruct (N.odd (ck0 + n)) eqn:Eo; cbn [Bool.eqb app length] in HL |- *.
      + rewrite (proj2 (Nat.eqb_neq _ _)) in E by lia.
        destruct (IH (pre ++ [e]) hd1 (ck0 + n) ck1 ns' k) as (ck' & hd' & R & O & E2); auto; [congruence|rewrite app_length; cbn [length]; lia|split; [exact HF'|rewrite app_length; cbn [length]; lia]|].
        exists ck', hd'. split; [exact R|]. split; [exact O|]. rewrite <- app_assoc in E2. exact (run_cons_val (D := D) into _ _ _ _ _ _ _ _ E E2).
      + destruct (IH pre hd1 (ck0 + n) ck1 ns' k) as (ck' & hd' & R & O & E2); auto; [congruence|split; [exact HF'|exact HL]|].
        exists ck', hd'. split; [exact R|]. split; [exact O|]. exact (run_cons_val (D := D) into _ _ _ _ _ _ _ _ E E2).
  Qed.
  Lemma rc6_dmid_run hd tg pv l : forall pre ck0 ck ns k, N.odd ck = N.odd ck0 -> (length pre <= 15)%nat ->
    lacks (rc6_counts freq) true ck0 l ns (16 - length pre) -> room b ck (length l + k) ->
    exists ck', room b ck' k /\ N.odd ck' = N.odd (ck0 + total ns) /\
      run (rc6_dmid pre hd tg ck pv) l = Val (rc6_dmid (pre ++ samples true ck0 l ns) hd tg ck' pv, repeat (ROk None) (length l)).
  Proof.
    induction l as [|[e d] l IH]; intros pre ck0 ck ns k Ho L (HF & HL) Hr.
    - inversion HF; subst. exists ck. cbn [samples total fold_right length repeat run_edges]. rewrite N.add_0_r, app_nil_r. auto.
    - cbn [map snd] in HF. inversion HF as [|n ? ns' ? Hn HF']; subst. cbn [samples] in HL |- *. rewrite app_length in HL.
      cbn [length] in Hr. destruct (rc6_dmid_step pre hd tg ck pv d e n (length l + k) L Hn Hr) as (ck1 & R1 & O1 & E).
      assert (Oe : N.odd (ck + n) = N.odd (ck0 + n)) by (rewrite !N.odd_add, Ho; reflexivity).
      rewrite Oe in O1, E. cbn [total fold_right]. fold (total ns'). replace (ck0 + (n + total ns')) with (ck0 + n + total ns') by lia.
      destruct (N.odd (ck0 + n)) eqn:Eo; cbn [Bool.eqb app length] in HL |- *.
      + rewrite (proj2 (Nat.eqb_neq _ _)) in E by lia.
        destruct (IH (pre ++ [e]) (ck0 + n) ck1 ns' k) as (ck' & R & O & E2); auto; [congruence|rewrite app_length; cbn [length]; lia|split; [exact HF'|rewrite app_length; cbn [length]; lia]|].
        exists ck'. split; [exact R|]. split; [exact O|]. rewrite <- app_assoc in E2. exact (run_cons_val (D := D) into _ _ _ _ _ _ _ _ E E2).
      + destruct (IH pre (ck0 + n) ck1 ns' k) as (ck' & R & O & E2); auto; [congruence|split; [exact HF'|exact HL]|].
        exists ck'. split; [exact R|]. split; [exact O|]. exact (run_cons_val (D := D) into _ _ _ _ _ _ _ _ E E2).
  Qed.

  (** [holds] is [lacks] and one more edge. *)
  Lemma holds_last ck0 l ns bits j : holds (rc6_counts freq) true ck0 l ns bits -> length bits = S j ->
    exists l' e d ns' n, l = l' ++ [(e, d)] /\ lacks (rc6_counts freq) true ck0 l' ns' (S j) /\ rc6_counts freq n d /\
      total ns = total ns' + n /\ length (samples true ck0 l' ns') = j /\ N.odd (ck0 + total ns' + n) = true /\
      bits = samples true ck0 l' ns' ++ [e].
  Proof.
    intros (HF & Hs & l' & [e d] & ns' & n & -> & -> & Ll & Lb) L. exists l', e, d, ns', n. split; [reflexivity|].
    rewrite map_app in HF. cbn [map snd] in HF. apply Forall2_app_inv_l in HF. destruct HF as (m1 & m2 & F1 & F2 & Em).
    inversion F2 as [|? ? ? ? Hn F3]; subst. inversion F3; subst. apply app_inj_tail in Em. destruct Em as (<- & <-).
    rewrite samples_snoc in * by exact Ll. rewrite total_app. cbn [total fold_right].
    split; [split; [exact F1|lia]|]. split; [exact Hn|]. split; [unfold total; lia|]. split; [lia|].
    destruct (N.odd (ck0 + total ns' + n)); cbn [Bool.eqb] in *; [auto|]. rewrite app_nil_r in Lb. lia.
  Qed.

  Notation leading hd tg pv := (st R6Leading 0 hd tg 0 pv).

  Lemma rc6_head_run l hc hd tg pv k : rc6_head freq l hc -> room b 0 (length l + k) ->
    exists ck hd', room b ck k /\ N.odd ck = N.odd hc /\
      run (leading hd tg pv) l = Val (st R6Trailing 0 hd' tg ck pv, repeat (ROk None) (length l)).
  Proof.
    intros (lead & space & hs & ns & bits & -> & H6 & H2 & Hh & Lb & ->) Hr. cbn [length Nat.add] in Hr.
    destruct (rc6_leader_step hd tg 0 pv lead false 6 _ H6 Hr) as (c1 & R1 & O1 & E1).
    destruct (rc6_space_step hd tg c1 pv space true 2 _ H2 R1) as (c2 & R2 & O2 & E2).
    destruct (holds_last 8 hs ns bits 3 Hh Lb) as (l' & e & d & ns' & n & -> & Hl & Hn & Et & Ls & Oe & _).
    rewrite app_length in R2. cbn [length] in R2. replace (length l' + 1 + k)%nat with (length l' + S k)%nat in R2 by lia.
    assert (Ob : N.odd c2 = N.odd 8) by (rewrite O2, N.odd_add, O1; reflexivity).
    destruct (rc6_hmid_run tg pv l' [] hd 8 c2 ns' (S k) Ob ltac:(cbn; lia) Hl R2) as (c3 & hd3 & R3 & O3 & E3). cbn [app] in E3.
    destruct (rc6_hmid_step (samples true 8 l' ns') hd3 tg c3 pv d e n k ltac:(lia) Hn R3) as (c4 & hd4 & R4 & O4 & E4).
    assert (Oc : N.odd (c3 + n) = true) by (rewrite N.odd_add, O3, <- N.odd_add; exact Oe).
    rewrite Oc, (proj2 (Nat.eqb_eq _ _)) in E4 by exact Ls.
    exists c4, hd4. split; [exact R4|]. split; [rewrite O4, Oc, Et, N.add_assoc; symmetry; exact Oe|].
    refine (eq_trans (run_cons_val (D := D) into _ _ _ _ _ _ _ _ E1 (run_cons_val (D := D) into _ _ _ _ _ _ _ _ E2
      (run_edges_app_val (D := D) into _ _ _ _ _ _ _ E3 (run_cons_val (D := D) into _ _ _ _ _ [] _ [] E4 eq_refl)))) _).
    cbn [length repeat]. rewrite app_length, repeat_app. reflexivity.
  Qed.

  Lemma rc6_waits_run ws tg hd pv : forall hc ck k, rc6_waits freq ws -> N.odd ck = N.odd hc -> room b ck (length ws + k) ->
    exists ck', room b ck' k /\ N.odd ck' = N.odd (hc + N.of_nat (length ws)) /\
      run (st R6Trailing 0 hd tg ck pv) ws = Val (st R6Trailing 0 hd tg ck' pv, repeat (ROk None) (length ws)).
  Proof.
    induction ws as [|[e d] ws IH]; intros hc ck k Hw Ho Hr.
    - exists ck. cbn [length]. rewrite N.add_0_r. auto.
    - apply Forall_cons_iff in Hw. destruct Hw as ((He & Hd) & Hw). cbn [fst snd] in He, Hd. subst e. cbn [length] in Hr.
      destruct (rc6_trailer_step hd tg ck pv d false 1 _ Hd Hr) as (c1 & R1 & O1 & E1).
      destruct (IH (hc + 1) c1 k Hw) as (c2 & R2 & O2 & E2); [rewrite O1, !N.odd_add, Ho; reflexivity|exact R1|].
      exists c2. split; [exact R2|]. split; [rewrite O2; f_equal; cbn [length]; lia|]. exact (run_cons_val (D := D) into _ _ _ _ _ _ _ _ E1 E2).
  Qed.

  Lemma rc6_data_run l toggle ck0 hd tg pv k : rc6_to_data freq l toggle ck0 -> room b 0 (length l + k) ->
    exists ck hd', room b ck k /\ N.odd ck = N.odd ck0 /\
      run (leading hd tg pv) l = Val (rc6_dmid [] hd' toggle ck pv, repeat (ROk None) (length l)).
  Proof.
    intros (l1 & hc & ws & [e d] & -> & Hh & Hw & Ht & ->) Hr. rewrite !app_length in Hr. cbn [length] in Hr.
    replace (length l1 + (length ws + 1) + k)%nat with (length l1 + (length ws + S k))%nat in Hr by lia.
    destruct (rc6_head_run l1 hc hd tg pv _ Hh Hr) as (c1 & hd1 & R1 & O1 & E1).
    destruct (rc6_waits_run ws tg hd1 pv hc c1 (S k) Hw O1 R1) as (c2 & R2 & O2 & E2).
    assert (T : exists c3, room b c3 k /\ N.odd c3 = N.odd (hc + N.of_nat (length ws) + (if toggle then 3 else 2)) /\
      ev (st R6Trailing 0 hd1 tg c2 pv) d e = Val (rc6_dmid [] hd1 toggle c3 pv, ROk None)).
    { destruct toggle; destruct Ht as (He & Hd); cbn [fst snd] in He, Hd; subst e.
      - destruct (rc6_trailer_step hd1 tg c2 pv d false 3 k Hd R2) as (c3 & R3 & O3 & E3). exists c3. split; [exact R3|].
        split; [rewrite O3, !N.odd_add, O2, !N.odd_add; reflexivity|exact E3].
      - destruct (rc6_trailer_step hd1 tg c2 pv d true 2 k Hd R2) as (c3 & R3 & O3 & E3). exists c3. split; [exact R3|].
        split; [rewrite O3, !N.odd_add, O2, !N.odd_add; reflexivity|exact E3]. }
    destruct T as (c3 & R3 & O3 & E3). exists c3, hd1. split; [exact R3|]. split; [exact O3|].
    refine (eq_trans (run_edges_app_val (D := D) into _ _ _ _ _ _ _ E1 (run_edges_app_val (D := D) into _ _ _ _ _ _ _ E2
      (run_cons_val (D := D) into _ _ _ _ _ [] _ [] E3 eq_refl))) _).
    rewrite !app_length, !repeat_app. reflexivity.
  Qed.

  Definition rc6_stage (p : rc6_place) (s : rc6_state) (data : N) : Prop :=
    match p with
    | AtLeader => s = R6Leading /\ data = 0
    | AtSpace => s = R6LeadingPaus /\ data = 0
    | AtTrailer => s = R6Trailing /\ data = 0
    | AtHeader | AtData => True
    end.

  Lemma rc6_part_run l p hd tg pv k : rc6_part freq l p -> room b 0 (length l + k) ->
    exists s data hd' tg' ck, rc6_stage p s data /\ room b ck k /\
      run (leading hd tg pv) l = Val (st s data hd' tg' ck pv, repeat (ROk None) (length l)).
  Proof.
    destruct p; cbn [rc6_part rc6_stage]; intros H Hr.
    - subst l. exists R6Leading, 0, hd, tg, 0. auto.
    - destruct H as (lead & -> & H6). cbn [length Nat.add] in Hr.
      destruct (rc6_leader_step hd tg 0 pv lead false 6 _ H6 Hr) as (c1 & R1 & O1 & E1).
      exists R6LeadingPaus, 0, hd, tg, c1. split; [auto|]. split; [exact R1|].
      exact (run_cons_val (D := D) into _ _ _ _ _ [] _ [] E1 eq_refl).
    - destruct H as (lead & space & hs & ns & -> & H6 & H2 & Hl). cbn [length Nat.add] in Hr.
      destruct (rc6_leader_step hd tg 0 pv lead false 6 _ H6 Hr) as (c1 & R1 & O1 & E1).
      destruct (rc6_space_step hd tg c1 pv space true 2 _ H2 R1) as (c2 & R2 & O2 & E2).
      assert (Ob : N.odd c2 = N.odd 8) by (rewrite O2, N.odd_add, O1; reflexivity).
      destruct (rc6_hmid_run tg pv hs [] hd 8 c2 ns k Ob ltac:(cbn; lia) Hl R2) as (c3 & hd3 & R3 & O3 & E3).
      do 5 eexists. split; [exact I|]. split; [exact R3|].
      exact (run_cons_val (D := D) into _ _ _ _ _ _ _ _ E1 (run_cons_val (D := D) into _ _ _ _ _ _ _ _ E2 E3)).
    - destruct H as (l1 & hc & ws & -> & Hh & Hw). rewrite app_length, <- Nat.add_assoc in Hr.
      destruct (rc6_head_run l1 hc hd tg pv _ Hh Hr) as (c1 & hd1 & R1 & O1 & E1).
      destruct (rc6_waits_run ws tg hd1 pv hc c1 k Hw O1 R1) as (c2 & R2 & O2 & E2).
      do 5 eexists. split; [split; reflexivity|]. split; [exact R2|].
      refine (eq_trans (run_edges_app_val (D := D) into _ _ _ _ _ _ _ E1 E2) _). rewrite app_length, repeat_app. reflexivity.
    - destruct H as (l1 & toggle & ck & l2 & ns & -> & Hd & Hl). rewrite app_length, <- Nat.add_assoc in Hr.
      destruct (rc6_data_run l1 toggle ck hd tg pv _ Hd Hr) as (c1 & hd1 & R1 & O1 & E1).
      destruct (rc6_dmid_run hd1 toggle pv l2 [] ck c1 ns k O1 ltac:(cbn; lia) Hl R1) as (c2 & R2 & O2 & E2).
      do 5 eexists. split; [exact I|]. split; [exact R2|].
      refine (eq_trans (run_edges_app_val (D := D) into _ _ _ _ _ _ _ E1 E2) _). rewrite app_length, repeat_app. reflexivity.
  Qed.

  Lemma rc6_frame_run l1 toggle ck0 l2 ns bits hd tg pv : rc6_to_data freq l1 toggle ck0 -> holds (rc6_counts freq) true ck0 l2 ns bits ->
    length bits = 16%nat -> room b 0 (length (l1 ++ l2)) -> exists h,
    length (l1 ++ l2) = S h /\
    run (leading hd tg pv) (l1 ++ l2) = Val (st R6Idle 0 0 toggle 0 pv, repeat (ROk None) h ++ [told (Some (toggle, map negb bits))]).
  Proof.
    intros Hd Hh Lb Hr. destruct (holds_last ck0 l2 ns bits 15 Hh Lb) as (l' & e & d & ns' & n & -> & Hl & Hn & Et & Ls & Oe & Eb).
    rewrite !app_length in *. cbn [length] in *.
    replace (length l1 + (length l' + 1))%nat with (length l1 + (length l' + 1))%nat in Hr by lia.
    destruct (rc6_data_run l1 toggle ck0 hd tg pv _ Hd Hr) as (c1 & hd1 & R1 & O1 & E1).
    destruct (rc6_dmid_run hd1 toggle pv l' [] ck0 c1 ns' 1 O1 ltac:(cbn; lia) Hl R1) as (c2 & R2 & O2 & E2). cbn [app] in E2.
    destruct (rc6_dmid_step (samples true ck0 l' ns') hd1 toggle c2 pv d e n 0 ltac:(lia) Hn R2) as (c3 & R3 & O3 & E3).
    rewrite (N.odd_add c2 n), O2, <- N.odd_add, Oe in E3. rewrite (proj2 (Nat.eqb_eq _ _)) in E3 by exact Ls.
    rewrite <- Eb in E3. exists (length l1 + length l')%nat. split; [lia|].
    refine (eq_trans (run_edges_app_val (D := D) into _ _ _ _ _ _ _ E1 (run_edges_app_val (D := D) into _ _ _ _ _ _ _ E2
      (run_cons_val (D := D) into _ _ _ _ _ [] _ [] E3 eq_refl))) _).
    rewrite repeat_app, <- app_assoc. rewrite <- rc6_told_word by (rewrite map_length; exact Lb). reflexivity.
  Qed.

  Lemma rc6_wrong_step p s data hd tg ck pv d (e : bool) n k : rc6_stage p s data -> rc6_wrong p e n -> rc6_counts freq n d -> room b ck (S k) ->
    exists ck', room b ck' k /\ ev (st s data hd tg ck pv) d e = Val (st R6Idle 0 hd tg ck' pv, ROk None).
  Proof.
    intros Hs Hw Hn Hr. destruct p; cbn [rc6_stage rc6_wrong] in Hs, Hw; try contradiction; destruct Hs as (-> & ->).
    - destruct (rc6_leader_step hd tg ck pv d e n k Hn Hr) as (c & R & _ & ->). exists c. split; [exact R|].
      destruct e; cbn [negb andb]; [reflexivity|]. destruct (N.eqb_spec n 6) as [->|]; [destruct Hw; auto|reflexivity].
    - destruct (rc6_space_step hd tg ck pv d e n k Hn Hr) as (c & R & _ & ->). exists c. split; [exact R|].
      destruct e; cbn [negb andb]; [|reflexivity]. destruct (N.eqb_spec n 2) as [->|]; [destruct Hw; auto|reflexivity].
    - destruct (rc6_trailer_step hd tg ck pv d e n k Hn Hr) as (c & R & _ & ->). exists c. split; [exact R|]. destruct Hw as (W1 & W3 & W2).
      destruct e; cbn [negb andb].
      + destruct (N.eqb_spec n 2) as [->|]; [destruct W2; auto|reflexivity].
      + destruct (N.eqb_spec n 1) as [->|]; [destruct W1; auto|]. destruct (N.eqb_spec n 3) as [->|]; [destruct W3; auto|reflexivity].
  Qed.

  Lemma map_told_none n : map told (repeat None n) = repeat (ROk None) n.
  Proof. induction n; cbn [repeat map]; [reflexivity|]. rewrite IHn. reflexivity. Qed.
  Lemma rc6_reads_run h os : rc6_reads freq h os -> forall hd tg ck pv, room b ck (length h) ->
    exists r, run (st R6Idle 0 hd tg ck pv) h = Val (r, map told os).
  Proof.
    intros H. induction H as [|d h os _ IH|g l1 toggle ck0 l2 ns bits h os Hd Hh Lb _ IH|g l p e d h os Hp Hd _ IH|g l p e d n h os Hp Hn Hw _ IH|g l p Hp];
      intros hd tg ck pv Hr; cbn [length] in Hr.
    - eexists. reflexivity.
    - destruct (rc6_idle_any _ hd tg ck pv d false Hr) as (hd1 & c1 & R1 & E). destruct (IH hd1 tg c1 pv R1) as (r & E2). exists r.
      exact (run_cons_val (D := D) into _ _ _ _ _ _ _ _ E E2).
    - destruct (rc6_idle_any _ hd tg ck pv g true Hr) as (hd1 & c1 & R1 & E). rewrite app_length in Hr.
      assert (R0 : room b 0 (length (l1 ++ l2))) by (eapply room_less; [eapply room_zero; exact Hr|unfold edge in *; cbn [length]; lia]).
      destruct (rc6_frame_run l1 toggle ck0 l2 ns bits hd1 tg pv Hd Hh Lb R0) as (q & Eq & E2).
      destruct (IH 0 toggle 0 pv) as (r & E3); [eapply room_less; [eapply room_zero; exact Hr|unfold edge in *; cbn [length]; lia]|].
      exists r. refine (eq_trans (run_cons_val (D := D) into _ _ _ _ _ _ _ _ E (run_edges_app_val (D := D) into _ _ _ _ _ _ _ E2 E3)) _).
      rewrite Eq. cbn [repeat]. rewrite map_app. cbn [map app]. rewrite map_told_none, <- app_assoc. reflexivity.
    - destruct (rc6_idle_any _ hd tg ck pv g true Hr) as (hd1 & c1 & R1 & E). rewrite app_length in Hr.
      assert (R0 : room b 0 (length l + length ((e, d) :: h))) by (eapply room_less; [eapply room_zero; exact Hr|unfold edge in *; cbn [length]; lia]).
      destruct (rc6_part_run l p hd1 tg pv _ Hp R0) as (s & data & hd2 & tg2 & c2 & Hs & R2 & E2).
      destruct (IH 0 tg2 0 pv) as (r & E3); [eapply room_less; [eapply room_zero; exact R2|unfold edge in *; cbn [length]; lia]|].
      exists r. assert (E4 : run (st s data hd2 tg2 c2 pv) ((e, d) :: h) = Val (r, map told os)).
      { etransitivity; [|exact E3]. cbn [run_edges]. rewrite (rc6_anew s data hd2 tg2 c2 pv d e Hd). reflexivity. }
      refine (eq_trans (run_cons_val (D := D) into _ _ _ _ _ _ _ _ E (run_edges_app_val (D := D) into _ _ _ _ _ _ _ E2 E4)) _).
      rewrite map_app, map_told_none. reflexivity.
    - destruct (rc6_idle_any _ hd tg ck pv g true Hr) as (hd1 & c1 & R1 & E). rewrite app_length in Hr. cbn [length] in Hr.
      assert (R0 : room b 0 (length l + S (length h))) by (eapply room_less; [eapply room_zero; exact Hr|unfold edge in *; cbn [length]; lia]).
      destruct (rc6_part_run l p hd1 tg pv _ Hp R0) as (s & data & hd2 & tg2 & c2 & Hs & R2 & E2).
      destruct (rc6_wrong_step p s data hd2 tg2 c2 pv d e n _ Hs Hw Hn R2) as (c3 & R3 & E3).
      destruct (IH hd2 tg2 c3 pv R3) as (r & E4). exists r.
      refine (eq_trans (run_cons_val (D := D) into _ _ _ _ _ _ _ _ E (run_edges_app_val (D := D) into _ _ _ _ _ _ _ E2 (run_cons_val (D := D) into _ _ _ _ _ _ _ _ E3 E4))) _).
      rewrite map_app, map_told_none. change (S (S (length l))) with (1 + S (length l))%nat. rewrite (Nat.add_comm 1). rewrite repeat_app.
      cbn [repeat app]. rewrite <- app_assoc. reflexivity.
    - destruct (rc6_idle_any _ hd tg ck pv g true Hr) as (hd1 & c1 & R1 & E).
      assert (R0 : room b 0 (length l + 0)) by (eapply room_less; [eapply room_zero; exact Hr|unfold edge in *; cbn [length]; lia]).
      destruct (rc6_part_run l p hd1 tg pv 0 Hp R0) as (s & data & hd2 & tg2 & c2 & Hs & R2 & E2).
      eexists. refine (eq_trans (run_cons_val (D := D) into _ _ _ _ _ _ _ _ E E2) _). rewrite map_told_none. reflexivity.
  Qed.

  Lemma rc6_reads_all h os : room b 0 (length h) -> rc6_reads freq h os ->
    exists r0 r, receiver_new (rc6_protocol b m) freq = Val r0 /\ run r0 h = Val (r, map told os).
  Proof.
    intros Hr H. assert (Hf : freq < M32) by exact (exact_rate_lt m freq Hhi). pose proof (rc6_new_val b m freq Hm Hf) as E0. fold ss in E0.
    destruct (rc6_reads_run h os H 0 false 0 0 Hr) as (r & E). eexists. exists r. split; [exact E0|exact E].
  Qed.
End Rc6.
