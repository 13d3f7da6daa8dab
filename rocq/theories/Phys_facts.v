(** * From real time to ticks *)
From Coq Require Import NArith ZArith List Bool Lia ZifyBool ZifyNat ZifyN.
From Verif Require Import Machine Spec Bits Spec_phys Spec_cross.
Import ListNotations.
Open Scope N_scope.
Ltac Zify.zify_post_hook ::= Z.div_mod_to_equations.

(** A reading of a duration within [x] percent, off by less than [j] ticks, is within
    [t] percent of the nominal tick count. *)
Definition slack (freq x j p t : N) : bool :=
  (100 * (((100 + x) * p * freq + j * 100000000 - 1) / 100000000) <=? (100 + t) * nominal freq p) &&
  ((100 - t) * nominal freq p <=? 100 * (((100 - x) * p * freq - j * 100000000) / 100000000 + 1)) &&
  (j * 100000000 <=? (100 - x) * p * freq) && (0 <? j).

Lemma slack_ok freq G x j p t D d : 0 < G -> slack freq x j p t = true -> real_near G x p D ->
  d * G < D * freq + j * G -> D * freq < d * G + j * G -> near freq p t d.
Proof.
  intros HG Hs [H1 H2] H3 H4. unfold slack in Hs. apply andb_prop in Hs. destruct Hs as [Hs Hj].
  apply andb_prop in Hs. destruct Hs as [Hs Hs3]. apply andb_prop in Hs. destruct Hs as [Hs1 Hs2].
  apply N.leb_le in Hs1, Hs2, Hs3. apply N.ltb_lt in Hj.
  assert (U : d * 100000000 < (100 + x) * p * freq + j * 100000000).
  { apply (N.mul_lt_mono_pos_r G); [exact HG|].
    apply N.mul_le_mono_r with (p := freq) in H1.
    replace (d * 100000000 * G) with (100000000 * (d * G)) by ring.
    replace (((100 + x) * p * freq + j * 100000000) * G) with ((100 + x) * p * G * freq + 100000000 * (j * G)) by ring.
    replace (100 * 1000000 * D * freq) with (100000000 * (D * freq)) in H1 by ring. clear - H1 H3. lia. }
  assert (L : (100 - x) * p * freq < d * 100000000 + j * 100000000).
  { apply (N.mul_lt_mono_pos_r G); [exact HG|].
    apply N.mul_le_mono_r with (p := freq) in H2.
    replace ((d * 100000000 + j * 100000000) * G) with (100000000 * (d * G + j * G)) by ring.
    replace ((100 - x) * p * freq * G) with ((100 - x) * p * G * freq) by ring.
    replace (100 * 1000000 * D * freq) with (100000000 * (D * freq)) in H2 by ring. clear - H2 H4. lia. }
  assert (U' : d <= ((100 + x) * p * freq + j * 100000000 - 1) / 100000000).
  { apply N.div_le_lower_bound; [discriminate|]. clear - U Hj. lia. }
  assert (L' : ((100 - x) * p * freq - j * 100000000) / 100000000 + 1 <= d).
  { apply N.le_succ_l in L. assert (((100 - x) * p * freq - j * 100000000) / 100000000 < d); [|lia].
    apply N.div_lt_upper_bound; [discriminate|]. clear - L Hs3. lia. }
  split.
  - etransitivity; [|exact Hs1]. apply N.mul_le_mono_l, U'.
  - etransitivity; [exact Hs2|]. apply N.mul_le_mono_l, L'.
Qed.

(** Enough room for the uncertainty of the reading. *)
Lemma slack_lin freq x j p t : 0 < j -> x <= t -> t <= 100 -> 100 * (j + 1) + x <= (t - x) * nominal freq p ->
  slack freq x j p t = true.
Proof.
  intros Hj Hx Ht H. unfold slack.
  assert (N1 : nominal freq p * 1000000 <= p * freq /\ p * freq < nominal freq p * 1000000 + 1000000).
  { unfold nominal. pose proof (N.div_mod (p * freq) 1000000 ltac:(discriminate)).
    pose proof (N.mod_lt (p * freq) 1000000 ltac:(discriminate)). lia. }
  set (n := nominal freq p) in *. clearbody n. destruct N1 as [N1 N2].
  replace ((100 + x) * p * freq) with ((100 + x) * (p * freq)) by ring.
  replace ((100 - x) * p * freq) with ((100 - x) * (p * freq)) by ring.
  set (q := p * freq) in *. clearbody q.
  assert (U : (100 + x) * q <= (100 + x) * (n * 1000000 + 1000000)) by (apply N.mul_le_mono_l; lia).
  assert (L : (100 - x) * (n * 1000000) <= (100 - x) * q) by (apply N.mul_le_mono_l; lia).
  replace ((100 + x) * (n * 1000000 + 1000000)) with (100 * n * 1000000 + x * n * 1000000 + 100000000 + x * 1000000) in U by ring.
  assert (E1 : (100 - x) * (n * 1000000) + x * n * 1000000 = 100 * n * 1000000).
  { replace (x * n * 1000000) with (x * (n * 1000000)) by ring. replace (100 * n * 1000000) with (100 * (n * 1000000)) by ring.
    rewrite <- N.mul_add_distr_r. f_equal. lia. }
  assert (E2 : (t - x) * n + x * n = t * n) by (rewrite <- N.mul_add_distr_r; f_equal; lia).
  assert (E3 : (100 - t) * n + t * n = 100 * n) by (rewrite <- N.mul_add_distr_r; f_equal; lia).
  replace ((100 + t) * n) with (100 * n + t * n) by ring.
  set (xn := x * n) in *. set (tn := t * n) in *. set (dn := (t - x) * n) in *. set (ct := (100 - t) * n) in *.
  set (qu := (100 + x) * q) in *. set (ql := (100 - x) * q) in *. set (l0 := (100 - x) * (n * 1000000)) in *.
  clearbody xn tn dn ct qu ql l0. 
  rewrite !andb_true_iff, !N.leb_le, N.ltb_lt. repeat split.
  - pose proof (N.mul_div_le (qu + j * 100000000 - 1) 100000000 ltac:(discriminate)).
    set (z := (qu + j * 100000000 - 1) / 100000000) in *. clearbody z. clear - H U H0 E2 Hj. lia.
  - pose proof (N.mul_succ_div_gt (ql - j * 100000000) 100000000 ltac:(discriminate)).
    set (z := (ql - j * 100000000) / 100000000) in *. clearbody z. lia.
  - lia.
  - exact Hj.
Qed.

Lemma measured_app clock evs1 : forall t evs2,
  measured clock t (evs1 ++ evs2) = measured clock t evs1 ++ measured clock (after t evs1) evs2.
Proof.
  induction evs1 as [|[l D] r IH]; intros t evs2; cbn [app measured after]; [reflexivity|]. rewrite IH. reflexivity.
Qed.

Lemma measured_length clock evs : forall t, length (measured clock t evs) = length evs.
Proof. induction evs as [|[l D] r IH]; intros t; cbn [measured length]; [reflexivity|]. rewrite IH. reflexivity. Qed.

(** A measured mark-space pair. *)
Definition pair_read (clock : N -> N) (d d' : N * N) : Prop :=
  exists s, fst d' = clock (s + fst d) - clock s /\ fst d' + snd d' = clock (s + (fst d + snd d)) - clock s.

Section Clock.
  Variables (freq G j : N) (clock : N -> N).
  Hypothesis HG : 0 < G.
  Hypothesis Hc : counts freq G j clock.

  Lemma measured_pairs ps : forall t, exists ps',
    measured clock t (pair_edges ps) = pair_edges ps' /\ Forall2 (pair_read clock) ps ps'.
  Proof.
    induction ps as [|[m s] r IH]; intros t; cbn [pair_edges measured].
    - exists []. split; [reflexivity|constructor].
    - destruct (IH (t + m + s)) as (ps' & E & F).
      exists ((clock (t + m) - clock t, clock (t + m + s) - clock (t + m)) :: ps'). split.
      + cbn [pair_edges]. rewrite E. reflexivity.
      + constructor; [|exact F]. exists t. cbn [fst snd]. split; [reflexivity|].
        destruct (Hc t (t + m) ltac:(lia)) as (H1 & _). destruct (Hc (t + m) (t + m + s) ltac:(lia)) as (H2 & _).
        rewrite N.add_assoc. lia.
  Qed.

  Lemma read_near x p t D s : slack freq x j p t = true -> real_near G x p D -> near freq p t (clock (s + D) - clock s).
  Proof.
    intros Hs Hn. destruct (Hc s (s + D) ltac:(lia)) as (_ & H1 & H2). replace (s + D - s) with D in * by lia.
    apply (slack_ok freq G x j p t D); auto.
  Qed.

  Lemma period_read x p t d d' : slack freq x j p (guaranteed freq t) = true ->
    real_period G x p d -> pair_read clock d d' -> period_near freq p t d'.
  Proof. intros Hs Hn (s & _ & E). unfold period_near. rewrite E. apply (read_near x); auto. Qed.

  Lemma mark_read x p t d d' : slack freq x j p t = true ->
    real_near G x p (fst d) -> pair_read clock d d' -> near freq p t (fst d').
  Proof. intros Hs Hn (s & E & _). rewrite E. apply (read_near x); auto. Qed.

  Lemma bits_read x p0 p1 t0 t1 bits : slack freq x j p0 (guaranteed freq t0) = true -> slack freq x j p1 (guaranteed freq t1) = true ->
    forall ds ds', Forall2 (fun (bit : bool) d => real_period G x (if bit then p1 else p0) d) bits ds ->
    Forall2 (pair_read clock) ds ds' ->
    Forall2 (fun (bit : bool) d => if bit then period_near freq p1 t1 d else period_near freq p0 t0 d) bits ds'.
  Proof.
    intros S0 S1. induction bits as [|bt bits IH]; intros ds ds' F R; inversion F; subst; inversion R; subst; constructor; auto.
    destruct bt; eapply period_read; eauto.
    eapply IH; eauto.
  Qed.

  Lemma marks_read x lead bit ps ps' : slack freq x j lead 8 = true -> slack freq x j bit 12 = true ->
    real_marks G x lead bit ps -> Forall2 (pair_read clock) ps ps' -> marks_near freq lead bit ps'.
  Proof.
    intros S0 S1 (h & ds & -> & Hh & Hd) R. inversion R as [|h0 h' ds0 ds' R1 R2]; subst. exists h', ds'. split; [reflexivity|].
    split; [exact (mark_read x lead 8 h h' S0 Hh R1)|]. clear R R1 Hh.
    revert Hd. induction R2; intros Hd; constructor; inversion Hd; subst; eauto using mark_read.
  Qed.

  Lemma nec_read x header w ps ps' : slack freq x j header (guaranteed freq 7) = true ->
    slack freq x j 2250 (guaranteed freq 12) = true -> slack freq x j 1120 (guaranteed freq 25) = true ->
    real_nec G x header w ps -> Forall2 (pair_read clock) ps ps' -> nec_frame freq header w ps'.
  Proof.
    intros Sh S1 S0 (h & ds & -> & Hh & Hd) R. inversion R as [|h0 h' ds0 ds' R1 R2]; subst. exists h', ds'. split; [reflexivity|].
    split; [exact (period_read x header 7 h h' Sh Hh R1)|]. eapply bits_read; eauto.
  Qed.

  Lemma same_bits freq' p0 p1 t bits ds :
    Forall2 (fun (bit : bool) d => if bit then period_near freq' p1 t d else period_near freq' p0 t d) bits ds ->
    Forall2 (fun (bit : bool) d => period_near freq' (if bit then p1 else p0) t d) bits ds.
  Proof. induction 1 as [|bt d bits ds H F IH]; constructor; [destruct bt; exact H|exact IH]. Qed.

  Lemma denon_read x w ps ps' : slack freq x j 5000 (guaranteed freq 8) = true ->
    slack freq x j 1680 (guaranteed freq 10) = true -> slack freq x j 840 (guaranteed freq 10) = true ->
    real_denon G x w ps -> Forall2 (pair_read clock) ps ps' -> denon_frame freq w ps'.
  Proof.
    intros Sh S1 S0 (h & ds & -> & Hh & Hd) R. inversion R as [|h0 h' ds0 ds' R1 R2]; subst. exists h', ds'. split; [reflexivity|].
    split; [exact (period_read x 5000 8 h h' Sh Hh R1)|]. apply same_bits. eapply bits_read; eauto.
  Qed.

  Lemma sbp_read x a c ps ps' : slack freq x j 9000 (guaranteed freq 5) = true -> slack freq x j 5000 (guaranteed freq 5) = true ->
    slack freq x j 2000 (guaranteed freq 10) = true -> slack freq x j 1000 (guaranteed freq 10) = true ->
    real_sbp G x a c ps -> Forall2 (pair_read clock) ps ps' -> sbp_frame freq a c ps'.
  Proof.
    intros Sh Sp S1 S0 (h & ads & pause & cds & -> & Hh & Ha & Hp & Hcc) R. inversion R as [|h0 h' ds0 ds' R1 R2]; subst.
    apply Forall2_app_inv_l in R2. destruct R2 as (ads' & rest & Ra & Rr & ->).
    inversion Rr as [|p0 pause' cds0 cds' R3 R4]; subst.
    exists h', ads', pause', cds'. split; [reflexivity|]. split; [exact (period_read x 9000 5 h h' Sh Hh R1)|].
    split; [apply same_bits; eapply bits_read; eauto|].
    split; [exact (period_read x 5000 5 pause pause' Sp Hp R3)|]. apply same_bits; eapply bits_read; eauto.
  Qed.

  (** Biphase intervals. *)
  Lemma units_read x unit tol noms : (forall nom, In nom noms -> slack freq x j (unit * snd nom) (guaranteed freq (tol (snd nom))) = true) ->
    forall acts t, Forall2 (real_unit G x unit) noms acts -> Forall2 (biphase_near freq unit tol) noms (measured clock t acts).
  Proof.
    induction noms as [|nom noms IH]; intros Hs acts t F; inversion F as [|n0 [l D] noms0 acts0 F1 F2]; subst; cbn [measured]; constructor.
    - destruct F1 as [E1 E2]. cbn [fst snd] in *. split; [exact E1|]. cbn [snd]. apply (read_near x); auto. apply Hs. left; reflexivity.
    - apply IH; [|exact F2]. intros n Hn. apply Hs. right; exact Hn.
  Qed.

  (** The silence before a frame. *)
  Lemma gap_read p q t D s : (100 + t) * p * freq + j * 100000000 <= 100 * q * freq ->
    real_long G q D -> longer freq p t (clock (s + D) - clock s).
  Proof.
    intros Hq Hl. unfold longer, real_long in *. destruct (Hc s (s + D) ltac:(lia)) as (_ & _ & H2). replace (s + D - s) with D in * by lia.
    set (d := clock (s + D) - clock s) in *. clearbody d.
    assert (K : q * freq < (d + j) * 1000000).
    { apply (N.mul_lt_mono_pos_r G); [exact HG|]. apply N.mul_le_mono_r with (p := freq) in Hl.
      replace (q * freq * G) with (q * G * freq) by ring. replace ((d + j) * 1000000 * G) with (1000000 * (d * G + j * G)) by ring.
      replace (1000000 * D * freq) with (1000000 * (D * freq)) in Hl by ring. clear - Hl H2. lia. }
    assert (N1 : nominal freq p * 1000000 <= p * freq) by (unfold nominal; rewrite N.mul_comm; apply N.mul_div_le; discriminate).
    apply N.mul_le_mono_l with (p := 100 + t) in N1.
    replace ((100 + t) * (nominal freq p * 1000000)) with ((100 + t) * nominal freq p * 1000000) in N1 by ring.
    replace ((100 + t) * (p * freq)) with ((100 + t) * p * freq) in N1 by ring.
    replace (100 * q * freq) with (100 * (q * freq)) in Hq by ring.
    set (A := (100 + t) * nominal freq p) in *. set (B := (100 + t) * p * freq) in *. set (Q := q * freq) in *.
    clearbody A B Q. clear - Hq K N1. lia.
  Qed.
End Clock.

(** The rates at which readings off by less than [j] ticks are good enough. *)
Lemma slack_rate freq x j p t k : 1 <= j -> x < t -> t <= 100 -> k * (j + 1) <= freq ->
  (200 + t) * 1000000 <= 2 * (t - x) * p * k -> slack freq x j p t = true.
Proof.
  intros Hj Hx Ht Hk H. apply slack_lin; [lia|lia|lia|].
  assert (N2 : p * freq < (nominal freq p + 1) * 1000000).
  { unfold nominal. pose proof (N.div_mod (p * freq) 1000000 ltac:(discriminate)).
    pose proof (N.mod_lt (p * freq) 1000000 ltac:(discriminate)). lia. }
  set (n := nominal freq p) in *. clearbody n.
  apply N.mul_le_mono_l with (p := p) in Hk.
  assert (K : p * (k * (j + 1)) < (n + 1) * 1000000) by lia. clear N2 Hk freq.
  apply N.mul_le_mono_r with (p := j + 1) in H.
  assert (K' : 2 * (t - x) * (p * (k * (j + 1))) < 2 * (t - x) * ((n + 1) * 1000000)).
  { apply N.mul_lt_mono_pos_l; [lia|exact K]. }
  replace (2 * (t - x) * (p * (k * (j + 1)))) with (2 * (t - x) * p * k * (j + 1)) in K' by ring.
  replace (2 * (t - x) * ((n + 1) * 1000000)) with (2 * ((t - x) * n) * 1000000 + 2 * (t - x) * 1000000) in K' by ring.
  replace ((200 + t) * 1000000 * (j + 1)) with (200 * (j + 1) * 1000000 + (t * (j + 1)) * 1000000) in H by ring.
  assert (T : 2 * t <= t * (j + 1)) by (rewrite N.mul_comm; apply N.mul_le_mono_l; lia).
  set (z := (t - x) * n) in *. set (tj := t * (j + 1)) in *. set (y := 2 * (t - x) * p * k * (j + 1)) in *.
  clearbody z tj y. lia.
Qed.

Lemma slack_guaranteed freq x j p t k : 1 <= j -> x + 1 < t -> t <= 100 -> k * (j + 1) <= freq ->
  (200 + t) * 1000000 <= 2 * (t - 1 - x) * p * k -> slack freq x j p (guaranteed freq t) = true.
Proof.
  intros Hj Hx Ht Hk H. unfold guaranteed. destruct (freq <=? 318000).
  - apply (slack_rate _ _ _ _ _ k); [exact Hj|lia|exact Ht|exact Hk|]. etransitivity; [exact H|].
    apply N.mul_le_mono_r, N.mul_le_mono_r, N.mul_le_mono_l. lia.
  - apply (slack_rate _ _ _ _ _ k); lia.
Qed.

Lemma gap_room freq j p t q k : 1 <= j -> k * (j + 1) <= freq -> 1 <= k -> (100 + t) * p * k + 100000000 <= 100 * q * k ->
  (100 + t) * p * freq + j * 100000000 <= 100 * q * freq.
Proof.
  intros Hj Hk H1 H.
  assert (A : (100 + t) * p <= 100 * q).
  { apply (N.mul_le_mono_pos_r _ _ k); lia. }
  assert (B : freq * 100000000 <= freq * (100 * q - (100 + t) * p) * k).
  { replace (freq * (100 * q - (100 + t) * p) * k) with (freq * ((100 * q - (100 + t) * p) * k)) by ring.
    apply N.mul_le_mono_l. rewrite N.mul_sub_distr_r. lia. }
  assert (C : j * 100000000 <= freq * (100 * q - (100 + t) * p)).
  { apply (N.mul_le_mono_pos_r _ _ k); [lia|]. etransitivity; [|exact B].
    replace (j * 100000000 * k) with (k * j * 100000000) by ring. apply N.mul_le_mono_r. lia. }
  rewrite N.mul_sub_distr_l in C. 
  replace ((100 + t) * p * freq) with (freq * ((100 + t) * p)) by ring. replace (100 * q * freq) with (freq * (100 * q)) by ring.
  apply N.mul_le_mono_l with (p := freq) in A. lia.
Qed.
