(** * Lemmas about sample-rate scaling and tolerance windows *)
From Coq Require Import NArith ZArith List Bool Lia ZifyBool ZifyNat ZifyN.
From Verif Require Import Machine Spec Bits Time.
Import ListNotations.
Open Scope N_scope.

Ltac Zify.zify_post_hook ::= Z.div_mod_to_equations.

Definition M32 : N := 4294967296.
Lemma M32_eq : 2 ^ 32 = M32. Proof. reflexivity. Qed.

(** The three regimes of the scaling loop. *)
Lemma scale_cases len rate : len < M32 -> rate < M32 ->
  scale_with_samplerate len rate =
  if len * rate <? M32 then Val (len * rate / 1000000)
  else if len * (rate / 1000) <? M32 then Val (len * (rate / 1000) / 1000)
  else if len * (rate / 1000000) <? M32 then Val (len * (rate / 1000000))
  else Panic.
Proof.
  intros Hl Hr. unfold scale_with_samplerate. rewrite <- M32_eq. cbn [scale_loop].
  destruct (len * rate <? 2 ^ 32); [reflexivity|].
  change (1000000 / 1000) with 1000.
  destruct (len * (rate / 1000) <? 2 ^ 32); [reflexivity|].
  change (1000 / 1000) with 1. rewrite N.div_div by lia. change (1000 * 1000) with 1000000.
  destruct (len * (rate / 1000000) <? 2 ^ 32).
  { cbn. rewrite N.div_1_r. reflexivity. }
  change (1 / 1000) with 0. rewrite N.div_div by lia. change (1000000 * 1000) with 1000000000.
  destruct (len * (rate / 1000000000) <? 2 ^ 32) eqn:E; [reflexivity|].
  rewrite N.div_div by lia. change (1000000000 * 1000) with 1000000000000.
  rewrite (N.div_small rate) by (unfold M32 in Hr; lia). rewrite N.mul_0_r. reflexivity.
Qed.

(** [n] is a usable tick count for [p] microseconds: exact as long as the 32-bit
    product does not overflow, otherwise at most 1/318 too small. *)
Definition base_ok (freq p n : N) : Prop :=
  1000000 * n <= p * freq /\
  (p * freq < M32 -> p * freq < 1000000 * (n + 1)) /\
  318 * (p * freq) <= 318 * (1000000 * (n + 1)) + p * freq /\
  n < M32.

Lemma mul_div_le a b k : k <> 0 -> k * (a * (b / k)) <= a * b.
Proof.
  intros H. rewrite (N.div_mod b k) at 2 by auto.
  rewrite N.mul_add_distr_l. replace (a * (k * (b / k))) with (k * (a * (b / k))) by lia. lia.
Qed.

Lemma mul_div_gt a b k : k <> 0 -> a * b <= k * (a * (b / k)) + a * (k - 1).
Proof.
  intros H. rewrite (N.div_mod b k) at 1 by auto.
  rewrite N.mul_add_distr_l. replace (a * (k * (b / k))) with (k * (a * (b / k))) by lia.
  apply N.add_le_mono_l, N.mul_le_mono_l. pose proof (N.mod_lt b k H). lia.
Qed.

Lemma scale_base len rate : len <= 13500 -> rate < M32 ->
  exists n, scale_with_samplerate len rate = Val n /\ base_ok rate len n.
Proof.
  intros Hl Hr. rewrite scale_cases by (unfold M32 in *; lia).
  destruct (N.ltb_spec (len * rate) M32) as [H1|H1].
  - eexists. split; [reflexivity|]. unfold base_ok, M32 in *. lia.
  - assert (Hf : 318000 <= rate).
    { destruct (N.le_gt_cases 318000 rate) as [|K]; auto. exfalso.
      assert (len * rate <= 13500 * rate) by (apply N.mul_le_mono_r; auto).
      unfold M32 in *. lia. }
    destruct (N.ltb_spec (len * (rate / 1000)) M32) as [H2|H2].
    + eexists. split; [reflexivity|].
      pose proof (mul_div_le len rate 1000). pose proof (mul_div_gt len rate 1000).
      assert (len * 318000 <= len * rate) by (apply N.mul_le_mono_l; auto).
      unfold base_ok, M32 in *. lia.
    + assert (Hg : 318000000 <= rate).
      { destruct (N.le_gt_cases 318000000 rate) as [|K]; auto. exfalso.
        assert (len * (rate / 1000) <= 13500 * (rate / 1000)) by (apply N.mul_le_mono_r; auto).
        unfold M32 in *. lia. }
      assert (len * (rate / 1000000) <= 13500 * (rate / 1000000)) by (apply N.mul_le_mono_r; auto).
      destruct (N.ltb_spec (len * (rate / 1000000)) M32) as [H3|H3]; [|unfold M32 in *; lia].
      eexists. split; [reflexivity|].
      pose proof (mul_div_le len rate 1000000). pose proof (mul_div_gt len rate 1000000).
      assert (len * 318000000 <= len * rate) by (apply N.mul_le_mono_l; auto).
      unfold base_ok, M32 in *. lia.
Qed.

(** The time bases of the theorems: [u32], [u64], and fugit time bases whose
    [micros] truncates the exact tick count.  The fugit tick type has at least
    32 bits. *)
Definition timebase (m : mono) (freq : N) : Prop :=
  match m with
  | MU32 | MU64 => True
  | MFugit w micros _ => 32 <= w /\ forall p, micros p = p * freq / 1000000
  end.

(** The window around a tick count. *)
Definition window (n t : N) : span := mkSpan (n - n * t / 100) (n + n * t / 100).

Lemma nominal_base freq p : p <= 13500 -> freq < M32 -> base_ok freq p (nominal freq p).
Proof.
  intros Hp Hf. assert (p * freq <= 13500 * freq) by (apply N.mul_le_mono_r; auto).
  unfold base_ok, nominal, M32 in *. lia.
Qed.

Lemma base_le freq p n : freq < M32 -> base_ok freq p n -> 1000000 * n <= p * M32.
Proof.
  intros Hf (H & _). assert (p * freq <= p * M32) by (apply N.mul_le_mono_l; lia). lia.
Qed.

Lemma pow_ge w : 32 <= w -> M32 <= 2 ^ w.
Proof. intros H. rewrite <- M32_eq. apply N.pow_le_mono_r; lia. Qed.

(** The tick count used for [p] microseconds, and the windows of a table. *)
Definition base_of (m : mono) (freq p : N) : N :=
  match m with
  | MU32 | MU64 => match scale_with_samplerate p freq with Val n => n | _ => 0 end
  | MFugit _ micros _ => micros p
  end.
Definition spans_of (m : mono) (freq : N) (pt : list (N * N)) : list span :=
  map (fun x => window (base_of m freq (fst x)) (snd x)) pt.

Lemma base_of_ok m freq p : timebase m freq -> freq < M32 -> p <= 13500 ->
  base_ok freq p (base_of m freq p).
Proof.
  intros Hm Hf Hp. destruct m as [| |w micros cs]; cbn [base_of].
  - destruct (scale_base p freq) as (n & -> & Hb); auto.
  - destruct (scale_base p freq) as (n & -> & Hb); auto.
  - destruct Hm as [Hw ->]. apply nominal_base; auto.
Qed.

Lemma create_span_val b m freq p t : timebase m freq -> freq < M32 -> p <= 13500 ->
  p * t <= 100000 -> t <= 25 ->
  create_span b m freq p t = Val (window (base_of m freq p) t).
Proof.
  intros Hm Hf Hp Hpt Ht.
  assert (L : forall n, base_ok freq p n -> n * t < M32 /\ n + n * t / 100 < M32 /\ n * t / 100 <= n).
  { intros n Hb. pose proof (base_le _ _ _ Hf Hb) as H1.
    assert (1000000 * (n * t) <= p * t * M32).
    { replace (p * t * M32) with (p * M32 * t) by lia.
      replace (1000000 * (n * t)) with (1000000 * n * t) by lia. apply N.mul_le_mono_r; auto. }
    assert (p * t * M32 <= 100000 * M32) by (apply N.mul_le_mono_r; auto).
    assert (n * t <= n * 25) by (apply N.mul_le_mono_l; auto).
    assert (p * M32 <= 13500 * M32) by (apply N.mul_le_mono_r; auto).
    unfold M32 in *. lia. }
  assert (G : forall chk chk' w n, 32 <= w -> base_ok freq p n ->
     (let* bt := umul chk w n t in
      let* lo := usub chk' w n (bt / 100) in
      let* hi := uadd chk' w n (bt / 100) in Val (mkSpan lo hi)) = Val (window n t)).
  { intros chk chk' w n Hw Hb. destruct (L n Hb) as (A & B & C). pose proof (pow_ge w Hw).
    unfold umul. rewrite (proj2 (N.ltb_lt _ _)) by lia. cbn [bind].
    unfold usub. rewrite (proj2 (N.leb_le _ _)) by lia. cbn [bind].
    unfold uadd. rewrite (proj2 (N.ltb_lt _ _)) by lia. reflexivity. }
  pose proof (base_of_ok m freq p Hm Hf Hp) as Hb.
  destruct m as [| |w micros cs]; cbn [create_span base_of] in *.
  - destruct (scale_base p freq) as (n & E & _); auto. rewrite E in *. cbn [bind].
    apply G; auto. lia.
  - destruct (scale_base p freq) as (n & E & _); auto. rewrite E in *. cbn [bind].
    apply G; auto. lia.
  - destruct Hm as [Hw _]. unfold span_new_fugit. apply G; auto.
Qed.

(** Membership in a window, without divisions. *)
Definition inwin (n t d : N) : Prop := 100 * d <= (100 + t) * n /\ (100 - t) * n <= 100 * d.

Lemma contains_window n t d : t <= 100 -> contains (window n t) d = true <-> inwin n t d.
Proof.
  intros Ht. unfold contains, window, inwin. cbn [low high].
  rewrite andb_true_iff, !N.leb_le.
  replace ((100 + t) * n) with (100 * n + n * t) by lia.
  replace ((100 - t) * n) with (100 * n - n * t) by (rewrite N.mul_sub_distr_r; lia).
  assert (n * t <= 100 * n) by (rewrite (N.mul_comm 100 n); apply N.mul_le_mono_l; auto).
  revert H. generalize (n * t). intros q Hq. lia.
Qed.

Lemma contains_window_false n t d : t <= 100 -> ~ inwin n t d -> contains (window n t) d = false.
Proof.
  intros Ht H. destruct (contains (window n t) d) eqn:E; auto. exfalso.
  apply H, contains_window; auto.
Qed.

Lemma base_exact freq p n : base_ok freq p n -> p * freq < M32 -> n = nominal freq p.
Proof. unfold base_ok, nominal. lia. Qed.

Lemma small_freq freq p : p <= 13500 -> freq <= 318000 -> p * freq < M32.
Proof.
  intros Hp Hf. assert (p * freq <= 13500 * freq) by (apply N.mul_le_mono_r; auto).
  unfold M32. lia.
Qed.

(** In the truncating regime the tick count is large and nearly exact. *)
Lemma base_big freq p n : base_ok freq p n -> M32 <= p * freq ->
  4294 <= nominal freq p /\ n <= nominal freq p /\ 317 * nominal freq p <= 318 * (n + 1).
Proof. unfold base_ok, nominal, M32. lia. Qed.

Lemma near_inwin freq p t n d : base_ok freq p n -> p <= 13500 -> 1 <= t -> t <= 25 ->
  near freq p (guaranteed freq t) d -> inwin n t d.
Proof.
  intros Hb Hp Ht1 Ht H.
  destruct (N.lt_ge_cases (p * freq) M32) as [E|E].
  - rewrite (base_exact _ _ _ Hb E). unfold near, inwin in *. generalize dependent (nominal freq p).
    intros m [H1 H2]. unfold guaranteed in *. destruct (freq <=? 318000); [auto|].
    replace ((100 + (t - 1)) * m) with ((100 + t) * m - m) in H1
      by (replace (100 + t) with (100 + (t - 1) + 1) by lia; lia).
    replace ((100 - (t - 1)) * m) with ((100 - t) * m + m) in H2
      by (replace (100 - (t - 1)) with (100 - t + 1) by lia; lia).
    lia.
  - assert (F : 318000 < freq).
    { destruct (N.le_gt_cases freq 318000) as [K|K]; auto. pose proof (small_freq _ _ Hp K). lia. }
    unfold guaranteed in H. rewrite (proj2 (N.leb_gt freq 318000)) in H by auto.
    destruct (base_big _ _ _ Hb E) as (B1 & B2 & B3).
    unfold near, inwin in *. generalize dependent (nominal freq p). intros m [H1 H2] B1 B2 B3.
    assert (K1 : (100 + t) * (317 * m) <= (100 + t) * (318 * (n + 1))) by (apply N.mul_le_mono_l; auto).
    assert (K2 : (100 - t) * n <= (100 - t) * m) by (apply N.mul_le_mono_l; auto).
    replace ((100 + (t - 1)) * m) with ((100 + t) * m - m) in H1
      by (replace (100 + t) with (100 + (t - 1) + 1) by lia; lia).
    replace ((100 - (t - 1)) * m) with ((100 - t) * m + m) in H2
      by (replace (100 - (t - 1)) with (100 - t + 1) by lia; lia).
    split; [|lia].
    replace ((100 + t) * (317 * m)) with (317 * ((100 + t) * m)) in K1 by lia.
    replace ((100 + t) * (318 * (n + 1))) with (318 * ((100 + t) * n) + 318 * (100 + t)) in K1 by lia.
    assert ((100 + t) * m <= 125 * m) by (apply N.mul_le_mono_r; lia).
    revert K1 H1 H. generalize ((100 + t) * m), ((100 + t) * n). intros a c K1 H1 H. lia.
Qed.

Lemma inwin_near freq p t n d : base_ok freq p n -> p <= 13500 -> 1 <= t -> t <= 25 ->
  inwin n t d -> near freq p (t + 1) d.
Proof.
  intros Hb Hp Ht1 Ht H.
  destruct (N.lt_ge_cases (p * freq) M32) as [E|E].
  - rewrite (base_exact _ _ _ Hb E) in H. unfold near, inwin in *. generalize dependent (nominal freq p).
    intros m [H1 H2].
    replace ((100 + (t + 1)) * m) with ((100 + t) * m + m) by lia.
    replace ((100 - t) * m) with ((100 - (t + 1)) * m + m) in H2
      by (replace (100 - t) with (100 - (t + 1) + 1) by lia; lia).
    lia.
  - destruct (base_big _ _ _ Hb E) as (B1 & B2 & B3).
    unfold near, inwin in *. generalize dependent (nominal freq p). intros m B1 B2 B3.
    destruct H as [H1 H2].
    assert (K2 : (100 + t) * n <= (100 + t) * m) by (apply N.mul_le_mono_l; auto).
    assert (K1 : (100 - t) * (317 * m) <= (100 - t) * (318 * (n + 1))) by (apply N.mul_le_mono_l; auto).
    replace ((100 + (t + 1)) * m) with ((100 + t) * m + m) by lia.
    split; [lia|].
    replace ((100 - t) * (317 * m)) with (317 * ((100 - t) * m)) in K1 by lia.
    replace ((100 - t) * (318 * (n + 1))) with (318 * ((100 - t) * n) + 318 * (100 - t)) in K1 by lia.
    replace ((100 - t) * m) with ((100 - (t + 1)) * m + m) in K1
      by (replace (100 - t) with (100 - (t + 1) + 1) by lia; lia).
    assert ((100 - (t + 1)) * m <= 98 * m) by (apply N.mul_le_mono_r; lia).
    revert K1 H2 H. generalize ((100 - (t + 1)) * m), ((100 - t) * n). intros a c K1 H2 H. lia.
Qed.

Lemma base_zero freq n : base_ok freq 0 n -> n = 0.
Proof. unfold base_ok. lia. Qed.

(** A table whose pulses are small enough for every rate. *)
Definition table_ok (pt : list (N * N)) : Prop :=
  Forall (fun x => fst x <= 13500 /\ fst x * snd x <= 100000 /\ snd x <= 25) pt.

Lemma pulse_spans_val b m freq pt : timebase m freq -> freq < M32 -> table_ok pt ->
  pulse_spans_new b m freq pt = Val (spans_of m freq pt).
Proof.
  intros Hm Hf Ht. induction Ht as [|[p t] r (H1 & H2 & H3) Hr IH]; [reflexivity|].
  cbn [pulse_spans_new spans_of map fst snd] in *. rewrite create_span_val by auto. cbn [bind].
  rewrite IH. reflexivity.
Qed.

(** [spans_get] finds the first window containing the duration. *)
Lemma spans_get_from_spec ss i d :
  match spans_get_from i ss d with
  | Some k => exists j s, k = i + N.of_nat j /\ nth_error ss j = Some s /\ contains s d = true /\
                forall j' s', (j' < j)%nat -> nth_error ss j' = Some s' -> contains s' d = false
  | None => forall s, In s ss -> contains s d = false
  end.
Proof.
  revert i. induction ss as [|s r IH]; intros i; cbn [spans_get_from].
  - intros s [].
  - destruct (contains s d) eqn:E.
    + exists 0%nat, s. repeat split; auto; [lia|]. intros j' s' H. lia.
    + specialize (IH (i + 1)). destruct (spans_get_from (i + 1) r d) as [k|].
      * destruct IH as (j & s1 & -> & H1 & H2 & H3). exists (S j), s1. repeat split; auto; [lia|].
        intros [|j'] s' Hj Hn; cbn in Hn; [injection Hn as <-; auto|]. apply (H3 j'); auto. lia.
      * intros s1 [<-|Hin]; auto.
Qed.

(** ** check_overlaps *)

Definition share (s1 s2 : span) : Prop := exists d, contains s1 d = true /\ contains s2 d = true.

Lemma check_overlaps_spec ss : (forall s, In s ss -> low s <= high s) ->
  check_overlaps ss = true <->
  exists i j s1 s2, i <> j /\ nth_error ss i = Some s1 /\ nth_error ss j = Some s2 /\ share s1 s2.
Proof.
  intros Hw. unfold check_overlaps. rewrite existsb_exists. split.
  - intros (i & Hi & H). rewrite existsb_exists in H. destruct H as (j & Hj & H).
    apply andb_true_iff in H. destruct H as [H1 H2].
    apply negb_true_iff, Nat.eqb_neq in H1.
    destruct (nth_error ss i) as [s1|] eqn:E1; [|discriminate].
    destruct (nth_error ss j) as [s2|] eqn:E2; [|discriminate].
    exists i, j, s1, s2. repeat split; auto.
    pose proof (Hw s2 (nth_error_In _ _ E2)) as L2.
    unfold overlaps in H2. apply orb_true_iff in H2. destruct H2 as [H2|H2].
    + exists (low s2). split; auto. unfold contains. lia.
    + exists (high s2). split; auto. unfold contains. lia.
  - intros (i & j & s1 & s2 & Hij & E1 & E2 & d & D1 & D2).
    assert (Hi : In i (seq 0 (length ss))) by (apply in_seq; split; [lia|]; apply nth_error_Some; congruence).
    assert (Hj : In j (seq 0 (length ss))) by (apply in_seq; split; [lia|]; apply nth_error_Some; congruence).
    assert (O : overlaps s1 s2 = true \/ overlaps s2 s1 = true).
    { unfold overlaps, contains in *. lia. }
    destruct O as [O|O].
    + exists i. split; auto. rewrite existsb_exists. exists j. split; auto.
      rewrite E1, E2, O. rewrite (proj2 (Nat.eqb_neq i j)) by auto. reflexivity.
    + exists j. split; auto. rewrite existsb_exists. exists i. split; auto.
      rewrite E1, E2, O. rewrite (proj2 (Nat.eqb_neq j i)) by auto. reflexivity.
Qed.
