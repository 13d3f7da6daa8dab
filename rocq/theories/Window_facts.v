(** * The windows of the protocol tables: sizes and disjointness *)
From Coq Require Import NArith ZArith List Bool Lia ZifyBool ZifyNat ZifyN.
From Verif Require Import Machine Spec Bits Time Decoder Nec Rc5 Rc6 Denon Sbp Time_facts.
Import ListNotations.
Open Scope N_scope.

Lemma table_ok_dec pt :
  forallb (fun x => (fst x <=? 13500) && (fst x * snd x <=? 100000) && (snd x <=? 25)) pt = true ->
  table_ok pt.
Proof.
  intros H. apply Forall_forall. intros x Hx. rewrite forallb_forall in H. apply H in Hx. lia.
Qed.

Lemma nec_std_ok : table_ok (nec_pulses NEC_STANDARD_TIMING).
Proof. apply table_ok_dec. reflexivity. Qed.
Lemma nec_samsung_ok : table_ok (nec_pulses NEC_SAMSUNG_TIMING).
Proof. apply table_ok_dec. reflexivity. Qed.
Lemma rc5_ok : table_ok rc5_pulses.
Proof. apply table_ok_dec. reflexivity. Qed.
Lemma rc6_ok : table_ok rc6_pulses.
Proof. apply table_ok_dec. reflexivity. Qed.
Lemma denon_ok : table_ok denon_pulses.
Proof. apply table_ok_dec. reflexivity. Qed.
Lemma sbp_ok : table_ok sbp_pulses.
Proof. apply table_ok_dec. reflexivity. Qed.

(** Window [i] (a real pulse, [i < k]) shares no duration with any other window
    of the table, including the unused entries. *)
Definition pulses_distinct (k : nat) (ss : list span) : Prop :=
  forall i j s1 s2 d, (i < k)%nat -> i <> j ->
    nth_error ss i = Some s1 -> nth_error ss j = Some s2 ->
    contains s1 d = true -> contains s2 d = false.

Definition distinctb (k : nat) (ss : list span) : bool :=
  forallb (fun i => forallb (fun j =>
    Nat.eqb i j ||
    match nth_error ss i, nth_error ss j with
    | Some s1, Some s2 => (high s1 <? low s2) || (high s2 <? low s1)
    | _, _ => true
    end) (seq 0 (length ss))) (seq 0 k).

Lemma distinctb_ok k ss : distinctb k ss = true -> pulses_distinct k ss.
Proof.
  intros H i j s1 s2 d Hi Hij E1 E2 D1. unfold distinctb in H. rewrite forallb_forall in H.
  specialize (H i). rewrite in_seq in H. specialize (H ltac:(lia)).
  rewrite forallb_forall in H. specialize (H j). rewrite in_seq in H.
  assert (j < length ss)%nat by (apply nth_error_Some; congruence).
  specialize (H ltac:(lia)). rewrite E1, E2 in H.
  rewrite (proj2 (Nat.eqb_neq i j)) in H by auto. cbn [orb] in H.
  unfold contains in *. lia.
Qed.

(** The windows at an exactly represented rate. *)
Definition nominal_spans (freq : N) (pt : list (N * N)) : list span :=
  map (fun x => window (nominal freq (fst x)) (snd x)) pt.

Lemma spans_of_nominal m freq pt : timebase m freq -> table_ok pt -> freq <= 318000 ->
  spans_of m freq pt = nominal_spans freq pt.
Proof.
  intros Hm Ht Hf. unfold spans_of, nominal_spans. apply map_ext_in. intros [p t] Hin.
  unfold table_ok in Ht. rewrite Forall_forall in Ht. apply Ht in Hin. cbn [fst snd] in *.
  f_equal. apply base_exact.
  - apply base_of_ok; auto; unfold M32; lia.
  - apply small_freq; auto; lia.
Qed.

Fixpoint sweep_from (P : N -> bool) (n : nat) (i : N) : bool :=
  match n with O => true | S n' => P i && sweep_from P n' (i + 1) end.

Lemma sweep_from_ok P n i : sweep_from P n i = true -> forall x, i <= x -> x < i + N.of_nat n -> P x = true.
Proof.
  revert i. induction n as [|n IH]; intros i H x H1 H2; [lia|].
  cbn [sweep_from] in H. apply andb_true_iff in H. destruct H as [H H'].
  destruct (N.eq_dec x i) as [->|Hn]; auto. apply (IH (i + 1)); auto; lia.
Qed.

(** Two pulses [p] and [q] at every rate in [lo, hi): [k] is the tick count of [q],
    [apart_at] looks at the highest rate with that count; [apart_above] is the linear
    condition under which all larger counts are fine. *)
Definition apart_at (p t1 q t2 hi k : N) : bool :=
  (100 + t1) * (p * N.min (hi - 1) ((1000000 * (k + 1) - 1) / q) / 1000000)
  <? 100 * (((100 - t2) * k + 99) / 100).
Definition apart_above (p t1 q t2 K : N) : bool :=
  ((100 + t1) * p <=? (100 - t2) * q) && ((100 + t1) * p * (K + 1) <? (100 - t2) * q * K).
Definition apartb (p t1 q t2 lo hi K : N) : bool :=
  (0 <? q) && sweep_from (apart_at p t1 q t2 hi) (N.to_nat (K + 1 - nominal lo q)) (nominal lo q) &&
  ((q * hi <=? 1000000 * K) || apart_above p t1 q t2 K).

Lemma div_le_iff a b c : 0 < b -> a / b < c <-> a < b * c.
Proof.
  intros H. split; intros L.
  - pose proof (N.mul_succ_div_gt a b ltac:(lia)). nia.
  - apply N.div_lt_upper_bound; lia.
Qed.

Lemma apartb_ok p t1 q t2 lo hi K freq d :
  apartb p t1 q t2 lo hi K = true -> lo <= freq -> freq < hi ->
  (100 - t2) * nominal freq q <= 100 * d -> (100 + t1) * nominal freq p < 100 * d.
Proof.
  unfold apartb. intros H Hlo Hhi Hd. apply andb_true_iff in H. destruct H as [H H2].
  apply andb_true_iff in H. destruct H as [Hq H1]. apply N.ltb_lt in Hq.
  set (k := nominal freq q) in *.
  assert (K1 : 1000000 * k <= q * freq).
  { unfold k, nominal. apply N.mul_div_le. discriminate. }
  assert (K2 : q * freq < 1000000 * (k + 1)).
  { unfold k, nominal. pose proof (N.mul_succ_div_gt (q * freq) 1000000 ltac:(discriminate)). lia. }
  assert (K0 : nominal lo q <= k).
  { unfold k, nominal. apply N.div_le_mono; [discriminate|]. apply N.mul_le_mono_l; auto. }
  destruct (N.le_gt_cases k K) as [L|L].
  - assert (S : apart_at p t1 q t2 hi k = true).
    { eapply sweep_from_ok; [exact H1|auto|]. clear -L K0. lia. }
    unfold apart_at in S. apply N.ltb_lt in S.
    assert (F : nominal freq p <= p * N.min (hi - 1) ((1000000 * (k + 1) - 1) / q) / 1000000).
    { unfold nominal. apply N.div_le_mono; [discriminate|]. apply N.mul_le_mono_l.
      apply N.min_glb; [clear -Hhi; lia|]. apply N.div_le_lower_bound; [clear -Hq; lia|]. clear -K2. lia. }
    assert (G : 100 * (((100 - t2) * k + 99) / 100) <= 100 * d).
    { apply N.mul_le_mono_l. apply N.lt_succ_r. apply div_le_iff; [reflexivity|]. clear -Hd. lia. }
    apply N.le_lt_trans with (2 := N.lt_le_trans _ _ _ S G). apply N.mul_le_mono_l. exact F.
  - apply orb_true_iff in H2. destruct H2 as [H2|H2].
    + apply N.leb_le in H2. exfalso. assert (q * freq <= q * hi) by (apply N.mul_le_mono_l; lia). clear -H2 K1 L H. nia.
    + unfold apart_above in H2. apply andb_true_iff in H2. destruct H2 as [A B].
      apply N.leb_le in A. apply N.ltb_lt in B.
      assert (F : 1000000 * nominal freq p <= p * freq) by (apply N.mul_div_le; discriminate).
      apply N.lt_le_trans with (2 := Hd).
      apply (N.mul_lt_mono_pos_l (1000000 * q)); [lia|].
      set (x := nominal freq p) in *. set (u := 100 + t1) in *. set (v := 100 - t2) in *.
      clearbody x u v k. clear H1 Hd Hlo Hhi K0.
      assert (X1 : u * (q * (1000000 * x)) <= u * (q * (p * freq))) by (do 2 apply N.mul_le_mono_l; auto).
      assert (X2 : (u * p) * (q * freq) <= (u * p) * (1000000 * (k + 1))) by (apply N.mul_le_mono_l; lia).
      assert (X3 : (u * p) * (k + 1) < v * q * k).
      { replace k with (K + (k - K)) by lia. set (y := k - K).
        replace (u * p * (K + y + 1)) with (u * p * (K + 1) + u * p * y) by lia.
        replace (v * q * (K + y)) with (v * q * K + v * q * y) by lia.
        assert (u * p * y <= v * q * y) by (apply N.mul_le_mono_r; auto). lia. }
      assert (X4 : 1000000 * ((u * p) * (k + 1)) < 1000000 * (v * q * k)) by (apply N.mul_lt_mono_pos_l; [reflexivity|auto]).
      lia.
Qed.

(** Window [i < k] of the table against all others. *)
Definition tableb (k : nat) (pt : list (N * N)) (lo hi K : N) : bool :=
  forallb (fun i => forallb (fun j =>
    Nat.eqb i j ||
    match nth_error pt i, nth_error pt j with
    | Some (p, t), Some (q, u) => if p <? q then apartb p t q u lo hi K else apartb q u p t lo hi K
    | _, _ => true
    end) (seq 0 (length pt))) (seq 0 k).

Lemma low_rates lim thr K k pt :
  tableb k pt thr (lim + 1) K = true ->
  lim <= 318000 -> table_ok pt ->
  forall m freq, timebase m freq -> thr <= freq -> freq <= lim ->
  pulses_distinct k (spans_of m freq pt).
Proof.
  intros H Hl Ht m freq Hm H1 H2. rewrite spans_of_nominal by (auto; lia).
  intros i j s1 s2 d Hi Hij E1 E2 D1. unfold tableb in H. rewrite forallb_forall in H.
  specialize (H i). rewrite in_seq in H. specialize (H ltac:(lia)).
  rewrite forallb_forall in H. specialize (H j). rewrite in_seq in H.
  unfold nominal_spans in E1, E2. rewrite nth_error_map in E1, E2.
  destruct (nth_error pt i) as [[p t]|] eqn:P1; [|discriminate]. cbn [option_map] in E1. injection E1 as <-.
  destruct (nth_error pt j) as [[q u]|] eqn:P2; [|discriminate]. cbn [option_map] in E2. injection E2 as <-.
  assert (j < length pt)%nat by (apply nth_error_Some; congruence).
  specialize (H ltac:(lia)). rewrite (proj2 (Nat.eqb_neq i j)) in H by auto. cbn [orb fst snd] in *.
  unfold table_ok in Ht. rewrite Forall_forall in Ht.
  assert (T1 := Ht _ (nth_error_In _ _ P1)). assert (T2 := Ht _ (nth_error_In _ _ P2)). cbn [fst snd] in T1, T2.
  apply contains_window in D1; [|lia]. apply contains_window_false; [lia|]. intros D2.
  destruct (p <? q).
  - assert (C := apartb_ok p t q u thr (lim + 1) K freq d H H1 ltac:(lia) ltac:(apply D2)). unfold inwin in *. lia.
  - assert (C := apartb_ok q u p t thr (lim + 1) K freq d H H1 ltac:(lia) ltac:(apply D1)). unfold inwin in *. lia.
Qed.

Ltac idx8 j :=
  destruct j as [|[|[|[|[|[|[|[|j]]]]]]]].

(** At high rates: one linear problem for each pair of windows. *)
Ltac high_rates Hm Hf :=
  let i := fresh "i" in let j := fresh "j" in let s1 := fresh in let s2 := fresh in
  let d := fresh "d" in let Hi := fresh in let Hij := fresh in let E1 := fresh "E1" in
  let E2 := fresh "E2" in let D1 := fresh "D1" in
  intros i j s1 s2 d Hi Hij E1 E2 D1;
  idx8 i; try (exfalso; lia);
  cbn [nth_error spans_of map fst snd] in E1; injection E1 as <-;
  (apply contains_window in D1; [|lia]);
  (idx8 j; try (exfalso; lia); cbn [nth_error spans_of map fst snd] in E2;
       try (injection E2 as <-); try (destruct j; discriminate E2);
   (apply contains_window_false; [lia|]);
   clear Hi Hij;
   lazymatch goal with
   | D : inwin (base_of ?m ?f ?p) _ _ |- ~ inwin (base_of _ _ ?q) _ _ =>
     pose proof (base_of_ok m f p Hm Hf ltac:(lia));
     pose proof (base_of_ok m f q Hm Hf ltac:(lia)); clear Hm Hf;
     unfold inwin, base_ok in *; lia
   end).

Lemma nec_distinct m freq T :
  T = NEC_STANDARD_TIMING \/ T = NEC_SAMSUNG_TIMING ->
  timebase m freq -> freq < M32 -> 893 <= freq ->
  pulses_distinct 4 (spans_of m freq (nec_pulses T)).
Proof.
  intros HT Hm Hf H. destruct (N.le_gt_cases freq 318000) as [L|L].
  - destruct HT as [-> | ->]; apply low_rates with (thr := 893) (lim := 318000) (K := 40); try assumption; try lia;
      solve [apply table_ok_dec; reflexivity | vm_compute; reflexivity].
  - destruct HT as [-> | ->]; high_rates Hm Hf.
Qed.

Lemma rc5_distinct m freq :
  timebase m freq -> freq < M32 -> 1125 <= freq -> pulses_distinct 2 (spans_of m freq rc5_pulses).
Proof.
  intros Hm Hf H. destruct (N.le_gt_cases freq 318000) as [L|L].
  - apply low_rates with (thr := 1125) (lim := 318000) (K := 40); try assumption; try lia;
      solve [apply table_ok_dec; reflexivity | vm_compute; reflexivity].
  - high_rates Hm Hf.
Qed.

Lemma denon_distinct m freq :
  timebase m freq -> freq < M32 -> 1191 <= freq -> pulses_distinct 3 (spans_of m freq denon_pulses).
Proof.
  intros Hm Hf H. destruct (N.le_gt_cases freq 318000) as [L|L].
  - apply low_rates with (thr := 1191) (lim := 318000) (K := 40); try assumption; try lia;
      solve [apply table_ok_dec; reflexivity | vm_compute; reflexivity].
  - high_rates Hm Hf.
Qed.

Lemma sbp_distinct m freq :
  timebase m freq -> freq < M32 -> 1000 <= freq -> pulses_distinct 4 (spans_of m freq sbp_pulses).
Proof.
  intros Hm Hf H. destruct (N.le_gt_cases freq 318000) as [L|L].
  - apply low_rates with (thr := 1000) (lim := 318000) (K := 40); try assumption; try lia;
      solve [apply table_ok_dec; reflexivity | vm_compute; reflexivity].
  - high_rates Hm Hf.
Qed.

Lemma rc6_distinct m freq :
  timebase m freq -> freq < M32 -> 2253 <= freq -> pulses_distinct 3 (spans_of m freq rc6_pulses).
Proof.
  intros Hm Hf H. destruct (N.le_gt_cases freq 318000) as [L|L].
  - apply low_rates with (thr := 2253) (lim := 318000) (K := 40); try assumption; try lia;
      solve [apply table_ok_dec; reflexivity | vm_compute; reflexivity].
  - high_rates Hm Hf.
Qed.

