(** * Lemmas: windows at tick rates with exact conversion *)
From Coq Require Import NArith ZArith List Bool Lia ZifyBool ZifyNat ZifyN.
From Verif Require Import Machine Spec Time Decoder Time_facts Window_facts Run_facts Spec_rate.
Import ListNotations.
Open Scope N_scope.

Lemma exact_rate_lt m freq : exact_rate m freq -> freq < M32.
Proof. intros (H & _). exact H. Qed.

Lemma exact_low m freq : freq <= 318000 -> exact_rate m freq.
Proof. intros H. split; [change (2 ^ 32) with 4294967296; lia|]. destruct m; auto. Qed.

Lemma exact_mhz m k : k <= 4294 -> exact_rate m (1000000 * k).
Proof.
  intros H. split; [change (2 ^ 32) with 4294967296; lia|].
  destruct m; auto; right; right; rewrite N.mul_comm; apply N.mod_mul; lia.
Qed.

Lemma scale_exact p freq : p <= 13500 -> exact_rate MU32 freq -> scale_with_samplerate p freq = Val (nominal freq p).
Proof.
  intros Hp (Hf & H). change (2 ^ 32) with M32 in Hf. rewrite scale_cases by (unfold M32 in *; lia).
  destruct (N.ltb_spec (p * freq) M32) as [L|L]; [reflexivity|].
  assert (E3 : freq mod 1000 = 0 -> p * (freq / 1000) / 1000 = nominal freq p).
  { intros E. unfold nominal. rewrite (N.div_mod' freq 1000) at 2. rewrite E, N.add_0_r.
    replace (p * (1000 * (freq / 1000))) with (p * (freq / 1000) * 1000) by lia.
    change 1000000 with (1000 * 1000). rewrite N.div_mul_cancel_r by lia. reflexivity. }
  assert (E6 : freq mod 1000000 = 0 -> p * (freq / 1000000) = nominal freq p).
  { intros E. unfold nominal. rewrite (N.div_mod' freq 1000000) at 2. rewrite E, N.add_0_r.
    replace (p * (1000000 * (freq / 1000000))) with (p * (freq / 1000000) * 1000000) by lia.
    rewrite N.div_mul by lia. reflexivity. }
  assert (M : freq mod 1000000 = 0 -> freq mod 1000 = 0).
  { intros E. apply N.mod_divide; [lia|]. apply N.mod_divide in E; [|lia]. destruct E as (q & ->). exists (q * 1000). lia. }
  destruct H as [H|[(H1 & H2)|H]].
  - pose proof (small_freq freq p Hp H). lia.
  - assert (B : p * (freq / 1000) <= 13500 * 318000).
    { apply N.mul_le_mono; [exact Hp|]. apply N.div_le_upper_bound; lia. }
    rewrite (proj2 (N.ltb_lt _ _)) by (unfold M32; lia). f_equal. exact (E3 H1).
  - destruct (N.ltb_spec (p * (freq / 1000)) M32) as [L1|L1]; [f_equal; exact (E3 (M H))|].
    assert (B : p * (freq / 1000000) <= 13500 * 4294).
    { apply N.mul_le_mono; [exact Hp|]. apply N.lt_succ_r. apply N.div_lt_upper_bound; unfold M32 in *; lia. }
    rewrite (proj2 (N.ltb_lt _ _)) by (unfold M32; lia). f_equal. exact (E6 H).
Qed.

Lemma spans_of_exact m freq pt : timebase m freq -> table_ok pt -> exact_rate m freq ->
  spans_of m freq pt = nominal_spans freq pt.
Proof.
  intros Hm Ht Hf. unfold spans_of, nominal_spans. apply map_ext_in. intros [p t] Hin.
  unfold table_ok in Ht. rewrite Forall_forall in Ht. apply Ht in Hin. cbn [fst snd] in *. f_equal.
  destruct m as [| |w micros cs]; cbn [base_of].
  - rewrite scale_exact by (auto; lia). reflexivity.
  - rewrite scale_exact by (auto; lia). reflexivity.
  - destruct Hm as (_ & ->). reflexivity.
Qed.

Lemma spans_get_exact k pt m freq i p t d :
  timebase m freq -> exact_rate m freq -> table_ok pt -> pulses_distinct k (spans_of m freq pt) ->
  (i < k)%nat -> nth_error pt i = Some (p, t) ->
  near freq p t d -> spans_get (spans_of m freq pt) d = Some (N.of_nat i).
Proof.
  intros Hm He Ht Hd Hi E Hn. rewrite spans_of_exact in * by auto.
  assert (A : p <= 13500 /\ t <= 25).
  { unfold table_ok in Ht. rewrite Forall_forall in Ht. specialize (Ht _ (nth_error_In _ _ E)). cbn [fst snd] in Ht. lia. }
  assert (Es : nth_error (nominal_spans freq pt) i = Some (window (nominal freq p) t)).
  { unfold nominal_spans. rewrite nth_error_map, E. reflexivity. }
  apply spans_get_hit with (s := window (nominal freq p) t); auto.
  - apply contains_window; [lia|]. exact Hn.
  - intros j s' Hj Ej. apply (Hd i j (window (nominal freq p) t) s' d Hi); auto; [lia|]. apply contains_window; [lia|]. exact Hn.
Qed.
