(** * Bit-level lemmas shared by the codec proofs *)
From Coq Require Import NArith ZArith List Bool Lia ZifyBool ZifyNat ZifyN.
From Verif Require Import Machine Spec.
Import ListNotations.
Open Scope N_scope.

Ltac Zify.zify_post_hook ::= Z.div_mod_to_equations.

Lemma shiftl_mul a n : N.shiftl a n = a * 2 ^ n.
Proof. apply N.shiftl_mul_pow2. Qed.

Lemma shiftr_div a n : N.shiftr a n = a / 2 ^ n.
Proof. apply N.shiftr_div_pow2. Qed.

Lemma testbit_high a n i : a < 2 ^ n -> n <= i -> N.testbit a i = false.
Proof.
  intros H Hi. destruct (N.eq_dec a 0) as [->|Ha]; [apply N.bits_0|].
  apply N.bits_above_log2.
  apply N.log2_lt_pow2; [lia|].
  eapply N.lt_le_trans; [exact H|]. apply N.pow_le_mono_r; lia.
Qed.

Lemma land_shiftl_0 a b n : a < 2 ^ n -> N.land a (N.shiftl b n) = 0.
Proof.
  intros H. apply N.bits_inj; intros i. rewrite N.land_spec, N.bits_0.
  destruct (N.lt_ge_cases i n) as [Hi|Hi].
  - rewrite (N.shiftl_spec_low _ _ _ Hi). apply andb_false_r.
  - rewrite (testbit_high a n i); auto.
Qed.

Lemma lor_add a b n : a < 2 ^ n -> N.lor a (N.shiftl b n) = a + b * 2 ^ n.
Proof.
  intros H. rewrite <- N.shiftl_mul_pow2.
  rewrite <- N.lxor_lor by (apply land_shiftl_0; auto).
  symmetry. apply N.add_nocarry_lxor. apply land_shiftl_0; auto.
Qed.

Lemma land_255 a : N.land a 255 = a mod 256.
Proof. change 255 with (N.ones 8). apply N.land_ones. Qed.

Lemma land_1 a : N.land a 1 = a mod 2.
Proof. change 1 with (N.ones 1) at 1. apply N.land_ones. Qed.

Lemma not_u8_compl x : x < 256 -> not_u8 x = compl8 x.
Proof.
  intros H. unfold not_u8, compl8.
  assert (E : forallb (fun i => N.lxor (N.of_nat i) 255 =? 255 - N.of_nat i) (seq 0 256) = true)
    by (vm_compute; reflexivity).
  rewrite forallb_forall in E. specialize (E (N.to_nat x)).
  rewrite N2Nat.id in E. apply N.eqb_eq, E, in_seq. lia.
Qed.

Lemma lxor_255 x y : x < 256 -> y < 256 -> (N.lxor x y = 255 <-> x = compl8 y).
Proof.
  intros Hx Hy. rewrite <- not_u8_compl by auto. unfold not_u8. split; intros H.
  - rewrite <- H. rewrite (N.lxor_comm x y), <- N.lxor_assoc, N.lxor_nilpotent, N.lxor_0_l. reflexivity.
  - rewrite H. rewrite (N.lxor_comm y 255), N.lxor_assoc, N.lxor_nilpotent, N.lxor_0_r. reflexivity.
Qed.

Lemma land_lxor_255 a b : N.land (N.lxor a b) 255 = N.lxor (a mod 256) (b mod 256).
Proof.
  rewrite <- !land_255. apply N.bits_inj; intros i.
  rewrite N.land_spec, !N.lxor_spec, !N.land_spec.
  destruct (N.testbit a i), (N.testbit b i), (N.testbit 255 i); reflexivity.
Qed.

Lemma bytes4_split w : w < 2 ^ 32 ->
  w = bytes4 (w mod 256) (w / 2 ^ 8 mod 256) (w / 2 ^ 16 mod 256) (w / 2 ^ 24).
Proof.
  intros H. unfold bytes4. change (2 ^ 8) with 256. change (2 ^ 16) with 65536.
  change (2 ^ 24) with 16777216. change (2 ^ 32) with 4294967296 in H. lia.
Qed.

Lemma bytes4_inj a b c d a' b' c' d' :
  a < 256 -> b < 256 -> c < 256 -> d < 256 -> a' < 256 -> b' < 256 -> c' < 256 -> d' < 256 ->
  bytes4 a b c d = bytes4 a' b' c' d' -> a = a' /\ b = b' /\ c = c' /\ d = d'.
Proof.
  unfold bytes4. change (2 ^ 8) with 256. change (2 ^ 16) with 65536. change (2 ^ 24) with 16777216.
  lia.
Qed.

Lemma bytes4_lt a b c d : a < 256 -> b < 256 -> c < 256 -> d < 256 -> bytes4 a b c d < 2 ^ 32.
Proof.
  unfold bytes4. change (2 ^ 8) with 256. change (2 ^ 16) with 65536. change (2 ^ 24) with 16777216.
  change (2 ^ 32) with 4294967296. lia.
Qed.

Lemma compl8_lt x : compl8 x < 256.
Proof. unfold compl8. lia. Qed.

(** Finite sweeps over numbers below a bound. *)
Lemma sweep (P : N -> bool) (n : nat) :
  forallb (fun i => P (N.of_nat i)) (seq 0 n) = true -> forall x, x < N.of_nat n -> P x = true.
Proof.
  intros H x Hx. rewrite forallb_forall in H. specialize (H (N.to_nat x)).
  rewrite N2Nat.id in H. apply H, in_seq. lia.
Qed.

(** Bit lists. *)
Lemma bits_lsb_S n w : bits_lsb (S n) w = N.testbit w 0 :: bits_lsb n (w / 2).
Proof.
  unfold bits_lsb. cbn [seq map]. f_equal. rewrite <- seq_shift, map_map.
  apply map_ext. intros i. rewrite <- N.div2_div, Nat2N.inj_succ. apply N.testbit_succ_r_div2. lia.
Qed.

Lemma bits_lsb_length n w : length (bits_lsb n w) = n.
Proof. unfold bits_lsb. rewrite map_length, seq_length. reflexivity. Qed.

Lemma val_bits_lsb n w : val_lsb (bits_lsb n w) = w mod 2 ^ N.of_nat n.
Proof.
  revert w. induction n as [|n IH]; intros w.
  - cbn. symmetry. apply N.mod_1_r.
  - rewrite bits_lsb_S. cbn [val_lsb]. rewrite IH.
    rewrite Nat2N.inj_succ, N.pow_succ_r'.
    rewrite N.mod_mul_r by (try apply N.pow_nonzero; lia).
    f_equal. rewrite <- N.bit0_mod. destruct (N.testbit w 0); reflexivity.
Qed.

Lemma bits_val_lsb l : bits_lsb (length l) (val_lsb l) = l.
Proof.
  induction l as [|b r IH]; [reflexivity|].
  cbn [length val_lsb]. rewrite bits_lsb_S. f_equal.
  - rewrite N.add_comm, N.mul_comm. destruct b.
    + rewrite N.mul_comm. rewrite N.testbit_odd_0. reflexivity.
    + rewrite N.add_0_r, N.mul_comm. apply N.testbit_even_0.
  - replace (((if b then 1 else 0) + 2 * val_lsb r) / 2) with (val_lsb r); [exact IH|].
    destruct b; lia.
Qed.

Lemma val_lsb_lt l : val_lsb l < 2 ^ N.of_nat (length l).
Proof.
  induction l as [|b r IH]; [cbn; lia|].
  cbn [length val_lsb]. rewrite Nat2N.inj_succ, N.pow_succ_r'. destruct b; lia.
Qed.

(** Most significant bit first. *)
Lemma bits_msb_S n w : bits_msb (S n) w = N.testbit w (N.of_nat n) :: bits_msb n w.
Proof. unfold bits_msb, bits_lsb. rewrite seq_S, map_app, rev_app_distr. reflexivity. Qed.

Lemma bits_msb_length n w : length (bits_msb n w) = n.
Proof. unfold bits_msb. rewrite rev_length. apply bits_lsb_length. Qed.

Lemma val_lsb_app l1 l2 : val_lsb (l1 ++ l2) = val_lsb l1 + 2 ^ N.of_nat (length l1) * val_lsb l2.
Proof.
  induction l1 as [|x l1 IH]; cbn [app val_lsb length]; [change (2 ^ N.of_nat 0) with 1; lia|].
  rewrite IH, Nat2N.inj_succ, N.pow_succ_r'. lia.
Qed.

Lemma val_msb_cons x l : val_msb (x :: l) = (if x then 2 ^ N.of_nat (length l) else 0) + val_msb l.
Proof.
  unfold val_msb. cbn [rev]. rewrite val_lsb_app, rev_length. cbn [val_lsb]. destruct x; lia.
Qed.

Lemma val_bits_msb n w : val_msb (bits_msb n w) = w mod 2 ^ N.of_nat n.
Proof. unfold val_msb, bits_msb. rewrite rev_involutive. apply val_bits_lsb. Qed.

Lemma val_msb_lt l : val_msb l < 2 ^ N.of_nat (length l).
Proof. unfold val_msb. rewrite <- (rev_length l). apply val_lsb_lt. Qed.

Lemma lor_low k i : N.lor (2 ^ (i + 1) * k) (N.shiftl 1 i) = 2 ^ (i + 1) * k + 2 ^ i.
Proof.
  assert (P : 2 ^ i <> 0) by (apply N.pow_nonzero; discriminate).
  rewrite N.lor_comm, (N.mul_comm _ k), <- (shiftl_mul k), lor_add; rewrite !shiftl_mul, N.pow_add_r; change (2 ^ 1) with 2; lia.
Qed.
