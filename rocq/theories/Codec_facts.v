(** * Lemmas about the command codecs *)
From Coq Require Import NArith ZArith List Bool Lia ZifyBool ZifyNat ZifyN.
From Verif Require Import Machine Spec Bits Decoder Nec Rc5 Rc6 Denon Sbp.
Import ListNotations.
Open Scope N_scope.

Ltac pows :=
  change (2 ^ 4) with 16 in *; change (2 ^ 5) with 32 in *; change (2 ^ 6) with 64 in *;
  change (2 ^ 7) with 128 in *;
  change (2 ^ 8) with 256 in *; change (2 ^ 11) with 2048 in *; change (2 ^ 12) with 4096 in *;
  change (2 ^ 13) with 8192 in *;
  change (2 ^ 14) with 16384 in *; change (2 ^ 16) with 65536 in *; change (2 ^ 17) with 131072 in *;
  change (2 ^ 20) with 1048576 in *;
  change (2 ^ 24) with 16777216 in *; change (2 ^ 32) with 4294967296 in *.

Lemma as_u8_lt x : x < 256 -> as_u8 x = x.
Proof. intros H. unfold as_u8. pows. apply N.mod_small. lia. Qed.

Lemma as_u8_land x : as_u8 (N.land x 255) = x mod 256.
Proof. unfold as_u8. rewrite land_255. pows. apply N.mod_mod. lia. Qed.

Lemma pack_halves lo c : lo < 65536 -> c < 256 ->
  N.lor lo (N.lor (N.shiftl c 16) (N.shiftl (not_u8 c) 24))
  = lo + 65536 * c + 16777216 * compl8 c.
Proof.
  intros Hl Hc. rewrite not_u8_compl by auto. pose proof (compl8_lt c).
  rewrite N.lor_assoc. rewrite (lor_add lo) by (pows; lia).
  rewrite lor_add by (pows; lia). pows. lia.
Qed.

(** ** NEC *)

Lemma nec_pack_layout a c r : a < 256 -> c < 256 ->
  nec_pack (mkNec a c r) = Val (bytes4 a (compl8 a) c (compl8 c)).
Proof.
  intros Ha Hc. unfold nec_pack. cbn [nec_addr nec_cmd]. f_equal.
  rewrite (not_u8_compl a) by auto. pose proof (compl8_lt a).
  rewrite land_255, N.mod_small by auto. rewrite (lor_add a) by (pows; lia).
  rewrite pack_halves by (pows; lia). unfold bytes4. pows. lia.
Qed.

Lemma nec_unpack_word w rep : w < 2 ^ 32 ->
  nec_unpack w rep = Some (mkNec (field w 0 8) (field w 16 8) rep).
Proof.
  intros H. unfold nec_unpack, field. rewrite !as_u8_land, shiftr_div.
  change (2 ^ 0) with 1. rewrite N.div_1_r. reflexivity.
Qed.

Lemma bytes4_fields a b c d : a < 256 -> b < 256 -> c < 256 -> d < 256 ->
  field (bytes4 a b c d) 0 8 = a /\ field (bytes4 a b c d) 8 8 = b /\
  field (bytes4 a b c d) 16 8 = c /\ field (bytes4 a b c d) 24 8 = d.
Proof. intros. unfold field, bytes4. change (2 ^ 0) with 1. pows. lia. Qed.

Lemma nec_unpack_layout a c rep : a < 256 -> c < 256 ->
  nec_unpack (bytes4 a (compl8 a) c (compl8 c)) rep = Some (mkNec a c rep).
Proof.
  intros Ha Hc. pose proof (compl8_lt a). pose proof (compl8_lt c).
  rewrite nec_unpack_word by (apply bytes4_lt; auto).
  destruct (bytes4_fields a (compl8 a) c (compl8 c)) as (-> & _ & -> & _); auto.
Qed.

Lemma checks w :
  w < 2 ^ 32 ->
  (N.land (N.lxor (N.shiftr w 24) (N.shiftr w 16)) 255 =? 255) = (field w 24 8 =? compl8 (field w 16 8)).
Proof.
  intros H. rewrite land_lxor_255, !shiftr_div. unfold field.
  apply eq_true_iff_eq. rewrite !N.eqb_eq. pows. apply lxor_255; apply N.mod_lt; lia.
Qed.

Lemma checks_lo w :
  (N.land (N.lxor (N.shiftr w 8) w) 255 =? 255) = (field w 8 8 =? compl8 (field w 0 8)).
Proof.
  rewrite land_lxor_255, !shiftr_div. unfold field. change (2 ^ 0) with 1. rewrite N.div_1_r.
  apply eq_true_iff_eq. rewrite !N.eqb_eq. pows. apply lxor_255; apply N.mod_lt; lia.
Qed.

Lemma checks_lo_same w :
  (N.land (N.lxor (N.shiftr w 8) w) 255 =? 0) = (field w 8 8 =? field w 0 8).
Proof.
  rewrite land_lxor_255, !shiftr_div. unfold field. change (2 ^ 0) with 1. rewrite N.div_1_r.
  apply eq_true_iff_eq. rewrite !N.eqb_eq. pows. split.
  - apply N.lxor_eq.
  - intros ->. apply N.lxor_nilpotent.
Qed.

Lemma word_fields w : w < 2 ^ 32 ->
  w = bytes4 (field w 0 8) (field w 8 8) (field w 16 8) (field w 24 8).
Proof.
  intros H. unfold bytes4, field. change (2 ^ 0) with 1. pows. lia.
Qed.

Lemma field8_lt w n : field w n 8 < 256.
Proof. unfold field. apply N.mod_lt. pows. lia. Qed.

Lemma nec_validate_image w : w < 2 ^ 32 ->
  nec_validate w = true <-> exists a c r, a < 256 /\ c < 256 /\ nec_pack (mkNec a c r) = Val w.
Proof.
  intros H. unfold nec_validate. rewrite checks, checks_lo by auto.
  rewrite andb_true_iff, !N.eqb_eq. split.
  - intros [H1 H2]. exists (field w 0 8), (field w 16 8), false.
    pose proof (field8_lt w 0). pose proof (field8_lt w 16).
    repeat split; auto. rewrite nec_pack_layout by auto. f_equal.
    rewrite <- H1, <- H2. symmetry. apply word_fields. auto.
  - intros (a & c & r & Ha & Hc & E). rewrite nec_pack_layout in E by auto.
    injection E as <-. pose proof (compl8_lt a). pose proof (compl8_lt c).
    destruct (bytes4_fields a (compl8 a) c (compl8 c)) as (-> & -> & -> & ->); auto.
Qed.

(** ** Samsung *)

Lemma samsung_pack_layout a c r : a < 256 -> c < 256 ->
  samsung_pack (mkSamsung a c r) = Val (bytes4 a a c (compl8 c)).
Proof.
  intros Ha Hc. unfold samsung_pack. cbn [sam_addr sam_cmd]. f_equal.
  rewrite (lor_add a) by (pows; lia).
  rewrite pack_halves by (pows; lia). unfold bytes4. pows. lia.
Qed.

Lemma samsung_unpack_word w rep : w < 2 ^ 32 ->
  samsung_unpack w rep = Some (mkSamsung (field w 0 8) (field w 16 8) rep).
Proof.
  intros H. unfold samsung_unpack, field. rewrite !as_u8_land, shiftr_div.
  change (2 ^ 0) with 1. rewrite N.div_1_r. reflexivity.
Qed.

Lemma samsung_unpack_layout a c rep : a < 256 -> c < 256 ->
  samsung_unpack (bytes4 a a c (compl8 c)) rep = Some (mkSamsung a c rep).
Proof.
  intros Ha Hc. pose proof (compl8_lt c).
  rewrite samsung_unpack_word by (apply bytes4_lt; auto).
  destruct (bytes4_fields a a c (compl8 c)) as (-> & _ & -> & _); auto.
Qed.

Lemma samsung_validate_image w : w < 2 ^ 32 ->
  samsung_validate w = true <-> exists a c r, a < 256 /\ c < 256 /\ samsung_pack (mkSamsung a c r) = Val w.
Proof.
  intros H. unfold samsung_validate. rewrite checks, checks_lo_same by auto.
  rewrite andb_true_iff, !N.eqb_eq. split.
  - intros [H1 H2]. exists (field w 0 8), (field w 16 8), false.
    pose proof (field8_lt w 0). pose proof (field8_lt w 16).
    repeat split; auto. rewrite samsung_pack_layout by auto. f_equal.
    rewrite <- H1. rewrite <- H2 at 2. symmetry. apply word_fields. auto.
  - intros (a & c & r & Ha & Hc & E). rewrite samsung_pack_layout in E by auto.
    injection E as <-. pose proof (compl8_lt c).
    destruct (bytes4_fields a a c (compl8 c)) as (-> & -> & -> & ->); auto.
Qed.

(** ** Nec16 *)

Lemma nec16_pack_layout a c r : a < 65536 -> c < 256 ->
  nec16_pack (mkNec16 a c r) = Val (bytes4 (a mod 256) (a / 256) c (compl8 c)).
Proof.
  intros Ha Hc. unfold nec16_pack. cbn [n16_addr n16_cmd]. f_equal.
  rewrite pack_halves by (pows; lia). unfold bytes4. pows. lia.
Qed.

Lemma nec16_unpack_word w rep : w < 2 ^ 32 ->
  nec16_unpack w rep = Some (mkNec16 (field w 0 16) (field w 16 8) rep).
Proof.
  intros H. unfold nec16_unpack, field. rewrite as_u8_land, shiftr_div.
  change (2 ^ 0) with 1. rewrite N.div_1_r. unfold as_u16.
  change 65535 with (N.ones 16). rewrite N.land_ones, N.mod_mod by (pows; lia). reflexivity.
Qed.

Lemma nec16_unpack_layout a c rep : a < 65536 -> c < 256 ->
  nec16_unpack (bytes4 (a mod 256) (a / 256) c (compl8 c)) rep = Some (mkNec16 a c rep).
Proof.
  intros Ha Hc. pose proof (compl8_lt c).
  rewrite nec16_unpack_word by (apply bytes4_lt; auto; lia).
  assert (E : field (bytes4 (a mod 256) (a / 256) c (compl8 c)) 0 16 = a).
  { unfold field, bytes4. change (2 ^ 0) with 1. pows. lia. }
  rewrite E.
  destruct (bytes4_fields (a mod 256) (a / 256) c (compl8 c)) as (_ & _ & -> & _); auto; lia.
Qed.

Lemma nec16_validate_image w : w < 2 ^ 32 ->
  nec16_validate w = true <-> exists a c r, a < 65536 /\ c < 256 /\ nec16_pack (mkNec16 a c r) = Val w.
Proof.
  intros H. unfold nec16_validate. rewrite checks by auto. rewrite N.eqb_eq. split.
  - intros H1. exists (field w 0 16), (field w 16 8), false.
    pose proof (field8_lt w 16).
    assert (field w 0 16 < 65536) by (unfold field; pows; lia).
    repeat split; auto. rewrite nec16_pack_layout by auto. f_equal.
    rewrite <- H1. unfold bytes4, field. change (2 ^ 0) with 1. pows. lia.
  - intros (a & c & r & Ha & Hc & E). rewrite nec16_pack_layout in E by auto.
    injection E as <-. pose proof (compl8_lt c).
    destruct (bytes4_fields (a mod 256) (a / 256) c (compl8 c)) as (_ & _ & -> & ->); auto; lia.
Qed.

(** ** Apple *)

Lemma count_ones_bits w : count_ones32 w = N.of_nat (ones (bits_lsb 32 w)).
Proof.
  unfold count_ones32, ones, bits_lsb.
  generalize (seq 0 32). induction l as [|i r IH]; [reflexivity|].
  cbn [fold_right map filter]. rewrite IH.
  destruct (N.testbit w (N.of_nat i)); cbn [length N.b2n]; lia.
Qed.

Lemma apple_vendor w : as_u16 (N.land (N.shiftr w 5) 2047) = field w 5 11.
Proof.
  unfold as_u16, field. change 2047 with (N.ones 11). rewrite N.land_ones, shiftr_div.
  apply N.mod_small. pows. assert (w / 32 mod 2048 < 2048) by (apply N.mod_lt; lia). lia.
Qed.

Lemma apple_unpack_char w rep c : w < 2 ^ 32 ->
  apple_unpack w rep = Some c <->
  field w 5 11 = 1087 /\ Nat.odd (ones (bits_lsb 32 w)) = true /\
  c = mkApple (field w 0 5) (field w 17 7) (field w 24 8) rep.
Proof.
  intros H. unfold apple_unpack, apple_validate. rewrite apple_vendor, count_ones_bits.
  rewrite land_1.
  assert (E : (N.of_nat (ones (bits_lsb 32 w)) mod 2 =? 1) = Nat.odd (ones (bits_lsb 32 w))).
  { generalize (ones (bits_lsb 32 w)). intros n.
    rewrite <- N.bit0_mod. rewrite N.bit0_odd.
    destruct (Nat.Even_or_Odd n) as [[k ->]|[k ->]].
    - replace (N.of_nat (2 * k)) with (2 * N.of_nat k) by lia.
      rewrite N.odd_mul, Nat.odd_mul. reflexivity.
    - replace (N.of_nat (2 * k + 1)) with (2 * N.of_nat k + 1) by lia.
      rewrite N.odd_add, N.odd_mul, Nat.odd_add, Nat.odd_mul. reflexivity. }
  rewrite E.
  assert (F1 : as_u8 (N.land w 31) = field w 0 5).
  { unfold as_u8, field. change 31 with (N.ones 5). rewrite N.land_ones. change (2 ^ 0) with 1.
    pows. rewrite N.div_1_r. apply N.mod_small. lia. }
  assert (F2 : as_u8 (N.land (N.shiftr w 17) 127) = field w 17 7).
  { unfold as_u8, field. change 127 with (N.ones 7). rewrite N.land_ones, shiftr_div.
    pows. apply N.mod_small. lia. }
  assert (F3 : as_u8 (N.land (N.shiftr w 24) 255) = field w 24 8).
  { rewrite as_u8_land, shiftr_div. reflexivity. }
  rewrite F1, F2, F3.
  destruct (field w 5 11 =? 1087) eqn:V; destruct (Nat.odd (ones (bits_lsb 32 w)));
    cbn [andb negb]; rewrite ?N.eqb_eq, ?N.eqb_neq in V; split; intros K.
  all: try (injection K as <-; auto).
  all: try (destruct K as (? & ? & ->); try congruence; auto).
  all: discriminate.
Qed.

Lemma bits_lsb_app n m w : bits_lsb (n + m) w = bits_lsb n w ++ bits_lsb m (w / 2 ^ N.of_nat n).
Proof.
  unfold bits_lsb. rewrite seq_app, map_app. f_equal.
  rewrite <- (Nat.add_0_l n) at 1. cbn [plus].
  assert (E : forall k a, map (fun i => N.testbit w (N.of_nat i)) (seq (n + a) k)
            = map (fun i => N.testbit (w / 2 ^ N.of_nat n) (N.of_nat i)) (seq a k)).
  { induction k as [|k IH]; intros a; [reflexivity|]. cbn [seq map].
    rewrite <- (IH (S a)). f_equal.
    - rewrite <- N.shiftr_div_pow2, N.shiftr_spec by lia. f_equal. lia.
    - f_equal. f_equal. lia. }
  specialize (E m 0%nat). rewrite Nat.add_0_r in E. exact E.
Qed.

Lemma ones_app a b : ones (a ++ b) = (ones a + ones b)%nat.
Proof. unfold ones. rewrite filter_app, app_length. reflexivity. Qed.

Lemma bits_lsb_mod n w : bits_lsb n w = bits_lsb n (w mod 2 ^ N.of_nat n).
Proof.
  unfold bits_lsb. apply map_ext_in. intros i Hi. apply in_seq in Hi.
  rewrite N.mod_pow2_bits_low by lia. reflexivity.
Qed.

Lemma apple_unpack_inj w1 w2 rep c : w1 < 2 ^ 32 -> w2 < 2 ^ 32 ->
  apple_unpack w1 rep = Some c -> apple_unpack w2 rep = Some c -> w1 = w2.
Proof.
  intros H1 H2 E1 E2.
  apply apple_unpack_char in E1; auto. apply apple_unpack_char in E2; auto.
  destruct E1 as (V1 & P1 & ->). destruct E2 as (V2 & P2 & E).
  injection E as F0 F17 F24.
  change 32%nat with (16 + (1 + 15))%nat in P1, P2.
  rewrite !bits_lsb_app, !ones_app in P1, P2.
  rewrite (bits_lsb_mod 16 w1) in P1. rewrite (bits_lsb_mod 16 w2) in P2.
  change (2 ^ N.of_nat 16) with 65536 in *. change (2 ^ N.of_nat 1) with 2 in *.
  rewrite !N.div_div in P1, P2 by lia. change (65536 * 2) with 131072 in *.
  unfold field in *. change (2 ^ 0) with 1 in *. change (2 ^ 5) with 32 in *.
  change (2 ^ 11) with 2048 in *. pows.
  assert (SA : forall w, w mod 65536 = w mod 32 + 32 * (w / 32 mod 2048)).
  { intros w. change 65536 with (32 * 2048). apply N.mod_mul_r; lia. }
  assert (SB : forall w, w < 4294967296 ->
             w / 131072 = w / 131072 mod 128 + 128 * (w / 16777216 mod 256)).
  { clear. intros w Hw. lia. }
  rewrite !N.div_1_r in F0.
  assert (A : w1 mod 65536 = w2 mod 65536) by (rewrite (SA w1), (SA w2); congruence).
  assert (B : w1 / 131072 = w2 / 131072) by (rewrite (SB w1), (SB w2) by auto; congruence).
  rewrite A, B in P1.
  assert (C : bits_lsb 1 (w1 / 65536) = bits_lsb 1 (w2 / 65536)).
  { destruct (N.testbit (w1 / 65536) 0) eqn:T1; destruct (N.testbit (w2 / 65536) 0) eqn:T2.
    all: unfold bits_lsb in P1, P2 |- *; cbn [seq map] in P1, P2 |- *;
         change (N.of_nat 0) with 0 in *; rewrite T1 in P1; rewrite T2 in P2; rewrite T1, T2; auto.
    all: exfalso; unfold ones at 2 in P1; unfold ones at 2 in P2; cbn [filter length] in P1, P2.
    all: rewrite Nat.odd_add, ?Nat.odd_add in P1, P2; cbn [Nat.odd Nat.even negb] in P1, P2.
    all: rewrite ?Nat.odd_succ, ?Nat.even_add in *.
    all: repeat match type of P1 with context [Nat.odd ?x] => destruct (Nat.odd x) end;
         cbn in *; try discriminate.
    all: rewrite ?Nat.odd_add in *; cbn in *; try congruence. }
  apply (f_equal val_lsb) in C. rewrite !val_bits_lsb in C. change (2 ^ N.of_nat 1) with 2 in C.
  clear - A B C. lia.
Qed.

(** ** RC5 *)

Lemma rc5_pack_layout a c s t : a < 32 -> c < 64 -> s < 4 ->
  rc5_pack (mkRc5 a c s t) = c + 64 * a + 2048 * N.b2n t + 4096 * s.
Proof.
  intros Ha Hc Hs. unfold rc5_pack, ADDR_SHIFT, TOGGLE_SHIFT, START_SHIFT, as_u16.
  cbn [rc5_addr rc5_cmd rc5_start rc5_toggle].
  assert (Ht : N.b2n t <= 1) by (destruct t; cbn; lia).
  rewrite !(N.mod_small (N.shiftl _ _)) by (rewrite shiftl_mul; pows; lia).
  rewrite (N.lor_comm (N.shiftl a 6) c). rewrite (lor_add c) by (pows; lia).
  rewrite (lor_add (c + a * 2 ^ 6)) by (pows; lia). rewrite lor_add by (pows; lia). pows. lia.
Qed.

Lemma rc5_unpack_layout w :
  rc5_unpack w = mkRc5 (field w 6 5) (field w 0 6) (field w 12 2) (negb (field w 11 1 =? 0)).
Proof.
  unfold rc5_unpack, ADDR_MASK, CMD_MASK, START_MASK, TOGGLE_MASK, ADDR_SHIFT, START_SHIFT.
  assert (M : forall k s, N.shiftr (N.land w (N.shiftl (N.ones k) s)) s = field w s k).
  { intros k s. unfold field. rewrite <- N.land_ones, <- shiftr_div.
    apply N.bits_inj; intros i. rewrite N.shiftr_spec, !N.land_spec by lia.
    rewrite N.shiftr_spec by lia. rewrite N.shiftl_spec_high by lia. f_equal. f_equal. lia. }
  change 1984 with (N.shiftl (N.ones 5) 6). change 63 with (N.ones 6).
  change 12288 with (N.shiftl (N.ones 2) 12).
  rewrite !M. rewrite N.land_ones.
  assert (T : (N.land w 2048 =? 0) = (field w 11 1 =? 0)).
  { change 2048 with (N.shiftl (N.ones 1) 11). rewrite <- (M 1 11). rewrite shiftr_div. change (2 ^ 11) with 2048.
    apply eq_true_iff_eq. rewrite !N.eqb_eq.
    assert (L : N.land w (N.shiftl (N.ones 1) 11) = 2048 * N.shiftr (N.land w (N.shiftl (N.ones 1) 11)) 11).
    { rewrite N.mul_comm. change 2048 with (2 ^ 11) at 1. rewrite <- shiftl_mul.
      apply N.bits_inj; intros i. destruct (N.lt_ge_cases i 11).
      - rewrite (N.shiftl_spec_low _ 11) by auto. rewrite N.land_spec.
        rewrite N.shiftl_spec_low by auto. apply andb_false_r.
      - rewrite (N.shiftl_spec_high _ 11) by lia. rewrite N.shiftr_spec by lia.
        replace (i - 11 + 11) with i by lia. reflexivity. }
    rewrite shiftr_div in L. change (2 ^ 11) with 2048 in L. lia. }
  rewrite T. unfold field, as_u8. change (2 ^ 0) with 1. rewrite N.div_1_r.
  change (2 ^ 2) with 4. pows.
  rewrite !(N.mod_small _ 256) by lia. reflexivity.
Qed.

Lemma rc5_unpack_pack a c s t : a < 32 -> c < 64 -> s < 4 ->
  rc5_unpack (rc5_pack (mkRc5 a c s t)) = mkRc5 a c s t.
Proof.
  intros Ha Hc Hs. rewrite rc5_pack_layout by auto. rewrite rc5_unpack_layout.
  assert (Ht : N.b2n t <= 1) by (destruct t; cbn; lia).
  unfold field. change (2 ^ 0) with 1. change (2 ^ 1) with 2. change (2 ^ 2) with 4. pows.
  f_equal; try lia. destruct t; cbn [N.b2n] in *; lia.
Qed.

Lemma rc5_pack_unpack w : w < 2 ^ 14 -> rc5_pack (rc5_unpack w) = w.
Proof.
  intros H. rewrite rc5_unpack_layout. unfold field. change (2 ^ 0) with 1. change (2 ^ 1) with 2.
  change (2 ^ 2) with 4. pows. rewrite rc5_pack_layout by lia.
  destruct (w / 2048 mod 2 =? 0) eqn:E; cbn [negb N.b2n]; lia.
Qed.

(** ** RC6 *)

Lemma rc6_from_bits_word w t : w < 2 ^ 16 -> rc6_from_bits w t = mkRc6 (field w 8 8) (field w 0 8) t.
Proof.
  intros H. unfold rc6_from_bits, field. rewrite as_u8_land, shiftr_div. change (2 ^ 0) with 1.
  rewrite N.div_1_r. pows. unfold as_u8. pows. reflexivity.
Qed.

(** ** SBP *)

Lemma sbp_unpack_char a c : a < 2 ^ 16 -> c < 2 ^ 20 ->
  sbp_unpack a c = mkSbp a (field c 4 8) (field c 12 8 =? compl8 (field c 4 8)).
Proof.
  intros Ha Hc. unfold sbp_unpack, as_u8. rewrite N.lxor_comm, land_lxor_255, !shiftr_div.
  unfold field. f_equal. apply eq_true_iff_eq. rewrite !N.eqb_eq.
  replace (c / 2 ^ 4 / 2 ^ 8) with (c / 2 ^ 12) by (pows; lia).
  pows. apply lxor_255; apply N.mod_lt; lia.
Qed.
