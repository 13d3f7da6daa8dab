(** * Property C97: how long a command takes to send *)
From Coq Require Import NArith ZArith List Bool Lia ZifyBool ZifyNat ZifyN.
From Verif Require Import Machine Spec Spec_sender Spec_air Bits Nec Rc5 Rc6 Sender Codec_facts Encode_facts Props_codec Props_encode Sender_facts Props_sender.
Import ListNotations.
Open Scope N_scope.

(** The level of the pin in the tick with number [i], counted from 0. *)
Definition level_at (h : hal_sender) (i : nat) : bool := nth i (snd (hs_ticks (S i) h)) false.

(** ** Lemmas *)

Lemma held_length es : forall on, Forall (fun x => 1 <= x) es -> N.of_nat (length (held on es)) = total es + 1.
Proof.
  induction es as [|e es IH]; intros on H; [reflexivity|]. inversion H as [|? ? H1 H2]; subst. cbn [held total fold_right].
  rewrite app_length, repeat_length. specialize (IH (negb on) H2). unfold total in IH. lia.
Qed.
Lemma held_zeros_length k : forall on, length (held on (repeat 0 k)) = S k.
Proof. induction k as [|k IH]; intros on; [reflexivity|]. cbn [repeat held]. rewrite app_length, repeat_length, IH. reflexivity. Qed.
Lemma held_both es k : forall on, Forall (fun x => 1 <= x) es ->
  N.of_nat (length (held on (es ++ repeat 0 k))) = total es + N.of_nat k + 1.
Proof.
  induction es as [|e es IH]; intros on H.
  - cbn [app]. rewrite held_zeros_length. cbn. lia.
  - inversion H as [|? ? H1 H2]; subst. cbn [app held total fold_right].
    rewrite app_length, repeat_length. specialize (IH (negb on) H2). unfold total in IH. lia.
Qed.

(** The last two levels differ. *)
Lemma held_last es : forall on, es <> [] ->
  exists ls x, held on es = ls ++ [x; negb x].
Proof.
  induction es as [|e es IH]; intros on H; [congruence|]. cbn [held]. destruct es as [|e' es].
  - cbn [held]. assert (E : exists m, N.to_nat (N.max 1 e) = (m + 1)%nat) by (exists (N.to_nat (N.max 1 e) - 1)%nat; lia).
    destruct E as (m & ->). rewrite repeat_app. exists (repeat on m), on. rewrite <- app_assoc. reflexivity.
  - destruct (IH (negb on) ltac:(discriminate)) as (ls & x & E). rewrite E.
    exists (repeat on (N.to_nat (N.max 1 e)) ++ ls), x. rewrite app_assoc. reflexivity.
Qed.

Lemma nth_firstn_lt {A} (d : A) i k : forall l, (i < k)%nat -> nth i (firstn k l) d = nth i l d.
Proof.
  revert k. induction i as [|i IH]; intros [|k] [|x l] L; cbn; try lia; auto. apply IH. lia.
Qed.

Lemma air e h c es k : idle h -> e_encode e c (contents h) = written (0 :: es) (contents h) ->
  (length (0%N :: es) <= length (contents h))%nat ->
  skipn (length (0 :: es)) (contents h) = repeat 0 k ->
  es <> [] -> Forall (fun x => 1 <= x) es -> Forall (fun x => x < 2 ^ 32) es ->
  exists h', hs_load e h c = Val h' /\ contents h' = (0 :: es) ++ repeat 0 k /\
    off_after (level_at h') (total es + N.of_nat k + 1).
Proof.
  intros Hi E Hl Hs Hn H1 H2. unfold written in E. rewrite (proj2 (Nat.leb_le _ _)), Hs in E by exact Hl.
  destruct (C56_waveform e h c _ _ Hi E) as (h' & El & Ht).
  { apply Forall_app. split; [constructor; [reflexivity|exact H2]|].
    apply Forall_forall. intros x Hx. apply repeat_spec in Hx. subst x. reflexivity. }
  exists h'. split; [exact El|]. split.
  - rewrite (hs_load_val e h c _ _ Hi E) in El. injection El as <-. reflexivity.
  - assert (P : forall i, level_at h' i = nth i (held true (es ++ repeat 0 k)) false).
    { intros i. unfold level_at. rewrite Ht. rewrite nth_firstn_lt by lia.
      change (pin_wave ((0 :: es) ++ repeat 0 k)) with (held true (es ++ repeat 0 k)).
      destruct (Nat.lt_ge_cases i (length (held true (es ++ repeat 0 k)))) as [L|L].
      - apply app_nth1. exact L.
      - rewrite app_nth2 by exact L. rewrite nth_repeat. symmetry. apply nth_overflow. exact L. }
    pose proof (held_both es k true H1) as L. split.
    + intros i Hi2. rewrite P. apply nth_overflow. lia.
    + destruct (held_last (es ++ repeat 0 k) true) as (ls & x & Ex).
      { destruct es; [congruence|discriminate]. }
      rewrite Ex in L. rewrite app_length in L. cbn [length] in L. destruct x.
      * exists (length ls). rewrite P, Ex, app_nth2, Nat.sub_diag by lia. split; [reflexivity|lia].
      * exists (length ls + 1)%nat. rewrite P, Ex, app_nth2 by lia. replace (length ls + 1 - length ls)%nat with 1%nat by lia.
        split; [reflexivity|lia].
Qed.

(** Sums of the entries. *)
Lemma total_cons x l : total (x :: l) = x + total l.
Proof. reflexivity. Qed.
Lemma nec_bits_total ticks bits :
  total (flat_map (fun bit : bool => [ticks 560; ticks (if bit then 1690 else 560)]) bits) =
  N.of_nat (ones bits) * (ticks 560 + ticks 1690) + N.of_nat (length bits - ones bits) * (2 * ticks 560) /\
  (ones bits <= length bits)%nat.
Proof.
  induction bits as [|x bits [IH L]]; [split; reflexivity|]. cbn [flat_map app]. rewrite !total_cons, IH.
  assert (Eo : ones (x :: bits) = ((if x then 1 else 0) + ones bits)%nat) by (destruct x; reflexivity).
  rewrite Eo. cbn [length]. split; [|destruct x; lia]. set (o := ones bits) in *. set (n := length bits) in *.
  destruct x; cbn [Nat.add]; generalize (ticks 560) (ticks 1690); intros t u.
  - replace (S n - S o)%nat with (n - o)%nat by lia. replace (N.of_nat (S o)) with (N.of_nat o + 1) by lia. ring.
  - replace (N.of_nat (S n - o)) with (N.of_nat (n - o) + 1) by lia. ring.
Qed.

Lemma nec_total ticks hm hs w :
  total (tl (nec_buffer ticks hm hs w)) = nec_air ticks hm hs (N.of_nat (ones (bits_lsb 32 w))).
Proof.
  unfold nec_buffer, nec_air. cbn [tl]. rewrite !total_cons.
  destruct (nec_bits_total ticks (bits_lsb 32 w)) as (E & L). rewrite E.
  assert (Ll : length (bits_lsb 32 w) = 32%nat) by (unfold bits_lsb; rewrite map_length; apply seq_length).
  rewrite Ll in *. replace (N.of_nat (32 - ones (bits_lsb 32 w))) with (32 - N.of_nat (ones (bits_lsb 32 w))) by lia.
  rewrite !N.add_assoc. reflexivity.
Qed.

Lemma khz_pos F p : 2000 <= F -> 560 <= p -> 1 <= khz_ticks F p.
Proof.
  intros HF Hp. unfold khz_ticks. rewrite (proj2 (N.leb_gt F 1000)) by lia.
  apply N.div_le_lower_bound; [discriminate|]. assert (2 <= F / 1000) by (apply N.div_le_lower_bound; [discriminate|exact HF]).
  nia.
Qed.
Lemma khz_fits F p : 2000 <= F -> F < 477219000 -> p <= 9000 -> khz_ticks F p < 2 ^ 32.
Proof.
  intros HF HG Hp. unfold khz_ticks. rewrite (proj2 (N.leb_gt F 1000)) by lia.
  apply N.div_lt_upper_bound; [discriminate|]. assert (F / 1000 < 477219) by (apply N.div_lt_upper_bound; [discriminate|lia]).
  change (2 ^ 32) with 4294967296. nia.
Qed.

Lemma nec_forall (P : N -> Prop) ticks hm hs w :
  P (ticks hm) -> P (ticks hs) -> P (ticks 560) -> P (ticks 1690) -> Forall P (tl (nec_buffer ticks hm hs w)).
Proof.
  intros H1 H2 H3 H4. unfold nec_buffer. cbn [tl]. do 2 (apply Forall_cons; [assumption|]).
  induction (bits_lsb 32 w) as [|x bits IH]; [constructor|]. cbn [flat_map app]. apply Forall_cons; [exact H3|].
  apply Forall_cons; [destruct x; assumption|]. exact IH.
Qed.

(** Ones of a byte, of its complement and of four bytes. *)
Definition ones8 (x : N) : nat := ones (bits_lsb 8 x).
Lemma ones_negb l : (ones (map negb l) + ones l = length l)%nat.
Proof. induction l as [|[|] l IH]; [reflexivity| |]; unfold ones in *; cbn [map negb filter length]; lia. Qed.
Lemma ones8_compl x : x < 256 -> (ones8 (compl8 x) + ones8 x = 8)%nat.
Proof.
  intros H. unfold ones8. replace (bits_lsb 8 (compl8 x)) with (map negb (bits_lsb 8 x)).
  - rewrite ones_negb. reflexivity.
  - unfold bits_lsb. rewrite map_map. apply map_ext_in. intros i Hi. apply in_seq in Hi.
    rewrite <- not_u8_compl by exact H. unfold not_u8. rewrite N.lxor_spec.
    replace (N.testbit 255 (N.of_nat i)) with true; [destruct (N.testbit x (N.of_nat i)); reflexivity|].
    symmetry. change 255 with (N.ones 8). apply N.ones_spec_low. lia.
Qed.

Lemma ones_bytes4 p q r s : p < 256 -> q < 256 -> r < 256 -> s < 256 ->
  ones (bits_lsb 32 (bytes4 p q r s)) = (ones8 p + ones8 q + ones8 r + ones8 s)%nat.
Proof.
  intros Hp Hq Hr Hs. change 32%nat with (8 + (8 + (8 + 8)))%nat. rewrite !bits_lsb_app, !ones_app.
  change (2 ^ N.of_nat 8) with 256. unfold ones8, bytes4.
  change (2 ^ 8) with 256. change (2 ^ 16) with 65536. change (2 ^ 24) with 16777216.
  assert (E1 : (p + 256 * q + 65536 * r + 16777216 * s) / 256 = q + 256 * r + 65536 * s).
  { symmetry. apply (N.div_unique _ 256 _ p); lia. }
  assert (E2 : (q + 256 * r + 65536 * s) / 256 = r + 256 * s) by (symmetry; apply (N.div_unique _ 256 _ q); lia).
  assert (E3 : (r + 256 * s) / 256 = s) by (symmetry; apply (N.div_unique _ 256 _ r); lia).
  assert (M : forall x y, x < 256 -> bits_lsb 8 (x + 256 * y) = bits_lsb 8 x).
  { intros x y Hx. rewrite (bits_lsb_mod 8 (x + 256 * y)), (bits_lsb_mod 8 x). change (2 ^ N.of_nat 8) with 256. f_equal.
    rewrite (N.mul_comm 256), N.mod_add by discriminate. reflexivity. }
  rewrite E1, E2, E3. replace (p + 256 * q + 65536 * r + 16777216 * s) with (p + 256 * (q + 256 * r + 65536 * s)) by lia.
  replace (q + 256 * r + 65536 * s) with (q + 256 * (r + 256 * s)) by lia. rewrite !M by assumption. lia.
Qed.

(** Any word. *)
Lemma nec_word_air F V hm hs c w : In (V, hm, hs) nec_senders -> 2000 <= F -> F < 477219000 -> nv_pack V c = Val w ->
  exists enc, nec_encoder V F = Some (mkEncoder (nv_cmd V) enc) /\
  forall h old k, idle h -> contents h = old ++ repeat 0 k -> length old = 67%nat ->
  exists h', hs_load (mkEncoder (nv_cmd V) enc) h c = Val h' /\
    contents h' = nec_buffer (khz_ticks F) hm hs w ++ repeat 0 k /\
    off_after (level_at h') (nec_air (khz_ticks F) hm hs (N.of_nat (ones (bits_lsb 32 w))) + N.of_nat k + 1).
Proof.
  intros Hin HF HG Hp.
  destruct (C52_nec_encoder F V hm hs Hin (proj1 (C52_nec_encoder_exists F V hm hs Hin) HG)) as (enc & Ee & Hw).
  exists enc. split; [exact Ee|]. intros h old k Hi Hc Ho. destruct (Hw c w (contents h) Hp) as (Ew & L67).
  assert (Hh : 560 <= hm <= 9000 /\ 560 <= hs <= 9000).
  { unfold nec_senders in Hin. cbn [In] in Hin. destruct Hin as [E|[E|[E|[E|[]]]]]; injection E as <- <- <-; lia. }
  rewrite <- nec_total. apply (air (mkEncoder (nv_cmd V) enc) h c (tl (nec_buffer (khz_ticks F) hm hs w)) k Hi).
  - exact Ew.
  - change (0 :: tl (nec_buffer (khz_ticks F) hm hs w)) with (nec_buffer (khz_ticks F) hm hs w). rewrite L67, Hc, app_length, Ho. lia.
  - change (0 :: tl (nec_buffer (khz_ticks F) hm hs w)) with (nec_buffer (khz_ticks F) hm hs w).
    rewrite L67, Hc, <- Ho, skipn_app, skipn_all, Nat.sub_diag. reflexivity.
  - discriminate.
  - apply nec_forall; apply khz_pos; lia.
  - apply nec_forall; apply khz_fits; lia.
Qed.

(** ** C97 *)

(** A sender with a buffer of [67 + k] entries, of which those after the first 67 are still 0 (as
    in a new sender, and again after every command of the NEC family): every [Nec] command
    takes the same number of ticks. *)
Theorem C97_nec :
  forall F a c r, a < 2 ^ 8 -> c < 2 ^ 8 -> 2000 <= F -> F < 477219000 ->
  exists enc, nec_encoder NecStandard F = Some (mkEncoder nec_command enc) /\
  forall h old k, idle h -> contents h = old ++ repeat 0 k -> length old = 67%nat ->
  exists h' new, hs_load (mkEncoder nec_command enc) h (mkNec a c r) = Val h' /\
    contents h' = new ++ repeat 0 k /\ length new = 67%nat /\
    off_after (level_at h')
      (khz_ticks F 9000 + khz_ticks F 4500 + 48 * khz_ticks F 560 + 16 * khz_ticks F 1690 + N.of_nat k + 1).
Proof.
  intros F a c r Ha Hc HF HG. destruct (C01_nec_words a c r false Ha Hc) as (w & Hp & -> & _).
  destruct (nec_word_air F NecStandard 9000 4500 _ _ ltac:(left; reflexivity) HF HG Hp) as (enc & Ee & H).
  exists enc. split; [exact Ee|]. intros h old k Hi Ho Hl. destruct (H h old k Hi Ho Hl) as (h' & E1 & E2 & E3).
  exists h', (nec_buffer (khz_ticks F) 9000 4500 (bytes4 a (compl8 a) c (compl8 c))).
  split; [exact E1|]. split; [exact E2|]. split; [apply nec_buffer_length|].
  change (2 ^ 8) with 256 in *.
  rewrite ones_bytes4 in E3 by (auto; apply compl8_lt).
  pose proof (ones8_compl a Ha). pose proof (ones8_compl c Hc).
  replace (ones8 a + ones8 (compl8 a) + ones8 c + ones8 (compl8 c))%nat with 16%nat in E3 by lia.
  unfold nec_air in E3. change (N.of_nat 16) with 16 in E3.
  match goal with |- off_after _ ?n => match type of E3 with off_after _ ?n2 => replace n with n2; [exact E3|] end end.
  generalize (khz_ticks F 9000) (khz_ticks F 4500) (khz_ticks F 560) (khz_ticks F 1690). clear. intros. lia.
Qed.
Print Assumptions C97_nec.

(** How long that is, at a rate of whole kHz: at most 67.42 ms (and one tick per unused entry
    of the buffer), and less than that by under one tick for each of the 66 pulses. *)
Theorem C97_nec_time :
  forall K, 2 <= K ->
  let T := khz_ticks (1000 * K) 9000 + khz_ticks (1000 * K) 4500 + 48 * khz_ticks (1000 * K) 560 + 16 * khz_ticks (1000 * K) 1690 in
  1000 * T <= K * 67420 < 1000 * (T + 66).
Proof.
  intros K HK. unfold khz_ticks. rewrite (proj2 (N.leb_gt (1000 * K) 1000)) by lia.
  rewrite (N.mul_comm 1000 K), N.div_mul by discriminate.
  assert (D : forall p, exists q, K * p / 1000 = q /\ 1000 * q <= K * p < 1000 * q + 1000).
  { intros p. exists (K * p / 1000). pose proof (N.div_mod (K * p) 1000 ltac:(discriminate)) as D.
    pose proof (N.mod_lt (K * p) 1000 ltac:(discriminate)) as M. revert D M. generalize (K * p / 1000) (K * p mod 1000) (K * p).
    clear. intros q r x D M. lia. }
  destruct (D 9000) as (q1 & -> & H1). destruct (D 4500) as (q2 & -> & H2). destruct (D 560) as (q3 & -> & H3). destruct (D 1690) as (q4 & -> & H4).
  cbv zeta. clear -H1 H2 H3 H4. lia.
Qed.
Print Assumptions C97_nec_time.

(** For the other members of the family the time depends on the number of ones among the
    address bits, or of the whole word for [NecDebug]. *)
Theorem C97_samsung :
  forall F a c r, a < 2 ^ 8 -> c < 2 ^ 8 -> 2000 <= F -> F < 477219000 ->
  exists enc, nec_encoder NecSamsung F = Some (mkEncoder samsung_command enc) /\
  forall h old k, idle h -> contents h = old ++ repeat 0 k -> length old = 67%nat ->
  exists h' new, hs_load (mkEncoder samsung_command enc) h (mkSamsung a c r) = Val h' /\
    contents h' = new ++ repeat 0 k /\ length new = 67%nat /\
    off_after (level_at h')
      (nec_air (khz_ticks F) 4500 4500 (8 + 2 * N.of_nat (ones (bits_lsb 8 a))) + N.of_nat k + 1).
Proof.
  intros F a c r Ha Hc HF HG. destruct (C01_samsung_words a c r false Ha Hc) as (w & Hp & -> & _).
  destruct (nec_word_air F NecSamsung 4500 4500 _ _ ltac:(unfold nec_senders; cbn [In]; auto) HF HG Hp) as (enc & Ee & H).
  exists enc. split; [exact Ee|]. intros h old k Hi Ho Hl. destruct (H h old k Hi Ho Hl) as (h' & E1 & E2 & E3).
  exists h', (nec_buffer (khz_ticks F) 4500 4500 (bytes4 a a c (compl8 c))).
  split; [exact E1|]. split; [exact E2|]. split; [apply nec_buffer_length|].
  change (2 ^ 8) with 256 in *. rewrite ones_bytes4 in E3 by (auto; apply compl8_lt).
  pose proof (ones8_compl c Hc). fold (ones8 a).
  replace (N.of_nat (ones8 a + ones8 a + ones8 c + ones8 (compl8 c))) with (8 + 2 * N.of_nat (ones8 a)) in E3 by lia.
  exact E3.
Qed.
Print Assumptions C97_samsung.

Theorem C97_nec16 :
  forall F a c r, a < 2 ^ 16 -> c < 2 ^ 8 -> 2000 <= F -> F < 477219000 ->
  exists enc, nec_encoder Nec16Bit F = Some (mkEncoder nec16_command enc) /\
  forall h old k, idle h -> contents h = old ++ repeat 0 k -> length old = 67%nat ->
  exists h' new, hs_load (mkEncoder nec16_command enc) h (mkNec16 a c r) = Val h' /\
    contents h' = new ++ repeat 0 k /\ length new = 67%nat /\
    off_after (level_at h')
      (nec_air (khz_ticks F) 9000 4500 (8 + N.of_nat (ones (bits_lsb 16 a))) + N.of_nat k + 1).
Proof.
  intros F a c r Ha Hc HF HG. destruct (C01_nec16_words a c r false Ha Hc) as (w & Hp & -> & _).
  destruct (nec_word_air F Nec16Bit 9000 4500 _ _ ltac:(unfold nec_senders; cbn [In]; auto) HF HG Hp) as (enc & Ee & H).
  exists enc. split; [exact Ee|]. intros h old k Hi Ho Hl. destruct (H h old k Hi Ho Hl) as (h' & E1 & E2 & E3).
  exists h', (nec_buffer (khz_ticks F) 9000 4500 (bytes4 (a mod 256) (a / 256) c (compl8 c))).
  split; [exact E1|]. split; [exact E2|]. split; [apply nec_buffer_length|].
  change (2 ^ 16) with 65536 in Ha. change (2 ^ 8) with 256 in *.
  assert (Hm : a mod 256 < 256) by (apply N.mod_lt; discriminate).
  assert (Hd : a / 256 < 256) by (apply N.div_lt_upper_bound; [discriminate|exact Ha]).
  rewrite ones_bytes4 in E3 by (auto; apply compl8_lt).
  pose proof (ones8_compl c Hc).
  assert (E16 : ones (bits_lsb 16 a) = (ones8 (a mod 256) + ones8 (a / 256))%nat).
  { change 16%nat with (8 + 8)%nat. rewrite bits_lsb_app, ones_app, (bits_lsb_mod 8 a). reflexivity. }
  rewrite E16.
  replace (N.of_nat (ones8 (a mod 256) + ones8 (a / 256) + ones8 c + ones8 (compl8 c)))
    with (8 + N.of_nat (ones8 (a mod 256) + ones8 (a / 256))) in E3 by lia.
  exact E3.
Qed.
Print Assumptions C97_nec16.

Theorem C97_raw :
  forall F w, 2000 <= F -> F < 477219000 ->
  exists enc, nec_encoder NecRaw F = Some (mkEncoder nec_debug_cmd enc) /\
  forall h old k, idle h -> contents h = old ++ repeat 0 k -> length old = 67%nat ->
  exists h' new, hs_load (mkEncoder nec_debug_cmd enc) h (mkNecDebug w) = Val h' /\
    contents h' = new ++ repeat 0 k /\ length new = 67%nat /\
    off_after (level_at h')
      (nec_air (khz_ticks F) 9000 4500 (N.of_nat (ones (bits_lsb 32 w))) + N.of_nat k + 1).
Proof.
  intros F w HF HG.
  destruct (nec_word_air F NecRaw 9000 4500 (mkNecDebug w) w ltac:(unfold nec_senders; cbn [In]; auto) HF HG eq_refl) as (enc & Ee & H).
  exists enc. split; [exact Ee|]. intros h old k Hi Ho Hl. destruct (H h old k Hi Ho Hl) as (h' & E1 & E2 & E3).
  exists h', (nec_buffer (khz_ticks F) 9000 4500 w).
  split; [exact E1|]. split; [exact E2|]. split; [apply nec_buffer_length|exact E3].
Qed.
Print Assumptions C97_raw.

(** ** RC5 and RC6 *)

Lemma total_map l xs : total (map (fun x : bool * N => l * snd x) xs) = l * total (map snd xs).
Proof. induction xs as [|x xs IH]; [cbn; lia|]. cbn [map]. rewrite !total_cons, IH. ring. Qed.

(** The run lengths of Manchester bits, the level [c] having lasted [n] half-bits before. *)
Lemma rc5_sum bits : forall c n, bits <> [] ->
  total (map snd (level_edges c n (flat_map rc5_half bits))) + 1 = n + 2 * N.of_nat (length bits).
Proof.
  induction bits as [|x bits IH]; intros c n H; [congruence|].
  assert (G : forall c', total (map snd (level_edges c' 1 (flat_map rc5_half bits))) + 1 = 1 + 2 * N.of_nat (length bits)).
  { intros c'. destruct bits as [|y bits]; [reflexivity|]. apply IH. discriminate. }
  cbn [flat_map length]. destruct x, c; cbn [rc5_half app level_edges Bool.eqb map snd]; rewrite ?total_cons;
  match goal with |- context [level_edges ?c' 1 _] => specialize (G c') end; lia.
Qed.
Lemma rc5_total l w : N.testbit w 13 = true -> total (tl (rc5_buffer l w)) = 26 * l.
Proof.
  intros H13. unfold rc5_buffer, rc5_wave. cbn [tl]. rewrite bits_msb_S. change (N.of_nat 13) with 13. rewrite H13.
  cbn [flat_map rc5_half app level_edges Bool.eqb tl]. rewrite total_map.
  pose proof (rc5_sum (bits_msb 13 w) true 1) as S1. rewrite bits_msb_length in S1.
  assert (Hn : bits_msb 13 w <> []) by (intros E; pose proof (bits_msb_length 13 w) as L; rewrite E in L; discriminate).
  specialize (S1 Hn). change (N.of_nat 13) with 13 in S1.
  replace (total (map snd (level_edges true 1 (flat_map rc5_half (bits_msb 13 w))))) with 26 by lia. lia.
Qed.

Lemma skipn_zeros n : forall s, skipn n (repeat 0 s) = repeat 0 (s - n).
Proof. induction n as [|n IH]; intros [|s]; cbn; auto. Qed.

Lemma new_air e c es s : e_encode e c (repeat 0 s) = written (0 :: es) (repeat 0 s) ->
  (length (0%N :: es) <= s)%nat -> es <> [] -> Forall (fun x => 1 <= x) es -> Forall (fun x => x < 2 ^ 32) es ->
  exists h' n, hs_load e (hs_new s) c = Val h' /\ off_after (level_at h') n /\ total es < n <= total es + N.of_nat s.
Proof.
  intros E L Hn H1 H2.
  destruct (air e (hs_new s) c es (s - length (0%N :: es)) eq_refl E) as (h' & E1 & _ & E3); auto.
  - cbn [contents hs_new hs_buffer ps_ptb pb_buf]. change (contents (hs_new s)) with (repeat 0 s). rewrite repeat_length. exact L.
  - change (contents (hs_new s)) with (repeat 0 s). apply skipn_zeros.
  - exists h'. eexists. split; [exact E1|]. split; [exact E3|]. cbn [length] in *. lia.
Qed.

(** The first command of a new sender with a buffer of [s] entries: every RC5 command takes 26
    half-bits and at most one more tick for each entry of the buffer. *)
Theorem C97_rc5 :
  forall b F a c s0 t s, 2000 <= F -> F < 2 ^ 32 -> a < 2 ^ 5 -> c < 2 ^ 6 -> s0 < 2 ^ 2 -> (27 <= s)%nat ->
  exists enc, rc5_encoder b F = Some (mkEncoder rc5_command enc) /\
  exists h n, hs_load (mkEncoder rc5_command enc) (hs_new s) (mkRc5 a c s0 t) = Val h /\
    off_after (level_at h) n /\ 26 * khz_ticks F 889 < n <= 26 * khz_ticks F 889 + N.of_nat s.
Proof.
  intros b F a c s0 t s HF HG Ha Hc Hs L. destruct (C53_rc5_encoder b F HG) as (enc & Ee & Hw).
  exists enc. split; [exact Ee|]. specialize (Hw a c s0 t (repeat 0 s) Ha Hc Hs).
  set (w := c + 2 ^ 6 * a + 2 ^ 11 * (if t then 1 else 0) + 2 ^ 12 * (s0 mod 2) + 2 ^ 13) in *.
  assert (H13 : N.testbit w 13 = true).
  { apply N.testbit_true. change (2 ^ 13) with 8192. replace (w / 8192) with 1; [reflexivity|].
    apply (N.div_unique _ 8192 _ (w - 8192)); unfold w; pose proof (N.mod_lt s0 2 ltac:(discriminate));
    change (2 ^ 5) with 32 in *; change (2 ^ 6) with 64 in *; change (2 ^ 11) with 2048; change (2 ^ 12) with 4096; change (2 ^ 13) with 8192;
    set (q := s0 mod 2) in *; clearbody q; destruct t; lia. }
  destruct (C53_rc5_runs (khz_ticks F 889) w H13) as (L27 & rest & Er & Hr).
  assert (Hb : rc5_encoder b F <> None) by (rewrite Ee; discriminate).
  assert (Hl : 1 <= khz_ticks F 889 /\ 2 * khz_ticks F 889 < 2 ^ 32).
  { split; [apply khz_pos; lia|]. unfold rc5_encoder in Ee. destruct (rc5_calc_freq F) as [l|] eqn:El; [|discriminate].
    destruct (rc5_freq_val F l El) as (-> & H). exact H. }
  rewrite <- (rc5_total _ w H13). rewrite Er in Hw, L27 |- *. cbn [tl].
  apply new_air.
  - exact Hw.
  - lia.
  - intros ->. pose proof (rc5_total (khz_ticks F 889) w H13) as E. rewrite Er in E. cbn [tl] in E. change (total []) with 0 in E. lia.
  - revert Hr. apply Forall_impl. intros x [-> | ->]; lia.
  - revert Hr. apply Forall_impl. intros x [-> | ->]; lia.
Qed.
Print Assumptions C97_rc5.

(** Manchester bits of RC6 and the space that follows. *)
Lemma rc6_sum bits : forall c n, bits <> [] ->
  n + 2 * N.of_nat (length bits) <= total (map snd (level_edges c n (flat_map rc6_half bits ++ [false]))) + 1 <=
  n + 2 * N.of_nat (length bits) + 1.
Proof.
  induction bits as [|x bits IH]; intros c n H; [congruence|].
  assert (G : forall c', 1 + 2 * N.of_nat (length bits) <=
    total (map snd (level_edges c' 1 (flat_map rc6_half bits ++ [false]))) + 1 <= 1 + 2 * N.of_nat (length bits) + 1).
  { intros c'. destruct bits as [|y bits]; [destruct c'; cbn; lia|]. apply IH. discriminate. }
  cbn [flat_map length]. destruct x, c; cbn [rc6_half app level_edges Bool.eqb map snd]; rewrite ?total_cons;
  match goal with |- context [level_edges ?c' 1 _] => specialize (G c') end; lia.
Qed.
Lemma rc6_total l t w : 51 * l <= total (tl (rc6_buffer l t w)) <= 52 * l.
Proof.
  unfold rc6_buffer, rc6_wave. rewrite <- !app_assoc.
  assert (Hn : bits_msb 16 w <> []) by (intros E; pose proof (bits_msb_length 16 w) as L; rewrite E in L; discriminate).
  pose proof (rc6_sum (bits_msb 16 w) false 2 Hn) as S0. pose proof (rc6_sum (bits_msb 16 w) true 2 Hn) as S1.
  rewrite bits_msb_length in S0, S1. change (N.of_nat 16) with 16 in *.
  destruct t; cbn [rc6_half app level_edges Bool.eqb map tl snd]; rewrite !total_cons;
  rewrite total_map; change (1 + 1) with 2;
  match goal with |- context [total (map snd (level_edges ?c 2 ?z))] => set (y := total (map snd (level_edges c 2 z))) in *; clearbody y end;
  assert (Y : y = 33 \/ y = 34) by lia; destruct Y as [-> | ->]; lia.
Qed.
Lemma level_edges_pos ls : forall c n, 1 <= n -> Forall (fun x : bool * N => 1 <= snd x) (level_edges c n ls).
Proof.
  induction ls as [|x ls IH]; intros c n H; cbn [level_edges]; [constructor|].
  destruct (Bool.eqb x c); [apply IH; lia|]. constructor; [exact H|]. apply IH. lia.
Qed.
Lemma total_ge l : Forall (fun x => x <= total l) l.
Proof.
  induction l as [|x l IH]; constructor; rewrite total_cons; [lia|].
  revert IH. apply Forall_impl. intros y. lia.
Qed.

(** RC6: 51 or 52 units. *)
Theorem C97_rc6 :
  forall b F a c t s, 2253 <= F -> 444 * F < 2 ^ 32 -> a < 2 ^ 8 -> c < 2 ^ 8 -> (44 <= s)%nat ->
  exists enc, rc6_encoder b F = Some (mkEncoder rc6_command enc) /\
  exists h n, hs_load (mkEncoder rc6_command enc) (hs_new s) (mkRc6 a c t) = Val h /\
    off_after (level_at h) n /\ 51 * nominal F 444 < n <= 52 * nominal F 444 + N.of_nat s.
Proof.
  intros b F a c t s HF HG Ha Hc L. destruct (C54_rc6_encoder b F HG) as (enc & Ee & Hw).
  exists enc. split; [exact Ee|]. destruct (Hw a c t (repeat 0 s) Ha Hc) as (Ew & L44 & Hh).
  set (w := 2 ^ 8 * a + c) in *. clearbody w.
  pose proof (rc6_total (nominal F 444) t w) as T.
  assert (Hl : 1 <= nominal F 444 /\ 444 * nominal F 444 < 2 ^ 32).
  { unfold nominal. split; [apply N.div_le_lower_bound; [discriminate|lia]|].
    apply N.le_lt_trans with (444 * F); [|exact HG]. apply N.mul_le_mono_l. apply N.div_le_upper_bound; [discriminate|]. lia. }
  destruct (rc6_buffer (nominal F 444) t w) as [|x es] eqn:Eb; [discriminate|]. injection Hh as ->. cbn [tl] in T.
  destruct (new_air (mkEncoder rc6_command enc) (mkRc6 a c t) es s) as (h & n & E1 & E2 & E3).
  - exact Ew.
  - lia.
  - intros ->. change (total []) with 0 in T. lia.
  - assert (El : exists ls, rc6_wave t (bits_msb 16 w) ++ [false] = true :: ls) by (eexists; reflexivity).
    destruct El as (ls & El). unfold rc6_buffer in Eb. rewrite El in Eb. cbn [level_edges Bool.eqb map] in Eb. injection Eb as _ Eb. subst es.
    pose proof (level_edges_pos ls true 1 ltac:(lia)) as P. clear -P Hl.
    apply Forall_map. revert P. apply Forall_impl. intros x Hx. destruct Hl as (H1 & _). nia.
  - pose proof (total_ge es) as P. revert P. apply Forall_impl. intros x Hx. lia.
  - exists h, n. split; [exact E1|]. split; [exact E2|]. lia.
Qed.
Print Assumptions C97_rc6.

(** At 4 kHz, in a buffer of 70 entries: 246 ticks of frame (61.5 ms) for each of these
    commands, and the pin is off after 250 ticks.  An RC5 command in a buffer of 30 entries: 26 times 3 ticks. *)
Definition c97_enc : encoder := mkEncoder nec_command (nec_encode NecStandard (36, 18, 9, 2, 2, 6)).
Example C97_example :
  nec_encoder NecStandard 4000 = Some c97_enc /\
  khz_ticks 4000 9000 + khz_ticks 4000 4500 + 48 * khz_ticks 4000 560 + 16 * khz_ticks 4000 1690 = 246 /\
  contents (hs_new 70) = repeat 0 67 ++ repeat 0 3 /\
  map (fun c => match hs_load c97_enc (hs_new 70) c with
                | Val h => rev (firstn 6 (rev (snd (hs_ticks 252 h))))
                | _ => []
                end) [mkNec 7 44 false; mkNec 255 85 true] =
  repeat [true; false; true; false; false; false] 2 /\
  26 * khz_ticks 4000 889 = 78.
Proof. split; [reflexivity|]. split; [reflexivity|]. split; [reflexivity|]. split; [vm_compute; reflexivity|reflexivity]. Qed.
