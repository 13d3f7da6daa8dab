(** * Properties C88, C89: every signal has only one reading *)
From Coq Require Import NArith ZArith List Bool Lia ZifyBool ZifyNat ZifyN.
From Verif Require Import Machine Spec Bits Time Decoder Nec Denon Sbp Rc5 Rc6 Receiver
  Time_facts Window_facts Codec_facts Run_facts Nec_facts Denon_facts Sbp_facts Example_facts Spec_sound Sound_facts
  Rc5_facts Spec_rate Rate_facts Spec_biread Biread_facts Props_biread Spec_grammar Grammar_facts Props_grammar Props_decode.
Import ListNotations.
Open Scope N_scope.

(** A time base that converts [freq] exactly. *)
Definition exact_base (freq : N) : mono := MFugit 64 (fun p => p * freq / 1000000) (fun _ _ => None).
Lemma exact_base_ok freq : freq < 2 ^ 32 -> timebase (exact_base freq) freq /\ exact_rate (exact_base freq) freq.
Proof. intros H. repeat split; auto. discriminate. Qed.

(** ** Series of self-delimiting phrases *)

Section phrases.
  Context {P S : Type} (signs : P -> list S) (ok : P -> Prop) (unfinished : list S -> Prop).
  Hypothesis one : forall p q x y, ok p -> ok q -> signs p ++ x = signs q ++ y -> p = q.
  Hypothesis whole : forall p x rest, ok p -> unfinished rest -> signs p ++ x = rest -> False.
  Lemma phrases_one ps : forall qs r1 r2, Forall ok ps -> Forall ok qs -> unfinished r1 -> unfinished r2 ->
    flat_map signs ps ++ r1 = flat_map signs qs ++ r2 -> ps = qs /\ r1 = r2.
  Proof.
    induction ps as [|p ps IH]; intros [|q qs] r1 r2 Hp Hq H1 H2 E; cbn [flat_map app] in E.
    - auto.
    - exfalso. apply Forall_cons_iff in Hq. destruct Hq as (Hq & _). rewrite <- app_assoc in E. exact (whole q _ r1 Hq H1 (eq_sym E)).
    - exfalso. apply Forall_cons_iff in Hp. destruct Hp as (Hp & _). rewrite <- app_assoc in E. exact (whole p _ r2 Hp H2 E).
    - apply Forall_cons_iff in Hp. destruct Hp as (Hp & Hps). apply Forall_cons_iff in Hq. destruct Hq as (Hq & Hqs).
      rewrite <- !app_assoc in E. pose proof (one p q _ _ Hp Hq E) as <-. apply app_inv_head in E.
      destruct (IH qs r1 r2 Hps Hqs H1 H2 E) as (-> & ->). auto.
  Qed.
End phrases.

(** Runs of bits. *)
Section bits.
  Context {S : Type} (zero one : S).
  Hypothesis differ : zero <> one.
  Notation bits := (map (bit_of zero one)).
  Lemma bit_of_one x y : bit_of zero one x = bit_of zero one y -> x = y.
  Proof using differ. destruct x, y; cbn [bit_of]; congruence. Qed.
  Lemma bits_same xs : forall ys A B, length xs = length ys -> bits xs ++ A = bits ys ++ B -> xs = ys /\ A = B.
  Proof using differ.
    induction xs as [|x xs IH]; intros [|y ys] A B L E; cbn in L; try discriminate; cbn [map app] in E; [auto|].
    injection E as E1 E. destruct (IH ys A B) as (-> & ->); auto. apply bit_of_one in E1. subst. auto.
  Qed.
  Lemma bits_stop xs : forall ys s A B, s <> zero -> s <> one -> bits xs ++ s :: A = bits ys ++ B -> (length ys <= length xs)%nat.
  Proof using Type.
    induction xs as [|x xs IH]; intros [|y ys] s A B H0 H1 E; cbn [map app length] in *; try lia.
    - injection E as E _. destruct y; cbn [bit_of] in E; congruence.
    - injection E as _ E. apply (IH ys s A B H0 H1) in E. lia.
  Qed.
  Lemma bits_both xs ys s t A B : s <> zero -> s <> one -> t <> zero -> t <> one ->
    bits xs ++ s :: A = bits ys ++ t :: B -> xs = ys /\ s = t.
  Proof using differ.
    intros H1 H2 H3 H4 E. pose proof (bits_stop xs ys s A (t :: B) H1 H2 E). pose proof (bits_stop ys xs t B (s :: A) H3 H4 (eq_sym E)).
    destruct (bits_same xs ys (s :: A) (t :: B)) as (-> & K); [lia|exact E|]. injection K as -> _. auto.
  Qed.
  (** Bits alone are not longer than bits with more behind them. *)
  Lemma bits_end xs : forall ys A, bits xs ++ A = bits ys -> (length xs <= length ys)%nat.
  Proof using Type. intros ys A E. apply (f_equal (@length S)) in E. rewrite app_length, !map_length in E. lia. Qed.
  Lemma bits_end_stop xs ys s A : s <> zero -> s <> one -> bits xs ++ s :: A = bits ys -> False.
  Proof using Type.
    intros H0 H1 E. assert (E' : bits xs ++ s :: A = bits ys ++ []) by (rewrite app_nil_r; exact E).
    pose proof (bits_stop xs ys s A [] H0 H1 E'). apply (f_equal (@length S)) in E. rewrite app_length, !map_length in E. cbn [length] in E. lia.
  Qed.
End bits.

Lemma cons_one {A} (x y : A) l k : x :: l = y :: k -> x = y /\ l = k.
Proof. intros E. injection E. auto. Qed.

(** A list that is determined entry by entry. *)
Lemma says_one {S} (R : S -> N -> Prop) : (forall s t d, R s d -> R t d -> s = t) ->
  forall l k ds, Forall2 R l ds -> Forall2 R k ds -> l = k.
Proof.
  intros H l. induction l as [|s l IH]; intros k ds F G; inversion F; subst; inversion G; subst; [reflexivity|].
  f_equal; eauto.
Qed.

(** ** NEC *)

Lemma nec_signs_one p q x y : nec_phrase_ok p -> nec_phrase_ok q -> nec_signs p ++ x = nec_signs q ++ y -> p = q.
Proof.
  assert (D : Zero <> One) by discriminate.
  assert (L32 : forall w, length (bits_lsb 32 w) = 32%nat) by (intros w; unfold bits_lsb; rewrite map_length, seq_length; reflexivity).
  destruct p as [w|bs s| |s], q as [w'|bs' s'| |s']; cbn [nec_phrase_ok nec_signs app]; intros Hp Hq E; apply cons_one in E; destruct E as (E0 & E);
    try discriminate E0; try (subst; reflexivity); try (exfalso; intuition congruence).
  - apply bits_same in E; [|exact D|rewrite !L32; reflexivity]. destruct E as (E & _). apply (f_equal val_lsb) in E.
    rewrite !val_bits_lsb in E. change (2 ^ N.of_nat 32) with (2 ^ 32) in E. rewrite !N.mod_small in E by assumption. congruence.
  - exfalso. rewrite <- app_assoc in E. cbn [app] in E. symmetry in E. apply bits_stop in E; try tauto. rewrite L32 in E. lia.
  - exfalso. rewrite <- app_assoc in E. cbn [app] in E. apply bits_stop in E; try tauto. rewrite L32 in E. lia.
  - rewrite <- !app_assoc in E. cbn [app] in E. apply bits_both in E; try tauto. destruct E as (-> & ->). reflexivity.
Qed.
Lemma nec_signs_whole p x rest : nec_phrase_ok p -> nec_unfinished rest -> nec_signs p ++ x = rest -> False.
Proof.
  assert (L32 : forall w, length (bits_lsb 32 w) = 32%nat) by (intros w; unfold bits_lsb; rewrite map_length, seq_length; reflexivity).
  intros Hp [->|(bits & -> & L)] E; destruct p as [w|bs s| |s]; cbn [nec_phrase_ok nec_signs app] in *; try discriminate; apply cons_one in E; destruct E as (E0 & E); try discriminate E0.
  - apply bits_end in E. rewrite L32 in E. lia.
  - rewrite <- app_assoc in E. cbn [app] in E. apply bits_end_stop in E; tauto.
  - intuition congruence.
Qed.

(** With C88 and C89, which give a reading of every signal, there is exactly one; the examples
    there show readings of noisy signals.  The header and repeat lengths are those of NEC or
    of Samsung. *)
Theorem C88_nec_one :
  forall freq header again h ps rest ps' rest', 893 <= freq < 2 ^ 32 -> In (header, again) [(13500, 11250); (9000, 6750)] ->
  nec_reading freq header again h ps rest -> nec_reading freq header again h ps' rest' -> ps = ps' /\ rest = rest'.
Proof.
  intros freq header again h ps rest ps' rest' (Hlo & Hhi) Ht (H1 & H2 & H3) (G1 & G2 & G3).
  apply (phrases_one nec_signs nec_phrase_ok nec_unfinished nec_signs_one nec_signs_whole ps ps' rest rest'); auto.
  destruct (exact_base_ok freq Hhi) as (Hm & He). refine (says_one _ _ _ _ _ H3 G3). intros s t d Hs Ht'.
  assert (K : nec_sign_pw s = nec_sign_pw t).
  { destruct Ht as [E|[E|[]]]; injection E as <- <-.
    - rewrite <- (nec_sign_class (exact_base freq) freq NecStandard Hm Hlo He (or_introl eq_refl) s d Hs).
      rewrite <- (nec_sign_class (exact_base freq) freq NecStandard Hm Hlo He (or_introl eq_refl) t d Ht'). reflexivity.
    - rewrite <- (nec_sign_class (exact_base freq) freq NecSamsung Hm Hlo He (or_intror eq_refl) s d Hs).
      rewrite <- (nec_sign_class (exact_base freq) freq NecSamsung Hm Hlo He (or_intror eq_refl) t d Ht'). reflexivity. }
  destruct s, t; (discriminate K || reflexivity).
Qed.
Print Assumptions C88_nec_one.

(** ** Denon *)

Lemma denon_signs_one p q x y : denon_phrase_ok p -> denon_phrase_ok q -> denon_signs p ++ x = denon_signs q ++ y -> p = q.
Proof.
  assert (D : DnZero <> DnOne) by discriminate.
  destruct p as [bs|bs s|s], q as [bs'|bs' s'|s']; cbn [denon_phrase_ok denon_signs app]; intros Hp Hq E; apply cons_one in E; destruct E as (E0 & E);
    try discriminate E0; try (subst; reflexivity); try (exfalso; intuition congruence).
  - apply bits_same in E; [|exact D|congruence]. destruct E as (-> & _). reflexivity.
  - exfalso. rewrite <- app_assoc in E. cbn [app] in E. symmetry in E. apply bits_stop in E; try tauto. lia.
  - exfalso. rewrite <- app_assoc in E. cbn [app] in E. apply bits_stop in E; try tauto. lia.
  - rewrite <- !app_assoc in E. cbn [app] in E. apply bits_both in E; try tauto. destruct E as (-> & ->). reflexivity.
Qed.
Lemma denon_signs_whole p x rest : denon_phrase_ok p -> denon_unfinished rest -> denon_signs p ++ x = rest -> False.
Proof.
  intros Hp [->|(bits & -> & L)] E; destruct p as [bs|bs s|s]; cbn [denon_phrase_ok denon_signs app] in *; try discriminate; apply cons_one in E; destruct E as (E0 & E); try discriminate E0.
  - apply bits_end in E. lia.
  - rewrite <- app_assoc in E. cbn [app] in E. apply bits_end_stop in E; tauto.
  - intuition congruence.
Qed.

Theorem C88_denon_one :
  forall freq h ps rest ps' rest', 1191 <= freq < 2 ^ 32 ->
  denon_reading freq h ps rest -> denon_reading freq h ps' rest' -> ps = ps' /\ rest = rest'.
Proof.
  intros freq h ps rest ps' rest' (Hlo & Hhi) (H1 & H2 & H3) (G1 & G2 & G3).
  apply (phrases_one denon_signs denon_phrase_ok denon_unfinished denon_signs_one denon_signs_whole ps ps' rest rest'); auto.
  destruct (exact_base_ok freq Hhi) as (Hm & He). refine (says_one _ _ _ _ _ H3 G3). intros s t d Hs Ht'.
  assert (K : denon_sign_pw s = denon_sign_pw t).
  { rewrite <- (denon_sign_class (exact_base freq) freq Hm Hlo He s d Hs).
    rewrite <- (denon_sign_class (exact_base freq) freq Hm Hlo He t d Ht'). reflexivity. }
  destruct s, t; (discriminate K || reflexivity).
Qed.
Print Assumptions C88_denon_one.

(** ** Samsung BluRay *)

Ltac same_bits E := apply bits_same in E; [|discriminate|intuition congruence].
Ltac sixteen E := same_bits E; destruct E as (Ea & E); apply cons_one in E; destruct E as (Es & E).
Ltac too_short E := exfalso; apply bits_stop in E; try tauto; try discriminate; lia.
Lemma sbp_signs_one p q x y : sbp_phrase_ok p -> sbp_phrase_ok q -> sbp_signs p ++ x = sbp_signs q ++ y -> p = q.
Proof.
  assert (D : SbZero_ <> SbOne_) by discriminate. assert (D0 : SbPause <> SbZero_) by discriminate. assert (D1 : SbPause <> SbOne_) by discriminate.
  unfold sbp_signs, sbp_bits.
  destruct p as [a c|bs s|a s|a bs s|s], q as [a' c'|bs' s'|a' s'|a' bs' s'|s']; cbn [sbp_phrase_ok app]; intros Hp Hq E;
    apply cons_one in E; destruct E as (E0 & E); try discriminate E0; try (subst; reflexivity); try (exfalso; intuition congruence); repeat (rewrite <- ?app_assoc in E; cbn [app] in E).
  - sixteen E. same_bits E. destruct E as (Ec & _). congruence.
  - symmetry in E. too_short E.
  - sixteen E. exfalso. intuition congruence.
  - sixteen E. symmetry in E. too_short E.
  - too_short E.
  - apply bits_both in E; try tauto. destruct E as (-> & ->). reflexivity.
  - too_short E.
  - too_short E.
  - sixteen E. exfalso. intuition congruence.
  - symmetry in E. too_short E.
  - sixteen E. congruence.
  - sixteen E. exfalso. intuition congruence.
  - sixteen E. too_short E.
  - symmetry in E. too_short E.
  - sixteen E. exfalso. intuition congruence.
  - sixteen E. apply bits_both in E; try tauto. destruct E as (-> & ->). congruence.
Qed.
Lemma sbp_signs_whole p x rest : sbp_phrase_ok p -> sbp_unfinished rest -> sbp_signs p ++ x = rest -> False.
Proof.
  assert (D0 : SbPause <> SbZero_) by discriminate. assert (D1 : SbPause <> SbOne_) by discriminate.
  unfold sbp_unfinished, sbp_signs, sbp_bits. intros Hp Hr E.
  destruct p as [a c|bs s|a s|a bs s|s]; cbn [sbp_phrase_ok app] in *;
    (destruct Hr as [->|[(bits & -> & L)|(a' & bits & -> & La & L)]]; [discriminate| |]);
    apply cons_one in E; destruct E as (E0 & E); try discriminate E0; try (subst; tauto); repeat (rewrite <- ?app_assoc in E; cbn [app] in E).
  - apply bits_end_stop in E; auto.
  - sixteen E. apply bits_end in E. lia.
  - apply bits_end_stop in E; tauto.
  - too_short E.
  - apply (f_equal (@length sbp_sign)) in E. rewrite app_length, !map_length in E. cbn [length] in E. lia.
  - sixteen E. tauto.
  - apply bits_end_stop in E; auto.
  - sixteen E. apply bits_end_stop in E; tauto.
Qed.

Lemma sbp_says_one freq s t d : 1000 <= freq < 2 ^ 32 -> sbp_says freq s d -> sbp_says freq t d -> s = t.
Proof.
  intros (Hlo & Hhi) Hs Ht. destruct (exact_base_ok freq Hhi) as (Hm & He).
  assert (K : sbp_sign_pw s = sbp_sign_pw t).
  { rewrite <- (sbp_sign_class (exact_base freq) freq Hm Hlo He s d Hs).
    rewrite <- (sbp_sign_class (exact_base freq) freq Hm Hlo He t d Ht). reflexivity. }
  destruct s, t; (discriminate K || reflexivity).
Qed.

Theorem C88_sbp_one :
  forall freq h ps rest ps' rest', 1000 <= freq < 2 ^ 32 ->
  sbp_reading freq h ps rest -> sbp_reading freq h ps' rest' -> ps = ps' /\ rest = rest'.
Proof.
  intros freq h ps rest ps' rest' Hf (H1 & H2 & H3) (G1 & G2 & G3).
  apply (phrases_one sbp_signs sbp_phrase_ok sbp_unfinished sbp_signs_one sbp_signs_whole ps ps' rest rest'); auto.
  refine (says_one _ _ _ _ _ H3 G3). intros s t d. apply sbp_says_one, Hf.
Qed.
Print Assumptions C88_sbp_one.

Lemma sbp_any_one freq h : 1000 <= freq < 2 ^ 32 -> forall q sv gs ks,
  Forall2 (sbp_says freq) gs (sbp_lengths sv h (hears_from sbp_hear q gs)) ->
  Forall2 (sbp_says freq) ks (sbp_lengths sv h (hears_from sbp_hear q ks)) -> gs = ks.
Proof.
  intros Hf. induction h as [|[[|] d] h IH]; intros q sv gs ks F G; cbn [sbp_lengths] in *.
  - inversion F. inversion G. reflexivity.
  - destruct gs as [|g gs]; [inversion F|]. destruct ks as [|k ks]; [inversion G|]. cbn [hears_from] in *.
    apply forall2_cons_iff in F. destruct F as (F1 & F). apply forall2_cons_iff in G. destruct G as (G1 & G).
    pose proof (sbp_says_one freq g k _ Hf F1 G1) as <-. f_equal.
    destruct (sbp_hear q g) as [q' o]. destruct o; eauto.
  - eauto.
Qed.
Theorem C88_sbp_any_one :
  forall freq h ps rest ps' rest', 1000 <= freq < 2 ^ 32 ->
  sbp_reading_any freq h ps rest -> sbp_reading_any freq h ps' rest' -> ps = ps' /\ rest = rest'.
Proof.
  intros freq h ps rest ps' rest' Hf (H1 & H2 & H3) (G1 & G2 & G3).
  apply (phrases_one sbp_signs sbp_phrase_ok sbp_unfinished sbp_signs_one sbp_signs_whole ps ps' rest rest'); auto.
  assert (E : forall ps rest, Forall sbp_phrase_ok ps -> sbp_unfinished rest ->
    sbp_hears ps ++ repeat Nothing (length rest) = hears_from sbp_hear SWaiting (flat_map sbp_signs ps ++ rest)).
  { clear. intros ps rest H1 H2. rewrite hears_from_app. destruct (sbp_hear_phrases ps H1) as (P1 & P2).
    rewrite P1, P2, (sbp_hear_rest rest H2). reflexivity. }
  rewrite E in H3 by assumption. rewrite E in G3 by assumption. exact (sbp_any_one freq h Hf SWaiting 0 _ _ H3 G3).
Qed.
Print Assumptions C88_sbp_any_one.

(** ** RC5 and RC6 *)

Lemma val_msb_one xs ys : length xs = length ys -> val_msb xs = val_msb ys -> xs = ys.
Proof.
  unfold val_msb. intros L E. rewrite <- (rev_involutive xs), <- (rev_involutive ys). f_equal.
  rewrite <- (bits_val_lsb (rev xs)), <- (bits_val_lsb (rev ys)), E, !rev_length, L. reflexivity.
Qed.

Lemma rc5_heard freq h os : rc5_reads freq h os -> Forall (fun o => match o with Some bits => length bits = 13%nat | None => True end) os.
Proof.
  assert (R : forall n, Forall (fun o : option (list bool) => match o with Some bits => length bits = 13%nat | None => True end) (repeat None n)).
  { intros n. apply Forall_forall. intros o Ho. apply repeat_spec in Ho. subst o. exact I. }
  induction 1; try apply Forall_app; auto.
Qed.
Lemma rc6_heard freq h os : rc6_reads freq h os -> Forall (fun o => match o with Some (_, bits) => length bits = 16%nat | None => True end) os.
Proof.
  assert (R : forall n, Forall (fun o : option (bool * list bool) => match o with Some (_, bits) => length bits = 16%nat | None => True end) (repeat None n)).
  { intros n. apply Forall_forall. intros o Ho. apply repeat_spec in Ho. subst o. exact I. }
  induction 1; try apply Forall_app; auto. split; auto. constructor; auto. rewrite map_length. assumption.
Qed.

Theorem C89_rc5_one :
  forall freq h os os', freq < 2 ^ 32 -> rc5_reads freq h os -> rc5_reads freq h os' -> os = os'.
Proof.
  intros freq h os os' Hf R R'. destruct (exact_base_ok freq Hf) as (Hm & He).
  assert (Hu : 8 <= usize_bits (release_build 32)) by (cbn; lia).
  destruct (proj2 (C89_rc5 (release_build 32) (exact_base freq) freq _ (fun c => c) h Hm He Hu (or_introl eq_refl)) os R) as (r0 & r & E0 & E).
  destruct (proj2 (C89_rc5 (release_build 32) (exact_base freq) freq _ (fun c => c) h Hm He Hu (or_introl eq_refl)) os' R') as (r0' & r' & E0' & E').
  rewrite E0 in E0'. injection E0' as <-. rewrite E in E'. injection E' as _ K.
  apply rc5_heard in R. apply rc5_heard in R'. clear - K R R'.
  revert os' K R'. induction R as [|o os Ho R IH]; intros [|o' os'] K R'; try discriminate; [reflexivity|].
  cbn [map] in K. apply cons_one in K. destruct K as (K1 & K). apply Forall_cons_iff in R'. destruct R' as (Ho' & R').
  f_equal; [|apply IH; auto]. destruct o as [[|a [|b bits]]|], o' as [[|a' [|b' bits']]|]; try discriminate; auto.
  cbn [rc5_reports] in K1. cbn [length] in *. injection K1 as K1 K2 K3 K4. do 3 f_equal.
  - destruct a, a'; cbn in K3; congruence.
  - congruence.
  - rewrite <- (firstn_skipn 5 bits), <- (firstn_skipn 5 bits'). f_equal; apply val_msb_one; auto; rewrite ?firstn_length, ?skipn_length; lia.
Qed.
Print Assumptions C89_rc5_one.

Theorem C89_rc6_one :
  forall freq h os os', freq < 2 ^ 32 -> rc6_reads freq h os -> rc6_reads freq h os' -> os = os'.
Proof.
  intros freq h os os' Hf R R'. destruct (exact_base_ok freq Hf) as (Hm & He).
  assert (Hu : 8 <= usize_bits (release_build 32)) by (cbn; lia).
  destruct (proj2 (C89_rc6 (release_build 32) (exact_base freq) freq _ (fun c => c) h Hm He Hu (or_introl eq_refl)) os R) as (r0 & r & E0 & E).
  destruct (proj2 (C89_rc6 (release_build 32) (exact_base freq) freq _ (fun c => c) h Hm He Hu (or_introl eq_refl)) os' R') as (r0' & r' & E0' & E').
  rewrite E0 in E0'. injection E0' as <-. rewrite E in E'. injection E' as _ K.
  apply rc6_heard in R. apply rc6_heard in R'. clear - K R R'.
  revert os' K R'. induction R as [|o os Ho R IH]; intros [|o' os'] K R'; try discriminate; [reflexivity|].
  cbn [map] in K. apply cons_one in K. destruct K as (K1 & K). apply Forall_cons_iff in R'. destruct R' as (Ho' & R').
  f_equal; [|apply IH; auto]. destruct o as [[t bits]|], o' as [[t' bits']|]; try discriminate; auto.
  cbn [rc6_reports] in K1. injection K1 as K1 K2 K3. do 2 f_equal; [congruence|].
  rewrite <- (firstn_skipn 8 bits), <- (firstn_skipn 8 bits'). f_equal; apply val_msb_one; auto; rewrite ?firstn_length, ?skipn_length; lia.
Qed.
Print Assumptions C89_rc6_one.

(** The readings of the examples of C88 and C89 are the only ones of their signals. *)
Example C88_one_example :
  (forall ps rest, nec_reading 40000 13500 11250 ((true, 4000) :: example_pairs [540; 90; 45; 450; 450; 700]) ps rest ->
     ps = [NecNoise Other; NecBroken [true; false] Again; NecAgain; NecNoise Other] /\ rest = []) /\
  (forall ps rest, denon_reading 40000 ((true, 4000) :: example_pairs ([200; 67; 34; 300; 200] ++ repeat 34 48)) ps rest ->
     ps = [DnNoise DnOther; DnBroken [true; false] DnOther; DnFrame (repeat false 48)] /\ rest = []) /\
  (forall ps rest, sbp_reading 40000 ((true, 4000) :: example_pairs ([360; 80; 80; 360; 360] ++ repeat 40 16 ++ [360])) ps rest ->
     ps = [SbNoise SbOther; SbBrokenAddress [true; true] SbHeader; SbBrokenPause (repeat false 16) SbHeader] /\ rest = []) /\
  (forall ps rest, sbp_reading_any 40000 [(true, 4000); (false, 180); (true, 180); (false, 20); (true, 20); (true, 20); (true, 340); (true, 360)] ps rest ->
     ps = [SbNoise SbOther; SbBrokenAddress [false; false] SbHeader] /\ rest = [SbHeader]).
Proof.
  split; [|split; [|split]]; intros ps rest H.
  - exact (C88_nec_one 40000 13500 11250 _ _ _ _ _ ltac:(lia) (or_introl eq_refl) H (proj1 (proj2 C88_nec_example))).
  - exact (C88_denon_one 40000 _ _ _ _ _ ltac:(lia) H (proj1 (proj2 C88_denon_example))).
  - exact (C88_sbp_one 40000 _ _ _ _ _ ltac:(lia) H (proj1 (proj2 (proj2 C88_sbp_example)))).
  - exact (C88_sbp_any_one 40000 _ _ _ _ _ ltac:(lia) H (proj1 (proj2 (proj2 C88_sbp_any_example)))).
Qed.

Example C89_one_example :
  (let acts := jitter (fun n => if n =? 1 then 31 else 77) (tl (level_edges false 0 (rc5_wave (2 ^ 13 + 2 ^ 11 + 2 ^ 6 * 5 + 53)))) in
   forall os, rc5_reads 40000 ((false, 9) :: (true, 800) :: [(false, 35); (true, 36); (false, 71)] ++ (true, 500) :: acts ++ [(false, 0)]) os ->
   os = None :: repeat None 4 ++ repeat None (length acts) ++
     [Some [false; true; false; false; true; false; true; true; true; false; true; false; true]; None]) /\
  (let acts := (false, 106) :: jitter (fun n => 18 * n) (skipn 2 (level_edges false 0 (rc6_wave true (bits_msb 16 (2 ^ 8 * 4 + 12))))) in
   forall os, rc6_reads 40000 ((true, 800) :: [] ++ (false, 53) :: (true, 1000) :: acts) os ->
   os = repeat None 2 ++ repeat None (length acts) ++ [Some (true, bits_msb 16 (2 ^ 8 * 4 + 12))]).
Proof.
  split; intros acts os H.
  - exact (C89_rc5_one 40000 _ _ _ eq_refl H (proj1 C89_example_rc5)).
  - exact (C89_rc6_one 40000 _ _ _ eq_refl H (proj1 C89_example_rc6)).
Qed.
