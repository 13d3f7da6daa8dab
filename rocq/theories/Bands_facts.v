(** * Lemmas: which tick rates suit the sender and the receiver at once *)
From Coq Require Import NArith ZArith List Bool Lia ZifyBool ZifyNat ZifyN.
From Verif Require Import Machine Spec Spec_sender Spec_receiver Spec_state Bits Time Decoder Nec Rc5 Receiver Sender
  Time_facts Window_facts Run_facts Nec_facts Rc5_facts Codec_facts Receiver_facts State_facts Encode_facts
  Roundtrip_facts Spec_rate Rate_facts Spec_sound Spec_grammar Grammar_facts Spec_biread Biread_facts Spec_bands.
Import ListNotations.
Open Scope N_scope.
Ltac Zify.zify_post_hook ::= Z.div_mod_to_equations.

(** ** NEC *)

(** The three lengths that are sent, and how they are to be read; the time 0 before the first
    edge is to be nothing that matters outside a frame. *)
Definition nec_suits (ss : list span) (F hm hs : N) : Prop :=
  nec_class ss (khz_ticks F hs + khz_ticks F hm) = PSync /\
  nec_class ss (khz_ticks F 560 + khz_ticks F 560) = PZero /\
  nec_class ss (khz_ticks F 1690 + khz_ticks F 560) = POne.
Definition nec_quiet (ss : list span) : Prop := nec_class ss 0 <> PSync /\ nec_class ss 0 <> PRepeat.

Definition variant_rate (T : nec_pulse_len) (F : N) : Prop :=
  if header_high T =? 9000 then nec_rate F else samsung_rate F.

(** Up to 1 kHz: by trying every rate. *)
Definition pw_eqb (x y : nec_pw) : bool :=
  match x, y with PSync, PSync | PRepeat, PRepeat | PZero, PZero | POne, POne | PInvalid, PInvalid => true | _, _ => false end.
Lemma pw_eqb_spec x y : pw_eqb x y = true <-> x = y.
Proof. destruct x, y; cbn; split; congruence. Qed.
Definition bandsb (bands : list (N * N)) (F : N) : bool := existsb (fun r => (fst r <=? F) && (F <=? snd r)) bands.
Lemma bandsb_spec bands F : bandsb bands F = true <-> within bands F.
Proof.
  unfold bandsb, within. rewrite existsb_exists, Exists_exists. split; intros (r & Hr & H); exists r; (split; [exact Hr|]); lia.
Qed.

Definition low_ok (T : nec_pulse_len) (bands : list (N * N)) (F : N) : bool :=
  let ss := nominal_spans F (nec_pulses T) in
  let suits := pw_eqb (nec_class ss (khz_ticks F (header_low T) + khz_ticks F (header_high T))) PSync &&
    pw_eqb (nec_class ss (khz_ticks F 560 + khz_ticks F 560)) PZero &&
    pw_eqb (nec_class ss (khz_ticks F 1690 + khz_ticks F 560)) POne in
  if bandsb bands F then suits && negb (pw_eqb (nec_class ss 0) PSync) && negb (pw_eqb (nec_class ss 0) PRepeat)
  else negb suits.
Lemma nec_low_all : forallb (low_ok NEC_STANDARD_TIMING nec_bands) (map N.of_nat (seq 0 1001)) = true.
Proof. vm_compute. reflexivity. Qed.
Lemma samsung_low_all : forallb (low_ok NEC_SAMSUNG_TIMING samsung_bands) (map N.of_nat (seq 0 1001)) = true.
Proof. vm_compute. reflexivity. Qed.

Lemma low_use T bands F : forallb (low_ok T bands) (map N.of_nat (seq 0 1001)) = true -> F <= 1000 ->
  let ss := nominal_spans F (nec_pulses T) in
  (within bands F -> nec_suits ss F (header_high T) (header_low T) /\ nec_quiet ss) /\
  (~ within bands F -> ~ nec_suits ss F (header_high T) (header_low T)).
Proof.
  intros A HF ss. rewrite forallb_forall in A.
  assert (I : In F (map N.of_nat (seq 0 1001))).
  { apply in_map_iff. exists (N.to_nat F). split; [apply N2Nat.id|]. apply in_seq. lia. }
  apply A in I. clear A. unfold low_ok in I. fold ss in I. rewrite <- bandsb_spec.
  unfold nec_suits, nec_quiet. rewrite <- !pw_eqb_spec.
  revert I. generalize (pw_eqb (nec_class ss (khz_ticks F (header_low T) + khz_ticks F (header_high T))) PSync)
    (pw_eqb (nec_class ss (khz_ticks F 560 + khz_ticks F 560)) PZero) (pw_eqb (nec_class ss (khz_ticks F 1690 + khz_ticks F 560)) POne)
    (pw_eqb (nec_class ss 0) PSync) (pw_eqb (nec_class ss 0) PRepeat).
  intros s z o q r. destruct (bandsb bands F), s, z, o, q, r; cbn; intros H; try discriminate H; split; intuition congruence.
Qed.

(** From 1 kHz to 14 kHz: one kHz after the other. *)
Ltac by_khz F :=
  match goal with |- context [khz_ticks F] => idtac end;
  rewrite !khz_above by lia; unfold near, nominal;
  let k := fresh "k" in let E := fresh "E" in
  remember (F / 1000) as k eqn:E;
  assert (1 <= k <= 13) by (subst k; lia);
  assert (K : k = 1 \/ k = 2 \/ k = 3 \/ k = 4 \/ k = 5 \/ k = 6 \/ k = 7 \/ k = 8 \/ k = 9 \/ k = 10 \/ k = 11 \/ k = 12 \/ k = 13) by lia.

Definition nec_nears (F header hm hs : N) : Prop :=
  near F header 7 (khz_ticks F hs + khz_ticks F hm) /\ near F 1120 25 (khz_ticks F 560 + khz_ticks F 560) /\
  near F 2250 12 (khz_ticks F 1690 + khz_ticks F 560).

Lemma nec_band_nears F : 1000 < F -> F < 13000 -> (within nec_bands F <-> nec_nears F 13500 9000 4500).
Proof.
  intros H1 H2. rewrite <- bandsb_spec. unfold bandsb, nec_bands, nec_nears. cbn [existsb fst snd].
  by_khz F. repeat (destruct K as [K|K]; [rewrite K in *; clear K; lia|]). rewrite K in *; lia.
Qed.
Lemma samsung_band_nears F : 1000 < F -> F < 14000 -> (within samsung_bands F <-> nec_nears F 9000 4500 4500).
Proof.
  intros H1 H2. rewrite <- bandsb_spec. unfold bandsb, samsung_bands, nec_nears. cbn [existsb fst snd].
  by_khz F. repeat (destruct K as [K|K]; [rewrite K in *; clear K; lia|]). rewrite K in *; lia.
Qed.

Lemma class_near m F T d : timebase m F -> F <= 318000 -> nec_timing_ok T ->
  match nec_class (spans_of m F (nec_pulses T)) d with
  | PSync => near F (header_high T + header_low T) 7 d
  | PRepeat => near F (header_high T + repeat_low T) 7 d
  | PZero => near F 1120 25 d
  | POne => near F 2250 12 d
  | PInvalid => True
  end.
Proof.
  intros Hm Hf HT. unfold nec_class. destruct (spans_get _ d) as [k|] eqn:E; [|exact I].
  apply spans_exact in E; auto using nec_table_ok, exact_low. destruct E as (p & t & E & Hn).
  assert (E3 : data_high T + data_zero_low T = 1120) by (destruct HT as [->| ->]; reflexivity).
  assert (E4 : data_high T + data_one_low T = 2250) by (destruct HT as [->| ->]; reflexivity).
  destruct k as [|[q|q|]]; cbn [nec_pw_from].
  - cbn in E. injection E as <- <-. exact Hn.
  - destruct q; try exact I. cbn in E. injection E as <- <-. rewrite E4 in Hn. exact Hn.
  - destruct q; try exact I. cbn in E. injection E as <- <-. rewrite E3 in Hn. exact Hn.
  - cbn in E. injection E as <- <-. exact Hn.
Qed.

Lemma nec_quiet_from m F T : timebase m F -> F < 2 ^ 32 -> 893 <= F -> nec_timing_ok T -> nec_quiet (spans_of m F (nec_pulses T)).
Proof.
  intros Hm Hf HF HT.
  assert (I : match nec_class (spans_of m F (nec_pulses T)) 0 with
              | PSync => near F (header_high T + header_low T) 8 0 | PRepeat => near F (header_high T + repeat_low T) 8 0
              | _ => True end).
  { destruct HT as [->| ->]; [pose proof (nec_class_inv m F NecStandard Hm Hf (or_introl eq_refl) 0) as I
      |pose proof (nec_class_inv m F NecSamsung Hm Hf (or_intror eq_refl) 0) as I]; cbn [nv_timing NecStandard NecSamsung] in I;
      destruct (nec_class _ 0); auto. }
  unfold nec_quiet. destruct (nec_class _ 0); split; try discriminate; exfalso; revert I; clear -HT HF; unfold near, nominal;
    destruct HT as [->| ->]; cbn [header_high header_low repeat_low NEC_STANDARD_TIMING NEC_SAMSUNG_TIMING]; intros [_ I]; lia.
Qed.

(** The three lengths are read as they should be exactly at the rates of the lists. *)
Lemma nec_rate_suits m F V : timebase m F -> F < 2 ^ 32 -> nec_timing_ok (nv_timing V) ->
  let ss := spans_of m F (nec_pulses (nv_timing V)) in
  (variant_rate (nv_timing V) F -> nec_suits ss F (header_high (nv_timing V)) (header_low (nv_timing V)) /\ nec_quiet ss) /\
  (~ variant_rate (nv_timing V) F -> ~ nec_suits ss F (header_high (nv_timing V)) (header_low (nv_timing V)) /\ F < 14000).
Proof.
  intros Hm Hf HT ss.
  destruct (N.le_gt_cases F 1000) as [L|L].
  - unfold ss. rewrite spans_of_nominal by (auto using nec_table_ok; lia). unfold variant_rate. clear ss.
    destruct HT as [-> | ->]; [destruct (low_use _ _ F nec_low_all L) as (A & B)|destruct (low_use _ _ F samsung_low_all L) as (A & B)];
      cbn [header_high N.eqb Pos.eqb NEC_STANDARD_TIMING NEC_SAMSUNG_TIMING] in *.
    + unfold nec_rate. split; [intros [H|H]; [lia|exact (A H)]|]. intros H. split; [apply B; intros K; apply H; right; exact K|lia].
    + unfold samsung_rate. split; [intros [H|H]; [lia|exact (A H)]|]. intros H. split; [apply B; intros K; apply H; right; exact K|lia].
  - assert (Q : nec_quiet ss) by (apply nec_quiet_from; auto; lia).
    pose proof (nec_class_near m F V Hm Hf HT ltac:(lia)) as K. fold ss in K.
    assert (E34 : data_high (nv_timing V) + data_zero_low (nv_timing V) = 1120 /\ data_high (nv_timing V) + data_one_low (nv_timing V) = 2250)
      by (destruct HT as [->| ->]; split; reflexivity).
    destruct E34 as (E3 & E4). rewrite E3, E4 in K.
    assert (Suit : near F (header_high (nv_timing V) + header_low (nv_timing V)) (guaranteed F 7)
                     (khz_ticks F (header_low (nv_timing V)) + khz_ticks F (header_high (nv_timing V))) ->
                   near F 1120 (guaranteed F 25) (khz_ticks F 560 + khz_ticks F 560) ->
                   near F 2250 (guaranteed F 12) (khz_ticks F 1690 + khz_ticks F 560) ->
                   nec_suits ss F (header_high (nv_timing V)) (header_low (nv_timing V)) /\ nec_quiet ss).
    { intros N1 N2 N3. split; [|exact Q]. split; [exact (proj1 (K _) N1)|]. destruct (K (khz_ticks F 560 + khz_ticks F 560)) as (_ & _ & K2 & _).
      destruct (K (khz_ticks F 1690 + khz_ticks F 560)) as (_ & _ & _ & K3). auto. }
    assert (Near : F < 14000 -> nec_suits ss F (header_high (nv_timing V)) (header_low (nv_timing V)) ->
      nec_nears F (header_high (nv_timing V) + header_low (nv_timing V)) (header_high (nv_timing V)) (header_low (nv_timing V))).
    { intros Hlo (S1 & S2 & S3). unfold nec_nears.
      pose proof (class_near m F (nv_timing V) (khz_ticks F (header_low (nv_timing V)) + khz_ticks F (header_high (nv_timing V))) Hm ltac:(lia) HT) as I1.
      pose proof (class_near m F (nv_timing V) (khz_ticks F 560 + khz_ticks F 560) Hm ltac:(lia) HT) as I2.
      pose proof (class_near m F (nv_timing V) (khz_ticks F 1690 + khz_ticks F 560) Hm ltac:(lia) HT) as I3.
      fold ss in I1, I2, I3. rewrite S1 in I1. rewrite S2 in I2. rewrite S3 in I3. auto. }
    assert (G : forall t, F < 14000 -> guaranteed F t = t) by (intros t Hl; unfold guaranteed; rewrite (proj2 (N.leb_le _ _)) by lia; reflexivity).
    unfold variant_rate. destruct HT as [E|E]; rewrite E in *;
      cbn [header_high header_low N.eqb Pos.eqb NEC_STANDARD_TIMING NEC_SAMSUNG_TIMING] in *.
    + change (9000 + 4500) with 13500 in *. unfold nec_rate. split.
      * intros H. destruct (N.lt_ge_cases F 13000) as [L2|L2].
        -- rewrite !(G _ ltac:(lia)) in Suit. destruct H as [H|H]; [lia|]. apply nec_band_nears in H; auto. destruct H as (N1 & N2 & N3). auto.
        -- apply Suit; [apply nec_near_sync|apply nec_near_zero|apply nec_near_one]; exact L2.
      * intros H. assert (L2 : F < 13000) by (destruct (N.lt_ge_cases F 13000); auto; exfalso; apply H; left; auto).
        split; [|lia]. intros S0. apply H. right. apply nec_band_nears; auto. apply Near; auto. lia.
    + change (4500 + 4500) with 9000 in *. unfold samsung_rate. split.
      * intros H. destruct (N.lt_ge_cases F 14000) as [L2|L2].
        -- rewrite !(G _ ltac:(lia)) in Suit. destruct H as [H|H]; [lia|]. apply samsung_band_nears in H; auto. destruct H as (N1 & N2 & N3). auto.
        -- apply Suit; [apply samsung_near_sync|apply nec_near_zero|apply nec_near_one]; lia.
      * intros H. assert (L2 : F < 14000) by (destruct (N.lt_ge_cases F 14000); auto; exfalso; apply H; left; auto).
        split; [|lia]. intros S0. apply H. right. apply samsung_band_nears; auto.
Qed.

(** ** RC5 *)

Lemma rc5_rate_near F n : rc5_rate F -> n = 1 \/ n = 2 -> near F (889 * n) (guaranteed F (rc5_tol n)) (khz_ticks F 889 * n).
Proof.
  intros HF Hn. destruct (N.lt_ge_cases F 13000) as [L|L]; [|apply rc5_near; assumption].
  destruct HF as [H|H]; [lia|]. unfold guaranteed. rewrite (proj2 (N.leb_le _ _)) by lia.
  apply bandsb_spec in H. unfold bandsb, rc5_bands in H. cbn [existsb fst snd] in H.
  assert (L5 : 5000 <= F) by lia. destruct Hn as [-> | ->]; unfold rc5_tol; cbn [N.eqb Pos.eqb N.mul Pos.mul]; by_khz F;
    (repeat (destruct K as [K|K]; [rewrite K in *; clear K; lia|]); rewrite K in *; lia).
Qed.

Lemma rc5_rate_low F : rc5_rate F -> 5000 <= F.
Proof. intros [H|H]; [lia|]. apply bandsb_spec in H. unfold bandsb, rc5_bands in H. cbn [existsb fst snd] in H. lia. Qed.

(** At the other rates one unit does not count as one and two as two; nor does one unit
    count as three and two as two. *)
Lemma rc5_other_rates F : ~ rc5_rate F -> F < 13000 /\
  ~ (rc5_counts F 1 (khz_ticks F 889 * 1) /\ rc5_counts F 2 (khz_ticks F 889 * 2)) /\
  ~ (rc5_counts F 3 (khz_ticks F 889 * 1) /\ rc5_counts F 2 (khz_ticks F 889 * 2)).
Proof.
  intros H. assert (L : F < 13000) by (destruct (N.lt_ge_cases F 13000); auto; exfalso; apply H; left; assumption).
  split; [exact L|].
  assert (B : bandsb rc5_bands F = false) by (destruct (bandsb rc5_bands F) eqn:E; [exfalso; apply H; right; apply bandsb_spec; exact E|reflexivity]).
  clear H. split.
  - intros (C1 & C2).
    assert (N1 : near F 889 12 (khz_ticks F 889 * 1)) by (unfold rc5_counts in C1; intuition lia).
    assert (N2 : near F 1778 10 (khz_ticks F 889 * 2) /\ ~ near F 889 12 (khz_ticks F 889 * 2)) by (unfold rc5_counts in C2; intuition lia).
    clear C1 C2. destruct N2 as (N2 & N3).
    destruct (N.le_gt_cases F 1000) as [L2|L2].
    + assert (Z : khz_ticks F 889 = 0) by (unfold khz_ticks; rewrite (proj2 (N.leb_le _ _)) by exact L2; lia). rewrite Z in *. exact (N3 N1).
    + clear N3. unfold bandsb, rc5_bands in B. cbn [existsb fst snd] in B. revert N1 N2. by_khz F. intros N1 N2.
      repeat (destruct K as [K|K]; [rewrite K in *; clear K; lia|]). rewrite K in *; lia.
  - intros (C1 & C2). unfold rc5_counts in C1, C2. assert (Z : khz_ticks F 889 = 0) by intuition lia. rewrite Z in *. intuition lia.
Qed.
