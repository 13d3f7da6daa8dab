(** * Lemmas: signals with missing pulses *)
From Coq Require Import NArith ZArith List Bool Lia ZifyBool ZifyNat ZifyN.
From Verif Require Import Machine Time Decoder Nec Rc5 Rc6 Denon Sbp Receiver Spec Bits Time_facts Run_facts Rc5_facts Nec_facts
  Spec_receiver Spec_sound Sound_facts Biphase_facts Spec_cross Cross_facts Spec_damage.
Import ListNotations.
Open Scope N_scope.

(** ** Where a report comes from *)

Lemma reported_at {D : decoder} {C : Type} (into : dcmd D -> C) r0 hist evs r os x :
  @run_edges D C into r0 (hist ++ evs) = Val (r, os) -> In x (commands (skipn (length hist) os)) ->
  exists k e d rest r' os', evs = k ++ (e, d) :: rest /\
    @run_edges D C into r0 (hist ++ k ++ [(e, d)]) = Val (r', os' ++ [ROk (Some x)]).
Proof.
  revert r os. induction evs as [|[e d] evs IH] using rev_ind; intros r os E Hi.
  - rewrite app_nil_r in E. pose proof (run_edges_length into hist r0 r os E) as L.
    unfold edge in *. rewrite <- L, skipn_all in Hi. destruct Hi.
  - rewrite app_assoc in E. pose proof E as E'. apply run_edges_snoc in E. destruct E as (r1 & os1 & o & E1 & E2 & ->).
    pose proof (run_edges_length into _ r0 r1 os1 E1) as L. rewrite app_length in L.
    rewrite skipn_app in Hi. unfold commands in Hi. rewrite flat_map_app in Hi.
    unfold edge in *. replace (length hist - length os1)%nat with 0%nat in Hi by lia. cbn [skipn flat_map] in Hi.
    apply in_app_or in Hi. destruct Hi as [Hi|Hi].
    + destruct (IH r1 os1 E1 Hi) as (k & e' & d' & rest & r' & os' & -> & Er).
      exists k, e', d', (rest ++ [(e, d)]), r', os'. rewrite <- app_assoc. auto.
    + destruct o as [[y|]|]; cbn [app In] in Hi; try tauto. destruct Hi as [->|[]].
      exists evs, e, d, [], r, os1. split; [reflexivity|]. rewrite app_assoc. exact E'.
Qed.

(** ** The NEC decoder in the middle of a frame *)

(** A header and some bits, but not all of them. *)
Definition nec_bit_near (freq d : N) : Prop := near freq 2250 (guaranteed freq 12) d \/ near freq 1120 (guaranteed freq 25) d.
Definition nec_begun (freq header : N) (q : list N) : Prop :=
  exists hd ds, q = hd :: ds /\ near freq header (guaranteed freq 7) hd /\ Forall (nec_bit_near freq) ds /\ (length ds < 32)%nat.

Section NecBegun.
  Variables (b : build) (m : mono) (freq : N) (V : nec_variant).
  Notation T := (nv_timing V).
  Hypothesis (Hm : timebase m freq) (Hf : freq < M32) (HT : nec_timing_ok T) (H893 : 893 <= freq).
  Notation ss := (spans_of m freq (nec_pulses T)).
  Notation D := (nec_dec b m V).
  Context {C : Type} (into : nv_cmd V -> C).
  Notation run := (@run_edges D C into).
  Notation st s buf sv pv := (@mkRecv D (mkNecDec s buf sv ss) pv).
  Notation hdr := (header_high T + header_low T).

  Lemma nec_bits_begun k : forall sv i buf pv r os, Forall (fun p => p < 2 ^ 32) (periods_from sv k) ->
    Forall (nec_bit_near freq) (periods_from sv k) -> i + N.of_nat (length (periods_from sv k)) < 32 ->
    run (st (NReceiving i) buf sv pv) k = Val (r, os) -> exists i' buf' sv' pv', r = st (NReceiving i') buf' sv' pv'.
  Proof using Hm Hf HT H893.
    induction k as [|[e d] k IH]; intros sv i buf pv r os Fp Fb L E; cbn [run_edges] in E.
    - injection E as <- _. eauto.
    - destruct e; cbn [periods_from length] in Fp, Fb, L.
      + inversion Fp as [|y l Hp Fp']; subst. inversion Fb as [|y l Hb Fb']; subst.
        rewrite (nec_fits_rise b m freq V Hm Hf into (NReceiving i) buf sv pv d Hp) in E.
        pose proof (nec_class_near m freq V Hm Hf HT H893 (sv + d)) as (_ & _ & K3 & K4).
        assert (Hd : data_high (nv_timing V) + data_zero_low (nv_timing V) = 1120 /\ data_high (nv_timing V) + data_one_low (nv_timing V) = 2250).
        { destruct HT as [-> | ->]; split; reflexivity. }
        destruct Hd as [Hd1 Hd2]. rewrite Hd1 in K3. rewrite Hd2 in K4. 
        assert (Hi : i =? 31 = false) by (apply N.eqb_neq; lia).
        destruct Hb as [Hb|Hb].
        * rewrite (K4 Hb) in E. cbn [nec_transition] in E. rewrite Hi in E. unfold ushl1, uadd in E.
          rewrite (proj2 (N.ltb_lt i 32)) in E by lia. cbn [bind] in E. rewrite (proj2 (N.ltb_lt (i + 1) (2 ^ 32))) in E by lia.
          cbn [bind nec_to_state] in E. destruct (run _ k) as [[r1 os1]| |] eqn:E1; cbn [bind] in E; try discriminate.
          injection E as <- _. eapply (IH 0 (i + 1)); [exact Fp'|exact Fb'|lia|exact E1].
        * rewrite (K3 Hb) in E. cbn [nec_transition] in E. rewrite Hi in E. unfold uadd in E.
          rewrite (proj2 (N.ltb_lt (i + 1) (2 ^ 32))) in E by lia.
          cbn [bind nec_to_state] in E. destruct (run _ k) as [[r1 os1]| |] eqn:E1; cbn [bind] in E; try discriminate.
          injection E as <- _. eapply (IH 0 (i + 1)); [exact Fp'|exact Fb'|lia|exact E1].
      + rewrite nec_fits_fall in E by (cbn [nec_live]; lia). cbn [bind] in E.
        destruct (run _ k) as [[r1 os1]| |] eqn:E1; cbn [bind] in E; try discriminate.
        injection E as <- _. eapply (IH d i); eauto.
  Qed.

  Lemma nec_header_begun k : forall sv buf pv r os, Forall (fun p => p < 2 ^ 32) (periods_from sv k) ->
    nec_begun freq hdr (periods_from sv k) ->
    run (st NInit buf sv pv) k = Val (r, os) -> exists i' buf' sv' pv', r = st (NReceiving i') buf' sv' pv'.
  Proof using Hm Hf HT H893.
    induction k as [|[e d] k IH]; intros sv buf pv r os Fp B E; cbn [run_edges] in E.
    - destruct B as (hd & ds & B & _). discriminate.
    - destruct e; cbn [periods_from length] in Fp, B.
      + inversion Fp as [|y l Hp Fp']; subst. destruct B as (hd & ds & B & Hh & Hb & L). injection B as <- <-.
        rewrite (nec_fits_rise b m freq V Hm Hf into NInit buf sv pv d Hp) in E.
        pose proof (nec_class_near m freq V Hm Hf HT H893 (sv + d)) as (K1 & _).
        rewrite (K1 Hh) in E. cbn [nec_transition bind nec_to_state] in E.
        destruct (run _ k) as [[r1 os1]| |] eqn:E1; cbn [bind] in E; try discriminate.
        injection E as <- _. eapply (nec_bits_begun k 0 0); [exact Fp'|exact Hb|lia|exact E1].
      + rewrite nec_fits_fall in E by exact I. cbn [bind] in E.
        destruct (run _ k) as [[r1 os1]| |] eqn:E1; cbn [bind] in E; try discriminate.
        injection E as <- _. eapply (IH d); eauto.
  Qed.
End NecBegun.

(** After a gap, with no frame in what follows, only a repeat code can be reported, and not in the
    middle of a frame. *)
Lemma nec_only_repeats b m freq V (C : Type) (into : nv_cmd V -> C) hist gap evs r0 r os x :
  timebase m freq -> freq < 2 ^ 32 -> 20000 <= freq -> nec_timing_ok (nv_timing V) ->
  longer freq 13500 8 gap -> periods_fit (hist ++ (true, gap) :: evs) ->
  ~ has_nec_frame freq (header_high (nv_timing V) + header_low (nv_timing V)) (periods_from 0 evs) ->
  receiver_new (nec_protocol b m V) freq = Val r0 ->
  run_edges (D := nec_dec b m V) into r0 (hist ++ (true, gap) :: evs) = Val (r, os) ->
  In x (commands (skipn (length hist) os)) ->
  exists w c q1 d q2, x = into c /\ nv_unpack V w true = Some c /\ periods_from 0 evs = q1 ++ d :: q2 /\
    near freq (header_high (nv_timing V) + repeat_low (nv_timing V)) 8 d /\
    ~ nec_begun freq (header_high (nv_timing V) + header_low (nv_timing V)) q1.
Proof.
  intros Hm Hf Hlo HT Hg Hfit Nf E0 E Hi.
  destruct (reported_at (D := nec_dec b m V) into r0 hist _ r os x E Hi) as (k & e & d & rest & r' & os' & Ek & E').
  rewrite app_assoc in E'.
  assert (Hfit' : periods_fit ((hist ++ k) ++ [(e, d)])).
  { rewrite Ek in Hfit. change ((e, d) :: rest) with ([(e, d)] ++ rest) in Hfit. rewrite !app_assoc in Hfit.
    apply periods_fit_app in Hfit. exact Hfit. }
  destruct (nec_sound_report b m freq V Hm Hf HT into (hist ++ k) e d r0 r' os' x E0 Hfit' E') as (-> & w & pv & c & _ & -> & K).
  assert (G : forall p t, near freq p t (last_mark hist + gap) -> p <= 13500 ->
                t <= 8 \/ (100 + t) * p <= 108 * 13500 - 10000 -> False).
  { intros p t Hn Hp Ht. eapply longer_not_near; [exact Hlo|exact Hg| |exact Hp|exact Ht|exact Hn]. lia. }
  assert (Gr : forall p, p = header_high (nv_timing V) + header_low (nv_timing V) \/ p = header_high (nv_timing V) + repeat_low (nv_timing V) -> p <= 13500).
  { intros p [-> | ->]; destruct HT as [-> | ->]; vm_compute; discriminate. }
  destruct k as [|y k2]; cbn [app] in Ek; injection Ek as Ey Ek.
  { exfalso. subst d evs. rewrite app_nil_r in K. rewrite periods_snoc in K.
    destruct K as [[(pre & hd & ds & Eps & Hhd & Hw & F) _]|[(pre & dd & Eps & Hdd) K2]].
    - destruct ds as [|y ds _] using rev_ind.
      + apply forall2_length in F. unfold bits_lsb in F. rewrite map_length, seq_length in F. discriminate.
      + change (pre ++ hd :: ds ++ [y]) with (pre ++ (hd :: ds) ++ [y]) in Eps. rewrite app_assoc in Eps.
        apply app_inj_tail in Eps. destruct Eps as [_ Ey]. subst y.
        apply Forall2_app_inv_r in F. destruct F as (l1 & l2 & _ & F2 & _). inversion F2 as [|bt y l l' Hb _]; subst.
        destruct bt; cbn [nec_seen_bit] in Hb; apply (G _ _ Hb); try lia; right; vm_compute; discriminate.
    - apply app_inj_tail in Eps. destruct Eps as [_ <-]. apply (G _ _ Hdd); [apply Gr; auto|left; lia]. }
  subst y evs. assert (Ep : periods ((hist ++ (true, gap) :: k2) ++ [(true, d)]) = periods hist ++ (last_mark hist + gap) :: periods_from 0 (k2 ++ [(true, d)])).
  { rewrite <- app_assoc. cbn [app]. apply periods_gap. }
  unfold edge in *. rewrite Ep in K.
  replace (k2 ++ (true, d) :: rest) with ((k2 ++ [(true, d)]) ++ rest) in * by (rewrite <- app_assoc; reflexivity).
  destruct (periods_from_app (k2 ++ [(true, d)]) 0 rest) as [more Em]. unfold edge in *. rewrite Em in *.
  destruct K as [[(pre & hd & ds & Eps & Hhd & Hw & F) _]|[(pre & dd & Eps & Hdd) K2]].
  - exfalso.
    assert (L : length ds = 32%nat) by (rewrite <- (forall2_length _ _ _ F); apply map_length || reflexivity).
    assert (Fs : Forall (nec_seen freq) ds).
    { clear -F. induction F as [|bt dd bs ds H F IH]; constructor; auto. unfold nec_seen. destruct bt; auto. }
    apply split_at in Eps. destruct Eps as [(p & Eq & _)|(p & Eq & _)].
    + destruct p as [|y p]; cbn [app] in Eq; injection Eq as -> Eq.
      * apply (G _ _ Hhd); [apply Gr; auto|left; lia].
      * rewrite Eq in Fs. apply Forall_app in Fs. destruct Fs as [_ Fs]. inversion Fs as [|y' l [Hn|Hn] _]; subst.
        -- apply (G _ _ Hn); [lia|right; vm_compute; discriminate].
        -- apply (G _ _ Hn); [lia|right; vm_compute; discriminate].
    + apply Nf. exists p, hd, ds, more. rewrite Eq, <- app_assoc. auto.
  - apply split_at in Eps. destruct Eps as [(p & Eq & _)|(p & Eq & _)].
    + exfalso. destruct p as [|y [|z p]]; cbn [app] in Eq; try discriminate Eq. injection Eq as -> _.
      apply (G _ _ Hdd); [apply Gr; auto|left; lia].
    + exists w, c, p, dd, more. split; [reflexivity|]. split; [exact K2|].
      split; [rewrite Eq, <- app_assoc; reflexivity|]. split; [exact Hdd|]. intros B.
      (* the decoder is in the middle of a frame *)
      assert (Eq1 : periods_from 0 k2 = p /\ exists sv, dd = sv + d /\ sv = last_mark (hist ++ (true, gap) :: k2)).
      { rewrite periods_from_snoc in Eq. apply app_inj_tail in Eq. destruct Eq as [<- <-]. split; [reflexivity|].
        eexists. split; [reflexivity|]. unfold last_mark, edge. rewrite rev_app_distr. cbn [rev]. rewrite <- app_assoc.
        destruct (rev k2) as [|[[|] z] t]; reflexivity. }
      destruct Eq1 as (Eq1 & sv & Edd & Esv).
      pose proof E' as E2. apply run_edges_snoc in E2. destruct E2 as (r1 & os1 & o & E1 & E2 & Eo).
      apply app_inj_tail in Eo. destruct Eo as [_ <-].
      pose proof (periods_fit_snoc _ _ _ Hfit') as [Hfit1 Hd1]. specialize (Hd1 eq_refl).
      assert (Fk : Forall (fun p => p < 2 ^ 32) (periods_from 0 k2) /\ periods_fit hist /\ last_mark hist + gap < 2 ^ 32).
      { unfold periods_fit in Hfit1 |- *. unfold edge in *. rewrite periods_gap in Hfit1. apply Forall_app in Hfit1. destruct Hfit1 as [F1 F2].
        inversion F2; subst. auto. }
      destruct Fk as (Fk & Fh & Fg).
      change ((true, gap) :: k2) with ([(true, gap)] ++ k2) in E1. rewrite app_assoc in E1.
      pose proof E1 as E3. rewrite run_edges_app in E3.
      destruct (run_edges (D := nec_dec b m V) into r0 (hist ++ [(true, gap)])) as [[ra oa]| |] eqn:Ea; cbn [bind] in E3; try discriminate.
      destruct (run_edges (D := nec_dec b m V) into ra k2) as [[rb ob]| |] eqn:Eb; cbn [bind] in E3; try discriminate.
      injection E3 as -> _.
      apply run_edges_snoc in Ea. destruct Ea as (rc & oc & o1 & Ec & Ed & ->).
      destruct (nec_sound_run b m freq V Hm Hf HT into hist r0 rc oc E0 Fh Ec) as (s & buf & pv1 & -> & Hl & _).
      rewrite (nec_fits_rise b m freq V Hm Hf into s buf (last_mark hist) pv1 gap Fg) in Ed.
      rewrite (nec_class_long m freq V) in Ed; auto; [|].
      2: { unfold longer in *. pose proof (nominal_le freq _ _ (Gr _ (or_introl eq_refl))). nia. }
      assert (Er : exists buf' pv', ra = @mkRecv (nec_dec b m V) (mkNecDec NInit buf' 0 (spans_of m freq (nec_pulses (nv_timing V)))) pv').
      { destruct s as [|i| | |er]; try contradiction; cbn [nec_transition bind nec_to_state] in Ed; injection Ed as <- _; eauto. }
      destruct Er as (buf' & pv' & ->).
      assert (H893 : 893 <= freq) by lia. rewrite <- Eq1 in B.
      destruct (nec_header_begun b m freq V Hm Hf HT H893 into k2 0 buf' pv' r1 ob Fk B Eb) as (i & buf2 & sv2 & pv2 & ->).
      rewrite <- app_assoc in E1. cbn [app] in E1.
      destruct (nec_sound_run b m freq V Hm Hf HT into _ r0 _ os1 E0 Hfit1 E1) as (s2 & buf3 & pv3 & Est & _).
      injection Est as _ _ Es2 _.
      rewrite (nec_fits_rise b m freq V Hm Hf into) in E2 by (rewrite Es2; exact Hd1).
      rewrite Es2, <- Esv, <- Edd in E2.
      pose proof (nec_class_inv m freq V Hm Hf HT dd) as Ci.
      assert (X : forall p t, near freq p t dd -> p = 1120 /\ t = 26 \/ p = 2250 /\ t = 13 -> False).
      { intros p0 t0 Hn [[-> ->]|[-> ->]]; destruct HT as [HT|HT]; rewrite HT in Hdd;
          refine (near_below freq _ _ _ _ dd Hlo Hn Hdd _); vm_compute; reflexivity. }
      destruct (nec_class _ dd); cbn [nec_transition bind nec_to_state] in E2; try discriminate E2.
      all: exfalso; eapply X; [exact Ci|]; destruct HT as [-> | ->]; vm_compute; auto.
Qed.

(** ** Lost pulses in terms of periods *)

(** Neighbours added up, and possibly the end missing. *)
Inductive merged : list N -> list N -> Prop :=
| merged_end l : merged l []
| merged_keep d l l' : merged l l' -> merged (d :: l) (d :: l')
| merged_add d1 d2 l l' : merged ((d1 + d2) :: l) l' -> merged (d1 :: d2 :: l) l'.

Lemma misses_merged h h' : misses h h' -> forall f, alt f h -> forall sv, merged (periods_from sv h) (periods_from sv h').
Proof.
  induction 1 as [|[e d] h h' M IH|e d1 d2 d3 h h' M IH]; intros f A sv.
  - constructor.
  - cbn [alt] in A. destruct A as [-> A]. specialize (IH _ A). destruct f; cbn [periods_from]; [constructor|]; apply IH.
  - cbn [alt] in A. destruct A as (-> & _ & _ & A). rewrite negb_involutive in A.
    specialize (IH f (conj eq_refl A) sv). destruct f; cbn [periods_from negb] in *.
    + constructor. replace (sv + d1 + (d2 + d3)) with (sv + (d1 + d2 + d3)) by lia. exact IH.
    + destruct h as [|[e4 d4] h]; cbn [periods_from] in *.
      * inversion IH; subst. constructor.
      * destruct A as [-> _]. cbn [negb] in *. constructor.
        replace (d1 + d2 + (d3 + d4)) with (d1 + d2 + d3 + d4) by lia. exact IH.
Qed.

Lemma misses_alt h h' : misses h h' -> forall f, alt f h -> alt f h'.
Proof.
  induction 1 as [|[e d] h h' M IH|e d1 d2 d3 h h' M IH]; intros f A; cbn [alt] in *; auto.
  - destruct A. auto.
  - destruct A as (-> & _ & _ & A). rewrite negb_involutive in A. auto.
Qed.

Fixpoint rises (h : list edge) : nat := match h with [] => 0 | (true, _) :: r => S (rises r) | _ :: r => rises r end.
Lemma rises_periods h : forall sv, length (periods_from sv h) = rises h.
Proof. induction h as [|[[|] d] h IH]; intros sv; cbn [periods_from rises length]; auto. Qed.
Lemma misses_rises h h' : misses h h' -> (2 * rises h + length h' = 2 * rises h' + length h)%nat.
Proof.
  induction 1 as [|[e d] h h' M IH|e d1 d2 d3 h h' M IH]; [reflexivity| |].
  - destruct e; cbn [rises length]; lia.
  - destruct e; cbn [rises length negb] in *; lia.
Qed.

Lemma misses_cons x h l' : misses (x :: h) l' -> exists x' h', l' = x' :: h' /\ fst x' = fst x /\ snd x <= snd x'.
Proof.
  intros M. remember (x :: h) as l eqn:El. revert x h El.
  induction M as [|y h0 h' M IH|e d1 d2 d3 h0 h' M IH]; intros x h El.
  - discriminate.
  - injection El as <- <-. exists y, h'. split; [reflexivity|]. split; [reflexivity|lia].
  - injection El as <- <-. destruct (IH _ _ eq_refl) as (x' & h1 & -> & E & L). exists x', h1. cbn [fst snd] in *. split; auto. split; auto. lia.
Qed.

(** What follows the first of the periods. *)
Lemma merged_cons a qs a' qs' : merged (a :: qs) (a' :: qs') ->
  exists q1 q2, qs = q1 ++ q2 /\ a' = a + total q1 /\ merged q2 qs'.
Proof.
  intros M. remember (a :: qs) as l eqn:El. remember (a' :: qs') as l' eqn:El'. revert a qs El El'.
  induction M as [l|d l l' M IH|d1 d2 l l' M IH]; intros a qs El El'.
  - discriminate.
  - injection El as <- <-. injection El' as <- <-. exists [], l. cbn. split; auto. split; [lia|auto].
  - injection El as <- <-. destruct (IH _ _ eq_refl El') as (q1 & q2 & -> & -> & Mq).
    exists (d2 :: q1), q2. split; [reflexivity|]. split; [cbn [total fold_right]; unfold total; lia|exact Mq].
Qed.

Lemma merged_length l l' : merged l l' -> (length l' <= length l)%nat.
Proof. induction 1; cbn [length] in *; lia. Qed.

(** One of the sums, and what is left and right of it. *)
Lemma merged_split q1 : forall l d q2, merged l (q1 ++ d :: q2) ->
  exists p1 seg p2, l = p1 ++ seg ++ p2 /\ d = total seg /\ seg <> [] /\
    (length q1 <= length p1)%nat /\ (length q1 = length p1 -> q1 = p1) /\ (length q2 <= length p2)%nat.
Proof.
  induction q1 as [|x q1 IH]; intros l d q2 M; (destruct l as [|a qs]; [inversion M|]); cbn [app] in M.
  - destruct (merged_cons _ _ _ _ M) as (g & rest & -> & -> & Mr). exists [], (a :: g), rest.
    split; [reflexivity|]. split; [cbn [total fold_right]; unfold total; lia|]. split; [discriminate|]. cbn [length].
    split; [lia|]. split; [auto|]. apply merged_length in Mr. exact Mr.
  - destruct (merged_cons _ _ _ _ M) as (g & rest & -> & -> & Mr). destruct (IH _ _ _ Mr) as (p1 & seg & p2 & -> & -> & Hs & L1 & L2 & L3).
    exists (a :: g ++ p1), seg, p2. split; [cbn [app]; rewrite <- app_assoc; reflexivity|]. split; [reflexivity|]. split; [exact Hs|].
    cbn [length]. rewrite app_length. split; [lia|]. split; [|exact L3]. intros E. destruct g as [|y g]; [|cbn [length] in E; lia].
    cbn [total fold_right length app] in *. rewrite N.add_0_r, (L2 ltac:(lia)). reflexivity.
Qed.

Lemma alt_sent ps tail : stopped tail -> alt false (pair_edges ps ++ tail).
Proof.
  intros T. induction ps as [|[m s] ps IH]; cbn [pair_edges app alt negb]; [|auto].
  destruct T as [-> |(d & ->)]; cbn; auto.
Qed.
Lemma sent_periods ps tail sv : stopped tail -> periods_from 0 (pair_edges ps ++ tail) = map period ps /\
  periods_from sv ((true, 0) :: pair_edges ps ++ tail) = sv :: map period ps.
Proof.
  intros T. assert (E : periods_from 0 (pair_edges ps ++ tail) = map period ps).
  { induction ps as [|[m s] ps IH]; cbn [pair_edges app periods_from map]; [|rewrite IH; reflexivity].
    destruct T as [-> |(d & ->)]; reflexivity. }
  split; [exact E|]. cbn [periods_from]. rewrite E, N.add_0_r. reflexivity.
Qed.

(** A damaged transmission: the gap has not become shorter, there are fewer periods, each a sum of
    some neighbours. *)
Lemma damaged gap ps tail l' : stopped tail -> misses_some (transmitted gap ps tail) l' ->
  exists g' evs', l' = (true, g') :: evs' /\ gap <= g' /\ alt false evs' /\
    (length (periods_from 0 evs') < length ps)%nat /\ merged (gap :: map period ps) (g' :: periods_from 0 evs') /\
    (forall n, misses_upto n (transmitted gap ps tail) l' -> (length ps <= n + length (periods_from 0 evs'))%nat).
Proof.
  intros T [M L]. unfold transmitted in *.
  assert (A : alt true ((true, gap) :: pair_edges ps ++ tail)) by (cbn [alt negb]; split; [reflexivity|apply alt_sent, T]).
  destruct (misses_cons _ _ _ M) as ([e g'] & evs' & -> & E & Lg). cbn [fst snd] in *. subst e.
  exists g', evs'. split; [reflexivity|]. split; [exact Lg|].
  split; [pose proof (misses_alt _ _ M _ A) as A'; apply A'|].
  pose proof (misses_rises _ _ M) as R. cbn [rises] in R.
  pose proof (rises_periods (pair_edges ps ++ tail) 0) as R1. pose proof (rises_periods evs' 0) as R2.
  destruct (sent_periods ps tail 0 T) as [P _]. unfold edge in *. rewrite P, map_length in R1.
  split; [cbn [length] in *; lia|]. split.
  - pose proof (misses_merged _ _ M _ A 0) as Mg. cbn [periods_from] in Mg. rewrite P in Mg. exact Mg.
  - intros n [_ Ln]. unfold edge in *. cbn [length] in *. lia.
Qed.

Lemma longer_more freq p t d d' : longer freq p t d -> d <= d' -> longer freq p t d'.
Proof. unfold longer. lia. Qed.

(** ** RC5: the units of what is left *)

Section Rc5Units.
  Variable freq : N.
  Hypothesis Hlo : 20000 <= freq.

  Definition unit_of (n : N) (x : edge) : Prop :=
    n = 1 /\ near freq 889 12 (snd x) \/ n = 2 /\ near freq 1778 10 (snd x) \/ 3 <= n /\ 264 * nominal freq 889 <= 100 * snd x.

  Lemma nominal_double : 2 * nominal freq 889 <= nominal freq 1778 /\ nominal freq 1778 <= 2 * nominal freq 889 + 1 /\ 17 <= nominal freq 889.
  Proof using Hlo.
    unfold nominal. pose proof (N.div_mod (889 * freq) 1000000 ltac:(lia)) as D1. pose proof (N.mod_lt (889 * freq) 1000000 ltac:(lia)) as L1.
    pose proof (N.div_mod (1778 * freq) 1000000 ltac:(lia)) as D2. pose proof (N.mod_lt (1778 * freq) 1000000 ltac:(lia)) as L2.
    set (q1 := 889 * freq / 1000000) in *. set (q2 := 1778 * freq / 1000000) in *.
    set (m1 := (889 * freq) mod 1000000) in *. set (m2 := (1778 * freq) mod 1000000) in *. clearbody q1 q2 m1 m2. lia.
  Qed.

  Lemma unit_low n x : unit_of n x -> 1 <= n /\ 88 * nominal freq 889 <= 100 * snd x.
  Proof using Hlo.
    pose proof nominal_double as (H1 & H2 & H3). unfold unit_of, near.
    set (a := nominal freq 889) in *. set (c := nominal freq 1778) in *. clearbody a c. lia.
  Qed.

  Lemma unit_sum n1 n2 n3 e1 e2 e3 d1 d2 d3 : unit_of n1 (e1, d1) -> unit_of n2 (e2, d2) -> unit_of n3 (e3, d3) ->
    unit_of (n1 + n2 + n3) (e1, d1 + d2 + d3).
  Proof using Hlo.
    intros U1 U2 U3. apply unit_low in U1, U2, U3. cbn [snd] in *. right. right. cbn [snd]. lia.
  Qed.

  Lemma unit_read n x n' : unit_of n x -> rc5_interval freq n' (snd x) -> n = n' /\ n <= 2.
  Proof using Hlo.
    pose proof nominal_double as (H1 & H2 & H3). unfold unit_of, rc5_interval, near.
    set (a := nominal freq 889) in *. set (c := nominal freq 1778) in *. clearbody a c. lia.
  Qed.

  Lemma misses_units l l' : misses l l' -> forall ns, Forall2 unit_of ns l ->
    exists ns', Forall2 unit_of ns' l' /\ total ns' = total ns /\ hd 0 ns <= hd 0 ns' /\
      ((length l' < length l)%nat -> hd 0 ns + 2 <= hd 0 ns' \/ Exists (fun n => 3 <= n) (tl ns')).
  Proof using Hlo.
    induction 1 as [|x h h' M IH|e d1 d2 d3 h h' M IH]; intros ns F.
    - inversion F; subst. exists []. cbn. repeat split; auto; lia.
    - inversion F as [|n y ns0 h0 U F0]; subst. destruct (IH ns0 F0) as (ns' & F' & T & Hh & K).
      exists (n :: ns'). split; [constructor; auto|]. split; [cbn [total fold_right]; unfold total in T; lia|]. cbn [hd tl length].
      split; [lia|]. intros L. right. destruct K as [K|K]; [lia| |].
      + destruct ns' as [|n' ns']; [cbn [hd] in K; lia|]. cbn [hd] in *. constructor.
        destruct ns0 as [|n0 ns0]; [|inversion F0 as [|? ? ? ? U0 _]; subst; apply unit_low in U0; cbn [hd] in K; lia].
        inversion F0; subst. inversion M; subst. inversion F'.
      + destruct ns' as [|n' ns']; cbn [tl] in K; [inversion K|]. right. exact K.
    - inversion F as [|n1 y1 ns1 h1 U1 F1]; subst. inversion F1 as [|n2 y2 ns2 h2 U2 F2]; subst.
      inversion F2 as [|n3 y3 ns3 h3 U3 F3]; subst.
      destruct (IH (n1 + n2 + n3 :: ns3)) as (ns' & F' & T & Hh & K).
      { constructor; [eapply unit_sum; eauto|exact F3]. }
      exists ns'. split; [exact F'|]. split; [rewrite T; cbn [total fold_right]; lia|].
      cbn [hd] in *. apply unit_low in U2, U3. split; [lia|]. intros _. left. lia.
  Qed.

  (** Thirteen samples take 26 units. *)
  Lemma samples_time l : forall ns ck, Forall (fun n => 1 <= n) ns ->
    2 * N.of_nat (length (samples false ck l ns)) <= total ns + (if N.odd ck then 1 else 0).
  Proof using.
    clear Hlo freq. induction l as [|[e d] l IH]; intros [|n ns] ck F; cbn [samples length total fold_right]; try (destruct (N.odd ck); lia).
    inversion F as [|y l0 Hn F']; subst. specialize (IH ns (ck + n) F'). unfold total in IH. rewrite app_length.
    assert (O : N.odd (ck + n) = xorb (N.odd ck) (N.odd n)) by apply N.odd_add.
    assert (O2 : N.odd n = true \/ 2 <= n).
    { destruct (N.eq_dec n 1) as [->|]; [left; reflexivity|right; lia]. }
    destruct (N.odd ck), (N.odd n); cbn [xorb] in O; rewrite O in *; cbn [Bool.eqb length app] in *; try lia;
      destruct O2 as [O2|O2]; try discriminate; lia.
  Qed.
End Rc5Units.

(** ** RC5 frames in units *)

Lemma level_total_less ls : forall cur n, 1 <= n -> total (map snd (level_edges cur n ls)) + 1 <= n + N.of_nat (length ls).
Proof.
  induction ls as [|l ls IH]; intros cur n Hn; cbn [level_edges length]; [cbn; lia|].
  destruct (Bool.eqb l cur).
  - specialize (IH cur (n + 1)). lia.
  - cbn [map total fold_right snd]. specialize (IH l 1 ltac:(lia)). unfold total in IH. lia.
Qed.

Lemma rc5_half_length data : length (flat_map rc5_half data) = (2 * length data)%nat.
Proof. induction data as [|x data IH]; [reflexivity|]. cbn [flat_map]. rewrite app_length, IH. destruct x; cbn [rc5_half length]; lia. Qed.

Lemma rc5_units freq w gap l : 20000 <= freq -> N.testbit w 13 = true -> longer freq 13500 8 gap ->
  ended freq 889 (rc5_edges freq w gap) l ->
  exists evs ns, l = (true, gap) :: evs /\ Forall2 (unit_of freq) (3 :: ns) l /\ total ns <= 27.
Proof.
  intros Hlo Hw Hg Hl.
  assert (Ug : unit_of freq 3 (true, gap)).
  { right. right. cbn [snd]. split; [lia|]. unfold longer in Hg.
    pose proof (nominal_sum freq 889 889) as S1. pose proof (nominal_sum freq (889 + 889) 889) as S2.
    pose proof (nominal_le freq (889 + 889 + 889) 13500 ltac:(lia)) as Le. lia. }
  assert (K : forall body, rc5_edges freq w gap body -> exists evs ns, body = (true, gap) :: evs /\ Forall2 (unit_of freq) ns evs /\ total ns <= 26).
  { intros body (n & noms & acts & El & -> & F). exists acts, (map snd noms). split; [reflexivity|].
    destruct (rc5_noms w n noms El) as [B _]. split.
    - clear -F B. induction F as [|nom act noms acts H F IH]; cbn [map]; constructor.
      + inversion B as [|x l [H1 H2] _]; subst. apply biphase_wide in H. unfold rc5_tol in H.
        assert (E : snd nom = 1 \/ snd nom = 2) by lia. destruct E as [E|E]; rewrite E in H; rewrite E; [left|right; left]; split; auto.
      + inversion B; subst. auto.
    - unfold rc5_wave in El. unfold bits_msb, bits_lsb in El.
      assert (E : exists data, rev (map (fun i => N.testbit w (N.of_nat i)) (seq 0 14)) = true :: data /\ length data = 13%nat).
      { eexists. split; [cbn [seq map rev app]; change (N.of_nat 13) with 13; rewrite Hw; reflexivity|reflexivity]. }
      destruct E as (data & E & L). rewrite E in El. cbn [flat_map rc5_half app level_edges Bool.eqb] in El.
      injection El as <- <-. pose proof (level_total_less (flat_map rc5_half data) true 1 ltac:(lia)) as T.
      rewrite rc5_half_length, L in T. lia. }
  destruct Hl as [Hb|(body & d & -> & Hb & Hd)]; destruct (K _ Hb) as (evs & ns & -> & F & T).
  - exists evs, ns. split; [reflexivity|]. split; [constructor; auto|lia].
  - exists (evs ++ [(false, d)]), (ns ++ [1]). split; [reflexivity|]. split.
    + cbn [app]. constructor; [exact Ug|]. apply Forall2_app; [exact F|]. constructor; [|constructor]. left. auto.
    + unfold total. rewrite fold_right_app. cbn [fold_right]. clear -T. revert T. 
      assert (X : forall l a, fold_right N.add a l = total l + a).
      { induction l as [|y l IH]; intros a; cbn [fold_right total]; [reflexivity|]. rewrite IH. unfold total. cbn [fold_right]. lia. }
      rewrite X. lia.
Qed.

Lemma total_app a b : total (a ++ b) = total a + total b.
Proof. induction a as [|x a IH]; cbn [app total fold_right]; [reflexivity|]. unfold total in *. lia. Qed.

(** No thirteen bits can be read from what is left. *)
Lemma rc5_damaged freq w gap l l' : 20000 <= freq -> N.testbit w 13 = true -> longer freq 13500 8 gap ->
  ended freq 889 (rc5_edges freq w gap) l -> misses_some l l' ->
  exists g' evs', l' = (true, g') :: evs' /\ gap <= g' /\
    forall a seg c bits, evs' = a ++ seg ++ c -> rc5_stream freq seg bits -> length bits = 13%nat -> False.
Proof.
  intros Hlo Hw Hg Hl [M L]. destruct (rc5_units freq w gap l Hlo Hw Hg Hl) as (evs & ns & -> & F & T).
  destruct (misses_cons _ _ _ M) as ([e g'] & evs' & -> & E & Lg). cbn [fst snd] in *. subst e.
  exists g', evs'. split; [reflexivity|]. split; [exact Lg|]. intros a seg c bits -> S Lb.
  destruct (misses_units freq Hlo _ _ M _ F) as (ns' & F' & T' & Hh & K). specialize (K L).
  inversion F' as [|w0 y nr z _ Fr Ey Ez]; subst. clear F'. cbn [hd tl] in *.
  apply Forall2_app_inv_r in Fr. destruct Fr as (na & nsc & Fa & Fsc & ->).
  apply Forall2_app_inv_r in Fsc. destruct Fsc as (nseg & nc & Fs & Fc & ->).
  destruct S as (evs1 & last & ks & k & Es & Fk & Sb & _).
  assert (Q : nseg = ks ++ [k] /\ Forall (fun n => 1 <= n /\ n <= 2) nseg).
  { set (kk := ks ++ [k]) in *. clearbody kk. clear -Hlo Fs Fk. revert kk Fk. induction Fs as [|n x nseg seg U Fs IH]; intros kk Fk.
    - inversion Fk; subst. auto.
    - cbn [map] in Fk. inversion Fk as [|k0 y kk0 z Hk Fk0]; subst. destruct (IH _ Fk0) as [-> Q].
      destruct (unit_read freq Hlo n x k0 U Hk) as [-> H2]. apply unit_low in U; [|exact Hlo]. split; [reflexivity|]. constructor; [lia|exact Q]. }
  destruct Q as [Q1 Q2].
  pose proof (samples_time seg nseg 0) as St. rewrite Q1 in St at 2. rewrite Sb, Lb in St. change (N.odd 0) with false in St. cbn iota in St.
  assert (Q3 : Forall (fun n => 1 <= n) nseg) by (eapply Forall_impl; [|exact Q2]; cbn; lia). specialize (St Q3).
  cbn [total fold_right] in T'. fold (total (na ++ nseg ++ nc)) in T'. fold (total ns) in T'. rewrite !total_app in T'.
  destruct K as [K|K]; [lia|].
  assert (X : forall q, Exists (fun n => 3 <= n) q -> 3 <= total q).
  { induction 1 as [x q Hx|x q Hx IH]; cbn [total fold_right]; [lia|]. unfold total in IH. lia. }
  apply Exists_app in K. destruct K as [K|K]; [apply X in K; lia|]. apply Exists_app in K. destruct K as [K|K]; [|apply X in K; lia].
  apply Exists_exists in K. destruct K as (n & Hi & Hn). rewrite Forall_forall in Q2. specialize (Q2 n Hi). lia.
Qed.
