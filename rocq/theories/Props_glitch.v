(** * Property theorems: short disturbances in the middle of a frame *)
From Coq Require Import NArith ZArith List Bool Lia ZifyBool ZifyNat ZifyN.
From Verif Require Import Machine Time Decoder Nec Rc5 Rc6 Denon Sbp Receiver Spec Bits Time_facts Run_facts Nec_facts Rc5_facts Encode_facts
  Codec_facts Spec_receiver Spec_sound Sound_facts Biphase_facts Spec_cross Cross_facts Example_facts Spec_damage Damage_facts Spec_glitch Glitch_facts Rc6_facts Glitch6_facts
  Props_damage.
Import ListNotations.
Open Scope N_scope.

(** ** C96: a frame that is disturbed is not taken for another command

    The full claim would be: if a frame is disturbed by changes of level that last at most 100
    microseconds, then the receiver reports the command that was sent or nothing.  It does not hold
    for protocols that measure from pulse to pulse (the [_refuted] theorems).  It does hold for
    drop-outs in the marks, and for RC5 and RC6.

    [hist] is any history, [gap] the silence before the frame; [skipn (length hist) os] are the
    outcomes from the end of the silence on. *)

(** *** Drop-outs in the marks *)

Lemma nec_interrupted freq H R lead w h ds qs : 20000 <= freq ->
  below 2250 12 H 8 = true -> below 2250 12 R 8 = true -> below R 8 H 7 = true ->
  nec_frame freq H w (h :: ds) -> marks_near freq lead 560 (h :: ds) -> dropouts ds qs -> qs <> ds ->
  ~ has_nec_frame freq H (map period (h :: qs)) /\ Forall (fun d => ~ near freq R 8 d) (map period (h :: qs)).
Proof.
  intros Hlo B1 B2 B3 F (h' & ds' & Eh & _ & Fm) D N. injection Eh as <- <-.
  destruct (nec_frame_periods _ _ _ _ F) as (hd & bs & Ep & Hh & L & Fb). cbn [map] in Ep. injection Ep as <- <-. rewrite map_length in L.
  assert (M : Forall (fun x => period x <= tol_max freq 2250 12) qs).
  { apply (dropouts_bound _ _ _ D). apply (among_max freq nec_sent_bits); [exact Hlo|vm_compute; reflexivity|lia|exact Fb]. }
  split.
  - intros (pre & hd & dd & post & E & Hhd & Ld & Fd).
    destruct (only_header (near freq H 8) (tol_max freq 2250 12) h qs pre hd _ M (fun y Hy => tol_max_not freq 2250 12 H 8 y Hlo B1 Hy) E Hhd) as (_ & _ & Eq).
    destruct (dropouts_seen ds qs dd post D N Eq) as (x & y & Hx & Hy & Le); [lia|].
    rewrite Forall_forall in Fm, Fd. destruct (Fm x Hx) as [Hm _].
    destruct (Fd y Hy) as [[_ K]|[_ K]].
    + pose proof (below_ok freq 560 12 2250 13 y y eq_refl Hlo ltac:(lia) K). lia.
    + pose proof (below_ok freq 560 12 1120 26 y y eq_refl Hlo ltac:(lia) K). lia.
  - cbn [map]. constructor.
    + intros Hn. exact (near_below freq R 8 H 7 (period h) Hlo Hn Hh B3).
    + apply Forall_forall. intros y Hy. apply (tol_max_not freq 2250 12 R 8 y Hlo B2). exact (in_periods _ qs y M Hy).
Qed.

(** NEC, NEC with 16-bit addresses, raw, Apple: if marks of bits are interrupted, nothing is reported. *)
Theorem C96_nec_dropout_partial :
  forall b m freq V C (into : nv_cmd V -> C) hist gap w h ds qs tail r0 r os,
  timebase m freq -> 20000 <= freq -> freq < 2 ^ 32 -> nv_timing V = NEC_STANDARD_TIMING ->
  longer freq 13500 8 gap -> nec_frame freq 13500 w (h :: ds) -> marks_near freq 9000 560 (h :: ds) -> stopped tail ->
  dropouts ds qs -> qs <> ds -> periods_fit (hist ++ transmitted gap (h :: qs) tail) ->
  receiver_new (nec_protocol b m V) freq = Val r0 ->
  run_edges (D := nec_dec b m V) into r0 (hist ++ transmitted gap (h :: qs) tail) = Val (r, os) ->
  commands (skipn (length hist) os) = [].
Proof.
  intros b m freq V C into hist gap w h ds qs tail r0 r os Hm Hlo Hf HT Hg F M T D N Hfit E0 E.
  destruct (nec_interrupted freq 13500 11250 9000 w h ds qs Hlo eq_refl eq_refl eq_refl F M D N) as [N1 N2].
  destruct (sent_periods (h :: qs) tail 0 T) as [Ep _].
  apply (nec_listener b m freq V C into hist gap (pair_edges (h :: qs) ++ tail) r0 r os Hm Hf Hlo (or_introl HT) Hg Hfit); auto;
    unfold edge in *; rewrite Ep, HT; auto.
Qed.
Print Assumptions C96_nec_dropout_partial.

Theorem C96_samsung_dropout_partial :
  forall b m freq C (into : samsung_command -> C) hist gap w h ds qs tail r0 r os,
  timebase m freq -> 20000 <= freq -> freq < 2 ^ 32 ->
  longer freq 13500 8 gap -> nec_frame freq 9000 w (h :: ds) -> marks_near freq 4500 560 (h :: ds) -> stopped tail ->
  dropouts ds qs -> qs <> ds -> periods_fit (hist ++ transmitted gap (h :: qs) tail) ->
  receiver_new (nec_protocol b m NecSamsung) freq = Val r0 ->
  run_edges (D := nec_dec b m NecSamsung) into r0 (hist ++ transmitted gap (h :: qs) tail) = Val (r, os) ->
  commands (skipn (length hist) os) = [].
Proof.
  intros b m freq C into hist gap w h ds qs tail r0 r os Hm Hlo Hf Hg F M T D N Hfit E0 E.
  destruct (nec_interrupted freq 9000 6750 4500 w h ds qs Hlo eq_refl eq_refl eq_refl F M D N) as [N1 N2].
  destruct (sent_periods (h :: qs) tail 0 T) as [Ep _].
  apply (nec_listener b m freq NecSamsung C into hist gap (pair_edges (h :: qs) ++ tail) r0 r os Hm Hf Hlo (or_intror eq_refl) Hg Hfit); auto;
    unfold edge in *; rewrite Ep; auto.
Qed.
Print Assumptions C96_samsung_dropout_partial.

Theorem C96_denon_dropout_partial :
  forall b m freq C (into : denon_command -> C) hist gap w h ds qs tail r0 r os,
  timebase m freq -> 20000 <= freq -> freq < 2 ^ 32 ->
  longer freq 13500 8 gap -> denon_frame freq w (h :: ds) -> marks_near freq 3400 480 (h :: ds) -> stopped tail ->
  dropouts ds qs -> qs <> ds -> periods_fit (hist ++ transmitted gap (h :: qs) tail) ->
  receiver_new (denon_protocol b m) freq = Val r0 ->
  run_edges (D := denon_dec b m) into r0 (hist ++ transmitted gap (h :: qs) tail) = Val (r, os) ->
  commands (skipn (length hist) os) = [].
Proof.
  intros b m freq C into hist gap w h ds qs tail r0 r os Hm Hlo Hf Hg F (h' & ds' & Eh & _ & Fm) T D N Hfit E0 E. injection Eh as <- <-.
  destruct (sent_periods (h :: qs) tail 0 T) as [Ep _].
  assert (Hb : Forall (among freq [(1680, 10); (840, 10)]) (map period ds) /\ length ds = 48%nat).
  { destruct F as (h' & ds' & Eh & _ & F). injection Eh as <- <-. split.
    - clear -F. induction F as [|bt x bs ds H F IH]; cbn [map]; constructor; auto.
      apply period_near_wide in H. destruct bt; [exists 1680, 10|exists 840, 10]; cbn; auto.
    - apply forall2_length in F. unfold bits_lsb in F. rewrite map_length, seq_length in F. auto. }
  destruct Hb as [Hb L].
  assert (M : Forall (fun x => period x <= tol_max freq 1680 10) qs).
  { apply (dropouts_bound _ _ _ D). apply (among_max freq [(1680, 10); (840, 10)]); [exact Hlo|vm_compute; reflexivity|lia|exact Hb]. }
  apply (denon_listener b m freq C into hist gap (pair_edges (h :: qs) ++ tail) r0 r os Hm Hf Hlo Hg Hfit); auto.
  intros pre hd dd post Eq Hhd Ld Fd. unfold edge in *. rewrite Ep in Eq.
  destruct (only_header (near freq 5000 9) (tol_max freq 1680 10) h qs pre hd _ M (fun y Hy => tol_max_not freq 1680 10 5000 9 y Hlo eq_refl Hy) Eq Hhd) as (_ & _ & Eq2).
  destruct (dropouts_seen ds qs dd post D N Eq2) as (x & y & Hx & Hy & Le); [lia|].
  rewrite Forall_forall in Fm, Fd. destruct (Fm x Hx) as [Hmk _].
  destruct (Fd y Hy) as [[_ K]|[_ K]].
  - pose proof (below_ok freq 480 12 1680 11 y y eq_refl Hlo ltac:(lia) K). lia.
  - pose proof (below_ok freq 480 12 840 11 y y eq_refl Hlo ltac:(lia) K). lia.
Qed.
Print Assumptions C96_denon_dropout_partial.

Theorem C96_sbp_dropout_partial :
  forall b m freq C (into : sbp_command -> C) hist gap address command h ds qs tail r0 r os,
  timebase m freq -> 20000 <= freq -> freq < 2 ^ 32 ->
  longer freq 13500 8 gap -> sbp_frame freq address command (h :: ds) -> marks_near freq 4500 500 (h :: ds) -> stopped tail ->
  dropouts ds qs -> qs <> ds -> short (hist ++ transmitted gap (h :: qs) tail) ->
  receiver_new (sbp_protocol b m) freq = Val r0 ->
  run_edges (D := sbp_dec b m) into r0 (hist ++ transmitted gap (h :: qs) tail) = Val (r, os) ->
  commands (skipn (length hist) os) = [].
Proof.
  intros b m freq C into hist gap address command h ds qs tail r0 r os Hm Hlo Hf Hg F (h' & ds' & Eh & _ & Fm) T D N Hs E0 E. injection Eh as <- <-.
  destruct (sent_periods (h :: qs) tail 0 T) as [Ep _].
  destruct (sbp_frame_periods _ _ _ _ F) as (hd & ads & pause & cds & Ef & Hh & Hp & La & Lc & Fa & Fc). cbn [map] in Ef. injection Ef as <- Ef.
  assert (L : length ds = 37%nat).
  { apply (f_equal (@length _)) in Ef. rewrite map_length, app_length in Ef. cbn [length] in Ef. lia. }
  assert (M : Forall (fun x => period x <= tol_max freq 5000 5) qs).
  { apply (dropouts_bound _ _ _ D). apply (among_max freq ((5000, 5) :: sbp_sent_bits)); [exact Hlo|vm_compute; reflexivity|lia|].
    rewrite Ef. apply Forall_app. split; [|constructor].
    - eapply Forall_impl; [|exact Fa]. intros d. apply among_more. intros x Hx. right. exact Hx.
    - exists 5000, 5. split; [left; reflexivity|exact Hp].
    - eapply Forall_impl; [|exact Fc]. intros d. apply among_more. intros x Hx. right. exact Hx. }
  apply (sbp_listener b m freq C into hist gap (pair_edges (h :: qs) ++ tail) r0 r os Hm Hf Hlo Hg Hs (alt_sent (h :: qs) tail T)); auto.
  intros pre hd ads' pause' cds' post Eq Hhd Hp' La' Fa' Lc' Fc'. unfold edge in *. rewrite Ep in Eq.
  destruct (only_header (near freq 9000 6) (tol_max freq 5000 5) h qs pre hd _ M (fun y Hy => tol_max_not freq 5000 5 9000 6 y Hlo eq_refl Hy) Eq Hhd) as (_ & _ & Eq2).
  replace (ads' ++ pause' :: cds' ++ post) with ((ads' ++ pause' :: cds') ++ post) in Eq2 by (rewrite <- app_assoc; reflexivity).
  destruct (dropouts_seen ds qs _ post D N Eq2) as (x & y & Hx & Hy & Le); [rewrite app_length; cbn [length]; lia|].
  rewrite Forall_forall in Fm. destruct (Fm x Hx) as [Hmk _].
  assert (K : sbp_seen freq y \/ near freq 5000 6 y).
  { rewrite Forall_forall in Fa', Fc'. apply in_app_or in Hy. destruct Hy as [Hy|[<-|Hy]]; auto. }
  destruct K as [[[_ K]|[_ K]]|[_ K]].
  - pose proof (below_ok freq 500 12 2000 11 y y eq_refl Hlo ltac:(lia) K). lia.
  - pose proof (below_ok freq 500 12 1000 11 y y eq_refl Hlo ltac:(lia) K). lia.
  - pose proof (below_ok freq 500 12 5000 6 y y eq_refl Hlo ltac:(lia) K). lia.
Qed.
Print Assumptions C96_sbp_dropout_partial.

(** The mark of the header may be interrupted, too: then the command is reported, or nothing, or a
    repeat of the command before. *)

Lemma dropouts_head ps qs : dropouts ps qs -> forall h ds, ps = h :: ds ->
  exists hs a qs', qs = hs ++ (a, snd h) :: qs' /\ dropouts ds qs' /\ Forall (fun x => period x <= fst h) hs.
Proof.
  induction 1 as [|x ps qs H IH|a b m s ps qs H IH]; intros h ds E; [discriminate| |]; injection E as <- <-.
  - exists [], (fst x), qs. destruct x. cbn [fst snd app]. auto.
  - destruct (IH _ _ eq_refl) as (hs & a' & qs' & -> & D & F). cbn [fst snd] in *. exists ((a, b) :: hs), a', qs'. split; [reflexivity|].
    split; [exact D|]. constructor; [unfold period; cbn [fst snd]; lia|]. eapply Forall_impl; [|exact F]. cbn. lia.
Qed.

Lemma nec_same_word freq w w' ds : 20000 <= freq -> w < 2 ^ 32 -> w' < 2 ^ 32 ->
  Forall2 (fun (bit : bool) x => if bit then period_near freq 2250 12 x else period_near freq 1120 25 x) (bits_lsb 32 w) ds ->
  Forall2 (nec_seen_bit freq) (bits_lsb 32 w') (map period ds) -> w' = w.
Proof.
  intros Hlo Hw Hw' F F'. assert (E : bits_lsb 32 w = bits_lsb 32 w').
  { set (u := bits_lsb 32 w) in *. set (u' := bits_lsb 32 w') in *. clearbody u u'. revert u' F'. clear -F Hlo.
    induction F as [|bt x u ds H F IH]; intros u' F'; cbn [map] in F'; inversion F' as [|bt' y u0 ys H' F0]; subst; [reflexivity|].
    f_equal; [|apply IH; exact F0].
    destruct bt, bt'; try reflexivity; exfalso; apply period_near_wide in H; cbn [nec_seen_bit] in H'; unfold period in H'.
    - exact (near_below freq 1120 26 2250 12 _ Hlo H' H eq_refl).
    - exact (near_below freq 1120 25 2250 13 _ Hlo H H' eq_refl). }
  pose proof (val_bits_lsb 32 w) as V. pose proof (val_bits_lsb 32 w') as V'. rewrite <- E in V'. rewrite V in V'.
  change (N.of_nat 32) with 32 in V'. rewrite !N.mod_small in V' by assumption. auto.
Qed.

Lemma nec_header_cut b m freq V (C : Type) (into : nv_cmd V -> C) lead hist gap w h ds qs tail r0 r os x :
  timebase m freq -> freq < 2 ^ 32 -> 20000 <= freq -> nec_timing_ok (nv_timing V) ->
  below lead 8 (header_high (nv_timing V) + header_low (nv_timing V)) 8 = true ->
  longer freq 13500 8 gap -> w < 2 ^ 32 ->
  nec_frame freq (header_high (nv_timing V) + header_low (nv_timing V)) w (h :: ds) -> marks_near freq lead 560 (h :: ds) -> stopped tail ->
  dropouts (h :: ds) qs -> periods_fit (hist ++ transmitted gap qs tail) ->
  receiver_new (nec_protocol b m V) freq = Val r0 ->
  run_edges (D := nec_dec b m V) into r0 (hist ++ transmitted gap qs tail) = Val (r, os) ->
  In x (commands (skipn (length hist) os)) ->
  exists c, x = into c /\ ((exists w', nv_unpack V w' true = Some c) \/ nv_unpack V w false = Some c).
Proof.
  intros Hm Hf Hlo HT Bl Hg Hw F (h' & ds' & Eh & [Hl _] & Fm) T D Hfit E0 E Hi. injection Eh as <- <-.
  destruct (nec_reports b m freq V C into hist gap (pair_edges qs ++ tail) r0 r os x Hm Hf Hlo HT Hg Hfit E0 E Hi) as (w' & c & -> & K).
  exists c. split; [reflexivity|]. destruct K as [K|(K & Hw' & q1 & hd & dd & q2 & Eq & Hhd & Fd)]; [left; eauto|right].
  set (H := header_high (nv_timing V) + header_low (nv_timing V)) in *.
  assert (BH : below 2250 12 H 8 = true) by (unfold H; destruct HT as [-> | ->]; vm_compute; reflexivity).
  destruct (sent_periods qs tail 0 T) as [Ep _]. unfold edge in *. rewrite Ep in Eq.
  destruct (dropouts_head _ _ D _ _ eq_refl) as (hs & a & qs' & -> & D' & Fh).
  destruct (nec_frame_periods _ _ _ _ F) as (hd' & bs & Ef & _ & L & Fb). cbn [map] in Ef. injection Ef as <- <-. rewrite map_length in L.
  assert (M : Forall (fun x => period x <= tol_max freq 2250 12) qs').
  { apply (dropouts_bound _ _ _ D'). apply (among_max freq nec_sent_bits); [exact Hlo|vm_compute; reflexivity|lia|exact Fb]. }
  (* no piece of the header's mark is as long as the header *)
  assert (Eq2 : map period qs' = dd ++ q2).
  { rewrite map_app in Eq. clear -Eq Fh M Hhd Hl Bl BH Hlo. revert q1 Eq. induction Fh as [|y hs Hy Fh IH]; intros q1 Eq.
    - cbn [map app] in Eq. change (map period ((a, snd h) :: qs') = q1 ++ hd :: dd ++ q2) in Eq.
      destruct (only_header (near freq H 8) (tol_max freq 2250 12) _ qs' q1 hd _ M (fun y Hy => tol_max_not freq 2250 12 H 8 y Hlo BH Hy) Eq Hhd) as (_ & _ & Eq2). exact Eq2.
    - destruct q1 as [|z q1]; cbn [map app] in Eq; injection Eq as Ez Eq; [exfalso|eapply IH, Eq].
      destruct Hhd as [_ Hhd]. pose proof (below_ok freq lead 8 H 8 (period y) hd Bl Hlo ltac:(lia) Hhd). lia. }
  assert (Ld : length dd = 32%nat) by (apply forall2_length in Fd; unfold bits_lsb in Fd; rewrite map_length, seq_length in Fd; auto).
  assert (Fs : Forall (nec_seen freq) dd).
  { clear -Fd. induction Fd as [|bt d bs ds H F IH]; constructor; auto. unfold nec_seen. destruct bt; auto. }
  destruct (dropouts_first _ _ D') as [-> |(d1 & x & d2 & a0 & b0 & rest & Ed & Eqs & Lx)].
  - destruct F as (h' & ds' & Eh & _ & F). injection Eh as <- <-.
    assert (Edd : map period ds = dd).
    { rewrite <- (app_nil_r (map period ds)) in Eq2. apply (same_prefix _ _ _ _ Eq2). rewrite map_length. lia. }
    rewrite <- Edd in Fd. rewrite <- (nec_same_word freq w w' ds Hlo Hw Hw' F Fd). exact K.
  - exfalso. assert (N : qs' <> ds).
    { intros ->. rewrite Ed in Eqs. apply app_inv_head in Eqs. injection Eqs as -> _. cbn [fst] in Lx.
      rewrite Ed, map_app in Eq2. cbn [map] in Eq2.
      assert (Hx : In (period (a0, b0)) dd).
      { rewrite Ed, app_length in L. cbn [length] in L. assert (Ll : (length (map period d1) < length dd)%nat) by (rewrite map_length; lia).
        set (u := map period d1) in *. clearbody u. clear -Eq2 Ll. revert dd Eq2 Ll. induction u as [|z u IH]; intros [|y dd] E Ll; cbn [length app] in *; try lia.
        - injection E as <- _. left. reflexivity.
        - injection E as _ E. right. apply IH; [exact E|lia]. }
      rewrite Forall_forall in Fs, Fm. destruct (Fm (a0, b0)) as [Hmk _]; [rewrite Ed; apply in_or_app; right; left; reflexivity|]. cbn [fst] in Hmk.
      unfold period in Hx. cbn [fst snd] in Hx.
      destruct (Fs _ Hx) as [[_ Z]|[_ Z]].
      - pose proof (below_ok freq 560 12 2250 13 (a0 + b0) (a0 + b0) eq_refl Hlo ltac:(lia) Z). lia.
      - pose proof (below_ok freq 560 12 1120 26 (a0 + b0) (a0 + b0) eq_refl Hlo ltac:(lia) Z). lia. }
    destruct (dropouts_seen ds qs' dd q2 D' N Eq2) as (z & y & Hz & Hy & Le); [lia|].
    rewrite Forall_forall in Fs, Fm. destruct (Fm z Hz) as [Hmk _].
    destruct (Fs y Hy) as [[_ Z]|[_ Z]].
    + pose proof (below_ok freq 560 12 2250 13 y y eq_refl Hlo ltac:(lia) Z). lia.
    + pose proof (below_ok freq 560 12 1120 26 y y eq_refl Hlo ltac:(lia) Z). lia.
Qed.

Theorem C96_nec_header_partial :
  forall b m freq C (into : nec_command -> C) hist gap a c h ds qs tail r0 r os x,
  timebase m freq -> 20000 <= freq -> freq < 2 ^ 32 -> a < 2 ^ 8 -> c < 2 ^ 8 ->
  longer freq 13500 8 gap -> nec_frame freq 13500 (bytes4 a (compl8 a) c (compl8 c)) (h :: ds) -> marks_near freq 9000 560 (h :: ds) ->
  stopped tail -> dropouts (h :: ds) qs -> periods_fit (hist ++ transmitted gap qs tail) ->
  receiver_new (nec_protocol b m NecStandard) freq = Val r0 ->
  run_edges (D := nec_dec b m NecStandard) into r0 (hist ++ transmitted gap qs tail) = Val (r, os) ->
  In x (commands (skipn (length hist) os)) ->
  x = into (mkNec a c false) \/ exists k, x = into k /\ nec_repeat k = true.
Proof.
  intros b m freq C into hist gap a c h ds qs tail r0 r os x Hm Hlo Hf Ha Hc Hg F M T D Hfit E0 E Hi.
  destruct (nec_header_cut b m freq NecStandard C into 9000 hist gap _ h ds qs tail r0 r os x Hm Hf Hlo (or_introl eq_refl) eq_refl Hg
              (bytes4_lt _ _ _ _ Ha (compl8_lt a) Hc (compl8_lt c)) F M T D Hfit E0 E Hi) as (k & -> & [(w' & K)|K]).
  - right. exists k. split; [reflexivity|]. cbn [nv_unpack NecStandard] in K. unfold nec_unpack in K. apply some_inj in K. subst k. reflexivity.
  - left. cbn [nv_unpack NecStandard] in K. rewrite nec_unpack_layout in K by auto. apply some_inj in K. subst k. reflexivity.
Qed.
Print Assumptions C96_nec_header_partial.

Theorem C96_samsung_header_partial :
  forall b m freq C (into : samsung_command -> C) hist gap a c h ds qs tail r0 r os x,
  timebase m freq -> 20000 <= freq -> freq < 2 ^ 32 -> a < 2 ^ 8 -> c < 2 ^ 8 ->
  longer freq 13500 8 gap -> nec_frame freq 9000 (bytes4 a a c (compl8 c)) (h :: ds) -> marks_near freq 4500 560 (h :: ds) ->
  stopped tail -> dropouts (h :: ds) qs -> periods_fit (hist ++ transmitted gap qs tail) ->
  receiver_new (nec_protocol b m NecSamsung) freq = Val r0 ->
  run_edges (D := nec_dec b m NecSamsung) into r0 (hist ++ transmitted gap qs tail) = Val (r, os) ->
  In x (commands (skipn (length hist) os)) ->
  x = into (mkSamsung a c false) \/ exists k, x = into k /\ sam_repeat k = true.
Proof.
  intros b m freq C into hist gap a c h ds qs tail r0 r os x Hm Hlo Hf Ha Hc Hg F M T D Hfit E0 E Hi.
  destruct (nec_header_cut b m freq NecSamsung C into 4500 hist gap _ h ds qs tail r0 r os x Hm Hf Hlo (or_intror eq_refl) eq_refl Hg
              (bytes4_lt _ _ _ _ Ha Ha Hc (compl8_lt c)) F M T D Hfit E0 E Hi) as (k & -> & [(w' & K)|K]).
  - right. exists k. split; [reflexivity|]. cbn [nv_unpack NecSamsung] in K. unfold samsung_unpack in K. apply some_inj in K. subst k. reflexivity.
  - left. cbn [nv_unpack NecSamsung] in K. rewrite samsung_unpack_layout in K by auto. apply some_inj in K. subst k. reflexivity.
Qed.
Print Assumptions C96_samsung_header_partial.

(** *** RC5: disturbances of up to 600 microseconds, in marks or in spaces

    [tail] is the edge that ends the last mark, if the last bit is a one. *)
Theorem C96_rc5_partial :
  forall b m freq C (into : rc5_command -> C) hist gap w acts tail evs r0 r os x,
  timebase m freq -> 20000 <= freq -> freq < 2 ^ 32 -> 8 <= usize_bits b ->
  w < 2 ^ 14 -> N.testbit w 13 = true ->
  longer freq 13500 8 gap -> rc5_edges freq w gap ((true, gap) :: acts) ->
  tail = [] \/ N.testbit w 0 = true /\ (exists d, near freq 889 12 d /\ tail = [(false, d)]) ->
  glitches freq 600 (acts ++ tail) evs ->
  receiver_new (rc5_protocol b m) freq = Val r0 ->
  run_edges (D := rc5_dec b) into r0 (hist ++ (true, gap) :: evs) = Val (r, os) ->
  In x (commands (skipn (length hist) os)) ->
  x = into (mkRc5 (field w 6 5) (field w 0 6) (field w 12 2) (negb (field w 11 1 =? 0))).
Proof.
  intros b m freq C into hist gap w acts tail evs r0 r os x Hm Hlo Hf Hu Hw H13 Hg He Ht G E0 E Hi.
  destruct (rc5_reports b m freq C into hist gap evs r0 r os x Hm Hf Hlo Hu Hg E0 E Hi) as (a & g & seg & c & bits & Ea & S & L & ->).
  pose proof (rc5_glitched freq w gap acts tail evs a g seg c bits Hlo H13 He Ht G Ea S L) as K.
  pose proof (val_bits_msb 14 w) as V. rewrite K, val_msb_cons, L in V. change (N.of_nat 14) with 14 in V. change (N.of_nat 13) with 13 in V.
  rewrite (N.mod_small _ _ Hw) in V. rewrite V, rc5_unpack_layout. reflexivity.
Qed.
Print Assumptions C96_rc5_partial.

(** RC6 with disturbances of up to 300 microseconds, leader included (of any length): the command that
    was sent, once, or nothing. *)
Theorem C96_rc6_partial :
  forall b m freq C (into : rc6_command -> C) leader hist gap a c toggle acts tail evs r0 r os,
  timebase m freq -> 20000 <= freq -> freq < 2 ^ 32 -> 8 <= usize_bits b -> a < 2 ^ 8 -> c < 2 ^ 8 ->
  longer freq 2664 12 gap -> rc6_edges freq leader toggle (2 ^ 8 * a + c) gap ((true, gap) :: acts) ->
  tail = [] \/ (exists d, near freq 444 12 d /\ tail = [(false, d)]) ->
  glitches freq 300 (acts ++ tail) evs ->
  receiver_new (rc6_protocol b m) freq = Val r0 ->
  run_edges (D := rc6_dec b) into r0 (hist ++ (true, gap) :: evs) = Val (r, os) ->
  commands (skipn (length hist) os) = [] \/ commands (skipn (length hist) os) = [into (mkRc6 a c toggle)].
Proof.
  intros b m freq C into leader hist gap a c toggle acts tail evs r0 r os Hm Hlo Hf Hu Ha Hc Hg (n & noms & lead & acts' & En & Ee & _ & HF) Ht G E0 E.
  injection Ee as ->.
  assert (Hw : 2 ^ 8 * a + c < 2 ^ 16) by (change (2 ^ 8) with 256 in *; change (2 ^ 16) with 65536; lia).
  assert (Tl : Forall (fun x : edge => 100 * snd x <= 112 * nominal freq 1332) tail).
  { destruct Ht as [-> |(d & [N _] & ->)]; [constructor|]. constructor; [|constructor]. cbn [snd].
    pose proof (nominal_le freq 444 1332 ltac:(lia)). lia. }
  apply (run_split b m freq Hm Hf Hlo Hu into) in E. destruct E as (r1 & o1 & o2 & E1 & E2 & ->).
  rewrite <- (run_edges_length _ _ _ _ _ E1), skipn_app, skipn_all, Nat.sub_diag. cbn [app skipn].
  rewrite (rc6_new_val b m freq Hm Hf) in E0. injection E0 as <-.
  pose proof (rc6_run_spans b into _ _ _ _ E1) as S1.
  apply (run_first b m freq Hm Hf Hlo Hu into) in E2. destruct E2 as (r2 & o & o3 & Ev & E2 & ->).
  destruct (rc6_gap b m freq Hm Hf into r1 gap S1 Hg) as (t & Et). rewrite Et in Ev. injection Ev as <- <-.
  pose proof (glitched_frame b m freq Hm Hf Hlo Hu into toggle (2 ^ 8 * a + c) n noms acts' tail Hw En HF Tl _ _ G lead eq_refl t (rv_prev r1) _ _ E2) as K.
  rewrite rc6_from_bits_word in K by auto.
  assert (F : field (2 ^ 8 * a + c) 8 8 = a /\ field (2 ^ 8 * a + c) 0 8 = c).
  { unfold field. change (2 ^ 0) with 1. change (2 ^ 8) with 256 in *. clear -Ha Hc. 
    pose proof (N.div_mod (256 * a + c) 256 ltac:(lia)). pose proof (N.mod_lt (256 * a + c) 256 ltac:(lia)).
    rewrite N.div_1_r. assert ((256 * a + c) / 256 = a) as -> by nia. rewrite N.mod_small by lia. split; lia. }
  destruct F as [F1 F2]. rewrite F1, F2 in K. exact K.
Qed.
Print Assumptions C96_rc6_partial.

(** ** Witnesses and examples *)

(** The [i]-th interval is disturbed after [a] ticks for [b] ticks. *)
Fixpoint hit (i : nat) (a b : N) (l : list edge) : list edge :=
  match i, l with
  | S i, x :: r => x :: hit i a b r
  | O, (e, d) :: r => (e, a) :: (negb e, b) :: (e, d - a - b) :: r
  | _, [] => []
  end.
Lemma glitches_same freq us l : glitches freq us l l.
Proof. induction l; constructor; auto. Qed.
Lemma hit_glitches freq us a b l : forall i, 0 < a -> 0 < b -> b <= nominal freq us ->
  (match nth_error l i with Some x => a + b <? snd x | None => true end) = true -> glitches freq us l (hit i a b l).
Proof.
  induction l as [|[e d] l IH]; intros [|i] Ha Hb Hb' H; cbn [hit nth_error] in *; try apply glitches_none.
  - apply N.ltb_lt in H. cbn [snd] in H. remember (d - a - b) as c eqn:Ec. replace d with (a + b + c) by lia.
    apply glitches_hit; auto; [lia|apply glitches_same].
  - apply glitches_keep, IH; auto.
Qed.

(** The [i]-th mark drops out after [a] ticks for [b] ticks. *)
Fixpoint cut (i : nat) (a b : N) (ps : list (N * N)) : list (N * N) :=
  match i, ps with
  | S i, x :: r => x :: cut i a b r
  | O, (m, s) :: r => (a, b) :: (m - a - b, s) :: r
  | _, [] => []
  end.
Lemma dropouts_same ps : dropouts ps ps.
Proof. induction ps; constructor; auto. Qed.
Lemma cut_dropouts a b ps : forall i,
  (match nth_error ps i with Some x => a + b <=? fst x | None => true end) = true -> dropouts ps (cut i a b ps).
Proof.
  induction ps as [|[m s] ps IH]; intros [|i] H; cbn [cut nth_error] in *; try apply dropouts_none.
  - apply N.leb_le in H. cbn [fst] in H. remember (m - a - b) as c eqn:Ec. replace m with (a + b + c) by lia.
    apply dropouts_cut, dropouts_same.
  - apply dropouts_keep, IH, H.
Qed.

(** NEC: a pulse of 100 microseconds in the space of the first bit, a one, and the receiver sees two
    zeros; all bits move up by one, and another command is reported. *)
Definition c96_pairs := nec_pairs c95_second.
Theorem C96_nec_spike_refuted :
  exists l l', l = transmitted 1000 c96_pairs [(false, 22)] /\ nec_frame 40000 13500 c95_second c96_pairs /\ marks_near 40000 9000 560 c96_pairs /\
  glitches 40000 100 l l' /\
  option_map commands (outcomes (nec_protocol (debug_build 32) MU32 NecStandard) 40000 l) = Some [mkNec 31 2 false] /\
  option_map commands (outcomes (nec_protocol (debug_build 32) MU32 NecStandard) 40000 l') = Some [mkNec 60 5 false].
Proof.
  eexists. exists (hit 4 22 4 (transmitted 1000 c96_pairs [(false, 22)])). split; [reflexivity|].
  split; [apply nec_frameb_ok; vm_compute; reflexivity|]. split.
  { eexists. eexists. split; [reflexivity|]. split; [split; vm_compute; discriminate|].
    apply Forall_forall. intros x Hx. apply in_map_iff in Hx. destruct Hx as ([|] & <- & _); split; vm_compute; discriminate. }
  split; [apply hit_glitches; [lia|lia|vm_compute; discriminate|vm_compute; reflexivity]|].
  split; vm_compute; reflexivity.
Qed.
Print Assumptions C96_nec_spike_refuted.

(** Denon and Samsung BluRay: the same. *)
Definition denon_pairs (w : N) : list (N * N) := (140, 60) :: map (fun b : bool => if b then (20, 47) else (20, 13)) (bits_lsb 48 w).
Theorem C96_denon_spike_refuted :
  exists w l l' c c', l = transmitted 1000 (denon_pairs w) [(false, 20)] /\ denon_frame 40000 w (denon_pairs w) /\
  glitches 40000 100 l l' /\
  option_map commands (outcomes (denon_protocol (debug_build 32) MU32) 40000 l) = Some [c] /\
  option_map commands (outcomes (denon_protocol (debug_build 32) MU32) 40000 l') = Some [c'] /\ c <> c'.
Proof.
  exists (2 ^ 45 + 12345679). eexists. exists (hit 4 14 4 (transmitted 1000 (denon_pairs (2 ^ 45 + 12345679)) [(false, 20)])).
  eexists. eexists. split; [reflexivity|]. split; [apply denon_frame_ok; vm_compute; reflexivity|].
  split; [apply hit_glitches; [lia|lia|vm_compute; discriminate|vm_compute; reflexivity]|].
  split; [vm_compute; reflexivity|]. split; [vm_compute; reflexivity|discriminate].
Qed.
Print Assumptions C96_denon_spike_refuted.

Definition sbp_pairs (a c : N) : list (N * N) :=
  let bit := fun b : bool => if b then (20, 60) else (20, 20) in
  (180, 180) :: map bit (bits_lsb 16 a) ++ (20, 180) :: map bit (bits_lsb 20 c).
Theorem C96_sbp_spike_refuted :
  exists l l', l = transmitted 1000 (sbp_pairs 4660 (2 ^ 4 * 77 + 2 ^ 12 * compl8 77)) [(false, 20)] /\
  sbp_frame 40000 4660 (2 ^ 4 * 77 + 2 ^ 12 * compl8 77) (sbp_pairs 4660 (2 ^ 4 * 77 + 2 ^ 12 * compl8 77)) /\
  glitches 40000 100 l l' /\
  option_map commands (outcomes (sbp_protocol (debug_build 32) MU32) 40000 l) = Some [mkSbp 4660 77 true] /\
  exists c, option_map commands (outcomes (sbp_protocol (debug_build 32) MU32) 40000 l') = Some [c] /\ c <> mkSbp 4660 77 true.
Proof.
  eexists. exists (hit 46 20 4 (transmitted 1000 (sbp_pairs 4660 (2 ^ 4 * 77 + 2 ^ 12 * compl8 77)) [(false, 20)])). split; [reflexivity|].
  split; [apply sbp_frame_ok; vm_compute; reflexivity|].
  split; [apply hit_glitches; [lia|lia|vm_compute; discriminate|vm_compute; reflexivity]|].
  split; [vm_compute; reflexivity|]. eexists. split; [vm_compute; reflexivity|discriminate].
Qed.
Print Assumptions C96_sbp_spike_refuted.

(** RC5: the limit of 600 microseconds is there for a reason.  A drop-out of 800 microseconds in the
    last mark, and the last bit is read as a one. *)
Definition c96_rc5 (w : N) : list edge := map (fun x : edge => (fst x, 35 * snd x)) (tl (level_edges false 0 (rc5_wave w))).
Theorem C96_rc5_long :
  exists w l', w < 2 ^ 14 /\ N.testbit w 13 = true /\ rc5_edges 40000 w 700 ((true, 700) :: c96_rc5 w) /\ glitches 40000 800 (c96_rc5 w) l' /\
  option_map commands (outcomes (rc5_protocol (debug_build 32) MU32) 40000 ((true, 700) :: c96_rc5 w)) = Some [mkRc5 5 34 3 false] /\
  option_map commands (outcomes (rc5_protocol (debug_build 32) MU32) 40000 ((true, 700) :: l')) = Some [mkRc5 5 35 3 false].
Proof.
  exists (12 * 1024 + 5 * 64 + 34), (hit (length (c96_rc5 (12 * 1024 + 5 * 64 + 34)) - 1) 32 32 (c96_rc5 (12 * 1024 + 5 * 64 + 34))).
  split; [vm_compute; reflexivity|]. split; [reflexivity|]. split; [apply rc5_edges_ok; vm_compute; reflexivity|].
  split; [apply hit_glitches; [lia|lia|vm_compute; discriminate|vm_compute; reflexivity]|].
  split; vm_compute; reflexivity.
Qed.
Print Assumptions C96_rc5_long.

(** Two drop-outs in a mark of the frame's third bit: a command before, and no more. *)
Example C96_example_nec :
  let h := (360, 180) in
  let ds := tl c96_pairs in
  let qs := cut 2 5 1 (cut 2 11 3 ds) in
  let l := transmitted 1000 (h :: qs) [(false, 22)] in
  nec_frame 40000 13500 c95_second (h :: ds) /\ marks_near 40000 9000 560 (h :: ds) /\ longer 40000 13500 8 1000 /\
  dropouts ds qs /\ qs <> ds /\ periods_fit (c95_hist ++ l) /\
  option_map commands (outcomes (nec_protocol (debug_build 32) MU32 NecStandard) 40000 (c95_hist ++ l)) = Some [mkNec 7 9 false].
Proof.
  split; [apply nec_frameb_ok; vm_compute; reflexivity|]. split.
  { eexists. eexists. split; [reflexivity|]. split; [split; vm_compute; discriminate|].
    apply Forall_forall. intros x Hx. apply in_map_iff in Hx. destruct Hx as ([|] & <- & _); split; vm_compute; discriminate. }
  split; [vm_compute; reflexivity|]. split.
  { change (dropouts (tl c96_pairs) (hd (0, 0) (tl c96_pairs) :: nth 1 (tl c96_pairs) (0, 0) :: (5, 1) :: (5, 3) :: (8, snd (nth 2 (tl c96_pairs) (0, 0))) :: skipn 3 (tl c96_pairs))).
    match goal with |- dropouts ?p _ => change p with (hd (0, 0) (tl c96_pairs) :: nth 1 (tl c96_pairs) (0, 0) :: (5 + 1 + (5 + 3 + 8), snd (nth 2 (tl c96_pairs) (0, 0))) :: skipn 3 (tl c96_pairs)) end.
    do 2 apply dropouts_keep. apply dropouts_cut, dropouts_cut, dropouts_same. }
  split; [intros X; apply (f_equal (@length _)) in X; discriminate X|]. split; [|vm_compute; reflexivity].
  unfold periods_fit. match goal with |- Forall _ ?l => let l' := eval vm_compute in l in change l with l' end.
  repeat (apply Forall_cons; [reflexivity|]). apply Forall_nil.
Qed.

(** A short drop-out right at the beginning of the header: the command arrives; later in the header:
    a repeat of the command before. *)
Example C96_example_header :
  let ps := c96_pairs in
  let l := fun a => transmitted 1000 (cut 0 a 2 ps) [(false, 22)] in
  dropouts ps (cut 0 20 2 ps) /\ dropouts ps (cut 0 90 2 ps) /\
  option_map commands (outcomes (nec_protocol (debug_build 32) MU32 NecStandard) 40000 (c95_hist ++ l 20)) = Some [mkNec 7 9 false; mkNec 31 2 false] /\
  option_map commands (outcomes (nec_protocol (debug_build 32) MU32 NecStandard) 40000 (c95_hist ++ l 90)) = Some [mkNec 7 9 false; mkNec 7 9 true].
Proof.
  split; [apply cut_dropouts; vm_compute; reflexivity|]. split; [apply cut_dropouts; vm_compute; reflexivity|]. split; vm_compute; reflexivity.
Qed.

(** RC5: disturbed in the first mark the frame is still read, disturbed in its middle it is not. *)
Example C96_example_rc5 :
  let w := 12 * 1024 + 5 * 64 + 35 in
  let acts := c96_rc5 w in
  w < 2 ^ 14 /\ N.testbit w 13 = true /\ N.testbit w 0 = true /\ rc5_edges 40000 w 700 ((true, 700) :: acts) /\ near 40000 889 12 35 /\
  glitches 40000 600 (acts ++ [(false, 35)]) (hit 0 1 1 (acts ++ [(false, 35)])) /\
  glitches 40000 600 (acts ++ [(false, 35)]) (hit 5 9 12 (acts ++ [(false, 35)])) /\
  option_map commands (outcomes (rc5_protocol (debug_build 32) MU32) 40000 ((true, 700) :: hit 0 1 1 (acts ++ [(false, 35)]))) = Some [mkRc5 5 35 3 false] /\
  option_map commands (outcomes (rc5_protocol (debug_build 32) MU32) 40000 ((true, 700) :: hit 5 9 12 (acts ++ [(false, 35)]))) = Some [].
Proof.
  split; [vm_compute; reflexivity|]. split; [reflexivity|]. split; [reflexivity|]. split; [apply rc5_edges_ok; vm_compute; reflexivity|].
  split; [split; vm_compute; discriminate|].
  split; [apply hit_glitches; [lia|lia|vm_compute; discriminate|vm_compute; reflexivity]|].
  split; [apply hit_glitches; [lia|lia|vm_compute; discriminate|vm_compute; reflexivity]|].
  split; vm_compute; reflexivity.
Qed.

(** RC6: disturbed at the beginning of the leader the frame is still read, disturbed later it is not. *)
Definition c96_rc6 (toggle : bool) (w : N) : list edge := map (fun x : edge => (fst x, 18 * snd x)) (tl (level_edges false 0 (rc6_wave toggle (bits_msb 16 w)))).
Example C96_example_rc6 :
  let acts := c96_rc6 false (2 ^ 8 * 4 + 12) ++ [(false, 18)] in
  rc6_edges 40000 (rc6_leader_safe 40000) false (2 ^ 8 * 4 + 12) 700 ((true, 700) :: c96_rc6 false (2 ^ 8 * 4 + 12)) /\ longer 40000 2664 12 700 /\
  near 40000 444 12 18 /\
  glitches 40000 300 acts (hit 0 2 1 acts) /\ glitches 40000 300 acts (hit 12 6 7 acts) /\
  option_map commands (outcomes (rc6_protocol (debug_build 32) MU32) 40000 ((true, 700) :: hit 0 2 1 acts)) = Some [mkRc6 4 12 false] /\
  option_map commands (outcomes (rc6_protocol (debug_build 32) MU32) 40000 ((true, 700) :: hit 12 6 7 acts)) = Some [].
Proof.
  split; [apply (rc6_edges_ok 40000 (rc6_leader_safe 40000) false (2 ^ 8 * 4 + 12) 700 108 (tl (c96_rc6 false (2 ^ 8 * 4 + 12)))); [|vm_compute; reflexivity]|].
  { split; [apply nearb_ok; vm_compute; reflexivity|vm_compute; discriminate]. }
  split; [vm_compute; reflexivity|]. split; [split; vm_compute; discriminate|].
  split; [apply hit_glitches; [lia|lia|vm_compute; discriminate|vm_compute; reflexivity]|].
  split; [apply hit_glitches; [lia|lia|vm_compute; discriminate|vm_compute; reflexivity]|].
  split; vm_compute; reflexivity.
Qed.

(** The limit of 300 microseconds is there for a reason: a drop-out of 450 microseconds in the mark around
    the first bit, and all bits move by one place. *)
Theorem C96_rc6_long :
  exists w l', rc6_edges 40000 (rc6_leader_safe 40000) false w 700 ((true, 700) :: c96_rc6 false w) /\ w < 2 ^ 16 /\
  glitches 40000 450 (c96_rc6 false w) l' /\
  option_map commands (outcomes (rc6_protocol (debug_build 32) MU32) 40000 ((true, 700) :: c96_rc6 false w)) = Some [mkRc6 132 12 false] /\
  option_map commands (outcomes (rc6_protocol (debug_build 32) MU32) 40000 ((true, 700) :: l')) = Some [mkRc6 194 6 false].
Proof.
  exists (2 ^ 8 * 132 + 12), (hit 10 18 18 (c96_rc6 false (2 ^ 8 * 132 + 12))).
  split; [apply (rc6_edges_ok 40000 (rc6_leader_safe 40000) false (2 ^ 8 * 132 + 12) 700 108 (tl (c96_rc6 false (2 ^ 8 * 132 + 12)))); [|vm_compute; reflexivity]|].
  { split; [apply nearb_ok; vm_compute; reflexivity|vm_compute; discriminate]. }
  split; [reflexivity|].
  split; [apply hit_glitches; [lia|lia|vm_compute; discriminate|vm_compute; reflexivity]|].
  split; vm_compute; reflexivity.
Qed.
Print Assumptions C96_rc6_long.

(** Denon and Samsung BluRay with a drop-out. *)
Example C96_example_denon :
  let w := 2 ^ 45 + 12345679 in
  let ds := tl (denon_pairs w) in
  denon_frame 40000 w ((140, 60) :: ds) /\ marks_near 40000 3400 480 ((140, 60) :: ds) /\ dropouts ds (cut 20 8 3 ds) /\ cut 20 8 3 ds <> ds /\
  option_map commands (outcomes (denon_protocol (debug_build 32) MU32) 40000 (transmitted 1000 ((140, 60) :: cut 20 8 3 ds) [(false, 20)])) = Some [].
Proof.
  split; [apply denon_frame_ok; vm_compute; reflexivity|]. split.
  { eexists. eexists. split; [reflexivity|]. split; [split; vm_compute; discriminate|].
    apply Forall_forall. intros x Hx. apply in_map_iff in Hx. destruct Hx as ([|] & <- & _); split; vm_compute; discriminate. }
  split; [apply cut_dropouts; vm_compute; reflexivity|]. split; [intros X; apply (f_equal (@length _)) in X; discriminate X|vm_compute; reflexivity].
Qed.
Example C96_example_sbp :
  let c := 2 ^ 4 * 77 + 2 ^ 12 * compl8 77 in
  let ds := tl (sbp_pairs 4660 c) in
  sbp_frame 40000 4660 c ((180, 180) :: ds) /\ marks_near 40000 4500 500 ((180, 180) :: ds) /\ dropouts ds (cut 30 8 3 ds) /\ cut 30 8 3 ds <> ds /\
  option_map commands (outcomes (sbp_protocol (debug_build 32) MU32) 40000 (transmitted 1000 ((180, 180) :: cut 30 8 3 ds) [(false, 20)])) = Some [].
Proof.
  split; [apply sbp_frame_ok; vm_compute; reflexivity|]. split.
  { eexists. eexists. split; [reflexivity|]. split; [split; vm_compute; discriminate|].
    apply Forall_forall. intros x Hx. change (In x (map (fun b : bool => if b then (20, 60) else (20, 20)) (bits_lsb 16 4660) ++ (20, 180) ::
      map (fun b : bool => if b then (20, 60) else (20, 20)) (bits_lsb 20 (2 ^ 4 * 77 + 2 ^ 12 * compl8 77)))) in Hx.
    apply in_app_or in Hx. destruct Hx as [Hx|[<-|Hx]]; [| split; vm_compute; discriminate|];
      apply in_map_iff in Hx; destruct Hx as ([|] & <- & _); split; vm_compute; discriminate. }
  split; [apply cut_dropouts; vm_compute; reflexivity|]. split; [intros X; apply (f_equal (@length _)) in X; discriminate X|vm_compute; reflexivity].
Qed.
