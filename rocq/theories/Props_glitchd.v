(** * Property theorems: header marks that are interrupted, more protocols *)
From Coq Require Import NArith ZArith List Bool Lia ZifyBool ZifyNat ZifyN.
From Verif Require Import Machine Time Decoder Nec Denon Sbp Receiver Spec Bits Time_facts Run_facts Nec_facts Rc5_facts Encode_facts Codec_facts Spec_receiver Spec_sound Sound_facts
  Spec_cross Cross_facts Example_facts Spec_damage Damage_facts Spec_glitch Glitch_facts Props_damage Props_glitch Glitchd_facts.
Import ListNotations.
Open Scope N_scope.

(** ** C96, continued: drop-outs in any mark

    The full claim is in Props_glitch.v. *)

(** Denon: nothing is reported that the frame would not have led to undisturbed.  That is the low 47
    bits of the word; with the ones of a frame that was broken off before, if there was one (C23). *)
Theorem C96_denon_header_partial :
  forall b m freq C (into : denon_command -> C) hist gap w h ds qs tail r0 r os x,
  timebase m freq -> 20000 <= freq -> freq < 2 ^ 32 -> w < 2 ^ 48 ->
  longer freq 13500 8 gap -> denon_frame freq w (h :: ds) -> marks_near freq 3400 480 (h :: ds) -> stopped tail ->
  dropouts (h :: ds) qs -> periods_fit (hist ++ transmitted gap qs tail) ->
  receiver_new (denon_protocol b m) freq = Val r0 ->
  run_edges (D := denon_dec b m) into r0 (hist ++ transmitted gap qs tail) = Val (r, os) ->
  In x (commands (skipn (length hist) os)) ->
  exists bits, x = into (mkDenon bits) /\ bits < 2 ^ 47 /\
    (forall k, k < 47 -> N.testbit w k = true -> N.testbit bits k = true) /\
    ((forall d, In d (periods hist) -> ~ near freq 5000 9 d) -> bits = w mod 2 ^ 47).
Proof.
  intros b m freq C into hist gap w h ds qs tail r0 r os x Hm Hlo Hf Hw Hg F (h' & ds' & Eh & [Hl _] & Fm) T D Hfit E0 E Hi. injection Eh as <- <-.
  destruct (denon_reports b m freq C into hist gap (pair_edges qs ++ tail) r0 r os x Hm Hf Hlo Hg Hfit E0 E Hi)
    as ([bits] & q1 & hd & dd & q2 & w' & -> & Eq & (Hhd & Hw' & Fd) & T1 & T2 & T3).
  destruct (sent_periods qs tail 0 T) as [Ep _]. unfold edge in *. rewrite Ep in Eq.
  destruct F as (h' & ds' & Eh & _ & F). injection Eh as <- <-.
  assert (Hb : Forall (among freq [(1680, 10); (840, 10)]) (map period ds)).
  { clear -F. induction F as [|bt x bs ds H F IH]; cbn [map]; constructor; auto.
    apply period_near_wide in H. destruct bt; [exists 1680, 10|exists 840, 10]; cbn; auto. }
  assert (M : Forall (fun x => period x <= tol_max freq 1680 10) ds).
  { apply (among_max freq [(1680, 10); (840, 10)]); [exact Hlo|vm_compute; reflexivity|lia|exact Hb]. }
  assert (Nh : forall y, y <= fst h -> ~ near freq 5000 9 y).
  { intros y Hy [_ N]. pose proof (below_ok freq 3400 8 5000 9 y y eq_refl Hlo ltac:(lia) N). lia. }
  assert (L : length dd = length ds) by (apply forall2_length in F; apply forall2_length in Fd; unfold bits_lsb in F, Fd; rewrite map_length, seq_length in F, Fd; congruence).
  assert (Fs : Forall (denon_seen freq) dd).
  { clear -Fd. induction Fd as [|bt d bs ds H F IH]; constructor; auto. unfold denon_seen_bit in H. unfold denon_seen. destruct bt; auto. }
  destruct (header_cut (near freq 5000 9) (denon_seen freq) (tol_max freq 1680 10) h ds qs q1 hd dd q2 D M) as [-> Fq]; auto.
  { intros y Hy. exact (tol_max_not freq 1680 10 5000 9 y Hlo eq_refl Hy). }
  { intros z y Hz Hy K. rewrite Forall_forall in Fm. destruct (Fm z Hz) as [Hmk _]. destruct K as [[_ K]|[_ K]].
    - pose proof (below_ok freq 480 12 1680 11 y y eq_refl Hlo ltac:(lia) K). lia.
    - pose proof (below_ok freq 480 12 840 11 y y eq_refl Hlo ltac:(lia) K). lia. }
  assert (w' = w).
  { apply (same_bits (fun bt d => near freq (if bt then 1680 else 840) 10 d) (denon_seen_bit freq) 48 w w' (map period ds)); auto.
    - intros bt d H1 H2. unfold denon_seen_bit in H2. destruct bt; cbn [negb] in H2.
      + exact (near_below freq 840 11 1680 10 d Hlo H2 H1 eq_refl).
      + exact (near_below freq 840 10 1680 11 d Hlo H1 H2 eq_refl).
    - clear -F. induction F as [|bt x bs ds H F IH]; cbn [map]; constructor; auto.
      apply period_near_wide in H. unfold period. destruct bt; exact H. }
  subst w'. cbn [Denon.denon_bits] in *. exists bits. split; [reflexivity|]. split; [exact T1|]. split; [exact T2|].
  intros Nn. apply T3. apply Forall_app. split; [apply Forall_forall; exact Nn|].
  eapply Forall_impl; [|exact Fq]. exact Nh.
Qed.
Print Assumptions C96_denon_header_partial.

(** Samsung BluRay: the command that was sent, or nothing. *)
Theorem C96_sbp_header_partial :
  forall b m freq C (into : sbp_command -> C) hist gap address command h ds qs tail r0 r os x,
  timebase m freq -> 20000 <= freq -> freq < 2 ^ 32 -> address < 2 ^ 16 -> command < 2 ^ 20 ->
  longer freq 13500 8 gap -> sbp_frame freq address command (h :: ds) -> marks_near freq 4500 500 (h :: ds) -> stopped tail ->
  dropouts (h :: ds) qs -> short (hist ++ transmitted gap qs tail) ->
  receiver_new (sbp_protocol b m) freq = Val r0 ->
  run_edges (D := sbp_dec b m) into r0 (hist ++ transmitted gap qs tail) = Val (r, os) ->
  In x (commands (skipn (length hist) os)) ->
  x = into (mkSbp address (field command 4 8) (field command 12 8 =? compl8 (field command 4 8))).
Proof.
  intros b m freq C into hist gap address command h ds qs tail r0 r os x Hm Hlo Hf Ha Hc Hg F (h' & ds' & Eh & [Hl _] & Fm) T D Hs E0 E Hi. injection Eh as <- <-.
  destruct (sbp_reports b m freq C into hist gap (pair_edges qs ++ tail) r0 r os x Hm Hf Hlo Hg Hs (alt_sent qs tail T) E0 E Hi)
    as (aw & cw & q1 & hd & ads & pause & cds & q2 & -> & Eq & Hhd & Hp & Haw & Hcw & Fa & Fc).
  destruct (sent_periods qs tail 0 T) as [Ep _]. unfold edge in *. rewrite Ep in Eq.
  destruct (sbp_frame_periods _ _ _ _ F) as (hd0 & ads0 & pause0 & cds0 & Ef & _ & Hp0 & La & Lc & Fa0 & Fc0). cbn [map] in Ef. injection Ef as _ Ef.
  destruct F as (h' & as1 & p1 & cs1 & Eh & _ & Fa1 & _ & Fc1). injection Eh as <- Ed.
  assert (L1 : length as1 = 16%nat) by (apply forall2_length in Fa1; unfold bits_lsb in Fa1; rewrite map_length, seq_length in Fa1; auto).
  assert (L2 : length cs1 = 20%nat) by (apply forall2_length in Fc1; unfold bits_lsb in Fc1; rewrite map_length, seq_length in Fc1; auto).
  assert (L3 : length ads = 16%nat) by (apply forall2_length in Fa; unfold bits_lsb in Fa; rewrite map_length, seq_length in Fa; auto).
  assert (L4 : length cds = 20%nat) by (apply forall2_length in Fc; unfold bits_lsb in Fc; rewrite map_length, seq_length in Fc; auto).
  assert (M : Forall (fun x => period x <= tol_max freq 5000 5) ds).
  { apply (among_max freq ((5000, 5) :: sbp_sent_bits)); [exact Hlo|vm_compute; reflexivity|lia|].
    rewrite Ef. apply Forall_app. split; [|constructor].
    - eapply Forall_impl; [|exact Fa0]. intros d. apply among_more. intros x Hx. right. exact Hx.
    - exists 5000, 5. split; [left; reflexivity|exact Hp0].
    - eapply Forall_impl; [|exact Fc0]. intros d. apply among_more. intros x Hx. right. exact Hx. }
  assert (S : forall bs l, Forall2 (sbp_seen_bit freq) bs l -> Forall (fun y => sbp_seen freq y \/ near freq 5000 6 y) l).
  { intros bs l G. induction G as [|bt dd bs l H G IH]; constructor; auto. unfold sbp_seen_bit in H. unfold sbp_seen. destruct bt; auto. }
  destruct (header_cut (near freq 9000 6) (fun y => sbp_seen freq y \/ near freq 5000 6 y) (tol_max freq 5000 5) h ds qs q1 hd (ads ++ pause :: cds) q2 D M) as [K _]; auto.
  { intros y Hy. exact (tol_max_not freq 5000 5 9000 6 y Hlo eq_refl Hy). }
  { intros y Hy [_ N]. pose proof (below_ok freq 4500 8 9000 6 y y eq_refl Hlo ltac:(lia) N). lia. }
  { rewrite Ed, !app_length. cbn [length]. lia. }
  { apply Forall_app. split; [eapply S, Fa|]. constructor; [right; exact Hp|eapply S, Fc]. }
  { intros z y Hz Hy K. rewrite Forall_forall in Fm. destruct (Fm z Hz) as [Hmk _]. destruct K as [[[_ K]|[_ K]]|[_ K]].
    - pose proof (below_ok freq 500 12 2000 11 y y eq_refl Hlo ltac:(lia) K). lia.
    - pose proof (below_ok freq 500 12 1000 11 y y eq_refl Hlo ltac:(lia) K). lia.
    - pose proof (below_ok freq 500 12 5000 6 y y eq_refl Hlo ltac:(lia) K). lia. }
  rewrite Ed, map_app in K. cbn [map] in K.
  assert (K1 : ads = map period as1) by (apply (same_prefix _ _ _ _ K); rewrite map_length; lia).
  rewrite K1 in K. apply app_inv_head in K. injection K as _ K2.
  assert (N : forall bt d, near freq (if bt : bool then 2000 else 1000) 10 d -> sbp_seen_bit freq (negb bt) d -> False).
  { intros bt d H1 H2. unfold sbp_seen_bit in H2. destruct bt; cbn [negb] in H2.
    - exact (near_below freq 1000 11 2000 10 d Hlo H2 H1 eq_refl).
    - exact (near_below freq 1000 10 2000 11 d Hlo H1 H2 eq_refl). }
  assert (W : forall bs l, Forall2 (sbp_bit freq) bs l -> Forall2 (fun (bt : bool) d => near freq (if bt then 2000 else 1000) 10 d) bs (map period l)).
  { intros bs l G. induction G as [|bt z bs l H G IH]; cbn [map]; constructor; auto.
    apply period_near_wide in H. unfold period. destruct bt; exact H. }
  assert (aw = address) as -> by (rewrite K1 in Fa; exact (same_bits _ _ 16 address aw _ Ha Haw N (W _ _ Fa1) Fa)).
  assert (cw = command) as -> by (rewrite K2 in Fc; exact (same_bits _ _ 20 command cw _ Hc Hcw N (W _ _ Fc1) Fc)).
  rewrite sbp_unpack_char by auto. reflexivity.
Qed.
Print Assumptions C96_sbp_header_partial.

(** NEC with 16-bit addresses: the command that was sent, or a repeat, or nothing. *)
Theorem C96_nec16_header_partial :
  forall b m freq C (into : nec16_command -> C) hist gap a c h ds qs tail r0 r os x,
  timebase m freq -> 20000 <= freq -> freq < 2 ^ 32 -> a < 2 ^ 16 -> c < 2 ^ 8 ->
  longer freq 13500 8 gap -> nec_frame freq 13500 (bytes4 (a mod 2 ^ 8) (a / 2 ^ 8) c (compl8 c)) (h :: ds) -> marks_near freq 9000 560 (h :: ds) ->
  stopped tail -> dropouts (h :: ds) qs -> periods_fit (hist ++ transmitted gap qs tail) ->
  receiver_new (nec_protocol b m Nec16Bit) freq = Val r0 ->
  run_edges (D := nec_dec b m Nec16Bit) into r0 (hist ++ transmitted gap qs tail) = Val (r, os) ->
  In x (commands (skipn (length hist) os)) ->
  x = into (mkNec16 a c false) \/ exists k, x = into k /\ n16_repeat k = true.
Proof.
  intros b m freq C into hist gap a c h ds qs tail r0 r os x Hm Hlo Hf Ha Hc Hg F M T D Hfit E0 E Hi.
  change (2 ^ 8) with 256 in *. change (2 ^ 16) with 65536 in *.
  assert (Hw : bytes4 (a mod 256) (a / 256) c (compl8 c) < 2 ^ 32).
  { apply bytes4_lt; [apply N.mod_lt; lia|apply N.div_lt_upper_bound; lia|exact Hc|apply compl8_lt]. }
  destruct (nec_header_cut b m freq Nec16Bit C into 9000 hist gap _ h ds qs tail r0 r os x Hm Hf Hlo (or_introl eq_refl) eq_refl Hg
              Hw F M T D Hfit E0 E Hi) as (k & -> & [(w' & K)|K]).
  - right. exists k. split; [reflexivity|]. cbn [nv_unpack Nec16Bit] in K. unfold nec16_unpack in K. apply some_inj in K. subst k. reflexivity.
  - left. cbn [nv_unpack Nec16Bit] in K. rewrite nec16_unpack_layout in K by auto. apply some_inj in K. subst k. reflexivity.
Qed.
Print Assumptions C96_nec16_header_partial.

(** Apple: the same, and nothing but a repeat if the word is not one of Apple's. *)
Theorem C96_apple_header_partial :
  forall b m freq C (into : apple_command -> C) hist gap w h ds qs tail r0 r os x,
  timebase m freq -> 20000 <= freq -> freq < 2 ^ 32 -> w < 2 ^ 32 ->
  longer freq 13500 8 gap -> nec_frame freq 13500 w (h :: ds) -> marks_near freq 9000 560 (h :: ds) ->
  stopped tail -> dropouts (h :: ds) qs -> periods_fit (hist ++ transmitted gap qs tail) ->
  receiver_new (nec_protocol b m NecApple) freq = Val r0 ->
  run_edges (D := nec_dec b m NecApple) into r0 (hist ++ transmitted gap qs tail) = Val (r, os) ->
  In x (commands (skipn (length hist) os)) ->
  (x = into (mkApple (field w 0 5) (field w 17 7) (field w 24 8) false) /\ field w 5 11 = 1087 /\ Nat.odd (ones (bits_lsb 32 w)) = true) \/
  exists k, x = into k /\ apl_repeat k = true.
Proof.
  intros b m freq C into hist gap w h ds qs tail r0 r os x Hm Hlo Hf Hw Hg F M T D Hfit E0 E Hi.
  destruct (nec_header_cut b m freq NecApple C into 9000 hist gap _ h ds qs tail r0 r os x Hm Hf Hlo (or_introl eq_refl) eq_refl Hg
              Hw F M T D Hfit E0 E Hi) as (k & -> & [(w' & K)|K]).
  - right. exists k. split; [reflexivity|]. cbn [nv_unpack NecApple] in K. unfold apple_unpack in K.
    destruct (negb (apple_validate w')); [discriminate|]. apply some_inj in K. subst k. reflexivity.
  - left. apply (apple_unpack_char w false k Hw) in K. destruct K as (K1 & K2 & ->). auto.
Qed.
Print Assumptions C96_apple_header_partial.

(** Both happen.  The header's mark drops out soon after its start, and the command is reported; or
    in the middle, and nothing is. *)
Definition c96_denon := denon_pairs (2 ^ 45 + 12345679).
Definition c96_sbp := sbp_pairs 4660 (2 ^ 4 * 77 + 2 ^ 12 * compl8 77).

Lemma pairs_near freq lead bit h ds : 100 * fst h <= (100 + 8) * nominal freq lead /\ (100 - 8) * nominal freq lead <= 100 * fst h ->
  forallb (fun x : N * N => (100 * fst x <=? (100 + 12) * nominal freq bit) && ((100 - 12) * nominal freq bit <=? 100 * fst x)) ds = true ->
  marks_near freq lead bit (h :: ds).
Proof.
  intros H F. exists h, ds. split; [reflexivity|]. split; [exact H|]. apply Forall_forall. intros x Hx. rewrite forallb_forall in F.
  specialize (F x Hx). apply andb_true_iff in F. destruct F as [F1 F2]. apply N.leb_le in F1, F2. split; assumption.
Qed.

Example C96_denon_header_example :
  denon_frame 40000 (2 ^ 45 + 12345679) c96_denon /\ marks_near 40000 3400 480 c96_denon /\
  dropouts c96_denon (cut 0 4 4 c96_denon) /\ dropouts c96_denon (cut 0 70 4 c96_denon) /\
  option_map commands (outcomes (denon_protocol (debug_build 32) MU32) 40000 (transmitted 1000 (cut 0 4 4 c96_denon) [(false, 20)])) =
    Some [mkDenon (2 ^ 45 + 12345679)] /\
  option_map commands (outcomes (denon_protocol (debug_build 32) MU32) 40000 (transmitted 1000 (cut 0 70 4 c96_denon) [(false, 20)])) = Some [].
Proof.
  split; [apply denon_frame_ok; vm_compute; reflexivity|].
  split; [apply pairs_near; [split; vm_compute; discriminate|vm_compute; reflexivity]|].
  split; [apply cut_dropouts; vm_compute; reflexivity|]. split; [apply cut_dropouts; vm_compute; reflexivity|].
  split; vm_compute; reflexivity.
Qed.

Example C96_sbp_header_example :
  sbp_frame 40000 4660 (2 ^ 4 * 77 + 2 ^ 12 * compl8 77) c96_sbp /\ marks_near 40000 4500 500 c96_sbp /\
  dropouts c96_sbp (cut 0 4 4 c96_sbp) /\ dropouts c96_sbp (cut 0 70 4 c96_sbp) /\
  option_map commands (outcomes (sbp_protocol (debug_build 32) MU32) 40000 (transmitted 1000 (cut 0 4 4 c96_sbp) [(false, 20)])) =
    Some [mkSbp 4660 77 true] /\
  option_map commands (outcomes (sbp_protocol (debug_build 32) MU32) 40000 (transmitted 1000 (cut 0 70 4 c96_sbp) [(false, 20)])) = Some [].
Proof.
  split; [apply sbp_frame_ok; vm_compute; reflexivity|].
  split; [apply pairs_near; [split; vm_compute; discriminate|vm_compute; reflexivity]|].
  split; [apply cut_dropouts; vm_compute; reflexivity|]. split; [apply cut_dropouts; vm_compute; reflexivity|].
  split; vm_compute; reflexivity.
Qed.

(** NEC with 16-bit addresses and Apple. *)
Example C96_family_header_example :
  let w := bytes4 (4660 mod 2 ^ 8) (4660 / 2 ^ 8) 77 (compl8 77) in
  nec_frame 40000 13500 w (nec_pairs w) /\ marks_near 40000 9000 560 (nec_pairs w) /\ dropouts (nec_pairs w) (cut 0 8 8 (nec_pairs w)) /\
  option_map commands (outcomes (nec_protocol (debug_build 32) MU32 Nec16Bit) 40000 (transmitted 1000 (cut 0 8 8 (nec_pairs w)) [(false, 22)])) =
    Some [mkNec16 4660 77 false] /\
  nec_frame 40000 13500 1510115310 (nec_pairs 1510115310) /\ marks_near 40000 9000 560 (nec_pairs 1510115310) /\
  dropouts (nec_pairs 1510115310) (cut 0 8 8 (nec_pairs 1510115310)) /\
  option_map commands (outcomes (nec_protocol (debug_build 32) MU32 NecApple) 40000 (transmitted 1000 (cut 0 8 8 (nec_pairs 1510115310)) [(false, 22)])) =
    Some [mkApple 14 1 90 false].
Proof.
  split; [apply nec_frameb_ok; vm_compute; reflexivity|].
  split; [apply pairs_near; [split; vm_compute; discriminate|vm_compute; reflexivity]|].
  split; [apply cut_dropouts; vm_compute; reflexivity|]. split; [vm_compute; reflexivity|].
  split; [apply nec_frameb_ok; vm_compute; reflexivity|].
  split; [apply pairs_near; [split; vm_compute; discriminate|vm_compute; reflexivity]|].
  split; [apply cut_dropouts; vm_compute; reflexivity|]. vm_compute. reflexivity.
Qed.
