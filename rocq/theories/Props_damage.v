(** * Property theorems: pulses that are not noticed *)
From Coq Require Import NArith ZArith List Bool Lia ZifyBool ZifyNat ZifyN.
From Verif Require Import Machine Time Decoder Nec Rc5 Rc6 Denon Sbp Receiver Spec Bits Time_facts Run_facts Nec_facts Rc5_facts Encode_facts
  Spec_receiver Spec_sound Sound_facts Biphase_facts Spec_cross Cross_facts Example_facts Spec_damage Damage_facts.
Import ListNotations.
Open Scope N_scope.

(** ** C95: a frame of which a pulse goes unnoticed is not taken for another command

    [hist] is any history, [gap] the silence before the frame, [l'] what the receiver gets of the
    frame and the silence.  [skipn (length hist) os] are the outcomes from there on. *)

Lemma total_bound freq p t q k : (length q <= k)%nat -> Forall (fun d => 100 * d <= (100 + t) * nominal freq p) q ->
  100 * total q <= (100 + t) * nominal freq (p * N.of_nat k).
Proof.
  revert q. induction k as [|k IH]; intros [|d q] L F; cbn [length total fold_right] in *; try lia.
  inversion F as [|d0 q0 Hd Fq]; subst. assert (Lq : (length q <= k)%nat) by lia. specialize (IH q Lq Fq). unfold total in IH.
  pose proof (nominal_sum freq p (p * N.of_nat k)) as S.
  replace (p * N.of_nat (Datatypes.S k)) with (p + p * N.of_nat k) by lia. nia.
Qed.

Lemma nec_sums freq H R k w ps pre seg post : 20000 <= freq -> below R 8 H 7 = true -> below (2250 * N.of_nat k) 12 R 8 = true ->
  nec_frame freq H w ps -> map period ps = pre ++ seg ++ post -> seg <> [] -> (length seg <= k)%nat -> ~ near freq R 8 (total seg).
Proof.
  intros Hlo B1 B2 F E Hs L [N1 N2]. destruct (nec_frame_periods _ _ _ _ F) as (hd & ds & Eh & [_ Hh] & _ & Fb).
  rewrite Eh in E. destruct pre as [|y pre]; cbn [app] in E.
  - destruct seg as [|y seg]; [destruct (Hs eq_refl)|]. cbn [app] in E. injection E as <- _. cbn [total fold_right] in *.
    pose proof (below_ok freq R 8 H 7 _ _ B1 Hlo N1 Hh) as X. fold (total seg) in X. lia.
  - injection E as <- ->. apply Forall_app in Fb. destruct Fb as [_ Fb]. apply Forall_app in Fb. destruct Fb as [Fb _].
    assert (Fs : Forall (fun d => 100 * d <= (100 + 12) * nominal freq 2250) seg).
    { eapply Forall_impl; [|exact Fb]. intros d (p & t & [K|[K|[]]] & [Hn _]); injection K as <- <-; [exact Hn|].
      pose proof (nominal_sum freq 1120 1120) as X. pose proof (nominal_le freq (1120 + 1120) 2250 ltac:(lia)) as Y. lia. }
    pose proof (total_bound freq 2250 12 seg k L Fs) as T.
    pose proof (below_ok freq _ _ R 8 _ _ B2 Hlo T N2). lia.
Qed.

Lemma nec_too_few freq header ps qs : (length qs < S ps)%nat -> (ps <= 32)%nat -> ~ has_nec_frame freq header qs.
Proof.
  intros L Hp (pre & hd & ds & post & -> & _ & Ld & _). rewrite app_length in L. cbn [length] in L. rewrite app_length in L. lia.
Qed.

Lemma nec_frame_length freq header w ps : nec_frame freq header w ps -> length ps = 33%nat.
Proof.
  intros F. destruct (nec_frame_periods _ _ _ _ F) as (hd & ds & E & _ & L & _). apply (f_equal (@length _)) in E.
  rewrite map_length in E. cbn [length] in E. lia.
Qed.

(** What can be reported at all. *)
Lemma nec_damaged b m freq V (C : Type) (into : nv_cmd V -> C) hist gap w ps tail l' r0 r os x :
  timebase m freq -> freq < 2 ^ 32 -> 20000 <= freq -> nec_timing_ok (nv_timing V) ->
  longer freq 13500 8 gap ->
  nec_frame freq (header_high (nv_timing V) + header_low (nv_timing V)) w ps -> stopped tail ->
  misses_some (transmitted gap ps tail) l' -> periods_fit (hist ++ l') ->
  receiver_new (nec_protocol b m V) freq = Val r0 ->
  run_edges (D := nec_dec b m V) into r0 (hist ++ l') = Val (r, os) ->
  In x (commands (skipn (length hist) os)) ->
  exists w' c, x = into c /\ nv_unpack V w' true = Some c /\
    (forall n, misses_upto n (transmitted gap ps tail) l' ->
       exists p1 seg p2, map period ps = p1 ++ seg ++ p2 /\ seg <> [] /\
         near freq (header_high (nv_timing V) + repeat_low (nv_timing V)) 8 (total seg) /\
         ((length seg <= n)%nat \/ length seg = S n /\
            ~ nec_begun freq (header_high (nv_timing V) + header_low (nv_timing V)) p1)).
Proof.
  intros Hm Hf Hlo HT Hg F T M Hfit E0 E Hi.
  destruct (damaged gap ps tail l' T M) as (g' & evs' & -> & Lg & _ & L & Mg & K).
  rewrite (nec_frame_length _ _ _ _ F) in L.
  destruct (nec_only_repeats b m freq V C into hist g' evs' r0 r os x Hm Hf Hlo HT (longer_more _ _ _ _ _ Hg Lg) Hfit
              (nec_too_few freq _ 32 _ L (le_n _)) E0 E Hi) as (w' & c & q1 & d & q2 & -> & Ec & Eq & Hn & B).
  exists w', c. split; [reflexivity|]. split; [exact Ec|]. intros n Mn. specialize (K n Mn).
  destruct (merged_cons _ _ _ _ Mg) as (q0 & rest & Er & _ & Mr). unfold edge in *. rewrite Eq in Mr, K.
  destruct (merged_split _ _ _ _ Mr) as (p1 & seg & p2 & -> & -> & Hs & L1 & L2 & L3).
  exists (q0 ++ p1), seg, p2. split; [rewrite Er, <- app_assoc; reflexivity|]. split; [exact Hs|]. split; [exact Hn|].
  pose proof (f_equal (@length _) Er) as Len. rewrite map_length, !app_length in Len. rewrite app_length in K. cbn [length] in K.
  destruct (PeanoNat.Nat.le_gt_cases (length seg) n) as [C1|C1]; [left; exact C1|right].
  assert (length q0 = 0%nat /\ length seg = S n /\ length q1 = length p1) as (Z1 & Z2 & Z3) by lia.
  split; [exact Z2|]. destruct q0; [|discriminate]. rewrite (L2 Z3) in B. exact B.
Qed.

Lemma none_in {A} (l : list A) : (forall x, ~ In x l) -> l = [].
Proof. destruct l as [|x l]; [reflexivity|]. intros H. destruct (H x). left. reflexivity. Qed.

(** If the pulses are all lost in one place, the receiver is in the middle of the frame there. *)
Lemma nec_inside freq H R w ps p1 seg p2 : 20000 <= freq -> below R 8 H 7 = true -> nec_frame freq H w ps ->
  map period ps = p1 ++ seg ++ p2 -> seg <> [] -> near freq R 8 (total seg) -> nec_begun freq H p1.
Proof.
  intros Hlo B F E Hs Hn. destruct p1 as [|y p1]; cbn [app] in E.
  - exfalso. destruct (nec_frame_periods _ _ _ _ F) as (hd & ds & Eh & [_ Hh] & _ & _). rewrite Eh in E.
    destruct seg as [|y seg]; [destruct (Hs eq_refl)|]. cbn [app] in E. injection E as <- _. destruct Hn as [N1 _].
    pose proof (below_ok freq R 8 H 7 _ _ B Hlo N1 Hh) as X. cbn [total fold_right] in X. fold (total seg) in X. lia.
  - destruct F as (h & ds & -> & Hh & F). cbn [map] in E. injection E as <- E. exists (period h), p1.
    split; [reflexivity|]. split; [exact Hh|].
    assert (Fb : Forall (nec_bit_near freq) (map period ds)).
    { clear -F. induction F as [|bt x bs ds H F IH]; cbn [map]; constructor; auto. destruct bt; [left|right]; exact H. }
    apply forall2_length in F. unfold bits_lsb in F. rewrite map_length, seq_length in F.
    pose proof (f_equal (@length _) E) as Len. rewrite map_length, !app_length in Len.
    destruct seg as [|y seg]; [destruct (Hs eq_refl)|]. cbn [length] in Len.
    rewrite E in Fb. apply Forall_app in Fb. split; [apply Fb|lia].
Qed.

(** NEC, NEC with 16-bit addresses, raw, Apple: up to four missing pulses, and nothing is reported. *)
Theorem C95_nec :
  forall b m freq V C (into : nv_cmd V -> C) hist gap w ps tail l' r0 r os,
  timebase m freq -> 20000 <= freq -> freq < 2 ^ 32 -> nv_timing V = NEC_STANDARD_TIMING ->
  longer freq 13500 8 gap -> nec_frame freq 13500 w ps -> stopped tail ->
  misses_upto 4 (transmitted gap ps tail) l' -> periods_fit (hist ++ l') ->
  receiver_new (nec_protocol b m V) freq = Val r0 ->
  run_edges (D := nec_dec b m V) into r0 (hist ++ l') = Val (r, os) ->
  commands (skipn (length hist) os) = [].
Proof.
  intros b m freq V C into hist gap w ps tail l' r0 r os Hm Hlo Hf HT Hg F T M Hfit E0 E. apply none_in. intros x Hi.
  destruct (nec_damaged b m freq V C into hist gap w ps tail l' r0 r os x Hm Hf Hlo (or_introl HT) Hg) as (w' & c & _ & _ & K); auto.
  - rewrite HT. exact F.
  - apply M.
  - destruct (K 4%nat M) as (p1 & seg & p2 & Es & Hs & Hn & [Ls|[_ B]]); rewrite HT in *.
    + exact (nec_sums freq 13500 11250 4 w ps p1 seg p2 Hlo eq_refl eq_refl F Es Hs Ls Hn).
    + apply B. exact (nec_inside freq 13500 11250 w ps p1 seg p2 Hlo eq_refl F Es Hs Hn).
Qed.
Print Assumptions C95_nec.

(** Samsung: up to two. *)
Theorem C95_samsung :
  forall b m freq C (into : samsung_command -> C) hist gap w ps tail l' r0 r os,
  timebase m freq -> 20000 <= freq -> freq < 2 ^ 32 ->
  longer freq 13500 8 gap -> nec_frame freq 9000 w ps -> stopped tail ->
  misses_upto 2 (transmitted gap ps tail) l' -> periods_fit (hist ++ l') ->
  receiver_new (nec_protocol b m NecSamsung) freq = Val r0 ->
  run_edges (D := nec_dec b m NecSamsung) into r0 (hist ++ l') = Val (r, os) ->
  commands (skipn (length hist) os) = [].
Proof.
  intros b m freq C into hist gap w ps tail l' r0 r os Hm Hlo Hf Hg F T M Hfit E0 E. apply none_in. intros x Hi.
  destruct (nec_damaged b m freq NecSamsung C into hist gap w ps tail l' r0 r os x Hm Hf Hlo (or_intror eq_refl) Hg) as (w' & c & _ & _ & K); auto.
  - apply M.
  - destruct (K 2%nat M) as (p1 & seg & p2 & Es & Hs & Hn & [Ls|[_ B]]).
    + exact (nec_sums freq 9000 6750 2 w ps p1 seg p2 Hlo eq_refl eq_refl F Es Hs Ls Hn).
    + apply B. exact (nec_inside freq 9000 6750 w ps p1 seg p2 Hlo eq_refl F Es Hs Hn).
Qed.
Print Assumptions C95_samsung.

(** Any number of missing pulses: at most repeats are reported, never a new press. *)
Theorem C95_nec_repeats :
  forall b m freq C (into : nec_command -> C) hist gap w ps tail l' r0 r os x,
  timebase m freq -> 20000 <= freq -> freq < 2 ^ 32 ->
  longer freq 13500 8 gap -> nec_frame freq 13500 w ps -> stopped tail ->
  misses_some (transmitted gap ps tail) l' -> periods_fit (hist ++ l') ->
  receiver_new (nec_protocol b m NecStandard) freq = Val r0 ->
  run_edges (D := nec_dec b m NecStandard) into r0 (hist ++ l') = Val (r, os) ->
  In x (commands (skipn (length hist) os)) -> exists c, x = into c /\ nec_repeat c = true.
Proof.
  intros b m freq C into hist gap w ps tail l' r0 r os x Hm Hlo Hf Hg F T M Hfit E0 E Hi.
  destruct (nec_damaged b m freq NecStandard C into hist gap w ps tail l' r0 r os x Hm Hf Hlo (or_introl eq_refl) Hg F T M Hfit E0 E Hi)
    as (w' & c & -> & Ec & _). exists c. split; [reflexivity|].
  cbn [nv_unpack NecStandard] in Ec. unfold nec_unpack in Ec. apply some_inj in Ec. subst c. reflexivity.
Qed.
Print Assumptions C95_nec_repeats.

Theorem C95_nec16_repeats :
  forall b m freq C (into : nec16_command -> C) hist gap w ps tail l' r0 r os x,
  timebase m freq -> 20000 <= freq -> freq < 2 ^ 32 ->
  longer freq 13500 8 gap -> nec_frame freq 13500 w ps -> stopped tail ->
  misses_some (transmitted gap ps tail) l' -> periods_fit (hist ++ l') ->
  receiver_new (nec_protocol b m Nec16Bit) freq = Val r0 ->
  run_edges (D := nec_dec b m Nec16Bit) into r0 (hist ++ l') = Val (r, os) ->
  In x (commands (skipn (length hist) os)) -> exists c, x = into c /\ n16_repeat c = true.
Proof.
  intros b m freq C into hist gap w ps tail l' r0 r os x Hm Hlo Hf Hg F T M Hfit E0 E Hi.
  destruct (nec_damaged b m freq Nec16Bit C into hist gap w ps tail l' r0 r os x Hm Hf Hlo (or_introl eq_refl) Hg F T M Hfit E0 E Hi)
    as (w' & c & -> & Ec & _). exists c. split; [reflexivity|].
  cbn [nv_unpack Nec16Bit] in Ec. unfold nec16_unpack in Ec. apply some_inj in Ec. subst c. reflexivity.
Qed.
Print Assumptions C95_nec16_repeats.

Theorem C95_apple_repeats :
  forall b m freq C (into : apple_command -> C) hist gap w ps tail l' r0 r os x,
  timebase m freq -> 20000 <= freq -> freq < 2 ^ 32 ->
  longer freq 13500 8 gap -> nec_frame freq 13500 w ps -> stopped tail ->
  misses_some (transmitted gap ps tail) l' -> periods_fit (hist ++ l') ->
  receiver_new (nec_protocol b m NecApple) freq = Val r0 ->
  run_edges (D := nec_dec b m NecApple) into r0 (hist ++ l') = Val (r, os) ->
  In x (commands (skipn (length hist) os)) -> exists c, x = into c /\ apl_repeat c = true.
Proof.
  intros b m freq C into hist gap w ps tail l' r0 r os x Hm Hlo Hf Hg F T M Hfit E0 E Hi.
  destruct (nec_damaged b m freq NecApple C into hist gap w ps tail l' r0 r os x Hm Hf Hlo (or_introl eq_refl) Hg F T M Hfit E0 E Hi)
    as (w' & c & -> & Ec & _). exists c. split; [reflexivity|].
  cbn [nv_unpack NecApple] in Ec. unfold apple_unpack in Ec. destruct (negb (apple_validate w')); [discriminate|].
  apply some_inj in Ec. subst c. reflexivity.
Qed.
Print Assumptions C95_apple_repeats.

Theorem C95_samsung_repeats :
  forall b m freq C (into : samsung_command -> C) hist gap w ps tail l' r0 r os x,
  timebase m freq -> 20000 <= freq -> freq < 2 ^ 32 ->
  longer freq 13500 8 gap -> nec_frame freq 9000 w ps -> stopped tail ->
  misses_some (transmitted gap ps tail) l' -> periods_fit (hist ++ l') ->
  receiver_new (nec_protocol b m NecSamsung) freq = Val r0 ->
  run_edges (D := nec_dec b m NecSamsung) into r0 (hist ++ l') = Val (r, os) ->
  In x (commands (skipn (length hist) os)) -> exists c, x = into c /\ sam_repeat c = true.
Proof.
  intros b m freq C into hist gap w ps tail l' r0 r os x Hm Hlo Hf Hg F T M Hfit E0 E Hi.
  destruct (nec_damaged b m freq NecSamsung C into hist gap w ps tail l' r0 r os x Hm Hf Hlo (or_intror eq_refl) Hg F T M Hfit E0 E Hi)
    as (w' & c & -> & Ec & _). exists c. split; [reflexivity|].
  cbn [nv_unpack NecSamsung] in Ec. unfold samsung_unpack in Ec. apply some_inj in Ec. subst c. reflexivity.
Qed.
Print Assumptions C95_samsung_repeats.

Theorem C95_denon :
  forall b m freq C (into : denon_command -> C) hist gap w ps tail l' r0 r os,
  timebase m freq -> 20000 <= freq -> freq < 2 ^ 32 ->
  longer freq 13500 8 gap -> denon_frame freq w ps -> stopped tail ->
  misses_some (transmitted gap ps tail) l' -> periods_fit (hist ++ l') ->
  receiver_new (denon_protocol b m) freq = Val r0 ->
  run_edges (D := denon_dec b m) into r0 (hist ++ l') = Val (r, os) ->
  commands (skipn (length hist) os) = [].
Proof.
  intros b m freq C into hist gap w ps tail l' r0 r os Hm Hlo Hf Hg F T M Hfit E0 E.
  destruct (damaged gap ps tail l' T M) as (g' & evs' & -> & Lg & _ & L & _ & _).
  apply (denon_listener b m freq C into hist g' evs' r0 r os Hm Hf Hlo (longer_more _ _ _ _ _ Hg Lg) Hfit); [|exact E0|exact E].
  intros pre hd ds post Ep _ Ld _. unfold edge in *. rewrite Ep, app_length in L. cbn [length] in L. rewrite app_length in L.
  destruct F as (h & qs & -> & _ & F). apply forall2_length in F. unfold bits_lsb in F. rewrite map_length, seq_length in F.
  cbn [length] in L. lia.
Qed.
Print Assumptions C95_denon.

Theorem C95_sbp :
  forall b m freq C (into : sbp_command -> C) hist gap address command ps tail l' r0 r os,
  timebase m freq -> 20000 <= freq -> freq < 2 ^ 32 ->
  longer freq 13500 8 gap -> sbp_frame freq address command ps -> stopped tail ->
  misses_some (transmitted gap ps tail) l' -> short (hist ++ l') ->
  receiver_new (sbp_protocol b m) freq = Val r0 ->
  run_edges (D := sbp_dec b m) into r0 (hist ++ l') = Val (r, os) ->
  commands (skipn (length hist) os) = [].
Proof.
  intros b m freq C into hist gap address command ps tail l' r0 r os Hm Hlo Hf Hg F T M Hs E0 E.
  destruct (damaged gap ps tail l' T M) as (g' & evs' & -> & Lg & A & L & _ & _).
  apply (sbp_listener b m freq C into hist g' evs' r0 r os Hm Hf Hlo (longer_more _ _ _ _ _ Hg Lg) Hs A); [|exact E0|exact E].
  intros pre hd ads pause cds post Ep _ _ La _ Lp _. unfold edge in *. rewrite Ep, app_length in L. cbn [length] in L.
  rewrite app_length in L. cbn [length] in L. rewrite app_length in L.
  destruct (sbp_frame_periods _ _ _ _ F) as (hd' & ads' & pause' & cds' & Eq & _ & _ & L1 & L2 & _).
  apply (f_equal (@length _)) in Eq. rewrite map_length in Eq. cbn [length] in Eq. rewrite app_length in Eq. cbn [length] in Eq. lia.
Qed.
Print Assumptions C95_sbp.

(** RC5: the frame has its first start bit; the edge that ends the last mark may be there or not. *)
Theorem C95_rc5 :
  forall b m freq C (into : rc5_command -> C) hist gap w l l' r0 r os,
  timebase m freq -> 20000 <= freq -> freq < 2 ^ 32 -> 8 <= usize_bits b ->
  longer freq 13500 8 gap -> N.testbit w 13 = true ->
  ended freq 889 (rc5_edges freq w gap) l -> misses_some l l' ->
  receiver_new (rc5_protocol b m) freq = Val r0 ->
  run_edges (D := rc5_dec b) into r0 (hist ++ l') = Val (r, os) ->
  commands (skipn (length hist) os) = [].
Proof.
  intros b m freq C into hist gap w l l' r0 r os Hm Hlo Hf Hu Hg Hw Hl M E0 E.
  destruct (rc5_damaged freq w gap l l' Hlo Hw Hg Hl M) as (g' & evs' & -> & Lg & K).
  exact (rc5_listener b m freq C into hist g' evs' r0 r os Hm Hf Hlo Hu (longer_more _ _ _ _ _ Hg Lg) K E0 E).
Qed.
Print Assumptions C95_rc5.

(** ** Examples *)

(** From the [i]-th edge on, [n] pulses or pauses are lost in a row. *)
Fixpoint lose_here (n : nat) (l : list edge) : list edge :=
  match n, l with
  | S n, (e, d1) :: (_, d2) :: (_, d3) :: r => lose_here n ((e, d1 + d2 + d3) :: r)
  | _, _ => l
  end.
Fixpoint lose (i n : nat) (l : list edge) : list edge :=
  match i, l with
  | S i, x :: r => x :: lose i n r
  | _, _ => lose_here n l
  end.
Lemma misses_same l : misses l l.
Proof. induction l; constructor; auto. Qed.
Lemma lose_here_misses n : forall l f, alt f l -> misses l (lose_here n l).
Proof.
  induction n as [|n IH]; intros l f A; [apply misses_same|].
  destruct l as [|[e d1] [|[e2 d2] [|[e3 d3] r]]]; try apply misses_same. cbn [lose_here].
  cbn [alt] in A. destruct A as (-> & -> & -> & A). rewrite negb_involutive in *. apply misses_drop.
  apply (IH _ f). cbn [alt]. auto.
Qed.
Lemma lose_misses i : forall n l f, alt f l -> misses l (lose i n l).
Proof.
  induction i as [|i IH]; intros n l f A; [eapply lose_here_misses, A|]. destruct l as [|[e d] l]; [destruct n; apply misses_same|].
  cbn [lose]. cbn [alt] in A. destruct A as [-> A]. apply misses_keep. eapply IH, A.
Qed.

(** The first pulse, and [n] pulses from the next but one edge on. *)
Definition lose_twice (n : nat) (l : list edge) : list edge := lose 2 n (lose_here 1 l).
Lemma lose_twice_misses n l f : alt f l -> misses l (lose_twice n l).
Proof.
  intros A. unfold lose_twice. destruct l as [|[e d1] [|[e2 d2] [|[e3 d3] r]]]; cbn [lose_here]; try (apply (lose_misses 2 n _ f A)).
  cbn [alt] in A. destruct A as (-> & -> & -> & A). rewrite negb_involutive in *. apply misses_drop. apply (lose_misses 2 n _ f). cbn [alt]. auto.
Qed.

Definition nec_pairs (w : N) : list (N * N) := (360, 180) :: map (fun b : bool => if b then (22, 68) else (22, 23)) (bits_lsb 32 w).
Definition c95_first := bytes4 7 (compl8 7) 9 (compl8 9).
Definition c95_second := bytes4 31 (compl8 31) 2 (compl8 2).
Definition c95_hist := (true, 700) :: pair_edges (nec_pairs c95_first) ++ [(false, 22)].

(** A frame, then another of which the pulse that ends the second bit is lost: one command and no more. *)
Example C95_example_nec :
  let l := transmitted 1000 (nec_pairs c95_second) [(false, 22)] in
  let l' := lose 4 1 l in
  nec_frame 40000 13500 c95_second (nec_pairs c95_second) /\ longer 40000 13500 8 1000 /\
  misses_upto 4 l l' /\ periods_fit (c95_hist ++ l') /\
  option_map commands (outcomes (nec_protocol (debug_build 32) MU32 NecStandard) 40000 (c95_hist ++ l)) = Some [mkNec 7 9 false; mkNec 31 2 false] /\
  option_map commands (outcomes (nec_protocol (debug_build 32) MU32 NecStandard) 40000 (c95_hist ++ l')) = Some [mkNec 7 9 false].
Proof.
  split; [apply nec_frameb_ok; vm_compute; reflexivity|]. split; [vm_compute; reflexivity|]. split.
  { split; [split|]; [apply lose_misses with (f := true); vm_compute; repeat split| |];
    apply PeanoNat.Nat.ltb_lt || apply PeanoNat.Nat.leb_le; vm_compute; reflexivity. }
  split; [|split; vm_compute; reflexivity].
  unfold periods_fit. match goal with |- Forall _ ?l => let l' := eval vm_compute in l in change l with l' end.
  repeat (apply Forall_cons; [reflexivity|]). apply Forall_nil.
Qed.

(** Four is the most: if the first pulse of the second frame is lost, and the four that separate its
    first five bits, all ones, then what is left is as long as a repeat code, and the command
    before is reported again. *)
Theorem C95_nec_five :
  exists l l', l = transmitted 1000 (nec_pairs c95_second) [(false, 22)] /\ misses_upto 5 l l' /\
  option_map commands (outcomes (nec_protocol (debug_build 32) MU32 NecStandard) 40000 (c95_hist ++ l')) =
    Some [mkNec 7 9 false; mkNec 7 9 true].
Proof.
  eexists. exists (lose_twice 4 (transmitted 1000 (nec_pairs c95_second) [(false, 22)])). split; [reflexivity|]. split; [|vm_compute; reflexivity].
  split; [split|]; [apply lose_twice_misses with (f := true); vm_compute; repeat split| |];
    apply PeanoNat.Nat.ltb_lt || apply PeanoNat.Nat.leb_le; vm_compute; reflexivity.
Qed.
Print Assumptions C95_nec_five.

(** Samsung: three are enough. *)
Definition samsung_pairs (w : N) : list (N * N) := (180, 180) :: map (fun b : bool => if b then (22, 68) else (22, 23)) (bits_lsb 32 w).
Theorem C95_samsung_three :
  exists w l l', l = transmitted 1000 (samsung_pairs w) [(false, 22)] /\ nec_frame 40000 9000 w (samsung_pairs w) /\ misses_upto 3 l l' /\
  option_map commands (outcomes (nec_protocol (debug_build 32) MU32 NecSamsung) 40000 l') = Some [mkSamsung 0 0 true].
Proof.
  exists (bytes4 7 7 2 (compl8 2)). eexists. exists (lose_twice 2 (transmitted 1000 (samsung_pairs (bytes4 7 7 2 (compl8 2))) [(false, 22)])).
  split; [reflexivity|]. split; [apply nec_frameb_ok; vm_compute; reflexivity|]. split; [|vm_compute; reflexivity].
  split; [split|]; [apply lose_twice_misses with (f := true); vm_compute; repeat split| |];
    apply PeanoNat.Nat.ltb_lt || apply PeanoNat.Nat.leb_le; vm_compute; reflexivity.
Qed.
Print Assumptions C95_samsung_three.

(** RC5: a command, and nothing once a pulse of it is lost. *)
Example C95_example_rc5 :
  let w := 12 * 1024 + 5 * 64 + 35 in
  let l := (true, 700) :: map (fun x : edge => (fst x, 35 * snd x)) (tl (level_edges false 0 (rc5_wave w))) in
  let l' := lose 6 1 l in
  N.testbit w 13 = true /\ longer 40000 13500 8 700 /\ ended 40000 889 (rc5_edges 40000 w 700) l /\ misses_some l l' /\
  option_map commands (outcomes (rc5_protocol (debug_build 32) MU32) 40000 l) = Some [mkRc5 5 35 3 false] /\
  option_map commands (outcomes (rc5_protocol (debug_build 32) MU32) 40000 l') = Some [].
Proof.
  split; [reflexivity|]. split; [vm_compute; reflexivity|]. split; [left; apply rc5_edges_ok; vm_compute; reflexivity|].
  split; [|split; vm_compute; reflexivity].
  split; [apply lose_misses with (f := true); vm_compute; repeat split|apply PeanoNat.Nat.ltb_lt; vm_compute; reflexivity].
Qed.

(** Denon and Samsung BluRay: the same with several lost pulses. *)
Example C95_example_denon :
  let w := 2 ^ 45 + 12345678 in
  let ps := (140, 60) :: map (fun b : bool => if b then (20, 47) else (20, 13)) (bits_lsb 48 w) in
  let l := transmitted 700 ps [(false, 20)] in
  denon_frame 40000 w ps /\ longer 40000 13500 8 700 /\ misses_some l (lose 21 3 l) /\
  option_map (fun os => length (commands os)) (outcomes (denon_protocol (debug_build 32) MU32) 40000 l) = Some 1%nat /\
  option_map commands (outcomes (denon_protocol (debug_build 32) MU32) 40000 (lose 21 3 l)) = Some [].
Proof.
  split; [apply denon_frame_ok; vm_compute; reflexivity|]. split; [vm_compute; reflexivity|].
  split; [|split; vm_compute; reflexivity].
  split; [apply lose_misses with (f := true); vm_compute; repeat split|apply PeanoNat.Nat.ltb_lt; vm_compute; reflexivity].
Qed.
Example C95_example_sbp :
  let c := 2 ^ 4 * 77 + 2 ^ 12 * compl8 77 in
  let bit := fun b : bool => if b then (20, 60) else (20, 20) in
  let ps := (180, 180) :: map bit (bits_lsb 16 4660) ++ (20, 180) :: map bit (bits_lsb 20 c) in
  let l := transmitted 700 ps [(false, 20)] in
  sbp_frame 40000 4660 c ps /\ longer 40000 13500 8 700 /\ misses_some l (lose 60 1 l) /\ short (lose 60 1 l) /\
  option_map commands (outcomes (sbp_protocol (debug_build 32) MU32) 40000 l) = Some [mkSbp 4660 77 true] /\
  option_map commands (outcomes (sbp_protocol (debug_build 32) MU32) 40000 (lose 60 1 l)) = Some [].
Proof.
  split; [apply sbp_frame_ok; vm_compute; reflexivity|]. split; [vm_compute; reflexivity|].
  split; [|split; [apply shortb_ok; vm_compute; reflexivity|split; vm_compute; reflexivity]].
  split; [apply lose_misses with (f := true); vm_compute; repeat split|apply PeanoNat.Nat.ltb_lt; vm_compute; reflexivity].
Qed.
