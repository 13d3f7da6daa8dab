(** * Property theorems: series of transmissions *)
From Coq Require Import NArith ZArith List Bool Lia ZifyBool ZifyNat ZifyN.
From Verif Require Import Machine Time Decoder Nec Rc5 Rc6 Denon Sbp Receiver Spec Bits Codec_facts Time_facts Run_facts Nec_facts
  Denon_facts Spec_receiver Spec_sound Sound_facts Biphase_facts Spec_cross Cross_facts Traffic_facts Props_decode
  Props_receiver Props_cross Example_facts.
Import ListNotations.
Open Scope N_scope.

(** ** C67: on a mixed series of transmissions a receiver reports exactly those of its
    protocol, in order, whatever came before

    [hist] is any history, [on_air l] the edges of the series [l].  NEC with 8-bit and
    with 16-bit addresses are the same signal; each receiver reads the other's frames
    in its own way (C30). *)

Lemma nec_series b m freq V C (into : nv_cmd V -> C) hist l r0 r os :
  timebase m freq -> 20000 <= freq -> freq < 2 ^ 32 -> nv_timing V = NEC_STANDARD_TIMING ->
  traffic freq l -> short (hist ++ on_air l) ->
  receiver_new (nec_protocol b m V) freq = Val r0 ->
  run_edges (D := nec_dec b m V) into r0 (hist ++ on_air l) = Val (r, os) ->
  commands (skipn (length hist) os) =
  flat_map (fun x => match nec_word (fst (fst x)) with
                     | Some w => match nv_unpack V w false with Some c => [into c] | None => [] end
                     | None => []
                     end) l.
Proof.
  intros Hm Hlo Hf HT Ht Hs E0 E.
  refine (series_ended (D := nec_dec b m V) into short freq
    (fun t => match nec_word t with
              | Some w => match nv_unpack V w false with Some c => [into c] | None => [] end
              | None => []
              end) r0 short_prefix _ _ hist l r os Ht Hs E); clear hist l r os Ht Hs E.
  2:{ intros h t gap body d r1 os1 r x _ _ _ Hs _. apply (nec_end b m freq V); auto. apply short_fits, Hs. }
  intros h t gap evs r os Hsent Hg Hs E.
  destruct (nec_word t) as [w|] eqn:Ew.
  - destruct (sent_nec_word _ _ _ _ Hsent Ew) as (Hw & ps & -> & Hfr).
    destruct (nec_decode b m freq V Hm Hf (or_introl HT) into ltac:(lia) w h gap ps) as (r0' & os' & o & pv & E0' & E' & L & Ho);
      auto; try (rewrite HT; assumption).
    { rewrite HT. apply longer_weaken; auto; vm_compute; discriminate. }
    rewrite E0 in E0'. injection E0' as <-. pose proof (eq_trans (eq_sym E) E') as K. injection K as _ ->.
    etransitivity; [apply (heard_last os' o 65 (option_map into (nv_unpack V w false)) (length h) L)|].
    + intros x. destruct Ho as [-> | ->]; discriminate.
    + destruct (nv_unpack V w false); reflexivity.
  - apply sent_class in Hsent.
    apply (nec_ignores b m freq V C into h gap evs r0 r os Hm Hlo Hf HT Hg (short_fits _ Hs)); auto.
    destruct t; try discriminate Ew; auto 6.
Qed.

Definition heard_nec (t : transmission) : list nec_command :=
  match t with
  | TNec a c => [mkNec a c false]
  | TNec16 a c => [mkNec (a mod 2 ^ 8) c false]
  | TRaw w => [mkNec (field w 0 8) (field w 16 8) false]
  | _ => []
  end.

Lemma nec_said freq t body w : sent freq t body -> nec_word t = Some w ->
  heard_nec t = match nv_unpack NecStandard w false with Some c => [c] | None => [] end.
Proof.
  intros Hsent Ew. destruct t; try discriminate Ew; cbn [nec_word] in Ew; cbn [heard_nec nv_unpack NecStandard];
    assert (w = _) by (symmetry; apply (f_equal (fun o => match o with Some x => x | None => 0 end)) in Ew; exact Ew); subst w; clear Ew;
    cbn [sent] in Hsent; [destruct Hsent as (Ha & Hc & _)|destruct Hsent as (Ha & Hc & _)|destruct Hsent as (Hw & _)]; change (2 ^ 8) with 256 in *; change (2 ^ 16) with 65536 in *.
  - rewrite nec_unpack_layout by auto. reflexivity.
  - pose proof (compl8_lt command) as Hc'. pose proof (N.mod_lt address 256 ltac:(discriminate)) as H1.
    assert (H2 : address / 256 < 256) by (apply N.div_lt_upper_bound; [discriminate|exact Ha]).
    rewrite nec_unpack_word by (apply bytes4_lt; auto). 
    destruct (bytes4_fields (address mod 256) (address / 256) command (compl8 command)) as (F0 & _ & F2 & _); auto.
    rewrite F0, F2. reflexivity.
  - rewrite nec_unpack_word by exact Hw. reflexivity.
Qed.

Lemma series_said {C D} freq (f : N -> option D) (heard : transmission -> list D) (into : D -> C) l : traffic freq l ->
  (forall t, nec_word t = None -> heard t = []) ->
  (forall t body w, sent freq t body -> nec_word t = Some w -> heard t = match f w with Some c => [c] | None => [] end) ->
  flat_map (fun x : transmission * N * list edge => match nec_word (fst (fst x)) with
                     | Some w => match f w with Some c => [into c] | None => [] end
                     | None => []
                     end) l = map into (flat_map (fun x => heard (fst (fst x))) l).
Proof.
  intros Ht Hno Hyes. rewrite map_flat_map. apply traffic_sent in Ht.
  induction Ht as [|[[t gap] evs] l [body Hsent] Ht IH]; cbn [flat_map fst snd] in *; [reflexivity|].
  rewrite IH. f_equal. destruct (nec_word t) as [w|] eqn:Ew.
  - rewrite (Hyes t body w Hsent Ew). destruct (f w); reflexivity.
  - rewrite (Hno t Ew). reflexivity.
Qed.

Theorem C67_nec :
  forall b m freq C (into : nec_command -> C) hist l r0 r os,
  timebase m freq -> 20000 <= freq -> freq < 2 ^ 32 ->
  traffic freq l -> short (hist ++ on_air l) ->
  receiver_new (nec_protocol b m NecStandard) freq = Val r0 ->
  run_edges (D := nec_dec b m NecStandard) into r0 (hist ++ on_air l) = Val (r, os) ->
  commands (skipn (length hist) os) = map into (flat_map (fun x => heard_nec (fst (fst x))) l).
Proof.
  intros b m freq C into hist l r0 r os Hm Hlo Hf Ht Hs E0 E.
  rewrite (nec_series b m freq NecStandard C into hist l r0 r os Hm Hlo Hf eq_refl Ht Hs E0 E).
  apply (series_said freq (fun w => nv_unpack NecStandard w false) heard_nec into l Ht); [|exact (nec_said freq)].
  intros t Ht0. destruct t; try discriminate Ht0; reflexivity.
Qed.
Print Assumptions C67_nec.

Definition heard_nec16 (t : transmission) : list nec16_command :=
  match t with
  | TNec a c => [mkNec16 (a + 2 ^ 8 * compl8 a) c false]
  | TNec16 a c => [mkNec16 a c false]
  | TRaw w => [mkNec16 (field w 0 16) (field w 16 8) false]
  | _ => []
  end.

Lemma nec16_said freq t body w : sent freq t body -> nec_word t = Some w ->
  heard_nec16 t = match nv_unpack Nec16Bit w false with Some c => [c] | None => [] end.
Proof.
  intros Hsent Ew. destruct t; try discriminate Ew; cbn [nec_word] in Ew; cbn [heard_nec16 nv_unpack Nec16Bit];
    assert (w = _) by (symmetry; apply (f_equal (fun o => match o with Some x => x | None => 0 end)) in Ew; exact Ew); subst w; clear Ew;
    cbn [sent] in Hsent; [destruct Hsent as (Ha & Hc & _)|destruct Hsent as (Ha & Hc & _)|destruct Hsent as (Hw & _)]; change (2 ^ 8) with 256 in *; change (2 ^ 16) with 65536 in *.
  - pose proof (compl8_lt command) as Hc'. pose proof (compl8_lt address) as Ha'.
    rewrite nec16_unpack_word by (apply bytes4_lt; auto).
    destruct (bytes4_fields address (compl8 address) command (compl8 command)) as (_ & _ & F2 & _); auto.
    rewrite F2. do 3 f_equal. unfold bytes4, field. change (2 ^ 0) with 1. change (2 ^ 8) with 256. change (2 ^ 16) with 65536.
    change (2 ^ 24) with 16777216. rewrite N.div_1_r.
    set (z := compl8 command) in *. set (y := compl8 address) in *. clearbody y z. clear -Ha Ha'.
    replace (address + 256 * y + 65536 * command + 16777216 * z) with (address + 256 * y + (command + 256 * z) * 65536) by lia.
    rewrite N.mod_add by discriminate. rewrite (N.mod_small (address + 256 * y)) by lia. reflexivity.
  - rewrite nec16_unpack_layout by auto. reflexivity.
  - rewrite nec16_unpack_word by exact Hw. reflexivity.
Qed.

Theorem C67_nec16 :
  forall b m freq C (into : nec16_command -> C) hist l r0 r os,
  timebase m freq -> 20000 <= freq -> freq < 2 ^ 32 ->
  traffic freq l -> short (hist ++ on_air l) ->
  receiver_new (nec_protocol b m Nec16Bit) freq = Val r0 ->
  run_edges (D := nec_dec b m Nec16Bit) into r0 (hist ++ on_air l) = Val (r, os) ->
  commands (skipn (length hist) os) = map into (flat_map (fun x => heard_nec16 (fst (fst x))) l).
Proof.
  intros b m freq C into hist l r0 r os Hm Hlo Hf Ht Hs E0 E.
  rewrite (nec_series b m freq Nec16Bit C into hist l r0 r os Hm Hlo Hf eq_refl Ht Hs E0 E).
  apply (series_said freq (fun w => nv_unpack Nec16Bit w false) heard_nec16 into l Ht); [|exact (nec16_said freq)].
  intros t Ht0. destruct t; try discriminate Ht0; reflexivity.
Qed.
Print Assumptions C67_nec16.

Definition heard_raw (t : transmission) : list nec_debug_cmd :=
  match nec_word t with Some w => [mkNecDebug w] | None => [] end.

Theorem C67_raw :
  forall b m freq C (into : nec_debug_cmd -> C) hist l r0 r os,
  timebase m freq -> 20000 <= freq -> freq < 2 ^ 32 ->
  traffic freq l -> short (hist ++ on_air l) ->
  receiver_new (nec_protocol b m NecRaw) freq = Val r0 ->
  run_edges (D := nec_dec b m NecRaw) into r0 (hist ++ on_air l) = Val (r, os) ->
  commands (skipn (length hist) os) = map into (flat_map (fun x => heard_raw (fst (fst x))) l).
Proof.
  intros b m freq C into hist l r0 r os Hm Hlo Hf Ht Hs E0 E.
  rewrite (nec_series b m freq NecRaw C into hist l r0 r os Hm Hlo Hf eq_refl Ht Hs E0 E), map_flat_map.
  apply flat_map_ext. intros x. unfold heard_raw. destruct (nec_word _); reflexivity.
Qed.
Print Assumptions C67_raw.

(** Of the transmissions in NEC's timing an Apple receiver reports those with Apple's
    vendor code and odd parity. *)
Definition heard_apple (t : transmission) : list apple_command :=
  match nec_word t with
  | Some w => if (field w 5 11 =? 1087) && Nat.odd (ones (bits_lsb 32 w))
              then [mkApple (field w 0 5) (field w 17 7) (field w 24 8) false] else []
  | None => []
  end.

Lemma apple_said freq t body w : sent freq t body -> nec_word t = Some w ->
  heard_apple t = match nv_unpack NecApple w false with Some c => [c] | None => [] end.
Proof.
  intros Hsent Ew. destruct (sent_nec_word _ _ _ _ Hsent Ew) as (Hw & _). unfold heard_apple. rewrite Ew. cbn [nv_unpack NecApple].
  destruct (apple_unpack w false) as [c|] eqn:Ec.
  - apply apple_unpack_char in Ec; [|exact Hw]. destruct Ec as (H1 & H2 & ->). rewrite H1, H2. reflexivity.
  - destruct ((field w 5 11 =? 1087) && Nat.odd (ones (bits_lsb 32 w))) eqn:K; [|reflexivity].
    apply andb_true_iff in K. destruct K as [K1 K2]. apply N.eqb_eq in K1.
    assert (Q : apple_unpack w false = Some (mkApple (field w 0 5) (field w 17 7) (field w 24 8) false)) by (apply apple_unpack_char; auto).
    rewrite Q in Ec. discriminate.
Qed.

Theorem C67_apple :
  forall b m freq C (into : apple_command -> C) hist l r0 r os,
  timebase m freq -> 20000 <= freq -> freq < 2 ^ 32 ->
  traffic freq l -> short (hist ++ on_air l) ->
  receiver_new (nec_protocol b m NecApple) freq = Val r0 ->
  run_edges (D := nec_dec b m NecApple) into r0 (hist ++ on_air l) = Val (r, os) ->
  commands (skipn (length hist) os) = map into (flat_map (fun x => heard_apple (fst (fst x))) l).
Proof.
  intros b m freq C into hist l r0 r os Hm Hlo Hf Ht Hs E0 E.
  rewrite (nec_series b m freq NecApple C into hist l r0 r os Hm Hlo Hf eq_refl Ht Hs E0 E).
  apply (series_said freq (fun w => nv_unpack NecApple w false) heard_apple into l Ht); [|exact (apple_said freq)].
  intros t Ht0. destruct t; try discriminate Ht0; reflexivity.
Qed.
Print Assumptions C67_apple.

Definition heard_samsung (t : transmission) : list samsung_command :=
  match t with TSamsung a c => [mkSamsung a c false] | _ => [] end.

Theorem C67_samsung :
  forall b m freq C (into : samsung_command -> C) hist l r0 r os,
  timebase m freq -> 20000 <= freq -> freq < 2 ^ 32 ->
  traffic freq l -> short (hist ++ on_air l) ->
  receiver_new (nec_protocol b m NecSamsung) freq = Val r0 ->
  run_edges (D := nec_dec b m NecSamsung) into r0 (hist ++ on_air l) = Val (r, os) ->
  commands (skipn (length hist) os) = map into (flat_map (fun x => heard_samsung (fst (fst x))) l).
Proof.
  intros b m freq C into hist l r0 r os Hm Hlo Hf Ht Hs E0 E. rewrite map_flat_map.
  refine (series_ended (D := nec_dec b m NecSamsung) into short freq (fun t => map into (heard_samsung t)) r0 short_prefix _ _ hist l r os Ht Hs E);
    clear hist l r os Ht Hs E.
  2:{ intros h t gap body d r1 os1 r x _ _ _ Hs _. apply (nec_end b m freq NecSamsung); auto. apply short_fits, Hs. }
  intros h t gap evs r os Hsent Hg Hs E.
  destruct (heard_samsung t) as [|c0 l0] eqn:Eh.
  - apply sent_class in Hsent.
    apply (samsung_ignores b m freq C into h gap evs r0 r os Hm Hlo Hf Hg (short_fits _ Hs)); auto.
    destruct t; try discriminate Eh; auto 6.
  - destruct t; try discriminate Eh. injection Eh as <- <-. destruct Hsent as (Ha & Hc & ps & -> & Hfr & _).
    destruct (C19_samsung_frame b m freq address command h gap ps C into) as (r0' & r' & os' & o & E0' & E' & L & Ho); auto; try lia.
    { apply longer_weaken; auto; vm_compute; discriminate. }
    rewrite E0 in E0'. injection E0' as <-. pose proof (eq_trans (eq_sym E) E') as K. injection K as _ ->.
    apply (heard_own os' o 65 _ (length h) L). intros x. destruct Ho as [-> | ->]; discriminate.
Qed.
Print Assumptions C67_samsung.

Definition heard_sbp (t : transmission) : list sbp_command :=
  match t with TSbp a c => [mkSbp a (field c 4 8) (field c 12 8 =? compl8 (field c 4 8))] | _ => [] end.

Theorem C67_sbp :
  forall b m freq C (into : sbp_command -> C) hist l r0 r os,
  timebase m freq -> 20000 <= freq -> freq < 2 ^ 32 ->
  traffic freq l -> short (hist ++ on_air l) ->
  receiver_new (sbp_protocol b m) freq = Val r0 ->
  run_edges (D := sbp_dec b m) into r0 (hist ++ on_air l) = Val (r, os) ->
  commands (skipn (length hist) os) = map into (flat_map (fun x => heard_sbp (fst (fst x))) l).
Proof.
  intros b m freq C into hist l r0 r os Hm Hlo Hf Ht Hs E0 E. rewrite map_flat_map.
  refine (series_ended (D := sbp_dec b m) into short freq (fun t => map into (heard_sbp t)) r0 short_prefix _ _ hist l r os Ht Hs E);
    clear hist l r os Ht Hs E.
  2:{ intros h t gap body d r1 os1 r x _ _ _ Hs _. apply (sbp_end b m freq); auto. }
  intros h t gap evs r os Hsent Hg Hs E.
  destruct (heard_sbp t) as [|c0 l0] eqn:Eh.
  - apply sent_class in Hsent.
    apply (sbp_ignores b m freq C into h gap evs r0 r os Hm Hlo Hf Hg Hs); auto.
    destruct t; try discriminate Eh; auto 7.
  - destruct t; try discriminate Eh. injection Eh as <- <-. destruct Hsent as (Ha & Hc & ps & -> & Hfr & _).
    destruct (C20_sbp_frame b m freq address command h gap ps C into) as (r0' & r' & os' & o & E0' & E' & L & Ho); auto; try lia.
    { apply longer_weaken; auto; vm_compute; discriminate. }
    rewrite E0 in E0'. injection E0' as <-. pose proof (eq_trans (eq_sym E) E') as K. injection K as _ ->.
    apply (heard_own os' o 75 _ (length h) L). intros x. destruct Ho as [-> |[-> | ->]]; discriminate.
Qed.
Print Assumptions C67_sbp.

Definition heard_rc5 (t : transmission) : list rc5_command :=
  match t with TRc5 w => [mkRc5 (field w 6 5) (field w 0 6) (field w 12 2) (negb (field w 11 1 =? 0))] | _ => [] end.

Lemma heard_end {C E} (os : list (result (option C) E)) n c h :
  length os = h -> commands (skipn h (os ++ repeat (ROk None) n ++ [ROk (Some c)])) = [c].
Proof.
  intros <-. rewrite skipn_app, skipn_all, Nat.sub_diag. cbn [app skipn]. rewrite commands_app, commands_none. reflexivity.
Qed.

Lemma rc5_edges_gap freq w g g' evs : rc5_edges freq w g ((true, g) :: evs) -> rc5_edges freq w g' ((true, g') :: evs).
Proof. intros (n & noms & acts & E1 & E2 & F). injection E2 as <-. exists n, noms, evs. auto. Qed.
Lemma rc6_edges_gap freq ld tg w g g' evs : rc6_edges freq ld tg w g ((true, g) :: evs) -> rc6_edges freq ld tg w g' ((true, g') :: evs).
Proof. intros (n & noms & lead & acts & E1 & E2 & Hl & F). injection E2 as ->. exists n, noms, lead, acts. auto. Qed.

Lemma run_prefix {D : decoder} {C : Type} (into : dcmd D -> C) r0 h1 h2 r os :
  @run_edges D C into r0 (h1 ++ h2) = Val (r, os) -> exists r1 os1, @run_edges D C into r0 h1 = Val (r1, os1).
Proof.
  intros E. rewrite run_edges_app in E. destruct (@run_edges D C into r0 h1) as [[r1 os1]| |]; cbn [bind] in E; try discriminate. eauto.
Qed.

Lemma rc5_own b m freq C (into : rc5_command -> C) h gap evs word r0 r os :
  timebase m freq -> 20000 <= freq -> freq < 2 ^ 32 -> 8 <= usize_bits b -> longer freq 13500 8 gap ->
  sent freq (TRc5 word) evs -> receiver_new (rc5_protocol b m) freq = Val r0 ->
  run_edges (D := rc5_dec b) into r0 (h ++ (true, gap) :: evs) = Val (r, os) ->
  exists os', os = os' ++ repeat (ROk None) (length evs) ++
    [ROk (Some (into (mkRc5 (field word 6 5) (field word 0 6) (field word 12 2) (negb (field word 11 1 =? 0)))))] /\ length os' = length h.
Proof.
  intros Hm Hlo Hf Hu Hg (Hw & H13 & g & He) E0 E.
  apply (rc5_edges_gap _ _ _ gap) in He.
  destruct (run_prefix (D := rc5_dec b) into _ _ _ _ _ E) as (r1 & os1 & E1).
  destruct (C21_rc5_frame b m freq word h gap ((true, gap) :: evs) C into r0 r1 os1) as (r' & E'); auto; try lia.
  { apply longer_weaken2; auto; try lia. }
  pose proof (eq_trans (eq_sym E) E') as K. injection K as _ ->. exists os1.
  rewrite Nat.sub_0_r. split; [reflexivity|].
  apply (run_edges_length (D := rc5_dec b) into h r0 r1 os1 E1).
Qed.

Lemma rc5_own_end b m freq C (into : rc5_command -> C) h gap evs word d r0 r1 os1 r x :
  timebase m freq -> 20000 <= freq -> freq < 2 ^ 32 -> 8 <= usize_bits b -> longer freq 13500 8 gap ->
  sent freq (TRc5 word) evs -> receiver_new (rc5_protocol b m) freq = Val r0 ->
  run_edges (D := rc5_dec b) into r0 (h ++ (true, gap) :: evs) = Val (r1, os1) ->
  run_edges (D := rc5_dec b) into r0 ((h ++ (true, gap) :: evs) ++ [(false, d)]) = Val (r, os1 ++ [ROk (Some x)]) -> False.
Proof.
  intros Hm Hlo Hf Hu Hg Hs E0 E1 E.
  destruct (rc5_own b m freq C into h gap evs word r0 r1 os1 Hm Hlo Hf Hu Hg Hs E0 E1) as (os' & -> & _).
  rewrite app_assoc in E1, E. destruct (exists_last (l := (true, gap) :: evs)) as (k & [e d0] & Ek); [discriminate|].
  rewrite Ek, app_assoc in E1, E. exact (rc5_end_own b C into r0 _ e d0 d r1 _ _ r x E1 E).
Qed.

Theorem C67_rc5 :
  forall b m freq C (into : rc5_command -> C) hist l r0 r os,
  timebase m freq -> 20000 <= freq -> freq < 2 ^ 32 -> 8 <= usize_bits b ->
  traffic freq l ->
  receiver_new (rc5_protocol b m) freq = Val r0 ->
  run_edges (D := rc5_dec b) into r0 (hist ++ on_air l) = Val (r, os) ->
  commands (skipn (length hist) os) = map into (flat_map (fun x => heard_rc5 (fst (fst x))) l).
Proof.
  intros b m freq C into hist l r0 r os Hm Hlo Hf Hu Ht E0 E. rewrite map_flat_map.
  refine (series_ended (D := rc5_dec b) into (fun _ => True) freq (fun t => map into (heard_rc5 t)) r0 (fun _ _ _ => I) _ _ hist l r os Ht I E);
    clear hist l r os Ht  E.
  2:{ intros h t gap body d r1 os1 r x Hsent Hg Hd _ E1 E. destruct (heard_rc5 t) eqn:Eh.
      - revert E. eapply (rc5_end b m freq); eauto. intros n. apply (rc5_interval_among freq [(end_mark t, 12)]); auto.
        + destruct t; try discriminate Eh; reflexivity.
        + destruct t; try discriminate Eh; reflexivity.
        + destruct t; try discriminate Eh; reflexivity.
        + exists (end_mark t), 12. cbn; auto.
      - destruct t; try discriminate Eh. exact (rc5_own_end b m freq C into h gap body word d r0 r1 os1 r x Hm Hlo Hf Hu Hg Hsent E0 E1 E). }
  intros h t gap evs r os Hsent Hg _ E.
  destruct (heard_rc5 t) as [|c0 l0] eqn:Eh.
  - apply sent_class in Hsent.
    apply (rc5_ignores b m freq C into h gap evs r0 r os Hm Hlo Hf Hu Hg); auto.
    destruct t; try discriminate Eh; auto 7.
  - destruct t; try discriminate Eh. injection Eh as <- <-.
    destruct (rc5_own b m freq C into h gap evs word r0 r os Hm Hlo Hf Hu Hg Hsent E0 E) as (os' & -> & L). apply heard_end, L.
Qed.
Print Assumptions C67_rc5.

Definition heard_rc6 (t : transmission) : list rc6_command :=
  match t with TRc6 a c tg => [mkRc6 a c tg] | _ => [] end.

Lemma rc6_own b m freq C (into : rc6_command -> C) h gap evs a c tg r0 r os :
  timebase m freq -> 20000 <= freq -> freq < 2 ^ 32 -> 8 <= usize_bits b -> longer freq 13500 8 gap ->
  sent freq (TRc6 a c tg) evs -> receiver_new (rc6_protocol b m) freq = Val r0 ->
  run_edges (D := rc6_dec b) into r0 (h ++ (true, gap) :: evs) = Val (r, os) ->
  exists os', os = os' ++ repeat (ROk None) (length evs) ++ [ROk (Some (into (mkRc6 a c tg)))] /\ length os' = length h.
Proof.
  intros Hm Hlo Hf Hu Hg (Ha & Hc & g & He) E0 E.
  apply (rc6_edges_gap _ _ _ _ _ gap) in He.
  destruct (run_prefix (D := rc6_dec b) into _ _ _ _ _ E) as (r1 & os1 & E1).
  destruct (C22_rc6_frame_partial b m freq a c tg h gap ((true, gap) :: evs) C into r0 r1 os1) as (r' & E'); auto; try lia.
  { apply longer_weaken2; auto; try lia. }
  pose proof (eq_trans (eq_sym E) E') as K. injection K as _ ->. exists os1.
  rewrite Nat.sub_0_r. split; [reflexivity|].
  apply (run_edges_length (D := rc6_dec b) into h r0 r1 os1 E1).
Qed.

Lemma rc6_own_end b m freq C (into : rc6_command -> C) h gap evs a c tg d r0 r1 os1 r x :
  timebase m freq -> 20000 <= freq -> freq < 2 ^ 32 -> 8 <= usize_bits b -> longer freq 13500 8 gap ->
  sent freq (TRc6 a c tg) evs -> receiver_new (rc6_protocol b m) freq = Val r0 ->
  run_edges (D := rc6_dec b) into r0 (h ++ (true, gap) :: evs) = Val (r1, os1) ->
  run_edges (D := rc6_dec b) into r0 ((h ++ (true, gap) :: evs) ++ [(false, d)]) = Val (r, os1 ++ [ROk (Some x)]) -> False.
Proof.
  intros Hm Hlo Hf Hu Hg Hs E0 E1 E.
  destruct (rc6_own b m freq C into h gap evs a c tg r0 r1 os1 Hm Hlo Hf Hu Hg Hs E0 E1) as (os' & -> & _).
  rewrite app_assoc in E1, E. destruct (exists_last (l := (true, gap) :: evs)) as (k & [e d0] & Ek); [discriminate|].
  rewrite Ek, app_assoc in E1, E. exact (rc6_end_own b C into r0 _ e d0 d r1 _ _ r x E1 E).
Qed.

Theorem C67_rc6 :
  forall b m freq C (into : rc6_command -> C) hist l r0 r os,
  timebase m freq -> 20000 <= freq -> freq < 2 ^ 32 -> 8 <= usize_bits b ->
  traffic freq l ->
  receiver_new (rc6_protocol b m) freq = Val r0 ->
  run_edges (D := rc6_dec b) into r0 (hist ++ on_air l) = Val (r, os) ->
  commands (skipn (length hist) os) = map into (flat_map (fun x => heard_rc6 (fst (fst x))) l).
Proof.
  intros b m freq C into hist l r0 r os Hm Hlo Hf Hu Ht E0 E. rewrite map_flat_map.
  refine (series_ended (D := rc6_dec b) into (fun _ => True) freq (fun t => map into (heard_rc6 t)) r0 (fun _ _ _ => I) _ _ hist l r os Ht I E);
    clear hist l r os Ht  E.
  2:{ intros h t gap body d r1 os1 r x Hsent Hg Hd _ E1 E. destruct (heard_rc6 t) eqn:Eh.
      - assert (K : commands (skipn (length h) (os1 ++ [ROk (Some x)])) = []).
        { apply sent_class in Hsent. 
          rewrite <- app_assoc in E. cbn [app] in E.
          refine (rc6_ignores b m freq C into h gap (body ++ [(false, d)]) r0 r _ (end_mark t) Hm Hlo Hf Hu Hg _ _ E0 E).
          - destruct t; try discriminate Eh; reflexivity.
          - right. exists body, d. split; [reflexivity|]. split; [|exact Hd]. destruct t; try discriminate Eh; tauto. }
        pose proof (run_edges_length (D := rc6_dec b) into _ r0 r1 os1 E1) as L. rewrite app_length in L.
        rewrite skipn_app in K. unfold edge, outcome in *. replace (length h - length os1)%nat with 0%nat in K by lia.
        rewrite commands_app in K. apply app_eq_nil in K. destruct K as [_ K]. discriminate.
      - destruct t; try discriminate Eh. exact (rc6_own_end b m freq C into h gap body address command toggle d r0 r1 os1 r x Hm Hlo Hf Hu Hg Hsent E0 E1 E). }
  intros h t gap evs r os Hsent Hg _ E.
  destruct (heard_rc6 t) as [|c0 l0] eqn:Eh.
  - apply sent_class in Hsent.
    apply (rc6_ignores b m freq C into h gap evs r0 r os 560 Hm Hlo Hf Hu Hg); auto.
    left. destruct t; try discriminate Eh; tauto.
  - destruct t; try discriminate Eh. injection Eh as <- <-.
    destruct (rc6_own b m freq C into h gap evs address command toggle r0 r os Hm Hlo Hf Hu Hg Hsent E0 E) as (os' & -> & L). apply heard_end, L.
Qed.
Print Assumptions C67_rc6.

(** Denon: refuted.  The bits of a Samsung BluRay frame, if short, are stored and mixed into
    the next Denon command. *)
Definition c67_sbp : list (N * N) :=
  (180, 180) :: map (fun x : bool => if x then (20, 60) else (20, 20)) (bits_lsb 16 4660) ++
  (20, 180) :: map (fun x : bool => if x then (20, 53) else (20, 20)) (bits_lsb 20 1).
Definition c67_denon : list (N * N) :=
  (136, 64) :: map (fun x : bool => if x then (19, 48) else (19, 14)) (bits_lsb 48 8).
Lemma with_end freq t body d : sent freq t body -> nearb freq (end_mark t) 12 d = true ->
  ended freq (end_mark t) (sent freq t) (body ++ [(false, d)]).
Proof. intros H Hd. right. exists body, d. split; [reflexivity|]. split; [exact H|apply nearb_ok, Hd]. Qed.

Theorem C67_denon_refuted :
  exists l, traffic 40000 l /\ map (fun x => fst (fst x)) l = [TSbp 4660 1; TDenon 8] /\ short (on_air l) /\
    outcome_at (denon_protocol (debug_build 32) MU32) 40000 (on_air l) (length (on_air l) - 2) = Some (ROk (Some (mkDenon 9))).
Proof.
  exists [(TSbp 4660 1, 700, pair_edges c67_sbp ++ [(false, 20)]); (TDenon 8, 700, pair_edges c67_denon ++ [(false, 19)])].
  assert (M : forall lead bit ps h ds, ps = h :: ds -> nearb 40000 lead 8 (fst h) = true ->
            forallb (fun x => nearb 40000 bit 12 (fst x)) ds = true -> marks_near 40000 lead bit ps).
  { intros lead bit ps h ds -> H1 H2. exists h, ds. split; [reflexivity|]. split; [apply nearb_ok, H1|].
    apply Forall_forall. intros x Hx. rewrite forallb_forall in H2. apply nearb_ok, H2, Hx. }
  split; [|split; [reflexivity|split; [apply shortb_ok; vm_compute; reflexivity|vm_compute; reflexivity]]].
  constructor; [|constructor; [|constructor]]; cbn [fst snd].
  - split; [apply with_end; [|vm_compute; reflexivity]|vm_compute; reflexivity]. split; [reflexivity|]. split; [reflexivity|]. exists c67_sbp. split; [reflexivity|].
    split; [apply sbp_frame_ok; vm_compute; reflexivity|eapply M; [reflexivity| |]; vm_compute; reflexivity].
  - split; [apply with_end; [|vm_compute; reflexivity]|vm_compute; reflexivity]. split; [reflexivity|]. exists c67_denon. split; [reflexivity|].
    split; [apply denon_frame_ok; vm_compute; reflexivity|eapply M; [reflexivity| |]; vm_compute; reflexivity].
Qed.
Print Assumptions C67_denon_refuted.

(** What holds: without Samsung BluRay frames, and after a history in which nothing
    looked like the start of a frame, a Denon receiver reports the Denon frames in order
    (each without its last bit, C23).  Missing for the full property: Samsung BluRay
    frames in the series, other histories, and the last bit. *)
Definition heard_denon (t : transmission) : list denon_command :=
  match t with TDenon w => [mkDenon (w mod 2 ^ 47)] | _ => [] end.

Theorem C67_denon_partial :
  forall b m freq C (into : denon_command -> C) hist l r0 r os,
  timebase m freq -> 20000 <= freq -> freq < 2 ^ 32 ->
  traffic freq l -> (forall x a c, In x l -> fst (fst x) <> TSbp a c) ->
  (forall d, In d (periods hist) -> ~ near freq 5000 9 d) ->
  short (hist ++ on_air l) ->
  receiver_new (denon_protocol b m) freq = Val r0 ->
  run_edges (D := denon_dec b m) into r0 (hist ++ on_air l) = Val (r, os) ->
  commands (skipn (length hist) os) = map into (flat_map (fun x => heard_denon (fst (fst x))) l).
Proof.
  intros b m freq C into hist l r0 r os Hm Hlo Hf Ht Hno Hq Hs E0 E. rewrite map_flat_map.
  rewrite (denon_new_val b m freq Hm Hf) in E0. injection E0 as <-.
  unfold short in Hs. apply Forall_app in Hs. destruct Hs as [Sh Sl].
  destruct (denon_quiet b m freq Hm Hf into hist 0 0) as (sv & pv & os1 & E1 & Hsv & _); auto; [reflexivity|].
  destruct (denon_series b m freq Hm Hf Hlo into l sv pv Hsv Ht) as (sv' & pv' & os2 & E2 & _ & C2); auto.
  { apply Forall_forall. intros [[t g] e] Hi. destruct t; try reflexivity. exfalso. exact (Hno _ address command Hi eq_refl). }
  pose proof (run_edges_app_val _ _ _ _ _ _ _ _ E1 E2) as E'. pose proof (eq_trans (eq_sym E) E') as K. injection K as _ ->.
  pose proof (run_edges_length _ _ _ _ _ E1) as L1. unfold edge in *.
  rewrite <- L1, skipn_app, skipn_all, Nat.sub_diag. cbn [app skipn]. etransitivity; [exact C2|].
  clear. induction l as [|[[t g] e] l IH]; cbn [flat_map fst]; [reflexivity|]. rewrite IH. f_equal. destruct t; reflexivity.
Qed.
Print Assumptions C67_denon_partial.

(** In a multi receiver every component hears its own transmissions and no others. *)
Inductive hears (freq : N) : any_protocol_ -> (transmission -> list any_command) -> Prop :=
| hears_nec b m into : timebase m freq -> hears freq (mkAnyP (nec_protocol b m NecStandard) into) (fun t => map into (heard_nec t))
| hears_nec16 b m into : timebase m freq -> hears freq (mkAnyP (nec_protocol b m Nec16Bit) into) (fun t => map into (heard_nec16 t))
| hears_raw b m into : timebase m freq -> hears freq (mkAnyP (nec_protocol b m NecRaw) into) (fun t => map into (heard_raw t))
| hears_apple b m into : timebase m freq -> hears freq (mkAnyP (nec_protocol b m NecApple) into) (fun t => map into (heard_apple t))
| hears_samsung b m into : timebase m freq -> hears freq (mkAnyP (nec_protocol b m NecSamsung) into) (fun t => map into (heard_samsung t))
| hears_sbp b m into : timebase m freq -> hears freq (mkAnyP (sbp_protocol b m) into) (fun t => map into (heard_sbp t))
| hears_rc5 b m into : timebase m freq -> 8 <= usize_bits b -> hears freq (mkAnyP (rc5_protocol b m) into) (fun t => map into (heard_rc5 t))
| hears_rc6 b m into : timebase m freq -> 8 <= usize_bits b -> hears freq (mkAnyP (rc6_protocol b m) into) (fun t => map into (heard_rc6 t)).

(** The commands in position [k] of the rows. *)
Definition column (k : nat) (rows : list (list (option any_command))) : list any_command :=
  flat_map (fun row => match nth_error row k with Some (Some c) => [c] | _ => [] end) rows.

Lemma column_commands {C E} k (f : C -> any_command) : forall (R : list (list (option any_command))) (O : list (result (option C) E)),
  map (fun row => nth_error row k) R =
  map (fun o => Some (match o with ROk (Some c) => Some (f c) | _ => None end)) O ->
  column k R = map f (commands O).
Proof.
  induction R as [|row R IH]; intros [|o O] H; cbn [map] in H; try discriminate H; [reflexivity|].
  injection H as H1 H2. unfold column, commands. cbn [flat_map]. rewrite H1, map_app.
  fold (column k R). rewrite (IH O H2). destruct o as [[c|]|]; reflexivity.
Qed.

Theorem C67_multi :
  forall ps freq ss ss' hist l rows k p heard,
  20000 <= freq -> freq < 2 ^ 32 ->
  traffic freq l -> short (hist ++ on_air l) ->
  multi_make ps freq = Val ss -> run_multi ss (hist ++ on_air l) = Val (ss', rows) ->
  nth_error ps k = Some p -> hears freq p heard ->
  column k (skipn (length hist) rows) = flat_map (fun x => heard (fst (fst x))) l.
Proof.
  intros ps freq ss ss' hist l rows k p heard Hlo Hf Ht Hs Em Er Hk Hh.
  destruct (C49_multi_independent ps freq ss ss' (hist ++ on_air l) rows Em Er) as (_ & H).
  destruct (H k p Hk) as (r0 & r & os & E0 & E & Er'). clear H.
  assert (Ec : column k (skipn (length hist) rows) = map (ap_into p) (commands (skipn (length hist) os))).
  { apply (f_equal (skipn (length hist))) in Er'. rewrite !skipn_map in Er'. unfold edge in *.
    apply column_commands, Er'. }
  rewrite Ec. destruct Hh as [b m into Hm|b m into Hm|b m into Hm|b m into Hm|b m into Hm|b m into Hm|b m into Hm Hu|b m into Hm Hu]; cbn [ap_proto ap_into] in *.
  - rewrite (C67_nec b m freq _ _ hist l r0 r os Hm Hlo Hf Ht Hs E0 E), map_id, map_flat_map. reflexivity.
  - rewrite (C67_nec16 b m freq _ _ hist l r0 r os Hm Hlo Hf Ht Hs E0 E), map_id, map_flat_map. reflexivity.
  - rewrite (C67_raw b m freq _ _ hist l r0 r os Hm Hlo Hf Ht Hs E0 E), map_id, map_flat_map. reflexivity.
  - rewrite (C67_apple b m freq _ _ hist l r0 r os Hm Hlo Hf Ht Hs E0 E), map_id, map_flat_map. reflexivity.
  - rewrite (C67_samsung b m freq _ _ hist l r0 r os Hm Hlo Hf Ht Hs E0 E), map_id, map_flat_map. reflexivity.
  - rewrite (C67_sbp b m freq _ _ hist l r0 r os Hm Hlo Hf Ht Hs E0 E), map_id, map_flat_map. reflexivity.
  - rewrite (C67_rc5 b m freq _ _ hist l r0 r os Hm Hlo Hf Hu Ht E0 E), map_id, map_flat_map. reflexivity.
  - rewrite (C67_rc6 b m freq _ _ hist l r0 r os Hm Hlo Hf Hu Ht E0 E), map_id, map_flat_map. reflexivity.
Qed.
Print Assumptions C67_multi.

Definition c67_nec : list (N * N) :=
  (360, 180) :: map (fun x : bool => if x then (22, 68) else (22, 22)) (bits_lsb 32 (bytes4 7 (compl8 7) 9 (compl8 9))).
Definition c67_rc5 : list edge :=
  map (fun x : edge => (fst x, if snd x =? 1 then 34 else 72)) (tl (level_edges false 0 (rc5_wave (2 ^ 13 + 2 ^ 12 + 2 ^ 6 * 5 + 53)))).
Definition c67_traffic : list (transmission * N * list edge) :=
  [(TSbp 4660 1, 700, pair_edges c67_sbp ++ [(false, 20)]);
   (TRc5 (2 ^ 13 + 2 ^ 12 + 2 ^ 6 * 5 + 53), 800, c67_rc5 ++ [(false, 34)]);
   (TNec 7 9, 900, pair_edges c67_nec ++ [(false, 22)])].
Example C67_example :
  let ps := [mkAnyP (nec_protocol (debug_build 32) MU32 NecStandard) (any_from nec_ac);
             mkAnyP (rc5_protocol (debug_build 32) MU32) (any_from rc5_ac)] in
  traffic 40000 c67_traffic /\ short (on_air c67_traffic) /\
  match multi_make ps 40000 with
  | Val ss => match run_multi ss (on_air c67_traffic) with
              | Val (_, rows) => column 0 rows = [mkAny PNec 0 7 9 false] /\ column 1 rows = [mkAny PRc5 0 5 53 false]
              | _ => False
              end
  | _ => False
  end.
Proof.
  assert (M : forall lead bit ps h ds, ps = h :: ds -> nearb 40000 lead 8 (fst h) = true ->
            forallb (fun x => nearb 40000 bit 12 (fst x)) ds = true -> marks_near 40000 lead bit ps).
  { intros lead bit ps h ds -> H1 H2. exists h, ds. split; [reflexivity|]. split; [apply nearb_ok, H1|].
    apply Forall_forall. intros x Hx. rewrite forallb_forall in H2. apply nearb_ok, H2, Hx. }
  split; [|split; [apply shortb_ok; vm_compute; reflexivity|vm_compute; split; reflexivity]].
  constructor; [|constructor; [|constructor; [|constructor]]]; cbn [fst snd].
  - split; [apply with_end; [|vm_compute; reflexivity]|vm_compute; reflexivity]. split; [reflexivity|]. split; [reflexivity|]. exists c67_sbp. split; [reflexivity|].
    split; [apply sbp_frame_ok; vm_compute; reflexivity|eapply M; [reflexivity| |]; vm_compute; reflexivity].
  - split; [apply with_end; [|vm_compute; reflexivity]|vm_compute; reflexivity]. split; [reflexivity|]. split; [reflexivity|]. exists 0.
    apply rc5_edges_ok. vm_compute. reflexivity.
  - split; [apply with_end; [|vm_compute; reflexivity]|vm_compute; reflexivity]. split; [reflexivity|]. split; [reflexivity|]. exists c67_nec. split; [reflexivity|].
    split; [apply nec_frameb_ok; vm_compute; reflexivity|eapply M; [reflexivity| |]; vm_compute; reflexivity].
Qed.
