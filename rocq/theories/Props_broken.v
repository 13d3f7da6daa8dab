(** * Property theorems: transmissions that break off *)
From Coq Require Import NArith ZArith List Bool Lia ZifyBool ZifyNat ZifyN.
From Verif Require Import Machine Time Decoder Nec Rc5 Rc6 Denon Sbp Receiver Spec Bits Codec_facts Time_facts Run_facts Nec_facts
  Denon_facts Spec_receiver Spec_sound Sound_facts Biphase_facts Spec_cross Cross_facts Traffic_facts Props_decode
  Props_receiver Props_cross Example_facts Spec_state Props_state Props_traffic Props_polltraffic Spec_broken Broken_facts.
Import ListNotations.
Open Scope N_scope.

(** ** C100: a transmission that breaks off is not reported and does no harm

    In a mixed series of transmissions some break off.  Every receiver reports exactly
    those of its own protocol that are whole, in order, whatever came before. *)

Lemma nec_noisy b m freq V C (into : nv_cmd V -> C) hist l r0 r os :
  timebase m freq -> 20000 <= freq -> freq < 2 ^ 32 -> nv_timing V = NEC_STANDARD_TIMING ->
  noisy_traffic freq l -> short (hist ++ on_air (map snd l)) ->
  receiver_new (nec_protocol b m V) freq = Val r0 ->
  run_edges (D := nec_dec b m V) into r0 (hist ++ on_air (map snd l)) = Val (r, os) ->
  commands (skipn (length hist) os) =
  whole_said (fun t => match nec_word t with
                     | Some w => match nv_unpack V w false with Some c => [into c] | None => [] end
                     | None => []
                     end) l.
Proof.
  intros Hm Hlo Hf HT Ht Hs E0 E.
  refine (series_broken (D := nec_dec b m V) into short freq _ r0 short_prefix _ _ _ _ hist l r os Ht Hs E); clear hist l r os Ht Hs E.
  - intros h t gap evs r os Hsent Hg Hs E. 
    destruct (nec_word t) as [w|] eqn:Ew.
    + destruct (sent_nec_word _ _ _ _ Hsent Ew) as (Hw & ps & -> & Hfr).
      destruct (nec_decode b m freq V Hm Hf (or_introl HT) into ltac:(lia) w h gap ps) as (r0' & os' & o & pv & E0' & E' & L & Ho);
        auto; try (rewrite HT; assumption).
      { rewrite HT. apply longer_weaken; auto; vm_compute; discriminate. }
      rewrite E0 in E0'. injection E0' as <-. pose proof (eq_trans (eq_sym E) E') as K. injection K as _ ->.
      etransitivity; [apply (heard_last os' o 65 (option_map into (nv_unpack V w false)) (length h) L)|].
      * intros x. destruct Ho as [-> | ->]; discriminate.
      * destruct (nv_unpack V w false); reflexivity.
    + apply sent_class in Hsent.
      apply (nec_ignores b m freq V C into h gap evs r0 r os Hm Hlo Hf HT Hg (short_fits _ Hs)); auto.
      destruct t; try discriminate Ew; auto 6.
  - intros h t gap body d r1 os1 r x _ _ _ Hs _. apply (nec_end b m freq V); auto. apply short_fits, Hs.
  - intros h t gap p x rest r os Hsent Hg Hs E.
    pose proof (whole_short _ _ _ _ _ _ Hf Hsent Hs) as Hs'.
    destruct (nec_word t) as [w|] eqn:Ew.
    + destruct (sent_nec_word _ _ _ _ Hsent Ew) as (Hw & ps & Ep & Hfr). rewrite Ep in Hs'.
      destruct (nec_decode b m freq V Hm Hf (or_introl HT) into ltac:(lia) w h gap ps) as (r0' & os' & o & pv & E0' & E' & L & Ho);
        auto; try (rewrite HT; assumption).
      { rewrite HT. apply longer_weaken; auto; vm_compute; discriminate. }
      rewrite E0 in E0'. injection E0' as <-. rewrite <- Ep in E'.
      apply (part_quiet (D := nec_dec b m V) into r0 h gap p x rest r os _ _ E E'). apply own_quiet; [exact L|].
      intros y. destruct Ho as [-> | ->]; discriminate.
    + destruct (runs (nec_protocol b m V) freq C into (h ++ (true, gap) :: p ++ x :: rest) r0) as (r' & os' & E'); auto.
      { apply C39_nec; auto. - exact (or_introl HT). - left. eapply short_half; eauto. }
      apply (part_quiet (D := nec_dec b m V) into r0 h gap p x rest r os _ _ E E'). apply removelast_quiet.
      apply sent_class in Hsent.
      apply (nec_ignores b m freq V C into h gap (p ++ x :: rest) r0 r' os' Hm Hlo Hf HT Hg (short_fits _ Hs')); auto.
      destruct t; try discriminate Ew; auto 6.
  - intros h t gap p x rest d r1 os1 r c _ _ _ _ _ Hs _. apply (nec_end b m freq V); auto. apply short_fits, Hs.
Qed.

Lemma noisy_sent freq l : noisy_traffic freq l -> Forall (fun y : bool * (transmission * N * list edge) => exists body, sent freq (fst (fst (snd y))) body) l.
Proof.
  apply Forall_impl. intros [[|] [[t gap] evs]] [_ H]; cbn [fst snd].
  - destruct H as [H|(body & d & _ & H & _)]; eauto.
  - destruct H as (p & x & rest & H & _); eauto.
Qed.

Lemma noisy_said {C D : Type} freq (f : N -> option D) (heard : transmission -> list D) (into : D -> C) l : noisy_traffic freq l ->
  (forall t, nec_word t = None -> heard t = []) ->
  (forall t body w, sent freq t body -> nec_word t = Some w -> heard t = match f w with Some c => [c] | None => [] end) ->
  whole_said (fun t => match nec_word t with
                     | Some w => match f w with Some c => [into c] | None => [] end
                     | None => []
                     end) l = map into (whole_said heard l).
Proof.
  intros Ht Hno Hyes. unfold whole_said. rewrite map_flat_map. apply noisy_sent in Ht.
  induction Ht as [|[[|] [[t gap] evs]] l [body Hsent] Ht IH]; cbn [flat_map fst snd map] in *; [reflexivity| |exact IH].
  rewrite IH. f_equal. destruct (nec_word t) as [w|] eqn:Ew.
  - rewrite (Hyes t body w Hsent Ew). destruct (f w); reflexivity.
  - rewrite (Hno t Ew). reflexivity.
Qed.

Theorem C100_nec :
  forall b m freq C (into : nec_command -> C) hist l r0 r os,
  timebase m freq -> 20000 <= freq -> freq < 2 ^ 32 ->
  noisy_traffic freq l -> short (hist ++ on_air (map snd l)) ->
  receiver_new (nec_protocol b m NecStandard) freq = Val r0 ->
  run_edges (D := nec_dec b m NecStandard) into r0 (hist ++ on_air (map snd l)) = Val (r, os) ->
  commands (skipn (length hist) os) = map into (whole_said heard_nec l).
Proof.
  intros b m freq C into hist l r0 r os Hm Hlo Hf Ht Hs E0 E.
  rewrite (nec_noisy b m freq NecStandard C into hist l r0 r os Hm Hlo Hf eq_refl Ht Hs E0 E).
  apply (noisy_said freq (fun w => nv_unpack NecStandard w false) heard_nec into l Ht); [|exact (nec_said freq)].
  intros t Ht0. destruct t; try discriminate Ht0; reflexivity.
Qed.
Print Assumptions C100_nec.

Theorem C100_nec16 :
  forall b m freq C (into : nec16_command -> C) hist l r0 r os,
  timebase m freq -> 20000 <= freq -> freq < 2 ^ 32 ->
  noisy_traffic freq l -> short (hist ++ on_air (map snd l)) ->
  receiver_new (nec_protocol b m Nec16Bit) freq = Val r0 ->
  run_edges (D := nec_dec b m Nec16Bit) into r0 (hist ++ on_air (map snd l)) = Val (r, os) ->
  commands (skipn (length hist) os) = map into (whole_said heard_nec16 l).
Proof.
  intros b m freq C into hist l r0 r os Hm Hlo Hf Ht Hs E0 E.
  rewrite (nec_noisy b m freq Nec16Bit C into hist l r0 r os Hm Hlo Hf eq_refl Ht Hs E0 E).
  apply (noisy_said freq (fun w => nv_unpack Nec16Bit w false) heard_nec16 into l Ht); [|exact (nec16_said freq)].
  intros t Ht0. destruct t; try discriminate Ht0; reflexivity.
Qed.
Print Assumptions C100_nec16.

Theorem C100_raw :
  forall b m freq C (into : nec_debug_cmd -> C) hist l r0 r os,
  timebase m freq -> 20000 <= freq -> freq < 2 ^ 32 ->
  noisy_traffic freq l -> short (hist ++ on_air (map snd l)) ->
  receiver_new (nec_protocol b m NecRaw) freq = Val r0 ->
  run_edges (D := nec_dec b m NecRaw) into r0 (hist ++ on_air (map snd l)) = Val (r, os) ->
  commands (skipn (length hist) os) = map into (whole_said heard_raw l).
Proof.
  intros b m freq C into hist l r0 r os Hm Hlo Hf Ht Hs E0 E.
  rewrite (nec_noisy b m freq NecRaw C into hist l r0 r os Hm Hlo Hf eq_refl Ht Hs E0 E).
  apply (noisy_said freq (fun w => nv_unpack NecRaw w false) heard_raw into l Ht).
  - intros t Ht0. unfold heard_raw. rewrite Ht0. reflexivity.
  - intros t body w _ Ew. unfold heard_raw. rewrite Ew. reflexivity.
Qed.
Print Assumptions C100_raw.

Theorem C100_apple :
  forall b m freq C (into : apple_command -> C) hist l r0 r os,
  timebase m freq -> 20000 <= freq -> freq < 2 ^ 32 ->
  noisy_traffic freq l -> short (hist ++ on_air (map snd l)) ->
  receiver_new (nec_protocol b m NecApple) freq = Val r0 ->
  run_edges (D := nec_dec b m NecApple) into r0 (hist ++ on_air (map snd l)) = Val (r, os) ->
  commands (skipn (length hist) os) = map into (whole_said heard_apple l).
Proof.
  intros b m freq C into hist l r0 r os Hm Hlo Hf Ht Hs E0 E.
  rewrite (nec_noisy b m freq NecApple C into hist l r0 r os Hm Hlo Hf eq_refl Ht Hs E0 E).
  apply (noisy_said freq (fun w => nv_unpack NecApple w false) heard_apple into l Ht); [|exact (apple_said freq)].
  intros t Ht0. destruct t; try discriminate Ht0; reflexivity.
Qed.
Print Assumptions C100_apple.

Lemma said_map {C D : Type} (heard : transmission -> list D) (into : D -> C) l : map into (whole_said heard l) = whole_said (fun t => map into (heard t)) l.
Proof. unfold whole_said. rewrite map_flat_map. apply flat_map_ext. intros [[|] y]; reflexivity. Qed.

Theorem C100_samsung :
  forall b m freq C (into : samsung_command -> C) hist l r0 r os,
  timebase m freq -> 20000 <= freq -> freq < 2 ^ 32 ->
  noisy_traffic freq l -> short (hist ++ on_air (map snd l)) ->
  receiver_new (nec_protocol b m NecSamsung) freq = Val r0 ->
  run_edges (D := nec_dec b m NecSamsung) into r0 (hist ++ on_air (map snd l)) = Val (r, os) ->
  commands (skipn (length hist) os) = map into (whole_said heard_samsung l).
Proof.
  intros b m freq C into hist l r0 r os Hm Hlo Hf Ht Hs E0 E. rewrite said_map.
  assert (Ign : forall h t gap evs r os, sent freq t evs -> heard_samsung t = [] -> longer freq 13500 8 gap -> short (h ++ (true, gap) :: evs) ->
    run_edges (D := nec_dec b m NecSamsung) into r0 (h ++ (true, gap) :: evs) = Val (r, os) -> commands (skipn (length h) os) = []).
  { clear -Hm Hlo Hf E0. intros h t gap evs r os Hsent Eh Hg Hs E. apply sent_class in Hsent.
    apply (samsung_ignores b m freq C into h gap evs r0 r os Hm Hlo Hf Hg (short_fits _ Hs)); auto.
    destruct t; try discriminate Eh; auto 6. }
  assert (Own : forall h a c gap evs, sent freq (TSamsung a c) evs -> longer freq 13500 8 gap -> short (h ++ (true, gap) :: evs) ->
    exists r os o, run_edges (D := nec_dec b m NecSamsung) into r0 (h ++ (true, gap) :: evs) =
      Val (r, os ++ o :: repeat (ROk None) 65 ++ [ROk (Some (into (mkSamsung a c false)))]) /\
      length os = length h /\ (forall x, o <> ROk (Some x))).
  { clear -Hm Hlo Hf E0. intros h a c gap evs (Ha & Hc & ps & -> & Hfr & _) Hg Hs.
    destruct (C19_samsung_frame b m freq a c h gap ps C into) as (r0' & r' & os' & o & E0' & E' & L & Ho); auto; try lia.
    { apply longer_weaken; auto; vm_compute; discriminate. }
    rewrite E0 in E0'. injection E0' as <-. exists r', os', o. split; [exact E'|]. split; [exact L|].
    intros x. destruct Ho as [-> | ->]; discriminate. }
  refine (series_broken (D := nec_dec b m NecSamsung) into short freq (fun t => map into (heard_samsung t)) r0 short_prefix _ _ _ _ hist l r os Ht Hs E);
    clear hist l r os Ht Hs E.
  - intros h t gap evs r os Hsent Hg Hs E. destruct (heard_samsung t) as [|c0 l0] eqn:Eh; [exact (Ign h t gap evs r os Hsent Eh Hg Hs E)|].
    destruct t; try discriminate Eh. injection Eh as <- <-.
    destruct (Own h _ _ gap evs Hsent Hg Hs) as (r' & os' & o & E' & L & Ho).
    pose proof (eq_trans (eq_sym E) E') as K. injection K as _ ->. apply (heard_own os' o 65 _ (length h) L Ho).
  - intros h t gap body d r1 os1 r x _ _ _ Hs _. apply (nec_end b m freq NecSamsung); auto. apply short_fits, Hs.
  - intros h t gap p x rest r os Hsent Hg Hs E.
    pose proof (whole_short _ _ _ _ _ _ Hf Hsent Hs) as Hs'.
    destruct (heard_samsung t) as [|c0 l0] eqn:Eh.
    + destruct (runs (nec_protocol b m NecSamsung) freq C into (h ++ (true, gap) :: p ++ x :: rest) r0) as (r' & os' & E'); auto.
      { apply C39_nec; auto. - exact (or_intror eq_refl). - left. eapply short_half; eauto. }
      apply (part_quiet (D := nec_dec b m NecSamsung) into r0 h gap p x rest r os _ _ E E'). apply removelast_quiet.
      exact (Ign h t gap _ r' os' Hsent Eh Hg Hs' E').
    + destruct t; try discriminate Eh. destruct (Own h _ _ gap _ Hsent Hg Hs') as (r' & os' & o & E' & L & Ho).
      apply (part_quiet (D := nec_dec b m NecSamsung) into r0 h gap p x rest r os _ _ E E'). apply own_quiet; auto.
  - intros h t gap p x rest d r1 os1 r c _ _ _ _ _ Hs _. apply (nec_end b m freq NecSamsung); auto. apply short_fits, Hs.
Qed.
Print Assumptions C100_samsung.

Theorem C100_sbp :
  forall b m freq C (into : sbp_command -> C) hist l r0 r os,
  timebase m freq -> 20000 <= freq -> freq < 2 ^ 32 ->
  noisy_traffic freq l -> short (hist ++ on_air (map snd l)) ->
  receiver_new (sbp_protocol b m) freq = Val r0 ->
  run_edges (D := sbp_dec b m) into r0 (hist ++ on_air (map snd l)) = Val (r, os) ->
  commands (skipn (length hist) os) = map into (whole_said heard_sbp l).
Proof.
  intros b m freq C into hist l r0 r os Hm Hlo Hf Ht Hs E0 E. rewrite said_map.
  assert (Ign : forall h t gap evs r os, sent freq t evs -> heard_sbp t = [] -> longer freq 13500 8 gap -> short (h ++ (true, gap) :: evs) ->
    run_edges (D := sbp_dec b m) into r0 (h ++ (true, gap) :: evs) = Val (r, os) -> commands (skipn (length h) os) = []).
  { clear -Hm Hlo Hf E0. intros h t gap evs r os Hsent Eh Hg Hs E. apply sent_class in Hsent.
    apply (sbp_ignores b m freq C into h gap evs r0 r os Hm Hlo Hf Hg Hs); auto.
    destruct t; try discriminate Eh; auto 7. }
  assert (Own : forall h a c gap evs, sent freq (TSbp a c) evs -> longer freq 13500 8 gap -> short (h ++ (true, gap) :: evs) ->
    exists r os o, run_edges (D := sbp_dec b m) into r0 (h ++ (true, gap) :: evs) =
      Val (r, os ++ o :: repeat (ROk None) 75 ++ [ROk (Some (into (mkSbp a (field c 4 8) (field c 12 8 =? compl8 (field c 4 8)))))]) /\
      length os = length h /\ (forall x, o <> ROk (Some x))).
  { clear -Hm Hlo Hf E0. intros h a c gap evs (Ha & Hc & ps & -> & Hfr & _) Hg Hs.
    destruct (C20_sbp_frame b m freq a c h gap ps C into) as (r0' & r' & os' & o & E0' & E' & L & Ho); auto; try lia.
    { apply longer_weaken; auto; vm_compute; discriminate. }
    rewrite E0 in E0'. injection E0' as <-. exists r', os', o. split; [exact E'|]. split; [exact L|].
    intros x. destruct Ho as [-> |[-> | ->]]; discriminate. }
  refine (series_broken (D := sbp_dec b m) into short freq (fun t => map into (heard_sbp t)) r0 short_prefix _ _ _ _ hist l r os Ht Hs E);
    clear hist l r os Ht Hs E.
  - intros h t gap evs r os Hsent Hg Hs E. destruct (heard_sbp t) as [|c0 l0] eqn:Eh; [exact (Ign h t gap evs r os Hsent Eh Hg Hs E)|].
    destruct t; try discriminate Eh. injection Eh as <- <-.
    destruct (Own h _ _ gap evs Hsent Hg Hs) as (r' & os' & o & E' & L & Ho).
    pose proof (eq_trans (eq_sym E) E') as K. injection K as _ ->. apply (heard_own os' o 75 _ (length h) L Ho).
  - intros h t gap body d r1 os1 r x _ _ _ Hs _. apply (sbp_end b m freq); auto.
  - intros h t gap p x rest r os Hsent Hg Hs E.
    pose proof (whole_short _ _ _ _ _ _ Hf Hsent Hs) as Hs'.
    destruct (heard_sbp t) as [|c0 l0] eqn:Eh.
    + destruct (runs (sbp_protocol b m) freq C into (h ++ (true, gap) :: p ++ x :: rest) r0) as (r' & os' & E'); auto.
      { apply C39_sbp; auto. left. eapply short_half; eauto. }
      apply (part_quiet (D := sbp_dec b m) into r0 h gap p x rest r os _ _ E E'). apply removelast_quiet.
      exact (Ign h t gap _ r' os' Hsent Eh Hg Hs' E').
    + destruct t; try discriminate Eh. destruct (Own h _ _ gap _ Hsent Hg Hs') as (r' & os' & o & E' & L & Ho).
      apply (part_quiet (D := sbp_dec b m) into r0 h gap p x rest r os _ _ E E'). apply own_quiet; auto.
  - intros h t gap p x rest d r1 os1 r c _ _ _ _ _ Hs _. apply (sbp_end b m freq); auto.
Qed.
Print Assumptions C100_sbp.

Lemma rc5_foreign_part b m freq C (into : rc5_command -> C) h t gap p q r0 r os :
  timebase m freq -> 20000 <= freq -> freq < 2 ^ 32 -> 8 <= usize_bits b -> longer freq 13500 8 gap ->
  sent freq t (p ++ q) -> heard_rc5 t = [] -> receiver_new (rc5_protocol b m) freq = Val r0 ->
  run_edges (D := rc5_dec b) into r0 (h ++ (true, gap) :: p) = Val (r, os) -> commands (skipn (length h) os) = [].
Proof.
  intros Hm Hlo Hf Hu Hg Hsent Eh E0. apply (rc5_listener b m freq C into h gap p r0 r os Hm Hf Hlo Hu Hg); [|exact E0].
  assert (G : forall a seg c bits, p ++ q = a ++ seg ++ c -> rc5_stream freq seg bits -> length bits = 13%nat -> False).
  { apply sent_class in Hsent. destruct t; try discriminate Eh.
    - destruct Hsent as (w & ps & -> & _ & M). apply (pairs_no_rc5 freq 9000 560); auto; try reflexivity; lia.
    - destruct Hsent as (w & ps & -> & _ & M). apply (pairs_no_rc5 freq 9000 560); auto; try reflexivity; lia.
    - destruct Hsent as (w & ps & -> & _ & M). apply (pairs_no_rc5 freq 9000 560); auto; try reflexivity; lia.
    - destruct Hsent as (w & ps & -> & _ & M). apply (pairs_no_rc5 freq 4500 560); auto; try reflexivity; lia.
    - destruct Hsent as (a & c & ps & -> & _ & M). apply (pairs_no_rc5 freq 4500 500); auto; try reflexivity; lia.
    - destruct Hsent as (w & ps & -> & _ & M). apply (pairs_no_rc5 freq 3400 480); auto; try reflexivity; lia.
    - apply rc6_no_rc5; auto. }
  intros a seg c bits Ep. apply (G a seg (c ++ q) bits). rewrite Ep, <- !app_assoc. reflexivity.
Qed.

Theorem C100_rc5 :
  forall b m freq C (into : rc5_command -> C) hist l r0 r os,
  timebase m freq -> 20000 <= freq -> freq < 2 ^ 32 -> 8 <= usize_bits b ->
  noisy_traffic freq l ->
  receiver_new (rc5_protocol b m) freq = Val r0 ->
  run_edges (D := rc5_dec b) into r0 (hist ++ on_air (map snd l)) = Val (r, os) ->
  commands (skipn (length hist) os) = map into (whole_said heard_rc5 l).
Proof.
  intros b m freq C into hist l r0 r os Hm Hlo Hf Hu Ht E0 E. rewrite said_map.
  refine (series_broken (D := rc5_dec b) into (fun _ => True) freq (fun t => map into (heard_rc5 t)) r0 (fun _ _ _ => I) _ _ _ _ hist l r os Ht I E);
    clear hist l r os Ht E.
  - intros h t gap evs r os Hsent Hg _ E.
    destruct (heard_rc5 t) as [|c0 l0] eqn:Eh.
    + rewrite <- (app_nil_r evs) in Hsent. exact (rc5_foreign_part b m freq C into h t gap evs [] r0 r os Hm Hlo Hf Hu Hg Hsent Eh E0 E).
    + destruct t; try discriminate Eh. injection Eh as <- <-.
      destruct (rc5_own b m freq C into h gap evs word r0 r os Hm Hlo Hf Hu Hg Hsent E0 E) as (os' & -> & L). apply heard_end, L.
  - intros h t gap body d r1 os1 r x Hsent Hg Hd _ E1 E. destruct (heard_rc5 t) eqn:Eh.
    + revert E. eapply (rc5_end b m freq); eauto. intros n. apply (rc5_interval_among freq [(end_mark t, 12)]); auto.
      * destruct t; try discriminate Eh; reflexivity.
      * destruct t; try discriminate Eh; reflexivity.
      * destruct t; try discriminate Eh; reflexivity.
      * exists (end_mark t), 12. cbn; auto.
    + destruct t; try discriminate Eh. exact (rc5_own_end b m freq C into h gap body word d r0 r1 os1 r x Hm Hlo Hf Hu Hg Hsent E0 E1 E).
  - intros h t gap p x rest r os Hsent Hg _ E. destruct (heard_rc5 t) as [|c0 l0] eqn:Eh;
      [exact (rc5_foreign_part b m freq C into h t gap p _ r0 r os Hm Hlo Hf Hu Hg Hsent Eh E0 E)|].
    destruct t; try discriminate Eh. destruct Hsent as (Hw & H13 & g & He). apply (rc5_edges_gap _ _ _ gap) in He.
    destruct (run_prefix (D := rc5_dec b) into _ _ _ _ _ E) as (r1 & os1 & E1).
    destruct (C21_rc5_frame b m freq word h gap ((true, gap) :: p ++ x :: rest) C into r0 r1 os1) as (r' & E'); auto; try lia.
    { apply longer_weaken2; auto; try lia. }
    apply (part_quiet (D := rc5_dec b) into r0 h gap p x rest r os _ _ E E'). apply own_quiet'.
    apply (run_edges_length (D := rc5_dec b) into h r0 r1 os1 E1).
  - intros h t gap p x rest d r1 os1 r c Hsent Hr Hd1 Hd Hg _ _ E.
    destruct (rc5_sound_report b m freq Hm Hf Hu into _ false d r0 r os1 c E0 E) as (c' & _ & h1 & g & seg & bits & E1 & S & L & _).
    rewrite <- app_assoc in E1. cbn [app] in E1. apply split_at in E1. destruct E1 as [(q & Eq & _)|(q & Eq & _)].
    + destruct q as [|y q]; cbn [app] in Eq; injection Eq as Ey Eq.
      * subst seg. exact (rc5_cut freq t p x rest d [] _ bits Hlo Hsent Hr Hd1 Hd eq_refl S L).
      * destruct S as (s' & last & ns & n & _ & F & _). rewrite Eq, map_app in F. cbn [map snd] in F.
        destruct (forall2_mid _ _ _ _ _ F) as (n' & H). clear -H Hg Hlo.
        destruct H as [[_ H]|[[_ H]|[_ [_ ->]]]].
        -- eapply (longer_not_near freq 889 13 gap gap); eauto; try lia.
        -- eapply (longer_not_near freq 1778 11 gap gap); eauto; try lia.
        -- unfold longer in Hg. lia.
    + apply (rc5_cut freq t p x rest d (q ++ [(true, g)]) seg bits Hlo Hsent Hr Hd1 Hd); auto. rewrite <- app_assoc. exact Eq.
Qed.
Print Assumptions C100_rc5.

Theorem C100_rc6 :
  forall b m freq C (into : rc6_command -> C) hist l r0 r os,
  timebase m freq -> 20000 <= freq -> freq < 2 ^ 32 -> 8 <= usize_bits b ->
  noisy_traffic freq l ->
  receiver_new (rc6_protocol b m) freq = Val r0 ->
  run_edges (D := rc6_dec b) into r0 (hist ++ on_air (map snd l)) = Val (r, os) ->
  commands (skipn (length hist) os) = map into (whole_said heard_rc6 l).
Proof.
  intros b m freq C into hist l r0 r os Hm Hlo Hf Hu Ht E0 E. rewrite said_map.
  refine (series_broken (D := rc6_dec b) into (fun _ => True) freq (fun t => map into (heard_rc6 t)) r0 (fun _ _ _ => I) _ _ _ _ hist l r os Ht I E);
    clear hist l r os Ht E.
  - intros h t gap evs r os Hsent Hg _ E.
    destruct (heard_rc6 t) as [|c0 l0] eqn:Eh.
    + apply sent_class in Hsent.
      apply (rc6_ignores b m freq C into h gap evs r0 r os 560 Hm Hlo Hf Hu Hg); auto.
      left. destruct t; try discriminate Eh; tauto.
    + destruct t; try discriminate Eh. injection Eh as <- <-.
      destruct (rc6_own b m freq C into h gap evs address command toggle r0 r os Hm Hlo Hf Hu Hg Hsent E0 E) as (os' & -> & L). apply heard_end, L.
  - intros h t gap body d r1 os1 r x Hsent Hg Hd _ E1 E. destruct (heard_rc6 t) eqn:Eh.
    + assert (K : commands (skipn (length h) (os1 ++ [ROk (Some x)])) = []).
      { apply sent_class in Hsent. rewrite <- app_assoc in E. cbn [app] in E.
        refine (rc6_ignores b m freq C into h gap (body ++ [(false, d)]) r0 r _ (end_mark t) Hm Hlo Hf Hu Hg _ _ E0 E).
        - destruct t; try discriminate Eh; reflexivity.
        - right. exists body, d. split; [reflexivity|]. split; [|exact Hd]. destruct t; try discriminate Eh; tauto. }
      pose proof (run_edges_length (D := rc6_dec b) into _ r0 r1 os1 E1) as L. rewrite app_length in L.
      rewrite skipn_app in K. unfold edge, outcome in *. replace (length h - length os1)%nat with 0%nat in K by lia.
      rewrite commands_app in K. apply app_eq_nil in K. destruct K as [_ K]. discriminate.
    + destruct t; try discriminate Eh. exact (rc6_own_end b m freq C into h gap body address command toggle d r0 r1 os1 r x Hm Hlo Hf Hu Hg Hsent E0 E1 E).
  - intros h t gap p x rest r os Hsent Hg _ E. destruct (heard_rc6 t) as [|c0 l0] eqn:Eh.
    + apply (rc6_listener b m freq C into h gap p r0 r os Hm Hf Hlo Hu Hg); auto. intros lead Hi.
      apply sent_class in Hsent. apply (rc6_no_lead freq (p ++ x :: rest) lead Hlo); [|apply in_or_app; left; exact Hi].
      destruct t; try discriminate Eh; tauto.
    + destruct t; try discriminate Eh. destruct Hsent as (Ha & Hc & g & He). apply (rc6_edges_gap _ _ _ _ _ gap) in He.
      destruct (run_prefix (D := rc6_dec b) into _ _ _ _ _ E) as (r1 & os1 & E1).
      destruct (C22_rc6_frame_partial b m freq address command toggle h gap ((true, gap) :: p ++ x :: rest) C into r0 r1 os1) as (r' & E'); auto; try lia.
      { apply longer_weaken2; auto; try lia. }
      apply (part_quiet (D := rc6_dec b) into r0 h gap p x rest r os _ _ E E'). apply own_quiet'.
      apply (run_edges_length (D := rc6_dec b) into h r0 r1 os1 E1).
  - intros h t gap p x rest d r1 os1 r c Hsent Hr Hd1 Hd Hg _ _ E.
    destruct (rc6_sound_report b m freq Hm Hf Hu into _ false d r0 r os1 c E0 E) as (c' & _ & h1 & g & seg & tg & bits & E1 & S & L & _).
    rewrite <- app_assoc in E1. cbn [app] in E1.
    assert (Loc : exists a, p ++ [(false, d)] = a ++ seg).
    { apply split_at in E1. destruct E1 as [(q & Eq & _)|(q & Eq & _)]; [|exists (q ++ [(true, g)]); rewrite <- app_assoc; exact Eq].
      destruct q as [|y q]; cbn [app] in Eq; injection Eq as Ey Eq; [exists []; symmetry; exact Eq|exfalso].
      apply (rc6_stream_interval freq seg tg bits gap S); [rewrite Eq, map_app; apply in_or_app; right; left; reflexivity|].
      intros n [(H1 & H2 & H)|(_ & _ & H)]; [|rewrite H in Hg; unfold longer in Hg; lia].
      eapply (longer_not_near freq (444 * n) 13 gap gap); eauto; lia. }
    destruct Loc as (a & Ea). destruct (heard_rc6 t) as [|c0 l0] eqn:Eh.
    + destruct S as (lead & pause & hs & hl & hns & hn & tr & tl & ds & dl & dns & dn & Es & Hl & _).
      assert (Hl' : near freq 2664 13 lead) by (destruct Hl as [(_ & _ & H)|(H & _)]; [exact H|lia]).
      assert (Hi : In (false, lead) p).
      { rewrite Es in Ea. replace (a ++ (false, lead) :: (true, pause) :: (hs ++ [hl]) ++ (tr ++ [tl]) ++ ds ++ [dl])
          with ((a ++ (false, lead) :: (true, pause) :: (hs ++ [hl]) ++ (tr ++ [tl]) ++ ds) ++ [dl]) in Ea
          by (repeat (rewrite <- app_assoc; cbn [app]); reflexivity).
        apply app_inj_tail in Ea. destruct Ea as [-> _]. apply in_or_app. right. left. reflexivity. }
      apply sent_class in Hsent. apply (rc6_no_lead freq (p ++ (false, x) :: rest) lead Hlo); [|apply in_or_app; left; exact Hi|exact Hl'].
      destruct t; try discriminate Eh; tauto.
    + destruct t; try discriminate Eh. exact (rc6_cut_own freq _ _ _ p x rest d a seg tg bits Hlo Hsent Hr Hd1 Hd Ea S L).
Qed.
Print Assumptions C100_rc6.

(** In a multi receiver every component does. *)
Theorem C100_multi :
  forall ps freq ss ss' hist l rows k p heard,
  20000 <= freq -> freq < 2 ^ 32 ->
  noisy_traffic freq l -> short (hist ++ on_air (map snd l)) ->
  multi_make ps freq = Val ss -> run_multi ss (hist ++ on_air (map snd l)) = Val (ss', rows) ->
  nth_error ps k = Some p -> hears freq p heard ->
  column k (skipn (length hist) rows) = whole_said heard l.
Proof.
  intros ps freq ss ss' hist l rows k p heard Hlo Hf Ht Hs Em Er Hk Hh.
  destruct (C49_multi_independent ps freq ss ss' (hist ++ on_air (map snd l)) rows Em Er) as (_ & H).
  destruct (H k p Hk) as (r0 & r & os & E0 & E & Er'). clear H.
  assert (Ec : column k (skipn (length hist) rows) = map (ap_into p) (commands (skipn (length hist) os))).
  { apply (f_equal (skipn (length hist))) in Er'. rewrite !skipn_map in Er'. unfold edge in *.
    apply column_commands, Er'. }
  rewrite Ec. destruct Hh as [b m into Hm|b m into Hm|b m into Hm|b m into Hm|b m into Hm|b m into Hm|b m into Hm Hu|b m into Hm Hu]; cbn [ap_proto ap_into] in *.
  - rewrite (C100_nec b m freq _ _ hist l r0 r os Hm Hlo Hf Ht Hs E0 E), map_id, said_map. reflexivity.
  - rewrite (C100_nec16 b m freq _ _ hist l r0 r os Hm Hlo Hf Ht Hs E0 E), map_id, said_map. reflexivity.
  - rewrite (C100_raw b m freq _ _ hist l r0 r os Hm Hlo Hf Ht Hs E0 E), map_id, said_map. reflexivity.
  - rewrite (C100_apple b m freq _ _ hist l r0 r os Hm Hlo Hf Ht Hs E0 E), map_id, said_map. reflexivity.
  - rewrite (C100_samsung b m freq _ _ hist l r0 r os Hm Hlo Hf Ht Hs E0 E), map_id, said_map. reflexivity.
  - rewrite (C100_sbp b m freq _ _ hist l r0 r os Hm Hlo Hf Ht Hs E0 E), map_id, said_map. reflexivity.
  - rewrite (C100_rc5 b m freq _ _ hist l r0 r os Hm Hlo Hf Hu Ht E0 E), map_id, said_map. reflexivity.
  - rewrite (C100_rc6 b m freq _ _ hist l r0 r os Hm Hlo Hf Hu Ht E0 E), map_id, said_map. reflexivity.
Qed.
Print Assumptions C100_multi.

(** *** Denon

    As in C67 there must be no Samsung BluRay transmissions in the series and nothing like the
    start of a Denon frame before it.  Transmissions of the other protocols may break off, those of
    Denon may not: [C100_denon_whole_needed]. *)
Lemma periods_prefix p : forall sv q d, In d (periods_from sv p) -> In d (periods_from sv (p ++ q)).
Proof. induction p as [|[[|] x] p IH]; intros sv q d H; cbn [app periods_from In] in *; [contradiction|destruct H; auto|auto]. Qed.

Lemma denon_noisy b m freq C (into : denon_command -> C) : timebase m freq -> freq < 2 ^ 32 -> 20000 <= freq ->
  forall l sv pv, sv < 2 ^ 31 -> noisy_traffic freq l ->
  Forall (fun y : bool * (transmission * N * list edge) => is_sbp (fst (fst (snd y))) = false /\
            (fst y = false -> denon_word (fst (fst (snd y))) = None)) l ->
  short (on_air (map snd l)) ->
  exists sv' pv' os,
    run_edges (D := denon_dec b m) into (@mkRecv (denon_dec b m) (mkDenonDec DIdle 0 sv (spans_of m freq denon_pulses)) pv) (on_air (map snd l)) =
      Val (@mkRecv (denon_dec b m) (mkDenonDec DIdle 0 sv' (spans_of m freq denon_pulses)) pv', os) /\ sv' < 2 ^ 31 /\
    commands os = whole_said (fun t => map into (heard_denon t)) l.
Proof.
  intros Hm Hf Hlo. induction l as [|[w [[t gap] evs]] l IH]; intros sv pv Hsv Ht Hn Hs.
  - exists sv, pv, []. auto.
  - apply Forall_cons_iff in Ht. destruct Ht as [[Hg Hx] Ht]. apply Forall_cons_iff in Hn. destruct Hn as [[Hn Hw] Hnl].
    cbn [map fst snd] in *. change (on_air ((t, gap, evs) :: map snd l)) with (((true, gap) :: evs) ++ on_air (map snd l)) in *.
    unfold short in Hs. apply Forall_app in Hs. destruct Hs as [Sx Sl].
    assert (Step : exists sv' pv' os,
      run_edges (D := denon_dec b m) into (@mkRecv (denon_dec b m) (mkDenonDec DIdle 0 sv (spans_of m freq denon_pulses)) pv) ((true, gap) :: evs) =
      Val (@mkRecv (denon_dec b m) (mkDenonDec DIdle 0 sv' (spans_of m freq denon_pulses)) pv', os) /\ sv' < 2 ^ 31 /\
      commands os = if w then map into (heard_denon t) else []).
    { destruct w.
      - destruct (denon_series b m freq Hm Hf Hlo into [(t, gap, evs)] sv pv Hsv) as (sv1 & pv1 & os1 & E1 & V1 & C1).
        + constructor; [split; assumption|constructor].
        + constructor; [exact Hn|constructor].
        + unfold short. cbn [on_air flat_map fst snd]. rewrite app_nil_r. exact Sx.
        + cbn [on_air flat_map fst snd] in E1, C1. rewrite app_nil_r in E1. exists sv1, pv1, os1. split; [exact E1|]. split; [exact V1|].
          etransitivity; [exact C1|]. destruct t; reflexivity.
      - destruct Hx as (p & x & rest & Hsent & Hp).
        pose proof (no_denon_sync freq t _ Hlo Hsent Hn (Hw eq_refl)) as F. rewrite Forall_forall in F.
        inversion Sx as [|y k Sg Se]; subst. cbn [snd] in Sg.
        destruct (denon_quiet b m freq Hm Hf into evs 0 pv) as (sv1 & pv1 & os1 & E1 & V1 & ->); auto; [reflexivity| |].
        { intros d Hd. apply F, periods_prefix. destruct Hp as [->|(_ & _ & d' & _ & _ & ->)]; [exact Hd|]. rewrite periods_from_fall in Hd. exact Hd. }
        exists sv1, pv1. eexists. split; [|split; [exact V1|]].
        + cbn [run_edges].
          rewrite (denon_gap b m freq Hm Hf into DIdle 0 sv pv gap (conj eq_refl I) Hsv Sg) by (apply longer_weaken; auto; vm_compute; discriminate).
          cbn [bind]. rewrite E1. reflexivity.
        + apply (commands_none (S (length evs))). }
    destruct Step as (sv1 & pv1 & os1 & E1 & V1 & C1).
    destruct (IH sv1 pv1 V1 Ht Hnl Sl) as (sv2 & pv2 & os2 & E2 & V2 & C2).
    exists sv2, pv2. eexists. split; [exact (run_edges_app_val (D := denon_dec b m) into _ _ _ _ _ _ _ E1 E2)|]. split; [exact V2|].
    etransitivity; [apply commands_app|]. rewrite C1, C2. destruct w; reflexivity.
Qed.

Theorem C100_denon :
  forall b m freq C (into : denon_command -> C) hist l r0 r os,
  timebase m freq -> 20000 <= freq -> freq < 2 ^ 32 ->
  noisy_traffic freq l ->
  (forall y a c, In y l -> fst (fst (snd y)) <> TSbp a c) ->
  (forall y w, In y l -> fst y = false -> fst (fst (snd y)) <> TDenon w) ->
  (forall d, In d (periods hist) -> ~ near freq 5000 9 d) ->
  short (hist ++ on_air (map snd l)) ->
  receiver_new (denon_protocol b m) freq = Val r0 ->
  run_edges (D := denon_dec b m) into r0 (hist ++ on_air (map snd l)) = Val (r, os) ->
  commands (skipn (length hist) os) = map into (whole_said heard_denon l).
Proof.
  intros b m freq C into hist l r0 r os Hm Hlo Hf Ht Hno Hbr Hq Hs E0 E.
  rewrite (denon_new_val b m freq Hm Hf) in E0. injection E0 as <-.
  unfold short in Hs. apply Forall_app in Hs. destruct Hs as [Sh Sl].
  destruct (denon_quiet b m freq Hm Hf into hist 0 0) as (sv & pv & os1 & E1 & Hsv & _); auto; [reflexivity|].
  destruct (denon_noisy b m freq C into Hm Hf Hlo l sv pv Hsv Ht) as (sv' & pv' & os2 & E2 & _ & C2); auto.
  { apply Forall_forall. intros [w [[t g] e]] Hi. split.
    - destruct t; try reflexivity. exfalso. exact (Hno _ address command Hi eq_refl).
    - intros Ew. destruct t; try reflexivity. exfalso. exact (Hbr _ word Hi Ew eq_refl). }
  pose proof (run_edges_app_val _ _ _ _ _ _ _ _ E1 E2) as E'. pose proof (eq_trans (eq_sym E) E') as K. injection K as _ ->.
  pose proof (run_edges_length _ _ _ _ _ E1) as L1. unfold edge in *.
  rewrite <- L1, skipn_app, skipn_all, Nat.sub_diag. cbn [app skipn]. etransitivity; [exact C2|].
  symmetry. apply said_map.
Qed.
Print Assumptions C100_denon.

(** *** Concrete cases *)

Lemma broken_ok freq t body n x rest : sent freq t body -> skipn n body = x :: rest -> broken freq t (firstn n body).
Proof.
  intros H E. exists (firstn n body), x, rest. split; [|auto].
  exact (eq_ind_r (sent freq t) H (eq_trans (f_equal (app (firstn n body)) (eq_sym E)) (firstn_skipn n body))).
Qed.
Lemma broken_cut freq t body n x rest d : sent freq t body -> skipn n body = (false, x) :: rest -> rest <> [] -> 1 <= d -> d <= x ->
  broken freq t (firstn n body ++ [(false, d)]).
Proof.
  intros H E Hr Hd1 Hd. exists (firstn n body), (false, x), rest. split; [|right; eauto 8].
  exact (eq_ind_r (sent freq t) H (eq_trans (f_equal (app (firstn n body)) (eq_sym E)) (firstn_skipn n body))).
Qed.

Lemma c100_sent_nec : sent 40000 (TNec 7 9) (pair_edges c67_nec).
Proof.
  split; [reflexivity|]. split; [reflexivity|]. exists c67_nec. split; [reflexivity|]. split; [apply nec_frameb_ok; vm_compute; reflexivity|].
  eexists _, _. split; [reflexivity|]. split; [apply nearb_ok; vm_compute; reflexivity|]. apply Forall_forall. intros x Hx. apply nearb_ok. revert x Hx.
  apply forallb_forall. vm_compute. reflexivity.
Qed.
Lemma c100_sent_rc5 : sent 40000 (TRc5 (2 ^ 13 + 2 ^ 12 + 2 ^ 6 * 5 + 53)) c67_rc5.
Proof. split; [reflexivity|]. split; [reflexivity|]. exists 0. apply rc5_edges_ok. vm_compute. reflexivity. Qed.

(** A NEC frame that breaks off in the mark of its last bit, an RC5 frame without its last edge, then
    both of them whole. *)
Definition c100_nec : list (bool * (transmission * N * list edge)) :=
  [(false, (TNec 7 9, 700, firstn 64 (pair_edges c67_nec) ++ [(false, 15)]));
   (false, (TRc5 (2 ^ 13 + 2 ^ 12 + 2 ^ 6 * 5 + 53), 800, removelast c67_rc5));
   (true, (TNec 7 9, 900, pair_edges c67_nec ++ [(false, 22)]))].
Example C100_example_nec :
  noisy_traffic 40000 c100_nec /\ short (on_air (map snd c100_nec)) /\
  length (on_air (map snd c100_nec)) = 152%nat /\
  option_map commands (outcomes (nec_protocol (debug_build 32) MU32 NecStandard) 40000 (on_air (map snd c100_nec))) = Some [mkNec 7 9 false].
Proof.
  split; [|split; [apply shortb_ok; vm_compute; reflexivity|split; vm_compute; reflexivity]].
  constructor; [|constructor; [|constructor; [|constructor]]]; (split; [vm_compute; reflexivity|]).
  - refine (broken_cut 40000 _ _ 64 _ _ 15 c100_sent_nec _ _ _ _); [vm_compute; reflexivity|discriminate|discriminate|discriminate].
  - exists (removelast c67_rc5), (last c67_rc5 (true, 0)), []. split; [|left; reflexivity].
    rewrite <- app_removelast_last by discriminate. exact c100_sent_rc5.
  - apply with_end; [exact c100_sent_nec|vm_compute; reflexivity].
Qed.

(** For an RC5 receiver: a part of a NEC frame, an RC5 frame without its last edge, one whose last mark but
    one is cut to half, and a whole one. *)
Definition c100_rc5 : list (bool * (transmission * N * list edge)) :=
  [(false, (TNec 7 9, 700, firstn 40 (pair_edges c67_nec)));
   (false, (TRc5 (2 ^ 13 + 2 ^ 12 + 2 ^ 6 * 5 + 53), 800, removelast c67_rc5));
   (false, (TRc5 (2 ^ 13 + 2 ^ 12 + 2 ^ 6 * 5 + 53), 800, firstn 16 c67_rc5 ++ [(false, 36)]));
   (true, (TRc5 (2 ^ 13 + 2 ^ 12 + 2 ^ 6 * 5 + 53), 800, c67_rc5 ++ [(false, 34)]))].
Example C100_example_rc5 :
  noisy_traffic 40000 c100_rc5 /\ short (on_air (map snd c100_rc5)) /\
  option_map commands (outcomes (rc5_protocol (debug_build 32) MU32) 40000 (on_air (map snd c100_rc5))) = Some [mkRc5 5 53 3 false].
Proof.
  split; [|split; [apply shortb_ok; vm_compute; reflexivity|vm_compute; reflexivity]].
  constructor; [|constructor; [|constructor; [|constructor; [|constructor]]]]; (split; [vm_compute; reflexivity|]).
  - exact (broken_ok 40000 _ _ 40 _ _ c100_sent_nec eq_refl).
  - exists (removelast c67_rc5), (last c67_rc5 (true, 0)), []. split; [|left; reflexivity].
    rewrite <- app_removelast_last by discriminate. exact c100_sent_rc5.
  - refine (broken_cut 40000 _ _ 16 _ _ 36 c100_sent_rc5 _ _ _ _); [vm_compute; reflexivity|discriminate|discriminate|discriminate].
  - apply with_end; [exact c100_sent_rc5|vm_compute; reflexivity].
Qed.

(** For an RC6 receiver: a frame that breaks off in its last mark but one, a frame of which nothing but the
    leader is sent, and a whole one. *)
Definition c100_rc6_body : list edge :=
  (false, 107) :: map (fun x : edge => (fst x, 18 * snd x)) (tl (tl (level_edges false 0 (rc6_wave true (bits_msb 16 (2 ^ 8 * 4 + 12)))))).
Lemma c100_sent_rc6 : sent 40000 (TRc6 4 12 true) c100_rc6_body.
Proof.
  split; [reflexivity|]. split; [reflexivity|]. exists 0. apply rc6_edges_ok; [|vm_compute; reflexivity].
  split; [apply nearb_ok; vm_compute; reflexivity|vm_compute; intros Q; discriminate Q].
Qed.
Definition c100_rc6 : list (bool * (transmission * N * list edge)) :=
  [(false, (TRc6 4 12 true, 700, firstn (length c100_rc6_body - 2) c100_rc6_body ++ [(false, 9)]));
   (false, (TRc6 4 12 true, 700, firstn 1 c100_rc6_body));
   (true, (TRc6 4 12 true, 700, c100_rc6_body ++ [(false, 18)]))].
Example C100_example_rc6 :
  noisy_traffic 40000 c100_rc6 /\ short (on_air (map snd c100_rc6)) /\
  option_map commands (outcomes (rc6_protocol (debug_build 32) MU32) 40000 (on_air (map snd c100_rc6))) = Some [mkRc6 4 12 true].
Proof.
  split; [|split; [apply shortb_ok; vm_compute; reflexivity|vm_compute; reflexivity]].
  constructor; [|constructor; [|constructor; [|constructor]]]; (split; [vm_compute; reflexivity|]).
  - refine (broken_cut 40000 _ _ _ _ _ 9 c100_sent_rc6 _ _ _ _); [vm_compute; reflexivity|discriminate|discriminate|discriminate].
  - refine (broken_ok 40000 _ _ 1 _ _ c100_sent_rc6 _). vm_compute. reflexivity.
  - apply with_end; [exact c100_sent_rc6|vm_compute; reflexivity].
Qed.

(** For a Denon receiver: a part of a NEC frame with a mark cut short, a Denon frame, and another part. *)
Lemma c100_sent_denon w ps : w < 2 ^ 48 -> ps = (136, 64) :: map (fun x : bool => if x then (19, 48) else (19, 14)) (bits_lsb 48 w) ->
  denon_frame 40000 w ps -> sent 40000 (TDenon w) (pair_edges ps).
Proof.
  intros Hw -> F. split; [exact Hw|]. eexists. split; [reflexivity|]. split; [exact F|].
  eexists _, _. split; [reflexivity|]. split; [apply nearb_ok; vm_compute; reflexivity|]. apply Forall_forall. intros x Hx.
  apply in_map_iff in Hx. destruct Hx as ([|] & <- & _); apply nearb_ok; vm_compute; reflexivity.
Qed.
Definition c100_denon_pairs (w : N) : list (N * N) :=
  (136, 64) :: map (fun x : bool => if x then (19, 48) else (19, 14)) (bits_lsb 48 w).
Definition c100_denon : list (bool * (transmission * N * list edge)) :=
  [(false, (TNec 7 9, 700, firstn 40 (pair_edges c67_nec) ++ [(false, 15)]));
   (true, (TDenon 8, 700, pair_edges (c100_denon_pairs 8) ++ [(false, 19)]));
   (false, (TNec 7 9, 700, firstn 2 (pair_edges c67_nec)))].
Example C100_example_denon :
  noisy_traffic 40000 c100_denon /\ short (on_air (map snd c100_denon)) /\
  option_map commands (outcomes (denon_protocol (debug_build 32) MU32) 40000 (on_air (map snd c100_denon))) = Some [mkDenon 8].
Proof.
  split; [|split; [apply shortb_ok; vm_compute; reflexivity|vm_compute; reflexivity]].
  constructor; [|constructor; [|constructor; [|constructor]]]; (split; [vm_compute; reflexivity|]).
  - refine (broken_cut 40000 _ _ 40 _ _ 15 c100_sent_nec _ _ _ _); [vm_compute; reflexivity|discriminate|discriminate|discriminate].
  - apply with_end; [|vm_compute; reflexivity]. apply c100_sent_denon; [reflexivity|reflexivity|apply denon_frame_ok; vm_compute; reflexivity].
  - exact (broken_ok 40000 _ _ 2 _ _ c100_sent_nec eq_refl).
Qed.

(** A Denon frame that breaks off does harm to a Denon receiver: its ones appear in the next command. *)
Theorem C100_denon_whole_needed :
  exists l, noisy_traffic 40000 l /\ short (on_air (map snd l)) /\
    map (fun y => (fst y, fst (fst (snd y)))) l = [(false, TDenon 5); (true, TDenon 8)] /\
    option_map commands (outcomes (denon_protocol (debug_build 32) MU32) 40000 (on_air (map snd l))) = Some [mkDenon 13].
Proof.
  exists [(false, (TDenon 5, 700, firstn 20 (pair_edges (c100_denon_pairs 5))));
          (true, (TDenon 8, 700, pair_edges (c100_denon_pairs 8) ++ [(false, 19)]))].
  split; [|split; [apply shortb_ok; vm_compute; reflexivity|split; vm_compute; reflexivity]].
  constructor; [|constructor; [|constructor]]; (split; [vm_compute; reflexivity|]).
  - refine (broken_ok 40000 _ (pair_edges (c100_denon_pairs 5)) 20 _ _ _ _); [|vm_compute; reflexivity].
    apply c100_sent_denon; [reflexivity|reflexivity|apply denon_frame_ok; vm_compute; reflexivity].
  - apply with_end; [|vm_compute; reflexivity]. apply c100_sent_denon; [reflexivity|reflexivity|apply denon_frame_ok; vm_compute; reflexivity].
Qed.
Print Assumptions C100_denon_whole_needed.
