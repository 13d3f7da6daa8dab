(** * Lemmas: what a reported command says about the signal *)
From Coq Require Import NArith ZArith List Bool Lia ZifyBool ZifyNat ZifyN.
From Verif Require Import Machine Spec Bits Time Decoder Nec Denon Sbp Receiver Time_facts Window_facts Run_facts
  Nec_facts Denon_facts Sbp_facts Codec_facts Spec_sound.
Import ListNotations.
Open Scope N_scope.
Ltac Zify.zify_post_hook ::= Z.div_mod_to_equations.

(** ** Histories *)

Lemma last_mark_snoc h e dt : last_mark (h ++ [(e, dt)]) = if e then 0 else dt.
Proof. unfold last_mark. rewrite rev_app_distr. cbn. destruct e; reflexivity. Qed.

Lemma periods_from_snoc h : forall sv e dt,
  periods_from sv (h ++ [(e, dt)]) =
  periods_from sv h ++
  (if e : bool then [match rev h with [] => sv | (false, d) :: _ => d | _ => 0 end + dt] else []).
Proof.
  induction h as [|[e0 d0] h IH]; intros sv e dt.
  - cbn. destruct e; reflexivity.
  - cbn [app periods_from rev].
    assert (E : forall x, match rev h with [] => x | (false, d) :: _ => d | _ => 0 end =
                match rev h ++ [(e0, d0)] with
                | [] => sv | (false, d) :: _ => d | _ => 0 end \/ rev h = []).
    { intros x. destruct (rev h) as [|[[|] d] l]; cbn; auto. }
    destruct e0.
    + rewrite IH. cbn [app]. do 2 f_equal. destruct e; auto. do 2 f_equal.
      destruct (E 0) as [<- | ->]; reflexivity.
    + rewrite IH. f_equal. destruct e; auto. do 2 f_equal.
      destruct (E d0) as [<- | ->]; reflexivity.
Qed.

Lemma periods_snoc h e dt :
  periods (h ++ [(e, dt)]) = periods h ++ (if e : bool then [last_mark h + dt] else []).
Proof.
  unfold periods. rewrite periods_from_snoc. unfold last_mark, edge. destruct e; [|reflexivity]. destruct (rev h) as [|[[|] d] l]; reflexivity.
Qed.

Lemma periods_fit_snoc h e dt : periods_fit (h ++ [(e, dt)]) ->
  periods_fit h /\ (e = true -> last_mark h + dt < 2 ^ 32).
Proof.
  unfold periods_fit. rewrite periods_snoc. intros H. apply Forall_app in H. destruct H as [H1 H2].
  split; auto. intros ->. inversion H2; subst. auto.
Qed.

Lemma dur_add_fits b m freq x y : timebase m freq -> x + y < 2 ^ 32 -> dur_add b m x y = Val (x + y).
Proof.
  intros Hm H. change (2 ^ 32) with 4294967296 in *.
  destruct m as [| |w mi cs]; cbn [dur_add]; unfold uadd; rewrite (proj2 (N.ltb_lt _ _)); auto.
  - change (2 ^ 64) with 18446744073709551616. lia.
  - destruct Hm as [Hw _]. pose proof (pow_ge w Hw). unfold M32 in *. lia.
Qed.

Lemma short_fits_from h : forall sv, sv < 2 ^ 31 -> short h ->
  Forall (fun p => p < 2 ^ 32) (periods_from sv h).
Proof.
  change (2 ^ 31) with 2147483648. change (2 ^ 32) with 4294967296.
  induction h as [|[[|] d] h IH]; intros sv Hv Hs; cbn [periods_from].
  - constructor.
  - inversion Hs as [|x l H1 H2]; subst. change (2 ^ 31) with 2147483648 in H1. cbn [snd] in H1.
    constructor; [lia|]. apply IH; auto. lia.
  - inversion Hs as [|x l H1 H2]; subst. change (2 ^ 31) with 2147483648 in H1. cbn [snd] in H1.
    apply IH; auto.
Qed.

(** Short durations are a special case. *)
Lemma short_fits h : short h -> periods_fit h.
Proof. intros H. apply short_fits_from; auto. reflexivity. Qed.

Lemma val_lsb_snoc bs x : val_lsb (bs ++ [x]) = val_lsb bs + 2 ^ N.of_nat (length bs) * (if x : bool then 1 else 0).
Proof. rewrite val_lsb_app. cbn [val_lsb]. rewrite N.mul_0_r, N.add_0_r. reflexivity. Qed.

Lemma periods_from_app h1 : forall sv h2, exists ps, periods_from sv (h1 ++ h2) = periods_from sv h1 ++ ps.
Proof.
  induction h1 as [|[[|] d] h1 IH]; intros sv h2; cbn [app periods_from].
  - eauto.
  - destruct (IH 0 h2) as [ps ->]. exists ps. reflexivity.
  - apply IH.
Qed.

Lemma periods_fit_app h1 h2 : periods_fit (h1 ++ h2) -> periods_fit h1.
Proof.
  unfold periods_fit, periods. destruct (periods_from_app h1 0 h2) as [ps E]. unfold edge in *. rewrite E. intros H.
  apply Forall_app in H. apply H.
Qed.

Lemma app_eq_len {A} (l1 : list A) : forall l2 r1 r2, l1 ++ r1 = l2 ++ r2 -> length l1 = length l2 -> l1 = l2 /\ r1 = r2.
Proof.
  induction l1 as [|x l1 IH]; intros [|y l2] r1 r2 E L; try discriminate L.
  - auto.
  - cbn [app] in E. injection E as -> E. cbn [length] in L. injection L as L.
    destruct (IH _ _ _ E L) as [-> ->]. auto.
Qed.

Lemma ushl1_lt chk w n x : w <> 0 -> ushl1 chk w n = Val x -> x < 2 ^ w.
Proof.
  unfold ushl1. intros Hw. destruct (N.ltb_spec n w) as [L|L].
  - intros E. assert (x = N.shiftl 1 n) as -> by congruence. rewrite N.shiftl_mul_pow2, N.mul_1_l. apply N.pow_lt_mono_r; lia.
  - destruct chk; [discriminate|]. intros E. assert (x = N.shiftl 1 (n mod w)) as -> by congruence. rewrite N.shiftl_mul_pow2, N.mul_1_l.
    apply N.pow_lt_mono_r; [lia|]. apply N.mod_lt. exact Hw.
Qed.

Lemma lor_small x y w : x < 2 ^ w -> y < 2 ^ w -> N.lor x y < 2 ^ w.
Proof.
  intros Hx Hy. destruct (N.eq_dec (N.lor x y) 0) as [->|Hn]; [lia|].
  apply N.log2_lt_pow2; [lia|]. rewrite N.log2_lor.
  assert (Hw : w <> 0).
  { intros ->. change (2 ^ 0) with 1 in *. assert (x = 0) by lia. assert (y = 0) by lia. subst. apply Hn. reflexivity. }
  assert (A : forall z, z < 2 ^ w -> N.log2 z < w).
  { intros z Hz. destruct (N.eq_dec z 0) as [->|Z]; [cbn; lia|]. apply N.log2_lt_pow2; [lia|auto]. }
  apply N.max_lub_lt; auto.
Qed.

(** ** NEC family *)

Section Nec.
  Variables (b : build) (m : mono) (freq : N) (V : nec_variant).
  Let T := nv_timing V.
  Hypothesis (Hm : timebase m freq) (Hf : freq < M32) (HT : nec_timing_ok T).
  Let ss := spans_of m freq (nec_pulses T).
  Notation D := (nec_dec b m V).
  Context {C : Type} (into : nv_cmd V -> C).
  Notation run := (@run_edges D C into).
  Notation ev := (@event_edge D C into).
  Notation st s buf sv pv := (@mkRecv D (mkNecDec s buf sv ss) pv).
  Let hdr := header_high T + header_low T.
  Let rep := header_high T + repeat_low T.

  Lemma nec_fits_fall s buf sv pv d : nec_live s -> ev (st s buf sv pv) d false = Val (st s buf d pv, ROk None).
  Proof. intros Hs. destruct s; try contradiction; reflexivity. Qed.

  Lemma nec_fits_rise s buf sv pv d : sv + d < 2 ^ 32 ->
    ev (st s buf sv pv) d true =
    let* (buf', s') := nec_transition b s buf (nec_class ss (sv + d)) in
    match nec_to_state s' with
    | Done => Val (st NInit buf' 0 pv,
                   ROk (option_map into (nec_command_of V (mkNecDec s' buf' 0 ss))))
    | Error e => Val (st NInit buf' 0 pv, RErr e)
    | _ => Val (st s' buf' 0 pv, ROk None)
    end.
  Proof.
    intros H1. unfold event_edge. cbn [rv_dec d_event nec_dec D rv_prev d_reset d_command].
    unfold nec_event. cbn [ns_dt_save ns_spans ns_state ns_bitbuf].
    rewrite (dur_add_fits b m freq) by (auto; lia). cbn [bind]. rewrite (N.add_comm d sv).
    change (match spans_get ss (sv + d) with Some i => nec_pw_from i | None => PInvalid end) with (nec_class ss (sv + d)).
    destruct (nec_transition b s buf (nec_class ss (sv + d))) as [[buf' s']| |]; cbn [bind]; auto.
  Qed.

  Lemma nec_seen_class d : match nec_class ss d with
    | PSync => near freq hdr 8 d
    | PRepeat => near freq rep 8 d
    | PZero => nec_seen_bit freq false d
    | POne => nec_seen_bit freq true d
    | PInvalid => True
    end.
  Proof.
    pose proof (nec_class_inv m freq V Hm Hf HT d) as H. fold T in H. fold ss in H.
    revert H; destruct (nec_class ss d); intros H; auto; unfold nec_seen_bit.
    - destruct HT as [E|E]; rewrite E in H; exact H.
    - destruct HT as [E|E]; rewrite E in H; exact H.
  Qed.

  (** What the state says about the periods seen so far. *)
  Definition nec_told (s : nec_state) (buf : N) (ps : list N) : Prop :=
    match s with
    | NInit => True
    | NReceiving i => exists pre hd bs ds, ps = pre ++ hd :: ds /\ near freq hdr 8 hd /\
        Forall2 (nec_seen_bit freq) bs ds /\ i = N.of_nat (length bs) /\ (length bs <= 31)%nat /\
        buf = val_lsb bs
    | _ => False
    end.

  (** The words whose bits the buffer may hold. *)
  Definition nec_report (ps : list N) (x : C) : Prop :=
    exists c, x = into c /\
      ((exists w, ends_in_nec_frame freq hdr w ps /\ nv_unpack V w false = Some c) \/
       (exists w, ends_in_repeat freq rep ps /\ nv_unpack V w true = Some c)).

  Lemma nec_step_bit bs ds ps pre hd bit d :
    ps = pre ++ hd :: ds -> Forall2 (nec_seen_bit freq) bs ds -> nec_seen_bit freq bit d ->
    ps ++ [d] = pre ++ hd :: (ds ++ [d]) /\ Forall2 (nec_seen_bit freq) (bs ++ [bit]) (ds ++ [d]).
  Proof.
    intros -> HF Hd. split; [rewrite <- app_assoc; reflexivity|].
    apply Forall2_app; auto.
  Qed.

  Lemma nec_full bs ds ps pre hd :
    ps = pre ++ hd :: ds -> near freq hdr 8 hd -> Forall2 (nec_seen_bit freq) bs ds -> length bs = 32%nat ->
    ends_in_nec_frame freq hdr (val_lsb bs) ps.
  Proof.
    intros -> Hh HF Hl. exists pre, hd, ds. split; auto. split; auto. split.
    - pose proof (val_lsb_lt bs) as L. rewrite Hl in L. exact L.
    - rewrite <- Hl, bits_val_lsb. exact HF.
  Qed.

  Lemma nec_transition_told s buf ps d :
    nec_live s -> nec_told s buf ps ->
    exists buf' s', nec_transition b s buf (nec_class ss d) = Val (buf', s') /\
      match s' with
      | NInit | NReceiving _ => nec_live s' /\ nec_told s' buf' (ps ++ [d])
      | NDone => ends_in_nec_frame freq hdr buf' (ps ++ [d])
      | NRepeatDone => ends_in_repeat freq rep (ps ++ [d]) /\ buf' = buf /\ s = NInit
      | NErr e => e = EData
      end.
  Proof.
    intros Hl Ht. pose proof (nec_seen_class d) as Hc.
    destruct s as [|i| | |]; try contradiction; cbn [nec_told nec_live] in *.
    - revert Hc; destruct (nec_class ss d); intros Hc; cbn [nec_transition]; do 2 eexists; (split; [reflexivity|]); cbn; auto.
      + split; [lia|]. exists ps, d, [], []. split; auto. split; auto. split; [constructor|]. auto with arith.
      + split; auto. exists ps, d. auto.
    - destruct Ht as (pre & hd & bs & ds & E & Hh & HF & Ei & Hlen & Eb).
      revert Hc; destruct (nec_class ss d); intros Hc; cbn [nec_transition]; try (do 2 eexists; split; [reflexivity|]; reflexivity).
      + destruct (nec_step_bit bs ds ps pre hd false d E HF Hc) as [E' HF'].
        assert (Ev : buf = val_lsb (bs ++ [false])) by (rewrite val_lsb_snoc, N.mul_0_r, N.add_0_r; auto).
        assert (El : length (bs ++ [false]) = S (length bs)) by (rewrite app_length; cbn; lia).
        destruct (N.eqb_spec i 31) as [E31|Hn].
        * do 2 eexists. split; [reflexivity|]. rewrite Ev. apply (nec_full _ (ds ++ [d]) _ pre hd); auto.
          rewrite El. lia.
        * unfold uadd. rewrite (proj2 (N.ltb_lt _ _)) by lia. cbn [bind].
          do 2 eexists; split; [reflexivity|]. cbn [nec_live]. split; [lia|].
          exists pre, hd, (bs ++ [false]), (ds ++ [d]). rewrite El.
          split; auto. split; auto. split; auto. split; [lia|]. split; [lia|auto].
      + destruct (nec_step_bit bs ds ps pre hd true d E HF Hc) as [E' HF'].
        assert (El : length (bs ++ [true]) = S (length bs)) by (rewrite app_length; cbn; lia).
        assert (Ev : N.lor buf (N.shiftl 1 i) = val_lsb (bs ++ [true])).
        { rewrite val_lsb_snoc, <- Eb, <- Ei, (N.mul_comm (2 ^ i)).
          apply lor_add. rewrite Eb, Ei. apply val_lsb_lt. }
        unfold ushl1.
        destruct (N.eqb_spec i 31) as [E31|Hn].
        * change (31 <? 32) with true. cbn [bind]. do 2 eexists. split; [reflexivity|].
          rewrite E31 in Ev. rewrite Ev. apply (nec_full _ (ds ++ [d]) _ pre hd); auto. rewrite El. lia.
        * rewrite (proj2 (N.ltb_lt _ _)) by lia. cbn [bind].
          unfold uadd. rewrite (proj2 (N.ltb_lt _ _)) by lia. cbn [bind].
          do 2 eexists; split; [reflexivity|]. cbn [nec_live]. split; [lia|].
          exists pre, hd, (bs ++ [true]), (ds ++ [d]). rewrite El.
          split; auto. split; auto. split; auto. split; [lia|]. split; [lia|auto].
  Qed.

  (** One more edge. *)
  Lemma nec_sound_step s buf sv pv ps e d :
    nec_live s -> nec_told s buf ps -> (e = true -> sv + d < 2 ^ 32) ->
    exists s' buf' o, ev (st s buf sv pv) d e = Val (st s' buf' (if e then 0 else d) pv, o) /\
      nec_live s' /\ nec_told s' buf' (ps ++ if e then [sv + d] else []) /\
      ((o = ROk None /\ (s' = NInit -> s = NInit /\ buf' = buf)) \/
       o = RErr EData \/
       (e = true /\ s' = NInit /\ ends_in_nec_frame freq hdr buf' (ps ++ [sv + d]) /\
        o = ROk (option_map into (nv_unpack V buf' false))) \/
       (e = true /\ s = NInit /\ s' = NInit /\ buf' = buf /\ ends_in_repeat freq rep (ps ++ [sv + d]) /\
        o = ROk (option_map into (nv_unpack V buf' true)))).
  Proof.
    intros Hl Ht Hd. destruct e.
    - rewrite nec_fits_rise by auto.
      destruct (nec_transition_told s buf ps (sv + d) Hl Ht) as (buf' & s' & E & K). rewrite E. cbn [bind].
      destruct s' as [|i| | |er]; cbn [nec_to_state].
      + exists NInit, buf', (ROk None). destruct K as [K1 K2]. split; auto. split; auto. split; auto. left.
        split; auto. intros _.
        destruct s as [|i| | |]; try contradiction.
        * destruct (nec_class ss (sv + d)); cbn [nec_transition] in E; injection E; auto; discriminate.
        * exfalso. clear -E. destruct (nec_class ss (sv + d)); cbn [nec_transition] in E; try discriminate E.
          -- destruct (i =? 31); [discriminate|]. destruct (uadd _ _ _ _); discriminate.
          -- destruct (i =? 31); [destruct (ushl1 _ _ _); discriminate|].
             destruct (ushl1 _ _ _); cbn [bind] in E; [destruct (uadd _ _ _ _); discriminate|discriminate|discriminate].
      + exists (NReceiving i), buf', (ROk None). destruct K as [K1 K2]. split; auto. split; auto. split; auto. left.
        split; auto. discriminate.
      + eexists NInit, buf', _. split; [reflexivity|]. split; [exact I|]. split; [exact I|].
        right. right. left. auto.
      + destruct K as (K1 & K2 & K3). eexists NInit, buf', _. split; [reflexivity|]. split; [exact I|]. split; [exact I|].
        right. right. right. rewrite K2. auto 8.
      + subst er. eexists NInit, buf', _. split; [reflexivity|]. split; [exact I|]. split; [exact I|]. auto.
    - rewrite nec_fits_fall by auto. exists s, buf, (ROk None). rewrite app_nil_r. auto 8.
  Qed.

  (** A whole history. *)
  Lemma nec_sound_run h r0 r os :
    receiver_new (nec_protocol b m V) freq = Val r0 -> periods_fit h ->
    run r0 h = Val (r, os) ->
    exists s buf pv, r = st s buf (last_mark h) pv /\ nec_live s /\ nec_told s buf (periods h).
  Proof.
    intros E0 Hfit. rewrite (nec_new_val b m freq V) in E0 by auto. injection E0 as <-.
    revert r os Hfit. induction h as [|[e d] h IH] using rev_ind; intros r os Hfit E.
    - cbn [run_edges] in E. injection E as <- <-. exists NInit, 0, 0. split; auto. split; exact I.
    - apply run_edges_snoc in E. destruct E as (r1 & os1 & o & E1 & E2 & ->).
      apply periods_fit_snoc in Hfit. destruct Hfit as [Hfit Hd].
      destruct (IH _ _ Hfit E1) as (s & buf & pv & -> & Hl & Ht).
      destruct (nec_sound_step s buf (last_mark h) pv (periods h) e d Hl Ht Hd)
        as (s' & buf' & o' & E & Hl' & Ht' & _).
      rewrite E in E2. injection E2 as <- <-. exists s', buf', pv.
      rewrite last_mark_snoc, periods_snoc. auto.
  Qed.

  (** The buffer always fits its type. *)
  Lemma nec_ev_word s buf sv pv d e r' o : buf < 2 ^ 32 ->
    ev (st s buf sv pv) d e = Val (r', o) -> ns_bitbuf (rv_dec r') < 2 ^ 32.
  Proof.
    intros Hb. unfold event_edge. cbn [rv_dec d_event nec_dec D rv_prev d_reset d_command].
    destruct (nec_event b m (mkNecDec s buf sv ss) e d) as [[d' s']| |] eqn:E; cbn [bind]; try discriminate.
    assert (K : ns_bitbuf d' < 2 ^ 32).
    { unfold nec_event in E. cbn [ns_dt_save ns_spans ns_state ns_bitbuf] in E.
      destruct e; [|injection E as <- _; exact Hb].
      destruct (dur_add b m d sv) as [t| |]; cbn [bind] in E; try discriminate.
      destruct (nec_transition b s buf _) as [[buf' s1]| |] eqn:Et; cbn [bind] in E; try discriminate.
      injection E as <- _. cbn [ns_bitbuf].
      clear -Et Hb. destruct s as [|i| | |]; cbn [nec_transition] in Et.
      - destruct (match spans_get ss t with Some i => nec_pw_from i | None => PInvalid end);
          injection Et as <- _; auto; reflexivity.
      - destruct (match spans_get ss t with Some i => nec_pw_from i | None => PInvalid end);
          try (injection Et as <- _; exact Hb).
        + destruct (i =? 31); [injection Et as <- _; exact Hb|].
          destruct (uadd _ _ i 1); cbn [bind] in Et; try discriminate. injection Et as <- _. exact Hb.
        + destruct (i =? 31).
          * destruct (ushl1 _ _ _) as [mk| |] eqn:Es; cbn [bind] in Et; try discriminate. injection Et as <- _.
            apply lor_small; auto. eapply ushl1_lt; [|exact Es]. discriminate.
          * destruct (ushl1 _ _ _) as [mk| |] eqn:Es; cbn [bind] in Et; try discriminate.
            destruct (uadd _ _ i 1); cbn [bind] in Et; try discriminate. injection Et as <- _.
            apply lor_small; auto. eapply ushl1_lt; [|exact Es]. discriminate.
      - injection Et as <- _. exact Hb.
      - injection Et as <- _. exact Hb.
      - injection Et as <- _. exact Hb. }
    destruct s'; intros E'; injection E' as <- _; exact K.
  Qed.

  Lemma nec_sound_word h r0 r os :
    receiver_new (nec_protocol b m V) freq = Val r0 -> periods_fit h ->
    run r0 h = Val (r, os) -> ns_bitbuf (rv_dec r) < 2 ^ 32.
  Proof.
    intros E0. revert r os. induction h as [|[e d] h IH] using rev_ind; intros r os Hfit E.
    - cbn [run_edges] in E. injection E as <- _. rewrite (nec_new_val b m freq V) in E0 by auto.
      injection E0 as <-. reflexivity.
    - apply run_edges_snoc in E. destruct E as (r1 & os1 & o & E1 & E2 & ->).
      apply periods_fit_snoc in Hfit. destruct Hfit as [Hfit Hd].
      specialize (IH _ _ Hfit E1).
      destruct (nec_sound_run h r0 r1 os1 E0 Hfit E1) as (s & buf & pv & -> & _ & _).
      exact (nec_ev_word s buf _ pv d e r o IH E2).
  Qed.

  (** The last edge of a history that ends with a report. *)
  Lemma nec_sound_report h e d r0 r os x :
    receiver_new (nec_protocol b m V) freq = Val r0 -> periods_fit (h ++ [(e, d)]) ->
    run r0 (h ++ [(e, d)]) = Val (r, os ++ [ROk (Some x)]) ->
    e = true /\ exists w pv c, r = st NInit w 0 pv /\ x = into c /\
      ((ends_in_nec_frame freq hdr w (periods (h ++ [(e, d)])) /\ nv_unpack V w false = Some c) \/
       (ends_in_repeat freq rep (periods (h ++ [(e, d)])) /\ nv_unpack V w true = Some c)).
  Proof.
    intros E0 Hfit E. apply run_edges_snoc in E. destruct E as (r1 & os1 & o & E1 & E2 & Eo).
    apply app_inj_tail in Eo. destruct Eo as [<- <-].
    apply periods_fit_snoc in Hfit. destruct Hfit as [Hfit Hd].
    destruct (nec_sound_run h r0 r1 os E0 Hfit E1) as (s & buf & pv & -> & Hl & Ht).
    destruct (nec_sound_step s buf (last_mark h) pv (periods h) e d Hl Ht Hd)
      as (s' & buf' & o' & E & Hl' & Ht' & K).
    rewrite E in E2. injection E2 as <- Eo. rewrite periods_snoc.
    destruct K as [(K & _)|[K|[(-> & -> & K1 & K2)|(-> & _ & -> & -> & K1 & K2)]]]; try discriminate; try (rewrite K in Eo; discriminate).
    - split; auto. destruct (nv_unpack V buf' false) as [c|] eqn:Ec; [|rewrite K2 in Eo; discriminate].
      cbn [option_map] in K2. rewrite K2 in Eo; injection Eo as <-. exists buf', pv, c. auto 6.
    - split; auto. destruct (nv_unpack V buf true) as [c|] eqn:Ec; [|rewrite K2 in Eo; discriminate].
      cbn [option_map] in K2. rewrite K2 in Eo; injection Eo as <-. exists buf, pv, c. auto 6.
  Qed.

  (** Between two reports with nothing reported in between, the word is kept. *)
  Lemma nec_sound_between (flagless : forall w, nv_unpack V w false = None -> nv_unpack V w true = None)
    h1 r0 r1 os1 w pv h2 r2 os2 :
    receiver_new (nec_protocol b m V) freq = Val r0 -> periods_fit (h1 ++ h2) ->
    run r0 h1 = Val (r1, os1) -> r1 = st NInit w (last_mark h1) pv ->
    run r1 h2 = Val (r2, os2) -> Forall (fun o => o = ROk None) os2 ->
    exists s buf, r2 = st s buf (last_mark (h1 ++ h2)) pv /\ nec_live s /\ nec_told s buf (periods (h1 ++ h2)) /\
      (s = NInit -> buf = w \/ nv_unpack V buf true = None).
  Proof.
    intros E0 Hfit E1 Er1. revert r2 os2 Hfit. induction h2 as [|[e d] h2 IH] using rev_ind; intros r2 os2 Hfit E2 HF.
    - cbn [run_edges] in E2. injection E2 as <- <-. rewrite app_nil_r in *.
      exists NInit, w. split; auto. split; [exact I|]. split; [exact I|]. auto.
    - apply run_edges_snoc in E2. destruct E2 as (r & os & o & E & E2 & ->).
      apply Forall_app in HF. destruct HF as [HF Ho]. inversion Ho as [|x l Ho' _]; subst x l o. clear Ho.
      unfold edge in *. rewrite app_assoc in Hfit. apply periods_fit_snoc in Hfit. destruct Hfit as [Hfit Hd].
      destruct (IH _ _ Hfit E HF) as (s & buf & -> & Hl & Ht & Hw).
      destruct (nec_sound_step s buf (last_mark (h1 ++ h2)) pv (periods (h1 ++ h2)) e d Hl Ht Hd)
        as (s' & buf' & o' & E' & Hl' & Ht' & K).
      rewrite E' in E2. injection E2 as <- ->. exists s', buf'.
      rewrite app_assoc, last_mark_snoc, periods_snoc. split; auto. split; auto. split; auto.
      destruct K as [(_ & K)|[K|[(-> & -> & K1 & K2)|(-> & _ & -> & -> & K1 & K2)]]]; try discriminate.
      + intros Es. destruct (K Es) as [Es' ->]. auto.
      + intros _. right. apply flagless. destruct (nv_unpack V buf' false); [discriminate|reflexivity].
      + intros _. right. destruct (nv_unpack V buf true); [discriminate|reflexivity].
  Qed.

  (** *** Repeat codes *)

  Lemma nec_repeat_run w pv blocks :
    Forall (fun x => is_pulse m freq V PInvalid (fst x) /\ is_pulse m freq V PRepeat (snd x)) blocks ->
    run (st NInit w 0 pv) (pair_edges (flat_map (fun x => [fst x; snd x]) blocks)) =
    Val (st NInit w 0 pv,
         flat_map (fun _ => [ROk None; ROk None; ROk None; ROk (option_map into (nv_unpack V w true))]) blocks).
  Proof.
    induction blocks as [|x blocks IH]; intros HF; [reflexivity|].
    inversion HF as [|y l [(A1 & A2 & A3) (B1 & B2 & B3)] HF']; subst. clear HF.
    cbn [flat_map app]. fold T in A3, B3. fold ss in A3, B3.
    unfold ss, T. rewrite nec_pair by (auto; exact I). rewrite nec_ev_rise by auto. fold T. fold ss. rewrite A3.
    cbn [nec_transition bind nec_to_state].
    unfold ss, T. rewrite nec_pair by (auto; exact I). rewrite nec_ev_rise by auto. fold T. fold ss. rewrite B3.
    cbn [nec_transition bind nec_to_state]. rewrite IH by auto. cbn [bind]. reflexivity.
  Qed.
End Nec.

(** ** Denon *)

Section Denon.
  Variables (b : build) (m : mono) (freq : N).
  Hypothesis (Hm : timebase m freq) (Hf : freq < M32).
  Let ss := spans_of m freq denon_pulses.
  Notation D := (denon_dec b m).
  Context {C : Type} (into : denon_command -> C).
  Notation run := (@run_edges D C into).
  Notation ev := (@event_edge D C into).
  Notation st s buf sv pv := (@mkRecv D (mkDenonDec s buf sv ss) pv).

  Definition not_sync (ps : list N) : Prop := Forall (fun p => ~ near freq 5000 9 p) ps.

  Lemma denon_fits_rise s buf sv pv d : sv + d < 2 ^ 32 ->
    ev (st s buf sv pv) d true =
    let* (buf', s') := denon_transition b s buf (denon_class ss (sv + d)) in
    match s' with
    | DDone => Val (st DIdle 0 0 pv, ROk (Some (into (mkDenon buf'))))
    | _ => Val (st s' buf' 0 pv, ROk None)
    end.
  Proof.
    intros H1. unfold event_edge. cbn [rv_dec d_event denon_dec D rv_prev d_reset d_command].
    unfold denon_event. cbn [dn_dt_save dn_spans dn_state dn_buf].
    rewrite (dur_add_fits b m freq) by auto. cbn [bind].
    change (match spans_get ss (sv + d) with Some i => denon_pw_from i | None => DFail end) with (denon_class ss (sv + d)).
    destruct (denon_transition b s buf (denon_class ss (sv + d))) as [[buf' s']| |]; cbn [bind]; auto.
    destruct s'; reflexivity.
  Qed.

  (** What the state says about the periods [ps] seen since the buffer was [buf0]. *)
  Definition denon_told (s : denon_state) (buf : N) (ps : list N) : Prop :=
    buf < 2 ^ 47 /\
    match s with
    | DIdle => not_sync ps -> buf = 0
    | DData i => exists pre hd bs ds, ps = pre ++ hd :: ds /\ near freq 5000 9 hd /\
        Forall2 (denon_seen_bit freq) bs ds /\ i = N.of_nat (length bs) /\ (length bs <= 47)%nat /\
        (forall k, N.testbit (val_lsb bs) k = true -> N.testbit buf k = true) /\
        (not_sync pre -> buf = val_lsb bs)
    | DDone => False
    end.

  Lemma denon_told_live s buf ps : denon_told s buf ps -> denon_live s buf.
  Proof.
    intros [H1 H2]. split; auto. destruct s as [|i|]; auto.
    destruct H2 as (pre & hd & bs & ds & _ & _ & _ & -> & H & _). lia.
  Qed.

  (** What a report says. *)
  Definition denon_tells (ps : list N) (c : denon_command) : Prop :=
    exists pre hd ds w, ps = pre ++ hd :: ds /\ is_denon_frame freq w hd ds /\
      Denon.denon_bits c < 2 ^ 47 /\
      (forall k, k < 47 -> N.testbit w k = true -> N.testbit (Denon.denon_bits c) k = true) /\
      (not_sync pre -> Denon.denon_bits c = w mod 2 ^ 47).

  Lemma denon_seen_class d bit : denon_class ss d = denon_bit_pw bit -> denon_seen_bit freq bit d.
  Proof.
    intros E. pose proof (denon_class_inv m freq Hm Hf d) as H. fold ss in H. rewrite E in H.
    destruct bit; exact H.
  Qed.

  Lemma denon_transition_told s buf ps d : denon_told s buf ps ->
    exists buf' s', denon_transition b s buf (denon_class ss d) = Val (buf', s') /\
      match s' with
      | DDone => denon_tells (ps ++ [d]) (mkDenon buf')
      | _ => denon_told s' buf' (ps ++ [d])
      end.
  Proof.
    intros Ht. pose proof Ht as [Hb Hs]. pose proof (denon_class_inv m freq Hm Hf d) as Hc. fold ss in Hc.
    assert (NS : forall l1 l2, not_sync (l1 ++ l2) -> not_sync l1 /\ not_sync l2)
      by (intros l1 l2; apply Forall_app).
    destruct s as [|i|]; try contradiction.
    - revert Hc. destruct (denon_class ss d); intros Hc; cbn [denon_transition]; do 2 eexists; (split; [reflexivity|]);
        (split; [exact Hb|]); try (intros K; apply NS in K; tauto).
      exists ps, d, [], []. split; auto. split; auto. split; [constructor|]. split; auto. split; [cbn; lia|].
      split; [|exact Hs]. intros k. cbn [val_lsb]. rewrite N.bits_0. discriminate.
    - destruct Hs as (pre & hd & bs & ds & E & Hh & HF & Ei & Hlen & Hbits & Hex).
      assert (Q : (exists bit, denon_class ss d = denon_bit_pw bit) \/
                  denon_transition b (DData i) buf (denon_class ss d) = Val (buf, DIdle)).
      { destruct (denon_class ss d); auto; left; [exists false|exists true]; reflexivity. }
      destruct Q as [[bit Eb]|Q].
      2: { rewrite Q. do 2 eexists. split; [reflexivity|]. split; auto. intros K. exfalso. rewrite E in K.
           apply NS in K. destruct K as [K _]. apply NS in K. destruct K as [_ K]. inversion K; subst. contradiction. }
      rewrite Eb, (denon_step b freq Hf) by lia.
      assert (E' : ps ++ [d] = pre ++ hd :: (ds ++ [d])) by (rewrite E, <- app_assoc; reflexivity).
      assert (HF' : Forall2 (denon_seen_bit freq) (bs ++ [bit]) (ds ++ [d])).
      { apply Forall2_app; auto. constructor; [|constructor]. apply denon_seen_class. exact Eb. }
      assert (El : length (bs ++ [bit]) = S (length bs)) by (rewrite app_length; cbn; lia).
      assert (Lb : val_lsb bs < 2 ^ i) by (rewrite Ei; apply val_lsb_lt).
      destruct (N.eqb_spec i 47) as [E47|Hn].
      + do 2 eexists. split; [reflexivity|]. rewrite E47 in Lb.
        exists pre, hd, (ds ++ [d]), (val_lsb (bs ++ [bit])). split; auto. split.
        { split; auto. assert (L48 : length (bs ++ [bit]) = 48%nat) by lia. split.
          - pose proof (val_lsb_lt (bs ++ [bit])) as L. rewrite L48 in L. exact L.
          - rewrite <- L48, bits_val_lsb. exact HF'. }
        assert (Em : val_lsb (bs ++ [bit]) mod 2 ^ 47 = val_lsb bs).
        { rewrite val_lsb_snoc. replace (N.of_nat (length bs)) with 47 by lia.
          rewrite (N.mul_comm (2 ^ 47)), N.mod_add by discriminate. apply N.mod_small. exact Lb. }
        cbn [Denon.denon_bits]. split; auto. split; [|rewrite Em; auto].
        intros k Hk Hw. apply Hbits. rewrite <- Em, N.mod_pow2_bits_low by exact Hk. exact Hw.
      + do 2 eexists. split; [reflexivity|]. split.
        { apply lor_small; auto. destruct bit; [|reflexivity]. apply N.pow_lt_mono_r; lia. }
        assert (Ev : val_lsb (bs ++ [bit]) = N.lor (val_lsb bs) (if bit then 2 ^ i else 0)).
        { rewrite val_lsb_snoc, <- Ei. destruct bit.
          - rewrite N.mul_1_r. rewrite <- (N.mul_1_l (2 ^ i)) at 2. rewrite <- N.shiftl_mul_pow2, lor_add by exact Lb. lia.
          - rewrite N.mul_0_r, N.add_0_r, N.lor_0_r. reflexivity. }
        exists pre, hd, (bs ++ [bit]), (ds ++ [d]). rewrite El.
        split; auto. split; auto. split; auto. split; [lia|]. split; [lia|]. rewrite Ev. split.
        * intros k. rewrite !N.lor_spec, !orb_true_iff. intros [K|K]; auto.
        * intros K. rewrite (Hex K). reflexivity.
  Qed.

  Lemma denon_sound_step s buf sv pv ps e d :
    denon_told s buf ps -> (e = true -> sv + d < 2 ^ 32) ->
    exists s' buf' o, ev (st s buf sv pv) d e = Val (st s' buf' (if e then 0 else d) pv, o) /\
      ((o = ROk None /\ denon_told s' buf' (ps ++ if e then [sv + d] else [])) \/
       (e = true /\ s' = DIdle /\ buf' = 0 /\ exists c, o = ROk (Some (into c)) /\ denon_tells (ps ++ [sv + d]) c)).
  Proof.
    intros Ht Hd. destruct e.
    - rewrite denon_fits_rise by auto.
      destruct (denon_transition_told s buf ps (sv + d) Ht) as (buf' & s' & -> & K). cbn [bind].
      destruct s' as [|i|].
      + exists DIdle, buf', (ROk None). auto.
      + exists (DData i), buf', (ROk None). auto.
      + eexists DIdle, 0, _. split; [reflexivity|]. right. do 3 (split; auto). eexists. split; [reflexivity|]. exact K.
    - unfold ss. rewrite denon_ev_fall by (eapply denon_told_live; exact Ht).
      exists s, buf, (ROk None). rewrite app_nil_r. auto.
  Qed.

  (** The state after a history: what it says about the periods since the last report. *)
  Lemma denon_sound_run h r0 r os :
    receiver_new (denon_protocol b m) freq = Val r0 -> periods_fit h -> run r0 h = Val (r, os) ->
    exists s buf pv pre ps, r = st s buf (last_mark h) pv /\ periods h = pre ++ ps /\ denon_told s buf ps.
  Proof.
    intros E0 Hfit. rewrite (denon_new_val b m freq Hm Hf) in E0. injection E0 as <-.
    revert r os Hfit. induction h as [|[e d] h IH] using rev_ind; intros r os Hfit E.
    - cbn [run_edges] in E. injection E as <- <-. exists DIdle, 0, 0, [], []. split; auto. split; auto. split; [reflexivity|]. auto.
    - apply run_edges_snoc in E. destruct E as (r1 & os1 & o & E1 & E2 & ->).
      apply periods_fit_snoc in Hfit. destruct Hfit as [Hfit Hd].
      destruct (IH _ _ Hfit E1) as (s & buf & pv & pre & ps & -> & Ep & Ht).
      destruct (denon_sound_step s buf (last_mark h) pv ps e d Ht Hd) as (s' & buf' & o' & E & K).
      rewrite E in E2. injection E2 as <- <-. exists s', buf', pv.
      rewrite last_mark_snoc, periods_snoc. destruct K as [(-> & Ht')|(-> & -> & -> & _)].
      + exists pre, (ps ++ if e then [last_mark h + d] else []). rewrite Ep, app_assoc. auto.
      + exists (periods h ++ [last_mark h + d]), []. rewrite app_nil_r. split; auto. split; auto.
        split; [reflexivity|]. auto.
  Qed.

  (** The same, with the starting point named: nothing reported in [h2]. *)
  Lemma denon_sound_since h1 h2 r0 r1 os1 r2 os2 :
    receiver_new (denon_protocol b m) freq = Val r0 -> periods_fit (h1 ++ h2) ->
    run r0 h1 = Val (r1, os1) -> run r1 h2 = Val (r2, os2) ->
    h1 = [] \/ (exists os y, os1 = os ++ [ROk (Some y)]) ->
    Forall (fun o => o = ROk None) os2 ->
    exists s buf pv ps, r2 = st s buf (last_mark (h1 ++ h2)) pv /\ periods (h1 ++ h2) = periods h1 ++ ps /\ denon_told s buf ps.
  Proof.
    intros E0 Hfit E1 E2 H1 HF. revert r2 os2 Hfit E2 HF.
    induction h2 as [|[e d] h2 IH] using rev_ind; intros r2 os2 Hfit E2 HF.
    - cbn [run_edges] in E2. injection E2 as <- <-. rewrite app_nil_r in *.
      assert (K : exists pv, r1 = st DIdle 0 (last_mark h1) pv).
      { destruct H1 as [-> |(os & y & ->)].
        - cbn [run_edges] in E1. injection E1 as <- _. rewrite (denon_new_val b m freq Hm Hf) in E0. injection E0 as <-.
          exists 0. reflexivity.
        - destruct h1 as [|[e1 d1] h1 _] using rev_ind.
          { cbn [run_edges] in E1. injection E1 as _ E1. destruct os; discriminate. }
          apply run_edges_snoc in E1. destruct E1 as (r & os' & o & E1 & E & Eo).
          apply app_inj_tail in Eo. destruct Eo as [<- <-].
          apply periods_fit_snoc in Hfit. destruct Hfit as [Hfit Hd].
          destruct (denon_sound_run h1 r0 r os E0 Hfit E1) as (s & buf & pv & pre & ps & -> & _ & Ht).
          destruct (denon_sound_step s buf (last_mark h1) pv ps e1 d1 Ht Hd) as (s' & buf' & o' & E' & K).
          rewrite E' in E. injection E as <- ->. rewrite last_mark_snoc.
          destruct K as [(K & _)|(-> & -> & -> & _)]; [discriminate|]. exists pv. reflexivity. }
      destruct K as [pv ->]. exists DIdle, 0, pv, []. rewrite app_nil_r. split; auto. split; auto. split; [reflexivity|]. auto.
    - apply run_edges_snoc in E2. destruct E2 as (r & os & o & E & E2 & ->).
      apply Forall_app in HF. destruct HF as [HF Ho]. inversion Ho as [|x l Ho' _]; subst x l o. clear Ho.
      unfold edge in *. rewrite app_assoc in Hfit. apply periods_fit_snoc in Hfit. destruct Hfit as [Hfit Hd].
      destruct (IH _ _ Hfit E HF) as (s & buf & pv & ps & -> & Ep & Ht).
      destruct (denon_sound_step s buf (last_mark (h1 ++ h2)) pv ps e d Ht Hd) as (s' & buf' & o' & E' & K).
      unfold edge in *. rewrite E' in E2. injection E2 as <- ->.
      destruct K as [(_ & K)|(_ & _ & _ & c & K & _)]; [|discriminate].
      exists s', buf', pv, (ps ++ if e then [last_mark (h1 ++ h2) + d] else []).
      rewrite app_assoc, last_mark_snoc, periods_snoc, Ep, <- app_assoc. auto.
  Qed.
End Denon.

(** ** Samsung BluRay *)

Lemma readings_short h ps sv : readings h ps sv -> short h -> sv < 2 ^ 31.
Proof.
  unfold short. intros R. induction R as [|h ps sv d R IH|h ps sv d R IH|h ps sv d R IH]; intros Hs; try reflexivity.
  - apply Forall_app in Hs. destruct Hs as [_ Hs]. inversion Hs; subst. assumption.
  - apply Forall_app in Hs. apply IH, Hs.
Qed.

Lemma no_double_rise_snoc h e d : no_double_rise (h ++ [(e, d)]) ->
  no_double_rise h /\ (e = true -> h = [] \/ exists h' d', h = h' ++ [(false, d')]).
Proof.
  induction h as [|[e0 d0] h IH]; [cbn; auto|].
  destruct h as [|[e1 d1] h].
  - intros H. split; [destruct e0; exact I|]. intros ->. right. cbn in H. destruct e0; [contradiction|]. exists [], d0. reflexivity.
  - intros H. assert (H' : no_double_rise (((e1, d1) :: h) ++ [(e, d)]))
      by (cbn [app no_double_rise] in *; destruct e0, e1; try contradiction; exact H).
    apply IH in H'. destruct H' as [A B]. split.
    + cbn [app no_double_rise] in *. destruct e0, e1; try contradiction; exact A.
    + intros He. right. destruct (B He) as [B'|(h' & d' & B')]; [discriminate|].
      exists ((e0, d0) :: h'), d'. rewrite B'. reflexivity.
Qed.

(** On physical edge sequences the readings are the periods. *)
Lemma readings_periods h ps sv : readings h ps sv -> no_double_rise h ->
  ps = periods h /\ (h = [] \/ (exists h' d, h = h' ++ [(false, d)]) -> sv = last_mark h).
Proof.
  intros R. induction R as [|h ps sv d R IH|h ps sv d R IH|h ps sv d R IH]; intros Hn.
  - auto.
  - apply no_double_rise_snoc in Hn. destruct Hn as [Hn _]. rewrite periods_snoc, app_nil_r, last_mark_snoc.
    split; [apply IH, Hn|]. auto.
  - apply no_double_rise_snoc in Hn. destruct Hn as [Hn Hr]. rewrite periods_snoc.
    destruct (IH Hn) as [-> Hv]. rewrite (Hv (Hr eq_refl)). split; auto.
    intros [K|(h' & d' & K)]; [destruct h; discriminate|]. apply app_inj_tail in K. destruct K; discriminate.
  - apply no_double_rise_snoc in Hn. destruct Hn as [Hn Hr]. rewrite periods_snoc.
    destruct (IH Hn) as [-> Hv]. rewrite (Hv (Hr eq_refl)). split; auto.
    intros [K|(h' & d' & K)]; [destruct h; discriminate|]. apply app_inj_tail in K. destruct K; discriminate.
Qed.

Section Sbp.
  Variables (b : build) (m : mono) (freq : N).
  Hypothesis (Hm : timebase m freq) (Hf : freq < M32).
  Let ss := spans_of m freq sbp_pulses.
  Notation D := (sbp_dec b m).
  Context {C : Type} (into : sbp_command -> C).
  Notation run := (@run_edges D C into).
  Notation ev := (@event_edge D C into).
  Notation st s a c sv pv := (@mkRecv D (mkSbpDec s a c sv ss) pv).

  Lemma sbp_fits_rise s a c sv pv d : sv + d < 2 ^ 32 ->
    ev (st s a c sv pv) d true =
    let* (s', a', c') := sbp_transition b s a c (sbp_class ss (sv + d)) in
    match sbp_to_state s' with
    | Done => Val (st SInit 0 0 0 pv, ROk (Some (into (sbp_unpack a' c'))))
    | Error e => Val (st SInit 0 0 0 pv, RErr e)
    | _ => Val (st s' a' c' sv pv, ROk None)
    end.
  Proof.
    intros H1. unfold event_edge. cbn [rv_dec d_event sbp_dec D rv_prev d_reset d_command].
    unfold sbp_event. cbn [sb_since_rising sb_spans sb_state sb_address sb_command].
    rewrite (dur_add_fits b m freq) by auto. cbn [bind].
    change (match spans_get ss (sv + d) with Some i => sbp_pw_from i | None => SbNot end) with (sbp_class ss (sv + d)).
    destruct (sbp_transition b s a c (sbp_class ss (sv + d))) as [[[s' a'] c']| |]; cbn [bind]; auto.
  Qed.

  Definition sbp_told (s : sbp_state) (a c : N) (ps : list N) : Prop :=
    match s with
    | SInit => a = 0 /\ c = 0
    | SAddress i => exists pre hd bs ads, ps = pre ++ hd :: ads /\ near freq 9000 6 hd /\
        Forall2 (sbp_seen_bit freq) bs ads /\ i = N.of_nat (length bs) /\ (length bs <= 15)%nat /\
        a = val_lsb bs /\ c = 0
    | SDivider => exists pre hd bs ads, ps = pre ++ hd :: ads /\ near freq 9000 6 hd /\
        Forall2 (sbp_seen_bit freq) bs ads /\ length bs = 16%nat /\ a = val_lsb bs /\ c = 0
    | SCommand i => exists pre hd bs ads pause bs' cds, ps = pre ++ hd :: ads ++ pause :: cds /\ near freq 9000 6 hd /\
        Forall2 (sbp_seen_bit freq) bs ads /\ length bs = 16%nat /\ a = val_lsb bs /\ near freq 5000 6 pause /\
        Forall2 (sbp_seen_bit freq) bs' cds /\ i = N.of_nat (length bs') /\ (length bs' <= 19)%nat /\ c = val_lsb bs'
    | _ => False
    end.

  Lemma sbp_told_live s a c ps : sbp_told s a c ps -> sbp_live s a c.
  Proof.
    destruct s as [|i| |i| |e]; cbn [sbp_told sbp_live]; try tauto.
    - intros (pre & hd & bs & ads & _ & _ & _ & -> & L & -> & ->). split; [lia|]. split; auto. apply val_lsb_lt.
    - intros (pre & hd & bs & ads & _ & _ & _ & L & -> & ->). split; auto.
      pose proof (val_lsb_lt bs) as V. rewrite L in V. exact V.
    - intros (pre & hd & bs & ads & pause & bs' & cds & _ & _ & _ & L & -> & _ & _ & -> & L' & ->).
      split; [lia|]. split; [|apply val_lsb_lt]. pose proof (val_lsb_lt bs) as V. rewrite L in V. exact V.
  Qed.

  Lemma sbp_transition_told s a c ps d : sbp_told s a c ps ->
    exists s' a' c', sbp_transition b s a c (sbp_class ss d) = Val (s', a', c') /\
      match s' with
      | SDone => ends_in_sbp_frame freq a' c' (ps ++ [d])
      | SErr e => e = EAddress \/ e = EData
      | _ => sbp_told s' a' c' (ps ++ [d])
      end.
  Proof.
    intros Ht. pose proof (sbp_class_inv m freq Hm Hf d) as Hc. fold ss in Hc.
    assert (P : forall (x : N) bs (bit : bool) i, x = val_lsb bs -> i = N.of_nat (length bs) ->
      x + 2 ^ i * (if bit then 1 else 0) = val_lsb (bs ++ [bit])) by (intros; subst; rewrite val_lsb_snoc; reflexivity).
    assert (Lb : forall bs (bit : bool), length (bs ++ [bit]) = S (length bs)) by (intros; rewrite app_length; cbn; lia).
    assert (Q : (exists bit : bool, sbp_class ss d = (if bit then SbOne else SbZero) /\ sbp_seen_bit freq bit d) \/
                sbp_class ss d = SbSync \/ sbp_class ss d = SbPaus \/ sbp_class ss d = SbNot).
    { revert Hc. destruct (sbp_class ss d); auto; intros Hc; left; [exists false|exists true]; auto. }
    destruct s as [|i| |i| |e]; try contradiction; cbn [sbp_told] in Ht.
    - destruct Ht as [-> ->]. revert Hc. destruct (sbp_class ss d); intros Hc; cbn [sbp_transition];
        do 3 eexists; (split; [reflexivity|]); cbn [sbp_told]; auto.
      exists ps, d, [], []. split; auto. split; auto. split; [constructor|]. split; auto. split; [cbn; lia|]. auto.
    - destruct Ht as (pre & hd & bs & ads & E & Hh & HF & Ei & Hl & Ea & ->).
      destruct Q as [(bit & Eb & Hbit)|Q].
      + rewrite Eb, (sbp_addr_step b freq Hf) by (try lia; rewrite Ea, Ei; apply val_lsb_lt).
        do 3 eexists. split; [reflexivity|].
        assert (E' : ps ++ [d] = pre ++ hd :: (ads ++ [d])) by (rewrite E, <- app_assoc; reflexivity).
        assert (HF' : Forall2 (sbp_seen_bit freq) (bs ++ [bit]) (ads ++ [d])) by (apply Forall2_app; auto).
        rewrite (P a bs bit i Ea Ei).
        destruct (N.eqb_spec i 15) as [E15|Hn]; cbn [sbp_told]; exists pre, hd, (bs ++ [bit]), (ads ++ [d]); rewrite Lb;
          (split; [auto|]); (split; [auto|]); (split; [auto|]).
        * split; [lia|]. auto.
        * split; [lia|]. split; [lia|]. auto.
      + assert (K : sbp_transition b (SAddress i) a 0 (sbp_class ss d) = Val (SErr EAddress, a, 0))
          by (destruct Q as [->|[->| ->]]; reflexivity).
        rewrite K. do 3 eexists. split; [reflexivity|]. left. reflexivity.
    - destruct Ht as (pre & hd & bs & ads & E & Hh & HF & Hl & Ea & ->).
      revert Hc. destruct (sbp_class ss d); intros Hc; cbn [sbp_transition];
        do 3 eexists; (split; [reflexivity|]); cbn [sbp_told]; auto.
      exists pre, hd, bs, ads, d, [], []. split; [rewrite E, <- app_assoc; reflexivity|].
      split; auto. split; auto. split; auto. split; auto. split; auto. split; [constructor|]. split; auto. split; [cbn; lia|]. auto.
    - destruct Ht as (pre & hd & bs & ads & pause & bs' & cds & E & Hh & HF & Hl & Ea & Hp & HF' & Ei & Hl' & Ec).
      destruct Q as [(bit & Eb & Hbit)|Q].
      + rewrite Eb, (sbp_cmd_step b freq Hf) by (try lia; rewrite Ec, Ei; apply val_lsb_lt).
        do 3 eexists. split; [reflexivity|].
        assert (E' : ps ++ [d] = pre ++ hd :: ads ++ pause :: (cds ++ [d]))
          by (rewrite E, <- app_assoc; cbn [app]; rewrite <- app_assoc; reflexivity).
        assert (HF2 : Forall2 (sbp_seen_bit freq) (bs' ++ [bit]) (cds ++ [d])) by (apply Forall2_app; auto).
        rewrite (P c bs' bit i Ec Ei).
        destruct (N.eqb_spec i 19) as [E19|Hn].
        * assert (L20 : length (bs' ++ [bit]) = 20%nat) by (rewrite Lb; lia).
          exists pre, hd, ads, pause, (cds ++ [d]). split; auto. split; auto. split; auto.
          split; [rewrite Ea; pose proof (val_lsb_lt bs) as V; rewrite Hl in V; exact V|].
          split; [pose proof (val_lsb_lt (bs' ++ [bit])) as V; rewrite L20 in V; exact V|].
          split; [rewrite Ea, <- Hl, bits_val_lsb; exact HF|]. rewrite <- L20, bits_val_lsb. exact HF2.
        * cbn [sbp_told]. exists pre, hd, bs, ads, pause, (bs' ++ [bit]), (cds ++ [d]). rewrite Lb.
          do 7 (split; [auto|]). split; [lia|]. split; [lia|]. auto.
      + assert (K : sbp_transition b (SCommand i) a c (sbp_class ss d) = Val (SErr EData, a, c))
          by (destruct Q as [->|[->| ->]]; reflexivity).
        rewrite K. do 3 eexists. split; [reflexivity|]. right. reflexivity.
  Qed.

  Lemma sbp_sound_step s a c sv pv ps e d :
    sbp_told s a c ps -> (e = true -> sv + d < 2 ^ 32) ->
    exists s' a' c' sv' o, ev (st s a c sv pv) d e = Val (st s' a' c' sv' pv, o) /\
      (if e then sv' = sv \/ sv' = 0 else sv' = d) /\
      sbp_told s' a' c' (ps ++ if e then [sv + d] else []) /\
      (o = ROk None \/ (exists x, o = RErr x) \/
       (e = true /\ exists aw cw, o = ROk (Some (into (sbp_unpack aw cw))) /\ ends_in_sbp_frame freq aw cw (ps ++ [sv + d]))).
  Proof.
    intros Ht Hd. destruct e.
    - rewrite sbp_fits_rise by auto.
      destruct (sbp_transition_told s a c ps (sv + d) Ht) as (s' & a' & c' & -> & K). cbn [bind].
      destruct s' as [|i| |i| |x]; cbn [sbp_to_state].
      + exists SInit, a', c', sv, (ROk None). auto.
      + exists (SAddress i), a', c', sv, (ROk None). auto.
      + exists SDivider, a', c', sv, (ROk None). auto.
      + exists (SCommand i), a', c', sv, (ROk None). auto.
      + eexists SInit, 0, 0, 0, _. split; [reflexivity|]. split; auto. split; [cbn; auto|]. right. right. split; auto.
        exists a', c'. auto.
      + eexists SInit, 0, 0, 0, _. split; [reflexivity|]. split; auto. split; [cbn; auto|]. eauto.
    - unfold ss. rewrite sbp_ev_fall by (eapply sbp_told_live; exact Ht).
      exists s, a, c, d, (ROk None). rewrite app_nil_r. auto.
  Qed.

  (** [fit] says that the sums fit: either because all durations are short, or because
      the edges are physical and the periods fit. *)
  Definition sbp_fit (h : list edge) : Prop := short h \/ no_double_rise h /\ periods_fit h.

  Lemma sbp_fit_snoc h e d ps sv : sbp_fit (h ++ [(e, d)]) -> readings h ps sv ->
    sbp_fit h /\ (e = true -> sv + d < 2 ^ 32).
  Proof.
    intros [H|[H1 H2]] R.
    - unfold short in H. apply Forall_app in H. destruct H as [H1 H2]. split; [left; exact H1|].
      inversion H2 as [|x l H3 _]; subst. pose proof (readings_short h ps sv R H1) as Hv. cbn [snd] in H3.
      intros _. change (2 ^ 31) with 2147483648 in *. change (2 ^ 32) with 4294967296. lia.
    - apply no_double_rise_snoc in H1. apply periods_fit_snoc in H2. destruct H1 as [A1 B1]. destruct H2 as [A2 B2].
      split; [right; auto|]. intros He. destruct (readings_periods h ps sv R A1) as [_ Hv].
      rewrite (Hv (B1 He)). auto.
  Qed.

  Lemma sbp_sound_run h r0 r os :
    receiver_new (sbp_protocol b m) freq = Val r0 -> sbp_fit h -> run r0 h = Val (r, os) ->
    exists s a c sv pv ps, r = st s a c sv pv /\ readings h ps sv /\ sbp_told s a c ps.
  Proof.
    intros E0 Hfit. rewrite (sbp_new_val b m freq Hm Hf) in E0. injection E0 as <-.
    revert r os Hfit. induction h as [|[e d] h IH] using rev_ind; intros r os Hfit E.
    - cbn [run_edges] in E. injection E as <- <-. exists SInit, 0, 0, 0, 0, []. split; auto. split; [constructor|]. cbn; auto.
    - apply run_edges_snoc in E. destruct E as (r1 & os1 & o & E1 & E2 & ->).
      assert (Hfit1 : sbp_fit h).
      { destruct Hfit as [H|[H1 H2]]; [left|right].
        - unfold short in *. apply Forall_app in H. apply H.
        - apply no_double_rise_snoc in H1. apply periods_fit_snoc in H2. tauto. }
      destruct (IH _ _ Hfit1 E1) as (s & a & c & sv & pv & ps & -> & R & Ht).
      destruct (sbp_fit_snoc h e d ps sv Hfit R) as [_ Hd].
      destruct (sbp_sound_step s a c sv pv ps e d Ht Hd) as (s' & a' & c' & sv' & o' & E & Hv & Ht' & _).
      rewrite E in E2. injection E2 as <- <-. exists s', a', c', sv', pv, (ps ++ if e then [sv + d] else []).
      split; auto. split; auto. destruct e; [|subst sv'; rewrite app_nil_r; econstructor; exact R].
      destruct Hv as [-> | ->]; [apply readings_keep|apply readings_drop with (sv := sv)]; exact R.
  Qed.

  Lemma sbp_sound_report h e d r0 r os x :
    receiver_new (sbp_protocol b m) freq = Val r0 -> sbp_fit (h ++ [(e, d)]) ->
    run r0 (h ++ [(e, d)]) = Val (r, os ++ [ROk (Some x)]) ->
    e = true /\ exists aw cw ps sv, x = into (sbp_unpack aw cw) /\ readings (h ++ [(e, d)]) ps sv /\
      ends_in_sbp_frame freq aw cw ps.
  Proof.
    intros E0 Hfit E. apply run_edges_snoc in E. destruct E as (r1 & os1 & o & E1 & E2 & Eo).
    apply app_inj_tail in Eo. destruct Eo as [<- <-].
    assert (Hfit1 : sbp_fit h).
    { destruct Hfit as [H|[H1 H2]]; [left|right].
      - unfold short in *. apply Forall_app in H. apply H.
      - apply no_double_rise_snoc in H1. apply periods_fit_snoc in H2. tauto. }
    destruct (sbp_sound_run h r0 r1 os E0 Hfit1 E1) as (s & a & c & sv & pv & ps & -> & R & Ht).
    destruct (sbp_fit_snoc h e d ps sv Hfit R) as [_ Hd].
    destruct (sbp_sound_step s a c sv pv ps e d Ht Hd) as (s' & a' & c' & sv' & o' & E & Hv & Ht' & K).
    rewrite E in E2. injection E2 as _ Eo.
    destruct K as [K|[(y & K)|(-> & aw & cw & K & F)]]; rewrite K in Eo; try discriminate.
    injection Eo as <-. split; auto. exists aw, cw, (ps ++ [sv + d]), sv. split; auto. split; auto.
    apply readings_keep. exact R.
  Qed.
End Sbp.
