(** * Lemmas: series of transmissions with keys held down *)
From Coq Require Import NArith ZArith List Bool Lia ZifyBool ZifyNat ZifyN.
From Verif Require Import Machine Time Decoder Nec Rc5 Rc6 Denon Sbp Receiver Spec Bits Codec_facts Time_facts Run_facts Nec_facts
  Denon_facts Spec_receiver Spec_sound Sound_facts Biphase_facts Spec_phys Phys_facts Spec_keys Keys_facts Cross_facts Traffic_facts Props_decode
  Props_receiver Props_cross Props_traffic Spec_cross Spec_held.
Import ListNotations.
Open Scope N_scope.

Lemma held_air_cons y l : held_air (y :: l) = on_air [fst y] ++ gaps_air (snd y) ++ held_air l.
Proof. unfold held_air. cbn [flat_map]. rewrite <- app_assoc. reflexivity. Qed.
Lemma held_air_one y : held_air [y] = on_air [fst y] ++ gaps_air (snd y).
Proof. unfold held_air. cbn [flat_map]. apply app_nil_r. Qed.

(** Key presses heard one by one, whatever came before each. *)
Lemma held_heard {D : decoder} {C X : Type} (into : dcmd D -> C) (f : X -> C) (fits : list edge -> Prop) freq (heard : transmission -> list X) (again : X -> X) r0 :
  (forall h1 h2, fits (h1 ++ h2) -> fits h1) ->
  (forall h y r os, held_traffic freq [y] -> fits (h ++ held_air [y]) -> @run_edges D C into r0 (h ++ held_air [y]) = Val (r, os) ->
     commands (skipn (length h) os) = map f (reports heard again [y])) ->
  forall hist l r os, held_traffic freq l -> fits (hist ++ held_air l) ->
  @run_edges D C into r0 (hist ++ held_air l) = Val (r, os) ->
  commands (skipn (length hist) os) = map f (reports heard again l).
Proof.
  intros Hfit Hone hist l r os [Ht Hr] Hf E.
  assert (Hl : Forall (fun y => held_traffic freq [y]) l).
  { clear -Ht Hr. unfold traffic in Ht. rewrite Forall_map in Ht. revert Ht. induction Hr as [|y l Hy Hl IH]; intros Ht; constructor.
    - inversion_clear Ht as [|? ? K _]. split; [|repeat constructor; exact Hy]. apply Forall_cons; [exact K|constructor].
    - apply IH. inversion_clear Ht. assumption. }
  assert (R : map f (reports heard again l) = flat_map (fun y => map f (reports heard again [y])) l).
  { unfold reports. rewrite map_flat_map. apply flat_map_ext. intros y. cbn [flat_map]. rewrite app_nil_r. reflexivity. }
  rewrite R. refine (series_heard into fits _ _ _ r0 Hfit _ hist l r os Hl Hf E). clear -Hone.
  intros h y r os Hy Hf E. rewrite <- held_air_one in Hf, E. exact (Hone h y r os Hy Hf E).
Qed.

(** Repeat codes that a receiver does not report. *)
Lemma ignored_again {D : decoder} {C : Type} (into : dcmd D -> C) (fits : list edge -> Prop) freq t (heard : list C) r0 :
  (forall h1 h2, fits (h1 ++ h2) -> fits h1) ->
  (forall h gap evs r os, ended freq 560 (sent_again freq t) evs -> longer freq 13500 8 gap -> fits (h ++ (true, gap) :: evs) ->
     @run_edges D C into r0 (h ++ (true, gap) :: evs) = Val (r, os) -> commands (skipn (length h) os) = []) ->
  forall h x rs r os,
  (forall r os, @run_edges D C into r0 (h ++ x) = Val (r, os) -> commands (skipn (length h) os) = heard) ->
  Forall (fun r => ended freq 560 (sent_again freq t) (snd r) /\ longer freq 13500 8 (fst r)) rs ->
  fits (h ++ x ++ gaps_air rs) -> @run_edges D C into r0 (h ++ x ++ gaps_air rs) = Val (r, os) ->
  commands (skipn (length h) os) = heard.
Proof.
  intros Hfit Hone h x rs r os Hx Hrs Hf E. rewrite app_assoc in Hf, E.
  assert (E' := E). rewrite run_edges_app in E'.
  destruct (@run_edges D C into r0 (h ++ x)) as [[r1 os1]| |] eqn:E1; cbn [bind] in E'; try discriminate.
  destruct (@run_edges D C into r1 (gaps_air rs)) as [[r2 os2]| |]; cbn [bind] in E'; try discriminate. injection E' as <- <-.
  assert (K : commands (skipn (length (h ++ x)) (os1 ++ os2)) = flat_map (fun _ : N * list edge => []) rs).
  { refine (series_heard into fits _ _ _ r0 Hfit _ (h ++ x) rs r2 (os1 ++ os2) Hrs Hf E).
    intros h' [g evs] r' os' [A B] Hf' E'. exact (Hone h' g evs r' os' A B Hf' E'). }
  pose proof (run_edges_length into _ _ _ _ E1) as L. unfold edge in *.
  assert (Z : flat_map (fun _ : N * list (bool * N) => @nil C) rs = []) by (clear; induction rs; auto).
  rewrite Z, <- L, skipn_app, skipn_all, Nat.sub_diag in K. cbn [app skipn] in K.
  rewrite app_length in L. rewrite skipn_app. replace (length h - length os1)%nat with 0%nat by lia. cbn [skipn].
  etransitivity; [apply commands_app|]. rewrite K, (Hx r1 os1 eq_refl). apply app_nil_r.
Qed.

(** ** The family's own repeat codes *)
Section Own.
  Variables (b : build) (m : mono) (freq : N) (V : nec_variant).
  Let T := nv_timing V.
  Hypothesis (Hm : timebase m freq) (Hf : freq < M32) (HT : nec_timing_ok T) (H893 : 893 <= freq).
  Let ss := spans_of m freq (nec_pulses T).
  Notation D := (nec_dec b m V).
  Context {C : Type} (into : nv_cmd V -> C).
  Notation run := (@run_edges D C into).
  Notation st s buf sv pv := (@mkRecv D (mkNecDec s buf sv ss) pv).
  Notation header := (header_high T + header_low T).
  Notation code := (header_high T + repeat_low T).

  Definition own_again (evs : list edge) : Prop := exists d, evs = pair_edges [d] /\ period_near freq code 7 d.

  Lemma again_pair w pv d : period_near freq code 7 d -> short (pair_edges [d]) ->
    run (st NInit w 0 pv) (pair_edges [d]) = Val (st NInit w 0 pv, [ROk None; ROk (option_map into (nv_unpack V w true))]).
  Proof.
    intros Hd Hs. destruct (short_pair d [] Hs) as (S1 & S2 & _). destruct d as [mk sp]. cbn [fst snd] in *.
    unfold ss, T in *. cbn [pair_edges app run_edges]. rewrite nec_ev_fall by exact I. cbn [bind].
    rewrite nec_ev_rise by auto.
    destruct (nec_class_near m freq V Hm Hf HT H893 (sp + mk)) as (_ & K & _).
    rewrite K by (rewrite (N.add_comm sp); exact Hd). reflexivity.
  Qed.

  Lemma again_run w rs : forall sv pv, sv < 2 ^ 31 ->
    Forall (fun r => ended freq 560 own_again (snd r) /\ longer freq header 7 (fst r)) rs -> short (gaps_air rs) ->
    exists r os, run (st NInit w sv pv) (gaps_air rs) = Val (r, os) /\
      commands os = concat (repeat (said V into w true) (length rs)).
  Proof.
    induction rs as [|[g evs] rs IH]; intros sv pv Hsv Hrs Hs.
    - do 2 eexists. split; reflexivity.
    - apply Forall_cons_iff in Hrs. destruct Hrs as [[He Hg] Hrs']. cbn [fst snd] in He, Hg. unfold gaps_air in *. cbn [flat_map fst snd app] in *.
      unfold short in *. apply Forall_cons_iff in Hs. destruct Hs as [Sg Hs']. cbn [snd] in Sg. apply Forall_app in Hs'. destruct Hs' as [Se Sr].
      assert (Eg : @event_edge D C into (st NInit w sv pv) g true = Val (st NInit w 0 pv, ROk None)).
      { unfold ss, T. apply (idle_gap b m freq V); auto. change (2 ^ 31) with 2147483648 in *. change (2 ^ 32) with 4294967296. lia. }
      assert (Step : exists sv' os1, run (st NInit w 0 pv) evs = Val (st NInit w sv' pv, os1) /\ sv' < 2 ^ 31 /\ commands os1 = said V into w true).
      { destruct He as [(d & -> & Hd)|(body & stop & -> & (d & -> & Hd) & _)].
        - exists 0. eexists. split; [exact (again_pair w pv d Hd Se)|]. split; [reflexivity|]. unfold said. destruct (nv_unpack V w true); reflexivity.
        - apply Forall_app in Se. destruct Se as [Sp Sx]. inversion_clear Sx as [|? ? Sx' _]. cbn [snd] in Sx'.
          pose proof (again_burst b m freq V Hm Hf HT H893 into w pv d stop Hd Sp) as R.
          exists stop. eexists. split; [exact R|]. split; [exact Sx'|]. unfold said. destruct (nv_unpack V w true); reflexivity. }
      destruct Step as (sv' & os1 & E1 & Hsv' & C1). destruct (IH sv' pv Hsv' Hrs' Sr) as (r & os2 & E2 & C2).
      exists r, (ROk None :: os1 ++ os2). split.
      + cbn [run_edges]. rewrite Eg. cbn [bind]. rewrite (run_edges_app_val (D := D) into _ _ _ _ _ _ _ E1 E2). reflexivity.
      + change (commands (ROk None :: os1 ++ os2)) with (commands (os1 ++ os2)). etransitivity; [apply commands_app|].
        rewrite C1, C2. reflexivity.
  Qed.

  (** A key of the family with its repeat codes, after any history. *)
  Lemma own_press hist gap ps evs rs w r0 r os : w < 2 ^ 32 -> nec_frame freq header w ps ->
    (evs = pair_edges ps \/ exists d, evs = pair_edges ps ++ [(false, d)]) -> longer freq header 7 gap ->
    Forall (fun r => ended freq 560 own_again (snd r) /\ longer freq header 7 (fst r)) rs ->
    short (hist ++ ((true, gap) :: evs) ++ gaps_air rs) ->
    receiver_new (nec_protocol b m V) freq = Val r0 ->
    run r0 (hist ++ ((true, gap) :: evs) ++ gaps_air rs) = Val (r, os) ->
    commands (skipn (length hist) os) = said V into w false ++ concat (repeat (said V into w true) (length rs)).
  Proof.
    intros Hw Hfr He Hg Hrs Hs E0 E.
    assert (F : exists sv pv os1, sv < 2 ^ 31 /\ run r0 (hist ++ (true, gap) :: evs) = Val (st NInit w sv pv, os1) /\
              commands (skipn (length hist) os1) = said V into w false).
    { rewrite app_assoc in Hs. unfold short in Hs. apply Forall_app in Hs. destruct Hs as [Hs _].
      assert (S1 : short (hist ++ (true, gap) :: pair_edges ps)).
      { unfold short. destruct He as [-> |(d & ->)]; [exact Hs|]. rewrite app_comm_cons, app_assoc in Hs. apply Forall_app in Hs. apply Hs. }
      destruct (nec_decode b m freq V Hm Hf HT into H893 w hist gap ps Hw Hfr Hg S1) as (r0' & os' & o & pv & E0' & E' & L & Ho).
      rewrite E0 in E0'. injection E0' as <-.
      assert (Cm : commands (skipn (length hist) (os' ++ o :: repeat (ROk None) 65 ++ [ROk (option_map into (nv_unpack V w false))])) = said V into w false).
      { etransitivity; [apply (heard_last os' o 65 (option_map into (nv_unpack V w false)) (length hist) L)|].
        - intros x. destruct Ho as [-> | ->]; discriminate.
        - unfold said. destruct (nv_unpack V w false); reflexivity. }
      destruct He as [-> |(d & ->)].
      - exists 0, pv. eexists. split; [reflexivity|]. split; [exact E'|exact Cm].
      - rewrite app_comm_cons, app_assoc in Hs |- *. apply Forall_app in Hs. destruct Hs as [_ Sd]. inversion_clear Sd as [|? ? Sd' _]. cbn [snd] in Sd'.
        exists d, pv. eexists. split; [exact Sd'|]. split.
        + eapply run_edges_app_val; [exact E'|]. cbn [run_edges]. rewrite nec_ev_fall by exact I. reflexivity.
        + set (O := os' ++ o :: repeat (ROk None) 65 ++ [ROk (option_map into (nv_unpack V w false))]) in *.
          rewrite skipn_app. etransitivity; [apply commands_app|]. etransitivity; [apply f_equal2; [exact Cm|]|apply app_nil_r].
          match goal with |- commands (skipn ?k _) = _ => destruct k as [|[|?]]; reflexivity end. }
    destruct F as (sv & pv & os1 & Hsv & E1 & C1). pose proof (run_edges_length (D := D) into _ _ _ _ E1) as L.
    rewrite app_assoc in Hs, E. unfold short in Hs. apply Forall_app in Hs. destruct Hs as [_ Sr].
    destruct (again_run w rs sv pv Hsv Hrs Sr) as (r2 & os2 & E2 & C2).
    pose proof (run_edges_app_val (D := D) into _ _ _ _ _ _ _ E1 E2) as E'. pose proof (eq_trans (eq_sym E) E') as K. injection K as _ ->.
    rewrite skipn_app. etransitivity; [apply commands_app|]. rewrite C1. rewrite app_length in L.
    unfold edge, outcome in *. replace (length hist - length os1)%nat with 0%nat by lia. cbn [skipn]. rewrite C2. reflexivity.
  Qed.
End Own.

(** ** A Denon receiver that waits for a frame *)
Lemma again_periods freq t evs : sent_again freq t evs -> 20000 <= freq -> Forall (fun d => ~ near freq 5000 9 d) (periods_from 0 evs).
Proof.
  intros H Hlo.
  assert (K : exists x, evs = pair_edges [x] /\ (period_near freq 11250 7 x \/ period_near freq 6750 7 x)).
  { destruct t; try destruct H as (x & -> & Hx & _); try destruct H; exists x; auto. }
  destruct K as (x & -> & Hx). rewrite pair_periods. cbn [map]. constructor; [|constructor].
  assert (A : among freq [(11250, 7); (6750, 7)] (period x)).
  { destruct Hx as [Hx|Hx]; apply period_near_wide in Hx; [exists 11250, 7|exists 6750, 7]; (split; [cbn; auto|exact Hx]). }
  revert A. apply separate_ok; [exact Hlo|vm_compute; reflexivity].
Qed.

Section HeldDenon.
  Variables (b : build) (m : mono) (freq : N).
  Hypothesis (Hm : timebase m freq) (Hf : freq < M32) (Hlo : 20000 <= freq).
  Notation ss := (spans_of m freq denon_pulses).
  Notation D := (denon_dec b m).
  Context {C : Type} (into : denon_command -> C).
  Notation run := (@run_edges D C into).
  Notation st s buf sv pv := (@mkRecv D (mkDenonDec s buf sv ss) pv).

  Lemma denon_again t rs : forall sv pv, sv < 2 ^ 31 ->
    Forall (fun r => ended freq 560 (sent_again freq t) (snd r) /\ longer freq 13500 8 (fst r)) rs -> short (gaps_air rs) ->
    exists sv' pv' os, run (st DIdle 0 sv pv) (gaps_air rs) = Val (st DIdle 0 sv' pv', os) /\ sv' < 2 ^ 31 /\ commands os = [].
  Proof.
    induction rs as [|[g evs] rs IH]; intros sv pv Hsv Hrs Hs.
    - exists sv, pv, []. auto.
    - apply Forall_cons_iff in Hrs. destruct Hrs as [[He Hg] Hrs]. cbn [fst snd] in *. unfold gaps_air in *. cbn [flat_map fst snd app] in *.
      unfold short in Hs. apply Forall_cons_iff in Hs. destruct Hs as [Sg Hs]. cbn [snd] in Sg. apply Forall_app in Hs. destruct Hs as [Se Sr].
      assert (F : Forall (fun d => ~ near freq 5000 9 d) (periods_from 0 evs)).
      { destruct He as [He|(body & d & -> & He & _)]; [exact (again_periods freq t evs He Hlo)|].
        rewrite periods_from_fall. exact (again_periods freq t body He Hlo). }
      rewrite Forall_forall in F.
      destruct (denon_quiet b m freq Hm Hf into evs 0 pv) as (sv1 & pv1 & os1 & E1 & Hv1 & ->); auto; [reflexivity|].
      destruct (IH sv1 pv1 Hv1 Hrs Sr) as (sv2 & pv2 & os2 & E2 & Hv2 & C2).
      exists sv2, pv2. eexists. split; [|split; [exact Hv2|]].
      + cbn [run_edges]. pose proof (denon_gap b m freq Hm Hf into DIdle 0 sv pv g (conj eq_refl I) Hsv Sg) as G.
        rewrite G by (apply longer_weaken; auto; vm_compute; discriminate). cbn [bind].
        rewrite (run_edges_app_val (D := D) into _ _ _ _ _ _ _ E1 E2). reflexivity.
      + etransitivity; [apply (Traffic_facts.commands_app [ROk None])|]. cbn [commands flat_map app].
        etransitivity; [apply Traffic_facts.commands_app|]. rewrite Traffic_facts.commands_none. exact C2.
  Qed.

  Lemma denon_held l : forall sv pv, sv < 2 ^ 31 -> held_traffic freq l ->
    Forall (fun y => is_sbp (key_of y) = false) l -> short (held_air l) ->
    exists sv' pv' os, run (st DIdle 0 sv pv) (held_air l) = Val (st DIdle 0 sv' pv', os) /\ sv' < 2 ^ 31 /\
      commands os = map into (flat_map (fun y => heard_denon (key_of y)) l).
  Proof.
    induction l as [|[x rs] l IH]; intros sv pv Hsv [Ht Hr] Hn Hs.
    - exists sv, pv, []. auto.
    - rewrite held_air_cons in *. cbn [fst snd map] in *. unfold short in Hs. apply Forall_app in Hs. destruct Hs as [Sx Hs]. apply Forall_app in Hs. destruct Hs as [Sr Sl].
      apply Forall_cons_iff in Hr. destruct Hr as [Hr Hl]. apply Forall_cons_iff in Hn. destruct Hn as [Hn Hnl]. unfold traffic in Ht. apply Forall_cons_iff in Ht. destruct Ht as [Hx Ht].
      destruct (denon_series b m freq Hm Hf Hlo into [x] sv pv Hsv) as (sv1 & pv1 & os1 & E1 & V1 & C1); [exact (Forall_cons _ Hx (Forall_nil _))|exact (Forall_cons _ Hn (Forall_nil _))|exact Sx|].
      destruct (denon_again _ rs sv1 pv1 V1 Hr Sr) as (sv2 & pv2 & os2 & E2 & V2 & C2).
      destruct (IH sv2 pv2 V2 (conj Ht Hl) Hnl Sl) as (sv3 & pv3 & os3 & E3 & V3 & C3).
      exists sv3, pv3. eexists. split; [|split; [exact V3|]].
      + eapply run_edges_app_val; [exact E1|]. eapply run_edges_app_val; [exact E2|exact E3].
      + etransitivity; [apply Traffic_facts.commands_app|]. rewrite C1. etransitivity; [apply f_equal2; [reflexivity|apply Traffic_facts.commands_app]|]. rewrite C2, C3. cbn [flat_map app]. rewrite map_app, app_nil_r. f_equal.
        unfold key_of. cbn [fst]. destruct (fst (fst x)); reflexivity.
  Qed.
End HeldDenon.
