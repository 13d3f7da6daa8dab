(** * Lemmas: series of transmissions *)
From Coq Require Import NArith ZArith List Bool Lia ZifyBool ZifyNat ZifyN.
From Verif Require Import Machine Time Decoder Nec Rc5 Rc6 Denon Sbp Receiver Spec Bits Time_facts Run_facts Nec_facts Denon_facts
  Rc5_facts Spec_receiver Spec_sound Sound_facts Biphase_facts Spec_cross Cross_facts.
Import ListNotations.
Open Scope N_scope.

Lemma commands_app {C E} (l1 l2 : list (result (option C) E)) : commands (l1 ++ l2) = commands l1 ++ commands l2.
Proof. apply flat_map_app. Qed.
Lemma commands_none {C E} n : @commands C E (repeat (ROk None) n) = [].
Proof. induction n as [|n IH]; [reflexivity|]. cbn [repeat]. change (commands (ROk None :: ?l)) with (commands l). exact IH. Qed.

(** If every segment of a series is heard as [heard] whatever came before, so is the series. *)
Lemma series_heard {D : decoder} {C X : Type} (into : dcmd D -> C) (fit : list edge -> Prop) (ok : X -> Prop)
    (edges : X -> list edge) (heard : X -> list C) r0 :
  (forall h1 h2, fit (h1 ++ h2) -> fit h1) ->
  (forall h x r os, ok x -> fit (h ++ edges x) -> @run_edges D C into r0 (h ++ edges x) = Val (r, os) ->
     commands (skipn (length h) os) = heard x) ->
  forall hist l r os, Forall ok l -> fit (hist ++ flat_map edges l) ->
  @run_edges D C into r0 (hist ++ flat_map edges l) = Val (r, os) ->
  commands (skipn (length hist) os) = flat_map heard l.
Proof.
  intros Hfit Hone hist l. induction l as [|x l IH] using rev_ind; intros r os Hok Hf E.
  - cbn [flat_map] in E. rewrite app_nil_r in E. pose proof (run_edges_length into hist r0 r os E) as L.
    unfold edge in *. rewrite <- L, skipn_all. reflexivity.
  - apply Forall_app in Hok. destruct Hok as [Hok Hx]. inversion Hx as [|y l' Hx' _]; subst.
    rewrite flat_map_app in *. cbn [flat_map] in *. rewrite app_nil_r in *. rewrite app_assoc in Hf, E.
    pose proof (Hone _ _ _ _ Hx' Hf E) as K.
    assert (E' := E). rewrite run_edges_app in E'.
    destruct (@run_edges D C into r0 (hist ++ flat_map edges l)) as [[r1 os1]| |] eqn:E1; cbn [bind] in E'; try discriminate.
    destruct (@run_edges D C into r1 (edges x)) as [[r2 os2]| |]; cbn [bind] in E'; try discriminate.
    injection E' as <- <-. pose proof (IH r1 os1 Hok (Hfit _ _ Hf) eq_refl) as I1.
    pose proof (run_edges_length into _ _ _ _ E1) as L. unfold edge in *.
    rewrite skipn_app. etransitivity; [apply commands_app|]. rewrite I1. f_equal.
    rewrite <- L, skipn_app, skipn_all, Nat.sub_diag in K. cbn [app skipn] in K.
    rewrite app_length in L. replace (length hist - length os1)%nat with 0%nat by lia. exact K.
Qed.

(** The same for a series of transmissions, with or without the edges that end them. *)
Lemma series_ended {D : decoder} {C : Type} (into : dcmd D -> C) (fit : list edge -> Prop) freq (heard : transmission -> list C) r0 :
  (forall h1 h2, fit (h1 ++ h2) -> fit h1) ->
  (forall h t gap body r os, sent freq t body -> longer freq 13500 8 gap -> fit (h ++ (true, gap) :: body) ->
     @run_edges D C into r0 (h ++ (true, gap) :: body) = Val (r, os) -> commands (skipn (length h) os) = heard t) ->
  (forall h t gap body d r1 os1 r x, sent freq t body -> longer freq 13500 8 gap -> near freq (end_mark t) 12 d ->
     fit ((h ++ (true, gap) :: body) ++ [(false, d)]) ->
     @run_edges D C into r0 (h ++ (true, gap) :: body) = Val (r1, os1) ->
     @run_edges D C into r0 ((h ++ (true, gap) :: body) ++ [(false, d)]) = Val (r, os1 ++ [ROk (Some x)]) -> False) ->
  forall hist l r os, traffic freq l -> fit (hist ++ on_air l) ->
  @run_edges D C into r0 (hist ++ on_air l) = Val (r, os) ->
  commands (skipn (length hist) os) = flat_map (fun x => heard (fst (fst x))) l.
Proof.
  intros Hfit Hone Hend hist l r os Ht Hf E.
  refine (series_heard into fit _ _ _ r0 Hfit _ hist l r os Ht Hf E).
  clear hist l r os Ht Hf E. intros h [[t gap] evs] r os [Hs Hg] Hf E. cbn [fst snd] in *.
  destruct Hs as [Hs|(body & d & -> & Hs & Hd)]; [exact (Hone h t gap evs r os Hs Hg Hf E)|].
  change ((true, gap) :: body ++ [(false, d)]) with (((true, gap) :: body) ++ [(false, d)]) in Hf, E. rewrite app_assoc in Hf.
  refine (heard_ended into r0 h ((true, gap) :: body) d r os _ _ _ E).
  - intros r1 os1. apply Hone; auto. exact (Hfit _ _ Hf).
  - intros r1 os1 r' x. apply (Hend h t); auto.
Qed.

Lemma heard_own {C E} (os : list (result (option C) E)) o n c h :
  length os = h -> (forall x, o <> ROk (Some x)) -> commands (skipn h (os ++ o :: repeat (ROk None) n ++ [ROk (Some c)])) = [c].
Proof.
  intros <- Ho. rewrite skipn_app, skipn_all, Nat.sub_diag. cbn [app skipn].
  change (o :: repeat (ROk None) n ++ [ROk (Some c)]) with ([o] ++ repeat (ROk None) n ++ [ROk (Some c)]).
  rewrite !commands_app, commands_none. destruct o as [[x|]|]; [destruct (Ho x eq_refl)|reflexivity|reflexivity].
Qed.

(** The transmissions as senders of C66. *)
Lemma sent_class freq t evs : sent freq t evs ->
  match t with
  | TNec _ _ | TNec16 _ _ | TRaw _ => sent_nec freq evs
  | TSamsung _ _ => sent_samsung freq evs
  | TSbp _ _ => sent_sbp freq evs
  | TDenon _ => sent_denon freq evs
  | TRc5 _ => sent_rc5 freq evs
  | TRc6 _ _ _ => sent_rc6 freq evs
  end.
Proof.
  destruct t; cbn [sent].
  - intros (_ & _ & ps & H). eexists _, ps. exact H.
  - intros (_ & _ & ps & H). eexists _, ps. exact H.
  - intros (_ & ps & H). eexists _, ps. exact H.
  - intros (_ & _ & ps & H). eexists _, ps. exact H.
  - intros (_ & _ & ps & H). eexists _, _, ps. exact H.
  - intros (_ & ps & H). eexists _, ps. exact H.
  - intros (_ & _ & g & H). exists word, g. exact H.
  - intros (_ & _ & g & n & noms & lead & acts & E1 & E2 & [Hl _] & F). exists toggle, (2 ^ 8 * address + command), g.
    exists n, noms, lead, acts. auto.
Qed.

Lemma longer_less freq p t d : longer freq 13500 8 d -> p <= 13500 -> (100 + t) * nominal freq p <= 108 * nominal freq 13500 -> longer freq p t d.
Proof. unfold longer. lia. Qed.

Lemma longer_weaken freq p t d : longer freq 13500 8 d -> p <= 13500 -> t <= 8 -> longer freq p t d.
Proof.
  unfold longer. intros H Hp Ht. pose proof (nominal_le freq p 13500 Hp) as L.
  set (x := nominal freq p) in *. set (y := nominal freq 13500) in *. clearbody x y. nia.
Qed.
Lemma longer_weaken2 freq p t d : longer freq 13500 8 d -> 2 * p <= 13500 -> t <= 100 -> longer freq p t d.
Proof.
  unfold longer. intros H Hp Ht. pose proof (nominal_sum freq p p) as S. pose proof (nominal_le freq (p + p) 13500 ltac:(lia)) as L.
  set (x := nominal freq p) in *. set (y := nominal freq 13500) in *. set (z := nominal freq (p + p)) in *. clearbody x y z. nia.
Qed.

Lemma map_flat_map {A B C} (f : B -> C) (g : A -> list B) l : map f (flat_map g l) = flat_map (fun x => map f (g x)) l.
Proof. induction l as [|x l IH]; cbn [flat_map]; [reflexivity|]. rewrite map_app, IH. reflexivity. Qed.

Lemma short_prefix h1 h2 : short (h1 ++ h2) -> short h1.
Proof. unfold short. intros H. apply Forall_app in H. apply H. Qed.

Lemma sent_nec_word freq t evs w : sent freq t evs -> nec_word t = Some w ->
  w < 2 ^ 32 /\ exists ps, evs = pair_edges ps /\ nec_frame freq 13500 w ps.
Proof.
  destruct t; cbn [sent nec_word]; try discriminate; [intros (Ha & Hc & ps & E & F & _) Ew|intros (Ha & Hc & ps & E & F & _) Ew|intros (Hw & ps & E & F & _) Ew];
    assert (w = _) by (symmetry; apply (f_equal (fun o => match o with Some x => x | None => 0 end)) in Ew; exact Ew); subst w;
    (split; [|exists ps; auto]); [| |exact Hw]; change (2 ^ 8) with 256 in *; change (2 ^ 16) with 65536 in *.
  - apply bytes4_lt; auto using compl8_lt.
  - apply bytes4_lt; auto using compl8_lt.
    + apply N.mod_lt. discriminate.
    + apply N.div_lt_upper_bound; [discriminate|exact Ha].
Qed.

Lemma traffic_sent freq l : traffic freq l -> Forall (fun x => exists body, sent freq (fst (fst x)) body) l.
Proof. apply Forall_impl. intros [[t gap] evs] [[H|(body & d & _ & H & _)] _]; eauto. Qed.

(** Own frames: the last outcome is the command. *)
Lemma heard_last {C E} (os : list (result (option C) E)) o n res h :
  length os = h -> (forall x, o <> ROk (Some x)) ->
  commands (skipn h (os ++ o :: repeat (ROk None) n ++ [ROk res])) = match res with Some c => [c] | None => [] end.
Proof.
  intros <- Ho. rewrite skipn_app, skipn_all, Nat.sub_diag. cbn [app skipn].
  change (o :: repeat (ROk None) n ++ [ROk res]) with ([o] ++ repeat (ROk None) n ++ [ROk res]).
  rewrite !commands_app, commands_none. destruct o as [[x|]|]; [destruct (Ho x eq_refl)| |]; destruct res; reflexivity.
Qed.

(** ** Denon receivers, on series without Samsung BluRay frames *)

Definition denon_word (t : transmission) : option N := match t with TDenon w => Some w | _ => None end.
Definition is_sbp (t : transmission) : bool := match t with TSbp _ _ => true | _ => false end.

Lemma no_denon_sync freq t evs : 20000 <= freq -> sent freq t evs -> is_sbp t = false -> denon_word t = None ->
  Forall (fun d => ~ near freq 5000 9 d) (periods_from 0 evs).
Proof.
  intros Hlo Hs Hn Hd. apply sent_class in Hs. destruct t; try discriminate.
  - destruct Hs as (w & ps & -> & F & _). rewrite pair_periods. apply nec_all in F. eapply forall_not; [exact Hlo| |exact F]. vm_compute; reflexivity.
  - destruct Hs as (w & ps & -> & F & _). rewrite pair_periods. apply nec_all in F. eapply forall_not; [exact Hlo| |exact F]. vm_compute; reflexivity.
  - destruct Hs as (w & ps & -> & F & _). rewrite pair_periods. apply nec_all in F. eapply forall_not; [exact Hlo| |exact F]. vm_compute; reflexivity.
  - destruct Hs as (w & ps & -> & F & _). rewrite pair_periods. apply nec_all in F. eapply forall_not; [exact Hlo| |exact F]. vm_compute; reflexivity.
  - destruct (sent_rc5_facts freq evs Hs Hlo) as (_ & F & _). eapply Forall_impl; [|exact F]. intros d.
    apply biphase_period_not_near; [exact Hlo|vm_compute; reflexivity].
  - destruct (sent_rc6_facts freq evs Hs Hlo) as (_ & F & _). eapply Forall_impl; [|exact F]. intros d.
    apply biphase_period_not_near; [exact Hlo|vm_compute; reflexivity].
Qed.

Lemma periods_from_fall l d : forall sv, periods_from sv (l ++ [(false, d)]) = periods_from sv l.
Proof. induction l as [|[[|] x] l IH]; intros sv; cbn [app periods_from]; rewrite ?IH; reflexivity. Qed.

Section Denon.
  Variables (b : build) (m : mono) (freq : N).
  Hypothesis (Hm : timebase m freq) (Hf : freq < M32) (Hlo : 20000 <= freq).
  Notation ss := (spans_of m freq denon_pulses).
  Notation D := (denon_dec b m).
  Context {C : Type} (into : denon_command -> C).
  Notation run := (@run_edges D C into).
  Notation st s buf sv pv := (@mkRecv D (mkDenonDec s buf sv ss) pv).

  Lemma denon_series l : forall sv pv, sv < 2 ^ 31 -> traffic freq l ->
    Forall (fun x => is_sbp (fst (fst x)) = false) l -> short (on_air l) ->
    exists sv' pv' os, run (st DIdle 0 sv pv) (on_air l) = Val (st DIdle 0 sv' pv', os) /\ sv' < 2 ^ 31 /\
      commands os = flat_map (fun x => match denon_word (fst (fst x)) with Some w => [into (mkDenon (w mod 2 ^ 47))] | None => [] end) l.
  Proof.
    induction l as [|[[t gap] evs] l IH]; intros sv pv Hsv Ht Hn Hs.
    - exists sv, pv, []. auto.
    - inversion Ht as [|x l' [Hsent Hg] Ht']; subst. inversion Hn as [|x l' Hn0 Hn']; subst. cbn [fst snd] in *.
      cbn [on_air flat_map fst snd app] in *. inversion Hs as [|x l' Sg Hs']; subst. cbn [snd] in Sg.
      unfold short in *. apply Forall_app in Hs'. destruct Hs' as [Se Sl].
      fold (on_air l) in *. cbn [run_edges].
      assert (Step : exists sv' pv' os', run (st DIdle 0 0 pv) evs = Val (st DIdle 0 sv' pv', os') /\ sv' < 2 ^ 31 /\
                commands os' = match denon_word t with Some w => [into (mkDenon (w mod 2 ^ 47))] | None => [] end).
      { destruct (denon_word t) as [w|] eqn:Ew.
        - destruct t; try discriminate Ew. injection Ew as ->.
          assert (Own : forall body, short body -> sent freq (TDenon w) body -> exists pv' os', run (st DIdle 0 0 pv) body = Val (st DIdle 0 0 pv', os') /\
                    commands os' = [into (mkDenon (w mod 2 ^ 47))]).
          { clear -Hm Hf Hlo. intros body Sb (Hw & ps & -> & Hfr & _).
            assert (H1 : 1191 <= freq) by lia.
            destruct (denon_frame_pulses m freq Hm Hf H1 w ps) as (h & ds & -> & Ph & Pd); auto.
            pose proof (denon_frame_run b m freq Hm Hf into w h ds 0 0 pv eq_refl Ph Pd) as R. do 2 eexists. split; [exact R|].
            rewrite commands_app, commands_none, N.lor_0_l. reflexivity. }
          destruct Hsent as [Hsent|(body & d & -> & Hsent & _)].
          + destruct (Own _ Se Hsent) as (pv' & os' & E & Hc). exists 0, pv', os'. repeat split; auto.
          + apply Forall_app in Se. destruct Se as [Sb Se]. destruct (Own _ Sb Hsent) as (pv' & os' & E & Hc). inversion Se as [|x l' Sd _]; subst. cbn [snd] in Sd.
            exists d, pv', (os' ++ [ROk None]). split; [|split; [exact Sd|etransitivity; [apply commands_app|]; rewrite Hc; reflexivity]].
            apply (run_edges_app_val (D := D) into body [(false, d)] _ _ _ _ _ E). reflexivity.
        - assert (F : Forall (fun d => ~ near freq 5000 9 d) (periods_from 0 evs)).
          { destruct Hsent as [Hsent|(body & d & -> & Hsent & _)]; [exact (no_denon_sync freq t evs Hlo Hsent Hn0 Ew)|].
            rewrite periods_from_fall. exact (no_denon_sync freq t body Hlo Hsent Hn0 Ew). }
          rewrite Forall_forall in F.
          destruct (denon_quiet b m freq Hm Hf into evs 0 pv) as (sv' & pv' & os' & E & Hv & ->); auto; [reflexivity|].
          do 3 eexists. split; [exact E|]. split; [exact Hv|]. apply commands_none. }
      destruct Step as (sv1 & pv1 & os1 & E1 & Hv1 & C1).
      destruct (IH sv1 pv1 Hv1 Ht' Hn' Sl) as (sv2 & pv2 & os2 & E2 & Hv2 & C2).
      pose proof (denon_gap b m freq Hm Hf into DIdle 0 sv pv gap (conj eq_refl I) Hsv Sg) as G.
      rewrite G by (apply longer_weaken; auto; vm_compute; discriminate). cbn [bind].
      rewrite (run_edges_app_val (D := D) into evs (on_air l) _ _ _ _ _ E1 E2). cbn [bind].
      exists sv2, pv2. eexists. split; [reflexivity|]. split; [exact Hv2|].
      change (commands (ROk None :: os1 ++ os2)) with (commands (os1 ++ os2)).
      etransitivity; [apply commands_app|]. rewrite C1, C2. reflexivity.
  Qed.
End Denon.
