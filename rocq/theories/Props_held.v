(** * C86: keys held down among the remote controls of other protocols *)
From Coq Require Import NArith ZArith List Bool Lia ZifyBool ZifyNat ZifyN.
From Verif Require Import Machine Time Decoder Nec Rc5 Rc6 Sbp Denon Receiver Spec Bits Codec_facts Time_facts Run_facts Nec_facts
  Rc5_facts Rc6_facts Sbp_facts Denon_facts Spec_receiver Receiver_facts Spec_sound Sound_facts Spec_state State_facts Props_decode Props_receiver Props_state
  Cross_facts Traffic_facts Props_cross Props_traffic Example_facts Spec_phys Phys_facts Props_phys Poll_facts Props_poll Keys_facts
  Pollkeys_facts Props_pollkeys Pollbi_facts Props_tutorial Multi_facts Props_polltraffic Spec_cross Spec_held Held_facts.
Import ListNotations.
Open Scope N_scope.

(** [l] is a series of transmissions of any protocols, those of the NEC family each followed
    by any number of repeat codes.  Whatever came before ([hist]), a receiver reports each
    transmission of its protocol, then once more, marked as a repetition, for every repeat
    code that follows; repeat codes of other remote controls are not reported. *)

Lemma reports_one {X C} (f : X -> C) heard again x rs :
  map f (reports heard again [(x, rs)]) =
  map f (heard (fst (fst x))) ++ concat (repeat (map f (map again (heard (fst (fst x))))) (length rs)).
Proof.
  unfold reports, key_of. cbn [flat_map fst snd]. rewrite app_nil_r, map_app, concat_map. do 2 f_equal.
  induction (length rs) as [|n IH]; cbn [repeat map]; [reflexivity|]. rewrite IH. reflexivity.
Qed.

Lemma held_one freq t gap evs rs : held_traffic freq [((t, gap, evs), rs)] ->
  traffic freq [(t, gap, evs)] /\ ended freq (end_mark t) (sent freq t) evs /\ longer freq 13500 8 gap /\
  Forall (fun r => ended freq 560 (sent_again freq t) (snd r) /\ longer freq 13500 8 (fst r)) rs.
Proof.
  intros [Ht Hr]. cbn [map fst] in Ht. split; [exact Ht|]. unfold traffic in Ht. apply Forall_cons_iff in Ht. destruct Ht as [[H1 H2] _].
  apply Forall_cons_iff in Hr. destruct Hr as [H3 _]. cbn [key_of fst snd] in *. auto.
Qed.

Lemma nothing {X C} (f : X -> C) (again : X -> X) n : concat (repeat (map f (map again [])) n) = [].
Proof. cbn [map]. induction n; auto. Qed.

Lemma nec_held b m freq V C (into : nv_cmd V -> C) heard again hist l r0 r os :
  timebase m freq -> 20000 <= freq -> freq < 2 ^ 32 -> nv_timing V = NEC_STANDARD_TIMING ->
  (forall t, nec_word t = None -> heard t = []) ->
  (forall t body w, sent freq t body -> nec_word t = Some w -> heard t = match nv_unpack V w false with Some c => [c] | None => [] end) ->
  (forall w, nv_unpack V w true = option_map again (nv_unpack V w false)) ->
  held_traffic freq l -> short (hist ++ held_air l) ->
  receiver_new (nec_protocol b m V) freq = Val r0 ->
  run_edges (D := nec_dec b m V) into r0 (hist ++ held_air l) = Val (r, os) ->
  commands (skipn (length hist) os) = map into (reports heard again l).
Proof.
  intros Hm Hlo Hf HT Hno Hyes Hag Hl Hs E0 E.
  refine (held_heard (D := nec_dec b m V) into into short freq heard again r0 short_prefix _ hist l r os Hl Hs E). clear hist l r os Hl Hs E.
  intros h [[[t gap] evs] rs] r os Hy Hs E. rewrite reports_one. cbn [fst snd].
  rewrite held_air_one in Hs, E. cbn [fst snd] in Hs, E.
  destruct (held_one _ _ _ _ _ Hy) as (Ht & He & Hg & Hr).
  destruct (nec_word t) as [w|] eqn:Ew.
  - assert (B : exists ps, nec_frame freq 13500 w ps /\ w < 2 ^ 32 /\ (evs = pair_edges ps \/ exists d, evs = pair_edges ps ++ [(false, d)]) /\
      heard t = match nv_unpack V w false with Some c => [c] | None => [] end).
    { destruct He as [He|(body & d & -> & He & _)]; destruct (sent_nec_word _ _ _ _ He Ew) as (Hw & ps & -> & F);
        exists ps; repeat split; auto; eauto. }
    destruct B as (ps & Fr & Hw & Hev & Hh).
    assert (Eo : on_air [(t, gap, evs)] = (true, gap) :: evs) by (unfold on_air; cbn [flat_map fst snd app]; rewrite app_nil_r; reflexivity).
    rewrite Eo in Hs, E.
    etransitivity; [apply (own_press b m freq V Hm Hf (or_introl HT) ltac:(lia) into h gap ps evs rs w r0 r os); auto|].
    + rewrite HT. exact Fr.
    + rewrite HT. apply longer_weaken; auto; vm_compute; discriminate.
    + eapply Forall_impl; [|exact Hr]. intros [g es] [A B]. cbn [fst snd] in *. split.
      * assert (W : forall es, sent_again freq t es -> own_again freq V es).
        { clear -Ew HT. intros es. unfold own_again. rewrite HT. destruct t; try discriminate Ew; intros (d & -> & Hd & _); exists d; auto. }
        destruct A as [A|(body & d & -> & A & Hd)]; [left; auto|right; exists body, d; auto].
      * rewrite HT. apply longer_weaken; auto; vm_compute; discriminate.
    + unfold said. rewrite Hh, Hag. destruct (nv_unpack V w false); reflexivity.
  - rewrite (Hno t Ew), nothing. cbn [map app].
    refine (ignored_again (D := nec_dec b m V) into short freq t [] r0 short_prefix _ h _ rs r os _ Hr Hs E).
    + clear -Hm Hlo Hf HT Ew E0. intros h gap evs r os Ha Hg Hs E.
      apply (C66_nec b m freq V C into h gap evs r0 r os); auto; [apply short_fits, Hs|].
      destruct t; try discriminate Ew; cbn [sent_again] in Ha; first [exact (or_intror (or_introl Ha))|destruct Ha as [[]|(body & d & _ & [] & _)]].
    + intros r' os' E'. assert (S' : short (h ++ on_air [(t, gap, evs)])) by (rewrite app_assoc in Hs; exact (short_prefix _ _ Hs)).
      refine (eq_trans (nec_series b m freq V C into h _ r0 r' os' Hm Hlo Hf HT Ht S' E0 E') _). cbn [flat_map fst]. rewrite Ew. reflexivity.
Qed.

Definition again_nec (c : nec_command) := mkNec (nec_addr c) (nec_cmd c) true.
Theorem C86_nec :
  forall b m freq C (into : nec_command -> C) hist l r0 r os,
  timebase m freq -> 20000 <= freq -> freq < 2 ^ 32 ->
  held_traffic freq l -> short (hist ++ held_air l) ->
  receiver_new (nec_protocol b m NecStandard) freq = Val r0 ->
  run_edges (D := nec_dec b m NecStandard) into r0 (hist ++ held_air l) = Val (r, os) ->
  commands (skipn (length hist) os) = map into (reports heard_nec again_nec l).
Proof.
  intros b m freq C into hist l r0 r os Hm Hlo Hf. apply (nec_held b m freq NecStandard C into heard_nec again_nec); auto.
  - intros t. destruct t; try discriminate; reflexivity.
  - apply nec_said.
Qed.
Print Assumptions C86_nec.

Definition again_nec16 (c : nec16_command) := mkNec16 (n16_addr c) (n16_cmd c) true.
Theorem C86_nec16 :
  forall b m freq C (into : nec16_command -> C) hist l r0 r os,
  timebase m freq -> 20000 <= freq -> freq < 2 ^ 32 ->
  held_traffic freq l -> short (hist ++ held_air l) ->
  receiver_new (nec_protocol b m Nec16Bit) freq = Val r0 ->
  run_edges (D := nec_dec b m Nec16Bit) into r0 (hist ++ held_air l) = Val (r, os) ->
  commands (skipn (length hist) os) = map into (reports heard_nec16 again_nec16 l).
Proof.
  intros b m freq C into hist l r0 r os Hm Hlo Hf. apply (nec_held b m freq Nec16Bit C into heard_nec16 again_nec16); auto.
  - intros t. destruct t; try discriminate; reflexivity.
  - apply nec16_said.
Qed.
Print Assumptions C86_nec16.

(** The raw commands do not tell repetitions. *)
Theorem C86_raw :
  forall b m freq C (into : nec_debug_cmd -> C) hist l r0 r os,
  timebase m freq -> 20000 <= freq -> freq < 2 ^ 32 ->
  held_traffic freq l -> short (hist ++ held_air l) ->
  receiver_new (nec_protocol b m NecRaw) freq = Val r0 ->
  run_edges (D := nec_dec b m NecRaw) into r0 (hist ++ held_air l) = Val (r, os) ->
  commands (skipn (length hist) os) = map into (reports heard_raw (fun c => c) l).
Proof.
  intros b m freq C into hist l r0 r os Hm Hlo Hf. apply (nec_held b m freq NecRaw C into heard_raw (fun c => c)); auto.
  - intros t Ht. unfold heard_raw. rewrite Ht. reflexivity.
  - intros t body w _ Ew. unfold heard_raw. rewrite Ew. reflexivity.
Qed.
Print Assumptions C86_raw.

Definition again_apple (c : apple_command) := mkApple (apl_page c) (apl_command c) (apl_device c) true.
Theorem C86_apple :
  forall b m freq C (into : apple_command -> C) hist l r0 r os,
  timebase m freq -> 20000 <= freq -> freq < 2 ^ 32 ->
  held_traffic freq l -> short (hist ++ held_air l) ->
  receiver_new (nec_protocol b m NecApple) freq = Val r0 ->
  run_edges (D := nec_dec b m NecApple) into r0 (hist ++ held_air l) = Val (r, os) ->
  commands (skipn (length hist) os) = map into (reports heard_apple again_apple l).
Proof.
  intros b m freq C into hist l r0 r os Hm Hlo Hf. apply (nec_held b m freq NecApple C into heard_apple again_apple); auto.
  - intros t Ht. unfold heard_apple. rewrite Ht. reflexivity.
  - apply apple_said.
  - intros w. cbn [nv_unpack NecApple]. unfold apple_unpack. destruct (negb (apple_validate w)); reflexivity.
Qed.
Print Assumptions C86_apple.

Definition again_samsung (c : samsung_command) := mkSamsung (sam_addr c) (sam_cmd c) true.
Theorem C86_samsung :
  forall b m freq C (into : samsung_command -> C) hist l r0 r os,
  timebase m freq -> 20000 <= freq -> freq < 2 ^ 32 ->
  held_traffic freq l -> short (hist ++ held_air l) ->
  receiver_new (nec_protocol b m NecSamsung) freq = Val r0 ->
  run_edges (D := nec_dec b m NecSamsung) into r0 (hist ++ held_air l) = Val (r, os) ->
  commands (skipn (length hist) os) = map into (reports heard_samsung again_samsung l).
Proof.
  intros b m freq C into hist l r0 r os Hm Hlo Hf Hl Hs E0 E.
  refine (held_heard (D := nec_dec b m NecSamsung) into into short freq heard_samsung again_samsung r0 short_prefix _ hist l r os Hl Hs E). clear hist l r os Hl Hs E.
  intros h [[[t gap] evs] rs] r os Hy Hs E. rewrite reports_one. cbn [fst snd].
  rewrite held_air_one in Hs, E. cbn [fst snd] in Hs, E.
  destruct (held_one _ _ _ _ _ Hy) as (Ht & He & Hg & Hr).
  destruct (heard_samsung t) as [|c0 l0] eqn:Eh.
  - rewrite nothing. cbn [map app].
    refine (ignored_again (D := nec_dec b m NecSamsung) into short freq t [] r0 short_prefix _ h _ rs r os _ Hr Hs E).
    + clear -Hm Hlo Hf Eh E0. intros h gap evs r os Ha Hg Hs E.
      apply (C66_samsung b m freq C into h gap evs r0 r os); auto; [apply short_fits, Hs|].
      destruct t; try discriminate Eh; cbn [sent_again] in Ha; first [exact (or_intror (or_introl Ha))|destruct Ha as [[]|(body & d & _ & [] & _)]].
    + intros r' os' E'. assert (S' : short (h ++ on_air [(t, gap, evs)])) by (rewrite app_assoc in Hs; exact (short_prefix _ _ Hs)).
      refine (eq_trans (C67_samsung b m freq C into h _ r0 r' os' Hm Hlo Hf Ht S' E0 E') _). cbn [flat_map fst]. rewrite Eh. reflexivity.
  - destruct t; try discriminate Eh. injection Eh as <- <-. cbn [map again_samsung sam_addr sam_cmd].
    set (w := bytes4 address address command (compl8 command)).
    assert (B : exists ps, nec_frame freq 9000 w ps /\ address < 2 ^ 8 /\ command < 2 ^ 8 /\ (evs = pair_edges ps \/ exists d, evs = pair_edges ps ++ [(false, d)])).
    { destruct He as [(Ha & Hc & ps & -> & F & _)|(body & d & -> & (Ha & Hc & ps & -> & F & _) & _)]; exists ps; repeat split; eauto. }
    destruct B as (ps & Fr & Ha & Hc & Hev).
    assert (Eo : on_air [(TSamsung address command, gap, evs)] = (true, gap) :: evs) by (unfold on_air; cbn [flat_map fst snd app]; rewrite app_nil_r; reflexivity).
    rewrite Eo in Hs, E.
    etransitivity; [apply (own_press b m freq NecSamsung Hm Hf (or_intror eq_refl) ltac:(lia) into h gap ps evs rs w r0 r os); auto|].
    + apply bytes4_lt; auto using compl8_lt.
    + apply longer_weaken; auto; vm_compute; discriminate.
    + eapply Forall_impl; [|exact Hr]. intros [g es] [A B]. cbn [fst snd] in *. split.
      * assert (W : forall es, sent_again freq (TSamsung address command) es -> own_again freq NecSamsung es).
        { clear. intros es (d & -> & Hd & _). exists d. auto. }
        destruct A as [A|(body & d & -> & A & Hd)]; [left; auto|right; exists body, d; auto].
      * apply longer_weaken; auto; vm_compute; discriminate.
    + unfold said, w. cbn [nv_unpack NecSamsung]. rewrite !samsung_unpack_layout by auto. reflexivity.
Qed.
Print Assumptions C86_samsung.

(** Receivers outside the family: no repeat codes of their own, the others are ignored. *)
Lemma other_held {D : decoder} {C : Type} (into : dcmd D -> C) (fits : list edge -> Prop) freq (heard : transmission -> list (dcmd D)) r0 :
  (forall h1 h2, fits (h1 ++ h2) -> fits h1) ->
  (forall t evs, sent_again freq t evs -> heard t = []) ->
  (forall h l r os, traffic freq l -> fits (h ++ on_air l) -> @run_edges D C into r0 (h ++ on_air l) = Val (r, os) ->
     commands (skipn (length h) os) = map into (flat_map (fun x => heard (fst (fst x))) l)) ->
  (forall h gap evs r os, ended freq 560 (sent_nec_repeat freq) evs \/ ended freq 560 (sent_samsung_repeat freq) evs ->
     longer freq 13500 8 gap -> fits (h ++ (true, gap) :: evs) ->
     @run_edges D C into r0 (h ++ (true, gap) :: evs) = Val (r, os) -> commands (skipn (length h) os) = []) ->
  forall hist l r os, held_traffic freq l -> fits (hist ++ held_air l) ->
  @run_edges D C into r0 (hist ++ held_air l) = Val (r, os) ->
  commands (skipn (length hist) os) = map into (flat_map (fun y => heard (key_of y)) l).
Proof.
  intros Hfit Hown Hser Hign hist l r os Hl Hs E.
  assert (G : commands (skipn (length hist) os) = map into (reports heard (fun c => c) l)).
  { refine (held_heard into into fits freq heard (fun c => c) r0 Hfit _ hist l r os Hl Hs E). clear hist l r os Hl Hs E.
    intros h [[[t gap] evs] rs] r os Hy Hs E. rewrite reports_one. cbn [fst snd].
    rewrite held_air_one in Hs, E. cbn [fst snd] in Hs, E.
    destruct (held_one _ _ _ _ _ Hy) as (Ht & He & Hg & Hr).
    assert (Z : concat (repeat (map into (map (fun c => c) (heard t))) (length rs)) = []).
    { destruct Hr as [|[g es] rs' [A _] _]; [reflexivity|]. cbn [snd] in A.
      assert (K : heard t = []) by (destruct A as [A|(body & d & _ & A & _)]; eauto). rewrite K. apply nothing. }
    rewrite Z, app_nil_r.
    refine (ignored_again into fits freq t _ r0 Hfit _ h _ rs r os _ Hr Hs E).
    - intros h' gap' evs' r' os' Ha Hg' Hs' E'. apply (Hign h' gap' evs' r' os'); auto.
      destruct t; cbn [sent_again] in Ha; auto; exfalso; destruct Ha as [[]|(body & d & _ & [] & _)].
    - intros r' os' E'. etransitivity; [apply (Hser h [(t, gap, evs)] r' os' Ht); [rewrite app_assoc in Hs; exact (Hfit _ _ Hs)|exact E']|].
      cbn [flat_map fst]. rewrite app_nil_r. reflexivity. }
  rewrite G. f_equal. unfold reports. destruct Hl as [_ Hr]. clear -Hr Hown.
  induction Hr as [|y l Hy Hl IH]; cbn [flat_map]; [reflexivity|]. rewrite IH. f_equal.
  destruct Hy as [|[g es] rs' [A _] _]; [apply app_nil_r|]. cbn [snd] in A.
  assert (K : heard (key_of y) = []) by (destruct A as [A|(body & d & _ & A & _)]; eauto). rewrite K.
  cbn [map app]. clear. induction (length ((g, es) :: rs')); auto.
Qed.

Theorem C86_sbp :
  forall b m freq C (into : sbp_command -> C) hist l r0 r os,
  timebase m freq -> 20000 <= freq -> freq < 2 ^ 32 ->
  held_traffic freq l -> short (hist ++ held_air l) ->
  receiver_new (sbp_protocol b m) freq = Val r0 ->
  run_edges (D := sbp_dec b m) into r0 (hist ++ held_air l) = Val (r, os) ->
  commands (skipn (length hist) os) = map into (flat_map (fun y => heard_sbp (key_of y)) l).
Proof.
  intros b m freq C into hist l r0 r os Hm Hlo Hf Hl Hs E0 E.
  refine (other_held (D := sbp_dec b m) into short freq heard_sbp r0 short_prefix _ _ _ hist l r os Hl Hs E).
  - intros t evs H. destruct t; try reflexivity; destruct H.
  - intros. eapply C67_sbp; eauto.
  - intros h gap evs r' os' Ha Hg Hs' E'. apply (C66_sbp b m freq C into h gap evs r0 r' os'); auto. tauto.
Qed.
Print Assumptions C86_sbp.

Theorem C86_rc5 :
  forall b m freq C (into : rc5_command -> C) hist l r0 r os,
  timebase m freq -> 20000 <= freq -> freq < 2 ^ 32 -> 8 <= usize_bits b ->
  held_traffic freq l ->
  receiver_new (rc5_protocol b m) freq = Val r0 ->
  run_edges (D := rc5_dec b) into r0 (hist ++ held_air l) = Val (r, os) ->
  commands (skipn (length hist) os) = map into (flat_map (fun y => heard_rc5 (key_of y)) l).
Proof.
  intros b m freq C into hist l r0 r os Hm Hlo Hf Hu Hl E0 E.
  refine (other_held (D := rc5_dec b) into (fun _ => True) freq heard_rc5 r0 (fun _ _ _ => I) _ _ _ hist l r os Hl I E).
  - intros t evs H. destruct t; try reflexivity; destruct H.
  - intros. eapply C67_rc5; eauto.
  - intros h gap evs r' os' Ha Hg Hs' E'. apply (C66_rc5 b m freq C into h gap evs r0 r' os'); auto. tauto.
Qed.
Print Assumptions C86_rc5.

Theorem C86_rc6 :
  forall b m freq C (into : rc6_command -> C) hist l r0 r os,
  timebase m freq -> 20000 <= freq -> freq < 2 ^ 32 -> 8 <= usize_bits b ->
  held_traffic freq l ->
  receiver_new (rc6_protocol b m) freq = Val r0 ->
  run_edges (D := rc6_dec b) into r0 (hist ++ held_air l) = Val (r, os) ->
  commands (skipn (length hist) os) = map into (flat_map (fun y => heard_rc6 (key_of y)) l).
Proof.
  intros b m freq C into hist l r0 r os Hm Hlo Hf Hu Hl E0 E.
  refine (other_held (D := rc6_dec b) into (fun _ => True) freq heard_rc6 r0 (fun _ _ _ => I) _ _ _ hist l r os Hl I E).
  - intros t evs H. destruct t; try reflexivity; destruct H.
  - intros. eapply C67_rc6; eauto.
  - intros h gap evs r' os' Ha Hg Hs' E'. apply (C66_rc6 b m freq C into h gap evs r0 r' os'); auto. tauto.
Qed.
Print Assumptions C86_rc6.

(** Denon: no Samsung BluRay frames, and a history without anything like the start of a
    frame (C67 shows that both matter). *)
Theorem C86_denon :
  forall b m freq C (into : denon_command -> C) hist l r0 r os,
  timebase m freq -> 20000 <= freq -> freq < 2 ^ 32 ->
  held_traffic freq l -> (forall y a c, In y l -> key_of y <> TSbp a c) ->
  (forall d, In d (periods hist) -> ~ near freq 5000 9 d) ->
  short (hist ++ held_air l) ->
  receiver_new (denon_protocol b m) freq = Val r0 ->
  run_edges (D := denon_dec b m) into r0 (hist ++ held_air l) = Val (r, os) ->
  commands (skipn (length hist) os) = map into (flat_map (fun y => heard_denon (key_of y)) l).
Proof.
  intros b m freq C into hist l r0 r os Hm Hlo Hf Hl Hno Hq Hs E0 E.
  rewrite (denon_new_val b m freq Hm Hf) in E0. injection E0 as <-.
  unfold short in Hs. apply Forall_app in Hs. destruct Hs as [Sh Sl].
  destruct (denon_quiet b m freq Hm Hf into hist 0 0) as (sv & pv & os1 & E1 & Hsv & _); auto; [reflexivity|].
  destruct (denon_held b m freq Hm Hf Hlo into l sv pv Hsv Hl) as (sv' & pv' & os2 & E2 & _ & C2); auto.
  { apply Forall_forall. intros y Hi. destruct (key_of y) eqn:Ey; try reflexivity. exfalso. exact (Hno _ address command Hi Ey). }
  pose proof (run_edges_app_val _ _ _ _ _ _ _ _ E1 E2) as E'. pose proof (eq_trans (eq_sym E) E') as K. injection K as _ ->.
  pose proof (run_edges_length _ _ _ _ _ E1) as L1. unfold edge in *.
  rewrite <- L1, skipn_app, skipn_all, Nat.sub_diag. cbn [app skipn]. exact C2.
Qed.
Print Assumptions C86_denon.

(** ** Multi receivers *)
Inductive hears_keys (freq : N) : any_protocol_ -> (list keypress -> list any_command) -> Prop :=
| keys_nec b m into : timebase m freq -> hears_keys freq (mkAnyP (nec_protocol b m NecStandard) into) (fun l => map into (reports heard_nec again_nec l))
| keys_nec16 b m into : timebase m freq -> hears_keys freq (mkAnyP (nec_protocol b m Nec16Bit) into) (fun l => map into (reports heard_nec16 again_nec16 l))
| keys_raw b m into : timebase m freq -> hears_keys freq (mkAnyP (nec_protocol b m NecRaw) into) (fun l => map into (reports heard_raw (fun c => c) l))
| keys_apple b m into : timebase m freq -> hears_keys freq (mkAnyP (nec_protocol b m NecApple) into) (fun l => map into (reports heard_apple again_apple l))
| keys_samsung b m into : timebase m freq -> hears_keys freq (mkAnyP (nec_protocol b m NecSamsung) into) (fun l => map into (reports heard_samsung again_samsung l))
| keys_sbp b m into : timebase m freq -> hears_keys freq (mkAnyP (sbp_protocol b m) into) (fun l => map into (flat_map (fun y => heard_sbp (key_of y)) l))
| keys_rc5 b m into : timebase m freq -> 8 <= usize_bits b -> hears_keys freq (mkAnyP (rc5_protocol b m) into) (fun l => map into (flat_map (fun y => heard_rc5 (key_of y)) l))
| keys_rc6 b m into : timebase m freq -> 8 <= usize_bits b -> hears_keys freq (mkAnyP (rc6_protocol b m) into) (fun l => map into (flat_map (fun y => heard_rc6 (key_of y)) l)).

Theorem C86_multi :
  forall ps freq ss ss' hist l rows k p heard,
  20000 <= freq -> freq < 2 ^ 32 ->
  held_traffic freq l -> short (hist ++ held_air l) ->
  multi_make ps freq = Val ss -> run_multi ss (hist ++ held_air l) = Val (ss', rows) ->
  nth_error ps k = Some p -> hears_keys freq p heard ->
  column k (skipn (length hist) rows) = heard l.
Proof.
  intros ps freq ss ss' hist l rows k p heard Hlo Hf Ht Hs Em Er Hk Hh.
  destruct (C49_multi_independent ps freq ss ss' (hist ++ held_air l) rows Em Er) as (_ & H).
  destruct (H k p Hk) as (r0 & r & os & E0 & E & Er'). clear H.
  assert (Ec : column k (skipn (length hist) rows) = map (ap_into p) (commands (skipn (length hist) os))).
  { apply (f_equal (skipn (length hist))) in Er'. rewrite !skipn_map in Er'. unfold edge in *.
    apply column_commands, Er'. }
  rewrite Ec. destruct Hh as [b m into Hm|b m into Hm|b m into Hm|b m into Hm|b m into Hm|b m into Hm|b m into Hm Hu|b m into Hm Hu]; cbn [ap_proto ap_into] in *.
  - rewrite (C86_nec b m freq _ _ hist l r0 r os Hm Hlo Hf Ht Hs E0 E), map_id. reflexivity.
  - rewrite (C86_nec16 b m freq _ _ hist l r0 r os Hm Hlo Hf Ht Hs E0 E), map_id. reflexivity.
  - rewrite (C86_raw b m freq _ _ hist l r0 r os Hm Hlo Hf Ht Hs E0 E), map_id. reflexivity.
  - rewrite (C86_apple b m freq _ _ hist l r0 r os Hm Hlo Hf Ht Hs E0 E), map_id. reflexivity.
  - rewrite (C86_samsung b m freq _ _ hist l r0 r os Hm Hlo Hf Ht Hs E0 E), map_id. reflexivity.
  - rewrite (C86_sbp b m freq _ _ hist l r0 r os Hm Hlo Hf Ht Hs E0 E), map_id. reflexivity.
  - rewrite (C86_rc5 b m freq _ _ hist l r0 r os Hm Hlo Hf Hu Ht E0 E), map_id. reflexivity.
  - rewrite (C86_rc6 b m freq _ _ hist l r0 r os Hm Hlo Hf Hu Ht E0 E), map_id. reflexivity.
Qed.
Print Assumptions C86_multi.

(** ** In real time *)
Definition pressed (l : list keypress) : list (transmission * nat) := map (fun y => (key_of y, length (snd y))) l.

Lemma reports_pressed {C} (heard : transmission -> list C) again l l' : pressed l = pressed l' -> reports heard again l = reports heard again l'.
Proof.
  revert l'. induction l as [|y l IH]; intros [|y' l'] E; try discriminate E; [reflexivity|]. unfold pressed in E. cbn [map] in E. injection E as E1 E2 E3.
  unfold reports in *. cbn [flat_map]. rewrite E1, E2, (IH l' E3). reflexivity.
Qed.
Lemma plain_pressed {C} (heard : transmission -> list C) l l' : pressed l = pressed l' ->
  flat_map (fun y => heard (key_of y)) l = flat_map (fun y => heard (key_of y)) l'.
Proof.
  revert l'. induction l as [|y l IH]; intros [|y' l'] E; try discriminate E; [reflexivity|]. unfold pressed in E. cbn [map] in E. injection E as E1 E2 E3.
  cbn [flat_map]. rewrite E1, (IH l' E3). reflexivity.
Qed.
Lemma hears_pressed freq p heard l l' : hears_keys freq p heard -> pressed l = pressed l' -> heard l = heard l'.
Proof. intros H E. destruct H; f_equal; auto using reports_pressed, plain_pressed. Qed.

Section Measured.
  Variables (freq G j : N) (clock : N -> N).
  Hypothesis HG : 0 < G.
  Hypothesis Hc : counts freq G j clock.
  Hypothesis Hr : rate_ok 30000 [40000] freq j.

  Lemma again_code_measured t p lead d : (p = 11250 /\ lead = 9000 \/ p = 6750 /\ lead = 4500) -> real_period G 3 p d -> real_near G 3 lead (fst d) ->
    exists d', measured clock t (pair_edges [d]) = pair_edges [d'] /\ period_near freq p 7 d' /\ near freq lead 8 (fst d').
  Proof.
    intros Hp Hd Hl. destruct (measured_pairs freq G j clock HG Hc [d] t) as (ps' & E & R).
    inversion R as [|d0 d' l0 l1 R1 R2]; subst. inversion R2; subst. exists d'. split; [exact E|]. split.
    - apply (period_read freq G j clock HG Hc 3 p 7 d d'); [|exact Hd|exact R1]. destruct Hp as [[-> _]|[-> _]]; room 30000.
    - apply (mark_read freq G j clock HG Hc 3 lead 8 d d'); [|exact Hl|exact R1]. destruct Hp as [[_ ->]|[_ ->]]; room 30000.
  Qed.

  Lemma again_measured t x evs : real_again G 3 x evs -> sent_again freq x (measured clock t evs).
  Proof.
    destruct x; cbn [real_again sent_again]; try tauto; intros (d & -> & Hd & Hl);
      (edestruct (again_code_measured t) as (d' & E & A & B); [|exact Hd|exact Hl|exists d'; auto]); auto.
  Qed.

  Lemma again_ended_measured t x evs : real_again_ended G 3 x evs -> ended freq 560 (sent_again freq x) (measured clock t evs).
  Proof.
    intros [H|(body & D & -> & H & Hd)]; [left; apply again_measured, H|right].
    rewrite measured_app. cbn [measured]. eexists _, _. split; [reflexivity|]. split; [apply again_measured, H|].
    apply (read_near freq G j clock HG Hc 3); [|exact Hd]. room 30000.
  Qed.

  Lemma gaps_measured x rs : Forall (fun r => real_again_ended G 3 x (snd r) /\ real_long G 20000 (fst r)) rs -> forall t, exists rs',
    measured clock t (gaps_air rs) = gaps_air rs' /\ length rs' = length rs /\
    Forall (fun r => ended freq 560 (sent_again freq x) (snd r) /\ longer freq 13500 8 (fst r)) rs'.
  Proof.
    induction 1 as [|[g evs] rs [Ha Hg] Hrs IH]; intros t.
    - exists []. repeat split. constructor.
    - cbn [fst snd] in *. destruct (IH (after (t + g) evs)) as (rs' & E & L & F).
      exists ((clock (t + g) - clock t, measured clock (t + g) evs) :: rs').
      unfold gaps_air in *. cbn [flat_map fst snd app measured length]. rewrite measured_app, E, L. split; [reflexivity|]. split; [reflexivity|].
      constructor; [|exact F]. cbn [fst snd]. split; [apply again_ended_measured, Ha|].
      eapply (gap_read freq G j clock HG Hc _ 20000); [|exact Hg]. room 30000.
  Qed.

  Lemma held_measured l : real_held G 3 l -> forall t, exists l',
    measured clock t (held_air l) = held_air l' /\ pressed l' = pressed l /\ held_traffic freq l'.
  Proof.
    induction l as [|[x rs] l IH]; intros [Ht Hrs] t.
    - exists []. repeat split; constructor.
    - cbn [map fst] in Ht. unfold real_traffic in Ht. apply Forall_cons_iff in Ht. destruct Ht as [Hx Ht]. apply Forall_cons_iff in Hrs. destruct Hrs as [Hrs Hl].
      cbn [snd] in Hrs. rewrite held_air_cons. cbn [fst snd].
      destruct (traffic_measured freq G j clock HG Hc Hr [x] (Forall_cons _ Hx (Forall_nil _)) t) as (x' & E1 & M1 & T1).
      destruct x' as [|x' [|? ?]]; try discriminate M1. cbn [map] in M1. injection M1 as M1.
      destruct (gaps_measured _ rs Hrs (after t (on_air [x]))) as (rs' & E2 & L2 & F2).
      destruct (IH (conj Ht Hl) (after (after t (on_air [x])) (gaps_air rs))) as (l' & E3 & M3 & T3 & F3).
      exists ((x', rs') :: l'). rewrite held_air_cons, !measured_app, E1, E2, E3. cbn [fst snd]. split; [reflexivity|].
      unfold pressed in *. cbn [map snd]. unfold key_of at 1 3. cbn [fst]. rewrite M1, L2, M3. split; [reflexivity|]. split.
      + cbn [map fst]. apply Forall_cons; [|exact T3]. apply Forall_inv in T1. exact T1.
      + constructor; [|exact F3]. cbn [snd]. unfold key_of in *. cbn [fst] in *. rewrite M1. exact F2.
  Qed.
End Measured.

Theorem C86_real :
  forall ps freq G j clock t0 ss ss' hist l rows k p heard,
  freq < 2 ^ 32 -> 0 < G -> counts freq G j clock -> rate_ok 30000 [40000] freq j ->
  real_held G 3 l ->
  let signal := measured clock t0 (hist ++ held_air l) in
  short signal ->
  multi_make ps freq = Val ss -> run_multi ss signal = Val (ss', rows) ->
  nth_error ps k = Some p -> hears_keys freq p heard ->
  column k (skipn (length hist) rows) = heard l.
Proof.
  intros ps freq G j clock t0 ss ss' hist l rows k p heard Hf HG Hc Hr Ht signal Hs Em Er Hk Hh. subst signal.
  rewrite measured_app in *. destruct (held_measured freq G j clock HG Hc Hr l Ht (after t0 hist)) as (l' & E & Em' & Ht').
  rewrite E in *. rewrite <- (measured_length clock hist t0).
  etransitivity; [apply (C86_multi ps freq ss ss' (measured clock t0 hist) l' rows k p heard); auto; exact (rate_20 _ _ Hr)|].
  apply (hears_pressed freq p); auto.
Qed.
Print Assumptions C86_real.

(** ** Pollers *)
Lemma held_bare freq l chk w : 16 <= w -> held_traffic freq l -> exists l',
  held_air l = flat_map (fun x => (true, fst x) :: snd x) l' /\
  Forall (fun x => longer freq 13500 8 (fst x) /\ (chk = false \/ 8 * N.of_nat (length (snd x)) < 2 ^ w)) l'.
Proof.
  intros Hw [Ht Hr]. induction l as [|[x rs] l IH]; [exists []; split; [reflexivity|constructor]|].
  cbn [map fst] in Ht. unfold traffic in Ht. apply Forall_cons_iff in Ht. destruct Ht as [Hx Ht]. apply Forall_cons_iff in Hr. destruct Hr as [Hr Hl].
  destruct (IH Ht Hl) as (l' & E & F). exists (bare [x] ++ rs ++ l'). rewrite held_air_cons, E, !flat_map_app. split.
  - cbn [fst snd]. rewrite (bare_air [x]). reflexivity.
  - apply Forall_app. split; [apply (traffic_bare freq [x]); [exact Hw|exact (Forall_cons _ Hx (Forall_nil _))]|]. apply Forall_app. split; [|exact F].
    eapply Forall_impl; [|exact Hr]. intros [g evs] [A B]. cbn [fst snd] in *. split; [exact B|]. right.
    assert (K : (length evs <= 3)%nat).
    { assert (K2 : forall body, sent_again freq (key_of (x, rs)) body -> length body = 2%nat).
      { intros body. unfold key_of. cbn [fst]. destruct (fst (fst x)); cbn [sent_again]; try tauto; intros ([? ?] & -> & _); reflexivity. }
      destruct A as [A|(body & d & -> & A & _)]; apply K2 in A; rewrite ?app_length; cbn [length]; unfold edge in *; lia. }
    apply N.lt_le_trans with (2 ^ 16); [change (2 ^ 16) with 65536; unfold edge in *; lia|]. apply N.pow_le_mono_r; [discriminate|exact Hw].
Qed.

Section Polled.
  Variables (P : protocol) (C : Type) (into : dcmd (p_dec P) -> C) (heard : list keypress -> list (dcmd (p_dec P))).
  Variables (freq T first : N) (p0 : periodic_poll (p_dec P)) (ok : list keypress -> Prop) (okh : list edge -> Prop).
  Hypothesis (HT : 0 < T) (Hfi : first < T) (Hf : freq < 2 ^ 32) (Hr : rate_ok 30000 [40000] freq 1).
  Hypothesis (Ep : poll_new P freq = Val p0).
  Hypothesis Hok : forall l l', pressed l = pressed l' -> ok l -> ok l'.
  Hypothesis Hsame : forall l l', pressed l = pressed l' -> heard l = heard l'.
  Hypothesis Hrun : forall h l r0, held_traffic freq l -> ok l -> okh h -> short (h ++ held_air l) -> receiver_new P freq = Val r0 ->
    exists r os, run_edges into r0 (h ++ held_air l) = Val (r, os) /\ commands (skipn (length h) os) = map into (heard l).

  Lemma held_polled l L gap evs n : (forall h, (L = [] -> h = []) -> (length h <= S (length L))%nat -> okh h) ->
    ok l -> real_held (freq * T) 3 l -> held_air l = (true, gap) :: evs -> alt false evs -> swept T first gap evs n L ->
    polled_all P freq T first into p0 L gap evs n (map into (heard l)).
  Proof.
    intros Hh Hl Ht El A (W1 & W2 & W3 & W4). destruct (poll_recv _ _ _ Ep) as (r0 & Er).
    assert (F0 : 0 < freq) by (destruct Hr as (_ & [K|[_ K]]); [lia|usual]).
    pose proof (before_counts T first HT Hfi freq ltac:(lia)) as Hc.
    destruct (polled_series T first HT Hfi P freq C into L gap evs n p0 r0 Ep Er A W1 W4 W3 W2) as (h & g & G1 & H0 & H1 & Hs & Hq).
    assert (B0 : before T first 0 = 0) by (unfold before; rewrite N.add_0_l; apply N.div_small; lia).
    destruct (held_measured freq (freq * T) 1 (before T first) ltac:(lia) Hc Hr l Ht 0) as (l' & E & M & Ht').
    rewrite El in E. cbn [measured] in E. rewrite N.add_0_l, B0, N.sub_0_r in E.
    destruct l' as [|[[[x g0] es] rs] l']; [discriminate|]. rewrite held_air_cons in E. unfold on_air in E. cbn [flat_map fst snd app] in E. rewrite app_nil_r in E. injection E as Eg Em.
    set (l2 := (x, g, es, rs) :: l').
    assert (Ea : (true, g) :: measured (before T first) gap evs = held_air l2).
    { unfold l2. rewrite held_air_cons. unfold on_air. cbn [flat_map fst snd app]. rewrite app_nil_r, Em. reflexivity. }
    assert (Ht2 : held_traffic freq l2).
    { destruct Ht' as [K1 K2]. split; [|apply Forall_cons_iff in K2; constructor; apply K2].
      cbn [map fst l2] in *. unfold traffic in *. apply Forall_cons_iff in K1. destruct K1 as [[K3 K4] K1]. constructor; [|exact K1]. cbn [fst snd] in *.
      split; [exact K3|]. apply (longer_more _ _ _ g0); [exact K4|lia]. }
    assert (M2 : pressed l2 = pressed l) by exact M.
    rewrite Ea in *.
    destruct (Hrun h l2 r0 Ht2 (Hok l l2 (eq_sym M2) Hl) (Hh h H0 H1) Hs Er) as (r & os & Eos & Ec).
    pose proof (run_edges_length into _ _ _ _ Eos) as Lo.
    destruct (Hq r (firstn (length h) os) (skipn (length h) os)) as (q1 & q2 & k & Eo & L1 & Hk & Hfl).
    { rewrite firstn_skipn. exact Eos. }
    { rewrite app_length in Lo. unfold edge, outcome in *. rewrite firstn_length. lia. }
    exists q1, q2, k. split; [exact Eo|]. split; [exact L1|]. split; [exact Hk|].
    assert (X : commands q2 = commands (skipn (length h) os)).
    { apply (proj2 (Hfl _ (fun o => match o with ROk (Some c) => [c] | _ => [] end) eq_refl)). }
    refine (eq_trans X (eq_trans Ec _)). f_equal. apply Hsame, M2.
  Qed.
End Polled.

(** What a poller of each protocol reports; [L] are the samples before (C40: not too many of
    them in debug builds for RC5 and RC6). *)
Inductive polls_keys (freq : N) (L : list bool) : forall P : protocol, (list keypress -> list (dcmd (p_dec P))) -> Prop :=
| polls_nec b m : timebase m freq -> polls_keys freq L (nec_protocol b m NecStandard) (reports heard_nec again_nec)
| polls_nec16 b m : timebase m freq -> polls_keys freq L (nec_protocol b m Nec16Bit) (reports heard_nec16 again_nec16)
| polls_raw b m : timebase m freq -> polls_keys freq L (nec_protocol b m NecRaw) (reports heard_raw (fun c => c))
| polls_apple b m : timebase m freq -> polls_keys freq L (nec_protocol b m NecApple) (reports heard_apple again_apple)
| polls_samsung b m : timebase m freq -> polls_keys freq L (nec_protocol b m NecSamsung) (reports heard_samsung again_samsung)
| polls_sbp b m : timebase m freq -> polls_keys freq L (sbp_protocol b m) (fun l => flat_map (fun y => heard_sbp (key_of y)) l)
| polls_rc5 b m : timebase m freq -> 16 <= usize_bits b -> after_any b L -> polls_keys freq L (rc5_protocol b m) (fun l => flat_map (fun y => heard_rc5 (key_of y)) l)
| polls_rc6 b m : timebase m freq -> 16 <= usize_bits b -> after_any b L -> polls_keys freq L (rc6_protocol b m) (fun l => flat_map (fun y => heard_rc6 (key_of y)) l).

Theorem C86_polled :
  forall P heard freq T first l L gap evs n C (into : dcmd (p_dec P) -> C) p0,
  polls_keys freq L P heard ->
  freq < 2 ^ 32 -> 0 < T -> first < T -> rate_ok 30000 [40000] freq 1 ->
  real_held (freq * T) 3 l -> held_air l = (true, gap) :: evs -> alt false evs -> swept T first gap evs n L ->
  poll_new P freq = Val p0 ->
  polled_all P freq T first into p0 L gap evs n (map into (heard l)).
Proof.
  intros P heard freq T first l L gap evs n C into p0 HP Hf HT Hfi Hr Ht El A W Ep. pose proof (rate_20 _ _ Hr) as H20.
  assert (Nec : forall b m V (into : nv_cmd V -> C) heard p0, timebase m freq -> nec_timing_ok (nv_timing V) ->
    (forall l l', pressed l = pressed l' -> heard l = heard l') ->
    (forall hist l r0 r os, held_traffic freq l -> short (hist ++ held_air l) -> receiver_new (nec_protocol b m V) freq = Val r0 ->
      run_edges (D := nec_dec b m V) into r0 (hist ++ held_air l) = Val (r, os) ->
      commands (skipn (length hist) os) = map into (heard l)) ->
    poll_new (nec_protocol b m V) freq = Val p0 ->
    polled_all (nec_protocol b m V) freq T first into p0 L gap evs n (map into (heard l))).
  { clear p0 Ep into HP heard. intros b m V into heard p0 Hm HV Hsame Hc Ep.
    apply (held_polled (nec_protocol b m V) C into heard freq T first p0 (fun _ => True) (fun _ => True)); auto.
    intros h l0 r0 Hl0 _ _ Hs Er.
    destruct (runs (nec_protocol b m V) freq C into (h ++ held_air l0) r0) as (r & os & E); [|exact Er|].
    - apply C39_nec; auto. left. apply (short_half m freq); auto.
    - exists r, os. split; [exact E|]. exact (Hc h l0 r0 r os Hl0 Hs Er E). }
  destruct HP as [b m Hm|b m Hm|b m Hm|b m Hm|b m Hm|b m Hm|b m Hm Hu HL|b m Hm Hu HL].
  - apply (Nec b m NecStandard into); auto; [now left|apply reports_pressed|]. intros. eapply C86_nec; eauto.
  - apply (Nec b m Nec16Bit into); auto; [now left|apply reports_pressed|]. intros. eapply C86_nec16; eauto.
  - apply (Nec b m NecRaw into); auto; [now left|apply reports_pressed|]. intros. eapply C86_raw; eauto.
  - apply (Nec b m NecApple into); auto; [now left|apply reports_pressed|]. intros. eapply C86_apple; eauto.
  - apply (Nec b m NecSamsung into); auto; [now right|apply reports_pressed|]. intros. eapply C86_samsung; eauto.
  - apply (held_polled (sbp_protocol b m) C into (fun l => flat_map (fun y => heard_sbp (key_of y)) l) freq T first p0 (fun _ => True) (fun _ => True)); auto; [apply plain_pressed|].
    intros h l0 r0 Hl0 _ _ Hs Er.
    destruct (runs (sbp_protocol b m) freq C into (h ++ held_air l0) r0) as (r & os & E); [|exact Er|].
    + apply C39_sbp; auto. left. apply (short_half m freq); auto.
    + exists r, os. split; [exact E|]. exact (C86_sbp b m freq C into h l0 r0 r os Hm H20 Hf Hl0 Hs Er E).
  - apply (held_polled (rc5_protocol b m) C into (fun l => flat_map (fun y => heard_rc5 (key_of y)) l) freq T first p0 (fun _ => True)
      (fun h => overflow_checks b = false \/ 8 * N.of_nat (length h) < 2 ^ usize_bits b)); auto; [apply plain_pressed| |].
    + intros h l0 r0 Hl0 _ Hh Hs Er. destruct (held_bare freq l0 (overflow_checks b) (usize_bits b) Hu Hl0) as (l1 & El1 & F1).
      destruct (rc5_bare_total b m freq Hm Hf C into h l1 r0 Hh F1 Er) as (r & os & E). rewrite <- El1 in E.
      exists r, os. split; [exact E|]. exact (C86_rc5 b m freq C into h l0 r0 r os Hm H20 Hf ltac:(lia) Hl0 Er E).
    + intros h _ Hh. destruct HL as [HL|HL]; [left; exact HL|right]. clear -HL Hh. unfold edge in *. lia.
  - apply (held_polled (rc6_protocol b m) C into (fun l => flat_map (fun y => heard_rc6 (key_of y)) l) freq T first p0 (fun _ => True)
      (fun h => overflow_checks b = false \/ 8 * N.of_nat (length h) < 2 ^ usize_bits b)); auto; [apply plain_pressed| |].
    + intros h l0 r0 Hl0 _ Hh Hs Er. destruct (held_bare freq l0 (overflow_checks b) (usize_bits b) Hu Hl0) as (l1 & El1 & F1).
      destruct (rc6_bare_total b m freq Hm Hf C into h l1 r0 Hh F1 Er) as (r & os & E). rewrite <- El1 in E.
      exists r, os. split; [exact E|]. exact (C86_rc6 b m freq C into h l0 r0 r os Hm H20 Hf ltac:(lia) Hl0 Er E).
    + intros h _ Hh. destruct HL as [HL|HL]; [left; exact HL|right]. clear -HL Hh. unfold edge in *. lia.
Qed.
Print Assumptions C86_polled.

(** A NEC key held for two repeat codes, an RC5 key, a Samsung key held for one; a NEC poller and a
    Samsung poller at 40 kHz. *)
Definition c86_samsung : list (N * N) :=
  (4600, 4600) :: map (fun bit : bool => if bit then (570, 1730) else (570, 575)) (bits_lsb 32 (bytes4 7 7 200 (compl8 200))).
Definition c86_air : list keypress :=
  [ (TNec 7 200, 30000, pair_edges c85_nec ++ [(false, 560)],
     [(40000, pair_edges [(9100, 2300)] ++ [(false, 570)]); (96000, pair_edges [(8900, 2200)] ++ [(false, 550)])]);
    (TRc5 14348, 40000, slow_rc5 14348, []);
    (TSamsung 7 200, 25000, pair_edges c86_samsung ++ [(false, 560)], [(60000, pair_edges [(4600, 2300)] ++ [(false, 570)])]) ].

Lemma c86_meets :
  real_held (40000 * 25) 3 c86_air /\ held_air c86_air = (true, 30000) :: tl (held_air c86_air) /\ alt false (tl (held_air c86_air)) /\
  swept 25 7 30000 (tl (held_air c86_air)) (N.to_nat 22000) c79_before.
Proof.
  assert (Mk : forall ps h bs, ps = h :: map (fun bit : bool => if bit then (570, 1730) else (570, 575)) bs ->
    forall lead, real_nearb 1000000 3 lead (fst h) = true -> real_marks 1000000 3 lead 560 ps).
  { intros ps h bs -> lead Hh. do 2 eexists. split; [reflexivity|]. split; [apply real_nearb_ok, Hh|]. apply Forall_forall. intros d Hd.
    apply in_map_iff in Hd. destruct Hd as (bit & <- & _). destruct bit; split; vm_compute; discriminate. }
  split; [split|].
  { unfold real_traffic, c86_air. cbn [map fst]. repeat apply Forall_cons; [| | |apply Forall_nil]; cbn [fst snd]; (split; [|vm_compute; discriminate]).
    - right. eexists. eexists. split; [reflexivity|]. split; [|split; vm_compute; discriminate].
      split; [reflexivity|]. split; [reflexivity|]. exists c85_nec. split; [reflexivity|]. split.
      + apply real_nec_ok. vm_compute. reflexivity.
      + eapply Mk; [reflexivity|vm_compute; reflexivity].
    - left. split; [reflexivity|]. split; [reflexivity|].
      assert (E : exists n noms, level_edges false 0 (rc5_wave 14348) = (true, n) :: noms) by (do 2 eexists; vm_compute; reflexivity).
      destruct E as (n & noms & E). exists n, noms. split; [exact E|]. unfold slow_rc5. rewrite E. cbn [tl]. clear E.
      induction noms as [|e noms IH]; cbn [map]; constructor; [|exact IH]. split; [reflexivity|]. unfold real_near. cbn [snd]. lia.
    - right. eexists. eexists. split; [reflexivity|]. split; [|split; vm_compute; discriminate].
      split; [reflexivity|]. split; [reflexivity|]. exists c86_samsung. split; [reflexivity|]. split.
      + apply real_nec_ok. vm_compute. reflexivity.
      + eapply Mk; [reflexivity|vm_compute; reflexivity]. }
  { unfold c86_air. repeat apply Forall_cons; try apply Forall_nil; cbn [fst snd key_of]; (split; [right; eexists; eexists; (split; [reflexivity|]); (split; [|split; vm_compute; discriminate])|vm_compute; discriminate]);
      cbn [real_again]; eexists; (split; [reflexivity|]); split; split; vm_compute; discriminate. }
  split; [reflexivity|]. split; [vm_compute; repeat split|].
  assert (H : forallb (fun e : edge => (25 <=? snd e) && (snd e <=? (2 ^ 31 - 2) * 25)) ((true, 30000) :: tl (held_air c86_air)) = true) by (vm_compute; reflexivity).
  rewrite forallb_forall in H. split; [|split; [|split]].
  - apply Forall_forall. intros e He. specialize (H e He). apply andb_prop in H. apply N.leb_le, H.
  - apply Forall_forall. intros e He. specialize (H e (or_intror He)). apply andb_prop in H. apply N.leb_le, H.
  - vm_compute. discriminate.
  - rewrite Nnat.N2Nat.id. vm_compute. discriminate.
Qed.

Example C86_example : forall p0 p1,
  poll_new (nec_protocol (debug_build 16) MU32 NecStandard) 40000 = Val p0 -> poll_new (nec_protocol (debug_build 16) MU32 NecSamsung) 40000 = Val p1 ->
  polled_all (nec_protocol (debug_build 16) MU32 NecStandard) 40000 25 7 (fun c => c) p0 c79_before 30000 (tl (held_air c86_air)) (N.to_nat 22000)
    [mkNec 7 200 false; mkNec 7 200 true; mkNec 7 200 true] /\
  polled_all (nec_protocol (debug_build 16) MU32 NecSamsung) 40000 25 7 (fun c => c) p1 c79_before 30000 (tl (held_air c86_air)) (N.to_nat 22000)
    [mkSamsung 7 200 false; mkSamsung 7 200 true].
Proof.
  intros p0 p1 E0 E1. destruct c86_meets as (H1 & H2 & H3 & H4).
  assert (Hr : rate_ok 30000 [40000] 40000 1) by (split; [lia|right; cbn; auto]). split.
  - exact (C86_polled _ _ 40000 25 7 c86_air c79_before _ _ _ _ (fun c => c) p0 (polls_nec 40000 c79_before (debug_build 16) MU32 I) eq_refl eq_refl eq_refl Hr H1 H2 H3 H4 E0).
  - exact (C86_polled _ _ 40000 25 7 c86_air c79_before _ _ _ _ (fun c => c) p1 (polls_samsung 40000 c79_before (debug_build 16) MU32 I) eq_refl eq_refl eq_refl Hr H1 H2 H3 H4 E1).
Qed.
