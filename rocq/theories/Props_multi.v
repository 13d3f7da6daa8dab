(** * Property theorems: what the multireceiver example prints *)
From Coq Require Import NArith ZArith List Bool Lia ZifyBool ZifyNat ZifyN.
From Verif Require Import Machine Time Decoder Nec Rc5 Rc6 Denon Receiver Spec Bits Codec_facts Time_facts Run_facts Nec_facts
  Spec_receiver Receiver_facts Spec_state Spec_phys Phys_facts Spec_keys Keys_facts Apps Spec_apps Spec_listen Listen_facts
  Cross_facts Traffic_facts Rc5_facts Rc6_facts Denon_facts Props_decode Props_receiver Props_state Props_traffic Props_phys Props_listen Multi_facts Spec_cross.
Import ListNotations.
Open Scope N_scope.

(** ** Two receivers of the NEC family in step *)
Lemma nec_in_step b m V1 V2 C1 C2 (into1 : nv_cmd V1 -> C1) (into2 : nv_cmd V2 -> C2) :
  (forall w rep, nv_unpack V2 w rep <> None) ->
  forall h d p1 p2 r1 os1 r2 os2,
  run_edges (D := nec_dec b m V1) into1 (mkRecv (D := nec_dec b m V1) d p1) h = Val (r1, os1) ->
  run_edges (D := nec_dec b m V2) into2 (mkRecv (D := nec_dec b m V2) d p2) h = Val (r2, os2) ->
  Forall2 (fun o1 o2 => (exists c, o1 = ROk (Some c)) -> exists c, o2 = ROk (Some c)) os1 os2.
Proof.
  intros HV. induction h as [|[e dt] h IH]; intros d p1 p2 r1 os1 r2 os2 E1 E2; cbn [run_edges] in E1, E2.
  - injection E1 as _ <-. injection E2 as _ <-. constructor.
  - unfold event_edge in E1, E2. cbn [rv_dec d_event nec_dec] in E1, E2.
    destruct (nec_event b m d e dt) as [[d' s]| |] eqn:Ed; cbn [bind] in E1, E2; try discriminate.
    assert (Hs : s = Done -> nv_unpack V2 (ns_bitbuf d') false <> None /\ (ns_state d' = NDone \/ ns_state d' = NRepeatDone)).
    { intros ->. split; [apply HV|]. unfold nec_event in Ed. destruct e.
      - destruct (dur_add b m dt (ns_dt_save d)); cbn [bind] in Ed; try discriminate.
        destruct (nec_transition _ _ _ _) as [[buf st]| |]; cbn [bind] in Ed; try discriminate.
        injection Ed as <- Ed. cbn [ns_state]. destruct st; try discriminate Ed; auto.
      - injection Ed as <- Ed. cbn [ns_state]. destruct (ns_state d); try discriminate Ed; auto. }
    destruct s; cbn [bind rv_prev d_command d_reset nec_dec] in E1, E2;
    match type of E1 with (let* (_, _) := ?x in _) = _ => destruct x as [[r1' os1']| |] eqn:F1; cbn [bind] in E1; try discriminate E1 end;
    match type of E2 with (let* (_, _) := ?x in _) = _ => destruct x as [[r2' os2']| |] eqn:F2; cbn [bind] in E2; try discriminate E2 end;
    injection E1 as _ <-; injection E2 as _ <-; (constructor; [|eapply IH; [exact F1|exact F2]]).
    1, 2, 4: intros (c & K); discriminate K.
    intros _. destruct (Hs eq_refl) as [_ Hd]. unfold nec_command_of. destruct Hd as [-> | ->].
    + destruct (nv_unpack V2 (ns_bitbuf d') false) eqn:K; [eexists; reflexivity|]. destruct (HV _ _ K).
    + destruct (nv_unpack V2 (ns_bitbuf d') true) eqn:K; [eexists; reflexivity|]. destruct (HV _ _ K).
Qed.

(** ** Rows of six receivers *)
Notation row := (list (option any_command)).
Definition filled (k : nat) (r : row) : Prop := exists c, nth_error r k = Some (Some c).
Definition in_step (r : row) : Prop := filled 3 r -> filled 4 r.
Definition five (r : row) : list any_command := flatten_opts (firstn 5 r).

Lemma six (r : row) : length r = 6%nat -> exists a b c d e f, r = [a; b; c; d; e; f].
Proof. do 6 (destruct r as [|? r]; [discriminate|]). destruct r; [|discriminate]. intros _. repeat eexists. Qed.

Lemma column_cons k r rows : column k (r :: rows) = match nth_error r k with Some (Some c) => [c] | _ => [] end ++ column k rows.
Proof. reflexivity. Qed.

(** At most one of the first five receivers reports. *)
Lemma one_column k0 : (k0 < 5)%nat -> forall rows, Forall (fun r : row => length r = 6%nat) rows ->
  (forall k, (k < 5)%nat -> k <> k0 -> column k rows = []) -> flat_map five rows = column k0 rows.
Proof.
  intros Hk. induction rows as [|r rows IH]; intros Hl H; [reflexivity|].
  inversion Hl as [|? ? Hr Hl']; subst. destruct (six r Hr) as (a & b & c & d & e & f & ->).
  rewrite column_cons. cbn [flat_map]. rewrite IH; [|exact Hl'|].
  - f_equal. assert (H' : forall k, (k < 5)%nat -> k <> k0 -> forall x, nth_error [a; b; c; d; e; f] k <> Some (Some x)).
    { intros k H1 H2 x Hx. specialize (H k H1 H2). rewrite column_cons, Hx in H. discriminate. }
    pose proof (H' 0%nat) as H0. pose proof (H' 1%nat) as H1. pose proof (H' 2%nat) as H2.
    pose proof (H' 3%nat) as H3. pose proof (H' 4%nat) as H4. cbn [nth_error] in *. unfold five. cbn [firstn].
    assert (K : (k0 = 0 \/ k0 = 1 \/ k0 = 2 \/ k0 = 3 \/ k0 = 4)%nat) by lia.
    destruct K as [->|[->|[->|[->| ->]]]]; cbn [nth_error]; destruct a, b, c, d, e; try reflexivity;
      exfalso; first [refine (H0 _ _ _ eq_refl); lia|refine (H1 _ _ _ eq_refl); lia|refine (H2 _ _ _ eq_refl); lia
                     |refine (H3 _ _ _ eq_refl); lia|refine (H4 _ _ _ eq_refl); lia].
  - intros k H1 H2. specialize (H k H1 H2). rewrite column_cons in H. apply app_eq_nil in H. apply H.
Qed.

Lemma column_in_step rows : Forall in_step rows -> column 4 rows = [] -> column 3 rows = [].
Proof.
  induction 1 as [|r rows Hr _ IH]; intros H; [reflexivity|]. rewrite column_cons in H |- *. apply app_eq_nil in H. destruct H as [H1 H2].
  rewrite (IH H2), app_nil_r. destruct (nth_error r 3) as [[c|]|] eqn:E; try reflexivity.
  destruct (Hr (ex_intro _ c E)) as (c' & E'). rewrite E' in H1. discriminate.
Qed.

(** The fourth and the fifth report one command each, the fifth at least where the fourth does. *)
Lemma two_columns x y : forall rows, Forall (fun r : row => length r = 6%nat) rows -> Forall in_step rows ->
  (forall k, (k < 3)%nat -> column k rows = []) -> column 3 rows = [x] -> column 4 rows = [y] -> flat_map five rows = [x; y].
Proof.
  induction rows as [|r rows IH]; intros Hl Hi H H3 H4; [discriminate|].
  inversion Hl as [|? ? Hr Hl']; subst. inversion Hi as [|? ? Hr' Hi']; subst.
  destruct (six r Hr) as (a & b & c & d & e & f & ->).
  assert (H' : forall k, (k < 3)%nat -> match nth_error [a; b; c; d; e; f] k with Some (Some c) => [c] | _ => [] end = [] /\ column k rows = []).
  { intros k Hk. specialize (H k Hk). rewrite column_cons in H. apply app_eq_nil, H. }
  rewrite column_cons in H3, H4. cbn [nth_error] in H3, H4. cbn [flat_map].
  destruct (H' 0%nat) as [Ha _]; [lia|]. destruct (H' 1%nat) as [Hb _]; [lia|]. destruct (H' 2%nat) as [Hc _]; [lia|].
  cbn [nth_error] in Ha, Hb, Hc. destruct a; [discriminate Ha|]. destruct b; [discriminate Hb|]. destruct c; [discriminate Hc|].
  destruct d as [d|].
  - destruct (Hr' (ex_intro _ d eq_refl)) as (e' & Ee). cbn [nth_error] in Ee. injection Ee as ->.
    cbn [app] in H3, H4. injection H3 as -> H3. injection H4 as -> H4.
    rewrite (one_column 4); [rewrite H4; reflexivity|lia|exact Hl'|].
    intros k Hk Hk'. assert (K : (k < 3 \/ k = 3)%nat) by lia. destruct K as [K| ->]; [apply H', K|exact H3].
  - destruct e as [e|].
    + cbn [app] in H3, H4. injection H4 as -> H4. rewrite (column_in_step rows Hi' H4) in H3. discriminate.
    + cbn [app] in H3, H4. unfold five at 1. cbn [firstn flatten_opts app]. apply IH; auto. intros k Hk. apply H', Hk.
Qed.

(** ** What the example prints for a transmission *)

(** A word in NEC's timing that is an Apple frame. *)
Definition apple_line (w : N) : list any_command :=
  if (field w 5 11 =? 1087) && Nat.odd (ones (bits_lsb 32 w))
  then [mkAny PNecApple 0 0 (2 ^ 7 * field w 0 1 + field w 17 7) false] else [].

Definition multi_lines (t : transmission) : list any_command :=
  match t with
  | TNec a c => apple_line (bytes4 a (compl8 a) c (compl8 c)) ++ [mkAny PNec 0 a c false]
  | TNec16 a c => apple_line (bytes4 (a mod 2 ^ 8) (a / 2 ^ 8) c (compl8 c)) ++ [mkAny PNec 0 (a mod 2 ^ 8) c false]
  | TRaw w => apple_line w ++ [mkAny PNec 0 (field w 0 8) (field w 16 8) false]
  | TSamsung a c => [mkAny PNecSamsung 0 a c false]
  | TSbp _ _ => []
  | TDenon w => [mkAny PDenon (w mod 2 ^ 47) 0 0 false]
  | TRc5 w => [mkAny PRc5 0 (field w 6 5) (field w 0 6) (negb (field w 11 1 =? 0))]
  | TRc6 a c tg => [mkAny PRc6 0 a c tg]
  end.

(** The lines for protocols other than Denon. *)
Definition not_denon (c : any_command) : bool := match any_protocol c with PDenon => false | _ => true end.

Lemma apple_any w : map (any_from apple_ac) (if (field w 5 11 =? 1087) && Nat.odd (ones (bits_lsb 32 w))
  then [mkApple (field w 0 5) (field w 17 7) (field w 24 8) false] else []) = apple_line w.
Proof.
  unfold apple_line. destruct (_ && _); [|reflexivity]. cbn [map]. unfold any_from, apple_ac.
  cbn [ac_id ac_address ac_command ac_is_repeat apl_page apl_command apl_repeat]. do 2 f_equal. unfold as_u8.
  assert (A : field w 17 7 < 2 ^ 7) by (apply N.mod_lt; discriminate).
  assert (E : (N.shiftl (field w 0 5) 7) mod 2 ^ 8 = 2 ^ 7 * field w 0 1).
  { rewrite N.shiftl_mul_pow2. unfold field. rewrite N.pow_0_r, N.div_1_r.
    change (2 ^ 8) with (2 ^ 7 * 2). rewrite (N.mul_comm (w mod 2 ^ 5)), N.mul_mod_distr_l by discriminate.
    f_equal. change (2 ^ 5) with (2 * 2 ^ 4). rewrite N.mod_mul_r by discriminate. change (2 ^ 1) with 2.
    rewrite (N.mul_comm 2), N.mod_add, N.mod_mod by discriminate. reflexivity. }
  rewrite E, N.lor_comm, (N.mul_comm (2 ^ 7)), <- N.shiftl_mul_pow2. rewrite lor_add by exact A. rewrite N.shiftl_mul_pow2. apply N.add_comm.
Qed.

Lemma run_multi_split h1 : forall ss h2 ss' rows, run_multi ss (h1 ++ h2) = Val (ss', rows) ->
  exists ss1 r1 r2, run_multi ss h1 = Val (ss1, r1) /\ run_multi ss1 h2 = Val (ss', r2) /\ rows = r1 ++ r2 /\ length r1 = length h1.
Proof.
  induction h1 as [|[e dt] h1 IH]; intros ss h2 ss' rows E; cbn [app run_multi] in E |- *.
  - exists ss, [], rows. auto.
  - destruct (multi_event ss dt e) as [[ss0 o]| |]; cbn [bind] in E |- *; try discriminate.
    destruct (run_multi ss0 (h1 ++ h2)) as [[ss2 os]| |] eqn:E2; cbn [bind] in E; try discriminate. injection E as -> <-.
    destruct (IH _ _ _ _ E2) as (ss1 & r1 & r2 & Q1 & Q2 & -> & Ln). rewrite Q1. cbn [bind].
    exists ss1, (o :: r1), r2. cbn [length app]. auto.
Qed.

Section Rows.
  Context (b : build) (freq : N).
  Hypothesis Hlo : 20000 <= freq.
  Hypothesis Hf : freq < 2 ^ 32.
  Hypothesis Hu : 8 <= usize_bits b.
  Notation ps := (multi_protocols b).

  Lemma rows_six hist ss ss' rows : multi_make ps freq = Val ss -> run_multi ss hist = Val (ss', rows) ->
    Forall (fun r : row => length r = 6%nat) rows.
  Proof. intros Em Er. exact (proj1 (C49_multi_independent ps freq ss ss' hist rows Em Er)). Qed.

  Lemma rows_in_step hist ss ss' rows : multi_make ps freq = Val ss -> run_multi ss hist = Val (ss', rows) ->
    Forall in_step rows.
  Proof.
    intros Em Er. destruct (C49_multi_independent ps freq ss ss' hist rows Em Er) as (_ & H).
    destruct (H 3%nat _ eq_refl) as (r0 & r & os & E0 & E & C3). destruct (H 4%nat _ eq_refl) as (r0' & r' & os' & E0' & E' & C4). clear H.
    cbn [ap_proto ap_into p_dec nec_protocol] in *.
    pose proof (nec_new_val b MU32 freq NecApple I Hf (or_introl eq_refl)) as K. rewrite E0 in K. injection K as ->.
    pose proof (nec_new_val b MU32 freq NecStandard I Hf (or_introl eq_refl)) as K. rewrite E0' in K. injection K as ->.
    pose proof (nec_in_step b MU32 NecApple NecStandard _ _ (fun c => c) (fun c => c) ltac:(intros; discriminate) _ _ _ _ _ _ _ _ E E') as F.
    clear -C3 C4 F. revert rows C3 C4.
    induction F as [|o o' os os' Ho F IH]; intros [|r rows] C3 C4; cbn [map] in C3, C4; try discriminate; constructor.
    - injection C3 as C3 _. injection C4 as C4 _. intros (c & Hc). pose proof (eq_trans (eq_sym Hc) C3) as K.
      destruct o as [[a|]|]; try discriminate K. destruct (Ho (ex_intro _ a eq_refl)) as (n & ->). eexists. exact C4.
    - injection C3 as _ C3. injection C4 as _ C4. apply IH; assumption.
  Qed.

  (** The lines without Denon's, for every history. *)
  Lemma printed_five : forall l hist ss ss' rows,
    traffic freq l -> short (hist ++ on_air l) ->
    multi_make ps freq = Val ss -> run_multi ss (hist ++ on_air l) = Val (ss', rows) ->
    flat_map five (skipn (length hist) rows) = flat_map (fun x => filter not_denon (multi_lines (fst (fst x)))) l.
  Proof.
    induction l as [|x l IH]; intros hist ss ss' rows Ht Hs Em Er.
    - assert (length rows = length hist) as <-.
      { unfold on_air in Er. cbn [flat_map] in Er. rewrite app_nil_r in Er.
        destruct (run_multi_split hist ss [] ss' rows) as (? & r1 & r2 & _ & E2 & -> & L); [rewrite app_nil_r; exact Er|].
        cbn in E2. injection E2 as _ <-. rewrite app_nil_r. exact L. }
      rewrite skipn_all. reflexivity.
    - set (ex := (true, snd (fst x)) :: snd x). assert (Eo : on_air (x :: l) = ex ++ on_air l) by reflexivity.
      assert (Eo1 : on_air [x] = ex) by (unfold on_air; cbn [flat_map]; apply app_nil_r).
      rewrite Eo, app_assoc in Er, Hs.
      inversion Ht as [|? ? Hx Ht']; subst.
      destruct (run_multi_split (hist ++ ex) ss (on_air l) ss' rows Er) as (s1 & r1 & r2 & Q1 & Q2 & -> & L1).
      pose proof (IH (hist ++ ex) ss ss' (r1 ++ r2) Ht' Hs Em Er) as Rest.
      unfold edge in *.
      assert (Es2 : skipn (length (hist ++ ex)) (r1 ++ r2) = r2).
      { rewrite <- L1, skipn_app, skipn_all, Nat.sub_diag. reflexivity. }
      rewrite Es2 in Rest.
      assert (Es1 : skipn (length hist) (r1 ++ r2) = skipn (length hist) r1 ++ r2).
      { rewrite skipn_app. f_equal. replace (length hist - length r1)%nat with 0%nat; [reflexivity|].
        rewrite L1, app_length. lia. }
      rewrite Es1, flat_map_app, Rest. cbn [flat_map]. f_equal. clear Rest Es1 Es2.
      assert (Hs1 : short (hist ++ on_air [x])).
      { rewrite Eo1. unfold short in Hs |- *. apply Forall_app in Hs. apply Hs. }
      assert (Ht1 : traffic freq [x]) by (constructor; [exact Hx|constructor]).
      rewrite <- Eo1 in Q1.
      assert (Six : Forall (fun r : row => length r = 6%nat) (skipn (length hist) r1)).
      { apply Forall_forall. intros r Hr. pose proof (rows_six _ _ _ _ Em Q1) as A. rewrite Forall_forall in A.
        apply A. rewrite <- (firstn_skipn (length hist)). apply in_or_app. right. exact Hr. }
      assert (Step : Forall in_step (skipn (length hist) r1)).
      { apply Forall_forall. intros r Hr. pose proof (rows_in_step _ _ _ _ Em Q1) as A. rewrite Forall_forall in A.
        apply A. rewrite <- (firstn_skipn (length hist)). apply in_or_app. right. exact Hr. }
      assert (Col : forall k p heard, nth_error ps k = Some p -> hears freq p heard ->
        column k (skipn (length hist) r1) = heard (fst (fst x))).
      { intros k p heard Hk Hh. refine (eq_trans (C67_multi ps freq ss s1 hist [x] r1 k p heard Hlo Hf Ht1 Hs1 Em Q1 Hk Hh) _). apply app_nil_r. }
      pose proof (Col 0%nat _ _ eq_refl (hears_samsung freq b MU32 _ I)) as C0.
      pose proof (Col 1%nat _ _ eq_refl (hears_rc5 freq b MU32 _ I Hu)) as C1.
      pose proof (Col 2%nat _ _ eq_refl (hears_rc6 freq b MU32 _ I Hu)) as C2.
      pose proof (Col 3%nat _ _ eq_refl (hears_apple freq b MU32 _ I)) as C3.
      pose proof (Col 4%nat _ _ eq_refl (hears_nec freq b MU32 _ I)) as C4.
      cbn beta in *. clear Col IH Em Er Q1 Q2. set (R := skipn (length hist) r1) in *. clearbody R.
      assert (A : forall w, nec_word (fst (fst x)) = Some w -> column 3 R = apple_line w).
      { intros w Hw. rewrite C3. unfold heard_apple. rewrite Hw. apply apple_any. }
      assert (P : forall n, column 0 R = [] -> column 1 R = [] -> column 2 R = [] -> column 4 R = [n] ->
        forall w, nec_word (fst (fst x)) = Some w -> not_denon n = true -> flat_map five R = filter not_denon (apple_line w ++ [n])).
      { intros n D0 D1 D2 D4 w Hw Hn. pose proof (A w Hw) as D3. rewrite filter_app. cbn [filter]. rewrite Hn.
        unfold apple_line in D3 |- *. destruct (_ && _); cbn [filter not_denon any_protocol app].
        - apply two_columns; auto. intros k Hk. assert (K : (k = 0 \/ k = 1 \/ k = 2)%nat) by lia. destruct K as [->|[->| ->]]; assumption.
        - rewrite (one_column 4); [exact D4|lia|exact Six|]. intros k Hk Hk'.
          assert (K : (k = 0 \/ k = 1 \/ k = 2 \/ k = 3)%nat) by lia. destruct K as [->|[->|[->| ->]]]; assumption. }
      assert (O : forall k0, (k0 < 5)%nat -> (forall k, (k < 5)%nat -> k <> k0 -> column k R = []) -> flat_map five R = column k0 R).
      { intros k0 H0 H. apply one_column; auto. }
      destruct (fst (fst x)) as [a c|a c|w|a c|a c|w|w|a c tg]; cbn [multi_lines] in *;
        cbn [heard_samsung heard_rc5 heard_rc6 heard_nec map heard_apple nec_word] in C0, C1, C2, C3, C4.
      1-3: apply P; auto.
      + rewrite (O 0%nat); [exact C0|lia|]. intros k Hk Hk'.
        assert (K : (k = 1 \/ k = 2 \/ k = 3 \/ k = 4)%nat) by lia. destruct K as [->|[->|[->| ->]]]; assumption.
      + rewrite (O 0%nat); [exact C0|lia|]. intros k Hk Hk'.
        assert (K : (k = 1 \/ k = 2 \/ k = 3 \/ k = 4)%nat) by lia. destruct K as [->|[->|[->| ->]]]; assumption.
      + rewrite (O 0%nat); [exact C0|lia|]. intros k Hk Hk'.
        assert (K : (k = 1 \/ k = 2 \/ k = 3 \/ k = 4)%nat) by lia. destruct K as [->|[->|[->| ->]]]; assumption.
      + rewrite (O 1%nat); [exact C1|lia|]. intros k Hk Hk'.
        assert (K : (k = 0 \/ k = 2 \/ k = 3 \/ k = 4)%nat) by lia. destruct K as [->|[->|[->| ->]]]; assumption.
      + rewrite (O 2%nat); [exact C2|lia|]. intros k Hk Hk'.
        assert (K : (k = 0 \/ k = 1 \/ k = 3 \/ k = 4)%nat) by lia. destruct K as [->|[->|[->| ->]]]; assumption.
  Qed.
End Rows.

(** ** Denon's lines *)
Lemma six_split (r : row) : length r = 6%nat ->
  flatten_opts r = five r ++ match nth_error r 5 with Some (Some c) => [c] | _ => [] end.
Proof.
  intros H. destruct (six r H) as (a & b & c & d & e & f & ->). unfold five. cbn [firstn nth_error].
  destruct a, b, c, d, e, f; reflexivity.
Qed.

Lemma no_sixth rows : Forall (fun r : row => length r = 6%nat) rows -> column 5 rows = [] -> flat_map flatten_opts rows = flat_map five rows.
Proof.
  induction 1 as [|r rows Hr _ IH]; intros H; [reflexivity|]. rewrite column_cons in H. apply app_eq_nil in H. destruct H as [H1 H2].
  cbn [flat_map]. rewrite (six_split r Hr), H1, app_nil_r, (IH H2). reflexivity.
Qed.

Lemma only_sixth rows : Forall (fun r : row => length r = 6%nat) rows -> flat_map five rows = [] -> flat_map flatten_opts rows = column 5 rows.
Proof.
  induction 1 as [|r rows Hr _ IH]; intros H; [reflexivity|]. cbn [flat_map] in H. apply app_eq_nil in H. destruct H as [H1 H2].
  rewrite column_cons. cbn [flat_map]. rewrite (six_split r Hr), H1, (IH H2). reflexivity.
Qed.

Lemma flat_map_ext_in {A B} (f g : A -> list B) l : (forall x, In x l -> f x = g x) -> flat_map f l = flat_map g l.
Proof. induction l as [|x l IH]; intros H; [reflexivity|]. cbn [flat_map]. rewrite H, IH; auto using in_eq, in_cons. Qed.

Lemma lines_not_denon t : heard_denon t = [] -> filter not_denon (multi_lines t) = multi_lines t.
Proof.
  destruct t; intros H; try discriminate H; try reflexivity; cbn [multi_lines]; unfold apple_line; destruct (_ && _); reflexivity.
Qed.

Section Lines.
  Context (b : build) (freq : N).
  Hypothesis Hlo : 20000 <= freq.
  Hypothesis Hf : freq < 2 ^ 32.
  Hypothesis Hu : 16 <= usize_bits b.
  Notation ps := (multi_protocols b).

  (** Of six commands at one edge, the last alone is Denon's. *)
  Lemma rows_filter hist ss ss' rows : multi_make ps freq = Val ss -> run_multi ss hist = Val (ss', rows) ->
    Forall (fun r : row => filter not_denon (flatten_opts r) = five r) rows.
  Proof.
    intros Em Er. destruct (C49_multi_independent ps freq ss ss' hist rows Em Er) as (H6 & H).
    assert (T : forall k p x, nth_error ps k = Some p -> (forall c, not_denon (ap_into p c) = x) ->
      Forall (fun r : row => forall c, nth_error r k = Some (Some c) -> not_denon c = x) rows).
    { intros k p x Hk Hp. destruct (H k p Hk) as (_ & _ & os & _ & _ & E). clear - E Hp. revert os E.
      induction rows as [|r rows IH]; intros [|o os] E; cbn [map] in E; try discriminate E; constructor.
      - intros c Hc. pose proof (f_equal (fun l => match l with a :: _ => a | [] => None end) E) as K. cbn beta iota in K.
        rewrite Hc in K. destruct o as [[a|]|]; try discriminate K. injection K as ->. apply Hp.
      - apply (IH os). exact (f_equal (@tl _) E). }
    pose proof (T 0%nat _ true eq_refl (fun _ => eq_refl)) as T0. pose proof (T 1%nat _ true eq_refl (fun _ => eq_refl)) as T1.
    pose proof (T 2%nat _ true eq_refl (fun _ => eq_refl)) as T2. pose proof (T 3%nat _ true eq_refl (fun _ => eq_refl)) as T3.
    pose proof (T 4%nat _ true eq_refl (fun _ => eq_refl)) as T4. pose proof (T 5%nat _ false eq_refl (fun _ => eq_refl)) as T5.
    clear H T. rewrite Forall_forall in *. intros r Hr.
    specialize (T0 r Hr). specialize (T1 r Hr). specialize (T2 r Hr). specialize (T3 r Hr). specialize (T4 r Hr). specialize (T5 r Hr).
    destruct (six r (H6 r Hr)) as (x0 & x1 & x2 & x3 & x4 & x5 & ->). cbn [nth_error] in *. unfold five. cbn [firstn].
    assert (F : forall (x : option any_command) v k, (forall c, Some x = Some (Some c) -> not_denon c = v) ->
      filter not_denon (flatten_opts (x :: k)) = (if v then flatten_opts [x] else []) ++ filter not_denon (flatten_opts k)).
    { intros [c|] v k Hc; cbn [flatten_opts filter app]; [rewrite (Hc c eq_refl); destruct v; reflexivity|destruct v; reflexivity]. }
    rewrite (F x0 true), (F x1 true), (F x2 true), (F x3 true), (F x4 true), (F x5 false) by assumption.
    destruct x0, x1, x2, x3, x4; reflexivity.
  Qed.

  Lemma printed_not_denon l hist ss ss' rows : traffic freq l -> short (hist ++ on_air l) ->
    multi_make ps freq = Val ss -> run_multi ss (hist ++ on_air l) = Val (ss', rows) ->
    filter not_denon (flat_map flatten_opts (skipn (length hist) rows)) = filter not_denon (flat_map (fun x => multi_lines (fst (fst x))) l).
  Proof.
    intros Ht Hs Em Er. assert (D : forall A (f : A -> list any_command) k, filter not_denon (flat_map f k) = flat_map (fun x => filter not_denon (f x)) k).
    { intros A f. induction k as [|x k IH]; [reflexivity|]. cbn [flat_map]. rewrite filter_app, IH. reflexivity. }
    rewrite !D. rewrite <- (printed_five b freq Hlo Hf ltac:(lia) l hist ss ss' rows Ht Hs Em Er).
    apply flat_map_ext_in. intros r Hr. pose proof (rows_filter _ _ _ _ Em Er) as F. rewrite Forall_forall in F. apply F.
    rewrite <- (firstn_skipn (length hist)). apply in_or_app. right. exact Hr.
  Qed.

  Lemma denon_column l hist ss ss' rows :
    traffic freq l -> (forall x a c, In x l -> fst (fst x) <> TSbp a c) ->
    (forall d, In d (periods hist) -> ~ near freq 5000 9 d) -> short (hist ++ on_air l) ->
    multi_make ps freq = Val ss -> run_multi ss (hist ++ on_air l) = Val (ss', rows) ->
    column 5 (skipn (length hist) rows) = flat_map (fun x => map denon_any (heard_denon (fst (fst x)))) l.
  Proof.
    intros Ht Hn Hq Hs Em Er. destruct (C49_multi_independent ps freq ss ss' (hist ++ on_air l) rows Em Er) as (_ & H).
    destruct (H 5%nat _ eq_refl) as (r0 & r & os & E0 & E & Er'). clear H. cbn [ap_proto ap_into p_dec denon_protocol] in *.
    assert (Ec : column 5 (skipn (length hist) rows) = map denon_any (commands (skipn (length hist) os))).
    { apply (f_equal (skipn (length hist))) in Er'. rewrite !skipn_map in Er'. unfold edge in *. apply column_commands, Er'. }
    rewrite Ec, (C67_denon_partial b MU32 freq _ _ hist l r0 r os I Hlo Hf Ht Hn Hq Hs E0 E), map_id, map_flat_map. reflexivity.
  Qed.

  Lemma printed_all hist ss : multi_make ps freq = Val ss -> (forall d, In d (periods hist) -> ~ near freq 5000 9 d) ->
    forall l l1 ss' rows,
    traffic freq (l1 ++ l) -> (forall x a c, In x (l1 ++ l) -> fst (fst x) <> TSbp a c) ->
    short (hist ++ on_air (l1 ++ l)) ->
    run_multi ss (hist ++ on_air (l1 ++ l)) = Val (ss', rows) ->
    flat_map flatten_opts (skipn (length (hist ++ on_air l1)) rows) = flat_map (fun x => multi_lines (fst (fst x))) l.
  Proof.
    intros Em Hq. assert (Oa : forall k1 k2, on_air (k1 ++ k2) = on_air k1 ++ on_air k2) by (intros; unfold on_air; apply flat_map_app).
    induction l as [|x l IH]; intros l1 ss' rows Ht Hn Hs Er.
    - rewrite app_nil_r in Er. destruct (run_multi_split (hist ++ on_air l1) ss [] ss' rows) as (? & r1 & r2 & _ & E2 & -> & L); [rewrite app_nil_r; exact Er|].
      cbn in E2. injection E2 as _ <-. rewrite app_nil_r. unfold edge in *. rewrite <- L, skipn_all. reflexivity.
    - assert (El : l1 ++ x :: l = (l1 ++ [x]) ++ l) by (rewrite <- app_assoc; reflexivity). rewrite El in *.
      pose proof (IH (l1 ++ [x]) ss' rows Ht Hn Hs Er) as Rest. clear IH.
      rewrite (Oa (l1 ++ [x]) l), app_assoc in Er, Hs.
      destruct (run_multi_split (hist ++ on_air (l1 ++ [x])) ss (on_air l) ss' rows Er) as (s1 & r1 & r2 & Q1 & _ & -> & L1).
      assert (Ht1 : traffic freq (l1 ++ [x])) by (unfold traffic in *; apply Forall_app in Ht; apply Ht).
      assert (Hs1 : short (hist ++ on_air (l1 ++ [x]))) by (unfold short in *; apply Forall_app in Hs; apply Hs).
      assert (Hn1 : forall y a c, In y (l1 ++ [x]) -> fst (fst y) <> TSbp a c) by (intros; apply Hn, in_or_app; left; assumption).
      clear Er Ht Hs Hn.
      destruct (run_multi_split (hist ++ on_air l1) ss (on_air [x]) s1 r1) as (s0 & q1 & q2 & P1 & _ & -> & L0);
        [rewrite <- app_assoc, <- Oa; exact Q1|].
      unfold edge in *. assert (K1 : skipn (length (hist ++ on_air (l1 ++ [x]))) ((q1 ++ q2) ++ r2) = r2).
      { rewrite <- L1, skipn_app, skipn_all, Nat.sub_diag. reflexivity. }
      rewrite K1 in Rest. clear K1.
      assert (K0 : skipn (length (hist ++ on_air l1)) ((q1 ++ q2) ++ r2) = q2 ++ r2).
      { rewrite <- L0, <- app_assoc, skipn_app, skipn_all, Nat.sub_diag. reflexivity. }
      rewrite K0, flat_map_app, Rest. cbn [flat_map]. f_equal. clear Rest K0.
      (* the block of this transmission *)
      assert (K2 : skipn (length (hist ++ on_air l1)) (q1 ++ q2) = q2).
      { rewrite <- L0, skipn_app, skipn_all, Nat.sub_diag. reflexivity. }
      assert (F : flat_map five q2 = filter not_denon (multi_lines (fst (fst x)))).
      { rewrite <- K2. refine (eq_trans (printed_five b freq Hlo Hf ltac:(lia) [x] (hist ++ on_air l1) ss s1 (q1 ++ q2) _ _ Em _) _).
        - unfold traffic in *. apply Forall_app in Ht1. apply Ht1.
        - rewrite <- app_assoc, <- Oa. exact Hs1.
        - rewrite <- app_assoc, <- Oa. exact Q1.
        - apply app_nil_r. }
      assert (Six : Forall (fun r : row => length r = 6%nat) q2).
      { pose proof (rows_six b freq _ _ _ _ Em Q1) as A. apply Forall_app in A. apply A. }
      assert (C : column 5 q2 = map denon_any (heard_denon (fst (fst x)))).
      { pose proof (denon_column (l1 ++ [x]) hist ss s1 (q1 ++ q2) Ht1 Hn1 Hq Hs1 Em Q1) as C1.
        assert (C0 : column 5 (skipn (length hist) q1) = flat_map (fun y => map denon_any (heard_denon (fst (fst y)))) l1).
        { apply (denon_column l1 hist ss s0 q1); auto.
          - unfold traffic in *. apply Forall_app in Ht1. apply Ht1.
          - intros y a c Hy. apply Hn1, in_or_app. left. exact Hy.
          - unfold short in *. rewrite Oa, app_assoc in Hs1. apply Forall_app in Hs1. apply Hs1. }
        assert (K3 : skipn (length hist) (q1 ++ q2) = skipn (length hist) q1 ++ q2).
        { rewrite skipn_app. f_equal. replace (length hist - length q1)%nat with 0%nat; [reflexivity|]. rewrite L0, app_length. lia. }
        unfold edge in *. rewrite K3 in C1. unfold column in C1 at 1. rewrite flat_map_app in C1. fold (column 5 (skipn (length hist) q1)) in C1. rewrite C0 in C1. fold (column 5 q2) in C1.
        rewrite (flat_map_app _ l1 [x]) in C1. apply app_inv_head in C1. rewrite C1. apply app_nil_r. }
      destruct (heard_denon (fst (fst x))) as [|c k] eqn:Eh.
      + rewrite (no_sixth q2 Six C), F. apply lines_not_denon, Eh.
      + destruct (fst (fst x)) as [? ?|? ?|?|? ?|? ?|w|?|? ? ?]; try discriminate Eh. injection Eh as <- <-.
        rewrite (only_sixth q2 Six F), C. reflexivity.
  Qed.

  (** No panic. *)
  Lemma multi_total hist l : overflow_checks b = false \/ 8 * N.of_nat (length hist) < 2 ^ usize_bits b ->
    traffic freq l -> short (hist ++ on_air l) ->
    exists ss ss' rows, multi_make ps freq = Val ss /\ run_multi ss (hist ++ on_air l) = Val (ss', rows).
  Proof.
    intros Hh Ht Hs.
    assert (exists ss, multi_make ps freq = Val ss) as (ss & Em).
    { unfold multi_protocols. cbn [multi_make ap_proto ap_into].
      rewrite (nec_new_val b MU32 freq NecSamsung I Hf (or_intror eq_refl)), (rc5_new_val b MU32 freq I Hf), (rc6_new_val b MU32 freq I Hf),
        (nec_new_val b MU32 freq NecApple I Hf (or_introl eq_refl)), (nec_new_val b MU32 freq NecStandard I Hf (or_introl eq_refl)),
        (denon_new_val b MU32 freq I Hf). cbn [bind]. eexists. reflexivity. }
    exists ss. destruct (C49_multi_no_panic ps freq ss (hist ++ on_air l) Em) as (ss' & rows & E).
    - assert (H2 : Forall (fun x : edge => 2 * snd x < 2 ^ dur_bits MU32) (hist ++ on_air l)).
      { eapply Forall_impl; [|exact Hs]. intros x Hx. cbn beta in *. cbn [dur_bits]. change (2 ^ 32) with (2 * 2 ^ 31). lia. }
      assert (O : forall P (r0 : receiver (p_dec P)), receiver_new P freq = Val r0 ->
        (exists os, outcomes_of P freq (fun c => c) (hist ++ on_air l) = Val os) ->
        exists r os, run_edges (fun c => c) r0 (hist ++ on_air l) = Val (r, os)).
      { intros P r0 E0 (os & E). unfold outcomes_of in E. rewrite E0 in E. cbn [bind] in E.
        destruct (run_edges (fun c => c) r0 (hist ++ on_air l)) as [[r os']| |]; try discriminate E. eauto. }
      intros p r0 Hp E0. unfold multi_protocols in Hp.
      destruct Hp as [<-|[<-|[<-|[<-|[<-|[<-|[]]]]]]]; cbn [ap_proto ap_into] in *.
      + apply O; [exact E0|]. apply C39_nec; auto; [exact I|right; reflexivity].
      + exact (rc5_traffic_total b MU32 freq I Hf Hu _ _ hist l r0 Hh Ht E0).
      + exact (rc6_traffic_total b MU32 freq I Hf Hu _ _ hist l r0 Hh Ht E0).
      + apply O; [exact E0|]. apply C39_nec; auto; [exact I|left; reflexivity].
      + apply O; [exact E0|]. apply C39_nec; auto; [exact I|left; reflexivity].
      + apply O; [exact E0|]. apply C39_denon; auto. exact I.
    - exists ss', rows. auto.
  Qed.
End Lines.

(** ** The handler *)
Lemma multi_exti_run xs : forall i ss ss' rows, run_multi ss (read_intervals i xs) = Val (ss', rows) ->
  exists i', run_res multi_exti (mkMultiApp (Some i) ss) xs = Val (mkMultiApp (Some i') ss', map flatten_opts rows).
Proof.
  induction xs as [|[[l now] later] xs IH]; intros i ss ss' rows E; cbn [read_intervals run_multi] in E.
  - injection E as -> <-. exists i. reflexivity.
  - cbn [run_res multi_exti ma_last ma_slots multi_event_pin].
    destruct (multi_event ss (wrapping_sub32 later i) l) as [[ss1 o]| |]; cbn [bind] in E |- *; try discriminate.
    destruct (run_multi ss1 (read_intervals now xs)) as [[ss2 os]| |] eqn:E2; cbn [bind] in E; try discriminate.
    injection E as -> <-. destruct (IH now ss1 ss' os E2) as (i' & E3). rewrite E3. cbn [bind map]. exists i'. reflexivity.
Qed.

(** ** Periods of a history as the counter shows them *)
Definition shown_edges (freq G : N) (h : list edge) : list edge := map (fun e => (fst e, shown freq G (snd e))) h.

Lemma periods_cut freq G j (HG : 0 < G) (Hf : freq < 2 ^ 32) (Hj : 1 <= j) (H1 : 44000 * (j + 1) <= freq) (H2 : 21000 * (2 * j + 1) <= freq) :
  forall h, Forall (fun e => pause_ok freq G j (snd e)) h -> forall ms, Forall2 (cut_timed freq G j) h ms ->
  forall S sv, sv * G <= S + j * G -> S <= sv * G + j * G ->
  forall d, In d (periods_from sv ms) -> exists D, In D (periods_from S (shown_edges freq G h)) /\
    d * G <= D + 2 * j * G /\ D <= d * G + 2 * j * G.
Proof.
  induction 1 as [|[l D0] h Hp Hh IH]; intros ms T S sv A1 A2 d Hd; inversion T as [|? e ? ms' Te Tr]; subst; [contradiction|].
  destruct (pause_cut freq G j HG Hf Hj H1 H2 l D0 e Hp Te) as (n & -> & _ & B1 & B2). cbn [shown_edges map fst snd] in *.
  destruct l; cbn [periods_from] in Hd |- *.
  - destruct Hd as [<-|Hd].
    + exists (S + shown freq G D0). split; [left; reflexivity|]. split; lia.
    + destruct (IH ms' Tr 0 0 ltac:(lia) ltac:(lia) d Hd) as (D & HD & K). exists D. split; [right; exact HD|exact K].
  - destruct (IH ms' Tr (shown freq G D0) n ltac:(lia) ltac:(lia) d Hd) as (D & HD & K). exists D. auto.
Qed.

Lemma near_shown freq G j d D : 44000 * (j + 1) <= freq -> d * G <= D + 2 * j * G -> D <= d * G + 2 * j * G ->
  near freq 5000 9 d -> real_near (G * freq) 10 5000 D.
Proof.
  intros Hj A1 A2 [N1 N2]. unfold real_near, nominal in *. set (q := 5000 * freq / 1000000) in *.
  assert (Q1 : 1000000 * q <= 5000 * freq) by (subst q; apply N.mul_div_le; discriminate).
  assert (Q2 : 5000 * freq < 1000000 * q + 1000000).
  { subst q. pose proof (N.mul_succ_div_gt (5000 * freq) 1000000 ltac:(discriminate)). lia. }
  clearbody q.
  assert (U : 100 * 1000000 * d + 200000000 * j <= 110 * 5000 * freq) by lia.
  assert (W : 90 * 5000 * freq + 200000000 * j <= 100 * 1000000 * d) by lia.
  apply (N.mul_le_mono_r _ _ G) in U. apply (N.mul_le_mono_r _ _ G) in W. rewrite N.mul_add_distr_r in U, W. split.
  - replace ((100 + 10) * 5000 * (G * freq)) with (110 * 5000 * freq * G) by ring.
    apply N.le_trans with (100 * 1000000 * (d * G + 2 * j * G)); [apply N.mul_le_mono_l, A2|].
    replace (100 * 1000000 * (d * G + 2 * j * G)) with (100 * 1000000 * d * G + 200000000 * j * G) by ring. exact U.
  - change (100 - 10) with 90. replace (90 * 5000 * (G * freq)) with (90 * 5000 * freq * G) by ring.
    replace (100 * 1000000 * d * G) with (100 * 1000000 * (d * G)) in W by ring.
    assert (V : 100 * 1000000 * (d * G) <= 100 * 1000000 * D + 200000000 * j * G).
    { replace (100 * 1000000 * D + 200000000 * j * G) with (100 * 1000000 * (D + 2 * j * G)) by ring. apply N.mul_le_mono_l, A1. }
    apply (N.add_le_mono_r _ _ (200000000 * j * G)). apply N.le_trans with (100 * 1000000 * (d * G)); assumption.
Qed.

(** ** C80: the multireceiver example *)

(** What the handlers measure of a history and of the transmissions after it. *)
Lemma multireceiver_measures b G L clock t hist l xs :
  usize_bits b = 32 -> 0 < G -> counts 48000000 G 1 clock -> 48000000 * L <= 1088 * G ->
  hist <> [] -> Forall (fun e => pause_ok 48000000 G 1089 (snd e)) (tl hist) ->
  overflow_checks b = false \/ 8 * N.of_nat (length hist) < 2 ^ 32 ->
  Forall (fun y => real_ended G 3 (fst (fst y)) (snd y) /\ 20000 * (G * 48000000) <= 1000000 * shown 48000000 G (snd (fst y)) /\
                   pause_ok 48000000 G 1089 (snd (fst y))) l ->
  handled clock L t t (hist ++ on_air l) xs ->
  exists s0 s ps h' l' ss ss' rows, multi_app_new b = Val s0 /\ run_res multi_exti s0 xs = Val (s, ps) /\
    multi_make (multi_protocols b) 48000000 = Val ss /\ run_multi ss (h' ++ on_air l') = Val (ss', rows) /\
    skipn (length hist) ps = skipn (length h') (map flatten_opts rows) /\
    Forall2 (cut_timed 48000000 G 1089) (tl hist) h' /\ short (h' ++ on_air l') /\
    map (fun x => fst (fst x)) l' = map (fun x => fst (fst x)) l /\ traffic 48000000 l'.
Proof.
  intros Hu HG Hc HL Hne Hp Hlen Hl Hx.
  assert (Hf : 48000000 < 2 ^ 32) by reflexivity.
  destruct hist as [|e0 h]; [contradiction|]. clear Hne. cbn [tl app] in *.
  destruct e0 as [lv D0]. destruct xs as [|[[low now] later] xs]; [contradiction|].
  cbn [handled] in Hx. destruct Hx as (-> & a & c & Ha & Hac & HcL & -> & _ & Hx).
  pose proof (handled_timed 48000000 G 1089 clock L Hc ltac:(lia) (h ++ on_air l) xs (t + D0) (t + D0 + a) ltac:(lia) ltac:(lia) Hx) as F.
  destruct (Forall2_app_inv_l _ _ F) as (h' & ml & F1 & F2 & Em).
  assert (H1 : 44000 * (1089 + 1) <= 48000000) by (vm_compute; discriminate).
  assert (H2 : 21000 * (2 * 1089 + 1) <= 48000000) by (vm_compute; discriminate).
  destruct (traffic_cut 48000000 G 1089 HG Hf ltac:(discriminate) H1 H2 l Hl ml F2) as (l' & -> & El & Ht & Hs).
  pose proof (pauses_short 48000000 G 1089 HG Hf ltac:(discriminate) H1 H2 h Hp h' F1) as Hs'.
  assert (Hsh : short (h' ++ on_air l')) by (apply Forall_app; split; assumption).
  assert (Ln : length h' = length h) by (symmetry; eapply forall2_len; exact F1).
  destruct (multi_total b 48000000 ltac:(discriminate) Hf ltac:(lia) h' l') as (ss & ss' & rows & Mk & Rn); [|exact Ht|exact Hsh|].
  { destruct Hlen as [Hlen|Hlen]; [left; exact Hlen|right]. rewrite Hu, Ln. cbn [length] in Hlen. change (2 ^ 32) with 4294967296 in *. lia. }
  pose proof Rn as Rn'. rewrite <- Em in Rn. destruct (multi_exti_run _ _ _ _ _ Rn) as (i' & Er).
  exists (mkMultiApp None ss), (mkMultiApp (Some i') ss'), ([] :: map flatten_opts rows), h', l', ss, ss', rows.
  split; [unfold multi_app_new, MONO_FREQ; rewrite Mk; reflexivity|].
  split. { cbn [run_res multi_exti ma_last ma_slots bind]. rewrite Er. reflexivity. }
  split; [exact Mk|]. split; [exact Rn'|]. split; [cbn [length skipn]; unfold edge in *; rewrite Ln; reflexivity|]. auto.
Qed.

Lemma tags_lines {A} (f : transmission -> list A) (l l' : list (transmission * N * list edge)) :
  map (fun x => fst (fst x)) l' = map (fun x => fst (fst x)) l ->
  flat_map (fun x => f (fst (fst x))) l' = flat_map (fun x => f (fst (fst x))) l.
Proof.
  intros H. assert (E : forall k : list (transmission * N * list edge), flat_map (fun x => f (fst (fst x))) k = flat_map f (map (fun x => fst (fst x)) k)).
  { induction k as [|x k IH]; [reflexivity|]. cbn [flat_map map]. rewrite IH. reflexivity. }
  rewrite !E, H. reflexivity.
Qed.

(** After any history, for which only the pauses must not be too long for the counter, the
    example prints the lines of all transmissions but Denon's, in their order, and nothing
    else but lines of Denon.  The handler runs at most 22 us after its edge. *)
Theorem C80_multireceiver :
  forall b G L clock t hist l xs,
  usize_bits b = 32 -> 0 < G -> counts 48000000 G 1 clock -> 48000000 * L <= 1088 * G ->
  hist <> [] -> Forall (fun e => pause_ok 48000000 G 1089 (snd e)) (tl hist) ->
  overflow_checks b = false \/ 8 * N.of_nat (length hist) < 2 ^ 32 ->
  Forall (fun y => real_ended G 3 (fst (fst y)) (snd y) /\ 20000 * (G * 48000000) <= 1000000 * shown 48000000 G (snd (fst y)) /\
                   pause_ok 48000000 G 1089 (snd (fst y))) l ->
  handled clock L t t (hist ++ on_air l) xs ->
  exists s0 s ps, multi_app_new b = Val s0 /\ run_res multi_exti s0 xs = Val (s, ps) /\
    filter not_denon (concat (skipn (length hist) ps)) = filter not_denon (flat_map (fun x => multi_lines (fst (fst x))) l).
Proof.
  intros b G L clock t hist l xs Hu HG Hc HL Hne Hp Hlen Hl Hx.
  destruct (multireceiver_measures b G L clock t hist l xs Hu HG Hc HL Hne Hp Hlen Hl Hx)
    as (s0 & s & ps & h' & l' & ss & ss' & rows & E0 & E & Mk & Rn & Es & _ & Hs & El & Ht).
  exists s0, s, ps. split; [exact E0|]. split; [exact E|].
  rewrite Es, skipn_map, <- flat_map_concat_map, <- (tags_lines multi_lines l l' El).
  apply (printed_not_denon b 48000000 ltac:(discriminate) ltac:(reflexivity) ltac:(lia) l' h' ss ss' rows Ht Hs Mk Rn).
Qed.
Print Assumptions C80_multireceiver.

(** If no SBP transmissions are among them, and no period of the history looks like the
    header of Denon, the lines of Denon are those of the Denon transmissions. *)
Theorem C80_multireceiver_all :
  forall b G L clock t hist l xs,
  usize_bits b = 32 -> 0 < G -> counts 48000000 G 1 clock -> 48000000 * L <= 1088 * G ->
  hist <> [] -> Forall (fun e => pause_ok 48000000 G 1089 (snd e)) (tl hist) ->
  overflow_checks b = false \/ 8 * N.of_nat (length hist) < 2 ^ 32 ->
  (forall D, In D (periods (shown_edges 48000000 G (tl hist))) -> ~ real_near (G * 48000000) 10 5000 D) ->
  Forall (fun y => real_ended G 3 (fst (fst y)) (snd y) /\ 20000 * (G * 48000000) <= 1000000 * shown 48000000 G (snd (fst y)) /\
                   pause_ok 48000000 G 1089 (snd (fst y))) l ->
  (forall x a c, In x l -> fst (fst x) <> TSbp a c) ->
  handled clock L t t (hist ++ on_air l) xs ->
  exists s0 s ps, multi_app_new b = Val s0 /\ run_res multi_exti s0 xs = Val (s, ps) /\
    concat (skipn (length hist) ps) = flat_map (fun x => multi_lines (fst (fst x))) l.
Proof.
  intros b G L clock t hist l xs Hu HG Hc HL Hne Hp Hlen Hq Hl Hn Hx.
  destruct (multireceiver_measures b G L clock t hist l xs Hu HG Hc HL Hne Hp Hlen Hl Hx)
    as (s0 & s & ps & h' & l' & ss & ss' & rows & E0 & E & Mk & Rn & Es & Fh & Hs & El & Ht).
  exists s0, s, ps. split; [exact E0|]. split; [exact E|].
  rewrite Es, skipn_map, <- flat_map_concat_map, <- (tags_lines multi_lines l l' El).
  assert (Hq' : forall d, In d (periods h') -> ~ near 48000000 5000 9 d).
  { intros d Hd Nd. destruct (periods_cut 48000000 G 1089 HG ltac:(reflexivity) ltac:(discriminate) ltac:(vm_compute; discriminate) ltac:(vm_compute; discriminate)
      (tl hist) Hp h' Fh 0 0 ltac:(lia) ltac:(lia) d Hd) as (D & HD & K1 & K2).
    apply (Hq D HD). apply (near_shown 48000000 G 1089 d D); auto. vm_compute. discriminate. }
  assert (Hn' : forall x a c, In x ([] ++ l') -> fst (fst x) <> TSbp a c).
  { intros x a c Hi K. cbn [app] in Hi. assert (Hi' : In (fst (fst x)) (map (fun x => fst (fst x)) l')) by (apply (in_map (fun x => fst (fst x))), Hi).
    rewrite El in Hi'. apply in_map_iff in Hi'. destruct Hi' as (y & Ey & Hy). apply (Hn y a c Hy). congruence. }
  pose proof (printed_all b 48000000 ltac:(discriminate) ltac:(reflexivity) ltac:(lia) h' ss Mk Hq' l' [] ss' rows Ht Hn' Hs Rn) as P.
  change (on_air []) with (@nil edge) in P. rewrite app_nil_r in P. exact P.
Qed.
Print Assumptions C80_multireceiver_all.

(** A case: after a lone mark of 10 ms, an RC5 key, the menu key of an Apple remote and a
    Denon key.  Time is in ticks; the handlers are up to 998 ticks late. *)
Fixpoint late (i t : N) (evs : list edge) : list (bool * N * N) :=
  match evs with
  | [] => []
  | (l, D) :: r => (l, (t + D + 37 * i mod 500) mod 2 ^ 32, (t + D + (37 * i mod 500 + 91 * i mod 500)) mod 2 ^ 32) :: late (i + 1) (t + D) r
  end.

Lemma late_ok evs : Forall (fun e => 500 <= snd e) evs -> forall i t read, read <= t + 500 -> handled (fun x => x) 1000 t read evs (late i t evs).
Proof.
  induction 1 as [|[l D] evs Hd _ IH]; intros i t read Hr; cbn [late handled]; [exact I|]. cbn [snd] in Hd. split; [reflexivity|].
  exists (37 * i mod 500), (37 * i mod 500 + 91 * i mod 500).
  pose proof (N.mod_lt (37 * i) 500 ltac:(discriminate)). pose proof (N.mod_lt (91 * i) 500 ltac:(discriminate)).
  split; [lia|]. split; [lia|]. split; [lia|]. split; [reflexivity|]. split; [reflexivity|]. apply IH. lia.
Qed.

Definition c80_rc5 : list edge :=
  map (fun e : edge => (fst e, 43200 * snd e)) (tl (level_edges false 0 (rc5_wave 14348))) ++ [(false, 43000)].
Definition c80_apple : list (N * N) :=
  (436000, 219360) :: map (fun bit : bool => if bit then (27400, 82320) else (27400, 26976)) (bits_lsb 32 1510442990).
Definition c80_denon : list (N * N) :=
  (164000, 76800) :: map (fun bit : bool => if bit then (23500, 57000) else (23500, 17000)) (bits_lsb 48 123456789012).
Definition c80_hist : list edge := [(true, 5000); (false, 480000)].
Definition c80_keys : list (transmission * N * list edge) :=
  [ (TRc5 14348, 2000000, c80_rc5);
    (TRaw 1510442990, 1300000, pair_edges c80_apple ++ [(false, 27000)]);
    (TDenon 123456789012, 48000000 * 20, pair_edges c80_denon) ].
Definition multi_prints (n : nat) (b : build) (xs : list (bool * N * N)) : option (list any_command) :=
  match multi_app_new b with
  | Val s => match run_res multi_exti s xs with Val (_, ps) => Some (concat (skipn n ps)) | _ => None end
  | _ => None
  end.

Lemma c80_sent : Forall (fun y => real_ended 48000000 3 (fst (fst y)) (snd y)) c80_keys.
Proof.
  assert (R : forall G x p D, (100 * 1000000 * D <=? (100 + x) * p * G) && ((100 - x) * p * G <=? 100 * 1000000 * D) = true -> real_near G x p D).
  { intros G x p D H. apply andb_prop in H. destruct H as [H1 H2]. split; apply N.leb_le; assumption. }
  unfold c80_keys. repeat apply Forall_cons; [| | |apply Forall_nil]; cbn [fst snd].
  - right. eexists. eexists. split; [reflexivity|]. split; [|apply R; vm_compute; reflexivity].
    split; [reflexivity|]. split; [reflexivity|]. do 2 eexists. split; [vm_compute; reflexivity|].
    vm_compute tl. cbn [map]. repeat (apply Forall2_cons; [split; [reflexivity|apply R; vm_compute; reflexivity]|]). apply Forall2_nil.
  - right. eexists. eexists. split; [reflexivity|]. split; [|apply R; vm_compute; reflexivity].
    split; [reflexivity|]. exists c80_apple. split; [reflexivity|]. split.
    + apply real_nec_ok. vm_compute. reflexivity.
    + do 2 eexists. split; [reflexivity|]. split; [apply R; vm_compute; reflexivity|]. apply Forall_forall. intros d Hd.
      apply in_map_iff in Hd. destruct Hd as (bit & <- & _). destruct bit; apply R; vm_compute; reflexivity.
  - left. split; [reflexivity|]. exists c80_denon. split; [reflexivity|]. split.
    + do 2 eexists. split; [reflexivity|]. split; [apply R; vm_compute; reflexivity|].
      induction (bits_lsb 48 123456789012) as [|bit l IH]; cbn [map]; constructor; [|exact IH]. destruct bit; apply R; vm_compute; reflexivity.
    + do 2 eexists. split; [reflexivity|]. split; [apply R; vm_compute; reflexivity|]. apply Forall_forall. intros d Hd.
      apply in_map_iff in Hd. destruct Hd as (bit & <- & _). destruct bit; apply R; vm_compute; reflexivity.
Qed.

Example C80_example :
  let xs := late 3 4294000000 (c80_hist ++ on_air c80_keys) in
  counts 48000000 48000000 1 (fun x => x) /\ 48000000 * 1000 <= 1088 * 48000000 /\
  Forall (fun e => pause_ok 48000000 48000000 1089 (snd e)) (tl c80_hist) /\
  (forall D, In D (periods (shown_edges 48000000 48000000 (tl c80_hist))) -> ~ real_near (48000000 * 48000000) 10 5000 D) /\
  Forall (fun y => real_ended 48000000 3 (fst (fst y)) (snd y) /\ 20000 * (48000000 * 48000000) <= 1000000 * shown 48000000 48000000 (snd (fst y)) /\
                   pause_ok 48000000 48000000 1089 (snd (fst y))) c80_keys /\
  handled (fun x => x) 1000 4294000000 4294000000 (c80_hist ++ on_air c80_keys) xs /\
  multi_prints 2 (debug_build 32) xs =
    Some [mkAny PRc5 0 0 12 true; mkAny PNecApple 0 0 3 false; mkAny PNec 0 238 7 false; mkAny PDenon 123456789012 0 0 false].
Proof.
  intros xs.
  assert (P : forall D, D <= 48000000 * 20 -> pause_ok 48000000 48000000 1089 D /\ shown 48000000 48000000 D = D * 48000000).
  { intros D HD. assert (S : shown 48000000 48000000 D = D * 48000000). { unfold shown. apply N.mod_small. change (2 ^ 32) with 4294967296. lia. }
    split; [|exact S]. split; [left|rewrite S]; [change (2 ^ 32) with 4294967296|change (2 ^ 31) with 2147483648]; lia. }
  assert (H1 : counts 48000000 48000000 1 (fun x => x)) by (apply exact_clock; reflexivity).
  assert (H2 : 48000000 * 1000 <= 1088 * 48000000) by (vm_compute; discriminate).
  assert (H3 : Forall (fun e : edge => pause_ok 48000000 48000000 1089 (snd e)) (tl c80_hist)).
  { apply Forall_cons; [|apply Forall_nil]. apply P. vm_compute. discriminate. }
  assert (H4 : forall D, In D (periods (shown_edges 48000000 48000000 (tl c80_hist))) -> ~ real_near (48000000 * 48000000) 10 5000 D) by (intros D []).
  assert (H5 : Forall (fun y => real_ended 48000000 3 (fst (fst y)) (snd y) /\ 20000 * (48000000 * 48000000) <= 1000000 * shown 48000000 48000000 (snd (fst y)) /\
                   pause_ok 48000000 48000000 1089 (snd (fst y))) c80_keys).
  { pose proof c80_sent as S. rewrite Forall_forall in *. intros y Hy. split; [apply S, Hy|].
    destruct (P (snd (fst y))) as [P1 P2].
    - destruct Hy as [<-|[<-|[<-|[]]]]; vm_compute; discriminate.
    - split; [|exact P1]. rewrite P2. destruct Hy as [<-|[<-|[<-|[]]]]; vm_compute; discriminate. }
  assert (H6 : handled (fun x => x) 1000 4294000000 4294000000 (c80_hist ++ on_air c80_keys) xs).
  { apply late_ok; [|lia]. assert (H : forallb (fun e : edge => 500 <=? snd e) (c80_hist ++ on_air c80_keys) = true) by (vm_compute; reflexivity).
    rewrite forallb_forall in H. apply Forall_forall. intros e He. apply N.leb_le, H, He. }
  repeat (split; [assumption|]).
  assert (H7 : forall x a c, In x c80_keys -> fst (fst x) <> TSbp a c) by (intros x a c Hi; destruct Hi as [<-|[<-|[<-|[]]]]; discriminate).
  destruct (C80_multireceiver_all (debug_build 32) 48000000 1000 (fun x => x) 4294000000 c80_hist c80_keys xs
    eq_refl eq_refl H1 H2 ltac:(discriminate) H3 (or_intror eq_refl) H4 H5 H7 H6) as (s0 & s & ps & E0 & E & Ec).
  unfold multi_prints. rewrite E0, E. refine (eq_trans (f_equal Some Ec) _). vm_compute. reflexivity.
Qed.

(** An edge before the transmissions is needed: the example does not give the first edge after
    power-up to the receivers, and an RC5 key that starts with it is not printed. *)
Theorem C80_first_edge_needed :
  exists L l xs, 48000000 * L <= 1088 * 48000000 /\
    Forall (fun y => real_ended 48000000 3 (fst (fst y)) (snd y) /\ 20000 * (48000000 * 48000000) <= 1000000 * shown 48000000 48000000 (snd (fst y)) /\
                     pause_ok 48000000 48000000 1089 (snd (fst y))) l /\
    handled (fun x => x) L 0 0 (on_air l) xs /\
    multi_prints 0 (debug_build 32) xs = Some [] /\ flat_map (fun x => multi_lines (fst (fst x))) l = [mkAny PRc5 0 0 12 true].
Proof.
  exists 1000, [(TRc5 14348, 2000000, c80_rc5)], (late 3 0 (on_air [(TRc5 14348, 2000000, c80_rc5)])).
  split; [vm_compute; discriminate|]. split.
  { pose proof c80_sent as S. inversion S as [|? ? Hx _]; subst. apply Forall_cons; [|apply Forall_nil]. split; [exact Hx|].
    split; [vm_compute; discriminate|]. split; [left; vm_compute; reflexivity|vm_compute; discriminate]. }
  split.
  { apply late_ok; [|lia]. assert (H : forallb (fun e : edge => 500 <=? snd e) (on_air [(TRc5 14348, 2000000, c80_rc5)]) = true) by (vm_compute; reflexivity).
    rewrite forallb_forall in H. apply Forall_forall. intros e He. apply N.leb_le, H, He. }
  split; vm_compute; reflexivity.
Qed.
Print Assumptions C80_first_edge_needed.
