(** * Lemmas about the receivers, for any protocol *)
From Coq Require Import NArith ZArith List Bool Lia ZifyBool ZifyNat ZifyN.
From Verif Require Import Machine Spec Spec_receiver Time Decoder Receiver Run_facts.
Import ListNotations.
Open Scope N_scope.

Lemma outs_bind {S S' O} (x : res (S * O)) (f : S * O -> res (S' * list O)) :
  outs (bind x f) = bind x (fun y => outs (f y)).
Proof. destruct x; reflexivity. Qed.

Section R.
  Context {D : decoder} {C : Type} (into : dcmd D -> C).
  Notation run := (@run_edges D C into).
  Notation ev := (@event_edge D C into).

  (** The time stamp plays no part in [event_edge]. *)
  Lemma event_edge_prev d p dt e :
    ev (mkRecv d p) dt e = let* (r, o) := ev (mkRecv d 0) dt e in Val (mkRecv (rv_dec r) p, o).
  Proof.
    unfold event_edge. cbn [rv_dec rv_prev].
    destruct (d_event D d e dt) as [[d1 s]| |]; cbn [bind]; auto. destruct s; reflexivity.
  Qed.

  Lemma event_edge_keeps_prev r dt e r' o : ev r dt e = Val (r', o) -> rv_prev r' = rv_prev r.
  Proof.
    unfold event_edge. destruct (d_event D (rv_dec r) e dt) as [[d1 s]| |]; cbn [bind]; try discriminate.
    destruct s; intros H; injection H as <- _; reflexivity.
  Qed.

  Lemma run_edges_prev h : forall d p,
    run (mkRecv d p) h = let* (r, os) := run (mkRecv d 0) h in Val (mkRecv (rv_dec r) p, os).
  Proof.
    induction h as [|[e dt] h IH]; intros d p; cbn [run_edges]; [reflexivity|].
    rewrite (event_edge_prev d p). destruct (ev (mkRecv d 0) dt e) as [[r o]| |] eqn:E; cbn [bind]; auto.
    apply event_edge_keeps_prev in E. cbn [rv_prev] in E. destruct r as [d1 p1]. cbn [rv_prev rv_dec] in *. subst p1.
    rewrite IH. destruct (run (mkRecv d1 0) h) as [[r2 os]| |]; reflexivity.
  Qed.

  Lemma run_edges_outs_prev h d p q : outs (run (mkRecv d p) h) = outs (run (mkRecv d q) h).
  Proof.
    rewrite (run_edges_prev h d p), (run_edges_prev h d q).
    destruct (run (mkRecv d 0) h) as [[r os]| |]; reflexivity.
  Qed.

  (** Timestamps. *)
  Lemma run_instants_sub m (elapsed : N -> N -> N) (ok : N -> N -> Prop) :
    (forall p t, ok p t -> checked_sub m t p = Some (elapsed p t)) ->
    forall (h : list (bool * N)) (r : receiver D), steps ok (rv_prev r) h ->
    outs (run_instants into m r h) = outs (run r (intervals elapsed (rv_prev r) h)).
  Proof.
    intros Hs. induction h as [|[e t] h IH]; intros r H; [reflexivity|].
    destruct H as (Hok & H). cbn [run_instants run_edges intervals]. unfold event_instant.
    rewrite (Hs _ _ Hok). destruct r as [dd p]. cbn [rv_dec rv_prev] in *.
    rewrite (event_edge_prev dd t), (event_edge_prev dd p).
    destruct (ev (mkRecv dd 0) (elapsed p t) e) as [[r1 o]| |]; cbn [bind]; auto.
    assert (I := IH (mkRecv (rv_dec r1) t) H). cbn [rv_prev] in I.
    rewrite (run_edges_outs_prev _ (rv_dec r1) t p) in I.
    destruct (run_instants into m _ h) as [[r2 os]| |]; destruct (run _ (intervals elapsed t h)) as [[r3 os']| |];
      cbn [outs bind] in *; try discriminate; try (injection I as ->); reflexivity.
  Qed.

  (** ** Polling *)

  (** The decoder's answer as seen through [event_total] and through [event_edge]. *)
  Lemma event_total_edge (r : receiver D) e dt :
    ev r dt e = let* (d1, o) := event_total D (rv_dec r) e dt in
                Val (mkRecv d1 (rv_prev r), match o with ROk c => ROk (option_map into c) | RErr x => RErr x end).
  Proof.
    unfold event_edge, event_total. destruct (d_event D (rv_dec r) e dt) as [[d1 s]| |]; cbn [bind]; auto.
    destruct s; reflexivity.
  Qed.

  Lemma run_polls_edges levels : forall (p : periodic_poll D) (r : receiver D) n,
    pp_dec p = rv_dec r -> pp_clock p < 2 ^ 32 -> pp_last_edge p < 2 ^ 32 ->
    (pp_last_edge p + n) mod 2 ^ 32 = (pp_clock p + 1) mod 2 ^ 32 ->
    Forall (fun e => snd e < 2 ^ 32) (level_edges (pp_edge p) n levels) ->
    outs (run_polls into p levels) =
      let* os := outs (run r (level_edges (pp_edge p) n levels)) in
      Val (at_changes (ROk None) (pp_edge p) levels os).
  Proof.
    change (2 ^ 32) with 4294967296.
    induction levels as [|l rest IH]; intros p r n Ed Hc Hl Hn HF; [reflexivity|].
    destruct p as [ck cur le d]. cbn [pp_dec pp_clock pp_last_edge pp_edge] in *. subst d.
    cbn [run_polls level_edges at_changes] in *. unfold poll_base. cbn [pp_dec pp_clock pp_last_edge pp_edge].
    destruct (Bool.eqb l cur) eqn:El.
    - cbn [bind].
      specialize (IH (mkPoll (wrapping_add32 ck 1) cur le (rv_dec r)) r (n + 1) eq_refl).
      cbn [pp_dec pp_clock pp_last_edge pp_edge] in IH. unfold wrapping_add32 in *.
      change (2 ^ 32) with 4294967296 in *.
      assert (I : outs (run_polls into (mkPoll ((ck + 1) mod 4294967296) cur le (rv_dec r)) rest) =
        let* os := outs (run r (level_edges cur (n + 1) rest)) in Val (at_changes (ROk None) cur rest os)).
      { apply IH; auto; lia. }
      clear IH. destruct (run_polls into _ rest) as [[p2 os]| |]; destruct (run r _) as [[r2 os']| |];
        cbn [outs bind] in *; try discriminate; try (injection I as ->); reflexivity.
    - inversion HF as [|x y Hx HF']; subst. cbn [snd] in Hx.
      assert (Eds : wrapping_sub32 (wrapping_add32 ck 1) le = n).
      { unfold wrapping_sub32, wrapping_add32. change (2 ^ 32) with 4294967296. lia. }
      rewrite Eds. cbn [run_edges]. rewrite event_total_edge.
      destruct (event_total D (rv_dec r) l n) as [[d1 o]| |]; cbn [bind outs]; auto.
      set (o' := match o with ROk c => ROk (option_map into c) | RErr x => RErr x end).
      specialize (IH (mkPoll (wrapping_add32 ck 1) l (wrapping_add32 ck 1) d1) (mkRecv d1 (rv_prev r)) 1 eq_refl).
      cbn [pp_dec pp_clock pp_last_edge pp_edge] in IH. unfold wrapping_add32 in *.
      change (2 ^ 32) with 4294967296 in *.
      assert (I : outs (run_polls into (mkPoll ((ck + 1) mod 4294967296) l ((ck + 1) mod 4294967296) d1) rest) =
        let* os := outs (run (mkRecv d1 (rv_prev r)) (level_edges l 1 rest)) in Val (at_changes (ROk None) l rest os)).
      { apply IH; auto; lia. }
      clear IH. destruct (run_polls into _ rest) as [[p2 os]| |]; destruct (run _ (level_edges l 1 rest)) as [[r2 os']| |];
        cbn [outs bind] in *; try discriminate; try (injection I as ->); reflexivity.
  Qed.

  (** ** Buffers *)

  Lemma skipn_cons {A} (l : list A) n x r : skipn n l = x :: r -> skipn (S n) l = r.
  Proof. revert l. induction n as [|n IH]; intros [|y l] H; cbn in *; try discriminate; [congruence|auto]. Qed.

  (** A finished frame always has a command: everything but Apple. *)
  Definition always_parses := forall d e dt d', d_event D d e dt = Val (d', Done) -> d_command D d' <> None.

  (** [next] runs over the rest of the buffer up to the first outcome that is not "nothing",
      or to a finished frame without a command. *)
  Lemma iter_loop_edges rest : forall pos d p r' os,
    run (mkRecv d p) (alternating (Nat.even pos) rest) = Val (r', os) ->
    exists pos' d' c rest',
      iter_loop into rest pos d = Val (pos', d', c) /\
      (exists used, rest = used ++ rest' /\ pos' = (pos + length used)%nat) /\
      match c with
      | Some x => exists os', os = repeat (ROk None) (length rest - length rest' - 1) ++ ROk (Some x) :: os' /\
                    (length rest' < length rest)%nat /\
                    run (mkRecv d' p) (alternating (Nat.even pos') rest') = Val (r', os')
      | None => (rest' = [] /\ os = repeat (ROk None) (length rest)) \/
                (exists o os', os = repeat (ROk None) (length rest - length rest' - 1) ++ o :: os' /\
                    ((exists e, o = RErr e) \/ o = ROk None /\ ~ always_parses) /\
                    (length rest' < length rest)%nat /\
                    run (mkRecv d' p) (alternating (Nat.even pos') rest') = Val (r', os'))
      end.
  Proof.
    induction rest as [|dt rest IH]; intros pos d p r' os E.
    - cbn in E. injection E as <- <-. exists pos, d, None, []. split; [reflexivity|].
      split; [exists []; split; [auto|cbn; lia]|]. left. auto.
    - cbn [alternating run_edges iter_loop] in *. unfold event_edge in E. cbn [rv_dec rv_prev] in E.
      destruct (d_event D d (Nat.even pos) dt) as [[d1 s]| |] eqn:Ed; cbn [bind] in *; try discriminate.
      assert (Hneg : negb (Nat.even pos) = Nat.even (S pos)).
      { rewrite Nat.even_succ, <- Nat.negb_even. reflexivity. }
      assert (G : s = Idle \/ s = Receiving ->
        (let* (r2, os2) := run (mkRecv d1 p) (alternating (Nat.even (S pos)) rest) in Val (r2, ROk None :: os2)) = Val (r', os) ->
        exists pos' d' c rest',
          iter_loop into rest (S pos) d1 = Val (pos', d', c) /\
          (exists used, dt :: rest = used ++ rest' /\ pos' = (pos + length used)%nat) /\
          match c with
          | Some x => exists os', os = repeat (ROk None) (length (dt :: rest) - length rest' - 1) ++ ROk (Some x) :: os' /\
                        (length rest' < length (dt :: rest))%nat /\
                        run (mkRecv d' p) (alternating (Nat.even pos') rest') = Val (r', os')
          | None => (rest' = [] /\ os = repeat (ROk None) (length (dt :: rest))) \/
                    (exists o os', os = repeat (ROk None) (length (dt :: rest) - length rest' - 1) ++ o :: os' /\
                        ((exists e, o = RErr e) \/ o = ROk None /\ ~ always_parses) /\
                        (length rest' < length (dt :: rest))%nat /\
                        run (mkRecv d' p) (alternating (Nat.even pos') rest') = Val (r', os'))
          end).
      { intros _ E'.
        destruct (run (mkRecv d1 p) (alternating (Nat.even (S pos)) rest)) as [[r2 os2]| |] eqn:E2;
          cbn [bind] in E'; try discriminate.
        injection E' as <- <-. destruct (IH _ _ _ _ _ E2) as (pos' & d' & c & rest' & H1 & (used & H2 & H2') & H3).
        exists pos', d', c, rest'. split; [exact H1|]. split.
        { exists (dt :: used). split; [cbn; congruence|cbn; lia]. }
        assert (L : (length rest' <= length rest)%nat) by (rewrite H2, app_length; lia).
        destruct c as [x|].
        - destruct H3 as (os' & -> & L' & H3). exists os'. split; [|split; [cbn; lia|exact H3]].
          cbn [length]. replace (S (length rest) - length rest' - 1)%nat with (S (length rest - length rest' - 1)) by lia.
          reflexivity.
        - destruct H3 as [[-> ->]|(x & os' & -> & Ho & L' & H3)]; [left; auto|right].
          exists x, os'. split; [|split; [exact Ho|split; [cbn; lia|exact H3]]].
          cbn [length]. replace (S (length rest) - length rest' - 1)%nat with (S (length rest - length rest' - 1)) by lia.
          reflexivity. }
      destruct s.
      + cbn [bind] in E. rewrite Hneg in E. apply G; auto.
      + cbn [bind] in E. rewrite Hneg in E. apply G; auto.
      + cbn [bind] in E. rewrite Hneg in E. clear G.
        destruct (run (mkRecv (d_reset D d1) p) (alternating (Nat.even (S pos)) rest)) as [[r2 os2]| |] eqn:E2;
          cbn [bind] in E; try discriminate.
        injection E as <- <-.
        exists (S pos), (d_reset D d1), (option_map into (d_command D d1)), rest. split; [reflexivity|]. split.
        { exists [dt]. split; [reflexivity|cbn; lia]. }
        destruct (d_command D d1) as [c|] eqn:Ec; cbn [option_map].
        * exists os2. split; [|split; [cbn; lia|exact E2]].
          cbn [length]. replace (S (length rest) - length rest - 1)%nat with O by lia. reflexivity.
        * right. exists (ROk None), os2. split; [|split; [right; split; [reflexivity|]|split; [cbn; lia|exact E2]]].
          -- cbn [length]. replace (S (length rest) - length rest - 1)%nat with O by lia. reflexivity.
          -- intros HP. exact (HP _ _ _ _ Ed Ec).
      + cbn [bind] in E. rewrite Hneg in E. clear G.
        destruct (run (mkRecv (d_reset D d1) p) (alternating (Nat.even (S pos)) rest)) as [[r2 os2]| |] eqn:E2;
          cbn [bind] in E; try discriminate.
        injection E as <- <-. exists (S pos), (d_reset D d1), None, rest. split; [reflexivity|]. split.
        { exists [dt]. split; [reflexivity|cbn; lia]. }
        right. exists (RErr e), os2. split; [|split; [left; eauto|split; [cbn; lia|exact E2]]].
        cbn [length]. replace (S (length rest) - length rest - 1)%nat with O by lia. reflexivity.
  Qed.

  Lemma cbe_none n (os : list (outcome C)) :
    commands_before_error (repeat (ROk None) n ++ os) = commands_before_error os.
  Proof. induction n; cbn; auto. Qed.
  Lemma commands_none n (os : list (outcome C)) : commands (repeat (ROk None) n ++ os) = commands os.
  Proof. induction n; cbn; auto. Qed.

  Lemma skipn_app_len {A} (l1 l2 : list A) n : skipn (n + length l1) (l1 ++ l2) = skipn n l2.
  Proof. rewrite Nat.add_comm. induction l1; cbn; auto. Qed.

  Lemma skipn_used {A} (buf used rest' : list A) pos :
    skipn pos buf = used ++ rest' -> skipn (pos + length used) buf = rest'.
  Proof.
    revert pos. induction used as [|x used IH]; intros pos H; cbn [length app] in *.
    - rewrite Nat.add_0_r. exact H.
    - replace (pos + S (length used))%nat with (S pos + length used)%nat by lia. apply IH.
      eapply skipn_cons. exact H.
  Qed.

  Lemma collect_edges (HP : always_parses) fuel : forall buf pos d p r' os,
    (length (skipn pos buf) < fuel)%nat ->
    run (mkRecv d p) (alternating (Nat.even pos) (skipn pos buf)) = Val (r', os) ->
    exists it', iter_collect into fuel (mkIter pos buf d) = Val (it', commands_before_error os).
  Proof.
    induction fuel as [|fuel IH]; intros buf pos d p r' os Hfu E; [lia|].
    destruct (iter_loop_edges _ _ _ _ _ _ E) as (pos' & d' & c & rest' & H1 & (used & H2 & H2') & H3).
    assert (Es : skipn pos' buf = rest') by (rewrite H2'; apply skipn_used with (1 := H2)).
    cbn [iter_collect]. unfold iter_next. cbn [it_pos it_buf it_dec]. rewrite H1. cbn [bind].
    destruct c as [x|].
    - destruct H3 as (os' & -> & L & H3).
      destruct (IH buf pos' d' p r' os') as (it' & I); [rewrite Es; lia|rewrite Es; exact H3|].
      rewrite I. cbn [bind]. exists it'. rewrite cbe_none. reflexivity.
    - eexists. destruct H3 as [[_ ->]|(o & os' & -> & [(e & ->)|(_ & Ho)] & _)].
      + rewrite <- (app_nil_r (repeat _ _)), cbe_none. reflexivity.
      + rewrite cbe_none. reflexivity.
      + contradiction (Ho HP).
  Qed.

  (** Calling [next] again and again, also after it returned [None]. *)
  Fixpoint drain (calls : nat) (it : buffer_iter D) : res (buffer_iter D * list C) :=
    match calls with
    | O => Val (it, [])
    | S k => let* (it1, c) := iter_next into it in
             let* (it2, cs) := drain k it1 in
             Val (it2, match c with Some x => x :: cs | None => cs end)
    end.

  Lemma drain_edges calls : forall buf pos d p r' os,
    (length (skipn pos buf) <= calls)%nat ->
    run (mkRecv d p) (alternating (Nat.even pos) (skipn pos buf)) = Val (r', os) ->
    exists it', drain calls (mkIter pos buf d) = Val (it', commands os).
  Proof.
    induction calls as [|calls IH]; intros buf pos d p r' os Hfu E.
    - destruct (skipn pos buf); [|cbn in Hfu; lia]. cbn in E. injection E as <- <-. eexists. reflexivity.
    - destruct (iter_loop_edges _ _ _ _ _ _ E) as (pos' & d' & c & rest' & H1 & (used & H2 & H2') & H3).
      assert (Es : skipn pos' buf = rest') by (rewrite H2'; apply skipn_used with (1 := H2)).
      cbn [drain]. unfold iter_next. cbn [it_pos it_buf it_dec]. rewrite H1. cbn [bind].
      destruct c as [x|].
      + destruct H3 as (os' & -> & L & H3).
        destruct (IH buf pos' d' p r' os') as (it' & I); [rewrite Es; lia|rewrite Es; exact H3|].
        rewrite I. cbn [bind]. exists it'. rewrite commands_none. reflexivity.
      + destruct H3 as [[Z ->]|(o & os' & -> & Ho & L & H3)].
        * destruct (IH buf pos' d' p (mkRecv d' p) []) as (it' & I); [rewrite Es, Z; cbn; lia|rewrite Es, Z; reflexivity|].
          rewrite I. cbn [bind]. exists it'. rewrite <- (app_nil_r (repeat _ _)), commands_none. reflexivity.
        * destruct (IH buf pos' d' p r' os') as (it' & I); [rewrite Es; lia|rewrite Es; exact H3|].
          rewrite I. cbn [bind]. exists it'. rewrite commands_none. destruct Ho as [(e & ->)|(-> & _)]; reflexivity.
  Qed.
End R.

(** ** Failing pin reads *)

Lemma run_edges_res {D C} (into : dcmd D -> C) h r :
  run_edges into r h = run_res (fun r (x : bool * N) => event_edge into r (snd x) (fst x)) r h.
Proof.
  revert r. induction h as [|[e dt] h IH]; intros r; cbn [run_edges run_res fst snd]; [reflexivity|].
  destruct (event_edge into r dt e) as [[r1 o]| |]; cbn [bind]; auto. rewrite IH. reflexivity.
Qed.
Lemma run_instants_res {D C} (into : dcmd D -> C) m h r :
  run_instants into m r h = run_res (fun r (x : bool * N) => event_instant into m r (snd x) (fst x)) r h.
Proof.
  revert r. induction h as [|[e dt] h IH]; intros r; cbn [run_instants run_res fst snd]; [reflexivity|].
  destruct (event_instant into m r dt e) as [[r1 o]| |]; cbn [bind]; auto. rewrite IH. reflexivity.
Qed.
Lemma run_polls_res {D C} (into : dcmd D -> C) h r :
  run_polls into r (map fst h) = run_res (fun r (x : bool * unit) => poll_base into r (fst x)) r h.
Proof.
  revert r. induction h as [|[e dt] h IH]; intros r; cbn [run_polls run_res fst snd map]; [reflexivity|].
  destruct (poll_base into r e) as [[r1 o]| |]; cbn [bind]; auto. rewrite IH. reflexivity.
Qed.
Lemma run_multi_res h r :
  run_multi r h = run_res (fun r (x : bool * N) => multi_event r (snd x) (fst x)) r h.
Proof.
  revert r. induction h as [|[e dt] h IH]; intros r; cbn [run_multi run_res fst snd]; [reflexivity|].
  destruct (multi_event r dt e) as [[r1 o]| |]; cbn [bind]; auto. rewrite IH. reflexivity.
Qed.

Lemma run_failures {S X E O O'} (fail : E -> O') (lift : O -> O')
    (step : S -> bool * X -> res (S * O)) (pin : S -> result bool E * X -> res (S * O')) :
  (forall s e x, pin s (ROk e, x) = let* (s1, o) := step s (e, x) in Val (s1, lift o)) ->
  (forall s e x, pin s (RErr e, x) = Val (s, fail e)) ->
  forall l s, outs (run_res pin s l) =
    let* os := outs (run_res step s (successes l)) in Val (with_failures fail lift l os).
Proof.
  intros H1 H2. induction l as [|[[e|e] x] l IH]; intros s; [reflexivity| |]; cbn [run_res successes with_failures].
  - rewrite H1. destruct (step s (e, x)) as [[s1 o]| |]; cbn [bind]; auto.
    specialize (IH s1). destruct (run_res pin s1 l) as [[s2 os]| |]; destruct (run_res step s1 (successes l)) as [[s3 os']| |];
      cbn [outs bind] in *; congruence.
  - rewrite H2. cbn [bind].
    specialize (IH s). destruct (run_res pin s l) as [[s2 os]| |]; destruct (run_res step s (successes l)) as [[s3 os']| |];
      cbn [outs bind] in *; congruence.
Qed.

(** ** Several protocols at once *)

(** What one slot reports: errors count as nothing. *)
Definition slot_report (s : slot) (o : outcome (dcmd (sl_dec s))) : option any_command :=
  match o with ROk c => option_map (sl_into s) c | RErr _ => None end.

Lemma multi_event_val dt e : forall ss ss' os,
  multi_event ss dt e = Val (ss', os) ->
  length ss' = length ss /\ length os = length ss /\
  forall k s, nth_error ss k = Some s ->
    exists r1 o, event_edge (fun c => c) (sl_recv s) dt e = Val (r1, o) /\
      nth_error ss' k = Some (mkSlot (sl_dec s) (sl_into s) r1) /\ nth_error os k = Some (slot_report s o).
Proof.
  induction ss as [|s ss IH]; intros ss' os E; cbn [multi_event] in E.
  - injection E as <- <-. split; auto. split; auto. intros [|k] s H; discriminate.
  - unfold slot_event, event in E.
    destruct (event_edge (fun c => c) (sl_recv s) dt e) as [[r1 o]| |] eqn:E1; cbn [bind] in E; try discriminate.
    destruct (multi_event ss dt e) as [[ss1 os1]| |] eqn:E2; cbn [bind] in E; try discriminate.
    injection E as <- <-. destruct (IH _ _ eq_refl) as (L1 & L2 & H).
    split; [cbn; congruence|]. split; [cbn; congruence|]. intros [|k] s0 Hs; cbn [nth_error] in *; [|auto].
    injection Hs as <-. exists r1, o. split; auto. split; auto. destruct o; reflexivity.
Qed.

Lemma multi_event_total dt e : forall ss,
  (forall s, In s ss -> exists r1 o, event_edge (fun c => c) (sl_recv s) dt e = Val (r1, o)) ->
  exists ss' os, multi_event ss dt e = Val (ss', os).
Proof.
  induction ss as [|s ss IH]; intros H; [eexists; eexists; reflexivity|].
  destruct (H s (or_introl eq_refl)) as (r1 & o & E1). destruct IH as (ss' & os & E2).
  { intros s' Hs. apply H. right. auto. }
  cbn [multi_event]. unfold slot_event, event. rewrite E1. cbn [bind]. rewrite E2. eexists; eexists. reflexivity.
Qed.

Lemma run_multi_val h : forall ss ss' oss,
  run_multi ss h = Val (ss', oss) ->
  forall k s, nth_error ss k = Some s ->
    exists r os, run_edges (fun c => c) (sl_recv s) h = Val (r, os) /\
      map (fun row => nth_error row k) oss = map (fun o => Some (slot_report s o)) os.
Proof.
  induction h as [|[e dt] h IH]; intros ss ss' oss E k s Hs; cbn [run_multi run_edges] in *.
  - injection E as <- <-. eexists; eexists. split; reflexivity.
  - destruct (multi_event ss dt e) as [[ss1 o]| |] eqn:E1; cbn [bind] in E; try discriminate.
    destruct (run_multi ss1 h) as [[ss2 os]| |] eqn:E2; cbn [bind] in E; try discriminate.
    injection E as <- <-. destruct (multi_event_val _ _ _ _ _ E1) as (_ & _ & H).
    destruct (H k s Hs) as (r1 & o1 & Ee & Es & Eo). rewrite Ee. cbn [bind].
    destruct (IH _ _ _ E2 _ _ Es) as (r & os1 & Er & Em). cbn [sl_recv sl_dec] in Er. rewrite Er. cbn [bind].
    exists r, (o1 :: os1). split; auto. cbn [map]. rewrite Eo, Em. reflexivity.
Qed.

Lemma run_multi_rows h : forall ss ss' oss, run_multi ss h = Val (ss', oss) ->
  Forall (fun row => length row = length ss) oss.
Proof.
  induction h as [|[e dt] h IH]; intros ss ss' oss E; cbn [run_multi] in *.
  - injection E as <- <-. constructor.
  - destruct (multi_event ss dt e) as [[ss1 o]| |] eqn:E1; cbn [bind] in E; try discriminate.
    destruct (run_multi ss1 h) as [[ss2 os]| |] eqn:E2; cbn [bind] in E; try discriminate.
    injection E as <- <-. destruct (multi_event_val _ _ _ _ _ E1) as (L1 & L2 & H).
    constructor; auto. rewrite <- L1. eapply IH; eauto.
Qed.

Lemma run_multi_total h : forall ss,
  (forall s, In s ss -> exists r os, run_edges (fun c => c) (sl_recv s) h = Val (r, os)) ->
  exists ss' oss, run_multi ss h = Val (ss', oss).
Proof.
  induction h as [|[e dt] h IH]; intros ss H; cbn [run_multi run_edges] in *; [eexists; eexists; reflexivity|].
  destruct (multi_event_total dt e ss) as (ss1 & os & E1).
  { intros s Hs. destruct (H s Hs) as (r & os & E).
    destruct (event_edge (fun c => c) (sl_recv s) dt e) as [[r1 o]| |]; cbn [bind] in E; try discriminate. eauto. }
  rewrite E1. cbn [bind]. destruct (multi_event_val _ _ _ _ _ E1) as (L1 & _ & Hk).
  destruct (IH ss1) as (ss2 & oss & E2).
  { intros s1 Hs1. apply In_nth_error in Hs1. destruct Hs1 as (k & Hk1).
    assert (exists s, nth_error ss k = Some s) as (s & Hs).
    { destruct (nth_error ss k) eqn:Q; [eauto|]. apply nth_error_None in Q.
      assert (k < length ss1)%nat by (apply nth_error_Some; congruence). lia. }
    destruct (Hk k s Hs) as (r1 & o & Ee & Es & _). rewrite Hk1 in Es. injection Es as ->. cbn [sl_recv].
    destruct (H s (nth_error_In _ _ Hs)) as (r & os' & E). rewrite Ee in E. cbn [bind] in E.
    destruct (run_edges (fun c => c) r1 h) as [[r2 os2]| |] eqn:Er; cbn [bind] in E; try discriminate.
    exists r2, os2. exact Er. }
  rewrite E2. eexists; eexists. reflexivity.
Qed.

Lemma multi_make_nth freq : forall ps ss, multi_make ps freq = Val ss -> length ss = length ps /\
  forall k p, nth_error ps k = Some p ->
    exists r, receiver_new (ap_proto p) freq = Val r /\
      nth_error ss k = Some (mkSlot (p_dec (ap_proto p)) (ap_into p) r).
Proof.
  induction ps as [|p ps IH]; intros ss E; cbn [multi_make] in E.
  - injection E as <-. split; auto. intros [|k] q H; discriminate.
  - destruct (receiver_new (ap_proto p) freq) as [r| |] eqn:Er; cbn [bind] in E; try discriminate.
    destruct (multi_make ps freq) as [rs| |]; cbn [bind] in E; try discriminate.
    injection E as <-. destruct (IH _ eq_refl) as (L & H). split; [cbn; congruence|].
    intros [|k] q Hq; cbn [nth_error] in *; [|auto]. injection Hq as <-. eauto.
Qed.
