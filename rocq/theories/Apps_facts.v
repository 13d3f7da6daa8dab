(** * Lemmas about the example applications *)
From Coq Require Import NArith ZArith List Bool Lia ZifyBool ZifyNat ZifyN.
From Verif Require Import Machine Time Decoder Nec Receiver Spec Spec_receiver Spec_state Run_facts State_facts Nec_facts Time_facts
  Receiver_facts Remote Sender Apps Spec_apps.
Import ListNotations.
Open Scope N_scope.

(** ** Lists *)

Lemma last_of_app {A} (l1 l2 : list A) : last_of (l1 ++ l2) = match l2 with [] => last_of l1 | _ => last_of l2 end.
Proof.
  destruct l2 as [|x l2]; [rewrite app_nil_r; reflexivity|]. unfold last_of. rewrite rev_app_distr.
  destruct (rev (x :: l2)) as [|y r] eqn:E; [|reflexivity].
  apply (f_equal (@length A)) in E. rewrite rev_length in E. discriminate.
Qed.

Lemma commands_app {C E} (x y : list (result (option C) E)) : commands (x ++ y) = commands x ++ commands y.
Proof. apply flat_map_app. Qed.

Lemma last_cmd {C} (o : outcome C) os (z : option C) :
  match last_of (commands os) with [] => match o with ROk (Some c) => Some c | _ => z end | c :: _ => Some c end =
  match last_of (commands (o :: os)) with [] => z | c :: _ => Some c end.
Proof.
  replace (commands (o :: os)) with (commands [o] ++ commands os) by (symmetry; apply (commands_app [o] os)).
  rewrite last_of_app. destruct (commands os) as [|x l] eqn:Eo.
  - destruct o as [[c|]|e]; reflexivity.
  - assert (H : last_of (x :: l) <> []).
    { unfold last_of. intros Q. destruct (rev (x :: l)) as [|y r] eqn:Er; [|discriminate].
      apply (f_equal (@length _)) in Er. rewrite rev_length in Er. discriminate. }
    destruct (last_of (x :: l)); [congruence|reflexivity].
Qed.

Lemma last_printed {A} (l rest : list A) :
  match match last_of l with [] => None | c :: _ => Some c end with Some c => c :: rest | None => rest end = last_of l ++ rest.
Proof. unfold last_of. destruct (rev l); reflexivity. Qed.

(** The last command of all is the last of its round. *)
Lemma last_delivered {C} (oss : list (list (outcome C))) : forall cs c,
  commands (concat oss) = cs ++ [c] -> exists p, flat_map (fun os => last_of (commands os)) oss = p ++ [c].
Proof.
  induction oss as [|os oss IH] using rev_ind; intros cs c E.
  - destruct cs; discriminate.
  - rewrite concat_app in E. cbn [concat] in E. rewrite app_nil_r in E.
    assert (E' : commands (concat oss) ++ commands os = cs ++ [c]) by (rewrite <- E; symmetry; apply commands_app).
    rewrite flat_map_app. cbn [flat_map]. rewrite app_nil_r.
    destruct (commands os) as [|x l] eqn:Ec using rev_ind.
    + rewrite app_nil_r in E'. destruct (IH cs c E') as (p & Ep). exists p. unfold last_of at 2. cbn [rev]. rewrite app_nil_r. exact Ep.
    + rewrite app_assoc in E'. apply app_inj_tail in E'. destruct E' as (_ & ->).
      exists (flat_map (fun os => last_of (commands os)) oss). f_equal. rewrite last_of_app. reflexivity.
Qed.

(** At most one command per round: all are delivered. *)
Lemma all_delivered {C} (oss : list (list (outcome C))) :
  Forall (fun os => (length (commands os) <= 1)%nat) oss ->
  flat_map (fun os => last_of (commands os)) oss = commands (concat oss).
Proof.
  induction 1 as [|os oss H Hs IH]; [reflexivity|]. cbn [flat_map concat]. rewrite IH.
  transitivity (commands os ++ commands (concat oss)); [|symmetry; apply commands_app]. f_equal.
  destruct (commands os) as [|x [|y l]]; cbn [length] in H; try reflexivity. lia.
Qed.

(** ** The interrupt-driven program *)

Lemma pin_edges_app ss1 : forall n ss2, pin_edges n (ss1 ++ ss2) =
  pin_edges n ss1 ++ pin_edges (fold_left (fun k s => match s with UTimer => k + 1 | UPin _ => 0 | UMain => k end) ss1 n) ss2.
Proof.
  induction ss1 as [|s ss IH]; intros n ss2; [reflexivity|]. destruct s; cbn [app pin_edges fold_left]; rewrite IH; reflexivity.
Qed.
Lemma timers_app ss1 ss2 : timers (ss1 ++ ss2) = timers ss1 + timers ss2.
Proof. induction ss1 as [|s ss IH]; [reflexivity|]. destruct s; cbn [app timers]; rewrite ?IH; lia. Qed.

Definition pending (n : N) (ss : list uno_step) : N :=
  fold_left (fun k s => match s with UTimer => k + 1 | UPin _ => 0 | UMain => k end) ss n.

Lemma pin_edges_sum ss : forall n, fold_right (fun x => N.add (snd x)) 0 (pin_edges n ss) <= n + timers ss.
Proof.
  induction ss as [|s ss IH]; intros n; cbn [pin_edges timers fold_right]; [lia|]. destruct s; cbn [fold_right snd timers].
  - specialize (IH (n + 1)). lia.
  - specialize (IH 0). lia.
  - apply IH.
Qed.

(** A receiver whose intervals add up to less than the range of the clock does not panic. *)
Lemma nec_bounded_run b V {C} (into : nv_cmd V -> C) h : forall (r : receiver (nec_dec b MU32 V)),
  nec_in_range (rv_dec r) -> ns_dt_save (rv_dec r) + fold_right (fun x => N.add (snd x)) 0 h < 2 ^ 32 ->
  exists r' os, run_edges (D := nec_dec b MU32 V) into r h = Val (r', os).
Proof.
  induction h as [|[e dt] h IH]; intros r R B; cbn [run_edges]; [do 2 eexists; reflexivity|].
  cbn [fold_right snd] in B.
  assert (G : exists r1 o, event_edge (D := nec_dec b MU32 V) into r dt e = Val (r1, o) /\ nec_in_range (rv_dec r1) /\
    ns_dt_save (rv_dec r1) <= dt).
  { unfold event_edge. cbn [d_event nec_dec rv_dec]. unfold nec_event. destruct e.
    - unfold dur_add, uadd. rewrite (proj2 (N.ltb_lt (dt + _) _)) by (change (2 ^ 32) with 4294967296 in *; lia). cbn [bind].
      edestruct nec_transition_total as (buf' & s' & -> & K); [exact R|]. cbn [bind].
      destruct (nec_to_state s'); do 2 eexists; (split; [reflexivity|]); cbn [rv_dec d_reset nec_dec]; split; try exact I; try exact K; cbn; lia.
    - cbn [bind]. destruct (nec_to_state (ns_state (rv_dec r))); do 2 eexists; (split; [reflexivity|]);
        cbn [rv_dec d_reset nec_dec]; (split; [|cbn; lia]); try exact I; exact R. }
  destruct G as (r1 & o & -> & R1 & S1). cbn [bind].
  destruct (IH r1) as (r2 & os & ->); auto; [lia|]. do 2 eexists. reflexivity.
Qed.

Section Uno.
  Context {b : build}.
  Notation D := (nec_dec b MU32 NecStandard).
  Notation id_ := (fun c : dcmd D => c).
  Notation run := (run_edges (D := D) id_).

  (** The interrupts between two rounds of the main loop. *)
  Lemma uno_round ss : forall u n d' os p,
    Forall (fun s => s <> UMain) ss -> un_clock u + timers ss < 2 ^ 32 -> un_clock u = rv_prev (un_recv u) + n ->
    run (mkRecv (D := D) (rv_dec (un_recv u)) 0) (pin_edges n ss) = Val (mkRecv (D := D) d' p, os) ->
    exists u', uno_run u ss = Val (u', []) /\ rv_dec (un_recv u') = d' /\
      un_clock u' = un_clock u + timers ss /\ un_clock u' = rv_prev (un_recv u') + pending n ss /\
      un_led u' = xorb (un_led u) (Nat.odd (length os)) /\
      un_error u' = fold_left (fun e (o : outcome nec_command) => match o with ROk None => e | ROk (Some _) => false | RErr _ => true end) os (un_error u) /\
      un_cmd u' = match last_of (commands os) with [] => un_cmd u | c :: _ => Some c end.
  Proof.
    induction ss as [|s ss IH]; intros u n d' os p Hs Hc Hn E.
    - cbn [pin_edges run_edges] in E. injection E as <- _ <-. exists u. cbn [uno_run timers pending fold_left length Nat.odd]. rewrite xorb_false_r.
      repeat split; auto. lia.
    - inversion Hs as [|? ? Hs1 Hs2]; subst. destruct s as [|low|]; [| |congruence].
      + cbn [pin_edges timers] in *. cbn [uno_run uno_do bind].
        edestruct (IH (mkUno (wrapping_add32 (un_clock u) 1) (un_recv u) (un_led u) (un_error u) (un_cmd u)) (n + 1) d' os p)
          as (u' & E' & A1 & A2 & A3 & A4 & A5 & A6); cbn [un_clock un_recv un_led un_error un_cmd] in *; auto.
        * unfold wrapping_add32. rewrite N.mod_small; lia.
        * unfold wrapping_add32. rewrite N.mod_small; lia.
        * rewrite E'. cbn [bind]. exists u'. unfold wrapping_add32 in A2. rewrite N.mod_small in A2 by lia.
          repeat split; auto. lia.
      + cbn [pin_edges timers run_edges] in *. cbn [uno_run uno_do].
        unfold event_instant. cbn [checked_sub].
        rewrite (proj2 (N.leb_le (rv_prev (un_recv u)) (un_clock u))) by lia.
        replace (un_clock u - rv_prev (un_recv u)) with n by lia.
        rewrite (event_edge_prev (D := D)).
        destruct (event_edge (D := D) id_ (mkRecv (D := D) (rv_dec (un_recv u)) 0) n low) as [[[d1 p1] o]| |] eqn:Ev; cbn [bind] in E; try discriminate.
        apply event_edge_keeps_prev in Ev as Ep. cbn [rv_prev] in Ep. subst p1.
        destruct (run (mkRecv (D := D) d1 0) (pin_edges 0 ss)) as [[[d2 p2] os2]| |] eqn:E2; cbn [bind] in E; try discriminate.
        injection E as <- <- <-. cbn [bind rv_dec].
        destruct (match o with ROk (Some c) => (false, Some c) | ROk None => (un_error u, un_cmd u) | RErr _ => (true, un_cmd u) end) as [err cmd] eqn:Ec.
        cbn [bind].
        edestruct (IH (mkUno (un_clock u) (mkRecv (D := D) d1 (un_clock u)) (negb (un_led u)) err cmd) 0 d2 os2 p2)
          as (u' & E' & A1 & A2 & A3 & A4 & A5 & A6); cbn [un_clock un_recv un_led un_error un_cmd rv_dec rv_prev] in *; auto; [lia|].
        rewrite E'. cbn [bind]. exists u'. split; [reflexivity|]. split; [exact A1|]. split; [exact A2|]. split; [exact A3|].
        split; [|split].
        * rewrite A4. cbn [length]. rewrite Nat.odd_succ, <- Nat.negb_odd. destruct (un_led u), (Nat.odd (length os2)); reflexivity.
        * rewrite A5. cbn [fold_left]. destruct o as [[c|]|e]; injection Ec as <- <-; reflexivity.
        * rewrite A6. etransitivity; [|apply (last_cmd o os2)]. destruct o as [[c|]|e]; injection Ec as <- <-; reflexivity.
  Qed.

  Lemma uno_run_app ss1 : forall u ss2, uno_run (b := b) u (ss1 ++ ss2) =
    let* (u1, p1) := uno_run u ss1 in let* (u2, p2) := uno_run u1 ss2 in Val (u2, p1 ++ p2).
  Proof.
    induction ss1 as [|s ss IH]; intros u ss2.
    - cbn [app uno_run bind]. destruct (uno_run u ss2) as [[u2 p2]| |]; reflexivity.
    - cbn [app uno_run]. destruct (uno_do u s) as [[u1 o]| |]; cbn [bind]; auto. rewrite IH.
      destruct (uno_run u1 ss) as [[u2 p2]| |]; cbn [bind]; auto.
      destruct (uno_run u2 ss2) as [[u3 p3]| |]; cbn [bind]; auto. destruct o; reflexivity.
  Qed.

  Lemma uno_rounds rounds : forall u n d' os p,
    Forall (Forall (fun s => s <> UMain)) rounds -> un_clock u + timers (concat rounds) < 2 ^ 32 ->
    un_clock u = rv_prev (un_recv u) + n -> un_cmd u = None ->
    run (mkRecv (D := D) (rv_dec (un_recv u)) 0) (pin_edges n (concat rounds)) = Val (mkRecv (D := D) d' p, os) ->
    exists u' oss, uno_run u (in_rounds UMain rounds) = Val (u', flat_map (fun os => last_of (commands os)) oss) /\
      concat oss = os /\ Forall2 (fun r os => length os = pins r) rounds oss /\
      un_led u' = xorb (un_led u) (Nat.odd (length os)) /\
      un_error u' = fold_left (fun e (o : outcome nec_command) => match o with ROk None => e | ROk (Some _) => false | RErr _ => true end) os (un_error u).
  Proof.
    induction rounds as [|r rounds IH]; intros u n d' os p Hs Hc Hn Hm E.
    - cbn [concat pin_edges run_edges] in E. injection E as <- _ <-. exists u, []. cbn [in_rounds flat_map uno_run concat length Nat.odd fold_left].
      rewrite xorb_false_r. repeat split; auto.
    - inversion Hs as [|? ? Hs1 Hs2]; subst. cbn [concat] in *. rewrite timers_app in Hc. rewrite pin_edges_app in E. fold (pending n r) in E.
      rewrite run_edges_app in E.
      destruct (run (mkRecv (D := D) (rv_dec (un_recv u)) 0) (pin_edges n r)) as [[[d1 p1] os1]| |] eqn:E1; cbn [bind] in E; try discriminate.
      destruct (run (mkRecv (D := D) d1 p1) (pin_edges (pending n r) (concat rounds))) as [[[d2 p2] os2]| |] eqn:E2; cbn [bind] in E; try discriminate.
      injection E as <- <- <-.
      destruct (uno_round r u n d1 os1 p1 Hs1 ltac:(lia) Hn E1) as (u1 & R1 & A1 & A2 & A3 & A4 & A5 & A6).
      assert (E2' : exists q, run (mkRecv (D := D) d1 0) (pin_edges (pending n r) (concat rounds)) = Val (mkRecv (D := D) d2 q, os2)).
      { pose proof (run_edges_prev (D := D) id_ (pin_edges (pending n r) (concat rounds)) d1 p1) as Q. rewrite E2 in Q.
        destruct (run (mkRecv (D := D) d1 0) _) as [[[d3 p3] os3]| |]; cbn [bind rv_dec] in Q; try discriminate.
        injection Q as <- _ <-. eexists. reflexivity. }
      destruct E2' as (q & E2').
      destruct (IH (mkUno (un_clock u1) (un_recv u1) (un_led u1) (un_error u1) None) (pending n r) d2 os2 q)
        as (u2 & oss & R2 & B1 & B2 & B3 & B4); cbn [un_clock un_recv un_led un_error un_cmd]; auto.
      + lia.
      + rewrite A1. exact E2'.
      + exists u2, (os1 :: oss). split; [|split; [|split; [|split]]].
        * unfold in_rounds. cbn [flat_map]. rewrite <- app_assoc. cbn [app]. rewrite uno_run_app, R1. cbn [bind uno_run uno_do].
          unfold in_rounds in R2. rewrite R2. cbn [bind app]. rewrite A6, Hm.
          do 2 f_equal. exact (last_printed (commands os1) _).
        * exact (f_equal (app os1) B1).
        * constructor; [|exact B2]. apply run_edges_length in E1. refine (eq_trans E1 _). clear. revert n. induction r as [|s r IHr]; intros n; [reflexivity|].
          destruct s; cbn [pin_edges pins length]; auto.
        * rewrite B3. cbn [un_led]. rewrite A4. transitivity (xorb (un_led u) (Nat.odd (length os1 + length os2))); [|do 2 f_equal; symmetry; apply app_length]. rewrite Nat.odd_add. destruct (un_led u), (Nat.odd (length os1)), (Nat.odd (length os2)); reflexivity.
        * rewrite B4. cbn [un_error]. rewrite A5. symmetry. apply fold_left_app.
  Qed.
End Uno.

(** ** The polled program *)
Section Polled.
  Context {b : build}.
  Notation D := (nec_dec b MU32 NecStandard).
  Notation id_ := (fun c : dcmd D => c).

  Lemma uno_polled_round ls : forall u p' os, run_polls (D := D) id_ (up_recv u) ls = Val (p', os) ->
    uno_polled_run u (map PTimer ls) =
      Val (mkUnoP p' (match last_of (commands os) with [] => up_cmd u | c :: _ => Some c end), []).
  Proof.
    induction ls as [|l ls IH]; intros u p' os E.
    - cbn [run_polls] in E. injection E as <- <-. destruct u. reflexivity.
    - cbn [run_polls] in E. cbn [map uno_polled_run uno_polled_do].
      destruct (poll_base (D := D) id_ (up_recv u) l) as [[p1 o]| |]; cbn [bind] in E; try discriminate.
      destruct (run_polls (D := D) id_ p1 ls) as [[p2 os2]| |] eqn:E2; cbn [bind] in E; try discriminate.
      injection E as <- <-. cbn [bind].
      rewrite (IH (mkUnoP p1 (match o with ROk (Some c) => Some c | _ => up_cmd u end)) p2 os2 E2). cbn [bind up_cmd].
      do 3 f_equal. exact (last_cmd o os2 (up_cmd u)).
  Qed.

  Lemma uno_polled_run_app ss1 : forall u ss2, uno_polled_run (b := b) u (ss1 ++ ss2) =
    let* (u1, p1) := uno_polled_run u ss1 in let* (u2, p2) := uno_polled_run u1 ss2 in Val (u2, p1 ++ p2).
  Proof.
    induction ss1 as [|s ss IH]; intros u ss2.
    - cbn [app uno_polled_run bind]. destruct (uno_polled_run u ss2) as [[u2 p2]| |]; reflexivity.
    - cbn [app uno_polled_run]. destruct (uno_polled_do u s) as [[u1 o]| |]; cbn [bind]; auto. rewrite IH.
      destruct (uno_polled_run u1 ss) as [[u2 p2]| |]; cbn [bind]; auto.
      destruct (uno_polled_run u2 ss2) as [[u3 p3]| |]; cbn [bind]; auto. destruct o; reflexivity.
  Qed.

  Lemma run_polls_app ls1 : forall p ls2, run_polls (D := D) id_ p (ls1 ++ ls2) =
    let* (p1, o1) := run_polls (D := D) id_ p ls1 in let* (p2, o2) := run_polls (D := D) id_ p1 ls2 in Val (p2, o1 ++ o2).
  Proof.
    induction ls1 as [|l ls IH]; intros p ls2.
    - cbn [app run_polls bind]. destruct (run_polls _ p ls2) as [[p2 o2]| |]; reflexivity.
    - cbn [app run_polls]. destruct (poll_base _ p l) as [[p1 o]| |]; cbn [bind]; auto. rewrite IH.
      destruct (run_polls _ p1 ls) as [[p2 o2]| |]; cbn [bind]; auto.
      destruct (run_polls _ p2 ls2) as [[p3 o3]| |]; cbn [bind]; auto.
  Qed.

  Lemma run_polls_length ls : forall p p' os, run_polls (D := D) id_ p ls = Val (p', os) -> length os = length ls.
  Proof.
    induction ls as [|l ls IH]; intros p p' os E; cbn [run_polls] in E.
    - injection E as _ <-. reflexivity.
    - destruct (poll_base _ p l) as [[p1 o]| |]; cbn [bind] in E; try discriminate.
      destruct (run_polls _ p1 ls) as [[p2 o2]| |] eqn:E2; cbn [bind] in E; try discriminate.
      injection E as _ <-. cbn [length]. f_equal. eauto.
  Qed.

  Lemma uno_polled_rounds rounds : forall u p' os, up_cmd u = None ->
    run_polls (D := D) id_ (up_recv u) (concat rounds) = Val (p', os) ->
    exists u' oss, uno_polled_run u (in_rounds PMain (map (map PTimer) rounds)) = Val (u', flat_map (fun os => last_of (commands os)) oss) /\
      concat oss = os /\ Forall2 (fun r os => length os = length r) rounds oss.
  Proof.
    induction rounds as [|r rounds IH]; intros u p' os Hm E.
    - cbn [concat run_polls] in E. injection E as <- <-. exists u, []. repeat split; constructor.
    - cbn [concat] in E. rewrite run_polls_app in E.
      destruct (run_polls _ (up_recv u) r) as [[p1 os1]| |] eqn:E1; cbn [bind] in E; try discriminate.
      destruct (run_polls _ p1 (concat rounds)) as [[p2 os2]| |] eqn:E2; cbn [bind] in E; try discriminate.
      injection E as <- <-.
      destruct (IH (mkUnoP p1 None) p2 os2 eq_refl E2) as (u2 & oss & R2 & B1 & B2).
      exists u2, (os1 :: oss). split; [|split].
      + unfold in_rounds. cbn [map flat_map]. rewrite <- app_assoc. cbn [app].
        rewrite uno_polled_run_app, (uno_polled_round r u p1 os1 E1). cbn [bind uno_polled_run uno_polled_do up_recv up_cmd].
        unfold in_rounds in R2. rewrite R2. cbn [bind app]. rewrite Hm.
        do 2 f_equal. exact (last_printed (commands os1) _).
      + exact (f_equal (app os1) B1).
      + constructor; [|exact B2]. eapply run_polls_length. exact E1.
  Qed.
End Polled.

(** ** The value change dump *)
Section Vcd.
  Context {D : decoder} {C : Type} (into : dcmd D -> C).

  Lemma vcd_loop_run wire items : forall (r : receiver D) now,
    vcd_loop into wire r now items =
      let* os := outs (run_instants into MU64 r (wire_changes wire now items)) in Val (flat_map line os, readable items).
  Proof.
    induction items as [|[[i v|t|]|] items IH]; intros r now; cbn [vcd_loop wire_changes readable forallb andb].
    - reflexivity.
    - destruct (i =? wire); [|apply IH]. cbn [run_instants].
      destruct (event_instant into MU64 r now _) as [[r1 o]| |]; cbn [bind outs]; auto. rewrite IH.
      destruct (run_instants into MU64 r1 _) as [[r2 os]| |]; cbn [bind outs]; auto.
    - apply IH.
    - apply IH.
    - reflexivity.
  Qed.
End Vcd.
