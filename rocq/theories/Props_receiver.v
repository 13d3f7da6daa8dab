(** * Properties C44-C51: the receivers, for every protocol *)
From Coq Require Import NArith ZArith List Bool Lia ZifyBool ZifyNat ZifyN.
From Verif Require Import Machine Spec Spec_receiver Time Decoder Nec Rc5 Rc6 Denon Sbp Receiver
  Time_facts Run_facts Receiver_facts Example_facts.
Import ListNotations.
Open Scope N_scope.

(** ** C44 *)

(** What is assumed of the external [fugit] crate: a time difference below half the
    range of the counter is returned exactly. *)
Definition exact_sub (m : mono) (prev t : N) : Prop :=
  match m with
  | MU32 | MU64 => prev <= t
  | MFugit w _ csub => prev <= t /\ t - prev < 2 ^ (w - 1)
  end.
Definition fugit_ok (m : mono) : Prop :=
  match m with
  | MU32 | MU64 => True
  | MFugit w _ csub => forall prev t, prev < 2 ^ w -> t < 2 ^ w -> wrapped w prev t < 2 ^ (w - 1) ->
                         csub t prev = Some (wrapped w prev t)
  end.
(** The timestamps fit the instant type and do not go back (fugit: nor jump by half the range). *)
Definition stamps_ok (m : mono) (prev t : N) : Prop :=
  prev < 2 ^ dur_bits m /\ t < 2 ^ dur_bits m /\ exact_sub m prev t.

Theorem C44_instants :
  forall (D : decoder) C (into : dcmd D -> C) m (r : receiver D) (ts : list (bool * N)),
  fugit_ok m -> steps (stamps_ok m) (rv_prev r) ts ->
  outs (run_instants into m r ts) = outs (run_edges into r (intervals difference (rv_prev r) ts)).
Proof.
  intros D C into m r ts Hfg Hs. apply run_instants_sub with (ok := stamps_ok m); auto.
  intros p t (H1 & H2 & H3). destruct m as [| |w mi cs]; cbn [exact_sub checked_sub dur_bits fugit_ok] in *.
  - rewrite (proj2 (N.leb_le p t)) by auto. reflexivity.
  - rewrite (proj2 (N.leb_le p t)) by auto. reflexivity.
  - destruct H3 as (H3 & H4). assert (E : wrapped w p t = difference p t).
    { unfold wrapped, difference. replace (t + 2 ^ w - p) with ((t - p) + 1 * 2 ^ w) by lia.
      rewrite N.mod_add by lia. apply N.mod_small. lia. }
    rewrite Hfg; rewrite ?E; auto.
Qed.
Print Assumptions C44_instants.

(** The wrap-around difference of fugit's [checked_duration_since], as a concrete time base. *)
Definition fugit_csub (w : N) (t prev : N) : option N :=
  let d := wrapped w prev t in if d <? 2 ^ (w - 1) then Some d else None.

Example C44_example :
  fugit_ok (MFugit 32 (fun p => p) (fugit_csub 32)) /\
  steps (stamps_ok (MFugit 32 (fun p => p) (fugit_csub 32))) 0 [(true, 5); (false, 905); (true, 905); (false, 100000)] /\
  steps (stamps_ok MU32) 0 [(true, 5); (false, 905); (true, 905); (false, 4294967295)].
Proof.
  split.
  - cbn [fugit_ok]. intros p t H1 H2 H3. unfold fugit_csub. rewrite (proj2 (N.ltb_lt _ _)); auto.
  - cbn [steps]. unfold stamps_ok. cbn [dur_bits exact_sub].
    change (2 ^ 32) with 4294967296. change (2 ^ (32 - 1)) with 2147483648. repeat split; lia.
Qed.

(** ** C45: refuted for the integer time bases *)

Fixpoint stamps (w t : N) (h : list edge) : list (bool * N) :=
  match h with
  | [] => []
  | (e, d) :: r => let t' := (t + d) mod 2 ^ w in (e, t') :: stamps w t' r
  end.
Definition c45_frame : list edge :=
  (true, 4294937296) :: pair_edges ((9000, 4500) :: map (fun b : bool => if b then (560, 1690) else (560, 560))
    (bits_lsb 32 (bytes4 7 (compl8 7) 9 (compl8 9)))).
Definition instant_outcomes (P : protocol) (m : mono) (freq : N) (h : list edge) : option (list (outcome (dcmd (p_dec P)))) :=
  match receiver_new P freq with
  | Val r => match run_instants (fun c => c) m r h with Val (_, os) => Some os | _ => None end
  | _ => None
  end.
(** A frame is received when its edges come with the time since the one before, but
    not when they come with the timestamps of a timer that wraps during the frame. *)
Theorem C45_wrap_refuted :
  exists ts os os',
    outcomes (nec_protocol (debug_build 32) MU32 NecStandard) 1000000 (intervals (wrapped 32) 0 ts) = Some os /\
    commands os = [mkNec 7 9 false] /\
    instant_outcomes (nec_protocol (debug_build 32) MU32 NecStandard) MU32 1000000 ts = Some os' /\
    commands os' = [] /\ Forall (fun x => snd x < 2 ^ 32) ts.
Proof.
  exists (stamps 32 0 c45_frame). eexists. eexists. split; [vm_compute; reflexivity|].
  split; [reflexivity|]. split; [vm_compute; reflexivity|]. split; [reflexivity|].
  apply Forall_forall. intros x H.
  assert (F : forallb (fun x => snd x <? 2 ^ 32) (stamps 32 0 c45_frame) = true) by (vm_compute; reflexivity).
  rewrite forallb_forall in F. apply N.ltb_lt, F, H.
Qed.
Print Assumptions C45_wrap_refuted.

(** What holds: with fugit instants wrapping is harmless; with integer instants the
    interval in which the timer wraps counts as 0.  Missing: integer time bases. *)
Theorem C45_wrap_partial :
  forall (D : decoder) C (into : dcmd D -> C) (r : receiver D) (ts : list (bool * N)),
  (forall w mi cs, fugit_ok (MFugit w mi cs) ->
     steps (fun prev t => prev < 2 ^ w /\ t < 2 ^ w /\ wrapped w prev t < 2 ^ (w - 1)) (rv_prev r) ts ->
     outs (run_instants into (MFugit w mi cs) r ts) = outs (run_edges into r (intervals (wrapped w) (rv_prev r) ts))) /\
  (forall m, m = MU32 \/ m = MU64 ->
     outs (run_instants into m r ts) = outs (run_edges into r (intervals difference (rv_prev r) ts))).
Proof.
  intros D C into r ts. split.
  - intros w mi cs Hfg Hs.
    apply run_instants_sub with (ok := fun prev t => prev < 2 ^ w /\ t < 2 ^ w /\ wrapped w prev t < 2 ^ (w - 1)); auto.
    intros p t (H1 & H2 & H3). cbn [checked_sub fugit_ok] in *. auto.
  - intros m Hm. revert r. induction ts as [|[e t] ts IH]; intros r; [reflexivity|].
    cbn [run_instants run_edges intervals]. unfold event_instant.
    assert (E : match checked_sub m t (rv_prev r) with Some x => x | None => 0 end = difference (rv_prev r) t).
    { unfold difference. destruct Hm as [-> | ->]; cbn [checked_sub];
        destruct (rv_prev r <=? t) eqn:Q; [reflexivity|lia|reflexivity|lia]. }
    rewrite E. destruct r as [dd p]. cbn [rv_dec rv_prev] in *.
    rewrite (event_edge_prev into dd t), (event_edge_prev into dd p).
    destruct (event_edge into (mkRecv dd 0) (difference p t) e) as [[r1 o]| |]; cbn [bind]; auto.
    assert (I := IH (mkRecv (rv_dec r1) t)). cbn [rv_prev] in I.
    rewrite (run_edges_outs_prev into _ (rv_dec r1) t p) in I.
    destruct (run_instants into m _ ts) as [[r2 os]| |];
      destruct (run_edges into _ (intervals difference t ts)) as [[r3 os']| |];
      cbn [outs bind] in *; try discriminate; try (injection I as ->); reflexivity.
Qed.
Print Assumptions C45_wrap_partial.

Example C45_example :
  steps (fun prev t => prev < 2 ^ 32 /\ t < 2 ^ 32 /\ wrapped 32 prev t < 2 ^ (32 - 1)) 4294967000 [(true, 4294967290); (false, 100)] /\
  intervals (wrapped 32) 4294967000 [(true, 4294967290); (false, 100)] = [(true, 290); (false, 106)] /\
  intervals difference 4294967000 [(true, 4294967290); (false, 100)] = [(true, 290); (false, 0)].
Proof. split; [|split; reflexivity]. cbn [steps]. repeat split; vm_compute; reflexivity. Qed.

(** ** C46 *)

(** In each case: a history of calls in which some pin reads fail reports the pin
    error at these calls, and at the others exactly what the history without the
    failing calls reports. *)
Theorem C46_event :
  forall (D : decoder) C E (into : dcmd D -> C) (r : receiver D) (l : list (result bool E * N)),
  outs (run_res (fun r x => event_pin into r (fst x) (snd x)) r l) =
    let* os := outs (run_edges into r (successes l)) in
    Val (with_failures (fun e => RErr (XHal e)) lift_outcome l os).
Proof.
  intros. rewrite run_edges_res. apply run_failures; intros; reflexivity.
Qed.
Print Assumptions C46_event.
Theorem C46_event_instant :
  forall (D : decoder) C E (into : dcmd D -> C) m (r : receiver D) (l : list (result bool E * N)),
  outs (run_res (fun r x => event_instant_pin into m r (fst x) (snd x)) r l) =
    let* os := outs (run_instants into m r (successes l)) in
    Val (with_failures (fun e => RErr (XHal e)) lift_outcome l os).
Proof.
  intros. rewrite run_instants_res. apply run_failures; intros; reflexivity.
Qed.
Print Assumptions C46_event_instant.
Theorem C46_poll :
  forall (D : decoder) C E (into : dcmd D -> C) (p : periodic_poll D) (l : list (result bool E * unit)),
  outs (run_res (fun p x => poll_pin into p (fst x)) p l) =
    let* os := outs (run_polls into p (map fst (successes l))) in
    Val (with_failures (fun e => RErr (XHal e)) lift_outcome l os).
Proof.
  intros. rewrite run_polls_res. apply run_failures; intros; reflexivity.
Qed.
Print Assumptions C46_poll.
Theorem C46_multi :
  forall E (ss : list slot) (l : list (result bool E * N)),
  outs (run_res (fun ss x => multi_event_pin ss (fst x) (snd x)) ss l) =
    let* os := outs (run_multi ss (successes l)) in
    Val (with_failures (fun e => RErr e) (fun o => ROk o) l os).
Proof.
  intros. rewrite run_multi_res. apply run_failures; intros; reflexivity.
Qed.
Print Assumptions C46_multi.

Example C46_example :
  let l := [(ROk true, 10); (RErr tt, 20); (ROk false, 30); (RErr tt, 5)] in
  successes l = [(true, 10); (false, 30)] /\
  with_failures (fun e : unit => RErr (A := option N) (XHal e)) (lift_outcome (C := N)) l [ROk None; RErr EData] =
    [ROk None; RErr (XHal tt); RErr XData; RErr (XHal tt)].
Proof. split; reflexivity. Qed.

(** ** C47 *)

(** [level_edges false 1 levels]: the level changes with the number of samples since
    the change before, the line idle one sample before the first. *)
Theorem C47_poll :
  forall P freq C (into : dcmd (p_dec P) -> C) levels p0 r0,
  poll_new P freq = Val p0 -> receiver_new P freq = Val r0 ->
  Forall (fun e => snd e < 2 ^ 32) (level_edges false 1 levels) ->
  outs (run_polls into p0 levels) =
    let* os := outs (run_edges into r0 (level_edges false 1 levels)) in
    Val (at_changes (ROk None) false levels os).
Proof.
  intros P freq C into levels p0 r0 Ep Er HF. unfold poll_new, receiver_new in *.
  destruct (p_build P freq) as [d| |]; cbn [bind] in *; try discriminate.
  injection Ep as <-. injection Er as <-.
  apply (run_polls_edges into levels (mkPoll 0 false 0 d) (mkRecv d 0) 1); auto; reflexivity.
Qed.
Print Assumptions C47_poll.

(** From any later state of the poller as well, with the clock anywhere in its range. *)
Theorem C47_poll_any_state :
  forall (D : decoder) C (into : dcmd D -> C) levels (p : periodic_poll D) (r : receiver D) n,
  pp_dec p = rv_dec r -> pp_clock p < 2 ^ 32 -> pp_last_edge p < 2 ^ 32 ->
  n = wrapped 32 (pp_last_edge p) ((pp_clock p + 1) mod 2 ^ 32) ->
  Forall (fun e => snd e < 2 ^ 32) (level_edges (pp_edge p) n levels) ->
  outs (run_polls into p levels) =
    let* os := outs (run_edges into r (level_edges (pp_edge p) n levels)) in
    Val (at_changes (ROk None) (pp_edge p) levels os).
Proof.
  intros D C into levels p r n Ed H1 H2 -> HF. apply run_polls_edges; auto.
  unfold wrapped. change (2 ^ 32) with 4294967296 in *. lia.
Qed.
Print Assumptions C47_poll_any_state.

Example C47_example :
  level_edges false 1 [false; false; true; true; true; false; true] = [(true, 3); (false, 3); (true, 1)] /\
  at_changes 0 false [false; false; true; true; true; false; true] [7; 8; 9] = [0; 0; 7; 0; 0; 8; 9] /\
  wrapped 32 4294967290 ((4294967295 + 1) mod 2 ^ 32) = 6.
Proof. repeat split. Qed.

(** ** C48: refuted: an error ends the iteration *)

Definition c48_buffer : list N :=
  [0; 9000; 4500; 560; 9000; 560; 20000] ++ [9000; 4500] ++
  flat_map (fun b : bool => if b then [560; 1690] else [560; 560]) (bits_lsb 32 (bytes4 7 (compl8 7) 9 (compl8 9))).
Definition collected (P : protocol) (freq : N) (buf : list N) : option (list (dcmd (p_dec P))) :=
  match iter_new P freq buf with
  | Val it => match collect (fun c => c) it with Val (_, cs) => Some cs | _ => None end
  | _ => None
  end.
Theorem C48_buffer_refuted :
  exists buf os,
    outcomes (nec_protocol (debug_build 32) MU32 NecStandard) 1000000 (alternating true buf) = Some os /\
    commands os = [mkNec 7 9 false] /\
    collected (nec_protocol (debug_build 32) MU32 NecStandard) 1000000 buf = Some [].
Proof.
  exists c48_buffer. eexists. split; [vm_compute; reflexivity|]. split; [reflexivity|vm_compute; reflexivity].
Qed.
Print Assumptions C48_buffer_refuted.

(** The protocols whose complete frames always give a command (all but AppleNec). *)
Definition parsing_protocols (b : build) (m : mono) : list protocol :=
  [ nec_protocol b m NecStandard; nec_protocol b m NecSamsung; nec_protocol b m Nec16Bit; nec_protocol b m NecRaw;
    rc5_protocol b m; rc6_protocol b m; denon_protocol b m; sbp_protocol b m ].

Lemma nec_parses b m V : (forall w rep, nv_unpack V w rep <> None) -> always_parses (D := nec_dec b m V).
Proof.
  intros HV d e dt d' H. cbn [nec_dec d_event d_command] in *.
  assert (S : nec_to_state (ns_state d') = Done).
  { unfold nec_event in H. destruct e.
    - destruct (dur_add b m dt (ns_dt_save d)) as [t| |]; cbn [bind] in H; try discriminate.
      destruct (nec_transition b (ns_state d) (ns_bitbuf d) _) as [[buf s]| |]; cbn [bind] in H; try discriminate.
      injection H as <- H. exact H.
    - injection H as <- H. exact H. }
  unfold nec_command_of. destruct (ns_state d'); cbn in S; try discriminate; apply HV.
Qed.
Lemma denon_parses b m : always_parses (D := denon_dec b m).
Proof.
  intros d e dt d' H. cbn [denon_dec d_event d_command] in *.
  assert (S : denon_to_state (dn_state d') = Done).
  { unfold denon_event in H. destruct e.
    - destruct (dur_add b m (dn_dt_save d) dt) as [t| |]; cbn [bind] in H; try discriminate.
      destruct (denon_transition b (dn_state d) (dn_buf d) _) as [[buf s]| |]; cbn [bind] in H; try discriminate.
      injection H as <- H. exact H.
    - injection H as <- H. exact H. }
  unfold denon_command_of. destruct (dn_state d'); cbn in S; try discriminate.
Qed.
Lemma parsing_ok b m P : In P (parsing_protocols b m) -> always_parses (D := p_dec P).
Proof.
  intros H. cbn [parsing_protocols In] in H.
  repeat (destruct H as [<-|H]); cbn [p_dec nec_protocol rc5_protocol rc6_protocol denon_protocol sbp_protocol];
    try (apply nec_parses; intros w rep Q; discriminate Q); try apply denon_parses; try contradiction;
    intros d e dt d' _ Q; discriminate Q.
Qed.

(** What holds: [collect] yields the commands before the first error; calling [next]
    as often as there are entries, also after [None], yields all of them.  Missing:
    iteration past an error, and, for AppleNec, past a frame that is not Apple's. *)
Theorem C48_buffer_partial :
  forall b m P freq buf C (into : dcmd (p_dec P) -> C) r0 r os it0,
  In P (parsing_protocols b m) ->
  receiver_new P freq = Val r0 -> iter_new P freq buf = Val it0 ->
  run_edges into r0 (alternating true buf) = Val (r, os) ->
  (exists it, collect into it0 = Val (it, commands_before_error os)) /\
  (exists it, drain into (length buf) it0 = Val (it, commands os)).
Proof.
  intros b m P freq buf C into r0 r os it0 HP Er Ei E. apply parsing_ok in HP.
  unfold receiver_new, iter_new in *. destruct (p_build P freq) as [d| |]; cbn [bind] in *; try discriminate.
  injection Er as <-. injection Ei as <-. split.
  - unfold collect. cbn [it_buf]. apply collect_edges with (p := 0) (r' := r) (pos := O); auto.
  - apply drain_edges with (p := 0) (r' := r) (pos := O); auto.
Qed.
Print Assumptions C48_buffer_partial.

(** The second part holds for every protocol, the crate's and a user's own. *)
Theorem C48_next_all :
  forall P freq buf C (into : dcmd (p_dec P) -> C) r0 r os it0 calls,
  receiver_new P freq = Val r0 -> iter_new P freq buf = Val it0 ->
  run_edges into r0 (alternating true buf) = Val (r, os) -> (length buf <= calls)%nat ->
  exists it, drain into calls it0 = Val (it, commands os).
Proof.
  intros P freq buf C into r0 r os it0 calls Er Ei E Hc.
  unfold receiver_new, iter_new in *. destruct (p_build P freq) as [d| |]; cbn [bind] in *; try discriminate.
  injection Er as <-. injection Ei as <-. apply drain_edges with (p := 0) (r' := r) (pos := O); auto.
Qed.
Print Assumptions C48_next_all.

(** The Apple and the raw decoder differ only in how they read a finished word. *)
Lemma apple_loop b m C (into : apple_command -> C) rest : forall pos (d : nec_decoder) p r' os s' raws,
  run_edges (D := nec_dec b m NecApple) into (mkRecv (D := nec_dec b m NecApple) d p) (alternating (Nat.even pos) rest) = Val (r', os) ->
  run_edges (D := nec_dec b m NecRaw) (fun c => c) (mkRecv (D := nec_dec b m NecRaw) d p) (alternating (Nat.even pos) rest) = Val (s', raws) ->
  exists pos' d' c used rest',
    iter_loop (D := nec_dec b m NecApple) into rest pos d = Val (pos', d', c) /\
    rest = used ++ rest' /\ pos' = (pos + length used)%nat /\
    match c with
    | Some x => (length rest' < length rest)%nat /\ exists os' raws',
        run_edges (D := nec_dec b m NecApple) into (mkRecv (D := nec_dec b m NecApple) d' p) (alternating (Nat.even pos') rest') = Val (r', os') /\
        run_edges (D := nec_dec b m NecRaw) (fun c => c) (mkRecv (D := nec_dec b m NecRaw) d' p) (alternating (Nat.even pos') rest') = Val (s', raws') /\
        commands_until raws os = x :: commands_until raws' os'
    | None => commands_until raws os = []
    end.
Proof.
  induction rest as [|dt rest IH]; intros pos d p r' os s' raws E F.
  - cbn in E, F. injection E as <- <-. injection F as <- <-. exists pos, d, None, [], [].
    repeat split; auto.
  - cbn [alternating run_edges iter_loop] in *. unfold event_edge in E, F. cbn [rv_dec rv_prev nec_dec d_event d_reset d_command] in *.
    destruct (nec_event b m d (Nat.even pos) dt) as [[d1 s]| |] eqn:Ed; cbn [bind] in *; try discriminate.
    assert (Hneg : negb (Nat.even pos) = Nat.even (S pos)).
    { rewrite Nat.even_succ, <- Nat.negb_even. reflexivity. }
    rewrite Hneg in E, F.
    assert (Hs : nec_to_state (ns_state d1) = s).
    { unfold nec_event in Ed. destruct (Nat.even pos).
      - destruct (dur_add b m dt (ns_dt_save d)) as [t| |]; cbn [bind] in Ed; try discriminate.
        destruct (nec_transition b (ns_state d) (ns_bitbuf d) _) as [[buf st]| |]; cbn [bind] in Ed; try discriminate.
        injection Ed as <- <-. reflexivity.
      - injection Ed as <- <-. reflexivity. }
    destruct s; cbn [bind] in E, F.
    + destruct (run_edges (D := nec_dec b m NecApple) into (mkRecv (D := nec_dec b m NecApple) d1 p) (alternating (Nat.even (S pos)) rest)) as [[r2 os2]| |] eqn:E2;
        cbn [bind] in E; try discriminate. injection E as <- <-.
      destruct (run_edges (D := nec_dec b m NecRaw) (fun c => c) (mkRecv (D := nec_dec b m NecRaw) d1 p) (alternating (Nat.even (S pos)) rest)) as [[s2 raws2]| |] eqn:F2;
        cbn [bind] in F; try discriminate. injection F as <- <-.
      destruct (IH _ _ _ _ _ _ _ E2 F2) as (pos' & d' & c & used & rest' & H1 & H2 & H3 & H4).
      exists pos', d', c, (dt :: used), rest'. split; [exact H1|]. split; [cbn; congruence|]. split; [cbn; lia|].
      destruct c as [x|]; [|exact H4]. destruct H4 as (L & H4). split; [cbn; lia|exact H4].
    + destruct (run_edges (D := nec_dec b m NecApple) into (mkRecv (D := nec_dec b m NecApple) d1 p) (alternating (Nat.even (S pos)) rest)) as [[r2 os2]| |] eqn:E2;
        cbn [bind] in E; try discriminate. injection E as <- <-.
      destruct (run_edges (D := nec_dec b m NecRaw) (fun c => c) (mkRecv (D := nec_dec b m NecRaw) d1 p) (alternating (Nat.even (S pos)) rest)) as [[s2 raws2]| |] eqn:F2;
        cbn [bind] in F; try discriminate. injection F as <- <-.
      destruct (IH _ _ _ _ _ _ _ E2 F2) as (pos' & d' & c & used & rest' & H1 & H2 & H3 & H4).
      exists pos', d', c, (dt :: used), rest'. split; [exact H1|]. split; [cbn; congruence|]. split; [cbn; lia|].
      destruct c as [x|]; [|exact H4]. destruct H4 as (L & H4). split; [cbn; lia|exact H4].
    + assert (Hr : exists w, nec_command_of NecRaw d1 = Some w).
      { unfold nec_command_of. destruct (ns_state d1); cbn in Hs; try discriminate; cbn [nv_unpack NecRaw]; eauto. }
      destruct Hr as (w & Hr). rewrite Hr in F. cbn [option_map] in F.
      destruct (run_edges (D := nec_dec b m NecApple) into (mkRecv (D := nec_dec b m NecApple) (nec_reset d1) p) (alternating (Nat.even (S pos)) rest)) as [[r2 os2]| |] eqn:E2;
        cbn [bind] in E; try discriminate. injection E as <- <-.
      destruct (run_edges (D := nec_dec b m NecRaw) (fun c => c) (mkRecv (D := nec_dec b m NecRaw) (nec_reset d1) p) (alternating (Nat.even (S pos)) rest)) as [[s2 raws2]| |] eqn:F2;
        cbn [bind] in F; try discriminate. injection F as <- <-.
      exists (S pos), (nec_reset d1), (option_map into (nec_command_of NecApple d1)), [dt], rest.
      split; [reflexivity|]. split; [reflexivity|]. split; [cbn; lia|].
      destruct (nec_command_of NecApple d1) as [c|]; cbn [option_map]; [|reflexivity].
      split; [cbn; lia|]. exists os2, raws2. split; [exact E2|]. split; [exact F2|]. reflexivity.
    + destruct (run_edges (D := nec_dec b m NecApple) into (mkRecv (D := nec_dec b m NecApple) (nec_reset d1) p) (alternating (Nat.even (S pos)) rest)) as [[r2 os2]| |] eqn:E2;
        cbn [bind] in E; try discriminate. injection E as <- <-.
      destruct (run_edges (D := nec_dec b m NecRaw) (fun c => c) (mkRecv (D := nec_dec b m NecRaw) (nec_reset d1) p) (alternating (Nat.even (S pos)) rest)) as [[s2 raws2]| |] eqn:F2;
        cbn [bind] in F; try discriminate. injection F as <- <-.
      exists (S pos), (nec_reset d1), None, [dt], rest.
      split; [reflexivity|]. split; [reflexivity|]. split; [cbn; lia|]. reflexivity.
Qed.
Lemma apple_collect b m C (into : apple_command -> C) fuel : forall buf pos (d : nec_decoder) p r' os s' raws,
  (length (skipn pos buf) < fuel)%nat ->
  run_edges (D := nec_dec b m NecApple) into (mkRecv (D := nec_dec b m NecApple) d p) (alternating (Nat.even pos) (skipn pos buf)) = Val (r', os) ->
  run_edges (D := nec_dec b m NecRaw) (fun c => c) (mkRecv (D := nec_dec b m NecRaw) d p) (alternating (Nat.even pos) (skipn pos buf)) = Val (s', raws) ->
  exists it', iter_collect (D := nec_dec b m NecApple) into fuel (mkIter (D := nec_dec b m NecApple) pos buf d) = Val (it', commands_until raws os).
Proof.
  induction fuel as [|fuel IH]; intros buf pos d p r' os s' raws Hfu E F; [lia|].
  destruct (apple_loop b m C into _ _ _ _ _ _ _ _ E F) as (pos' & d' & c & used & rest' & H1 & H2 & H3 & H4).
  assert (Es : skipn pos' buf = rest') by (rewrite H3; apply skipn_used with (1 := H2)).
  cbn [iter_collect]. unfold iter_next. cbn [it_pos it_buf it_dec]. rewrite H1. cbn [bind].
  destruct c as [x|].
  - destruct H4 as (L & os' & raws' & E' & F' & ->).
    destruct (IH buf pos' d' p r' os' s' raws') as (it' & I); [rewrite Es; lia|rewrite Es; exact E'|rewrite Es; exact F'|].
    rewrite I. cbn [bind]. exists it'. reflexivity.
  - rewrite H4. eexists. reflexivity.
Qed.

(** AppleNec: [collect] also stops at the first frame that is not an Apple command.  A
    raw receiver on the same edges shows where the frames end. *)
Theorem C48_apple_partial :
  forall b m freq buf C (into : apple_command -> C) r0 r os s0 s raws it0,
  receiver_new (nec_protocol b m NecApple) freq = Val r0 ->
  receiver_new (nec_protocol b m NecRaw) freq = Val s0 ->
  iter_new (nec_protocol b m NecApple) freq buf = Val it0 ->
  run_edges (D := nec_dec b m NecApple) into r0 (alternating true buf) = Val (r, os) ->
  run_edges (D := nec_dec b m NecRaw) (fun c => c) s0 (alternating true buf) = Val (s, raws) ->
  exists it, collect (D := nec_dec b m NecApple) into it0 = Val (it, commands_until raws os).
Proof.
  intros b m freq buf C into r0 r os s0 s raws it0 Er Es Ei E F.
  unfold receiver_new, iter_new in *. cbn [p_build nec_protocol] in *. unfold nec_build in *. cbn [nv_timing NecApple NecRaw] in *.
  destruct (pulse_spans_new b m freq (nec_pulses NEC_STANDARD_TIMING)) as [ss| |]; cbn [bind] in *; try discriminate.
  injection Er as <-. injection Es as <-. injection Ei as <-. unfold collect. cbn [it_buf].
  apply apple_collect with (p := 0) (r' := r) (s' := s) (pos := O); auto.
Qed.
Print Assumptions C48_apple_partial.

(** An Apple frame, a NEC frame, and an Apple frame again: only the first is collected. *)
Definition c48_frame (w : N) : list N :=
  [9000; 4500] ++ flat_map (fun b : bool => if b then [560; 1690] else [560; 560]) (bits_lsb 32 w) ++ [560; 40000].
Example C48_apple_example :
  let buf := 0 :: c48_frame 1510115310 ++ c48_frame (bytes4 7 (compl8 7) 9 (compl8 9)) ++ c48_frame 1510115310 in
  let P V := nec_protocol (debug_build 32) MU32 V in
  option_map commands (outcomes (P NecApple) 1000000 (alternating true buf)) = Some [mkApple 14 1 90 false; mkApple 14 1 90 false] /\
  option_map (fun os => length (commands os)) (outcomes (P NecRaw) 1000000 (alternating true buf)) = Some 3%nat /\
  collected (P NecApple) 1000000 buf = Some [mkApple 14 1 90 false].
Proof. split; [vm_compute; reflexivity|]. split; vm_compute; reflexivity. Qed.

Example C48_example :
  In (rc5_protocol (debug_build 32) MU32) (parsing_protocols (debug_build 32) MU32) /\
  commands_before_error (E := decoding_error) [ROk None; ROk (Some 4); RErr EData; ROk (Some 5)] = [4] /\
  commands (E := decoding_error) [ROk None; ROk (Some 4); RErr EData; ROk (Some 5)] = [4; 5].
Proof. split; [cbn; tauto|]. split; reflexivity. Qed.

(** ** C49 *)

(** Slot [k] of the rows reported over a history is what a receiver of protocol [k]
    alone reports, with errors as nothing. *)
Theorem C49_multi_independent :
  forall ps freq ss ss' hist rows,
  multi_make ps freq = Val ss -> run_multi ss hist = Val (ss', rows) ->
  Forall (fun row => length row = length ps) rows /\
  forall k p, nth_error ps k = Some p ->
  exists r0 r os,
    receiver_new (ap_proto p) freq = Val r0 /\
    run_edges (fun c => c) r0 hist = Val (r, os) /\
    map (fun row => nth_error row k) rows =
    map (fun o => Some (match o with ROk (Some c) => Some (ap_into p c) | _ => None end)) os.
Proof.
  intros ps freq ss ss' hist rows Em Er. destruct (multi_make_nth _ _ _ Em) as (L & H). split.
  - rewrite <- L. eapply run_multi_rows; eauto.
  - intros k p Hp. destruct (H k p Hp) as (r0 & E0 & Es).
    destruct (run_multi_val _ _ _ _ Er _ _ Es) as (r & os & E1 & E2). cbn [sl_recv sl_dec] in *.
    exists r0, r, os. split; auto.
Qed.
Print Assumptions C49_multi_independent.

(** It panics only if one of the receivers alone does. *)
Theorem C49_multi_no_panic :
  forall ps freq ss hist,
  multi_make ps freq = Val ss ->
  (forall p r0, In p ps -> receiver_new (ap_proto p) freq = Val r0 ->
     exists r os, run_edges (fun c => c) r0 hist = Val (r, os)) ->
  exists ss' rows, run_multi ss hist = Val (ss', rows).
Proof.
  intros ps freq ss hist Em H. destruct (multi_make_nth _ _ _ Em) as (L & Hn).
  apply run_multi_total. intros s Hs. apply In_nth_error in Hs. destruct Hs as (k & Hk).
  assert (exists p, nth_error ps k = Some p) as (p & Hp).
  { destruct (nth_error ps k) eqn:Q; [eauto|]. apply nth_error_None in Q.
    assert (k < length ss)%nat by (apply nth_error_Some; congruence). lia. }
  destruct (Hn k p Hp) as (r0 & E0 & Es). rewrite Hk in Es. injection Es as ->. cbn [sl_recv sl_dec].
  apply (H p r0 (nth_error_In _ _ Hp) E0).
Qed.
Print Assumptions C49_multi_no_panic.

(** The iterator variants give the commands of the row in order. *)
Theorem C49_multi_iter :
  forall row : list (option any_command),
  map Some (flatten_opts row) = filter (fun o => match o with Some _ => true | None => false end) row.
Proof. induction row as [|[c|] row IH]; cbn; congruence. Qed.
Print Assumptions C49_multi_iter.

Definition c49_protocols : list any_protocol_ :=
  [ mkAnyP (nec_protocol (debug_build 32) MU32 NecStandard) (any_from nec_ac);
    mkAnyP (rc5_protocol (debug_build 32) MU32) (any_from rc5_ac);
    mkAnyP (denon_protocol (debug_build 32) MU32) denon_any ].
Example C49_example :
  match multi_make c49_protocols 1000000 with
  | Val ss => match run_multi ss c45_frame with
              | Val (_, rows) => last rows [] = [Some (mkAny PNec 0 7 9 false); None; None] /\ length rows = 67%nat
              | _ => False
              end
  | _ => False
  end.
Proof. vm_compute. split; reflexivity. Qed.

(** ** C50 *)

Section Builder.
  Context {Pin R : Type}.
  Definition op_freq (o : builder_op Pin R) := match o with OpFrequency f => Some f | _ => None end.
  Definition op_pin (o : builder_op Pin R) := match o with OpPin p => Some (Some p) | _ => None end.
  Definition op_mono (o : builder_op Pin R) := match o with OpMonotonic m => Some m | _ => None end.
  Definition op_proto (o : builder_op Pin R) := match o with OpProtocol p => Some (Some p) | _ => None end.
  Definition op_cmd (o : builder_op Pin R) :=
    match o with OpProtocol p => Some (CProto p) | OpRemote r => Some (CButton r) | _ => None end.
End Builder.

Theorem C50_builder :
  forall Pin R (ops : list (builder_op Pin R)),
  let bd := fold_left builder_step ops builder_default in
  bd_freq bd = last_set op_freq 1000000 ops /\ bd_pin bd = last_set op_pin None ops /\
  bd_mono bd = last_set op_mono TU32 ops /\ bd_proto bd = last_set op_proto None ops /\
  bd_cmd bd = last_set op_cmd CUnit ops.
Proof.
  intros Pin R ops.
  assert (G : forall ops (b0 : builder Pin R), let bd := fold_left builder_step ops b0 in
    bd_freq bd = last_set op_freq (bd_freq b0) ops /\ bd_pin bd = last_set op_pin (bd_pin b0) ops /\
    bd_mono bd = last_set op_mono (bd_mono b0) ops /\ bd_proto bd = last_set op_proto (bd_proto b0) ops /\
    bd_cmd bd = last_set op_cmd (bd_cmd b0) ops).
  { induction ops0 as [|o ops0 IH]; intros b0; cbn [fold_left last_set]; [auto 6|].
    specialize (IH (builder_step b0 o)). cbv zeta in *. destruct o; cbn [builder_step bd_freq bd_pin bd_mono bd_proto bd_cmd
      op_freq op_pin op_mono op_proto op_cmd] in *; exact IH. }
  apply (G ops builder_default).
Qed.
Print Assumptions C50_builder.

(** Two sequences with the same last settings build the same receiver. *)
Theorem C50_builder_order :
  forall Pin R (ops1 ops2 : list (builder_op Pin R)),
  last_set op_freq 1000000 ops1 = last_set op_freq 1000000 ops2 ->
  last_set op_pin None ops1 = last_set op_pin None ops2 ->
  last_set op_mono TU32 ops1 = last_set op_mono TU32 ops2 ->
  last_set op_proto None ops1 = last_set op_proto None ops2 ->
  last_set op_cmd CUnit ops1 = last_set op_cmd CUnit ops2 ->
  fold_left builder_step ops1 builder_default = fold_left builder_step ops2 builder_default.
Proof.
  intros Pin R ops1 ops2 H1 H2 H3 H4 H5.
  destruct (C50_builder Pin R ops1) as (A1 & A2 & A3 & A4 & A5).
  destruct (C50_builder Pin R ops2) as (B1 & B2 & B3 & B4 & B5).
  destruct (fold_left builder_step ops1 builder_default), (fold_left builder_step ops2 builder_default).
  cbn in *. congruence.
Qed.
Print Assumptions C50_builder_order.

Example C50_example :
  fold_left builder_step [OpRemote 3; OpProtocol TRc5; OpPin tt; OpFrequency 40000] builder_default =
  fold_left builder_step [OpFrequency 5; OpPin tt; OpFrequency 40000; OpProtocol TNec; OpProtocol TRc5] builder_default /\
  bd_cmd (fold_left builder_step [OpRemote 3; OpProtocol TRc5; OpPin tt; OpFrequency 40000] builder_default) = CProto TRc5.
Proof. split; reflexivity. Qed.

(** ** C51 *)

(** What a call reports to the user: a command, nothing, or the kind of error. *)
Inductive report (C : Type) := Command (c : C) | Nothing | AddressError | DataError | ValidationError | RemoteError | PinError.
Arguments Command {C} _.
Arguments Nothing {C}.
Arguments AddressError {C}.
Arguments DataError {C}.
Arguments ValidationError {C}.
Arguments RemoteError {C}.
Arguments PinError {C}.
Definition report_plain {C} (o : result (option C) decoding_error) : report C :=
  match o with
  | ROk (Some c) => Command c | ROk None => Nothing
  | RErr EAddress => AddressError | RErr EData => DataError
  | RErr EValidation => ValidationError | RErr ERemoteControl => RemoteError
  end.
Definition report_pin {C E} (o : result (option C) (error E)) : report C :=
  match o with
  | ROk (Some c) => Command c | ROk None => Nothing
  | RErr XAddress => AddressError | RErr XData => DataError
  | RErr XValidation => ValidationError | RErr XRemoteControl => RemoteError
  | RErr (XHal _) => PinError
  end.
Definition map_res {A B} (f : A -> B) (x : res A) : res B := let* a := x in Val (f a).

Theorem C51_entry_points :
  forall (D : decoder) C E (into : dcmd D -> C) m (r : receiver D) e dt,
  checked_sub m (rv_prev r + dt) (rv_prev r) = Some dt ->
  let base := map_res (fun x => (rv_dec (fst x), report_plain (snd x))) (event_edge into r dt e) in
  map_res (fun x => (rv_dec (fst x), report_plain (snd x))) (event into r dt e) = base /\
  map_res (fun x => (rv_dec (fst x), report_plain (snd x))) (event_instant into m r (rv_prev r + dt) e) = base /\
  map_res (fun x => (rv_dec (fst x), report_pin (snd x))) (event_pin (E := E) into r (ROk e) dt) = base /\
  map_res (fun x => (rv_dec (fst x), report_pin (snd x))) (event_instant_pin (E := E) into m r (ROk e) (rv_prev r + dt)) = base /\
  map_res (fun x => (fst x, report_plain (match snd x with ROk c => ROk (option_map into c) | RErr k => RErr k end)))
    (event_total D (rv_dec r) e dt) = base.
Proof.
  intros D C E into m r e dt Hs base. subst base. unfold event, event_instant_pin, event_instant, event_pin, event_total.
  rewrite Hs. destruct r as [d p]. cbn [rv_prev rv_dec]. rewrite (event_edge_prev into d (p + dt)).
  unfold event_edge. cbn [rv_prev rv_dec].
  destruct (d_event D d e dt) as [[d1 s]| |]; cbn [bind map_res]; auto 6.
  destruct s as [| | |x]; try destruct x; try destruct (d_command D d1) as [c|]; repeat split.
Qed.
Print Assumptions C51_entry_points.

Example C51_example : forall p dt, checked_sub MU32 (p + dt) p = Some dt.
Proof. intros p dt. cbn [checked_sub]. rewrite (proj2 (N.leb_le _ _)) by lia. f_equal. lia. Qed.
