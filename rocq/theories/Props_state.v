(** * Properties C35-C43: decoders as state machines *)
From Coq Require Import NArith ZArith List Bool Lia ZifyBool ZifyNat ZifyN.
From Verif Require Import Machine Spec Spec_receiver Spec_state Time Decoder Nec Rc5 Rc6 Denon Sbp Receiver
  Time_facts Window_facts Run_facts Nec_facts Sbp_facts Denon_facts Rc5_facts Rc6_facts Receiver_facts
  State_facts Example_facts.
Import ListNotations.
Open Scope N_scope.

Lemma val_inj {A} (x y : A) : Val x = Val y -> x = y.
Proof. congruence. Qed.

Lemma not_receiving (ss : list state) : ~ Forall (eq Receiving) ss -> exists t, In t ss /\ t <> Receiving.
Proof.
  induction ss as [|s ss IH]; intros H; [destruct H; constructor|].
  destruct s; try (eexists; split; [left; reflexivity|discriminate]).
  destruct IH as (t & I1 & I2); [intros F; apply H; constructor; auto|]. exists t. split; [right|]; auto.
Qed.
Lemma Forall_True {A} (l : list A) : Forall (fun _ => True) l.
Proof. apply Forall_forall. auto. Qed.

(** The states a new decoder returns, for the examples. *)
Definition states_of (P : protocol) (freq : N) (h : list edge) : option (list state) :=
  match p_build P freq with
  | Val d => match run_states (p_dec P) d h with Val (_, ss) => Some ss | _ => None end
  | _ => None
  end.
(** What [command] returns after a sequence of calls. *)
Definition command_after (P : protocol) (freq : N) (xs : list (option edge)) : option (option (dcmd (p_dec P))) :=
  match p_build P freq with
  | Val d => match calls (p_dec P) d xs with Val (d', _) => Some (d_command (p_dec P) d') | _ => None end
  | _ => None
  end.
Definition nec_word_edges (w : N) : list edge :=
  (true, 30000) :: pair_edges ((9000, 4500) :: map (fun b : bool => if b then (560, 1690) else (560, 560)) (bits_lsb 32 w)).

(** ** C35: refuted for RC5, RC6 and SBP, proved for NEC and Denon *)

(** A decoder that has not seen a single event already has a command. *)
Theorem C35_refuted : exists freq,
  (exists d s c, reached (rc5_protocol (debug_build 32) MU32) freq d s /\
     d_command (rc5_dec (debug_build 32)) d = Some c /\ s <> Done) /\
  (exists d s c, reached (rc6_protocol (debug_build 32) MU32) freq d s /\
     d_command (rc6_dec (debug_build 32)) d = Some c /\ s <> Done) /\
  (exists d s c, reached (sbp_protocol (debug_build 32) MU32) freq d s /\
     d_command (sbp_dec (debug_build 32) MU32) d = Some c /\ s <> Done).
Proof.
  exists 1000000. split; [|split].
  - eexists _, Idle, (mkRc5 0 0 0 false). split; [eexists _, [], []; split; [vm_compute; reflexivity|split; reflexivity]|]. split; [reflexivity|discriminate].
  - eexists _, Idle, (mkRc6 0 0 false). split; [eexists _, [], []; split; [vm_compute; reflexivity|split; reflexivity]|]. split; [reflexivity|discriminate].
  - eexists _, Idle, (mkSbp 0 0 false). split; [eexists _, [], []; split; [vm_compute; reflexivity|split; reflexivity]|]. split; [reflexivity|discriminate].
Qed.
Print Assumptions C35_refuted.

(** Full claim, for every protocol [P]: [reached P freq d s -> d_command (p_dec P) d <> None -> s = Done].
    It holds for the NEC family and Denon. *)
Theorem C35_nec_partial : forall b m V freq d s, reached (nec_protocol b m V) freq d s ->
  d_command (nec_dec b m V) d <> None -> s = Done.
Proof.
  intros b m V freq d s H. apply nec_reached in H. destruct H as (_ & -> & _).
  cbn [d_command nec_dec]. unfold nec_command_of. destruct (ns_state d); cbn; congruence.
Qed.
Print Assumptions C35_nec_partial.

Theorem C35_denon_partial : forall b m freq d s, reached (denon_protocol b m) freq d s ->
  (d_command (denon_dec b m) d <> None <-> s = Done).
Proof.
  intros b m freq d s H. apply denon_reached in H. destruct H as (_ & -> & _).
  cbn [d_command denon_dec]. unfold denon_command_of. destruct (dn_state d); cbn; split; congruence.
Qed.
Print Assumptions C35_denon_partial.

(** The converse for the NEC variants that accept every word. *)
Theorem C35_nec_done_partial : forall b m V freq d, (forall w r, nv_unpack V w r <> None) ->
  reached (nec_protocol b m V) freq d Done -> d_command (nec_dec b m V) d <> None.
Proof.
  intros b m V freq d HV H. apply nec_reached in H. destruct H as (_ & E & _).
  cbn [d_command nec_dec]. unfold nec_command_of. destruct (ns_state d); try discriminate E; apply HV.
Qed.
Print Assumptions C35_nec_done_partial.

Example C35_example :
  let w := bytes4 21 (compl8 21) 200 (compl8 200) in
  let P := nec_protocol (debug_build 32) MU32 NecStandard in
  command_after P 1000000 (map Some (nec_word_edges w)) = Some (Some (mkNec 21 200 false)) /\
  command_after P 1000000 (map Some (firstn 66 (nec_word_edges w))) = Some None /\
  command_after P 1000000 (map Some (nec_word_edges w) ++ [None]) = Some None.
Proof. repeat split; vm_compute; reflexivity. Qed.

(** ** C36: proved for NEC, SBP and Denon, refuted for RC5 and RC6 *)

Definition finished (s : state) : Prop := s <> Idle /\ s <> Receiving.

Theorem C36_nec : forall b m V freq d s h d' ss, reached (nec_protocol b m V) freq d s -> finished s ->
  feed (nec_dec b m V) d h = Val (d', ss) ->
  Forall (eq s) ss /\ d_command (nec_dec b m V) d' = d_command (nec_dec b m V) d.
Proof.
  intros b m V freq d s h d' ss H (F1 & F2) E. apply nec_reached in H. destruct H as (_ & Es & _).
  apply (feed_stable (nec_dec b m V) (fun x => ns_state x = ns_state d /\ ns_bitbuf x = ns_bitbuf d) s
    (d_command (nec_dec b m V) d) (fun _ => True)) with (h := h) (d := d); auto.
  - intros x [e dt] x' s' (Q1 & Q2) _ Ex. cbn [fst snd d_event nec_dec] in Ex. unfold nec_event in Ex. destruct e.
    + destruct (dur_add _ _ _ _); cbn [bind] in Ex; try discriminate. rewrite Q1, Q2 in Ex.
      destruct (ns_state d); cbn [nec_to_state] in Es; try congruence; cbn [nec_transition bind] in Ex;
        injection Ex as <- <-; cbn; auto.
    + injection Ex as <- <-. cbn. rewrite Q1. auto.
  - intros x (Q1 & Q2). cbn [d_command nec_dec]. unfold nec_command_of. rewrite Q1, Q2. reflexivity.
  - apply Forall_forall. auto.
Qed.
Print Assumptions C36_nec.

Theorem C36_sbp : forall b m freq d s h d' ss, reached (sbp_protocol b m) freq d s -> finished s ->
  feed (sbp_dec b m) d h = Val (d', ss) ->
  Forall (eq s) ss /\ d_command (sbp_dec b m) d' = d_command (sbp_dec b m) d.
Proof.
  intros b m freq d s h d' ss H (F1 & F2) E. apply sbp_reached in H. destruct H as (_ & Es & _).
  apply (feed_stable (sbp_dec b m) (fun x => sb_state x = sb_state d /\ sb_address x = sb_address d /\ sb_command x = sb_command d) s
    (d_command (sbp_dec b m) d) (fun _ => True)) with (h := h) (d := d); auto.
  - intros x [e dt] x' s' (Q1 & Q2 & Q3) _ Ex. cbn [fst snd d_event sbp_dec] in Ex. unfold sbp_event in Ex. destruct e.
    + destruct (dur_add _ _ _ _); cbn [bind] in Ex; try discriminate. rewrite Q1, Q2, Q3 in Ex.
      destruct (sb_state d); cbn [sbp_to_state] in Es; try congruence; cbn [sbp_transition bind] in Ex;
        injection Ex as <- <-; cbn; auto.
    + injection Ex as <- <-. cbn. rewrite Q1. auto.
  - intros x (Q1 & Q2 & Q3). cbn [d_command sbp_dec]. unfold sbp_command_of. rewrite Q2, Q3. reflexivity.
  - apply Forall_forall. auto.
Qed.
Print Assumptions C36_sbp.

Theorem C36_denon : forall b m freq d s h d' ss, reached (denon_protocol b m) freq d s -> finished s ->
  feed (denon_dec b m) d h = Val (d', ss) ->
  Forall (eq s) ss /\ d_command (denon_dec b m) d' = d_command (denon_dec b m) d.
Proof.
  intros b m freq d s h d' ss H (F1 & F2) E. apply denon_reached in H. destruct H as (_ & Es & _).
  apply (feed_stable (denon_dec b m) (fun x => dn_state x = dn_state d /\ dn_buf x = dn_buf d) s
    (d_command (denon_dec b m) d) (fun _ => True)) with (h := h) (d := d); auto.
  - intros x [e dt] x' s' (Q1 & Q2) _ Ex. cbn [fst snd d_event denon_dec] in Ex. unfold denon_event in Ex. destruct e.
    + destruct (dur_add _ _ _ _); cbn [bind] in Ex; try discriminate. rewrite Q1, Q2 in Ex.
      destruct (dn_state d); cbn [denon_to_state] in Es; try congruence; cbn [denon_transition bind] in Ex;
        injection Ex as <- <-; cbn; auto.
    + injection Ex as <- <-. cbn. rewrite Q1. auto.
  - intros x (Q1 & Q2). cbn [d_command denon_dec]. unfold denon_command_of. rewrite Q1, Q2. reflexivity.
  - apply Forall_forall. auto.
Qed.
Print Assumptions C36_denon.

(** RC5 and RC6 restart on an interval that matches no window, even when finished;
    with matching intervals only they stay finished. *)
Definition feed_states (P : protocol) (freq : N) (h : list edge) : option (list state) :=
  match p_build P freq with
  | Val d => match feed (p_dec P) d h with Val (_, ss) => Some ss | _ => None end
  | _ => None
  end.
Definition rc5_word_edges (w : N) : list edge :=
  map (fun x : edge => (fst x, snd x * 889)) (level_edges false 100 (rc5_wave w)).
Definition rc6_word_edges (tg : bool) (w : N) : list edge :=
  map (fun x : edge => (fst x, snd x * 444)) (level_edges false 100 (rc6_wave tg (bits_msb 16 w))).

Theorem C36_refuted :
  (exists h x, feed_states (rc5_protocol (debug_build 32) MU32) 1000000 h = Some (repeat Receiving (length h - 1) ++ [Done]) /\
     feed_states (rc5_protocol (debug_build 32) MU32) 1000000 (h ++ [x]) = Some (repeat Receiving (length h - 1) ++ [Done; Idle])) /\
  (exists h x, feed_states (rc6_protocol (debug_build 32) MU32) 1000000 h = Some (repeat Receiving (length h - 1) ++ [Done]) /\
     feed_states (rc6_protocol (debug_build 32) MU32) 1000000 (h ++ [x]) = Some (repeat Receiving (length h - 1) ++ [Done; Idle])).
Proof.
  split.
  - exists (rc5_word_edges 12289), (false, 50000). split; vm_compute; reflexivity.
  - exists (rc6_word_edges true 4660), (false, 50000). split; vm_compute; reflexivity.
Qed.
Print Assumptions C36_refuted.

(** Full claim: as [C36_nec], for any later history.  Missing: histories with an
    interval outside all windows (they restart the decoder, see above). *)
Theorem C36_rc5_partial : forall b m freq d s h d' ss,
  timebase m freq -> 1125 <= freq -> freq < 2 ^ 32 ->
  reached (rc5_protocol b m) freq d s -> finished s ->
  Forall (fun x => exists n, (n = 1 \/ n = 2) /\ biphase_near freq 889 rc5_tol (fst x, n) x) h ->
  feed (rc5_dec b) d h = Val (d', ss) ->
  Forall (eq s) ss /\ d_command (rc5_dec b) d' = d_command (rc5_dec b) d.
Proof.
  intros b m freq d s h d' ss Hm Hlo Hf H (F1 & F2) Hh E. apply rc5_reached in H. destruct H as (_ & Es & Ep).
  rewrite pulse_spans_val in Ep by auto using rc5_ok. apply val_inj in Ep.
  apply (feed_stable (rc5_dec b) (fun x => r5_state x = r5_state d /\ r5_bitbuf x = r5_bitbuf d /\ r5_spans x = r5_spans d) s
    (d_command (rc5_dec b) d) (fun x => exists n, (n = 1 \/ n = 2) /\ biphase_near freq 889 rc5_tol (fst x, n) x)) with (h := h) (d := d); auto.
  - intros x [e dt] x' s' (Q1 & Q2 & Q3) (n & Hn & _ & Hd) Ex. cbn [fst snd d_event rc5_dec] in *.
    unfold rc5_event in Ex. rewrite Q3, <- Ep in Ex. rewrite (rc5_ticks (release_build 32) m freq Hm Hf Hlo ltac:(cbn; lia) n dt Hn Hd) in Ex.
    destruct (uadd _ _ (n - 1) 1); cbn [bind] in Ex; try discriminate.
    destruct (uadd _ _ _ _); cbn [bind r5_state r5_clock r5_bitbuf r5_spans] in Ex; try discriminate.
    rewrite Q1, Q2 in Ex.
    destruct (r5_state d); cbn [rc5_to_state] in Es; try congruence; cbn [rc5_transition bind] in Ex;
      injection Ex as <- <-; cbn [r5_state r5_bitbuf r5_spans rc5_to_state]; auto.
  - intros x (Q1 & Q2 & Q3). cbn [d_command rc5_dec]. unfold rc5_command_of. rewrite Q2. reflexivity.
Qed.
Print Assumptions C36_rc5_partial.

Theorem C36_rc6_partial : forall b m freq d s h d' ss,
  timebase m freq -> 4130 <= freq -> freq < 2 ^ 32 -> 8 <= usize_bits b ->
  reached (rc6_protocol b m) freq d s -> finished s ->
  Forall (fun x => exists n, (n = 1 \/ n = 2 \/ n = 3) /\ biphase_near freq 444 rc6_tol (fst x, n) x) h ->
  feed (rc6_dec b) d h = Val (d', ss) ->
  Forall (eq s) ss /\ d_command (rc6_dec b) d' = d_command (rc6_dec b) d.
Proof.
  intros b m freq d s h d' ss Hm Hlo Hf Hu H (F1 & F2) Hh E. apply rc6_reached in H. destruct H as (_ & Es & Ep).
  rewrite pulse_spans_val in Ep by auto using rc6_ok. apply val_inj in Ep.
  apply (feed_stable (rc6_dec b) (fun x => r6_state x = r6_state d /\ r6_data x = r6_data d /\ r6_toggle x = r6_toggle d /\ r6_spans x = r6_spans d) s
    (d_command (rc6_dec b) d) (fun x => exists n, (n = 1 \/ n = 2 \/ n = 3) /\ biphase_near freq 444 rc6_tol (fst x, n) x)) with (h := h) (d := d); auto.
  - intros x [e dt] x' s' (Q1 & Q2 & Q3 & Q4) (n & Hn & _ & Hd) Ex. cbn [fst snd d_event rc6_dec] in *.
    unfold rc6_event in Ex. rewrite Q4, <- Ep in Ex. rewrite (rc6_ticks b m freq Hm Hf ltac:(lia) Hu n dt Hn Hd) in Ex.
    destruct (uadd _ _ (n - 1) 1); cbn [bind] in Ex; try discriminate.
    destruct (uadd _ _ _ _); cbn [bind r6_clock] in Ex; try discriminate.
    unfold rc6_transition in Ex. cbn [r6_state r6_data r6_headerdata r6_toggle r6_clock r6_spans] in Ex. rewrite Q1, Q2, Q3 in Ex.
    destruct (r6_state d); cbn [rc6_to_state] in Es; try congruence; cbn [bind r6_state] in Ex;
      injection Ex as <- <-; cbn [r6_state r6_data r6_toggle r6_spans rc6_to_state]; auto.
  - intros x (Q1 & Q2 & Q3 & Q4). cbn [d_command rc6_dec]. unfold rc6_command_of. rewrite Q2, Q3. reflexivity.
Qed.
Print Assumptions C36_rc6_partial.

(** Finished decoders that see more edges. *)
Example C36_example :
  feed_states (nec_protocol (debug_build 32) MU32 NecStandard) 1000000 (nec_word_edges 7 ++ [(false, 5); (true, 9); (false, 70000)]) =
    Some (repeat Idle 2 ++ repeat Receiving 64 ++ [Done; Done; Done; Done]).
Proof. vm_compute. reflexivity. Qed.

(** ** C37 *)

(** The number of rising edges during which a receiver can be [Receiving] all the time. *)
Theorem C37_nec : forall b m V freq d s h d' ss, reached (nec_protocol b m V) freq d s ->
  run_states (nec_dec b m V) d h = Val (d', ss) -> (33 <= count fst h)%nat ->
  exists t, In t ss /\ t <> Receiving.
Proof.
  intros b m V freq d s h d' ss H E Hc. apply nec_reached in H. destruct H as (H & _).
  apply not_receiving. intros F.
  pose proof (receiving_bound (nec_dec b m V) nec_in_range nec_progress fst (fun _ => True) 32) as B.
  specialize (B (fun d x d' Q _ E => nec_progress_step b m V d x d' Q E) h d d' ss H (Forall_True _) E F).
  assert (nec_progress d <= 32)%nat by (unfold nec_progress; unfold nec_in_range in H; destruct (ns_state d); lia). lia.
Qed.
Print Assumptions C37_nec.

Theorem C37_sbp : forall b m freq d s h d' ss, reached (sbp_protocol b m) freq d s ->
  run_states (sbp_dec b m) d h = Val (d', ss) -> (38 <= count fst h)%nat ->
  exists t, In t ss /\ t <> Receiving.
Proof.
  intros b m freq d s h d' ss H E Hc. apply sbp_reached in H. destruct H as (H & _).
  apply not_receiving. intros F.
  pose proof (receiving_bound (sbp_dec b m) sbp_in_range sbp_progress fst (fun _ => True) 37) as B.
  specialize (B (fun d x d' Q _ E => sbp_progress_step b m d x d' Q E) h d d' ss H (Forall_True _) E F).
  assert (sbp_progress d <= 37)%nat by (unfold sbp_progress; unfold sbp_in_range in H; destruct (sb_state d); lia). lia.
Qed.
Print Assumptions C37_sbp.

Theorem C37_denon : forall b m freq d s h d' ss, reached (denon_protocol b m) freq d s ->
  run_states (denon_dec b m) d h = Val (d', ss) -> (49 <= count fst h)%nat ->
  exists t, In t ss /\ t <> Receiving.
Proof.
  intros b m freq d s h d' ss H E Hc. apply denon_reached in H. destruct H as (H & _).
  apply not_receiving. intros F.
  pose proof (receiving_bound (denon_dec b m) denon_in_range denon_progress fst (fun _ => True) 48) as B.
  specialize (B (fun d x d' Q _ E => denon_progress_step b m d x d' Q E) h d d' ss H (Forall_True _) E F).
  assert (denon_progress d <= 48)%nat by (unfold denon_progress; unfold denon_in_range in H; destruct (dn_state d); lia). lia.
Qed.
Print Assumptions C37_denon.

(** The bound is sharp: with 32 rising edges a NEC decoder may be receiving all along. *)
Example C37_example :
  let h := skipn 2 (nec_word_edges 7) in
  states_of (nec_protocol (debug_build 32) MU32 NecStandard) 1000000 (firstn 2 (nec_word_edges 7) ++ firstn 63 h) =
    Some (repeat Idle 2 ++ repeat Receiving 63) /\ count fst (firstn 63 h) = 32%nat /\
  states_of (nec_protocol (debug_build 32) MU32 NecStandard) 1000000 (nec_word_edges 7) =
    Some (repeat Idle 2 ++ repeat Receiving 64 ++ [Done]) /\ count fst h = 33%nat.
Proof. repeat split; vm_compute; reflexivity. Qed.

(** ** C38: refuted *)

(** Edges of a signal that changes every two units can keep a decoder receiving for ever. *)
Lemma rc5_square_step b ss buf ck e : spans_get ss 1778 = Some 1 -> 2 <= usize_bits b -> ck mod 2 = 1 ->
  drive (rc5_dec b) (mkRc5Dec (R5Data 12) buf ck ss) (e, 1778) =
  let* c := uadd (overflow_checks b) (usize_bits b) ck 2 in Val (mkRc5Dec (R5Data 12) buf c ss, Receiving).
Proof.
  intros Hs Hw Ho. unfold drive. cbn [fst snd d_event rc5_dec]. unfold rc5_event. cbn [r5_spans r5_clock r5_state r5_bitbuf].
  rewrite Hs. assert (4 <= 2 ^ usize_bits b) by (change 4 with (2 ^ 2); apply N.pow_le_mono_r; lia).
  rewrite (uadd_small _ _ 1 1) by lia. cbn [bind]. change (1 + 1) with 2.
  destruct (uadd _ _ ck 2) as [c| |] eqn:E; cbn [bind]; auto.
  apply uadd_parity in E; [|lia]. cbn [r5_clock r5_state r5_bitbuf r5_spans]. rewrite land1.
  assert (c mod 2 = 1) as -> by (rewrite E, N.add_mod, Ho by discriminate; reflexivity).
  reflexivity.
Qed.

Lemma rc5_square_release w ss n : spans_get ss 1778 = Some 1 -> 2 <= w -> forall buf ck e, ck mod 2 = 1 ->
  exists d, run_states (rc5_dec (release_build w)) (mkRc5Dec (R5Data 12) buf ck ss) (alternating e (repeat 1778 n)) =
    Val (d, repeat Receiving n).
Proof.
  intros Hs Hw. unfold run_states. induction n as [|n IH]; intros buf ck e Ho; cbn [repeat alternating run_res].
  - eexists. reflexivity.
  - rewrite rc5_square_step by auto. cbn [overflow_checks usize_bits release_build].
    edestruct (uadd_val false w ck 2) as (c & E & _); [auto|]. rewrite E. cbn [bind].
    apply uadd_parity in E; [|lia].
    edestruct (IH buf c (negb e)) as (d & Ed); [rewrite E, N.add_mod, Ho by discriminate; reflexivity|].
    rewrite Ed. cbn [bind]. eexists. reflexivity.
Qed.

Lemma rc5_square_debug w ss : spans_get ss 1778 = Some 1 -> 2 <= w -> forall k buf ck e, ck mod 2 = 1 ->
  2 ^ w <= ck + 2 * N.of_nat k ->
  exists n, run_states (rc5_dec (debug_build w)) (mkRc5Dec (R5Data 12) buf ck ss) (alternating e (repeat 1778 n)) = Panic.
Proof.
  intros Hs Hw. unfold run_states. induction k as [|k IH]; intros buf ck e Ho L.
  - exists 1%nat. cbn [repeat alternating run_res]. rewrite rc5_square_step by auto. cbn [overflow_checks usize_bits debug_build].
    unfold uadd. rewrite (proj2 (N.ltb_ge _ _)) by lia. reflexivity.
  - destruct (N.lt_ge_cases (ck + 2) (2 ^ w)) as [Lt|Ge].
    + edestruct (IH buf (ck + 2) (negb e)) as (n & En); [rewrite N.add_mod, Ho by discriminate; reflexivity|lia|].
      exists (S n). cbn [repeat alternating run_res]. rewrite rc5_square_step by auto. cbn [overflow_checks usize_bits debug_build].
      rewrite uadd_small by auto. cbn [bind]. rewrite En. reflexivity.
    + exists 1%nat. cbn [repeat alternating run_res]. rewrite rc5_square_step by auto. cbn [overflow_checks usize_bits debug_build].
      unfold uadd. rewrite (proj2 (N.ltb_ge _ _)) by auto. reflexivity.
Qed.

Definition rc5_windows : list span := spans_of MU32 1000000 rc5_pulses.
Lemma rc5_windows_build b : p_build (rc5_protocol b MU32) 1000000 = Val (mkRc5Dec R5Idle 0 0 rc5_windows).
Proof. cbn [p_build rc5_protocol]. unfold rc5_build. rewrite pulse_spans_val; auto using rc5_ok; [exact I|reflexivity]. Qed.

(** A mark begins, ends after one unit, and then the signal changes every two units. *)
Lemma rc5_square_start b rest : 2 <= usize_bits b ->
  run_states (rc5_dec b) (mkRc5Dec R5Idle 0 0 rc5_windows) ((true, 30000) :: (false, 889) :: rest) =
  let* (d, ss) := run_states (rc5_dec b) (mkRc5Dec (R5Data 12) 8192 1 rc5_windows) rest in
  Val (d, Receiving :: Receiving :: ss).
Proof.
  intros Hw. assert (4 <= 2 ^ usize_bits b) by (change 4 with (2 ^ 2); apply N.pow_le_mono_r; lia).
  unfold run_states. cbn [run_res]. unfold drive at 1. cbn [fst snd d_event rc5_dec]. unfold rc5_event at 1.
  cbn [r5_spans r5_clock r5_state r5_bitbuf].
  change (spans_get rc5_windows 30000) with (@None N). cbn [bind].
  unfold rc5_reset. cbn [r5_spans r5_clock r5_state r5_bitbuf rc5_transition].
  rewrite ushl1_val by lia. cbn [bind rc5_to_state].
  unfold drive at 1. cbn [fst snd d_event rc5_dec]. unfold rc5_event at 1. cbn [r5_spans r5_clock r5_state r5_bitbuf].
  change (spans_get rc5_windows 889) with (Some 0). cbv beta iota. rewrite (uadd_small _ _ 0 1) by lia. cbn [bind].
  change (0 + 1) with 1. rewrite (uadd_small _ _ 0 1) by lia. cbn [bind r5_spans r5_clock r5_state r5_bitbuf rc5_transition].
  change (N.land (0 + 1) 1 =? 0) with false. cbn [bind rc5_to_state].
  change (N.lor 0 (N.shiftl 1 13)) with 8192. change (0 + 1) with 1.
  destruct (run_res (drive (rc5_dec b)) _ rest) as [[d ss]| |]; reflexivity.
Qed.

Theorem C38_rc5_refuted : forall w n, 2 <= w -> exists d0 d buf,
  p_build (rc5_protocol (release_build w) MU32) 1000000 = Val d0 /\
  run_states (rc5_dec (release_build w)) d0 (alternating true buf) = Val (d, repeat Receiving (length buf)) /\
  (n <= length buf)%nat.
Proof.
  intros w n Hw.
  edestruct (rc5_square_release w rc5_windows n) with (buf := 8192) (ck := 1) (e := true) as (d & E); auto.
  eexists. exists d, (30000 :: 889 :: repeat 1778 n). split; [apply rc5_windows_build|].
  cbn [alternating negb]. rewrite rc5_square_start by auto.
  rewrite E. cbn [bind length]. rewrite repeat_length. split; [reflexivity|]. lia.
Qed.
Print Assumptions C38_rc5_refuted.

Definition rc6_windows : list span := spans_of MU32 1000000 rc6_pulses.
Lemma rc6_windows_build b : p_build (rc6_protocol b MU32) 1000000 = Val (mkRc6Dec R6Idle 0 0 false 0 rc6_windows).
Proof. cbn [p_build rc6_protocol]. unfold rc6_build. rewrite pulse_spans_val; auto using rc6_ok; [exact I|reflexivity]. Qed.

Lemma rc6_square_step b ck e : 4 <= usize_bits b -> ck mod 2 = 0 ->
  drive (rc6_dec b) (mkRc6Dec (R6HeaderData 3) 0 0 false ck rc6_windows) (e, 888) =
  let* c := uadd (overflow_checks b) (usize_bits b) ck 2 in Val (mkRc6Dec (R6HeaderData 3) 0 0 false c rc6_windows, Receiving).
Proof.
  intros Hw Ho. unfold drive. cbn [fst snd d_event rc6_dec]. unfold rc6_event.
  cbn [r6_state r6_data r6_headerdata r6_toggle r6_clock r6_spans].
  change (spans_get rc6_windows 888) with (Some 1). cbv beta iota.
  assert (16 <= 2 ^ usize_bits b) by (change 16 with (2 ^ 4); apply N.pow_le_mono_r; lia).
  rewrite (uadd_small _ _ 1 1) by lia. cbn [bind]. change (1 + 1) with 2.
  destruct (uadd _ _ ck 2) as [c| |] eqn:E; cbn [bind]; auto.
  apply uadd_parity in E; [|lia]. cbn [r6_clock]. rewrite land1.
  assert (c mod 2 = 0) as -> by (rewrite E, N.add_mod, Ho by discriminate; reflexivity).
  reflexivity.
Qed.

Lemma rc6_square_release w n : 4 <= w -> forall ck e, ck mod 2 = 0 ->
  exists d, run_states (rc6_dec (release_build w)) (mkRc6Dec (R6HeaderData 3) 0 0 false ck rc6_windows) (alternating e (repeat 888 n)) =
    Val (d, repeat Receiving n).
Proof.
  intros Hw. unfold run_states. induction n as [|n IH]; intros ck e Ho; cbn [repeat alternating run_res].
  - eexists. reflexivity.
  - rewrite rc6_square_step by auto. cbn [overflow_checks usize_bits release_build].
    edestruct (uadd_val false w ck 2) as (c & E & _); [auto|]. rewrite E. cbn [bind].
    apply uadd_parity in E; [|lia].
    edestruct (IH c (negb e)) as (d & Ed); [rewrite E, N.add_mod, Ho by discriminate; reflexivity|].
    rewrite Ed. cbn [bind]. eexists. reflexivity.
Qed.

Lemma rc6_square_debug w : 4 <= w -> forall k ck e, ck mod 2 = 0 -> 2 ^ w <= ck + 2 * N.of_nat k ->
  exists n, run_states (rc6_dec (debug_build w)) (mkRc6Dec (R6HeaderData 3) 0 0 false ck rc6_windows) (alternating e (repeat 888 n)) = Panic.
Proof.
  intros Hw. unfold run_states. induction k as [|k IH]; intros ck e Ho L.
  - exists 1%nat. cbn [repeat alternating run_res]. rewrite rc6_square_step by auto. cbn [overflow_checks usize_bits debug_build].
    unfold uadd. rewrite (proj2 (N.ltb_ge _ _)) by lia. reflexivity.
  - destruct (N.lt_ge_cases (ck + 2) (2 ^ w)) as [Lt|Ge].
    + edestruct (IH (ck + 2) (negb e)) as (n & En); [rewrite N.add_mod, Ho by discriminate; reflexivity|lia|].
      exists (S n). cbn [repeat alternating run_res]. rewrite rc6_square_step by auto. cbn [overflow_checks usize_bits debug_build].
      rewrite uadd_small by auto. cbn [bind]. rewrite En. reflexivity.
    + exists 1%nat. cbn [repeat alternating run_res]. rewrite rc6_square_step by auto. cbn [overflow_checks usize_bits debug_build].
      unfold uadd. rewrite (proj2 (N.ltb_ge _ _)) by auto. reflexivity.
Qed.

(** A leader, and then the signal changes every two units. *)
Lemma rc6_square_start b rest : 4 <= usize_bits b ->
  run_states (rc6_dec b) (mkRc6Dec R6Idle 0 0 false 0 rc6_windows) ((true, 30000) :: (false, 2664) :: (true, 888) :: rest) =
  let* (d, ss) := run_states (rc6_dec b) (mkRc6Dec (R6HeaderData 3) 0 0 false 8 rc6_windows) rest in
  Val (d, Receiving :: Receiving :: Receiving :: ss).
Proof.
  intros Hw. assert (16 <= 2 ^ usize_bits b) by (change 16 with (2 ^ 4); apply N.pow_le_mono_r; lia).
  unfold run_states. cbn [run_res]. unfold drive at 1. cbn [fst snd d_event rc6_dec]. unfold rc6_event at 1.
  cbn [r6_state r6_data r6_headerdata r6_toggle r6_clock r6_spans].
  change (spans_get rc6_windows 30000) with (@None N). cbn [bind].
  unfold rc6_reset. unfold rc6_transition at 1. cbn [r6_state r6_data r6_headerdata r6_toggle r6_clock r6_spans bind rc6_to_state].
  unfold drive at 1. cbn [fst snd d_event rc6_dec]. unfold rc6_event at 1. cbn [r6_state r6_data r6_headerdata r6_toggle r6_clock r6_spans].
  change (spans_get rc6_windows 2664) with (Some 5). cbv beta iota. rewrite (uadd_small _ _ 5 1) by lia. cbn [bind].
  change (5 + 1) with 6. rewrite (uadd_small _ _ 0 6) by lia. cbn [bind].
  unfold rc6_transition at 1. cbn [r6_state r6_data r6_headerdata r6_toggle r6_clock r6_spans bind rc6_to_state].
  change (0 + 6) with 6.
  unfold drive at 1. cbn [fst snd d_event rc6_dec]. unfold rc6_event at 1. cbn [r6_state r6_data r6_headerdata r6_toggle r6_clock r6_spans].
  change (spans_get rc6_windows 888) with (Some 1). cbv beta iota. rewrite (uadd_small _ _ 1 1) by lia. cbn [bind].
  change (1 + 1) with 2. rewrite (uadd_small _ _ 6 2) by lia. cbn [bind].
  unfold rc6_transition at 1. cbn [r6_state r6_data r6_headerdata r6_toggle r6_clock r6_spans bind rc6_to_state].
  change (6 + 2) with 8.
  destruct (run_res (drive (rc6_dec b)) _ rest) as [[d ss]| |]; reflexivity.
Qed.

Theorem C38_rc6_refuted : forall w n, 4 <= w -> exists d0 d buf,
  p_build (rc6_protocol (release_build w) MU32) 1000000 = Val d0 /\
  run_states (rc6_dec (release_build w)) d0 (alternating true buf) = Val (d, repeat Receiving (length buf)) /\
  (n <= length buf)%nat.
Proof.
  intros w n Hw.
  edestruct (rc6_square_release w n) with (ck := 8) (e := false) as (d & E); auto.
  eexists. exists d, (30000 :: 2664 :: 888 :: repeat 888 n). split; [apply rc6_windows_build|].
  cbn [alternating negb]. rewrite rc6_square_start by auto.
  rewrite E. cbn [bind length]. rewrite repeat_length. split; [reflexivity|]. lia.
Qed.
Print Assumptions C38_rc6_refuted.

(** Full claim: there is a bound on the number of edges during which the state is
    [Receiving].  What holds: among edges that match the protocol's intervals at most
    26 can come after one unit (RC5); ... *)
Theorem C38_rc5_partial : forall b m freq d s noms h d' ss,
  timebase m freq -> 1125 <= freq -> freq < 2 ^ 32 -> 8 <= usize_bits b ->
  reached (rc5_protocol b m) freq d s ->
  Forall (fun x => snd x = 1 \/ snd x = 2) noms -> Forall2 (biphase_near freq 889 rc5_tol) noms h ->
  run_states (rc5_dec b) d h = Val (d', ss) -> (27 <= count (fun x => (snd x =? 1)%N) noms)%nat ->
  exists t, In t ss /\ t <> Receiving.
Proof.
  intros b m freq d s noms h d' ss Hm Hlo Hf Hu H Hn HF E Hc. apply rc5_reached in H. destruct H as (H & _ & Ep).
  rewrite pulse_spans_val in Ep by auto using rc5_ok. apply val_inj in Ep.
  apply not_receiving. intros F. set (w := spans_of m freq rc5_pulses) in *.
  assert (A : Forall (fun x => spans_get w (snd x) <> None) h /\ count (odd_units w) h = count (fun x => snd x =? 1) noms).
  { clear E Hc F. unfold count. induction HF as [|x y l1 l2 (_ & Hxy) HF IH]; [split; auto|]. inversion Hn as [|a l A1 A2]; subst.
    destruct (IH A2) as (I1 & I2). pose proof (rc5_ticks b m freq Hm Hf Hlo Hu (snd x) (snd y) A1 Hxy) as T. split.
    - constructor; auto. unfold w. rewrite T. discriminate.
    - cbn [filter]. unfold odd_units. unfold w at 1. rewrite T.
      destruct A1 as [-> | ->]; cbn [N.eqb Pos.eqb N.even N.sub Pos.pred_N]; cbn [length];
        change (N.even (1 - 1)) with true; change (N.even (2 - 1)) with false; cbn [length]; rewrite <- I2; reflexivity. }
  destruct A as (A1 & A2).
  pose proof (receiving_bound (rc5_dec b) (fun d => rc5_in_range d /\ r5_spans d = w) rc5_progress (odd_units w)
    (fun x => spans_get w (snd x) <> None) 26) as B.
  specialize (B (fun d x d' Q O E => rc5_progress_step b w d x d' ltac:(lia) Q O E) h d d' ss (conj H (eq_sym Ep)) A1 E F).
  assert (rc5_progress d <= 26)%nat.
  { unfold rc5_progress. unfold rc5_in_range in H. pose proof (N.mod_lt (r5_clock d) 2). destruct (r5_state d); lia. }
  lia.
Qed.
Print Assumptions C38_rc5_partial.

(** ... at most 43 rising edges after an odd number of units (RC6); ... *)
Theorem C38_rc6_partial : forall b m freq d s noms h d' ss,
  timebase m freq -> 4130 <= freq -> freq < 2 ^ 32 -> 8 <= usize_bits b ->
  reached (rc6_protocol b m) freq d s ->
  Forall (fun x => snd x = 1 \/ snd x = 2 \/ snd x = 3) noms -> Forall2 (biphase_near freq 444 rc6_tol) noms h ->
  run_states (rc6_dec b) d h = Val (d', ss) -> (44 <= count (fun x => fst x && N.odd (snd x)) noms)%nat ->
  exists t, In t ss /\ t <> Receiving.
Proof.
  intros b m freq d s noms h d' ss Hm Hlo Hf Hu H Hn HF E Hc. apply rc6_reached in H. destruct H as (H & _ & Ep).
  rewrite pulse_spans_val in Ep by auto using rc6_ok. apply val_inj in Ep.
  apply not_receiving. intros F. set (w := spans_of m freq rc6_pulses) in *.
  pose proof (usize8 b Hu) as HU.
  assert (A : Forall (fun x => spans_get w (snd x) <> None /\ (forall k, spans_get w (snd x) = Some k -> k + 1 < 2 ^ usize_bits b)) h /\
              count (fun x => fst x && odd_units w x) h = count (fun x => fst x && N.odd (snd x)) noms).
  { clear E Hc F. unfold count. induction HF as [|x y l1 l2 (Hx & Hxy) HF IH]; [split; auto|]. inversion Hn as [|a l A1 A2]; subst.
    destruct (IH A2) as (I1 & I2). pose proof (rc6_ticks b m freq Hm Hf ltac:(lia) Hu (snd x) (snd y) A1 Hxy) as T. fold w in T. split.
    - constructor; auto. rewrite T. split; [discriminate|]. intros k Ek. injection Ek as <-. lia.
    - cbn [filter]. rewrite Hx.
      assert (O : odd_units w y = N.odd (snd x)).
      { unfold odd_units. rewrite T. destruct A1 as [-> | [-> | ->]]; reflexivity. }
      rewrite O. destruct (fst x && N.odd (snd x)); cbn [length]; rewrite <- I2; reflexivity. }
  destruct A as (A1 & A2).
  pose proof (receiving_bound (rc6_dec b) (fun d => rc6_in_range d /\ r6_spans d = w) rc6_progress (fun x => fst x && odd_units w x)
    (fun x => spans_get w (snd x) <> None /\ (forall k, spans_get w (snd x) = Some k -> k + 1 < 2 ^ usize_bits b)) 43) as B.
  specialize (B (fun d x d' Q O E => rc6_progress_step b w d x d' ltac:(lia) Q O E) h d d' ss (conj H (eq_sym Ep)) A1 E F).
  assert (rc6_progress d <= 43)%nat.
  { unfold rc6_progress. unfold rc6_in_range in H. pose proof (N.mod_lt (r6_clock d) 2). destruct (r6_state d); lia. }
  lia.
Qed.
Print Assumptions C38_rc6_partial.

(** ... and a mark longer than every interval of the protocol ends the reception. *)
Theorem C38_pause_partial : forall b m freq gap, timebase m freq -> freq < 2 ^ 32 ->
  (forall d s, reached (rc5_protocol b m) freq d s -> longer freq 1778 10 gap ->
     exists d', d_event (rc5_dec b) d false gap = Val (d', Idle)) /\
  (forall d s, reached (rc6_protocol b m) freq d s -> longer freq 2664 12 gap ->
     exists d', d_event (rc6_dec b) d false gap = Val (d', Idle)).
Proof.
  intros b m freq gap Hm Hf. split; intros d s H Hl.
  - apply rc5_reached in H. destruct H as (_ & _ & Ep). rewrite pulse_spans_val in Ep by auto using rc5_ok. apply val_inj in Ep.
    cbn [d_event rc5_dec]. unfold rc5_event. rewrite <- Ep. rewrite (spans_get_long _ m freq 1778 10); auto using rc5_ok.
    + eexists. reflexivity.
    + unfold rc5_pulses. repeat (apply Forall_cons; [cbn [fst snd]; unfold nominal; lia|]). apply Forall_nil.
  - apply rc6_reached in H. destruct H as (_ & _ & Ep). rewrite pulse_spans_val in Ep by auto using rc6_ok. apply val_inj in Ep.
    cbn [d_event rc6_dec]. unfold rc6_event. rewrite <- Ep. rewrite (spans_get_long _ m freq 2664 12); auto using rc6_ok.
    + eexists. reflexivity.
    + unfold rc6_pulses. repeat (apply Forall_cons; [cbn [fst snd]; unfold nominal; lia|]). apply Forall_nil.
Qed.
Print Assumptions C38_pause_partial.

Definition c38_noms : list edge := map (fun i => (Nat.even i, 1)) (seq 0 30).
Example C38_example :
  Forall (fun x => snd x = 1 \/ snd x = 2) c38_noms /\ (27 <= count (fun x => (snd x =? 1)%N) c38_noms)%nat /\
  states_of (rc5_protocol (debug_build 32) MU32) 1000000 (map (fun x => (fst x, snd x * 889)) c38_noms) =
    Some (repeat Receiving 26 ++ [Done; Idle; Receiving; Receiving]) /\
  states_of (rc6_protocol (debug_build 32) MU32) 1000000 [(true, 50000); (false, 2700); (true, 900); (false, 6000); (true, 450)] =
    Some [Receiving; Receiving; Receiving; Idle; Receiving].
Proof.
  split; [apply Forall_forall; intros x Hx; apply in_map_iff in Hx; destruct Hx as (i & <- & _); auto|].
  split; [vm_compute; lia|]. split; vm_compute; reflexivity.
Qed.

(** ** C39 *)

Lemma half_dec m dt : 2 * dt < 2 ^ dur_bits m -> half_range m dt.
Proof. auto. Qed.

Theorem C39_nec : forall b m V freq C (into : nv_cmd V -> C) h,
  timebase m freq -> freq < 2 ^ 32 -> nec_timing_ok (nv_timing V) ->
  Forall (fun x => 2 * snd x < 2 ^ dur_bits m) h \/ overflow_checks b = false /\ (m = MU32 \/ m = MU64) ->
  exists os, outcomes_of (nec_protocol b m V) freq into h = Val os.
Proof.
  intros b m V freq C into h Hm Hf HT H. unfold outcomes_of. rewrite nec_new_val by auto. cbn [bind].
  assert (G : exists r' os, run_edges (D := nec_dec b m V) into
    (mkRecv (D := nec_dec b m V) (mkNecDec NInit 0 0 (spans_of m freq (nec_pulses (nv_timing V)))) 0) h = Val (r', os)).
  { destruct H as [H|(Hb & Hmm)].
    - apply (nec_never_panics b m (half_range m)); auto using half_zero; [|exact I].
      intros x y Hx Hy. eexists. apply dur_add_half; auto.
    - apply (nec_never_panics b m (fun _ => True)); auto; [|exact I|apply Forall_True].
      intros x y _ _. destruct b as [c w]. cbn in Hb. subst c. apply (dur_add_release w m x y Hmm). }
  destruct G as (r' & os & E). eexists. cbn [p_dec nec_protocol]. rewrite E. reflexivity.
Qed.
Print Assumptions C39_nec.

Theorem C39_sbp : forall b m freq C (into : sbp_command -> C) h, timebase m freq -> freq < 2 ^ 32 ->
  Forall (fun x => 2 * snd x < 2 ^ dur_bits m) h \/ overflow_checks b = false /\ (m = MU32 \/ m = MU64) ->
  exists os, outcomes_of (sbp_protocol b m) freq into h = Val os.
Proof.
  intros b m freq C into h Hm Hf H. unfold outcomes_of. rewrite sbp_new_val by auto. cbn [bind].
  assert (G : exists r' os, run_edges (D := sbp_dec b m) into
    (mkRecv (D := sbp_dec b m) (mkSbpDec SInit 0 0 0 (spans_of m freq sbp_pulses)) 0) h = Val (r', os)).
  { destruct H as [H|(Hb & Hmm)].
    - apply (sbp_never_panics b m (half_range m)); auto using half_zero; [|exact I].
      intros x y Hx Hy. eexists. apply dur_add_half; auto.
    - apply (sbp_never_panics b m (fun _ => True)); auto; [|exact I|apply Forall_True].
      intros x y _ _. destruct b as [c w]. cbn in Hb. subst c. apply (dur_add_release w m x y Hmm). }
  destruct G as (r' & os & E). eexists. cbn [p_dec sbp_protocol]. rewrite E. reflexivity.
Qed.
Print Assumptions C39_sbp.

Theorem C39_denon : forall b m freq C (into : denon_command -> C) h, timebase m freq -> freq < 2 ^ 32 ->
  Forall (fun x => 2 * snd x < 2 ^ dur_bits m) h \/ overflow_checks b = false /\ (m = MU32 \/ m = MU64) ->
  exists os, outcomes_of (denon_protocol b m) freq into h = Val os.
Proof.
  intros b m freq C into h Hm Hf H. unfold outcomes_of. rewrite denon_new_val by auto. cbn [bind].
  assert (G : exists r' os, run_edges (D := denon_dec b m) into
    (mkRecv (D := denon_dec b m) (mkDenonDec DIdle 0 0 (spans_of m freq denon_pulses)) 0) h = Val (r', os)).
  { destruct H as [H|(Hb & Hmm)].
    - apply (denon_never_panics b m (half_range m)); auto using half_zero; [|exact I].
      intros x y Hx Hy. eexists. apply dur_add_half; auto.
    - apply (denon_never_panics b m (fun _ => True)); auto; [|exact I|apply Forall_True].
      intros x y _ _. destruct b as [c w]. cbn in Hb. subst c. apply (dur_add_release w m x y Hmm). }
  destruct G as (r' & os & E). eexists. cbn [p_dec denon_protocol]. rewrite E. reflexivity.
Qed.
Print Assumptions C39_denon.

(** Without the bound on the durations a debug build does panic: the sum of a mark and
    the following space overflows. *)
Definition outcome_kind {A} (x : res A) : option bool :=
  match x with Val _ => Some true | Panic => Some false | Diverge => None end.
Example C39_example :
  let h := [(false, 2 ^ 31 - 1); (true, 2 ^ 31 - 1); (false, 3)] in
  Forall (fun x => 2 * snd x < 2 ^ dur_bits MU32) h /\
  outcome_kind (outcomes_of (nec_protocol (debug_build 32) MU32 NecStandard) 1000000 (fun c => c) h) = Some true /\
  outcome_kind (outcomes_of (nec_protocol (debug_build 32) MU32 NecStandard) 1000000 (fun c => c) [(false, 2 ^ 31); (true, 2 ^ 31)]) = Some false /\
  outcome_kind (outcomes_of (nec_protocol (release_build 32) MU32 NecStandard) 1000000 (fun c => c) [(false, 2 ^ 31); (true, 2 ^ 31)]) = Some true.
Proof. split; [repeat constructor|]. repeat split; vm_compute; reflexivity. Qed.

(** ** C40: refuted *)

(** In every debug build the clock of a decoder that is kept receiving overflows. *)
Lemma square_enough w : exists k, 2 ^ w <= 2 * N.of_nat k.
Proof. exists (N.to_nat (2 ^ w)). lia. Qed.

Theorem C40_refuted : forall w, 4 <= w ->
  (exists h, outcomes_of (rc5_protocol (debug_build w) MU32) 1000000 (fun c => c) h = Panic) /\
  (exists h, outcomes_of (rc6_protocol (debug_build w) MU32) 1000000 (fun c => c) h = Panic).
Proof.
  intros w Hw. destruct (square_enough w) as (k & Hk). split.
  - edestruct (rc5_square_debug w rc5_windows) with (k := k) (buf := 8192) (ck := 1) (e := true) as (n & E); [reflexivity|lia|reflexivity|lia|].
    exists ((true, 30000) :: (false, 889) :: alternating true (repeat 1778 n)). unfold outcomes_of, receiver_new.
    rewrite rc5_windows_build. cbn [bind]. rewrite (run_states_panic (D := rc5_dec (debug_build w))); [reflexivity|].
    rewrite rc5_square_start by (cbn [usize_bits debug_build]; lia). rewrite E. reflexivity.
  - edestruct (rc6_square_debug w) with (k := k) (ck := 8) (e := false) as (n & E); [lia|reflexivity|lia|].
    exists ((true, 30000) :: (false, 2664) :: (true, 888) :: alternating false (repeat 888 n)). unfold outcomes_of, receiver_new.
    rewrite rc6_windows_build. cbn [bind]. rewrite (run_states_panic (D := rc6_dec (debug_build w))); [reflexivity|].
    rewrite rc6_square_start by (cbn [usize_bits debug_build]; lia). rewrite E. reflexivity.
Qed.
Print Assumptions C40_refuted.

(** Full claim: [exists os, outcomes_of P freq into h = Val os] for every history.  It
    holds in release builds, and in debug builds for histories of up to 2^w / 8 edges. *)
Theorem C40_rc5_partial : forall b m freq C (into : rc5_command -> C) h, timebase m freq -> freq < 2 ^ 32 ->
  overflow_checks b = false \/ 8 * N.of_nat (length h) < 2 ^ usize_bits b ->
  exists os, outcomes_of (rc5_protocol b m) freq into h = Val os.
Proof.
  intros b m freq C into h Hm Hf Hb. unfold outcomes_of. rewrite rc5_new_val by auto. cbn [bind].
  destruct (run_clock (D := rc5_dec b) into (fun d => rc5_in_range d /\ length (r5_spans d) = 8%nat) r5_clock
    (overflow_checks b) (2 ^ usize_bits b)) with (h := h)
    (r := mkRecv (D := rc5_dec b) (mkRc5Dec R5Idle 0 0 (spans_of m freq rc5_pulses)) 0) as (r' & os & E).
  - intros d e dt (R1 & R2) Hd. destruct (rc5_event_total b d e dt R1 R2 Hd) as (d' & s & E & A1 & A2 & A3).
    exists d', s. cbn [d_event rc5_dec]. auto.
  - intros d (R1 & R2). cbn [d_reset rc5_dec]. unfold rc5_reset. cbn. auto.
  - cbn [rv_dec r5_spans]. split; [exact I|]. unfold spans_of. rewrite map_length. reflexivity.
  - cbn [rv_dec r5_clock]. rewrite N.add_0_l. exact Hb.
  - eexists. cbn [p_dec rc5_protocol]. rewrite E. reflexivity.
Qed.
Print Assumptions C40_rc5_partial.

Theorem C40_rc6_partial : forall b m freq C (into : rc6_command -> C) h, timebase m freq -> freq < 2 ^ 32 ->
  overflow_checks b = false \/ 8 * N.of_nat (length h) < 2 ^ usize_bits b ->
  exists os, outcomes_of (rc6_protocol b m) freq into h = Val os.
Proof.
  intros b m freq C into h Hm Hf Hb. unfold outcomes_of. rewrite rc6_new_val by auto. cbn [bind].
  destruct (run_clock (D := rc6_dec b) into (fun d => rc6_in_range d /\ length (r6_spans d) = 8%nat) r6_clock
    (overflow_checks b) (2 ^ usize_bits b)) with (h := h)
    (r := mkRecv (D := rc6_dec b) (mkRc6Dec R6Idle 0 0 false 0 (spans_of m freq rc6_pulses)) 0) as (r' & os & E).
  - intros d e dt (R1 & R2) Hd. destruct (rc6_event_total b d e dt R1 R2 Hd) as (d' & s & E & A1 & A2 & A3).
    exists d', s. cbn [d_event rc6_dec]. auto.
  - intros d (R1 & R2). cbn [d_reset rc6_dec]. unfold rc6_reset. cbn. auto.
  - cbn [rv_dec r6_spans]. split; [exact I|]. unfold spans_of. rewrite map_length. reflexivity.
  - cbn [rv_dec r6_clock]. rewrite N.add_0_l. exact Hb.
  - eexists. cbn [p_dec rc6_protocol]. rewrite E. reflexivity.
Qed.
Print Assumptions C40_rc6_partial.

(** A machine with 16-bit [usize]: any 8191 edges are fine.  With 8 bits the overflow is
    soon reached. *)
Example C40_example :
  8 * N.of_nat (length (rc5_word_edges 4242)) < 2 ^ usize_bits (debug_build 16) /\
  outcome_kind (outcomes_of (rc5_protocol (debug_build 16) MU32) 1000000 (fun c => c) (rc5_word_edges 4242)) = Some true /\
  outcome_kind (outcomes_of (rc5_protocol (debug_build 8) MU32) 1000000 (fun c => c) (alternating true (30000 :: 889 :: repeat 1778 126))) = Some true /\
  outcome_kind (outcomes_of (rc5_protocol (debug_build 8) MU32) 1000000 (fun c => c) (alternating true (30000 :: 889 :: repeat 1778 128))) = Some false.
Proof. repeat split; vm_compute; reflexivity. Qed.

(** ** C41 *)

Lemma run_profiles {D1 : decoder} (ev2 : dst D1 -> bool -> N -> res (dst D1 * state)) {C} (into : dcmd D1 -> C) h r r' os :
  (forall d e dt, refines (d_event D1 d e dt) (ev2 d e dt)) ->
  run_edges into r h = Val (r', os) ->
  outs (run_edges (D := mkDecoder (dst D1) (dcmd D1) ev2 (d_command D1) (d_reset D1)) into (mkRecv (D := mkDecoder (dst D1) (dcmd D1) ev2 (d_command D1) (d_reset D1)) (rv_dec r) (rv_prev r)) h) = Val os.
Proof.
  intros Hr E.
  destruct (run_sim (D1 := D1) (D2 := mkDecoder (dst D1) (dcmd D1) ev2 (d_command D1) (d_reset D1)) into into eq) with
    (h := h) (r1 := r) (r2 := mkRecv (D := mkDecoder (dst D1) (dcmd D1) ev2 (d_command D1) (d_reset D1)) (rv_dec r) (rv_prev r)) (r1' := r') (os := os)
    as (r2' & E2 & _); auto.
  - intros d1 d2 e dt d1' s <- E1. exists d1'. split; [apply (Hr _ _ _ _ E1)|]. destruct s; cbn; auto.
  - rewrite E2. reflexivity.
Qed.

Theorem C41_nec : forall w m V freq C (into : nv_cmd V -> C) h os,
  outcomes_of (nec_protocol (debug_build w) m V) freq into h = Val os ->
  outcomes_of (nec_protocol (release_build w) m V) freq into h = Val os.
Proof.
  intros w m V freq C into h os. unfold outcomes_of, receiver_new. cbn [p_build p_dec nec_protocol]. unfold nec_build.
  destruct (pulse_spans_new (debug_build w) m freq (nec_pulses (nv_timing V))) as [ss| |] eqn:E; cbn [bind]; try discriminate.
  rewrite (ref_spans w m freq _ _ E). cbn [bind].
  destruct (run_edges (D := nec_dec (debug_build w) m V) into _ h) as [[r' os']| |] eqn:E1; cbn [outs bind]; try discriminate.
  intros Eo. injection Eo as <-. apply (run_profiles (D1 := nec_dec (debug_build w) m V) (nec_event (release_build w) m)) in E1; auto.
  intros d e dt. apply ref_nec.
Qed.
Print Assumptions C41_nec.

Theorem C41_sbp : forall w m freq C (into : sbp_command -> C) h os,
  outcomes_of (sbp_protocol (debug_build w) m) freq into h = Val os ->
  outcomes_of (sbp_protocol (release_build w) m) freq into h = Val os.
Proof.
  intros w m freq C into h os. unfold outcomes_of, receiver_new. cbn [p_build p_dec sbp_protocol]. unfold sbp_build.
  destruct (pulse_spans_new (debug_build w) m freq sbp_pulses) as [ss| |] eqn:E; cbn [bind]; try discriminate.
  rewrite (ref_spans w m freq _ _ E). cbn [bind].
  destruct (run_edges (D := sbp_dec (debug_build w) m) into _ h) as [[r' os']| |] eqn:E1; cbn [outs bind]; try discriminate.
  intros Eo. injection Eo as <-. apply (run_profiles (D1 := sbp_dec (debug_build w) m) (sbp_event (release_build w) m)) in E1; auto.
  intros d e dt. apply ref_sbp.
Qed.
Print Assumptions C41_sbp.

Theorem C41_denon : forall w m freq C (into : denon_command -> C) h os,
  outcomes_of (denon_protocol (debug_build w) m) freq into h = Val os ->
  outcomes_of (denon_protocol (release_build w) m) freq into h = Val os.
Proof.
  intros w m freq C into h os. unfold outcomes_of, receiver_new. cbn [p_build p_dec denon_protocol]. unfold denon_build.
  destruct (pulse_spans_new (debug_build w) m freq denon_pulses) as [ss| |] eqn:E; cbn [bind]; try discriminate.
  rewrite (ref_spans w m freq _ _ E). cbn [bind].
  destruct (run_edges (D := denon_dec (debug_build w) m) into _ h) as [[r' os']| |] eqn:E1; cbn [outs bind]; try discriminate.
  intros Eo. injection Eo as <-. apply (run_profiles (D1 := denon_dec (debug_build w) m) (denon_event (release_build w) m)) in E1; auto.
  intros d e dt. apply ref_denon.
Qed.
Print Assumptions C41_denon.

Theorem C41_rc5 : forall w m freq C (into : rc5_command -> C) h os,
  outcomes_of (rc5_protocol (debug_build w) m) freq into h = Val os ->
  outcomes_of (rc5_protocol (release_build w) m) freq into h = Val os.
Proof.
  intros w m freq C into h os. unfold outcomes_of, receiver_new. cbn [p_build p_dec rc5_protocol]. unfold rc5_build.
  destruct (pulse_spans_new (debug_build w) m freq rc5_pulses) as [ss| |] eqn:E; cbn [bind]; try discriminate.
  rewrite (ref_spans w m freq _ _ E). cbn [bind].
  destruct (run_edges (D := rc5_dec (debug_build w)) into _ h) as [[r' os']| |] eqn:E1; cbn [outs bind]; try discriminate.
  intros Eo. injection Eo as <-. apply (run_profiles (D1 := rc5_dec (debug_build w)) (rc5_event (release_build w))) in E1; auto.
  intros d e dt. apply ref_rc5.
Qed.
Print Assumptions C41_rc5.

Theorem C41_rc6 : forall w m freq C (into : rc6_command -> C) h os,
  outcomes_of (rc6_protocol (debug_build w) m) freq into h = Val os ->
  outcomes_of (rc6_protocol (release_build w) m) freq into h = Val os.
Proof.
  intros w m freq C into h os. unfold outcomes_of, receiver_new. cbn [p_build p_dec rc6_protocol]. unfold rc6_build.
  destruct (pulse_spans_new (debug_build w) m freq rc6_pulses) as [ss| |] eqn:E; cbn [bind]; try discriminate.
  rewrite (ref_spans w m freq _ _ E). cbn [bind].
  destruct (run_edges (D := rc6_dec (debug_build w)) into _ h) as [[r' os']| |] eqn:E1; cbn [outs bind]; try discriminate.
  intros Eo. injection Eo as <-. apply (run_profiles (D1 := rc6_dec (debug_build w)) (rc6_event (release_build w))) in E1; auto.
  intros d e dt. apply ref_rc6.
Qed.
Print Assumptions C41_rc6.

Example C41_example :
  let h := rc6_word_edges true 4660 in
  match outcomes_of (rc6_protocol (debug_build 16) MU32) 1000000 (fun c => c) h with
  | Val os => last os (ROk None) = ROk (Some (mkRc6 18 52 true)) | _ => False end.
Proof. vm_compute. reflexivity. Qed.

(** ** C42: refuted for RC5, RC6 and Denon, proved for NEC and SBP *)

(** A frame is cut short by a long pause; no error is reported. *)
Theorem C42_refuted :
  (exists h x y, let P := rc5_protocol (debug_build 32) MU32 in
     states_of P 1000000 h = Some (repeat Receiving 7) /\ outcomes P 1000000 (h ++ [(x, 25000); (y, 25000)]) = Some (repeat (ROk None) 9)) /\
  (exists h x y, let P := rc6_protocol (debug_build 32) MU32 in
     states_of P 1000000 h = Some (repeat Receiving 9) /\ outcomes P 1000000 (h ++ [(x, 25000); (y, 25000)]) = Some (repeat (ROk None) 11)) /\
  (exists h, let P := denon_protocol (debug_build 32) MU32 in
     states_of P 1000000 (h ++ [(false, 25000); (true, 25000)]) = Some ([Idle; Idle] ++ repeat Receiving 6 ++ [Idle]) /\
     outcomes P 1000000 (h ++ [(false, 25000); (true, 25000)]) = Some (repeat (ROk None) 9)).
Proof.
  split; [|split].
  - exists (firstn 7 (rc5_word_edges 4242)), true, false. cbv zeta. split; vm_compute; reflexivity.
  - exists (firstn 9 (rc6_word_edges true 4660)), false, true. cbv zeta. split; vm_compute; reflexivity.
  - exists ([(true, 30000)] ++ pair_edges [(3400, 1600); (420, 420); (420, 1260)]). cbv zeta. split; vm_compute; reflexivity.
Qed.
Print Assumptions C42_refuted.

(** In fact these three never report an error, whatever they receive. *)
Theorem C42_silent_refuted : forall b m freq h,
  (forall C (into : rc5_command -> C) os, outcomes_of (rc5_protocol b m) freq into h = Val os -> forall x, ~ In (RErr x) os) /\
  (forall C (into : rc6_command -> C) os, outcomes_of (rc6_protocol b m) freq into h = Val os -> forall x, ~ In (RErr x) os) /\
  (forall C (into : denon_command -> C) os, outcomes_of (denon_protocol b m) freq into h = Val os -> forall x, ~ In (RErr x) os).
Proof.
  intros b m freq h.
  assert (G : forall C (os : list (outcome C)), Forall (fun o => exists c, o = ROk c) os -> forall x, ~ In (RErr x) os).
  { intros C os H x Hx. rewrite Forall_forall in H. destruct (H _ Hx). discriminate. }
  repeat split; intros C into os E; apply G; unfold outcomes_of, receiver_new in E;
    cbn [p_build p_dec rc5_protocol rc6_protocol denon_protocol] in E; unfold rc5_build, rc6_build, denon_build in E;
    destruct (pulse_spans_new _ _ _ _) as [ss| |]; cbn [bind] in E; try discriminate;
    match type of E with outs ?X = _ => destruct X as [[r' os']| |] eqn:E1; cbn [outs bind] in E; try discriminate end;
    injection E as <-.
  - eapply (run_no_error (D := rc5_dec b) into rc5_sound_state); [| | |exact E1]; [|intros d _; exact I|exact I].
    intros d e dt d' s Q Ed. apply (rc5_event_no_error b d e dt d' s Q Ed).
  - eapply (run_no_error (D := rc6_dec b) into rc6_sound_state); [| | |exact E1]; [|intros d _; exact I|exact I].
    intros d e dt d' s Q Ed. apply (rc6_event_no_error b d e dt d' s Q Ed).
  - eapply (run_no_error (D := denon_dec b m) into (fun _ => True)); [| | |exact E1]; [|auto|exact I].
    intros d e dt d' s _ Ed. split; auto. cbn [d_event denon_dec] in Ed. unfold denon_event in Ed. destruct e.
    + destruct (dur_add _ _ _ _); cbn [bind] in Ed; try discriminate.
      destruct (denon_transition _ _ _ _) as [[bf st]| |]; cbn [bind] in Ed; try discriminate.
      injection Ed as <- <-. destruct st; discriminate.
    + injection Ed as <- <-. destruct (dn_state d); discriminate.
Qed.
Print Assumptions C42_silent_refuted.

(** Full claim: for every protocol, if a decoder is receiving and the next period
    matches no pulse of a frame, an error is reported.  It holds for the NEC family
    (zeros 1120, ones 2250 microseconds) ... *)
Theorem C42_nec_partial : forall b m V freq C (into : nv_cmd V -> C) d pv mk sp,
  timebase m freq -> freq < 2 ^ 32 -> nec_timing_ok (nv_timing V) ->
  reached (nec_protocol b m V) freq d Receiving ->
  2 * mk < 2 ^ dur_bits m -> 2 * sp < 2 ^ dur_bits m ->
  ~ near freq 1120 26 (mk + sp) -> ~ near freq 2250 13 (mk + sp) ->
  exists e, outs (run_edges (D := nec_dec b m V) into (mkRecv (D := nec_dec b m V) d pv) [(false, mk); (true, sp)]) =
    Val [ROk None; RErr e].
Proof.
  intros b m V freq C into d pv mk sp Hm Hf HT H Hmk Hsp N0 N1. apply nec_reached in H. destruct H as (_ & Hs & Ep).
  rewrite pulse_spans_val in Ep by auto using nec_table_ok. apply val_inj in Ep.
  destruct d as [s buf sv ss]. cbn [ns_state ns_spans] in *. subst ss. destruct s as [|i| | |]; try discriminate.
  cbn [run_edges]. unfold event_edge at 1. cbn [d_event nec_dec rv_dec rv_prev].
  unfold nec_event at 1. cbn [ns_state ns_bitbuf ns_dt_save ns_spans nec_to_state bind].
  unfold event_edge. cbn [d_event nec_dec rv_dec rv_prev]. unfold nec_event. cbn [ns_state ns_bitbuf ns_dt_save ns_spans].
  rewrite dur_add_half by auto. cbn [bind].
  pose proof (nec_class_inv m freq V Hm Hf HT (sp + mk)) as Hc. unfold nec_class in Hc.
  rewrite N.add_comm in Hc. rewrite N.add_comm.
  assert (T : data_high (nv_timing V) + data_zero_low (nv_timing V) = 1120 /\ data_high (nv_timing V) + data_one_low (nv_timing V) = 2250).
  { destruct HT as [-> | ->]; split; reflexivity. }
  destruct T as (T1 & T2). rewrite T1, T2 in Hc.
  destruct (match spans_get _ _ with Some i0 => nec_pw_from i0 | None => PInvalid end); try contradiction;
    exists EData; reflexivity.
Qed.
Print Assumptions C42_nec_partial.

(** ... and SBP (1000 and 2000 microseconds, pause of 5000). *)
Theorem C42_sbp_partial : forall b m freq C (into : sbp_command -> C) d pv mk sp,
  timebase m freq -> freq < 2 ^ 32 -> reached (sbp_protocol b m) freq d Receiving ->
  2 * mk < 2 ^ dur_bits m -> 2 * sp < 2 ^ dur_bits m ->
  ~ near freq 1000 11 (mk + sp) -> ~ near freq 2000 11 (mk + sp) -> ~ near freq 5000 6 (mk + sp) ->
  exists e, outs (run_edges (D := sbp_dec b m) into (mkRecv (D := sbp_dec b m) d pv) [(false, mk); (true, sp)]) =
    Val [ROk None; RErr e].
Proof.
  intros b m freq C into d pv mk sp Hm Hf H Hmk Hsp N0 N1 N2. apply sbp_reached in H. destruct H as (_ & Hs & Ep).
  rewrite pulse_spans_val in Ep by auto using sbp_ok. apply val_inj in Ep.
  destruct d as [s a c sv ss]. cbn [sb_state sb_spans] in *. subst ss.
  cbn [run_edges]. unfold event_edge at 1. cbn [d_event sbp_dec rv_dec rv_prev].
  unfold sbp_event at 1. cbn [sb_state sb_address sb_command sb_since_rising sb_spans bind]. rewrite <- Hs. cbn [bind].
  unfold event_edge. cbn [d_event sbp_dec rv_dec rv_prev]. unfold sbp_event. cbn [sb_state sb_address sb_command sb_since_rising sb_spans].
  rewrite dur_add_half by auto. cbn [bind].
  pose proof (sbp_class_inv m freq Hm Hf (mk + sp)) as Hc. unfold sbp_class in Hc.
  destruct (match spans_get _ _ with Some i0 => sbp_pw_from i0 | None => SbNot end); try contradiction;
    destruct s; try discriminate; eexists; reflexivity.
Qed.
Print Assumptions C42_sbp_partial.

Example C42_example :
  states_of (nec_protocol (debug_build 32) MU32 NecStandard) 1000000 (firstn 12 (nec_word_edges 99)) = Some ([Idle; Idle] ++ repeat Receiving 10) /\
  ~ near 1000000 1120 26 (600 + 4000) /\ ~ near 1000000 2250 13 (600 + 4000) /\
  outcomes (nec_protocol (debug_build 32) MU32 NecStandard) 1000000 (firstn 13 (nec_word_edges 99) ++ [(false, 600); (true, 4000)]) =
    Some (repeat (ROk None) 14 ++ [RErr EData]).
Proof.
  split; [vm_compute; reflexivity|]. split; [unfold near; vm_compute; intros (A & _); apply A; reflexivity|].
  split; [unfold near; vm_compute; intros (A & _); apply A; reflexivity|]. vm_compute. reflexivity.
Qed.

(** ** C43: refuted for NEC, proved for the others *)

(** A command is received; a repeat code that follows is reported with that command's
    address, while a new receiver reports it with address 0. *)
Theorem C43_nec_refuted : exists h1 h2,
  let P := nec_protocol (debug_build 32) MU32 NecStandard in
  outcome_at P 1000000 h1 66 = Some (ROk (Some (mkNec 7 9 false))) /\ length h1 = 67%nat /\
  outcomes P 1000000 h2 = Some [ROk None; ROk None; ROk None; ROk (Some (mkNec 0 0 true))] /\
  option_map (skipn 67) (outcomes P 1000000 (h1 ++ h2)) = Some [ROk None; ROk None; ROk None; ROk (Some (mkNec 7 9 true))].
Proof.
  exists (nec_word_edges (bytes4 7 (compl8 7) 9 (compl8 9))), [(false, 560); (true, 40000); (false, 9000); (true, 2250)].
  cbv zeta. repeat split; vm_compute; reflexivity.
Qed.
Print Assumptions C43_nec_refuted.

(** Full claim: [r'] is a receiver that has just reported a command or an error
    ([o <> ROk None]); [outs (run_edges into r' h2) = outs (run_edges into r0 h2)] for every [h2].
    It holds for SBP, Denon and RC5 as it stands, ... *)
Lemma like_new (P : protocol) freq {C} (into : dcmd (p_dec P) -> C) r0 h1 r os dt e r' o :
  (forall d0 d s, p_build P freq = Val d0 -> reached P freq d s -> d_reset (p_dec P) d = d0) ->
  receiver_new P freq = Val r0 -> run_edges into r0 h1 = Val (r, os) ->
  event_edge into r dt e = Val (r', o) -> o <> ROk None ->
  forall h2, outs (run_edges into r' h2) = outs (run_edges into r0 h2).
Proof.
  intros Hd E0 E1 E2 Ho h2. destruct (report_resets P freq into _ _ _ _ _ _ _ _ E0 E1 E2 Ho) as (d & s & R & Er).
  unfold receiver_new in E0. destruct (p_build P freq) as [d0| |] eqn:Eb; cbn [bind] in E0; try discriminate.
  injection E0 as <-. destruct r' as [d' p']. cbn [rv_dec] in Er. rewrite Er, (Hd _ _ _ eq_refl R).
  apply run_edges_outs_prev.
Qed.

Theorem C43_partial : forall b m freq,
  (forall C (into : rc5_command -> C) (r0 : receiver (rc5_dec b)) h1 r os dt e r' o,
     receiver_new (rc5_protocol b m) freq = Val r0 -> run_edges (D := rc5_dec b) into r0 h1 = Val (r, os) ->
     event_edge (D := rc5_dec b) into r dt e = Val (r', o) -> o <> ROk None ->
     forall h2, outs (run_edges (D := rc5_dec b) into r' h2) = outs (run_edges (D := rc5_dec b) into r0 h2)) /\
  (forall C (into : sbp_command -> C) (r0 : receiver (sbp_dec b m)) h1 r os dt e r' o,
     receiver_new (sbp_protocol b m) freq = Val r0 -> run_edges (D := sbp_dec b m) into r0 h1 = Val (r, os) ->
     event_edge (D := sbp_dec b m) into r dt e = Val (r', o) -> o <> ROk None ->
     forall h2, outs (run_edges (D := sbp_dec b m) into r' h2) = outs (run_edges (D := sbp_dec b m) into r0 h2)) /\
  (forall C (into : denon_command -> C) (r0 : receiver (denon_dec b m)) h1 r os dt e r' o,
     receiver_new (denon_protocol b m) freq = Val r0 -> run_edges (D := denon_dec b m) into r0 h1 = Val (r, os) ->
     event_edge (D := denon_dec b m) into r dt e = Val (r', o) -> o <> ROk None ->
     forall h2, outs (run_edges (D := denon_dec b m) into r' h2) = outs (run_edges (D := denon_dec b m) into r0 h2)).
Proof.
  intros b m freq. repeat split; intros C into r0 h1 r os dt e r' o.
  - apply (like_new (rc5_protocol b m) freq into). intros d0 d s E R. apply rc5_reached in R. destruct R as (_ & _ & Ep).
    cbn [p_build rc5_protocol] in E. unfold rc5_build in E. rewrite Ep in E. cbn [bind] in E. apply val_inj in E. exact E.
  - apply (like_new (sbp_protocol b m) freq into). intros d0 d s E R. apply sbp_reached in R. destruct R as (_ & _ & Ep).
    cbn [p_build sbp_protocol] in E. unfold sbp_build in E. rewrite Ep in E. cbn [bind] in E. apply val_inj in E. exact E.
  - apply (like_new (denon_protocol b m) freq into). intros d0 d s E R. apply denon_reached in R. destruct R as (_ & _ & Ep).
    cbn [p_build denon_protocol] in E. unfold denon_build in E. rewrite Ep in E. cbn [bind] in E. apply val_inj in E. exact E.
Qed.
Print Assumptions C43_partial.

Lemma rc6_event_done b d e dt d' s : rc6_event b d e dt = Val (d', s) -> s = rc6_to_state (r6_state d').
Proof.
  unfold rc6_event. intros E.
  repeat (match type of E with bind ?x _ = _ => destruct x as [?| |]; cbn [bind] in E; try discriminate end).
  injection E as <- <-. reflexivity.
Qed.

(** ... for RC6 (whose toggle bit is left over, but never read), ... *)
Theorem C43_rc6_partial : forall b m freq C (into : rc6_command -> C) (r0 : receiver (rc6_dec b)) h1 r os dt e r' o,
  receiver_new (rc6_protocol b m) freq = Val r0 -> run_edges (D := rc6_dec b) into r0 h1 = Val (r, os) ->
  event_edge (D := rc6_dec b) into r dt e = Val (r', o) -> o <> ROk None ->
  forall h2 os2, outs (run_edges (D := rc6_dec b) into r' h2) = Val os2 <-> outs (run_edges (D := rc6_dec b) into r0 h2) = Val os2.
Proof.
  intros b m freq C into r0 h1 r os dt e r' o E0 E1 E2 Ho h2 os2.
  destruct (report_resets (rc6_protocol b m) freq into _ _ _ _ _ _ _ _ E0 E1 E2 Ho) as (d & s & R & Er).
  apply rc6_reached in R. destruct R as (_ & _ & Ep).
  unfold receiver_new in E0. cbn [p_build rc6_protocol] in E0. unfold rc6_build in E0. rewrite Ep in E0. cbn [bind] in E0.
  apply val_inj in E0. cbn [d_reset p_dec rc6_protocol rc6_dec] in Er.
  assert (S1 : rc6_same (rv_dec r') (rv_dec r0)).
  { rewrite Er, <- E0. unfold rc6_reset, rc6_same. cbn [rv_dec r6_state r6_data r6_headerdata r6_toggle r6_clock r6_spans]. repeat split. }
  assert (S2 : rc6_same (rv_dec r0) (rv_dec r')).
  { rewrite Er, <- E0. unfold rc6_reset, rc6_same. cbn [rv_dec r6_state r6_data r6_headerdata r6_toggle r6_clock r6_spans]. repeat split. }
  assert (G : forall ra rb : receiver (rc6_dec b), rc6_same (rv_dec ra) (rv_dec rb) ->
    outs (run_edges (D := rc6_dec b) into ra h2) = Val os2 -> outs (run_edges (D := rc6_dec b) into rb h2) = Val os2).
  { intros ra rb S E. destruct (run_edges (D := rc6_dec b) into ra h2) as [[ra' osa]| |] eqn:Ea; cbn [outs bind] in E; try discriminate.
    injection E as <-.
    destruct (run_sim (D1 := rc6_dec b) (D2 := rc6_dec b) into into rc6_same) with (h := h2) (r1 := ra) (r2 := rb) (r1' := ra') (os := osa)
      as (rb' & Eb & _); auto; [|rewrite Eb; reflexivity].
    intros d1 d2 ed t d1' s1 HS Ev. pose proof (rc6_event_done _ _ _ _ _ _ Ev) as Hst.
    destruct (rc6_event_same _ _ _ _ _ _ _ HS Ev) as (d2' & Ev2 & HS2).
    assert (HR : rc6_same (rc6_reset d1') (rc6_reset d2')).
    { destruct HS2 as (_ & _ & _ & _ & A & _). unfold rc6_reset, rc6_same. cbn [r6_state r6_data r6_headerdata r6_toggle r6_clock r6_spans]. repeat split. exact A. }
    exists d2'. split; [exact Ev2|]. destruct s1; cbn [d_reset d_command rc6_dec]; auto. split; auto.
    destruct HS2 as (A1 & A2 & A3 & A4 & A5 & A6). destruct (r6_state d1'); try discriminate.
    unfold rc6_command_of. rewrite A2, A6. reflexivity. }
  split; apply G; auto.
Qed.
Print Assumptions C43_rc6_partial.

(** ... and for NEC except for the contents of repeat codes: wherever the outcomes differ, both are
    what the variant makes of some word received as a repeat code. *)
Theorem C43_nec_partial : forall b m V freq C (into : nv_cmd V -> C) (r0 : receiver (nec_dec b m V)) h1 r os dt e r' o,
  receiver_new (nec_protocol b m V) freq = Val r0 -> run_edges (D := nec_dec b m V) into r0 h1 = Val (r, os) ->
  event_edge (D := nec_dec b m V) into r dt e = Val (r', o) -> o <> ROk None ->
  forall h2 os2, outs (run_edges (D := nec_dec b m V) into r' h2) = Val os2 ->
  exists os0, outs (run_edges (D := nec_dec b m V) into r0 h2) = Val os0 /\
    Forall2 (fun o2 o0 => o2 = o0 \/ exists w2 w0,
      o2 = ROk (option_map into (nv_unpack V w2 true)) /\ o0 = ROk (option_map into (nv_unpack V w0 true))) os2 os0.
Proof.
  intros b m V freq C into r0 h1 r os dt e r' o E0 E1 E2 Ho h2 os2 E3.
  destruct (report_resets (nec_protocol b m V) freq into _ _ _ _ _ _ _ _ E0 E1 E2 Ho) as (d & s & R & Er).
  apply nec_reached in R. destruct R as (_ & _ & Ep).
  unfold receiver_new in E0. cbn [p_build nec_protocol] in E0. unfold nec_build in E0. rewrite Ep in E0. cbn [bind] in E0.
  apply val_inj in E0. cbn [d_reset p_dec nec_protocol nec_dec] in Er.
  destruct (run_edges (D := nec_dec b m V) into r' h2) as [[ra osa]| |] eqn:Ea; cbn [outs bind] in E3; try discriminate.
  injection E3 as <-.
  destruct (nec_run_same b m V into h2 r' r0 ra osa) as (rb & os0 & Eb & F); auto.
  - rewrite Er, <- E0. unfold nec_reset, nec_same. cbn [rv_dec ns_state ns_bitbuf ns_dt_save ns_spans]. repeat split.
  - exists os0. rewrite Eb. split; [reflexivity|exact F].
Qed.
Print Assumptions C43_nec_partial.

Example C43_example :
  let P := rc6_protocol (debug_build 32) MU32 in
  let h1 := rc6_word_edges true 4660 in let h2 := rc6_word_edges false 515 in
  option_map (fun os => last os (ROk None)) (outcomes P 1000000 h1) = Some (ROk (Some (mkRc6 18 52 true))) /\
  option_map (fun os => last os (ROk None)) (outcomes P 1000000 (h1 ++ h2)) = Some (ROk (Some (mkRc6 2 3 false))) /\
  option_map (skipn (length h1)) (outcomes P 1000000 (h1 ++ h2)) = outcomes P 1000000 h2.
Proof. cbv zeta. split; [vm_compute; reflexivity|]. split; vm_compute; reflexivity. Qed.
