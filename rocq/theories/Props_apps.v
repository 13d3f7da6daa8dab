(** * C70-C74: the example applications *)
From Coq Require Import NArith ZArith List Bool Lia ZifyBool ZifyNat ZifyN.
From Verif Require Import Machine Time Decoder Nec Rc5 Receiver Spec Spec_sender Spec_receiver Spec_state Run_facts State_facts
  Time_facts Nec_facts Rc5_facts Receiver_facts Example_facts Roundtrip_facts Remote Sender Sender_facts Props_state Props_decode Props_receiver
  Air_facts Poll_facts Props_poll Apps Spec_apps Apps_facts AppSender_facts.
Import ListNotations.
Open Scope N_scope.

(** ** C70: the value change dump reader *)

(** Ticks per second of a time scale. *)
Definition dump_rate (scale : N) (unit : vcd_unit) : option N :=
  match unit with
  | UMs => if scale =? 0 then None else Some (1000 / scale)
  | UUs => if scale =? 0 then None else Some (1000000 / scale)
  | UOther => None
  end.

(** The intervals between the changes of a wire in a dump (a time stamp that goes back
    counts as no time). *)
Definition recorded (wire : N) (items : list (option vcd_command)) : list edge :=
  intervals difference 0 (wire_changes wire 0 items).

(** What is printed is what a Samsung receiver reports for the changes of the wire, each
    with the time since the one before it; nothing else in the dump matters. *)
Theorem C70_lines :
  forall b scale unit F wire items, dump_rate scale unit = Some F ->
  vcd_main b scale unit wire items =
    let* os := outcomes_of (nec_protocol b MU64 NecSamsung) F (fun c : samsung_command => c) (recorded wire items) in
    Val (flat_map line os, readable items).
Proof.
  intros b scale unit F wire items HF.
  assert (Es : vcd_samplerate scale unit = Val F).
  { unfold dump_rate in HF. unfold vcd_samplerate. destruct unit; try discriminate; destruct (scale =? 0); congruence. }
  unfold vcd_main, outcomes_of. rewrite Es. cbn [bind].
  destruct (receiver_new (nec_protocol b MU64 NecSamsung) F) as [r| |] eqn:Er; cbn [bind]; auto.
  rewrite vcd_loop_run.
  destruct (C45_wrap_partial (nec_dec b MU64 NecSamsung) samsung_command (fun c : samsung_command => c) r (wire_changes wire 0 items)) as (_ & W).
  specialize (W MU64 (or_intror eq_refl)).
  etransitivity; [exact (f_equal (fun x => let* os := x in Val (flat_map line os, readable items)) W)|]. unfold recorded.
  assert (Ep : @rv_prev (nec_dec b MU64 NecSamsung) r = 0).
  { unfold receiver_new in Er. destruct (p_build _ F); cbn [bind] in Er; try discriminate. injection Er as <-. reflexivity. }
  rewrite Ep. reflexivity.
Qed.
Print Assumptions C70_lines.

(** Whatever the file holds, the program comes to its end, unless the time scale is not
    given in (some) milliseconds or microseconds; time stamps below [2^63]. *)
Theorem C70_ends :
  forall b scale unit wire items,
  Forall (fun x => match x with Some (Timestamp t) => t < 2 ^ 63 | _ => True end) items ->
  (dump_rate scale unit <> None -> exists ls, vcd_main b scale unit wire items = Val (ls, readable items)) /\
  (dump_rate scale unit = None -> vcd_main b scale unit wire items = Panic).
Proof.
  intros b scale unit wire items Ht. split.
  - destruct (dump_rate scale unit) as [F|] eqn:HF; [|congruence]. intros _. rewrite (C70_lines b scale unit F) by exact HF.
    destruct (C39_nec b MU64 NecSamsung F _ (fun c : samsung_command => c) (recorded wire items)) as (os & E).
    + exact I.
    + assert (F <= 1000000); [|change (2 ^ 32) with 4294967296; lia].
      unfold dump_rate in HF. destruct unit; try discriminate; destruct (scale =? 0) eqn:E0; try discriminate; injection HF as <-;
        apply N.div_le_upper_bound; nia.
    + right. reflexivity.
    + left. unfold recorded. assert (G : forall now prev, now < 2 ^ 63 ->
        Forall (fun x : edge => 2 * snd x < 2 ^ dur_bits MU64) (intervals difference prev (wire_changes wire now items))).
      { cbn [dur_bits]. induction Ht as [|[[i v|t|]|] items Hx Hs IH]; intros now prev Hn; cbn [wire_changes intervals]; auto.
        destruct (i =? wire); auto. cbn [intervals]. constructor; [|auto]. cbn [snd]. unfold difference.
        change (2 ^ 64) with (2 * 2 ^ 63). lia. }
      apply G. reflexivity.
    + exists (flat_map line os). exact (f_equal (fun x => let* os := x in Val (flat_map line os, readable items)) E).
  - intros HF. unfold vcd_main. assert (Es : vcd_samplerate scale unit = Panic); [|rewrite Es; reflexivity].
    unfold dump_rate in HF. unfold vcd_samplerate. destruct unit; auto; destruct (scale =? 0); auto; discriminate.
Qed.
Print Assumptions C70_ends.

(** A Samsung transmission recorded anywhere in the dump is printed, after the lines for
    what came before it. *)
Theorem C70_samsung :
  forall b scale unit F wire items a c hist gap ps rest ls ok,
  dump_rate scale unit = Some F -> 893 <= F -> a < 2 ^ 8 -> c < 2 ^ 8 ->
  nec_frame F 9000 (bytes4 a a c (compl8 c)) ps -> longer F 9000 7 gap ->
  recorded wire items = hist ++ ((true, gap) :: pair_edges ps) ++ rest ->
  short (hist ++ (true, gap) :: pair_edges ps) ->
  vcd_main b scale unit wire items = Val (ls, ok) ->
  exists before noise after os,
    ls = before ++ noise ++ PrintCmd (mkSamsung a c false) :: after /\
    outcomes_of (nec_protocol b MU64 NecSamsung) F (fun c : samsung_command => c) hist = Val os /\ before = flat_map line os /\
    (noise = [] \/ noise = [PrintError EData]).
Proof.
  intros b scale unit F wire items a c hist gap ps rest ls ok HF HF1 Ha Hc Hfr Hg Er Hs Em.
  rewrite (C70_lines b scale unit F) in Em by exact HF.
  assert (HF2 : F < 2 ^ 32).
  { assert (F <= 1000000); [|change (2 ^ 32) with 4294967296; lia].
    unfold dump_rate in HF. destruct unit; try discriminate; destruct (scale =? 0) eqn:E0; try discriminate; injection HF as <-;
      apply N.div_le_upper_bound; nia. }
  destruct (C19_samsung_frame b MU64 F a c hist gap ps samsung_command (fun c : samsung_command => c)) as (r0 & r & os & o & E0 & E1 & L & Ho); auto; [exact I|].
  assert (Eh : outcomes_of (nec_protocol b MU64 NecSamsung) F (fun c : samsung_command => c) hist = Val os).
  { unfold outcomes_of. rewrite E0. cbn [bind p_dec nec_protocol].
    pose proof E1 as E2. rewrite run_edges_app in E2.
    destruct (run_edges (D := nec_dec b MU64 NecSamsung) (fun c : samsung_command => c) r0 hist) as [[r1 os1]| |] eqn:Eh; cbn [bind] in E2; try discriminate.
    destruct (run_edges (D := nec_dec b MU64 NecSamsung) (fun c : samsung_command => c) r1 ((true, gap) :: pair_edges ps)) as [[r2 os2]| |]; cbn [bind] in E2; try discriminate.
    assert (Q : os1 ++ os2 = os ++ o :: repeat (ROk None) 65 ++ [ROk (Some (mkSamsung a c false))]).
    { injection E2 as _ E2. exact E2. }
    apply run_edges_length in Eh.
    assert (Q1 : os1 = os).
    { apply (f_equal (firstn (length hist))) in Q. rewrite <- Eh in Q at 1. rewrite <- L in Q.
      rewrite !firstn_app, !Nat.sub_diag, !firstn_all in Q. cbn [firstn] in Q. rewrite !app_nil_r in Q. exact Q. }
    rewrite Q1. reflexivity. }
  unfold outcomes_of in Em. rewrite E0, Er, app_assoc in Em. cbn [bind p_dec nec_protocol] in Em.
  rewrite run_edges_app, E1 in Em. cbn [bind] in Em.
  destruct (run_edges (D := nec_dec b MU64 NecSamsung) (fun c : samsung_command => c) r rest) as [[r2 os2]| |]; cbn [bind outs] in Em; try discriminate.
  injection Em as <- _.
  exists (flat_map line os), (line o), (flat_map line os2), os. split; [|split; [exact Eh|split; [reflexivity|destruct Ho as [-> | ->]; auto]]].
  rewrite <- app_assoc. etransitivity; [apply flat_map_app|]. reflexivity.
Qed.
Print Assumptions C70_samsung.

(** A dump in steps of 25 microseconds with a second wire and comments in between. *)
Fixpoint dump_of (t : N) (evs : list edge) : list (option vcd_command) :=
  match evs with
  | [] => []
  | (l, d) :: r => Some (Timestamp (t + d)) :: Some (ChangeScalar 7 (if l then V0 else V1)) ::
                   Some (ChangeScalar 3 (if l then V1 else V0)) :: Some OtherCommand :: dump_of (t + d) r
  end.
Definition vcd_lines (b : build) (scale : N) (unit : vcd_unit) (wire : N) (items : list (option vcd_command)) :=
  match vcd_main b scale unit wire items with Val x => Some x | _ => None end.
Example C70_example :
  let ps := (181, 180) :: map (fun bit : bool => if bit then (23, 66) else (22, 23)) (bits_lsb 32 (bytes4 7 7 152 (compl8 152))) in
  let evs := [(true, 40); (false, 9)] ++ ((true, 900) :: pair_edges ps) ++ [(true, 2000)] in
  dump_rate 25 UUs = Some 40000 /\ recorded 3 (dump_of 0 evs) = evs /\
  nec_frame 40000 9000 (bytes4 7 7 152 (compl8 152)) ps /\ longer 40000 9000 7 900 /\
  vcd_lines (debug_build 64) 25 UUs 3 (dump_of 0 evs) = Some ([PrintCmd (mkSamsung 7 152 false)], true) /\
  vcd_lines (debug_build 64) 25 UUs 3 (dump_of 0 evs ++ None :: dump_of 0 evs) = Some ([PrintCmd (mkSamsung 7 152 false)], false) /\
  vcd_lines (debug_build 64) 10 UOther 3 (dump_of 0 evs) = None.
Proof.
  intros ps evs. split; [reflexivity|]. split; [vm_compute; reflexivity|]. split; [apply nec_frameb_ok; vm_compute; reflexivity|].
  split; [vm_compute; reflexivity|]. repeat split; vm_compute; reflexivity.
Qed.

(** ** C71: the periodic sender *)

(** The frame of "next" (address 20, command 32, toggle clear) at 20 kHz: 17 ticks are 850
    microseconds. *)
Definition next_frame : list N := rc5_buffer 17 (2 ^ 13 + 2 ^ 12 + 2 ^ 6 * 20 + 32).

(** Two seconds after start-up, and every two seconds from then on, the pin carries the
    RC5 waveform of "next", followed by the alternation of the unused part of the buffer,
    then it is off.  In the first two seconds there is only such an alternation. *)
Theorem C71_waveform :
  forall b n, exists s,
  tim2s b (S n * N.to_nat 40000) sender_app_new =
    Val (s, padded (N.to_nat 40000) (pin_wave (repeat 0 128)) ++
            concat (repeat (padded (N.to_nat 40000) (pin_wave (next_frame ++ repeat 0 (128 - length next_frame)))) n)).
Proof.
  intros b n. rewrite <- period_val. exists (mkApp 0 loaded). cbn [Nat.mul]. rewrite tim2s_app.
  unfold sender_app_new, hs_new, ps_new, pb_new, TRANSMITTER_SIZE. rewrite tim2s_period.
  - cbn [bind]. rewrite tim2s_periods. reflexivity.
  - reflexivity.
  - vm_compute. reflexivity.
  - apply Forall_forall. intros x Hx. apply repeat_spec in Hx. subst x. reflexivity.
  - rewrite period_val. change (length (pin_wave (repeat 0 128))) with 128%nat. lia.
Qed.
Print Assumptions C71_waveform.

(** A receiver that samples the pin at the same rate hears "next" once per period, and
    nothing else. *)
Theorem C71_heard :
  forall b m n s levels p0 C (into : rc5_command -> C), timebase m 20000 -> 8 <= usize_bits b ->
  tim2s b (S n * N.to_nat 40000) sender_app_new = Val (s, levels) ->
  poll_new (rc5_protocol b m) 20000 = Val p0 ->
  exists os, outs (run_polls (D := rc5_dec b) into p0 levels) = Val os /\
    commands os = repeat (into (mkRc5 20 32 3 false)) n /\ Forall (fun o => exists c, o = ROk c) os.
Proof.
  intros b m n s levels p0 C into Hm Hu Et Ep.
  destruct (C71_waveform b n) as (s' & E). rewrite E in Et. clear E.
  assert (El : levels = padded period (pin_wave (repeat 0 128)) ++
                        concat (repeat (padded period (pin_wave next_buffer)) n)).
  { rewrite <- period_val in Et. apply (f_equal (fun x => match x with Val (_, l) => l | _ => [] end)) in Et. symmetry. exact Et. }
  clear Et. destruct (poll_recv _ _ _ Ep) as (r0 & Er).
  (* the edges *)
  set (up := level_edges false 1 (pin_wave (repeat 0 128))).
  set (g := 1 + N.of_nat (period - 128)).
  assert (Ee : level_edges false 1 levels = up ++ level_edges false g (concat (repeat (padded period (pin_wave next_buffer)) n))).
  { rewrite El. unfold padded at 1. rewrite <- app_assoc, level_edges_app. change (length (pin_wave (repeat 0 128))) with 128%nat.
    replace (run_state false 1 (pin_wave (repeat 0 128))) with (false, 1) by (vm_compute; reflexivity). cbn [fst snd].
    rewrite level_edges_repeat. reflexivity. }
  assert (Hup : Forall (fun e : edge => snd e = 1) up).
  { apply Forall_forall. assert (F : forallb (fun e : edge => snd e =? 1) up = true) by (vm_compute; reflexivity).
    rewrite forallb_forall in F. intros x Hx. apply N.eqb_eq, F, Hx. }
  assert (Hg : 39000 <= g < 2 ^ 32).
  { unfold g. rewrite period_val. change (2 ^ 32) with 4294967296. lia. }
  assert (Es0 : r5_spans (rv_dec r0) = spans_of m 20000 rc5_pulses).
  { rewrite (rc5_new_val b m 20000) in Er by (auto; reflexivity). injection Er as <-. reflexivity. }
  destruct (rc5_quiet b m 20000 C into up Hm) with (r := r0) as (r1 & E1); auto; [reflexivity|vm_compute; discriminate|].
  destruct (periods_heard b m C into Hm Hu n r0 up r1 _ g Er E1 Hg) as (r2 & os2 & E2 & C2 & Q2).
  set (osu := repeat (ROk None) (length up) : list (outcome C)) in *.
  assert (Ha : Forall quiet (osu ++ os2)).
  { apply Forall_app. split; [|exact Q2]. apply Forall_forall. intros x Hx. apply repeat_spec in Hx. subst x. exact I. }
  assert (R : outs (run_edges (D := rc5_dec b) into r0 (level_edges false 1 levels)) = Val (osu ++ os2)).
  { rewrite Ee, E2. reflexivity. }
  assert (Ln : length (osu ++ os2) = length (level_edges false 1 levels)).
  { rewrite Ee. eapply run_edges_length. exact E2. }
  eexists. split; [|split].
  - refine (eq_trans (C47_poll (rc5_protocol b m) 20000 C into levels p0 r0 Ep Er _) _).
    2: exact (f_equal (fun x => let* os := x in Val (at_changes (ROk None) false levels os)) R).
    + rewrite Ee. apply Forall_app. split.
      * eapply Forall_impl; [|exact Hup]. intros e He. cbn beta in *. rewrite He. reflexivity.
      * apply periods_short. apply Hg.
  - rewrite (commands_at_changes levels false 1) by exact Ln. etransitivity; [apply flat_map_app|].
    unfold osu. etransitivity; [|exact C2].
    change (commands (repeat (ROk None) (length up) : list (outcome C)) ++ commands os2 = commands os2).
    rewrite repeat_none_commands. reflexivity.
  - eapply Forall_impl; [|apply quiet_at_changes; exact Ha]. intros [c|e] Q; [eauto|destruct Q].
Qed.
Print Assumptions C71_heard.

(** The beginning of the second period, at the state the program is in then. *)
Example C71_example :
  next_frame = [0; 17; 17; 34; 34; 34; 34; 34; 17; 17; 34; 34; 17; 17; 17; 17; 17; 17; 17; 17] /\
  (match tim2s (debug_build 32) 300 (mkApp 0 loaded) with
   | Val (_, l) => Some (level_edges false 0 l) | _ => None end) =
  Some ((true, 0) :: firstn 10 (alternating false (tl next_frame))).
Proof. split; vm_compute; reflexivity. Qed.

(** ** C72: the mouse moves *)

(** The reports sent for a sequence of button events, from a count of repeats. *)
Definition mouse_run (b : build) (count : N) (xs : list (button Apple2009)) : res (N * list (option mouse_report)) :=
  run_res (process_ir_cmd b) count xs.

Lemma mouse_repeats b xs : forall count, Forall (fun x => button_is_repeat x = true) xs ->
  count + N.of_nat (length xs) < 2 ^ 32 ->
  mouse_run b count xs = Val (count + N.of_nat (length xs),
    map (fun p => option_map (fun a => button_to_mousereport a (count + N.of_nat (fst p))) (btn_action (snd p)))
        (combine (seq 1 (length xs)) xs)).
Proof.
  induction xs as [|x xs IH]; intros count Hx Hc.
  - cbn. do 2 f_equal. lia.
  - inversion Hx as [|? ? Hx1 Hx2]; subst. unfold mouse_run. cbn [run_res length seq combine map fst snd].
    unfold process_ir_cmd at 1. rewrite Hx1. unfold uadd.
    rewrite (proj2 (N.ltb_lt (count + 1) (2 ^ 32))) by (cbn [length] in Hc; lia). cbn [bind].
    specialize (IH (count + 1) Hx2). unfold mouse_run in IH. rewrite IH by (cbn [length] in Hc; lia). cbn [bind].
    f_equal. f_equal; [lia|]. f_equal.
    clear. generalize 1%nat as i. induction xs as [|x xs IH]; intros i; [reflexivity|].
    cbn [length seq combine map fst snd]. f_equal; [|apply IH].
    destruct (btn_action x); cbn [option_map]; [|reflexivity]. do 2 f_equal. lia.
Qed.

(** A press followed by repeats moves the pointer in the direction of the action, by 2
    steps for the press and twice as much for each repeat, up to 64; whatever was pressed
    before. *)
Theorem C72_motion :
  forall b count x xs, count < 2 ^ 32 -> button_is_repeat x = false -> Forall (fun y => button_is_repeat y = true) xs ->
  N.of_nat (length xs) + 1 < 2 ^ 32 ->
  exists count' reports, mouse_run b count (x :: xs) = Val (count', reports) /\
    Forall2 (fun p r => match btn_action (snd p), r with
                        | Some a, Some r => move_of r = displacement a (step_of (fst p))
                        | None, None => True
                        | _, _ => False
                        end) (combine (seq 0 (S (length xs))) (x :: xs)) reports.
Proof.
  intros b count x xs Hc Hx Hxs Hl. unfold mouse_run. cbn [run_res]. unfold process_ir_cmd at 1. rewrite Hx.
  change (uadd (overflow_checks b) 32 0 1) with (Val 1). cbn [bind].
  pose proof (mouse_repeats b xs 1 Hxs) as R. unfold mouse_run in R. rewrite R by lia. cbn [bind].
  do 2 eexists. split; [reflexivity|]. cbn [seq combine].
  assert (M : forall a i, move_of (button_to_mousereport a (1 + N.of_nat i)) = displacement a (step_of i)).
  { intros a i. unfold button_to_mousereport, step_of.
    assert (Es : (if 1 + N.of_nat i <=? 6 then Z.shiftl 1 (Z.of_N (1 + N.of_nat i)) else 64%Z) = Z.min 64 (2 ^ Z.of_nat (S i))).
    { replace (Z.of_N (1 + N.of_nat i)) with (Z.of_nat (S i)) by lia. rewrite Z.shiftl_1_l. destruct (N.leb_spec (1 + N.of_nat i) 6) as [L|L].
      - symmetry. apply Z.min_r. change 64%Z with (2 ^ 6)%Z. apply Z.pow_le_mono_r; lia.
      - symmetry. apply Z.min_l. change 64%Z with (2 ^ 6)%Z. apply Z.pow_le_mono_r; lia. }
    rewrite Es. destruct a; reflexivity. }
  constructor.
  - cbn [snd fst]. destruct (btn_action x) as [a|]; auto. exact (M a O).
  - generalize 1%nat as i. clear -M. induction xs as [|y xs IH]; intros i; cbn [length seq combine map]; constructor; auto.
    cbn [fst snd]. destruct (btn_action y) as [a|]; cbn [option_map]; auto.
Qed.
Print Assumptions C72_motion.

Definition c72_press (c : N) (rep : bool) : button Apple2009 := button_from Apple2009 (mkApple 14 c 77 rep).
Example C72_example :
  button_is_repeat (c72_press 4 false) = false /\ button_is_repeat (c72_press 4 true) = true /\
  match mouse_run (debug_build 32) 9 (c72_press 4 false :: repeat (c72_press 4 true) 7) with
  | Val (_, rs) => map (option_map mr_x) rs = map Some [-2; -4; -8; -16; -32; -64; -64; -64]%Z
  | _ => False
  end.
Proof. repeat split. Qed.

(** ** C73: refuted: the mouse button is never pressed *)

(** "Play/pause presses the button" (the comment in the program: a repeat releases it). *)
Theorem C73_click_refuted :
  exists x, btn_action x = Some A_Play_Pause /\ button_is_repeat x = false /\
    forall b count, count < 2 ^ 32 -> exists r, process_ir_cmd b count x = Val (1, Some r) /\ mr_buttons r = 0.
Proof.
  exists (c72_press 2 false). split; [reflexivity|]. split; [reflexivity|]. intros b count _.
  exists (mkReport 0 0 0). split; reflexivity.
Qed.
Print Assumptions C73_click_refuted.

(** Full claim: a press of play/pause sends a report with the button pressed.  What
    holds: no report of fewer than [2^32] events ever has a button pressed. *)
Theorem C73_no_click_partial :
  forall b count xs count' reports, count + N.of_nat (length xs) < 2 ^ 32 ->
  mouse_run b count xs = Val (count', reports) ->
  Forall (fun r => match r with Some r => mr_buttons r = 0 | None => True end) reports.
Proof.
  intros b count xs. revert count. induction xs as [|x xs IH]; intros count count' reports Hc E.
  - unfold mouse_run in E. cbn [run_res] in E. injection E as _ <-. constructor.
  - unfold mouse_run in E. cbn [run_res length] in *. unfold process_ir_cmd at 1 in E.
    set (r0 := if button_is_repeat x then count else 0) in *.
    assert (Hr : r0 <= count) by (unfold r0; destruct (button_is_repeat x); lia).
    unfold uadd in E. rewrite (proj2 (N.ltb_lt (r0 + 1) (2 ^ 32))) in E by lia. cbn [bind] in E.
    destruct (run_res (process_ir_cmd b) (r0 + 1) xs) as [[c2 rs]| |] eqn:E2; cbn [bind] in E; try discriminate.
    injection E as _ <-. constructor.
    + destruct (btn_action x) as [a|]; auto. unfold button_to_mousereport. rewrite (proj2 (N.eqb_neq (r0 + 1) 0)) by lia. destruct a; reflexivity.
    + apply (IH (r0 + 1) c2 rs); [lia|exact E2].
Qed.
Print Assumptions C73_no_click_partial.

Example C73_example :
  match mouse_run (debug_build 32) 0 [c72_press 2 false; c72_press 2 true; c72_press 5 false] with
  | Val (_, rs) => rs = [Some (mkReport 0 0 0); Some (mkReport 0 0 0); Some (mkReport 0 0 (-2))]
  | _ => False
  end.
Proof. reflexivity. Qed.

(** ** C74: commands handed from the interrupts to the main loop *)

(** Full claim: every command received is printed.  Refuted: two commands between two
    rounds of the main loop, the first is lost. *)
Fixpoint uno_steps (evs : list edge) : list uno_step :=
  match evs with
  | [] => []
  | (l, d) :: r => repeat UTimer (N.to_nat d) ++ UPin l :: uno_steps r
  end.
Definition uno_prints (b : build) (ss : list uno_step) : option (list nec_command) :=
  match uno_new b with
  | Val u => match uno_run u ss with Val (_, ps) => Some ps | _ => None end
  | _ => None
  end.
Definition c74_frame (a c : N) : list edge :=
  (true, 700) :: pair_edges ((180, 90) :: map (fun bit : bool => if bit then (11, 34) else (11, 11)) (bits_lsb 32 (bytes4 a (compl8 a) c (compl8 c)))).
Theorem C74_handover_refuted :
  exists round, Forall (fun s => s <> UMain) round /\
    option_map commands (outcomes (nec_protocol (debug_build 16) MU32 NecStandard) 20000 (pin_edges 0 round)) =
      Some [mkNec 1 2 false; mkNec 3 4 false] /\
    uno_prints (debug_build 16) (in_rounds UMain [round]) = Some [mkNec 3 4 false].
Proof.
  exists (uno_steps (c74_frame 1 2 ++ c74_frame 3 4)). split.
  - generalize (c74_frame 1 2 ++ c74_frame 3 4). intros evs. induction evs as [|[l d] evs IH]; cbn [uno_steps]; [constructor|].
    apply Forall_app. split; [|constructor; [discriminate|exact IH]].
    apply Forall_forall. intros x Hx. apply repeat_spec in Hx. subst x. discriminate.
  - split; vm_compute; reflexivity.
Qed.
Print Assumptions C74_handover_refuted.

(** What holds, for every interleaving of timer interrupts, pin changes and rounds of the
    main loop (fewer than [2^32] timer interrupts): the receiver sees every pin change with
    the number of timer interrupts since the one before; each round prints the last command
    received since the round before, if any; the LED toggles at every pin change; the error
    LED shows whether the last report was an error. *)
Theorem C74_interrupts_partial :
  forall b rounds, Forall (Forall (fun s => s <> UMain)) rounds -> timers (concat rounds) < 2 ^ 32 ->
  exists u0 u oss,
    uno_new b = Val u0 /\
    uno_run u0 (in_rounds UMain rounds) = Val (u, flat_map (fun os => last_of (commands os)) oss) /\
    outcomes_of (nec_protocol b MU32 NecStandard) 20000 (fun c => c) (pin_edges 0 (concat rounds)) = Val (concat oss) /\
    Forall2 (fun round os => length os = pins round) rounds oss /\
    un_led u = Nat.odd (pins (concat rounds)) /\ un_error u = last_is_error (concat oss).
Proof.
  intros b rounds Hr Ht. assert (Hn : exists r : receiver (nec_dec b MU32 NecStandard), receiver_new (nec_protocol b MU32 NecStandard) 20000 = Val r /\ rv_prev r = 0 /\
    nec_in_range (rv_dec r) /\ ns_dt_save (rv_dec r) = 0).
  { eexists. split; [apply (nec_new_val b MU32 20000); [exact I|reflexivity|left; reflexivity]|]. split; [reflexivity|]. split; [exact I|reflexivity]. }
  destruct Hn as (r & Er & Ep & Ir & Sr).
  destruct (nec_bounded_run b NecStandard (fun c => c) (pin_edges 0 (concat rounds)) r Ir) as ([d' p'] & os & E).
  { rewrite Sr. pose proof (pin_edges_sum (concat rounds) 0). lia. }
  assert (Er' : r = mkRecv (D := nec_dec b MU32 NecStandard) (rv_dec r) 0) by (destruct r as [d p]; cbn in Ep; subst p; reflexivity).
  destruct (uno_rounds rounds (mkUno 0 r false false None) 0 d' os p') as (u & oss & R & B1 & B2 & B3 & B4);
    cbn [un_clock un_recv un_cmd]; auto.
  - rewrite Ep. reflexivity.
  - rewrite <- Er'. exact E.
  - exists (mkUno 0 r false false None), u, oss. split; [|split; [exact R|split; [|split; [exact B2|split]]]].
    + unfold uno_new. rewrite Er. reflexivity.
    + unfold outcomes_of. rewrite Er. cbn [bind]. rewrite B1. exact (f_equal outs E).
    + rewrite B3. cbn [un_led]. rewrite xorb_false_l. f_equal. apply run_edges_length in E. refine (eq_trans E _).
      generalize (concat rounds) 0. clear. intros ss. induction ss as [|s ss IH]; intros n; [reflexivity|].
      destruct s; cbn [pin_edges pins length]; auto.
    + rewrite B4, B1. reflexivity.
Qed.
Print Assumptions C74_interrupts_partial.

(** The polled program: one sample per timer interrupt. *)
Theorem C74_polled_partial :
  forall b rounds, N.of_nat (length (concat rounds)) + 1 < 2 ^ 31 ->
  exists u0 u p0 oss,
    uno_polled_new b = Val u0 /\
    uno_polled_run u0 (in_rounds PMain (map (map PTimer) rounds)) = Val (u, flat_map (fun os => last_of (commands os)) oss) /\
    poll_new (nec_protocol b MU32 NecStandard) 20000 = Val p0 /\
    outs (run_polls (D := nec_dec b MU32 NecStandard) (fun c => c) p0 (concat rounds)) = Val (concat oss) /\
    Forall2 (fun round os => length os = length round) rounds oss.
Proof.
  intros b rounds Hl.
  assert (Hn : exists r, receiver_new (nec_protocol b MU32 NecStandard) 20000 = Val r).
  { eexists. apply (nec_new_val b MU32 20000); [exact I|reflexivity|left; reflexivity]. }
  destruct Hn as (r & Er).
  assert (Hp : exists p0, poll_new (nec_protocol b MU32 NecStandard) 20000 = Val p0).
  { unfold receiver_new in Er. unfold poll_new. destruct (p_build _ 20000); cbn [bind] in *; try discriminate. eauto. }
  destruct Hp as (p0 & Ep0).
  pose proof (level_edges_bound (concat rounds) false 1) as Bd.
  destruct (C39_nec b MU32 NecStandard 20000 _ (fun c => c) (level_edges false 1 (concat rounds))) as (os0 & E0);
    [exact I|reflexivity|left; reflexivity| |].
  { left. eapply Forall_impl; [|exact Bd]. intros e He. cbn beta in *. cbn [dur_bits]. change (2 ^ 32) with (2 * 2 ^ 31). lia. }
  assert (Q : outs (run_polls (D := nec_dec b MU32 NecStandard) (fun c => c) p0 (concat rounds)) =
    Val (at_changes (ROk None) false (concat rounds) os0)).
  { refine (eq_trans (C47_poll (nec_protocol b MU32 NecStandard) 20000 _ (fun c => c) (concat rounds) p0 r Ep0 Er _) _).
    - eapply Forall_impl; [|exact Bd]. intros e He. cbn beta in *. change (2 ^ 32) with (2 * 2 ^ 31). lia.
    - unfold outcomes_of in E0. rewrite Er in E0.
      exact (f_equal (fun x => let* os := x in Val (at_changes (ROk None) false (concat rounds) os)) E0). }
  destruct (run_polls (D := nec_dec b MU32 NecStandard) (fun c => c) p0 (concat rounds)) as [[p' os]| |] eqn:E.
  - destruct (uno_polled_rounds rounds (mkUnoP p0 None) p' os eq_refl E) as (u & oss & R & B1 & B2).
    exists (mkUnoP p0 None), u, p0, oss. split; [unfold uno_polled_new; rewrite Ep0; reflexivity|]. split; [exact R|].
    split; [exact Ep0|]. split; [refine (eq_trans (f_equal outs E) _); exact (f_equal Val (eq_sym B1))|exact B2].
  - discriminate.
  - discriminate.
Qed.
Print Assumptions C74_polled_partial.

(** Consequences for either program: nothing is invented or reordered, the last command
    received is always printed, and with at most one command per round all are. *)
Theorem C74_delivered_partial :
  forall C (oss : list (list (outcome C))),
  let printed := flat_map (fun os => last_of (commands os)) oss in
  (forall c, In c printed -> In c (commands (concat oss))) /\
  (forall cs c, commands (concat oss) = cs ++ [c] -> exists p, printed = p ++ [c]) /\
  (Forall (fun os => (length (commands os) <= 1)%nat) oss -> printed = commands (concat oss)).
Proof.
  intros C oss printed. split; [|split; [apply last_delivered|apply all_delivered]].
  intros c Hc. apply in_flat_map in Hc. destruct Hc as (os & Ho & Hc).
  assert (In c (commands os)).
  { unfold last_of in Hc. destruct (rev (commands os)) as [|x l] eqn:E; [destruct Hc|]. destruct Hc as [<- | []].
    apply in_rev. rewrite E. left. reflexivity. }
  unfold commands in *. apply in_flat_map in H. destruct H as (o & Hoo & H). apply in_flat_map. exists o. split; [|exact H].
  apply in_concat. eauto.
Qed.
Print Assumptions C74_delivered_partial.

Example C74_example :
  let rounds := [uno_steps (firstn 20 (c74_frame 1 2)); uno_steps (skipn 20 (c74_frame 1 2)); []; uno_steps (c74_frame 3 4)] in
  timers (concat rounds) < 2 ^ 32 /\ pins (concat rounds) = 134%nat /\
  uno_prints (debug_build 16) (in_rounds UMain rounds) = Some [mkNec 1 2 false; mkNec 3 4 false].
Proof. intros rounds. split; [vm_compute; reflexivity|]. split; vm_compute; reflexivity. Qed.
