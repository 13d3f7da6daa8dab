(** * Lemmas about several commands sent one after another *)
From Coq Require Import NArith ZArith List Bool Lia ZifyBool ZifyNat ZifyN.
From Verif Require Import Machine Spec Spec_sender Spec_receiver Bits Time Decoder Nec Rc5 Rc6 Receiver Sender
  Time_facts Run_facts Nec_facts Rc5_facts Rc6_facts Keys_facts Encode_facts Roundtrip_facts Sender_facts Props_receiver Air_facts Poll_facts
  State_facts Apps Spec_apps AppSender_facts.
Import ListNotations.
Open Scope N_scope.
Ltac Zify.zify_post_hook ::= Z.div_mod_to_equations.

(** ** The program: every command is loaded, then the sender is ticked a number of times *)
Fixpoint sends (e : encoder) (h : hal_sender) (l : list (e_cmd e * nat)) : res (hal_sender * list bool) :=
  match l with
  | [] => Val (h, [])
  | (c, k) :: r =>
      let* h1 := hs_load e h c in
      let '(h2, ls) := hs_ticks k h1 in
      let* (h3, ls3) := sends e h2 r in Val (h3, ls ++ ls3)
  end.

(** ** The edges of one transmission *)
Lemma held_round es k : forall on, exists t g,
  (forall rest, level_edges on 1 (tl (held on es) ++ repeat false (S k) ++ rest) =
    alternating (negb on) (map (N.max 1) es) ++ t ++ level_edges false g rest) /\
  (t = [] \/ t = [(false, 1)]) /\ N.of_nat (S k) <= g <= N.of_nat (S k) + 1.
Proof.
  induction es as [|e es IH]; intros on.
  - cbn [held tl app map alternating]. destruct on.
    + exists [(false, 1)], (N.of_nat (S k)). split; [|split; [auto|lia]]. intros rest.
      cbn [app repeat level_edges Bool.eqb]. rewrite level_edges_repeat. do 2 f_equal. lia.
    + exists [], (1 + N.of_nat (S k)). split; [|split; [auto|lia]]. intros rest. rewrite level_edges_repeat. reflexivity.
  - set (off := repeat false (S k)) in *. cbn [held]. destruct (N.to_nat (N.max 1 e)) as [|j] eqn:Ej; [lia|]. cbn [repeat app tl].
    destruct (IH (negb on)) as (t & g & Et & Ht). exists t, g. split; [|exact Ht]. intros rest.
    rewrite <- app_assoc, level_edges_repeat. rewrite held_cons. cbn [app level_edges].
    rewrite eqb_negb1. rewrite Et.
    replace (1 + N.of_nat j) with (N.max 1 e) by lia.
    cbn [map alternating app]. rewrite negb_involutive. reflexivity.
Qed.

Lemma max_one vs : Forall (fun e => 1 <= e /\ e < 2 ^ 32) vs -> map (N.max 1) vs = vs.
Proof. induction 1 as [|v vs Hv1 Hv2 IH]; auto. cbn [map]. f_equal; auto. lia. Qed.

Lemma wave_round vs zs k : Forall (fun e => 1 <= e /\ e < 2 ^ 32) vs ->
  (length (pin_wave (0%N :: vs ++ zs)) < k)%nat ->
  exists on t g, (forall g0 rest, level_edges false g0 (padded k (pin_wave (0 :: vs ++ zs)) ++ rest) =
    ((true, g0) :: alternating false vs ++ alternating on (map (N.max 1) zs) ++ t) ++ level_edges false g rest) /\
  (t = [] \/ t = [(false, 1)]) /\
  N.of_nat (k - length (pin_wave (0%N :: vs ++ zs))) <= g <= N.of_nat k.
Proof.
  intros Hv Hk. unfold padded. set (L := length (pin_wave (0 :: vs ++ zs))) in *.
  destruct (k - L)%nat as [|j] eqn:Ej; [lia|].
  change (pin_wave (0 :: vs ++ zs)) with (held true (vs ++ zs)) in *.
  assert (L1 : (1 <= L)%nat) by (unfold L; rewrite held_cons; cbn [length]; lia).
  destruct (held_round (vs ++ zs) j true) as (t & g & E & Ht & Hg).
  destruct (alternating_app vs (map (N.max 1) zs) false) as (on & Ea). exists on, t, g.
  split; [|split; [exact Ht|lia]]. intros g0 rest.
  rewrite held_cons, <- app_assoc. cbn [app level_edges Bool.eqb]. cbn [negb] in E. rewrite E.
  rewrite map_app, max_one, Ea by exact Hv. rewrite <- !app_assoc. reflexivity.
Qed.

(** The number of ticks a buffer takes. *)
Lemma held_length es : forall on, N.of_nat (length (held on es)) = total (map (N.max 1) es) + 1.
Proof.
  induction es as [|v es IH]; intros on; [reflexivity|].
  cbn [held map total fold_right]. rewrite app_length, repeat_length. specialize (IH (negb on)). unfold total in IH. lia.
Qed.

Lemma total_ones zs : Forall (fun e => e <= 1) zs -> total (map (N.max 1) zs) = N.of_nat (length zs).
Proof. unfold total. induction 1 as [|z zs Hz1 Hz2 IH]; [reflexivity|]. cbn [map fold_right length]. lia. Qed.

Lemma total_app a b : total (a ++ b) = total a + total b.
Proof. induction a as [|x a IH]; [reflexivity|]. cbn [app total fold_right] in *. fold (total (a ++ b)) (total a). lia. Qed.

Lemma total_le B l : Forall (fun x => x <= B) l -> total l <= B * N.of_nat (length l).
Proof. induction 1 as [|x l Hx Hl IH]; [cbn; lia|]. cbn [total fold_right length]. fold (total l). lia. Qed.

Lemma commands_one {C} i j (c : C) : commands (repeat (ROk None) i ++ ROk (Some c) :: repeat (ROk None) j : list (outcome C)) = [c].
Proof. rewrite commands_app, commands_none. change (c :: commands (repeat (ROk None) j : list (outcome C)) = [c]). rewrite commands_none. reflexivity. Qed.

Lemma quiet_none {C} n : Forall quiet (repeat (ROk None) n : list (outcome C)).
Proof. induction n; constructor; [exact I|auto]. Qed.

Lemma quiet_one {C} i j (c : option C) : Forall quiet (repeat (ROk None) i ++ ROk c :: repeat (ROk None) j : list (outcome C)).
Proof. apply Forall_app. split; [apply quiet_none|]. constructor; [exact I|]. apply quiet_none. Qed.

(** ** Any protocol *)
Section Series.
  Variables (P : protocol) (e : encoder) (C : Type) (into : dcmd (p_dec P) -> C).
  Variables (holds : list N -> Prop) (fine : e_cmd e -> Prop) (got : e_cmd e -> C).
  Variables (ready : receiver (p_dec P) -> N -> Prop) (W G : N).
  Hypothesis HG : 1 <= G.
  Hypothesis step : forall c B, fine c -> holds B -> exists vs zs n,
    e_encode e c B = Val (0 :: vs ++ zs, n) /\ holds (0 :: vs ++ zs) /\
    Forall (fun x => 1 <= x /\ x < 2 ^ 32) vs /\ Forall (fun x => x < 2 ^ 32) zs /\
    N.of_nat (length (pin_wave (0 :: vs ++ zs))) <= W /\
    forall r g on t, ready r g -> t = [] \/ t = [(false, 1)] ->
    exists r2 os, run_edges into r ((true, g) :: alternating false vs ++ alternating on (map (N.max 1) zs) ++ t) = Val (r2, os) /\
      commands os = [got c] /\ Forall quiet os /\ forall g', G <= g' -> g' < 2 ^ 31 -> ready r2 g'.

  Lemma series_run l : Forall (fun x => fine (fst x) /\ W + G <= N.of_nat (snd x) /\ N.of_nat (snd x) < 2 ^ 31) l ->
    forall h r g, ps_status (hs_buffer h) = StIdle -> holds (pb_buf (ps_ptb (hs_buffer h))) -> ready r g -> g < 2 ^ 31 ->
    exists h' levels r' os, sends e h l = Val (h', levels) /\ ps_status (hs_buffer h') = StIdle /\
      Forall (fun x : edge => snd x < 2 ^ 32) (level_edges false g levels) /\
      run_edges into r (level_edges false g levels) = Val (r', os) /\
      commands os = map (fun x => got (fst x)) l /\ Forall quiet os.
  Proof.
    induction 1 as [|[c k] l (Hc & Hk & Hk2) Hl IH]; intros h r g Hi Hh Hr Hg.
    - exists h, [], r, []. cbn [sends level_edges run_edges map]. repeat split; auto; constructor.
    - cbn [fst snd] in *. destruct (step c _ Hc Hh) as (vs & zs & n & E & Hh2 & Hv & Hz & HW & Hs).
      assert (HB : Forall (fun x => x < 2 ^ 32) (0 :: vs ++ zs)).
      { constructor; [reflexivity|]. apply Forall_app. split; [|exact Hz]. eapply Forall_impl; [|exact Hv]. cbv beta. tauto. }
      assert (Lk : (length (pin_wave (0%N :: vs ++ zs)) < k)%nat) by lia.
      destruct (hs_transmit_padded (0 :: vs ++ zs) n k HB Lk) as (ct & pos & ts & Et).
      set (h2 := mkHS ct (mkPS (mkPB (0 :: vs ++ zs) n) pos StIdle ts)) in *.
      destruct (wave_round vs zs k Hv Lk) as (on & t & g2 & Ew & Ht & Hg2).
      destruct (Hs r g on t Hr Ht) as (r2 & os & Er & Hco & Hq & Hr2).
      assert (Hr3 : ready r2 g2) by (apply Hr2; lia).
      destruct (IH h2 r2 g2 eq_refl Hh2 Hr3 ltac:(lia)) as (h' & levels & r' & os' & El & Hi' & Hf & E' & Hc' & Hq').
      exists h', (padded k (pin_wave (0 :: vs ++ zs)) ++ levels), r', (os ++ os'). cbn [sends].
      rewrite (hs_load_val e h c _ _ Hi E). cbn [bind]. rewrite Et. rewrite El. cbn [bind].
      split; [reflexivity|]. split; [exact Hi'|]. rewrite Ew. split; [|split; [|split]].
      + apply Forall_app. split; [|exact Hf]. constructor; [cbn [snd]; change (2 ^ 31) with 2147483648 in Hg; change (2 ^ 32) with 4294967296; lia|].
        apply Forall_app. split; [|apply Forall_app; split].
        * apply (alternating_snd vs false (fun x => x < 2 ^ 32)). eapply Forall_impl; [|exact Hv]. cbv beta. tauto.
        * apply (alternating_snd _ on (fun x => x < 2 ^ 32)). clear -Hz. induction Hz as [|z zs Hz1 Hz2 IH]; constructor; auto.
          apply N.max_lub_lt; [reflexivity|exact Hz1].
        * destruct Ht as [-> | ->]; repeat constructor.
      + exact (run_edges_app_val into _ _ _ _ _ _ _ Er E').
      + cbn [map fst]. refine (eq_trans (commands_app _ _) _). exact (f_equal2 (@app C) Hco Hc').
      + apply Forall_app. auto.
  Qed.

  Lemma series_polled F p0 r0 h l : poll_new P F = Val p0 -> receiver_new P F = Val r0 -> ready r0 1 ->
    ps_status (hs_buffer h) = StIdle -> holds (pb_buf (ps_ptb (hs_buffer h))) ->
    Forall (fun x => fine (fst x) /\ W + G <= N.of_nat (snd x) /\ N.of_nat (snd x) < 2 ^ 31) l ->
    exists h' levels os, sends e h l = Val (h', levels) /\ ps_status (hs_buffer h') = StIdle /\
      outs (run_polls into p0 levels) = Val os /\ length os = length levels /\
      commands os = map (fun x => got (fst x)) l /\ Forall quiet os.
  Proof.
    intros Ep Er Hr Hi Hh Hl.
    destruct (series_run l Hl h r0 1 Hi Hh Hr ltac:(reflexivity)) as (h' & levels & r' & os & El & Hi' & Hf & E & Hc & Hq).
    exists h', levels, (at_changes (ROk None) false levels os). split; [exact El|]. split; [exact Hi'|].
    pose proof (C47_poll P F C into levels p0 r0 Ep Er Hf) as Q. rewrite E in Q. cbn [outs bind] in Q. split; [exact Q|].
    pose proof (run_edges_length _ _ _ _ _ E) as L.
    split; [|split].
    - clear -L. revert L. generalize os. generalize false, 1.
      induction levels as [|lv ls IH]; intros cur n os0 L; cbn [level_edges at_changes] in *; auto.
      destruct (Bool.eqb lv cur); cbn [length].
      + f_equal. apply (IH cur (n + 1)). exact L.
      + destruct os0 as [|o os0]; [discriminate|]. cbn [length] in *. f_equal. apply (IH lv 1). lia.
    - rewrite (commands_at_changes levels false 1) by exact L. exact Hc.
    - apply quiet_at_changes. exact Hq.
  Qed.
End Series.

(** ** RC5: what is left in the buffer after a frame is too short to be a frame *)
Definition left5 (s : rc5_state) : N := match s with R5Idle => 14 | R5Data n => n + 1 | _ => 0 end.

Lemma rc5_short_tail b m F C (into : rc5_command -> C) h : 8 <= usize_bits b ->
  forall s buf ck pv, N.of_nat (length h) < left5 s -> left5 s <= 14 -> ck + 8 * N.of_nat (length h) < 256 ->
  exists s' buf' ck',
    run_edges (D := rc5_dec b) into (@mkRecv (rc5_dec b) (mkRc5Dec s buf ck (spans_of m F rc5_pulses)) pv) h =
    Val (@mkRecv (rc5_dec b) (mkRc5Dec s' buf' ck' (spans_of m F rc5_pulses)) pv, repeat (ROk None) (length h)).
Proof.
  intros Hu. pose proof (usize8 b Hu) as H256. induction h as [|[e d] h IH]; intros s buf ck pv Hl H14 Hc.
  { exists s, buf, ck. reflexivity. }
  cbn [length] in Hl, Hc. set (ss := spans_of m F rc5_pulses) in *. rewrite run_edges_cons.
  assert (Ev : exists s1 buf1 ck1, event_edge (D := rc5_dec b) into (@mkRecv (rc5_dec b) (mkRc5Dec s buf ck ss) pv) d e =
      Val (@mkRecv (rc5_dec b) (mkRc5Dec s1 buf1 ck1 ss) pv, ROk None) /\
      N.of_nat (length h) < left5 s1 /\ left5 s1 <= 14 /\ ck1 + 8 * N.of_nat (length h) < 256).
  { unfold event_edge. cbn [d_event rc5_dec rv_dec]. unfold rc5_event. cbn [r5_spans r5_clock].
    destruct (spans_get ss d) as [k|] eqn:Ek.
    - apply spans_get_below in Ek. unfold ss, spans_of in Ek. rewrite map_length in Ek. cbn in Ek.
      rewrite (uadd_small _ _ k 1) by lia. cbn [bind]. rewrite uadd_small by lia. cbn [bind r5_clock r5_state r5_bitbuf r5_spans].
      assert (Cx : ck + (k + 1) + 8 * N.of_nat (length h) < 256) by lia.
      destruct s as [|n| |er]; cbn [rc5_transition left5] in *; try lia.
      + destruct e.
        * replace (ushl1 (overflow_checks b) 16 13) with (Val (2 ^ 13)) by (destruct b as [[] uw]; reflexivity). cbn [bind rc5_to_state].
          do 3 eexists. split; [reflexivity|]. cbn [left5]. lia.
        * cbn [bind rc5_to_state]. do 3 eexists. split; [reflexivity|]. cbn [left5]. lia.
      + destruct (N.land (ck + (k + 1)) 1 =? 0).
        * rewrite (proj2 (N.eqb_neq n 0)) by lia.
          assert (E1 : usub (overflow_checks b) 8 n 1 = Val (n - 1)).
          { unfold usub. rewrite (proj2 (N.leb_le 1 n)) by lia. reflexivity. }
          assert (E2 : exists x, ushl1 (overflow_checks b) 16 n = Val x).
          { unfold ushl1. rewrite (proj2 (N.ltb_lt n 16)) by lia. eexists. reflexivity. }
          destruct E2 as (x & E2). destruct e; rewrite ?E2; cbn [bind]; rewrite ?E1; cbn [bind rc5_to_state];
            (do 3 eexists; split; [reflexivity|]; cbn [left5]; lia).
        * cbn [bind rc5_to_state]. do 3 eexists. split; [reflexivity|]. cbn [left5]. lia.
    - cbn [bind]. unfold rc5_reset. cbn [r5_clock r5_state r5_bitbuf r5_spans rc5_transition]. destruct e.
      + replace (ushl1 (overflow_checks b) 16 13) with (Val (2 ^ 13)) by (destruct b as [[] uw]; reflexivity). cbn [bind rc5_to_state].
        do 3 eexists. split; [reflexivity|]. cbn [left5]. lia.
      + cbn [bind rc5_to_state]. do 3 eexists. split; [reflexivity|]. cbn [left5]. lia. }
  destruct Ev as (s1 & buf1 & ck1 & Ev & H1 & H2 & H3). rewrite Ev. cbn [bind].
  destruct (IH s1 buf1 ck1 pv H1 H2 H3) as (s' & buf' & ck' & R). rewrite R. exists s', buf', ck'. reflexivity.
Qed.

(** ** RC6: nothing in it is as long as the leading pulse of a frame *)
Lemma rc6_no_leader b m F C (into : rc6_command -> C) B h : 8 <= usize_bits b ->
  (forall d k, 1 <= d -> d <= B -> spans_get (spans_of m F rc6_pulses) d = Some k -> k < 3) ->
  Forall (fun x : edge => 1 <= snd x /\ snd x <= B) h ->
  forall s tg ck pv, s = R6Idle \/ s = R6Leading -> ck + 4 * N.of_nat (length h) < 256 ->
  exists s' tg' ck',
    run_edges (D := rc6_dec b) into (@mkRecv (rc6_dec b) (mkRc6Dec s 0 0 tg ck (spans_of m F rc6_pulses)) pv) h =
    Val (@mkRecv (rc6_dec b) (mkRc6Dec s' 0 0 tg' ck' (spans_of m F rc6_pulses)) pv, repeat (ROk None) (length h)).
Proof.
  intros Hu HB Hh. pose proof (usize8 b Hu) as H256. induction Hh as [|[e d] h Hd Hh IH]; intros s tg ck pv Hs Hc.
  { exists s, tg, ck. reflexivity. }
  cbn [length snd] in *. set (ss := spans_of m F rc6_pulses) in *. rewrite run_edges_cons.
  assert (Ev : exists s1 tg1 ck1, event_edge (D := rc6_dec b) into (@mkRecv (rc6_dec b) (mkRc6Dec s 0 0 tg ck ss) pv) d e =
      Val (@mkRecv (rc6_dec b) (mkRc6Dec s1 0 0 tg1 ck1 ss) pv, ROk None) /\
      (s1 = R6Idle \/ s1 = R6Leading) /\ ck1 + 4 * N.of_nat (length h) < 256).
  { unfold event_edge. cbn [d_event rc6_dec rv_dec]. unfold rc6_event. cbn [r6_spans r6_clock].
    destruct (spans_get ss d) as [k|] eqn:Ek.
    - apply HB in Ek; [|tauto|tauto].
      rewrite (uadd_small _ _ k 1) by lia. cbn [bind]. rewrite uadd_small by lia. cbn [bind r6_clock].
      unfold rc6_transition. cbn [r6_state r6_data r6_headerdata r6_toggle r6_spans].
      assert (Ck : k = 0 \/ k = 1 \/ k = 2) by lia.
      destruct Hs as [-> | ->]; [destruct e|destruct e, Ck as [-> | [-> | ->]]]; cbn [bind r6_state rc6_to_state N.add Pos.add Pos.succ r6_clock];
        (do 3 eexists; split; [reflexivity|]; split; [auto|cbn [r6_clock]; lia]).
    - cbn [bind]. unfold rc6_reset, rc6_transition. cbn [r6_state r6_data r6_headerdata r6_toggle r6_spans r6_clock].
      destruct e; cbn [bind r6_state rc6_to_state]; (do 3 eexists; split; [reflexivity|]; split; [auto|lia]). }
  destruct Ev as (s1 & tg1 & ck1 & Ev & H1 & H2). rewrite Ev. cbn [bind].
  destruct (IH s1 tg1 ck1 pv H1 H2) as (s' & tg' & ck' & R). rewrite R. exists s', tg', ck'. reflexivity.
Qed.

(** Runs over edges do not touch the time of the last instant. *)
Lemma run_edges_prev {D : decoder} {C} (into : dcmd D -> C) h : forall (r r' : receiver D) os,
  run_edges into r h = Val (r', os) -> rv_prev r' = rv_prev r.
Proof.
  induction h as [|[e dt] h IH]; intros r r' os H; cbn [run_edges] in H.
  - injection H as <- _. reflexivity.
  - destruct (event_edge into r dt e) as [[r1 o]| |] eqn:E; cbn [bind] in H; try discriminate.
    destruct (run_edges into r1 h) as [[r2 o2]| |] eqn:E2; cbn [bind] in H; try discriminate.
    injection H as <- _. apply IH in E2. rewrite E2. clear -E. unfold event_edge in E.
    destruct (d_event D (rv_dec r) e dt) as [[d1 s]| |]; cbn [bind] in E; try discriminate.
    destruct s; injection E as <- _; reflexivity.
Qed.
