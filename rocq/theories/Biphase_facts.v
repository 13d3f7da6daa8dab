(** * Lemmas: what a reported RC5 or RC6 command says about the signal *)
From Coq Require Import NArith ZArith List Bool Lia ZifyBool ZifyNat ZifyN.
From Verif Require Import Machine Spec Bits Time Decoder Rc5 Rc6 Receiver Time_facts Window_facts Run_facts
  Rc5_facts Rc6_facts Spec_sound.
Import ListNotations.
Open Scope N_scope.

Lemma total_app l1 l2 : total (l1 ++ l2) = total l1 + total l2.
Proof. induction l1 as [|x l IH]; cbn [app total fold_right]; [reflexivity|]. unfold total in *. rewrite IH. lia. Qed.

Lemma samples_snoc par e d n : forall l ns ck, length l = length ns ->
  samples par ck (l ++ [(e, d)]) (ns ++ [n]) =
  samples par ck l ns ++ (if Bool.eqb (N.odd (ck + total ns + n)) par then [e] else []).
Proof.
  induction l as [|[e0 d0] l IH]; intros [|n0 ns] ck L; try discriminate L.
  - cbn [app samples total fold_right]. rewrite N.add_0_r, app_nil_r. reflexivity.
  - cbn [app samples]. rewrite IH by (injection L as L; exact L). rewrite app_assoc.
    replace (ck + total (n0 :: ns) + n) with (ck + n0 + total ns + n) by (cbn [total fold_right]; unfold total; lia).
    reflexivity.
Qed.

Lemma uadd_odd chk w a b c : 1 <= w -> uadd chk w a b = Val c -> N.odd c = N.odd (a + b).
Proof.
  unfold uadd. intros Hw. destruct (a + b <? 2 ^ w).
  - intros E. injection E as <-. reflexivity.
  - destruct chk; [discriminate|]. intros E. injection E as <-.
    rewrite <- !N.bit0_odd. rewrite N.mod_pow2_bits_low by lia. reflexivity.
Qed.

Lemma val_msb_snoc l x : val_msb (l ++ [x]) = 2 * val_msb l + (if x : bool then 1 else 0).
Proof. unfold val_msb. rewrite rev_app_distr. cbn [rev app val_lsb]. destruct x; lia. Qed.

Lemma val_msb_app l l' : val_msb (l ++ l') = val_msb l * 2 ^ N.of_nat (length l') + val_msb l'.
Proof.
  induction l' as [|x l' IH] using rev_ind.
  - rewrite app_nil_r. change (val_msb []) with 0. change (2 ^ N.of_nat (length (@nil bool))) with 1. lia.
  - rewrite app_assoc, !val_msb_snoc, IH, app_length. cbn [length].
    replace (N.of_nat (length l' + 1)) with (N.succ (N.of_nat (length l'))) by lia. rewrite N.pow_succ_r'. lia.
Qed.


Lemma near_zero_ticks b x y : uadd (overflow_checks b) (usize_bits b) x 1 = Val y -> 8 <= usize_bits b -> x < 8 -> y = x + 1.
Proof.
  intros E Hu Hx. pose proof (usize8 b Hu). unfold uadd in E. rewrite (proj2 (N.ltb_lt _ _)) in E by lia.
  congruence.
Qed.

Section Rc5.
  Variables (b : build) (m : mono) (freq : N).
  Hypothesis (Hm : timebase m freq) (Hf : freq < M32) (Hu : 8 <= usize_bits b).
  Let ss := spans_of m freq rc5_pulses.
  Notation D := (rc5_dec b).
  Context {C : Type} (into : rc5_command -> C).
  Notation run := (@run_edges D C into).
  Notation ev := (@event_edge D C into).
  Notation st s buf ck pv := (@mkRecv D (mkRc5Dec s buf ck ss) pv).

  Lemma rc5_interval_of d k : spans_get ss d = Some k -> rc5_interval freq (k + 1) d /\ k < 8.
  Proof.
    intros E. apply spans_get_near_inv in E; auto using rc5_ok. destruct E as (p & t & E & H1 & H2).
    assert (L : k < 8).
    { assert (K : (N.to_nat k < length rc5_pulses)%nat) by (apply nth_error_Some; rewrite E; discriminate).
      cbn in K. lia. }
    split; auto. unfold rc5_interval. unfold rc5_pulses in E.
    assert (K : k = 0 \/ k = 1 \/ k = 2 \/ k = 3 \/ k = 4 \/ k = 5 \/ k = 6 \/ k = 7) by lia.
    destruct K as [->|[->|[->|[->|[->|[->|[->| ->]]]]]]]; cbn in E; injection E as <- <-.
    - left. split; auto. apply H1. lia.
    - right. left. split; auto. apply H1. lia.
    - right. right. split; [lia|]. split; [lia|auto].
    - right. right. split; [lia|]. split; [lia|auto].
    - right. right. split; [lia|]. split; [lia|auto].
    - right. right. split; [lia|]. split; [lia|auto].
    - right. right. split; [lia|]. split; [lia|auto].
    - right. right. split; [lia|]. split; [lia|auto].
  Qed.

  (** What the state says about the edges seen so far. *)
  Definition rc5_told (s : rc5_state) (buf ck : N) (h : list edge) : Prop :=
    match s with
    | R5Idle => buf = 0
    | R5Data bit => exists h1 g evs ns bits, h = h1 ++ (true, g) :: evs /\
        Forall2 (rc5_interval freq) ns (map snd evs) /\ samples false 0 evs ns = bits /\
        N.of_nat (length bits) + bit = 12 /\ buf = 2 ^ 13 + 2 ^ (bit + 1) * val_msb bits /\
        N.odd ck = N.odd (total ns)
    | _ => False
    end.

  Definition rc5_tells (h : list edge) (c : rc5_command) : Prop :=
    exists h1 g evs bits, h = h1 ++ (true, g) :: evs /\ rc5_stream freq evs bits /\ length bits = 13%nat /\
      c = rc5_unpack (2 ^ 13 + val_msb bits).

  Lemma map_snd_snoc (l : list edge) e d : map snd (l ++ [(e, d)]) = map snd l ++ [d].
  Proof. rewrite map_app. reflexivity. Qed.

  Lemma rc5_sound_step s buf ck pv h e d r' o :
    rc5_told s buf ck h -> ev (st s buf ck pv) d e = Val (r', o) ->
    exists s' buf' ck', r' = st s' buf' ck' pv /\ rc5_told s' buf' ck' (h ++ [(e, d)]) /\
      (o = ROk None \/ exists c, o = ROk (Some (into c)) /\ rc5_tells (h ++ [(e, d)]) c).
  Proof.
    intros Ht. unfold event_edge. cbn [d_event rc5_dec rv_dec rv_prev]. unfold rc5_event.
    cbn [r5_spans r5_clock r5_state r5_bitbuf].
    assert (Start : (let* m0 := ushl1 (overflow_checks b) 16 13 in Val (R5Data 12, N.lor 0 m0, 0)) =
              Val (R5Data 12, 2 ^ 13, 0)) by (destruct b as [[] ?]; reflexivity).
    assert (Begin : rc5_told (R5Data 12) (2 ^ 13) 0 (h ++ [(true, d)])).
    { exists h, d, [], [], []. split; auto. split; [constructor|]. split; auto. }
    destruct (spans_get ss d) as [k|] eqn:Ek.
    - destruct (rc5_interval_of d k Ek) as [Hint Hk].
      destruct (uadd _ _ k 1) as [t1| |] eqn:E1; cbn [bind]; try discriminate.
      apply near_zero_ticks in E1; auto. subst t1.
      destruct (uadd _ _ ck (k + 1)) as [ck1| |] eqn:E2; cbn [bind]; try discriminate.
      apply uadd_odd in E2; [|lia]. cbn [r5_spans r5_clock r5_state r5_bitbuf].
      destruct s as [|bit| |er]; try contradiction; cbn [rc5_told] in Ht; unfold rc5_transition.
      + subst buf. destruct e.
        * rewrite Start. cbn [bind rc5_to_state r5_spans]. intros E. injection E as <- <-.
          exists (R5Data 12), (2 ^ 13), 0. auto.
        * cbn [bind rc5_to_state r5_spans]. intros E. injection E as <- <-. exists R5Idle, 0, ck1. cbn; auto.
      + destruct Ht as (h1 & g & evs & ns & bits & Eh & HF & Es & Hl & Hb & Hck).
        assert (L : length evs = length ns).
        { apply forall2_length in HF. rewrite map_length in HF. auto. }
        assert (HF' : Forall2 (rc5_interval freq) (ns ++ [k + 1]) (map snd (evs ++ [(e, d)]))).
        { rewrite map_snd_snoc. apply Forall2_app; auto. }
        assert (Eh' : h ++ [(e, d)] = h1 ++ (true, g) :: (evs ++ [(e, d)])) by (rewrite Eh, <- app_assoc; reflexivity).
        assert (Et : N.odd (total (ns ++ [k + 1])) = N.odd ck1).
        { rewrite total_app. cbn [total fold_right]. rewrite N.add_0_r, E2, !N.odd_add, Hck, ?N.odd_add. reflexivity. }
        assert (Ev : (N.land ck1 1 =? 0) = negb (N.odd ck1)).
        { rewrite land1, <- N.bit0_mod, N.bit0_odd. destruct (N.odd ck1); reflexivity. }
        assert (Es' : samples false 0 (evs ++ [(e, d)]) (ns ++ [k + 1]) = bits ++ (if N.odd ck1 then [] else [e])).
        { rewrite samples_snoc by auto. rewrite Es. f_equal. rewrite N.add_0_l.
          replace (total ns + (k + 1)) with (total (ns ++ [k + 1]))
            by (rewrite total_app; cbn [total fold_right]; rewrite N.add_0_r; reflexivity).
          rewrite Et. destruct (N.odd ck1); reflexivity. }
        rewrite Ev. destruct (N.odd ck1) eqn:Eo; cbn [negb].
        * cbn [bind rc5_to_state r5_spans]. intros E. injection E as <- <-.
          exists (R5Data bit), buf, ck1. split; auto. split; auto.
          exists h1, g, (evs ++ [(e, d)]), (ns ++ [k + 1]), bits. rewrite app_nil_r in Es'. rewrite Et, Eo. auto 8.
        * destruct (N.eqb_spec bit 0) as [->|Hb0].
          -- assert (Eb : (if e then N.lor buf 1 else buf) = 2 ^ 13 + val_msb (bits ++ [e])).
             { rewrite val_msb_snoc. change (2 ^ (0 + 1)) with 2 in Hb. destruct e; [|lia]. rewrite Hb.
               replace (2 ^ 13 + 2 * val_msb bits) with (2 ^ (0 + 1) * (2 ^ 12 + val_msb bits))
                 by (change (2 ^ (0 + 1)) with 2; change (2 ^ 13) with 8192; change (2 ^ 12) with 4096; lia).
               pose proof (lor_low (2 ^ 12 + val_msb bits) 0) as X. change (N.shiftl 1 0) with 1 in X. rewrite X.
               change (2 ^ (0 + 1)) with 2; change (2 ^ 13) with 8192; change (2 ^ 12) with 4096; change (2 ^ 0) with 1. lia. }
             assert (G : forall c, c = rc5_unpack (2 ^ 13 + val_msb (bits ++ [e])) -> rc5_tells (h ++ [(e, d)]) c).
             { intros c ->. exists h1, g, (evs ++ [(e, d)]), (bits ++ [e]). split; auto.
               split; [|split; [rewrite app_length; cbn; lia|reflexivity]].
               exists evs, (e, d), ns, (k + 1). split; auto. split; auto. split; auto. rewrite Es, app_length. cbn. lia. }
             destruct e; cbn [bind rc5_to_state r5_spans r5_state]; intros E; injection E as <- <-;
               (exists R5Idle, 0, 0); (split; [reflexivity|]); (split; [reflexivity|]); right; eexists;
               (split; [reflexivity|]); apply G; rewrite Eb; reflexivity.
          -- assert (Hlt : 1 <= bit /\ bit <= 12) by lia.
             assert (Eb : (if e then N.lor buf (N.shiftl 1 bit) else buf) = 2 ^ 13 + 2 ^ (bit - 1 + 1) * val_msb (bits ++ [e])).
             { rewrite val_msb_snoc. replace (bit - 1 + 1) with bit by lia.
               assert (P : 2 ^ (bit + 1) = 2 * 2 ^ bit) by (rewrite N.pow_add_r; change (2 ^ 1) with 2; lia).
               rewrite P in Hb. destruct e; [|rewrite Hb, N.mul_add_distr_l; lia].
               assert (P13 : 2 ^ 13 = 2 ^ (bit + 1) * 2 ^ (12 - bit)) by (rewrite <- N.pow_add_r; f_equal; lia).
               rewrite Hb, <- P, P13, <- N.mul_add_distr_l, lor_low, P, !N.mul_add_distr_l. lia. }
             assert (Next : forall buf', buf' = 2 ^ 13 + 2 ^ (bit - 1 + 1) * val_msb (bits ++ [e]) ->
                            rc5_told (R5Data (bit - 1)) buf' ck1 (h ++ [(e, d)])).
             { intros buf' ->. exists h1, g, (evs ++ [(e, d)]), (ns ++ [k + 1]), (bits ++ [e]).
               split; auto. split; auto. split; auto. split; [rewrite app_length; cbn [length]; lia|].
               split; auto. rewrite Et, Eo. reflexivity. }
             unfold ushl1, usub. rewrite (proj2 (N.ltb_lt bit 16)) by lia. rewrite (proj2 (N.leb_le 1 bit)) by lia.
             destruct e; cbn [bind rc5_to_state r5_spans]; intros E; injection E as <- <-.
             ++ exists (R5Data (bit - 1)), (N.lor buf (N.shiftl 1 bit)), ck1. auto.
             ++ exists (R5Data (bit - 1)), buf, ck1. auto.
    - cbn [bind]. unfold rc5_reset. cbn [r5_spans r5_clock r5_state r5_bitbuf rc5_transition].
      destruct e.
      + rewrite Start. cbn [bind rc5_to_state r5_spans]. intros E. injection E as <- <-.
        exists (R5Data 12), (2 ^ 13), 0. auto.
      + cbn [bind rc5_to_state r5_spans]. intros E. injection E as <- <-. exists R5Idle, 0, 0. cbn; auto.
  Qed.

  Lemma rc5_sound_run h r0 r os :
    receiver_new (rc5_protocol b m) freq = Val r0 -> run r0 h = Val (r, os) ->
    exists s buf ck pv, r = st s buf ck pv /\ rc5_told s buf ck h.
  Proof.
    intros E0. rewrite (rc5_new_val b m freq Hm Hf) in E0. injection E0 as <-.
    revert r os. induction h as [|[e d] h IH] using rev_ind; intros r os E.
    - cbn [run_edges] in E. injection E as <- <-. exists R5Idle, 0, 0, 0. split; auto. reflexivity.
    - apply run_edges_snoc in E. destruct E as (r1 & os1 & o & E1 & E2 & ->).
      destruct (IH _ _ E1) as (s & buf & ck & pv & -> & Ht).
      destruct (rc5_sound_step s buf ck pv h e d r o Ht E2) as (s' & buf' & ck' & -> & Ht' & _).
      exists s', buf', ck', pv. auto.
  Qed.

  Lemma rc5_sound_report h e d r0 r os x :
    receiver_new (rc5_protocol b m) freq = Val r0 ->
    run r0 (h ++ [(e, d)]) = Val (r, os ++ [ROk (Some x)]) ->
    exists c, x = into c /\ rc5_tells (h ++ [(e, d)]) c.
  Proof.
    intros E0 E. apply run_edges_snoc in E. destruct E as (r1 & os1 & o & E1 & E2 & Eo).
    apply app_inj_tail in Eo. destruct Eo as [<- <-].
    destruct (rc5_sound_run h r0 r1 os E0 E1) as (s & buf & ck & pv & -> & Ht).
    destruct (rc5_sound_step s buf ck pv h e d r _ Ht E2) as (s' & buf' & ck' & -> & _ & [K|(c & K & T)]); [discriminate|].
    injection K as ->. exists c. auto.
  Qed.
End Rc5.

Section Rc6.
  Variables (b : build) (m : mono) (freq : N).
  Hypothesis (Hm : timebase m freq) (Hf : freq < M32) (Hu : 8 <= usize_bits b).
  Let ss := spans_of m freq rc6_pulses.
  Notation D := (rc6_dec b).
  Context {C : Type} (into : rc6_command -> C).
  Notation run := (@run_edges D C into).
  Notation ev := (@event_edge D C into).
  Notation st s data hd tg ck pv := (@mkRecv D (mkRc6Dec s data hd tg ck ss) pv).

  Lemma rc6_interval_of d k : spans_get ss d = Some k -> rc6_interval freq (k + 1) d /\ k < 8.
  Proof.
    intros E. apply spans_get_near_inv in E; auto using rc6_ok. destruct E as (p & t & E & H1 & H2).
    assert (L : k < 8).
    { assert (K : (N.to_nat k < length rc6_pulses)%nat) by (apply nth_error_Some; rewrite E; discriminate).
      cbn in K. lia. }
    split; auto. unfold rc6_interval. unfold rc6_pulses in E.
    assert (K : k = 0 \/ k = 1 \/ k = 2 \/ k = 3 \/ k = 4 \/ k = 5 \/ k = 6 \/ k = 7) by lia.
    destruct K as [->|[->|[->|[->|[->|[->|[->| ->]]]]]]]; cbn in E; injection E as <- <-.
    1-6: left; split; [lia|]; split; [lia|]; apply H1; lia.
    - right. split; [lia|]. split; [lia|auto].
    - right. split; [lia|]. split; [lia|auto].
  Qed.

  (** The header, read completely. *)
  Definition rc6_header (h1 : list edge) (g : N) (hevs : list edge) (hns : list N) : Prop :=
    exists lead pause hs hlast hns' hn,
      hevs = (false, lead) :: (true, pause) :: hs ++ [hlast] /\ hns = hns' ++ [hn] /\
      rc6_interval freq 6 lead /\ rc6_interval freq 2 pause /\
      Forall2 (rc6_interval freq) hns (map snd (hs ++ [hlast])) /\
      length (samples true 8 hs hns') = 3%nat /\ length (samples true 8 (hs ++ [hlast]) hns) = 4%nat.

  Definition rc6_told (s : rc6_state) (data : N) (tg : bool) (ck : N) (h : list edge) : Prop :=
    match s with
    | R6Idle => data = 0
    | R6Leading => data = 0 /\ ck = 0 /\ exists h1 g, h = h1 ++ [(true, g)]
    | R6LeadingPaus => data = 0 /\ ck = 6 /\ exists h1 g lead, h = h1 ++ (true, g) :: [(false, lead)] /\ rc6_interval freq 6 lead
    | R6HeaderData n => data = 0 /\ exists h1 g lead pause hs ns,
        h = h1 ++ (true, g) :: (false, lead) :: (true, pause) :: hs /\
        rc6_interval freq 6 lead /\ rc6_interval freq 2 pause /\
        Forall2 (rc6_interval freq) ns (map snd hs) /\
        N.of_nat (length (samples true 8 hs ns)) + n = 3 /\ N.odd ck = N.odd (8 + total ns)
    | R6Trailing => data = 0 /\ exists h1 g hevs hns tr,
        h = h1 ++ (true, g) :: hevs ++ tr /\ rc6_header h1 g hevs hns /\
        Forall (fun x => fst x = false /\ rc6_interval freq 1 (snd x)) tr /\
        N.odd ck = N.odd (8 + total hns + N.of_nat (length tr))
    | R6Data n => exists h1 g hevs hns tr tlast ds ns bits,
        h = h1 ++ (true, g) :: hevs ++ (tr ++ [tlast]) ++ ds /\ rc6_header h1 g hevs hns /\
        Forall (fun x => fst x = false /\ rc6_interval freq 1 (snd x)) tr /\
        (if tg then fst tlast = false /\ rc6_interval freq 3 (snd tlast)
         else fst tlast = true /\ rc6_interval freq 2 (snd tlast)) /\
        Forall2 (rc6_interval freq) ns (map snd ds) /\
        map negb (samples true (8 + total hns + N.of_nat (length tr) + (if tg then 3 else 2)) ds ns) = bits /\
        N.of_nat (length bits) + n = 15 /\ data = 2 ^ (n + 1) * val_msb bits /\
        N.odd ck = N.odd (8 + total hns + N.of_nat (length tr) + (if tg then 3 else 2) + total ns)
    | _ => False
    end.

  Definition rc6_tells (h : list edge) (c : rc6_command) : Prop :=
    exists h1 g evs tg bits, h = h1 ++ (true, g) :: evs /\ rc6_stream freq evs tg bits /\ length bits = 16%nat /\
      c = rc6_from_bits (val_msb bits) tg.

  Lemma odd_land ck : (N.land ck 1 =? 1) = N.odd ck.
  Proof. rewrite land1, <- N.bit0_mod, N.bit0_odd. destruct (N.odd ck); reflexivity. Qed.

  Lemma rc6_sound_step s data hd tg ck pv h e d r' o :
    rc6_told s data tg ck h -> ev (st s data hd tg ck pv) d e = Val (r', o) ->
    exists s' data' hd' tg' ck', r' = st s' data' hd' tg' ck' pv /\ rc6_told s' data' tg' ck' (h ++ [(e, d)]) /\
      (o = ROk None \/ exists c, o = ROk (Some (into c)) /\ rc6_tells (h ++ [(e, d)]) c).
  Proof.
    intros Ht. unfold event_edge. cbn [d_event rc6_dec rv_dec rv_prev]. unfold rc6_event.
    cbn [r6_spans r6_clock r6_state r6_data r6_headerdata r6_toggle].
    assert (Begin : rc6_told R6Leading 0 tg 0 (h ++ [(true, d)])) by (split; [reflexivity|]; split; [reflexivity|]; eauto).
    destruct (spans_get ss d) as [k|] eqn:Ek.
    2: { cbn [bind]. unfold rc6_reset, rc6_transition. cbn [r6_spans r6_clock r6_state r6_data r6_headerdata r6_toggle].
         destruct e; cbn [bind rc6_to_state r6_spans r6_clock r6_state r6_data r6_headerdata r6_toggle];
           intros E; injection E as <- <-.
         - exists R6Leading, 0, 0, tg, 0. auto.
         - exists R6Idle, 0, 0, tg, 0. split; auto. split; [reflexivity|]. auto. }
    destruct (rc6_interval_of d k Ek) as [Hint Hk].
    destruct (uadd _ _ k 1) as [t1| |] eqn:E1; cbn [bind]; try discriminate.
    apply near_zero_ticks in E1; auto. subst t1.
    destruct (uadd _ _ ck (k + 1)) as [ck1| |] eqn:E2; cbn [bind]; try discriminate.
    assert (Hu1 : 1 <= usize_bits b) by (clear -Hu; lia). pose proof (uadd_odd _ _ _ _ _ Hu1 E2) as Eo.
    cbn [r6_spans r6_clock r6_state r6_data r6_headerdata r6_toggle]. rewrite odd_land.
    assert (Hex : ck + (k + 1) < 256 -> ck1 = ck + (k + 1)).
    { intros L. pose proof (usize8 b Hu). unfold uadd in E2. rewrite (proj2 (N.ltb_lt _ _)) in E2 by lia. congruence. }
    assert (Hk1 : k + 1 <> 0) by lia. assert (Hk8 : k + 1 < 9) by lia.
    set (t := k + 1) in *. clearbody t. clear Ek E2 Hk k.
    unfold rc6_transition. cbn [r6_spans r6_clock r6_state r6_data r6_headerdata r6_toggle].
    assert (Tc : t = 1 \/ t = 2 \/ t = 3 \/ t = 4 \/ t = 5 \/ t = 6 \/ t = 7 \/ t = 8) by lia.
    destruct s as [| | |n| |n| |er]; try contradiction; cbn [rc6_told] in Ht.
    - (* idle *)
      subst data. destruct e; cbn [bind rc6_to_state r6_spans r6_clock r6_state r6_data r6_headerdata r6_toggle];
        intros E; injection E as <- <-.
      + exists R6Leading, 0, hd, tg, 0. auto.
      + exists R6Idle, 0, hd, tg, ck1. split; auto. split; [reflexivity|]. auto.
    - (* leading mark *)
      destruct Ht as (-> & -> & h1 & g & ->).
      assert (Q : e = false /\ t = 6 \/
        (match e, Some t with false, Some 6 => R6LeadingPaus | _, _ => R6Idle end) = R6Idle)
        by (destruct e; auto; destruct Tc as [->|[->|[->|[->|[->|[->|[->| ->]]]]]]]; auto).
      destruct Q as [[-> ->]|Q].
      + cbn [bind rc6_to_state r6_spans r6_clock r6_state r6_data r6_headerdata r6_toggle].
        intros E; injection E as <- <-. exists R6LeadingPaus, 0, hd, tg, ck1. split; auto. split; [|auto].
        split; auto. split; [apply Hex; lia|]. exists h1, g, d. split; auto. rewrite <- app_assoc. reflexivity.
      + intros E. assert (E' : r' = st R6Idle 0 hd tg ck1 pv /\ o = ROk None).
        { destruct e; [|destruct Tc as [->|[->|[->|[->|[->|[->|[->| ->]]]]]]]]; try discriminate Q;
            cbn [bind rc6_to_state r6_spans r6_clock r6_state r6_data r6_headerdata r6_toggle] in E;
            injection E as <- <-; auto. }
        destruct E' as [-> ->]. exists R6Idle, 0, hd, tg, ck1. split; auto. split; [reflexivity|]. auto.
    - (* leading space *)
      destruct Ht as (-> & -> & h1 & g & lead & -> & Hlead).
      assert (Q : e = true /\ t = 2 \/
        (match e, Some t with true, Some 2 => R6LeadingPaus | _, _ => R6Idle end) = R6Idle)
        by (destruct e; auto; destruct Tc as [->|[->|[->|[->|[->|[->|[->| ->]]]]]]]; auto).
      destruct Q as [[-> ->]|Q].
      + cbn [bind rc6_to_state r6_spans r6_clock r6_state r6_data r6_headerdata r6_toggle].
        intros E; injection E as <- <-. exists (R6HeaderData 3), 0, hd, tg, ck1. split; auto. split; [|auto].
        split; auto. exists h1, g, lead, d, [], []. split; [rewrite <- app_assoc; reflexivity|].
        split; auto. split; auto. split; [constructor|]. split; [reflexivity|]. rewrite Hex by lia. reflexivity.
      + intros E. assert (E' : r' = st R6Idle 0 hd tg ck1 pv /\ o = ROk None).
        { destruct e; [destruct Tc as [->|[->|[->|[->|[->|[->|[->| ->]]]]]]]|]; try discriminate Q;
            cbn [bind rc6_to_state r6_spans r6_clock r6_state r6_data r6_headerdata r6_toggle] in E;
            injection E as <- <-; auto. }
        destruct E' as [-> ->]. exists R6Idle, 0, hd, tg, ck1. split; auto. split; [reflexivity|]. auto.
    - (* header bits *)
      destruct Ht as (-> & h1 & g & lead & pause & hs & ns & Eh & Hlead & Hpause & HF & Hl & Hck).
      assert (L : length hs = length ns).
      { apply forall2_length in HF. rewrite map_length in HF. auto. }
      assert (HF' : Forall2 (rc6_interval freq) (ns ++ [t]) (map snd (hs ++ [(e, d)]))).
      { rewrite map_snd_snoc. apply Forall2_app; auto. }
      assert (Eh' : h ++ [(e, d)] = h1 ++ (true, g) :: (false, lead) :: (true, pause) :: (hs ++ [(e, d)]))
        by (rewrite Eh, <- app_assoc; reflexivity).
      assert (Et : N.odd (8 + total (ns ++ [t])) = N.odd ck1).
      { rewrite total_app. cbn [total fold_right]. rewrite N.add_0_r, N.add_assoc, Eo, !(N.odd_add _ t), Hck. reflexivity. }
      assert (Es' : samples true 8 (hs ++ [(e, d)]) (ns ++ [t]) = samples true 8 hs ns ++ (if N.odd ck1 then [e] else [])).
      { rewrite samples_snoc by auto. f_equal. rewrite <- Et, total_app. cbn [total fold_right].
        rewrite N.add_0_r, N.add_assoc. destruct (N.odd (8 + total ns + t)); reflexivity. }
      destruct (N.odd ck1) eqn:Eodd.
      + assert (Hn : n <= 3) by lia.
        assert (Em : exists mk, (if e then Val 0 else ushl1 (overflow_checks b) 16 n) = Val mk).
        { unfold ushl1. rewrite (proj2 (N.ltb_lt n 16)) by lia. destruct e; eauto. }
        destruct Em as [mk ->]. cbn [bind].
        assert (L4 : length (samples true 8 (hs ++ [(e, d)]) (ns ++ [t])) = S (length (samples true 8 hs ns)))
          by (rewrite Es', app_length; cbn [length]; lia).
        destruct (N.eqb_spec n 0) as [->|Hn0].
        * cbn [bind rc6_to_state r6_spans r6_clock r6_state r6_data r6_headerdata r6_toggle].
          intros E; injection E as <- <-. eexists R6Trailing, 0, _, tg, ck1. split; [reflexivity|]. split; [|auto].
          split; auto. exists h1, g, ((false, lead) :: (true, pause) :: hs ++ [(e, d)]), (ns ++ [t]), [].
          split; [rewrite app_nil_r; exact Eh'|]. split.
          { exists lead, pause, hs, (e, d), ns, t. do 5 (split; [auto|]). split; lia. }
          split; [constructor|]. cbn [length N.of_nat]. rewrite N.add_0_r, Et, Eodd. reflexivity.
        * unfold usub. rewrite (proj2 (N.leb_le 1 n)) by lia.
          cbn [bind rc6_to_state r6_spans r6_clock r6_state r6_data r6_headerdata r6_toggle].
          intros E; injection E as <- <-. eexists (R6HeaderData (n - 1)), 0, _, tg, ck1. split; [reflexivity|]. split; [|auto].
          split; auto. exists h1, g, lead, pause, (hs ++ [(e, d)]), (ns ++ [t]).
          do 4 (split; [auto|]). split; [lia|]. rewrite Et, Eodd. reflexivity.
      + cbn [bind rc6_to_state r6_spans r6_clock r6_state r6_data r6_headerdata r6_toggle].
        intros E; injection E as <- <-. eexists (R6HeaderData n), 0, _, tg, ck1. split; [reflexivity|]. split; [|auto].
        split; auto. exists h1, g, lead, pause, (hs ++ [(e, d)]), (ns ++ [t]).
        do 4 (split; [auto|]). split; [rewrite Es', app_nil_r; exact Hl|]. rewrite Et, Eodd. reflexivity.
    - (* trailer *)
      destruct Ht as (-> & h1 & g & hevs & hns & tr & Eh & Hh & HF & Hck).
      assert (Eh' : h ++ [(e, d)] = h1 ++ (true, g) :: hevs ++ (tr ++ [(e, d)]) ++ [])
        by (rewrite Eh, <- app_assoc; cbn [app]; rewrite <- app_assoc, app_nil_r; reflexivity).
      assert (Q : e = false /\ t = 3 \/ e = true /\ t = 2 \/ e = false /\ t = 1 \/
        (match e, Some t with false, Some 3 => R6Done | true, Some 2 => R6Done | false, Some 1 => R6Done
         | _, _ => R6Idle end) = R6Idle)
        by (destruct e; destruct Tc as [->|[->|[->|[->|[->|[->|[->| ->]]]]]]]; auto).
      destruct Q as [[-> ->]|[[-> ->]|[[-> ->]|Q]]].
      + cbn [bind rc6_to_state r6_spans r6_clock r6_state r6_data r6_headerdata r6_toggle].
        intros E; injection E as <- <-. eexists (R6Data 15), 0, _, true, ck1. split; [reflexivity|]. split; [|auto].
        exists h1, g, hevs, hns, tr, (false, d), [], [], []. split; auto. split; auto. split; auto. split; auto.
        split; [constructor|]. split; auto. split; [reflexivity|]. split; [reflexivity|].
        cbn [total fold_right]. rewrite N.add_0_r, Eo, !(N.odd_add _ 3), Hck. reflexivity.
      + cbn [bind rc6_to_state r6_spans r6_clock r6_state r6_data r6_headerdata r6_toggle].
        intros E; injection E as <- <-. eexists (R6Data 15), 0, _, false, ck1. split; [reflexivity|]. split; [|auto].
        exists h1, g, hevs, hns, tr, (true, d), [], [], []. split; auto. split; auto. split; auto. split; auto.
        split; [constructor|]. split; auto. split; [reflexivity|]. split; [reflexivity|].
        cbn [total fold_right]. rewrite N.add_0_r, Eo, !(N.odd_add _ 2), Hck. reflexivity.
      + cbn [bind rc6_to_state r6_spans r6_clock r6_state r6_data r6_headerdata r6_toggle].
        intros E; injection E as <- <-. eexists R6Trailing, 0, _, tg, ck1. split; [reflexivity|]. split; [|auto].
        split; auto. exists h1, g, hevs, hns, (tr ++ [(false, d)]). rewrite app_nil_r in Eh'. split; auto. split; auto.
        split; [apply Forall_app; auto|]. rewrite app_length. cbn [length].
        replace (N.of_nat (length tr + 1)) with (N.of_nat (length tr) + 1) by lia.
        rewrite N.add_assoc, Eo, !(N.odd_add _ 1), Hck. reflexivity.
      + intros E. assert (E' : r' = st R6Idle 0 hd tg ck1 pv /\ o = ROk None).
        { destruct e; destruct Tc as [->|[->|[->|[->|[->|[->|[->| ->]]]]]]]; try discriminate Q;
            cbn [bind rc6_to_state r6_spans r6_clock r6_state r6_data r6_headerdata r6_toggle] in E;
            injection E as <- <-; auto. }
        destruct E' as [-> ->]. exists R6Idle, 0, hd, tg, ck1. split; auto. split; [reflexivity|]. auto.
    - (* data bits *)
      destruct Ht as (h1 & g & hevs & hns & tr & tlast & ds & ns & bits & Eh & Hh & Htr & Htl & HF & Es & Hl & Hb & Hck).
      set (c0 := 8 + total hns + N.of_nat (length tr) + (if tg then 3 else 2)) in *.
      assert (L : length ds = length ns).
      { apply forall2_length in HF. rewrite map_length in HF. auto. }
      assert (HF' : Forall2 (rc6_interval freq) (ns ++ [t]) (map snd (ds ++ [(e, d)]))).
      { rewrite map_snd_snoc. apply Forall2_app; auto. }
      assert (Eh' : h ++ [(e, d)] = h1 ++ (true, g) :: hevs ++ (tr ++ [tlast]) ++ (ds ++ [(e, d)]))
        by (rewrite Eh, <- app_assoc; cbn [app]; rewrite <- !app_assoc; reflexivity).
      assert (Et : N.odd (c0 + total (ns ++ [t])) = N.odd ck1).
      { rewrite total_app. cbn [total fold_right]. rewrite N.add_0_r, N.add_assoc, Eo, !(N.odd_add _ t), Hck. reflexivity. }
      assert (Es' : map negb (samples true c0 (ds ++ [(e, d)]) (ns ++ [t])) = bits ++ (if N.odd ck1 then [negb e] else [])).
      { rewrite samples_snoc by auto. rewrite map_app, Es. f_equal. rewrite <- Et, total_app. cbn [total fold_right].
        rewrite N.add_0_r, N.add_assoc. destruct (N.odd (c0 + total ns + t)); reflexivity. }
      destruct (N.odd ck1) eqn:Eodd.
      + destruct (N.eqb_spec n 0) as [->|Hn0].
        * assert (Eb : (if e then data else N.lor data 1) = val_msb (bits ++ [negb e])).
          { rewrite val_msb_snoc. change (2 ^ (0 + 1)) with 2 in Hb. destruct e; cbn [negb]; [lia|]. rewrite Hb.
            pose proof (lor_low (val_msb bits) 0) as X. exact X. }
          assert (G : forall c, c = rc6_from_bits (val_msb (bits ++ [negb e])) tg -> rc6_tells (h ++ [(e, d)]) c).
          { intros c ->. exists h1, g, (hevs ++ (tr ++ [tlast]) ++ (ds ++ [(e, d)])), tg, (bits ++ [negb e]). split; auto.
            split; [|split; [rewrite app_length; cbn [length]; lia|reflexivity]].
            destruct Hh as (lead & pause & hs & hlast & hns' & hn & -> & -> & A1 & A2 & A3 & A4 & A5).
            exists lead, pause, hs, hlast, hns', hn, tr, tlast, ds, (e, d), ns, t.
            split; [reflexivity|]. do 8 (split; [auto|]). cbv zeta. fold c0. split; auto.
            rewrite app_length. cbn [length]. rewrite <- Es, map_length. lia. }
          destruct e; cbn [bind rc6_to_state r6_spans r6_clock r6_state r6_data r6_headerdata r6_toggle];
            intros E; injection E as <- <-; (eexists R6Idle, 0, _, tg, 0); (split; [reflexivity|]); (split; [reflexivity|]);
            right; eexists; (split; [reflexivity|]); apply G; rewrite <- Eb; reflexivity.
        * assert (Hlt : 1 <= n /\ n <= 15) by lia.
          assert (Eb : (if e then data else N.lor data (N.shiftl 1 n)) = 2 ^ (n - 1 + 1) * val_msb (bits ++ [negb e])).
          { rewrite val_msb_snoc. replace (n - 1 + 1) with n by lia.
            assert (P : 2 ^ (n + 1) = 2 * 2 ^ n) by (rewrite N.pow_add_r; change (2 ^ 1) with 2; lia).
            destruct e; cbn [negb].
            - rewrite Hb, P, N.add_0_r. lia.
            - rewrite Hb, lor_low, P, N.mul_add_distr_l. lia. }
          unfold ushl1, usub. rewrite (proj2 (N.ltb_lt n 16)) by lia. rewrite (proj2 (N.leb_le 1 n)) by lia.
          assert (Next : forall data', data' = 2 ^ (n - 1 + 1) * val_msb (bits ++ [negb e]) ->
                         rc6_told (R6Data (n - 1)) data' tg ck1 (h ++ [(e, d)])).
          { intros data' ->. exists h1, g, hevs, hns, tr, tlast, (ds ++ [(e, d)]), (ns ++ [t]), (bits ++ [negb e]).
            fold c0. do 6 (split; [auto|]). split; [rewrite app_length; cbn [length]; lia|]. split; auto.
            rewrite Et, Eodd. reflexivity. }
          destruct e; cbn [bind rc6_to_state r6_spans r6_clock r6_state r6_data r6_headerdata r6_toggle];
            intros E; injection E as <- <-; (eexists (R6Data (n - 1)), _, _, tg, ck1); (split; [reflexivity|]);
            (split; [|auto]); apply Next; auto.
      + cbn [bind rc6_to_state r6_spans r6_clock r6_state r6_data r6_headerdata r6_toggle].
        intros E; injection E as <- <-. eexists (R6Data n), _, _, tg, ck1. split; [reflexivity|]. split; [|auto].
        exists h1, g, hevs, hns, tr, tlast, (ds ++ [(e, d)]), (ns ++ [t]), bits. fold c0. rewrite app_nil_r in Es'.
        do 8 (split; [auto|]). rewrite Et, Eodd. reflexivity.
  Qed.

  Lemma rc6_sound_run h r0 r os :
    receiver_new (rc6_protocol b m) freq = Val r0 -> run r0 h = Val (r, os) ->
    exists s data hd tg ck pv, r = st s data hd tg ck pv /\ rc6_told s data tg ck h.
  Proof.
    intros E0. rewrite (rc6_new_val b m freq Hm Hf) in E0. injection E0 as <-.
    revert r os. induction h as [|[e d] h IH] using rev_ind; intros r os E.
    - cbn [run_edges] in E. injection E as <- <-. exists R6Idle, 0, 0, false, 0, 0. split; auto. reflexivity.
    - apply run_edges_snoc in E. destruct E as (r1 & os1 & o & E1 & E2 & ->).
      destruct (IH _ _ E1) as (s & data & hd & tg & ck & pv & -> & Ht).
      destruct (rc6_sound_step s data hd tg ck pv h e d r o Ht E2) as (s' & data' & hd' & tg' & ck' & -> & Ht' & _).
      exists s', data', hd', tg', ck', pv. auto.
  Qed.

  Lemma rc6_sound_report h e d r0 r os x :
    receiver_new (rc6_protocol b m) freq = Val r0 ->
    run r0 (h ++ [(e, d)]) = Val (r, os ++ [ROk (Some x)]) ->
    exists c, x = into c /\ rc6_tells (h ++ [(e, d)]) c.
  Proof.
    intros E0 E. apply run_edges_snoc in E. destruct E as (r1 & os1 & o & E1 & E2 & Eo).
    apply app_inj_tail in Eo. destruct Eo as [<- <-].
    destruct (rc6_sound_run h r0 r1 os E0 E1) as (s & data & hd & tg & ck & pv & -> & Ht).
    destruct (rc6_sound_step s data hd tg ck pv h e d r _ Ht E2)
      as (s' & data' & hd' & tg' & ck' & -> & _ & [K|(c & K & T)]); [discriminate|].
    injection K as ->. exists c. auto.
  Qed.
End Rc6.
