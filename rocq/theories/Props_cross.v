(** * Property theorems: several protocols on the air *)
From Coq Require Import NArith ZArith List Bool Lia ZifyBool ZifyNat ZifyN.
From Verif Require Import Machine Time Decoder Nec Rc5 Rc6 Denon Sbp Receiver Spec Bits Time_facts Run_facts Nec_facts
  Spec_receiver Spec_sound Sound_facts Biphase_facts Spec_cross Cross_facts Example_facts.
Import ListNotations.
Open Scope N_scope.

(** ** C66: a transmission of one protocol is not reported by the receiver of another

    [hist] is any history, [gap] the silence before the transmission [evs], which may include
    the edge that ends its last mark.
    [skipn (length hist) os] are the outcomes from the edge that ends the silence on. *)

Lemma periods_fit_prefix h x : periods_fit (h ++ [x]) -> periods_fit h.
Proof. destruct x as [e d]. intros H. apply periods_fit_snoc in H. apply H. Qed.
Lemma short_snoc h x : short (h ++ [x]) -> short h.
Proof. unfold short. intros H. apply Forall_app in H. apply H. Qed.

Lemma nec_header_none freq H qs : Forall (fun d => ~ near freq H 8 d) qs -> ~ has_nec_frame freq H qs.
Proof.
  intros F (pre & hd & ds & post & -> & Hh & _). apply Forall_app in F. destruct F as [_ F]. inversion F; subst. auto.
Qed.

Ltac sep F := eapply forall_not; [assumption| |exact F]; vm_compute; reflexivity.
Ltac bip F := eapply Forall_impl; [|exact F]; intros ?; apply biphase_period_not_near; [assumption|vm_compute; reflexivity].

Lemma nec_ignores :
  forall b m freq V C (into : nv_cmd V -> C) hist gap evs r0 r os,
  timebase m freq -> 20000 <= freq -> freq < 2 ^ 32 -> nv_timing V = NEC_STANDARD_TIMING ->
  longer freq 13500 8 gap -> periods_fit (hist ++ (true, gap) :: evs) ->
  sent_samsung freq evs \/ sent_samsung_repeat freq evs \/ sent_sbp freq evs \/ sent_denon freq evs \/
    sent_rc5 freq evs \/ sent_rc6 freq evs ->
  receiver_new (nec_protocol b m V) freq = Val r0 ->
  run_edges (D := nec_dec b m V) into r0 (hist ++ (true, gap) :: evs) = Val (r, os) ->
  commands (skipn (length hist) os) = [].
Proof.
  intros b m freq V C into hist gap evs r0 r os Hm Hlo Hf HT Hg Hfit S E0.
  assert (N : Forall (fun d => ~ near freq 13500 8 d) (periods_from 0 evs) /\ Forall (fun d => ~ near freq 11250 8 d) (periods_from 0 evs)).
  { destruct S as [(w & ps & -> & F & _)|[(x & -> & F & _)|[(a & c & ps & -> & F & _)|[(w & ps & -> & F & _)|[S|S]]]]];
      try rewrite pair_periods.
    - apply nec_all in F. split; sep F.
    - apply period_near_wide in F. assert (F' : Forall (among freq [(6750, 7)]) [period x]).
      { constructor; [exists 6750, 7; cbn; auto|constructor]. } split; sep F'.
    - apply sbp_all in F. split; sep F.
    - apply denon_frame_periods in F. split; sep F.
    - destruct (sent_rc5_facts freq evs S Hlo) as (_ & F & _). split; bip F.
    - destruct (sent_rc6_facts freq evs S Hlo) as (_ & F & _). split; bip F. }
  apply (nec_listener b m freq V C into hist gap evs r0 r os Hm Hf Hlo (or_introl HT) Hg Hfit); [| |exact E0];
    rewrite HT; cbn [header_high header_low repeat_low NEC_STANDARD_TIMING].
  - apply nec_header_none, N.
  - apply N.
Qed.

Theorem C66_nec :
  forall b m freq V C (into : nv_cmd V -> C) hist gap evs r0 r os,
  timebase m freq -> 20000 <= freq -> freq < 2 ^ 32 -> nv_timing V = NEC_STANDARD_TIMING ->
  longer freq 13500 8 gap -> periods_fit (hist ++ (true, gap) :: evs) ->
  ended freq 560 (sent_samsung freq) evs \/ ended freq 560 (sent_samsung_repeat freq) evs \/ ended freq 500 (sent_sbp freq) evs \/ ended freq 480 (sent_denon freq) evs \/
    ended freq 889 (sent_rc5 freq) evs \/ ended freq 444 (sent_rc6 freq) evs ->
  receiver_new (nec_protocol b m V) freq = Val r0 ->
  run_edges (D := nec_dec b m V) into r0 (hist ++ (true, gap) :: evs) = Val (r, os) ->
  commands (skipn (length hist) os) = [].
Proof.
  intros b m freq V C into hist gap evs r0 r os Hm Hlo Hf HT Hg Hfit S E0 E.
  enough (K : forall P mark, ended freq mark P evs ->
      (forall body r1 os1, P body -> periods_fit (hist ++ (true, gap) :: body) ->
         run_edges (D := nec_dec b m V) into r0 (hist ++ (true, gap) :: body) = Val (r1, os1) -> commands (skipn (length hist) os1) = []) ->
      commands (skipn (length hist) os) = []).
  { destruct S as [S|[S|[S|[S|[S|S]]]]]; apply (K _ _ S); intros body r1 os1 Sb Hb Eb; apply (nec_ignores b m freq V C into hist gap body r0 r1 os1 Hm Hlo Hf HT Hg Hb); tauto. }
  clear S. intros P mark [S|(body & d & -> & S & _)] K; [exact (K _ _ _ S Hfit E)|].
  change ((true, gap) :: body ++ [(false, d)]) with (((true, gap) :: body) ++ [(false, d)]) in Hfit. rewrite app_assoc in Hfit.
  refine (heard_ended (D := nec_dec b m V) into r0 hist ((true, gap) :: body) d r os [] _ _ E).
  - intros r1 os1. apply K; [exact S|]. eapply periods_fit_prefix, Hfit.
  - intros r1 os1 r' x _ E1. eapply (nec_end b m freq V); eauto.
Qed.
Print Assumptions C66_nec.

(** A Samsung receiver takes a Samsung BluRay header for its own, and stops at the pause. *)
Lemma sbp_no_samsung freq a c ps : 20000 <= freq -> sbp_frame freq a c ps -> ~ has_nec_frame freq 9000 (map period ps).
Proof.
  intros Hlo F (pre & hd & ds & post & E & Hh & L & Fd).
  destruct (sbp_frame_periods _ _ _ _ F) as (h & ads & pause & cds & Ep & Hh' & Hp & La & Lc & Fa & Fc).
  rewrite Ep in E.
  assert (NH : Forall (fun d => ~ near freq 9000 8 d) (ads ++ pause :: cds)).
  { apply Forall_app. split; [sep Fa|]. constructor; [|sep Fc].
    intros H. exact (near_below freq 5000 5 9000 8 pause Hlo Hp H eq_refl). }
  destruct pre as [|y pre]; cbn [app] in E; injection E as E1 E2.
  - assert (Hi : In pause ds).
    { rewrite <- (firstn_skipn 16 ds), <- app_assoc in E2.
      apply app_eq_len in E2; [|rewrite firstn_length; lia]. destruct E2 as [_ E2].
      destruct (skipn 16 ds) as [|y ds'] eqn:Es.
      - exfalso. pose proof (f_equal (@length N) Es) as Ls. rewrite skipn_length, L in Ls. discriminate.
      - cbn [app] in E2. injection E2 as <- _. rewrite <- (firstn_skipn 16 ds), Es. apply in_or_app. right. left. reflexivity. }
    rewrite Forall_forall in Fd. destruct (Fd _ Hi) as [H|H].
    + exact (near_below freq 2250 13 5000 5 pause Hlo H Hp eq_refl).
    + exact (near_below freq 1120 26 5000 5 pause Hlo H Hp eq_refl).
  - rewrite E2 in NH. apply Forall_app in NH. destruct NH as [_ NH]. inversion NH; subst. auto.
Qed.

Lemma samsung_ignores :
  forall b m freq C (into : samsung_command -> C) hist gap evs r0 r os,
  timebase m freq -> 20000 <= freq -> freq < 2 ^ 32 ->
  longer freq 13500 8 gap -> periods_fit (hist ++ (true, gap) :: evs) ->
  sent_nec freq evs \/ sent_nec_repeat freq evs \/ sent_sbp freq evs \/ sent_denon freq evs \/
    sent_rc5 freq evs \/ sent_rc6 freq evs ->
  receiver_new (nec_protocol b m NecSamsung) freq = Val r0 ->
  run_edges (D := nec_dec b m NecSamsung) into r0 (hist ++ (true, gap) :: evs) = Val (r, os) ->
  commands (skipn (length hist) os) = [].
Proof.
  intros b m freq C into hist gap evs r0 r os Hm Hlo Hf Hg Hfit S E0.
  assert (N : ~ has_nec_frame freq 9000 (periods_from 0 evs) /\ Forall (fun d => ~ near freq 6750 8 d) (periods_from 0 evs)).
  { destruct S as [(w & ps & -> & F & _)|[(x & -> & F & _)|[(a & c & ps & -> & F & _)|[(w & ps & -> & F & _)|[S|S]]]]];
      try rewrite pair_periods.
    - apply nec_all in F. split; [apply nec_header_none|]; sep F.
    - apply period_near_wide in F. assert (F' : Forall (among freq [(11250, 7)]) [period x]).
      { constructor; [exists 11250, 7; cbn; auto|constructor]. } split; [apply nec_header_none|]; sep F'.
    - split; [eapply sbp_no_samsung; eauto|]. apply sbp_all in F. sep F.
    - apply denon_frame_periods in F. split; [apply nec_header_none|]; sep F.
    - destruct (sent_rc5_facts freq evs S Hlo) as (_ & F & _). split; [apply nec_header_none|]; bip F.
    - destruct (sent_rc6_facts freq evs S Hlo) as (_ & F & _). split; [apply nec_header_none|]; bip F. }
  apply (nec_listener b m freq NecSamsung C into hist gap evs r0 r os Hm Hf Hlo (or_intror eq_refl) Hg Hfit); [| |exact E0];
    apply N.
Qed.

Theorem C66_samsung :
  forall b m freq C (into : samsung_command -> C) hist gap evs r0 r os,
  timebase m freq -> 20000 <= freq -> freq < 2 ^ 32 ->
  longer freq 13500 8 gap -> periods_fit (hist ++ (true, gap) :: evs) ->
  ended freq 560 (sent_nec freq) evs \/ ended freq 560 (sent_nec_repeat freq) evs \/ ended freq 500 (sent_sbp freq) evs \/ ended freq 480 (sent_denon freq) evs \/
    ended freq 889 (sent_rc5 freq) evs \/ ended freq 444 (sent_rc6 freq) evs ->
  receiver_new (nec_protocol b m NecSamsung) freq = Val r0 ->
  run_edges (D := nec_dec b m NecSamsung) into r0 (hist ++ (true, gap) :: evs) = Val (r, os) ->
  commands (skipn (length hist) os) = [].
Proof.
  intros b m freq C into hist gap evs r0 r os Hm Hlo Hf Hg Hfit S E0 E.
  enough (K : forall P mark, ended freq mark P evs ->
      (forall body r1 os1, P body -> periods_fit (hist ++ (true, gap) :: body) ->
         run_edges (D := nec_dec b m NecSamsung) into r0 (hist ++ (true, gap) :: body) = Val (r1, os1) -> commands (skipn (length hist) os1) = []) ->
      commands (skipn (length hist) os) = []).
  { destruct S as [S|[S|[S|[S|[S|S]]]]]; apply (K _ _ S); intros body r1 os1 Sb Hb Eb; apply (samsung_ignores b m freq C into hist gap body r0 r1 os1 Hm Hlo Hf Hg Hb); tauto. }
  clear S. intros P mark [S|(body & d & -> & S & _)] K; [exact (K _ _ _ S Hfit E)|].
  change ((true, gap) :: body ++ [(false, d)]) with (((true, gap) :: body) ++ [(false, d)]) in Hfit. rewrite app_assoc in Hfit.
  refine (heard_ended (D := nec_dec b m NecSamsung) into r0 hist ((true, gap) :: body) d r os [] _ _ E).
  - intros r1 os1. apply K; [exact S|]. eapply periods_fit_prefix, Hfit.
  - intros r1 os1 r' x _ E1. eapply (nec_end b m freq NecSamsung); eauto.
Qed.
Print Assumptions C66_samsung.

Lemma sbp_ignores :
  forall b m freq C (into : sbp_command -> C) hist gap evs r0 r os,
  timebase m freq -> 20000 <= freq -> freq < 2 ^ 32 ->
  longer freq 13500 8 gap -> short (hist ++ (true, gap) :: evs) ->
  sent_nec freq evs \/ sent_nec_repeat freq evs \/ sent_samsung freq evs \/ sent_samsung_repeat freq evs \/
    sent_denon freq evs \/ sent_rc5 freq evs \/ sent_rc6 freq evs ->
  receiver_new (sbp_protocol b m) freq = Val r0 ->
  run_edges (D := sbp_dec b m) into r0 (hist ++ (true, gap) :: evs) = Val (r, os) ->
  commands (skipn (length hist) os) = [].
Proof.
  intros b m freq C into hist gap evs r0 r os Hm Hlo Hf Hg Hs S E0.
  assert (A : alt false evs).
  { destruct S as [(w & ps & -> & _)|[(x & -> & _)|[(w & ps & -> & _)|[(x & -> & _)|[(w & ps & -> & _)|[S|S]]]]]];
      try apply alt_pairs; [apply (sent_rc5_facts freq evs S Hlo)|apply (sent_rc6_facts freq evs S Hlo)]. }
  assert (N : Forall (fun d => ~ near freq 9000 6 d) (periods_from 0 evs) \/ Forall (fun d => ~ near freq 5000 6 d) (periods_from 0 evs)).
  { destruct S as [(w & ps & -> & F & _)|[(x & -> & F & _)|[(w & ps & -> & F & _)|[(x & -> & F & _)|[(w & ps & -> & F & _)|[S|S]]]]]];
      try rewrite pair_periods.
    - apply nec_all in F. left. sep F.
    - apply period_near_wide in F. assert (F' : Forall (among freq [(11250, 7)]) [period x]).
      { constructor; [exists 11250, 7; cbn; auto|constructor]. } left. sep F'.
    - apply nec_all in F. right. sep F.
    - apply period_near_wide in F. assert (F' : Forall (among freq [(6750, 7)]) [period x]).
      { constructor; [exists 6750, 7; cbn; auto|constructor]. } left. sep F'.
    - apply denon_frame_periods in F. left. sep F.
    - destruct (sent_rc5_facts freq evs S Hlo) as (_ & F & _). left. bip F.
    - destruct (sent_rc6_facts freq evs S Hlo) as (_ & F & _). left. bip F. }
  apply (sbp_listener b m freq C into hist gap evs r0 r os Hm Hf Hlo Hg Hs A); [|exact E0].
  intros pre hd ads pause cds post E Hh Hp _ _ _ _. rewrite E in N. destruct N as [N|N].
  - apply Forall_app in N. destruct N as [_ N]. inversion N; subst. auto.
  - apply Forall_app in N. destruct N as [_ N]. inversion N as [|x l _ N']; subst.
    apply Forall_app in N'. destruct N' as [_ N']. inversion N'; subst. auto.
Qed.

Theorem C66_sbp :
  forall b m freq C (into : sbp_command -> C) hist gap evs r0 r os,
  timebase m freq -> 20000 <= freq -> freq < 2 ^ 32 ->
  longer freq 13500 8 gap -> short (hist ++ (true, gap) :: evs) ->
  ended freq 560 (sent_nec freq) evs \/ ended freq 560 (sent_nec_repeat freq) evs \/ ended freq 560 (sent_samsung freq) evs \/ ended freq 560 (sent_samsung_repeat freq) evs \/
    ended freq 480 (sent_denon freq) evs \/ ended freq 889 (sent_rc5 freq) evs \/ ended freq 444 (sent_rc6 freq) evs ->
  receiver_new (sbp_protocol b m) freq = Val r0 ->
  run_edges (D := sbp_dec b m) into r0 (hist ++ (true, gap) :: evs) = Val (r, os) ->
  commands (skipn (length hist) os) = [].
Proof.
  intros b m freq C into hist gap evs r0 r os Hm Hlo Hf Hg Hs S E0 E.
  enough (K : forall P mark, ended freq mark P evs ->
      (forall body r1 os1, P body -> short (hist ++ (true, gap) :: body) ->
         run_edges (D := sbp_dec b m) into r0 (hist ++ (true, gap) :: body) = Val (r1, os1) -> commands (skipn (length hist) os1) = []) ->
      commands (skipn (length hist) os) = []).
  { destruct S as [S|[S|[S|[S|[S|[S|S]]]]]]; apply (K _ _ S); intros body r1 os1 Sb Hb Eb; apply (sbp_ignores b m freq C into hist gap body r0 r1 os1 Hm Hlo Hf Hg Hb); tauto. }
  clear S. intros P mark [S|(body & d & -> & S & _)] K; [exact (K _ _ _ S Hs E)|].
  change ((true, gap) :: body ++ [(false, d)]) with (((true, gap) :: body) ++ [(false, d)]) in Hs. rewrite app_assoc in Hs.
  refine (heard_ended (D := sbp_dec b m) into r0 hist ((true, gap) :: body) d r os [] _ _ E).
  - intros r1 os1. apply K; [exact S|]. eapply short_snoc, Hs.
  - intros r1 os1 r' x _ E1. eapply (sbp_end b m freq); eauto.
Qed.
Print Assumptions C66_sbp.

Lemma denon_ignores :
  forall b m freq C (into : denon_command -> C) hist gap evs r0 r os,
  timebase m freq -> 20000 <= freq -> freq < 2 ^ 32 ->
  longer freq 13500 8 gap -> periods_fit (hist ++ (true, gap) :: evs) ->
  sent_nec freq evs \/ sent_nec_repeat freq evs \/ sent_samsung freq evs \/ sent_samsung_repeat freq evs \/
    sent_sbp freq evs \/ sent_rc5 freq evs \/ sent_rc6 freq evs ->
  receiver_new (denon_protocol b m) freq = Val r0 ->
  run_edges (D := denon_dec b m) into r0 (hist ++ (true, gap) :: evs) = Val (r, os) ->
  commands (skipn (length hist) os) = [].
Proof.
  intros b m freq C into hist gap evs r0 r os Hm Hlo Hf Hg Hfit S E0.
  assert (N : Forall (fun d => ~ near freq 5000 9 d) (periods_from 0 evs) \/ (length (periods_from 0 evs) <= 48)%nat).
  { destruct S as [(w & ps & -> & F & _)|[(x & -> & F & _)|[(w & ps & -> & F & _)|[(x & -> & F & _)|[(a & c & ps & -> & F & _)|[S|S]]]]]];
      try rewrite pair_periods.
    - apply nec_all in F. left. sep F.
    - right. cbn. lia.
    - apply nec_all in F. left. sep F.
    - right. cbn. lia.
    - right. destruct (sbp_frame_periods _ _ _ _ F) as (h & ads & pause & cds & -> & _ & _ & La & Lc & _).
      cbn [length]. rewrite app_length. cbn [length]. lia.
    - destruct (sent_rc5_facts freq evs S Hlo) as (_ & F & _). left. bip F.
    - right. apply (sent_rc6_facts freq evs S Hlo). }
  apply (denon_listener b m freq C into hist gap evs r0 r os Hm Hf Hlo Hg Hfit); [|exact E0].
  intros pre hd ds post E Hh L _. rewrite E in N. destruct N as [N|N].
  - apply Forall_app in N. destruct N as [_ N]. inversion N; subst. auto.
  - rewrite app_length in N. cbn [length] in N. rewrite app_length in N. lia.
Qed.

Theorem C66_denon :
  forall b m freq C (into : denon_command -> C) hist gap evs r0 r os,
  timebase m freq -> 20000 <= freq -> freq < 2 ^ 32 ->
  longer freq 13500 8 gap -> periods_fit (hist ++ (true, gap) :: evs) ->
  ended freq 560 (sent_nec freq) evs \/ ended freq 560 (sent_nec_repeat freq) evs \/ ended freq 560 (sent_samsung freq) evs \/ ended freq 560 (sent_samsung_repeat freq) evs \/
    ended freq 500 (sent_sbp freq) evs \/ ended freq 889 (sent_rc5 freq) evs \/ ended freq 444 (sent_rc6 freq) evs ->
  receiver_new (denon_protocol b m) freq = Val r0 ->
  run_edges (D := denon_dec b m) into r0 (hist ++ (true, gap) :: evs) = Val (r, os) ->
  commands (skipn (length hist) os) = [].
Proof.
  intros b m freq C into hist gap evs r0 r os Hm Hlo Hf Hg Hfit S E0 E.
  enough (K : forall P mark, ended freq mark P evs ->
      (forall body r1 os1, P body -> periods_fit (hist ++ (true, gap) :: body) ->
         run_edges (D := denon_dec b m) into r0 (hist ++ (true, gap) :: body) = Val (r1, os1) -> commands (skipn (length hist) os1) = []) ->
      commands (skipn (length hist) os) = []).
  { destruct S as [S|[S|[S|[S|[S|[S|S]]]]]]; apply (K _ _ S); intros body r1 os1 Sb Hb Eb; apply (denon_ignores b m freq C into hist gap body r0 r1 os1 Hm Hlo Hf Hg Hb); tauto. }
  clear S. intros P mark [S|(body & d & -> & S & _)] K; [exact (K _ _ _ S Hfit E)|].
  change ((true, gap) :: body ++ [(false, d)]) with (((true, gap) :: body) ++ [(false, d)]) in Hfit. rewrite app_assoc in Hfit.
  refine (heard_ended (D := denon_dec b m) into r0 hist ((true, gap) :: body) d r os [] _ _ E).
  - intros r1 os1. apply K; [exact S|]. eapply periods_fit_prefix, Hfit.
  - intros r1 os1 r' x _ E1. eapply (denon_end b m freq); eauto.
Qed.
Print Assumptions C66_denon.

Lemma rc5_ignores :
  forall b m freq C (into : rc5_command -> C) hist gap evs r0 r os,
  timebase m freq -> 20000 <= freq -> freq < 2 ^ 32 -> 8 <= usize_bits b ->
  longer freq 13500 8 gap ->
  sent_nec freq evs \/ sent_nec_repeat freq evs \/ sent_samsung freq evs \/ sent_samsung_repeat freq evs \/
    sent_sbp freq evs \/ sent_denon freq evs \/ sent_rc6 freq evs ->
  receiver_new (rc5_protocol b m) freq = Val r0 ->
  run_edges (D := rc5_dec b) into r0 (hist ++ (true, gap) :: evs) = Val (r, os) ->
  commands (skipn (length hist) os) = [].
Proof.
  intros b m freq C into hist gap evs r0 r os Hm Hlo Hf Hu Hg S E0.
  apply (rc5_listener b m freq C into hist gap evs r0 r os Hm Hf Hlo Hu Hg); [|exact E0].
  destruct S as [(w & ps & -> & _ & M)|[(x & -> & _ & M)|[(w & ps & -> & _ & M)|[(x & -> & _ & M)|[(a & c & ps & -> & _ & M)|[(w & ps & -> & _ & M)|S]]]]]].
  - apply (pairs_no_rc5 freq 9000 560); auto; try reflexivity; lia.
  - apply (pairs_no_rc5 freq 9000 560); auto; try reflexivity; try lia. exists x, []. auto.
  - apply (pairs_no_rc5 freq 4500 560); auto; try reflexivity; lia.
  - apply (pairs_no_rc5 freq 4500 560); auto; try reflexivity; try lia. exists x, []. auto.
  - apply (pairs_no_rc5 freq 4500 500); auto; try reflexivity; lia.
  - apply (pairs_no_rc5 freq 3400 480); auto; try reflexivity; lia.
  - apply rc6_no_rc5; auto.
Qed.

Theorem C66_rc5 :
  forall b m freq C (into : rc5_command -> C) hist gap evs r0 r os,
  timebase m freq -> 20000 <= freq -> freq < 2 ^ 32 -> 8 <= usize_bits b ->
  longer freq 13500 8 gap ->
  ended freq 560 (sent_nec freq) evs \/ ended freq 560 (sent_nec_repeat freq) evs \/ ended freq 560 (sent_samsung freq) evs \/ ended freq 560 (sent_samsung_repeat freq) evs \/
    ended freq 500 (sent_sbp freq) evs \/ ended freq 480 (sent_denon freq) evs \/ ended freq 444 (sent_rc6 freq) evs ->
  receiver_new (rc5_protocol b m) freq = Val r0 ->
  run_edges (D := rc5_dec b) into r0 (hist ++ (true, gap) :: evs) = Val (r, os) ->
  commands (skipn (length hist) os) = [].
Proof.
  intros b m freq C into hist gap evs r0 r os Hm Hlo Hf Hu Hg S E0 E.
  assert (Q : forall P mark, ended freq mark P evs ->
      (forall body r1 os1, P body ->
         run_edges (D := rc5_dec b) into r0 (hist ++ (true, gap) :: body) = Val (r1, os1) -> commands (skipn (length hist) os1) = []) ->
      50 <= mark -> separate [(mark, 12)] 889 13 = true -> separate [(mark, 12)] 1778 11 = true ->
      commands (skipn (length hist) os) = []).
  { clear S. intros P mark [S|(body & d & -> & S & Hd)] K H50 S1 S2; [exact (K _ _ _ S E)|].
    refine (heard_ended (D := rc5_dec b) into r0 hist ((true, gap) :: body) d r os [] _ _ E).
    - intros r1 os1. apply K, S.
    - intros r1 os1 r' x _ E1. eapply (rc5_end b m freq); eauto. intros n. apply (rc5_interval_among freq [(mark, 12)]); auto.
      + cbn [forallb fst snd]. apply N.leb_le in H50. rewrite H50. reflexivity.
      + exists mark, 12. cbn; auto. }
  destruct S as [S|[S|[S|[S|[S|[S|S]]]]]]; apply (Q _ _ S); try reflexivity; try lia; intros body r1 os1 Sb Eb;
    apply (rc5_ignores b m freq C into hist gap body r0 r1 os1 Hm Hlo Hf Hu Hg); tauto.
Qed.
Print Assumptions C66_rc5.

Lemma rc6_no_lead freq evs lead : 20000 <= freq ->
  sent_nec freq evs \/ sent_nec_repeat freq evs \/ sent_samsung freq evs \/ sent_samsung_repeat freq evs \/
    sent_sbp freq evs \/ sent_denon freq evs \/ sent_rc5 freq evs ->
  In (false, lead) evs -> near freq 2664 13 lead -> False.
Proof.
  intros Hlo S Hi.
  destruct S as [(w & ps & -> & _ & M)|[(x & -> & _ & M)|[(w & ps & -> & _ & M)|[(x & -> & _ & M)|[(a & c & ps & -> & _ & M)|[(w & ps & -> & _ & M)|S]]]]]].
  - eapply separate_ok; [exact Hlo| |eapply marks_among; [exact M|exact Hi]]. reflexivity.
  - eapply separate_ok; [exact Hlo| |eapply marks_among; [|exact Hi]; exists x, []; split; [reflexivity|split; [exact M|apply Forall_nil]]].
    instantiate (1 := 560). reflexivity.
  - eapply separate_ok; [exact Hlo| |eapply marks_among; [exact M|exact Hi]]. reflexivity.
  - eapply separate_ok; [exact Hlo| |eapply marks_among; [|exact Hi]; exists x, []; split; [reflexivity|split; [exact M|apply Forall_nil]]].
    instantiate (1 := 560). reflexivity.
  - eapply separate_ok; [exact Hlo| |eapply marks_among; [exact M|exact Hi]]. reflexivity.
  - eapply separate_ok; [exact Hlo| |eapply marks_among; [exact M|exact Hi]]. reflexivity.
  - eapply separate_ok; [exact Hlo| |apply (sent_rc5_facts freq evs S Hlo) in Hi; exact Hi]. reflexivity.
Qed.

Lemma rc6_ignores b m freq C (into : rc6_command -> C) hist gap evs r0 r os mark :
  timebase m freq -> 20000 <= freq -> freq < 2 ^ 32 -> 8 <= usize_bits b ->
  longer freq 13500 8 gap -> separate [(mark, 12)] 2664 13 = true ->
  ended freq mark (fun evs => sent_nec freq evs \/ sent_nec_repeat freq evs \/ sent_samsung freq evs \/ sent_samsung_repeat freq evs \/
    sent_sbp freq evs \/ sent_denon freq evs \/ sent_rc5 freq evs) evs ->
  receiver_new (rc6_protocol b m) freq = Val r0 ->
  run_edges (D := rc6_dec b) into r0 (hist ++ (true, gap) :: evs) = Val (r, os) ->
  commands (skipn (length hist) os) = [].
Proof.
  intros Hm Hlo Hf Hu Hg Sp S E0. apply (rc6_listener b m freq C into hist gap evs r0 r os Hm Hf Hlo Hu Hg); [|exact E0].
  intros lead Hi. destruct S as [S|(body & d & -> & S & Hd)]; [exact (rc6_no_lead freq _ _ Hlo S Hi)|].
  apply in_app_or in Hi. destruct Hi as [Hi|[Hi|[]]]; [exact (rc6_no_lead freq _ _ Hlo S Hi)|]. injection Hi as ->.
  apply (separate_ok freq [(mark, 12)]); auto. exists mark, 12. cbn; auto.
Qed.

Theorem C66_rc6 :
  forall b m freq C (into : rc6_command -> C) hist gap evs r0 r os,
  timebase m freq -> 20000 <= freq -> freq < 2 ^ 32 -> 8 <= usize_bits b ->
  longer freq 13500 8 gap ->
  ended freq 560 (sent_nec freq) evs \/ ended freq 560 (sent_nec_repeat freq) evs \/ ended freq 560 (sent_samsung freq) evs \/ ended freq 560 (sent_samsung_repeat freq) evs \/
    ended freq 500 (sent_sbp freq) evs \/ ended freq 480 (sent_denon freq) evs \/ ended freq 889 (sent_rc5 freq) evs ->
  receiver_new (rc6_protocol b m) freq = Val r0 ->
  run_edges (D := rc6_dec b) into r0 (hist ++ (true, gap) :: evs) = Val (r, os) ->
  commands (skipn (length hist) os) = [].
Proof.
  intros b m freq C into hist gap evs r0 r os Hm Hlo Hf Hu Hg S E0 E.
  assert (W : forall (P Q : list edge -> Prop) mark, (forall y, P y -> Q y) -> ended freq mark P evs -> ended freq mark Q evs).
  { intros P Q mark H [K|(body & d & -> & K & Hd)]; [left; auto|right; exists body, d; auto]. }
  destruct S as [S|[S|[S|[S|[S|[S|S]]]]]];
    (eapply (rc6_ignores b m freq C into hist gap evs r0 r os); [exact Hm|exact Hlo|exact Hf|exact Hu|exact Hg| |eapply W; [|exact S]; intros y Hy; tauto|exact E0|exact E]);
    reflexivity.
Qed.
Print Assumptions C66_rc6.

(** A Samsung BluRay frame at 20 kHz.  A Samsung receiver takes the header for its own and
    reports a broken frame at the pause; the Samsung BluRay receiver reports the command. *)
Definition c66_sbp : list (N * N) :=
  (92, 89) :: map (fun x : bool => if x then (10, 31) else (10, 9)) (bits_lsb 16 4660) ++
  (10, 92) :: map (fun x : bool => if x then (10, 28) else (10, 11)) (bits_lsb 20 (2 ^ 4 * 77 + 2 ^ 12 * compl8 77)).
Example C66_example_sbp :
  let evs := pair_edges c66_sbp in
  sent_sbp 20000 evs /\ longer 20000 13500 8 400 /\ short ((true, 400) :: evs) /\
  outcome_at (sbp_protocol (debug_build 32) MU32) 20000 ((true, 400) :: evs) (length evs) = Some (ROk (Some (mkSbp 4660 77 true))) /\
  outcome_at (nec_protocol (debug_build 32) MU32 NecSamsung) 20000 ((true, 400) :: evs) 36 = Some (RErr EData).
Proof.
  split; [|split; [vm_compute; reflexivity|split; [apply shortb_ok; vm_compute; reflexivity|split; vm_compute; reflexivity]]].
  exists 4660, (2 ^ 4 * 77 + 2 ^ 12 * compl8 77), c66_sbp. split; [reflexivity|]. split.
  - apply sbp_frame_ok. vm_compute. reflexivity.
  - eexists _, _. split; [reflexivity|]. split; [apply nearb_ok; vm_compute; reflexivity|].
    apply Forall_forall. intros x Hx. apply nearb_ok.
    assert (F : forallb (fun x => nearb 20000 500 12 (fst x)) (tl c66_sbp) = true) by (vm_compute; reflexivity).
    rewrite forallb_forall in F. apply F. exact Hx.
Qed.

(** An RC6 frame at 40 kHz.  An RC5 receiver reads the double half-bits as
    single ones and starts over and over. *)
Example C66_example_rc6 :
  let evs := (false, 104) :: map (fun x : edge => (fst x, 17 * snd x)) (tl (tl (level_edges false 0 (rc6_wave true (bits_msb 16 1036))))) in
  sent_rc6 40000 evs /\ longer 40000 13500 8 700 /\
  outcome_at (rc6_protocol (debug_build 32) MU32) 40000 ((true, 700) :: evs) (length evs) = Some (ROk (Some (mkRc6 4 12 true))) /\
  match outcomes (rc5_protocol (debug_build 32) MU32) 40000 ((true, 700) :: evs) with
  | Some os => commands os = [] | None => False end.
Proof.
  split; [|split; [vm_compute; reflexivity|split; vm_compute; reflexivity]].
  exists true, 1036, 0. apply rc6_edges_ok; [apply nearb_ok|]; vm_compute; reflexivity.
Qed.
