(** * C100: transmissions that break off, for pollers *)
From Coq Require Import NArith ZArith List Bool Lia ZifyBool ZifyNat ZifyN.
From Verif Require Import Machine Time Decoder Nec Rc5 Rc6 Sbp Denon Receiver Spec Bits Codec_facts Time_facts Run_facts Nec_facts
  Rc5_facts Rc6_facts Sbp_facts Denon_facts Spec_receiver Receiver_facts Spec_sound Sound_facts Spec_state State_facts Props_decode Props_receiver Props_state
  Cross_facts Traffic_facts Props_cross Props_traffic Example_facts Spec_phys Phys_facts Props_phys Poll_facts Props_poll Keys_facts
  Pollkeys_facts Props_pollkeys Pollbi_facts Props_tutorial Multi_facts Props_polltraffic Spec_cross Spec_broken Broken_facts Props_broken
  Spec_brokenreal Props_brokenreal.
Import ListNotations.
Open Scope N_scope.

(** The edges of a broken transmission are fewer than those of a whole one. *)
Lemma broken_length freq t evs : broken freq t evs -> (length evs <= 99)%nat.
Proof.
  intros (p & x & rest & Hs & H). apply sent_length in Hs. rewrite app_length in Hs. cbn [length] in Hs.
  destruct H as [->|(_ & _ & d & _ & _ & ->)]; rewrite ?app_length; cbn [length]; unfold edge in *; lia.
Qed.

Lemma noisy_bare freq l chk w : 16 <= w -> noisy_traffic freq l ->
  Forall (fun x => longer freq 13500 8 (fst x) /\ (chk = false \/ 8 * N.of_nat (length (snd x)) < 2 ^ w)) (bare (map snd l)).
Proof.
  intros Hw. induction 1 as [|[whole [[t g] e]] l [Hg He] F IH]; [constructor|]. cbn [bare map fst snd] in *. constructor; [|exact IH]. cbn [fst snd].
  split; [exact Hg|]. right.
  assert (K : (length e <= 99)%nat) by (destruct whole; [eapply ended_length, He|eapply broken_length, He]).
  apply N.lt_le_trans with (2 ^ 16); [change (2 ^ 16) with 65536; unfold edge in *; lia|].
  apply N.pow_le_mono_r; [discriminate|exact Hw].
Qed.

Section Polled.
  Variables (P : protocol) (C : Type) (into : dcmd (p_dec P) -> C) (heard : transmission -> list (dcmd (p_dec P))).
  Variables (freq T first : N) (p0 : periodic_poll (p_dec P)) (ok : list (bool * transmission) -> Prop) (okh : list edge -> Prop).
  Hypothesis (HT : 0 < T) (Hfi : first < T) (Hf : freq < 2 ^ 32) (Hr : rate_ok 30000 [40000] freq 1).
  Hypothesis (Ep : poll_new P freq = Val p0).
  Hypothesis Hrun : forall h l r0, noisy_traffic freq l -> ok (parts l) -> okh h -> short (h ++ on_air (map snd l)) -> receiver_new P freq = Val r0 ->
    exists r os, run_edges into r0 (h ++ on_air (map snd l)) = Val (r, os) /\ commands (skipn (length h) os) = map into (whole_said heard l).

  Lemma noisy_polled l L gap evs n : (forall h, (L = [] -> h = []) -> (length h <= S (length L))%nat -> okh h) ->
    ok (parts l) -> real_noisy freq (freq * T) 1 3 l -> on_air (map snd l) = (true, gap) :: evs -> alt false evs -> swept T first gap evs n L ->
    polled_all P freq T first into p0 L gap evs n (map into (whole_said heard l)).
  Proof.
    intros Hh Hl Ht El A (W1 & W2 & W3 & W4). destruct (poll_recv _ _ _ Ep) as (r0 & Er).
    assert (F0 : 0 < freq) by (destruct Hr as (_ & [K|[_ K]]); [lia|usual]).
    pose proof (before_counts T first HT Hfi freq ltac:(lia)) as Hc.
    destruct (polled_series T first HT Hfi P freq C into L gap evs n p0 r0 Ep Er A W1 W4 W3 W2) as (h & g & G1 & H0 & H1 & Hs & Hq).
    assert (B0 : before T first 0 = 0) by (unfold before; rewrite N.add_0_l; apply N.div_small; lia).
    destruct (noisy_measured freq (freq * T) 1 (before T first) ltac:(lia) Hc Hr l Ht 0) as (l' & E & M & Ht').
    rewrite El in E. cbn [measured] in E. rewrite N.add_0_l, B0, N.sub_0_r in E.
    destruct l' as [|[w [[x g0] es]] l']; [discriminate|]. unfold on_air in E. cbn [map flat_map fst snd app] in E. injection E as Eg Em.
    set (l2 := (w, (x, g, es)) :: l').
    assert (Ea : (true, g) :: measured (before T first) gap evs = on_air (map snd l2)).
    { unfold l2, on_air. cbn [map flat_map fst snd app]. rewrite Em. reflexivity. }
    assert (Ht2 : noisy_traffic freq l2).
    { unfold noisy_traffic in Ht'. apply Forall_cons_iff in Ht'. destruct Ht' as [[K1 K2] K3]. constructor; [|exact K3].
      split; [|exact K2]. apply (longer_more _ _ _ g0); [exact K1|lia]. }
    assert (M2 : parts l2 = parts l) by exact M.
    rewrite Ea in *.
    assert (Ok2 : ok (parts l2)) by (rewrite M2; exact Hl).
    destruct (Hrun h l2 r0 Ht2 Ok2 (Hh h H0 H1) Hs Er) as (r & os & Eos & Ec).
    pose proof (run_edges_length into _ _ _ _ Eos) as Lo.
    destruct (Hq r (firstn (length h) os) (skipn (length h) os)) as (q1 & q2 & k & Eo & L1 & Hk & Hfl).
    { rewrite firstn_skipn. exact Eos. }
    { rewrite app_length in Lo. unfold edge, outcome in *. rewrite firstn_length. lia. }
    exists q1, q2, k. split; [exact Eo|]. split; [exact L1|]. split; [exact Hk|].
    assert (X : commands q2 = commands (skipn (length h) os)).
    { apply (proj2 (Hfl _ (fun o => match o with ROk (Some c) => [c] | _ => [] end) eq_refl)). }
    refine (eq_trans X (eq_trans Ec _)). f_equal. apply said_parts, M2.
  Qed.
End Polled.

(** What a poller of each protocol understands; [L] are the samples before (C40: not too many of
    them in debug builds for RC5 and RC6). *)
Inductive polls_whole (freq : N) (L : list bool) : forall P : protocol, (transmission -> list (dcmd (p_dec P))) -> Prop :=
| whole_nec b m : timebase m freq -> polls_whole freq L (nec_protocol b m NecStandard) heard_nec
| whole_nec16 b m : timebase m freq -> polls_whole freq L (nec_protocol b m Nec16Bit) heard_nec16
| whole_raw b m : timebase m freq -> polls_whole freq L (nec_protocol b m NecRaw) heard_raw
| whole_apple b m : timebase m freq -> polls_whole freq L (nec_protocol b m NecApple) heard_apple
| whole_samsung b m : timebase m freq -> polls_whole freq L (nec_protocol b m NecSamsung) heard_samsung
| whole_sbp b m : timebase m freq -> polls_whole freq L (sbp_protocol b m) heard_sbp
| whole_rc5 b m : timebase m freq -> 16 <= usize_bits b -> after_any b L -> polls_whole freq L (rc5_protocol b m) heard_rc5
| whole_rc6 b m : timebase m freq -> 16 <= usize_bits b -> after_any b L -> polls_whole freq L (rc6_protocol b m) heard_rc6.

(** A poller samples a line on which some transmissions break off, whatever it has sampled before:
    no poll panics, and the reports are exactly the commands of the whole transmissions of its protocol. *)
Theorem C100_polled :
  forall P heard freq T first l L gap evs n C (into : dcmd (p_dec P) -> C) p0,
  polls_whole freq L P heard ->
  freq < 2 ^ 32 -> 0 < T -> first < T -> rate_ok 30000 [40000] freq 1 ->
  real_noisy freq (freq * T) 1 3 l -> on_air (map snd l) = (true, gap) :: evs -> alt false evs -> swept T first gap evs n L ->
  poll_new P freq = Val p0 ->
  polled_all P freq T first into p0 L gap evs n (map into (whole_said heard l)).
Proof.
  intros P heard freq T first l L gap evs n C into p0 HP Hf HT Hfi Hr Ht El A W Ep. pose proof (rate_20 _ _ Hr) as H20.
  assert (Nec : forall b m V (into : nv_cmd V -> C) heard p0, timebase m freq -> nec_timing_ok (nv_timing V) ->
    (forall hist l r0 r os, noisy_traffic freq l -> short (hist ++ on_air (map snd l)) -> receiver_new (nec_protocol b m V) freq = Val r0 ->
      run_edges (D := nec_dec b m V) into r0 (hist ++ on_air (map snd l)) = Val (r, os) ->
      commands (skipn (length hist) os) = map into (whole_said heard l)) ->
    poll_new (nec_protocol b m V) freq = Val p0 ->
    polled_all (nec_protocol b m V) freq T first into p0 L gap evs n (map into (whole_said heard l))).
  { clear p0 Ep into HP heard. intros b m V into heard p0 Hm HV Hc Ep.
    apply (noisy_polled (nec_protocol b m V) C into heard freq T first p0 (fun _ => True) (fun _ => True)); auto.
    intros h l0 r0 Hl0 _ _ Hs Er.
    destruct (runs (nec_protocol b m V) freq C into (h ++ on_air (map snd l0)) r0) as (r & os & E); [|exact Er|].
    - apply C39_nec; auto. left. apply (short_half m freq); auto.
    - exists r, os. split; [exact E|]. exact (Hc h l0 r0 r os Hl0 Hs Er E). }
  destruct HP as [b m Hm|b m Hm|b m Hm|b m Hm|b m Hm|b m Hm|b m Hm Hu HL|b m Hm Hu HL].
  - apply (Nec b m NecStandard into); auto; [now left|]. intros. eapply C100_nec; eauto.
  - apply (Nec b m Nec16Bit into); auto; [now left|]. intros. eapply C100_nec16; eauto.
  - apply (Nec b m NecRaw into); auto; [now left|]. intros. eapply C100_raw; eauto.
  - apply (Nec b m NecApple into); auto; [now left|]. intros. eapply C100_apple; eauto.
  - apply (Nec b m NecSamsung into); auto; [now right|]. intros. eapply C100_samsung; eauto.
  - apply (noisy_polled (sbp_protocol b m) C into heard_sbp freq T first p0 (fun _ => True) (fun _ => True)); auto.
    intros h l0 r0 Hl0 _ _ Hs Er.
    destruct (runs (sbp_protocol b m) freq C into (h ++ on_air (map snd l0)) r0) as (r & os & E); [|exact Er|].
    + apply C39_sbp; auto. left. apply (short_half m freq); auto.
    + exists r, os. split; [exact E|]. exact (C100_sbp b m freq C into h l0 r0 r os Hm H20 Hf Hl0 Hs Er E).
  - apply (noisy_polled (rc5_protocol b m) C into heard_rc5 freq T first p0 (fun _ => True)
      (fun h => overflow_checks b = false \/ 8 * N.of_nat (length h) < 2 ^ usize_bits b)); auto.
    + intros h l0 r0 Hl0 _ Hh Hs Er.
      destruct (rc5_bare_total b m freq Hm Hf C into h _ r0 Hh (noisy_bare freq l0 (overflow_checks b) (usize_bits b) Hu Hl0) Er) as (r & os & E).
      rewrite <- bare_air in E.
      exists r, os. split; [exact E|]. exact (C100_rc5 b m freq C into h l0 r0 r os Hm H20 Hf ltac:(lia) Hl0 Er E).
    + intros h _ Hh. destruct HL as [HL|HL]; [left; exact HL|right]. clear -HL Hh. unfold edge in *. lia.
  - apply (noisy_polled (rc6_protocol b m) C into heard_rc6 freq T first p0 (fun _ => True)
      (fun h => overflow_checks b = false \/ 8 * N.of_nat (length h) < 2 ^ usize_bits b)); auto.
    + intros h l0 r0 Hl0 _ Hh Hs Er.
      destruct (rc6_bare_total b m freq Hm Hf C into h _ r0 Hh (noisy_bare freq l0 (overflow_checks b) (usize_bits b) Hu Hl0) Er) as (r & os & E).
      rewrite <- bare_air in E.
      exists r, os. split; [exact E|]. exact (C100_rc6 b m freq C into h l0 r0 r os Hm H20 Hf ltac:(lia) Hl0 Er E).
    + intros h _ Hh. destruct HL as [HL|HL]; [left; exact HL|right]. clear -HL Hh. unfold edge in *. lia.
Qed.
Print Assumptions C100_polled.

(** Denon: a fresh poller, no Samsung BluRay among the transmissions and no Denon frame that breaks off
    (C67_denon_refuted and C100_denon_whole_needed show that others would spoil it). *)
Definition denon_bears (l : list (bool * transmission)) : Prop :=
  (forall y a c, In y l -> snd y <> TSbp a c) /\ (forall y w, In y l -> fst y = false -> snd y <> TDenon w).

Lemma bears_parts l : denon_bears (parts l) ->
  (forall y a c, In y l -> fst (fst (snd y)) <> TSbp a c) /\ (forall y w, In y l -> fst y = false -> fst (fst (snd y)) <> TDenon w).
Proof.
  assert (K : forall y, In y l -> In (fst y, fst (fst (snd y))) (parts l)) by (intros y Hy; apply in_map_iff; exists y; split; [reflexivity|exact Hy]).
  intros [H1 H2]. split.
  - intros y a c Hy. exact (H1 _ a c (K y Hy)).
  - intros y w Hy Ew. exact (H2 _ w (K y Hy) Ew).
Qed.

Theorem C100_denon_polled :
  forall b m freq T first l gap evs n C (into : denon_command -> C) p0,
  timebase m freq -> freq < 2 ^ 32 -> 0 < T -> first < T -> rate_ok 30000 [40000] freq 1 ->
  (forall y a c, In y l -> fst (fst (snd y)) <> TSbp a c) ->
  (forall y w, In y l -> fst y = false -> fst (fst (snd y)) <> TDenon w) ->
  real_noisy freq (freq * T) 1 3 l -> on_air (map snd l) = (true, gap) :: evs -> alt false evs -> swept T first gap evs n [] ->
  poll_new (denon_protocol b m) freq = Val p0 ->
  polled_all (denon_protocol b m) freq T first into p0 [] gap evs n (map into (whole_said heard_denon l)).
Proof.
  intros b m freq T first l gap evs n C into p0 Hm Hf HT Hfi Hr Hno Hbr Ht El A W Ep.
  apply (noisy_polled (denon_protocol b m) C into heard_denon freq T first p0 denon_bears (fun h => h = [])); auto.
  - intros h l0 r0 Hl0 Hb -> Hs Er. apply bears_parts in Hb. destruct Hb as [B1 B2].
    destruct (runs (denon_protocol b m) freq C into ([] ++ on_air (map snd l0)) r0) as (r & os & E); [|exact Er|].
    + apply C39_denon; auto. left. apply (short_half m freq); auto.
    + exists r, os. split; [exact E|]. exact (C100_denon b m freq C into [] l0 r0 r os Hm (rate_20 _ _ Hr) Hf Hl0 B1 B2 (fun d H => match H with end) Hs Er E).
  - split; intros [w t] a; [intros c|]; intros Hi; apply in_map_iff in Hi; destruct Hi as (y & E & Hy); injection E as E1 E2; cbn [fst snd]; rewrite <- E2.
    + exact (Hno y a c Hy).
    + rewrite <- E1. exact (Hbr y a Hy).
Qed.
Print Assumptions C100_denon_polled.

(** The same for a receiver given the edges of a signal in real time. *)
Theorem C100_denon_real :
  forall b m freq G j clock t0 l C (into : denon_command -> C) r0 r os,
  timebase m freq -> freq < 2 ^ 32 -> 0 < G -> counts freq G j clock -> rate_ok 30000 [40000] freq j ->
  (forall y a c, In y l -> fst (fst (snd y)) <> TSbp a c) ->
  (forall y w, In y l -> fst y = false -> fst (fst (snd y)) <> TDenon w) ->
  real_noisy freq G j 3 l ->
  let signal := measured clock t0 (on_air (map snd l)) in
  short signal ->
  receiver_new (denon_protocol b m) freq = Val r0 ->
  run_edges (D := denon_dec b m) into r0 signal = Val (r, os) ->
  commands os = map into (whole_said heard_denon l).
Proof.
  intros b m freq G j clock t0 l C into r0 r os Hm Hf HG Hc Hr Hno Hbr Ht signal Hs Er E. subst signal.
  destruct (noisy_measured freq G j clock HG Hc Hr l Ht t0) as (l' & El & M & Ht'). rewrite El in *.
  assert (B : denon_bears (parts l')).
  { rewrite M. split; intros [w t] a; [intros c|]; intros Hi; apply in_map_iff in Hi; destruct Hi as (y & E' & Hy); injection E' as E1 E2; cbn [fst snd]; rewrite <- E2.
    + exact (Hno y a c Hy).
    + rewrite <- E1. exact (Hbr y a Hy). }
  apply bears_parts in B. destruct B as [B1 B2].
  etransitivity; [exact (C100_denon b m freq C into [] l' r0 r os Hm (rate_20 _ _ Hr) Hf Ht' B1 B2 (fun d H => match H with end) Hs Er E)|].
  f_equal. apply said_parts, M.
Qed.
Print Assumptions C100_denon_real.

(** The two transmissions of [c100_real], the first of which breaks off, sampled at 40 kHz. *)
Lemma c100_poll_meets :
  let air := on_air (map snd c100_real) in
  real_noisy 40000 (40000 * 25) 1 3 c100_real /\ air = (true, 40000) :: tl air /\ alt false (tl air) /\
  swept 25 7 40000 (tl air) (N.to_nat 22000) c79_before.
Proof.
  intros air. split; [exact (proj1 (proj2 (proj2 C100_example_real)))|]. split; [reflexivity|]. split; [vm_compute; repeat split|].
  assert (H : forallb (fun e : edge => (25 <=? snd e) && (snd e <=? (2 ^ 31 - 2) * 25)) ((true, 40000) :: tl air) = true) by (vm_compute; reflexivity).
  rewrite forallb_forall in H. split; [|split; [|split]].
  - apply Forall_forall. intros e He. specialize (H e He). apply andb_prop in H. apply N.leb_le, H.
  - apply Forall_forall. intros e He. specialize (H e (or_intror He)). apply andb_prop in H. apply N.leb_le, H.
  - vm_compute. discriminate.
  - rewrite Nnat.N2Nat.id. vm_compute. discriminate.
Qed.
Example C100_example_polled : forall p0,
  poll_new (nec_protocol (debug_build 16) MU32 NecStandard) 40000 = Val p0 ->
  polled_all (nec_protocol (debug_build 16) MU32 NecStandard) 40000 25 7 (fun c => c) p0 c79_before 40000 (tl (on_air (map snd c100_real)))
    (N.to_nat 22000) [mkNec 7 9 false].
Proof.
  intros p0 E0. destruct c100_poll_meets as (H1 & H2 & H3 & H4).
  assert (Hr : rate_ok 30000 [40000] 40000 1) by (split; [lia|right; cbn; auto]).
  exact (C100_polled _ _ 40000 25 7 c100_real c79_before _ _ _ _ (fun c => c) p0 (whole_nec 40000 c79_before (debug_build 16) MU32 I) eq_refl eq_refl eq_refl Hr H1 H2 H3 H4 E0).
Qed.

(** A Denon poller: a NEC frame that breaks off, then a Denon frame (C23: the last bit is lost). *)
Definition c100_poll_denon_pairs : list (N * N) :=
  (3440, 1640) :: map (fun bit : bool => if bit then (475, 1205) else (475, 370)) (bits_lsb 48 83).
Definition c100_poll_denon : list (bool * (transmission * N * list edge)) :=
  [(false, (TNec 7 9, 40000, firstn 42 (pair_edges c100_real_pairs) ++ [(false, 60)]));
   (true, (TDenon 83, 30000, pair_edges c100_poll_denon_pairs ++ [(false, 470)]))].

Lemma c100_denon_meets :
  let air := on_air (map snd c100_poll_denon) in
  real_noisy 40000 (40000 * 25) 1 3 c100_poll_denon /\ air = (true, 40000) :: tl air /\ alt false (tl air) /\
  swept 25 7 40000 (tl air) (N.to_nat 22000) [].
Proof.
  intros air. split; [|split; [reflexivity|split; [vm_compute; repeat split|]]].
  - constructor; [|constructor; [|constructor]]; (split; [vm_compute; discriminate|]).
    + exists (firstn 42 (pair_edges c100_real_pairs)), (false, 570), (skipn 43 (pair_edges c100_real_pairs)).
      split; [exact c100_real_sent|]. right. split; [reflexivity|]. split; [discriminate|]. exists 60.
      split; [vm_compute; discriminate|]. split; [discriminate|reflexivity].
    + right. eexists _, _. split; [reflexivity|]. split; [|apply real_nearb_ok; vm_compute; reflexivity].
      split; [reflexivity|]. exists c100_poll_denon_pairs. split; [reflexivity|]. split.
      * eexists _, _. split; [reflexivity|]. split; [apply real_nearb_ok; vm_compute; reflexivity|].
        generalize (bits_lsb 48 83). intros bs. induction bs as [|bit bs IH]; cbn [map]; constructor; [|exact IH].
        destruct bit; apply real_nearb_ok; vm_compute; reflexivity.
      * eexists _, _. split; [reflexivity|]. split; [apply real_nearb_ok; vm_compute; reflexivity|].
        apply Forall_forall. intros x Hx. apply in_map_iff in Hx. destruct Hx as ([|] & <- & _); apply real_nearb_ok; vm_compute; reflexivity.
  - assert (H : forallb (fun e : edge => (25 <=? snd e) && (snd e <=? (2 ^ 31 - 2) * 25)) ((true, 40000) :: tl air) = true) by (vm_compute; reflexivity).
    rewrite forallb_forall in H. split; [|split; [|split]].
    + apply Forall_forall. intros e He. specialize (H e He). apply andb_prop in H. apply N.leb_le, H.
    + apply Forall_forall. intros e He. specialize (H e (or_intror He)). apply andb_prop in H. apply N.leb_le, H.
    + vm_compute. discriminate.
    + rewrite Nnat.N2Nat.id. vm_compute. discriminate.
Qed.
Lemma c100_denon_bears :
  (forall y a c, In y c100_poll_denon -> fst (fst (snd y)) <> TSbp a c) /\
  (forall y w, In y c100_poll_denon -> fst y = false -> fst (fst (snd y)) <> TDenon w).
Proof.
  split.
  - intros y a c [<-|[<-|[]]]; discriminate.
  - intros y w [<-|[<-|[]]]; discriminate.
Qed.
Example C100_example_denon_polled : forall p0,
  poll_new (denon_protocol (debug_build 16) MU32) 40000 = Val p0 ->
  polled_all (denon_protocol (debug_build 16) MU32) 40000 25 7 (fun c => c) p0 [] 40000 (tl (on_air (map snd c100_poll_denon)))
    (N.to_nat 22000) [mkDenon 83].
Proof.
  intros p0 E0. destruct c100_denon_meets as (H1 & H2 & H3 & H4). destruct c100_denon_bears as [B1 B2].
  assert (Hr : rate_ok 30000 [40000] 40000 1) by (split; [lia|right; cbn; auto]).
  exact (C100_denon_polled (debug_build 16) MU32 40000 25 7 c100_poll_denon _ _ _ _ (fun c => c) p0 I eq_refl eq_refl eq_refl Hr B1 B2 H1 H2 H3 H4 E0).
Qed.
Example C100_example_denon_real :
  let clock t := (t * 40000 + 333333) / 1000000 in
  let signal := measured clock 123 (on_air (map snd c100_poll_denon)) in
  counts 40000 1000000 1 clock /\ rate_ok 30000 [40000] 40000 1 /\ real_noisy 40000 1000000 1 3 c100_poll_denon /\ short signal /\
  option_map commands (outcomes (denon_protocol (debug_build 32) MU32) 40000 signal) = Some [mkDenon 83].
Proof.
  intros clock signal. split; [apply C68_clock_any_phase; lia|]. split; [split; [lia|right; split; [reflexivity|cbn [In]; auto]]|].
  split; [exact (proj1 c100_denon_meets)|]. split; [apply shortb_ok; vm_compute; reflexivity|vm_compute; reflexivity].
Qed.
