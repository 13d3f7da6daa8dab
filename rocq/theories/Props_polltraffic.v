(** * C85: a poller among the remote controls of other protocols *)
From Coq Require Import NArith ZArith List Bool Lia ZifyBool ZifyNat ZifyN.
From Verif Require Import Machine Time Decoder Nec Rc5 Rc6 Sbp Denon Receiver Spec Bits Codec_facts Time_facts Run_facts Nec_facts
  Rc5_facts Rc6_facts Sbp_facts Denon_facts Spec_receiver Receiver_facts Spec_state State_facts Props_decode Props_receiver Props_state
  Cross_facts Traffic_facts Props_cross Props_traffic Example_facts Spec_phys Phys_facts Props_phys Poll_facts Props_poll Keys_facts
  Pollkeys_facts Props_pollkeys Pollbi_facts Props_tutorial Multi_facts Spec_cross.
Import ListNotations.
Open Scope N_scope.

(** The transmissions [l], of any protocols and each after at least 20 ms of silence, are on
    the air (time in units of [1 / (freq * T)] seconds); a poller that has seen any samples [L]
    before is polled every [T] units.  Its reports are exactly the transmissions it understands. *)
Section Generic.
  Variables (P : protocol) (C : Type) (into : dcmd (p_dec P) -> C) (heard : transmission -> list (dcmd (p_dec P))).
  Variables (freq T first : N) (p0 : periodic_poll (p_dec P)) (ok : list (transmission * N * list edge) -> Prop) (okh : list edge -> Prop).
  Hypothesis (HT : 0 < T) (Hfi : first < T) (Hf : freq < 2 ^ 32) (Hr : rate_ok 30000 [40000] freq 1).
  Hypothesis (Ep : poll_new P freq = Val p0).
  Hypothesis Hok : forall l l', map (fun x => fst (fst x)) l = map (fun x => fst (fst x)) l' -> ok l -> ok l'.
  Hypothesis Hrun : forall h l r0, traffic freq l -> ok l -> okh h -> short (h ++ on_air l) -> receiver_new P freq = Val r0 ->
    exists r os, run_edges into r0 (h ++ on_air l) = Val (r, os) /\
      commands (skipn (length h) os) = map into (flat_map (fun x => heard (fst (fst x))) l).

  Lemma traffic_polled l L gap evs n : (forall h, (L = [] -> h = []) -> (length h <= S (length L))%nat -> okh h) ->
    ok l -> real_traffic (freq * T) 3 l -> on_air l = (true, gap) :: evs -> alt false evs -> swept T first gap evs n L ->
    polled_all P freq T first into p0 L gap evs n (map into (flat_map (fun x => heard (fst (fst x))) l)).
  Proof.
    intros Hh Hl Ht El A (W1 & W2 & W3 & W4). destruct (poll_recv _ _ _ Ep) as (r0 & Er).
    assert (F0 : 0 < freq) by (destruct Hr as (_ & [K|[_ K]]); [lia|usual]).
    pose proof (before_counts T first HT Hfi freq ltac:(lia)) as Hc.
    destruct (polled_series T first HT Hfi P freq C into L gap evs n p0 r0 Ep Er A W1 W4 W3 W2) as (h & g & G1 & H0 & H1 & Hs & Hq).
    assert (B0 : before T first 0 = 0) by (unfold before; rewrite N.add_0_l; apply N.div_small; lia).
    destruct (traffic_measured freq (freq * T) 1 (before T first) ltac:(lia) Hc Hr l Ht 0) as (l' & E & M & Ht').
    rewrite El in E. cbn [measured] in E. rewrite N.add_0_l, B0, N.sub_0_r in E.
    destruct l' as [|[[x g0] es] l']; [discriminate|]. unfold on_air in E. cbn [flat_map fst snd app] in E. injection E as Eg Em.
    set (l2 := (x, g, es) :: l').
    assert (Ea : (true, g) :: measured (before T first) gap evs = on_air l2) by (unfold on_air, l2; cbn [flat_map fst snd app]; rewrite Em; reflexivity).
    assert (Ht2 : traffic freq l2).
    { inversion_clear Ht' as [|? ? K1 K2]. constructor; [|exact K2]. cbn [fst snd] in *. split; [apply K1|]. apply (longer_more _ _ _ g0); [apply K1|lia]. }
    assert (M2 : map (fun x => fst (fst x)) l2 = map (fun x => fst (fst x)) l) by exact M.
    rewrite Ea in *.
    destruct (Hrun h l2 r0 Ht2 (Hok l l2 (eq_sym M2) Hl) (Hh h H0 H1) Hs Er) as (r & os & Eos & Ec).
    pose proof (run_edges_length into _ _ _ _ Eos) as Lo.
    destruct (Hq r (firstn (length h) os) (skipn (length h) os)) as (q1 & q2 & k & Eo & L1 & Hk & Hfl).
    { rewrite firstn_skipn. exact Eos. }
    { rewrite app_length in Lo. unfold edge, outcome in *. rewrite firstn_length. lia. }
    exists q1, q2, k. split; [exact Eo|]. split; [exact L1|]. split; [exact Hk|].
    assert (X : commands q2 = commands (skipn (length h) os)).
    { apply (proj2 (Hfl _ (fun o => match o with ROk (Some c) => [c] | _ => [] end) eq_refl)). }
    refine (eq_trans X (eq_trans Ec _)). f_equal.
    assert (F : forall y, flat_map (fun x : transmission * N * list edge => heard (fst (fst x))) y =
                          flat_map heard (map (fun x => fst (fst x)) y)).
    { clear. induction y as [|z y IH]; [reflexivity|]. cbn [flat_map map]. rewrite IH. reflexivity. }
    rewrite !F, M2. reflexivity.
  Qed.
End Generic.

Lemma short_half m freq h : timebase m freq -> short h -> Forall (fun x : edge => 2 * snd x < 2 ^ dur_bits m) h.
Proof.
  intros Hm Hs. eapply Forall_impl; [|exact Hs]. cbv beta. intros x Hx. change (2 ^ 31) with 2147483648 in Hx.
  apply N.lt_le_trans with (2 ^ 32); [change (2 ^ 32) with 4294967296; lia|]. apply N.pow_le_mono_r; [discriminate|].
  destruct m; cbn [dur_bits timebase] in *; try lia; apply Hm.
Qed.

Lemma runs (P : protocol) freq C (into : dcmd (p_dec P) -> C) h r0 :
  (exists os, outcomes_of P freq into h = Val os) -> receiver_new P freq = Val r0 -> exists r os, run_edges into r0 h = Val (r, os).
Proof.
  intros (os & E) E0. unfold outcomes_of in E. rewrite E0 in E. cbn [bind] in E. unfold outs in E.
  destruct (run_edges into r0 h) as [[r os']| |]; cbn [bind] in E; try discriminate. eauto.
Qed.

Lemma rate_20 freq j : rate_ok 30000 [40000] freq j -> 20000 <= freq.
Proof. intros (_ & [K|[_ K]]); [lia|usual]. Qed.

Section Protocols.
  Variables (b : build) (m : mono) (freq T first : N) (l : list (transmission * N * list edge)) (L : list bool) (gap : N) (evs : list edge) (n : nat).
  Hypothesis (Hm : timebase m freq) (Hf : freq < 2 ^ 32) (HT : 0 < T) (Hfi : first < T) (Hr : rate_ok 30000 [40000] freq 1).
  Hypothesis (Ht : real_traffic (freq * T) 3 l) (El : on_air l = (true, gap) :: evs) (A : alt false evs) (W : swept T first gap evs n L).

  Lemma nec_family_traffic V C (into : nv_cmd V -> C) (heard : transmission -> list (nv_cmd V)) p0 : nec_timing_ok (nv_timing V) ->
    (forall hist l r0 r os, traffic freq l -> short (hist ++ on_air l) -> receiver_new (nec_protocol b m V) freq = Val r0 ->
      run_edges (D := nec_dec b m V) into r0 (hist ++ on_air l) = Val (r, os) ->
      commands (skipn (length hist) os) = map into (flat_map (fun x => heard (fst (fst x))) l)) ->
    poll_new (nec_protocol b m V) freq = Val p0 ->
    polled_all (nec_protocol b m V) freq T first into p0 L gap evs n (map into (flat_map (fun x => heard (fst (fst x))) l)).
  Proof.
    intros HV Hc Ep. apply (traffic_polled (nec_protocol b m V) C into heard freq T first p0 (fun _ => True) (fun _ => True)); auto.
    intros h l0 r0 Hl0 _ _ Hs Er.
    destruct (runs (nec_protocol b m V) freq C into (h ++ on_air l0) r0) as (r & os & E); [|exact Er|].
    - apply C39_nec; auto. left. apply (short_half m freq); auto.
    - exists r, os. split; [exact E|]. exact (Hc h l0 r0 r os Hl0 Hs Er E).
  Qed.
End Protocols.

(** What each poller reports: [heard_...] says which transmissions it understands, and as
    what. *)
Theorem C85_nec :
  forall b m freq T first l L gap evs n C (into : nec_command -> C) p0,
  timebase m freq -> freq < 2 ^ 32 -> 0 < T -> first < T -> rate_ok 30000 [40000] freq 1 ->
  real_traffic (freq * T) 3 l -> on_air l = (true, gap) :: evs -> alt false evs -> swept T first gap evs n L ->
  poll_new (nec_protocol b m NecStandard) freq = Val p0 ->
  polled_all (nec_protocol b m NecStandard) freq T first into p0 L gap evs n (map into (flat_map (fun x => heard_nec (fst (fst x))) l)).
Proof.
  intros b m freq T first l L gap evs n C into p0 Hm Hf HT Hfi Hr Ht El A W Ep.
  apply (nec_family_traffic b m freq T first l L gap evs n Hm Hf HT Hfi Hr Ht El A W NecStandard C into heard_nec p0); auto; [now left|].
  intros hist l0 r0 r os Hl Hs E0 E. apply (C67_nec b m freq C into hist l0 r0 r os Hm (rate_20 _ _ Hr) Hf Hl Hs E0 E).
Qed.
Print Assumptions C85_nec.

Theorem C85_nec16 :
  forall b m freq T first l L gap evs n C (into : nec16_command -> C) p0,
  timebase m freq -> freq < 2 ^ 32 -> 0 < T -> first < T -> rate_ok 30000 [40000] freq 1 ->
  real_traffic (freq * T) 3 l -> on_air l = (true, gap) :: evs -> alt false evs -> swept T first gap evs n L ->
  poll_new (nec_protocol b m Nec16Bit) freq = Val p0 ->
  polled_all (nec_protocol b m Nec16Bit) freq T first into p0 L gap evs n (map into (flat_map (fun x => heard_nec16 (fst (fst x))) l)).
Proof.
  intros b m freq T first l L gap evs n C into p0 Hm Hf HT Hfi Hr Ht El A W Ep.
  apply (nec_family_traffic b m freq T first l L gap evs n Hm Hf HT Hfi Hr Ht El A W Nec16Bit C into heard_nec16 p0); auto; [now left|].
  intros hist l0 r0 r os Hl Hs E0 E. apply (C67_nec16 b m freq C into hist l0 r0 r os Hm (rate_20 _ _ Hr) Hf Hl Hs E0 E).
Qed.
Print Assumptions C85_nec16.

Theorem C85_raw :
  forall b m freq T first l L gap evs n C (into : nec_debug_cmd -> C) p0,
  timebase m freq -> freq < 2 ^ 32 -> 0 < T -> first < T -> rate_ok 30000 [40000] freq 1 ->
  real_traffic (freq * T) 3 l -> on_air l = (true, gap) :: evs -> alt false evs -> swept T first gap evs n L ->
  poll_new (nec_protocol b m NecRaw) freq = Val p0 ->
  polled_all (nec_protocol b m NecRaw) freq T first into p0 L gap evs n (map into (flat_map (fun x => heard_raw (fst (fst x))) l)).
Proof.
  intros b m freq T first l L gap evs n C into p0 Hm Hf HT Hfi Hr Ht El A W Ep.
  apply (nec_family_traffic b m freq T first l L gap evs n Hm Hf HT Hfi Hr Ht El A W NecRaw C into heard_raw p0); auto; [now left|].
  intros hist l0 r0 r os Hl Hs E0 E. apply (C67_raw b m freq C into hist l0 r0 r os Hm (rate_20 _ _ Hr) Hf Hl Hs E0 E).
Qed.
Print Assumptions C85_raw.

Theorem C85_apple :
  forall b m freq T first l L gap evs n C (into : apple_command -> C) p0,
  timebase m freq -> freq < 2 ^ 32 -> 0 < T -> first < T -> rate_ok 30000 [40000] freq 1 ->
  real_traffic (freq * T) 3 l -> on_air l = (true, gap) :: evs -> alt false evs -> swept T first gap evs n L ->
  poll_new (nec_protocol b m NecApple) freq = Val p0 ->
  polled_all (nec_protocol b m NecApple) freq T first into p0 L gap evs n (map into (flat_map (fun x => heard_apple (fst (fst x))) l)).
Proof.
  intros b m freq T first l L gap evs n C into p0 Hm Hf HT Hfi Hr Ht El A W Ep.
  apply (nec_family_traffic b m freq T first l L gap evs n Hm Hf HT Hfi Hr Ht El A W NecApple C into heard_apple p0); auto; [now left|].
  intros hist l0 r0 r os Hl Hs E0 E. apply (C67_apple b m freq C into hist l0 r0 r os Hm (rate_20 _ _ Hr) Hf Hl Hs E0 E).
Qed.
Print Assumptions C85_apple.

Theorem C85_samsung :
  forall b m freq T first l L gap evs n C (into : samsung_command -> C) p0,
  timebase m freq -> freq < 2 ^ 32 -> 0 < T -> first < T -> rate_ok 30000 [40000] freq 1 ->
  real_traffic (freq * T) 3 l -> on_air l = (true, gap) :: evs -> alt false evs -> swept T first gap evs n L ->
  poll_new (nec_protocol b m NecSamsung) freq = Val p0 ->
  polled_all (nec_protocol b m NecSamsung) freq T first into p0 L gap evs n (map into (flat_map (fun x => heard_samsung (fst (fst x))) l)).
Proof.
  intros b m freq T first l L gap evs n C into p0 Hm Hf HT Hfi Hr Ht El A W Ep.
  apply (nec_family_traffic b m freq T first l L gap evs n Hm Hf HT Hfi Hr Ht El A W NecSamsung C into heard_samsung p0); auto; [now right|].
  intros hist l0 r0 r os Hl Hs E0 E. apply (C67_samsung b m freq C into hist l0 r0 r os Hm (rate_20 _ _ Hr) Hf Hl Hs E0 E).
Qed.
Print Assumptions C85_samsung.

Theorem C85_sbp :
  forall b m freq T first l L gap evs n C (into : sbp_command -> C) p0,
  timebase m freq -> freq < 2 ^ 32 -> 0 < T -> first < T -> rate_ok 30000 [40000] freq 1 ->
  real_traffic (freq * T) 3 l -> on_air l = (true, gap) :: evs -> alt false evs -> swept T first gap evs n L ->
  poll_new (sbp_protocol b m) freq = Val p0 ->
  polled_all (sbp_protocol b m) freq T first into p0 L gap evs n (map into (flat_map (fun x => heard_sbp (fst (fst x))) l)).
Proof.
  intros b m freq T first l L gap evs n C into p0 Hm Hf HT Hfi Hr Ht El A W Ep.
  apply (traffic_polled (sbp_protocol b m) C into heard_sbp freq T first p0 (fun _ => True) (fun _ => True)); auto.
  intros h l0 r0 Hl0 _ _ Hs Er.
  destruct (runs (sbp_protocol b m) freq C into (h ++ on_air l0) r0) as (r & os & E); [|exact Er|].
  - apply C39_sbp; auto. left. apply (short_half m freq); auto.
  - exists r, os. split; [exact E|]. exact (C67_sbp b m freq C into h l0 r0 r os Hm (rate_20 _ _ Hr) Hf Hl0 Hs Er E).
Qed.
Print Assumptions C85_sbp.

(** Debug builds for RC5 and RC6: not too many samples before (C40). *)
Theorem C85_rc5 :
  forall b m freq T first l L gap evs n C (into : rc5_command -> C) p0,
  timebase m freq -> freq < 2 ^ 32 -> 16 <= usize_bits b -> 0 < T -> first < T -> rate_ok 30000 [40000] freq 1 -> after_any b L ->
  real_traffic (freq * T) 3 l -> on_air l = (true, gap) :: evs -> alt false evs -> swept T first gap evs n L ->
  poll_new (rc5_protocol b m) freq = Val p0 ->
  polled_all (rc5_protocol b m) freq T first into p0 L gap evs n (map into (flat_map (fun x => heard_rc5 (fst (fst x))) l)).
Proof.
  intros b m freq T first l L gap evs n C into p0 Hm Hf Hu HT Hfi Hr HL Ht El A W Ep.
  apply (traffic_polled (rc5_protocol b m) C into heard_rc5 freq T first p0 (fun _ => True)
    (fun h => overflow_checks b = false \/ 8 * N.of_nat (length h) < 2 ^ usize_bits b)); auto.
  - intros h l0 r0 Hl0 _ Hh Hs Er. destruct (rc5_traffic_total b m freq Hm Hf Hu C into h l0 r0 Hh Hl0 Er) as (r & os & E).
    exists r, os. split; [exact E|]. exact (C67_rc5 b m freq C into h l0 r0 r os Hm (rate_20 _ _ Hr) Hf ltac:(lia) Hl0 Er E).
  - intros h _ Hh. destruct HL as [HL|HL]; [left; exact HL|right]. clear -HL Hh. unfold edge in *. lia.
Qed.
Print Assumptions C85_rc5.

Theorem C85_rc6 :
  forall b m freq T first l L gap evs n C (into : rc6_command -> C) p0,
  timebase m freq -> freq < 2 ^ 32 -> 16 <= usize_bits b -> 0 < T -> first < T -> rate_ok 30000 [40000] freq 1 -> after_any b L ->
  real_traffic (freq * T) 3 l -> on_air l = (true, gap) :: evs -> alt false evs -> swept T first gap evs n L ->
  poll_new (rc6_protocol b m) freq = Val p0 ->
  polled_all (rc6_protocol b m) freq T first into p0 L gap evs n (map into (flat_map (fun x => heard_rc6 (fst (fst x))) l)).
Proof.
  intros b m freq T first l L gap evs n C into p0 Hm Hf Hu HT Hfi Hr HL Ht El A W Ep.
  apply (traffic_polled (rc6_protocol b m) C into heard_rc6 freq T first p0 (fun _ => True)
    (fun h => overflow_checks b = false \/ 8 * N.of_nat (length h) < 2 ^ usize_bits b)); auto.
  - intros h l0 r0 Hl0 _ Hh Hs Er. destruct (rc6_traffic_total b m freq Hm Hf Hu C into h l0 r0 Hh Hl0 Er) as (r & os & E).
    exists r, os. split; [exact E|]. exact (C67_rc6 b m freq C into h l0 r0 r os Hm (rate_20 _ _ Hr) Hf ltac:(lia) Hl0 Er E).
  - intros h _ Hh. destruct HL as [HL|HL]; [left; exact HL|right]. clear -HL Hh. unfold edge in *. lia.
Qed.
Print Assumptions C85_rc6.

(** Denon: a fresh poller and no Samsung BluRay among the transmissions (C67 shows that
    others would spoil it). *)
Theorem C85_denon :
  forall b m freq T first l gap evs n C (into : denon_command -> C) p0,
  timebase m freq -> freq < 2 ^ 32 -> 0 < T -> first < T -> rate_ok 30000 [40000] freq 1 ->
  (forall x a c, In x l -> fst (fst x) <> TSbp a c) ->
  real_traffic (freq * T) 3 l -> on_air l = (true, gap) :: evs -> alt false evs -> swept T first gap evs n [] ->
  poll_new (denon_protocol b m) freq = Val p0 ->
  polled_all (denon_protocol b m) freq T first into p0 [] gap evs n (map into (flat_map (fun x => heard_denon (fst (fst x))) l)).
Proof.
  intros b m freq T first l gap evs n C into p0 Hm Hf HT Hfi Hr Hno Ht El A W Ep.
  apply (traffic_polled (denon_protocol b m) C into heard_denon freq T first p0
    (fun l => forall t a c, In t (map (fun x => fst (fst x)) l) -> t <> TSbp a c) (fun h => h = [])); auto.
  - intros l1 l2 E H. rewrite <- E. exact H.
  - intros h l0 r0 Hl0 Hn0 -> Hs Er.
    destruct (runs (denon_protocol b m) freq C into ([] ++ on_air l0) r0) as (r & os & E); [|exact Er|].
    + apply C39_denon; auto. left. apply (short_half m freq); auto.
    + exists r, os. split; [exact E|]. refine (C67_denon_partial b m freq C into [] l0 r0 r os Hm (rate_20 _ _ Hr) Hf Hl0 _ _ Hs Er E).
      * intros x a c Hx. apply Hn0. apply in_map_iff. eauto.
      * intros d [].
  - intros t a c Hi. apply in_map_iff in Hi. destruct Hi as (x & <- & Hx). apply Hno, Hx.
Qed.
Print Assumptions C85_denon.

(** Three remote controls, two pollers at 40 kHz; before, the pin was high for a while. *)
Definition c85_nec : list (N * N) :=
  (9200, 4600) :: map (fun bit : bool => if bit then (570, 1730) else (570, 575)) (bits_lsb 32 (bytes4 7 (compl8 7) 200 (compl8 200))).
Definition c85_air : list (transmission * N * list edge) :=
  [ (TRc6 0 76 false, 30000, slow_rc6 false 76 ++ [(false, 450)]);
    (TNec 7 200, 25000, pair_edges c85_nec ++ [(false, 560)]);
    (TRc5 14348, 40000, slow_rc5 14348) ].

Lemma c85_meets :
  real_traffic (40000 * 25) 3 c85_air /\ on_air c85_air = (true, 30000) :: tl (on_air c85_air) /\ alt false (tl (on_air c85_air)) /\
  swept 25 7 30000 (tl (on_air c85_air)) (N.to_nat 9000) c79_before /\ after_any (debug_build 16) c79_before.
Proof.
  split.
  { unfold real_traffic, c85_air. repeat apply Forall_cons; [| | |apply Forall_nil]; cbn [fst snd]; (split; [|vm_compute; discriminate]).
    - right. eexists. eexists. split; [reflexivity|]. split; [|split; vm_compute; discriminate].
      split; [reflexivity|]. split; [reflexivity|]. apply slow_rc6_ok. do 2 eexists. vm_compute. reflexivity.
    - right. eexists. eexists. split; [reflexivity|]. split; [|split; vm_compute; discriminate].
      split; [reflexivity|]. split; [reflexivity|]. exists c85_nec. split; [reflexivity|]. split.
      + apply real_nec_ok. vm_compute. reflexivity.
      + do 2 eexists. split; [reflexivity|]. split; [split; vm_compute; discriminate|]. apply Forall_forall. intros d Hd.
        apply in_map_iff in Hd. destruct Hd as (bit & <- & _). destruct bit; split; vm_compute; discriminate.
    - left. split; [reflexivity|]. split; [reflexivity|].
      assert (E : exists n noms, level_edges false 0 (rc5_wave 14348) = (true, n) :: noms) by (do 2 eexists; vm_compute; reflexivity).
      destruct E as (n & noms & E). exists n, noms. split; [exact E|]. unfold slow_rc5. rewrite E. cbn [tl]. clear E.
      induction noms as [|e noms IH]; cbn [map]; constructor; [|exact IH]. split; [reflexivity|]. unfold real_near. cbn [snd]. lia. }
  split; [reflexivity|]. split; [vm_compute; repeat split|]. split; [|right; vm_compute; reflexivity].
  assert (H : forallb (fun e : edge => (25 <=? snd e) && (snd e <=? (2 ^ 31 - 2) * 25)) ((true, 30000) :: tl (on_air c85_air)) = true) by (vm_compute; reflexivity).
  rewrite forallb_forall in H. split; [|split; [|split]].
  - apply Forall_forall. intros e He. specialize (H e He). apply andb_prop in H. apply N.leb_le, H.
  - apply Forall_forall. intros e He. specialize (H e (or_intror He)). apply andb_prop in H. apply N.leb_le, H.
  - vm_compute. discriminate.
  - rewrite Nnat.N2Nat.id. vm_compute. discriminate.
Qed.

Example C85_example : forall p0 p1,
  poll_new (nec_protocol (debug_build 16) MU32 NecStandard) 40000 = Val p0 -> poll_new (rc5_protocol (debug_build 16) MU32) 40000 = Val p1 ->
  polled_all (nec_protocol (debug_build 16) MU32 NecStandard) 40000 25 7 (fun c => c) p0 c79_before 30000 (tl (on_air c85_air)) (N.to_nat 9000)
    [mkNec 7 200 false] /\
  polled_all (rc5_protocol (debug_build 16) MU32) 40000 25 7 (fun c => c) p1 c79_before 30000 (tl (on_air c85_air)) (N.to_nat 9000)
    [mkRc5 0 12 3 true].
Proof.
  intros p0 p1 E0 E1. destruct c85_meets as (H1 & H2 & H3 & H4 & H5).
  assert (Hr : rate_ok 30000 [40000] 40000 1) by (split; [lia|right; cbn; auto]). split.
  - exact (C85_nec (debug_build 16) MU32 40000 25 7 c85_air c79_before _ _ _ _ (fun c => c) p0 I eq_refl eq_refl eq_refl Hr H1 H2 H3 H4 E0).
  - exact (C85_rc5 (debug_build 16) MU32 40000 25 7 c85_air c79_before _ _ _ _ (fun c => c) p1 I eq_refl ltac:(vm_compute; discriminate) eq_refl eq_refl Hr H5 H1 H2 H3 H4 E1).
Qed.
