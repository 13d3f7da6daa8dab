(** * Property theorems: keys held down, polled *)
From Coq Require Import NArith ZArith List Bool Lia ZifyBool ZifyNat ZifyN.
From Verif Require Import Machine Time Decoder Nec Receiver Remote Spec Bits Codec_facts Time_facts Run_facts Nec_facts
  Spec_receiver Receiver_facts Spec_phys Phys_facts Poll_facts Spec_keys Keys_facts State_facts Props_decode Props_phys Props_poll Props_keys
  Pollkeys_facts Apps Spec_apps Example_facts.
Import ListNotations.
Open Scope N_scope.

(** ** C78: a poller reports held keys, for as long as it runs

    Time is counted in units of which [T] make one sampling period, as in C69.  A poller has
    seen any samples [L]; then comes a series of keys, the first one after a silence of [gap],
    sampled at [first], [first + T], ...  The samples before the end of the first silence are
    followed by outcomes with exactly the keys, as in C75.  Neither the number of keys nor the
    time they take is limited, only each interval: no mark or space falls between two samples,
    none lasts 2^31 samples (29 hours at 20 kHz). *)
Definition polled_all (P : protocol) (freq T first : N) {C} (into : dcmd (p_dec P) -> C) (p0 : periodic_poll (p_dec P))
    (L : list bool) (gap : N) (evs : list edge) (n : nat) (cs : list C) : Prop :=
  exists os1 os2 k,
    outs (run_polls into p0 (L ++ map (level_at false 0 ((true, gap) :: evs)) (times first T (S n)))) = Val (os1 ++ os2) /\
    length os1 = (length L + k)%nat /\ (forall i, (i < k)%nat <-> first + N.of_nat i * T < gap) /\ commands os2 = cs.

Definition swept (T first gap : N) (evs : list edge) (n : nat) (L : list bool) : Prop :=
  Forall (fun e : edge => T <= snd e) ((true, gap) :: evs) /\ Forall (fun e : edge => snd e <= (2 ^ 31 - 2) * T) evs /\
  N.of_nat (length L) * T + gap <= (2 ^ 31 - 3) * T /\ after 0 ((true, gap) :: evs) <= first + N.of_nat n * T.

Section Family.
  Variables (b : build) (m : mono) (freq T first : N) (V : nec_variant) (header again silence k : N).
  Context {C : Type} (into : nv_cmd V -> C) {K : Type} (word : K -> N).
  Hypothesis (Hm : timebase m freq) (Hf : freq < 2 ^ 32) (HT : 0 < T) (Hfi : first < T) (Hk : 2 * k <= freq).
  Hypothesis (Ht : nec_timing_ok (nv_timing V)) (Eh : header_high (nv_timing V) + header_low (nv_timing V) = header)
    (Ea : header_high (nv_timing V) + repeat_low (nv_timing V) = again) (Es : silence = 2 * header)
    (Hh : header = 13500 /\ k = 7000 \/ header = 9000 /\ k = 7700).

  Lemma family_polled (l : list (press K)) L gap evs n p0 :
    Forall (fun y => word (fst (fst y)) < 2 ^ 32) l ->
    Forall (real_press (freq * T) 4 header again silence word) l ->
    presses_edges l = (true, gap) :: evs -> swept T first gap evs n L ->
    poll_new (nec_protocol b m V) freq = Val p0 ->
    polled_all (nec_protocol b m V) freq T first into p0 L gap evs n
      (flat_map (fun x => said V into (word (fst x)) (snd x)) (held l)).
  Proof.
    intros Hw Hl Ee (W1 & W2 & W3 & W4) Ep. destruct (poll_recv _ _ _ Ep) as (r0 & Er).
    rewrite presses_bursts in Ee.
    destruct (polled_bursts T first HT Hfi (nec_protocol b m V) freq C into L gap evs n p0 r0 (bursts l) Ep Er ltac:(lia) Ee W1 W4 W3 W2)
      as (h & ys & H0 & Hs & R & Q).
    destruct (family_seen b m freq (freq * T) 1 1 V header again silence k C into word l h ys Hm Hf ltac:(lia) ltac:(lia) ltac:(lia) ltac:(lia) Ht Eh Ea Es Hh Hw Hl R Hs)
      as (r0' & r & os1 & os2 & E0 & E & Lo & Hc & He).
    rewrite Er in E0. injection E0 as <-.
    destruct (Q r os1 os2 E Lo) as (q1 & q2 & k' & Eo & L1 & Hk' & Hq). exists q1, q2, k'. split; [exact Eo|]. split; [exact L1|]. split; [exact Hk'|].
    etransitivity; [|exact Hc]. apply (Hq _ (fun o => match o with ROk (Some c) => [c] | _ => [] end)). reflexivity.
  Qed.

  (** A fresh poller reports nothing else. *)
  Lemma family_polled_fresh (l : list (press K)) gap evs n p0 :
    Forall (fun y => word (fst (fst y)) < 2 ^ 32) l ->
    Forall (real_press (freq * T) 4 header again silence word) l ->
    presses_edges l = (true, gap) :: evs -> swept T first gap evs n [] ->
    poll_new (nec_protocol b m V) freq = Val p0 ->
    exists os, outs (run_polls (D := nec_dec b m V) into p0 (map (level_at false 0 ((true, gap) :: evs)) (times first T (S n)))) = Val os /\
      commands os = flat_map (fun x => said V into (word (fst x)) (snd x)) (held l) /\ forall e, ~ In (RErr e) os.
  Proof.
    intros Hw Hl Ee (W1 & W2 & W3 & W4) Ep. destruct (poll_recv _ _ _ Ep) as (r0 & Er).
    rewrite presses_bursts in Ee.
    destruct (polled_bursts T first HT Hfi (nec_protocol b m V) freq C into [] gap evs n p0 r0 (bursts l) Ep Er ltac:(lia) Ee W1 W4 W3 W2)
      as (h & ys & H0 & Hs & R & Q). rewrite (H0 eq_refl) in *. cbn [app] in *.
    assert (A : (header = 13500 /\ again = 11250 /\ k = 7000) \/ (header = 9000 /\ again = 6750 /\ k = 7700)).
    { destruct Ht as [ET|ET]; rewrite ET in *; cbn in Eh, Ea; rewrite <- Eh, <- Ea in *; destruct Hh as [[? ?]|[? ?]]; try discriminate; auto. }
    destruct (presses_seen freq (freq * T) 1 1 4 header again silence ltac:(lia)) with (word := word) (l := l) (ys' := ys)
      as (l' & -> & El & Em & Hl'); auto.
    1-4: destruct A as [(-> & -> & ->)|(-> & -> & ->)];
      [apply (slack_guaranteed _ _ _ _ _ 7000) | apply (slack_guaranteed _ _ _ _ _ 7700)]; try lia; vm_compute; discriminate.
    { rewrite Es. destruct A as [(-> & -> & ->)|(-> & -> & ->)];
      [apply (gap_room _ _ _ _ _ 7000) | apply (gap_room _ _ _ _ _ 7700)]; try lia; vm_compute; discriminate. }
    assert (H893 : 893 <= freq) by lia. rewrite <- Eh, <- Ea in Hl'. rewrite <- presses_bursts in Hs, Q.
    destruct (presses_run b m freq V Hm Hf Ht H893 into word l') with (buf := 0) (sv := 0) (pv := 0) as (r & os & E & Hc & He); auto.
    { rewrite Forall_forall in Hw |- *. intros y Hy.
      apply (in_map (fun y : K * burst * list burst => fst (fst y))) in Hy. pose proof (eq_ind _ (fun q => In _ q) Hy _ Em) as Hy2. cbv beta in Hy2.
      apply in_map_iff in Hy2. destruct Hy2 as (z & Ez & Hz). rewrite <- Ez. apply Hw, Hz. }
    { apply (short_fit freq Hf H893); [reflexivity|exact Hs]. }
    pose proof (nec_new_val b m freq V Hm Hf Ht) as E0. rewrite Er in E0.
    assert (Ei : forall A (x y : A), Val x = Val y -> x = y) by (intros Z x y H; injection H; auto). apply Ei in E0. subst r0.
    destruct (Q r [] os E eq_refl) as (q1 & q2 & k' & Eo & L1 & Hk' & Hq). exists (q1 ++ q2). split; [exact Eo|].
    clear A. assert (A : forall X (f : outcome C -> list X), f (ROk None) = [] -> flat_map f (q1 ++ q2) = flat_map f os).
    { intros X f Hz. destruct (Hq X f Hz) as [A1 A2]. rewrite flat_map_app, A1, A2. reflexivity. }
    split.
    - rewrite El in Hc. etransitivity; [|exact Hc]. apply (A _ (fun o => match o with ROk (Some c) => [c] | _ => [] end)). reflexivity.
    - intros e Hi. specialize (A _ (fun o => match o with RErr e => [e] | _ => [] end) eq_refl).
      assert (B : In e (flat_map (fun o : outcome C => match o with RErr e => [e] | _ => [] end) (q1 ++ q2))).
      { apply in_flat_map. exists (RErr e). split; [exact Hi|]. left. reflexivity. }
      rewrite A in B. apply in_flat_map in B. destruct B as (o & Ho & Hin). unfold no_error in He. rewrite Forall_forall in He.
      destruct (He o Ho) as (c & ->). destruct Hin.
  Qed.
End Family.

Theorem C78_nec :
  forall b m freq T first (l : list (press (N * N))) L gap evs n C (into : nec_command -> C) p0,
  timebase m freq -> 14000 <= freq -> freq < 2 ^ 32 -> 0 < T -> first < T ->
  Forall (fun y => byte_pair (fst (fst y))) l ->
  Forall (real_press (freq * T) 4 13500 11250 27000 (fun k => bytes4 (fst k) (compl8 (fst k)) (snd k) (compl8 (snd k)))) l ->
  presses_edges l = (true, gap) :: evs -> swept T first gap evs n L ->
  poll_new (nec_protocol b m NecStandard) freq = Val p0 ->
  polled_all (nec_protocol b m NecStandard) freq T first into p0 L gap evs n
    (map (fun x => into (mkNec (fst (fst x)) (snd (fst x)) (snd x))) (held l)).
Proof.
  intros b m freq T first l L gap evs n C into p0 Hm Hlo Hf HT Hfi Hp Hl Ee Hw Ep.
  rewrite <- flat_map_map, <- (said_all (fun x => said NecStandard into (bytes4 (fst (fst x)) (compl8 (fst (fst x))) (snd (fst x)) (compl8 (snd (fst x)))) (snd x))
    _ byte_pair l Hp).
  - apply (family_polled b m freq T first NecStandard 13500 11250 27000 7000 into (fun k => bytes4 (fst k) (compl8 (fst k)) (snd k) (compl8 (snd k)))); auto; try reflexivity.
    + left. reflexivity.
    + refine (words_fit byte_pair (fun k => bytes4 (fst k) (compl8 (fst k)) (snd k) (compl8 (snd k))) l Hp _). intros k [H1 H2]. apply bytes4_lt; auto using compl8_lt.
  - intros k rep [H1 H2]. unfold said. cbn [nv_unpack NecStandard fst snd]. rewrite nec_unpack_layout by auto. reflexivity.
Qed.
Print Assumptions C78_nec.

Theorem C78_nec16 :
  forall b m freq T first (l : list (press (N * N))) L gap evs n C (into : nec16_command -> C) p0,
  timebase m freq -> 14000 <= freq -> freq < 2 ^ 32 -> 0 < T -> first < T ->
  Forall (fun y => fst (fst (fst y)) < 2 ^ 16 /\ snd (fst (fst y)) < 2 ^ 8) l ->
  Forall (real_press (freq * T) 4 13500 11250 27000 (fun k => bytes4 (fst k mod 2 ^ 8) (fst k / 2 ^ 8) (snd k) (compl8 (snd k)))) l ->
  presses_edges l = (true, gap) :: evs -> swept T first gap evs n L ->
  poll_new (nec_protocol b m Nec16Bit) freq = Val p0 ->
  polled_all (nec_protocol b m Nec16Bit) freq T first into p0 L gap evs n
    (map (fun x => into (mkNec16 (fst (fst x)) (snd (fst x)) (snd x))) (held l)).
Proof.
  intros b m freq T first l L gap evs n C into p0 Hm Hlo Hf HT Hfi Hp Hl Ee Hw Ep.
  set (P := fun k : N * N => fst k < 2 ^ 16 /\ snd k < 2 ^ 8).
  change (Forall (fun y : press (N * N) => P (fst (fst y))) l) in Hp.
  rewrite <- flat_map_map, <- (said_all (fun x => said Nec16Bit into (bytes4 (fst (fst x) mod 2 ^ 8) (fst (fst x) / 2 ^ 8) (snd (fst x)) (compl8 (snd (fst x)))) (snd x))
    _ P l Hp).
  - apply (family_polled b m freq T first Nec16Bit 13500 11250 27000 7000 into (fun k => bytes4 (fst k mod 2 ^ 8) (fst k / 2 ^ 8) (snd k) (compl8 (snd k)))); auto; try reflexivity.
    + left. reflexivity.
    + refine (words_fit P (fun k => bytes4 (fst k mod 2 ^ 8) (fst k / 2 ^ 8) (snd k) (compl8 (snd k))) l Hp _). intros k [H1 H2]. apply bytes4_lt; auto using compl8_lt.
      * apply N.mod_lt. discriminate.
      * apply N.div_lt_upper_bound; [discriminate|exact H1].
  - intros k rep [H1 H2]. unfold said. cbn [nv_unpack Nec16Bit fst snd]. rewrite nec16_unpack_layout by auto. reflexivity.
Qed.
Print Assumptions C78_nec16.

Theorem C78_samsung :
  forall b m freq T first (l : list (press (N * N))) L gap evs n C (into : samsung_command -> C) p0,
  timebase m freq -> 15400 <= freq -> freq < 2 ^ 32 -> 0 < T -> first < T ->
  Forall (fun y => byte_pair (fst (fst y))) l ->
  Forall (real_press (freq * T) 4 9000 6750 18000 (fun k => bytes4 (fst k) (fst k) (snd k) (compl8 (snd k)))) l ->
  presses_edges l = (true, gap) :: evs -> swept T first gap evs n L ->
  poll_new (nec_protocol b m NecSamsung) freq = Val p0 ->
  polled_all (nec_protocol b m NecSamsung) freq T first into p0 L gap evs n
    (map (fun x => into (mkSamsung (fst (fst x)) (snd (fst x)) (snd x))) (held l)).
Proof.
  intros b m freq T first l L gap evs n C into p0 Hm Hlo Hf HT Hfi Hp Hl Ee Hw Ep.
  rewrite <- flat_map_map, <- (said_all (fun x => said NecSamsung into (bytes4 (fst (fst x)) (fst (fst x)) (snd (fst x)) (compl8 (snd (fst x)))) (snd x))
    _ byte_pair l Hp).
  - apply (family_polled b m freq T first NecSamsung 9000 6750 18000 7700 into (fun k => bytes4 (fst k) (fst k) (snd k) (compl8 (snd k)))); auto; try reflexivity.
    + right. reflexivity.
    + refine (words_fit byte_pair (fun k => bytes4 (fst k) (fst k) (snd k) (compl8 (snd k))) l Hp _). intros k [H1 H2]. apply bytes4_lt; auto using compl8_lt.
  - intros k rep [H1 H2]. unfold said. cbn [nv_unpack NecSamsung fst snd]. rewrite samsung_unpack_layout by auto. reflexivity.
Qed.
Print Assumptions C78_samsung.

Theorem C78_apple :
  forall b m freq T first (l : list (press N)) L gap evs n C (into : apple_command -> C) p0,
  timebase m freq -> 14000 <= freq -> freq < 2 ^ 32 -> 0 < T -> first < T ->
  Forall (fun y => apple_key (fst (fst y))) l ->
  Forall (real_press (freq * T) 4 13500 11250 27000 (fun w => w)) l ->
  presses_edges l = (true, gap) :: evs -> swept T first gap evs n L ->
  poll_new (nec_protocol b m NecApple) freq = Val p0 ->
  polled_all (nec_protocol b m NecApple) freq T first into p0 L gap evs n
    (map (fun x => into (mkApple (field (fst x) 0 5) (field (fst x) 17 7) (field (fst x) 24 8) (snd x))) (held l)).
Proof.
  intros b m freq T first l L gap evs n C into p0 Hm Hlo Hf HT Hfi Hp Hl Ee Hw Ep.
  rewrite <- flat_map_map, <- (said_all (fun x => said NecApple into (fst x) (snd x)) _ apple_key l Hp).
  - apply (family_polled b m freq T first NecApple 13500 11250 27000 7000 into (fun w => w)); auto; try reflexivity.
    + left. reflexivity.
    + eapply (words_fit apple_key (fun w => w)); [exact Hp|]. intros k [H1 _]. exact H1.
  - intros k rep Hkey. cbn [fst snd]. apply apple_said, Hkey.
Qed.
Print Assumptions C78_apple.

(** The polled example: what it prints, from power-on, for the keys of an Apple remote. *)
Lemma polled_prints b xs : forall (p p' : polled_app b) os,
  run_polls (D := nec_dec b MU32 NecApple) (button_from Apple2009) p xs = Val (p', os) ->
  exists ls, run_res polled_tim2 p xs = Val (p', ls) /\
    concat ls = flat_map (fun o => match o with
      | ROk (Some c) => match btn_action c with
                        | Some A_Play_Pause => [LPlay]
                        | Some A_Power => [LPower]
                        | Some a => [LButton a]
                        | None => []
                        end
      | ROk None => []
      | RErr e => [LErr e]
      end) os.
Proof.
  induction xs as [|low xs IH]; intros p p' os E; cbn [run_polls] in E.
  - injection E as -> <-. exists []. split; reflexivity.
  - cbn [run_res]. unfold polled_tim2 at 1.
    destruct (poll_base (D := nec_dec b MU32 NecApple) (button_from Apple2009) p low) as [[p1 o]| |]; cbn [bind] in E |- *; try discriminate.
    destruct (run_polls (D := nec_dec b MU32 NecApple) (button_from Apple2009) p1 xs) as [[p2 os2]| |] eqn:E2; cbn [bind] in E; try discriminate.
    injection E as -> <-. destruct (IH p1 p' os2 E2) as (ls & E3 & Ec). rewrite E3. cbn [bind].
    eexists. split; [reflexivity|]. cbn [concat flat_map]. rewrite Ec. reflexivity.
Qed.

Lemma apple_line_ok w rep :
  match btn_action (button_from Apple2009 (mkApple (field w 0 5) (field w 17 7) (field w 24 8) rep)) with
  | Some A_Play_Pause => [LPlay]
  | Some A_Power => [LPower]
  | Some a => [LButton a]
  | None => []
  end = apple_line (field w 0 5) (field w 17 7).
Proof.
  unfold button_from. cbn [btn_action rm_decode Apple2009]. unfold apple_decode. cbn [apl_page apl_command].
  generalize (field w 0 5) as p, (field w 17 7) as c. intros p c. unfold apple_buttons. cbn [find fst snd].
  destruct p as [|p]; [destruct c as [|c]; [reflexivity|]; do 4 (destruct c as [c|c|]; try reflexivity)|].
  do 4 (destruct p as [p|p|]; try reflexivity). destruct c as [|c]; [reflexivity|]. do 7 (destruct c as [c|c|]; try reflexivity).
Qed.

Theorem C78_polled_example :
  forall b T first (l : list (press N)) gap evs n,
  0 < T -> first < T -> Forall (fun y => apple_key (fst (fst y))) l ->
  Forall (real_press (20000 * T) 4 13500 11250 27000 (fun w => w)) l ->
  presses_edges l = (true, gap) :: evs -> swept T first gap evs n [] ->
  exists p0 p ls, polled_app_new b = Val p0 /\
    run_res polled_tim2 p0 (map (level_at false 0 ((true, gap) :: evs)) (times first T (S n))) = Val (p, ls) /\
    concat ls = flat_map (fun x => apple_line (field (fst x) 0 5) (field (fst x) 17 7)) (held l).
Proof.
  intros b T first l gap evs n HT Hfi Hp Hl Ee Hw. 
  assert (Ep : exists p0, polled_app_new b = Val p0).
  { pose proof (nec_new_val b MU32 20000 NecApple I ltac:(reflexivity) ltac:(left; reflexivity)) as E.
    unfold polled_app_new, SAMPLERATE, poll_new. unfold receiver_new in E. destruct (p_build _ _); cbn [bind] in *; try discriminate. eauto. }
  destruct Ep as (p0 & Ep).
  destruct (family_polled_fresh b MU32 20000 T first NecApple 13500 11250 27000 7000 (button_from Apple2009) (fun w => w)) with (l := l) (gap := gap) (evs := evs) (n := n) (p0 := p0)
    as (os & Eo & Hc & He); auto; try reflexivity; try lia.
  - left. reflexivity.
  - eapply (words_fit apple_key (fun w => w)); [exact Hp|]. intros k [H1 _]. exact H1.
  - unfold outs in Eo.
    destruct (run_polls (D := nec_dec b MU32 NecApple) (button_from Apple2009) p0 (map (level_at false 0 ((true, gap) :: evs)) (times first T (S n))))
      as [[p os']| |] eqn:E; cbn [bind] in Eo; try discriminate. injection Eo as ->.
    destruct (polled_prints b _ p0 p os E) as (ls & El & Ec). exists p0, p, ls. split; [exact Ep|]. split; [exact El|]. rewrite Ec.
    assert (A : forall os : list (outcome (button Apple2009)), (forall e, ~ In (RErr e) os) ->
      flat_map (fun o => match o with
        | ROk (Some c) => match btn_action c with Some A_Play_Pause => [LPlay] | Some A_Power => [LPower] | Some a => [LButton a] | None => [] end
        | ROk None => [] | RErr e => [LErr e] end) os =
      flat_map (fun c => match btn_action c with Some A_Play_Pause => [LPlay] | Some A_Power => [LPower] | Some a => [LButton a] | None => [] end) (commands os)).
    { clear. induction os as [|o os IH]; intros He; [reflexivity|]. cbn [flat_map]. rewrite IH by (intros e Hi; apply (He e); right; exact Hi).
      destruct o as [[c|]|e]; try reflexivity. destruct (He e). left. reflexivity. }
    rewrite (A os He). clear A Ec.
    assert (Hc2 : commands os = map (fun x => button_from Apple2009 (mkApple (field (fst x) 0 5) (field (fst x) 17 7) (field (fst x) 24 8) (snd x))) (held l)).
    { refine (eq_trans Hc _). rewrite <- flat_map_map. apply said_all with (P := apple_key); [exact Hp|].
      intros k rep Hkey. cbn [fst snd]. exact (apple_said k rep (button Apple2009) (button_from Apple2009) Hkey). }
    rewrite Hc2. clear. induction (held l) as [|[w rep] h IH]; [reflexivity|]. cbn [map flat_map]. rewrite IH. f_equal. apply (apple_line_ok w rep).
Qed.
Print Assumptions C78_polled_example.

(** Right, held for one repeat code, in microseconds and 2 to 3 percent slow, sampled every
    50 microseconds from 17 on. *)
Definition c78_key : list (press N) :=
  [ (1510442990, (27100, slow_nec 1510442990, 560), [(29000, [(9180, 2300)], 570)]) ].
Definition c78_lines (b : build) (xs : list bool) : option (list polled_line) :=
  match polled_app_new b with
  | Val p => match run_res polled_tim2 p xs with Val (_, ls) => Some (concat ls) | _ => None end
  | _ => None
  end.

Lemma c78_meets :
  Forall (fun y => apple_key (fst (fst y))) c78_key /\
  Forall (real_press (20000 * 50) 4 13500 11250 27000 (fun w => w)) c78_key /\
  presses_edges c78_key = (true, 27100) :: tl (presses_edges c78_key) /\ swept 50 17 27100 (tl (presses_edges c78_key)) (N.to_nat 2800) [].
Proof.
  split. { unfold c78_key. apply Forall_cons; [|apply Forall_nil]. split; [|split]; vm_compute; reflexivity. }
  split. { unfold c78_key. apply Forall_cons; [|apply Forall_nil]. cbn [real_press].
    split; [vm_compute; discriminate|]. split; [apply real_nec_ok; vm_compute; reflexivity|].
    apply Forall_cons; [|apply Forall_nil]. split; [vm_compute; discriminate|].
    exists (9180, 2300). split; [reflexivity|]. apply real_nearb_ok. vm_compute. reflexivity. }
  split; [reflexivity|].
  assert (H : forallb (fun e : edge => (50 <=? snd e) && (snd e <=? (2 ^ 31 - 2) * 50)) ((true, 27100) :: tl (presses_edges c78_key)) = true) by (vm_compute; reflexivity).
  rewrite forallb_forall in H. split; [|split; [|split]].
  - apply Forall_forall. intros e He. specialize (H e He). apply andb_prop in H. apply N.leb_le, H.
  - apply Forall_forall. intros e He. specialize (H e (or_intror He)). apply andb_prop in H. apply N.leb_le, H.
  - vm_compute. discriminate.
  - rewrite Nnat.N2Nat.id. vm_compute. discriminate.
Qed.

Example C78_example :
  c78_lines (debug_build 32) (map (level_at false 0 (presses_edges c78_key)) (times 17 50 (S (N.to_nat 2800)))) = Some [LButton A_Right; LButton A_Right].
Proof.
  destruct c78_meets as (H1 & H2 & H3 & H4).
  destruct (C78_polled_example (debug_build 32) 50 17 c78_key _ _ _ ltac:(reflexivity) ltac:(reflexivity) H1 H2 H3 H4) as (p0 & p & ls & E0 & E & Ec).
  rewrite <- H3 in E. unfold c78_lines. rewrite E0, E, Ec. vm_compute. reflexivity.
Qed.
