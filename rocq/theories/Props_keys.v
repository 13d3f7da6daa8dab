(** * Property theorems: keys held down, each interval measured on its own *)
From Coq Require Import NArith ZArith List Bool Lia ZifyBool ZifyNat ZifyN.
From Verif Require Import Machine Time Decoder Nec Receiver Spec Bits Codec_facts Time_facts Run_facts Nec_facts
  Spec_receiver Spec_phys Phys_facts Spec_keys Keys_facts Props_decode Props_phys Example_facts.
Import ListNotations.
Open Scope N_scope.

(** ** C75: a key held down is reported once, then once more for every repeat code

    [l] is a series of keys, each with any number of repeat codes, in real time within 4
    percent.  [evs] are the intervals as the receiver measures them, each off by less than
    [j] ticks, [hist] any history before. *)

Lemma family_seen b m freq G j j2 V header again silence k C (into : nv_cmd V -> C) {K} (word : K -> N) (l : list (press K)) hist ys :
  timebase m freq -> freq < 2 ^ 32 -> 0 < G -> 1 <= j -> j <= j2 -> k * (j2 + 1) <= freq ->
  nec_timing_ok (nv_timing V) -> header_high (nv_timing V) + header_low (nv_timing V) = header ->
  header_high (nv_timing V) + repeat_low (nv_timing V) = again -> silence = 2 * header ->
  header = 13500 /\ k = 7000 \/ header = 9000 /\ k = 7700 ->
  Forall (fun y => word (fst (fst y)) < 2 ^ 32) l ->
  Forall (real_press G 4 header again silence word) l ->
  Forall2 (burst_seen freq G j j2) (bursts l) ys -> short (hist ++ flat_map burst_edges ys) ->
  exists r0 r os1 os2, receiver_new (nec_protocol b m V) freq = Val r0 /\
    run_edges (D := nec_dec b m V) into r0 (hist ++ flat_map burst_edges ys) = Val (r, os1 ++ os2) /\ length os1 = length hist /\
    commands os2 = flat_map (fun x => said V into (word (fst x)) (snd x)) (held l) /\
    (forall e, ~ In (RErr e) (tl os2)).
Proof.
  intros Hm Hf HG Hj Hj2 Hk HT Eh Ea Es Hh Hw Hl F Hs.
  assert (A : (header = 13500 /\ again = 11250 /\ k = 7000) \/ (header = 9000 /\ again = 6750 /\ k = 7700)).
  { destruct HT as [ET|ET]; rewrite ET in *; cbn in Eh, Ea; subst; destruct Hh as [[? ?]|[? ?]]; try discriminate; auto. }
  destruct (presses_seen freq G j j2 4 header again silence HG) with (word := word) (l := l) (ys' := ys)
    as (l' & -> & El & Em & Hl'); auto.
  1-4: destruct A as [(-> & -> & ->)|(-> & -> & ->)];
    [apply (slack_guaranteed _ _ _ _ _ 7000) | apply (slack_guaranteed _ _ _ _ _ 7700)]; try lia; vm_compute; discriminate.
  { subst silence. destruct A as [(-> & -> & ->)|(-> & -> & ->)];
    [apply (gap_room _ _ _ _ _ 7000) | apply (gap_room _ _ _ _ _ 7700)]; try lia; vm_compute; discriminate. }
  assert (H893 : 893 <= freq) by lia.
  rewrite <- Eh, <- Ea in Hl'. rewrite <- presses_bursts in Hs |- *.
  destruct (presses_heard b m freq V Hm Hf HT H893 into word hist l') as (r0 & r & os1 & os2 & E0 & E & L & Hc & He); auto.
  { rewrite Forall_forall in Hw |- *. intros y Hy.
    apply (in_map (fun y : K * burst * list burst => fst (fst y))) in Hy. pose proof (eq_ind _ (fun q => In _ q) Hy _ Em) as Hy2. cbv beta in Hy2. clear Hy. rename Hy2 into Hy. apply in_map_iff in Hy.
    destruct Hy as (z & Ez & Hz). rewrite <- Ez. apply Hw, Hz. }
  exists r0, r, os1, os2. rewrite El in Hc. repeat split; auto.
  intros e Hi. unfold no_error in He. rewrite Forall_forall in He. destruct (He _ Hi). discriminate.
Qed.

Lemma family_held b m freq G j V header again silence k C (into : nv_cmd V -> C) {K} (word : K -> N) (l : list (press K)) hist evs :
  timebase m freq -> freq < 2 ^ 32 -> 0 < G -> 1 <= j -> k * (2 * j + 1) <= freq ->
  nec_timing_ok (nv_timing V) -> header_high (nv_timing V) + header_low (nv_timing V) = header ->
  header_high (nv_timing V) + repeat_low (nv_timing V) = again -> silence = 2 * header ->
  header = 13500 /\ k = 7000 \/ header = 9000 /\ k = 7700 ->
  Forall (fun y => word (fst (fst y)) < 2 ^ 32) l ->
  Forall (real_press G 4 header again silence word) l ->
  Forall2 (timed freq G j) (presses_edges l) evs -> short (hist ++ evs) ->
  exists r0 r os1 os2, receiver_new (nec_protocol b m V) freq = Val r0 /\
    run_edges (D := nec_dec b m V) into r0 (hist ++ evs) = Val (r, os1 ++ os2) /\ length os1 = length hist /\
    commands os2 = flat_map (fun x => said V into (word (fst x)) (snd x)) (held l) /\
    (forall e, ~ In (RErr e) (tl os2)).
Proof.
  intros Hm Hf HG Hj Hk HT Eh Ea Es Hh Hw Hl F Hs. rewrite presses_bursts in F.
  destruct (bursts_timed freq G j _ _ F) as (ys & -> & R).
  apply (family_seen b m freq G j (2 * j) V header again silence k); auto. lia.
Qed.

Lemma said_all {K C} (f g : K * bool -> list C) (P : K -> Prop) (l : list (press K)) :
  Forall (fun y => P (fst (fst y))) l -> (forall k rep, P k -> f (k, rep) = g (k, rep)) ->
  flat_map f (held l) = flat_map g (held l).
Proof.
  intros Hl H. unfold held. induction Hl as [|[[k y] rs] l Hk Hl IH]; [reflexivity|].
  cbn [flat_map]. rewrite !flat_map_app, IH. f_equal. cbn [fst] in Hk.
  cbn [flat_map]. f_equal; [auto|]. induction (length rs); cbn [repeat flat_map]; [reflexivity|]. f_equal; auto.
Qed.

Lemma flat_map_map {A C} (f : A -> C) l : flat_map (fun x => [f x]) l = map f l.
Proof. induction l; cbn [flat_map map app]; congruence. Qed.

Lemma words_fit {K} (P : K -> Prop) (word : K -> N) (l : list (press K)) :
  Forall (fun y => P (fst (fst y))) l -> (forall k, P k -> word k < 2 ^ 32) -> Forall (fun y => word (fst (fst y)) < 2 ^ 32) l.
Proof. intros Hl H. eapply Forall_impl; [|exact Hl]. intros y Hy. apply H, Hy. Qed.

Definition byte_pair (k : N * N) : Prop := fst k < 2 ^ 8 /\ snd k < 2 ^ 8.

Theorem C75_nec :
  forall b m freq G j (l : list (press (N * N))) hist evs C (into : nec_command -> C),
  timebase m freq -> freq < 2 ^ 32 -> 0 < G -> 1 <= j -> 7000 * (2 * j + 1) <= freq ->
  Forall (fun y => byte_pair (fst (fst y))) l ->
  Forall (real_press G 4 13500 11250 27000 (fun k => bytes4 (fst k) (compl8 (fst k)) (snd k) (compl8 (snd k)))) l ->
  Forall2 (timed freq G j) (presses_edges l) evs -> short (hist ++ evs) ->
  exists r0 r os1 os2, receiver_new (nec_protocol b m NecStandard) freq = Val r0 /\
    run_edges (D := nec_dec b m NecStandard) into r0 (hist ++ evs) = Val (r, os1 ++ os2) /\ length os1 = length hist /\
    commands os2 = map (fun x => into (mkNec (fst (fst x)) (snd (fst x)) (snd x))) (held l) /\
    (forall e, ~ In (RErr e) (tl os2)).
Proof.
  intros b m freq G j l hist evs C into Hm Hf HG Hj Hk Hp Hl F Hs.
  destruct (family_held b m freq G j NecStandard 13500 11250 27000 7000 C into
    (fun k => bytes4 (fst k) (compl8 (fst k)) (snd k) (compl8 (snd k))) l hist evs)
    as (r0 & r & os1 & os2 & E0 & E & L & Hc & He); auto.
  - left. reflexivity.
  - refine (words_fit byte_pair (fun k => bytes4 (fst k) (compl8 (fst k)) (snd k) (compl8 (snd k))) l Hp _). intros k [H1 H2]. apply bytes4_lt; auto using compl8_lt.
  - exists r0, r, os1, os2. split; [exact E0|]. split; [exact E|]. split; [exact L|]. split; [|exact He].
    rewrite Hc, <- flat_map_map. apply said_all with (P := byte_pair); [exact Hp|].
    intros k rep [H1 H2]. unfold said. cbn [nv_unpack NecStandard fst snd]. rewrite nec_unpack_layout by auto. reflexivity.
Qed.
Print Assumptions C75_nec.

Theorem C75_nec16 :
  forall b m freq G j (l : list (press (N * N))) hist evs C (into : nec16_command -> C),
  timebase m freq -> freq < 2 ^ 32 -> 0 < G -> 1 <= j -> 7000 * (2 * j + 1) <= freq ->
  Forall (fun y => fst (fst (fst y)) < 2 ^ 16 /\ snd (fst (fst y)) < 2 ^ 8) l ->
  Forall (real_press G 4 13500 11250 27000 (fun k => bytes4 (fst k mod 2 ^ 8) (fst k / 2 ^ 8) (snd k) (compl8 (snd k)))) l ->
  Forall2 (timed freq G j) (presses_edges l) evs -> short (hist ++ evs) ->
  exists r0 r os1 os2, receiver_new (nec_protocol b m Nec16Bit) freq = Val r0 /\
    run_edges (D := nec_dec b m Nec16Bit) into r0 (hist ++ evs) = Val (r, os1 ++ os2) /\ length os1 = length hist /\
    commands os2 = map (fun x => into (mkNec16 (fst (fst x)) (snd (fst x)) (snd x))) (held l) /\
    (forall e, ~ In (RErr e) (tl os2)).
Proof.
  intros b m freq G j l hist evs C into Hm Hf HG Hj Hk Hp Hl F Hs.
  set (P := fun k : N * N => fst k < 2 ^ 16 /\ snd k < 2 ^ 8).
  change (Forall (fun y : press (N * N) => P (fst (fst y))) l) in Hp.
  destruct (family_held b m freq G j Nec16Bit 13500 11250 27000 7000 C into
    (fun k => bytes4 (fst k mod 2 ^ 8) (fst k / 2 ^ 8) (snd k) (compl8 (snd k))) l hist evs)
    as (r0 & r & os1 & os2 & E0 & E & L & Hc & He); auto.
  - left. reflexivity.
  - refine (words_fit P (fun k => bytes4 (fst k mod 2 ^ 8) (fst k / 2 ^ 8) (snd k) (compl8 (snd k))) l Hp _). intros k [H1 H2]. apply bytes4_lt; auto using compl8_lt.
    + apply N.mod_lt. discriminate.
    + apply N.div_lt_upper_bound; [discriminate|exact H1].
  - exists r0, r, os1, os2. split; [exact E0|]. split; [exact E|]. split; [exact L|]. split; [|exact He].
    rewrite Hc, <- flat_map_map. apply said_all with (P := P); [exact Hp|].
    intros k rep [H1 H2]. unfold said. cbn [nv_unpack Nec16Bit fst snd]. rewrite nec16_unpack_layout by auto. reflexivity.
Qed.
Print Assumptions C75_nec16.

Theorem C75_samsung :
  forall b m freq G j (l : list (press (N * N))) hist evs C (into : samsung_command -> C),
  timebase m freq -> freq < 2 ^ 32 -> 0 < G -> 1 <= j -> 7700 * (2 * j + 1) <= freq ->
  Forall (fun y => byte_pair (fst (fst y))) l ->
  Forall (real_press G 4 9000 6750 18000 (fun k => bytes4 (fst k) (fst k) (snd k) (compl8 (snd k)))) l ->
  Forall2 (timed freq G j) (presses_edges l) evs -> short (hist ++ evs) ->
  exists r0 r os1 os2, receiver_new (nec_protocol b m NecSamsung) freq = Val r0 /\
    run_edges (D := nec_dec b m NecSamsung) into r0 (hist ++ evs) = Val (r, os1 ++ os2) /\ length os1 = length hist /\
    commands os2 = map (fun x => into (mkSamsung (fst (fst x)) (snd (fst x)) (snd x))) (held l) /\
    (forall e, ~ In (RErr e) (tl os2)).
Proof.
  intros b m freq G j l hist evs C into Hm Hf HG Hj Hk Hp Hl F Hs.
  destruct (family_held b m freq G j NecSamsung 9000 6750 18000 7700 C into
    (fun k => bytes4 (fst k) (fst k) (snd k) (compl8 (snd k))) l hist evs)
    as (r0 & r & os1 & os2 & E0 & E & L & Hc & He); auto.
  - right. reflexivity.
  - refine (words_fit byte_pair (fun k => bytes4 (fst k) (fst k) (snd k) (compl8 (snd k))) l Hp _). intros k [H1 H2]. apply bytes4_lt; auto using compl8_lt.
  - exists r0, r, os1, os2. split; [exact E0|]. split; [exact E|]. split; [exact L|]. split; [|exact He].
    rewrite Hc, <- flat_map_map. apply said_all with (P := byte_pair); [exact Hp|].
    intros k rep [H1 H2]. unfold said. cbn [nv_unpack NecSamsung fst snd]. rewrite samsung_unpack_layout by auto. reflexivity.
Qed.
Print Assumptions C75_samsung.

(** Apple remotes: the key is the word on the air; it has the vendor code and odd parity. *)
Definition apple_key (w : N) : Prop :=
  w < 2 ^ 32 /\ field w 5 11 = 1087 /\ Nat.odd (ones (bits_lsb 32 w)) = true.

Lemma apple_said w rep C (into : apple_command -> C) : apple_key w ->
  said NecApple into w rep = [into (mkApple (field w 0 5) (field w 17 7) (field w 24 8) rep)].
Proof.
  intros (H1 & H2 & H3). unfold said. cbn [nv_unpack NecApple].
  assert (Q : apple_unpack w rep = Some (mkApple (field w 0 5) (field w 17 7) (field w 24 8) rep)).
  { apply apple_unpack_char; auto. }
  rewrite Q. reflexivity.
Qed.

Theorem C75_apple :
  forall b m freq G j (l : list (press N)) hist evs C (into : apple_command -> C),
  timebase m freq -> freq < 2 ^ 32 -> 0 < G -> 1 <= j -> 7000 * (2 * j + 1) <= freq ->
  Forall (fun y => apple_key (fst (fst y))) l ->
  Forall (real_press G 4 13500 11250 27000 (fun w => w)) l ->
  Forall2 (timed freq G j) (presses_edges l) evs -> short (hist ++ evs) ->
  exists r0 r os1 os2, receiver_new (nec_protocol b m NecApple) freq = Val r0 /\
    run_edges (D := nec_dec b m NecApple) into r0 (hist ++ evs) = Val (r, os1 ++ os2) /\ length os1 = length hist /\
    commands os2 = map (fun x => into (mkApple (field (fst x) 0 5) (field (fst x) 17 7) (field (fst x) 24 8) (snd x))) (held l) /\
    (forall e, ~ In (RErr e) (tl os2)).
Proof.
  intros b m freq G j l hist evs C into Hm Hf HG Hj Hk Hp Hl F Hs.
  destruct (family_held b m freq G j NecApple 13500 11250 27000 7000 C into (fun w => w) l hist evs)
    as (r0 & r & os1 & os2 & E0 & E & L & Hc & He); auto.
  - left. reflexivity.
  - eapply (words_fit apple_key (fun w => w)); [exact Hp|]. intros k [H1 _]. exact H1.
  - exists r0, r, os1, os2. split; [exact E0|]. split; [exact E|]. split; [exact L|]. split; [|exact He].
    rewrite Hc, <- flat_map_map. apply said_all with (P := apple_key); [exact Hp|].
    intros k rep Hkey. cbn [fst snd]. apply apple_said, Hkey.
Qed.
Print Assumptions C75_apple.

(** The intervals read from one clock (C68) are measured well enough. *)
Theorem C75_one_clock :
  forall freq G j clock t evs, counts freq G j clock -> Forall2 (timed freq G j) evs (measured clock t evs).
Proof. intros. apply measured_timed. assumption. Qed.
Print Assumptions C75_one_clock.

(** Two keys in microseconds, the first one held for two repeat codes, 2 % slow; every
    interval is read with its own error of up to two ticks at 40 kHz. *)
Definition timedb (freq G j : N) (real meas : edge) : bool :=
  Bool.eqb (fst meas) (fst real) && (snd meas * G <? snd real * freq + j * G) && (snd real * freq <? snd meas * G + j * G).
Lemma timedb_ok freq G j x y : timedb freq G j x y = true -> timed freq G j x y.
Proof.
  unfold timedb, timed. intros H. apply andb_true_iff in H. destruct H as [H H3]. apply andb_true_iff in H.
  destruct H as [H1 H2]. apply eqb_prop in H1. rewrite N.ltb_lt in H2, H3. auto.
Qed.

(** Intervals rounded down or up by a tick or two, in turns. *)
Fixpoint shaky (freq G i : N) (evs : list edge) : list edge :=
  match evs with
  | [] => []
  | (l, d) :: r => (l, d * freq / G + (i mod 3) - 1) :: shaky freq G (i + 1) r
  end.

Definition two_keys : list (press (N * N)) :=
  let word k := bytes4 (fst k) (compl8 (fst k)) (snd k) (compl8 (snd k)) in
  [ ((21, 200), (45678, slow_nec (word (21, 200)), 580),
     [(40100, [(9180, 2300)], 577); (98000, [(9170, 2290)], 579)]);
    ((21, 7), (300000, slow_nec (word (21, 7)), 581), []) ].

Example C75_example :
  let evs := shaky 40000 1000000 0 (presses_edges two_keys) in
  let hist := [(true, 31); (false, 24)] in
  Forall (real_press 1000000 4 13500 11250 27000 (fun k => bytes4 (fst k) (compl8 (fst k)) (snd k) (compl8 (snd k)))) two_keys /\
  Forall (fun y => byte_pair (fst (fst y))) two_keys /\
  Forall2 (timed 40000 1000000 2) (presses_edges two_keys) evs /\ short (hist ++ evs) /\ 7000 * (2 * 2 + 1) <= 40000 /\
  held two_keys = [((21, 200), false); ((21, 200), true); ((21, 200), true); ((21, 7), false)] /\
  option_map commands (outcomes (nec_protocol (debug_build 32) MU32 NecStandard) 40000 (hist ++ evs)) =
    Some [mkNec 21 200 false; mkNec 21 200 true; mkNec 21 200 true; mkNec 21 7 false].
Proof.
  intros evs hist. split; [|split; [|split; [|split; [|split; [|split]]]]].
  - unfold two_keys. apply Forall_cons; [|apply Forall_cons; [|apply Forall_nil]]; cbn [real_press].
    + split; [vm_compute; discriminate|]. split; [apply real_nec_ok; vm_compute; reflexivity|].
      apply Forall_cons; [|apply Forall_cons; [|apply Forall_nil]]; (split; [vm_compute; discriminate|]).
      * exists (9180, 2300). split; [reflexivity|]. apply real_nearb_ok. vm_compute. reflexivity.
      * exists (9170, 2290). split; [reflexivity|]. apply real_nearb_ok. vm_compute. reflexivity.
    + split; [vm_compute; discriminate|]. split; [apply real_nec_ok; vm_compute; reflexivity|apply Forall_nil].
  - unfold two_keys. apply Forall_cons; [|apply Forall_cons; [|apply Forall_nil]]; split; reflexivity.
  - eapply forall2b_ok; [apply timedb_ok|]. vm_compute. reflexivity.
  - short_example.
  - lia.
  - vm_compute. reflexivity.
  - vm_compute. reflexivity.
Qed.
