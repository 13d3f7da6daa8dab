(** * Lemmas: reading any signal *)
From Coq Require Import NArith ZArith List Bool Lia ZifyBool ZifyNat ZifyN.
From Verif Require Import Machine Spec Bits Time Decoder Nec Sbp Denon Receiver Time_facts Window_facts Run_facts Nec_facts
  Denon_facts Sbp_facts Spec_sound Sound_facts Codec_facts Spec_grammar Spec_rate Rate_facts.
Import ListNotations.
Open Scope N_scope.

(** ** Windows that are exact *)
Lemma spans_exact m freq pt k d : timebase m freq -> table_ok pt -> exact_rate m freq ->
  spans_get (spans_of m freq pt) d = Some k -> exists p t, nth_error pt (N.to_nat k) = Some (p, t) /\ near freq p t d.
Proof.
  intros Hm Ht Hf E. rewrite spans_of_exact in E by auto. apply spans_get_some in E. destruct E as (s & E & Hc).
  unfold nominal_spans in E. rewrite nth_error_map in E. destruct (nth_error pt (N.to_nat k)) as [[p t]|] eqn:Ep; [|discriminate E].
  cbn [option_map fst snd] in E. injection E as <-. exists p, t. split; [reflexivity|].
  unfold table_ok in Ht. rewrite Forall_forall in Ht. pose proof (Ht _ (nth_error_In _ _ Ep)) as T. cbn [fst snd] in T.
  apply contains_window in Hc; [exact Hc|lia].
Qed.

Lemma near_dec freq p t d : near freq p t d \/ ~ near freq p t d.
Proof. unfold near. destruct (N.le_gt_cases (100 * d) ((100 + t) * nominal freq p)), (N.le_gt_cases ((100 - t) * nominal freq p) (100 * d)); [left; auto| | | ]; right; lia. Qed.

Lemma forall2_impl {A B} (P Q : A -> B -> Prop) : (forall x y, P x y -> Q x y) -> forall l k, Forall2 P l k -> Forall2 Q l k.
Proof. intros H l k F. induction F; constructor; auto. Qed.

(** ** At the edges *)
Definition outcome_of {A E C} (f : A -> option C) (g : E -> decoding_error) (o : heard A E) : outcome C :=
  match o with Nothing => ROk None | Said a => ROk (f a) | Failed e => RErr (g e) end.

(** The state of reading, for a protocol whose signs are [S]: [step] says what a sign does. *)
Fixpoint hears_from {S Q A E} (step : Q -> S -> Q * heard A E) (q : Q) (l : list S) : list (heard A E) :=
  match l with [] => [] | g :: r => let (q', o) := step q g in o :: hears_from step q' r end.

Lemma hears_from_length {S Q A E} (step : Q -> S -> Q * heard A E) l : forall q, length (hears_from step q l) = length l.
Proof. induction l as [|g l IH]; intros q; cbn [hears_from]; [reflexivity|]. destruct (step q g). cbn [length]. rewrite IH. reflexivity. Qed.

Fixpoint state_after {S Q A E} (step : Q -> S -> Q * heard A E) (q : Q) (l : list S) : Q :=
  match l with [] => q | g :: r => state_after step (fst (step q g)) r end.
Lemma hears_from_app {S Q A E} (step : Q -> S -> Q * heard A E) l1 : forall q l2,
  hears_from step q (l1 ++ l2) = hears_from step q l1 ++ hears_from step (state_after step q l1) l2.
Proof.
  induction l1 as [|g l1 IH]; intros q l2; [reflexivity|]. cbn [app hears_from state_after].
  destruct (step q g) as [q' o]. cbn [fst app]. rewrite IH. reflexivity.
Qed.
Lemma state_after_app {S Q A E} (step : Q -> S -> Q * heard A E) l1 : forall q l2,
  state_after step q (l1 ++ l2) = state_after step (state_after step q l1) l2.
Proof. induction l1 as [|g l1 IH]; intros q l2; [reflexivity|]. cbn [app state_after]. apply IH. Qed.

Lemma at_rises_cons_fall {A E} d h (hs : list (heard A E)) : at_rises ((false, d) :: h) hs = Nothing :: at_rises h hs.
Proof. reflexivity. Qed.

(** ** NEC *)

(** Outside a frame the last word is kept, inside the bits so far. *)
Inductive nec_ear := NWaiting (last : N) | NListening (bits : list bool).
Definition nec_hear (q : nec_ear) (s : nec_sign) : nec_ear * heard (N * bool) unit :=
  match q, s with
  | NWaiting last, Header => (NListening [], Nothing)
  | NWaiting last, Again => (NWaiting last, Said (last, true))
  | NWaiting last, _ => (NWaiting last, Nothing)
  | NListening bits, Zero | NListening bits, One =>
      let bits' := bits ++ [match s with One => true | _ => false end] in
      if (length bits' =? 32)%nat then (NWaiting (val_lsb bits'), Said (val_lsb bits', false)) else (NListening bits', Nothing)
  | NListening bits, _ => (NWaiting (val_lsb bits), Failed tt)
  end.

Lemma nec_hear_bit bits x : nec_hear (NListening bits) (bit_of Zero One x) =
  if (length (bits ++ [x]) =? 32)%nat then (NWaiting (val_lsb (bits ++ [x])), Said (val_lsb (bits ++ [x]), false))
  else (NListening (bits ++ [x]), Nothing).
Proof. destruct x; reflexivity. Qed.

Lemma nec_hear_bits more : forall bits, (length bits + length more < 32)%nat ->
  hears_from nec_hear (NListening bits) (map (bit_of Zero One) more) = repeat Nothing (length more) /\
  state_after nec_hear (NListening bits) (map (bit_of Zero One) more) = NListening (bits ++ more).
Proof.
  induction more as [|x more IH]; intros bits L; cbn [map hears_from state_after length repeat].
  - rewrite app_nil_r. auto.
  - rewrite nec_hear_bit. cbn [length] in L. rewrite app_length. cbn [length].
    rewrite (proj2 (Nat.eqb_neq _ _)) by lia. cbn [fst].
    destruct (IH (bits ++ [x])) as (I1 & I2); [rewrite app_length; cbn [length]; lia|].
    rewrite I1, I2, <- app_assoc. auto.
Qed.

Lemma nec_hear_phrase p last : nec_phrase_ok p -> exists last',
  hears_from nec_hear (NWaiting last) (nec_signs p) ++ nec_hears last' [] = nec_hears last [p] /\
  state_after nec_hear (NWaiting last) (nec_signs p) = NWaiting last' /\
  forall r, nec_hears last (p :: r) = hears_from nec_hear (NWaiting last) (nec_signs p) ++ nec_hears last' r.
Proof.
  intros H. destruct p as [w|bits s| |s]; cbn [nec_phrase_ok nec_signs nec_hears] in *.
  - exists w. set (bs := bits_lsb 32 w).
    assert (L : length bs = 32%nat) by (unfold bs, bits_lsb; rewrite map_length, seq_length; reflexivity).
    assert (Vw : val_lsb bs = w) by (unfold bs; rewrite val_bits_lsb; apply N.mod_small; exact H).
    destruct (exists_last (l := bs)) as (bs' & x & Eb); [intros K; rewrite K in L; discriminate L|].
    clearbody bs. subst bs. rewrite app_length in L. cbn [length] in L. assert (L' : length bs' = 31%nat) by lia.
    rewrite map_app. cbn [map hears_from state_after nec_hear fst].
    destruct (nec_hear_bits bs' []) as (I1 & I2); [cbn [length]; lia|]. cbn [app] in I2.
    rewrite hears_from_app, state_after_app, I1, I2, L'. cbn [hears_from state_after]. rewrite nec_hear_bit.
    rewrite app_length, L'. cbn [length Nat.add Nat.eqb fst]. rewrite Vw. split; [|split]; [reflexivity|reflexivity|].
    intros r. change (repeat (@Nothing (N * bool) unit) 32) with (Nothing :: repeat (@Nothing (N * bool) unit) 31).
    cbn [app]. rewrite <- app_assoc. reflexivity.
  - destruct H as (L & H1 & H2). exists (val_lsb bits). cbn [hears_from state_after nec_hear fst].
    destruct (nec_hear_bits bits []) as (I1 & I2); [cbn [length]; lia|]. cbn [app] in I2.
    rewrite hears_from_app, state_after_app, I1, I2. cbn [hears_from state_after repeat app].
    assert (Es : nec_hear (NListening bits) s = (NWaiting (val_lsb bits), Failed tt)) by (destruct s; congruence || reflexivity).
    rewrite Es. cbn [fst]. split; [|split]; auto.
    + rewrite app_nil_r. reflexivity.
    + intros r. rewrite <- app_assoc. reflexivity.
  - exists last. auto.
  - destruct H as (H1 & H2). exists last. destruct s; try congruence; auto.
Qed.

Lemma nec_hear_phrases ps : forall last, Forall nec_phrase_ok ps -> exists last',
  hears_from nec_hear (NWaiting last) (flat_map nec_signs ps) = nec_hears last ps /\
  state_after nec_hear (NWaiting last) (flat_map nec_signs ps) = NWaiting last'.
Proof.
  induction ps as [|p ps IH]; intros last H; cbn [flat_map]; [exists last; auto|].
  apply Forall_cons_iff in H. destruct H as (Hp & H).
  destruct (nec_hear_phrase p last Hp) as (l1 & _ & E2 & E3). destruct (IH l1 H) as (l2 & I1 & I2).
  exists l2. rewrite hears_from_app, state_after_app, E2, I1, I2, E3. auto.
Qed.

Lemma nec_hear_rest last rest : nec_unfinished rest -> hears_from nec_hear (NWaiting last) rest = repeat Nothing (length rest).
Proof.
  intros [->|(bits & -> & L)]; [reflexivity|]. cbn [hears_from nec_hear length repeat].
  destruct (nec_hear_bits bits []) as (I1 & _); [cbn [length]; lia|]. rewrite I1, map_length. reflexivity.
Qed.

(** Every series of signs can be read. *)
Lemma nec_read_bits l : forall acc : list bool, (length acc < 32)%nat ->
  (exists bits, l = map (bit_of Zero One) bits /\ (length acc + length bits < 32)%nat) \/
  (exists bits rest, l = map (bit_of Zero One) bits ++ rest /\ (length acc + length bits = 32)%nat) \/
  (exists bits s rest, l = map (bit_of Zero One) bits ++ s :: rest /\ s <> Zero /\ s <> One /\ (length acc + length bits < 32)%nat).
Proof.
  induction l as [|s l IH]; intros acc L.
  - left. exists []. cbn. split; [reflexivity|lia].
  - assert (B : (exists x, s = bit_of Zero One x) \/ (s <> Zero /\ s <> One)).
    { destruct s; try (right; split; discriminate); left; [exists false|exists true]; reflexivity. }
    destruct B as [(x & ->)|(B1 & B2)].
    + destruct (Nat.eq_dec (length acc) 31) as [E|E].
      * right. left. exists [x], l. cbn. split; [reflexivity|lia].
      * destruct (IH (acc ++ [x])) as [(bits & E1 & E2)|[(bits & rest & E1 & E2)|(bits & s & rest & E1 & E2 & E3 & E4)]];
          try (rewrite app_length; cbn [length]; lia); rewrite app_length in *; cbn [length] in *.
        -- left. exists (x :: bits). cbn [map length]. rewrite E1. split; [reflexivity|lia].
        -- right. left. exists (x :: bits), rest. cbn [map app length]. rewrite E1. split; [reflexivity|lia].
        -- right. right. exists (x :: bits), s, rest. cbn [map app length]. rewrite E1. repeat split; auto; lia.
    + right. right. exists [], s, l. cbn. repeat split; auto; lia.
Qed.

Lemma nec_read n : forall l, (length l <= n)%nat -> exists ps rest,
  Forall nec_phrase_ok ps /\ nec_unfinished rest /\ l = flat_map nec_signs ps ++ rest.
Proof.
  induction n as [|n IH]; intros l L.
  - destruct l; [|cbn in L; lia]. exists [], []. repeat split; auto. left. reflexivity.
  - destruct l as [|s l]; [exists [], []; repeat split; auto; left; reflexivity|]. cbn [length] in L.
    assert (Simple : forall p, nec_phrase_ok p -> nec_signs p = [s] -> exists ps rest,
      Forall nec_phrase_ok ps /\ nec_unfinished rest /\ s :: l = flat_map nec_signs ps ++ rest).
    { intros p Hp Ep. destruct (IH l ltac:(lia)) as (ps & rest & H1 & H2 & H3). exists (p :: ps), rest.
      repeat split; auto. cbn [flat_map]. rewrite Ep, H3. reflexivity. }
    destruct s.
    + destruct (nec_read_bits l [] ltac:(cbn; lia)) as [(bits & E1 & E2)|[(bits & rest & E1 & E2)|(bits & s & rest & E1 & E2 & E3 & E4)]]; cbn [length Nat.add] in *.
      * exists [], (Header :: l). repeat split; auto. right. exists bits. rewrite E1. auto.
      * destruct (IH rest) as (ps & rest' & H1 & H2 & H3); [rewrite E1, app_length in L; lia|].
        exists (NecFrame (val_lsb bits) :: ps), rest'. split; [|split]; [|exact H2|].
        -- apply Forall_cons; [|exact H1]. cbn [nec_phrase_ok]. pose proof (val_lsb_lt bits) as V. rewrite E2 in V. exact V.
        -- cbn [flat_map nec_signs]. rewrite <- E2 at 1. rewrite bits_val_lsb, E1, H3. cbn [app]. rewrite <- app_assoc. reflexivity.
      * destruct (IH rest) as (ps & rest' & H1 & H2 & H3); [rewrite E1, app_length in L; cbn [length] in L; lia|].
        exists (NecBroken bits s :: ps), rest'. split; [|split]; [|exact H2|].
        -- apply Forall_cons; [|exact H1]. cbn [nec_phrase_ok]. auto.
        -- cbn [flat_map nec_signs]. rewrite E1, H3. cbn [app]. rewrite <- !app_assoc. reflexivity.
    + apply (Simple NecAgain); [exact I|reflexivity].
    + apply (Simple (NecNoise Zero)); [split; discriminate|reflexivity].
    + apply (Simple (NecNoise One)); [split; discriminate|reflexivity].
    + apply (Simple (NecNoise Other)); [split; discriminate|reflexivity].
Qed.

Lemma nec_says_some freq header again d : exists s, nec_says freq header again s d.
Proof.
  destruct (near_dec freq header 7 d); [exists Header; auto|]. destruct (near_dec freq again 7 d); [exists Again; auto|].
  destruct (near_dec freq 1120 25 d); [exists Zero; auto|]. destruct (near_dec freq 2250 12 d); [exists One; auto|].
  exists Other. cbn. auto.
Qed.

Lemma says_list {S} (says : S -> N -> Prop) : (forall d, exists s, says s d) -> forall ds, exists l, Forall2 says l ds.
Proof.
  intros H. induction ds as [|d ds (l & IH)]; [exists []; constructor|]. destruct (H d) as (s & Hs). exists (s :: l). constructor; auto.
Qed.

Lemma nec_reading_some freq header again h : exists ps rest, nec_reading freq header again h ps rest.
Proof.
  destruct (says_list (nec_says freq header again) (nec_says_some freq header again) (periods h)) as (l & F).
  destruct (nec_read (length l) l (Nat.le_refl _)) as (ps & rest & H1 & H2 & ->). exists ps, rest. repeat split; auto.
Qed.

Section Nec.
  Variables (b : build) (m : mono) (freq : N) (V : nec_variant).
  Let T := nv_timing V.
  Hypothesis (Hm : timebase m freq) (Hlo : 893 <= freq) (Hhi : exact_rate m freq) (HT : nec_timing_ok T).
  Let ss := spans_of m freq (nec_pulses T).
  Notation D := (nec_dec b m V).
  Context {C : Type} (into : nv_cmd V -> C).
  Notation run := (@run_edges D C into).
  Notation ev := (@event_edge D C into).
  Notation st s buf sv pv := (@mkRecv D (mkNecDec s buf sv ss) pv).
  Let hdr := header_high T + header_low T.
  Let rep := header_high T + repeat_low T.

  Definition nec_sign_pw (s : nec_sign) : nec_pw :=
    match s with Header => PSync | Again => PRepeat | Zero => PZero | One => POne | Other => PInvalid end.

  Let Hf : freq < M32. Proof. exact (exact_rate_lt m freq Hhi). Qed.

  Lemma nec_class_exact d :
    (near freq hdr 7 d -> nec_class ss d = PSync) /\ (near freq rep 7 d -> nec_class ss d = PRepeat) /\
    (near freq (data_high T + data_zero_low T) 25 d -> nec_class ss d = PZero) /\
    (near freq (data_high T + data_one_low T) 12 d -> nec_class ss d = POne).
  Proof.
    pose proof (nec_distinct m freq T HT Hm Hf Hlo) as Hd. pose proof (nec_table_ok T HT) as Ht.
    unfold nec_class, ss. repeat split; intros H.
    - rewrite (spans_get_exact 4 (nec_pulses T) m freq 0 hdr 7 d Hm Hhi Ht Hd); auto; lia.
    - rewrite (spans_get_exact 4 (nec_pulses T) m freq 1 rep 7 d Hm Hhi Ht Hd); auto; lia.
    - rewrite (spans_get_exact 4 (nec_pulses T) m freq 2 (data_high T + data_zero_low T) 25 d Hm Hhi Ht Hd); auto; lia.
    - rewrite (spans_get_exact 4 (nec_pulses T) m freq 3 (data_high T + data_one_low T) 12 d Hm Hhi Ht Hd); auto; lia.
  Qed.

  Lemma nec_sign_class s d : nec_says freq hdr rep s d -> nec_class ss d = nec_sign_pw s.
  Proof.
    intros H. pose proof (nec_class_exact d) as (N1 & N2 & N3 & N4).
    assert (E3 : data_high T + data_zero_low T = 1120) by (destruct HT as [E|E]; rewrite E; reflexivity).
    assert (E4 : data_high T + data_one_low T = 2250) by (destruct HT as [E|E]; rewrite E; reflexivity).
    rewrite E3 in N3. rewrite E4 in N4.
    destruct s; cbn [nec_says nec_sign_pw] in *; auto.
    destruct H as (H1 & H2 & H3 & H4). unfold nec_class. destruct (spans_get ss d) as [k|] eqn:E; [|reflexivity].
    unfold ss in E. apply spans_exact in E; auto using nec_table_ok. destruct E as (p & t & E & Hn).
    destruct k as [|[q|q|]]; cbn [nec_pw_from].
    - exfalso. cbn in E. injection E as <- <-. exact (H1 Hn).
    - destruct q; [reflexivity|reflexivity|]. exfalso. cbn in E. injection E as <- <-. rewrite E4 in Hn. exact (H4 Hn).
    - destruct q; [reflexivity|reflexivity|]. exfalso. cbn in E. injection E as <- <-. rewrite E3 in Hn. exact (H3 Hn).
    - exfalso. cbn in E. injection E as <- <-. exact (H2 Hn).
  Qed.

  (** The receiver and the reading go together. *)
  Definition nec_agrees (q : nec_ear) (s : nec_state) (buf : N) : Prop :=
    match q with
    | NWaiting last => s = NInit /\ buf = last
    | NListening bits => s = NReceiving (N.of_nat (length bits)) /\ buf = val_lsb bits /\ (length bits < 32)%nat
    end.
  Definition nec_outcome : heard (N * bool) unit -> outcome C :=
    outcome_of (fun a => option_map into (nv_unpack V (fst a) (snd a))) (fun _ => EData).

  Lemma nec_hear_step q s buf sv pv g d : nec_agrees q s buf -> sv + d < 2 ^ 32 -> nec_class ss (sv + d) = nec_sign_pw g ->
    exists s' buf', ev (st s buf sv pv) d true = Val (st s' buf' 0 pv, nec_outcome (snd (nec_hear q g))) /\
      nec_agrees (fst (nec_hear q g)) s' buf'.
  Proof.
    clear Hlo. intros Ha Hd Hs. pose proof (nec_fits_rise b m freq V Hm Hf into s buf sv pv d Hd) as E. fold T ss in E. rewrite E. clear E.
    rewrite Hs. destruct q as [last|bits]; cbn [nec_agrees] in Ha.
    - destruct Ha as (-> & ->). destruct g; cbn [nec_sign_pw nec_transition bind nec_to_state nec_hear fst snd nec_outcome outcome_of nec_command_of ns_state ns_bitbuf];
        do 2 eexists; (split; [reflexivity|]); cbn [nec_agrees length val_lsb]; auto. repeat split; lia.
    - destruct Ha as (-> & -> & L).
      assert (Bit : forall x, exists s' buf',
        (let* (b1, s1) := nec_transition b (NReceiving (N.of_nat (length bits))) (val_lsb bits) (nec_sign_pw (bit_of Zero One x)) in
         match nec_to_state s1 with
         | Done => Val (st NInit b1 0 pv, ROk (option_map into (nec_command_of V (mkNecDec s1 b1 0 ss))))
         | Error e => Val (st NInit b1 0 pv, RErr e)
         | _ => Val (st s1 b1 0 pv, ROk None)
         end) = Val (st s' buf' 0 pv, nec_outcome (snd (nec_hear (NListening bits) (bit_of Zero One x)))) /\
        nec_agrees (fst (nec_hear (NListening bits) (bit_of Zero One x))) s' buf').
      { intros x. rewrite nec_hear_bit.
        assert (El : length (bits ++ [x]) = S (length bits)) by (rewrite app_length; cbn; lia). rewrite El.
        assert (Ev : (if x then N.lor (val_lsb bits) (N.shiftl 1 (N.of_nat (length bits))) else val_lsb bits) = val_lsb (bits ++ [x])).
        { rewrite val_lsb_snoc. destruct x; [|rewrite N.mul_0_r, N.add_0_r; reflexivity].
          rewrite (N.mul_comm (2 ^ N.of_nat (length bits))). apply lor_add, val_lsb_lt. }
        destruct (Nat.eqb_spec (S (length bits)) 32) as [E32|E32].
        - assert (E31 : N.of_nat (length bits) = 31) by lia.
          exists NInit, (val_lsb (bits ++ [x])). destruct x; cbn [bit_of nec_sign_pw nec_transition]; rewrite E31 in *; cbn [N.eqb Pos.eqb].
          + unfold ushl1. change (31 <? 32) with true. cbn [bind nec_to_state fst snd nec_outcome outcome_of nec_command_of ns_state ns_bitbuf nec_agrees].
            rewrite Ev. auto.
          + cbn [bind nec_to_state fst snd nec_outcome outcome_of nec_command_of ns_state ns_bitbuf nec_agrees]. rewrite Ev. auto.
        - exists (NReceiving (N.of_nat (length (bits ++ [x])))), (val_lsb (bits ++ [x])). cbn [fst snd].
          assert (E31 : (N.of_nat (length bits) =? 31) = false) by (apply N.eqb_neq; lia).
          assert (En : N.of_nat (length (bits ++ [x])) = N.of_nat (length bits) + 1) by (rewrite El; lia).
          destruct x; cbn [bit_of nec_sign_pw nec_transition]; rewrite E31; unfold ushl1, uadd.
          + rewrite (proj2 (N.ltb_lt (N.of_nat (length bits)) 32)) by lia. cbn [bind].
            rewrite (proj2 (N.ltb_lt (N.of_nat (length bits) + 1) (2 ^ 32))) by (change (2 ^ 32) with 4294967296; lia).
            cbn [bind nec_to_state nec_outcome outcome_of]. rewrite Ev, En. split; [reflexivity|]. cbn [nec_agrees].
            rewrite En. split; [reflexivity|]. split; [reflexivity|lia].
          + rewrite (proj2 (N.ltb_lt (N.of_nat (length bits) + 1) (2 ^ 32))) by (change (2 ^ 32) with 4294967296; lia).
            cbn [bind nec_to_state nec_outcome outcome_of]. rewrite Ev, En. split; [reflexivity|]. cbn [nec_agrees].
            rewrite En. split; [reflexivity|]. split; [reflexivity|lia]. }
      destruct g; try (cbn [nec_sign_pw nec_transition bind nec_to_state nec_hear fst snd nec_outcome outcome_of];
        do 2 eexists; (split; [reflexivity|]); cbn [nec_agrees]; auto; fail).
      + exact (Bit false).
      + exact (Bit true).
  Qed.

  Lemma nec_hear_run h : forall q s buf sv pv gs, nec_agrees q s buf ->
    Forall (fun p => p < 2 ^ 32) (periods_from sv h) -> Forall2 (fun g d => nec_class ss d = nec_sign_pw g) gs (periods_from sv h) ->
    exists r, run (st s buf sv pv) h = Val (r, map nec_outcome (at_rises h (hears_from nec_hear q gs))).
  Proof.
    clear Hlo.
    induction h as [|[[|] d] h IH]; intros q s buf sv pv gs Ha Hfit Hg; cbn [periods_from] in *.
    - eexists. reflexivity.
    - apply Forall_cons_iff in Hfit. destruct Hfit as (Hd & Hfit). inversion Hg as [|g ? gs' ? G1 G2]; subst.
      destruct (nec_hear_step q s buf sv pv g d Ha Hd G1) as (s' & buf' & E & Ha').
      destruct (IH (fst (nec_hear q g)) s' buf' 0 pv gs' Ha' Hfit G2) as (r & R).
      exists r. cbn [run_edges]. rewrite E. cbn [bind]. rewrite R. cbn [bind hears_from at_rises].
      destruct (nec_hear q g) as [q' o]. cbn [fst snd at_rises map]. reflexivity.
    - destruct (IH q s buf d pv gs Ha Hfit Hg) as (r & R). exists r. cbn [run_edges].
      assert (E : ev (st s buf sv pv) d false = Val (st s buf d pv, ROk None)).
      { destruct q; cbn [nec_agrees] in Ha; [destruct Ha as (-> & _)|destruct Ha as (-> & _)]; reflexivity. }
      rewrite E. cbn [bind]. rewrite R. reflexivity.
  Qed.

  Lemma nec_hears_all h ps rest : periods_fit h -> nec_reading freq hdr rep h ps rest ->
    exists r0 r, receiver_new (nec_protocol b m V) freq = Val r0 /\
      run r0 h = Val (r, map nec_outcome (at_rises h (nec_hears 0 ps ++ repeat Nothing (length rest)))).
  Proof.
    intros Hfit (H1 & H2 & H3). pose proof (nec_new_val b m freq V Hm Hf HT) as E0. fold T ss in E0.
    destruct (nec_hear_run h (NWaiting 0) NInit 0 0 0 (flat_map nec_signs ps ++ rest)) as (r & R); [split; reflexivity|exact Hfit|exact (forall2_impl _ _ nec_sign_class _ _ H3)|].
    eexists. exists r. split; [exact E0|]. rewrite hears_from_app in R.
    destruct (nec_hear_phrases ps 0 H1) as (last & P1 & P2). rewrite P1, P2, (nec_hear_rest last rest H2) in R. exact R.
  Qed.
End Nec.

(** ** Denon *)

Inductive denon_ear := DWaiting (carry : N) | DListening (carry : N) (bits : list bool).
Definition denon_hear (q : denon_ear) (s : denon_sign) : denon_ear * heard N unit :=
  match q, s with
  | DWaiting carry, DnSync => (DListening carry [], Nothing)
  | DWaiting carry, _ => (DWaiting carry, Nothing)
  | DListening carry bits, DnZero | DListening carry bits, DnOne =>
      let bits' := bits ++ [match s with DnOne => true | _ => false end] in
      if (length bits' =? 48)%nat then (DWaiting 0, Said (N.lor carry (val_lsb bits))) else (DListening carry bits', Nothing)
  | DListening carry bits, _ => (DWaiting (N.lor carry (val_lsb bits)), Nothing)
  end.

Lemma denon_hear_bit carry bits x : denon_hear (DListening carry bits) (bit_of DnZero DnOne x) =
  if (length (bits ++ [x]) =? 48)%nat then (DWaiting 0, Said (N.lor carry (val_lsb bits)))
  else (DListening carry (bits ++ [x]), Nothing).
Proof. destruct x; reflexivity. Qed.

Lemma denon_hear_bits carry more : forall bits, (length bits + length more < 48)%nat ->
  hears_from denon_hear (DListening carry bits) (map (bit_of DnZero DnOne) more) = repeat Nothing (length more) /\
  state_after denon_hear (DListening carry bits) (map (bit_of DnZero DnOne) more) = DListening carry (bits ++ more).
Proof.
  induction more as [|x more IH]; intros bits L; cbn [map hears_from state_after length repeat].
  - rewrite app_nil_r. auto.
  - rewrite denon_hear_bit. cbn [length] in L. rewrite app_length. cbn [length].
    rewrite (proj2 (Nat.eqb_neq _ _)) by lia. cbn [fst].
    destruct (IH (bits ++ [x])) as (I1 & I2); [rewrite app_length; cbn [length]; lia|].
    rewrite I1, I2, <- app_assoc. auto.
Qed.

Lemma denon_hear_phrase p carry : denon_phrase_ok p -> exists carry',
  state_after denon_hear (DWaiting carry) (denon_signs p) = DWaiting carry' /\
  forall r, denon_hears carry (p :: r) = hears_from denon_hear (DWaiting carry) (denon_signs p) ++ denon_hears carry' r.
Proof.
  intros H. destruct p as [bs|bits s|s]; cbn [denon_phrase_ok denon_signs denon_hears] in *.
  - exists 0. destruct (exists_last (l := bs)) as (bs' & x & Eb); [intros K; rewrite K in H; discriminate H|].
    subst bs. rewrite app_length in H. cbn [length] in H. assert (L' : length bs' = 47%nat) by lia.
    assert (Ef : firstn 47 (bs' ++ [x]) = bs') by (rewrite <- L', firstn_app, firstn_all, Nat.sub_diag, firstn_O, app_nil_r; reflexivity).
    rewrite Ef, map_app. cbn [map hears_from state_after denon_hear fst].
    destruct (denon_hear_bits carry bs' []) as (I1 & I2); [cbn [length]; lia|]. cbn [app] in I2.
    rewrite hears_from_app, state_after_app, I1, I2, L'. cbn [hears_from state_after]. rewrite denon_hear_bit.
    rewrite app_length, L'. cbn [length Nat.add Nat.eqb fst]. split; [reflexivity|].
    intros r. change (repeat (@Nothing N unit) 48) with (Nothing :: repeat (@Nothing N unit) 47).
    cbn [app]. rewrite <- app_assoc. reflexivity.
  - destruct H as (L & H1 & H2). exists (N.lor carry (val_lsb bits)). cbn [hears_from state_after denon_hear fst].
    destruct (denon_hear_bits carry bits []) as (I1 & I2); [cbn [length]; lia|]. cbn [app] in I2.
    rewrite hears_from_app, state_after_app, I1, I2. cbn [hears_from state_after repeat app].
    assert (Es : denon_hear (DListening carry bits) s = (DWaiting (N.lor carry (val_lsb bits)), Nothing)) by (destruct s; congruence || reflexivity).
    rewrite Es. cbn [fst]. split; auto. intros r. rewrite <- app_assoc. reflexivity.
  - exists carry. destruct s; try congruence; auto.
Qed.

Lemma denon_hear_phrases ps : forall carry, Forall denon_phrase_ok ps -> exists carry',
  hears_from denon_hear (DWaiting carry) (flat_map denon_signs ps) = denon_hears carry ps /\
  state_after denon_hear (DWaiting carry) (flat_map denon_signs ps) = DWaiting carry'.
Proof.
  induction ps as [|p ps IH]; intros carry H; cbn [flat_map]; [exists carry; auto|].
  apply Forall_cons_iff in H. destruct H as (Hp & H).
  destruct (denon_hear_phrase p carry Hp) as (l1 & E2 & E3). destruct (IH l1 H) as (l2 & I1 & I2).
  exists l2. rewrite hears_from_app, state_after_app, E2, I1, I2, E3. auto.
Qed.

Lemma denon_hear_rest carry rest : denon_unfinished rest -> hears_from denon_hear (DWaiting carry) rest = repeat Nothing (length rest).
Proof.
  intros [->|(bits & -> & L)]; [reflexivity|]. cbn [hears_from denon_hear length repeat].
  destruct (denon_hear_bits carry bits []) as (I1 & _); [cbn [length]; lia|]. rewrite I1, map_length. reflexivity.
Qed.

Lemma denon_read_bits l : forall acc : list bool, (length acc < 48)%nat ->
  (exists bits, l = map (bit_of DnZero DnOne) bits /\ (length acc + length bits < 48)%nat) \/
  (exists bits rest, l = map (bit_of DnZero DnOne) bits ++ rest /\ (length acc + length bits = 48)%nat) \/
  (exists bits s rest, l = map (bit_of DnZero DnOne) bits ++ s :: rest /\ s <> DnZero /\ s <> DnOne /\ (length acc + length bits < 48)%nat).
Proof.
  induction l as [|s l IH]; intros acc L.
  - left. exists []. cbn. split; [reflexivity|lia].
  - assert (B : (exists x, s = bit_of DnZero DnOne x) \/ (s <> DnZero /\ s <> DnOne)).
    { destruct s; try (right; split; discriminate); left; [exists false|exists true]; reflexivity. }
    destruct B as [(x & ->)|(B1 & B2)].
    + destruct (Nat.eq_dec (length acc) 47) as [E|E].
      * right. left. exists [x], l. cbn. split; [reflexivity|lia].
      * destruct (IH (acc ++ [x])) as [(bits & E1 & E2)|[(bits & rest & E1 & E2)|(bits & s & rest & E1 & E2 & E3 & E4)]];
          try (rewrite app_length; cbn [length]; lia); rewrite app_length in *; cbn [length] in *.
        -- left. exists (x :: bits). cbn [map length]. rewrite E1. split; [reflexivity|lia].
        -- right. left. exists (x :: bits), rest. cbn [map app length]. rewrite E1. split; [reflexivity|lia].
        -- right. right. exists (x :: bits), s, rest. cbn [map app length]. rewrite E1. repeat split; auto; lia.
    + right. right. exists [], s, l. cbn. repeat split; auto; lia.
Qed.

Lemma denon_read n : forall l, (length l <= n)%nat -> exists ps rest,
  Forall denon_phrase_ok ps /\ denon_unfinished rest /\ l = flat_map denon_signs ps ++ rest.
Proof.
  induction n as [|n IH]; intros l L.
  - destruct l; [|cbn in L; lia]. exists [], []. repeat split; auto. left. reflexivity.
  - destruct l as [|s l]; [exists [], []; repeat split; auto; left; reflexivity|]. cbn [length] in L.
    assert (Simple : s <> DnSync -> exists ps rest,
      Forall denon_phrase_ok ps /\ denon_unfinished rest /\ s :: l = flat_map denon_signs ps ++ rest).
    { intros Hs. destruct (IH l ltac:(lia)) as (ps & rest & H1 & H2 & H3). exists (DnNoise s :: ps), rest.
      repeat split; auto. cbn [flat_map denon_signs app]. rewrite H3. reflexivity. }
    destruct s; try (apply Simple; discriminate).
    destruct (denon_read_bits l [] ltac:(cbn; lia)) as [(bits & E1 & E2)|[(bits & rest & E1 & E2)|(bits & s & rest & E1 & E2 & E3 & E4)]]; cbn [length Nat.add] in *.
    + exists [], (DnSync :: l). repeat split; auto. right. exists bits. rewrite E1. auto.
    + destruct (IH rest) as (ps & rest' & H1 & H2 & H3); [rewrite E1, app_length in L; lia|].
      exists (DnFrame bits :: ps), rest'. split; [|split]; [|exact H2|].
      * apply Forall_cons; [exact E2|exact H1].
      * cbn [flat_map denon_signs]. rewrite E1, H3. cbn [app]. rewrite <- app_assoc. reflexivity.
    + destruct (IH rest) as (ps & rest' & H1 & H2 & H3); [rewrite E1, app_length in L; cbn [length] in L; lia|].
      exists (DnBroken bits s :: ps), rest'. split; [|split]; [|exact H2|].
      * apply Forall_cons; [|exact H1]. cbn [denon_phrase_ok]. auto.
      * cbn [flat_map denon_signs]. rewrite E1, H3. cbn [app]. rewrite <- !app_assoc. reflexivity.
Qed.

Lemma denon_says_some freq d : exists s, denon_says freq s d.
Proof.
  destruct (near_dec freq 5000 8 d); [exists DnSync; auto|]. destruct (near_dec freq 840 10 d); [exists DnZero; auto|].
  destruct (near_dec freq 1680 10 d); [exists DnOne; auto|]. exists DnOther. cbn. auto.
Qed.

Lemma denon_reading_some freq h : exists ps rest, denon_reading freq h ps rest.
Proof.
  destruct (says_list (denon_says freq) (denon_says_some freq) (periods h)) as (l & F).
  destruct (denon_read (length l) l (Nat.le_refl _)) as (ps & rest & H1 & H2 & ->). exists ps, rest. repeat split; auto.
Qed.

Section Denon.
  Variables (b : build) (m : mono) (freq : N).
  Hypothesis (Hm : timebase m freq) (Hlo : 1191 <= freq) (Hhi : exact_rate m freq).
  Let ss := spans_of m freq denon_pulses.
  Notation D := (denon_dec b m).
  Context {C : Type} (into : denon_command -> C).
  Notation run := (@run_edges D C into).
  Notation ev := (@event_edge D C into).
  Notation st s buf sv pv := (@mkRecv D (mkDenonDec s buf sv ss) pv).
  Let Hf : freq < M32. Proof. exact (exact_rate_lt m freq Hhi). Qed.

  Definition denon_sign_pw (s : denon_sign) : denon_pw :=
    match s with DnSync => DSync | DnZero => DZero | DnOne => DOne | DnOther => DFail end.

  Lemma denon_class_exact d :
    (near freq 5000 8 d -> denon_class ss d = DSync) /\ (near freq 840 10 d -> denon_class ss d = DZero) /\
    (near freq 1680 10 d -> denon_class ss d = DOne).
  Proof.
    pose proof (denon_distinct m freq Hm Hf Hlo) as Hd. pose proof denon_ok as Ht.
    unfold denon_class, ss. repeat split; intros H.
    - rewrite (spans_get_exact 3 denon_pulses m freq 0 5000 8 d Hm Hhi Ht Hd); auto; lia.
    - rewrite (spans_get_exact 3 denon_pulses m freq 1 840 10 d Hm Hhi Ht Hd); auto; lia.
    - rewrite (spans_get_exact 3 denon_pulses m freq 2 1680 10 d Hm Hhi Ht Hd); auto; lia.
  Qed.

  Lemma denon_sign_class s d : denon_says freq s d -> denon_class ss d = denon_sign_pw s.
  Proof.
    intros H. pose proof (denon_class_exact d) as (N1 & N2 & N3).
    destruct s; cbn [denon_says denon_sign_pw] in *; auto.
    destruct H as (H1 & H2 & H3). unfold denon_class. destruct (spans_get ss d) as [k|] eqn:E; [|reflexivity].
    unfold ss in E. apply spans_exact in E; auto using denon_ok. destruct E as (p & t & E & Hn).
    destruct k as [|[q|q|]]; cbn [denon_pw_from].
    - exfalso. cbn in E. injection E as <- <-. exact (H1 Hn).
    - destruct q; reflexivity.
    - destruct q; [reflexivity|reflexivity|]. exfalso. cbn in E. injection E as <- <-. exact (H3 Hn).
    - exfalso. cbn in E. injection E as <- <-. exact (H2 Hn).
  Qed.

  Definition denon_agrees (q : denon_ear) (s : denon_state) (buf : N) : Prop :=
    match q with
    | DWaiting carry => s = DIdle /\ buf = carry
    | DListening carry bits => s = DData (N.of_nat (length bits)) /\ buf = N.lor carry (val_lsb bits) /\ (length bits < 48)%nat
    end.
  Definition denon_outcome : heard N unit -> outcome C :=
    outcome_of (fun a => Some (into (mkDenon a))) (fun _ => EData).

  Lemma denon_hear_step q s buf sv pv g d : denon_agrees q s buf -> sv + d < 2 ^ 32 -> denon_says freq g (sv + d) ->
    exists s' buf', ev (st s buf sv pv) d true = Val (st s' buf' 0 pv, denon_outcome (snd (denon_hear q g))) /\
      denon_agrees (fst (denon_hear q g)) s' buf'.
  Proof.
    intros Ha Hd Hs. pose proof (denon_fits_rise b m freq Hm into s buf sv pv d Hd) as E. fold ss in E. rewrite E. clear E.
    rewrite (denon_sign_class g _ Hs). destruct q as [carry|carry bits]; cbn [denon_agrees] in Ha.
    - destruct Ha as (-> & ->). destruct g; cbn [denon_sign_pw denon_transition bind denon_hear fst snd denon_outcome outcome_of];
        do 2 eexists; (split; [reflexivity|]); cbn [denon_agrees length val_lsb]; auto.
      rewrite N.lor_0_r. repeat split; lia.
    - destruct Ha as (-> & -> & L).
      assert (Bit : forall x, exists s' buf',
        (let* (b1, s1) := denon_transition b (DData (N.of_nat (length bits))) (N.lor carry (val_lsb bits)) (denon_sign_pw (bit_of DnZero DnOne x)) in
         match s1 with
         | DDone => Val (st DIdle 0 0 pv, ROk (Some (into (mkDenon b1))))
         | _ => Val (st s1 b1 0 pv, ROk None)
         end) = Val (st s' buf' 0 pv, denon_outcome (snd (denon_hear (DListening carry bits) (bit_of DnZero DnOne x)))) /\
        denon_agrees (fst (denon_hear (DListening carry bits) (bit_of DnZero DnOne x))) s' buf').
      { intros x. rewrite denon_hear_bit.
        replace (denon_sign_pw (bit_of DnZero DnOne x)) with (denon_bit_pw x) by (destruct x; reflexivity).
        rewrite (denon_step b freq Hf) by lia.
        assert (El : length (bits ++ [x]) = S (length bits)) by (rewrite app_length; cbn; lia). rewrite El.
        destruct (Nat.eqb_spec (S (length bits)) 48) as [E48|E48].
        - rewrite (proj2 (N.eqb_eq _ _)) by lia. cbn [bind fst snd denon_outcome outcome_of denon_agrees].
          do 2 eexists. split; [reflexivity|]. auto.
        - rewrite (proj2 (N.eqb_neq _ _)) by lia. cbn [bind fst snd denon_outcome outcome_of denon_agrees].
          do 2 eexists. split; [reflexivity|]. rewrite El. split; [f_equal; lia|]. split; [|lia].
          rewrite <- N.lor_assoc. f_equal. rewrite val_lsb_snoc. destruct x.
          + rewrite N.mul_1_r. rewrite <- (N.mul_1_l (2 ^ N.of_nat (length bits))), <- N.shiftl_mul_pow2.
            rewrite lor_add by apply val_lsb_lt. rewrite N.shiftl_mul_pow2. reflexivity.
          + rewrite N.mul_0_r, N.add_0_r, N.lor_0_r. reflexivity. }
      destruct g; try (cbn [denon_sign_pw denon_transition bind denon_hear fst snd denon_outcome outcome_of];
        do 2 eexists; (split; [reflexivity|]); cbn [denon_agrees]; auto; fail).
      + exact (Bit false).
      + exact (Bit true).
  Qed.

  Lemma denon_hear_run h : forall q s buf sv pv gs, denon_agrees q s buf ->
    Forall (fun p => p < 2 ^ 32) (periods_from sv h) -> Forall2 (denon_says freq) gs (periods_from sv h) ->
    exists r, run (st s buf sv pv) h = Val (r, map denon_outcome (at_rises h (hears_from denon_hear q gs))).
  Proof.
    induction h as [|[[|] d] h IH]; intros q s buf sv pv gs Ha Hfit Hg; cbn [periods_from] in *.
    - eexists. reflexivity.
    - apply Forall_cons_iff in Hfit. destruct Hfit as (Hd & Hfit). inversion Hg as [|g ? gs' ? G1 G2]; subst.
      destruct (denon_hear_step q s buf sv pv g d Ha Hd G1) as (s' & buf' & E & Ha').
      destruct (IH (fst (denon_hear q g)) s' buf' 0 pv gs' Ha' Hfit G2) as (r & R).
      exists r. cbn [run_edges]. rewrite E. cbn [bind]. rewrite R. cbn [bind hears_from at_rises].
      destruct (denon_hear q g) as [q' o]. cbn [fst snd at_rises map]. reflexivity.
    - destruct (IH q s buf d pv gs Ha Hfit Hg) as (r & R). exists r. cbn [run_edges].
      assert (E : ev (st s buf sv pv) d false = Val (st s buf d pv, ROk None)).
      { destruct q; cbn [denon_agrees] in Ha; [destruct Ha as (-> & _)|destruct Ha as (-> & _)]; reflexivity. }
      rewrite E. cbn [bind]. rewrite R. reflexivity.
  Qed.

  Lemma denon_hears_all h ps rest : periods_fit h -> denon_reading freq h ps rest ->
    exists r0 r, receiver_new (denon_protocol b m) freq = Val r0 /\
      run r0 h = Val (r, map denon_outcome (at_rises h (denon_hears 0 ps ++ repeat Nothing (length rest)))).
  Proof.
    intros Hfit (H1 & H2 & H3). pose proof (denon_new_val b m freq Hm Hf) as E0. fold ss in E0.
    destruct (denon_hear_run h (DWaiting 0) DIdle 0 0 0 (flat_map denon_signs ps ++ rest)) as (r & R); [split; reflexivity|exact Hfit|exact H3|].
    eexists. exists r. split; [exact E0|]. rewrite hears_from_app in R.
    destruct (denon_hear_phrases ps 0 H1) as (last & P1 & P2). rewrite P1, P2, (denon_hear_rest last rest H2) in R. exact R.
  Qed.
End Denon.

(** ** Samsung BluRay *)

Inductive sbp_ear := SWaiting | SHearAddress (bits : list bool) | SHearPause (a : list bool) | SHearCommand (a bits : list bool).
Definition sbp_hear (q : sbp_ear) (s : sbp_sign) : sbp_ear * heard (N * N) bool :=
  match q, s with
  | SWaiting, SbHeader => (SHearAddress [], Nothing)
  | SWaiting, _ => (SWaiting, Nothing)
  | SHearAddress bits, SbZero_ | SHearAddress bits, SbOne_ =>
      let bits' := bits ++ [match s with SbOne_ => true | _ => false end] in
      if (length bits' =? 16)%nat then (SHearPause bits', Nothing) else (SHearAddress bits', Nothing)
  | SHearAddress _, _ => (SWaiting, Failed true)
  | SHearPause a, SbPause => (SHearCommand a [], Nothing)
  | SHearPause _, _ => (SWaiting, Failed false)
  | SHearCommand a bits, SbZero_ | SHearCommand a bits, SbOne_ =>
      let bits' := bits ++ [match s with SbOne_ => true | _ => false end] in
      if (length bits' =? 20)%nat then (SWaiting, Said (val_lsb a, val_lsb bits')) else (SHearCommand a bits', Nothing)
  | SHearCommand _ _, _ => (SWaiting, Failed false)
  end.

Lemma sbp_hear_abit bits x : sbp_hear (SHearAddress bits) (bit_of SbZero_ SbOne_ x) =
  if (length (bits ++ [x]) =? 16)%nat then (SHearPause (bits ++ [x]), Nothing) else (SHearAddress (bits ++ [x]), Nothing).
Proof. destruct x; reflexivity. Qed.
Lemma sbp_hear_cbit a bits x : sbp_hear (SHearCommand a bits) (bit_of SbZero_ SbOne_ x) =
  if (length (bits ++ [x]) =? 20)%nat then (SWaiting, Said (val_lsb a, val_lsb (bits ++ [x]))) else (SHearCommand a (bits ++ [x]), Nothing).
Proof. destruct x; reflexivity. Qed.

Lemma sbp_hear_abits more : forall bits, (length bits + length more < 16)%nat ->
  hears_from sbp_hear (SHearAddress bits) (sbp_bits more) = repeat Nothing (length more) /\
  state_after sbp_hear (SHearAddress bits) (sbp_bits more) = SHearAddress (bits ++ more).
Proof.
  unfold sbp_bits. induction more as [|x more IH]; intros bits L; cbn [map hears_from state_after length repeat].
  - rewrite app_nil_r. auto.
  - rewrite sbp_hear_abit. cbn [length] in L. rewrite app_length. cbn [length].
    rewrite (proj2 (Nat.eqb_neq _ _)) by lia. cbn [fst].
    destruct (IH (bits ++ [x])) as (I1 & I2); [rewrite app_length; cbn [length]; lia|].
    rewrite I1, I2, <- app_assoc. auto.
Qed.
Lemma sbp_hear_cbits a more : forall bits, (length bits + length more < 20)%nat ->
  hears_from sbp_hear (SHearCommand a bits) (sbp_bits more) = repeat Nothing (length more) /\
  state_after sbp_hear (SHearCommand a bits) (sbp_bits more) = SHearCommand a (bits ++ more).
Proof.
  unfold sbp_bits. induction more as [|x more IH]; intros bits L; cbn [map hears_from state_after length repeat].
  - rewrite app_nil_r. auto.
  - rewrite sbp_hear_cbit. cbn [length] in L. rewrite app_length. cbn [length].
    rewrite (proj2 (Nat.eqb_neq _ _)) by lia. cbn [fst].
    destruct (IH (bits ++ [x])) as (I1 & I2); [rewrite app_length; cbn [length]; lia|].
    rewrite I1, I2, <- app_assoc. auto.
Qed.

Lemma last_bit n (bs : list bool) : length bs = S n -> exists bs' x, bs = bs' ++ [x] /\ length bs' = n.
Proof.
  intros H. destruct (exists_last (l := bs)) as (bs' & x & E); [intros K; rewrite K in H; discriminate H|].
  exists bs', x. split; [exact E|]. rewrite E, app_length in H. cbn [length] in H. lia.
Qed.

Lemma sbp_hear_address a : length a = 16%nat ->
  hears_from sbp_hear SWaiting (SbHeader :: sbp_bits a) = repeat Nothing 17 /\
  state_after sbp_hear SWaiting (SbHeader :: sbp_bits a) = SHearPause a.
Proof.
  intros L. destruct (last_bit 15 a L) as (a' & x & -> & L'). unfold sbp_bits. rewrite map_app. fold (sbp_bits a').
  cbn [map hears_from state_after sbp_hear fst].
  destruct (sbp_hear_abits a' []) as (I1 & I2); [cbn [length]; lia|]. cbn [app] in I2.
  rewrite hears_from_app, state_after_app, I1, I2, L'. cbn [hears_from state_after]. rewrite sbp_hear_abit, app_length, L'.
  cbn [length Nat.add Nat.eqb fst]. split; reflexivity.
Qed.

Lemma sbp_hear_phrase p : sbp_phrase_ok p ->
  hears_from sbp_hear SWaiting (sbp_signs p) = sbp_hears1 p /\ state_after sbp_hear SWaiting (sbp_signs p) = SWaiting.
Proof.
  intros H. destruct p as [a c|bits s|a s|a bits s|s]; cbn [sbp_phrase_ok sbp_signs sbp_hears1] in *.
  - destruct H as (La & Lc). destruct (sbp_hear_address a La) as (A1 & A2).
    destruct (last_bit 19 c Lc) as (c' & x & -> & L'). unfold sbp_bits at 2 4. rewrite map_app. fold (sbp_bits c'). cbn [map].
    rewrite app_comm_cons, hears_from_app, state_after_app, A1, A2. cbn [hears_from state_after sbp_hear fst].
    destruct (sbp_hear_cbits a c' []) as (I1 & I2); [cbn [length]; lia|]. cbn [app] in I2.
    rewrite hears_from_app, state_after_app, I1, I2, L'. cbn [hears_from state_after]. rewrite sbp_hear_cbit, app_length, L'.
    cbn [length Nat.add Nat.eqb fst]. split; reflexivity.
  - destruct H as (L & H1 & H2). cbn [hears_from state_after sbp_hear fst].
    destruct (sbp_hear_abits bits []) as (I1 & I2); [cbn [length]; lia|]. cbn [app] in I2.
    rewrite hears_from_app, state_after_app, I1, I2. cbn [hears_from state_after repeat app].
    assert (Es : sbp_hear (SHearAddress bits) s = (SWaiting, Failed true)) by (destruct s; congruence || reflexivity).
    rewrite Es. auto.
  - destruct H as (La & Hs). destruct (sbp_hear_address a La) as (A1 & A2).
    rewrite app_comm_cons, hears_from_app, state_after_app, A1, A2. cbn [hears_from state_after].
    assert (Es : sbp_hear (SHearPause a) s = (SWaiting, Failed false)) by (destruct s; congruence || reflexivity).
    rewrite Es. auto.
  - destruct H as (La & L & H1 & H2). destruct (sbp_hear_address a La) as (A1 & A2).
    rewrite app_comm_cons, hears_from_app, state_after_app, A1, A2. cbn [hears_from state_after sbp_hear fst].
    destruct (sbp_hear_cbits a bits []) as (I1 & I2); [cbn [length]; lia|]. cbn [app] in I2.
    rewrite hears_from_app, state_after_app, I1, I2. cbn [hears_from state_after].
    assert (Es : sbp_hear (SHearCommand a bits) s = (SWaiting, Failed false)) by (destruct s; congruence || reflexivity).
    rewrite Es. split; reflexivity.
  - destruct s; try congruence; auto.
Qed.

Lemma sbp_hear_phrases ps : Forall sbp_phrase_ok ps ->
  hears_from sbp_hear SWaiting (flat_map sbp_signs ps) = sbp_hears ps /\ state_after sbp_hear SWaiting (flat_map sbp_signs ps) = SWaiting.
Proof.
  unfold sbp_hears. induction ps as [|p ps IH]; intros H; cbn [flat_map]; [auto|].
  apply Forall_cons_iff in H. destruct H as (Hp & H).
  destruct (sbp_hear_phrase p Hp) as (E1 & E2). destruct (IH H) as (I1 & I2).
  rewrite hears_from_app, state_after_app, E1, E2, I1, I2. auto.
Qed.

Lemma sbp_hear_rest rest : sbp_unfinished rest -> hears_from sbp_hear SWaiting rest = repeat Nothing (length rest).
Proof.
  intros [->|[(bits & -> & L)|(a & bits & -> & La & L)]]; [reflexivity| |].
  - destruct (Nat.eq_dec (length bits) 16) as [E|E].
    + destruct (sbp_hear_address bits E) as (A1 & _). rewrite A1. unfold sbp_bits. cbn [length]. rewrite map_length, E. reflexivity.
    + cbn [hears_from sbp_hear length repeat]. destruct (sbp_hear_abits bits []) as (I1 & _); [cbn [length]; lia|].
      rewrite I1. unfold sbp_bits. rewrite map_length. reflexivity.
  - destruct (sbp_hear_address a La) as (A1 & A2). rewrite app_comm_cons, hears_from_app, A1, A2. cbn [hears_from sbp_hear].
    destruct (sbp_hear_cbits a bits []) as (I1 & _); [cbn [length]; lia|]. rewrite I1.
    rewrite app_length. cbn [length]. unfold sbp_bits. rewrite !map_length, La, repeat_app. reflexivity.
Qed.

Lemma sbp_read_bits n : forall l,
  (exists bits, l = sbp_bits bits /\ (length bits < n)%nat) \/
  (exists bits rest, l = sbp_bits bits ++ rest /\ length bits = n) \/
  (exists bits s rest, l = sbp_bits bits ++ s :: rest /\ s <> SbZero_ /\ s <> SbOne_ /\ (length bits < n)%nat).
Proof.
  induction n as [|n IH]; intros l.
  - right. left. exists [], l. auto.
  - destruct l as [|s l]; [left; exists []; cbn; split; [reflexivity|lia]|].
    assert (B : (exists x, s = bit_of SbZero_ SbOne_ x) \/ (s <> SbZero_ /\ s <> SbOne_)).
    { destruct s; try (right; split; discriminate); left; [exists false|exists true]; reflexivity. }
    destruct B as [(x & ->)|(B1 & B2)].
    + destruct (IH l) as [(bits & -> & E2)|[(bits & rest & -> & E2)|(bits & s & rest & -> & E2 & E3 & E4)]].
      * left. exists (x :: bits). cbn [length]. split; [reflexivity|lia].
      * right. left. exists (x :: bits), rest. cbn [length]. split; [reflexivity|lia].
      * right. right. exists (x :: bits), s, rest. cbn [length]. repeat split; auto; lia.
    + right. right. exists [], s, l. cbn. repeat split; auto; lia.
Qed.

Lemma sbp_bits_length bits : length (sbp_bits bits) = length bits.
Proof. apply map_length. Qed.

Lemma sbp_hd s : s <> SbHeader \/ s = SbHeader.
Proof. destruct s; auto; left; discriminate. Qed.

Lemma sbp_read n : forall l, (length l <= n)%nat -> exists ps rest,
  Forall sbp_phrase_ok ps /\ sbp_unfinished rest /\ l = flat_map sbp_signs ps ++ rest.
Proof.
  induction n as [|n IH]; intros l L.
  - destruct l; [|cbn in L; lia]. exists [], []. repeat split; auto. left. reflexivity.
  - destruct l as [|s l]; [exists [], []; repeat split; auto; left; reflexivity|]. cbn [length] in L.
    assert (Phrase : forall p rest, sbp_phrase_ok p -> s :: l = sbp_signs p ++ rest -> (length rest <= n)%nat -> exists ps rest,
      Forall sbp_phrase_ok ps /\ sbp_unfinished rest /\ s :: l = flat_map sbp_signs ps ++ rest).
    { intros p rest Hp Ep Lr. destruct (IH rest Lr) as (ps & rest' & H1 & H2 & H3). exists (p :: ps), rest'.
      repeat split; auto. cbn [flat_map]. rewrite Ep, H3, app_assoc. reflexivity. }
    assert (Rest : sbp_unfinished (s :: l) -> exists ps rest, Forall sbp_phrase_ok ps /\ sbp_unfinished rest /\ s :: l = flat_map sbp_signs ps ++ rest).
    { intros H. exists [], (s :: l). repeat split; auto. }
    destruct (sbp_hd s) as [Hs| ->]; [apply (Phrase (SbNoise s) l); [exact Hs|reflexivity|lia]|].
    destruct (sbp_read_bits 16 l) as [(bits & E1 & E2)|[(a & l1 & E1 & E2)|(bits & s & rest & E1 & E2 & E3 & E4)]].
    + apply Rest. right. left. exists bits. rewrite E1. split; [reflexivity|lia].
    + rewrite E1, app_length, sbp_bits_length in L.
      destruct l1 as [|s l1].
      { apply Rest. right. left. exists a. rewrite E1, app_nil_r. split; [reflexivity|lia]. }
      cbn [length] in L.
      assert (Pause : s <> SbPause -> exists ps rest, Forall sbp_phrase_ok ps /\ sbp_unfinished rest /\ SbHeader :: l = flat_map sbp_signs ps ++ rest).
      { intros Hs. apply (Phrase (SbBrokenPause a s) l1); [split; auto| |lia]. cbn [sbp_signs app]. rewrite E1, <- app_assoc. reflexivity. }
      destruct s; try (apply Pause; discriminate). clear Pause.
      destruct (sbp_read_bits 20 l1) as [(bits & E3 & E4)|[(c & l2 & E3 & E4)|(bits & s & rest & E3 & E4 & E5 & E6)]].
      * apply Rest. right. right. exists a, bits. rewrite E1, E3. auto.
      * rewrite E3, app_length in L. apply (Phrase (SbFrame a c) l2); [split; auto| |lia]. cbn [sbp_signs app].
        rewrite E1, E3, <- app_assoc. reflexivity.
      * rewrite E3, app_length in L. cbn [length] in L. apply (Phrase (SbBrokenCommand a bits s) rest); [repeat split; auto| |lia]. cbn [sbp_signs app].
        rewrite E1, E3. repeat (rewrite <- !app_assoc; cbn [app]). reflexivity.
    + rewrite E1, app_length in L. cbn [length] in L. apply (Phrase (SbBrokenAddress bits s) rest); [repeat split; auto| |lia]. cbn [sbp_signs app].
      rewrite E1, <- app_assoc. reflexivity.
Qed.

Lemma sbp_says_some freq d : exists s, sbp_says freq s d.
Proof.
  destruct (near_dec freq 9000 5 d); [exists SbHeader; auto|]. destruct (near_dec freq 5000 5 d); [exists SbPause; auto|].
  destruct (near_dec freq 1000 10 d); [exists SbZero_; auto|]. destruct (near_dec freq 2000 10 d); [exists SbOne_; auto|].
  exists SbOther. cbn. auto.
Qed.

Lemma sbp_reading_some freq h : exists ps rest, sbp_reading freq h ps rest.
Proof.
  destruct (says_list (sbp_says freq) (sbp_says_some freq) (periods h)) as (l & F).
  destruct (sbp_read (length l) l (Nat.le_refl _)) as (ps & rest & H1 & H2 & ->). exists ps, rest. repeat split; auto.
Qed.

Lemma forall2_cons_iff {A B} (R : A -> B -> Prop) x l y k : Forall2 R (x :: l) (y :: k) -> R x y /\ Forall2 R l k.
Proof. intros H. inversion H; auto. Qed.

Section Sbp.
  Variables (b : build) (m : mono) (freq : N).
  Hypothesis (Hm : timebase m freq) (Hlo : 1000 <= freq) (Hhi : exact_rate m freq).
  Let ss := spans_of m freq sbp_pulses.
  Notation D := (sbp_dec b m).
  Context {C : Type} (into : sbp_command -> C).
  Notation run := (@run_edges D C into).
  Notation ev := (@event_edge D C into).
  Notation st s a c sv pv := (@mkRecv D (mkSbpDec s a c sv ss) pv).
  Let Hf : freq < M32. Proof. exact (exact_rate_lt m freq Hhi). Qed.

  Definition sbp_sign_pw (s : sbp_sign) : sbp_pw :=
    match s with SbHeader => SbSync | SbPause => SbPaus | SbZero_ => SbZero | SbOne_ => SbOne | SbOther => SbNot end.

  Lemma sbp_class_exact d :
    (near freq 9000 5 d -> sbp_class ss d = SbSync) /\ (near freq 5000 5 d -> sbp_class ss d = SbPaus) /\
    (near freq 1000 10 d -> sbp_class ss d = SbZero) /\ (near freq 2000 10 d -> sbp_class ss d = SbOne).
  Proof.
    pose proof (sbp_distinct m freq Hm Hf Hlo) as Hd. pose proof sbp_ok as Ht.
    unfold sbp_class, ss. repeat split; intros H.
    - rewrite (spans_get_exact 4 sbp_pulses m freq 0 9000 5 d Hm Hhi Ht Hd); auto; lia.
    - rewrite (spans_get_exact 4 sbp_pulses m freq 1 5000 5 d Hm Hhi Ht Hd); auto; lia.
    - rewrite (spans_get_exact 4 sbp_pulses m freq 2 1000 10 d Hm Hhi Ht Hd); auto; lia.
    - rewrite (spans_get_exact 4 sbp_pulses m freq 3 2000 10 d Hm Hhi Ht Hd); auto; lia.
  Qed.

  Lemma sbp_sign_class s d : sbp_says freq s d -> sbp_class ss d = sbp_sign_pw s.
  Proof.
    intros H. pose proof (sbp_class_exact d) as (N1 & N2 & N3 & N4).
    destruct s; cbn [sbp_says sbp_sign_pw] in *; auto.
    destruct H as (H1 & H2 & H3 & H4). unfold sbp_class. destruct (spans_get ss d) as [k|] eqn:E; [|reflexivity].
    unfold ss in E. apply spans_exact in E; auto using sbp_ok. destruct E as (p & t & E & Hn).
    destruct k as [|[q|q|]]; cbn [sbp_pw_from].
    - exfalso. cbn in E. injection E as <- <-. exact (H1 Hn).
    - destruct q; [reflexivity|reflexivity|]. exfalso. cbn in E. injection E as <- <-. exact (H4 Hn).
    - destruct q; [reflexivity|reflexivity|]. exfalso. cbn in E. injection E as <- <-. exact (H3 Hn).
    - exfalso. cbn in E. injection E as <- <-. exact (H2 Hn).
  Qed.

  Definition sbp_agrees (q : sbp_ear) (s : sbp_state) (a c : N) : Prop :=
    match q with
    | SWaiting => s = SInit /\ a = 0 /\ c = 0
    | SHearAddress bits => s = SAddress (N.of_nat (length bits)) /\ a = val_lsb bits /\ c = 0 /\ (length bits < 16)%nat
    | SHearPause bits => s = SDivider /\ a = val_lsb bits /\ c = 0 /\ length bits = 16%nat
    | SHearCommand bits cbits => s = SCommand (N.of_nat (length cbits)) /\ a = val_lsb bits /\ c = val_lsb cbits /\ length bits = 16%nat /\ (length cbits < 20)%nat
    end.
  Definition sbp_outcome : heard (N * N) bool -> outcome C :=
    outcome_of (fun a => Some (into (sbp_unpack (fst a) (snd a)))) (fun x : bool => if x then EAddress else EData).

  (** The mark that is kept: none once something was heard. *)
  Definition mark_after (sv : N) (o : heard (N * N) bool) : N := match o with Nothing => sv | _ => 0 end.

  Lemma sbp_hear_step q s a c sv pv g d : sbp_agrees q s a c -> sv + d < 2 ^ 32 -> sbp_says freq g (sv + d) ->
    exists s' a' c', ev (st s a c sv pv) d true = Val (st s' a' c' (mark_after sv (snd (sbp_hear q g))) pv, sbp_outcome (snd (sbp_hear q g))) /\
      sbp_agrees (fst (sbp_hear q g)) s' a' c'.
  Proof.
    intros Ha Hd Hs. pose proof (sbp_fits_rise b m freq Hm into s a c sv pv d Hd) as E. fold ss in E. rewrite E. clear E.
    rewrite (sbp_sign_class g _ Hs). clear Hs Hd. destruct q as [|bits|bits|bits cbits]; cbn [sbp_agrees] in Ha.
    - destruct Ha as (-> & -> & ->). destruct g; cbn [sbp_sign_pw sbp_transition bind sbp_to_state sbp_hear fst snd mark_after sbp_outcome outcome_of];
        do 3 eexists; (split; [reflexivity|]); cbn [sbp_agrees length val_lsb]; auto. repeat split; lia.
    - destruct Ha as (-> & -> & -> & L).
      assert (Bit : forall x, exists s' a' c',
        (let* (s', a', c') := sbp_transition b (SAddress (N.of_nat (length bits))) (val_lsb bits) 0 (if x : bool then SbOne else SbZero) in
         match sbp_to_state s' with
         | Done => Val (st SInit 0 0 0 pv, ROk (Some (into (sbp_unpack a' c'))))
         | Error e => Val (st SInit 0 0 0 pv, RErr e)
         | _ => Val (st s' a' c' sv pv, ROk None)
         end) = Val (st s' a' c' (mark_after sv (snd (sbp_hear (SHearAddress bits) (bit_of SbZero_ SbOne_ x)))) pv, sbp_outcome (snd (sbp_hear (SHearAddress bits) (bit_of SbZero_ SbOne_ x)))) /\
        sbp_agrees (fst (sbp_hear (SHearAddress bits) (bit_of SbZero_ SbOne_ x))) s' a' c').
      { intros x. rewrite sbp_hear_abit. rewrite (sbp_addr_step b freq) by (try apply val_lsb_lt; lia). cbn [bind].
        assert (El : length (bits ++ [x]) = S (length bits)) by (rewrite app_length; cbn; lia). rewrite El, <- val_lsb_snoc.
        destruct (Nat.eqb_spec (S (length bits)) 16) as [E16|E16].
        - rewrite (proj2 (N.eqb_eq _ _)) by lia. cbn [sbp_to_state fst snd mark_after sbp_outcome outcome_of sbp_agrees].
          do 3 eexists. split; [reflexivity|]. rewrite El. auto.
        - rewrite (proj2 (N.eqb_neq _ _)) by lia. cbn [sbp_to_state fst snd mark_after sbp_outcome outcome_of sbp_agrees].
          do 3 eexists. split; [reflexivity|]. rewrite El. repeat split; [f_equal; lia|lia]. }
      destruct g; try (cbn [sbp_sign_pw sbp_transition bind sbp_to_state sbp_hear fst snd mark_after sbp_outcome outcome_of];
        do 3 eexists; (split; [reflexivity|]); cbn [sbp_agrees]; auto; fail).
      + exact (Bit false).
      + exact (Bit true).
    - destruct Ha as (-> & -> & -> & L). destruct g; cbn [sbp_sign_pw sbp_transition bind sbp_to_state sbp_hear fst snd mark_after sbp_outcome outcome_of];
        do 3 eexists; (split; [reflexivity|]); cbn [sbp_agrees length val_lsb]; auto. repeat split; auto; lia.
    - destruct Ha as (-> & -> & -> & L & Lc).
      assert (Bit : forall x, exists s' a' c',
        (let* (s', a', c') := sbp_transition b (SCommand (N.of_nat (length cbits))) (val_lsb bits) (val_lsb cbits) (if x : bool then SbOne else SbZero) in
         match sbp_to_state s' with
         | Done => Val (st SInit 0 0 0 pv, ROk (Some (into (sbp_unpack a' c'))))
         | Error e => Val (st SInit 0 0 0 pv, RErr e)
         | _ => Val (st s' a' c' sv pv, ROk None)
         end) = Val (st s' a' c' (mark_after sv (snd (sbp_hear (SHearCommand bits cbits) (bit_of SbZero_ SbOne_ x)))) pv, sbp_outcome (snd (sbp_hear (SHearCommand bits cbits) (bit_of SbZero_ SbOne_ x)))) /\
        sbp_agrees (fst (sbp_hear (SHearCommand bits cbits) (bit_of SbZero_ SbOne_ x))) s' a' c').
      { intros x. rewrite sbp_hear_cbit. rewrite (sbp_cmd_step b freq) by (try apply val_lsb_lt; lia). cbn [bind].
        assert (El : length (cbits ++ [x]) = S (length cbits)) by (rewrite app_length; cbn; lia). rewrite El, <- val_lsb_snoc.
        destruct (Nat.eqb_spec (S (length cbits)) 20) as [E16|E16].
        - rewrite (proj2 (N.eqb_eq _ _)) by lia. cbn [sbp_to_state fst snd mark_after sbp_outcome outcome_of sbp_agrees].
          do 3 eexists. split; [reflexivity|]. auto.
        - rewrite (proj2 (N.eqb_neq _ _)) by lia. cbn [sbp_to_state fst snd mark_after sbp_outcome outcome_of sbp_agrees].
          do 3 eexists. split; [reflexivity|]. rewrite El. repeat split; auto; [f_equal; lia|lia]. }
      destruct g; try (cbn [sbp_sign_pw sbp_transition bind sbp_to_state sbp_hear fst snd mark_after sbp_outcome outcome_of];
        do 3 eexists; (split; [reflexivity|]); cbn [sbp_agrees]; auto; fail).
      + exact (Bit false).
      + exact (Bit true).
  Qed.

  (** [sv] matters only if the next edge rises. *)
  Definition rises (h : list edge) : Prop := match h with (true, _) :: _ => True | _ => False end.

  Lemma sbp_hear_run h : forall q s a c sv sv0 pv gs, sbp_agrees q s a c -> no_double_rise h -> (rises h -> sv0 = sv) ->
    Forall (fun p => p < 2 ^ 32) (periods_from sv h) -> Forall2 (sbp_says freq) gs (periods_from sv h) ->
    exists r, run (st s a c sv0 pv) h = Val (r, map sbp_outcome (at_rises h (hears_from sbp_hear q gs))).
  Proof.
    induction h as [|[[|] d] h IH]; intros q s a c sv sv0 pv gs Ha Hn Hsv Hfit Hg; cbn [periods_from] in *.
    - eexists. reflexivity.
    - apply Forall_cons_iff in Hfit. destruct Hfit as (Hd & Hfit). inversion Hg as [|g ? gs' ? G1 G2]; subst.
      rewrite (Hsv I). destruct (sbp_hear_step q s a c sv pv g d Ha Hd G1) as (s' & a' & c' & E & Ha').
      destruct (IH (fst (sbp_hear q g)) s' a' c' 0 (mark_after sv (snd (sbp_hear q g))) pv gs' Ha') as (r & R); auto.
      { destruct h as [|[[|] d'] h']; cbn [no_double_rise] in *; tauto. }
      { intros K. destruct h as [|[[|] d'] h']; cbn [rises no_double_rise] in *; tauto. }
      exists r. cbn [run_edges]. rewrite E. cbn [bind]. rewrite R. cbn [bind hears_from at_rises].
      destruct (sbp_hear q g) as [q' o]. cbn [fst snd at_rises map]. reflexivity.
    - destruct (IH q s a c d d pv gs Ha) as (r & R); auto. exists r. cbn [run_edges].
      assert (E : ev (st s a c sv0 pv) d false = Val (st s a c d pv, ROk None)).
      { destruct q; cbn [sbp_agrees] in Ha; destruct Ha as (-> & _); reflexivity. }
      rewrite E. cbn [bind]. rewrite R. reflexivity.
  Qed.

  Lemma sbp_hears_all h ps rest : periods_fit h -> no_double_rise h -> sbp_reading freq h ps rest ->
    exists r0 r, receiver_new (sbp_protocol b m) freq = Val r0 /\
      run r0 h = Val (r, map sbp_outcome (at_rises h (sbp_hears ps ++ repeat Nothing (length rest)))).
  Proof.
    intros Hfit Hn (H1 & H2 & H3). pose proof (sbp_new_val b m freq Hm Hf) as E0. fold ss in E0.
    destruct (sbp_hear_run h SWaiting SInit 0 0 0 0 0 (flat_map sbp_signs ps ++ rest)) as (r & R); auto; [repeat split; reflexivity|].
    eexists. exists r. split; [exact E0|]. rewrite hears_from_app in R.
    destruct (sbp_hear_phrases ps H1) as (P1 & P2). rewrite P1, P2, (sbp_hear_rest rest H2) in R. exact R.
  Qed.

  (** ... and with two rising edges in a row. *)
  Lemma sbp_hear_run_any h : forall q s a c sv pv gs, sbp_agrees q s a c -> sv < 2 ^ 31 -> short h ->
    Forall2 (sbp_says freq) gs (sbp_lengths sv h (hears_from sbp_hear q gs)) ->
    exists r, run (st s a c sv pv) h = Val (r, map sbp_outcome (at_rises h (hears_from sbp_hear q gs))).
  Proof.
    induction h as [|[[|] d] h IH]; intros q s a c sv pv gs Ha Hv Hs Hg; cbn [sbp_lengths] in *.
    - eexists. reflexivity.
    - unfold short in Hs. apply Forall_cons_iff in Hs. destruct Hs as (Hd & Hs). cbn [snd] in Hd.
      destruct gs as [|g gs]; [inversion Hg|]. cbn [hears_from] in Hg.
      assert (Hd' : sv + d < 2 ^ 32) by (change (2 ^ 32) with (2 ^ 31 + 2 ^ 31); lia).
      apply forall2_cons_iff in Hg. destruct Hg as (G1 & G2).
      destruct (sbp_hear_step q s a c sv pv g d Ha Hd' G1) as (s' & a' & c' & E & Ha').
      destruct (IH (fst (sbp_hear q g)) s' a' c' (mark_after sv (snd (sbp_hear q g))) pv gs Ha') as (r & R); auto.
      { destruct (snd (sbp_hear q g)); cbn [mark_after]; auto; reflexivity. }
      { destruct (sbp_hear q g) as [q' o]. cbn [fst snd] in *. destruct o; exact G2. }
      exists r. cbn [run_edges]. rewrite E. cbn [bind]. rewrite R. cbn [bind hears_from at_rises].
      destruct (sbp_hear q g) as [q' o]. cbn [fst snd at_rises map]. reflexivity.
    - unfold short in Hs. apply Forall_cons_iff in Hs. destruct Hs as (Hd & Hs). cbn [snd] in Hd.
      destruct (IH q s a c d pv gs Ha) as (r & R); auto. exists r. cbn [run_edges].
      assert (E : ev (st s a c sv pv) d false = Val (st s a c d pv, ROk None)).
      { destruct q; cbn [sbp_agrees] in Ha; destruct Ha as (-> & _); reflexivity. }
      rewrite E. cbn [bind]. rewrite R. reflexivity.
  Qed.

  Lemma sbp_hears_any h ps rest : short h -> sbp_reading_any freq h ps rest ->
    exists r0 r, receiver_new (sbp_protocol b m) freq = Val r0 /\
      run r0 h = Val (r, map sbp_outcome (at_rises h (sbp_hears ps ++ repeat Nothing (length rest)))).
  Proof.
    intros Hs (H1 & H2 & H3). pose proof (sbp_new_val b m freq Hm Hf) as E0. fold ss in E0.
    assert (E : hears_from sbp_hear SWaiting (flat_map sbp_signs ps ++ rest) = sbp_hears ps ++ repeat Nothing (length rest)).
    { rewrite hears_from_app. destruct (sbp_hear_phrases ps H1) as (P1 & P2). rewrite P1, P2, (sbp_hear_rest rest H2). reflexivity. }
    destruct (sbp_hear_run_any h SWaiting SInit 0 0 0 0 (flat_map sbp_signs ps ++ rest)) as (r & R); auto; [repeat split; reflexivity|reflexivity|rewrite E; exact H3|].
    eexists. exists r. split; [exact E0|]. rewrite E in R. exact R.
  Qed.
End Sbp.

Lemma sbp_signs_any freq h : forall q sv, exists gs, Forall2 (sbp_says freq) gs (sbp_lengths sv h (hears_from sbp_hear q gs)).
Proof.
  induction h as [|[[|] d] h IH]; intros q sv; cbn [sbp_lengths].
  - exists []. constructor.
  - destruct (sbp_says_some freq (sv + d)) as (g & Hg).
    destruct (IH (fst (sbp_hear q g)) (mark_after sv (snd (sbp_hear q g)))) as (gs & F).
    exists (g :: gs). cbn [hears_from]. destruct (sbp_hear q g) as [q' o]. cbn [fst snd] in *.
    constructor; [exact Hg|]. destruct o; exact F.
  - apply IH.
Qed.

Lemma sbp_reading_any_some freq h : exists ps rest, sbp_reading_any freq h ps rest.
Proof.
  destruct (sbp_signs_any freq h SWaiting 0) as (l & F).
  destruct (sbp_read (length l) l (Nat.le_refl _)) as (ps & rest & H1 & H2 & ->). exists ps, rest. split; [exact H1|]. split; [exact H2|].
  rewrite hears_from_app in F. destruct (sbp_hear_phrases ps H1) as (P1 & P2). rewrite P1, P2, (sbp_hear_rest rest H2) in F. exact F.
Qed.
