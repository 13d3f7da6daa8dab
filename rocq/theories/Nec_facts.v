(** * Lemmas about the NEC-family receivers *)
From Coq Require Import NArith ZArith List Bool Lia ZifyBool ZifyNat ZifyN.
From Verif Require Import Machine Spec Bits Time Decoder Nec Receiver Time_facts Window_facts Run_facts.
Import ListNotations.
Open Scope N_scope.

(** The two timings in use. *)
Definition nec_timing_ok (T : nec_pulse_len) : Prop :=
  T = NEC_STANDARD_TIMING \/ T = NEC_SAMSUNG_TIMING.

Lemma nec_table_ok T : nec_timing_ok T -> table_ok (nec_pulses T).
Proof. intros [-> | ->]; auto using nec_std_ok, nec_samsung_ok. Qed.

(** What the decoder makes of a period. *)
Definition nec_class (ss : list span) (d : N) : nec_pw :=
  match spans_get ss d with Some i => nec_pw_from i | None => PInvalid end.

Section Nec.
  Variables (b : build) (m : mono) (freq : N) (V : nec_variant).
  Let T := nv_timing V.
  Hypothesis (Hm : timebase m freq) (Hf : freq < M32) (HT : nec_timing_ok T).
  Let ss := spans_of m freq (nec_pulses T).
  Notation D := (nec_dec b m V).
  Context {C : Type} (into : nv_cmd V -> C).
  Notation run := (@run_edges D C into).
  Notation ev := (@event_edge D C into).
  Notation st s buf sv pv := (@mkRecv D (mkNecDec s buf sv ss) pv).

  Lemma nec_build_val : nec_build b m V freq = Val (mkNecDec NInit 0 0 ss).
  Proof. unfold nec_build. fold T. rewrite pulse_spans_val; auto using nec_table_ok. Qed.

  Lemma nec_new_val : receiver_new (nec_protocol b m V) freq = Val (st NInit 0 0 0).
  Proof. unfold receiver_new. cbn [p_build nec_protocol p_dec]. rewrite nec_build_val. reflexivity. Qed.

  (** *** Classification of periods *)

  Lemma nec_class_near (H893 : 893 <= freq) d :
    (near freq (header_high T + header_low T) (guaranteed freq 7) d -> nec_class ss d = PSync) /\
    (near freq (header_high T + repeat_low T) (guaranteed freq 7) d -> nec_class ss d = PRepeat) /\
    (near freq (data_high T + data_zero_low T) (guaranteed freq 25) d -> nec_class ss d = PZero) /\
    (near freq (data_high T + data_one_low T) (guaranteed freq 12) d -> nec_class ss d = POne).
  Proof.
    pose proof (nec_distinct m freq T HT Hm Hf H893) as Hd. pose proof (nec_table_ok T HT) as Ht.
    unfold nec_class, ss. repeat split; intros H.
    - rewrite (spans_get_near 4 (nec_pulses T) m freq 0 (header_high T + header_low T) 7 d Hm Hf Ht Hd); auto; lia.
    - rewrite (spans_get_near 4 (nec_pulses T) m freq 1 (header_high T + repeat_low T) 7 d Hm Hf Ht Hd); auto; lia.
    - rewrite (spans_get_near 4 (nec_pulses T) m freq 2 (data_high T + data_zero_low T) 25 d Hm Hf Ht Hd); auto; lia.
    - rewrite (spans_get_near 4 (nec_pulses T) m freq 3 (data_high T + data_one_low T) 12 d Hm Hf Ht Hd); auto; lia.
  Qed.

  Lemma nec_class_inv d :
    match nec_class ss d with
    | PSync => near freq (header_high T + header_low T) 8 d
    | PRepeat => near freq (header_high T + repeat_low T) 8 d
    | PZero => near freq (data_high T + data_zero_low T) 26 d
    | POne => near freq (data_high T + data_one_low T) 13 d
    | PInvalid => True
    end.
  Proof.
    unfold nec_class, ss. destruct (spans_get _ d) as [k|] eqn:E; cbn; auto.
    apply spans_get_near_inv in E; auto using nec_table_ok. destruct E as (p & t & E & Hn & _).
    destruct k as [|[q|q|]]; cbn [nec_pw_from]; try (destruct q; auto; fail).
    - cbn in E. injection E as <- <-. apply Hn. lia.
    - destruct q; auto. cbn in E. injection E as <- <-. apply Hn. lia.
    - destruct q; auto. cbn in E. injection E as <- <-. apply Hn. lia.
    - cbn in E. injection E as <- <-. apply Hn. lia.
  Qed.

  Lemma nec_class_long d : longer freq (header_high T + header_low T) 7 d -> nec_class ss d = PInvalid.
  Proof.
    intros H. unfold nec_class. unfold ss. rewrite (spans_get_long _ m freq (header_high T + header_low T) 7); auto using nec_table_ok.
    clear -HT. unfold nec_pulses. destruct HT as [-> | ->];
      repeat (apply Forall_cons; [cbn [fst snd NEC_STANDARD_TIMING NEC_SAMSUNG_TIMING header_high header_low repeat_low data_high data_zero_low data_one_low]; unfold nominal; lia|]); apply Forall_nil.
  Qed.

  (** *** Single edges *)

  Definition nec_live (s : nec_state) : Prop :=
    match s with NInit => True | NReceiving i => i <= 31 | _ => False end.

  Lemma nec_ev_fall s buf sv pv d : nec_live s ->
    ev (st s buf sv pv) d false = Val (st s buf d pv, ROk None).
  Proof. intros Hs. destruct s; try contradiction; reflexivity. Qed.

  Lemma nec_ev_rise s buf sv pv d : sv < 2 ^ 31 -> d < 2 ^ 31 ->
    ev (st s buf sv pv) d true =
    let* (buf', s') := nec_transition b s buf (nec_class ss (d + sv)) in
    match nec_to_state s' with
    | Done => Val (st NInit buf' 0 pv,
                   ROk (option_map into (nec_command_of V (mkNecDec s' buf' 0 ss))))
    | Error e => Val (st NInit buf' 0 pv, RErr e)
    | _ => Val (st s' buf' 0 pv, ROk None)
    end.
  Proof.
    intros H1 H2. unfold event_edge. cbn [rv_dec d_event nec_dec D rv_prev d_reset d_command].
    unfold nec_event. cbn [ns_dt_save ns_spans ns_state ns_bitbuf].
    rewrite (dur_add_short b m freq) by auto. cbn [bind].
    change (match spans_get ss (d + sv) with Some i => nec_pw_from i | None => PInvalid end) with (nec_class ss (d + sv)).
    destruct (nec_transition b s buf (nec_class ss (d + sv))) as [[buf' s']| |]; cbn [bind]; auto.
  Qed.

  (** The transition never panics on live states. *)
  Lemma nec_transition_live s buf pw : nec_live s ->
    exists buf' s', nec_transition b s buf pw = Val (buf', s') /\
      (nec_live s' \/ s' = NDone \/ s' = NRepeatDone \/ s' = NErr EData).
  Proof.
    intros Hs. destruct s as [|i| | |e]; try contradiction; cbn [nec_live] in Hs.
    - destruct pw; cbn [nec_transition]; do 2 eexists; (split; [reflexivity|]); cbn; auto. left. lia.
    - destruct pw; cbn [nec_transition]; try (do 2 eexists; split; [reflexivity|]; auto; fail).
      + destruct (N.eqb_spec i 31) as [->|Hn]; [do 2 eexists; split; [reflexivity|]; auto|].
        unfold uadd. rewrite (proj2 (N.ltb_lt _ _)) by lia. cbn [bind].
        do 2 eexists; split; [reflexivity|]. left. cbn. lia.
      + unfold ushl1. change (31 <? 32) with true. cbn [bind].
        destruct (N.eqb_spec i 31) as [->|Hn]; [do 2 eexists; split; [reflexivity|]; auto|].
        rewrite (proj2 (N.ltb_lt _ _)) by lia. cbn [bind].
        unfold uadd. rewrite (proj2 (N.ltb_lt _ _)) by lia. cbn [bind].
        do 2 eexists; split; [reflexivity|]. left. cbn. lia.
  Qed.

  (** *** Histories *)

  Definition nec_inv (r : receiver D) : Prop :=
    exists s buf sv pv, r = st s buf sv pv /\ nec_live s /\ sv < 2 ^ 31.

  Lemma nec_ev_inv r e d : nec_inv r -> d < 2 ^ 31 ->
    exists r' o, ev r d e = Val (r', o) /\ nec_inv r'.
  Proof.
    intros (s & buf & sv & pv & -> & Hs & Hv) Hd. destruct e.
    - rewrite nec_ev_rise by auto.
      destruct (nec_transition_live s buf (nec_class ss (d + sv)) Hs) as (buf' & s' & -> & Hs').
      cbn [bind].
      assert (Z : 0 < 2 ^ 31) by reflexivity.
      destruct s' as [|i| | |e]; cbn [nec_to_state]; do 2 eexists; (split; [reflexivity|]).
      + exists NInit, buf', 0, pv. repeat split; auto.
      + exists (NReceiving i), buf', 0, pv. repeat split; auto.
        destruct Hs' as [H|[H|[H|H]]]; auto; discriminate.
      + exists NInit, buf', 0, pv. repeat split; auto.
      + exists NInit, buf', 0, pv. repeat split; auto.
      + exists NInit, buf', 0, pv. repeat split; auto.
    - rewrite nec_ev_fall by auto. do 2 eexists. split; [reflexivity|]. exists s, buf, d, pv. auto.
  Qed.

  Lemma nec_run_inv h r : nec_inv r -> short h -> exists r' os, run r h = Val (r', os) /\ nec_inv r'.
  Proof.
    intros Hr Hh. apply (@run_edges_inv D C into nec_inv (fun e => snd e < 2 ^ 31)); auto.
    intros r0 e dt H0 Hd. apply nec_ev_inv; auto.
  Qed.

  Lemma nec_new_inv : nec_inv (st NInit 0 0 0).
  Proof. exists NInit, 0, 0, 0. repeat split. Qed.

  (** A gap brings every receiver back to idle. *)
  Lemma nec_gap r d : nec_inv r -> d < 2 ^ 31 -> longer freq (header_high T + header_low T) 7 d ->
    exists buf pv o, ev r d true = Val (st NInit buf 0 pv, o) /\ (o = ROk None \/ o = RErr EData).
  Proof.
    intros (s & buf & sv & pv & -> & Hs & Hv) Hd Hl. rewrite nec_ev_rise by auto.
    rewrite nec_class_long by (unfold longer in *; lia).
    destruct s; try contradiction; cbn [nec_transition bind nec_to_state]; eauto 6.
  Qed.

  (** *** Frames *)

  (** A mark-space pair of a frame whose period is classified as [pw]. *)
  Definition is_pulse (pw : nec_pw) (x : N * N) : Prop :=
    fst x < 2 ^ 31 /\ snd x < 2 ^ 31 /\ nec_class ss (snd x + fst x) = pw.

  Lemma nec_pair s buf pv x rest : nec_live s -> fst x < 2 ^ 31 ->
    run (st s buf 0 pv) (pair_edges (x :: rest)) =
    let* (r1, o) := ev (st s buf (fst x) pv) (snd x) true in
    let* (r2, os) := run r1 (pair_edges rest) in
    Val (r2, ROk None :: o :: os).
  Proof.
    intros Hs Hx. destruct x as [mk sp]. cbn [pair_edges run_edges fst snd].
    rewrite nec_ev_fall by auto. cbn [bind].
    destruct (ev (st s buf mk pv) sp true) as [[r1 o]| |]; cbn [bind]; auto.
    destruct (run r1 (pair_edges rest)) as [[r2 os]| |]; reflexivity.
  Qed.

  Lemma nec_bits bs : forall i ds buf pv,
    bs <> [] -> (N.to_nat i + length bs = 32)%nat -> buf < 2 ^ i ->
    Forall2 (fun bit x => is_pulse (if bit : bool then POne else PZero) x) bs ds ->
    run (st (NReceiving i) buf 0 pv) (pair_edges ds) =
    Val (st NInit (buf + 2 ^ i * val_lsb bs) 0 pv,
         repeat (ROk None) (2 * length bs - 1)
         ++ [ROk (option_map into (nv_unpack V (buf + 2 ^ i * val_lsb bs) false))]).
  Proof.
    induction bs as [|bit bs IH]; intros i ds buf pv Hne Hlen Hbuf HF; [contradiction|].
    inversion HF as [|x1 x l1 l2 (Hx1 & Hx2 & Hc) HF']; subst. clear HF.
    rewrite nec_pair by (auto; cbn [nec_live]; cbn [length] in Hlen; lia).
    rewrite nec_ev_rise by auto. rewrite Hc. clear Hc Hx1 Hx2.
    assert (E : 2 ^ (i + 1) = 2 * 2 ^ i) by (rewrite N.pow_add_r; lia).
    set (buf' := buf + 2 ^ i * (if bit then 1 else 0)).
    assert (L : buf' < 2 ^ (i + 1)) by (unfold buf'; destruct bit; lia).
    destruct bs as [|bit' bs].
    - (* last bit *)
      assert (i = 31) by (cbn [length] in Hlen; lia). subst i.
      inversion HF'; subst. cbn [pair_edges run_edges].
      assert (Ev : buf + 2 ^ 31 * val_lsb [bit] = buf').
      { unfold buf'. cbn [val_lsb]. destruct bit; lia. }
      rewrite Ev. cbn [length]. change (repeat (ROk None) (2 * 1 - 1)) with [@ROk (option C) decoding_error None].
      destruct bit; cbn [nec_transition]; change (31 =? 31) with true; cbn [bind].
      + unfold ushl1. change (31 <? 32) with true. cbn [bind nec_to_state].
        rewrite (lor_add buf 1 31) by auto.
        replace (buf + 1 * 2 ^ 31) with buf' by (unfold buf'; lia). reflexivity.
      + cbn [nec_to_state]. replace buf with buf' by (unfold buf'; lia). reflexivity.
    - (* more bits to come *)
      assert (Hi : i < 31) by (cbn [length] in Hlen; lia).
      assert (Ev : buf + 2 ^ i * val_lsb (bit :: bit' :: bs) = buf' + 2 ^ (i + 1) * val_lsb (bit' :: bs)).
      { rewrite E. unfold buf'. remember (bit' :: bs) as r. cbn [val_lsb]. destruct bit; lia. }
      rewrite Ev. specialize (IH (i + 1) l2 buf' pv ltac:(discriminate)
         ltac:(cbn [length] in Hlen |- *; lia) L HF').
      assert (Et : nec_transition b (NReceiving i) buf (if bit then POne else PZero) =
                   Val (buf', NReceiving (i + 1))).
      { destruct bit; cbn [nec_transition]; rewrite (proj2 (N.eqb_neq i 31)) by lia.
        - unfold ushl1. rewrite (proj2 (N.ltb_lt _ _)) by lia. cbn [bind].
          unfold uadd. rewrite (proj2 (N.ltb_lt _ _)) by lia. cbn [bind].
          rewrite (lor_add buf 1 i) by auto. unfold buf'. do 2 f_equal. lia.
        - unfold uadd. rewrite (proj2 (N.ltb_lt _ _)) by lia. cbn [bind].
          unfold buf'. do 2 f_equal. lia. }
      rewrite Et. cbn [bind nec_to_state]. rewrite IH. cbn [bind].
      replace (2 * length (bit :: bit' :: bs) - 1)%nat with (S (S (2 * length (bit' :: bs) - 1)))
        by (cbn [length]; lia).
      reflexivity.
  Qed.

  (** A whole frame from idle. *)
  Lemma nec_frame_run w h ds buf pv : w < 2 ^ 32 ->
    is_pulse PSync h ->
    Forall2 (fun bit x => is_pulse (if bit : bool then POne else PZero) x) (bits_lsb 32 w) ds ->
    run (st NInit buf 0 pv) (pair_edges (h :: ds)) =
    Val (st NInit w 0 pv, repeat (ROk None) 65 ++ [ROk (option_map into (nv_unpack V w false))]).
  Proof.
    intros Hw (H1 & H2 & Hc) HF. rewrite nec_pair by (auto; exact I).
    rewrite nec_ev_rise by auto. rewrite Hc. cbn [nec_transition bind nec_to_state].
    rewrite (nec_bits (bits_lsb 32 w) 0 ds 0 pv).
    - rewrite val_bits_lsb. change (2 ^ N.of_nat 32) with (2 ^ 32). rewrite N.mod_small by auto.
      cbn [bind]. rewrite N.pow_0_r, N.mul_1_l, N.add_0_l, bits_lsb_length. reflexivity.
    - rewrite bits_lsb_S. discriminate.
    - rewrite bits_lsb_length. reflexivity.
    - reflexivity.
    - exact HF.
  Qed.

  (** Resynchronisation: any history, a gap, a frame. *)
  Lemma short_pair x rest : short (pair_edges (x :: rest)) ->
    fst x < 2 ^ 31 /\ snd x < 2 ^ 31 /\ short (pair_edges rest).
  Proof.
    intros H. destruct x as [mk sp]. cbn [pair_edges fst snd] in *. unfold short in *.
    inversion H as [|e1 l1 H1 H2]; subst. inversion H2 as [|e2 l2 H3 H4]; subst. auto.
  Qed.

  Lemma nec_frame_pulses (H893 : 893 <= freq) w ps :
    data_high T = 560 -> data_zero_low T = 560 -> data_one_low T = 1690 ->
    nec_frame freq (header_high T + header_low T) w ps -> short (pair_edges ps) ->
    exists h ds, ps = h :: ds /\ is_pulse PSync h /\
      Forall2 (fun bit x => is_pulse (if bit : bool then POne else PZero) x) (bits_lsb 32 w) ds.
  Proof.
    intros E1 E2 E3 (h & ds & -> & Hh & HF) Hs. exists h, ds. split; auto.
    apply short_pair in Hs. destruct Hs as (S1 & S2 & S3). split.
    - repeat split; auto. apply (proj1 (nec_class_near H893 _)). unfold period_near in Hh.
      rewrite (N.add_comm (snd h)). exact Hh.
    - clear Hh S1 S2. revert S3. induction HF as [|bit x bs xs Hx HF IH]; intros S3; constructor.
      + apply short_pair in S3. destruct S3 as (S1 & S2 & _). repeat split; auto.
        destruct (nec_class_near H893 (snd x + fst x)) as (_ & _ & K0 & K1).
        rewrite E1, E2, E3 in *. rewrite (N.add_comm (snd x)) in *.
        destruct bit; [apply K1|apply K0]; exact Hx.
      + apply IH. apply short_pair in S3. tauto.
  Qed.

  Lemma nec_decode (H893 : 893 <= freq) w hist gap ps :
    w < 2 ^ 32 -> nec_frame freq (header_high T + header_low T) w ps ->
    longer freq (header_high T + header_low T) 7 gap ->
    short (hist ++ (true, gap) :: pair_edges ps) ->
    exists r0 os o pv, receiver_new (nec_protocol b m V) freq = Val r0 /\
      run r0 (hist ++ (true, gap) :: pair_edges ps) =
      Val (st NInit w 0 pv,
           os ++ o :: repeat (ROk None) 65 ++ [ROk (option_map into (nv_unpack V w false))]) /\
      length os = length hist /\ (o = ROk None \/ o = RErr EData).
  Proof.
    intros Hw Hfr Hg Hs. exists (st NInit 0 0 0).
    unfold short in Hs. apply Forall_app in Hs. destruct Hs as [Sh Sr].
    inversion Sr as [|e l Sg Sp]; subst. cbn [snd] in Sg.
    destruct (nec_run_inv hist (st NInit 0 0 0) nec_new_inv Sh) as (r1 & os & E1 & I1).
    destruct (nec_gap r1 gap I1 Sg Hg) as (buf & pv & o & E2 & Ho).
    exists os, o, pv. split; [apply nec_new_val|]. split; [|split; auto].
    - eapply run_edges_app_val; [exact E1|]. cbn [run_edges]. rewrite E2. cbn [bind].
      destruct (nec_frame_pulses H893 w ps) as (h & ds & -> & Ph & Pd); auto.
      1-3: destruct HT as [ET|ET]; rewrite ET; reflexivity.
      rewrite (nec_frame_run w h ds buf pv Hw Ph Pd). reflexivity.
    - eapply run_edges_length. exact E1.
  Qed.
End Nec.
