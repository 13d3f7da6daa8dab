(** * Lemmas about the Samsung BluRay receiver *)
From Coq Require Import NArith ZArith List Bool Lia ZifyBool ZifyNat ZifyN.
From Verif Require Import Machine Spec Bits Time Decoder Sbp Receiver Time_facts Window_facts Run_facts.
Import ListNotations.
Open Scope N_scope.

(** What the decoder makes of a period. *)
Definition sbp_class (ss : list span) (d : N) : sbp_pw :=
  match spans_get ss d with Some i => sbp_pw_from i | None => SbNot end.

Section Sbp.
  Variables (b : build) (m : mono) (freq : N).
  Hypothesis (Hm : timebase m freq) (Hf : freq < M32).
  Let ss := spans_of m freq sbp_pulses.
  Notation D := (sbp_dec b m).
  Context {C : Type} (into : sbp_command -> C).
  Notation run := (@run_edges D C into).
  Notation ev := (@event_edge D C into).
  Notation st s a c sv pv := (@mkRecv D (mkSbpDec s a c sv ss) pv).

  Lemma sbp_new_val : receiver_new (sbp_protocol b m) freq = Val (st SInit 0 0 0 0).
  Proof.
    unfold receiver_new. cbn [p_build sbp_protocol p_dec]. unfold sbp_build.
    rewrite pulse_spans_val; auto using sbp_ok.
  Qed.

  Lemma sbp_class_near (Hlo : 1000 <= freq) d :
    (near freq 9000 (guaranteed freq 5) d -> sbp_class ss d = SbSync) /\
    (near freq 5000 (guaranteed freq 5) d -> sbp_class ss d = SbPaus) /\
    (near freq 1000 (guaranteed freq 10) d -> sbp_class ss d = SbZero) /\
    (near freq 2000 (guaranteed freq 10) d -> sbp_class ss d = SbOne).
  Proof.
    pose proof (sbp_distinct m freq Hm Hf Hlo) as Hd. pose proof sbp_ok as Ht.
    unfold sbp_class, ss. repeat split; intros H.
    - rewrite (spans_get_near 4 sbp_pulses m freq 0 9000 5 d Hm Hf Ht Hd); auto; lia.
    - rewrite (spans_get_near 4 sbp_pulses m freq 1 5000 5 d Hm Hf Ht Hd); auto; lia.
    - rewrite (spans_get_near 4 sbp_pulses m freq 2 1000 10 d Hm Hf Ht Hd); auto; lia.
    - rewrite (spans_get_near 4 sbp_pulses m freq 3 2000 10 d Hm Hf Ht Hd); auto; lia.
  Qed.

  Lemma sbp_class_inv d :
    match sbp_class ss d with
    | SbSync => near freq 9000 6 d
    | SbPaus => near freq 5000 6 d
    | SbZero => near freq 1000 11 d
    | SbOne => near freq 2000 11 d
    | SbNot => True
    end.
  Proof.
    unfold sbp_class, ss. destruct (spans_get _ d) as [k|] eqn:E; cbn; auto.
    apply spans_get_near_inv in E; auto using sbp_ok. destruct E as (p & t & E & Hn & _).
    destruct k as [|[q|q|]]; cbn [sbp_pw_from]; try (destruct q; auto; fail).
    - cbn in E. injection E as <- <-. apply Hn. lia.
    - destruct q; auto. cbn in E. injection E as <- <-. apply Hn. lia.
    - destruct q; auto. cbn in E. injection E as <- <-. apply Hn. lia.
    - cbn in E. injection E as <- <-. apply Hn. lia.
  Qed.

  Lemma sbp_class_long d : longer freq 9000 5 d -> sbp_class ss d = SbNot.
  Proof.
    intros H. unfold sbp_class, ss. rewrite (spans_get_long _ m freq 9000 5); auto using sbp_ok.
    clear. unfold sbp_pulses. repeat (apply Forall_cons; [cbn [fst snd]; unfold nominal; lia|]). apply Forall_nil.
  Qed.

  (** *** Single edges *)

  Definition sbp_live (s : sbp_state) (a c : N) : Prop :=
    match s with
    | SInit => a = 0 /\ c = 0
    | SAddress i => i <= 15 /\ a < 2 ^ i /\ c = 0
    | SDivider => a < 2 ^ 16 /\ c = 0
    | SCommand i => i <= 19 /\ a < 2 ^ 16 /\ c < 2 ^ i
    | _ => False
    end.

  Lemma sbp_ev_fall s a c sv pv d : sbp_live s a c ->
    ev (st s a c sv pv) d false = Val (st s a c d pv, ROk None).
  Proof. intros Hs. destruct s; try contradiction; reflexivity. Qed.

  Lemma sbp_ev_rise s a c sv pv d : sv < 2 ^ 31 -> d < 2 ^ 31 ->
    ev (st s a c sv pv) d true =
    let* (s', a', c') := sbp_transition b s a c (sbp_class ss (sv + d)) in
    match sbp_to_state s' with
    | Done => Val (st SInit 0 0 0 pv, ROk (Some (into (sbp_unpack a' c'))))
    | Error e => Val (st SInit 0 0 0 pv, RErr e)
    | _ => Val (st s' a' c' sv pv, ROk None)
    end.
  Proof.
    intros H1 H2. unfold event_edge. cbn [rv_dec d_event sbp_dec D rv_prev d_reset d_command].
    unfold sbp_event. cbn [sb_since_rising sb_spans sb_state sb_address sb_command].
    rewrite (dur_add_short b m freq) by auto. cbn [bind].
    change (match spans_get ss (sv + d) with Some i => sbp_pw_from i | None => SbNot end) with (sbp_class ss (sv + d)).
    destruct (sbp_transition b s a c (sbp_class ss (sv + d))) as [[[s' a'] c']| |]; cbn [bind]; auto.
  Qed.

  Lemma pow_S i : 2 ^ (i + 1) = 2 * 2 ^ i.
  Proof. rewrite N.pow_add_r. lia. Qed.

  (** What a data bit does while the address or the command is read. *)
  Lemma sbp_addr_step i a c (bit : bool) : i <= 15 -> a < 2 ^ i ->
    sbp_transition b (SAddress i) a c (if bit then SbOne else SbZero) =
    Val (if i =? 15 then SDivider else SAddress (i + 1), a + 2 ^ i * (if bit then 1 else 0), c).
  Proof.
    intros Hi Ha. assert (P : 2 ^ 16 = 65536) by reflexivity.
    destruct bit; cbn [sbp_transition]; destruct (N.eqb_spec i 15) as [->|Hn].
    - unfold ushl1. change (15 <? 16) with true. cbn [bind]. rewrite (lor_add a 1 15) by auto.
      do 3 f_equal; lia.
    - unfold ushl1. rewrite (proj2 (N.ltb_lt i 16)) by lia. cbn [bind].
      unfold uadd. rewrite (proj2 (N.ltb_lt _ _)) by lia. cbn [bind].
      rewrite (lor_add a 1 i) by auto. do 3 f_equal; lia.
    - do 3 f_equal; lia.
    - unfold uadd. rewrite (proj2 (N.ltb_lt _ _)) by lia. cbn [bind]. do 3 f_equal; lia.
  Qed.

  Lemma sbp_cmd_step i a c (bit : bool) : i <= 19 -> c < 2 ^ i ->
    sbp_transition b (SCommand i) a c (if bit then SbOne else SbZero) =
    Val (if i =? 19 then SDone else SCommand (i + 1), a, c + 2 ^ i * (if bit then 1 else 0)).
  Proof.
    intros Hi Ha. assert (P : 2 ^ 16 = 65536) by reflexivity.
    destruct bit; cbn [sbp_transition]; destruct (N.eqb_spec i 19) as [->|Hn].
    - unfold ushl1. change (19 <? 32) with true. cbn [bind]. rewrite (lor_add c 1 19) by auto.
      do 2 f_equal; lia.
    - unfold ushl1. rewrite (proj2 (N.ltb_lt i 32)) by lia. cbn [bind].
      unfold uadd. rewrite (proj2 (N.ltb_lt _ _)) by lia. cbn [bind].
      rewrite (lor_add c 1 i) by auto. do 2 f_equal; lia.
    - do 2 f_equal; lia.
    - unfold uadd. rewrite (proj2 (N.ltb_lt _ _)) by lia. cbn [bind]. do 2 f_equal; lia.
  Qed.

  (** The transition never panics on live states. *)
  Lemma sbp_transition_live s a c pw : sbp_live s a c ->
    exists s' a' c', sbp_transition b s a c pw = Val (s', a', c') /\
      (sbp_live s' a' c' \/ s' = SDone /\ a' < 2 ^ 16 /\ c' < 2 ^ 20 \/
       s' = SErr EData \/ s' = SErr EAddress).
  Proof.
    intros Hs. destruct s as [|i| |i| |e]; try contradiction; cbn [sbp_live] in Hs.
    - destruct Hs as [-> ->].
      destruct pw; cbn [sbp_transition]; do 3 eexists; (split; [reflexivity|]); left; cbn; repeat split; lia.
    - destruct Hs as (H1 & H2 & ->).
      assert (Q : (exists bit : bool, pw = if bit then SbOne else SbZero) \/
                  sbp_transition b (SAddress i) a 0 pw = Val (SErr EAddress, a, 0)).
      { destruct pw; auto; left; [exists false|exists true]; reflexivity. }
      destruct Q as [[bit ->]|Q].
      2: { rewrite Q. do 3 eexists. split; [reflexivity|]. auto. }
      rewrite sbp_addr_step by auto; do 3 eexists; (split; [reflexivity|]); left;
        destruct (N.eqb_spec i 15) as [->|Hn]; cbn [sbp_live]; rewrite ?pow_S; destruct bit; repeat split; lia.
    - destruct Hs as (H1 & ->).
      destruct pw; cbn [sbp_transition]; do 3 eexists; (split; [reflexivity|]); auto.
      left. cbn. repeat split; auto; lia.
    - destruct Hs as (H1 & H2 & H3).
      assert (Q : (exists bit : bool, pw = if bit then SbOne else SbZero) \/
                  sbp_transition b (SCommand i) a c pw = Val (SErr EData, a, c)).
      { destruct pw; auto; left; [exists false|exists true]; reflexivity. }
      destruct Q as [[bit ->]|Q].
      2: { rewrite Q. do 3 eexists. split; [reflexivity|]. auto. }
      rewrite sbp_cmd_step by auto; do 3 eexists; (split; [reflexivity|]);
        destruct (N.eqb_spec i 19) as [->|Hn]; [right; left|left]; cbn [sbp_live]; rewrite ?pow_S;
        destruct bit; repeat split; auto; lia.
  Qed.

  (** *** Histories *)

  Definition sbp_inv (r : receiver D) : Prop :=
    exists s a c sv pv, r = st s a c sv pv /\ sbp_live s a c /\ sv < 2 ^ 31.

  Lemma sbp_ev_inv r e d : sbp_inv r -> d < 2 ^ 31 ->
    exists r' o, ev r d e = Val (r', o) /\ sbp_inv r'.
  Proof.
    intros (s & a & c & sv & pv & -> & Hs & Hv) Hd. destruct e.
    - rewrite sbp_ev_rise by auto.
      destruct (sbp_transition_live s a c (sbp_class ss (sv + d)) Hs) as (s' & a' & c' & -> & Hs').
      cbn [bind].
      assert (Z : 0 < 2 ^ 31) by reflexivity.
      assert (Q : sbp_live s' a' c' /\ (sbp_to_state s' = Idle \/ sbp_to_state s' = Receiving) \/
                  sbp_to_state s' = Done \/ exists e, sbp_to_state s' = Error e).
      { destruct Hs' as [H|[(-> & _)|[-> | ->]]]; cbn; eauto.
        left. split; auto. destruct s'; cbn in *; auto; contradiction. }
      destruct Q as [[H [-> | ->]]|[-> | [e ->]]]; do 2 eexists; (split; [reflexivity|]).
      1-2: exists s', a', c', sv, pv; auto.
      all: exists SInit, 0, 0, 0, pv; repeat split; auto.
    - rewrite sbp_ev_fall by auto. do 2 eexists. split; [reflexivity|]. exists s, a, c, d, pv. auto.
  Qed.

  Lemma sbp_run_inv h r : sbp_inv r -> short h -> exists r' os, run r h = Val (r', os) /\ sbp_inv r'.
  Proof.
    intros Hr Hh. apply (@run_edges_inv D C into sbp_inv (fun e => snd e < 2 ^ 31)); auto.
    intros r0 e dt H0 Hd. apply sbp_ev_inv; auto.
  Qed.

  Lemma sbp_new_inv : sbp_inv (st SInit 0 0 0 0).
  Proof. exists SInit, 0, 0, 0, 0. repeat split. Qed.

  (** A gap brings every receiver back to idle. *)
  Lemma sbp_gap r d : sbp_inv r -> d < 2 ^ 31 -> longer freq 9000 5 d ->
    exists sv pv o, ev r d true = Val (st SInit 0 0 sv pv, o) /\ sv < 2 ^ 31 /\
      (o = ROk None \/ o = RErr EData \/ o = RErr EAddress).
  Proof.
    intros (s & a & c & sv & pv & -> & Hs & Hv) Hd Hl. rewrite sbp_ev_rise by auto.
    rewrite sbp_class_long by (unfold longer in *; lia).
    assert (Z : 0 < 2 ^ 31) by reflexivity.
    destruct s; try contradiction; cbn [sbp_transition bind sbp_to_state]; cbn in Hs.
    - destruct Hs as [-> ->]. eauto 8.
    - eauto 8.
    - eauto 8.
    - eauto 8.
  Qed.

  (** *** Frames *)

  Definition sbp_pulse (pw : sbp_pw) (x : N * N) : Prop :=
    fst x < 2 ^ 31 /\ snd x < 2 ^ 31 /\ sbp_class ss (fst x + snd x) = pw.
  Definition sbp_bit_pw (bit : bool) : sbp_pw := if bit then SbOne else SbZero.

  Lemma sbp_pair s a c sv pv x rest : sbp_live s a c -> fst x < 2 ^ 31 ->
    run (st s a c sv pv) (pair_edges (x :: rest)) =
    let* (r1, o) := ev (st s a c (fst x) pv) (snd x) true in
    let* (r2, os) := run r1 (pair_edges rest) in
    Val (r2, ROk None :: o :: os).
  Proof.
    intros Hs Hx. destruct x as [mk sp]. cbn [pair_edges run_edges fst snd].
    rewrite sbp_ev_fall by auto. cbn [bind].
    destruct (ev (st s a c mk pv) sp true) as [[r1 o]| |]; cbn [bind]; auto.
    destruct (run r1 (pair_edges rest)) as [[r2 os]| |]; reflexivity.
  Qed.

  Lemma sbp_addr_bits bs : forall i ds a sv pv,
    bs <> [] -> (N.to_nat i + length bs = 16)%nat -> a < 2 ^ i ->
    Forall2 (fun bit x => sbp_pulse (sbp_bit_pw bit) x) bs ds ->
    exists sv', run (st (SAddress i) a 0 sv pv) (pair_edges ds) =
    Val (st SDivider (a + 2 ^ i * val_lsb bs) 0 sv' pv, repeat (ROk None) (2 * length bs)) /\
    a + 2 ^ i * val_lsb bs < 2 ^ 16.
  Proof.
    induction bs as [|bit bs IH]; intros i ds a sv pv Hne Hlen Ha HF; [contradiction|].
    inversion HF as [|x1 x l1 l2 (Hx1 & Hx2 & Hc) HF']; subst. clear HF.
    assert (Hi : i <= 15) by (cbn [length] in Hlen; lia).
    rewrite sbp_pair by (auto; cbn [sbp_live]; repeat split; auto).
    rewrite sbp_ev_rise by auto. rewrite Hc. unfold sbp_bit_pw. rewrite sbp_addr_step by auto. cbn [bind].
    set (a' := a + 2 ^ i * (if bit then 1 else 0)).
    assert (L : a' < 2 ^ (i + 1)) by (rewrite pow_S; unfold a'; destruct bit; lia).
    destruct bs as [|bit' bs].
    - assert (i = 15) by (cbn [length] in Hlen; lia). subst i.
      inversion HF'; subst. change (15 =? 15) with true. cbn [sbp_to_state pair_edges run_edges bind].
      assert (E : a + 2 ^ 15 * val_lsb [bit] = a') by (unfold a'; cbn [val_lsb]; destruct bit; lia).
      rewrite E. eexists. split; [reflexivity|]. exact L.
    - rewrite (proj2 (N.eqb_neq i 15)) by (cbn [length] in Hlen; lia). cbn [sbp_to_state bind].
      assert (E : a + 2 ^ i * val_lsb (bit :: bit' :: bs) = a' + 2 ^ (i + 1) * val_lsb (bit' :: bs)).
      { rewrite pow_S. unfold a'. remember (bit' :: bs) as r. cbn [val_lsb]. destruct bit; lia. }
      rewrite E.
      destruct (IH (i + 1) l2 a' (fst x) pv) as (sv' & ER & EL); auto; try discriminate.
      { cbn [length] in Hlen |- *. lia. }
      cbn [bind]. rewrite ER. cbn [bind]. eexists. split; [|exact EL].
      replace (2 * length (bit :: bit' :: bs))%nat with (S (S (2 * length (bit' :: bs))))
        by (cbn [length]; lia). reflexivity.
  Qed.

  Lemma sbp_cmd_bits bs : forall i ds a c sv pv,
    bs <> [] -> (N.to_nat i + length bs = 20)%nat -> a < 2 ^ 16 -> c < 2 ^ i ->
    Forall2 (fun bit x => sbp_pulse (sbp_bit_pw bit) x) bs ds ->
    run (st (SCommand i) a c sv pv) (pair_edges ds) =
    Val (st SInit 0 0 0 pv, repeat (ROk None) (2 * length bs - 1)
         ++ [ROk (Some (into (sbp_unpack a (c + 2 ^ i * val_lsb bs))))]).
  Proof.
    induction bs as [|bit bs IH]; intros i ds a c sv pv Hne Hlen Ha Hcc HF; [contradiction|].
    inversion HF as [|x1 x l1 l2 (Hx1 & Hx2 & Hc) HF']; subst. clear HF.
    assert (Hi : i <= 19) by (cbn [length] in Hlen; lia).
    rewrite sbp_pair by (auto; cbn [sbp_live]; repeat split; auto).
    rewrite sbp_ev_rise by auto. rewrite Hc. unfold sbp_bit_pw. rewrite sbp_cmd_step by auto. cbn [bind].
    set (c' := c + 2 ^ i * (if bit then 1 else 0)).
    assert (L : c' < 2 ^ (i + 1)) by (rewrite pow_S; unfold c'; destruct bit; lia).
    destruct bs as [|bit' bs].
    - assert (i = 19) by (cbn [length] in Hlen; lia). subst i.
      inversion HF'; subst. change (19 =? 19) with true. cbn [sbp_to_state pair_edges run_edges bind].
      assert (E : c + 2 ^ 19 * val_lsb [bit] = c') by (unfold c'; cbn [val_lsb]; destruct bit; lia).
      rewrite E. reflexivity.
    - rewrite (proj2 (N.eqb_neq i 19)) by (cbn [length] in Hlen; lia). cbn [sbp_to_state bind].
      assert (E : c + 2 ^ i * val_lsb (bit :: bit' :: bs) = c' + 2 ^ (i + 1) * val_lsb (bit' :: bs)).
      { rewrite pow_S. unfold c'. remember (bit' :: bs) as r. cbn [val_lsb]. destruct bit; lia. }
      rewrite E.
      rewrite (IH (i + 1) l2 a c' (fst x) pv); auto; try discriminate; [|cbn [length] in Hlen |- *; lia].
      cbn [bind].
      replace (2 * length (bit :: bit' :: bs) - 1)%nat with (S (S (2 * length (bit' :: bs) - 1)))
        by (cbn [length]; lia). reflexivity.
  Qed.

  Lemma pair_edges_app l1 l2 : pair_edges (l1 ++ l2) = pair_edges l1 ++ pair_edges l2.
  Proof. induction l1 as [|[x y] l1 IH]; cbn [app pair_edges]; [reflexivity|]. rewrite IH. reflexivity. Qed.

  Lemma sbp_frame_run a c h ads pause cds sv pv : a < 2 ^ 16 -> c < 2 ^ 20 ->
    sbp_pulse SbSync h -> sbp_pulse SbPaus pause ->
    Forall2 (fun bit x => sbp_pulse (sbp_bit_pw bit) x) (bits_lsb 16 a) ads ->
    Forall2 (fun bit x => sbp_pulse (sbp_bit_pw bit) x) (bits_lsb 20 c) cds ->
    run (st SInit 0 0 sv pv) (pair_edges (h :: ads ++ pause :: cds)) =
    Val (st SInit 0 0 0 pv, repeat (ROk None) 75 ++ [ROk (Some (into (sbp_unpack a c)))]).
  Proof.
    intros Ha Hc (H1 & H2 & H3) (P1 & P2 & P3) HA HC.
    rewrite sbp_pair by (auto; split; reflexivity).
    rewrite sbp_ev_rise by auto. rewrite H3. cbn [sbp_transition bind sbp_to_state].
    rewrite pair_edges_app, run_edges_app.
    destruct (sbp_addr_bits (bits_lsb 16 a) 0 ads 0 (fst h) pv) as (sv' & E & L); auto.
    { rewrite bits_lsb_S. discriminate. }
    { reflexivity. }
    rewrite val_bits_lsb in E, L. change (2 ^ N.of_nat 16) with (2 ^ 16) in *. rewrite N.mod_small in * by auto.
    rewrite N.pow_0_r, N.mul_1_l, N.add_0_l in *.
    rewrite E. cbn [bind]. rewrite sbp_pair by (auto; split; auto).
    rewrite sbp_ev_rise by auto. rewrite P3. cbn [sbp_transition bind sbp_to_state].
    rewrite (sbp_cmd_bits (bits_lsb 20 c) 0); auto.
    - rewrite val_bits_lsb. change (2 ^ N.of_nat 20) with (2 ^ 20). rewrite N.mod_small by auto.
      rewrite N.pow_0_r, N.mul_1_l, N.add_0_l, !bits_lsb_length. reflexivity.
    - rewrite bits_lsb_S. discriminate.
    - reflexivity.
  Qed.

  Lemma short_pairs x rest : short (pair_edges (x :: rest)) ->
    fst x < 2 ^ 31 /\ snd x < 2 ^ 31 /\ short (pair_edges rest).
  Proof.
    intros H. destruct x as [mk sp]. cbn [pair_edges fst snd] in *. unfold short in *.
    inversion H as [|e1 l1 H1 H2]; subst. inversion H2 as [|e2 l2 H3 H4]; subst. auto.
  Qed.

  Lemma sbp_bits_pulses (Hlo : 1000 <= freq) bs ds : short (pair_edges ds) ->
    Forall2 (sbp_bit freq) bs ds -> Forall2 (fun bit x => sbp_pulse (sbp_bit_pw bit) x) bs ds.
  Proof.
    intros S HF. revert S. induction HF as [|bit x bs xs Hx HF IH]; intros S3; constructor.
    - apply short_pairs in S3. destruct S3 as (S1 & S2 & _). repeat split; auto.
      destruct (sbp_class_near Hlo (fst x + snd x)) as (_ & _ & K0 & K1).
      destruct bit; [apply K1|apply K0]; exact Hx.
    - apply IH. apply short_pairs in S3. tauto.
  Qed.

  Lemma sbp_decode (Hlo : 1000 <= freq) a c hist gap ps :
    a < 2 ^ 16 -> c < 2 ^ 20 -> sbp_frame freq a c ps -> longer freq 9000 5 gap ->
    short (hist ++ (true, gap) :: pair_edges ps) ->
    exists r0 os o pv, receiver_new (sbp_protocol b m) freq = Val r0 /\
      run r0 (hist ++ (true, gap) :: pair_edges ps) =
      Val (st SInit 0 0 0 pv,
           os ++ o :: repeat (ROk None) 75 ++ [ROk (Some (into (sbp_unpack a c)))]) /\
      length os = length hist /\ (o = ROk None \/ o = RErr EData \/ o = RErr EAddress).
  Proof.
    intros Ha Hc (h & ads & pause & cds & -> & Hh & HA & Hp & HC) Hg Hs.
    exists (st SInit 0 0 0 0).
    unfold short in Hs. apply Forall_app in Hs. destruct Hs as [Sh Sr].
    inversion Sr as [|e l Sg Sp]; subst. cbn [snd] in Sg.
    destruct (sbp_run_inv hist (st SInit 0 0 0 0) sbp_new_inv Sh) as (r1 & os & E1 & I1).
    destruct (sbp_gap r1 gap I1 Sg Hg) as (sv & pv & o & E2 & Hsv & Ho).
    exists os, o, pv. split; [apply sbp_new_val|]. split; [|split; auto].
    - eapply run_edges_app_val; [exact E1|]. cbn [run_edges]. rewrite E2. cbn [bind].
      fold (short (pair_edges (h :: ads ++ pause :: cds))) in Sp.
      apply short_pairs in Sp. destruct Sp as (S1 & S2 & S3).
      rewrite pair_edges_app in S3. unfold short in S3. apply Forall_app in S3. destruct S3 as [S3 S4].
      fold (short (pair_edges (pause :: cds))) in S4. apply short_pairs in S4. destruct S4 as (S4 & S5 & S6).
      rewrite (sbp_frame_run a c h ads pause cds sv pv); auto using sbp_bits_pulses.
      + repeat split; auto. apply (sbp_class_near Hlo). exact Hh.
      + repeat split; auto. apply (sbp_class_near Hlo). exact Hp.
    - eapply run_edges_length. exact E1.
  Qed.
End Sbp.
