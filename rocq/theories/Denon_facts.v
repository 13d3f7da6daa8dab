(** * Lemmas about the Denon receiver *)
From Coq Require Import NArith ZArith List Bool Lia ZifyBool ZifyNat ZifyN.
From Verif Require Import Machine Spec Bits Time Decoder Denon Receiver Time_facts Window_facts Run_facts.
Import ListNotations.
Open Scope N_scope.

(** What the decoder makes of a period. *)
Definition denon_class (ss : list span) (d : N) : denon_pw :=
  match spans_get ss d with Some i => denon_pw_from i | None => DFail end.

Section Denon.
  Variables (b : build) (m : mono) (freq : N).
  Hypothesis (Hm : timebase m freq) (Hf : freq < M32).
  Let ss := spans_of m freq denon_pulses.
  Notation D := (denon_dec b m).
  Context {C : Type} (into : denon_command -> C).
  Notation run := (@run_edges D C into).
  Notation ev := (@event_edge D C into).
  Notation st s buf sv pv := (@mkRecv D (mkDenonDec s buf sv ss) pv).

  Lemma denon_new_val : receiver_new (denon_protocol b m) freq = Val (st DIdle 0 0 0).
  Proof.
    unfold receiver_new. cbn [p_build denon_protocol p_dec]. unfold denon_build.
    rewrite pulse_spans_val; auto using denon_ok.
  Qed.

  Lemma denon_class_near (Hlo : 1191 <= freq) d :
    (near freq 5000 (guaranteed freq 8) d -> denon_class ss d = DSync) /\
    (near freq 840 (guaranteed freq 10) d -> denon_class ss d = DZero) /\
    (near freq 1680 (guaranteed freq 10) d -> denon_class ss d = DOne).
  Proof.
    pose proof (denon_distinct m freq Hm Hf Hlo) as Hd. pose proof denon_ok as Ht.
    unfold denon_class, ss. repeat split; intros H.
    - rewrite (spans_get_near 3 denon_pulses m freq 0 5000 8 d Hm Hf Ht Hd); auto; lia.
    - rewrite (spans_get_near 3 denon_pulses m freq 1 840 10 d Hm Hf Ht Hd); auto; lia.
    - rewrite (spans_get_near 3 denon_pulses m freq 2 1680 10 d Hm Hf Ht Hd); auto; lia.
  Qed.

  Lemma denon_class_inv d :
    match denon_class ss d with
    | DSync => near freq 5000 9 d
    | DZero => near freq 840 11 d
    | DOne => near freq 1680 11 d
    | DFail => True
    end.
  Proof.
    unfold denon_class, ss. destruct (spans_get _ d) as [k|] eqn:E; cbn; auto.
    apply spans_get_near_inv in E; auto using denon_ok. destruct E as (p & t & E & Hn & _).
    destruct k as [|[q|q|]]; cbn [denon_pw_from]; try (destruct q; auto; fail).
    - cbn in E. injection E as <- <-. apply Hn. lia.
    - destruct q; auto. cbn in E. injection E as <- <-. apply Hn. lia.
    - cbn in E. injection E as <- <-. apply Hn. lia.
  Qed.

  Lemma denon_class_long d : longer freq 5000 8 d -> denon_class ss d = DFail.
  Proof.
    intros H. unfold denon_class, ss. rewrite (spans_get_long _ m freq 5000 8); auto using denon_ok.
    clear. unfold denon_pulses. repeat (apply Forall_cons; [cbn [fst snd]; unfold nominal; lia|]). apply Forall_nil.
  Qed.

  (** *** Single edges *)

  Definition denon_live (s : denon_state) (buf : N) : Prop :=
    buf < 2 ^ 47 /\ match s with DIdle => True | DData i => i <= 47 | DDone => False end.

  Lemma denon_ev_fall s buf sv pv d : denon_live s buf ->
    ev (st s buf sv pv) d false = Val (st s buf d pv, ROk None).
  Proof. intros [_ Hs]. destruct s; try contradiction; reflexivity. Qed.

  Lemma denon_ev_rise s buf sv pv d : sv < 2 ^ 31 -> d < 2 ^ 31 ->
    ev (st s buf sv pv) d true =
    let* (buf', s') := denon_transition b s buf (denon_class ss (sv + d)) in
    match s' with
    | DDone => Val (st DIdle 0 0 pv, ROk (Some (into (mkDenon buf'))))
    | _ => Val (st s' buf' 0 pv, ROk None)
    end.
  Proof.
    intros H1 H2. unfold event_edge. cbn [rv_dec d_event denon_dec D rv_prev d_reset d_command].
    unfold denon_event. cbn [dn_dt_save dn_spans dn_state dn_buf].
    rewrite (dur_add_short b m freq) by auto. cbn [bind].
    change (match spans_get ss (sv + d) with Some i => denon_pw_from i | None => DFail end) with (denon_class ss (sv + d)).
    destruct (denon_transition b s buf (denon_class ss (sv + d))) as [[buf' s']| |]; cbn [bind]; auto.
    destruct s'; reflexivity.
  Qed.

  Lemma lor_lt a c n : a < 2 ^ n -> c < 2 ^ n -> N.lor a c < 2 ^ n.
  Proof.
    intros Ha Hc. destruct (N.eq_dec (N.lor a c) 0) as [->|Hn].
    - apply N.neq_0_lt_0. apply N.pow_nonzero. discriminate.
    - apply N.log2_lt_pow2; [lia|]. rewrite N.log2_lor.
      assert (K : forall x, x < 2 ^ n -> 0 < x -> N.log2 x < n) by (intros x H1 H2; apply N.log2_lt_pow2; auto).
      assert (L : 0 < n).
      { destruct (N.eq_dec n 0) as [->|]; [|lia]. rewrite N.pow_0_r in *.
        replace a with 0 in Hn by lia. replace c with 0 in Hn by lia. exfalso. apply Hn. reflexivity. }
      destruct (N.eq_dec a 0) as [->|Na]; destruct (N.eq_dec c 0) as [->|Nc]; cbn [N.log2].
      + rewrite N.max_id. exact L.
      + apply N.max_lub_lt; [exact L|]. apply K; auto. lia.
      + apply N.max_lub_lt; [|exact L]. apply K; auto. lia.
      + apply N.max_lub_lt; apply K; auto; lia.
  Qed.

  Lemma shl1_lt i n : i < n -> N.shiftl 1 i < 2 ^ n.
  Proof. intros H. rewrite shiftl_mul, N.mul_1_l. apply N.pow_lt_mono_r; lia. Qed.

  (** What a data bit does. *)
  Definition denon_bit_pw (bit : bool) : denon_pw := if bit then DOne else DZero.
  Lemma denon_step i buf bit : i <= 47 ->
    denon_transition b (DData i) buf (denon_bit_pw bit) =
    if i =? 47 then Val (buf, DDone)
    else Val (N.lor buf (if bit then 2 ^ i else 0), DData (i + 1)).
  Proof.
    intros Hi. destruct bit; cbn [denon_bit_pw denon_transition]; destruct (N.eqb_spec i 47) as [->|Hn]; auto.
    - unfold ushl1. rewrite (proj2 (N.ltb_lt i 64)) by lia. cbn [bind].
      unfold uadd. change (2 ^ 8) with 256. rewrite (proj2 (N.ltb_lt _ 256)) by lia. cbn [bind].
      rewrite shiftl_mul, N.mul_1_l. reflexivity.
    - unfold uadd. change (2 ^ 8) with 256. rewrite (proj2 (N.ltb_lt _ 256)) by lia. cbn [bind].
      rewrite N.lor_0_r. reflexivity.
  Qed.

  Lemma denon_transition_live s buf pw : denon_live s buf ->
    exists buf' s', denon_transition b s buf pw = Val (buf', s') /\
      (denon_live s' buf' \/ s' = DDone /\ buf' < 2 ^ 47).
  Proof.
    intros [Hb Hs]. destruct s as [|i|]; try contradiction.
    - destruct pw; cbn [denon_transition]; do 2 eexists; (split; [reflexivity|]); left; split; auto. lia.
    - assert (Q : (exists bit, pw = denon_bit_pw bit) \/ denon_transition b (DData i) buf pw = Val (buf, DIdle)).
      { destruct pw; auto; left; [exists false|exists true]; reflexivity. }
      destruct Q as [[bit ->]|Q].
      + rewrite denon_step by auto. destruct (N.eqb_spec i 47) as [->|Hn]; do 2 eexists; (split; [reflexivity|]).
        * auto.
        * left. split; [|lia]. apply lor_lt; auto. destruct bit; [|reflexivity].
          apply N.pow_lt_mono_r; lia.
      + rewrite Q. do 2 eexists. split; [reflexivity|]. left. split; auto.
  Qed.

  (** *** Histories *)

  Definition denon_inv (r : receiver D) : Prop :=
    exists s buf sv pv, r = st s buf sv pv /\ denon_live s buf /\ sv < 2 ^ 31.

  Lemma denon_ev_inv r e d : denon_inv r -> d < 2 ^ 31 ->
    exists r' o, ev r d e = Val (r', o) /\ denon_inv r'.
  Proof.
    intros (s & buf & sv & pv & -> & Hs & Hv) Hd. destruct e.
    - rewrite denon_ev_rise by auto.
      destruct (denon_transition_live s buf (denon_class ss (sv + d)) Hs) as (buf' & s' & -> & Hs').
      cbn [bind]. assert (Z : 0 < 2 ^ 31) by reflexivity.
      destruct Hs' as [H|(-> & H)].
      + destruct s'; [| |destruct H; contradiction]; do 2 eexists; (split; [reflexivity|]);
          do 4 eexists; (split; [reflexivity|]); auto.
      + do 2 eexists; (split; [reflexivity|]). exists DIdle, 0, 0, pv. repeat split; auto.
    - rewrite denon_ev_fall by auto. do 2 eexists. split; [reflexivity|]. exists s, buf, d, pv. auto.
  Qed.

  Lemma denon_run_inv h r : denon_inv r -> short h -> exists r' os, run r h = Val (r', os) /\ denon_inv r'.
  Proof.
    intros Hr Hh. apply (@run_edges_inv D C into denon_inv (fun e => snd e < 2 ^ 31)); auto.
    intros r0 e dt H0 Hd. apply denon_ev_inv; auto.
  Qed.

  Lemma denon_new_inv : denon_inv (st DIdle 0 0 0).
  Proof. exists DIdle, 0, 0, 0. repeat split. Qed.

  (** A history without anything like a sync pulse leaves the receiver clean. *)
  Lemma denon_quiet h : forall sv pv, sv < 2 ^ 31 -> short h ->
    (forall d, In d (periods_from sv h) -> ~ near freq 5000 9 d) ->
    exists sv' pv' os, run (st DIdle 0 sv pv) h = Val (st DIdle 0 sv' pv', os) /\ sv' < 2 ^ 31 /\
      os = repeat (ROk None) (length h).
  Proof.
    assert (Z : 0 < 2 ^ 31) by reflexivity.
    induction h as [|[e d] h IH]; intros sv pv Hsv Hs Hq.
    - exists sv, pv, []. auto.
    - inversion Hs as [|x l H1 H2]; subst. cbn [snd] in H1. cbn [run_edges]. destruct e.
      + rewrite denon_ev_rise by auto. cbn [periods_from In] in Hq.
        assert (Hn : denon_class ss (sv + d) <> DSync).
        { intros E. pose proof (denon_class_inv (sv + d)) as K. rewrite E in K. apply (Hq (sv + d)); auto. }
        assert (Et : denon_transition b DIdle 0 (denon_class ss (sv + d)) = Val (0, DIdle)).
        { destruct (denon_class ss (sv + d)); auto; contradiction. }
        rewrite Et. cbn [bind].
        destruct (IH 0 pv Z H2) as (sv' & pv' & os & E & L & ->).
        { intros x Hx. apply Hq. auto. }
        rewrite E. cbn [bind]. do 3 eexists. split; [reflexivity|]. auto.
      + rewrite denon_ev_fall by (split; reflexivity). cbn [bind].
        destruct (IH d pv H1 H2) as (sv' & pv' & os & E & L & ->); auto.
        rewrite E. cbn [bind]. do 3 eexists. split; [reflexivity|]. auto.
  Qed.

  (** A gap brings every receiver back to idle, keeping the bits of an aborted frame. *)
  Lemma denon_gap s buf sv pv d : denon_live s buf -> sv < 2 ^ 31 -> d < 2 ^ 31 ->
    longer freq 5000 8 d ->
    ev (st s buf sv pv) d true = Val (st DIdle buf 0 pv, ROk None).
  Proof.
    intros [Hb Hs] Hv Hd Hl. rewrite denon_ev_rise by auto.
    rewrite denon_class_long by (unfold longer in *; lia).
    destruct s; try contradiction; reflexivity.
  Qed.

  (** *** Frames *)

  Definition denon_pulse (pw : denon_pw) (x : N * N) : Prop :=
    fst x < 2 ^ 31 /\ snd x < 2 ^ 31 /\ denon_class ss (fst x + snd x) = pw.

  Lemma denon_pair s buf sv pv x rest : denon_live s buf -> fst x < 2 ^ 31 ->
    run (st s buf sv pv) (pair_edges (x :: rest)) =
    let* (r1, o) := ev (st s buf (fst x) pv) (snd x) true in
    let* (r2, os) := run r1 (pair_edges rest) in
    Val (r2, ROk None :: o :: os).
  Proof.
    intros Hs Hx. destruct x as [mk sp]. cbn [pair_edges run_edges fst snd].
    rewrite denon_ev_fall by auto. cbn [bind].
    destruct (ev (st s buf mk pv) sp true) as [[r1 o]| |]; cbn [bind]; auto.
    destruct (run r1 (pair_edges rest)) as [[r2 os]| |]; reflexivity.
  Qed.

  Lemma lor_bits buf i (bit : bool) v :
    N.lor (N.lor buf (if bit then 2 ^ i else 0)) (2 ^ (i + 1) * v) =
    N.lor buf (2 ^ i * ((if bit then 1 else 0) + 2 * v)).
  Proof.
    rewrite <- N.lor_assoc. f_equal.
    assert (E : 2 ^ (i + 1) = 2 * 2 ^ i) by (rewrite N.pow_add_r; lia).
    assert (P : 0 < 2 ^ i) by (apply N.neq_0_lt_0, N.pow_nonzero; discriminate).
    rewrite (N.mul_comm (2 ^ (i + 1))), <- shiftl_mul. rewrite lor_add by (destruct bit; lia).
    rewrite E. destruct bit; lia.
  Qed.

  Lemma denon_bits bs : forall i ds buf sv pv,
    bs <> [] -> (N.to_nat i + length bs = 48)%nat -> buf < 2 ^ 47 ->
    Forall2 (fun bit x => denon_pulse (denon_bit_pw bit) x) bs ds ->
    run (st (DData i) buf sv pv) (pair_edges ds) =
    Val (st DIdle 0 0 pv,
         repeat (ROk None) (2 * length bs - 1)
         ++ [ROk (Some (into (mkDenon (N.lor buf (2 ^ i * val_lsb (removelast bs))))))]).
  Proof.
    induction bs as [|bit bs IH]; intros i ds buf sv pv Hne Hlen Hb HF; [contradiction|].
    inversion HF as [|x1 x l1 l2 (Hx1 & Hx2 & Hc) HF']; subst. clear HF.
    assert (Hi : i <= 47) by (cbn [length] in Hlen; lia).
    rewrite denon_pair by (auto; split; auto).
    rewrite denon_ev_rise by auto. rewrite Hc, denon_step by auto.
    destruct bs as [|bit' bs].
    - assert (i = 47) by (cbn [length] in Hlen; lia). subst i. inversion HF'; subst.
      change (47 =? 47) with true. cbn [bind pair_edges run_edges removelast val_lsb].
      rewrite N.mul_0_r, N.lor_0_r. reflexivity.
    - rewrite (proj2 (N.eqb_neq i 47)) by (cbn [length] in Hlen; lia). cbn [bind].
      rewrite (IH (i + 1) l2); auto; try discriminate.
      2: { cbn [length] in Hlen |- *. lia. }
      2: { apply lor_lt; auto. destruct bit; [|reflexivity]. apply N.pow_lt_mono_r; cbn [length] in Hlen; lia. }
      cbn [bind]. rewrite lor_bits.
      replace (2 * length (bit :: bit' :: bs) - 1)%nat with (S (S (2 * length (bit' :: bs) - 1)))
        by (cbn [length]; lia).
      reflexivity.
  Qed.

  Lemma removelast_bits n w : removelast (bits_lsb (S n) w) = bits_lsb n w.
  Proof.
    unfold bits_lsb. rewrite seq_S, map_app. cbn [map]. apply removelast_last.
  Qed.

  Lemma denon_frame_run w h ds buf sv pv : buf < 2 ^ 47 ->
    denon_pulse DSync h ->
    Forall2 (fun bit x => denon_pulse (denon_bit_pw bit) x) (bits_lsb 48 w) ds ->
    run (st DIdle buf sv pv) (pair_edges (h :: ds)) =
    Val (st DIdle 0 0 pv,
         repeat (ROk None) 97 ++ [ROk (Some (into (mkDenon (N.lor buf (w mod 2 ^ 47)))))]).
  Proof.
    intros Hb (H1 & H2 & Hc) HF. rewrite denon_pair by (auto; split; auto).
    rewrite denon_ev_rise by auto. rewrite Hc. cbn [denon_transition bind].
    rewrite (denon_bits (bits_lsb 48 w) 0); auto.
    - rewrite removelast_bits, val_bits_lsb. change (2 ^ N.of_nat 47) with (2 ^ 47).
      cbn [bind]. rewrite N.pow_0_r, N.mul_1_l, bits_lsb_length. reflexivity.
    - rewrite bits_lsb_S. discriminate.
  Qed.

  Lemma short_pairs_dn x rest : short (pair_edges (x :: rest)) ->
    fst x < 2 ^ 31 /\ snd x < 2 ^ 31 /\ short (pair_edges rest).
  Proof.
    intros H. destruct x as [mk sp]. cbn [pair_edges fst snd] in *. unfold short in *.
    inversion H as [|e1 l1 H1 H2]; subst. inversion H2 as [|e2 l2 H3 H4]; subst. auto.
  Qed.

  Lemma denon_frame_pulses (Hlo : 1191 <= freq) w ps :
    denon_frame freq w ps -> short (pair_edges ps) ->
    exists h ds, ps = h :: ds /\ denon_pulse DSync h /\
      Forall2 (fun bit x => denon_pulse (denon_bit_pw bit) x) (bits_lsb 48 w) ds.
  Proof.
    intros (h & ds & -> & Hh & HF) Hs. exists h, ds. split; auto.
    apply short_pairs_dn in Hs. destruct Hs as (S1 & S2 & S3). split.
    - repeat split; auto. apply (denon_class_near Hlo). exact Hh.
    - clear Hh S1 S2. revert S3. induction HF as [|bit x bs xs Hx HF IH]; intros S3; constructor.
      + apply short_pairs_dn in S3. destruct S3 as (S1 & S2 & _). repeat split; auto.
        destruct (denon_class_near Hlo (fst x + snd x)) as (_ & K0 & K1).
        destruct bit; [apply K1|apply K0]; exact Hx.
      + apply IH. apply short_pairs_dn in S3. tauto.
  Qed.

  Lemma denon_decode (Hlo : 1191 <= freq) w hist gap ps :
    denon_frame freq w ps -> longer freq 5000 8 gap ->
    short (hist ++ (true, gap) :: pair_edges ps) ->
    exists r0 pv os old, receiver_new (denon_protocol b m) freq = Val r0 /\
      run r0 (hist ++ (true, gap) :: pair_edges ps) =
      Val (st DIdle 0 0 pv,
           os ++ repeat (ROk None) 98 ++ [ROk (Some (into (mkDenon (N.lor old (w mod 2 ^ 47)))))]) /\
      length os = length hist /\ old < 2 ^ 47 /\
      ((forall d, In d (periods hist) -> ~ near freq 5000 9 d) ->
        old = 0 /\ os = repeat (ROk None) (length hist)).
  Proof.
    intros Hfr Hg Hs. exists (st DIdle 0 0 0).
    unfold short in Hs. apply Forall_app in Hs. destruct Hs as [Sh Sr].
    inversion Sr as [|e l Sg Sp]; subst. cbn [snd] in Sg.
    destruct (denon_run_inv hist (st DIdle 0 0 0) denon_new_inv Sh) as (r1 & os & E1 & I1).
    destruct I1 as (s & buf & sv & pv & -> & Hl & Hsv).
    exists pv, os, buf. split; [apply denon_new_val|]. split; [|split; [|split]].
    - eapply run_edges_app_val; [exact E1|]. cbn [run_edges].
      rewrite denon_gap by auto. cbn [bind].
      destruct (denon_frame_pulses Hlo w ps) as (h & ds & -> & Ph & Pd); auto.
      rewrite (denon_frame_run w h ds buf 0 pv (proj1 Hl) Ph Pd). reflexivity.
    - eapply run_edges_length. exact E1.
    - apply Hl.
    - intros Hq. destruct (denon_quiet hist 0 0) as (sv' & pv' & os' & E & L & Eo); auto.
      { reflexivity. }
      rewrite E in E1. injection E1 as _ <- _ _ <-. auto.
  Qed.
End Denon.
