(** * Series of transmissions timed by interrupt handlers; the multi receiver application *)
From Coq Require Import NArith ZArith List Bool Lia ZifyBool ZifyNat ZifyN.
From Verif Require Import Machine Time Decoder Nec Rc5 Rc6 Denon Receiver Spec Bits Codec_facts Time_facts Window_facts Run_facts State_facts Nec_facts Rc5_facts Rc6_facts
  Spec_receiver Receiver_facts Spec_phys Phys_facts Spec_keys Keys_facts Apps Spec_listen Listen_facts
  Cross_facts Traffic_facts Props_decode Props_receiver Props_traffic Props_phys Spec_cross.
Import ListNotations.
Open Scope N_scope.

Ltac space k H :=
  first [apply (slack_guaranteed _ _ _ _ _ k); [lia|lia|lia|exact H|vm_compute; discriminate]
        |apply (slack_rate _ _ _ _ _ k); [lia|lia|lia|exact H|vm_compute; discriminate]].

(** ** Transmissions, each interval measured on its own *)
Section Timed.
  Variables (freq G j : N).
  Hypothesis HG : 0 < G.
  Hypothesis Hj : 1 <= j.
  Hypothesis H1 : 44000 * (j + 1) <= freq.
  Hypothesis H2 : 21000 * (2 * j + 1) <= freq.

  Lemma marks_timed x lead bit ps : slack freq x j lead 8 = true -> slack freq x j bit 12 = true ->
    real_marks G x lead bit ps -> forall ps', Forall2 (timed freq G j) (pair_edges ps) (pair_edges ps') ->
    marks_near freq lead bit ps'.
  Proof.
    intros S0 S1 (h & ds & -> & Hh & Hd) ps' F. destruct h as [m s]. destruct ps' as [|[m' s'] ds']; [inversion F|].
    cbn [pair_edges] in F. inversion F as [|? ? ? ? (_ & A1 & A2) F1]; subst. inversion F1 as [|? ? ? ? _ F2]; subst. cbn [fst snd] in *.
    exists (m', s'), ds'. split; [reflexivity|]. split; [apply (slack_ok freq G x j lead 8 m m' HG S0 Hh A1 A2)|].
    clear F F1 A1 A2 Hh. revert ds' F2. induction Hd as [|[a b] ds Ha Hd IH]; intros [|[a' b'] ds'] F; try (inversion F; fail); [constructor|].
    cbn [pair_edges] in F. inversion F as [|? ? ? ? (_ & A1 & A2) F1]; subst. inversion F1 as [|? ? ? ? _ F2]; subst. cbn [fst snd] in *.
    constructor; [|apply IH, F2]. apply (slack_ok freq G x j bit 12 a a' HG S1 Ha A1 A2).
  Qed.

  Lemma denon_timed x w ps ps' : slack freq x (2 * j) 5000 (guaranteed freq 8) = true ->
    slack freq x (2 * j) 1680 (guaranteed freq 10) = true -> slack freq x (2 * j) 840 (guaranteed freq 10) = true ->
    real_denon G x w ps -> Forall2 (pair_timed freq G (2 * j)) ps ps' -> denon_frame freq w ps'.
  Proof.
    intros Sh S1 S0 (h & ds & -> & Hh & Hd) R. inversion R as [|h0 h' ds0 ds' R1 R2]; subst. exists h', ds'. split; [reflexivity|].
    split; [exact (period_timed freq G (2 * j) x HG 5000 8 h h' Sh Hh R1)|]. apply (same_bits freq). eapply bits_timed; eauto.
  Qed.

  Lemma sbp_timed x a c ps ps' : slack freq x (2 * j) 9000 (guaranteed freq 5) = true -> slack freq x (2 * j) 5000 (guaranteed freq 5) = true ->
    slack freq x (2 * j) 2000 (guaranteed freq 10) = true -> slack freq x (2 * j) 1000 (guaranteed freq 10) = true ->
    real_sbp G x a c ps -> Forall2 (pair_timed freq G (2 * j)) ps ps' -> sbp_frame freq a c ps'.
  Proof.
    intros Sh Sp S1 S0 (h & ads & pause & cds & -> & Hh & Ha & Hp & Hcc) R. inversion R as [|h0 h' ds0 ds' R1 R2]; subst.
    apply Forall2_app_inv_l in R2. destruct R2 as (ads' & rest & Ra & Rr & ->).
    inversion Rr as [|p0 pause' cds0 cds' R3 R4]; subst.
    exists h', ads', pause', cds'. split; [reflexivity|]. split; [exact (period_timed freq G (2 * j) x HG 9000 5 h h' Sh Hh R1)|].
    split; [apply (same_bits freq); eapply bits_timed; eauto|].
    split; [exact (period_timed freq G (2 * j) x HG 5000 5 pause pause' Sp Hp R3)|]. apply (same_bits freq); eapply bits_timed; eauto.
  Qed.

  Lemma units_timed x unit tol noms : (forall nom, In nom noms -> slack freq x j (unit * snd nom) (guaranteed freq (tol (snd nom))) = true) ->
    forall acts, Forall2 (real_unit G x unit) noms acts -> forall acts', Forall2 (timed freq G j) acts acts' ->
    Forall2 (biphase_near freq unit tol) noms acts'.
  Proof.
    intros Hs acts F. induction F as [|nom [l D] noms acts [E1 E2] F IH]; intros acts' T; inversion T as [|? [l' d] ? ? (E & A1 & A2) T']; subst; constructor.
    - cbn [fst snd] in *. subst l'. split; [exact E1|]. cbn [snd]. apply (slack_ok freq G x j _ _ D d HG); auto. apply Hs. left; reflexivity.
    - apply IH; [|exact T']. intros n Hn. apply Hs. right; exact Hn.
  Qed.

  Lemma rc5_timed w gap evs evs' : real_rc5 G 3 w evs -> Forall2 (timed freq G j) evs evs' ->
    rc5_edges freq w gap ((true, gap) :: evs').
  Proof.
    intros (n & noms & El & F) T. exists n, noms, evs'. split; [exact El|]. split; [reflexivity|].
    eapply (units_timed 3); [|exact F|exact T]. intros nom Hn. destruct (rc5_noms w n noms El) as [B _].
    rewrite Forall_forall in B. destruct (B nom Hn) as [B1 B2].
    assert (K : snd nom = 1 \/ snd nom = 2) by lia. unfold rc5_tol. destruct K as [-> | ->]; cbn [N.eqb Pos.eqb N.mul Pos.mul]; space 44000 H1.
  Qed.
  Lemma rc6_timed tg data gap evs evs' : real_rc6 G 3 tg data evs -> Forall2 (timed freq G j) evs evs' ->
    rc6_edges freq (rc6_leader_safe freq) tg data gap ((true, gap) :: evs').
  Proof.
    intros (n & noms & El & F) T.
    destruct (rc6_lead _ _ _ _ El) as (noms' & ->). inversion F as [|x0 [l D] y0 evs0 F1 F2]; subst. destruct F1 as [F1 F1']. cbn [fst snd] in *. subst l.
    inversion T as [|? [l' d] ? evs1 (E & A1 & A2) T']; subst. cbn [fst snd] in *. subst l'.
    exists n, noms', d, evs1. split; [exact El|]. split; [reflexivity|]. split.
    - assert (K : near freq 2664 6 d).
      { apply (slack_ok freq G 3 j 2664 6 D d HG); auto. space 44000 H1. }
      destruct K as [K1 K2]. split; [split|].
      + etransitivity; [exact K1|]. apply N.mul_le_mono_r. unfold guaranteed. destruct (freq <=? 318000); lia.
      + etransitivity; [|exact K2]. apply N.mul_le_mono_r. unfold guaranteed. destruct (freq <=? 318000); lia.
      + unfold rc6_leader_short. rewrite (proj2 (N.ltb_ge freq 15391)), (proj2 (N.ltb_ge freq 37913)) by lia. exact K2.
    - eapply (units_timed 3); [|exact F2|exact T']. intros nom Hn. destruct (rc6_noms tg _ n noms' El) as [B _].
      rewrite Forall_forall in B. destruct (B nom Hn) as [B1 B2].
      assert (K : snd nom = 1 \/ snd nom = 2 \/ snd nom = 3) by lia. unfold rc6_tol.
      destruct K as [-> | [-> | ->]]; cbn [N.eqb Pos.eqb N.mul Pos.mul]; space 44000 H1.
  Qed.

  Lemma sent_timed x evs evs' : real_sent G 3 x evs -> Forall2 (timed freq G j) evs evs' -> sent freq x evs'.
  Proof.
    intros H T. destruct x; cbn [real_sent sent] in *.
    - destruct H as (Ha & Hc & ps & -> & Hf & Hm). split; [exact Ha|]. split; [exact Hc|].
      destruct (pairs_timed freq G j ps evs' T) as (ps' & -> & R). exists ps'. split; [reflexivity|]. split.
      + eapply (nec_timed freq G (2 * j) 3 HG); [..|exact Hf|exact R]; space 21000 H2.
      + eapply (marks_timed 3); [..|exact Hm|exact T]; space 44000 H1.
    - destruct H as (Ha & Hc & ps & -> & Hf & Hm). split; [exact Ha|]. split; [exact Hc|].
      destruct (pairs_timed freq G j ps evs' T) as (ps' & -> & R). exists ps'. split; [reflexivity|]. split.
      + eapply (nec_timed freq G (2 * j) 3 HG); [..|exact Hf|exact R]; space 21000 H2.
      + eapply (marks_timed 3); [..|exact Hm|exact T]; space 44000 H1.
    - destruct H as (Ha & ps & -> & Hf & Hm). split; [exact Ha|].
      destruct (pairs_timed freq G j ps evs' T) as (ps' & -> & R). exists ps'. split; [reflexivity|]. split.
      + eapply (nec_timed freq G (2 * j) 3 HG); [..|exact Hf|exact R]; space 21000 H2.
      + eapply (marks_timed 3); [..|exact Hm|exact T]; space 44000 H1.
    - destruct H as (Ha & Hc & ps & -> & Hf & Hm). split; [exact Ha|]. split; [exact Hc|].
      destruct (pairs_timed freq G j ps evs' T) as (ps' & -> & R). exists ps'. split; [reflexivity|]. split.
      + eapply (nec_timed freq G (2 * j) 3 HG); [..|exact Hf|exact R]; space 21000 H2.
      + eapply (marks_timed 3); [..|exact Hm|exact T]; space 44000 H1.
    - destruct H as (Ha & Hc & ps & -> & Hf & Hm). split; [exact Ha|]. split; [exact Hc|].
      destruct (pairs_timed freq G j ps evs' T) as (ps' & -> & R). exists ps'. split; [reflexivity|]. split.
      + eapply (sbp_timed 3); [..|exact Hf|exact R]; space 21000 H2.
      + eapply (marks_timed 3); [..|exact Hm|exact T]; space 44000 H1.
    - destruct H as (Ha & ps & -> & Hf & Hm). split; [exact Ha|].
      destruct (pairs_timed freq G j ps evs' T) as (ps' & -> & R). exists ps'. split; [reflexivity|]. split.
      + eapply (denon_timed 3); [..|exact Hf|exact R]; space 21000 H2.
      + eapply (marks_timed 3); [..|exact Hm|exact T]; space 44000 H1.
    - destruct H as (Hw & H13 & Hf). split; [exact Hw|]. split; [exact H13|]. exists 0. eapply rc5_timed; eauto.
    - destruct H as (Ha & Hc & Hf). split; [exact Ha|]. split; [exact Hc|]. exists 0. eapply rc6_timed; eauto.
  Qed.

  Lemma ended_timed x evs evs' : real_ended G 3 x evs -> Forall2 (timed freq G j) evs evs' ->
    ended freq (end_mark x) (sent freq x) evs'.
  Proof.
    intros [H|(body & D & -> & H & Hd)] T; [left; eapply sent_timed; eauto|right].
    apply Forall2_app_inv_l in T. destruct T as (body' & e' & T1 & T2 & ->).
    inversion T2 as [|? [l d] ? r (E & A1 & A2) T3]; subst. inversion T3; subst. cbn [fst snd] in *. subst l.
    exists body', d. split; [reflexivity|]. split; [eapply sent_timed; eauto|].
    apply (slack_ok freq G 3 j (end_mark x) 12 D d HG); auto. destruct x; cbn [end_mark]; space 44000 H1.
  Qed.
End Timed.

(** ** The intervals of a transmission are not cut *)
Lemma near_bound G x p D : x <= 3 -> p <= 13500 -> real_near G x p D -> 1000000 * D <= 14000 * G.
Proof.
  intros Hx Hp [H _]. assert (K : (100 + x) * p * G <= 103 * 13500 * G) by (apply N.mul_le_mono_r, N.mul_le_mono; lia). lia.
Qed.

Definition brief (G : N) (e : edge) : Prop := 1000000 * snd e <= 14000 * G.

Lemma pairs_brief G ps : Forall (fun d => 1000000 * (fst d + snd d) <= 14000 * G) ps -> Forall (brief G) (pair_edges ps).
Proof.
  induction 1 as [|[m s] ps H F IH]; cbn [pair_edges]; [constructor|]. unfold brief. cbn [fst snd] in *.
  constructor; [|constructor; [|exact IH]]; cbn [snd]; lia.
Qed.

Lemma bits_brief G (f : bool -> N) bits ds : (forall x, f x <= 13500) -> Forall2 (fun (x : bool) d => real_period G 3 (f x) d) bits ds ->
  Forall (fun d => 1000000 * (fst d + snd d) <= 14000 * G) ds.
Proof. intros Hf. induction 1; constructor; auto. eapply near_bound; [| |eassumption]; [lia|apply Hf]. Qed.

Lemma units_brief G unit noms acts : Forall2 (real_unit G 3 unit) noms acts -> Forall (fun n => unit * snd n <= 13500) noms ->
  Forall (brief G) acts.
Proof.
  induction 1 as [|n a noms acts [_ H] F IH]; intros Hn; constructor; inversion Hn; subst; auto. eapply near_bound; [| |exact H]; lia.
Qed.

Lemma real_sent_brief G x evs : real_sent G 3 x evs -> Forall (brief G) evs.
Proof.
  assert (N : forall h w ps, h <= 13500 -> real_nec G 3 h w ps -> Forall (brief G) (pair_edges ps)).
  { intros h w ps Hh (d & ds & -> & H & F). apply pairs_brief. constructor; [eapply near_bound; [| |exact H]; lia|].
    eapply (bits_brief G (fun bit => if bit then 2250 else 1120)); [intros []; lia|exact F]. }
  destruct x; cbn [real_sent].
  - intros (_ & _ & ps & -> & H & _). eapply N; [|exact H]; lia.
  - intros (_ & _ & ps & -> & H & _). eapply N; [|exact H]; lia.
  - intros (_ & ps & -> & H & _). eapply N; [|exact H]; lia.
  - intros (_ & _ & ps & -> & H & _). eapply N; [|exact H]; lia.
  - intros (_ & _ & ps & -> & (h & ads & pause & cds & -> & Hh & Ha & Hp & Hcc) & _). apply pairs_brief.
    constructor; [eapply near_bound; [| |exact Hh]; lia|]. apply Forall_app. split; [|constructor; [eapply near_bound; [| |exact Hp]; lia|]].
    + eapply (bits_brief G (fun bit => if bit then 2000 else 1000)); [intros []; lia|exact Ha].
    + eapply (bits_brief G (fun bit => if bit then 2000 else 1000)); [intros []; lia|exact Hcc].
  - intros (_ & ps & -> & (h & ds & -> & H & F) & _). apply pairs_brief. constructor; [eapply near_bound; [| |exact H]; lia|].
    eapply (bits_brief G (fun bit => if bit then 1680 else 840)); [intros []; lia|exact F].
  - intros (_ & _ & n & noms & El & F). eapply units_brief; [exact F|]. destruct (rc5_noms word n noms El) as [B _].
    eapply Forall_impl; [|exact B]. cbv beta. intros a Ha. lia.
  - intros (_ & _ & n & noms & El & F). eapply units_brief; [exact F|]. destruct (rc6_lead _ _ _ _ El) as (noms' & ->).
    destruct (rc6_noms toggle _ n noms' El) as [B _]. constructor; [cbn; lia|]. eapply Forall_impl; [|exact B]. cbv beta. intros a Ha. lia.
Qed.

Lemma real_ended_brief G x evs : real_ended G 3 x evs -> Forall (brief G) evs.
Proof.
  intros [H|(body & D & -> & H & Hd)]; [eapply real_sent_brief; eauto|]. apply Forall_app. split; [eapply real_sent_brief; eauto|].
  constructor; [|constructor]. eapply near_bound; [| |exact Hd]; [lia|]. destruct x; cbn [end_mark]; lia.
Qed.

(** ** Cut to 32 bits *)
Section Cut.
  Variables (freq G j : N).
  Hypothesis HG : 0 < G.
  Hypothesis Hf : freq < 2 ^ 32.
  Hypothesis Hj : 1 <= j.
  Hypothesis H1 : 44000 * (j + 1) <= freq.
  Hypothesis H2 : 21000 * (2 * j + 1) <= freq.

  Lemma small_error : 0 * freq + j * G < 2 ^ 31 * G.
  Proof. rewrite N.mul_0_l, N.add_0_l. apply N.mul_lt_mono_pos_r; [exact HG|]. change (2 ^ 32) with 4294967296 in Hf. change (2 ^ 31) with 2147483648. lia. Qed.

  Lemma pause_cut l D e : pause_ok freq G j D -> cut_timed freq G j (l, D) e ->
    exists n, e = (l, n) /\ n < 2 ^ 31 /\ n * G < shown freq G D + j * G /\ shown freq G D < n * G + j * G.
  Proof.
    intros [Hp Hh] Hc.
    assert (exists n, e = (l, n) /\ n * G < shown freq G D + j * G /\ shown freq G D < n * G + j * G) as (n & -> & A1 & A2).
    { destruct Hp as [Hp|Hp].
      - assert (Es : shown freq G D = D * freq) by (unfold shown; apply N.mod_small, Hp). rewrite Es in *.
        destruct (whole freq G j 0 HG ltac:(lia) small_error l D e) as (n & -> & A1 & A2); [|exact Hc|eauto].
        apply (N.le_trans _ _ _ Hh), N.mul_le_mono_r. vm_compute. discriminate.
      - destruct e as [l' m]. assert (El : l' = l) by apply Hc. subst l'.
        destruct (gap_cut freq G j 0 HG ltac:(lia) small_error D (true, m)) as (n & E & A); [|exact Hp| |].
        + destruct Hc as (_ & n & (_ & A) & Em). split; [reflexivity|]. exists n. split; [split; [reflexivity|exact A]|exact Em].
        + apply (N.le_trans _ _ _ Hh), N.mul_le_mono_r. vm_compute. discriminate.
        + injection E as ->. exists n. auto. }
    exists n. split; [reflexivity|]. split; [|auto].
    assert (K : n < 2 ^ 31). { apply (N.mul_lt_mono_pos_r G); [exact HG|]. lia. }
    exact K.
  Qed.

  Lemma brief_pause e : brief G e -> pause_ok freq G j (snd e) /\ shown freq G (snd e) = snd e * freq.
  Proof.
    unfold brief. intros H. set (D := snd e) in *. clearbody D.
    assert (A : 1000000 * (D * freq) <= 14000 * freq * G).
    { apply N.mul_le_mono_r with (p := freq) in H. replace (1000000 * (D * freq)) with (1000000 * D * freq) by ring.
      replace (14000 * freq * G) with (14000 * G * freq) by ring. exact H. }
    assert (B : D * freq + j * G <= 2 ^ 31 * G).
    { apply (N.mul_le_mono_pos_l _ _ 1000000); [reflexivity|]. rewrite N.mul_add_distr_l.
      transitivity (14000 * freq * G + 1000000 * j * G); [lia|]. rewrite <- N.mul_add_distr_r, N.mul_assoc.
      apply N.mul_le_mono_r. change (2 ^ 32) with 4294967296 in Hf. change (1000000 * 2 ^ 31) with 2147483648000000. lia. }
    assert (C : D * freq < 2 ^ 32 * G).
    { apply N.lt_le_trans with (2 ^ 31 * G + 1); [lia|]. change (2 ^ 32) with (2 * 2 ^ 31). change (2 ^ 31) with 2147483648. lia. }
    assert (Es : shown freq G D = D * freq) by (unfold shown; apply N.mod_small, C).
    split; [|exact Es]. split; [left; exact C|]. rewrite Es. exact B.
  Qed.

  Lemma brief_cut evs : Forall (brief G) evs -> forall ms, Forall2 (cut_timed freq G j) evs ms ->
    Forall2 (timed freq G j) evs ms /\ short ms.
  Proof.
    induction 1 as [|[l D] evs H F IH]; intros ms T; inversion T as [|? e ? ms' Te Tr]; subst; [split; constructor|].
    destruct (brief_pause _ H) as [Hp Es]. cbn [snd] in *. destruct (pause_cut l D e Hp Te) as (n & -> & Hn & A1 & A2).
    rewrite Es in *. destruct (IH _ Tr) as [I1 I2]. split; constructor; auto. split; [reflexivity|]. auto.
  Qed.

  (** A series of transmissions in real time, with the pauses as the counter shows them. *)
  Definition shown_traffic (l : list (transmission * N * list edge)) : Prop :=
    Forall (fun y => real_ended G 3 (fst (fst y)) (snd y) /\ 20000 * (G * freq) <= 1000000 * shown freq G (snd (fst y)) /\
                     pause_ok freq G j (snd (fst y))) l.

  Lemma traffic_cut l : shown_traffic l -> forall ms, Forall2 (cut_timed freq G j) (on_air l) ms ->
    exists l', ms = on_air l' /\ map (fun x => fst (fst x)) l' = map (fun x => fst (fst x)) l /\ traffic freq l' /\
      short ms.
  Proof.
    induction 1 as [|[[x gap] evs] l (Hx & Hg & Hp) Hl IH]; intros ms T.
    - inversion T; subst. exists []. repeat split; constructor.
    - cbn [fst snd] in *. unfold on_air in T. cbn [flat_map fst snd app] in T.
      inversion T as [|? e ? ms' Te Tr]; subst. apply Forall2_app_inv_l in Tr. destruct Tr as (evs' & rest & T1 & T2 & ->).
      destruct (IH rest T2) as (l' & -> & Em & Ht & Hs).
      destruct (pause_cut true gap e Hp Te) as (n & -> & Hn & A1 & A2).
      destruct (brief_cut evs (real_ended_brief _ _ _ Hx) evs' T1) as [B1 B2].
      exists ((x, n, evs') :: l'). split; [reflexivity|]. cbn [map fst]. rewrite Em. split; [reflexivity|].
      split; [|constructor; [exact Hn|]; apply Forall_app; split; assumption].
      constructor; [|exact Ht]. cbn [fst snd]. split; [eapply ended_timed; eauto|].
      refine (gap_timed freq (G * freq) j 13500 20000 8 (shown freq G gap) n _ _ Hg _); [apply N.mul_pos_pos; lia| |].
      + apply (gap_room _ _ _ _ _ 44000); [exact Hj|exact H1|lia|vm_compute; discriminate].
      + replace (n * (G * freq)) with (n * G * freq) by ring. replace (j * (G * freq)) with (j * G * freq) by ring.
        rewrite <- N.mul_add_distr_r. apply N.mul_lt_mono_pos_r; [lia|exact A2].
  Qed.

  Lemma pauses_short evs : Forall (fun e => pause_ok freq G j (snd e)) evs -> forall ms, Forall2 (cut_timed freq G j) evs ms ->
    short ms.
  Proof.
    unfold short. induction 1 as [|[l D] evs H F IH]; intros ms T; inversion T as [|? e ? ms' Te Tr]; subst; constructor; auto.
    destruct (pause_cut l D e H Te) as (n & -> & Hn & _). exact Hn.
  Qed.
End Cut.

(** ** RC5 and RC6 receivers do not panic in a series of transmissions *)
Lemma run_keeps {D : decoder} {C} (into : dcmd D -> C) (Q : dst D -> Prop) :
  (forall d e dt d' s, Q d -> d_event D d e dt = Val (d', s) -> Q d') -> (forall d, Q d -> Q (d_reset D d)) ->
  forall h r r' os, Q (rv_dec r) -> run_edges into r h = Val (r', os) -> Q (rv_dec r').
Proof.
  intros Hs Hr. induction h as [|[e dt] h IH]; intros r r' os HQ E; cbn [run_edges] in E.
  - injection E as <- _. exact HQ.
  - destruct (event_edge into r dt e) as [[r1 o]| |] eqn:E1; cbn [bind] in E; try discriminate.
    destruct (run_edges into r1 h) as [[r2 os2]| |] eqn:E2; cbn [bind] in E; try discriminate. injection E as <- _.
    apply (IH r1 r2 os2); [|exact E2]. unfold event_edge in E1.
    destruct (d_event D (rv_dec r) e dt) as [[d' s]| |] eqn:Ed; cbn [bind] in E1; try discriminate.
    pose proof (Hs _ _ _ _ _ HQ Ed) as Q'.
    destruct s; injection E1 as <- _; cbn [rv_dec]; auto.
Qed.

Lemma run_clock_series {D : decoder} {C} (into : dcmd D -> C) (Q : dst D -> Prop) (clock : dst D -> N) chk M (far : N -> Prop) :
  (forall d e dt, Q d -> chk = false \/ clock d + 8 < M ->
     exists d' s, d_event D d e dt = Val (d', s) /\ Q d' /\ clock d' <= clock d + 8) ->
  (forall d, Q d -> Q (d_reset D d) /\ clock (d_reset D d) = 0) ->
  (forall d e dt, Q d -> far dt -> exists d' s, d_event D d e dt = Val (d', s) /\ Q d' /\ clock d' = 0) ->
  (forall d e dt d' s, Q d -> d_event D d e dt = Val (d', s) -> Q d') ->
  forall (l : list (N * list edge)) r, Q (rv_dec r) ->
  Forall (fun x => far (fst x) /\ (chk = false \/ 8 * N.of_nat (length (snd x)) < M)) l ->
  exists r' os, run_edges into r (flat_map (fun x => (true, fst x) :: snd x) l) = Val (r', os).
Proof.
  intros Hs Hr Hfar Hk. induction l as [|[gap evs] l IH]; intros r HQ F; cbn [flat_map fst snd].
  - do 2 eexists. reflexivity.
  - inversion F as [|? ? [Hg Hl] F']; subst. cbn [fst snd] in *.
    destruct (Hfar (rv_dec r) true gap HQ Hg) as (d' & s & E & Q' & C0).
    assert (E1 : exists r1 o, event_edge into r gap true = Val (r1, o) /\ Q (rv_dec r1) /\ clock (rv_dec r1) = 0).
    { unfold event_edge. rewrite E. cbn [bind]. destruct (Hr d' Q') as [Qr Cr].
      destruct s; do 2 eexists; (split; [reflexivity|]); cbn [rv_dec]; auto. }
    destruct E1 as (r1 & o & E1 & Q1 & C1).
    destruct (run_clock into Q clock chk M Hs Hr evs r1 Q1) as (r2 & os2 & E2); [rewrite C1; exact Hl|].
    assert (Q2 : Q (rv_dec r2)) by (eapply run_keeps; [exact Hk|intros d Hd; apply Hr, Hd|exact Q1|exact E2]).
    destruct (IH r2 Q2 F') as (r3 & os3 & E3).
    cbn [app run_edges]. rewrite E1. cbn [bind]. rewrite (run_edges_app_val into _ _ _ _ _ _ _ E2 E3). cbn [bind]. do 2 eexists. reflexivity.
Qed.

Lemma rc5_far m freq d : timebase m freq -> freq < 2 ^ 32 -> longer freq 13500 8 d -> spans_get (spans_of m freq rc5_pulses) d = None.
Proof.
  intros Hm Hf Hl. apply (spans_get_long rc5_pulses m freq 13500 8 d); auto using rc5_ok.
  unfold rc5_pulses. repeat (apply Forall_cons; [cbn [fst snd]|]); [..|constructor];
    match goal with |- context [nominal freq ?p] => pose proof (nominal_sum freq p p); pose proof (nominal_le freq (p + p) 13500 ltac:(vm_compute; discriminate)) end;
    match goal with H : nominal freq ?p + _ <= nominal freq ?q |- _ => set (nominal freq p) in *; set (nominal freq q) in *; set (nominal freq 13500) in * end; lia.
Qed.
Lemma rc6_far m freq d : timebase m freq -> freq < 2 ^ 32 -> longer freq 13500 8 d -> spans_get (spans_of m freq rc6_pulses) d = None.
Proof.
  intros Hm Hf Hl. apply (spans_get_long rc6_pulses m freq 13500 8 d); auto using rc6_ok.
  unfold rc6_pulses. repeat (apply Forall_cons; [cbn [fst snd]|]); [..|constructor];
    match goal with |- context [nominal freq ?p] => pose proof (nominal_sum freq p p); pose proof (nominal_le freq (p + p) 13500 ltac:(vm_compute; discriminate)) end;
    match goal with H : nominal freq ?p + _ <= nominal freq ?q |- _ => set (nominal freq p) in *; set (nominal freq q) in *; set (nominal freq 13500) in * end; lia.
Qed.

Lemma forall2_len {A B} (R : A -> B -> Prop) l l' : Forall2 R l l' -> length l = length l'.
Proof. induction 1; cbn; congruence. Qed.
Lemma pairs_length ps : length (pair_edges ps) = (2 * length ps)%nat.
Proof. induction ps as [|[m s] ps IH]; cbn [pair_edges length]; [reflexivity|]. rewrite IH. lia. Qed.
Lemma level_edges_length ls : forall cur n, (length (level_edges cur n ls) <= length ls)%nat.
Proof.
  induction ls as [|l ls IH]; intros cur n; cbn [level_edges length]; [lia|].
  destruct (Bool.eqb l cur); [specialize (IH cur (n + 1)); lia|]. cbn [length]. specialize (IH l 1). lia.
Qed.
Lemma rc5_half_length data : length (flat_map rc5_half data) = (2 * length data)%nat.
Proof. induction data as [|x data IH]; [reflexivity|]. cbn [flat_map]. rewrite app_length, IH. destruct x; cbn [rc5_half length]; lia. Qed.

Lemma bits_lsb_len n w : length (bits_lsb n w) = n.
Proof. unfold bits_lsb. rewrite map_length, seq_length. reflexivity. Qed.

(** No transmission has more than 98 edges after its first. *)
Lemma sent_length freq t evs : sent freq t evs -> (length evs <= 98)%nat.
Proof.
  assert (Nc : forall h w ps, nec_frame freq h w ps -> (length (pair_edges ps) <= 98)%nat).
  { intros h w ps (d & ds & -> & _ & F). apply forall2_len in F. rewrite bits_lsb_len in F.
    rewrite pairs_length. cbn [length]. lia. }
  destruct t; cbn [sent].
  - intros (_ & _ & ps & -> & H & _). eapply Nc, H.
  - intros (_ & _ & ps & -> & H & _). eapply Nc, H.
  - intros (_ & ps & -> & H & _). eapply Nc, H.
  - intros (_ & _ & ps & -> & H & _). eapply Nc, H.
  - intros (_ & _ & ps & -> & (d & ads & pause & cds & -> & _ & Fa & _ & Fc) & _). apply forall2_len in Fa, Fc. rewrite bits_lsb_len in Fa, Fc.
    rewrite pairs_length. cbn [length]. rewrite app_length. cbn [length]. lia.
  - intros (_ & ps & -> & (d & ds & -> & _ & F) & _). apply forall2_len in F. rewrite bits_lsb_len in F.
    rewrite pairs_length. cbn [length]. lia.
  - intros (_ & _ & g & n & noms & acts & El & E & F). injection E as ->. apply forall2_len in F.
    pose proof (level_edges_length (rc5_wave word) false 0) as L. rewrite El in L. cbn [length] in L.
    unfold rc5_wave in L. rewrite rc5_half_length, bits_msb_length in L. unfold edge in *. lia.
  - intros (_ & _ & g & n & noms & lead & acts & El & E & _ & F). injection E as ->. apply forall2_len in F. cbn [length].
    pose proof (level_edges_length (rc6_wave toggle (bits_msb 16 (2 ^ 8 * address + command))) false 0) as L. rewrite El in L. cbn [length] in L.
    assert (L2 : length (rc6_wave toggle (bits_msb 16 (2 ^ 8 * address + command))) = 52%nat)
      by (unfold rc6_wave; rewrite !app_length, rc6_half_length, bits_msb_length; destruct toggle; reflexivity).
    unfold edge in *. lia.
Qed.

Lemma ended_length freq t evs : ended freq (end_mark t) (sent freq t) evs -> (length evs <= 99)%nat.
Proof.
  intros [H|(body & d & -> & H & _)]; [apply sent_length in H; lia|]. apply sent_length in H. rewrite app_length. cbn [length]. unfold edge in *. lia.
Qed.

Definition bare (l : list (transmission * N * list edge)) : list (N * list edge) := map (fun x => (snd (fst x), snd x)) l.
Lemma bare_air l : on_air l = flat_map (fun x => (true, fst x) :: snd x) (bare l).
Proof. unfold on_air, bare. induction l as [|[[t g] e] l IH]; [reflexivity|]. cbn [flat_map map fst snd]. rewrite IH. reflexivity. Qed.

Lemma traffic_bare freq l chk w : 16 <= w -> traffic freq l ->
  Forall (fun x => longer freq 13500 8 (fst x) /\ (chk = false \/ 8 * N.of_nat (length (snd x)) < 2 ^ w)) (bare l).
Proof.
  intros Hw. induction 1 as [|[[t g] e] l [He Hg] F IH]; [constructor|]. cbn [bare map fst snd] in *. constructor; [|exact IH]. cbn [fst snd].
  split; [exact Hg|]. right. apply ended_length in He. apply N.lt_le_trans with (2 ^ 16); [change (2 ^ 16) with 65536; unfold edge in *; lia|].
  apply N.pow_le_mono_r; [discriminate|exact Hw].
Qed.

(** An interval without meaning stops the clock. *)
Lemma rc5_far_event b d e dt : spans_get (r5_spans d) dt = None ->
  exists d' s, rc5_event b d e dt = Val (d', s) /\ rc5_in_range d' /\ r5_clock d' = 0.
Proof.
  intros H. unfold rc5_event. rewrite H. cbn [bind].
  edestruct (rc5_transition_total b (r5_state (rc5_reset d))) as (s' & buf' & ck' & Et & K & Kc); [exact I|].
  rewrite Et. cbn [bind]. do 2 eexists. split; [reflexivity|]. split; [exact K|]. cbn [r5_clock]. destruct Kc as [-> | ->]; reflexivity.
Qed.
Lemma rc6_far_event b d e dt : spans_get (r6_spans d) dt = None ->
  exists d' s, rc6_event b d e dt = Val (d', s) /\ rc6_in_range d' /\ r6_clock d' = 0.
Proof.
  intros H. unfold rc6_event. rewrite H. cbn [bind].
  edestruct (rc6_transition_total b (rc6_reset d)) as (d2 & -> & R2 & K2); [exact I|].
  cbn [bind]. do 2 eexists. split; [reflexivity|]. split; [exact R2|]. cbn [r6_clock rc6_reset] in K2. destruct K2 as [-> | ->]; reflexivity.
Qed.

Section NoPanic.
  Context (b : build) (m : mono) (freq : N).
  Hypothesis Hm : timebase m freq.
  Hypothesis Hf : freq < 2 ^ 32.
  Hypothesis Hu : 16 <= usize_bits b.

  Lemma rc5_bare_total C (into : rc5_command -> C) h l r0 : overflow_checks b = false \/ 8 * N.of_nat (length h) < 2 ^ usize_bits b ->
    Forall (fun x => longer freq 13500 8 (fst x) /\ (overflow_checks b = false \/ 8 * N.of_nat (length (snd x)) < 2 ^ usize_bits b)) l -> receiver_new (rc5_protocol b m) freq = Val r0 ->
    exists r os, run_edges (D := rc5_dec b) into r0 (h ++ flat_map (fun x => (true, fst x) :: snd x) l) = Val (r, os).
  Proof.
    intros Hh Ht E0. rewrite rc5_new_val in E0 by auto. injection E0 as <-.
    set (Q := fun d => rc5_in_range d /\ r5_spans d = spans_of m freq rc5_pulses).
    assert (Q0 : forall d, Q d -> length (r5_spans d) = 8%nat).
    { intros d (_ & ->). unfold spans_of. rewrite map_length. reflexivity. }
    assert (Hs : forall d e dt, Q d -> overflow_checks b = false \/ r5_clock d + 8 < 2 ^ usize_bits b ->
      exists d' s, d_event (rc5_dec b) d e dt = Val (d', s) /\ Q d' /\ r5_clock d' <= r5_clock d + 8).
    { intros d e dt HQ Hd. destruct (rc5_event_total b d e dt (proj1 HQ) (Q0 d HQ) Hd) as (d' & s & E & A1 & A2 & A3).
      exists d', s. split; [exact E|]. split; [|exact A3]. split; [exact A1|]. apply rc5_event_spans in E. rewrite E. apply HQ. }
    assert (Hr : forall d, Q d -> Q (d_reset (rc5_dec b) d) /\ r5_clock (d_reset (rc5_dec b) d) = 0).
    { intros d (R1 & R2). cbn [d_reset rc5_dec]. unfold rc5_reset, Q. cbn. auto. }
    assert (Hk : forall d e dt d' s, Q d -> d_event (rc5_dec b) d e dt = Val (d', s) -> Q d').
    { intros d e dt d' s HQ E. cbn [d_event rc5_dec] in E. split; [|pose proof (rc5_event_spans _ _ _ _ _ _ E) as ->; apply HQ].
      apply (rc5_event_range b d e dt d' s); [apply HQ|exact E]. }
    assert (Hx : forall d e dt, Q d -> longer freq 13500 8 dt -> exists d' s, d_event (rc5_dec b) d e dt = Val (d', s) /\ Q d' /\ r5_clock d' = 0).
    { intros d e dt HQ Hd. destruct (rc5_far_event b d e dt) as (d' & s & E & A1 & A2).
      - destruct HQ as [_ ->]. apply rc5_far; auto.
      - exists d', s. split; [exact E|]. split; [|exact A2]. eapply Hk; [exact HQ|exact E]. }
    assert (Qi : Q (mkRc5Dec R5Idle 0 0 (spans_of m freq rc5_pulses))) by (split; [exact I|reflexivity]).
    destruct (run_clock (D := rc5_dec b) into Q r5_clock _ _ Hs Hr h (mkRecv (D := rc5_dec b) (mkRc5Dec R5Idle 0 0 (spans_of m freq rc5_pulses)) 0) Qi)
      as (r1 & os1 & E1); [exact Hh|].
    assert (Q1 : Q (rv_dec r1)) by (eapply (run_keeps (D := rc5_dec b) into Q Hk); [intros d Hd; apply Hr, Hd| |exact E1]; exact Qi).
    destruct (run_clock_series (D := rc5_dec b) into Q r5_clock _ (2 ^ usize_bits b) (longer freq 13500 8) Hs Hr Hx Hk l r1 Q1) as (r2 & os2 & E2);
      [exact Ht|].
    do 2 eexists. eapply run_edges_app_val; [exact E1|exact E2].
  Qed.

  Lemma rc5_traffic_total C (into : rc5_command -> C) h l r0 : overflow_checks b = false \/ 8 * N.of_nat (length h) < 2 ^ usize_bits b ->
    traffic freq l -> receiver_new (rc5_protocol b m) freq = Val r0 ->
    exists r os, run_edges (D := rc5_dec b) into r0 (h ++ on_air l) = Val (r, os).
  Proof.
    intros Hh Ht E0. rewrite bare_air. apply rc5_bare_total; auto. apply traffic_bare; auto.
  Qed.

  Lemma rc6_bare_total C (into : rc6_command -> C) h l r0 : overflow_checks b = false \/ 8 * N.of_nat (length h) < 2 ^ usize_bits b ->
    Forall (fun x => longer freq 13500 8 (fst x) /\ (overflow_checks b = false \/ 8 * N.of_nat (length (snd x)) < 2 ^ usize_bits b)) l -> receiver_new (rc6_protocol b m) freq = Val r0 ->
    exists r os, run_edges (D := rc6_dec b) into r0 (h ++ flat_map (fun x => (true, fst x) :: snd x) l) = Val (r, os).
  Proof.
    intros Hh Ht E0. rewrite rc6_new_val in E0 by auto. injection E0 as <-.
    set (Q := fun d => rc6_in_range d /\ r6_spans d = spans_of m freq rc6_pulses).
    assert (Q0 : forall d, Q d -> length (r6_spans d) = 8%nat).
    { intros d (_ & ->). unfold spans_of. rewrite map_length. reflexivity. }
    assert (Hs : forall d e dt, Q d -> overflow_checks b = false \/ r6_clock d + 8 < 2 ^ usize_bits b ->
      exists d' s, d_event (rc6_dec b) d e dt = Val (d', s) /\ Q d' /\ r6_clock d' <= r6_clock d + 8).
    { intros d e dt HQ Hd. destruct (rc6_event_total b d e dt (proj1 HQ) (Q0 d HQ) Hd) as (d' & s & E & A1 & A2 & A3).
      exists d', s. split; [exact E|]. split; [|exact A3]. split; [exact A1|]. apply rc6_event_spans in E. rewrite E. apply HQ. }
    assert (Hr : forall d, Q d -> Q (d_reset (rc6_dec b) d) /\ r6_clock (d_reset (rc6_dec b) d) = 0).
    { intros d (R1 & R2). cbn [d_reset rc6_dec]. unfold rc6_reset, Q. cbn. auto. }
    assert (Hk : forall d e dt d' s, Q d -> d_event (rc6_dec b) d e dt = Val (d', s) -> Q d').
    { intros d e dt d' s HQ E. cbn [d_event rc6_dec] in E. split; [|pose proof (rc6_event_spans _ _ _ _ _ _ E) as ->; apply HQ].
      apply (rc6_event_range b d e dt d' s); [apply HQ|exact E]. }
    assert (Hx : forall d e dt, Q d -> longer freq 13500 8 dt -> exists d' s, d_event (rc6_dec b) d e dt = Val (d', s) /\ Q d' /\ r6_clock d' = 0).
    { intros d e dt HQ Hd. destruct (rc6_far_event b d e dt) as (d' & s & E & A1 & A2).
      - destruct HQ as [_ ->]. apply rc6_far; auto.
      - exists d', s. split; [exact E|]. split; [|exact A2]. eapply Hk; [exact HQ|exact E]. }
    assert (Qi : Q (mkRc6Dec R6Idle 0 0 false 0 (spans_of m freq rc6_pulses))) by (split; [exact I|reflexivity]).
    destruct (run_clock (D := rc6_dec b) into Q r6_clock _ _ Hs Hr h (mkRecv (D := rc6_dec b) (mkRc6Dec R6Idle 0 0 false 0 (spans_of m freq rc6_pulses)) 0) Qi)
      as (r1 & os1 & E1); [exact Hh|].
    assert (Q1 : Q (rv_dec r1)) by (eapply (run_keeps (D := rc6_dec b) into Q Hk); [intros d Hd; apply Hr, Hd| |exact E1]; exact Qi).
    destruct (run_clock_series (D := rc6_dec b) into Q r6_clock _ (2 ^ usize_bits b) (longer freq 13500 8) Hs Hr Hx Hk l r1 Q1) as (r2 & os2 & E2);
      [exact Ht|].
    do 2 eexists. eapply run_edges_app_val; [exact E1|exact E2].
  Qed.

  Lemma rc6_traffic_total C (into : rc6_command -> C) h l r0 : overflow_checks b = false \/ 8 * N.of_nat (length h) < 2 ^ usize_bits b ->
    traffic freq l -> receiver_new (rc6_protocol b m) freq = Val r0 ->
    exists r os, run_edges (D := rc6_dec b) into r0 (h ++ on_air l) = Val (r, os).
  Proof.
    intros Hh Ht E0. rewrite bare_air. apply rc6_bare_total; auto. apply traffic_bare; auto.
  Qed.
End NoPanic.
