(** * Property theorems: a polled receiver in real time *)
From Coq Require Import NArith ZArith List Bool Lia ZifyBool ZifyNat ZifyN.
From Verif Require Import Machine Time Decoder Nec Rc5 Rc6 Denon Sbp Receiver Spec Bits Codec_facts Time_facts Run_facts
  Spec_receiver Receiver_facts Props_receiver Spec_cross Cross_facts Spec_phys Phys_facts Poll_facts Props_decode Traffic_facts Props_traffic Props_phys Example_facts.
Import ListNotations.
Open Scope N_scope.

(** ** C69: a transmission is received by polling, whatever the phase of the sampling

    Time is counted in units of which [T] make one sampling period (so there are [freq * T]
    in a second).  A poller has seen any samples [L]; then there is silence for [gap] units,
    then the transmission.  Samples are taken at [first], [first + T], [first + 2 T], ..., the
    last of them at or after the end of the transmission.  The [k] samples during the silence
    are followed by outcomes with exactly one command, the one transmitted. *)
Definition polled_at (P : protocol) (freq T first : N) {C} (into : dcmd (p_dec P) -> C) (p0 : periodic_poll (p_dec P))
    (L : list bool) (gap : N) (evs : list edge) (n : nat) (c : C) : Prop :=
  exists os1 os2 k,
    outs (run_polls into p0 (L ++ map (level_at false 0 ((true, gap) :: evs)) (times first T (S n)))) = Val (os1 ++ os2) /\
    length os1 = (length L + k)%nat /\ (forall i, (i < k)%nat <-> first + N.of_nat i * T < gap) /\ commands os2 = [c].

(** The sampling covers the transmission, and no mark or space falls between two samples. *)
Definition covered (T first gap : N) (evs : list edge) (n : nat) (L : list bool) : Prop :=
  Forall (fun e : edge => T <= snd e) ((true, gap) :: evs) /\
  after 0 ((true, gap) :: evs) <= first + N.of_nat n * T /\
  N.of_nat (length L + n) + 2 < 2 ^ 31.

Lemma longer_le freq p t d g : longer freq p t d -> d <= g -> longer freq p t g.
Proof. unfold longer. lia. Qed.

Lemma poll_recv P freq p0 : poll_new P freq = Val p0 -> exists r0, receiver_new P freq = Val r0.
Proof. unfold poll_new, receiver_new. destruct (p_build P freq); cbn [bind]; try discriminate. eauto. Qed.

Lemma heard_frame {C E} (o : result (option C) E) n c : (forall x, o <> ROk (Some x)) ->
  commands (o :: repeat (ROk None) n ++ [ROk (Some c)]) = [c].
Proof.
  intros H. unfold commands. cbn [flat_map]. rewrite flat_map_app.
  assert (Z : flat_map (fun o : result (option C) E => match o with ROk (Some c) => [c] | _ => [] end) (repeat (ROk None) n) = []).
  { clear. induction n as [|n IH]; cbn [repeat flat_map]; auto. }
  rewrite Z. destruct o as [[x|]|]; cbn; auto. destruct (H x eq_refl).
Qed.

Section Nec.
  Variables (freq T first : N).
  Hypothesis Hlo : 14000 <= freq.
  Hypothesis HT : 0 < T.
  Hypothesis Hfirst : first < T.

  Lemma sampler_counts : counts freq (freq * T) 1 (before T first).
  Proof. apply before_counts; auto. lia. Qed.

  Lemma nec_sampled header w gap ps : header = 13500 \/ header = 9000 ->
    real_nec (freq * T) 4 header w ps -> real_long (freq * T) (2 * header) gap ->
    exists ps', measured (before T first) gap (pair_edges ps) = pair_edges ps' /\
      nec_frame freq header w ps' /\ (forall g, before T first gap <= g -> longer freq header 7 g).
  Proof.
    intros Hh Hfr Hl.
    assert (Hr : rate_ok 7000 [] freq 1) by (split; [lia|left; lia]).
    destruct (nec_measured freq (freq * T) 1 (before T first) ltac:(lia) sampler_counts Hr 0 header w gap ps Hh Hfr Hl) as (g' & ps' & E & F & G).
    cbn [measured] in E. rewrite N.add_0_l in E. injection E as Eg Ep. exists ps'. split; [exact Ep|]. split; [exact F|].
    intros g Hg. apply (longer_le _ _ _ g'); [exact G|]. lia.
  Qed.
End Nec.

Theorem C69_nec :
  forall b m freq T first a c L gap ps n C (into : nec_command -> C) p0,
  timebase m freq -> 14000 <= freq -> freq < 2 ^ 32 -> 0 < T -> first < T -> a < 2 ^ 8 -> c < 2 ^ 8 ->
  real_nec (freq * T) 4 13500 (bytes4 a (compl8 a) c (compl8 c)) ps -> real_long (freq * T) 27000 gap ->
  covered T first gap (pair_edges ps) n L ->
  poll_new (nec_protocol b m NecStandard) freq = Val p0 ->
  polled_at (nec_protocol b m NecStandard) freq T first into p0 L gap (pair_edges ps) n (into (mkNec a c false)).
Proof.
  intros b m freq T first a c L gap ps n C into p0 Hm Hlo Hf HT Hfi Ha Hc Hfr Hg (Cv1 & Cv2 & Cv3) Ep.
  destruct (poll_recv _ _ _ Ep) as (r0 & Er).
  destruct (nec_sampled freq T first Hlo HT Hfi 13500 _ gap ps (or_introl eq_refl) Hfr Hg) as (ps' & E & F & G).
  apply (polled_frame T first HT Hfi (nec_protocol b m NecStandard) freq C into _ L gap (pair_edges ps) n p0 r0 Ep Er (alt_pairs ps) Cv1 Cv2 Cv3).
  intros h g _ Hgg _ Hs. rewrite E in *.
  destruct (C18_nec_frame b m freq a c h g ps' C into) as (r0' & r & os & o & E0 & E1 & Lo & Ho); auto; [lia|].
  rewrite Er in E0. injection E0 as <-. exists r, os. eexists. split; [exact E1|]. split; [exact Lo|].
  apply heard_frame. intros x. destruct Ho as [-> | ->]; discriminate.
Qed.
Print Assumptions C69_nec.

Theorem C69_nec16 :
  forall b m freq T first a c L gap ps n C (into : nec16_command -> C) p0,
  timebase m freq -> 14000 <= freq -> freq < 2 ^ 32 -> 0 < T -> first < T -> a < 2 ^ 16 -> c < 2 ^ 8 ->
  real_nec (freq * T) 4 13500 (bytes4 (a mod 2 ^ 8) (a / 2 ^ 8) c (compl8 c)) ps -> real_long (freq * T) 27000 gap ->
  covered T first gap (pair_edges ps) n L ->
  poll_new (nec_protocol b m Nec16Bit) freq = Val p0 ->
  polled_at (nec_protocol b m Nec16Bit) freq T first into p0 L gap (pair_edges ps) n (into (mkNec16 a c false)).
Proof.
  intros b m freq T first a c L gap ps n C into p0 Hm Hlo Hf HT Hfi Ha Hc Hfr Hg (Cv1 & Cv2 & Cv3) Ep.
  destruct (poll_recv _ _ _ Ep) as (r0 & Er).
  destruct (nec_sampled freq T first Hlo HT Hfi 13500 _ gap ps (or_introl eq_refl) Hfr Hg) as (ps' & E & F & G).
  apply (polled_frame T first HT Hfi (nec_protocol b m Nec16Bit) freq C into _ L gap (pair_edges ps) n p0 r0 Ep Er (alt_pairs ps) Cv1 Cv2 Cv3).
  intros h g _ Hgg _ Hs. rewrite E in *.
  destruct (C19_nec16_frame b m freq a c h g ps' C into) as (r0' & r & os & o & E0 & E1 & Lo & Ho); auto; [lia|].
  rewrite Er in E0. injection E0 as <-. exists r, os. eexists. split; [exact E1|]. split; [exact Lo|].
  apply heard_frame. intros x. destruct Ho as [-> | ->]; discriminate.
Qed.
Print Assumptions C69_nec16.

Theorem C69_samsung :
  forall b m freq T first a c L gap ps n C (into : samsung_command -> C) p0,
  timebase m freq -> 14000 <= freq -> freq < 2 ^ 32 -> 0 < T -> first < T -> a < 2 ^ 8 -> c < 2 ^ 8 ->
  real_nec (freq * T) 4 9000 (bytes4 a a c (compl8 c)) ps -> real_long (freq * T) 18000 gap ->
  covered T first gap (pair_edges ps) n L ->
  poll_new (nec_protocol b m NecSamsung) freq = Val p0 ->
  polled_at (nec_protocol b m NecSamsung) freq T first into p0 L gap (pair_edges ps) n (into (mkSamsung a c false)).
Proof.
  intros b m freq T first a c L gap ps n C into p0 Hm Hlo Hf HT Hfi Ha Hc Hfr Hg (Cv1 & Cv2 & Cv3) Ep.
  destruct (poll_recv _ _ _ Ep) as (r0 & Er).
  destruct (nec_sampled freq T first Hlo HT Hfi 9000 _ gap ps (or_intror eq_refl) Hfr Hg) as (ps' & E & F & G).
  apply (polled_frame T first HT Hfi (nec_protocol b m NecSamsung) freq C into _ L gap (pair_edges ps) n p0 r0 Ep Er (alt_pairs ps) Cv1 Cv2 Cv3).
  intros h g _ Hgg _ Hs. rewrite E in *.
  destruct (C19_samsung_frame b m freq a c h g ps' C into) as (r0' & r & os & o & E0 & E1 & Lo & Ho); auto; [lia|].
  rewrite Er in E0. injection E0 as <-. exists r, os. eexists. split; [exact E1|]. split; [exact Lo|].
  apply heard_frame. intros x. destruct Ho as [-> | ->]; discriminate.
Qed.
Print Assumptions C69_samsung.

Theorem C69_sbp :
  forall b m freq T first a c L gap ps n C (into : sbp_command -> C) p0,
  timebase m freq -> freq = 20000 \/ freq = 40000 \/ 41000 <= freq -> freq < 2 ^ 32 -> 0 < T -> first < T -> a < 2 ^ 16 -> c < 2 ^ 20 ->
  real_sbp (freq * T) 3 a c ps -> real_long (freq * T) 18000 gap ->
  covered T first gap (pair_edges ps) n L ->
  poll_new (sbp_protocol b m) freq = Val p0 ->
  polled_at (sbp_protocol b m) freq T first into p0 L gap (pair_edges ps) n
    (into (mkSbp a (field c 4 8) (field c 12 8 =? compl8 (field c 4 8)))).
Proof.
  intros b m freq T first a c L gap ps n C into p0 Hm Hlo Hf HT Hfi Ha Hc Hfr Hg (Cv1 & Cv2 & Cv3) Ep.
  destruct (poll_recv _ _ _ Ep) as (r0 & Er).
  destruct (ex_intro (fun j => j = 1) 1 eq_refl) as (j & Ej).
  assert (Hr : rate_ok 20500 [20000; 40000] freq j).
  { subst j. split; [lia|]. destruct Hlo as [-> |[-> | Hlo]]; [right; split; [reflexivity|cbn; auto]|right; split; [reflexivity|cbn; auto]|left; lia]. }
  assert (HG : 0 < freq * T) by lia. assert (Hcl : counts freq (freq * T) j (before T first)) by (subst j; apply before_counts; lia).
  clear Ej.
  destruct (measured_pairs freq _ j _ HG Hcl ps gap) as (ps' & E & R).
  apply (polled_frame T first HT Hfi (sbp_protocol b m) freq C into _ L gap (pair_edges ps) n p0 r0 Ep Er (alt_pairs ps) Cv1 Cv2 Cv3).
  intros h g _ Hgg _ Hs. rewrite E in *.
  destruct (C20_sbp_frame b m freq a c h g ps' C into) as (r0' & r & os & o & E0 & E1 & Lo & Ho); auto; [lia| | |].
  { eapply (sbp_read freq _ j _ HG Hcl 3); [| | | |exact Hfr|exact R]; room 20500. }
  { eapply longer_le; [|exact Hgg].
    pose proof (gap_read freq (freq * T) j (before T first) HG Hcl 9000 18000 5 gap 0) as K. rewrite N.add_0_l in K.
    eapply longer_le; [apply K; [room 20500|exact Hg]|]. lia. }
  rewrite Er in E0. injection E0 as <-. exists r, os. eexists. split; [exact E1|]. split; [exact Lo|].
  apply heard_frame. intros x. destruct Ho as [-> |[-> | ->]]; discriminate.
Qed.
Print Assumptions C69_sbp.

Lemma alt_real G x u noms evs : Forall2 (real_unit G x u) noms evs -> forall f, alt f noms -> alt f evs.
Proof.
  induction 1 as [|[e n] [e' d] noms acts [H _] F IH]; intros f; cbn [alt]; auto.
  cbn [fst] in H. intros [-> A]. split; auto.
Qed.

(** A poller that did not panic was the run of a receiver that did not. *)
Lemma poll_prefix P freq C (into : dcmd (p_dec P) -> C) levels p0 r0 p os h rest :
  poll_new P freq = Val p0 -> receiver_new P freq = Val r0 ->
  N.of_nat (length levels) + 1 < 2 ^ 32 ->
  run_polls into p0 levels = Val (p, os) -> level_edges false 1 levels = h ++ rest ->
  exists r1 os1, run_edges into r0 h = Val (r1, os1).
Proof.
  intros Ep Er Hn E El. pose proof (C47_poll P freq C into levels p0 r0 Ep Er) as K.
  rewrite El in K. unfold outs in K. rewrite E in K. cbn [bind] in K.
  assert (F : Forall (fun e => snd e < 2 ^ 32) (h ++ rest)).
  { rewrite <- El. eapply Forall_impl; [|apply level_edges_bound]. intros e He. cbn beta in *. lia. }
  specialize (K F). destruct (run_edges into r0 (h ++ rest)) as [[r os']| |] eqn:E2; cbn [bind] in K; try discriminate.
  eapply run_prefix; exact E2.
Qed.

Lemma samples_length L gap evs first T n :
  length (L ++ map (level_at false 0 ((true, gap) :: evs)) (times first T (S n))) = (length L + S n)%nat.
Proof. unfold times. rewrite app_length, !map_length, seq_length. reflexivity. Qed.

(** A biphase receiver may panic in a debug build (C40); where it does not: *)
Theorem C69_rc5 :
  forall b m freq T first w L gap evs n C (into : rc5_command -> C) p0 p os,
  timebase m freq -> freq = 20000 \/ 30000 <= freq -> freq < 2 ^ 32 -> 8 <= usize_bits b -> 0 < T -> first < T ->
  w < 2 ^ 14 -> N.testbit w 13 = true ->
  real_rc5 (freq * T) 3 w evs -> real_long (freq * T) 3000 gap ->
  covered T first gap evs n L ->
  poll_new (rc5_protocol b m) freq = Val p0 ->
  run_polls (D := rc5_dec b) into p0 (L ++ map (level_at false 0 ((true, gap) :: evs)) (times first T (S n))) = Val (p, os) ->
  polled_at (rc5_protocol b m) freq T first into p0 L gap evs n
    (into (mkRc5 (field w 6 5) (field w 0 6) (field w 12 2) (negb (field w 11 1 =? 0)))).
Proof.
  intros b m freq T first w L gap evs n C into p0 p os Hm Hlo Hf Hu HT Hfi Hw H13 Hfr Hg (Cv1 & Cv2 & Cv3) Ep Erun.
  destruct (poll_recv _ _ _ Ep) as (r0 & Er).
  destruct (ex_intro (fun j => j = 1) 1 eq_refl) as (j & Ej).
  assert (Hr : rate_ok 15000 [20000] freq j).
  { subst j. split; [lia|]. destruct Hlo as [-> | Hlo]; [right; split; [reflexivity|cbn; auto]|left; lia]. }
  assert (HG : 0 < freq * T) by lia. assert (Hcl : counts freq (freq * T) j (before T first)) by (subst j; apply before_counts; lia).
  clear Ej.
  destruct Hfr as (n0 & noms & El & F). destruct (rc5_noms w n0 noms El) as [B A].
  apply (polled_frame T first HT Hfi (rc5_protocol b m) freq C into _ L gap evs n p0 r0 Ep Er (alt_real _ _ _ _ _ F _ A) Cv1 Cv2 Cv3).
  intros h g _ Hgg Eh Hs.
  assert (Hlen : N.of_nat (length (L ++ map (level_at false 0 ((true, gap) :: evs)) (times first T (S n)))) + 1 < 2 ^ 32) by (rewrite samples_length; lia).
  destruct (poll_prefix (rc5_protocol b m) freq C into _ p0 r0 p os h _ Ep Er Hlen Erun Eh) as (r1 & os1 & E1).
  destruct (C21_rc5_frame b m freq w h g ((true, g) :: measured (before T first) gap evs) C into r0 r1 os1) as (r & E); auto.
  { lia. }
  { exists n0, noms, (measured (before T first) gap evs). split; [exact El|]. split; [reflexivity|].
    eapply (units_read freq _ j _ HG Hcl 3); [|exact F]. intros nom Hn.
    rewrite Forall_forall in B. destruct (B nom Hn) as [B1 B2].
    assert (K : snd nom = 1 \/ snd nom = 2) by lia. unfold rc5_tol. destruct K as [-> | ->]; cbn [N.eqb Pos.eqb N.mul Pos.mul]; room 15000. }
  { eapply longer_le; [|exact Hgg].
    pose proof (gap_read freq (freq * T) j (before T first) HG Hcl 1778 3000 10 gap 0) as K. rewrite N.add_0_l in K.
    eapply longer_le; [apply K; [room 15000|exact Hg]|]. lia. }
  exists r, os1. eexists. split; [exact E|]. split; [exact (run_edges_length (D := rc5_dec b) into _ _ _ _ E1)|].
  cbn [length]. rewrite Nat.sub_succ, Nat.sub_0_r.
  clear. induction (length (measured (before T first) gap evs)) as [|k IH]; [reflexivity|]. exact IH.
Qed.
Print Assumptions C69_rc5.

Theorem C69_rc6 :
  forall b m freq T first a c toggle L gap evs n C (into : rc6_command -> C) p0 p os,
  timebase m freq -> freq = 40000 \/ 60000 <= freq -> freq < 2 ^ 32 -> 8 <= usize_bits b -> 0 < T -> first < T ->
  a < 2 ^ 8 -> c < 2 ^ 8 ->
  real_rc6 (freq * T) 3 toggle (2 ^ 8 * a + c) evs -> real_long (freq * T) 4000 gap ->
  covered T first gap evs n L ->
  poll_new (rc6_protocol b m) freq = Val p0 ->
  run_polls (D := rc6_dec b) into p0 (L ++ map (level_at false 0 ((true, gap) :: evs)) (times first T (S n))) = Val (p, os) ->
  polled_at (rc6_protocol b m) freq T first into p0 L gap evs n (into (mkRc6 a c toggle)).
Proof.
  intros b m freq T first a c toggle L gap evs n C into p0 p os Hm Hlo Hf Hu HT Hfi Ha Hc Hfr Hg (Cv1 & Cv2 & Cv3) Ep Erun.
  destruct (poll_recv _ _ _ Ep) as (r0 & Er).
  destruct (ex_intro (fun j => j = 1) 1 eq_refl) as (j & Ej).
  assert (Hr : rate_ok 30000 [40000] freq j).
  { subst j. split; [lia|]. destruct Hlo as [-> | Hlo]; [right; split; [reflexivity|cbn; auto]|left; lia]. }
  assert (HG : 0 < freq * T) by lia. assert (Hcl : counts freq (freq * T) j (before T first)) by (subst j; apply before_counts; lia).
  clear Ej.
  destruct Hfr as (n0 & noms & El & F).
  assert (A : alt false noms) by (pose proof (alt_level (rc6_wave toggle (bits_msb 16 (2 ^ 8 * a + c))) false 0) as A; rewrite El in A; apply A).
  apply (polled_frame T first HT Hfi (rc6_protocol b m) freq C into _ L gap evs n p0 r0 Ep Er (alt_real _ _ _ _ _ F _ A) Cv1 Cv2 Cv3).
  intros h g _ Hgg Eh Hs.
  assert (Hlen : N.of_nat (length (L ++ map (level_at false 0 ((true, gap) :: evs)) (times first T (S n)))) + 1 < 2 ^ 32) by (rewrite samples_length; lia).
  destruct (poll_prefix (rc6_protocol b m) freq C into _ p0 r0 p os h _ Ep Er Hlen Erun Eh) as (r1 & os1 & E1).
  destruct (C22_rc6_frame_partial b m freq a c toggle h g ((true, g) :: measured (before T first) gap evs) C into r0 r1 os1) as (r & E); auto.
  { lia. }
  { apply (rc6_measured_at freq _ j _ HG Hcl Hr). exists n0, noms. auto. }
  { eapply longer_le; [|exact Hgg].
    pose proof (gap_read freq (freq * T) j (before T first) HG Hcl 2664 4000 12 gap 0) as K. rewrite N.add_0_l in K.
    eapply longer_le; [apply K; [room 30000|exact Hg]|]. lia. }
  exists r, os1. eexists. split; [exact E|]. split; [exact (run_edges_length (D := rc6_dec b) into _ _ _ _ E1)|].
  cbn [length]. rewrite Nat.sub_succ, Nat.sub_0_r.
  clear. induction (length (measured (before T first) gap evs)) as [|k IH]; [reflexivity|]. exact IH.
Qed.
Print Assumptions C69_rc6.

(** Denon, on a line that was quiet so far; the last bit of the word is lost (C23). *)
Lemma quiet_edges k : forall n, level_edges false n (repeat false k) = [].
Proof. induction k as [|k IH]; intros n; cbn [repeat level_edges Bool.eqb]; [reflexivity|apply IH]. Qed.

Theorem C69_denon :
  forall b m freq T first w quiet gap ps n C (into : denon_command -> C) p0,
  timebase m freq -> freq = 40000 \/ 42000 <= freq -> freq < 2 ^ 32 -> 0 < T -> first < T -> w < 2 ^ 48 ->
  real_denon (freq * T) 3 w ps -> real_long (freq * T) 10000 gap ->
  covered T first gap (pair_edges ps) n (repeat false quiet) ->
  poll_new (denon_protocol b m) freq = Val p0 ->
  polled_at (denon_protocol b m) freq T first into p0 (repeat false quiet) gap (pair_edges ps) n (into (mkDenon (w mod 2 ^ 47))).
Proof.
  intros b m freq T first w quiet gap ps n C into p0 Hm Hlo Hf HT Hfi Hw Hfr Hg (Cv1 & Cv2 & Cv3) Ep.
  destruct (poll_recv _ _ _ Ep) as (r0 & Er).
  destruct (ex_intro (fun j => j = 1) 1 eq_refl) as (j & Ej).
  assert (Hr : rate_ok 21000 [40000] freq j).
  { subst j. split; [lia|]. destruct Hlo as [-> | Hlo]; [right; split; [reflexivity|cbn; auto]|left; lia]. }
  assert (HG : 0 < freq * T) by lia. assert (Hcl : counts freq (freq * T) j (before T first)) by (subst j; apply before_counts; lia).
  clear Ej. destruct (measured_pairs freq _ j _ HG Hcl ps gap) as (ps' & E & R).
  apply (polled_frame T first HT Hfi (denon_protocol b m) freq C into _ (repeat false quiet) gap (pair_edges ps) n p0 r0 Ep Er (alt_pairs ps) Cv1 Cv2 Cv3).
  intros h g Eh Hgg _ Hs. rewrite E in *.
  assert (Eh' : h = []) by (rewrite Eh, <- repeat_app; apply quiet_edges). clear Eh. subst h.
  destruct (C23_denon_frame_partial b m freq w [] g ps' C into) as (r0' & r & os & old & E0 & E1 & Lo & _ & Ho); auto.
  { lia. }
  { eapply (denon_read freq _ j _ HG Hcl 3); [| | |exact Hfr|exact R]; room 21000. }
  { eapply longer_le; [|exact Hgg].
    pose proof (gap_read freq (freq * T) j (before T first) HG Hcl 5000 10000 8 gap 0) as K. rewrite N.add_0_l in K.
    eapply longer_le; [apply K; [room 21000|exact Hg]|]. lia. }
  rewrite Er in E0. injection E0 as <-. destruct Ho as [-> ->]; [intros d []|]. rewrite N.lor_0_l in E1.
  exists r, []. eexists. split; [exact E1|]. split; reflexivity.
Qed.
Print Assumptions C69_denon.

(** The transmission of [C68_example] in microseconds, sampled every 50, the first sample
    17 microseconds after time 0; before that some disturbance. *)
Definition polled (P : protocol) (freq : N) (levels : list bool) : option (list (outcome (dcmd (p_dec P)))) :=
  match poll_new P freq with
  | Val p => match run_polls (fun c => c) p levels with Val (_, os) => Some os | _ => None end
  | _ => None
  end.

Example C69_example :
  let w := bytes4 21 (compl8 21) 200 (compl8 200) in
  let P := nec_protocol (debug_build 32) MU32 NecStandard in
  let L := repeat true 180 ++ repeat false 90 ++ repeat true 11 in
  real_nec (20000 * 50) 4 13500 w (slow_nec w) /\ real_long (20000 * 50) 27000 45678 /\
  covered 50 17 45678 (pair_edges (slow_nec w)) 2300 L /\
  match polled P 20000 (L ++ map (level_at false 0 ((true, 45678) :: pair_edges (slow_nec w))) (times 17 50 2301)) with
  | Some os => length os = 2582%nat /\ commands os = [mkNec 21 200 false] /\ commands (skipn 1195 os) = [mkNec 21 200 false]
  | None => False
  end.
Proof.
  intros w P L. split; [apply real_nec_ok; vm_compute; reflexivity|]. split; [vm_compute; discriminate|]. split.
  - split; [|split; vm_compute; reflexivity || discriminate]. apply Forall_forall. intros e He.
    assert (K : forallb (fun e : edge => 50 <=? snd e) ((true, 45678) :: pair_edges (slow_nec w)) = true) by (vm_compute; reflexivity).
    rewrite forallb_forall in K. apply N.leb_le, K, He.
  - vm_compute. auto.
Qed.
