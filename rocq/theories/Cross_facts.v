(** * Lemmas: the signals of one protocol contain no frame of another *)
From Coq Require Import NArith ZArith List Bool Lia ZifyBool ZifyNat ZifyN.
From Verif Require Import Machine Time Decoder Nec Rc5 Rc6 Denon Sbp Receiver Spec Bits Time_facts Run_facts Rc5_facts Nec_facts
  Spec_receiver Spec_sound Sound_facts Biphase_facts Spec_cross.
Import ListNotations.
Open Scope N_scope.

(** ** Durations that cannot be confused *)

(** [p1] plus [t1] percent stays below [p2] minus [t2] percent from 20 kHz on. *)
Definition below (p1 t1 p2 t2 : N) : bool :=
  (t2 <=? 100) && ((100 + t1) * p1 * 20000 + (100 - t2) * 1000000 <? (100 - t2) * p2 * 20000).

Lemma below_ok freq p1 t1 p2 t2 x d : below p1 t1 p2 t2 = true -> 20000 <= freq ->
  100 * x <= (100 + t1) * nominal freq p1 -> (100 - t2) * nominal freq p2 <= 100 * d -> x < d.
Proof.
  unfold below, nominal. intros H Hf H1 H2. apply andb_true_iff in H. destruct H as [Ht H].
  apply N.leb_le in Ht. apply N.ltb_lt in H.
  assert (K : (100 + t1) * (p1 * freq / 1000000) < (100 - t2) * (p2 * freq / 1000000)); [|lia].
  pose proof (N.div_mod (p1 * freq) 1000000 ltac:(lia)) as D1.
  pose proof (N.div_mod (p2 * freq) 1000000 ltac:(lia)) as D2.
  pose proof (N.mod_lt (p2 * freq) 1000000 ltac:(lia)) as L2.
  set (q1 := p1 * freq / 1000000) in *. set (q2 := p2 * freq / 1000000) in *.
  set (m1 := (p1 * freq) mod 1000000) in *. set (m2 := (p2 * freq) mod 1000000) in *. clearbody q1 q2 m1 m2.
  set (u := 100 + t1) in *. set (v := 100 - t2) in *. clearbody u v. clear H1 H2 Ht t1 t2 x d.
  assert (A : u * (p1 * freq) + v * 1000000 < v * (p2 * freq)).
  { replace freq with (20000 + (freq - 20000)) by lia. set (g := freq - 20000).
    assert (u * p1 <= v * p2) by nia. nia. }
  rewrite D1, D2 in A. nia.
Qed.

Lemma near_below freq p1 t1 p2 t2 d : 20000 <= freq ->
  near freq p1 t1 d -> near freq p2 t2 d -> below p1 t1 p2 t2 = true -> False.
Proof.
  intros Hf [A _] [_ B] H. pose proof (below_ok freq p1 t1 p2 t2 d d H Hf A B). lia.
Qed.

Lemma near_guaranteed freq p t d : near freq p (guaranteed freq t) d -> near freq p t d.
Proof.
  unfold near, guaranteed. set (n := nominal freq p). clearbody n. intros [A B]. destruct (freq <=? 318000); [auto|].
  split; nia.
Qed.

Lemma period_near_wide freq p t x : period_near freq p t x -> near freq p t (fst x + snd x).
Proof. apply near_guaranteed. Qed.

Lemma near_pos freq p t d : 20000 <= freq -> near freq p t d -> t <= 99 -> 50 <= p -> 0 < d.
Proof.
  unfold near, nominal. intros Hf [_ B] Ht Hp.
  assert (1 <= p * freq / 1000000) by (apply N.div_le_lower_bound; nia). nia.
Qed.

(** A gap longer than the longest header is none of the lengths a receiver looks for. *)
Lemma longer_not_near freq p t d x : 20000 <= freq -> longer freq 13500 8 d -> d <= x ->
  p <= 13500 -> t <= 8 \/ (100 + t) * p <= 108 * 13500 - 10000 -> near freq p t x -> False.
Proof.
  unfold longer, near, nominal. intros Hf L Hx Hp Ht [A _].
  assert (K : (100 + t) * (p * freq / 1000000) <= 108 * (13500 * freq / 1000000)).
  { destruct Ht as [Ht|Ht].
    - apply N.mul_le_mono; [lia|]. apply N.div_le_mono; [lia|]. nia.
    - pose proof (N.div_mod (p * freq) 1000000 ltac:(lia)) as D1.
      pose proof (N.div_mod (13500 * freq) 1000000 ltac:(lia)) as D2.
      pose proof (N.mod_lt (13500 * freq) 1000000 ltac:(lia)) as L2.
      set (q1 := p * freq / 1000000) in *. set (q2 := 13500 * freq / 1000000) in *.
      set (m1 := (p * freq) mod 1000000) in *. set (m2 := (13500 * freq) mod 1000000) in *. clearbody q1 q2 m1 m2.
      assert (X : (100 + t) * (p * freq) + 108 * 1000000 <= 108 * (13500 * freq)) by nia.
      rewrite D1, D2 in X. nia. }
  lia.
Qed.

(** ** Where in a history a frame lies *)

Lemma split_at {A} (h k h1 s : list A) x : h ++ x :: k = h1 ++ s ->
  (exists p, s = p ++ x :: k /\ h = h1 ++ p) \/ (exists p, k = p ++ s /\ h1 = h ++ x :: p).
Proof.
  revert h1. induction h as [|y h IH]; intros [|z h1] E; cbn [app] in E.
  - left. exists []. auto.
  - injection E as -> E. right. exists h1. auto.
  - left. exists (y :: h). auto.
  - injection E as -> E. destruct (IH h1 E) as [(p & -> & ->)|(p & -> & ->)]; [left|right]; exists p; auto.
Qed.

(** ** Alternating edges *)

Fixpoint alt (first : bool) (l : list edge) : Prop :=
  match l with [] => True | (e, _) :: r => e = first /\ alt (negb first) r end.

Lemma alt_app first l1 : forall l2, alt first (l1 ++ l2) -> alt first l1 /\ exists f, alt f l2.
Proof.
  revert first. induction l1 as [|[e d] l1 IH]; intros first l2 H; cbn [app alt] in *.
  - split; auto. exists first. exact H.
  - destruct H as [-> H]. destruct (IH _ _ H) as [A B]. auto.
Qed.

Lemma alt_pairs ps : alt false (pair_edges ps).
Proof. induction ps as [|[m s] ps IH]; cbn [pair_edges alt negb]; auto. Qed.

Lemma alt_level ls : forall cur n, alt (negb cur) (level_edges cur n ls).
Proof.
  induction ls as [|l ls IH]; intros cur n; cbn [level_edges]; [exact I|].
  destruct (Bool.eqb l cur) eqn:E; [apply IH|]. cbn [alt]. pose proof (IH l 1) as A.
  destruct l, cur; try discriminate E; auto.
Qed.

Lemma alt_near freq u tol noms acts : Forall2 (biphase_near freq u tol) noms acts ->
  forall f, alt f noms -> alt f acts.
Proof.
  induction 1 as [|[e n] [e' d] noms acts [H _] F IH]; intros f; cbn [alt]; auto.
  cbn [fst] in H. intros [-> A]. split; auto.
Qed.

(** Two edges in a row contain a falling one. *)
Lemma alt_falls f l : alt f l -> (2 <= length l)%nat -> exists d, In (false, d) l.
Proof.
  destruct l as [|[e1 d1] [|[e2 d2] l]]; cbn [length]; try lia. cbn [alt]. intros (-> & -> & _) _.
  destruct f; cbn [negb]; [exists d2|exists d1]; cbn; auto.
Qed.

(** ** Receivers that stay quiet *)

Section Quiet.
  Context {D : decoder} {C : Type} (into : dcmd D -> C).
  Notation run := (@run_edges D C into).

  Lemma quiet_run r0 hist evs r os :
    (forall k e d rest r' os' x, evs = k ++ (e, d) :: rest ->
       run r0 (hist ++ k ++ [(e, d)]) = Val (r', os' ++ [ROk (Some x)]) -> False) ->
    run r0 (hist ++ evs) = Val (r, os) -> commands (skipn (length hist) os) = [].
  Proof.
    revert r os. induction evs as [|[e d] evs IH] using rev_ind; intros r os Q E.
    - rewrite app_nil_r in E. pose proof (run_edges_length into hist r0 r os E) as L.
      unfold edge in *. rewrite <- L, skipn_all. reflexivity.
    - rewrite app_assoc in E. pose proof E as E'. apply run_edges_snoc in E. destruct E as (r1 & os1 & o & E1 & E2 & ->).
      pose proof (run_edges_length into _ r0 r1 os1 E1) as L. rewrite app_length in L.
      rewrite skipn_app. unfold commands. rewrite flat_map_app.
      unfold edge in *.
      replace (length hist - length os1)%nat with 0%nat by lia. cbn [skipn flat_map].
      change (flat_map _ (skipn (length hist) os1)) with (commands (skipn (length hist) os1)).
      rewrite (IH r1 os1); [|intros k e' d' rest r' os' x -> Er; eapply (Q k e' d' (rest ++ [(e, d)])); [rewrite <- app_assoc; reflexivity|exact Er]|exact E1].
      destruct o as [[x|]|]; [|reflexivity|reflexivity]. exfalso.
      apply (Q evs e d [] r os1 x eq_refl). rewrite app_assoc. exact E'.
  Qed.
End Quiet.

(** The same after a gap: a report would come at the end of some beginning of the signal. *)
Lemma quiet_gap {D : decoder} {C : Type} (into : dcmd D -> C) r0 hist gap evs r os :
  (forall k rest h e d r' os' x, evs = k ++ rest -> h ++ [(e, d)] = hist ++ (true, gap) :: k ->
     @run_edges D C into r0 (h ++ [(e, d)]) = Val (r', os' ++ [ROk (Some x)]) -> False) ->
  @run_edges D C into r0 (hist ++ (true, gap) :: evs) = Val (r, os) -> commands (skipn (length hist) os) = [].
Proof.
  intros Q. apply quiet_run. intros k e d rest r' os' x Ek E. rewrite app_assoc in E.
  destruct k as [|[e0 d0] k]; cbn [app] in Ek.
  - injection Ek as <- <- <-. apply (Q [] evs (hist ++ []) true gap r' os' x eq_refl); [|exact E].
    rewrite app_nil_r. reflexivity.
  - injection Ek as <- <- Ek. apply (Q (k ++ [(e, d)]) rest (hist ++ (true, gap) :: k) e d r' os' x); [|rewrite <- app_assoc; reflexivity|exact E].
    rewrite <- app_assoc. exact Ek.
Qed.

Lemma periods_from_rise h : forall sv d k,
  periods_from sv (h ++ (true, d) :: k) = periods_from sv (h ++ [(true, d)]) ++ periods_from 0 k.
Proof.
  induction h as [|[[|] d0] h IH]; intros sv d k; cbn [app periods_from].
  - reflexivity.
  - rewrite IH. reflexivity.
  - apply IH.
Qed.

Lemma periods_gap h d k : periods (h ++ (true, d) :: k) = periods h ++ (last_mark h + d) :: periods_from 0 k.
Proof. unfold periods at 1. rewrite periods_from_rise. fold (periods (h ++ [(true, d)])). rewrite periods_snoc, <- app_assoc. reflexivity. Qed.

(** *** NEC family *)
Definition nec_seen (freq d : N) : Prop := near freq 2250 13 d \/ near freq 1120 26 d.
Definition has_nec_frame (freq header : N) (qs : list N) : Prop :=
  exists pre hd ds post, qs = pre ++ hd :: ds ++ post /\ near freq header 8 hd /\
    length ds = 32%nat /\ Forall (nec_seen freq) ds.

Lemma nec_listener b m freq V (C : Type) (into : nv_cmd V -> C) hist gap evs r0 r os :
  timebase m freq -> freq < 2 ^ 32 -> 20000 <= freq -> nec_timing_ok (nv_timing V) ->
  longer freq 13500 8 gap -> periods_fit (hist ++ (true, gap) :: evs) ->
  ~ has_nec_frame freq (header_high (nv_timing V) + header_low (nv_timing V)) (periods_from 0 evs) ->
  Forall (fun d => ~ near freq (header_high (nv_timing V) + repeat_low (nv_timing V)) 8 d) (periods_from 0 evs) ->
  receiver_new (nec_protocol b m V) freq = Val r0 ->
  run_edges (D := nec_dec b m V) into r0 (hist ++ (true, gap) :: evs) = Val (r, os) ->
  commands (skipn (length hist) os) = [].
Proof.
  intros Hm Hf Hlo HT Hg Hfit Nf Nr E0. apply quiet_gap. intros k rest h e d r' os' x -> Eh E.
  assert (Hfit' : periods_fit (h ++ [(e, d)])).
  { rewrite Eh. apply periods_fit_app with (h2 := rest). rewrite <- app_assoc. exact Hfit. }
  destruct (nec_sound_report b m freq V Hm Hf HT into h e d r0 r' os' x E0 Hfit' E) as (_ & w & pv & c & _ & _ & K).
  rewrite Eh, periods_gap in K. destruct (periods_from_app k 0 rest) as [more Em]. unfold edge in *. rewrite Em in Nf, Nr.
  assert (G : forall p t, near freq p t (last_mark hist + gap) -> p <= 13500 ->
                t <= 8 \/ (100 + t) * p <= 108 * 13500 - 10000 -> False).
  { intros p t Hn Hp Ht. eapply longer_not_near; [exact Hlo|exact Hg| |exact Hp|exact Ht|exact Hn]. lia. }
  destruct K as [[(pre & hd & ds & Eps & Hhd & Hw & F) _]|[(pre & dd & Eps & Hdd) _]].
  - assert (L : length ds = 32%nat) by (rewrite <- (forall2_length _ _ _ F); apply map_length || reflexivity).
    assert (Fs : Forall (nec_seen freq) ds).
    { clear -F. induction F as [|bt dd bs ds H F IH]; constructor; auto. unfold nec_seen. destruct bt; auto. }
    apply split_at in Eps. destruct Eps as [(p & Ep & _)|(p & Ep & _)].
    + exfalso. destruct p as [|y p]; cbn [app] in Ep; injection Ep as -> Ep.
      * apply (G _ _ Hhd); [|left; lia]. destruct HT as [-> | ->]; vm_compute; discriminate.
      * rewrite Ep in Fs. apply Forall_app in Fs. destruct Fs as [_ Fs]. inversion Fs as [|y' l [Hn|Hn] _]; subst.
        -- apply (G _ _ Hn); [lia|right; vm_compute; discriminate].
        -- apply (G _ _ Hn); [lia|right; vm_compute; discriminate].
    + apply Nf. exists p, hd, ds, more. rewrite Ep, <- app_assoc. auto.
  - apply split_at in Eps. destruct Eps as [(p & Ep & _)|(p & Ep & _)].
    + destruct p as [|y [|z p]]; cbn [app] in Ep; try discriminate Ep. injection Ep as -> _.
      apply (G _ _ Hdd); [|left; lia]. destruct HT as [-> | ->]; vm_compute; discriminate.
    + rewrite Ep in Nr. apply Forall_app in Nr. destruct Nr as [Nr _]. apply Forall_app in Nr. destruct Nr as [_ Nr].
      inversion Nr; subst. auto.
Qed.

(** *** Denon *)
Lemma denon_sound_report b m freq (C : Type) (into : denon_command -> C) h e d r0 r os x :
  timebase m freq -> freq < 2 ^ 32 ->
  receiver_new (denon_protocol b m) freq = Val r0 -> periods_fit (h ++ [(e, d)]) ->
  run_edges (D := denon_dec b m) into r0 (h ++ [(e, d)]) = Val (r, os ++ [ROk (Some x)]) ->
  e = true /\ exists pre hd ds w, periods (h ++ [(e, d)]) = pre ++ hd :: ds /\ is_denon_frame freq w hd ds.
Proof.
  intros Hm Hf E0 Hfit E.
  apply run_edges_snoc in E. destruct E as (r1 & os1 & o & E1 & E2 & Eo).
  apply app_inj_tail in Eo. destruct Eo as [<- <-].
  apply periods_fit_snoc in Hfit. destruct Hfit as [Hfit Hd].
  destruct (denon_sound_run b m freq Hm Hf into h r0 r1 os E0 Hfit E1) as (s & buf & pv & pre & ps & -> & Ep & Ht).
  destruct (denon_sound_step b m freq Hm Hf into s buf (last_mark h) pv ps e d Ht Hd) as (s' & buf' & o' & E & K).
  rewrite E in E2. injection E2 as <- Eo.
  destruct K as [(K & _)|(-> & _ & _ & c & K & T)]; rewrite K in Eo; [discriminate|].
  destruct T as (pre' & hd & ds & w & E' & F & _).
  split; [reflexivity|]. exists (pre ++ pre'), hd, ds, w. rewrite periods_snoc, Ep, <- app_assoc, E', <- app_assoc. auto.
Qed.

Definition denon_seen (freq d : N) : Prop := near freq 1680 11 d \/ near freq 840 11 d.

Lemma denon_listener b m freq (C : Type) (into : denon_command -> C) hist gap evs r0 r os :
  timebase m freq -> freq < 2 ^ 32 -> 20000 <= freq ->
  longer freq 13500 8 gap -> periods_fit (hist ++ (true, gap) :: evs) ->
  (forall pre hd ds post, periods_from 0 evs = pre ++ hd :: ds ++ post -> near freq 5000 9 hd -> length ds = 48%nat ->
     Forall (denon_seen freq) ds -> False) ->
  receiver_new (denon_protocol b m) freq = Val r0 ->
  run_edges (D := denon_dec b m) into r0 (hist ++ (true, gap) :: evs) = Val (r, os) ->
  commands (skipn (length hist) os) = [].
Proof.
  intros Hm Hf Hlo Hg Hfit Nf E0. apply quiet_gap. intros k rest h e d r' os' x -> Eh E.
  assert (Hfit' : periods_fit (h ++ [(e, d)])).
  { rewrite Eh. apply periods_fit_app with (h2 := rest). rewrite <- app_assoc. exact Hfit. }
  destruct (denon_sound_report b m freq C into h e d r0 r' os' x Hm Hf E0 Hfit' E) as (_ & pre & hd & ds & w & Eps & Hhd & _ & F).
  rewrite Eh, periods_gap in Eps. destruct (periods_from_app k 0 rest) as [more Em]. unfold edge in *.
  assert (G : forall p t, near freq p t (last_mark hist + gap) -> p <= 13500 ->
                t <= 8 \/ (100 + t) * p <= 108 * 13500 - 10000 -> False).
  { intros p t Hn Hp Ht. eapply longer_not_near; [exact Hlo|exact Hg| |exact Hp|exact Ht|exact Hn]. lia. }
  apply split_at in Eps. destruct Eps as [(p & Ep & _)|(p & Ep & _)].
  - destruct p as [|y p]; cbn [app] in Ep; injection Ep as -> Ep.
    + apply (G _ _ Hhd); [lia|right; vm_compute; discriminate].
    + assert (Hx : In (last_mark hist + gap) ds) by (rewrite Ep; apply in_or_app; right; left; reflexivity).
      clear -F Hx G. induction F as [|bt dd bs ds H F IH]; [destruct Hx|]. destruct Hx as [-> |Hx]; [|auto].
      unfold denon_seen_bit in H. apply (G _ _ H); [destruct bt; lia|]. right. destruct bt; vm_compute; discriminate.
  - apply (Nf p hd ds more); [rewrite Em, Ep, <- app_assoc; reflexivity|exact Hhd| |].
    + rewrite <- (forall2_length _ _ _ F). unfold bits_lsb. rewrite map_length, seq_length. reflexivity.
    + clear -F. induction F as [|bt dd bs ds H F IH]; constructor; auto. unfold denon_seen_bit in H. unfold denon_seen. destruct bt; auto.
Qed.

(** *** Samsung BluRay *)
Definition sbp_seen (freq d : N) : Prop := near freq 2000 11 d \/ near freq 1000 11 d.

Lemma readings_snoc h e d ps sv : readings (h ++ [(e, d)]) ps sv ->
  exists ps0 sv0, readings h ps0 sv0 /\
    (e = false /\ ps = ps0 /\ sv = d \/ e = true /\ ps = ps0 ++ [sv0 + d] /\ (sv = sv0 \/ sv = 0)).
Proof.
  intros R. inversion R as [E|h0 ps0 sv0 d0 R0 E|h0 ps0 sv0 d0 R0 E|h0 ps0 sv0 d0 R0 E]; subst.
  - destruct h; discriminate.
  - apply app_inj_tail in E. destruct E as [-> E]. injection E as <- <-. eauto 8.
  - apply app_inj_tail in E. destruct E as [-> E]. injection E as <- <-. exists ps0, sv. split; auto.
  - apply app_inj_tail in E. destruct E as [-> E]. injection E as <- <-. exists ps0, sv0. split; auto.
Qed.

(** After a rising edge, alternating edges are read as periods. *)
Lemma readings_gap h d evs ps sv : alt false evs -> readings (h ++ (true, d) :: evs) ps sv ->
  (exists ps0 sv0, ps = ps0 ++ (sv0 + d) :: periods_from 0 evs) /\
  (forall m, evs = removelast evs ++ [(false, m)] -> sv = m).
Proof.
  revert ps sv. induction evs as [|[e de] evs IH] using rev_ind; intros ps sv A R.
  - apply readings_snoc in R. destruct R as (ps0 & sv0 & _ & [[E _]|(_ & -> & _)]); [discriminate|].
    split; [exists ps0, sv0; reflexivity|]. intros m E. discriminate.
  - change ((true, d) :: evs ++ [(e, de)]) with (((true, d) :: evs) ++ [(e, de)]) in R. rewrite app_assoc in R.
    apply readings_snoc in R. destruct R as (ps0 & sv0 & R & K).
    destruct (alt_app _ _ _ A) as [A1 _]. destruct (IH ps0 sv0 A1 R) as [(q0 & s0 & ->) Hs].
    rewrite removelast_last. rewrite periods_from_snoc.
    destruct K as [(-> & -> & ->)|(-> & -> & _)].
    + split; [exists q0, s0; rewrite app_nil_r; reflexivity|]. intros m E. apply app_inj_tail in E. destruct E as [_ E].
      congruence.
    + split; [|intros m E; apply app_inj_tail in E; destruct E as [_ E]; discriminate].
      exists q0, s0. rewrite <- app_assoc. cbn [app].
      destruct evs as [|[e' d'] evs' _] using rev_ind; [cbn in A; destruct A; discriminate|].
      rewrite rev_app_distr. cbn [rev app].
      assert (e' = false) as ->.
      { clear -A. rewrite <- app_assoc in A. apply alt_app in A. destruct A as [_ (f & A)]. cbn [app alt] in A.
        destruct A as (-> & E & _). destruct f; [discriminate|reflexivity]. }
      rewrite (Hs d') by (rewrite removelast_last; reflexivity). reflexivity.
Qed.

Lemma sbp_listener b m freq (C : Type) (into : sbp_command -> C) hist gap evs r0 r os :
  timebase m freq -> freq < 2 ^ 32 -> 20000 <= freq ->
  longer freq 13500 8 gap -> short (hist ++ (true, gap) :: evs) -> alt false evs ->
  (forall pre hd ads pause cds post, periods_from 0 evs = pre ++ hd :: ads ++ pause :: cds ++ post ->
     near freq 9000 6 hd -> near freq 5000 6 pause -> length ads = 16%nat -> Forall (sbp_seen freq) ads ->
     length cds = 20%nat -> Forall (sbp_seen freq) cds -> False) ->
  receiver_new (sbp_protocol b m) freq = Val r0 ->
  run_edges (D := sbp_dec b m) into r0 (hist ++ (true, gap) :: evs) = Val (r, os) ->
  commands (skipn (length hist) os) = [].
Proof.
  intros Hm Hf Hlo Hg Hs Ha Nf E0. apply quiet_gap. intros k rest h e d r' os' x -> Eh E.
  assert (Hs' : short (h ++ [(e, d)])).
  { rewrite Eh. unfold short in *. change (hist ++ (true, gap) :: k ++ rest) with (hist ++ ((true, gap) :: k) ++ rest) in Hs.
    rewrite app_assoc in Hs. apply Forall_app in Hs. apply Hs. }
  destruct (sbp_sound_report b m freq Hm Hf into h e d r0 r' os' x E0 (or_introl Hs') E)
    as (_ & aw & cw & ps & sv & _ & R & pre & hd & ads & pause & cds & Eps & Hhd & Hp & _ & _ & Fa & Fc).
  rewrite Eh in R. destruct (alt_app _ _ _ Ha) as [Ha1 _].
  destruct (readings_gap hist gap k ps sv Ha1 R) as [(ps0 & sv0 & ->) _].
  destruct (periods_from_app k 0 rest) as [more Em]. unfold edge in *.
  assert (G : forall p t, near freq p t (sv0 + gap) -> p <= 13500 ->
                t <= 8 \/ (100 + t) * p <= 108 * 13500 - 10000 -> False).
  { intros p t Hn Hp' Ht. eapply longer_not_near; [exact Hlo|exact Hg| |exact Hp'|exact Ht|exact Hn]. lia. }
  assert (S : forall bs ds, Forall2 (sbp_seen_bit freq) bs ds -> Forall (sbp_seen freq) ds).
  { intros bs ds F. induction F as [|bt dd bs ds H F IH]; constructor; auto. unfold sbp_seen_bit in H. unfold sbp_seen.
    destruct bt; auto. }
  assert (G' : ~ sbp_seen freq (sv0 + gap)).
  { intros [H|H]; apply (G _ _ H); try lia; right; vm_compute; discriminate. }
  apply split_at in Eps. destruct Eps as [(p & Ep & _)|(p & Ep & _)].
  - destruct p as [|y p]; cbn [app] in Ep; injection Ep as -> Ep.
    + apply (G _ _ Hhd); [lia|left; lia].
    + assert (Hx : In (sv0 + gap) (ads ++ pause :: cds)) by (rewrite Ep; apply in_or_app; right; left; reflexivity).
      apply in_app_or in Hx. destruct Hx as [Hx|[->|Hx]].
      * apply G'. apply S in Fa. rewrite Forall_forall in Fa. auto.
      * apply (G _ _ Hp); [lia|left; lia].
      * apply G'. apply S in Fc. rewrite Forall_forall in Fc. auto.
  - apply (Nf p hd ads pause cds more); auto.
    + rewrite Em, Ep, <- !app_assoc. cbn [app]. rewrite <- app_assoc. reflexivity.
    + rewrite <- (forall2_length _ _ _ Fa). reflexivity.
    + eapply S, Fa.
    + rewrite <- (forall2_length _ _ _ Fc). unfold bits_lsb. rewrite map_length, seq_length. reflexivity.
    + eapply S, Fc.
Qed.

(** *** RC5 *)
Lemma samples_length par l : forall ck ns, (length (samples par ck l ns) <= length l)%nat.
Proof.
  induction l as [|[e d] l IH]; intros ck [|n ns]; cbn [samples length]; try lia.
  specialize (IH (ck + n) ns). destruct (Bool.eqb _ _); cbn [app length]; lia.
Qed.

Lemma forall2_mid {A B} (R : A -> B -> Prop) ns a x l : Forall2 R ns (a ++ x :: l) -> exists n, R n x.
Proof.
  intros F. apply Forall2_app_inv_r in F. destruct F as (l1 & l2 & _ & F & _).
  inversion F as [|n y l0 l1' H F']; subst. eauto.
Qed.

Lemma rc5_listener b m freq (C : Type) (into : rc5_command -> C) hist gap evs r0 r os :
  timebase m freq -> freq < 2 ^ 32 -> 20000 <= freq -> 8 <= usize_bits b ->
  longer freq 13500 8 gap ->
  (forall a seg c bits, evs = a ++ seg ++ c -> rc5_stream freq seg bits -> length bits = 13%nat -> False) ->
  receiver_new (rc5_protocol b m) freq = Val r0 ->
  run_edges (D := rc5_dec b) into r0 (hist ++ (true, gap) :: evs) = Val (r, os) ->
  commands (skipn (length hist) os) = [].
Proof.
  intros Hm Hf Hlo Hu Hg Nf E0. apply quiet_gap. intros k rest h e d r' os' x -> Eh E.
  destruct (rc5_sound_report b m freq Hm Hf Hu into h e d r0 r' os' x E0 E) as (c & _ & h1 & g & seg & bits & E1 & S & L & _).
  rewrite Eh in E1. apply split_at in E1. destruct E1 as [(p & Ep & _)|(p & Ep & _)].
  - destruct p as [|y p]; cbn [app] in Ep; injection Ep as Ey Ep.
    + subst seg. apply (Nf [] k rest bits); auto.
    + destruct S as (s' & last & ns & n & _ & F & _). rewrite Ep, map_app in F. cbn [map snd] in F.
      destruct (forall2_mid _ _ _ _ _ F) as (n' & H). clear -H Hg Hlo.
      destruct H as [[_ H]|[[_ H]|[_ [_ ->]]]].
      * eapply (longer_not_near freq 889 13 gap gap); eauto; try lia.
      * eapply (longer_not_near freq 1778 11 gap gap); eauto; try lia.
      * unfold longer in Hg. lia.
  - subst k. apply (Nf (p ++ [(true, g)]) seg rest bits); auto. rewrite <- !app_assoc. reflexivity.
Qed.

(** *** RC6 *)
Lemma rc6_listener b m freq (C : Type) (into : rc6_command -> C) hist gap evs r0 r os :
  timebase m freq -> freq < 2 ^ 32 -> 20000 <= freq -> 8 <= usize_bits b ->
  longer freq 13500 8 gap ->
  (forall lead, In (false, lead) evs -> near freq 2664 13 lead -> False) ->
  receiver_new (rc6_protocol b m) freq = Val r0 ->
  run_edges (D := rc6_dec b) into r0 (hist ++ (true, gap) :: evs) = Val (r, os) ->
  commands (skipn (length hist) os) = [].
Proof.
  intros Hm Hf Hlo Hu Hg Nf E0. apply quiet_gap. intros k rest h e d r' os' x -> Eh E.
  destruct (rc6_sound_report b m freq Hm Hf Hu into h e d r0 r' os' x E0 E) as (c & _ & h1 & g & seg & tg & bits & E1 & S & L & _).
  rewrite Eh in E1.
  destruct S as (lead & pause & hs & hlast & hns & hn & tr & tlast & ds & dlast & dns & dn & Es & Hl & Hp & Fh & _ & _ & Ft & Htl & Fd & _).
  assert (Hl' : near freq 2664 13 lead) by (destruct Hl as [(_ & _ & H)|(H & _)]; [exact H|lia]).
  apply split_at in E1. destruct E1 as [(p & Ep & _)|(p & Ep & _)].
  - destruct p as [|y p]; cbn [app] in Ep; injection Ep as Ey Ep.
    + apply (Nf lead); auto. apply in_or_app. left. rewrite <- Ep, Es. left. reflexivity.
    + (* the gap lies inside the frame *)
      assert (Hx : In gap (map snd seg)) by (rewrite Ep, map_app; apply in_or_app; right; left; reflexivity).
      assert (G : forall n, rc6_interval freq n gap -> False).
      { intros n [(H1 & H2 & H)|(_ & _ & H)]; [|rewrite H in Hg; unfold longer in Hg; lia].
        eapply (longer_not_near freq (444 * n) 13 gap gap); eauto; lia. }
      assert (G2 : forall ns l, Forall2 (rc6_interval freq) ns l -> In gap l -> False).
      { intros ns l F. induction F as [|n0 y0 ns0 l0 H F IH]; intros Hi; [destruct Hi|]. destruct Hi as [-> |Hi]; eauto. }
      rewrite Es in Hx. cbn [map snd In] in Hx. rewrite !map_app in Hx. cbn [map] in Hx.
      rewrite map_app in Fh. rewrite map_app in Fd. cbn [map] in Fh, Fd.
      destruct Hx as [-> |[-> |Hx]]; eauto.
      apply in_app_or in Hx. destruct Hx as [Hx|Hx]; eauto.
      apply in_app_or in Hx. destruct Hx as [Hx|Hx]; eauto.
      apply in_app_or in Hx. destruct Hx as [Hx|[Hx|[]]].
      * apply in_map_iff in Hx. destruct Hx as ([ee dd] & Ed & Hi). rewrite Forall_forall in Ft. destruct (Ft _ Hi) as [_ H].
        cbn [snd] in *. subst dd. eauto.
      * destruct tlast as [ee dd]. cbn [fst snd] in *. subst dd. destruct tg; destruct Htl as [_ H]; eauto.
  - subst k. apply (Nf lead); auto. apply in_or_app. left. apply in_or_app. right. right. rewrite Es. left. reflexivity.
Qed.

(** ** What the signals contain *)

Definition among (freq : N) (table : list (N * N)) (d : N) : Prop :=
  exists p t, In (p, t) table /\ near freq p t d.
Definition separate (table : list (N * N)) (p t : N) : bool :=
  forallb (fun x => below (fst x) (snd x) p t || below p t (fst x) (snd x)) table.

Lemma separate_ok freq table p t d : 20000 <= freq -> separate table p t = true -> among freq table d -> ~ near freq p t d.
Proof.
  intros Hf S (p' & t' & Hi & Hn) Hn'. unfold separate in S. rewrite forallb_forall in S. specialize (S _ Hi).
  cbn [fst snd] in S. apply orb_true_iff in S. destruct S as [S|S].
  - exact (near_below freq _ _ _ _ d Hf Hn Hn' S).
  - exact (near_below freq _ _ _ _ d Hf Hn' Hn S).
Qed.

Definition period (x : N * N) : N := fst x + snd x.

Lemma pair_periods ps : periods_from 0 (pair_edges ps) = map period ps.
Proof. induction ps as [|[m s] ps IH]; cbn [pair_edges periods_from map]; [reflexivity|]. rewrite IH. reflexivity. Qed.

Lemma pair_marks ps d : In (false, d) (pair_edges ps) -> exists x, In x ps /\ d = fst x.
Proof.
  induction ps as [|[m s] ps IH]; cbn [pair_edges In]; [tauto|]. intros [E|[E|H]].
  - injection E as <-. exists (m, s). auto.
  - discriminate.
  - destruct (IH H) as (x & H1 & H2). exists x. auto.
Qed.

Lemma marks_among freq lead bit ps d : marks_near freq lead bit ps -> In (false, d) (pair_edges ps) ->
  among freq [(lead, 8); (bit, 12)] d.
Proof.
  intros (h & ds & -> & Hh & Hd) H. apply pair_marks in H. destruct H as (x & [-> |Hi] & ->).
  - exists lead, 8. cbn; auto.
  - rewrite Forall_forall in Hd. exists bit, 12. cbn. auto.
Qed.

(** Headers and bits of the pulse-distance frames. *)
Definition nec_sent_bits := [(2250, 12); (1120, 25)].
Lemma nec_frame_periods freq H w ps : nec_frame freq H w ps ->
  exists hd ds, map period ps = hd :: ds /\ near freq H 7 hd /\ length ds = 32%nat /\ Forall (among freq nec_sent_bits) ds.
Proof.
  intros (h & ds & -> & Hh & F). exists (period h), (map period ds). split; [reflexivity|].
  split; [apply period_near_wide, Hh|]. rewrite map_length, <- (forall2_length _ _ _ F). split; [reflexivity|].
  clear -F. induction F as [|bt x bs ds H F IH]; cbn [map]; constructor; auto.
  destruct bt; apply period_near_wide in H; [exists 2250, 12|exists 1120, 25]; cbn; auto.
Qed.

Definition sbp_sent_bits := [(2000, 10); (1000, 10)].
Lemma sbp_bits_among freq bs ds : Forall2 (sbp_bit freq) bs ds -> Forall (among freq sbp_sent_bits) (map period ds).
Proof.
  induction 1 as [|bt x bs ds H F IH]; cbn [map]; constructor; auto.
  apply period_near_wide in H. destruct bt; [exists 2000, 10|exists 1000, 10]; cbn; auto.
Qed.
Lemma sbp_frame_periods freq a c ps : sbp_frame freq a c ps ->
  exists hd ads pause cds, map period ps = hd :: ads ++ pause :: cds /\ near freq 9000 5 hd /\ near freq 5000 5 pause /\
    length ads = 16%nat /\ length cds = 20%nat /\
    Forall (among freq sbp_sent_bits) ads /\ Forall (among freq sbp_sent_bits) cds.
Proof.
  intros (h & ads & pause & cds & -> & Hh & Fa & Hp & Fc).
  exists (period h), (map period ads), (period pause), (map period cds).
  split; [cbn [map]; rewrite map_app; reflexivity|].
  split; [apply period_near_wide, Hh|]. split; [apply period_near_wide, Hp|].
  rewrite !map_length, <- (forall2_length _ _ _ Fa), <- (forall2_length _ _ _ Fc). split; [reflexivity|]. split; [reflexivity|].
  split; eapply sbp_bits_among; eauto.
Qed.

Definition denon_sent := [(5000, 8); (1680, 10); (840, 10)].
Lemma denon_frame_periods freq w ps : denon_frame freq w ps ->
  Forall (among freq denon_sent) (map period ps).
Proof.
  intros (h & ds & -> & Hh & F). cbn [map]. constructor.
  - exists 5000, 8. split; [cbn; auto|apply period_near_wide, Hh].
  - clear -F. induction F as [|bt x bs ds H F IH]; cbn [map]; constructor; auto.
    apply period_near_wide in H. destruct bt; [exists 1680, 10|exists 840, 10]; cbn; auto.
Qed.

Lemma forall_not freq table p t qs : 20000 <= freq -> separate table p t = true ->
  Forall (among freq table) qs -> Forall (fun d => ~ near freq p t d) qs.
Proof. intros Hf S F. eapply Forall_impl; [|exact F]. intros d. apply separate_ok; auto. Qed.

Lemma among_more freq t1 t2 d : (forall x, In x t1 -> In x t2) -> among freq t1 d -> among freq t2 d.
Proof. intros H (p & t & Hi & Hn). exists p, t. auto. Qed.

Lemma nec_all freq H w ps : nec_frame freq H w ps -> Forall (among freq ((H, 7) :: nec_sent_bits)) (map period ps).
Proof.
  intros F. destruct (nec_frame_periods _ _ _ _ F) as (hd & ds & -> & Hh & _ & Fb). constructor.
  - exists H, 7. cbn; auto.
  - eapply Forall_impl; [|exact Fb]. intros d. apply among_more. intros x Hx. right. exact Hx.
Qed.

Lemma sbp_all freq a c ps : sbp_frame freq a c ps -> Forall (among freq ((9000, 5) :: (5000, 5) :: sbp_sent_bits)) (map period ps).
Proof.
  intros F. destruct (sbp_frame_periods _ _ _ _ F) as (hd & ads & pause & cds & -> & Hh & Hp & _ & _ & Fa & Fc).
  assert (W : forall l, Forall (among freq sbp_sent_bits) l -> Forall (among freq ((9000, 5) :: (5000, 5) :: sbp_sent_bits)) l).
  { intros l Fl. eapply Forall_impl; [|exact Fl]. intros d. apply among_more. intros x Hx. right. right. exact Hx. }
  constructor; [exists 9000, 5; cbn; auto|]. apply Forall_app. split; [auto|].
  constructor; [exists 5000, 5; cbn; auto|auto].
Qed.

(** ** Biphase signals *)

Lemma level_halves_bound half (Hhalf : half = rc5_half \/ half = rc6_half) data : forall cur n, 1 <= n ->
  Forall (fun e => 1 <= snd e /\ snd e <= n + 1) (level_edges cur n (flat_map half data)).
Proof.
  induction data as [|x data IH]; intros cur n Hn; cbn [flat_map]; [constructor|].
  assert (W : forall l, Forall (fun e => 1 <= snd e /\ snd e <= 1 + 1) l -> Forall (fun e : edge => 1 <= snd e /\ snd e <= n + 1) l).
  { intros l Fl. eapply Forall_impl; [|exact Fl]. intros e. cbn beta. lia. }
  assert (I1 : forall c, Forall (fun e => 1 <= snd e /\ snd e <= n + 1) (level_edges c 1 (flat_map half data))).
  { intros c. apply W. apply IH. lia. }
  destruct Hhalf as [-> | ->]; destruct x, cur; cbn [rc5_half rc6_half app level_edges Bool.eqb];
    repeat constructor; cbn [snd]; try lia; apply I1.
Qed.

Lemma level_total ls : forall cur n, total (map snd (level_edges cur n ls)) <= n + N.of_nat (length ls).
Proof.
  induction ls as [|l ls IH]; intros cur n; cbn [level_edges length]; [cbn; lia|].
  destruct (Bool.eqb l cur).
  - specialize (IH cur (n + 1)). lia.
  - cbn [map total fold_right snd]. specialize (IH l 1). unfold total in IH. lia.
Qed.

Lemma rc5_noms w n noms : level_edges false 0 (rc5_wave w) = (true, n) :: noms ->
  Forall (fun e => 1 <= snd e /\ snd e <= 2) noms /\ alt false noms.
Proof.
  intros E. split; [|pose proof (alt_level (rc5_wave w) false 0) as A; rewrite E in A; apply A].
  unfold rc5_wave in E. destruct (bits_msb 14 w) as [|x data]; [discriminate E|]. cbn [flat_map] in E.
  assert (B : forall cur, Forall (fun e => 1 <= snd e /\ snd e <= 2) (level_edges cur 1 (flat_map rc5_half data))).
  { intros cur. apply (level_halves_bound rc5_half (or_introl eq_refl) data cur 1). lia. }
  destruct x; cbn [rc5_half app level_edges Bool.eqb] in E; injection E as _ <-; [apply B|].
  constructor; [cbn; lia|apply B].
Qed.

Lemma rc6_half_length data : length (flat_map rc6_half data) = (2 * length data)%nat.
Proof. induction data as [|x data IH]; [reflexivity|]. cbn [flat_map]. rewrite app_length, IH. destruct x; cbn [rc6_half length]; lia. Qed.
Lemma bits_msb_length n w : length (bits_msb n w) = n.
Proof. unfold bits_msb, bits_lsb. rewrite rev_length, map_length, seq_length. reflexivity. Qed.

Lemma rc6_noms toggle w n noms : level_edges false 0 (rc6_wave toggle (bits_msb 16 w)) = (true, n) :: (false, 6) :: noms ->
  Forall (fun e => 1 <= snd e /\ snd e <= 3) noms /\ alt true noms /\ total (map snd noms) <= 46.
Proof.
  intros E. split; [|split].
  - unfold rc6_wave in E. set (data := bits_msb 16 w) in E.
    assert (B : forall cur, Forall (fun e => 1 <= snd e /\ snd e <= 3) (level_edges cur 2 (flat_map rc6_half data))).
    { intros cur. apply (level_halves_bound rc6_half (or_intror eq_refl) data cur 2). lia. }
    clearbody data. destruct toggle; cbn [app level_edges Bool.eqb rc6_half N.add] in E; injection E as _ <-.
    + change (1 + 1) with 2. repeat (constructor; [cbn; lia|]). apply B.
    + change (1 + 1) with 2. repeat (constructor; [cbn; lia|]). apply B.
  - pose proof (alt_level (rc6_wave toggle (bits_msb 16 w)) false 0) as A. rewrite E in A. apply A.
  - pose proof (level_total (rc6_wave toggle (bits_msb 16 w)) false 0) as T. rewrite E in T. cbn [map total fold_right snd] in T.
    unfold total. assert (L : length (rc6_wave toggle (bits_msb 16 w)) = 52%nat) 
      by (unfold rc6_wave; rewrite !app_length, rc6_half_length, bits_msb_length; destruct toggle; reflexivity).
    rewrite L in T. lia.
Qed.

Lemma biphase_wide freq u tol nom act : biphase_near freq u tol nom act -> near freq (u * snd nom) (tol (snd nom)) (snd act).
Proof. intros [_ H]. apply near_guaranteed, H. Qed.

Lemma nominal_le freq p q : p <= q -> nominal freq p <= nominal freq q.
Proof. intros H. unfold nominal. apply N.div_le_mono; nia. Qed.
Lemma nominal_sum freq p q : nominal freq p + nominal freq q <= nominal freq (p + q).
Proof.
  unfold nominal. rewrite N.mul_add_distr_r. set (x := p * freq). set (y := q * freq). clearbody x y.
  apply N.div_le_lower_bound; [lia|].
  pose proof (N.mul_div_le x 1000000 ltac:(lia)). pose proof (N.mul_div_le y 1000000 ltac:(lia)). lia.
Qed.

(** Sums of a mark and a space. *)
Lemma periods_bound A M l : Forall (fun e => snd e <= M) l -> M <= A -> forall sv, sv <= A ->
  Forall (fun d => d <= A + M) (periods_from sv l).
Proof.
  intros F HA. induction F as [|[e d] l H F IH]; intros sv Hs; cbn [periods_from]; [constructor|].
  cbn [snd] in H. destruct e; [constructor; [lia|apply IH; lia]|apply IH; lia].
Qed.

Definition biphase_period (freq d : N) : Prop := 100 * d <= 112 * nominal freq 3996.

Lemma biphase_period_not_near freq p t d : 20000 <= freq -> below 3996 12 p t = true -> biphase_period freq d -> ~ near freq p t d.
Proof. intros Hf B H [_ H']. pose proof (below_ok freq 3996 12 p t d d B Hf H H'). lia. Qed.

Lemma biphase_acts_bound freq u tol (K p : N) noms acts :
  (forall n, 1 <= n -> n <= K -> tol n <= 12 /\ u * n <= p) ->
  Forall (fun e => 1 <= snd e /\ snd e <= K) noms -> Forall2 (biphase_near freq u tol) noms acts ->
  Forall (fun e : edge => 100 * snd e <= 112 * nominal freq p) acts.
Proof.
  intros HK Fn F. revert Fn. induction F as [|nom act noms acts H F IH]; intros Fn; constructor.
  - inversion Fn as [|x l [H1 H2] _]; subst. destruct (HK _ H1 H2) as [Ht Hp]. apply biphase_wide in H. destruct H as [H _].
    pose proof (nominal_le freq _ _ Hp) as L. set (n1 := nominal freq (u * snd nom)) in *. set (n2 := nominal freq p) in *.
    clearbody n1 n2. nia.
  - inversion Fn; subst. auto.
Qed.

Lemma sent_rc5_facts freq evs : sent_rc5 freq evs -> 20000 <= freq ->
  alt false evs /\ Forall (biphase_period freq) (periods_from 0 evs) /\
  (forall e d, In (e, d) evs -> among freq [(889, 12); (1778, 10)] d).
Proof.
  intros (w & gap & n & noms & acts & El & Ee & F) Hf. injection Ee as <-.
  destruct (rc5_noms w n noms El) as [B A]. split; [eapply alt_near; eauto|]. split.
  - assert (W : Forall (fun e : edge => 100 * snd e <= 112 * nominal freq 1778) evs).
    { eapply (biphase_acts_bound freq 889 rc5_tol 2 1778); [|exact B|exact F].
      intros k H1 H2. unfold rc5_tol. destruct (k =? 1); lia. }
    set (M := 112 * nominal freq 1778 / 100).
    assert (HM : 100 * M <= 112 * nominal freq 1778) by (apply N.mul_div_le; lia).
    eapply Forall_impl; [|apply (periods_bound M M evs)].
    + intros d Hd. cbn beta in Hd. unfold biphase_period. pose proof (nominal_sum freq 1778 1778) as S.
      pose proof (nominal_le freq (1778 + 1778) 3996 ltac:(lia)) as L. lia.
    + eapply Forall_impl; [|exact W]. intros e He. apply N.div_le_lower_bound; [lia|exact He].
    + lia.
    + lia.
  - intros e d Hi. clear -F B Hi. induction F as [|nom act noms acts H F IH]; [destruct Hi|].
    inversion B as [|x l [H1 H2] B']; subst. destruct Hi as [-> |Hi]; [|auto].
    apply biphase_wide in H. cbn [snd] in H. unfold rc5_tol in H.
    assert (K : snd nom = 1 \/ snd nom = 2) by lia. destruct K as [K|K]; rewrite K in H.
    + exists 889, 12. cbn; auto.
    + exists 1778, 10. cbn; auto.
Qed.

Lemma sent_rc6_facts freq evs : sent_rc6 freq evs -> 20000 <= freq ->
  alt false evs /\ Forall (biphase_period freq) (periods_from 0 evs) /\ (length (periods_from 0 evs) <= 48)%nat /\
  exists lead acts noms, evs = (false, lead) :: acts /\ near freq 2664 12 lead /\
    Forall2 (biphase_near freq 444 rc6_tol) noms acts /\ Forall (fun e => 1 <= snd e /\ snd e <= 3) noms /\
    total (map snd noms) <= 46.
Proof.
  intros (tg & data & gap & n & noms & lead & acts & El & Ee & Hl & F) Hf. injection Ee as ->.
  destruct (rc6_noms tg data n noms El) as [B [A T]].
  assert (Hl' : near freq 2664 12 lead) by (apply near_guaranteed; exact Hl).
  assert (Aa : alt true acts) by (eapply alt_near; eauto).
  split; [cbn [alt negb]; auto|]. split; [|split].
  - assert (W : Forall (fun e : edge => 100 * snd e <= 112 * nominal freq 1332) acts).
    { eapply (biphase_acts_bound freq 444 rc6_tol 3 1332); [|exact B|exact F].
      intros k H1 H2. unfold rc6_tol. lia. }
    set (M := 112 * nominal freq 1332 / 100). set (K := 112 * nominal freq 2664 / 100).
    assert (HM : 100 * M <= 112 * nominal freq 1332) by (apply N.mul_div_le; lia).
    assert (HK : 100 * K <= 112 * nominal freq 2664) by (apply N.mul_div_le; lia).
    cbn [periods_from].
    eapply Forall_impl; [|apply (periods_bound K M acts)].
    + intros d Hd. cbn beta in Hd. unfold biphase_period. pose proof (nominal_sum freq 2664 1332) as S.
      change (2664 + 1332) with 3996 in S. lia.
    + eapply Forall_impl; [|exact W]. intros e He. apply N.div_le_lower_bound; [lia|exact He].
    + apply N.div_le_mono; [lia|]. pose proof (nominal_le freq 1332 2664 ltac:(lia)). lia.
    + destruct Hl' as [Hl1 _]. apply N.div_le_lower_bound; [lia|]. lia.
  - assert (L : forall sv (l : list edge), (length (periods_from sv l) <= length l)%nat).
    { intros sv l. revert sv. induction l as [|[[|] d] l IH]; intros sv; cbn [periods_from length]; [lia| |];
      [specialize (IH 0)|specialize (IH d)]; lia. }
    cbn [periods_from]. specialize (L lead acts).
    assert (L2 : (length noms <= 46)%nat).
    { clear -B T. assert (N.of_nat (length noms) <= total (map snd noms)).
      { clear T. induction B as [|x l H B IH]; cbn [length map total fold_right]; [lia|]. unfold total in IH. lia. }
      lia. }
    pose proof (forall2_length _ _ _ F) as L3. unfold edge in *. lia.
  - exists lead, acts, noms. auto.
Qed.

(** ** Nothing an RC5 receiver could read *)

Lemma rc5_interval_among freq table n d : 20000 <= freq ->
  forallb (fun x => (50 <=? fst x) && (snd x <=? 99)) table = true ->
  separate table 889 13 = true -> separate table 1778 11 = true -> among freq table d -> ~ rc5_interval freq n d.
Proof.
  intros Hf Hp S1 S2 Ha [[_ H]|[[_ H]|(_ & _ & ->)]].
  - exact (separate_ok freq table 889 13 d Hf S1 Ha H).
  - exact (separate_ok freq table 1778 11 d Hf S2 Ha H).
  - destruct Ha as (p & t & Hi & Hn). rewrite forallb_forall in Hp. specialize (Hp _ Hi). cbn [fst snd] in Hp.
    apply andb_true_iff in Hp. destruct Hp as [P1 P2]. apply N.leb_le in P1. apply N.leb_le in P2.
    pose proof (near_pos freq p t 0 Hf Hn P2 P1). lia.
Qed.

Lemma stream_intervals freq seg bits : rc5_stream freq seg bits -> forall e d, In (e, d) seg -> exists n, rc5_interval freq n d.
Proof.
  intros (s' & last & ns & n & _ & F & _) e d Hi. apply in_split in Hi. destruct Hi as (l1 & l2 & ->).
  rewrite map_app in F. cbn [map snd] in F. eapply forall2_mid, F.
Qed.

Lemma stream_length freq seg bits : rc5_stream freq seg bits -> (length bits <= length seg)%nat.
Proof. intros (s' & last & ns & n & _ & _ & <- & _). apply samples_length. Qed.

Lemma pairs_no_rc5 freq lead bit ps : 20000 <= freq -> marks_near freq lead bit ps ->
  50 <= lead -> 50 <= bit ->
  separate [(lead, 8); (bit, 12)] 889 13 = true -> separate [(lead, 8); (bit, 12)] 1778 11 = true ->
  forall a seg c bits, pair_edges ps = a ++ seg ++ c -> rc5_stream freq seg bits -> length bits = 13%nat -> False.
Proof.
  intros Hf Hm P1 P2 S1 S2 a seg c bits E R L. pose proof (alt_pairs ps) as A. rewrite E in A.
  apply alt_app in A. destruct A as [_ (f & A)]. apply alt_app in A. destruct A as [A _].
  pose proof (stream_length _ _ _ R) as Ls.
  destruct (alt_falls f seg A ltac:(lia)) as (d & Hi). destruct (stream_intervals _ _ _ R _ _ Hi) as (n & Hn).
  revert Hn. apply (rc5_interval_among freq [(lead, 8); (bit, 12)]); auto.
  - cbn [forallb fst snd]. apply N.leb_le in P1, P2. rewrite P1, P2. reflexivity.
  - eapply marks_among; [exact Hm|]. rewrite E. apply in_or_app. right. apply in_or_app. left. exact Hi.
Qed.

Lemma samples_ones l : forall ck ns, Forall (fun n => n = 1) ns ->
  (2 * length (samples false ck l ns) <= length l + (if N.odd ck then 1 else 0))%nat.
Proof.
  induction l as [|[e d] l IH]; intros ck ns F; [cbn; lia|]. destruct F as [|n ns -> F]; [cbn; lia|].
  cbn [samples length]. specialize (IH (ck + 1) ns F). rewrite app_length.
  rewrite N.odd_add in *. change (N.odd 1) with true in *. destruct (N.odd ck); cbn [xorb Bool.eqb length] in *; lia.
Qed.

Lemma rc6_no_rc5 freq evs : 20000 <= freq -> sent_rc6 freq evs ->
  forall a seg c bits, evs = a ++ seg ++ c -> rc5_stream freq seg bits -> length bits = 13%nat -> False.
Proof.
  intros Hf Hs a seg c bits E R L. destruct (sent_rc6_facts freq evs Hs Hf) as (_ & _ & _ & lead & acts & noms & -> & Hl & F & B & T).
  assert (Hseg : exists a' c', acts = a' ++ seg ++ c').
  { destruct a as [|x a]; cbn [app] in E; [|injection E as _ ->; exists a, c; reflexivity].
    destruct seg as [|x seg]; [pose proof (stream_length _ _ _ R) as Ls; cbn [length] in Ls; lia|].
    cbn [app] in E. injection E as <- E. exfalso.
    destruct (stream_intervals _ _ _ R false lead (or_introl eq_refl)) as (n & Hn). revert Hn.
    apply (rc5_interval_among freq [(2664, 12)]); auto; try reflexivity. exists 2664, 12. cbn; auto. }
  destruct Hseg as (a' & c' & ->).
  apply Forall2_app_inv_r in F. destruct F as (na & n1 & _ & F & ->).
  apply Forall2_app_inv_r in F. destruct F as (ns & nc & F & _ & ->).
  apply Forall_app in B. destruct B as [_ B]. apply Forall_app in B. destruct B as [B _].
  rewrite !map_app, !total_app in T.
  destruct R as (s' & last & ks & k & _ & Fk & Es & _). set (kk := ks ++ [k]) in *. clearbody kk.
  assert (K : Forall (fun n => n = 1) kk /\ total (map snd ns) = 2 * N.of_nat (length seg)).
  { clear -F B Fk Hf. revert kk Fk B. induction F as [|nom act ns seg H F IH]; intros kk Fk B.
    - inversion Fk; subst. split; [constructor|reflexivity].
    - cbn [map] in Fk. inversion Fk as [|n0 y0 l0 l1 Hk Fk']; subst. inversion B as [|x l [H1 H2] B']; subst.
      destruct (IH _ Fk' B') as [I1 I2]. apply biphase_wide in H. unfold rc6_tol in H.
      assert (snd nom = 2 /\ n0 = 1) as [N1 N2].
      { assert (C3 : snd nom = 1 \/ snd nom = 2 \/ snd nom = 3) by lia.
        destruct C3 as [C3|[C3|C3]]; rewrite C3 in H; change (444 * 1) with 444 in H; change (444 * 2) with 888 in H; change (444 * 3) with 1332 in H.
        - exfalso. revert Hk. apply (rc5_interval_among freq [(444, 12)]); auto; try reflexivity. exists 444, 12. cbn; auto.
        - split; auto. destruct Hk as [[Hk _]|[[_ Hk]|(_ & _ & Hk)]]; auto.
          + exfalso. exact (near_below freq 888 12 1778 11 _ Hf H Hk eq_refl).
          + exfalso. rewrite Hk in H. pose proof (near_pos freq 888 12 0 Hf H). lia.
        - exfalso. revert Hk. apply (rc5_interval_among freq [(1332, 12)]); auto; try reflexivity. exists 1332, 12. cbn; auto. }
      split; [constructor; auto|]. cbn [map total fold_right length]. unfold total in I2. rewrite N1, I2. lia. }
  destruct K as [K1 K2]. pose proof (samples_ones seg 0 kk K1) as S. rewrite Es, L in S. change (N.odd 0) with false in S. unfold edge in *. clear -S K2 T. lia.
Qed.

(** ** The edge that ends the last mark of a transmission *)

Lemma commands_last {C E} h (os : list (result (option C) E)) o : (h <= length os)%nat -> (forall x, o <> ROk (Some x)) ->
  commands (skipn h (os ++ [o])) = commands (skipn h os).
Proof.
  intros L Ho. rewrite skipn_app. replace (h - length os)%nat with 0%nat by lia. cbn [skipn].
  unfold commands. rewrite flat_map_app. cbn [flat_map]. destruct o as [[x|]|]; [destruct (Ho x eq_refl)| |]; rewrite app_nil_r; reflexivity.
Qed.

Lemma heard_ended {D : decoder} {C : Type} (into : dcmd D -> C) r0 h body d r os X :
  (forall r1 os1, @run_edges D C into r0 (h ++ body) = Val (r1, os1) -> commands (skipn (length h) os1) = X) ->
  (forall r1 os1 r' x, @run_edges D C into r0 (h ++ body) = Val (r1, os1) ->
     @run_edges D C into r0 ((h ++ body) ++ [(false, d)]) = Val (r', os1 ++ [ROk (Some x)]) -> False) ->
  @run_edges D C into r0 (h ++ body ++ [(false, d)]) = Val (r, os) -> commands (skipn (length h) os) = X.
Proof.
  intros Hb Hn E. rewrite app_assoc in E. pose proof E as E'.
  apply run_edges_snoc in E. destruct E as (r1 & os1 & o & E1 & E2 & ->).
  rewrite <- (Hb r1 os1 E1). apply commands_last.
  - pose proof (run_edges_length into _ r0 r1 os1 E1) as L. rewrite app_length in L. unfold edge, outcome in *. lia.
  - intros x ->. exact (Hn r1 os1 r x E1 E').
Qed.

Lemma nec_end b m freq V (C : Type) (into : nv_cmd V -> C) h d r0 r os x :
  timebase m freq -> freq < 2 ^ 32 -> nv_timing V = NEC_STANDARD_TIMING \/ nv_timing V = NEC_SAMSUNG_TIMING ->
  periods_fit (h ++ [(false, d)]) -> receiver_new (nec_protocol b m V) freq = Val r0 ->
  run_edges (D := nec_dec b m V) into r0 (h ++ [(false, d)]) = Val (r, os ++ [ROk (Some x)]) -> False.
Proof.
  intros Hm Hf HT Hfit E0 E. destruct (nec_sound_report b m freq V Hm Hf HT into h false d r0 r os x E0 Hfit E) as [K _]. discriminate.
Qed.

Lemma denon_end b m freq (C : Type) (into : denon_command -> C) h d r0 r os x :
  timebase m freq -> freq < 2 ^ 32 ->
  periods_fit (h ++ [(false, d)]) -> receiver_new (denon_protocol b m) freq = Val r0 ->
  run_edges (D := denon_dec b m) into r0 (h ++ [(false, d)]) = Val (r, os ++ [ROk (Some x)]) -> False.
Proof.
  intros Hm Hf Hfit E0 E. destruct (denon_sound_report b m freq C into h false d r0 r os x Hm Hf E0 Hfit E) as [K _]. discriminate.
Qed.

Lemma sbp_end b m freq (C : Type) (into : sbp_command -> C) h d r0 r os x :
  timebase m freq -> freq < 2 ^ 32 ->
  short (h ++ [(false, d)]) -> receiver_new (sbp_protocol b m) freq = Val r0 ->
  run_edges (D := sbp_dec b m) into r0 (h ++ [(false, d)]) = Val (r, os ++ [ROk (Some x)]) -> False.
Proof.
  intros Hm Hf Hs E0 E. destruct (sbp_sound_report b m freq Hm Hf into h false d r0 r os x E0 (or_introl Hs) E) as [K _]. discriminate.
Qed.

(** An RC5 receiver reports after an interval of one or two half-bits only. *)
Lemma rc5_end b m freq (C : Type) (into : rc5_command -> C) h d r0 r os x :
  timebase m freq -> freq < 2 ^ 32 -> 8 <= usize_bits b -> (forall n, ~ rc5_interval freq n d) ->
  receiver_new (rc5_protocol b m) freq = Val r0 ->
  run_edges (D := rc5_dec b) into r0 (h ++ [(false, d)]) = Val (r, os ++ [ROk (Some x)]) -> False.
Proof.
  intros Hm Hf Hu Hd E0 E.
  destruct (rc5_sound_report b m freq Hm Hf Hu into h false d r0 r os x E0 E) as (c & _ & h1 & g & seg & bits & E1 & S & L & _).
  pose proof (stream_length _ _ _ S) as Ls. destruct seg as [|y seg _] using rev_ind; [cbn [length] in Ls; lia|].
  replace (h1 ++ (true, g) :: seg ++ [y]) with ((h1 ++ (true, g) :: seg) ++ [y]) in E1 by (rewrite <- app_assoc; reflexivity).
  apply app_inj_tail in E1. destruct E1 as [_ <-].
  destruct (stream_intervals _ _ _ S false d) as (n & Hn); [apply in_or_app; right; left; reflexivity|].
  exact (Hd n Hn).
Qed.

(** After a report the decoder has been reset. *)
Lemma report_resets {D : decoder} {C : Type} (into : dcmd D -> C) r0 h e d r os x :
  @run_edges D C into r0 (h ++ [(e, d)]) = Val (r, os ++ [ROk (Some x)]) -> exists s, rv_dec r = d_reset D s.
Proof.
  intros E. apply run_edges_snoc in E. destruct E as (r1 & os1 & o & E1 & E2 & Eo).
  apply app_inj_tail in Eo. destruct Eo as [_ <-]. unfold event_edge in E2.
  destruct (d_event D (rv_dec r1) e d) as [[d1 s1]| |]; cbn [bind] in E2; try discriminate.
  destruct s1; try discriminate; injection E2 as <- _; exists d1; reflexivity.
Qed.

Lemma rc5_end_own b (C : Type) (into : rc5_command -> C) r0 h e d0 d r1 os1 y r x :
  run_edges (D := rc5_dec b) into r0 (h ++ [(e, d0)]) = Val (r1, os1 ++ [ROk (Some y)]) ->
  run_edges (D := rc5_dec b) into r0 ((h ++ [(e, d0)]) ++ [(false, d)]) = Val (r, (os1 ++ [ROk (Some y)]) ++ [ROk (Some x)]) -> False.
Proof.
  intros E1 E. destruct (report_resets (D := rc5_dec b) into r0 h e d0 r1 os1 y E1) as (s & Es).
  apply run_edges_snoc in E. destruct E as (r2 & os2 & o & E2 & E3 & Eo).
  rewrite E1 in E2. injection E2 as <- _. apply app_inj_tail in Eo. destruct Eo as [_ <-].
  unfold event_edge in E3. rewrite Es in E3. cbn [d_event rc5_dec d_reset] in E3. unfold rc5_event, rc5_reset in E3.
  cbn [r5_spans r5_clock r5_state r5_bitbuf] in E3.
  destruct (spans_get _ d) as [k|].
  - destruct (uadd _ _ k 1) as [t1| |]; cbn [bind] in E3; try discriminate.
    destruct (uadd _ _ 0 t1) as [ck| |]; cbn [bind] in E3; discriminate.
  - cbn [bind] in E3. discriminate.
Qed.

Lemma rc6_end_own b (C : Type) (into : rc6_command -> C) r0 h e d0 d r1 os1 y r x :
  run_edges (D := rc6_dec b) into r0 (h ++ [(e, d0)]) = Val (r1, os1 ++ [ROk (Some y)]) ->
  run_edges (D := rc6_dec b) into r0 ((h ++ [(e, d0)]) ++ [(false, d)]) = Val (r, (os1 ++ [ROk (Some y)]) ++ [ROk (Some x)]) -> False.
Proof.
  intros E1 E. destruct (report_resets (D := rc6_dec b) into r0 h e d0 r1 os1 y E1) as (s & Es).
  apply run_edges_snoc in E. destruct E as (r2 & os2 & o & E2 & E3 & Eo).
  rewrite E1 in E2. injection E2 as <- _. apply app_inj_tail in Eo. destruct Eo as [_ <-].
  unfold event_edge in E3. rewrite Es in E3. cbn [d_event rc6_dec d_reset] in E3. unfold rc6_event, rc6_reset in E3.
  cbn [r6_spans r6_clock r6_state r6_data r6_headerdata r6_toggle] in E3.
  destruct (spans_get _ d) as [k|].
  - destruct (uadd _ _ k 1) as [t1| |]; cbn [bind] in E3; try discriminate.
    destruct (uadd _ _ 0 t1) as [ck| |]; cbn [bind] in E3; discriminate.
  - cbn [bind] in E3. discriminate.
Qed.
