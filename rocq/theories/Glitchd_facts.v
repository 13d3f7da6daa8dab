(** * Facts: header marks that are interrupted, Denon and Samsung BluRay *)
From Coq Require Import NArith ZArith List Bool Lia ZifyBool ZifyNat ZifyN.
From Verif Require Import Machine Time Decoder Denon Sbp Receiver Spec Bits Time_facts Run_facts Rc5_facts Spec_receiver Spec_sound Sound_facts
  Spec_cross Cross_facts Example_facts Spec_damage Damage_facts Spec_glitch Glitch_facts Props_glitch.
Import ListNotations.
Open Scope N_scope.

(** If the periods of an interrupted frame contain a header and as many bits as were sent, then
    only the header's mark was interrupted. *)
Lemma header_cut (P S : N -> Prop) M h ds qs q1 hd dd q2 : dropouts (h :: ds) qs ->
  Forall (fun x => period x <= M) ds -> (forall y, y <= M -> ~ P y) -> (forall y, y <= fst h -> ~ P y) ->
  map period qs = q1 ++ hd :: dd ++ q2 -> P hd -> length dd = length ds -> Forall S dd ->
  (forall x y, In x ds -> y <= fst x -> ~ S y) ->
  dd = map period ds /\ Forall (fun y => y <= fst h) q1.
Proof.
  intros D M0 Nm Nh Eq Hhd L Fs Ns.
  destruct (dropouts_head _ _ D _ _ eq_refl) as (hs & a & qs' & -> & D' & Fh).
  pose proof (dropouts_bound M _ _ D' M0) as Mq.
  assert (K : map period qs' = dd ++ q2 /\ Forall (fun y => y <= fst h) q1).
  { rewrite map_app in Eq. clear -Eq Fh Mq Nm Nh Hhd. revert q1 Eq. induction Fh as [|y hs Hy Fh IH]; intros q1 Eq.
    - cbn [map app] in Eq. change (map period ((a, snd h) :: qs') = q1 ++ hd :: dd ++ q2) in Eq.
      destruct (only_header P M _ qs' q1 hd _ Mq Nm Eq Hhd) as (-> & _ & Eq2). split; [exact Eq2|constructor].
    - destruct q1 as [|z q1]; cbn [map app] in Eq; injection Eq as Ez Eq.
      + exfalso. rewrite <- Ez in Hhd. exact (Nh _ Hy Hhd).
      + destruct (IH _ Eq) as [K1 K2]. split; [exact K1|]. constructor; [rewrite <- Ez; exact Hy|exact K2]. }
  destruct K as [Eq2 K]. split; [|exact K].
  destruct (dropouts_first _ _ D') as [-> |(d1 & x & d2 & a0 & b0 & rest & Ed & Eqs & Lx)].
  - rewrite <- (app_nil_r (map period ds)) in Eq2. symmetry. apply (same_prefix _ _ _ _ Eq2). rewrite map_length. lia.
  - exfalso. assert (Hx : In (period (a0, b0)) dd).
    { rewrite Eqs, map_app in Eq2. cbn [map] in Eq2. rewrite Ed, app_length in L. cbn [length] in L.
      assert (Ll : (length (map period d1) < length dd)%nat) by (rewrite map_length; lia).
      set (u := map period d1) in *. clearbody u. clear -Eq2 Ll. revert dd Eq2 Ll. induction u as [|z u IH]; intros [|y dd] E Ll; cbn [length app] in *; try lia.
      - injection E as <- _. left. reflexivity.
      - injection E as _ E. right. apply IH; [exact E|lia]. }
    rewrite Forall_forall in Fs. apply (Ns x (period (a0, b0))); [rewrite Ed; apply in_or_app; right; left; reflexivity|exact Lx|exact (Fs _ Hx)].
Qed.

Lemma same_bits (R R' : bool -> N -> Prop) n w w' ds : w < 2 ^ N.of_nat n -> w' < 2 ^ N.of_nat n ->
  (forall bt d, R bt d -> R' (negb bt) d -> False) ->
  Forall2 R (bits_lsb n w) ds -> Forall2 R' (bits_lsb n w') ds -> w' = w.
Proof.
  intros Hw Hw' N F F'. assert (E : bits_lsb n w = bits_lsb n w').
  { set (u := bits_lsb n w) in *. set (u' := bits_lsb n w') in *. clearbody u u'. revert u' F'. clear -F N.
    induction F as [|bt x u ds H F IH]; intros u' F'; inversion F' as [|bt' y u0 ys H' F0]; subst; [reflexivity|].
    f_equal; [|apply IH; exact F0]. specialize (N bt x H). destruct bt, bt'; cbn [negb] in N; try reflexivity; destruct (N H'). }
  pose proof (val_bits_lsb n w) as V. pose proof (val_bits_lsb n w') as V'. rewrite <- E in V'. rewrite V in V'.
  rewrite !N.mod_small in V' by assumption. auto.
Qed.

Lemma denon_sound_full b m freq (C : Type) (into : denon_command -> C) h e d r0 r os x :
  timebase m freq -> freq < 2 ^ 32 ->
  receiver_new (denon_protocol b m) freq = Val r0 -> periods_fit (h ++ [(e, d)]) ->
  run_edges (D := denon_dec b m) into r0 (h ++ [(e, d)]) = Val (r, os ++ [ROk (Some x)]) ->
  e = true /\ exists c pre hd ds w, x = into c /\ periods (h ++ [(e, d)]) = pre ++ hd :: ds /\ is_denon_frame freq w hd ds /\
    Denon.denon_bits c < 2 ^ 47 /\
    (forall k, k < 47 -> N.testbit w k = true -> N.testbit (Denon.denon_bits c) k = true) /\
    (Forall (fun p => ~ near freq 5000 9 p) pre -> Denon.denon_bits c = w mod 2 ^ 47).
Proof.
  intros Hm Hf E0 Hfit E.
  apply run_edges_snoc in E. destruct E as (r1 & os1 & o & E1 & E2 & Eo).
  apply app_inj_tail in Eo. destruct Eo as [<- <-].
  apply periods_fit_snoc in Hfit. destruct Hfit as [Hfit Hd].
  destruct (denon_sound_run b m freq Hm Hf into h r0 r1 os E0 Hfit E1) as (s & buf & pv & pre & ps & -> & Ep & Ht).
  destruct (denon_sound_step b m freq Hm Hf into s buf (last_mark h) pv ps e d Ht Hd) as (s' & buf' & o' & E & K).
  rewrite E in E2. injection E2 as <- Eo.
  destruct K as [(K & _)|(-> & _ & _ & c & K & T)]; rewrite K in Eo; [discriminate|]. injection Eo as <-.
  destruct T as (pre' & hd & ds & w & E' & F & T1 & T2 & T3).
  split; [reflexivity|]. exists c, (pre ++ pre'), hd, ds, w. rewrite periods_snoc, Ep, <- app_assoc, E', <- app_assoc.
  do 5 (split; auto). intros Fp. apply Forall_app in Fp. apply T3, Fp.
Qed.

Lemma denon_reports b m freq (C : Type) (into : denon_command -> C) hist gap evs r0 r os x :
  timebase m freq -> freq < 2 ^ 32 -> 20000 <= freq ->
  longer freq 13500 8 gap -> periods_fit (hist ++ (true, gap) :: evs) ->
  receiver_new (denon_protocol b m) freq = Val r0 ->
  run_edges (D := denon_dec b m) into r0 (hist ++ (true, gap) :: evs) = Val (r, os) ->
  In x (commands (skipn (length hist) os)) ->
  exists c q1 hd ds q2 w, x = into c /\ periods_from 0 evs = q1 ++ hd :: ds ++ q2 /\ is_denon_frame freq w hd ds /\
    Denon.denon_bits c < 2 ^ 47 /\
    (forall k, k < 47 -> N.testbit w k = true -> N.testbit (Denon.denon_bits c) k = true) /\
    (Forall (fun p => ~ near freq 5000 9 p) (periods hist ++ q1) -> Denon.denon_bits c = w mod 2 ^ 47).
Proof.
  intros Hm Hf Hlo Hg Hfit E0 E Hi.
  destruct (reported_at (D := denon_dec b m) into r0 hist _ r os x E Hi) as (k & e & d & rest & r' & os' & Ek & E').
  rewrite app_assoc in E'.
  assert (Hfit' : periods_fit ((hist ++ k) ++ [(e, d)])).
  { rewrite Ek in Hfit. change ((e, d) :: rest) with ([(e, d)] ++ rest) in Hfit. rewrite !app_assoc in Hfit.
    apply periods_fit_app in Hfit. exact Hfit. }
  destruct (denon_sound_full b m freq C into (hist ++ k) e d r0 r' os' x Hm Hf E0 Hfit' E') as (-> & c & pre & hd & ds & w & -> & Eps & (Hhd & Hw & F) & T1 & T2 & T3).
  assert (G : forall p t, near freq p t (last_mark hist + gap) -> p <= 13500 ->
                t <= 8 \/ (100 + t) * p <= 108 * 13500 - 10000 -> False).
  { intros p t Hn Hp Ht. eapply longer_not_near; [exact Hlo|exact Hg| |exact Hp|exact Ht|exact Hn]. lia. }
  assert (Gh : ~ near freq 5000 9 (last_mark hist + gap)).
  { intros Hn. apply (G _ _ Hn); [lia|right; vm_compute; discriminate]. }
  assert (Gd : ~ In (last_mark hist + gap) ds).
  { intros H. clear -F H G. induction F as [|bt dd bs ds H' F IH]; [destruct H|]. destruct H as [-> |H]; [|auto].
    unfold denon_seen_bit in H'. apply (G _ _ H'); [destruct bt; lia|]. right. destruct bt; vm_compute; discriminate. }
  destruct k as [|y k2]; cbn [app] in Ek; injection Ek as Ey Ek.
  { exfalso. subst d evs. rewrite app_nil_r in Eps. rewrite periods_snoc in Eps. destruct ds as [|y ds _] using rev_ind.
    - apply forall2_length in F. unfold bits_lsb in F. rewrite map_length, seq_length in F. discriminate.
    - change (pre ++ hd :: ds ++ [y]) with (pre ++ (hd :: ds) ++ [y]) in Eps. rewrite app_assoc in Eps.
      apply app_inj_tail in Eps. destruct Eps as [_ Ey]. apply Gd. rewrite Ey. apply in_or_app. right. left. reflexivity. }
  subst y evs. assert (Ep : periods ((hist ++ (true, gap) :: k2) ++ [(true, d)]) = periods hist ++ (last_mark hist + gap) :: periods_from 0 (k2 ++ [(true, d)])).
  { rewrite <- app_assoc. cbn [app]. apply periods_gap. }
  unfold edge in *. rewrite Ep in Eps.
  replace (k2 ++ (true, d) :: rest) with ((k2 ++ [(true, d)]) ++ rest) in * by (rewrite <- app_assoc; reflexivity).
  destruct (periods_from_app (k2 ++ [(true, d)]) 0 rest) as [more Em]. unfold edge in *. rewrite Em in *.
  apply split_at in Eps. destruct Eps as [(p & Eq & _)|(p & Eq & Epre)].
  - exfalso. destruct p as [|y p]; cbn [app] in Eq; injection Eq as -> Eq; [exact (Gh Hhd)|].
    apply Gd. rewrite Eq. apply in_or_app. right. left. reflexivity.
  - exists c, p, hd, ds, more, w. split; [reflexivity|]. split; [rewrite Eq, <- app_assoc; reflexivity|].
    split; [split; auto|]. split; [exact T1|]. split; [exact T2|]. intros Fp. apply T3. rewrite Epre.
    apply Forall_app in Fp. destruct Fp as [Fp Fq]. apply Forall_app. split; [exact Fp|constructor; auto].
Qed.

Lemma sbp_reports b m freq (C : Type) (into : sbp_command -> C) hist gap evs r0 r os x :
  timebase m freq -> freq < 2 ^ 32 -> 20000 <= freq ->
  longer freq 13500 8 gap -> short (hist ++ (true, gap) :: evs) -> alt false evs ->
  receiver_new (sbp_protocol b m) freq = Val r0 ->
  run_edges (D := sbp_dec b m) into r0 (hist ++ (true, gap) :: evs) = Val (r, os) ->
  In x (commands (skipn (length hist) os)) ->
  exists aw cw q1 hd ads pause cds q2, x = into (sbp_unpack aw cw) /\
    periods_from 0 evs = q1 ++ hd :: (ads ++ pause :: cds) ++ q2 /\
    near freq 9000 6 hd /\ near freq 5000 6 pause /\ aw < 2 ^ 16 /\ cw < 2 ^ 20 /\
    Forall2 (sbp_seen_bit freq) (bits_lsb 16 aw) ads /\ Forall2 (sbp_seen_bit freq) (bits_lsb 20 cw) cds.
Proof.
  intros Hm Hf Hlo Hg Hs Ha E0 E Hi.
  destruct (reported_at (D := sbp_dec b m) into r0 hist _ r os x E Hi) as (k & e & d & rest & r' & os' & Ek & E').
  rewrite app_assoc in E'.
  assert (Hs' : short ((hist ++ k) ++ [(e, d)])).
  { rewrite Ek in Hs. unfold short in *. change ((e, d) :: rest) with ([(e, d)] ++ rest) in Hs. rewrite !app_assoc in Hs.
    apply Forall_app in Hs. apply Hs. }
  destruct (sbp_sound_report b m freq Hm Hf into (hist ++ k) e d r0 r' os' x E0 (or_introl Hs') E')
    as (-> & aw & cw & ps & sv & -> & R & pre & hd & ads & pause & cds & Eps & Hhd & Hp & Haw & Hcw & Fa & Fc).
  exists aw, cw.
  assert (G : forall sv0 p t, near freq p t (sv0 + gap) -> p <= 13500 ->
                t <= 8 \/ (100 + t) * p <= 108 * 13500 - 10000 -> False).
  { intros sv0 p t Hn Hp' Ht. eapply longer_not_near; [exact Hlo|exact Hg| |exact Hp'|exact Ht|exact Hn]. lia. }
  assert (G' : forall bt sv0, ~ sbp_seen_bit freq bt (sv0 + gap)).
  { intros bt sv0 H. unfold sbp_seen_bit in H. apply (G _ _ _ H); [destruct bt; lia|right; destruct bt; vm_compute; discriminate]. }
  assert (G2 : forall sv0 bs ds, Forall2 (sbp_seen_bit freq) bs ds -> ~ In (sv0 + gap) ds).
  { intros sv0 bs ds F. induction F as [|bt dd bs ds H F IH]; [intros []|]. intros [Ed|Hx]; [|auto]. rewrite Ed in H. exact (G' _ _ H). }
  assert (Gd : forall sv0, ~ In (sv0 + gap) (ads ++ pause :: cds)).
  { intros sv0 Hx. apply in_app_or in Hx. destruct Hx as [Hx|[Ex|Hx]].
    - exact (G2 _ _ _ Fa Hx).
    - rewrite Ex in Hp. apply (G _ _ _ Hp); [lia|left; lia].
    - exact (G2 _ _ _ Fc Hx). }
  assert (Ek' : exists k2, k ++ [(true, d)] = (true, gap) :: k2 /\ evs = k2 ++ rest).
  { destruct k as [|y k2]; cbn [app] in Ek; injection Ek as Ey Ek.
    - exists []. subst. auto.
    - exists (k2 ++ [(true, d)]). subst. rewrite <- app_assoc. auto. }
  destruct Ek' as (k2 & Ek2 & Eev). unfold edge in *. rewrite <- app_assoc, Ek2 in R. rewrite Eev in Ha.
  destruct (alt_app _ _ _ Ha) as [Ha1 _].
  destruct (readings_gap hist gap k2 ps sv Ha1 R) as [(ps0 & sv0 & Eps0) _]. rewrite Eps0 in Eps.
  destruct (periods_from_app k2 0 rest) as [more Em]. unfold edge in *.
  apply split_at in Eps. destruct Eps as [(p & Ep & _)|(p & Ep & _)].
  - exfalso. destruct p as [|y p]; cbn [app] in Ep; injection Ep as Ep1 Ep2.
    + rewrite Ep1 in Hhd. apply (G _ _ _ Hhd); [lia|left; lia].
    + apply (Gd sv0). rewrite Ep2. apply in_or_app. right. left. reflexivity.
  - exists p, hd, ads, pause, cds, more. split; [reflexivity|]. split; [rewrite Eev, Em, Ep, <- app_assoc; reflexivity|]. auto 10.
Qed.
