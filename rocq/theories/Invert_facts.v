(** * Lemmas: inverted signals *)
From Coq Require Import NArith ZArith List Bool Lia ZifyBool ZifyNat ZifyN.
From Verif Require Import Machine Time Decoder Nec Rc5 Rc6 Denon Sbp Receiver Spec Bits Time_facts Run_facts Nec_facts Rc5_facts Rc6_facts
  Spec_receiver Spec_sound Sound_facts Biphase_facts Spec_cross Cross_facts Damage_facts Spec_glitch Glitch6_facts State_facts Spec_invert.
Import ListNotations.
Open Scope N_scope.

(** ** Receivers that stay quiet from a falling edge after a pause on *)

Lemma last_mark_fall h d : last_mark (h ++ [(false, d)]) = d.
Proof. unfold last_mark. rewrite rev_app_distr. reflexivity. Qed.

Lemma short_periods_app a b L : Forall (fun q => 100 * q < L) (periods_from 0 (a ++ b)) -> Forall (fun q => 100 * q < L) (periods_from 0 a).
Proof. destruct (periods_from_app a 0 b) as [more ->]. intros H. apply Forall_app in H. apply H. Qed.

(** The periods seen up to a rising edge after the pause. *)
Lemma fall_periods hist gap m1 k q e d rest L : (false, gap) :: (true, m1) :: k = q ++ (e, d) :: rest -> e = true ->
  Forall (fun q => 100 * q < L) (periods_from 0 k) ->
  exists q', periods ((hist ++ q) ++ [(e, d)]) = periods (hist ++ [(false, gap)]) ++ (gap + m1) :: q' /\ Forall (fun q => 100 * q < L) q'.
Proof.
  intros Ek -> Hq. destruct q as [|y q]; cbn [app] in Ek; [discriminate Ek|]. injection Ek as <- Ek.
  destruct q as [|z q]; cbn [app] in Ek.
  - injection Ek as <- <-. exists []. split; [|constructor]. rewrite periods_gap, last_mark_fall. reflexivity.
  - injection Ek as <- ->. exists (periods_from 0 (q ++ [(true, d)])). split.
    + replace ((hist ++ (false, gap) :: (true, m1) :: q) ++ [(true, d)]) with ((hist ++ [(false, gap)]) ++ (true, m1) :: q ++ [(true, d)]) by (rewrite <- !app_assoc; reflexivity).
      rewrite periods_gap, last_mark_fall. reflexivity.
    + apply (short_periods_app _ rest). rewrite <- app_assoc. exact Hq.
Qed.

Lemma nec_quiet b m freq V (C : Type) (into : nv_cmd V -> C) hist gap m1 k r0 r os :
  timebase m freq -> freq < 2 ^ 32 -> 20000 <= freq -> nec_timing_ok (nv_timing V) ->
  longer freq 13500 8 gap -> periods_fit (hist ++ (false, gap) :: (true, m1) :: k) ->
  Forall (fun q => 100 * q < 92 * nominal freq (header_high (nv_timing V) + repeat_low (nv_timing V))) (periods_from 0 k) ->
  receiver_new (nec_protocol b m V) freq = Val r0 ->
  run_edges (D := nec_dec b m V) into r0 (hist ++ (false, gap) :: (true, m1) :: k) = Val (r, os) ->
  commands (skipn (length hist) os) = [].
Proof.
  intros Hm Hf Hlo HT Hg Hfit Hq E0 E.
  assert (Lr : nominal freq (header_high (nv_timing V) + repeat_low (nv_timing V)) <= nominal freq (header_high (nv_timing V) + header_low (nv_timing V))).
  { apply nominal_le. destruct HT as [-> | ->]; vm_compute; discriminate. }
  revert E. apply quiet_run. intros q e d rest r' os' x Ek E. rewrite app_assoc in E.
  assert (Hfit' : periods_fit ((hist ++ q) ++ [(e, d)])).
  { apply periods_fit_app with (h2 := rest). rewrite <- !app_assoc. rewrite Ek in Hfit. exact Hfit. }
  destruct (nec_sound_report b m freq V Hm Hf HT into _ e d r0 r' os' x E0 Hfit' E) as (-> & w & pv & c & _ & _ & K).
  assert (G : forall p t, near freq p t (gap + m1) -> p <= 13500 -> t <= 8 \/ (100 + t) * p <= 108 * 13500 - 10000 -> False).
  { intros p t Hn Hp Ht. eapply longer_not_near; [exact Hlo|exact Hg| |exact Hp|exact Ht|exact Hn]. lia. }
  destruct (fall_periods hist gap m1 k q true d rest _ Ek eq_refl Hq) as (q' & Ps & Hq').
  unfold edge in *. rewrite Ps in K.
  destruct K as [[(pre & hd & ds & Eps & Hhd & Hw & F) _]|[(pre & dd & Eps & Hdd) _]].
  - assert (Fs : Forall (nec_seen freq) ds).
    { clear -F. induction F as [|bt dd bs ds H F IH]; constructor; auto. unfold nec_seen. destruct bt; auto. }
    apply split_at in Eps. destruct Eps as [(p & Ep & _)|(p & Ep & _)].
    + destruct p as [|y p]; cbn [app] in Ep; injection Ep as -> Ep.
      * apply (G _ _ Hhd); [|left; lia]. destruct HT as [-> | ->]; vm_compute; discriminate.
      * rewrite Ep in Fs. apply Forall_app in Fs. destruct Fs as [_ Fs]. inversion Fs as [|y' l [Hn|Hn] _]; subst.
        -- apply (G _ _ Hn); [lia|right; vm_compute; discriminate].
        -- apply (G _ _ Hn); [lia|right; vm_compute; discriminate].
    + rewrite Ep in Hq'. apply Forall_app in Hq'. destruct Hq' as [_ Hq']. inversion Hq' as [|? ? Q _]; subst.
      destruct Hhd as [_ Hhd]. lia.
  - apply split_at in Eps. destruct Eps as [(p & Ep & _)|(p & Ep & _)].
    + destruct p as [|y [|z p]]; cbn [app] in Ep; try discriminate Ep. injection Ep as -> _.
      apply (G _ _ Hdd); [|left; lia]. destruct HT as [-> | ->]; vm_compute; discriminate.
    + rewrite Ep in Hq'. apply Forall_app in Hq'. destruct Hq' as [_ Hq']. inversion Hq' as [|? ? Q _]; subst.
      destruct Hdd as [_ Hdd]. lia.
Qed.

Lemma denon_quiet b m freq (C : Type) (into : denon_command -> C) hist gap m1 k r0 r os :
  timebase m freq -> freq < 2 ^ 32 -> 20000 <= freq ->
  longer freq 13500 8 gap -> periods_fit (hist ++ (false, gap) :: (true, m1) :: k) ->
  Forall (fun q => 100 * q < 91 * nominal freq 5000) (periods_from 0 k) ->
  receiver_new (denon_protocol b m) freq = Val r0 ->
  run_edges (D := denon_dec b m) into r0 (hist ++ (false, gap) :: (true, m1) :: k) = Val (r, os) ->
  commands (skipn (length hist) os) = [].
Proof.
  intros Hm Hf Hlo Hg Hfit Hq E0. apply quiet_run. intros q e d rest r' os' x Ek E. rewrite app_assoc in E.
  assert (Hfit' : periods_fit ((hist ++ q) ++ [(e, d)])).
  { apply periods_fit_app with (h2 := rest). rewrite <- !app_assoc. rewrite Ek in Hfit. exact Hfit. }
  destruct (denon_sound_report b m freq C into _ e d r0 r' os' x Hm Hf E0 Hfit' E) as (-> & pre & hd & ds & w & Eps & Hhd & _ & F).
  assert (G : forall p t, near freq p t (gap + m1) -> p <= 13500 -> t <= 8 \/ (100 + t) * p <= 108 * 13500 - 10000 -> False).
  { intros p t Hn Hp Ht. eapply longer_not_near; [exact Hlo|exact Hg| |exact Hp|exact Ht|exact Hn]. lia. }
  destruct (fall_periods hist gap m1 k q true d rest _ Ek eq_refl Hq) as (q' & Ps & Hq').
  unfold edge in *. rewrite Ps in Eps. apply split_at in Eps. destruct Eps as [(p & Ep & _)|(p & Ep & _)].
  - destruct p as [|y p]; cbn [app] in Ep; injection Ep as -> Ep.
    + apply (G _ _ Hhd); [lia|right; vm_compute; discriminate].
    + assert (Hx : In (gap + m1) ds) by (rewrite Ep; apply in_or_app; right; left; reflexivity).
      clear -F Hx G. induction F as [|bt dd bs ds H F IH]; [destruct Hx|]. destruct Hx as [-> |Hx]; [|auto].
      unfold denon_seen_bit in H. apply (G _ _ H); [destruct bt; lia|]. right. destruct bt; vm_compute; discriminate.
  - rewrite Ep in Hq'. apply Forall_app in Hq'. destruct Hq' as [_ Hq']. inversion Hq' as [|? ? Q _]; subst.
    destruct Hhd as [_ Hhd]. lia.
Qed.

Lemma readings_rise h d evs ps sv : alt false evs -> readings (h ++ (true, d) :: evs) ps sv ->
  (exists ps0 sv0, readings h ps0 sv0 /\ ps = ps0 ++ (sv0 + d) :: periods_from 0 evs).
Proof.
  revert ps sv. induction evs as [|[e de] evs IH] using rev_ind; intros ps sv A R.
  - apply readings_snoc in R. destruct R as (ps0 & sv0 & R & [[E _]|(_ & -> & _)]); [discriminate|].
    exists ps0, sv0. split; [exact R|reflexivity].
  - change ((true, d) :: evs ++ [(e, de)]) with (((true, d) :: evs) ++ [(e, de)]) in R. rewrite app_assoc in R.
    apply readings_snoc in R. destruct R as (ps0 & sv0 & R & K).
    destruct (alt_app _ _ _ A) as [A1 _]. destruct (IH ps0 sv0 A1 R) as (q0 & s0 & R0 & ->).
    destruct (readings_gap h d evs _ _ A1 R) as [_ Hs].
    rewrite periods_from_snoc. exists q0, s0. split; [exact R0|]. 
    destruct K as [(-> & -> & ->)|(-> & -> & _)]; [rewrite app_nil_r; reflexivity|].
    rewrite <- app_assoc. cbn [app].
    destruct evs as [|[e' d'] evs' _] using rev_ind; [cbn in A; destruct A; discriminate|].
    rewrite rev_app_distr. cbn [rev app].
    assert (e' = false) as ->.
    { clear -A. rewrite <- app_assoc in A. apply alt_app in A. destruct A as [_ (f & A)]. cbn [app alt] in A.
      destruct A as (-> & E & _). destruct f; [discriminate|reflexivity]. }
    rewrite (Hs d') by (rewrite removelast_last; reflexivity). reflexivity.
Qed.

Lemma sbp_quiet b m freq (C : Type) (into : sbp_command -> C) hist gap m1 k r0 r os :
  timebase m freq -> freq < 2 ^ 32 -> 20000 <= freq ->
  longer freq 13500 8 gap -> short (hist ++ (false, gap) :: (true, m1) :: k) -> alt false k ->
  Forall (fun q => 100 * q < 94 * nominal freq 9000) (periods_from 0 k) ->
  receiver_new (sbp_protocol b m) freq = Val r0 ->
  run_edges (D := sbp_dec b m) into r0 (hist ++ (false, gap) :: (true, m1) :: k) = Val (r, os) ->
  commands (skipn (length hist) os) = [].
Proof.
  intros Hm Hf Hlo Hg Hs Ha Hq E0. apply quiet_run. intros q e d rest r' os' x Ek E. rewrite app_assoc in E.
  assert (Hs' : short ((hist ++ q) ++ [(e, d)])).
  { unfold short in *. rewrite Ek in Hs. change ((e, d) :: rest) with ([(e, d)] ++ rest) in Hs. rewrite !app_assoc in Hs.
    apply Forall_app in Hs. apply Hs. }
  destruct (sbp_sound_report b m freq Hm Hf into _ e d r0 r' os' x E0 (or_introl Hs') E)
    as (-> & aw & cw & ps & sv & _ & R & pre & hd & ads & pause & cds & Eps & Hhd & Hp & _ & _ & Fa & Fc).
  assert (G : forall p t, near freq p t (gap + m1) -> p <= 13500 -> t <= 8 \/ (100 + t) * p <= 108 * 13500 - 10000 -> False).
  { intros p t Hn Hp' Ht. eapply longer_not_near; [exact Hlo|exact Hg| |exact Hp'|exact Ht|exact Hn]. lia. }
  assert (Ps : exists ps0 q', ps = ps0 ++ (gap + m1) :: q' /\ Forall (fun q => 100 * q < 94 * nominal freq 9000) q').
  { destruct q as [|y q]; cbn [app] in Ek; [discriminate Ek|]. injection Ek as <- Ek.
    assert (Y : forall l ps sv, alt false l -> readings ((hist ++ [(false, gap)]) ++ (true, m1) :: l) ps sv ->
              exists ps0, ps = ps0 ++ (gap + m1) :: periods_from 0 l).
    { intros l ps' sv' Al R'. destruct (readings_rise _ _ _ _ _ Al R') as (ps0 & sv0 & R0 & ->).
      apply readings_snoc in R0. destruct R0 as (p0 & s0 & _ & [(_ & _ & ->)|(X & _)]); [|discriminate]. exists ps0. reflexivity. }
    destruct q as [|z q]; cbn [app] in Ek.
    - injection Ek as <- <-. destruct (Y [] ps sv) as [ps0 ->]; [exact Logic.I|exact R|]. exists ps0, []. split; [reflexivity|constructor].
    - injection Ek as <- ->. change ((true, d) :: rest) with ([(true, d)] ++ rest) in *. rewrite app_assoc in Ha, Hq. destruct (Y (q ++ [(true, d)]) ps sv) as [ps0 ->].
      + apply alt_app in Ha. apply Ha.
      + revert R. rewrite <- !app_assoc. cbn [app]. auto.
      + exists ps0, (periods_from 0 (q ++ [(true, d)])). split; [reflexivity|]. apply (short_periods_app _ rest). exact Hq. }
  destruct Ps as (ps0 & q' & -> & Hq').
  assert (S : forall bs ds, Forall2 (sbp_seen_bit freq) bs ds -> Forall (sbp_seen freq) ds).
  { intros bs ds F. induction F as [|bt dd bs ds H F IH]; constructor; auto. unfold sbp_seen_bit in H. unfold sbp_seen.
    destruct bt; auto. }
  assert (G' : ~ sbp_seen freq (gap + m1)).
  { intros [H|H]; apply (G _ _ H); try lia; right; vm_compute; discriminate. }
  apply split_at in Eps. destruct Eps as [(p & Ep & _)|(p & Ep & _)].
  - destruct p as [|y p]; cbn [app] in Ep; injection Ep as -> Ep.
    + apply (G _ _ Hhd); [lia|left; lia].
    + assert (Hx : In (gap + m1) (ads ++ pause :: cds)) by (rewrite Ep; apply in_or_app; right; left; reflexivity).
      apply in_app_or in Hx. destruct Hx as [Hx|[->|Hx]].
      * apply G'. apply S in Fa. rewrite Forall_forall in Fa. auto.
      * apply (G _ _ Hp); [lia|left; lia].
      * apply G'. apply S in Fc. rewrite Forall_forall in Fc. auto.
  - rewrite Ep in Hq'. apply Forall_app in Hq'. destruct Hq' as [_ Hq']. inversion Hq' as [|? ? Q _]; subst.
    destruct Hhd as [_ Hhd]. lia.
Qed.

(** ** Marks and spaces exchanged *)

Lemma alt_inverted l : forall f, alt f l -> alt (negb f) (inverted l).
Proof. induction l as [|[e d] l IH]; intros f A; [exact Logic.I|]. cbn in A |- *. destruct A as [<- A]. split; [reflexivity|]. apply IH in A. exact A. Qed.

Lemma inverted_app l l' : inverted (l ++ l') = inverted l ++ inverted l'.
Proof. apply map_app. Qed.

Lemma inverted_bound freq bit L tail ps : forall sv, 100 * sv + 112 * nominal freq bit < L ->
  Forall (fun x => near freq bit 12 (fst x)) ps -> Forall (fun x => 100 * snd x + 112 * nominal freq bit < L) ps ->
  tail = [] \/ (exists d, tail = [(false, d)] /\ near freq bit 12 d) ->
  Forall (fun q => 100 * q < L) (periods_from sv (inverted (pair_edges ps ++ tail))).
Proof.
  induction ps as [|[mk sp] ps IH]; intros sv Hs Fm Fs Ht.
  - destruct Ht as [->|(d & -> & Hd & _)]; cbn [pair_edges flat_map app inverted map fst snd negb periods_from]; constructor; [|constructor]. lia.
  - inversion Fm as [|? ? [Hk _] Fm']; inversion Fs as [|? ? Hk' Fs']; subst. cbn [pair_edges flat_map app inverted map fst snd negb periods_from] in *.
    constructor; [lia|]. apply IH; auto.
Qed.

Lemma inverted_frame freq lead bit ps tail gap : marks_near freq lead bit ps ->
  tail = [] \/ (exists d, tail = [(false, d)] /\ near freq bit 12 d) ->
  exists m1 k, inverted ((true, gap) :: pair_edges ps ++ tail) = (false, gap) :: (true, m1) :: k /\ alt false k /\
    forall L, Forall (fun x => 100 * snd x + 112 * nominal freq bit < L) ps -> Forall (fun q => 100 * q < L) (periods_from 0 k).
Proof.
  intros (h & ds & -> & Hh & Fm) Ht. exists (fst h), (inverted ((true, snd h) :: pair_edges ds ++ tail)). split; [|split].
  - destruct h. reflexivity.
  - apply (alt_inverted _ true). split; [reflexivity|]. apply alt_sent. destruct Ht as [->|(d & -> & _)]; [left; reflexivity|right; eauto].
  - intros L F. inversion F as [|? ? H F']; subst. cbn [inverted map fst snd negb periods_from]. apply (inverted_bound freq bit L tail ds); auto.
Qed.

Lemma ended_tail freq bit (P : list edge -> Prop) evs : ended freq bit P evs ->
  exists body tail, evs = body ++ tail /\ P body /\ (tail = [] \/ (exists d, tail = [(false, d)] /\ near freq bit 12 d)).
Proof.
  intros [H|(body & d & -> & H & Hd)]; [exists evs, []; rewrite app_nil_r; auto|exists body, [(false, d)]; eauto 6].
Qed.

(** ** RC5: where the bits of an inverted word are read *)

(** After a bit [x]: the edges between equal bits, and the one at the end. *)
Lemma inverted_samples data : forall x ck l, N.odd ck = true ->
  map fst l = map negb (map fst (level_edges x 1 (flat_map rc5_half data)) ++ [false]) ->
  let bits := samples false ck l (map snd (level_edges x 1 (flat_map rc5_half data)) ++ [1]) in
  (length bits <= S (length data))%nat /\
  (length bits = S (length data) -> data = repeat x (length data) /\ bits = repeat x (length data) ++ [true]).
Proof.
  assert (O1 : forall ck, N.odd (ck + 1) = negb (N.odd ck)) by (intros; rewrite N.odd_add; destruct (N.odd ck); reflexivity).
  assert (O2 : forall ck, N.odd (ck + 2) = N.odd ck) by (intros; rewrite N.odd_add; destruct (N.odd ck); reflexivity).
  induction data as [|y data IH]; intros x ck l Ho El bits; subst bits; cbn [flat_map level_edges map app length] in *.
  - destruct l as [|[e d] [|z l]]; try discriminate El. cbn [map fst] in El. injection El as ->.
    cbn [samples]. rewrite O1, Ho. cbn [negb Bool.eqb app length repeat]. auto.
  - destruct (Bool.bool_dec x y) as [<-|Hxy].
    + assert (E : level_edges x 1 (rc5_half x ++ flat_map rc5_half data) = (negb x, 1) :: (x, 1) :: level_edges x 1 (flat_map rc5_half data)).
      { destruct x; reflexivity. }
      rewrite E in *. cbn [map fst snd app] in El |- *.
      destruct l as [|[e1 d1] [|[e2 d2] l]]; try discriminate El. cbn [map fst] in El. injection El as -> -> El.
      cbn [samples]. rewrite !O1, Ho. cbn [negb Bool.eqb app length repeat].
      destruct (IH x (ck + 1 + 1) l) as [H1 H2]; [rewrite !O1, Ho; reflexivity|exact El|].
      split; [lia|]. intros H. injection H as H. destruct (H2 H) as [K1 K2]. rewrite Bool.negb_involutive, K2, <- K1. auto.
    + assert (E : level_edges x 1 (rc5_half y ++ flat_map rc5_half data) = (y, 2) :: level_edges y 1 (flat_map rc5_half data)).
      { destruct x, y; try reflexivity; destruct Hxy; reflexivity. }
      rewrite E in *. cbn [map fst snd app] in El |- *.
      destruct l as [|[e1 d1] l]; try discriminate El. cbn [map fst] in El. injection El as -> El.
      cbn [samples]. rewrite O2, Ho. cbn [Bool.eqb app].
      destruct (IH y (ck + 2) l) as [H1 _]; [rewrite O2; exact Ho|exact El|]. split; lia.
Qed.

Lemma samples_parity par l : forall ck ck' ns, N.odd ck = N.odd ck' -> samples par ck l ns = samples par ck' l ns.
Proof.
  induction l as [|[e d] l IH]; intros ck ck' [|n ns] H; cbn [samples]; auto.
  assert (E : N.odd (ck + n) = N.odd (ck' + n)) by (rewrite !N.odd_add, H; reflexivity). rewrite E. f_equal. auto.
Qed.

Lemma total_cons n ns : total (n :: ns) = n + total ns.
Proof. reflexivity. Qed.

(** What can be read from an inverted word: nothing, but for a word of ones. *)
Lemma rc5_inverted freq w gap frame tail a g seg c bits : 20000 <= freq -> w < 2 ^ 14 -> N.testbit w 13 = true ->
  rc5_edges freq w gap frame -> tail = [] \/ (exists d, tail = [(false, d)] /\ near freq 889 12 d) ->
  inverted (frame ++ tail) = (false, gap) :: a ++ (true, g) :: seg ++ c ->
  rc5_stream freq seg bits -> length bits = 13%nat -> w = 2 ^ 14 - 1 /\ bits = repeat true 13.
Proof.
  intros Hlo Hw0 Hw (n & noms & acts & El & -> & F) Ht E (evs1 & last & ks & k & Es & Fk & Sb & _) Lb.
  destruct (rc5_noms w n noms El) as [B _].
  assert (D : exists data, bits_msb 14 w = true :: data /\ length data = 13%nat).
  { exists (bits_msb 13 w). rewrite bits_msb_S. change (N.of_nat 13) with 13. rewrite Hw. split; [reflexivity|apply bits_msb_length]. }
  destruct D as (data & Ed & Ld). unfold rc5_wave in El. rewrite Ed in El. cbn [flat_map rc5_half app level_edges Bool.eqb] in El.
  injection El as <- <-. set (noms := level_edges true 1 (flat_map rc5_half data)) in *.
  pose proof (level_total_less (flat_map rc5_half data) true 1 ltac:(lia)) as T. fold noms in T. rewrite rc5_half_length, Ld in T.
  cbn [app inverted map fst snd negb] in E. injection E as E. change (inverted (acts ++ tail) = a ++ (true, g) :: seg ++ c) in E.
  set (tn := match tail with [] => [] | _ => [1] end : list N).
  assert (U : Forall2 (unit_of freq) (map snd noms ++ tn) (inverted (acts ++ tail))).
  { rewrite inverted_app. apply Forall2_app.
    - clear -F B. induction F as [|nom act noms acts H F IH]; cbn [map inverted]; constructor.
      + inversion B as [|x l [H1 H2] _]; subst. apply biphase_wide in H. unfold rc5_tol in H.
        assert (E : snd nom = 1 \/ snd nom = 2) by lia. unfold unit_of. cbn [snd]. destruct E as [E|E]; rewrite E in H; rewrite E; [left|right; left]; split; auto.
      + inversion B; subst. auto.
    - unfold tn. destruct Ht as [->|(d & -> & Hd)]; [constructor|]. constructor; [left; auto|constructor]. }
  assert (Tt : tail = [] /\ total (map snd noms ++ tn) <= 26 \/ (exists d, tail = [(false, d)]) /\ tn = [1] /\ total (map snd noms ++ tn) <= 27).
  { unfold tn. destruct Ht as [->|(d & -> & Hd)]; [left|right]; rewrite total_app; cbn [total fold_right]; [split; [reflexivity|lia]|]. split; [eauto|]. split; [reflexivity|lia]. }
  rewrite E in U. apply Forall2_app_inv_r in U. destruct U as (na & nr & Ua & Ur & En).
  inversion Ur as [|ng y nr' z Ug Us Ey Ez]; subst nr y z. clear Ur.
  apply Forall2_app_inv_r in Us. destruct Us as (nseg & nc & Us & Uc & ->).
  assert (Q : nseg = ks ++ [k] /\ Forall (fun n => 1 <= n) nseg).
  { set (kk := ks ++ [k]) in *. clearbody kk. clear -Hlo Us Fk. revert kk Fk. induction Us as [|n x nseg seg U Fs IH]; intros kk Fk.
    - inversion Fk; subst. auto.
    - cbn [map] in Fk. inversion Fk as [|k0 y kk0 z Hk Fk0]; subst. destruct (IH _ Fk0) as [-> Q].
      destruct (unit_read freq Hlo n x k0 U Hk) as [-> H2]. apply unit_low in U; [|exact Hlo]. split; [reflexivity|]. constructor; [lia|exact Q]. }
  destruct Q as [Q1 Q2]. rewrite <- Q1 in Sb.
  pose proof (samples_time seg nseg 0 Q2) as St. rewrite Sb, Lb in St. change (N.odd 0) with false in St. cbn iota in St.
  apply unit_low in Ug; [|exact Hlo]. rewrite En, total_app, total_cons, total_app in Tt.
  destruct Tt as [[_ Tt]|((d & ->) & Etn & Tt)]; [lia|].
  assert (Z : forall ns l, Forall2 (unit_of freq) ns l -> total ns = 0 -> ns = [] /\ l = []).
  { intros ns l Fz Tz. inversion Fz as [|n1 x1 ns1 l1 U1 _]; subst; [auto|]. apply unit_low in U1; [|exact Hlo]. rewrite total_cons in Tz. lia. }
  destruct (Z _ _ Ua) as [-> ->]; [lia|]. destruct (Z _ _ Uc) as [-> ->]; [lia|]. assert (ng = 1) as -> by lia.
  cbn [app] in E, En. rewrite !app_nil_r in *. rewrite Etn in En.
  destruct (inverted_samples data true 1 ((true, g) :: seg) eq_refl) as [_ K].
  { fold noms. rewrite <- E. unfold inverted. rewrite !map_app, !map_map. cbn [map fst]. f_equal.
    clear -F. induction F as [|x y xs ys [H _] F IH]; [reflexivity|]. cbn [map fst]. rewrite H, IH. reflexivity. }
  fold noms in K. rewrite En in K. cbn [samples] in K. change (N.odd (1 + 1)) with false in K. cbn [Bool.eqb app length] in K.
  rewrite (samples_parity false seg (1 + 1) 0) in K by reflexivity. rewrite Sb, Lb, Ld in K. destruct (K eq_refl) as [K1 K2].
  split; [|cbn [repeat app] in K2; injection K2 as K2; exact K2].
  pose proof (val_bits_msb 14 w) as V. rewrite Ed, K1 in V. rewrite N.mod_small in V by exact Hw0. rewrite <- V. reflexivity.
Qed.

(** The word of ones is read as itself. *)

Lemma rc5_fall b m freq (C : Type) (into : rc5_command -> C) (r : receiver (rc5_dec b)) gap :
  timebase m freq -> freq < 2 ^ 32 -> 20000 <= freq -> r5_spans (rv_dec r) = spans_of m freq rc5_pulses -> longer freq 13500 8 gap -> 8 <= usize_bits b ->
  event_edge (D := rc5_dec b) into r gap false =
    Val (@mkRecv (rc5_dec b) (mkRc5Dec R5Idle 0 0 (spans_of m freq rc5_pulses)) (rv_prev r), ROk None).
Proof.
  intros Hm Hf Hlo Es Hl Hu. destruct r as [d pv]. cbn [rv_dec] in Es. unfold event_edge. cbn [d_event rc5_dec rv_dec].
  unfold rc5_event. rewrite Es.
  assert (Ng : spans_get (spans_of m freq rc5_pulses) gap = None).
  { destruct (spans_get _ gap) as [v|] eqn:Ev'; [|reflexivity]. exfalso.
    destruct (rc5_interval_of b m freq Hm Hf Hu gap v Ev') as [[[_ H]|[[_ H]|(_ & _ & H)]] _].
    - eapply (longer_not_near freq 889 13 gap gap); eauto; lia.
    - eapply (longer_not_near freq 1778 11 gap gap); eauto; lia.
    - rewrite H in Hl. unfold longer in Hl. lia. }
  rewrite Ng. cbn [bind]. unfold rc5_reset. cbn [r5_clock r5_state r5_bitbuf r5_spans rc5_transition bind]. rewrite Es. reflexivity.
Qed.

Lemma rc5_idle_start b m freq (C : Type) (into : rc5_command -> C) d0 pv : 8 <= usize_bits b ->
  event_edge (D := rc5_dec b) into (@mkRecv (rc5_dec b) (mkRc5Dec R5Idle 0 0 (spans_of m freq rc5_pulses)) pv) d0 true =
  Val (@mkRecv (rc5_dec b) (mkRc5Dec (R5Data 12) (2 ^ 13) 0 (spans_of m freq rc5_pulses)) pv, ROk None).
Proof.
  intros Hu. unfold event_edge. cbn [d_event rc5_dec rv_dec]. unfold rc5_event. cbn [r5_spans r5_clock r5_state r5_bitbuf].
  destruct (spans_get (spans_of m freq rc5_pulses) d0) as [k|] eqn:Ek.
  - apply spans_get_below in Ek. unfold spans_of in Ek. rewrite map_length in Ek. cbn in Ek.
    pose proof (usize8 b Hu). rewrite (uadd_small _ _ k 1) by lia. cbn [bind].
    rewrite uadd_small by lia. cbn [bind r5_clock r5_state r5_bitbuf r5_spans rc5_transition].
    destruct b as [[] uw]; reflexivity.
  - cbn [bind]. unfold rc5_reset. cbn [r5_clock r5_state r5_bitbuf r5_spans rc5_transition bind].
    destruct b as [[] uw]; reflexivity.
Qed.

Lemma rc5_ones_inverted freq gap frame d : rc5_edges freq (2 ^ 14 - 1) gap frame -> near freq 889 (guaranteed freq 12) d ->
  exists n0 noms d1 acts, level_edges false 0 (rc5_wave (2 ^ 14 - 1)) = (true, n0) :: noms /\
    inverted (frame ++ [(false, d)]) = (false, gap) :: (true, d1) :: acts /\ Forall2 (biphase_near freq 889 rc5_tol) noms acts.
Proof.
  intros (n & noms & acts & El & -> & F) Hd.
  assert (En : exists noms', noms = (false, 1) :: noms' /\ noms = inverted noms' ++ [(true, 1)]).
  { exists (tl noms). injection El as _ <-. split; reflexivity. }
  destruct En as (noms' & En & En'). exists n, noms. rewrite En in F. inversion F as [|x [e1 d1] l acts' [Hd1 _] F' E1 E2]; subst x l acts. cbn [fst] in Hd1. subst e1.
  exists d1, (inverted (acts' ++ [(false, d)])). split; [exact El|]. split; [reflexivity|]. rewrite En', inverted_app. apply Forall2_app.
  - clear -F'. induction F' as [|x y xs ys [H1 H2] F IH]; constructor; auto. split; [cbn [fst]; rewrite H1; reflexivity|exact H2].
  - constructor; [|constructor]. split; [reflexivity|exact Hd].
Qed.

(** ** RC6: no leader *)

Lemma rc6_quiet b m freq (C : Type) (into : rc6_command -> C) hist gap evs r0 r os :
  timebase m freq -> freq < 2 ^ 32 -> 20000 <= freq -> 8 <= usize_bits b ->
  longer freq 13500 8 gap -> Forall (fun x => fst x = false -> 100 * snd x < 87 * nominal freq 2664) evs ->
  receiver_new (rc6_protocol b m) freq = Val r0 ->
  run_edges (D := rc6_dec b) into r0 (hist ++ (false, gap) :: evs) = Val (r, os) ->
  commands (skipn (length hist) os) = [].
Proof.
  intros Hm Hf Hlo Hu Hg F E0 E.
  apply (run_split b m freq Hm Hf Hlo Hu into) in E. destruct E as (r1 & o1 & o2 & E1 & E2 & ->).
  pose proof (run_edges_length _ _ _ _ _ E1) as Ln. unfold edge in *. rewrite <- Ln, skipn_app, skipn_all, Nat.sub_diag. cbn [app skipn].
  rewrite (rc6_new_val b m freq Hm Hf) in E0. injection E0 as <-.
  pose proof (rc6_run_spans b into _ _ _ _ E1) as S1.
  apply (run_first b m freq Hm Hf Hlo Hu into) in E2. destruct E2 as (r2 & o & o3 & Ev & E3 & ->).
  assert (Ng : spans_get (spans_of m freq rc6_pulses) gap = None).
  { destruct (spans_get _ gap) as [v|] eqn:Ev'; [|reflexivity]. exfalso.
    destruct (rc6_interval_of b m freq Hm Hf Hu gap v Ev') as [[(H1 & H2 & H)|(_ & _ & H)] _].
    - eapply (longer_not_near freq _ 13 gap gap); eauto; lia.
    - rewrite H in Hg. unfold longer in Hg. lia. }
  destruct (uncounted_ev b m freq Hm Hf Hlo Hu into r1 false gap r2 o S1 Ng Ev) as [-> ->].
  assert (W : Forall (no_leader m freq) evs).
  { eapply Forall_impl; [|exact F]. intros [e d] H He X. specialize (H He). cbn [snd] in *.
    destruct (rc6_interval_of b m freq Hm Hf Hu d 5 X) as [[(_ & _ & _ & K)|(K & _)] _]; [|lia].
    change (444 * (5 + 1)) with 2664 in K. lia. }
  destruct (waiting_run b m freq Hm Hf Hlo Hu into evs _ r o3 (waiting_st b m freq R6Idle 0 0 _ 0 _ (or_introl eq_refl)) W E3) as [_ K].
  exact K.
Qed.

Lemma rc6_inverted freq toggle w gap frame tail : 20000 <= freq -> rc6_edges freq (rc6_leader_full freq) toggle w gap frame ->
  tail = [] \/ (exists d, tail = [(false, d)] /\ near freq 444 12 d) ->
  exists evs, inverted (frame ++ tail) = (false, gap) :: evs /\ Forall (fun x => fst x = false -> 100 * snd x < 87 * nominal freq 2664) evs.
Proof.
  intros Hlo (n & noms & lead & acts & En & -> & Hl & HF) Ht. exists ((true, lead) :: inverted (acts ++ tail)). split; [reflexivity|].
  constructor; [discriminate|]. rewrite inverted_app. unfold inverted. apply Forall_app. split.
  - pose proof (proj1 (rc6_noms toggle w n noms En)) as B. clear -HF B Hlo. induction HF as [|x y xs ys [H1 H2] HF IH]; [constructor|].
    inversion B as [|? ? [B1 B2] B3]; subst. cbn [map]. constructor; [|auto]. intros _. cbn [snd].
    apply near_guaranteed in H2. destruct H2 as [H2 _]. unfold rc6_tol in H2.
    pose proof (nominal_le freq (444 * snd x) 1332 ltac:(lia)) as L1. pose proof (nominal_sum freq 1332 1332) as L2. change (1332 + 1332) with 2664 in L2.
    assert (0 < nominal freq 1332). { unfold nominal. apply N.div_str_pos. lia. } lia.
  - destruct Ht as [->|(d & -> & Hd)]; cbn [map]; constructor; [discriminate|constructor].
Qed.
