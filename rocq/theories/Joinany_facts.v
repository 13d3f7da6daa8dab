(** * Lemmas: receivers started while a signal of any protocol is under way *)
From Coq Require Import NArith ZArith List Bool Lia ZifyBool ZifyNat ZifyN.
From Verif Require Import Machine Time Decoder Nec Rc5 Rc6 Denon Sbp Receiver Spec Bits Time_facts Run_facts Nec_facts Rc5_facts Rc6_facts
  Spec_receiver Spec_sound Sound_facts Biphase_facts Spec_cross Cross_facts Spec_damage Damage_facts Spec_glitch Glitch6_facts State_facts
  Invert_facts Props_invert Spec_join Join_facts.
Import ListNotations.
Open Scope N_scope.

(** What all receivers need to know of what is left. *)
Definition rest_of (freq : N) (seen : list edge) : Prop :=
  Forall (fun q => 100 * q < 92 * nominal freq 6750) (periods seen) /\
  no_double_rise seen /\
  Forall (fun x => fst x = false -> 100 * snd x < 87 * nominal freq 2664) seen /\
  (Forall (fun q => 100 * q < 91 * nominal freq 5000) (periods seen) \/ (length (periods seen) <= 48)%nat) /\
  (forall a g seg c bits, seen = a ++ (true, g) :: seg ++ c -> rc5_stream freq seg bits -> length bits = 13%nat -> False).

Lemma joined_rest k l seen : joins k l seen -> exists e d d' l1 l2, l = l1 ++ (e, d) :: l2 /\ d' <= d /\ seen = (e, d') :: l2 /\ (k <= length l1)%nat.
Proof. intros (l1 & e & d & d' & l2 & E & Hk & Hd & ->). exists e, d, d', l1, l2. auto. Qed.

Lemma periods_count ds tail : stopped tail -> forall l1 e d d' l2, pair_edges ds ++ tail = l1 ++ (e, d) :: l2 ->
  (length (periods ((e, d') :: l2)) <= length ds)%nat.
Proof.
  intros Ht.
  assert (T : forall ds sv, (length (periods_from sv (pair_edges ds ++ tail)) <= length ds)%nat).
  { clear -Ht. intros ds. induction ds as [|[mk sp] ds IH]; intros sv; cbn [pair_edges app periods_from length].
    - destruct Ht as [->|(x & ->)]; cbn; lia.
    - specialize (IH 0). lia. }
  induction ds as [|[mk sp] ds IH]; intros l1 e d d' l2 E; cbn [pair_edges app] in E.
  - destruct Ht as [->|(x & ->)]; destruct l1 as [|y [|z l1]]; try discriminate E. injection E as <- <- <-. cbn. lia.
  - destruct l1 as [|y [|z l1]]; cbn [app] in E.
    + injection E as <- <- <-. unfold periods. cbn [periods_from length]. specialize (T ds 0). lia.
    + injection E as <- <- <- <-. unfold periods. cbn [periods_from length]. specialize (T ds 0). lia.
    + injection E as <- <- E. specialize (IH l1 e d d' l2 E). cbn [length]. lia.
Qed.

Lemma joined_pairs_rest freq bit h ds tail gap seen : 44000 <= freq -> 480 <= bit -> bit <= 560 ->
  joins 2 ((true, gap) :: pair_edges (h :: ds) ++ tail) seen ->
  tail = [] \/ (exists d, tail = [(false, d)] /\ near freq bit 12 d) ->
  Forall (fun x => near freq bit 12 (fst x)) ds ->
  100 * snd h < 92 * nominal freq 6750 -> Forall (fun x => 100 * (fst x + snd x) < 92 * nominal freq 6750) ds ->
  (100 * snd h < 91 * nominal freq 5000 /\ Forall (fun x => 100 * (fst x + snd x) < 91 * nominal freq 5000) ds) \/ (length ds <= 47)%nat ->
  separate [(bit, 12)] 889 13 = true -> separate [(bit, 12)] 1778 11 = true ->
  rest_of freq seen.
Proof.
  intros Hlo B1 B2 J Ht Hm Hh F Hd S1 S2.
  assert (St : stopped tail) by (destruct Ht as [->|(d & -> & _)]; [left|right]; eauto).
  assert (A : alt true ((true, gap) :: pair_edges (h :: ds) ++ tail)).
  { split; [reflexivity|]. change (alt false (pair_edges (h :: ds) ++ tail)). clear -St. generalize (h :: ds) as ps. intros ps.
    induction ps as [|[mk sp] ps IH]; cbn [pair_edges app].
    - destruct St as [->|(d & ->)]; cbn; auto.
    - split; [reflexivity|]. split; [reflexivity|exact IH]. }
  assert (K : exists e d d' l1 l2, seen = (e, d') :: l2 /\ d' <= d /\
    ((e = true /\ d = snd h /\ l2 = pair_edges ds ++ tail /\ l1 = []) \/ pair_edges ds ++ tail = l1 ++ (e, d) :: l2)).
  { clear -J. destruct J as (l1 & e & d & d' & l2 & E & Hk & Hd & ->). destruct h as [mk sp]. cbn [pair_edges app snd] in *.
    destruct l1 as [|y [|z l1]]; cbn [length] in Hk; try lia. cbn [app] in E. injection E as _ _ E.
    destruct l1 as [|u l1]; cbn [app] in E.
    - injection E as <- <- <-. exists true, sp, d', [], (pair_edges ds ++ tail). auto 10.
    - injection E as _ E. exists e, d, d', l1, l2. auto 10. }
  assert (M : forall x, In (false, x) (pair_edges ds ++ tail) -> near freq bit 12 x).
  { intros x Hi. apply in_app_or in Hi. destruct Hi as [Hi|Hi].
    - apply pair_marks in Hi. destruct Hi as (y & Hi & ->). rewrite Forall_forall in Hm. auto.
    - destruct Ht as [->|(d & -> & H)]; [destruct Hi|]. destruct Hi as [Hi|[]]. injection Hi as <-. exact H. }
  assert (N2 : 112 * nominal freq bit < 87 * nominal freq 2664).
  { clear -B1 B2 Hlo. pose proof (nominal_le freq bit 560 B2). nom freq 2664. nom freq 560. lia. }
  split; [|split; [|split; [|split]]].
  - exact (joined_periods _ _ _ _ _ _ J St Hh F).
  - destruct (joined_alt _ _ _ _ J A) as (f & Af). exact (alt_single _ _ Af).
  - destruct K as (e & d & d' & l1 & l2 & -> & Hdd & K). apply Forall_forall. intros [e0 x] Hi He. cbn [fst snd] in *. subst e0.
    destruct K as [(-> & _ & -> & _)|K].
    + destruct Hi as [Hi|Hi]; [discriminate Hi|]. apply M in Hi. destruct Hi as [Hi _]. lia.
    + assert (In (false, x) ((e, d) :: l2) \/ e = false /\ x = d') as [Q|[-> ->]].
      { destruct Hi as [Hi|Hi]; [right|left; right; exact Hi]. injection Hi as -> ->. auto. }
      * assert (In (false, x) (pair_edges ds ++ tail)) as Q' by (unfold edge in *; rewrite K; apply in_or_app; right; exact Q).
        apply M in Q'. destruct Q' as [Q' _]. lia.
      * assert (In (false, d) (pair_edges ds ++ tail)) as Q' by (unfold edge in *; rewrite K; apply in_or_app; right; left; reflexivity).
        apply M in Q'. destruct Q' as [Q' _]. lia.
  - destruct Hd as [[Hd1 Hd2]|Hd]; [left; exact (joined_periods _ _ _ _ _ _ J St Hd1 Hd2)|right].
    destruct K as (e & d & d' & l1 & l2 & -> & Hdd & [(-> & _ & -> & _)|K]).
    + unfold periods. cbn [periods_from length]. destruct (pair_edges ds ++ tail) as [|[e1 d1] l] eqn:El; [cbn; lia|].
      pose proof (periods_count ds tail St [] e1 d1 d1 l El) as P. unfold periods, edge in *. cbn [length] in *. lia.
    + pose proof (periods_count ds tail St l1 e d d' l2 K). lia.
  - intros a g seg c bits E R L.
    assert (As : exists f, alt f seg).
    { destruct (joined_alt _ _ _ _ J A) as (f & Af). unfold edge in *. rewrite E in Af. apply alt_app in Af. destruct Af as [_ (f2 & _ & Af)].
      apply alt_app in Af. exists (negb f2). apply Af. }
    destruct As as (f & As). pose proof (stream_length _ _ _ R) as Ls.
    destruct (alt_falls f seg As ltac:(lia)) as (x & Hi). destruct (stream_intervals _ _ _ R _ _ Hi) as (n & Hn).
    assert (Q : In (false, x) (pair_edges ds ++ tail)).
    { destruct K as (e & d & d' & l1 & l2 & -> & Hdd & K).
      assert (Q : In (false, x) l2).
      { destruct a as [|y a]; cbn [app] in E; [injection E as -> -> ->|injection E as _ ->]; apply in_or_app; [left; exact Hi|].
        right. right. apply in_or_app. left. exact Hi. }
      destruct K as [(_ & _ & <- & _)|K]; [exact Q|]. unfold edge in *. rewrite K. apply in_or_app. right. right. exact Q. }
    revert Hn. apply (rc5_interval_among freq [(bit, 12)]); auto; try lia.
    + cbn [forallb fst snd]. replace (50 <=? bit) with true by lia. reflexivity.
    + exists bit, 12. split; [left; reflexivity|]. exact (M _ Q).
Qed.

(** Signals with short intervals only. *)
Lemma short_rest freq l seen k : 44000 <= freq -> Forall (fun e => 100 * snd e <= 112 * nominal freq 1778) (skipn k l) -> joins k l seen ->
  Forall (fun q => 100 * q < 92 * nominal freq 6750) (periods seen) /\ Forall (fun q => 100 * q < 91 * nominal freq 5000) (periods seen) /\
  Forall (fun x : edge => fst x = false -> 100 * snd x < 87 * nominal freq 2664) seen.
Proof.
  intros Hlo F (l1 & e & d & d' & l2 & -> & Hk & Hd & ->).
  assert (G : Forall (fun x : edge => 100 * snd x <= 112 * nominal freq 1778) ((e, d') :: l2)).
  { rewrite skipn_app in F. apply Forall_app in F. destruct F as [_ F]. replace (k - length l1)%nat with O in F by lia. cbn [skipn] in F.
    inversion F as [|? ? F1 F2]; subst. cbn [snd] in F1. constructor; [cbn [snd]; lia|exact F2]. }
  set (M := 112 * nominal freq 1778 / 100).
  assert (HM : 100 * M <= 112 * nominal freq 1778) by (apply N.mul_div_le; lia).
  assert (P : Forall (fun q => q <= M + M) (periods ((e, d') :: l2))).
  { apply (periods_bound M M); [|lia|lia]. eapply Forall_impl; [|exact G]. intros x Hx. apply N.div_le_lower_bound; [lia|exact Hx]. }
  clearbody M. split; [|split].
  - eapply Forall_impl; [|exact P]. cbv beta. intros q Hq. clear -Hq HM Hlo. nom freq 1778. nom freq 6750. lia.
  - eapply Forall_impl; [|exact P]. cbv beta. intros q Hq. clear -Hq HM Hlo. nom freq 1778. nom freq 5000. lia.
  - eapply Forall_impl; [|exact G]. intros x Hx _. clear -Hx Hlo. nom freq 1778. nom freq 2664. lia.
Qed.

Lemma no_double_head e d d' l : no_double_rise ((e, d) :: l) -> no_double_rise ((e, d') :: l).
Proof. intros H. exact H. Qed.
Lemma no_double_tail l1 l2 : no_double_rise (l1 ++ l2) -> no_double_rise l2.
Proof.
  induction l1 as [|[e d] l1 IH]; intros H; [exact H|]. apply IH. cbn [app] in H.
  destruct e; [|exact H]. destruct (l1 ++ l2) as [|[[|] x] l]; [exact Logic.I|destruct H|exact H].
Qed.
Lemma no_double_fall l d : no_double_rise l -> no_double_rise (l ++ [(false, d)]).
Proof.
  induction l as [|[e x] l IH]; intros H; [exact Logic.I|]. cbn [app]. assert (H' : no_double_rise l) by exact (no_double_tail [(e, x)] l H).
  specialize (IH H'). destruct e; [|exact IH]. destruct l as [|[[|] y] l]; [exact Logic.I|destruct H|exact IH].
Qed.
Lemma joined_single k l tail seen : no_double_rise l -> tail = [] \/ (exists d, tail = [(false, d)]) -> joins k (l ++ tail) seen -> no_double_rise seen.
Proof.
  intros H Ht (l1 & e & d & d' & l2 & E & _ & _ & ->). apply (no_double_head e d). apply (no_double_tail l1). unfold edge in *. rewrite <- E.
  destruct Ht as [->|(x & ->)]; [rewrite app_nil_r; exact H|apply no_double_fall, H].
Qed.

Lemma joined_rc5_rest freq evs gap seen : 44000 <= freq -> ended freq 889 (sent_rc5_start freq) evs -> joins 2 ((true, gap) :: evs) seen -> rest_of freq seen.
Proof.
  intros Hlo Hs J. apply ended_tail in Hs. destruct Hs as (body & tail & -> & (w & gap0 & Hw & Hfr) & Ht).
  destruct (sent_rc5_facts freq body (ex_intro _ w (ex_intro _ gap0 Hfr)) ltac:(lia)) as (A & _ & T).
  assert (Ht' : tail = [] \/ (exists d, tail = [(false, d)])) by (destruct Ht as [->|(d & -> & _)]; eauto).
  assert (Fr : rc5_edges freq w gap ((true, gap) :: body)).
  { destruct Hfr as (n & noms & acts & El & Ee & F). injection Ee as <-. exists n, noms, body. auto. }
  destruct (short_rest freq ((true, gap) :: body ++ tail) seen 2 Hlo) as (P1 & P2 & P3).
  { assert (Q : Forall (fun e : edge => 100 * snd e <= 112 * nominal freq 1778) (body ++ tail)).
    { apply Forall_app. split.
      - apply Forall_forall. intros [e d] Hi. cbn [snd]. destruct (T e d Hi) as (p & t & [K|[K|[]]] & [N1 _]); injection K as <- <-.
        + pose proof (nominal_le freq 889 1778 ltac:(lia)). lia.
        + lia.
      - destruct Ht as [->|(d & -> & [N1 _])]; constructor; [|constructor]. cbn [snd]. pose proof (nominal_le freq 889 1778 ltac:(lia)). lia. }
    change (skipn 2 ((true, gap) :: body ++ tail)) with (skipn 1 (body ++ tail)). unfold edge in *. destruct (body ++ tail) as [|x l]; [constructor|].
    inversion Q; subst. assumption. }
  { exact J. }
  split; [exact P1|]. split; [|split; [exact P3|split; [left; exact P2|]]].
  - apply (joined_single 2 ((true, gap) :: body) tail); auto. apply (alt_single true). split; [reflexivity|exact A].
  - intros a g seg c bits E R L. apply (rc5_joined freq w gap ((true, gap) :: body) tail seen a g seg c bits ltac:(lia) Hw Fr Ht); auto.
    destruct J as (l1 & e & d & d' & l2 & E1 & Hk & Hd & Es). exists l1, e, d, d', l2. split; [exact E1|]. split; [lia|auto].
Qed.

Lemma joined_rc6_rest freq evs gap seen : 44000 <= freq -> ended freq 444 (sent_rc6 freq) evs -> joins 2 ((true, gap) :: evs) seen -> rest_of freq seen.
Proof.
  intros Hlo Hs J. apply ended_tail in Hs. destruct Hs as (body & tail & -> & Hb & Ht).
  destruct (sent_rc6_facts freq body Hb ltac:(lia)) as (A & _ & _ & lead & acts & noms & Eb & Hl & F & B & _).
  assert (Ht' : tail = [] \/ (exists d, tail = [(false, d)])) by (destruct Ht as [->|(d & -> & _)]; eauto).
  assert (W : Forall (fun e : edge => 100 * snd e <= 112 * nominal freq 1332) acts).
  { eapply (biphase_acts_bound freq 444 rc6_tol 3 1332); [|exact B|exact F]. intros k H1 H2. unfold rc6_tol. lia. }
  destruct (short_rest freq ((true, gap) :: body ++ tail) seen 2 Hlo) as (P1 & P2 & P3).
  { subst body. cbn [app skipn]. apply Forall_app. pose proof (nominal_le freq 1332 1778 ltac:(lia)). split.
    - eapply Forall_impl; [|exact W]. cbv beta. intros x Hx. lia.
    - destruct Ht as [->|(d & -> & [N1 _])]; constructor; [|constructor]. cbn [snd]. pose proof (nominal_le freq 444 1778 ltac:(lia)). lia. }
  { exact J. }
  split; [exact P1|]. split; [|split; [exact P3|split; [left; exact P2|]]].
  - apply (joined_single 2 ((true, gap) :: body) tail); auto. apply (alt_single true). split; [reflexivity|exact A].
  - intros a g seg c bits E R L. destruct J as (l1 & e & d & d' & l2 & E1 & Hk & Hd & Es).
    destruct l1 as [|y [|z l1]]; cbn [length] in Hk; try lia. cbn [app] in E1. injection E1 as _ E1.
    assert (S : exists p, body ++ tail = p ++ seg ++ c).
    { rewrite Es in E. unfold edge in *. rewrite E1. destruct a as [|u a]; cbn [app] in E; [injection E as -> -> ->|injection E as _ ->].
      - exists (z :: l1 ++ [(true, d)]). cbn [app]. rewrite <- app_assoc. reflexivity.
      - exists (z :: l1 ++ (e, d) :: a ++ [(true, g)]). cbn [app]. rewrite <- app_assoc. cbn [app]. rewrite <- app_assoc. reflexivity. }
    destruct S as (p & S). destruct Ht as [->|(x & -> & Hx)].
    + rewrite app_nil_r in S. exact (rc6_no_rc5 freq body ltac:(lia) Hb p seg c bits S R L).
    + destruct c as [|u c] using rev_ind.
      * rewrite app_nil_r in S. destruct seg as [|v seg] using rev_ind; [pose proof (stream_length _ _ _ R) as Ls; cbn [length] in Ls; lia|]. clear IHseg.
        rewrite app_assoc in S. apply app_inj_tail in S. destruct S as [_ <-].
        destruct (stream_intervals _ _ _ R false x) as (n & Hn); [apply in_or_app; right; left; reflexivity|]. revert Hn.
        apply (rc5_interval_among freq [(444, 12)]); auto; try reflexivity; try lia. exists 444, 12. cbn; auto.
      * clear IHc. rewrite !app_assoc in S. apply app_inj_tail in S. destruct S as [S _]. rewrite <- app_assoc in S.
        exact (rc6_no_rc5 freq body ltac:(lia) Hb p seg c bits S R L).
Qed.

Lemma joined_any freq evs gap seen : 44000 <= freq -> sent_any freq evs -> joins 2 ((true, gap) :: evs) seen -> rest_of freq seen.
Proof.
  intros Hlo [Hs|[Hs|[Hs|[Hs|[Hs|[Hs|[Hs|Hs]]]]]]] J; [| | | | | |exact (joined_rc5_rest _ _ _ _ Hlo Hs J)|exact (joined_rc6_rest _ _ _ _ Hlo Hs J)];
    apply ended_tail in Hs; destruct Hs as (body & tail & -> & Hb & Ht).
  - destruct Hb as (w & ps & -> & (h & ds & -> & Hh & F) & (h' & ds' & Eh & [_ Hk] & Hm)). injection Eh as <- <-.
    refine (joined_pairs_rest freq 560 h ds tail gap seen Hlo _ _ J Ht Hm _ _ (or_intror _) eq_refl eq_refl); try lia.
    + apply period_upper in Hh. clear -Hh Hk Hlo. nom freq 13500. nom freq 9000. nom freq 6750. lia.
    + clear -F Hlo. induction F as [|bt x bs ds H F IH]; constructor; auto. clear IH F. destruct bt; apply period_upper in H.
      * nom freq 2250. nom freq 6750. lia.
      * nom freq 1120. nom freq 6750. lia.
    + rewrite <- (forall2_length _ _ _ F). cbn. lia.
  - destruct Hb as (x & -> & Hx & [_ Hk]).
    refine (joined_pairs_rest freq 560 x [] tail gap seen Hlo _ _ J Ht _ _ _ (or_intror _) eq_refl eq_refl); try lia; try constructor; [|cbn; lia].
    apply period_upper in Hx. clear -Hx Hk Hlo. nom freq 11250. nom freq 9000. nom freq 6750. lia.
  - destruct Hb as (w & ps & -> & (h & ds & -> & Hh & F) & (h' & ds' & Eh & [_ Hk] & Hm)). injection Eh as <- <-.
    refine (joined_pairs_rest freq 560 h ds tail gap seen Hlo _ _ J Ht Hm _ _ (or_intror _) eq_refl eq_refl); try lia.
    + apply period_upper in Hh. clear -Hh Hk Hlo. nom freq 9000. nom freq 4500. nom freq 6750. lia.
    + clear -F Hlo. induction F as [|bt x bs ds H F IH]; constructor; auto. clear IH F. destruct bt; apply period_upper in H.
      * nom freq 2250. nom freq 6750. lia.
      * nom freq 1120. nom freq 6750. lia.
    + rewrite <- (forall2_length _ _ _ F). cbn. lia.
  - destruct Hb as (x & -> & Hx & [_ Hk]).
    refine (joined_pairs_rest freq 560 x [] tail gap seen Hlo _ _ J Ht _ _ _ (or_intror _) eq_refl eq_refl); try lia; try constructor; [|cbn; lia].
    apply period_upper in Hx. clear -Hx Hk Hlo. nom freq 4500. nom freq 6750. lia.
  - destruct Hb as (a & c & ps & -> & (h & ads & pause & cds & -> & Hh & Fa & Hp & Fc) & (h' & ds' & Eh & [_ Hk] & Hm)). injection Eh as <- <-.
    assert (B : forall bs ds, Forall2 (sbp_bit freq) bs ds -> Forall (fun x => 100 * (fst x + snd x) < 92 * nominal freq 6750) ds).
    { clear -Hlo. intros bs ds F. induction F as [|bt x bs ds H F IH]; constructor; auto. clear IH F. apply period_upper in H. destruct bt.
      + nom freq 2000. nom freq 6750. lia.
      + nom freq 1000. nom freq 6750. lia. }
    refine (joined_pairs_rest freq 500 h _ tail gap seen Hlo _ _ J Ht Hm _ _ (or_intror _) eq_refl eq_refl); try lia.
    + apply period_upper in Hh. clear -Hh Hk Hlo. nom freq 9000. nom freq 4500. nom freq 6750. lia.
    + apply Forall_app. split; [exact (B _ _ Fa)|]. constructor; [|exact (B _ _ Fc)].
      apply period_upper in Hp. clear -Hp Hlo. nom freq 5000. nom freq 6750. lia.
    + rewrite app_length. cbn [length]. rewrite <- (forall2_length _ _ _ Fa), <- (forall2_length _ _ _ Fc). cbn. lia.
  - destruct Hb as (w & ps & -> & (h & ds & -> & Hh & F) & (h' & ds' & Eh & [_ Hk] & Hm)). injection Eh as <- <-.
    assert (Q1 : 100 * snd h < 91 * nominal freq 5000).
    { apply period_upper in Hh. clear -Hh Hk Hlo. nom freq 5000. nom freq 3400. lia. }
    assert (Q2 : Forall (fun x => 100 * (fst x + snd x) < 91 * nominal freq 5000) ds).
    { clear -F Hlo. induction F as [|bt x bs ds H F IH]; constructor; auto. clear IH F. apply period_upper in H. destruct bt.
      + nom freq 1680. nom freq 5000. lia.
      + nom freq 840. nom freq 5000. lia. }
    pose proof (nominal_le freq 5000 6750 ltac:(lia)) as L.
    refine (joined_pairs_rest freq 480 h ds tail gap seen Hlo _ _ J Ht Hm _ _ (or_introl (conj Q1 Q2)) eq_refl eq_refl); try lia.
    eapply Forall_impl; [|exact Q2]. cbv beta. intros x Hx. lia.
Qed.
