(** * Lemmas: interrupted marks and short disturbances *)
From Coq Require Import NArith ZArith List Bool Lia ZifyBool ZifyNat ZifyN.
From Verif Require Import Machine Time Decoder Nec Rc5 Rc6 Denon Sbp Receiver Spec Bits Time_facts Run_facts Rc5_facts Nec_facts
  Codec_facts Spec_receiver Spec_sound Sound_facts Biphase_facts Spec_cross Cross_facts Spec_damage Damage_facts Spec_glitch.
Import ListNotations.
Open Scope N_scope.

(** ** Interrupted marks in terms of periods *)

Lemma dropouts_first ps qs : dropouts ps qs ->
  qs = ps \/ exists d1 x d2 a b rest, ps = d1 ++ x :: d2 /\ qs = d1 ++ (a, b) :: rest /\ a + b <= fst x.
Proof.
  induction 1 as [|x ps qs H IH|a b m s ps qs H IH].
  - left. reflexivity.
  - destruct IH as [->|(d1 & y & d2 & a & b & rest & -> & -> & L)]; [left; reflexivity|right].
    exists (x :: d1), y, d2, a, b, rest. auto.
  - right. exists [], (a + b + m, s), ps, a, b, qs. cbn [fst app]. repeat split. lia.
Qed.

Lemma dropouts_bound M ps qs : dropouts ps qs -> Forall (fun x => period x <= M) ps -> Forall (fun x => period x <= M) qs.
Proof.
  induction 1 as [|x ps qs H IH|a b m s ps qs H IH]; intros F; [constructor| |]; inversion F as [|y l Hy Fl]; subst.
  - constructor; auto.
  - unfold period in Hy. cbn [fst snd] in Hy. constructor; [unfold period; cbn [fst snd]; lia|]. apply IH. constructor; [|exact Fl].
    unfold period. cbn [fst snd]. lia.
Qed.

(** Among as many periods as there were, one is shorter than a mark. *)
Lemma dropouts_seen ps qs dd post : dropouts ps qs -> qs <> ps -> map period qs = dd ++ post -> (length ps <= length dd)%nat ->
  exists x y, In x ps /\ In y dd /\ y <= fst x.
Proof.
  intros D N E L. destruct (dropouts_first _ _ D) as [->|(d1 & x & d2 & a & b & rest & -> & -> & Lx)]; [destruct (N eq_refl)|].
  exists x, (a + b). split; [apply in_or_app; right; left; reflexivity|]. split; [|exact Lx].
  rewrite app_length in L. cbn [length] in L. rewrite map_app in E. cbn [map] in E. change (period (a, b)) with (a + b) in E.
  assert (Ld : (length (map period d1) < length dd)%nat) by (rewrite map_length; lia).
  set (u := map period d1) in *. clearbody u. clear -E Ld. revert dd E Ld. induction u as [|z u IH]; intros [|w dd] E Ld; cbn [length app] in *; try lia.
  - injection E as <- _. left. reflexivity.
  - injection E as _ E. right. apply IH; [exact E|lia].
Qed.

Lemma in_periods M ps y : Forall (fun x => period x <= M) ps -> In y (map period ps) -> y <= M.
Proof. intros F H. apply in_map_iff in H. destruct H as (x & <- & Hx). rewrite Forall_forall in F. auto. Qed.

(** The first period is the header, and no other one is. *)
Lemma only_header (P : N -> Prop) M h ps pre hd ds : Forall (fun x => period x <= M) ps -> (forall y, y <= M -> ~ P y) ->
  map period (h :: ps) = pre ++ hd :: ds -> P hd -> pre = [] /\ hd = period h /\ map period ps = ds.
Proof.
  intros F N E H. destruct pre as [|y pre]; cbn [map app] in E; injection E as <- E; [auto|]. exfalso. apply (N hd); [|exact H].
  apply (in_periods M ps hd F). rewrite E. apply in_or_app. right. left. reflexivity.
Qed.

Definition tol_max (freq p t : N) : N := (100 + t) * nominal freq p / 100.
Lemma tol_max_ok freq p t d : 100 * d <= (100 + t) * nominal freq p -> d <= tol_max freq p t.
Proof. intros H. unfold tol_max. apply N.div_le_lower_bound; lia. Qed.
Lemma tol_max_not freq p t p' t' y : 20000 <= freq -> below p t p' t' = true -> y <= tol_max freq p t -> ~ near freq p' t' y.
Proof.
  intros Hlo B H [_ N]. assert (X : 100 * tol_max freq p t <= (100 + t) * nominal freq p) by (apply N.mul_div_le; lia).
  pose proof (below_ok freq p t p' t' y y B Hlo ltac:(lia) N). lia.
Qed.
Lemma among_max freq table p t ps : 20000 <= freq -> forallb (fun x => (fst x <=? p) && (snd x <=? t) || below (fst x) (snd x) p t) table = true ->
  t <= 100 -> Forall (among freq table) (map period ps) -> Forall (fun x => period x <= tol_max freq p t) ps.
Proof.
  intros Hlo B Ht F. apply Forall_forall. intros x Hx. rewrite Forall_forall in F. destruct (F (period x)) as (p' & t' & Hi & [N1 N2]).
  { apply in_map, Hx. }
  rewrite forallb_forall in B. specialize (B _ Hi). cbn [fst snd] in B. apply tol_max_ok. apply orb_true_iff in B. destruct B as [B|B].
  - apply andb_true_iff in B. destruct B as [B1 B2]. apply N.leb_le in B1, B2. pose proof (nominal_le freq p' p B1). nia.
  - assert (X : (100 - t) * nominal freq p <= 100 * nominal freq p) by nia.
    pose proof (below_ok freq p' t' p t (period x) (nominal freq p) B Hlo N1 X). lia.
Qed.

(** ** What a NEC receiver reports after a silence: repeats, or frames that follow the silence *)

Lemma nec_reports b m freq V (C : Type) (into : nv_cmd V -> C) hist gap evs r0 r os x :
  timebase m freq -> freq < 2 ^ 32 -> 20000 <= freq -> nec_timing_ok (nv_timing V) ->
  longer freq 13500 8 gap -> periods_fit (hist ++ (true, gap) :: evs) ->
  receiver_new (nec_protocol b m V) freq = Val r0 ->
  run_edges (D := nec_dec b m V) into r0 (hist ++ (true, gap) :: evs) = Val (r, os) ->
  In x (commands (skipn (length hist) os)) ->
  exists w c, x = into c /\
    (nv_unpack V w true = Some c \/
     nv_unpack V w false = Some c /\ w < 2 ^ 32 /\ exists q1 hd ds q2, periods_from 0 evs = q1 ++ hd :: ds ++ q2 /\
       near freq (header_high (nv_timing V) + header_low (nv_timing V)) 8 hd /\
       Forall2 (nec_seen_bit freq) (bits_lsb 32 w) ds).
Proof.
  intros Hm Hf Hlo HT Hg Hfit E0 E Hi.
  destruct (reported_at (D := nec_dec b m V) into r0 hist _ r os x E Hi) as (k & e & d & rest & r' & os' & Ek & E').
  rewrite app_assoc in E'.
  assert (Hfit' : periods_fit ((hist ++ k) ++ [(e, d)])).
  { rewrite Ek in Hfit. change ((e, d) :: rest) with ([(e, d)] ++ rest) in Hfit. rewrite !app_assoc in Hfit.
    apply periods_fit_app in Hfit. exact Hfit. }
  destruct (nec_sound_report b m freq V Hm Hf HT into (hist ++ k) e d r0 r' os' x E0 Hfit' E') as (-> & w & pv & c & _ & -> & K).
  exists w, c. split; [reflexivity|].
  destruct K as [[(pre & hd & ds & Eps & Hhd & Hw & F) K]|[_ K]]; [right|left; exact K].
  split; [exact K|]. split; [exact Hw|].
  assert (G : forall p t, near freq p t (last_mark hist + gap) -> p <= 13500 ->
                t <= 8 \/ (100 + t) * p <= 108 * 13500 - 10000 -> False).
  { intros p t Hn Hp Ht. eapply longer_not_near; [exact Hlo|exact Hg| |exact Hp|exact Ht|exact Hn]. lia. }
  assert (Gb : forall bt, ~ nec_seen_bit freq bt (last_mark hist + gap)).
  { intros bt Hn. destruct bt; cbn [nec_seen_bit] in Hn; apply (G _ _ Hn); try lia; right; vm_compute; discriminate. }
  assert (Gd : ~ In (last_mark hist + gap) ds).
  { intros H. clear -F H Gb. induction F as [|bt dd bs ds H' F IH]; [destruct H|]. destruct H as [-> |H]; [exact (Gb _ H')|auto]. }
  destruct k as [|y k2]; cbn [app] in Ek; injection Ek as Ey Ek.
  { exfalso. subst d evs. rewrite app_nil_r in Eps. rewrite periods_snoc in Eps. destruct ds as [|y ds _] using rev_ind.
    - apply forall2_length in F. unfold bits_lsb in F. rewrite map_length, seq_length in F. discriminate.
    - change (pre ++ hd :: ds ++ [y]) with (pre ++ (hd :: ds) ++ [y]) in Eps. rewrite app_assoc in Eps.
      apply app_inj_tail in Eps. destruct Eps as [_ Ey]. apply Gd. rewrite Ey. apply in_or_app. right. left. reflexivity. }
  subst y evs. assert (Ep : periods ((hist ++ (true, gap) :: k2) ++ [(true, d)]) = periods hist ++ (last_mark hist + gap) :: periods_from 0 (k2 ++ [(true, d)])).
  { rewrite <- app_assoc. cbn [app]. apply periods_gap. }
  unfold edge in *. rewrite Ep in Eps.
  replace (k2 ++ (true, d) :: rest) with ((k2 ++ [(true, d)]) ++ rest) in * by (rewrite <- app_assoc; reflexivity).
  destruct (periods_from_app (k2 ++ [(true, d)]) 0 rest) as [more Em]. unfold edge in *. rewrite Em in *.
  apply split_at in Eps. destruct Eps as [(p & Eq & _)|(p & Eq & _)].
  - exfalso. destruct p as [|y p]; cbn [app] in Eq; injection Eq as -> Eq.
    + apply (G _ _ Hhd); [|left; lia]. destruct HT as [-> | ->]; vm_compute; discriminate.
    + apply Gd. rewrite Eq. apply in_or_app. right. left. reflexivity.
  - exists p, hd, ds, more. rewrite Eq, <- app_assoc. auto.
Qed.

(** ** RC5 *)

Lemma samples_fst par l1 : forall ck l2 ns, map fst l1 = map fst l2 -> samples par ck l1 ns = samples par ck l2 ns.
Proof.
  induction l1 as [|[e d] l1 IH]; intros ck [|[e2 d2] l2] ns E; cbn [map fst] in E; try discriminate; [reflexivity|].
  injection E as -> E. destruct ns as [|n ns]; [reflexivity|]. cbn [samples]. rewrite (IH _ _ _ E). reflexivity.
Qed.

Lemma samples_app par l1 : forall ck ns1 l2 ns2, length l1 = length ns1 ->
  samples par ck (l1 ++ l2) (ns1 ++ ns2) = samples par ck l1 ns1 ++ samples par (ck + total ns1) l2 ns2.
Proof.
  induction l1 as [|[e d] l1 IH]; intros ck [|n ns1] l2 ns2 L; cbn [length] in L; try discriminate.
  - cbn [app samples total fold_right]. rewrite N.add_0_r. reflexivity.
  - cbn [app samples]. rewrite (IH (ck + n) ns1 l2 ns2 ltac:(lia)), <- app_assoc. do 3 f_equal. cbn [total fold_right]. unfold total. lia.
Qed.

(** Every edge is read by one of two clocks that are one apart. *)
Lemma samples_both l : forall ns ck, length l = length ns ->
  (length (samples false ck l ns) + length (samples false (ck + 1) l ns) = length l)%nat.
Proof.
  induction l as [|[e d] l IH]; intros [|n ns] ck L; cbn [length] in L; try discriminate; [reflexivity|].
  cbn [samples]. rewrite !app_length. specialize (IH ns (ck + n) ltac:(lia)).
  replace (ck + 1 + n) with (ck + n + 1) by lia. rewrite N.add_1_r in *. rewrite N.odd_succ, <- N.negb_odd.
  cbn [length]. destruct (N.odd (ck + n)); cbn [negb Bool.eqb app length] in *; lia.
Qed.

(** The bits of the waveform. *)
Lemma level_samples data : forall cur ck n, N.odd (ck + n) = true ->
  let l := level_edges cur n (flat_map rc5_half data) in samples false ck l (map snd l) = data.
Proof.
  induction data as [|x data IH]; intros cur ck n H; [reflexivity|].
  assert (H1 : N.odd (ck + (n + 1)) = false).
  { rewrite N.add_assoc, N.add_1_r, N.odd_succ, <- N.negb_odd, H. reflexivity. }
  assert (H2 : N.odd (ck + n + 1) = false) by (rewrite <- N.add_assoc; exact H1).
  assert (H3 : N.odd (ck + (n + 1) + 1) = true) by (rewrite N.add_1_r, N.odd_succ, <- N.negb_odd, H1; reflexivity).
  assert (H4 : N.odd (ck + n + 1 + 1) = true) by (rewrite <- (N.add_assoc ck n 1); exact H3).
  destruct x, cur; cbn [flat_map rc5_half app level_edges Bool.eqb map snd samples]; cbn zeta in *.
  - rewrite H. cbn [Bool.eqb app]. rewrite H2. cbn [Bool.eqb app]. f_equal. apply IH, H4.
  - rewrite H1. cbn [Bool.eqb app]. f_equal. apply IH, H3.
  - rewrite H1. cbn [Bool.eqb app]. f_equal. apply IH, H3.
  - rewrite H. cbn [Bool.eqb app]. rewrite H2. cbn [Bool.eqb app]. f_equal. apply IH, H4.
Qed.

Section Rc5Glitch.
  Variable freq : N.
  Hypothesis Hlo : 20000 <= freq.
  Notation unit_of := (unit_of freq).

  (** Part of an interval of [n] units. *)
  Definition part_of (n : N) (x : edge) : Prop := 0 < snd x /\ exists d, snd x <= d /\ unit_of n (fst x, d).

  Lemma unit_part n x : unit_of n x -> part_of n x.
  Proof using Hlo.
    intros U. destruct (unit_low freq Hlo n x U) as [_ L]. destruct (nominal_double freq Hlo) as (_ & _ & H). split; [lia|].
    exists (snd x). split; [lia|]. destruct x. exact U.
  Qed.
  Lemma part_read n x k : n <= 2 -> part_of n x -> rc5_interval freq k (snd x) -> 1 <= k /\ k <= n.
  Proof using Hlo.
    intros Hn (H0 & d & L & U). pose proof (nominal_double freq Hlo) as (H1 & H2 & H3). revert U. unfold Damage_facts.unit_of, rc5_interval, near.
    cbn [snd]. set (a := nominal freq 889) in *. set (c := nominal freq 1778) in *. clearbody a c. lia.
  Qed.
  Lemma brief_not d k : 0 < d -> d <= nominal freq 600 -> ~ rc5_interval freq k d.
  Proof using Hlo.
    intros H0 H [[_ [_ N]]|[[_ [_ N]]|(_ & _ & ->)]]; [| |lia].
    - pose proof (below_ok freq 600 0 889 13 d d eq_refl Hlo ltac:(lia) N). lia.
    - pose proof (below_ok freq 600 0 1778 11 d d eq_refl Hlo ltac:(lia) N). lia.
  Qed.

  Lemma glitched_prefix h h' : glitches freq 600 h h' -> forall ns seg c ks, Forall2 unit_of ns h -> Forall (fun n => n <= 2) ns ->
    h' = seg ++ c -> Forall2 (rc5_interval freq) ks (map snd seg) ->
    exists nseg nC, ns = nseg ++ nC /\ Forall2 (fun k n => 1 <= k /\ k <= n) ks nseg /\ removelast ks = removelast nseg /\
      exists rest, map fst h = map fst seg ++ rest.
  Proof using Hlo.
    induction 1 as [|x h h' G IH|e d1 d2 d3 h h' H1 H2 H2' H3 G IH]; intros ns seg c ks U B E K.
    - destruct seg; [|discriminate]. inversion K; subst. inversion U; subst. exists [], []. repeat split; auto. exists []. reflexivity.
    - destruct seg as [|y seg]; cbn [app] in E.
      { inversion K; subst. exists [], ns. repeat split; auto. eexists. reflexivity. }
      injection E as <- E. cbn [map] in K. inversion K as [|k z ks0 zs Hk K0]; subst. inversion U as [|n x0 ns0 h0 Un U0]; subst. inversion B; subst.
      destruct (IH ns0 seg c ks0 U0 ltac:(assumption) eq_refl K0) as (nseg & nC & -> & F & R & rest & Er).
      destruct (unit_read freq Hlo n x k Un Hk) as [<- _]. apply unit_low in Un; [|exact Hlo].
      exists (n :: nseg), nC. split; [reflexivity|]. split; [constructor; [lia|exact F]|]. split.
      + pose proof (forall2_length _ _ _ F) as L. destruct ks0, nseg; try discriminate L; [reflexivity|]. cbn [removelast] in *. f_equal. exact R.
      + exists rest. cbn [map app]. f_equal. exact Er.
    - inversion U as [|n x0 ns0 h0 Un U0]; subst. inversion B; subst. destruct seg as [|y [|y2 seg]]; cbn [app] in E.
      + inversion K; subst. exists [], (n :: ns0). repeat split; auto. eexists. reflexivity.
      + injection E as <- _. cbn [map snd] in K. inversion K as [|k z ks0 zs Hk K0]; subst. inversion K0; subst.
        exists [n], ns0. split; [reflexivity|]. split; [|split; [reflexivity|eexists; reflexivity]]. constructor; [|constructor].
        apply (part_read n (e, d1)); auto. split; [exact H1|]. exists (d1 + d2 + d3). cbn [snd fst]. split; [lia|exact Un].
      + injection E as <- <- _. cbn [map snd] in K. inversion K as [|k z ks0 zs Hk K0]; subst. inversion K0 as [|k2 z2 ks2 zs2 Hk2 K2]; subst.
        destruct (brief_not d2 k2 H2 H2' Hk2).
  Qed.

  (** What is read of a disturbed signal: at most the units of the undisturbed one, and exactly
      these but at both ends. *)
  Lemma glitched h h' : glitches freq 600 h h' -> forall x ht n ns A seg c ks, h = x :: ht ->
    part_of n x -> n <= 2 -> Forall2 unit_of ns ht -> Forall (fun n => n <= 2) ns ->
    h' = A ++ seg ++ c -> seg <> [] -> Forall2 (rc5_interval freq) ks (map snd seg) ->
    exists nA nseg nC, n :: ns = nA ++ nseg ++ nC /\ Forall2 (fun k n => 1 <= k /\ k <= n) ks nseg /\
      removelast (tl ks) = removelast (tl nseg) /\
      exists ea rest, map fst h = ea ++ map fst seg ++ rest /\ length ea = length nA.
  Proof using Hlo.
    induction 1 as [|x h h' G IH|e d1 d2 d3 h h' H1 H2 H2' H3 G IH]; intros x0 ht n ns A seg c ks Eh Hp Hn U B E Hs K; [discriminate| |].
    - injection Eh as <- <-. destruct A as [|y A]; cbn [app] in E.
      + destruct seg as [|y seg]; [destruct (Hs eq_refl)|]. cbn [app] in E. injection E as <- E. cbn [map] in K.
        inversion K as [|k z ks0 zs Hk K0]; subst.
        destruct (glitched_prefix h _ G ns seg c ks0 U B eq_refl K0) as (nseg & nC & -> & F & R & rest & Er).
        exists [], (n :: nseg), nC. split; [reflexivity|]. split; [constructor; [exact (part_read n x k Hn Hp Hk)|exact F]|].
        split; [exact R|]. exists [], rest. split; [cbn [map app]; f_equal; exact Er|reflexivity].
      + injection E as <- E. destruct h as [|x1 h1].
        { inversion G; subst. destruct A; [|discriminate]. destruct seg; [destruct (Hs eq_refl)|discriminate]. }
        inversion U as [|n1 y1 ns1 h2 U1 U2]; subst. inversion B; subst.
        destruct (IH x1 h1 n1 ns1 A seg c ks eq_refl (unit_part _ _ U1) ltac:(assumption) U2 ltac:(assumption) eq_refl Hs K)
          as (nA & nseg & nC & -> & F & R & ea & rest & Er & L).
        exists (n :: nA), nseg, nC. split; [reflexivity|]. split; [exact F|]. split; [exact R|].
        exists (fst x :: ea), rest. split; [cbn [map app] in *; f_equal; exact Er|cbn [length]; lia].
    - injection Eh as <- <-. destruct A as [|y A]; cbn [app] in E.
      + destruct seg as [|y [|y2 seg]]; [destruct (Hs eq_refl)| |]; cbn [app] in E.
        * injection E as <- _. cbn [map snd] in K. inversion K as [|k z ks0 zs Hk K0]; subst. inversion K0; subst.
          exists [], [n], ns. split; [reflexivity|]. split; [|split; [reflexivity|exists []; eexists; split; reflexivity]].
          constructor; [|constructor]. apply (part_read n (e, d1)); auto. destruct Hp as (_ & d & L & Un). cbn [fst snd] in *.
          split; [exact H1|]. exists d. cbn [fst snd]. split; [lia|exact Un].
        * injection E as <- <- _. cbn [map snd] in K. inversion K as [|k z ks0 zs Hk K0]; subst. inversion K0 as [|k2 z2 ks2 zs2 Hk2 K2]; subst.
          destruct (brief_not d2 k2 H2 H2' Hk2).
      + injection E as <- E. destruct A as [|y2 A]; cbn [app] in E.
        * destruct seg as [|y seg]; [destruct (Hs eq_refl)|]. cbn [app] in E. injection E as <- _. cbn [map snd] in K.
          inversion K as [|k z ks0 zs Hk K0]; subst. destruct (brief_not d2 k H2 H2' Hk).
        * injection E as _ E.
          assert (Hp3 : part_of n (e, d3)).
          { destruct Hp as (_ & d & L & Un). cbn [fst snd] in *. split; [exact H3|]. exists d. cbn [fst snd]. split; [lia|exact Un]. }
          destruct (IH (e, d3) h n ns A seg c ks eq_refl Hp3 Hn U B E Hs K) as (nA & nseg & nC & En & F & R & ea & rest & Er & L).
          exists nA, nseg, nC. split; [exact En|]. split; [exact F|]. split; [exact R|]. exists ea, rest. split; [exact Er|exact L].
  Qed.
End Rc5Glitch.

(** What an RC5 receiver reports after a silence is read from the edges after it, from a rising edge on. *)
Lemma rc5_reports b m freq (C : Type) (into : rc5_command -> C) hist gap evs r0 r os x :
  timebase m freq -> freq < 2 ^ 32 -> 20000 <= freq -> 8 <= usize_bits b ->
  longer freq 13500 8 gap ->
  receiver_new (rc5_protocol b m) freq = Val r0 ->
  run_edges (D := rc5_dec b) into r0 (hist ++ (true, gap) :: evs) = Val (r, os) ->
  In x (commands (skipn (length hist) os)) ->
  exists a g seg c bits, (true, gap) :: evs = a ++ (true, g) :: seg ++ c /\ rc5_stream freq seg bits /\ length bits = 13%nat /\
    x = into (rc5_unpack (2 ^ 13 + val_msb bits)).
Proof.
  intros Hm Hf Hlo Hu Hg E0 E Hi.
  destruct (reported_at (D := rc5_dec b) into r0 hist _ r os x E Hi) as (k & e & d & rest & r' & os' & Ek & E').
  rewrite app_assoc in E'.
  destruct (rc5_sound_report b m freq Hm Hf Hu into (hist ++ k) e d r0 r' os' x E0 E') as (c & -> & h1 & g & seg & bits & E1 & S & L & ->).
  assert (Gs : ~ In (true, gap) seg).
  { intros H. destruct S as (s' & last & ns & n & _ & F & _). clear -F H Hg Hlo. apply in_split in H. destruct H as (l1 & l2 & ->).
    rewrite map_app in F. cbn [map snd] in F. destruct (forall2_mid _ _ _ _ _ F) as (n' & [[_ H]|[[_ H]|[_ [_ ->]]]]).
    - eapply (longer_not_near freq 889 13 gap gap); eauto; try lia.
    - eapply (longer_not_near freq 1778 11 gap gap); eauto; try lia.
    - unfold longer in Hg. lia. }
  assert (Ls : seg <> []). { destruct S as (s' & last & _ & _ & -> & _). destruct s'; discriminate. }
  destruct k as [|y k2].
  - exfalso. cbn [app] in Ek. injection Ek as <- <- <-. rewrite app_nil_r in E1.
    destruct seg as [|z seg _] using rev_ind; [destruct (Ls eq_refl)|].
    change (h1 ++ (true, g) :: seg ++ [z]) with (h1 ++ ((true, g) :: seg) ++ [z]) in E1. rewrite app_assoc in E1.
    apply app_inj_tail in E1. destruct E1 as [_ <-]. apply Gs. apply in_or_app. right. left. reflexivity.
  - cbn [app] in Ek. injection Ek as <- Ek. rewrite <- app_assoc in E1. cbn [app] in E1. apply split_at in E1. destruct E1 as [(p & Ep & _)|(p & Ep & _)].
    + destruct p as [|z p]; cbn [app] in Ep; injection Ep as Ez Ep.
      * exists [], gap, seg, rest, bits. split; [|auto]. cbn [app]. rewrite Ek, Ep, <- app_assoc. reflexivity.
      * destruct Gs. rewrite Ep. apply in_or_app. right. left. reflexivity.
    + exists ((true, gap) :: p), g, seg, rest, bits. split; [|auto]. cbn [app]. f_equal. rewrite Ek.
      replace (k2 ++ (e, d) :: rest) with ((k2 ++ [(e, d)]) ++ rest) by (rewrite <- app_assoc; reflexivity).
      unfold edge in *. rewrite Ep, <- app_assoc. reflexivity.
Qed.

Lemma rc5_signal freq w gap l : N.testbit w 13 = true -> rc5_edges freq w gap l ->
  exists acts ns data, l = (true, gap) :: acts /\ bits_msb 14 w = true :: data /\ length data = 13%nat /\
    Forall2 (unit_of freq) ns acts /\ Forall (fun n => n <= 2) ns /\ total ns <= 26 /\ alt false acts /\
    samples false 0 acts ns = data.
Proof.
  intros Hw (n & noms & acts & El & -> & F). destruct (rc5_noms w n noms El) as [B A].
  assert (E : exists data, bits_msb 14 w = true :: data /\ length data = 13%nat).
  { rewrite bits_msb_S. change (N.of_nat 13) with 13. rewrite Hw. eexists. split; [reflexivity|apply bits_msb_length]. }
  destruct E as (data & E & L). exists acts, (map snd noms), data. split; [reflexivity|]. split; [exact E|]. split; [exact L|].
  unfold rc5_wave in El. rewrite E in El. cbn [flat_map rc5_half app level_edges Bool.eqb] in El. injection El as <- Ed.
  split.
  { clear -F B. induction F as [|nom act noms acts H F IH]; cbn [map]; constructor.
    + inversion B as [|x l [H1 H2] _]; subst. apply biphase_wide in H. unfold rc5_tol in H.
      assert (E : snd nom = 1 \/ snd nom = 2) by lia. destruct E as [E|E]; rewrite E in H; rewrite E; [left|right; left]; split; auto.
    + inversion B; subst. auto. }
  split. { clear -B. induction B as [|x l [H1 H2] B IH]; cbn [map]; constructor; auto. }
  split. { pose proof (level_total_less (flat_map rc5_half data) true 1 ltac:(lia)) as T. rewrite Ed, rc5_half_length, L in T. lia. }
  split; [eapply alt_near; eauto|].
  pose proof (level_samples data true 0 1 eq_refl) as X. cbn zeta in X. rewrite Ed in X. rewrite <- X. apply samples_fst.
  clear -F. induction F as [|nom act noms acts [H _] F IH]; cbn [map]; [reflexivity|]. rewrite IH. f_equal. exact H.
Qed.

Lemma pointwise_total ks ns : Forall2 (fun k n : N => 1 <= k /\ k <= n) ks ns -> total ks <= total ns /\ (total ks = total ns -> ks = ns).
Proof.
  induction 1 as [|k n ks ns [H1 H2] F [I1 I2]]; [split; [lia|reflexivity]|]. cbn [total fold_right]. fold (total ks) (total ns).
  split; [lia|]. intros E. f_equal; [lia|apply I2; lia].
Qed.

Lemma samples_last_even ks k seg last ck : length seg = length ks ->
  S (length (samples false ck seg ks)) = length (samples false ck (seg ++ [last]) (ks ++ [k])) -> N.odd (ck + total (ks ++ [k])) = false.
Proof.
  intros L E. rewrite samples_app in E by exact L. rewrite app_length in E. destruct last as [e d]. cbn [samples] in E.
  rewrite total_app. cbn [total fold_right]. fold (total ks). replace (ck + (total ks + (k + 0))) with (ck + total ks + k) by lia.
  destruct (N.odd (ck + total ks + k)); cbn [Bool.eqb app length] in E; [lia|reflexivity].
Qed.

Lemma alt_nth f l1 : forall e d l2, alt f (l1 ++ (e, d) :: l2) -> e = if Nat.even (length l1) then f else negb f.
Proof.
  revert f. induction l1 as [|[e0 d0] l1 IH]; intros f e d l2 A; cbn [app alt length] in *; [apply A|].
  destruct A as [_ A]. rewrite (IH _ _ _ _ A). rewrite Nat.even_succ, <- Nat.negb_even. destruct (Nat.even (length l1)); cbn; [reflexivity|apply negb_involutive].
Qed.

Lemma glitches_alt freq us h h' : glitches freq us h h' -> forall f, alt f h -> alt f h'.
Proof.
  induction 1 as [|[e d] h h' G IH|e d1 d2 d3 h h' H1 H2 H2' H3 G IH]; intros f A; [exact I| |]; cbn [alt] in *; destruct A as [-> A].
  - split; [reflexivity|apply IH, A].
  - split; [reflexivity|]. split; [reflexivity|]. rewrite negb_involutive. apply IH. split; [reflexivity|exact A].
Qed.
Lemma alt_end f l d d' : alt f (l ++ [(true, d)]) -> alt f ((l ++ [(true, d)]) ++ [(false, d')]).
Proof.
  revert f. induction l as [|[e0 d0] l IH]; intros f A; cbn [app alt] in *.
  - destruct A as [<- _]. auto.
  - destruct A as [-> A]. split; [reflexivity|apply IH, A].
Qed.
Lemma alt_fst f l ea e r : alt f l -> map fst l = ea ++ e :: r -> e = if Nat.even (length ea) then f else negb f.
Proof.
  intros A E. apply map_eq_app in E. destruct E as (l1 & l2 & -> & <- & E2). destruct l2 as [|[e' d] l2]; [discriminate|].
  cbn [map fst] in E2. injection E2 as -> _. rewrite map_length. exact (alt_nth _ _ _ _ _ A).
Qed.

Lemma same_prefix {A} (u v t1 t2 : list A) : u ++ t1 = v ++ t2 -> length u = length v -> u = v.
Proof.
  revert v. induction u as [|x u IH]; intros [|y v] E L; cbn [length] in L; try discriminate; [reflexivity|].
  cbn [app] in E. injection E as -> E. f_equal. apply IH; [exact E|lia].
Qed.

(** Whatever is read from a disturbed frame is the word that was sent. *)
Lemma rc5_glitched freq w gap acts tail evs' a g seg c bits :
  20000 <= freq -> N.testbit w 13 = true -> rc5_edges freq w gap ((true, gap) :: acts) ->
  tail = [] \/ N.testbit w 0 = true /\ (exists d, near freq 889 12 d /\ tail = [(false, d)]) ->
  glitches freq 600 (acts ++ tail) evs' ->
  (true, gap) :: evs' = a ++ (true, g) :: seg ++ c -> rc5_stream freq seg bits -> length bits = 13%nat ->
  bits_msb 14 w = true :: bits.
Proof.
  intros Hlo Hw He Ht G Ea S Lb.
  destruct (rc5_signal freq w gap _ Hw He) as (acts' & ns & data & Ex & Ed & Ld & U & B & T & A & Sd). injection Ex as <-.
  rewrite Ed. f_equal.
  assert (B1 : Forall (fun n => 1 <= n) ns).
  { clear -U Hlo. induction U as [|n x ns acts H U IH]; constructor; auto. apply unit_low in H; [lia|exact Hlo]. }
  pose proof (samples_time acts ns 0 B1) as St. rewrite Sd, Ld in St. change (N.odd 0) with false in St. cbn iota in St.
  assert (T26 : total ns = 26) by lia. clear T St.
  pose proof (forall2_length _ _ _ U) as LU.
  (* the last edge *)
  destruct acts as [|[el dl] b0 _] using rev_ind; [cbn in Sd; subst data; discriminate|].
  destruct ns as [|nl nb _] using rev_ind; [discriminate|].
  assert (Lnb : length b0 = length nb) by (rewrite !app_length in LU; cbn [length] in LU; lia).
  assert (Sl : exists d0, data = d0 ++ [el]).
  { rewrite samples_app in Sd by exact Lnb. cbn [samples] in Sd. rewrite total_app in T26. cbn [total fold_right] in T26.
    replace (0 + total nb + nl) with 26 in Sd by (unfold total in *; lia). change (N.odd 26) with false in Sd. cbn [Bool.eqb app] in Sd. eauto. }
  destruct Sl as (d0 & Sl).
  assert (Et : N.testbit w 0 = true -> el = true).
  { intros H0. clear -Ed Sl H0. rewrite Sl in Ed. unfold bits_msb, bits_lsb in Ed. cbn [seq map rev app] in Ed.
    change (true :: d0 ++ [el]) with ((true :: d0) ++ [el]) in Ed.
    change (N.of_nat 0) with 0 in Ed. rewrite H0 in Ed.
    match type of Ed with ?l = _ => change l with (removelast l ++ [true]) in Ed end.
    apply app_inj_tail in Ed. destruct Ed as [_ <-]. reflexivity. }
  assert (Af : alt false ((b0 ++ [(el, dl)]) ++ tail)).
  { destruct Ht as [->|(H0 & d & _ & ->)]; [rewrite app_nil_r; exact A|]. pose proof (Et H0) as X. subst el. apply alt_end, A. }
  set (acts := b0 ++ [(el, dl)]) in *. set (ns := nb ++ [nl]) in *.
  assert (Ae : alt false evs') by (eapply glitches_alt; eauto).
  assert (Hu : exists nt, Forall2 (unit_of freq) nt (acts ++ tail) /\ Forall (fun n => n <= 2) nt /\
                 (tail = [] /\ nt = ns \/ nt = ns ++ [1] /\ tail <> [] /\ N.testbit w 0 = true)).
  { destruct Ht as [->|(H0 & d & Hd & ->)].
    - exists ns. rewrite app_nil_r. auto.
    - exists (ns ++ [1]). split; [|split; [|right; split; [reflexivity|split; [discriminate|exact H0]]]].
      + apply Forall2_app; [exact U|]. constructor; [|constructor]. left. auto.
      + apply Forall_app. split; [exact B|]. constructor; [lia|constructor]. }
  destruct Hu as (nt & Ut & Bt & Hn).
  destruct S as (s' & last & ks & k & Es & Fk & Sb & Sc).
  assert (Lk : length seg = length (ks ++ [k])) by (apply forall2_length in Fk; rewrite map_length in Fk; auto).
  assert (Lk' : length s' = length ks) by (rewrite Es, !app_length in Lk; cbn [length] in Lk; lia).
  assert (Ls : seg <> []) by (rewrite Es; destruct s'; discriminate).
  (* the part of the signal it is read from *)
  assert (HA : exists A0, evs' = A0 ++ seg ++ c).
  { destruct a as [|y a]; cbn [app] in Ea; injection Ea as _ Ea; [exists []; exact Ea|exists (a ++ [(true, g)])]. rewrite <- app_assoc. exact Ea. }
  assert (Hfirst : exists d sr, seg = (false, d) :: sr).
  { destruct seg as [|[e d] sr]; [destruct (Ls eq_refl)|]. exists d, sr. do 2 f_equal.
    destruct a as [|y a]; cbn [app] in Ea; injection Ea as _ Ea; rewrite Ea in Ae.
    - cbn [app alt] in Ae. apply Ae.
    - apply alt_app in Ae. destruct Ae as [_ (f & Ae)]. cbn [app alt] in Ae. destruct Ae as (<- & -> & _). reflexivity. }
  destruct Hfirst as (df & sr & Ef). destruct HA as (A0 & EA).
  destruct (acts ++ tail) as [|x ht] eqn:Eat; [destruct acts as [|? ?] eqn:Eac; [subst acts; destruct b0; discriminate|discriminate]|].
  inversion Ut as [|n x1 nr ht1 Ux Uh]; subst x1 ht1 nt. inversion Bt as [|n1 nr1 Bn Bh]; subst n1 nr1.
  destruct (glitched freq Hlo _ _ G x ht n nr A0 seg c (ks ++ [k]) eq_refl (unit_part freq Hlo _ _ Ux) Bn Uh Bh EA Ls Fk)
    as (nA & nseg & nC & En & Fp & R & ea & rest & Er & La).
  rewrite En in *. clear Ut Bt Ux Uh Bn Bh.
  assert (Ev : Nat.even (length nA) = true).
  { rewrite Ef in Er. cbn [map fst app] in Er. pose proof (alt_fst _ _ _ _ _ Af Er) as X. rewrite La in X.
    destruct (Nat.even (length nA)); [reflexivity|discriminate X]. }
  assert (O : N.odd (total (ks ++ [k])) = false).
  { apply (samples_last_even ks k s' last 0); [exact Lk'|]. rewrite Sc, <- Sb, Es. reflexivity. }
  assert (K1 : Forall (fun n => 1 <= n) (ks ++ [k])).
  { clear -Fp. induction Fp as [|k0 n0 l1 l2 [H1 _] F IH]; constructor; auto. }
  pose proof (samples_time seg (ks ++ [k]) 0 K1) as St. rewrite Sb, Lb in St. change (N.odd 0) with false in St. cbn iota in St.
  destruct (pointwise_total _ _ Fp) as [P1 P2].
  assert (N1 : Forall (fun n => 1 <= n) (nA ++ nseg ++ nC)).
  { destruct Hn as [(_ & ->)|(-> & _)]; [exact B1|]. apply Forall_app. split; [exact B1|]. constructor; [lia|constructor]. }
  assert (Tn : total (nA ++ nseg ++ nC) <= 27).
  { destruct Hn as [(_ & ->)|(-> & _)]; [lia|]. rewrite total_app. cbn [total fold_right]. lia. }
  rewrite !total_app in Tn.
  assert (ZA : nA = []).
  { destruct nA as [|z1 [|z2 nA]]; [reflexivity|discriminate Ev|]. exfalso. cbn [app] in N1. inversion N1 as [|? ? Z1 N2]; subst. inversion N2; subst.
    cbn [total fold_right] in Tn. fold (total nA) in Tn. lia. }
  subst nA. destruct ea; [|discriminate La]. cbn [app] in *. cbn [total fold_right] in Tn. rewrite N.add_0_l in Tn.
  assert (Tk : total (ks ++ [k]) = 26).
  { assert (total (ks ++ [k]) <= 27) by lia. destruct (N.eq_dec (total (ks ++ [k])) 27) as [X|X]; [rewrite X in O; discriminate O|lia]. }
  (* all of the frame, and nothing else, is read *)
  assert (Done : ks ++ [k] = ns /\ nseg = ns -> data = bits).
  { intros [Z1 Z2]. rewrite <- Sd, <- Sb, Z1. apply samples_fst.
    assert (L1 : length acts = length seg) by (rewrite Lk, Z1; symmetry; exact LU).
    assert (E1 : map fst (acts ++ tail) = map fst seg ++ rest) by (rewrite Eat; exact Er).
    rewrite map_app in E1. apply (same_prefix _ _ _ _ E1). rewrite !map_length. exact L1. }
  assert (Z0 : forall q, total q = 0 -> Forall (fun n => 1 <= n) q -> q = []).
  { intros [|z q] H F; [reflexivity|]. inversion F; subst. cbn [total fold_right] in H. lia. }
  apply Forall_app in N1. destruct N1 as [_ NC].
  destruct Hn as [(_ & Hn)|(Hn & Htl & H0)].
  - (* no edge after the last bit *)
    assert (Tn2 : total nseg + total nC = 26) by (rewrite <- total_app, Hn; exact T26).
    assert (nC = []) as -> by (apply Z0; [lia|exact NC]). rewrite app_nil_r in Hn. apply Done. split; [|exact Hn]. rewrite <- Hn. apply P2. lia.
  - assert (Tn2 : total nseg + total nC = 27) by (rewrite <- total_app, Hn, total_app, T26; reflexivity).
    destruct nC as [|z nC _] using rev_ind.
    + (* up to the end of the last mark: then the first mark is one unit too short, and there is
         an edge at every unit, which is not so *)
      exfalso. rewrite app_nil_r in Hn. cbn [total fold_right] in Tn2. rewrite N.add_0_r in Tn2. subst nseg.
      apply Forall2_app_inv_r in Fp. destruct Fp as (k0 & k1 & Fp0 & Fp1 & Ek).
      inversion Fp1 as [|y1 y2 y3 y4 [Y1 Y2] Y3]; subst k1 y2 y4. inversion Y3; subst y3. clear Y3 Fp1.
      assert (y1 = 1) as -> by lia. apply app_inj_tail in Ek. destruct Ek as [<- ->].
      pose proof (forall2_length _ _ _ Fp0) as Lkn.
      destruct ns as [|n1 nm] eqn:Ens; [destruct nb; discriminate|]. destruct ks as [|k1 km]; [discriminate|].
      cbn [app tl] in R. rewrite !removelast_last in R. subst km. cbn [total fold_right app] in T26, Tk. 
      fold (total nm) in T26. fold (total (nm ++ [1])) in Tk. rewrite total_app in Tk. cbn [total fold_right] in Tk.
      assert (n1 = k1 + 1) as -> by (unfold total in *; lia).
      assert (Y3 : 1 <= k1 /\ k1 <= k1 + 1) by (inversion Fp0; assumption).
      assert (Bk : k1 + 1 <= 2) by (inversion B; assumption).
      assert (k1 = 1) as -> by lia. clear Y1 Y2 Y3.
      change (1 + 1) with 2 in *.
      (* both clocks read twelve edges of the rest *)
      destruct acts as [|[ef d1] am] eqn:Eac; [destruct b0; discriminate|].
      assert (Lm : length am = length nm) by (unfold edge in *; cbn [length] in LU; lia).
      cbn [samples] in Sd. rewrite N.add_0_l in Sd. change (N.odd 2) with false in Sd. cbn [Bool.eqb app] in Sd.
      destruct s' as [|[e1 d2] sm]; [discriminate Lk'|]. cbn [app samples] in Sc. rewrite N.add_0_l in Sc. change (N.odd 1) with true in Sc.
      cbn [Bool.eqb app] in Sc.
      assert (Lsm : length sm = length nm) by (cbn [length] in Lk'; lia).
      assert (Efst : map fst sm = map fst am).
      { rewrite Es in Er. rewrite <- Eat, map_app in Er. cbn [map app fst] in Er. injection Er as _ Er.
        rewrite map_app, <- app_assoc in Er. symmetry. apply (same_prefix _ _ _ _ Er). rewrite !map_length. unfold edge in *. lia. }
      pose proof (samples_both am nm 1 Lm) as Bo. rewrite (samples_fst false sm 1 am nm Efst) in Sc.
      change (1 + 1) with 2 in Bo. rewrite Lb in Sc. apply (f_equal (@length _)) in Sd. cbn [length] in Sd. rewrite Ld in Sd.
      assert (L24 : length am = 24%nat) by (unfold edge in *; lia).
      (* so the frame does not end in a mark *)
      assert (Eb : exists x0 b1, b0 = x0 :: b1 /\ am = b1 ++ [(el, dl)]).
      { unfold acts in Eac. destruct b0 as [|x0 b1]; cbn [app] in Eac; [injection Eac as _ _ X; rewrite <- X in L24; discriminate L24|].
        injection Eac as _ X. exists x0, b1. auto. }
      destruct Eb as (x0 & b1 & Eb0 & Eam).
      change ((ef, d1) :: am) with ([(ef, d1)] ++ am) in A. rewrite Eam in A.
      change ([(ef, d1)] ++ b1 ++ [(el, dl)]) with (((ef, d1) :: b1) ++ (el, dl) :: []) in A.
      pose proof (alt_nth _ _ _ _ _ A) as X. cbn [length] in X.
      assert (length b1 = 23%nat) by (rewrite Eam, app_length in L24; cbn [length] in L24; lia).
      replace (Datatypes.S (length b1)) with 24%nat in X by lia. cbn in X. rewrite (Et H0) in X. discriminate X.
    + rewrite app_assoc in Hn. apply app_inj_tail in Hn. destruct Hn as [Hn ->].
      rewrite total_app in Tn2. cbn [total fold_right] in Tn2. fold (total nC) in Tn2.
      apply Forall_app in NC. destruct NC as [NC _].
      assert (nC = []) as -> by (apply Z0; [unfold total in *; lia|exact NC]). rewrite app_nil_r in Hn.
      apply Done. split; [|exact Hn]. rewrite <- Hn. apply P2. unfold total in *. cbn [fold_right] in *. lia.
Qed.
