(** * Whole series of transmissions, sampled *)
From Coq Require Import NArith ZArith List Bool Lia ZifyBool ZifyNat ZifyN.
From Verif Require Import Machine Time Decoder Nec Receiver Spec Bits Codec_facts Time_facts Run_facts Nec_facts
  Spec_receiver Receiver_facts Props_receiver Encode_facts Cross_facts Air_facts Spec_phys Phys_facts Poll_facts Spec_keys Keys_facts Props_keys.
Import ListNotations.
Open Scope N_scope.

Lemma flat_map_at_changes {A X} (z : A) (f : A -> list X) levels : f z = [] -> forall cur n os,
  length os = length (level_edges cur n levels) -> flat_map f (at_changes z cur levels os) = flat_map f os.
Proof.
  intros Hz. induction levels as [|l r IH]; intros cur n os L; cbn [level_edges at_changes] in *.
  - destruct os; [reflexivity|discriminate].
  - destruct (Bool.eqb l cur).
    + cbn [flat_map]. rewrite Hz. apply (IH cur (n + 1)). exact L.
    + destruct os as [|o os]; [discriminate|]. cbn [length] in L. cbn [flat_map]. f_equal. apply (IH l 1). lia.
Qed.

Lemma level_edges_few L k : forall cur n, (length (level_edges cur n (L ++ repeat false k)) <= S (length L))%nat.
Proof.
  induction L as [|l r IH]; intros cur n; cbn [app level_edges length].
  - assert (H : forall k n, level_edges false n (repeat false k) = []) by (intros j; induction j; intros; [reflexivity|cbn; auto]).
    destruct k as [|k]; cbn [repeat level_edges]; [cbn; lia|]. destruct (Bool.eqb false cur) eqn:E.
    + apply Bool.eqb_prop in E. subst cur. rewrite H. cbn. lia.
    + cbn [length]. rewrite H. cbn. lia.
  - destruct (Bool.eqb l cur); [etransitivity; [apply IH|lia]|]. cbn [length]. specialize (IH l 1). lia.
Qed.

Section Series.
  Variables (T first : N).
  Hypothesis HT : 0 < T.
  Hypothesis Hfirst : first < T.
  Notation clock := (before T first).

  Lemma measured_short evs : Forall (fun e : edge => snd e <= (2 ^ 31 - 2) * T) evs -> forall t, short (measured clock t evs).
  Proof.
    induction 1 as [|[l D] r H F IH]; intros t; cbn [measured]; constructor; [|apply IH].
    cbn [snd] in *. unfold before.
    assert (K : (t + D + (T - 1 - first)) / T <= (t + (T - 1 - first)) / T + (2 ^ 31 - 2)).
    { rewrite <- N.div_add by lia. apply N.div_le_mono; lia. }
    change (2 ^ 31 - 2) with 2147483646 in K. change (2 ^ 31) with 2147483648. lia.
  Qed.

  Lemma polled_series P freq C (into : dcmd (p_dec P) -> C) L gap fr n p0 r0 :
    poll_new P freq = Val p0 -> receiver_new P freq = Val r0 ->
    alt false fr -> Forall (fun e : edge => T <= snd e) ((true, gap) :: fr) ->
    after 0 ((true, gap) :: fr) <= first + N.of_nat n * T ->
    N.of_nat (length L) * T + gap <= (2 ^ 31 - 3) * T ->
    Forall (fun e : edge => snd e <= (2 ^ 31 - 2) * T) fr ->
    exists h g, clock gap <= g /\ (L = [] -> h = []) /\ (length h <= S (length L))%nat /\
      short (h ++ (true, g) :: measured clock gap fr) /\
      forall r os1 os2, run_edges into r0 (h ++ (true, g) :: measured clock gap fr) = Val (r, os1 ++ os2) -> length os1 = length h ->
      exists q1 q2 k, outs (run_polls into p0 (L ++ map (level_at false 0 ((true, gap) :: fr)) (times first T (S n)))) = Val (q1 ++ q2) /\
        length q1 = (length L + k)%nat /\ (forall i, (i < k)%nat <-> first + N.of_nat i * T < gap) /\
        forall X (f : outcome C -> list X), f (ROk None) = [] -> flat_map f q1 = flat_map f os1 /\ flat_map f q2 = flat_map f os2.
  Proof.
    intros Ep Er A F Hn Hlen Hs.
    destruct (polled_levels T first HT Hfirst L gap fr n A F Hn) as (h & g & l2 & E1 & E2 & E3 & E4 & G1 & G2).
    assert (Ea : level_edges false 1 (L ++ map (level_at false 0 ((true, gap) :: fr)) (times first T (S n))) =
                 h ++ (true, g) :: measured clock gap fr).
    { rewrite E1, level_edges_app, E2, E3, E4. reflexivity. }
    assert (Hc : N.of_nat (length L) + clock gap <= 2 ^ 31 - 2).
    { unfold before. rewrite N.add_comm, <- N.div_add by lia. etransitivity; [apply (N.div_le_mono _ ((2 ^ 31 - 2) * T)); lia|].
      rewrite N.div_mul by lia. reflexivity. }
    assert (Hsh : short (h ++ (true, g) :: measured clock gap fr)).
    { unfold short. apply Forall_app. split; [|constructor; [|apply (measured_short fr Hs)]].
      - rewrite <- E2. eapply Forall_impl; [|apply level_edges_bound]. intros e He. cbn beta in *.
        rewrite app_length, repeat_length in He. change (2 ^ 31 - 2) with 2147483646 in Hc. change (2 ^ 31) with 2147483648. lia.
      - cbn [snd]. change (2 ^ 31 - 2) with 2147483646 in Hc. change (2 ^ 31) with 2147483648. lia. }
    exists h, g. split; [exact G1|]. split; [|split; [rewrite <- E2; apply level_edges_few|split; [exact Hsh|]]].
    { intros ->. rewrite <- E2. cbn [app]. rewrite <- (app_nil_r (repeat _ _)), level_edges_same. reflexivity. }
    intros r os1 os2 E Lo.
    pose proof (run_edges_length into _ _ _ _ E) as K. rewrite !app_length in K.
    rewrite (C47_poll P freq C into _ p0 r0 Ep Er).
    2:{ rewrite Ea. eapply Forall_impl; [|exact Hsh]. intros e He. cbn beta in *. change (2 ^ 31) with 2147483648 in *. change (2 ^ 32) with 4294967296. lia. }
    rewrite Ea. unfold outs at 1. rewrite E. cbn [bind]. rewrite E1.
    assert (E2' : length os1 = length (level_edges false 1 (L ++ repeat false (N.to_nat (clock gap))))) by (rewrite E2; exact Lo).
    eexists. eexists. exists (N.to_nat (clock gap)).
    split; [apply (f_equal Val); apply (at_changes_split (ROk None) _ false 1 l2 os1 os2 E2')|]. split; [|split].
    - refine (eq_trans (at_changes_length (ROk None) _ false 1 _ E2') _). rewrite app_length, repeat_length. reflexivity.
    - intros i. rewrite <- (before_spec T first HT Hfirst). lia.
    - intros X f Hf. split; [apply (flat_map_at_changes (ROk None) f _ Hf false 1); exact E2'|].
      rewrite E3. apply (flat_map_at_changes (ROk None) f _ Hf false (snd (run_state false 1 (L ++ repeat false (N.to_nat (clock gap)))))).
      rewrite E4. clear -K Lo. cbn [length] in K |- *. unfold edge, outcome in *. lia.
  Qed.

  Lemma alt_bursts ys : alt true (flat_map burst_edges ys).
  Proof.
    induction ys as [|[[gap ps] stop] ys IH]; [exact I|]. cbn [flat_map burst_edges app alt]. split; [reflexivity|].
    rewrite <- app_assoc. clear gap. induction ps as [|[mk sp] ps IHp]; cbn [pair_edges app alt negb]; [split; [reflexivity|exact IH]|].
    split; [reflexivity|]. split; [reflexivity|]. exact IHp.
  Qed.

  (** Presses, sampled after any samples [L]: what is measured of them. *)
  Lemma polled_bursts P freq C (into : dcmd (p_dec P) -> C) L gap fr n p0 r0 ys :
    poll_new P freq = Val p0 -> receiver_new P freq = Val r0 -> 0 < freq ->
    flat_map burst_edges ys = (true, gap) :: fr -> Forall (fun e : edge => T <= snd e) ((true, gap) :: fr) ->
    after 0 ((true, gap) :: fr) <= first + N.of_nat n * T ->
    N.of_nat (length L) * T + gap <= (2 ^ 31 - 3) * T ->
    Forall (fun e : edge => snd e <= (2 ^ 31 - 2) * T) fr ->
    exists h ys', (L = [] -> h = []) /\ short (h ++ flat_map burst_edges ys') /\ Forall2 (burst_seen freq (freq * T) 1 1) ys ys' /\
      forall r os1 os2, run_edges into r0 (h ++ flat_map burst_edges ys') = Val (r, os1 ++ os2) -> length os1 = length h ->
      exists q1 q2 k, outs (run_polls into p0 (L ++ map (level_at false 0 ((true, gap) :: fr)) (times first T (S n)))) = Val (q1 ++ q2) /\
        length q1 = (length L + k)%nat /\ (forall i, (i < k)%nat <-> first + N.of_nat i * T < gap) /\
        forall X (f : outcome C -> list X), f (ROk None) = [] -> flat_map f q1 = flat_map f os1 /\ flat_map f q2 = flat_map f os2.
  Proof.
    intros Ep Er Hf Ey F Hn Hlen Hs.
    assert (A : alt true ((true, gap) :: fr)) by (rewrite <- Ey; apply alt_bursts). destruct A as [_ A].
    destruct (polled_series P freq C into L gap fr n p0 r0 Ep Er A F Hn Hlen Hs) as (h & g & G1 & H0 & _ & Hsh & Q).
    destruct (bursts_one_clock freq (freq * T) 1 clock (before_counts T first HT Hfirst freq Hf) ys 0) as (ys' & Em & R).
    rewrite Ey in Em. cbn [measured] in Em. rewrite N.add_0_l in Em.
    assert (B0 : clock 0 = 0) by (unfold before; rewrite N.add_0_l; apply N.div_small; lia). rewrite B0, N.sub_0_r in Em.
    destruct R as [|y [[g' ps'] stop'] r1 r2 [R1 R2] R]; [discriminate Ey|]. cbn [fst snd] in R1, R2.
    cbn [flat_map burst_edges app] in Em. injection Em as Eg Em.
    exists h, ((g, ps', stop') :: r2). cbn [flat_map burst_edges app]. rewrite <- Em. split; [exact H0|]. split; [exact Hsh|]. split; [|exact Q].
    constructor; [|exact R]. split; [|exact R2]. cbn [fst snd]. rewrite <- Eg in R1. eapply N.lt_le_trans; [exact R1|].
    apply N.add_le_mono_r, N.mul_le_mono_r. exact G1.
  Qed.
End Series.
