(** * Lemmas about polling the pin of a sender *)
From Coq Require Import NArith ZArith List Bool Lia ZifyBool ZifyNat ZifyN.
From Verif Require Import Machine Spec Spec_sender Spec_receiver Bits Time Decoder Receiver Sender
  Run_facts Roundtrip_facts Sender_facts Props_receiver.
Import ListNotations.
Open Scope N_scope.
Ltac Zify.zify_post_hook ::= Z.div_mod_to_equations.

Definition quiet {C} (o : outcome C) : Prop := match o with ROk _ => True | RErr _ => False end.

Lemma commands_at_changes {C} levels : forall cur n (os : list (outcome C)),
  length os = length (level_edges cur n levels) ->
  commands (at_changes (ROk None) cur levels os) = commands os.
Proof.
  induction levels as [|l r IH]; intros cur n os L; cbn [level_edges at_changes] in *.
  - destruct os; [reflexivity|discriminate].
  - destruct (Bool.eqb l cur).
    + apply (IH cur (n + 1)). exact L.
    + destruct os as [|o os]; [discriminate|]. cbn [length] in L. unfold commands in *. cbn [flat_map]. f_equal.
      apply (IH l 1). lia.
Qed.

Lemma quiet_at_changes {C} levels : forall cur (os : list (outcome C)),
  Forall quiet os -> Forall quiet (at_changes (ROk None) cur levels os).
Proof.
  induction levels as [|l r IH]; intros cur os Ho; cbn [at_changes]; auto.
  destruct (Bool.eqb l cur).
  - constructor; [exact I|]. auto.
  - destruct Ho as [|o os Ho Hos]; auto.
Qed.

Lemma level_edges_repeat on k ls : forall n, level_edges on n (repeat on k ++ ls) = level_edges on (n + N.of_nat k) ls.
Proof.
  induction k as [|k IH]; intros n; cbn [repeat app level_edges].
  - rewrite N.add_0_r. reflexivity.
  - rewrite eqb_reflx, IH. f_equal. lia.
Qed.

(** The edges of a held waveform, followed by the pin off. *)
Lemma held_edges es k : forall on, exists t,
  level_edges on 1 (tl (held on es) ++ repeat false (S k)) = alternating (negb on) (map (N.max 1) es) ++ t /\
  (t = [] \/ t = [(false, 1)]).
Proof.
  induction es as [|e es IH]; intros on.
  - cbn [held tl app repeat level_edges map alternating]. destruct on; cbn [Bool.eqb].
    + exists [(false, 1)]. pose proof (level_edges_repeat false k [] 1) as R. rewrite app_nil_r in R. rewrite R. cbn [level_edges]. auto.
    + exists []. pose proof (level_edges_repeat false k [] (1 + 1)) as R. rewrite app_nil_r in R. rewrite R. cbn [level_edges]. auto.
  - set (off := repeat false (S k)) in *. cbn [held]. destruct (N.to_nat (N.max 1 e)) as [|j] eqn:Ej; [lia|]. cbn [repeat app tl].
    rewrite <- app_assoc, level_edges_repeat. rewrite held_cons. cbn [app level_edges].
    rewrite eqb_negb1. destruct (IH (negb on)) as (t & Et & Ht). rewrite Et.
    replace (1 + N.of_nat j) with (N.max 1 e) by lia. exists t. split; [|exact Ht].
    cbn [map alternating app]. rewrite negb_involutive. reflexivity.
Qed.

Lemma alternating_app vs ws : forall on, exists on', alternating on (vs ++ ws) = alternating on vs ++ alternating on' ws.
Proof.
  induction vs as [|v vs IH]; intros on.
  - exists on. reflexivity.
  - destruct (IH (negb on)) as (on' & E). exists on'. cbn [app alternating]. rewrite E. reflexivity.
Qed.

Lemma alternating_snd vs : forall on (Q : N -> Prop), Forall Q vs -> Forall (fun e : edge => Q (snd e)) (alternating on vs).
Proof.
  induction vs as [|v vs IH]; intros on Q H; cbn [alternating]; auto. inversion H; subst. constructor; auto.
Qed.

(** The levels on the pin of a sender that was loaded with [0 :: vs ++ zs], polled. *)
Lemma pin_polled P F C (into : dcmd (p_dec P) -> C) c vs zs off r0 r1 os1 :
  receiver_new P F = Val r0 ->
  Forall (fun e => 1 <= e /\ e < 2 ^ 32) vs -> Forall (fun e => e <= 1) zs ->
  run_edges into r0 ((true, 1) :: alternating false vs) = Val (r1, os1) ->
  commands os1 = [c] -> Forall quiet os1 ->
  (forall h, Forall (fun e : edge => snd e = 1) h -> exists r2, run_edges into r1 h = Val (r2, repeat (ROk None) (length h))) ->
  forall k, (length (pin_wave (0%N :: vs ++ zs)) < k)%nat ->
  exists p0 os, poll_new P F = Val p0 /\
    outs (run_polls into p0 (snd (hs_ticks k (mkHS 0 (mkPS (mkPB (0 :: vs ++ zs) off) 0 StIdle 0))))) = Val os /\
    length os = k /\ commands os = [c] /\ Forall quiet os.
Proof.
  intros Er Hv Hz R Hc Ho Hq k Hk.
  assert (Ep : exists p0, poll_new P F = Val p0).
  { unfold receiver_new in Er. unfold poll_new. destruct (p_build P F) as [d| |]; cbn [bind] in *; try discriminate. eexists. reflexivity. }
  destruct Ep as (p0 & Ep). exists p0.
  rewrite (hs_transmit_prefix (mkPB (0 :: vs ++ zs) off)).
  2:{ cbn [pb_buf]. constructor; [reflexivity|]. apply Forall_app. split.
      - eapply Forall_impl; [|exact Hv]. cbv beta. tauto.
      - eapply Forall_impl; [|exact Hz]. cbv beta. change (2 ^ 32) with 4294967296. lia. }
  cbn [pb_buf].
  set (levels := firstn k (pin_wave (0 :: vs ++ zs) ++ repeat false k)).
  assert (El : exists j, levels = held true (vs ++ zs) ++ repeat false (S j)).
  { exists (k - length (pin_wave (0%N :: vs ++ zs)) - 1)%nat. unfold levels.
    change (pin_wave (0 :: vs ++ zs)) with (held true (vs ++ zs)) in *. rewrite firstn_app, firstn_all2 by lia. f_equal.
    assert (G : forall i j, (i <= j)%nat -> firstn i (repeat false j) = repeat false i).
    { clear. induction i as [|i IH]; intros j H; auto. destruct j as [|j]; [lia|]. cbn [repeat firstn]. f_equal. apply IH. lia. }
    rewrite G by lia. f_equal. lia. }
  destruct El as (j & El).
  destruct (held_edges (vs ++ zs) j true) as (t & Et & Ht).
  assert (Ee : level_edges false 1 levels = (true, 1) :: alternating false (map (N.max 1) (vs ++ zs)) ++ t).
  { rewrite El, held_cons. cbn [app level_edges Bool.eqb]. f_equal. exact Et. }
  rewrite map_app in Ee.
  assert (Ev : map (N.max 1) vs = vs).
  { clear -Hv. induction Hv as [|v vs Hv1 Hv2 IH]; auto. cbn [map]. f_equal; auto. lia. }
  rewrite Ev in Ee. destruct (alternating_app vs (map (N.max 1) zs) false) as (on' & Ea). rewrite Ea in Ee.
  rewrite <- app_assoc in Ee.
  set (tail := alternating on' (map (N.max 1) zs) ++ t) in *.
  assert (Htail : Forall (fun e : edge => snd e = 1) tail).
  { unfold tail. apply Forall_app. split.
    - apply (alternating_snd _ on' (fun x => x = 1)). clear -Hz. induction Hz as [|z zs Hz1 Hz2 IH]; cbn [map]; constructor; auto. lia.
    - destruct Ht as [-> | ->]; repeat constructor. }
  destruct (Hq tail Htail) as (r2 & R2).
  pose proof (run_edges_app_val into _ _ _ _ _ _ _ R R2) as R12. cbn [app] in R12.
  pose proof (C47_poll P F C into levels p0 r0 Ep Er) as Q.
  assert (R12' : run_edges into r0 (level_edges false 1 levels) = Val (r2, os1 ++ repeat (ROk None) (length tail))).
  { rewrite Ee. exact R12. }
  clear R12. rename R12' into R12. rewrite R12 in Q. cbn [outs bind] in Q. rewrite Ee in Q.
  eexists. split; [exact Ep|]. split; [apply Q|].
  - constructor; [reflexivity|]. apply Forall_app. split.
    + eapply Forall_impl; [|apply (alternating_snd vs false (fun e => 1 <= e /\ e < 2 ^ 32)), Hv]. cbv beta. tauto.
    + eapply Forall_impl; [|exact Htail]. cbv beta. intros e He. rewrite He. reflexivity.
  - assert (L : length (os1 ++ repeat (ROk None) (length tail)) = length (level_edges false 1 levels)).
    { apply (run_edges_length _ _ _ _ _ R12). }
    split; [|split].
    + assert (Ll : length levels = k).
      { unfold levels. rewrite firstn_length, app_length, repeat_length. lia. }
      rewrite <- Ll. clear -L. revert L. generalize (os1 ++ repeat (ROk None) (length tail)). generalize false, 1.
      induction levels as [|l ls IH]; intros cur n os L; cbn [level_edges at_changes] in *; auto.
      destruct (Bool.eqb l cur); cbn [length].
      * f_equal. apply (IH cur (n + 1)). exact L.
      * destruct os as [|o os]; [discriminate|]. cbn [length] in *. f_equal. apply (IH l 1). lia.
    + rewrite (commands_at_changes levels false 1) by exact L. 
      assert (A : forall x y : list (outcome C), commands (x ++ y) = commands x ++ commands y) by (intros; apply flat_map_app).
      assert (Z : forall n, commands (repeat (ROk None) n : list (outcome C)) = []) by (clear; induction n; auto).
      etransitivity; [apply A|]. rewrite Z, app_nil_r. exact Hc.
    + apply quiet_at_changes. apply Forall_app. split; [exact Ho|]. clear. induction (length tail); constructor; [exact I|auto].
Qed.
