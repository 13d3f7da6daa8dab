(** * Lemmas about the senders *)
From Coq Require Import NArith ZArith List Bool Lia ZifyBool ZifyNat ZifyN.
From Verif Require Import Machine Spec Spec_sender Bits Sender.
Import ListNotations.
Open Scope N_scope.
Ltac Zify.zify_post_hook ::= Z.div_mod_to_equations.

Definition is_on (s : status) : bool := match s with StTransmit true => true | _ => false end.

Lemma hs_ticks_app a b : forall h, hs_ticks (a + b) h =
  let '(h1, l1) := hs_ticks a h in let '(h2, l2) := hs_ticks b h1 in (h2, l1 ++ l2).
Proof.
  induction a as [|a IH]; intros h; cbn [Nat.add hs_ticks].
  - destruct (hs_ticks b h) as [h2 l2]. reflexivity.
  - destruct (hs_tick h) as [h1 l]. rewrite IH. destruct (hs_ticks a h1) as [h2 l1].
    destruct (hs_ticks b h2) as [h3 l2]. reflexivity.
Qed.

Lemma hs_ticks_length n : forall h, length (snd (hs_ticks n h)) = n.
Proof.
  induction n as [|n IH]; intros h; cbn [hs_ticks]; auto.
  destruct (hs_tick h) as [h1 l]. specialize (IH h1). destruct (hs_ticks n h1) as [h2 ls]. cbn [snd length] in *. lia.
Qed.

Lemma hs_ticks_S n h : hs_ticks (S n) h =
  let '(h1, l) := hs_tick h in let '(h2, ls) := hs_ticks n h1 in (h2, l :: ls).
Proof. reflexivity. Qed.

(** The time on the counter [d] ticks after [ts]. *)
Definition at_ (ts d : N) : N := (ts + d) mod 2 ^ 32.

Lemma at_sub ts d : ts < 2 ^ 32 -> d < 2 ^ 32 -> wrapping_sub32 (at_ ts d) ts = d.
Proof. unfold wrapping_sub32, at_. change (2 ^ 32) with 4294967296. lia. Qed.
Lemma at_succ ts d : wrapping_add32 (at_ ts d) 1 = at_ ts (d + 1).
Proof. unfold wrapping_add32, at_. change (2 ^ 32) with 4294967296. lia. Qed.
Lemma at_lt ts d : at_ ts d < 2 ^ 32.
Proof. apply N.mod_lt. discriminate. Qed.
Lemma at_rebase t : t < 2 ^ 32 -> at_ t 1 = wrapping_add32 t 1.
Proof. reflexivity. Qed.

Section Sender.
  Variable p : pulse_buffer.
  Notation buf := (pb_buf p).
  Notation S_ c pos st ts := (mkHS c (mkPS p pos st ts)).

  (** Waiting. *)
  Lemma hs_wait k : forall pos st ts d e, nth_error buf pos = Some e -> e < 2 ^ 32 -> ts < 2 ^ 32 ->
    d + N.of_nat k <= e ->
    hs_ticks k (S_ (at_ ts d) pos st ts) = (S_ (at_ ts (d + N.of_nat k)) pos st ts, repeat (is_on st) k).
  Proof.
    induction k as [|k IH]; intros pos st ts d e E He Ht Hk; cbn [hs_ticks repeat].
    - rewrite N.add_0_r. reflexivity.
    - unfold hs_tick, ps_tick, pb_get. cbn [hs_buffer hs_counter ps_ptb ps_pos ps_ts ps_status]. rewrite E.
      rewrite at_sub by lia. rewrite (proj2 (N.leb_gt _ _)) by lia. rewrite at_succ.
      rewrite (IH pos st ts (d + 1) e) by (auto; lia).
      replace (d + 1 + N.of_nat k) with (d + N.of_nat (Datatypes.S k)) by lia.
      destruct st as [|[]|]; reflexivity.
  Qed.

  (** Switching. *)
  Lemma hs_fire pos on st ts d e : nth_error buf pos = Some e -> ts < 2 ^ 32 -> d < 2 ^ 32 -> e <= d ->
    st = StTransmit on \/ (st = StIdle /\ on = false) ->
    hs_tick (S_ (at_ ts d) pos st ts) =
      (S_ (at_ (at_ ts d) 1) (pos + 1) (StTransmit (negb on)) (at_ ts d), negb on).
  Proof.
    intros E Ht Hd He Hs. unfold hs_tick, ps_tick, pb_get. cbn [hs_buffer hs_counter ps_ptb ps_pos ps_ts ps_status].
    rewrite E, at_sub by auto. rewrite (proj2 (N.leb_le _ _)) by exact He.
    destruct Hs as [-> | (-> & ->)]; [destruct on|]; reflexivity.
  Qed.

  (** After the last entry. *)
  Lemma hs_done c pos st ts : nth_error buf pos = None ->
    hs_tick (S_ c pos st ts) = (S_ (wrapping_add32 c 1) pos StIdle ts, false).
  Proof. intros E. unfold hs_tick, ps_tick, pb_get. cbn [hs_buffer hs_counter ps_ptb ps_pos ps_ts ps_status]. rewrite E. reflexivity. Qed.

  Lemma hs_idle k : forall c pos st ts, nth_error buf pos = None ->
    exists c' st', hs_ticks k (S_ c pos st ts) = (S_ c' pos st' ts, repeat false k) /\
      (k = O -> st' = st) /\ (k <> O -> st' = StIdle).
  Proof.
    induction k as [|k IH]; intros c pos st ts E.
    - exists c, st. split; [reflexivity|]. split; [auto|]. intros H. destruct H. reflexivity.
    - rewrite hs_ticks_S, hs_done by exact E. destruct (IH (wrapping_add32 c 1) pos StIdle ts E) as (c' & st' & E' & H0 & H1).
      rewrite E'. exists c', st'. split; [reflexivity|]. split; [discriminate|]. intros _.
      destruct k; [apply H0; reflexivity|apply H1; discriminate].
  Qed.

  Lemma skipn_nth pos e (es : list N) : skipn pos buf = e :: es -> nth_error buf pos = Some e /\ skipn (pos + 1) buf = es.
  Proof.
    generalize buf. intros l. revert l. induction pos as [|pos IH]; intros l H.
    - cbn [skipn] in H. subst l. split; reflexivity.
    - destruct l as [|x l]; [discriminate|]. cbn [skipn nth_error Nat.add] in *. apply IH. exact H.
  Qed.
  Lemma skipn_nth_nil pos : skipn pos buf = [] -> nth_error buf pos = None.
  Proof.
    intros H. apply nth_error_None. assert (L : length (skipn pos buf) = O) by (rewrite H; reflexivity).
    rewrite skipn_length in L. lia.
  Qed.

  Lemma held_cons on es : held on es = on :: tl (held on es).
  Proof.
    destruct es as [|e es]; [reflexivity|]. cbn [held].
    destruct (N.to_nat (N.max 1 e)) as [|n] eqn:E; [lia|]. reflexivity.
  Qed.

  Lemma hs_held es : forall pos on ts, skipn pos buf = es -> Forall (fun e => e < 2 ^ 32) es -> ts < 2 ^ 32 ->
    exists c ts', hs_ticks (length (held on es)) (S_ (at_ ts 1) pos (StTransmit on) ts) =
      (S_ c (length es + pos) StIdle ts', tl (held on es) ++ [false]).
  Proof.
    induction es as [|e es IH]; intros pos on ts Hs He Ht.
    - cbn [held length tl app]. rewrite hs_ticks_S, hs_done by (apply skipn_nth_nil; exact Hs).
      do 2 eexists. reflexivity.
    - apply skipn_nth in Hs. destruct Hs as (Hn & Hs). inversion He as [|? ? He1 He2]; subst.
      set (m := N.to_nat (N.max 1 e)). cbn [held]. fold m.
      assert (Em : (m = S (m - 1))%nat) by (unfold m; lia).
      assert (Ew : hs_ticks (m - 1) (S_ (at_ ts 1) pos (StTransmit on) ts) =
        (S_ (at_ ts (N.max 1 e)) pos (StTransmit on) ts, repeat on (m - 1))).
      { destruct (N.eq_dec e 0) as [->|D].
        - replace (m - 1)%nat with O by (unfold m; lia). reflexivity.
        - rewrite (hs_wait _ _ _ _ _ e) by (auto; unfold m; lia). 
          replace (1 + N.of_nat (m - 1)) with (N.max 1 e) by (unfold m; lia). destruct on; reflexivity. }
      rewrite app_length, repeat_length.
      replace (m + length (held (negb on) (skipn (pos + 1) buf)))%nat
        with ((m - 1) + S (length (held (negb on) (skipn (pos + 1) buf))))%nat by lia.
      rewrite hs_ticks_app, Ew, hs_ticks_S.
      assert (Hm : N.max 1 e < 2 ^ 32) by (apply N.max_lub_lt; [reflexivity|exact He1]).
      rewrite (hs_fire pos on _ ts (N.max 1 e) e Hn Ht Hm (N.le_max_r _ _) (or_introl eq_refl)).
      destruct (IH (pos + 1)%nat (negb on) (at_ ts (N.max 1 e)) eq_refl He2 (at_lt _ _)) as (c & ts' & E).
      rewrite E. exists c, ts'. f_equal.
      + do 2 f_equal. cbn [length]. lia.
      + rewrite Em. replace (S (m - 1) - 1)%nat with (m - 1)%nat by lia. cbn [repeat app tl].
        rewrite <- app_assoc. f_equal. rewrite (held_cons (negb on)) at 2. reflexivity.
  Qed.

  (** A whole transmission from the moment after loading. *)
  Lemma hs_transmit : Forall (fun e => e < 2 ^ 32) buf ->
    exists c pos ts, hs_ticks (S (length (pin_wave buf))) (S_ 0 O StIdle 0) = (S_ c pos StIdle ts, pin_wave buf ++ [false]) /\
      nth_error buf pos = None.
  Proof.
    intros He. destruct buf as [|e es] eqn:Eb.
    - cbn [pin_wave length]. rewrite hs_ticks_S, hs_done by (rewrite Eb; reflexivity). do 3 eexists. split; reflexivity.
    - inversion He as [|? ? He1 He2]; subst. rewrite <- Eb.
      assert (Hs : skipn 0 buf = e :: es) by exact Eb. apply skipn_nth in Hs. destruct Hs as (Hn & Hs).
      rewrite Eb. cbn [pin_wave]. rewrite app_length, repeat_length.
      replace (S (N.to_nat e + length (held true es))) with (N.to_nat e + S (length (held true es)))%nat by lia.
      rewrite hs_ticks_app. change (mkHS 0 (mkPS p 0 StIdle 0)) with (mkHS (at_ 0 0) (mkPS p 0 StIdle 0)).
      rewrite (hs_wait _ _ _ _ _ e) by (auto; lia || reflexivity). rewrite hs_ticks_S.
      replace (0 + N.of_nat (N.to_nat e)) with e by lia.
      rewrite (hs_fire 0 false _ 0 e e) by (auto; lia || reflexivity).
      destruct (hs_held es (0 + 1)%nat true (at_ 0 e) Hs He2 (at_lt _ _)) as (c & ts' & E).
      cbn [negb]. rewrite E. exists c, (length es + (0 + 1))%nat, ts'. split.
      + f_equal. cbn [is_on]. rewrite <- app_assoc. f_equal. rewrite (held_cons true) at 2. reflexivity.
      + apply nth_error_None. cbn [length]. lia.
  Qed.

  Lemma hs_transmit_prefix k : Forall (fun e => e < 2 ^ 32) buf ->
    snd (hs_ticks k (S_ 0 O StIdle 0)) = firstn k (pin_wave buf ++ repeat false k).
  Proof.
    intros He. destruct (hs_transmit He) as (c & pos & ts & E & En).
    destruct (hs_idle k c pos StIdle ts En) as (c' & st' & Ei & _ & _).
    assert (A : snd (hs_ticks (S (length (pin_wave buf)) + k) (S_ 0 O StIdle 0)) = pin_wave buf ++ [false] ++ repeat false k).
    { rewrite hs_ticks_app, E, Ei. cbn [snd]. rewrite <- app_assoc. reflexivity. }
    rewrite Nat.add_comm, hs_ticks_app in A.
    pose proof (hs_ticks_length k (S_ 0 O StIdle 0)) as L.
    destruct (hs_ticks k (S_ 0 O StIdle 0)) as [h1 l1]. cbn [snd] in *.
    destruct (hs_ticks (S (length (pin_wave buf))) h1) as [h2 l2]. cbn [snd] in A.
    apply (f_equal (firstn k)) in A. rewrite <- L in A at 1. rewrite firstn_app, firstn_all, Nat.sub_diag in A.
    cbn [firstn] in A. rewrite app_nil_r in A. rewrite A.
    clear. change ([false] ++ repeat false k) with (repeat false (S k)). rewrite !firstn_app. f_equal. assert (H : (k - length (pin_wave buf) <= k)%nat) by lia.
    revert H. generalize (k - length (pin_wave buf))%nat as n. intros n H.
    assert (G : forall a b, (a <= b)%nat -> firstn a (repeat false b) = repeat false a).
    { induction a as [|a IH]; intros b Hb; [reflexivity|]. destruct b; [lia|]. cbn [repeat firstn]. f_equal. apply IH. lia. }
    rewrite !G by lia. reflexivity.
  Qed.

  (** The status while a transmission is on. *)
  Lemma hs_held_status es : forall pos on ts k, skipn pos buf = es -> Forall (fun e => e < 2 ^ 32) es -> ts < 2 ^ 32 ->
    (k < length (held on es))%nat ->
    exists o, ps_status (hs_buffer (fst (hs_ticks k (S_ (at_ ts 1) pos (StTransmit on) ts)))) = StTransmit o.
  Proof.
    induction es as [|e es IH]; intros pos on ts k Hs He Ht Hk.
    - cbn [held length] in Hk. assert (k = O) as -> by lia. eexists. reflexivity.
    - apply skipn_nth in Hs. destruct Hs as (Hn & Hs). inversion He as [|? ? He1 He2]; subst.
      set (m := N.to_nat (N.max 1 e)). cbn [held] in Hk. fold m in Hk. rewrite app_length, repeat_length in Hk.
      assert (Ew : forall j, (j <= m - 1)%nat -> hs_ticks j (S_ (at_ ts 1) pos (StTransmit on) ts) =
        (S_ (at_ ts (1 + N.of_nat j)) pos (StTransmit on) ts, repeat (is_on (StTransmit on)) j)).
      { intros j Hj. destruct j as [|j]; [reflexivity|]. apply (hs_wait _ _ _ _ _ e); auto. unfold m in Hj. lia. }
      destruct (Nat.le_gt_cases k (m - 1)) as [L|L].
      + rewrite Ew by exact L. eexists. reflexivity.
      + destruct k as [|k]; [lia|]. replace (S k) with ((m - 1) + S (k - (m - 1)))%nat by lia.
        rewrite hs_ticks_app, Ew, hs_ticks_S by lia.
        replace (1 + N.of_nat (m - 1)) with (N.max 1 e) by (unfold m; lia).
        assert (Hm : N.max 1 e < 2 ^ 32) by (apply N.max_lub_lt; [reflexivity|exact He1]).
        rewrite (hs_fire pos on _ ts (N.max 1 e) e Hn Ht Hm (N.le_max_r _ _) (or_introl eq_refl)).
        destruct (IH (pos + 1)%nat (negb on) (at_ ts (N.max 1 e)) (k - (m - 1))%nat eq_refl He2 (at_lt _ _)) as (o & E).
        { unfold m in *. lia. }
        exists o. destruct (hs_ticks (k - (m - 1)) _) as [h2 l2]. exact E.
  Qed.

  Lemma hs_transmit_status es k : Forall (fun e => e < 2 ^ 32) buf -> buf = 0 :: es ->
    (1 <= k)%nat -> (k <= length (pin_wave buf))%nat ->
    exists o, ps_status (hs_buffer (fst (hs_ticks k (S_ 0 O StIdle 0)))) = StTransmit o.
  Proof.
    intros He Eb H1 Hk. rewrite Eb in He. inversion He as [|? ? He1 He2]; subst.
    assert (Hs : skipn 0 buf = 0 :: es) by exact Eb. apply skipn_nth in Hs. destruct Hs as (Hn & Hs).
    rewrite Eb in Hk. cbn [pin_wave N.to_nat repeat app] in Hk.
    destruct k as [|k]; [lia|]. rewrite hs_ticks_S.
    change (mkHS 0 (mkPS p 0 StIdle 0)) with (mkHS (at_ 0 0) (mkPS p 0 StIdle 0)).
    rewrite (hs_fire 0 false _ 0 0 0) by (auto; lia || reflexivity).
    destruct (hs_held_status es (0 + 1)%nat true (at_ 0 0) k Hs He2 (at_lt _ _) Hk) as (o & E).
    exists o. cbn [negb]. destruct (hs_ticks k _) as [h2 l2]. exact E.
  Qed.

  (** From any state. *)
  Lemma hs_finishes es : forall c pos st ts, skipn pos buf = es -> Forall (fun e => e < 2 ^ 32) es ->
    c < 2 ^ 32 -> ts < 2 ^ 32 ->
    exists k c' pos' ts', (k <= N.to_nat (total es) + length es + 1)%nat /\ k <> O /\
      fst (hs_ticks k (S_ c pos st ts)) = S_ c' pos' StIdle ts' /\ nth_error buf pos' = None.
  Proof.
    induction es as [|e es IH]; intros c pos st ts Hs He Hc Ht.
    - apply skipn_nth_nil in Hs. exists 1%nat. rewrite hs_ticks_S, hs_done by exact Hs.
      do 3 eexists. split; [cbn; lia|]. split; [discriminate|]. split; [reflexivity|exact Hs].
    - apply skipn_nth in Hs. destruct Hs as (Hn & Hs). inversion He as [|? ? He1 He2]; subst.
      assert (Ec : c = at_ ts (wrapping_sub32 c ts)).
      { unfold at_, wrapping_sub32. change (2 ^ 32) with 4294967296 in *. lia. }
      assert (Ld : wrapping_sub32 c ts < 2 ^ 32) by (apply N.mod_lt; discriminate).
      remember (wrapping_sub32 c ts) as d eqn:Ed. clear Ed. subst c.
      assert (Ew : exists j d', (j <= N.to_nat e)%nat /\ e <= d' /\ d' < 2 ^ 32 /\
        hs_ticks j (S_ (at_ ts d) pos st ts) = (S_ (at_ ts d') pos st ts, repeat (is_on st) j)).
      { destruct (N.le_gt_cases e d) as [L|L].
        - exists O, d. repeat split; auto; lia.
        - exists (N.to_nat (e - d)), e. rewrite (hs_wait _ _ _ _ _ e) by (auto; lia).
          repeat split; auto; try lia. do 3 f_equal. lia. }
      destruct Ew as (j & d' & Hj & Hd1 & Hd2 & Ew).
      assert (Ef : exists st' o, hs_tick (S_ (at_ ts d') pos st ts) = (S_ (at_ (at_ ts d') 1) (pos + 1) st' (at_ ts d'), o)).
      { unfold hs_tick, ps_tick, pb_get. cbn [hs_buffer hs_counter ps_ptb ps_pos ps_ts ps_status].
        rewrite Hn, at_sub by auto. rewrite (proj2 (N.leb_le _ _)) by exact Hd1. do 2 eexists. reflexivity. }
      destruct Ef as (st' & o & Ef).
      destruct (IH (at_ (at_ ts d') 1) (pos + 1)%nat st' (at_ ts d') eq_refl He2 (at_lt _ _) (at_lt _ _))
        as (k & c' & pos' & ts' & Hk & Hk0 & Ek & En).
      exists (j + S k)%nat, c', pos', ts'. rewrite hs_ticks_app, Ew, hs_ticks_S, Ef.
      destruct (hs_ticks k _) as [h2 l2]. cbn [fst] in *.
      split; [|split; [lia|split; [exact Ek|exact En]]].
      cbn [total fold_right length]. fold (total (skipn (pos + 1) buf)). lia.
  Qed.
End Sender.

Lemma hs_load_val e h c buf' n : ps_status (hs_buffer h) = StIdle ->
  e_encode e c (pb_buf (ps_ptb (hs_buffer h))) = Val (buf', n) ->
  hs_load e h c = Val (mkHS 0 (mkPS (mkPB buf' n) 0 StIdle 0)).
Proof.
  intros Hi E. unfold hs_load. rewrite Hi. unfold ps_load, pb_load, ps_reset, pb_reset.
  cbn [ps_ptb pb_buf pb_offset ps_pos ps_status ps_ts Nat.leb skipn firstn app Nat.add]. rewrite E. reflexivity.
Qed.

Lemma total_skipn pos l : total (skipn pos l) <= total l.
Proof.
  revert l. induction pos as [|pos IH]; intros l; cbn [skipn]; [lia|].
  destruct l as [|x l]; [lia|]. specialize (IH l). cbn [total fold_right]. fold (total l). lia.
Qed.
