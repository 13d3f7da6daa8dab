(** * Lemmas about a sender that is ticked at irregular times *)
From Coq Require Import NArith ZArith List Bool Lia ZifyBool ZifyNat ZifyN.
From Verif Require Import Machine Spec Spec_sender Spec_receiver Bits Sender Sender_facts Spec_cross Spec_phys.
Import ListNotations.
Open Scope N_scope.
Ltac Zify.zify_post_hook ::= Z.div_mod_to_equations.

(** The sender's [tick] is called at the real times [ts], each time with the reading of a
    32-bit timer; the pin is on while the status is [Transmit(true)].  The times of the calls
    and the levels set. *)
Fixpoint ticks_at (clock : N -> N) (s : pulse_sender) (ts : list N) : pulse_sender * list (N * bool) :=
  match ts with
  | [] => (s, [])
  | t :: r => let '(s1, st) := ps_tick s (clock t mod 2 ^ 32) in
              let '(s2, ls) := ticks_at clock s1 r in
              (s2, (t, match st with StTransmit true => true | _ => false end) :: ls)
  end.

(** The edges of the pin, with the real time since the edge before. *)
Fixpoint pin_edges (cur : bool) (since : N) (ls : list (N * bool)) : list edge :=
  match ls with
  | [] => []
  | (t, l) :: r => if Bool.eqb l cur then pin_edges cur since r else (l, t - since) :: pin_edges l t r
  end.

(** Times in order, at most [J] apart. *)
Fixpoint at_most (J prev : N) (ts : list N) : Prop :=
  match ts with
  | [] => True
  | t :: r => prev <= t /\ t <= prev + J /\ at_most J t r
  end.

(** The pulse of [len] ticks of a clock of [F] ticks per second lasts [d] units of [1/G]
    seconds: at most [a] units less and [b] units more. *)
Definition pulse_sent (F G a b len d : N) : Prop := len * G <= (d + a) * F /\ d * F <= len * G + b * F.

Lemma last_default {A} r : forall (y d e : A), last (y :: r) d = last (y :: r) e.
Proof. induction r as [|z r IH]; intros y d e; [reflexivity|]. exact (IH z d e). Qed.
Lemma last_cons1 {A} (x : A) r d : last (x :: r) d = last r x.
Proof. destruct r as [|y r]; [reflexivity|]. exact (last_default r y d x). Qed.

Section Clocks.
  Variables (F G j J a b : N) (clock : N -> N) (p : pulse_buffer).
  Hypothesis HG : 0 < G.
  Hypothesis Hc : counts F G j clock.
  Hypothesis Ha : j * G <= a * F.
  Hypothesis Hbb : J * F + (j - 1) * G <= b * F.
  Hypothesis Hsmall : b * F <= 2 ^ 30 * G.
  Hypothesis Hb : Forall (fun x => x < 2 ^ 31) (pb_buf p).
  Notation buf := (pb_buf p).
  Notation S_ pos st ts := (mkPS p pos st ts).

  Lemma j_pos : 1 <= j.
  Proof. destruct (Hc 0 0 (N.le_refl _)) as (_ & H & _). destruct j; [|lia]. cbn in H. lia. Qed.

  Lemma clock_diff s t : s <= t -> clock t - clock s < 2 ^ 32 ->
    wrapping_sub32 (clock t mod 2 ^ 32) (clock s mod 2 ^ 32) = clock t - clock s.
  Proof.
    intros Hst H. destruct (Hc s t Hst) as (H1 & _). unfold wrapping_sub32. change (2 ^ 32) with 4294967296 in *. lia.
  Qed.

  Lemma clock_step s t : s <= t -> t <= s + J -> clock t - clock s <= 2 ^ 30 + 1.
  Proof.
    intros H1 H2. destruct (Hc s t H1) as (_ & H & _). pose proof j_pos as Hj1.
    assert ((t - s) * F <= J * F) by (apply N.mul_le_mono_r; lia).
    replace (j * G) with ((j - 1) * G + G) in H by (replace (j * G) with ((j - 1 + 1) * G) by (f_equal; lia); ring).
    assert (X : (clock t - clock s) * G < (2 ^ 30 + 1) * G) by (rewrite (N.mul_add_distr_r (2 ^ 30)); lia). apply N.mul_lt_mono_pos_r in X; lia.
  Qed.

  Lemma not_idle s on : match s with StTransmit o => o = on | _ => False end -> s = StTransmit on.
  Proof. destruct s; intros H; [destruct H|subst; reflexivity|destruct H]. Qed.

  Lemma nth_lt pos e : nth_error buf pos = Some e -> e < 2 ^ 31.
  Proof. intros E. rewrite Forall_forall in Hb. apply Hb. eapply nth_error_In, E. Qed.

  Lemma idle_on ts : forall pos lst last prev, nth_error buf pos = None ->
    exists st, ticks_at clock (S_ pos lst last) ts = (S_ pos st last, map (fun t => (t, false)) ts) /\
      (ts = [] -> st = lst) /\ (ts <> [] -> st = StIdle) /\ pin_edges false prev (map (fun t => (t, false)) ts) = [].
  Proof.
    induction ts as [|t ts IH]; intros pos lst last prev En.
    - exists lst. repeat split; auto. intros H. destruct H. reflexivity.
    - cbn [ticks_at map pin_edges Bool.eqb]. unfold ps_tick, pb_get. cbn [ps_ptb ps_pos ps_status ps_ts]. rewrite En.
      destruct (IH pos StIdle last prev En) as (st & E & H1 & H2 & H3). rewrite E. exists st. split; [reflexivity|].
      split; [discriminate|]. split; [|exact H3]. intros _. destruct ts as [|t2 ts]; [apply H1; reflexivity|apply H2; discriminate].
  Qed.

  Lemma wait_bound e last prev : last <= prev -> prev = last \/ clock prev - clock last < e -> (prev - last) * F <= e * G + (j - 1) * G.
  Proof.
    pose proof j_pos as Hj1. intros Hle [->|H]; [rewrite N.sub_diag, N.mul_0_l; apply N.le_0_l|].
    destruct (Hc last prev Hle) as (_ & _ & H6).
    assert (X : (clock prev - clock last + j) * G <= (e + (j - 1)) * G) by (apply N.mul_le_mono_r; lia). rewrite !N.mul_add_distr_r in X. lia.
  Qed.
  Lemma edge_bound e last prev t : last <= prev -> prev = last \/ clock prev - clock last < e -> prev <= t -> t <= prev + J ->
    (t - last) * F <= e * G + b * F.
  Proof.
    intros Hle H H1 H2. pose proof (wait_bound e last prev Hle H) as W.
    assert (Hd3 : (t - prev) * F <= J * F) by (apply N.mul_le_mono_r; lia).
    replace (t - last) with ((t - prev) + (prev - last)) by lia. rewrite N.mul_add_distr_r. lia.
  Qed.

  (** [es]: the entries still to come; the last edge was at [last], the last call at [prev]. *)
  Lemma irregular ts : forall es pos on last prev, skipn pos buf = es ->
    at_most J prev ts -> last <= prev -> (prev = last \/ exists e, nth_error buf pos = Some e /\ clock prev - clock last < e) ->
    exists ds tail s', ticks_at clock (S_ pos (StTransmit on) (clock last mod 2 ^ 32)) ts = s' /\
      pin_edges on last (snd s') = alternating (negb on) ds ++ tail /\ ps_ptb (fst s') = p /\
      Forall2 (pulse_sent F G a b) (firstn (length ds) es) ds /\ (length ds <= length es)%nat /\
      (ps_status (fst s') = StIdle /\ length ds = length es /\ (length tail <= 1)%nat \/
       ps_status (fst s') <> StIdle /\ tail = [] /\
       (List.last ts prev - last) * F <= total es * G + b * F * N.of_nat (length es)).
  Proof.
    pose proof j_pos as Hj1.
    induction ts as [|t ts IH]; intros es pos on last prev Es Ht Hle Hprev.
    - exists [], [], (S_ pos (StTransmit on) (clock last mod 2 ^ 32), []). split; [reflexivity|]. split; [reflexivity|]. split; [reflexivity|].
      split; [constructor|]. split; [cbn; lia|]. right. split; [discriminate|]. split; [reflexivity|]. cbn [List.last].
      destruct Hprev as [->|(e & En & He)].
      + rewrite N.sub_diag, N.mul_0_l. apply N.le_0_l.
      + assert (Ee : exists r, es = e :: r).
        { subst es. clear -En. revert En. generalize buf. induction pos as [|pos IHp]; intros l En; (destruct l as [|x l]; [discriminate|]).
          - injection En as ->. exists l. reflexivity.
          - cbn [skipn nth_error] in *. apply IHp, En. }
        destruct Ee as (r & ->). cbn [total fold_right length].
        pose proof (wait_bound e last prev Hle (or_intror He)) as W.
        assert (Z : b * F * 1 <= b * F * N.of_nat (S (length r))) by (apply N.mul_le_mono_l; lia).
        rewrite N.mul_add_distr_r. lia.
    - cbn [at_most] in Ht. destruct Ht as (Hpt & HtJ & Ht). rewrite last_cons1.
      destruct (nth_error buf pos) as [e|] eqn:En.
      2:{ (* the entries are used up *)
        assert (E0 : es = []). { subst es. apply skipn_all2. apply nth_error_None, En. }
        destruct (idle_on (t :: ts) pos (StTransmit on) (clock last mod 2 ^ 32) last En) as (st & E & _ & H2 & H3).
        destruct (idle_on ts pos StIdle (clock last mod 2 ^ 32) t En) as (_ & _ & _ & _ & H3').
        specialize (H2 ltac:(discriminate)). subst st. rewrite E. 
        exists [], (pin_edges on last (map (fun t => (t, false)) (t :: ts))). eexists. split; [reflexivity|]. split; [reflexivity|]. split; [reflexivity|].
        split; [constructor|]. split; [cbn; lia|]. left. split; [reflexivity|]. split; [rewrite E0; reflexivity|].
        destruct on; [|rewrite H3; cbn; lia]. cbn [map pin_edges Bool.eqb]. rewrite H3'. cbn. lia. }
      assert (Hs : exists r, es = e :: r /\ skipn (pos + 1) buf = r).
      { subst es. clear -En. revert En. generalize buf. induction pos as [|pos IHp]; intros l En; (destruct l as [|x l]; [discriminate|]).
        - injection En as ->. exists l. split; reflexivity.
        - cbn [skipn nth_error Nat.add] in *. apply IHp, En. }
      destruct Hs as (r & -> & Es').
      assert (Hlt : last <= t) by lia.
      destruct (Hc last t Hlt) as (Hm & H2 & H3). destruct (Hc prev t Hpt) as (Hm' & _ & _). destruct (Hc last prev Hle) as (Hm'' & H5 & H6).
      pose proof (clock_step prev t Hpt HtJ) as Hst. pose proof (nth_lt _ _ En) as He.
      assert (Hd : clock prev - clock last <= e).
      { destruct Hprev as [->|(e' & E' & H')]; [lia|]. injection E' as <-. lia. }
      assert (Hw : clock t - clock last < 2 ^ 32).
      { change (2 ^ 31) with 2147483648 in *. change (2 ^ 32) with 4294967296. lia. }
      cbn [ticks_at]. unfold ps_tick at 1, pb_get. cbn [ps_ptb ps_pos ps_status ps_ts]. rewrite En, clock_diff by assumption.
      destruct (N.leb_spec e (clock t - clock last)) as [Hfire|Hwait].
      + (* an edge *)
        replace (if on then StTransmit false else StTransmit true) with (StTransmit (negb on)) by (destruct on; reflexivity).
        destruct (IH r (pos + 1)%nat (negb on) t t Es' Ht (N.le_refl _) (or_introl eq_refl))
          as (ds & tail & [s2 ls] & E & Ep & Eb & Fa & Ll & Hend).
        exists ((t - last) :: ds), tail. rewrite E. eexists. split; [reflexivity|]. cbn [fst snd] in *.
        assert (Eon : match StTransmit (negb on) with StTransmit true => true | _ => false end = negb on) by (destruct on; reflexivity).
        rewrite Eon. split; [|split; [exact Eb|split; [|split]]].
        * cbn [pin_edges]. replace (Bool.eqb (negb on) on) with false by (destruct on; reflexivity).
          cbn [alternating app]. rewrite Ep. reflexivity.
        * cbn [length firstn]. constructor; [|exact Fa]. split.
          { assert (X : e * G <= (clock t - clock last) * G) by (apply N.mul_le_mono_r; exact Hfire). rewrite N.mul_add_distr_r. lia. }
          apply (edge_bound e last prev t); auto. destruct Hprev as [->|(e' & E' & H')]; [left; reflexivity|]. injection E' as <-. right; exact H'.
        * cbn [length]. lia.
        * cbn [length]. destruct Hend as [(A & B & D)|(A & B & D)]; [left; repeat split; auto; lia|right]. split; [exact A|]. split; [exact B|].
          assert (Hd2 : (t - last) * F <= e * G + b * F).
          { apply (edge_bound e last prev t); auto. destruct Hprev as [->|(e' & E' & H')]; [left; reflexivity|]. injection E' as <-. right; exact H'. }
          cbn [total fold_right].
          assert (Hsplit : (List.last ts t - last) * F <= (List.last ts t - t) * F + (t - last) * F).
          { rewrite <- N.mul_add_distr_r. apply N.mul_le_mono_r. lia. }
          rewrite Nat2N.inj_succ, N.mul_succ_r, N.mul_add_distr_r.
          unfold total in D. lia.
      + (* waiting *)
        destruct (IH (e :: r) pos on last t Es Ht Hlt (or_intror (ex_intro _ e (conj En Hwait))))
          as (ds & tail & [s2 ls] & E & Ep & Eb & Fa & Ll & Hend).
        exists ds, tail. rewrite E. eexists. split; [reflexivity|]. cbn [fst snd] in *.
        assert (Eon : match StTransmit on with StTransmit true => true | _ => false end = on) by (destruct on; reflexivity).
        rewrite Eon. cbn [pin_edges]. rewrite Bool.eqb_reflx.
        split; [exact Ep|]. split; [exact Eb|]. split; [exact Fa|]. split; [exact Ll|]. exact Hend.
  Qed.
End Clocks.

(** ** A sender that is ticked once per interrupt *)

(** The levels of successive ticks, with the times at which they are set. *)
Fixpoint stamped (time : nat -> N) (i : nat) (ls : list bool) : list (N * bool) :=
  match ls with
  | [] => []
  | l :: r => (time i, l) :: stamped time (S i) r
  end.

(** The ticks come [F] times per second, in any phase, early or late by [L] units at most. *)
Definition paced (F G L : N) (time : nat -> N) : Prop :=
  forall i k, (i <= k)%nat -> time i <= time k /\
    N.of_nat (k - i) * G <= (time k - time i + L) * F /\
    (time k - time i) * F <= N.of_nat (k - i) * G + L * F.

Lemma stamped_same time on k : forall i since r, pin_edges on since (stamped time i (repeat on k ++ r)) = pin_edges on since (stamped time (i + k) r).
Proof.
  induction k as [|k IH]; intros i since r; cbn [repeat app stamped pin_edges].
  - rewrite Nat.add_0_r. reflexivity.
  - rewrite Bool.eqb_reflx, IH. do 2 f_equal. lia.
Qed.

Lemma stamped_off time m i since : pin_edges false since (stamped time i (repeat false m)) = [].
Proof. pose proof (stamped_same time false m i since []) as H. rewrite app_nil_r in H. exact H. Qed.

Lemma stamped_held F G L time m : paced F G L time -> forall es on i, exists ds tail,
  pin_edges on (time i) (stamped time (S i) (tl (held on es) ++ repeat false (S m))) = alternating (negb on) ds ++ tail /\
  Forall2 (fun e d => 1 <= e -> pulse_sent F G L L e d) es ds /\ (length tail <= 1)%nat.
Proof.
  intros Hp. induction es as [|e es IH]; intros on i.
  - exists []. eexists. split; [reflexivity|]. split; [constructor|].
    destruct on; cbn [held tl app repeat stamped pin_edges Bool.eqb]; rewrite stamped_off; cbn; lia.
  - set (off := repeat false (S m)) in *. cbn [held]. destruct (N.to_nat (N.max 1 e)) as [|n] eqn:En; [lia|]. cbn [repeat app tl].
    rewrite <- app_assoc, stamped_same. rewrite held_cons. cbn [app stamped pin_edges].
    replace (Bool.eqb (negb on) on) with false by (destruct on; reflexivity).
    destruct (IH (negb on) (S i + n)%nat) as (ds & tail & E & Fa & Ht). rewrite E.
    exists ((time (S i + n)%nat - time i) :: ds), tail. split; [reflexivity|]. split; [|exact Ht]. constructor; [|exact Fa].
    intros He. destruct (Hp i (S i + n)%nat ltac:(lia)) as (_ & H1 & H2).
    replace (N.of_nat (S i + n - i)) with e in * by lia. split; [exact H1|exact H2].
Qed.

(** ** The edges on the pin of a loaded sender *)

Definition follows (F G a b : N) (B : list N) (t0 first : N) (ls : list (N * bool)) : Prop :=
  exists lens ds tail, B = 0 :: lens /\ pin_edges false t0 ls = (true, first - t0) :: alternating false ds ++ tail /\
    Forall2 (fun e d => 1 <= e -> pulse_sent F G a b e d) lens ds /\ (length tail <= 1)%nat.

Lemma follows_paced F G L time (B : list N) n t0 k : paced F G L time -> Forall (fun x : N => x < 2 ^ 32) (0 :: B) ->
  (length (pin_wave (0%N :: B)) < k)%nat ->
  follows F G L L (0 :: B) t0 (time O) (stamped time 0 (snd (hs_ticks k (mkHS 0 (mkPS (mkPB (0 :: B) n) 0 StIdle 0))))).
Proof.
  intros Hp HB Hk. pose proof (hs_transmit_prefix (mkPB (0 :: B) n) k HB) as E. cbn [pb_buf] in E. rewrite E.
  set (w := length (pin_wave (0 :: B))) in *. 
  assert (Ef : firstn k (pin_wave (0 :: B) ++ repeat false k) = pin_wave (0 :: B) ++ repeat false (S (k - w - 1))).
  { rewrite firstn_app, firstn_all2 by (fold w; lia). f_equal. fold w. replace (S (k - w - 1)) with (k - w)%nat by lia.
    clear. assert (H : (k - w <= k)%nat) by lia. revert H. generalize (k - w)%nat as x. generalize k as y. clear.
    intros y x. revert y. induction x as [|x IH]; intros y H; [reflexivity|]. destruct y; [lia|]. cbn [repeat firstn]. f_equal. apply IH. lia. }
  rewrite Ef. remember (repeat false (S (k - w - 1))) as off eqn:Eo. cbn [pin_wave N.to_nat repeat app]. rewrite held_cons. cbn [app stamped pin_edges Bool.eqb].
  destruct (stamped_held F G L time (k - w - 1) Hp B true 0) as (ds & tail & E1 & Fa & Ht). rewrite <- Eo in E1. exists B, ds, tail. split; [reflexivity|]. cbn [pin_edges Bool.eqb]. rewrite E1. repeat split; auto.
Qed.

Lemma follows_timer F G j J a b clock B n t0 t ts : 0 < G -> counts F G j clock -> j * G <= a * F -> J * F + (j - 1) * G <= b * F ->
  b * F <= 2 ^ 30 * G -> Forall (fun x => x < 2 ^ 31) (0 :: B) -> at_most J t ts ->
  let r := ticks_at clock (mkPS (mkPB (0 :: B) n) 0 StIdle 0) (t :: ts) in
  (ps_status (fst r) = StIdle -> follows F G a b (0 :: B) t0 t (snd r)) /\
  (total B * G + b * F * N.of_nat (length B) < (last ts t - t) * F -> ps_status (fst r) = StIdle).
Proof.
  intros HG Hc Ha Hb Hs HB Ht r. subst r. cbn [ticks_at]. unfold ps_tick, pb_get. cbn [ps_ptb ps_pos ps_status ps_ts pb_buf nth_error].
  rewrite (proj2 (N.leb_le 0 _)) by lia.
  destruct (irregular F G j J a b clock (mkPB (0 :: B) n) HG Hc Ha Hb Hs HB ts B 1%nat true t t eq_refl Ht (N.le_refl _) (or_introl eq_refl))
    as (ds & tail & [s' ls] & E & Ep & _ & Fa & Ll & Hst). cbn [Nat.add]. rewrite E. cbn [fst snd] in *.
  destruct Hst as [(A & L & Lt)|(A & _ & X)]; split.
  - intros _. exists B, ds, tail. split; [reflexivity|]. cbn [pin_edges Bool.eqb]. rewrite Ep. split; [reflexivity|].
    split; [|exact Lt]. rewrite L, firstn_all in Fa. clear -Fa. induction Fa; constructor; auto.
  - intros _. exact A.
  - intros H. contradiction.
  - intros H. exfalso. clear -X H. lia.
Qed.
