(** * Property C39: exactly when a pulse distance receiver panics

    The receivers of the NEC family, Denon and Samsung BluRay add the length of a space to that of the mark
    before it.  Where sums are checked they panic on exactly those signals with a mark and a space whose sum
    does not fit the duration type; it does not matter what else the signal contains. *)
From Coq Require Import NArith ZArith List Bool Lia ZifyBool ZifyNat ZifyN.
From Verif Require Import Machine Spec Spec_receiver Spec_state Time Decoder Nec Denon Sbp Receiver
  Time_facts Window_facts Run_facts Nec_facts Sbp_facts Denon_facts Receiver_facts State_facts Example_facts Props_state.
Import ListNotations.
Open Scope N_scope.

(** A falling edge ends a mark, the rising edge after it ends the space. *)
Definition overlong_period (M : N) (h : list edge) : Prop :=
  exists l1 d1 d2 l2, h = l1 ++ (false, d1) :: (true, d2) :: l2 /\ M <= d1 + d2.
(** Where sums are checked: builds with overflow checks, and [fugit] in all builds. *)
Definition sums_checked (b : build) (m : mono) : Prop :=
  overflow_checks b = true \/ match m with MFugit _ _ _ => True | _ => False end.
(** A level does not rise twice in a row. *)
Definition no_double_rise (h : list edge) : Prop := forall l1 d1 d2 l2, h <> l1 ++ (true, d1) :: (true, d2) :: l2.

Lemma dur_add_checked b m x y : sums_checked b m -> dur_add b m x y = if x + y <? 2 ^ dur_bits m then Val (x + y) else Panic.
Proof.
  intros H. destruct m; cbn [dur_add dur_bits]; unfold uadd; [destruct H as [->|[]]| destruct H as [->|[]]|]; reflexivity.
Qed.

Lemma overlong_cons_fall M d h : overlong_period M ((false, d) :: h) <->
  (exists d2 t, h = (true, d2) :: t /\ M <= d + d2) \/ overlong_period M h.
Proof.
  split.
  - intros (l1 & d1 & d2 & l2 & E & H). destruct l1 as [|x l1]; cbn [app] in E; injection E as E1 E2.
    + subst. left. eauto.
    + right. exists l1, d1, d2, l2. auto.
  - intros [(d2 & t & -> & H)|(l1 & d1 & d2 & l2 & -> & H)]; [exists [], d, d2, t; auto|]. exists ((false, d) :: l1), d1, d2, l2. auto.
Qed.
Lemma overlong_cons_rise M d h : overlong_period M ((true, d) :: h) <-> overlong_period M h.
Proof.
  split.
  - intros (l1 & d1 & d2 & l2 & E & H). destruct l1 as [|x l1]; [discriminate E|]. injection E as E1 E2. exists l1, d1, d2, l2. auto.
  - intros (l1 & d1 & d2 & l2 & -> & H). exists ((true, d) :: l1), d1, d2, l2. auto.
Qed.

Section Sums.
  Context {D : decoder} {C : Type} (into : dcmd D -> C) (Q : dst D -> Prop) (saved : dst D -> N) (M : N) (clears : Prop).
  Hypothesis Hfall : forall d dt, Q d -> exists d' s, d_event D d false dt = Val (d', s) /\ (s = Idle \/ s = Receiving) /\ Q d' /\ saved d' = dt.
  Hypothesis Hover : forall d dt, Q d -> M <= saved d + dt -> d_event D d true dt = Panic.
  Hypothesis Hrise : forall d dt, Q d -> saved d + dt < M -> exists d' s, d_event D d true dt = Val (d', s) /\ (clears -> saved d' = 0) /\
    match s with Done | Error _ => Q (d_reset D d') /\ saved (d_reset D d') = 0 | _ => Q d' end.

  Lemma sums_run h : clears \/ no_double_rise h -> Forall (fun x => snd x < M) h -> forall r : receiver D, Q (rv_dec r) ->
    ((exists d2 t, h = (true, d2) :: t /\ M <= saved (rv_dec r) + d2) \/ overlong_period M h -> run_edges into r h = Panic) /\
    (~ ((exists d2 t, h = (true, d2) :: t /\ M <= saved (rv_dec r) + d2) \/ overlong_period M h) -> exists r' os, run_edges into r h = Val (r', os)).
  Proof.
    induction h as [|[e dt] h IH]; intros Hc Hd r HQ.
    - split; [|intros _; do 2 eexists; reflexivity]. intros [(d2 & t & E & _)|(l1 & d1 & d2 & l2 & E & _)]; [discriminate|destruct l1; discriminate].
    - inversion Hd as [|x l Hx Hd']; subst. cbn [snd] in Hx.
      assert (Hc' : clears \/ no_double_rise h).
      { destruct Hc as [Hc|Hc]; [left; exact Hc|right]. intros l1 d1 d2 l2 ->. apply (Hc ((e, dt) :: l1) d1 d2 l2). reflexivity. }
      specialize (IH Hc' Hd'). cbn [run_edges]. unfold event_edge. destruct e.
      + destruct (N.lt_ge_cases (saved (rv_dec r) + dt) M) as [H|H].
        2: { rewrite (Hover _ _ HQ H). split; [reflexivity|]. intros K. destruct K. left. eauto. }
        destruct (Hrise _ dt HQ H) as (d' & s & E & Hcl & K). rewrite E. cbn [bind].
        assert (Eq : forall r' : receiver D, (clears -> saved (rv_dec r') = 0) ->
          ((exists d2 t, h = (true, d2) :: t /\ M <= saved (rv_dec r') + d2) \/ overlong_period M h <->
           (exists d2 t, (true, dt) :: h = (true, d2) :: t /\ M <= saved (rv_dec r) + d2) \/ overlong_period M ((true, dt) :: h))).
        { intros r' Hr. rewrite overlong_cons_rise. split.
          - intros [(d2 & t & -> & G)|G]; [exfalso|right; exact G]. destruct Hc as [Hc|Hc].
            + rewrite (Hr Hc) in G. inversion Hd' as [|x l Hx2 _]; subst. cbn [snd] in Hx2. lia.
            + apply (Hc [] dt d2 t). reflexivity.
          - intros [(d2 & t & G1 & G2)|G]; [exfalso; injection G1 as <- _; lia|right; exact G]. }
        assert (G : forall r' : receiver D, (clears -> saved (rv_dec r') = 0) -> Q (rv_dec r') -> forall o,
          ((exists d2 t, (true, dt) :: h = (true, d2) :: t /\ M <= saved (rv_dec r) + d2) \/ overlong_period M ((true, dt) :: h) ->
            (let* (r2, os) := run_edges into r' h in Val (r2, o :: os)) = Panic) /\
          (~ ((exists d2 t, (true, dt) :: h = (true, d2) :: t /\ M <= saved (rv_dec r) + d2) \/ overlong_period M ((true, dt) :: h)) ->
            exists r2 os, (let* (r2, os) := run_edges into r' h in Val (r2, o :: os)) = Val (r2, os))).
        { intros r' Hr HQ' o. rewrite <- (Eq r' Hr). destruct (IH r' HQ') as (A & B). split; intros X.
          - rewrite (A X). reflexivity.
          - destruct (B X) as (r2 & os & ->). cbn [bind]. eauto. }
        destruct s; cbn [bind]; [apply G; auto|apply G; auto| |]; destruct K as (K1 & K2); apply G; auto.
      + destruct (Hfall _ dt HQ) as (d' & s & E & Hs & HQ' & Hsv). rewrite E. cbn [bind].
        rewrite overlong_cons_fall. specialize (IH (mkRecv d' (rv_prev r)) HQ'). cbn [rv_dec] in IH. rewrite Hsv in IH. destruct IH as (A & B).
        destruct Hs as [-> | ->]; cbn [bind]; (split; intros X;
          [rewrite A by (destruct X as [(d2 & t & X & _)|X]; [discriminate X|exact X]); reflexivity
          |destruct B as (r2 & os & ->); [intros Y; apply X; right; exact Y|cbn [bind]; eauto]]).
  Qed.
End Sums.

Lemma overlong_result {D : decoder} {C} (into : dcmd D -> C) (r : receiver D) sv M h : sv = 0 -> Forall (fun x => snd x < M) h ->
  ((exists d2 t, h = (true, d2) :: t /\ M <= sv + d2) \/ overlong_period M h -> run_edges into r h = Panic) /\
  (~ ((exists d2 t, h = (true, d2) :: t /\ M <= sv + d2) \/ overlong_period M h) -> exists r' os, run_edges into r h = Val (r', os)) ->
  (overlong_period M h -> outs (run_edges into r h) = Panic) /\ (~ overlong_period M h -> exists os, outs (run_edges into r h) = Val os).
Proof.
  intros -> Hd (A & B). split; intros H.
  - rewrite A by (right; exact H). reflexivity.
  - destruct B as (r' & os & E); [|rewrite E; cbn [outs bind]; eauto].
    intros [(d2 & t & -> & K)|K]; [|exact (H K)]. inversion Hd as [|x l Hx _]; subst. cbn [snd] in Hx. lia.
Qed.

Theorem C39_nec_exact : forall b m V freq C (into : nv_cmd V -> C) h,
  timebase m freq -> freq < 2 ^ 32 -> nec_timing_ok (nv_timing V) -> sums_checked b m ->
  Forall (fun x => snd x < 2 ^ dur_bits m) h ->
  (overlong_period (2 ^ dur_bits m) h -> outcomes_of (nec_protocol b m V) freq into h = Panic) /\
  (~ overlong_period (2 ^ dur_bits m) h -> exists os, outcomes_of (nec_protocol b m V) freq into h = Val os).
Proof.
  intros b m V freq C into h Hm Hf HT Hck Hd. unfold outcomes_of. rewrite nec_new_val by auto. cbn [bind p_dec nec_protocol].
  apply (overlong_result (D := nec_dec b m V) into _ 0 _ h eq_refl Hd).
  apply (sums_run (D := nec_dec b m V) into (fun d => nec_in_range d /\ match nec_to_state (ns_state d) with Done | Error _ => False | _ => True end)
    ns_dt_save (2 ^ dur_bits m) True) with (r := mkRecv (D := nec_dec b m V) (mkNecDec NInit 0 0 (spans_of m freq (nec_pulses (nv_timing V)))) 0); auto.
  - intros d dt (R1 & R2). cbn [d_event nec_dec]. unfold nec_event. do 2 eexists. split; [reflexivity|]. cbn [ns_dt_save].
    split; [|auto]. destruct (nec_to_state (ns_state d)); auto; contradiction.
  - intros d dt (R1 & R2) H. cbn [d_event nec_dec]. unfold nec_event. rewrite dur_add_checked by exact Hck.
    rewrite (proj2 (N.ltb_ge _ _)) by lia. reflexivity.
  - intros d dt (R1 & R2) H. cbn [d_event nec_dec]. unfold nec_event. rewrite dur_add_checked by exact Hck.
    rewrite (proj2 (N.ltb_lt _ _)) by lia. cbn [bind].
    match goal with |- context [nec_transition b (ns_state d) (ns_bitbuf d) ?pw] => destruct (nec_transition_total b (ns_state d) (ns_bitbuf d) pw R1) as (buf' & s' & -> & K) end.
    cbn [bind]. do 2 eexists. split; [reflexivity|]. split; [reflexivity|]. destruct s'; cbn [nec_to_state]; cbn; auto.
  - cbn. auto.
Qed.
Print Assumptions C39_nec_exact.

Theorem C39_denon_exact : forall b m freq C (into : denon_command -> C) h,
  timebase m freq -> freq < 2 ^ 32 -> sums_checked b m ->
  Forall (fun x => snd x < 2 ^ dur_bits m) h ->
  (overlong_period (2 ^ dur_bits m) h -> outcomes_of (denon_protocol b m) freq into h = Panic) /\
  (~ overlong_period (2 ^ dur_bits m) h -> exists os, outcomes_of (denon_protocol b m) freq into h = Val os).
Proof.
  intros b m freq C into h Hm Hf Hck Hd. unfold outcomes_of. rewrite denon_new_val by auto. cbn [bind p_dec denon_protocol].
  apply (overlong_result (D := denon_dec b m) into _ 0 _ h eq_refl Hd).
  apply (sums_run (D := denon_dec b m) into (fun d => denon_in_range d /\ match denon_to_state (dn_state d) with Done | Error _ => False | _ => True end)
    dn_dt_save (2 ^ dur_bits m) True) with (r := mkRecv (D := denon_dec b m) (mkDenonDec DIdle 0 0 (spans_of m freq denon_pulses)) 0); auto.
  - intros d dt (R1 & R2). cbn [d_event denon_dec]. unfold denon_event. do 2 eexists. split; [reflexivity|]. cbn [dn_dt_save].
    split; [|auto]. destruct (denon_to_state (dn_state d)); auto; contradiction.
  - intros d dt (R1 & R2) H. cbn [d_event denon_dec]. unfold denon_event. rewrite dur_add_checked by exact Hck.
    rewrite (proj2 (N.ltb_ge _ _)) by lia. reflexivity.
  - intros d dt (R1 & R2) H. cbn [d_event denon_dec]. unfold denon_event. rewrite dur_add_checked by exact Hck.
    rewrite (proj2 (N.ltb_lt _ _)) by lia. cbn [bind].
    match goal with |- context [denon_transition b (dn_state d) (dn_buf d) ?pw] => destruct (denon_transition_total b (dn_state d) (dn_buf d) pw R1) as (buf' & s' & -> & K) end.
    cbn [bind]. do 2 eexists. split; [reflexivity|]. split; [reflexivity|]. destruct s'; cbn [denon_to_state]; cbn; auto.
  - cbn. auto.
Qed.
Print Assumptions C39_denon_exact.

(** Samsung BluRay does not forget the mark after a rising edge; an input cannot rise twice in a row. *)
Theorem C39_sbp_exact : forall b m freq C (into : sbp_command -> C) h,
  timebase m freq -> freq < 2 ^ 32 -> sums_checked b m -> no_double_rise h ->
  Forall (fun x => snd x < 2 ^ dur_bits m) h ->
  (overlong_period (2 ^ dur_bits m) h -> outcomes_of (sbp_protocol b m) freq into h = Panic) /\
  (~ overlong_period (2 ^ dur_bits m) h -> exists os, outcomes_of (sbp_protocol b m) freq into h = Val os).
Proof.
  intros b m freq C into h Hm Hf Hck Hn Hd. unfold outcomes_of. rewrite sbp_new_val by auto. cbn [bind p_dec sbp_protocol].
  apply (overlong_result (D := sbp_dec b m) into _ 0 _ h eq_refl Hd).
  apply (sums_run (D := sbp_dec b m) into (fun d => sbp_in_range d /\ match sbp_to_state (sb_state d) with Done | Error _ => False | _ => True end)
    sb_since_rising (2 ^ dur_bits m) False) with (r := mkRecv (D := sbp_dec b m) (mkSbpDec SInit 0 0 0 (spans_of m freq sbp_pulses)) 0); auto.
  - intros d dt (R1 & R2). cbn [d_event sbp_dec]. unfold sbp_event. do 2 eexists. split; [reflexivity|]. cbn [sb_since_rising].
    split; [|auto]. destruct (sbp_to_state (sb_state d)); auto; contradiction.
  - intros d dt (R1 & R2) H. cbn [d_event sbp_dec]. unfold sbp_event. rewrite dur_add_checked by exact Hck.
    rewrite (proj2 (N.ltb_ge _ _)) by lia. reflexivity.
  - intros d dt (R1 & R2) H. cbn [d_event sbp_dec]. unfold sbp_event. rewrite dur_add_checked by exact Hck.
    rewrite (proj2 (N.ltb_lt _ _)) by lia. cbn [bind].
    match goal with |- context [sbp_transition b (sb_state d) (sb_address d) (sb_command d) ?pw] =>
      destruct (sbp_transition_total b (sb_state d) (sb_address d) (sb_command d) pw R1) as (s' & a' & c' & -> & K) end.
    cbn [bind]. do 2 eexists. split; [reflexivity|]. split; [contradiction|]. destruct s'; cbn [sbp_to_state]; cbn; auto.
  - cbn. auto.
Qed.
Print Assumptions C39_sbp_exact.

(** A frame, and after it a mark and a space that together last 2^32 ticks; one tick less is harmless.  An interval of
    2^32 - 1 ticks alone is harmless too, and so is one after a short mark that ends at another falling edge. *)
Example C39_exact_example :
  let out h := outcome_kind (outcomes_of (nec_protocol (debug_build 32) MU32 NecStandard) 1000000 (fun c => c) h) in
  overlong_period (2 ^ 32) [(true, 9000); (false, 2 ^ 31); (true, 2 ^ 31); (false, 560)] /\
  out [(true, 9000); (false, 2 ^ 31); (true, 2 ^ 31); (false, 560)] = Some false /\
  ~ overlong_period (2 ^ 32) [(true, 9000); (false, 2 ^ 31); (true, 2 ^ 31 - 1); (false, 560)] /\
  out [(true, 9000); (false, 2 ^ 31); (true, 2 ^ 31 - 1); (false, 560)] = Some true /\
  out [(true, 2 ^ 32 - 1); (false, 2 ^ 32 - 1); (false, 560); (true, 2 ^ 31)] = Some true /\
  no_double_rise [(true, 9000); (false, 2 ^ 31); (true, 2 ^ 31); (false, 560)] /\
  (** ... which matters: *)
  outcome_kind (outcomes_of (sbp_protocol (debug_build 32) MU32) 1000000 (fun c => c) [(false, 4000); (true, 4000); (true, 2 ^ 32 - 1)]) = Some false.
Proof.
  cbv zeta. split; [exists [(true, 9000)], (2 ^ 31), (2 ^ 31), [(false, 560)]; split; [reflexivity|vm_compute; discriminate]|].
  split; [vm_compute; reflexivity|]. split.
  { rewrite overlong_cons_rise, overlong_cons_fall. intros [(d2 & t & E & H)|H].
    - injection E as <- _. revert H. vm_compute. intros H. apply H. reflexivity.
    - rewrite overlong_cons_rise, overlong_cons_fall in H. destruct H as [(d2 & t & E & _)|(l1 & d1 & d2 & l2 & E & _)]; [discriminate|destruct l1; discriminate]. }
  split; [vm_compute; reflexivity|]. split; [vm_compute; reflexivity|]. split; [|vm_compute; reflexivity].
  intros l1 d1 d2 l2 E. destruct l1 as [|x [|y [|z [|t l1]]]]; try discriminate E. destruct l1; discriminate E.
Qed.
