(** * Lemmas about decoders as state machines *)
From Coq Require Import NArith ZArith List Bool Lia ZifyBool ZifyNat ZifyN.
From Verif Require Import Machine Spec Spec_receiver Spec_state Bits Time Decoder Nec Rc5 Rc6 Denon Sbp Receiver
  Time_facts Window_facts Run_facts Nec_facts Sbp_facts Denon_facts Rc5_facts Rc6_facts.
Import ListNotations.
Open Scope N_scope.

(** ** Runs *)

Lemma run_res_app {S I O} (step : S -> I -> res (S * O)) l1 l2 s :
  run_res step s (l1 ++ l2) =
  let* (s1, o1) := run_res step s l1 in
  let* (s2, o2) := run_res step s1 l2 in Val (s2, o1 ++ o2).
Proof.
  revert s. induction l1 as [|x l1 IH]; intros s; cbn [app run_res bind].
  - destruct (run_res step s l2) as [[s2 o2]| |]; reflexivity.
  - destruct (step s x) as [[s1 o]| |]; cbn [bind]; auto. rewrite IH.
    destruct (run_res step s1 l1) as [[s2 o1]| |]; cbn [bind]; auto.
    destruct (run_res step s2 l2) as [[s3 o2]| |]; reflexivity.
Qed.

Lemma run_res_inv {S I O} (step : S -> I -> res (S * O)) (Q : S -> Prop) :
  (forall s x s' o, Q s -> step s x = Val (s', o) -> Q s') ->
  forall l s s' os, Q s -> run_res step s l = Val (s', os) -> Q s'.
Proof.
  intros Hs. induction l as [|x l IH]; intros s s' os HQ H; cbn [run_res] in H.
  - injection H as <- _. auto.
  - destruct (step s x) as [[s1 o]| |] eqn:E; cbn [bind] in H; try discriminate.
    destruct (run_res step s1 l) as [[s2 os']| |] eqn:E2; cbn [bind] in H; try discriminate.
    injection H as <- _. eauto.
Qed.

(** As long as every state is [Receiving], [f] grows with the weight of the edges. *)
Lemma receiving_bound (D : decoder) (Q : dst D -> Prop) (f : dst D -> nat) (w : edge -> bool) (ok : edge -> Prop) (B : nat) :
  (forall d x d', Q d -> ok x -> drive D d x = Val (d', Receiving) ->
     Q d' /\ (f d + (if w x then 1 else 0) <= f d')%nat /\ (f d' <= B)%nat) ->
  forall h d d' ss, Q d -> Forall ok h -> run_states D d h = Val (d', ss) -> Forall (eq Receiving) ss ->
  (f d + count w h <= Nat.max B (f d))%nat.
Proof.
  intros Hs. unfold run_states, count.
  assert (G : forall h d d' ss, Q d -> Forall ok h -> run_res (drive D) d h = Val (d', ss) -> Forall (eq Receiving) ss ->
    (f d + length (filter w h) <= f d')%nat /\ (f d' <= Nat.max B (f d))%nat).
  { induction h as [|x h IH]; intros d d' ss HQ Hok H HF; cbn [run_res] in H.
    - injection H as <- <-. cbn. lia.
    - destruct (drive D d x) as [[d1 s]| |] eqn:E; cbn [bind] in H; try discriminate.
      destruct (run_res (drive D) d1 h) as [[d2 os']| |] eqn:E2; cbn [bind] in H; try discriminate.
      injection H as <- <-. inversion HF; subst. inversion Hok; subst. destruct (Hs _ _ _ HQ ltac:(eassumption) E) as (Q1 & L1 & L2).
      destruct (IH _ _ _ Q1 ltac:(assumption) E2 ltac:(assumption)) as (L3 & L4).
      cbn [filter]. destruct (w x); cbn [length]; lia. }
  intros h d d' ss HQ Hok H HF. destruct (G _ _ _ _ HQ Hok H HF). lia.
Qed.

(** Two decoders in step. *)
Lemma run_sim {D1 D2 : decoder} {C} (into1 : dcmd D1 -> C) (into2 : dcmd D2 -> C) (R : dst D1 -> dst D2 -> Prop) :
  (forall d1 d2 e dt d1' s, R d1 d2 -> d_event D1 d1 e dt = Val (d1', s) ->
     exists d2', d_event D2 d2 e dt = Val (d2', s) /\
       match s with
       | Done => option_map into1 (d_command D1 d1') = option_map into2 (d_command D2 d2') /\
                 R (d_reset D1 d1') (d_reset D2 d2')
       | Error _ => R (d_reset D1 d1') (d_reset D2 d2')
       | Idle | Receiving => R d1' d2'
       end) ->
  forall h r1 r2 r1' os, R (rv_dec r1) (rv_dec r2) -> run_edges into1 r1 h = Val (r1', os) ->
  exists r2', run_edges into2 r2 h = Val (r2', os) /\ R (rv_dec r1') (rv_dec r2').
Proof.
  intros Hs. induction h as [|[e dt] h IH]; intros r1 r2 r1' os HR H; cbn [run_edges] in *.
  - injection H as <- <-. eauto.
  - unfold event_edge in H. unfold event_edge at 1.
    destruct (d_event D1 (rv_dec r1) e dt) as [[d1 s]| |] eqn:E; cbn [bind] in H; try discriminate.
    destruct (Hs _ _ _ _ _ _ HR E) as (d2 & E2 & K). rewrite E2. cbn [bind].
    assert (G : forall d d', R d d' -> forall o,
      (let* (rb, ob) := run_edges into1 (mkRecv d (rv_prev r1)) h in Val (rb, o :: ob)) = Val (r1', os) ->
      exists r2', (let* (rb, ob) := run_edges into2 (mkRecv d' (rv_prev r2)) h in Val (rb, o :: ob)) = Val (r2', os) /\
        R (rv_dec r1') (rv_dec r2')).
    { intros d d' HR1 o Ho.
      destruct (run_edges into1 (mkRecv d (rv_prev r1)) h) as [[ra oa]| |] eqn:Ea; cbn [bind] in Ho; try discriminate.
      injection Ho as <- <-. destruct (IH (mkRecv d (rv_prev r1)) (mkRecv d' (rv_prev r2)) _ _ HR1 Ea) as (r2' & -> & HR'). cbn [bind]. eauto. }
    destruct s; cbn [bind] in *.
    + apply (G _ _ K); auto.
    + apply (G _ _ K); auto.
    + destruct K as (K1 & K2). rewrite K1 in H. apply (G _ _ K2); auto.
    + apply (G _ _ K); auto.
Qed.

(** A property of decoders kept by events and resets makes every run possible. *)
Lemma run_total {D : decoder} {C} (into : dcmd D -> C) (Q : dst D -> Prop) (ok : edge -> Prop) :
  (forall d e dt, Q d -> ok (e, dt) -> exists d' s, d_event D d e dt = Val (d', s) /\ Q d') ->
  (forall d, Q d -> Q (d_reset D d)) ->
  forall h r, Q (rv_dec r) -> Forall ok h -> exists r' os, run_edges into r h = Val (r', os) /\ Q (rv_dec r').
Proof.
  intros Hs Hr h r HQ Hh.
  apply (run_edges_inv into (fun r => Q (rv_dec r)) ok); auto.
  intros r0 e dt H0 Hok. unfold event_edge. destruct (Hs _ _ _ H0 Hok) as (d' & s & -> & Q'). cbn [bind].
  destruct s; do 2 eexists; (split; [reflexivity|]); cbn [rv_dec]; auto.
Qed.

(** ** Which bit comes next stays in range *)

Definition nec_in_range (d : nec_decoder) : Prop :=
  match ns_state d with NReceiving i => i <= 31 | _ => True end.
Definition sbp_in_range (d : sbp_decoder) : Prop :=
  match sb_state d with SAddress i => i <= 15 | SCommand i => i <= 19 | _ => True end.
Definition denon_in_range (d : denon_decoder) : Prop :=
  match dn_state d with DData i => i <= 47 | _ => True end.
Definition rc5_in_range (d : rc5_decoder) : Prop :=
  match r5_state d with R5Data i => i <= 12 | _ => True end.
Definition rc6_in_range (d : rc6_decoder) : Prop :=
  match r6_state d with R6HeaderData i => i <= 3 | R6Data i => i <= 15 | _ => True end.

Lemma ushl1_val chk w n : n < w -> ushl1 chk w n = Val (N.shiftl 1 n).
Proof. intros H. unfold ushl1. rewrite (proj2 (N.ltb_lt _ _)); auto. Qed.
Lemma usub_val chk w a b : b <= a -> usub chk w a b = Val (a - b).
Proof. intros H. unfold usub. rewrite (proj2 (N.leb_le _ _)); auto. Qed.

(** *** NEC *)

Lemma nec_transition_total b s buf pw : match s with NReceiving i => i <= 31 | _ => True end ->
  exists buf' s', nec_transition b s buf pw = Val (buf', s') /\
    match s' with NReceiving i => i <= 31 | _ => True end.
Proof.
  assert (P32 : 2 ^ 32 = 4294967296) by reflexivity.
  intros H. destruct s as [|i| | |e]; destruct pw; cbn [nec_transition]; try (do 2 eexists; split; [reflexivity|]; cbv beta iota; solve [auto | lia]).
  - destruct (N.eqb_spec i 31); [do 2 eexists; split; [reflexivity|exact I]|].
    rewrite uadd_small by lia. cbn [bind]. do 2 eexists; split; [reflexivity|]. cbv beta iota. lia.
  - destruct (N.eqb_spec i 31); [rewrite ushl1_val by lia; do 2 eexists; split; [reflexivity|exact I]|].
    rewrite ushl1_val by lia. cbn [bind]. rewrite uadd_small by lia. cbn [bind]. do 2 eexists; split; [reflexivity|]. cbv beta iota. lia.
Qed.

Lemma nec_event_range b m d e dt d' s : nec_in_range d -> nec_event b m d e dt = Val (d', s) ->
  nec_in_range d' /\ s = nec_to_state (ns_state d').
Proof.
  unfold nec_in_range, nec_event. intros H E. destruct e.
  - destruct (dur_add b m dt (ns_dt_save d)) as [t| |]; cbn [bind] in E; try discriminate.
    edestruct nec_transition_total as (buf' & s' & Et & K); [exact H|]. rewrite Et in E. cbn [bind] in E.
    injection E as <- <-. auto.
  - injection E as <- <-. auto.
Qed.

(** *** SBP *)

Lemma sbp_transition_total b s a c pw : match s with SAddress i => i <= 15 | SCommand i => i <= 19 | _ => True end ->
  exists s' a' c', sbp_transition b s a c pw = Val (s', a', c') /\
    match s' with SAddress i => i <= 15 | SCommand i => i <= 19 | _ => True end.
Proof.
  assert (P16 : 2 ^ 16 = 65536) by reflexivity.
  intros H. destruct s as [|i| |i| |e]; destruct pw; cbn [sbp_transition];
    try (do 3 eexists; split; [reflexivity|]; cbv beta iota; solve [auto | lia]).
  - destruct (N.eqb_spec i 15); [do 3 eexists; split; [reflexivity|exact I]|].
    rewrite uadd_small by lia. cbn [bind]. do 3 eexists; split; [reflexivity|]. cbv beta iota. lia.
  - destruct (N.eqb_spec i 15); [rewrite ushl1_val by lia; do 3 eexists; split; [reflexivity|exact I]|].
    rewrite ushl1_val by lia. cbn [bind]. rewrite uadd_small by lia. cbn [bind]. do 3 eexists; split; [reflexivity|]. cbv beta iota. lia.
  - destruct (N.eqb_spec i 19); [do 3 eexists; split; [reflexivity|exact I]|].
    rewrite uadd_small by lia. cbn [bind]. do 3 eexists; split; [reflexivity|]. cbv beta iota. lia.
  - destruct (N.eqb_spec i 19); [rewrite ushl1_val by lia; do 3 eexists; split; [reflexivity|exact I]|].
    rewrite ushl1_val by lia. cbn [bind]. rewrite uadd_small by lia. cbn [bind]. do 3 eexists; split; [reflexivity|]. cbv beta iota. lia.
Qed.

Lemma sbp_event_range b m d e dt d' s : sbp_in_range d -> sbp_event b m d e dt = Val (d', s) ->
  sbp_in_range d' /\ s = sbp_to_state (sb_state d').
Proof.
  unfold sbp_in_range, sbp_event. intros H E. destruct e.
  - destruct (dur_add b m (sb_since_rising d) dt) as [t| |]; cbn [bind] in E; try discriminate.
    edestruct sbp_transition_total as (s' & a' & c' & Et & K); [exact H|]. rewrite Et in E. cbn [bind] in E.
    injection E as <- <-. auto.
  - injection E as <- <-. auto.
Qed.

(** *** Denon *)

Lemma denon_transition_total b s buf pw : match s with DData i => i <= 47 | _ => True end ->
  exists buf' s', denon_transition b s buf pw = Val (buf', s') /\
    match s' with DData i => i <= 47 | _ => True end.
Proof.
  assert (P8 : 2 ^ 8 = 256) by reflexivity.
  intros H. destruct s as [|i|]; destruct pw; cbn [denon_transition]; try (do 2 eexists; split; [reflexivity|]; cbv beta iota; solve [auto | lia]).
  - destruct (N.eqb_spec i 47); [do 2 eexists; split; [reflexivity|exact I]|].
    rewrite uadd_small by lia. cbn [bind]. do 2 eexists; split; [reflexivity|]. cbv beta iota. lia.
  - destruct (N.eqb_spec i 47); [do 2 eexists; split; [reflexivity|exact I]|].
    rewrite ushl1_val by lia. cbn [bind]. rewrite uadd_small by lia. cbn [bind]. do 2 eexists; split; [reflexivity|]. cbv beta iota. lia.
Qed.

Lemma denon_event_range b m d e dt d' s : denon_in_range d -> denon_event b m d e dt = Val (d', s) ->
  denon_in_range d' /\ s = denon_to_state (dn_state d').
Proof.
  unfold denon_in_range, denon_event. intros H E. destruct e.
  - destruct (dur_add b m (dn_dt_save d) dt) as [t| |]; cbn [bind] in E; try discriminate.
    edestruct denon_transition_total as (buf' & s' & Et & K); [exact H|]. rewrite Et in E. cbn [bind] in E.
    injection E as <- <-. auto.
  - injection E as <- <-. auto.
Qed.

(** *** RC5 *)

Lemma rc5_transition_total b s e t odd buf ck : match s with R5Data i => i <= 12 | _ => True end ->
  exists s' buf' ck', rc5_transition b s e t odd buf ck = Val (s', buf', ck') /\
    match s' with R5Data i => i <= 12 | _ => True end /\ (ck' = ck \/ ck' = 0).
Proof.
  intros H. destruct s as [|i| |x]; cbn [rc5_transition].
  - destruct e; [rewrite ushl1_val by lia|]; cbn [bind]; do 3 eexists; (split; [reflexivity|]); (split; [|auto]); auto. lia.
  - destruct t; [destruct odd|]; [|do 3 eexists; split; [reflexivity|]; auto|do 3 eexists; split; [reflexivity|]; auto].
    destruct (N.eqb_spec i 0).
    + destruct e; do 3 eexists; (split; [reflexivity|]); auto.
    + rewrite usub_val by lia. rewrite ushl1_val by lia. destruct e; cbn [bind]; do 3 eexists; (split; [reflexivity|]); (split; [cbv beta iota; lia|auto]).
  - do 3 eexists; split; [reflexivity|]; auto.
  - do 3 eexists; split; [reflexivity|]; auto.
Qed.

(** *** RC6 *)

Lemma rc6_transition_total b d e t odd : rc6_in_range d ->
  exists d', rc6_transition b d e t odd = Val d' /\ rc6_in_range d' /\ (r6_clock d' = r6_clock d \/ r6_clock d' = 0).
Proof.
  unfold rc6_in_range. intros H.
  destruct d as [s da hd tg ck sp]; cbn [r6_state r6_clock] in *. unfold rc6_transition.
  cbn [r6_state r6_data r6_headerdata r6_toggle r6_clock r6_spans].
  destruct s as [| | |i| |i| |x].
  - destruct e; eexists; (split; [reflexivity|]); cbn; auto.
  - repeat match goal with |- context [match ?x with _ => _ end] => is_var x; destruct x end;
      eexists; (split; [reflexivity|]); cbn; auto.
  - repeat match goal with |- context [match ?x with _ => _ end] => is_var x; destruct x end;
      eexists; (split; [reflexivity|]); cbn; auto. split; [lia|auto].
  - destruct t; [destruct odd|]; try (eexists; (split; [reflexivity|]); cbn; auto; fail).
    assert (exists m, (if e then Val 0 else ushl1 (overflow_checks b) 16 i) = Val m) as (m & ->).
    { destruct e; [eauto|]. rewrite ushl1_val by lia. eauto. }
    cbn [bind]. destruct (N.eqb_spec i 0).
    + cbn [bind]. eexists. split; [reflexivity|]. cbn. auto.
    + rewrite usub_val by lia. cbn [bind]. eexists. split; [reflexivity|]. cbn. split; [lia|auto].
  - repeat match goal with |- context [match ?x with _ => _ end] => is_var x; destruct x end;
      eexists; (split; [reflexivity|]); cbn; split; auto; lia.
  - destruct t; [destruct odd|]; try (eexists; (split; [reflexivity|]); cbn; auto; fail).
    destruct (N.eqb_spec i 0).
    + destruct e; eexists; (split; [reflexivity|]); cbn; auto.
    + rewrite usub_val by lia. destruct e; [|rewrite ushl1_val by lia]; cbn [bind];
        eexists; (split; [reflexivity|]); cbn; (split; [cbv beta iota; lia|auto]).
  - eexists. split; [reflexivity|]. cbn. auto.
  - eexists. split; [reflexivity|]. cbn. auto.
Qed.

(** ** Releases behave like debug builds *)

Definition refines {A} (x y : res A) : Prop := forall v, x = Val v -> y = Val v.

Lemma refines_refl {A} (x : res A) : refines x x.
Proof. intros v H. exact H. Qed.
Lemma refines_bind {A B} (x y : res A) (f g : A -> res B) :
  refines x y -> (forall a, refines (f a) (g a)) -> refines (bind x f) (bind y g).
Proof.
  intros H K v E. destruct x as [a| |]; try discriminate. rewrite (H a eq_refl). cbn [bind] in *. apply K. exact E.
Qed.
Lemma refines_uadd w a b : refines (uadd true w a b) (uadd false w a b).
Proof. intros v. unfold uadd. destruct (a + b <? 2 ^ w); auto; discriminate. Qed.
Lemma refines_usub w a b : refines (usub true w a b) (usub false w a b).
Proof. intros v. unfold usub. destruct (b <=? a); auto; discriminate. Qed.
Lemma refines_umul w a b : refines (umul true w a b) (umul false w a b).
Proof. intros v. unfold umul. destruct (a * b <? 2 ^ w); auto; discriminate. Qed.
Lemma refines_ushl1 w n : refines (ushl1 true w n) (ushl1 false w n).
Proof. intros v. unfold ushl1. destruct (n <? w); auto; discriminate. Qed.
Global Hint Resolve refines_refl refines_uadd refines_usub refines_umul refines_ushl1 : refines.

Ltac ref :=
  repeat first
    [ solve [auto with refines]
    | apply refines_bind; [|intros ?]
    | match goal with |- refines (match ?x with _ => _ end) _ => destruct x end
    | match goal with |- refines (if ?x then _ else _) _ => destruct x end ].

Section Profiles.
  Variable (w : N).
  Notation dbg := (debug_build w).
  Notation rel := (release_build w).

  Lemma ref_dur_add m x y : refines (dur_add dbg m x y) (dur_add rel m x y).
  Proof. destruct m; cbn [dur_add overflow_checks debug_build release_build]; auto with refines. Qed.
  Lemma ref_spans m freq pt : refines (pulse_spans_new dbg m freq pt) (pulse_spans_new rel m freq pt).
  Proof.
    induction pt as [|[p t] pt IH]; cbn [pulse_spans_new]; [auto with refines|].
    apply refines_bind; [|intros s; apply refines_bind; auto; intros; apply refines_refl].
    destruct m; cbn [create_span]; unfold span_new_prim, span_new_fugit;
      cbn [overflow_checks debug_build release_build]; ref.
  Qed.
  Lemma ref_nec m d e dt : refines (nec_event dbg m d e dt) (nec_event rel m d e dt).
  Proof.
    unfold nec_event. destruct e; [|auto with refines]. apply refines_bind; [apply ref_dur_add|].
    intros t. apply refines_bind; [|intros [? ?]; auto with refines].
    unfold nec_transition. cbn [overflow_checks debug_build release_build]. ref.
  Qed.
  Lemma ref_sbp m d e dt : refines (sbp_event dbg m d e dt) (sbp_event rel m d e dt).
  Proof.
    unfold sbp_event. destruct e; [|auto with refines]. apply refines_bind; [apply ref_dur_add|].
    intros t. apply refines_bind; [|intros [[? ?] ?]; auto with refines].
    unfold sbp_transition. cbn [overflow_checks debug_build release_build]. ref.
  Qed.
  Lemma ref_denon m d e dt : refines (denon_event dbg m d e dt) (denon_event rel m d e dt).
  Proof.
    unfold denon_event. destruct e; [|auto with refines]. apply refines_bind; [apply ref_dur_add|].
    intros t. apply refines_bind; [|intros [? ?]; auto with refines].
    unfold denon_transition. cbn [overflow_checks debug_build release_build]. ref.
  Qed.
  Lemma ref_rc5 d e dt : refines (rc5_event dbg d e dt) (rc5_event rel d e dt).
  Proof.
    unfold rc5_event, rc5_transition. cbn [overflow_checks usize_bits debug_build release_build]. ref.
  Qed.
  Lemma ref_rc6 d e dt : refines (rc6_event dbg d e dt) (rc6_event rel d e dt).
  Proof.
    unfold rc6_event, rc6_transition. cbn [overflow_checks usize_bits debug_build release_build]. ref.
  Qed.
End Profiles.

(** ** Decoders reached by calls *)

Lemma last_snoc (l : list state) x : last_state (l ++ [x]) = x.
Proof. unfold last_state. apply last_last. Qed.

Lemma last_any {A} (l : list A) x y : l <> [] -> last l x = last l y.
Proof.
  induction l as [|a [|b l] IH]; intros H; [contradiction|reflexivity|]. cbn [last] in *. apply IH. discriminate.
Qed.

Lemma reached_inv (P : protocol) freq (Q : dst (p_dec P) -> state -> Prop) :
  (forall d0, p_build P freq = Val d0 -> Q d0 Idle) ->
  (forall d s e dt d' s', Q d s -> d_event (p_dec P) d e dt = Val (d', s') -> Q d' s') ->
  (forall d s, Q d s -> Q (d_reset (p_dec P) d) Idle) ->
  forall d s, reached P freq d s -> Q d s.
Proof.
  intros H0 H1 H2 d s (d0 & xs & ss & E0 & E1 & Es). subst s. unfold calls in E1.
  assert (G : forall xs d1 s1 d ss, Q d1 s1 -> run_res (call (p_dec P)) d1 xs = Val (d, ss) -> Q d (last ss s1)).
  { clear - H1 H2. induction xs as [|x xs IH]; intros d1 s1 d ss HQ E; cbn [run_res] in E.
    - injection E as <- <-. exact HQ.
    - destruct (call (p_dec P) d1 x) as [[d2 s2]| |] eqn:Ec; cbn [bind] in E; try discriminate.
      destruct (run_res _ d2 xs) as [[d3 ss3]| |] eqn:Er; cbn [bind] in E; try discriminate.
      injection E as <- <-.
      assert (Q2 : Q d2 s2).
      { destruct x as [[e dt]|]; cbn [call] in Ec; [eauto|]. injection Ec as <- <-. eauto. }
      specialize (IH _ _ _ _ Q2 Er). destruct ss3 as [|y ss3]; [exact IH|].
      rewrite (last_any (y :: ss3) s2 s1) in IH by discriminate. exact IH. }
  eapply G; eauto.
Qed.

(** A finished decoder ignores what comes next. *)
Lemma feed_stable (D : decoder) (Q : dst D -> Prop) (s : state) (c : option (dcmd D)) (ok : edge -> Prop) :
  (forall d x d' s', Q d -> ok x -> d_event D d (fst x) (snd x) = Val (d', s') -> Q d' /\ s' = s) ->
  (forall d, Q d -> d_command D d = c) ->
  forall h d d' ss, Q d -> Forall ok h -> feed D d h = Val (d', ss) -> Forall (eq s) ss /\ d_command D d' = c.
Proof.
  intros Hs Hc. unfold feed. induction h as [|x h IH]; intros d d' ss HQ Hok E; cbn [run_res] in E.
  - injection E as <- <-. auto.
  - destruct (d_event D d (fst x) (snd x)) as [[d1 s1]| |] eqn:E1; cbn [bind] in E; try discriminate.
    destruct (run_res _ d1 h) as [[d2 ss2]| |] eqn:E2; cbn [bind] in E; try discriminate.
    injection E as <- <-. inversion Hok; subst. destruct (Hs _ _ _ _ HQ ltac:(eassumption) E1) as (Q1 & ->).
    destruct (IH _ _ _ Q1 ltac:(assumption) E2). auto.
Qed.

(** *** What is known of a reached decoder *)

Lemma nec_reached b m V freq d s : reached (nec_protocol b m V) freq d s ->
  nec_in_range d /\ s = nec_to_state (ns_state d) /\
  pulse_spans_new b m freq (nec_pulses (nv_timing V)) = Val (ns_spans d).
Proof.
  intros H. pattern d, s. revert d s H. apply reached_inv; cbn [p_build nec_protocol p_dec d_event d_reset nec_dec dst].
  - intros d0 E. unfold nec_build in E. destruct (pulse_spans_new _ _ _ _); cbn [bind] in E; try discriminate.
    injection E as <-. cbn. auto.
  - intros d s e dt d' s' (H1 & H2 & H3) E. destruct (nec_event_range _ _ _ _ _ _ _ H1 E) as (A1 & A2).
    split; auto. split; auto. rewrite H3. f_equal. clear - E. unfold nec_event in E. destruct e.
    + destruct (dur_add _ _ _ _); cbn [bind] in E; try discriminate.
      destruct (nec_transition _ _ _ _) as [[? ?]| |]; cbn [bind] in E; try discriminate. injection E as <- _. reflexivity.
    + injection E as <- _. reflexivity.
  - intros d s (H1 & H2 & H3). repeat split; auto.
Qed.

Lemma sbp_reached b m freq d s : reached (sbp_protocol b m) freq d s ->
  sbp_in_range d /\ s = sbp_to_state (sb_state d) /\ pulse_spans_new b m freq sbp_pulses = Val (sb_spans d).
Proof.
  intros H. pattern d, s. revert d s H. apply reached_inv; cbn [p_build sbp_protocol p_dec d_event d_reset sbp_dec dst].
  - intros d0 E. unfold sbp_build in E. destruct (pulse_spans_new _ _ _ _); cbn [bind] in E; try discriminate.
    injection E as <-. cbn. auto.
  - intros d s e dt d' s' (H1 & H2 & H3) E. destruct (sbp_event_range _ _ _ _ _ _ _ H1 E) as (A1 & A2).
    split; auto. split; auto. rewrite H3. f_equal. clear - E. unfold sbp_event in E. destruct e.
    + destruct (dur_add _ _ _ _); cbn [bind] in E; try discriminate.
      destruct (sbp_transition _ _ _ _) as [[[? ?] ?]| |]; cbn [bind] in E; try discriminate. injection E as <- _. reflexivity.
    + injection E as <- _. reflexivity.
  - intros d s (H1 & H2 & H3). repeat split; auto.
Qed.

Lemma denon_reached b m freq d s : reached (denon_protocol b m) freq d s ->
  denon_in_range d /\ s = denon_to_state (dn_state d) /\ pulse_spans_new b m freq denon_pulses = Val (dn_spans d).
Proof.
  intros H. pattern d, s. revert d s H. apply reached_inv; cbn [p_build denon_protocol p_dec d_event d_reset denon_dec dst].
  - intros d0 E. unfold denon_build in E. destruct (pulse_spans_new _ _ _ _); cbn [bind] in E; try discriminate.
    injection E as <-. cbn. auto.
  - intros d s e dt d' s' (H1 & H2 & H3) E. destruct (denon_event_range _ _ _ _ _ _ _ H1 E) as (A1 & A2).
    split; auto. split; auto. rewrite H3. f_equal. clear - E. unfold denon_event in E. destruct e.
    + destruct (dur_add _ _ _ _); cbn [bind] in E; try discriminate.
      destruct (denon_transition _ _ _ _) as [[? ?]| |]; cbn [bind] in E; try discriminate. injection E as <- _. reflexivity.
    + injection E as <- _. reflexivity.
  - intros d s (H1 & H2 & H3). repeat split; auto.
Qed.

Lemma rc5_event_range b d e dt d' s : rc5_in_range d -> rc5_event b d e dt = Val (d', s) ->
  rc5_in_range d' /\ s = rc5_to_state (r5_state d').
Proof.
  unfold rc5_event. intros H E.
  destruct (match spans_get (r5_spans d) dt with Some _ => _ | None => _ end) as [d1| |] eqn:E1;
    cbn [bind] in E; try discriminate.
  assert (H1 : rc5_in_range d1).
  { destruct (spans_get (r5_spans d) dt).
    - destruct (uadd _ _ n 1); cbn [bind] in E1; try discriminate.
      destruct (uadd _ _ (r5_clock d) a); cbn [bind] in E1; try discriminate. injection E1 as <-. exact H.
    - injection E1 as <-. exact I. }
  edestruct (rc5_transition_total b (r5_state d1)) as (s' & buf' & ck' & Et & K & _); [exact H1|].
  rewrite Et in E. cbn [bind] in E. injection E as <- <-. auto.
Qed.

Lemma rc6_event_range b d e dt d' s : rc6_in_range d -> rc6_event b d e dt = Val (d', s) ->
  rc6_in_range d' /\ s = rc6_to_state (r6_state d').
Proof.
  unfold rc6_event. intros H E.
  destruct (match spans_get (r6_spans d) dt with Some _ => _ | None => _ end) as [tk| |];
    cbn [bind] in E; try discriminate.
  destruct (match tk with Some _ => _ | None => _ end) as [d1| |] eqn:E1; cbn [bind] in E; try discriminate.
  assert (H1 : rc6_in_range d1).
  { destruct tk as [t|].
    - destruct (uadd _ _ (r6_clock d) t); cbn [bind] in E1; try discriminate. injection E1 as <-. exact H.
    - injection E1 as <-. exact I. }
  edestruct (rc6_transition_total b d1) as (d2 & Et & K & _); [exact H1|].
  rewrite Et in E. cbn [bind] in E. injection E as <- <-. auto.
Qed.

Lemma rc5_reached b m freq d s : reached (rc5_protocol b m) freq d s ->
  rc5_in_range d /\ s = rc5_to_state (r5_state d) /\ pulse_spans_new b m freq rc5_pulses = Val (r5_spans d).
Proof.
  intros H. pattern d, s. revert d s H. apply reached_inv; cbn [p_build rc5_protocol p_dec d_event d_reset rc5_dec dst].
  - intros d0 E. unfold rc5_build in E. destruct (pulse_spans_new _ _ _ _); cbn [bind] in E; try discriminate.
    injection E as <-. cbn. auto.
  - intros d s e dt d' s' (H1 & H2 & H3) E. destruct (rc5_event_range _ _ _ _ _ _ H1 E) as (A1 & A2).
    split; auto. split; auto. rewrite H3. f_equal. symmetry. eapply rc5_event_spans; eauto.
  - intros d s (H1 & H2 & H3). repeat split; auto.
Qed.

Lemma rc6_reached b m freq d s : reached (rc6_protocol b m) freq d s ->
  rc6_in_range d /\ s = rc6_to_state (r6_state d) /\ pulse_spans_new b m freq rc6_pulses = Val (r6_spans d).
Proof.
  intros H. pattern d, s. revert d s H. apply reached_inv; cbn [p_build rc6_protocol p_dec d_event d_reset rc6_dec dst].
  - intros d0 E. unfold rc6_build in E. destruct (pulse_spans_new _ _ _ _); cbn [bind] in E; try discriminate.
    injection E as <-. cbn. auto.
  - intros d s e dt d' s' (H1 & H2 & H3) E. destruct (rc6_event_range _ _ _ _ _ _ H1 E) as (A1 & A2).
    split; auto. split; auto. rewrite H3. f_equal. symmetry. eapply rc6_event_spans; eauto.
  - intros d s (H1 & H2 & H3). repeat split; auto.
Qed.

(** ** Progress *)

(** Parity of the clock survives its wrap-around. *)
Lemma uadd_parity chk w a b c : 1 <= w -> uadd chk w a b = Val c -> c mod 2 = (a + b) mod 2.
Proof.
  intros Hw. unfold uadd. destruct (a + b <? 2 ^ w); [intros H; injection H as <-; reflexivity|].
  destruct chk; [discriminate|]. intros H. injection H as <-.
  replace w with (N.succ (w - 1)) by lia. rewrite N.pow_succ_r'.
  rewrite N.mod_mul_r by (try apply N.pow_nonzero; lia).
  rewrite N.mul_comm, N.mod_add by lia. apply N.mod_mod. lia.
Qed.

Definition nec_progress (d : nec_decoder) : nat :=
  match ns_state d with NReceiving i => N.to_nat i + 1 | _ => 0 end.
Definition sbp_progress (d : sbp_decoder) : nat :=
  match sb_state d with SAddress i => N.to_nat i + 1 | SDivider => 17 | SCommand i => 18 + N.to_nat i | _ => 0 end.
Definition denon_progress (d : denon_decoder) : nat :=
  match dn_state d with DData i => N.to_nat i + 1 | _ => 0 end.

Lemma drive_receiving (D : decoder) d x d' : drive D d x = Val (d', Receiving) ->
  d_event D d (fst x) (snd x) = Val (d', Receiving).
Proof.
  unfold drive. destruct (d_event D d (fst x) (snd x)) as [[d1 []]| |]; cbn [bind]; intros H; try discriminate; auto.
Qed.

Lemma nec_progress_step b m V d x d' : nec_in_range d -> drive (nec_dec b m V) d x = Val (d', Receiving) ->
  nec_in_range d' /\ (nec_progress d + (if fst x then 1 else 0) <= nec_progress d')%nat /\ (nec_progress d' <= 32)%nat.
Proof.
  intros H E. apply drive_receiving in E. cbn [d_event nec_dec] in E.
  destruct (nec_event_range _ _ _ _ _ _ _ H E) as (H' & Es). split; auto.
  assert (B : (nec_progress d' <= 32)%nat).
  { unfold nec_progress. unfold nec_in_range in H'. destruct (ns_state d'); lia. }
  split; auto. destruct x as [[] dt]; cbn [fst snd] in *; unfold nec_event in E.
  - destruct (dur_add _ _ _ _) as [t| |]; cbn [bind] in E; try discriminate.
    destruct (nec_transition _ _ _ _) as [[buf s]| |] eqn:Et; cbn [bind] in E; try discriminate.
    injection E as <- Es'. unfold nec_in_range, nec_progress in *. cbn [ns_state] in *.
    assert (P32 : 2 ^ 32 = 4294967296) by reflexivity.
    destruct (ns_state d) as [|i| | |]; destruct (match spans_get (ns_spans d) t with Some _ => _ | None => _ end);
      cbn [nec_transition] in Et; try (injection Et as <- <-; cbn [nec_to_state] in Es'; try discriminate; lia).
    + destruct (N.eqb_spec i 31); [injection Et as <- <-; discriminate|].
      rewrite uadd_small in Et by lia. cbn [bind] in Et. injection Et as <- <-. lia.
    + destruct (N.eqb_spec i 31); [rewrite ushl1_val in Et by lia; injection Et as <- <-; discriminate|].
      rewrite ushl1_val in Et by lia. cbn [bind] in Et.
      rewrite uadd_small in Et by lia. cbn [bind] in Et. injection Et as <- <-. lia.
  - injection E as <- _. unfold nec_progress. cbn [ns_state]. lia.
Qed.

Lemma sbp_progress_step b m d x d' : sbp_in_range d -> drive (sbp_dec b m) d x = Val (d', Receiving) ->
  sbp_in_range d' /\ (sbp_progress d + (if fst x then 1 else 0) <= sbp_progress d')%nat /\ (sbp_progress d' <= 37)%nat.
Proof.
  intros H E. apply drive_receiving in E. cbn [d_event sbp_dec] in E.
  destruct (sbp_event_range _ _ _ _ _ _ _ H E) as (H' & Es). split; auto.
  assert (B : (sbp_progress d' <= 37)%nat).
  { unfold sbp_progress. unfold sbp_in_range in H'. destruct (sb_state d'); lia. }
  split; auto. destruct x as [[] dt]; cbn [fst snd] in *; unfold sbp_event in E.
  - destruct (dur_add _ _ _ _) as [t| |]; cbn [bind] in E; try discriminate.
    destruct (sbp_transition _ _ _ _) as [[[s a'] c']| |] eqn:Et; cbn [bind] in E; try discriminate.
    injection E as <- Es'. unfold sbp_in_range, sbp_progress in *. cbn [sb_state] in *.
    assert (P16 : 2 ^ 16 = 65536) by reflexivity.
    destruct (sb_state d) as [|i| |i| |]; destruct (match spans_get (sb_spans d) t with Some _ => _ | None => _ end);
      cbn [sbp_transition] in Et; try (injection Et as <- <- <-; cbn [sbp_to_state] in Es'; try discriminate; lia).
    + destruct (N.eqb_spec i 15); [injection Et as <- <- <-; lia|].
      rewrite uadd_small in Et by lia. cbn [bind] in Et. injection Et as <- <- <-. lia.
    + destruct (N.eqb_spec i 15); [rewrite ushl1_val in Et by lia; injection Et as <- <- <-; lia|].
      rewrite ushl1_val in Et by lia. cbn [bind] in Et.
      rewrite uadd_small in Et by lia. cbn [bind] in Et. injection Et as <- <- <-. lia.
    + destruct (N.eqb_spec i 19); [injection Et as <- <- <-; discriminate|].
      rewrite uadd_small in Et by lia. cbn [bind] in Et. injection Et as <- <- <-. lia.
    + destruct (N.eqb_spec i 19); [rewrite ushl1_val in Et by lia; injection Et as <- <- <-; discriminate|].
      rewrite ushl1_val in Et by lia. cbn [bind] in Et.
      rewrite uadd_small in Et by lia. cbn [bind] in Et. injection Et as <- <- <-. lia.
  - injection E as <- _. unfold sbp_progress. cbn [sb_state]. lia.
Qed.

Lemma denon_progress_step b m d x d' : denon_in_range d -> drive (denon_dec b m) d x = Val (d', Receiving) ->
  denon_in_range d' /\ (denon_progress d + (if fst x then 1 else 0) <= denon_progress d')%nat /\ (denon_progress d' <= 48)%nat.
Proof.
  intros H E. apply drive_receiving in E. cbn [d_event denon_dec] in E.
  destruct (denon_event_range _ _ _ _ _ _ _ H E) as (H' & Es). split; auto.
  assert (B : (denon_progress d' <= 48)%nat).
  { unfold denon_progress. unfold denon_in_range in H'. destruct (dn_state d'); lia. }
  split; auto. destruct x as [[] dt]; cbn [fst snd] in *; unfold denon_event in E.
  - destruct (dur_add _ _ _ _) as [t| |]; cbn [bind] in E; try discriminate.
    destruct (denon_transition _ _ _ _) as [[buf s]| |] eqn:Et; cbn [bind] in E; try discriminate.
    injection E as <- Es'. unfold denon_in_range, denon_progress in *. cbn [dn_state] in *.
    assert (P8 : 2 ^ 8 = 256) by reflexivity.
    destruct (dn_state d) as [|i|]; destruct (match spans_get (dn_spans d) t with Some _ => _ | None => _ end);
      cbn [denon_transition] in Et; try (injection Et as <- <-; cbn [denon_to_state] in Es'; try discriminate; lia).
    + destruct (N.eqb_spec i 47); [injection Et as <- <-; discriminate|].
      rewrite uadd_small in Et by lia. cbn [bind] in Et. injection Et as <- <-. lia.
    + destruct (N.eqb_spec i 47); [injection Et as <- <-; discriminate|].
      rewrite ushl1_val in Et by lia. cbn [bind] in Et.
      rewrite uadd_small in Et by lia. cbn [bind] in Et. injection Et as <- <-. lia.
  - injection E as <- _. unfold denon_progress. cbn [dn_state]. lia.
Qed.

Definition rc5_progress (d : rc5_decoder) : nat :=
  match r5_state d with
  | R5Data i => 1 + 2 * (12 - N.to_nat i) + N.to_nat (r5_clock d mod 2)
  | _ => 0
  end.
(** An interval that counts as an odd number of units. *)
Definition odd_units (ss : list span) (x : edge) : bool :=
  match spans_get ss (snd x) with Some k => N.even k | None => false end.

Lemma parity_cases n : n mod 2 = 0 /\ N.even n = true \/ n mod 2 = 1 /\ N.even n = false.
Proof.
  destruct (N.even n) eqn:E.
  - left. split; auto. apply N.even_spec in E. destruct E as (k & ->). rewrite N.mul_comm. apply N.mod_mul. discriminate.
  - right. split; auto. rewrite <- N.negb_odd in E. apply negb_false_iff, N.odd_spec in E. destruct E as (k & ->).
    rewrite N.add_comm, N.mul_comm, N.mod_add by discriminate. reflexivity.
Qed.

Lemma rc5_progress_step b ss d x d' : 1 <= usize_bits b -> rc5_in_range d /\ r5_spans d = ss ->
  spans_get ss (snd x) <> None -> drive (rc5_dec b) d x = Val (d', Receiving) ->
  (rc5_in_range d' /\ r5_spans d' = ss) /\
  (rc5_progress d + (if odd_units ss x then 1 else 0) <= rc5_progress d')%nat /\ (rc5_progress d' <= 26)%nat.
Proof.
  intros Hw (H & Hss) Hk E. apply drive_receiving in E. cbn [d_event rc5_dec] in E.
  destruct (rc5_event_range _ _ _ _ _ _ H E) as (H' & Es).
  pose proof (rc5_event_spans _ _ _ _ _ _ E) as Esp. split; [split; congruence|].
  assert (B : (rc5_progress d' <= 26)%nat).
  { unfold rc5_progress. unfold rc5_in_range in H'. pose proof (N.mod_lt (r5_clock d') 2). destruct (r5_state d'); lia. }
  split; auto. unfold odd_units. destruct x as [e dt]. cbn [fst snd] in *.
  unfold rc5_event in E. rewrite Hss in E. destruct (spans_get ss dt) as [k|]; [|contradiction]. clear Hk.
  destruct (uadd _ _ k 1) as [t1| |] eqn:E1; cbn [bind] in E; try discriminate.
  destruct (uadd _ _ (r5_clock d) t1) as [ck| |] eqn:E2; cbn [bind] in E; try discriminate.
  cbn [r5_clock r5_state r5_bitbuf r5_spans] in E. rewrite land1 in E.
  apply uadd_parity in E1; auto. apply uadd_parity in E2; auto.
  unfold rc5_in_range, rc5_progress in *.
  destruct (r5_state d) as [|i| |] eqn:Ei; cbn [rc5_transition] in E.
  - destruct e; [rewrite ushl1_val in E by lia|]; cbn [bind rc5_to_state] in E; [|discriminate].
    injection E as <-.
    cbn [r5_state r5_clock]. destruct (N.even k); cbn; lia.
  - assert (Q : (r5_clock d mod 2 = 0 /\ ck mod 2 = (if N.even k then 1 else 0)) \/
                (r5_clock d mod 2 = 1 /\ ck mod 2 = (if N.even k then 0 else 1))).
    { rewrite (N.add_mod (r5_clock d) t1), E1, (N.add_mod k 1) in E2 by discriminate. rewrite E2.
      destruct (parity_cases (r5_clock d)) as [[K _]|[K _]]; rewrite K; [left|right]; split; auto;
        destruct (parity_cases k) as [[K' ->]|[K' ->]]; rewrite K'; reflexivity. }
    clear E1 E2.
    destruct (N.eqb_spec (ck mod 2) 0) as [Z|Z].
    + destruct (N.eqb_spec i 0); [destruct e; discriminate|].
      rewrite usub_val in E by lia. rewrite ushl1_val in E by lia.
      destruct e; cbn [bind rc5_to_state] in E; injection E as <-; cbn [r5_state r5_clock] in *;
        destruct (N.even k); lia.
    + cbn [bind rc5_to_state] in E. injection E as <-. cbn [r5_state r5_clock]. destruct (N.even k); lia.
  - cbn [bind] in E. discriminate.
  - cbn [bind] in E. discriminate.
Qed.

Definition rc6_progress (d : rc6_decoder) : nat :=
  match r6_state d with
  | R6Leading => 1
  | R6LeadingPaus => 2
  | R6HeaderData n => 3 + 2 * (3 - N.to_nat n) + (1 - N.to_nat (r6_clock d mod 2))
  | R6Trailing => 11
  | R6Data n => 12 + 2 * (15 - N.to_nat n) + (1 - N.to_nat (r6_clock d mod 2))
  | _ => 0
  end.

Lemma rc6_progress_step b ss d x d' : 1 <= usize_bits b -> rc6_in_range d /\ r6_spans d = ss ->
  spans_get ss (snd x) <> None /\ (forall k, spans_get ss (snd x) = Some k -> k + 1 < 2 ^ usize_bits b) ->
  drive (rc6_dec b) d x = Val (d', Receiving) ->
  (rc6_in_range d' /\ r6_spans d' = ss) /\
  (rc6_progress d + (if fst x && odd_units ss x then 1 else 0) <= rc6_progress d')%nat /\ (rc6_progress d' <= 43)%nat.
Proof.
  intros Hw (H & Hss) (Hk & Hk2) E. apply drive_receiving in E. cbn [d_event rc6_dec] in E.
  destruct (rc6_event_range _ _ _ _ _ _ H E) as (H' & Es).
  pose proof (rc6_event_spans _ _ _ _ _ _ E) as Esp. split; [split; congruence|].
  assert (B : (rc6_progress d' <= 43)%nat).
  { unfold rc6_progress. unfold rc6_in_range in H'. pose proof (N.mod_lt (r6_clock d') 2). destruct (r6_state d'); lia. }
  split; auto. clear B H'. unfold odd_units. destruct x as [e dt]. cbn [fst snd] in *.
  unfold rc6_event in E. rewrite Hss in E. destruct (spans_get ss dt) as [k|]; [|contradiction]. clear Hk.
  rewrite uadd_small in E by (apply Hk2; reflexivity). cbn [bind] in E. clear Hk2.
  destruct (uadd _ _ (r6_clock d) (k + 1)) as [ck| |] eqn:E2; cbn [bind] in E; try discriminate.
  cbn [r6_clock] in E. rewrite land1 in E.
  destruct (rc6_transition _ _ _ _ _) as [d2| |] eqn:Et; cbn [bind] in E; try discriminate.
  injection E as -> Es'. clear Es.
  apply uadd_parity in E2; auto.
  assert (Q : (r6_clock d mod 2 = 0 /\ ck mod 2 = (if N.even k then 1 else 0)) \/
              (r6_clock d mod 2 = 1 /\ ck mod 2 = (if N.even k then 0 else 1))).
  { rewrite (N.add_mod (r6_clock d) (k + 1)), (N.add_mod k 1) in E2 by discriminate. rewrite E2.
    destruct (parity_cases (r6_clock d)) as [[K _]|[K _]]; rewrite K; [left|right]; split; auto;
      destruct (parity_cases k) as [[K' ->]|[K' ->]]; rewrite K'; reflexivity. }
  clear E2. unfold rc6_in_range, rc6_progress in *. unfold rc6_transition in Et.
  cbn [r6_state r6_data r6_headerdata r6_toggle r6_clock r6_spans] in Et.
  destruct (r6_state d) as [| | |n| |n| |]; clear Hss Esp.
  - destruct e; injection Et as <-; cbn [r6_state r6_clock rc6_to_state] in *; [|discriminate].
    destruct (N.even k); cbn; lia.
  - destruct e; [injection Et as <-; discriminate|].
    destruct (k + 1) as [|p]; [injection Et as <-; discriminate|].
    repeat (destruct p as [p|p|]; try (injection Et as <-; discriminate)).
    injection Et as <-. cbn. lia.
  - destruct e; [|injection Et as <-; discriminate].
    destruct (k + 1) as [|p] eqn:Ek; [injection Et as <-; discriminate|].
    repeat (destruct p as [p|p|]; try (injection Et as <-; discriminate)).
    injection Et as <-. cbn [r6_state r6_clock]. assert (k = 1) by lia. subst k. cbn [N.even andb]. lia.
  - destruct (N.eqb_spec (ck mod 2) 1) as [Z|Z].
    + assert (exists mm, (if e then Val 0 else ushl1 (overflow_checks b) 16 n) = Val mm) as (mm & Em).
      { destruct e; [eauto|]. rewrite ushl1_val by lia. eauto. }
      rewrite Em in Et. cbn [bind] in Et. destruct (N.eqb_spec n 0).
      * cbn [bind] in Et. injection Et as <-. cbn [r6_state r6_clock]. destruct (N.even k), e; cbn [andb]; lia.
      * rewrite usub_val in Et by lia. cbn [bind] in Et. injection Et as <-. cbn [r6_state r6_clock].
        destruct (N.even k), e; cbn [andb]; lia.
    + injection Et as <-. cbn [r6_state r6_clock]. destruct (N.even k), e; cbn [andb]; lia.
  - destruct e.
    + destruct (k + 1) as [|p] eqn:Ek; [injection Et as <-; discriminate|].
      repeat (destruct p as [p|p|]; try (injection Et as <-; discriminate)).
      injection Et as <-. cbn [r6_state r6_clock]. assert (k = 1) by lia. subst k. cbn [N.even andb]. lia.
    + cbn [andb]. destruct (k + 1) as [|p] eqn:Ek; [injection Et as <-; discriminate|].
      repeat (destruct p as [p|p|]; try (injection Et as <-; discriminate));
      injection Et as <-; cbn [r6_state r6_clock]; lia.
  - destruct (N.eqb_spec (ck mod 2) 1) as [Z|Z].
    + destruct (N.eqb_spec n 0).
      * destruct e; injection Et as <-; discriminate.
      * rewrite usub_val in Et by lia. destruct e; [|rewrite ushl1_val in Et by lia]; cbn [bind] in Et;
          injection Et as <-; cbn [r6_state r6_clock]; destruct (N.even k); cbn [andb]; lia.
    + injection Et as <-. cbn [r6_state r6_clock]. destruct (N.even k), e; cbn [andb]; lia.
  - injection Et as <-. discriminate.
  - injection Et as <-. discriminate.
Qed.

(** ** No panics *)

Lemma uadd_val chk w a b : chk = false \/ a + b < 2 ^ w -> exists c, uadd chk w a b = Val c /\ c <= a + b.
Proof.
  unfold uadd. intros H. destruct (N.ltb_spec (a + b) (2 ^ w)); [eexists; split; [reflexivity|lia]|].
  destruct H as [->|H]; [|lia]. eexists. split; [reflexivity|]. apply N.mod_le. apply N.pow_nonzero. discriminate.
Qed.

Lemma spans_get_below ss d k : spans_get ss d = Some k -> k < N.of_nat (length ss).
Proof.
  intros H. apply spans_get_some in H. destruct H as (s & H & _).
  assert (L : (N.to_nat k < length ss)%nat) by (apply nth_error_Some; congruence). lia.
Qed.

Lemma pulse_spans_length b m freq pt ss : pulse_spans_new b m freq pt = Val ss -> length ss = length pt.
Proof.
  revert ss. induction pt as [|[p t] pt IH]; intros ss E; cbn [pulse_spans_new] in E.
  - injection E as <-. reflexivity.
  - destruct (create_span _ _ _ _ _); cbn [bind] in E; try discriminate.
    destruct (pulse_spans_new _ _ _ pt) as [s1| |]; cbn [bind] in E; try discriminate.
    injection E as <-. cbn [length]. f_equal. auto.
Qed.

Lemma rc5_event_total b d e dt : rc5_in_range d -> length (r5_spans d) = 8%nat ->
  overflow_checks b = false \/ r5_clock d + 8 < 2 ^ usize_bits b ->
  exists d' s, rc5_event b d e dt = Val (d', s) /\ rc5_in_range d' /\ length (r5_spans d') = 8%nat /\
    r5_clock d' <= r5_clock d + 8.
Proof.
  intros H Hl Hb.
  assert (G : exists d1, match spans_get (r5_spans d) dt with
             | Some ticks =>
                 let* t1 := uadd (overflow_checks b) (usize_bits b) ticks 1 in
                 let* ck := uadd (overflow_checks b) (usize_bits b) (r5_clock d) t1 in
                 Val (mkRc5Dec (r5_state d) (r5_bitbuf d) ck (r5_spans d))
             | None => Val (rc5_reset d)
             end = Val d1 /\ rc5_in_range d1 /\ r5_clock d1 <= r5_clock d + 8).
  { destruct (spans_get (r5_spans d) dt) as [k|] eqn:Ek.
    - apply spans_get_below in Ek. rewrite Hl in Ek. change (N.of_nat 8) with 8 in Ek.
      destruct (uadd_val (overflow_checks b) (usize_bits b) k 1) as (t1 & -> & L1); [destruct Hb; [left; auto|right; lia]|].
      cbn [bind].
      destruct (uadd_val (overflow_checks b) (usize_bits b) (r5_clock d) t1) as (ck & -> & L2); [destruct Hb; [left; auto|right; lia]|].
      cbn [bind]. eexists. split; [reflexivity|]. split; [exact H|]. cbn [r5_clock]. lia.
    - eexists. split; [reflexivity|]. split; [exact I|]. cbn [rc5_reset r5_clock]. lia. }
  destruct G as (d1 & E1 & R1 & L1). unfold rc5_event. rewrite E1. cbn [bind].
  edestruct (rc5_transition_total b (r5_state d1)) as (s' & buf' & ck' & Et & K & Kc); [exact R1|].
  rewrite Et. cbn [bind]. do 2 eexists. split; [reflexivity|]. split; [exact K|]. cbn [r5_spans r5_clock]. split.
  - destruct (spans_get (r5_spans d) dt); [|injection E1 as <-; exact Hl].
    destruct (uadd _ _ n 1); cbn [bind] in E1; try discriminate.
    destruct (uadd _ _ (r5_clock d) a); cbn [bind] in E1; try discriminate. injection E1 as <-. exact Hl.
  - destruct Kc as [-> | ->]; lia.
Qed.

Lemma rc6_event_total b d e dt : rc6_in_range d -> length (r6_spans d) = 8%nat ->
  overflow_checks b = false \/ r6_clock d + 8 < 2 ^ usize_bits b ->
  exists d' s, rc6_event b d e dt = Val (d', s) /\ rc6_in_range d' /\ length (r6_spans d') = 8%nat /\
    r6_clock d' <= r6_clock d + 8.
Proof.
  intros H Hl Hb.
  assert (exists d' s, rc6_event b d e dt = Val (d', s) /\ rc6_in_range d' /\ r6_clock d' <= r6_clock d + 8) as (d' & s & E & R' & L').
  { unfold rc6_event. destruct (spans_get (r6_spans d) dt) as [k|] eqn:Ek.
    - apply spans_get_below in Ek. rewrite Hl in Ek. change (N.of_nat 8) with 8 in Ek.
      destruct (uadd_val (overflow_checks b) (usize_bits b) k 1) as (t1 & -> & L1); [destruct Hb; [left; auto|right; lia]|].
      cbn [bind].
      destruct (uadd_val (overflow_checks b) (usize_bits b) (r6_clock d) t1) as (ck & -> & L2); [destruct Hb; [left; auto|right; lia]|].
      cbn [bind]. edestruct (rc6_transition_total b (mkRc6Dec (r6_state d) (r6_data d) (r6_headerdata d) (r6_toggle d) ck (r6_spans d)))
        as (d2 & -> & R2 & K2); [exact H|]. cbn [bind]. do 2 eexists. split; [reflexivity|]. split; [exact R2|].
      cbn [r6_clock] in K2. destruct K2 as [-> | ->]; lia.
    - cbn [bind]. edestruct (rc6_transition_total b (rc6_reset d)) as (d2 & -> & R2 & K2); [exact I|].
      cbn [bind]. do 2 eexists. split; [reflexivity|]. split; [exact R2|].
      cbn [r6_clock rc6_reset] in K2. destruct K2 as [-> | ->]; lia. }
  exists d', s. split; auto. split; auto. split; auto. rewrite (rc6_event_spans _ _ _ _ _ _ E). exact Hl.
Qed.

(** Runs of a decoder whose clock grows by at most 8 per event. *)
Lemma run_clock {D : decoder} {C} (into : dcmd D -> C) (Q : dst D -> Prop) (clock : dst D -> N) chk M :
  (forall d e dt, Q d -> chk = false \/ clock d + 8 < M ->
     exists d' s, d_event D d e dt = Val (d', s) /\ Q d' /\ clock d' <= clock d + 8) ->
  (forall d, Q d -> Q (d_reset D d) /\ clock (d_reset D d) = 0) ->
  forall h r, Q (rv_dec r) -> chk = false \/ clock (rv_dec r) + 8 * N.of_nat (length h) < M ->
  exists r' os, run_edges into r h = Val (r', os).
Proof.
  intros Hs Hr. induction h as [|[e dt] h IH]; intros r HQ Hc.
  - do 2 eexists. reflexivity.
  - cbn [run_edges length] in *. unfold event_edge.
    destruct (Hs (rv_dec r) e dt HQ) as (d' & s & E & Q' & L); [destruct Hc; [auto|right; lia]|].
    rewrite E. cbn [bind]. destruct (Hr d' Q') as (Qr & Lr).
    assert (G1 : exists r' os, run_edges into (mkRecv d' (rv_prev r)) h = Val (r', os)).
    { apply IH; [exact Q'|]. cbn [rv_dec]. destruct Hc; [auto|right; lia]. }
    assert (G2 : exists r' os, run_edges into (mkRecv (d_reset D d') (rv_prev r)) h = Val (r', os)).
    { apply IH; [exact Qr|]. cbn [rv_dec]. destruct Hc; [auto|right; lia]. }
    destruct G1 as (ra & oa & Ea), G2 as (rb & ob & Eb).
    destruct s; cbn [bind]; rewrite ?Ea, ?Eb; cbn [bind]; do 2 eexists; reflexivity.
Qed.

(** ** No errors *)

Lemma run_no_error {D : decoder} {C} (into : dcmd D -> C) (Q : dst D -> Prop) :
  (forall d e dt d' s, Q d -> d_event D d e dt = Val (d', s) -> Q d' /\ forall x, s <> Error x) ->
  (forall d, Q d -> Q (d_reset D d)) ->
  forall h r r' os, Q (rv_dec r) -> run_edges into r h = Val (r', os) ->
  Forall (fun o => exists c, o = ROk c) os.
Proof.
  intros Hs Hr. induction h as [|[e dt] h IH]; intros r r' os HQ E; cbn [run_edges] in E.
  - injection E as _ <-. constructor.
  - unfold event_edge in E.
    destruct (d_event D (rv_dec r) e dt) as [[d1 s]| |] eqn:E1; cbn [bind] in E; try discriminate.
    destruct (Hs _ _ _ _ _ HQ E1) as (Q1 & Ns).
    assert (G : forall d o, Q d -> (exists c, o = ROk c) ->
      (let* (rb, ob) := run_edges into (mkRecv d (rv_prev r)) h in Val (rb, o :: ob)) = Val (r', os) ->
      Forall (fun o => exists c, o = ROk c) os).
    { intros d o Qd Ho Eo. destruct (run_edges into (mkRecv d (rv_prev r)) h) as [[ra oa]| |] eqn:Ea; cbn [bind] in Eo; try discriminate.
      injection Eo as <- <-. constructor; [exact Ho|]. apply (IH (mkRecv d (rv_prev r)) _ _ Qd Ea). }
    destruct s; cbn [bind] in E.
    + apply (G d1 (ROk None)); eauto.
    + apply (G d1 (ROk None)); eauto.
    + apply (G (d_reset D d1) (ROk (option_map into (d_command D d1)))); eauto.
    + destruct (Ns e0 eq_refl).
Qed.

Definition rc5_sound_state (d : rc5_decoder) : Prop := match r5_state d with R5Err _ => False | _ => True end.
Lemma rc5_transition_no_error b st e t odd buf ck st' buf' ck' :
  match st with R5Err _ => False | _ => True end -> (t = None -> st = R5Idle) ->
  rc5_transition b st e t odd buf ck = Val (st', buf', ck') -> match st' with R5Err _ => False | _ => True end.
Proof.
  unfold rc5_transition, bind. intros H Ht E. destruct t as [t|].
  - clear Ht.
    repeat (match type of E with context [match ?x with _ => _ end] => destruct x eqn:? end; try discriminate);
    injection E as <- <- <-; exact I || contradiction.
  - rewrite Ht in E by reflexivity. destruct e; [destruct (ushl1 _ _ _)|]; try discriminate; injection E as <- <- <-; exact I.
Qed.
Lemma rc5_event_no_error b d e dt d' s : rc5_sound_state d -> rc5_event b d e dt = Val (d', s) ->
  rc5_sound_state d' /\ forall x, s <> Error x.
Proof.
  unfold rc5_event. intros H E.
  assert (G : rc5_sound_state d' /\ s = rc5_to_state (r5_state d')).
  { destruct (spans_get (r5_spans d) dt) as [k|].
    - destruct (uadd _ _ k 1) as [t| |]; cbn [bind] in E; try discriminate.
      destruct (uadd _ _ _ t) as [ck| |]; cbn [bind] in E; try discriminate.
      destruct (rc5_transition _ _ _ _ _ _ _) as [[[st' buf'] ck']| |] eqn:Et; cbn [bind] in E; try discriminate.
      injection E as <- <-. split; auto. eapply rc5_transition_no_error; [exact H| |exact Et]. discriminate.
    - cbn [bind] in E. destruct (rc5_transition _ _ _ _ _ _ _) as [[[st' buf'] ck']| |] eqn:Et; cbn [bind] in E; try discriminate.
      injection E as <- <-. split; auto. eapply rc5_transition_no_error; [| |exact Et]; auto. exact I. }
  destruct G as (G & ->). split; auto. unfold rc5_sound_state in G. destruct (r5_state d'); try discriminate. contradiction.
Qed.

Definition rc6_sound_state (d : rc6_decoder) : Prop := match r6_state d with R6Err _ => False | _ => True end.
Lemma rc6_transition_no_error b d e t odd d' : rc6_sound_state d -> (t = None -> r6_state d = R6Idle) ->
  rc6_transition b d e t odd = Val d' -> rc6_sound_state d'.
Proof.
  unfold rc6_sound_state, rc6_transition, bind. intros H Ht E. destruct t as [t|].
  - clear Ht. destruct (r6_state d) eqn:Ed; try contradiction;
    repeat (match type of E with context [match ?x with _ => _ end] => destruct x eqn:? end; try discriminate);
    injection E as <-; cbn [r6_state]; rewrite ?Ed; try exact I.
    destruct (n =? 0); [injection Heqr0 as <-; exact I|]. destruct (usub _ _ _ _); try discriminate.
    injection Heqr0 as <-. exact I.
  - rewrite Ht in E by reflexivity. destruct e; injection E as <-; exact I.
Qed.
Lemma rc6_event_no_error b d e dt d' s : rc6_sound_state d -> rc6_event b d e dt = Val (d', s) ->
  rc6_sound_state d' /\ forall x, s <> Error x.
Proof.
  unfold rc6_event. intros H E.
  assert (G : rc6_sound_state d' /\ s = rc6_to_state (r6_state d')).
  { destruct (spans_get (r6_spans d) dt) as [k|].
    - destruct (uadd _ _ k 1) as [t| |]; cbn [bind] in E; try discriminate.
      destruct (uadd _ _ _ t) as [ck| |]; cbn [bind] in E; try discriminate.
      destruct (rc6_transition _ _ _ _ _) as [d2| |] eqn:Et; cbn [bind] in E; try discriminate.
      injection E as <- <-. split; auto. eapply rc6_transition_no_error; [ | |exact Et]; [exact H|intros X; discriminate X].
    - cbn [bind] in E. destruct (rc6_transition _ _ _ _ _) as [d2| |] eqn:Et; cbn [bind] in E; try discriminate.
      injection E as <- <-. split; auto. eapply rc6_transition_no_error; [ | |exact Et]; [exact I|reflexivity]. }
  destruct G as (G & ->). split; auto. unfold rc6_sound_state in G. destruct (r6_state d'); try discriminate. contradiction.
Qed.

(** ** Decoders that differ only in what is left over from an earlier frame *)

(** RC6: the toggle bit is left over until the next one is read. *)
Definition rc6_same (d1 d2 : rc6_decoder) : Prop :=
  r6_state d1 = r6_state d2 /\ r6_data d1 = r6_data d2 /\ r6_headerdata d1 = r6_headerdata d2 /\
  r6_clock d1 = r6_clock d2 /\ r6_spans d1 = r6_spans d2 /\
  match r6_state d1 with R6Data _ | R6Done | R6Err _ => r6_toggle d1 = r6_toggle d2 | _ => True end.

Lemma rc6_transition_same b d1 d2 e t odd d1' : rc6_same d1 d2 -> rc6_transition b d1 e t odd = Val d1' ->
  exists d2', rc6_transition b d2 e t odd = Val d2' /\ rc6_same d1' d2'.
Proof.
  destruct d1 as [s da hd tg ck sp], d2 as [s2 da2 hd2 tg2 ck2 sp2]. unfold rc6_same.
  cbn [r6_state r6_data r6_headerdata r6_toggle r6_clock r6_spans].
  intros (<- & <- & <- & <- & <- & Ht). unfold rc6_transition, bind.
  cbn [r6_state r6_data r6_headerdata r6_toggle r6_clock r6_spans]. intros E.
  destruct s; try subst tg2;
  repeat (match type of E with context [match ?x with _ => _ end] => destruct x eqn:? end; try discriminate);
    injection E as <-; eexists; (split; [reflexivity|]); cbn [r6_state r6_data r6_headerdata r6_toggle r6_clock r6_spans];
    repeat split; auto.
  destruct (n =? 0); [injection Heqr0 as <-; exact I|]. destruct (usub _ _ _ _); try discriminate.
  injection Heqr0 as <-. exact I.
Qed.

Lemma rc6_event_same b d1 d2 e dt d1' s : rc6_same d1 d2 -> rc6_event b d1 e dt = Val (d1', s) ->
  exists d2', rc6_event b d2 e dt = Val (d2', s) /\ rc6_same d1' d2'.
Proof.
  intros HS E. assert (HS0 := HS). destruct HS0 as (A1 & A2 & A3 & A4 & A5 & A6). unfold rc6_event in *.
  rewrite A5 in E. destruct (spans_get (r6_spans d2) dt) as [k|].
  - destruct (uadd _ _ k 1) as [t| |]; cbn [bind] in *; try discriminate. rewrite A4 in E.
    destruct (uadd _ _ _ t) as [ck| |]; cbn [bind] in *; try discriminate.
    destruct (rc6_transition b (mkRc6Dec (r6_state d1) _ _ _ _ _) _ _ _) as [x| |] eqn:Et; cbn [bind] in E; try discriminate.
    injection E as <- <-.
    edestruct (rc6_transition_same b) as (x2 & Et2 & HS2);
      [|exact Et|].
    { instantiate (1 := mkRc6Dec (r6_state d2) (r6_data d2) (r6_headerdata d2) (r6_toggle d2) ck (r6_spans d2)).
      unfold rc6_same. cbn [r6_state r6_data r6_headerdata r6_toggle r6_clock r6_spans]. rewrite ?A5. repeat split; auto. }
    cbn [r6_clock] in *. rewrite Et2. cbn [bind]. eexists. split; [|exact HS2]. do 3 f_equal. symmetry. apply HS2.
  - cbn [bind] in *. destruct (rc6_transition b (rc6_reset d1) _ _ _) as [x| |] eqn:Et; cbn [bind] in E; try discriminate.
    injection E as <- <-.
    edestruct (rc6_transition_same b) as (x2 & Et2 & HS2); [|exact Et|].
    { instantiate (1 := rc6_reset d2).
      unfold rc6_same, rc6_reset. cbn [r6_state r6_data r6_headerdata r6_toggle r6_clock r6_spans]. rewrite ?A5. repeat split; auto. }
    cbn [r6_clock rc6_reset] in *. rewrite Et2. cbn [bind]. eexists. split; [|exact HS2]. do 3 f_equal. symmetry. apply HS2.
Qed.

(** NEC: the word is left over until the next header. *)
Definition nec_same (d1 d2 : nec_decoder) : Prop :=
  ns_state d1 = ns_state d2 /\ ns_dt_save d1 = ns_dt_save d2 /\ ns_spans d1 = ns_spans d2 /\
  match ns_state d1 with NReceiving _ | NDone => ns_bitbuf d1 = ns_bitbuf d2 | _ => True end.

Lemma nec_event_same b m d1 d2 e dt d1' s : nec_same d1 d2 -> nec_event b m d1 e dt = Val (d1', s) ->
  exists d2', nec_event b m d2 e dt = Val (d2', s) /\ nec_same d1' d2'.
Proof.
  destruct d1 as [s1 b1 v1 p1], d2 as [s2 b2 v2 p2]. unfold nec_same, nec_event.
  cbn [ns_state ns_bitbuf ns_dt_save ns_spans]. intros (<- & <- & <- & Hb) E. destruct e.
  - destruct (dur_add _ _ _ _) as [t| |]; cbn [bind] in *; try discriminate.
    destruct (match spans_get p1 t with Some _ => _ | None => _ end); destruct s1 as [|i| | |];
      try subst b2; cbn [nec_transition] in *; unfold bind in *;
      repeat (match type of E with context [match ?x with _ => _ end] => destruct x eqn:? end; try discriminate);
      injection E as <- <-; eexists; (split; [reflexivity|]); cbn [ns_state ns_bitbuf ns_dt_save ns_spans]; auto;
      repeat match goal with X : Val _ = Val _ |- _ => injection X; clear X; intros; subst end; auto;
      try match goal with |- _ /\ _ => repeat split; auto; match goal with |- match ?x with _ => _ end => destruct x; auto end end.
  - injection E as <- <-. eexists. split; [reflexivity|]. cbn [ns_state ns_bitbuf ns_dt_save ns_spans]. auto.
Qed.

(** The same outcome, or two repeat reports. *)
Definition nec_alike {V C} (into : nv_cmd V -> C) (o1 o2 : outcome C) : Prop :=
  o1 = o2 \/ exists w1 w2, o1 = ROk (option_map into (nv_unpack V w1 true)) /\ o2 = ROk (option_map into (nv_unpack V w2 true)).

Lemma nec_run_same b m V {C} (into : nv_cmd V -> C) h : forall (r1 r2 r1' : receiver (nec_dec b m V)) os,
  nec_same (rv_dec r1) (rv_dec r2) -> run_edges (D := nec_dec b m V) into r1 h = Val (r1', os) ->
  exists r2' os2, run_edges (D := nec_dec b m V) into r2 h = Val (r2', os2) /\ Forall2 (nec_alike into) os os2.
Proof.
  induction h as [|[e dt] h IH]; intros r1 r2 r1' os HS E; cbn [run_edges] in *.
  - injection E as <- <-. do 2 eexists. split; [reflexivity|constructor].
  - unfold event_edge in E. unfold event_edge at 1. cbn [d_event nec_dec] in *.
    destruct (nec_event b m (rv_dec r1) e dt) as [[d1 s]| |] eqn:E1; cbn [bind] in E; try discriminate.
    destruct (nec_event_same _ _ _ _ _ _ _ _ HS E1) as (d2 & E2 & HS2). rewrite E2. cbn [bind].
    assert (G : forall x y o1 o2, nec_same x y -> nec_alike into o1 o2 ->
      (let* (rb, ob) := run_edges (D := nec_dec b m V) into (mkRecv (D := nec_dec b m V) x (rv_prev r1)) h in Val (rb, o1 :: ob)) = Val (r1', os) ->
      exists r2' os2, (let* (rb, ob) := run_edges (D := nec_dec b m V) into (mkRecv (D := nec_dec b m V) y (rv_prev r2)) h in Val (rb, o2 :: ob)) = Val (r2', os2) /\
        Forall2 (nec_alike into) os os2).
    { intros x y o1 o2 Hxy Ho Eo.
      destruct (run_edges (D := nec_dec b m V) into (mkRecv (D := nec_dec b m V) x (rv_prev r1)) h) as [[ra oa]| |] eqn:Ea; cbn [bind] in Eo; try discriminate.
      injection Eo as <- <-. destruct (IH (mkRecv (D := nec_dec b m V) x (rv_prev r1)) (mkRecv (D := nec_dec b m V) y (rv_prev r2)) _ _ Hxy Ea) as (r2' & os2 & -> & F). cbn [bind].
      do 2 eexists. split; [reflexivity|]. constructor; auto. }
    assert (HR : nec_same (nec_reset d1) (nec_reset d2)).
    { unfold nec_same, nec_reset. cbn [ns_state ns_bitbuf ns_dt_save ns_spans]. repeat split. apply HS2. }
    assert (Es : s = nec_to_state (ns_state d1)).
    { unfold nec_event in E1. destruct e.
      - destruct (dur_add _ _ _ _); cbn [bind] in E1; try discriminate.
        destruct (nec_transition _ _ _ _) as [[? ?]| |]; cbn [bind] in E1; try discriminate.
        injection E1 as <- <-. reflexivity.
      - injection E1 as <- <-. reflexivity. }
    destruct s; cbn [bind d_reset d_command nec_dec] in *.
    + apply (G _ _ _ _ HS2 (or_introl eq_refl) E).
    + apply (G _ _ _ _ HS2 (or_introl eq_refl) E).
    + refine (G _ _ _ _ HR _ E). destruct HS2 as (B1 & _ & _ & B4). unfold nec_command_of. rewrite <- B1.
      destruct (ns_state d1); try discriminate Es.
      * left. rewrite B4. reflexivity.
      * right. eauto.
    + apply (G _ _ _ _ HR (or_introl eq_refl) E).
Qed.

(** ** Receivers and their decoders *)

Lemma reached_step (P : protocol) freq d s e dt d' s' :
  reached P freq d s -> d_event (p_dec P) d e dt = Val (d', s') -> reached P freq d' s'.
Proof.
  intros (d0 & xs & ss & E0 & E1 & _) E. exists d0, (xs ++ [Some (e, dt)]), (ss ++ [s']).
  split; auto. split; [|apply last_snoc]. unfold calls in *. rewrite run_res_app, E1. cbn [bind run_res call].
  rewrite E. reflexivity.
Qed.
Lemma reached_reset (P : protocol) freq d s : reached P freq d s -> reached P freq (d_reset (p_dec P) d) Idle.
Proof.
  intros (d0 & xs & ss & E0 & E1 & _). exists d0, (xs ++ [None]), (ss ++ [Idle]).
  split; auto. split; [|apply last_snoc]. unfold calls in *. rewrite run_res_app, E1. reflexivity.
Qed.

Lemma run_edges_reached (P : protocol) freq {C} (into : dcmd (p_dec P) -> C) h : forall r0 r os,
  receiver_new P freq = Val r0 -> run_edges into r0 h = Val (r, os) -> exists s, reached P freq (rv_dec r) s.
Proof.
  intros r0 r os E0 E.
  assert (G : exists s, reached P freq (rv_dec r0) s).
  { exists Idle. unfold receiver_new in E0. destruct (p_build P freq) as [d0| |] eqn:Eb; try discriminate.
    injection E0 as <-. exists d0, [], []. auto. }
  clear E0. revert r0 r os E G. induction h as [|[e dt] h IH]; intros r0 r os E G; cbn [run_edges] in E.
  - injection E as <- _. exact G.
  - destruct (event_edge into r0 dt e) as [[r1 o]| |] eqn:E1; cbn [bind] in E; try discriminate.
    destruct (run_edges into r1 h) as [[r2 os2]| |] eqn:E2; cbn [bind] in E; try discriminate.
    injection E as <- _. apply (IH _ _ _ E2). unfold event_edge in E1. destruct G as (s0 & G).
    destruct (d_event (p_dec P) (rv_dec r0) e dt) as [[d1 s]| |] eqn:Ed; cbn [bind] in E1; try discriminate.
    pose proof (reached_step _ _ _ _ _ _ _ _ G Ed) as G1.
    destruct s; injection E1 as <- _; cbn [rv_dec]; eauto using reached_reset.
Qed.

(** After a report the decoder has been reset. *)
Lemma report_resets (P : protocol) freq {C} (into : dcmd (p_dec P) -> C) r0 h r os e dt r' o :
  receiver_new P freq = Val r0 -> run_edges into r0 h = Val (r, os) ->
  event_edge into r dt e = Val (r', o) -> o <> ROk None ->
  exists d s, reached P freq d s /\ rv_dec r' = d_reset (p_dec P) d.
Proof.
  intros E0 E1 E2 Ho. destruct (run_edges_reached _ _ into _ _ _ _ E0 E1) as (s0 & G).
  unfold event_edge in E2.
  destruct (d_event (p_dec P) (rv_dec r) e dt) as [[d1 s]| |] eqn:Ed; cbn [bind] in E2; try discriminate.
  pose proof (reached_step _ _ _ _ _ _ _ _ G Ed) as G1.
  destruct s; injection E2 as <- <-; cbn [rv_dec]; try contradiction; eauto.
Qed.

(** A panic of the decoder is one of the receiver. *)
Lemma run_states_panic {D : decoder} {C} (into : dcmd D -> C) h : forall d p,
  run_states D d h = Panic -> run_edges into (mkRecv d p) h = Panic.
Proof.
  unfold run_states. induction h as [|[e dt] h IH]; intros d p E; cbn [run_res run_edges] in *; [discriminate|].
  unfold drive in E. unfold event_edge. cbn [fst snd rv_dec rv_prev] in *.
  destruct (d_event D d e dt) as [[d1 s]| |]; cbn [bind] in *; try discriminate; [|reflexivity].
  assert (G : forall x, match run_res (drive D) x h with Val (d2, ss) => Val (d2, s :: ss) | Panic => Panic | Diverge => Diverge end = Panic ->
    run_res (drive D) x h = Panic).
  { intros x. destruct (run_res (drive D) x h) as [[? ?]| |]; auto; discriminate. }
  unfold bind in *.
  destruct s; (rewrite IH; [reflexivity|]); apply G; exact E.
Qed.

(** ** No panic for short durations *)

Definition half_range (m : mono) (dt : N) : Prop := 2 * dt < 2 ^ dur_bits m.

Lemma dur_add_half b m x y : half_range m x -> half_range m y -> dur_add b m x y = Val (x + y).
Proof.
  unfold half_range. intros Hx Hy. destruct m; cbn [dur_add dur_bits] in *; apply uadd_small; lia.
Qed.
Lemma dur_add_release w m x y : m = MU32 \/ m = MU64 -> exists z, dur_add (release_build w) m x y = Val z.
Proof.
  intros [-> | ->]; cbn [dur_add overflow_checks release_build]; edestruct uadd_val as (c & -> & _); eauto.
Qed.

Lemma half_zero m : half_range m 0.
Proof. unfold half_range. rewrite N.mul_0_r. apply N.neq_0_lt_0, N.pow_nonzero. discriminate. Qed.

Section NoPanic.
  Variables (b : build) (m : mono) (ok : N -> Prop).
  (** Durations whose sums are computed without panic. *)
  Hypothesis (Hadd : forall x y, ok x -> ok y -> exists z, dur_add b m x y = Val z) (Hz : ok 0).

  Lemma nec_never_panics V {C} (into : nv_cmd V -> C) h : forall (r : receiver (nec_dec b m V)),
    nec_in_range (rv_dec r) -> ok (ns_dt_save (rv_dec r)) -> Forall (fun x => ok (snd x)) h ->
    exists r' os, run_edges (D := nec_dec b m V) into r h = Val (r', os).
  Proof.
    intros r H1 H2 Hh.
    destruct (run_total (D := nec_dec b m V) into (fun d => nec_in_range d /\ ok (ns_dt_save d)) (fun x => ok (snd x))) with (h := h) (r := r)
      as (r' & os & E & _); eauto.
    - intros d e dt (R1 & R2) Hok. cbn [snd d_event nec_dec] in *. unfold nec_event. destruct e.
      + destruct (Hadd dt (ns_dt_save d)) as (z & ->); auto. cbn [bind].
        edestruct nec_transition_total as (buf' & s' & -> & K); [exact R1|]. cbn [bind].
        do 2 eexists. split; [reflexivity|]. split; auto.
      + do 2 eexists. split; [reflexivity|]. split; auto.
    - intros d (R1 & R2). split; [exact I|exact Hz].
  Qed.

  Lemma sbp_never_panics {C} (into : sbp_command -> C) h : forall (r : receiver (sbp_dec b m)),
    sbp_in_range (rv_dec r) -> ok (sb_since_rising (rv_dec r)) -> Forall (fun x => ok (snd x)) h ->
    exists r' os, run_edges (D := sbp_dec b m) into r h = Val (r', os).
  Proof.
    intros r H1 H2 Hh.
    destruct (run_total (D := sbp_dec b m) into (fun d => sbp_in_range d /\ ok (sb_since_rising d)) (fun x => ok (snd x))) with (h := h) (r := r)
      as (r' & os & E & _); eauto.
    - intros d e dt (R1 & R2) Hok. cbn [snd d_event sbp_dec] in *. unfold sbp_event. destruct e.
      + destruct (Hadd (sb_since_rising d) dt) as (z & ->); auto. cbn [bind].
        edestruct sbp_transition_total as (s' & a' & c' & -> & K); [exact R1|]. cbn [bind].
        do 2 eexists. split; [reflexivity|]. split; auto.
      + do 2 eexists. split; [reflexivity|]. split; auto.
    - intros d (R1 & R2). split; [exact I|exact Hz].
  Qed.

  Lemma denon_never_panics {C} (into : denon_command -> C) h : forall (r : receiver (denon_dec b m)),
    denon_in_range (rv_dec r) -> ok (dn_dt_save (rv_dec r)) -> Forall (fun x => ok (snd x)) h ->
    exists r' os, run_edges (D := denon_dec b m) into r h = Val (r', os).
  Proof.
    intros r H1 H2 Hh.
    destruct (run_total (D := denon_dec b m) into (fun d => denon_in_range d /\ ok (dn_dt_save d)) (fun x => ok (snd x))) with (h := h) (r := r)
      as (r' & os & E & _); eauto.
    - intros d e dt (R1 & R2) Hok. cbn [snd d_event denon_dec] in *. unfold denon_event. destruct e.
      + destruct (Hadd (dn_dt_save d) dt) as (z & ->); auto. cbn [bind].
        edestruct denon_transition_total as (buf' & s' & -> & K); [exact R1|]. cbn [bind].
        do 2 eexists. split; [reflexivity|]. split; auto.
      + do 2 eexists. split; [reflexivity|]. split; auto.
    - intros d (R1 & R2). split; [exact I|exact Hz].
  Qed.
End NoPanic.
