(** * Property theorem: pulses of an RC6 frame that are not noticed *)
From Coq Require Import NArith ZArith List Bool Lia ZifyBool ZifyNat ZifyN.
From Verif Require Import Machine Time Decoder Rc6 Receiver Spec Bits Time_facts Window_facts Run_facts Rc5_facts Rc6_facts Encode_facts
  Spec_receiver Spec_rate Rate_facts Spec_sound Biphase_facts Apps_facts Spec_cross Cross_facts Example_facts
  Spec_damage Damage_facts Spec_glitch Glitch_facts Glitch6_facts Damage6_facts Props_damage.
Import ListNotations.
Open Scope N_scope.

(** ** C95 for RC6

    The edge that ends the last mark ([tail]) may be there or not; there is one only if the
    command ends in a zero bit, since a one ends in a space. *)
Theorem C95_rc6 :
  forall b m freq C (into : rc6_command -> C) hist gap w toggle frame tail l' r0 r os,
  timebase m freq -> exact_rate m freq -> 38000 <= freq -> 8 <= usize_bits b ->
  longer freq 2664 12 gap ->
  rc6_edges freq (rc6_leader_full freq) toggle w gap frame ->
  tail = [] \/ (N.testbit w 0 = false /\ exists d, near freq 444 12 d /\ tail = [(false, d)]) ->
  misses_some (frame ++ tail) l' ->
  receiver_new (rc6_protocol b m) freq = Val r0 ->
  run_edges (D := rc6_dec b) into r0 (hist ++ l') = Val (r, os) ->
  commands (skipn (length hist) os) = [].
Proof.
  intros b m freq C into hist gap w toggle frame tail l' r0 r os Hm Hx Hlo Hu Hg (n & noms & lead & acts & En & -> & Hl & HF) Ht [M ML] E0 E.
  apply (run_split b m freq Hm (proj1 Hx) (low20 freq Hlo) Hu into) in E. destruct E as (r1 & o1 & o2 & E1 & E2 & ->).
  pose proof (run_edges_length _ _ _ _ _ E1) as Ln. unfold edge in *. rewrite <- Ln, skipn_app, skipn_all, Nat.sub_diag. cbn [app skipn].
  rewrite (rc6_new_val b m freq Hm (proj1 Hx)) in E0. injection E0 as <-.
  pose proof (rc6_run_spans b into _ _ _ _ E1) as S1.
  set (tl := match tail with [] => [] | _ => [(false, 1)] end : list (bool * N)).
  assert (Htl : tl = [] \/ (tl = [(false, 1)] /\ N.testbit w 0 = false)).
  { unfold tl. destruct Ht as [->|(H0 & d & _ & ->)]; auto. }
  assert (F : Forall2 (natural freq) ((false, 6) :: noms ++ tl) ((false, lead) :: acts ++ tail)).
  { constructor; [split; [reflexivity|]; apply timed_near; [cbn; lia|]; apply near_guaranteed, Hl|].
    apply Forall2_app.
    - pose proof (proj1 (rc6_noms toggle w n noms En)) as B. clear -HF B. induction HF as [|x y xs ys [H1 H2] HF IH]; [constructor|].
      inversion B as [|? ? [B1 _] B2]; subst. constructor; [|auto]. split; [exact H1|]. apply timed_near; [exact B1|]. apply near_guaranteed, H2.
    - unfold tl. destruct Ht as [->|(_ & d & N & ->)]; [constructor|]. constructor; [|constructor]. split; [reflexivity|]. apply timed_near; [cbn; lia|exact N]. }
  destruct (lost_frame b m freq Hm Hx Hlo Hu into _ _ M gap _ eq_refl toggle 0 false _ r1 r o2 S1 Hg (or_introl (conj eq_refl eq_refl))
    (or_introl (conj eq_refl eq_refl)) (good_frame toggle w n noms tl En Htl) F E2) as [K|[_ K]]; [exact K|]. unfold edge in *. exfalso. clear - K ML. cbn [app length] in *. lia.
Qed.
Print Assumptions C95_rc6.

(** A command, and nothing once a pulse of its header, or of its data, is lost. *)
Example C95_example_rc6 :
  let w := 2 ^ 8 * 5 + 36 in
  let ls := level_edges false 0 (rc6_wave true (bits_msb 16 w)) in
  let frame := (true, 700) :: map (fun x : edge => (fst x, 18 * snd x)) (List.tl ls) in
  let tail := [(false, 18)] in
  exact_rate MU32 40000 /\ longer 40000 2664 12 700 /\ rc6_edges 40000 (rc6_leader_full 40000) true w 700 frame /\
  N.testbit w 0 = false /\ near 40000 444 12 18 /\
  misses_some (frame ++ tail) (lose 4 1 (frame ++ tail)) /\ misses_some (frame ++ tail) (lose 12 2 (frame ++ tail)) /\
  option_map commands (outcomes (rc6_protocol (debug_build 32) MU32) 40000 (frame ++ tail)) = Some [mkRc6 5 36 true] /\
  option_map commands (outcomes (rc6_protocol (debug_build 32) MU32) 40000 (lose 4 1 (frame ++ tail))) = Some [] /\
  option_map commands (outcomes (rc6_protocol (debug_build 32) MU32) 40000 (lose 12 2 (frame ++ tail))) = Some [].
Proof.
  split; [apply exact_low; vm_compute; discriminate|]. split; [vm_compute; reflexivity|].
  split; [apply rc6_edges_ok; [apply nearb_ok|]; vm_compute; reflexivity|].
  split; [reflexivity|]. split; [apply nearb_ok; vm_compute; reflexivity|].
  split; [split; [apply lose_misses with (f := true); vm_compute; repeat split|apply PeanoNat.Nat.ltb_lt; vm_compute; reflexivity]|].
  split; [split; [apply lose_misses with (f := true); vm_compute; repeat split|apply PeanoNat.Nat.ltb_lt; vm_compute; reflexivity]|].
  split; [|split]; vm_compute; reflexivity.
Qed.
