(** * Property C59: what a sender with a larger buffer shows after the frame *)
From Coq Require Import NArith ZArith List Bool Lia ZifyBool ZifyNat ZifyN.
From Verif Require Import Machine Spec Spec_sender Nec Rc5 Rc6 Sender Encode_facts Props_encode Sender_facts Props_sender.
Import ListNotations.
Open Scope N_scope.

(** [n] levels that change at every tick. *)
Fixpoint toggling (on : bool) (n : nat) : list bool :=
  match n with O => [] | S n' => on :: toggling (negb on) n' end.

Lemma held_nonempty on es : held on es <> [].
Proof. destruct es as [|e es]; cbn [held]; [discriminate|]. destruct (N.to_nat (N.max 1 e)) eqn:E; [lia|]. discriminate. Qed.

Lemma held_app es : forall on tl, held on (es ++ tl) = removelast (held on es) ++ held (if Nat.even (length es) then on else negb on) tl.
Proof.
  induction es as [|e es IH]; intros on tl; cbn [app length held]; [reflexivity|].
  rewrite IH, removelast_app by apply held_nonempty. rewrite <- app_assoc. do 2 f_equal.
  rewrite Nat.even_succ, <- Nat.negb_even. destruct (Nat.even (length es)); cbn [negb]; [|rewrite negb_involutive]; reflexivity.
Qed.

Lemma pin_wave_app vs tl : vs <> [] ->
  pin_wave (vs ++ tl) = removelast (pin_wave vs) ++ held (Nat.odd (length vs)) tl.
Proof.
  destruct vs as [|e vs]; [congruence|]. intros _. cbn [app pin_wave length].
  rewrite held_app, removelast_app by apply held_nonempty. rewrite <- app_assoc. do 2 f_equal.
  rewrite Nat.odd_succ. destruct (Nat.even (length vs)); reflexivity.
Qed.

Lemma held_zeros n : forall on, held on (repeat 0 n) = toggling on (S n).
Proof. induction n as [|n IH]; intros on; [reflexivity|]. cbn [repeat held]. rewrite IH. reflexivity. Qed.

(** For any idle sender and any encoder that writes the frame [vs] to the front of the buffer
    (those of the crate do, C52-C54): the pin shows the frame, and then, instead of staying
    off, what the rest of the buffer holds as further marks and spaces, each at least one tick. *)
Theorem C59_tail_partial :
  forall e h c vs, idle h -> e_encode e c (contents h) = written vs (contents h) ->
  vs <> [] -> (length vs <= length (contents h))%nat ->
  Forall (fun x => x < 2 ^ 32) vs -> Forall (fun x => x < 2 ^ 32) (contents h) ->
  exists h', hs_load e h c = Val h' /\
    forall k, snd (hs_ticks k h') =
      firstn k (removelast (pin_wave vs) ++ held (Nat.odd (length vs)) (skipn (length vs) (contents h)) ++ repeat false k).
Proof.
  intros e h c vs Hi E Hv L Hb Ho. unfold written in E. rewrite (proj2 (Nat.leb_le _ _)) in E by exact L.
  destruct (C56_waveform e h c _ _ Hi E) as (h' & El & Ht).
  { apply Forall_app. split; [exact Hb|]. rewrite <- (firstn_skipn (length vs)) in Ho. apply Forall_app in Ho. apply Ho. }
  exists h'. split; [exact El|]. intros k. rewrite Ht, pin_wave_app, app_assoc by exact Hv. reflexivity.
Qed.
Print Assumptions C59_tail_partial.

(** The first command of a new sender: after the frame the pin changes at every tick, once
    for every entry of the buffer that the frame does not use. *)
Theorem C59_first_partial :
  forall e S c vs, e_encode e c (repeat 0 S) = written vs (repeat 0 S) -> vs <> [] -> (length vs <= S)%nat ->
  Forall (fun x => x < 2 ^ 32) vs ->
  exists h', hs_load e (hs_new S) c = Val h' /\
    forall k, snd (hs_ticks k h') =
      firstn k (removelast (pin_wave vs) ++ toggling (Nat.odd (length vs)) (S - length vs + 1) ++ repeat false k).
Proof.
  intros e S c vs E Hv L Hb.
  destruct (C59_tail_partial e (hs_new S) c vs eq_refl E Hv) as (h' & El & Ht); auto.
  - cbn. rewrite repeat_length. exact L.
  - cbn. apply Forall_forall. intros x Hx. apply repeat_spec in Hx. subst x. reflexivity.
  - exists h'. split; [exact El|]. intros k. rewrite Ht. do 2 f_equal. f_equal.
    change (contents (hs_new S)) with (repeat 0 S).
    assert (Es : skipn (length vs) (repeat 0 S) = repeat 0 (S - length vs)).
    { clear. generalize (length vs). intros n. revert S. induction n as [|n IH]; intros [|S]; cbn; auto. }
    rewrite Es, held_zeros. f_equal. lia.
Qed.
Print Assumptions C59_first_partial.

(** NEC at 20 kHz in a buffer of 70 entries: the frame, its last mark of one tick and then
    off, on, off. *)
Example C59_tail_example :
  exists enc h', nec_encoder NecStandard 20000 = Some (mkEncoder nec_command enc) /\
    let e := mkEncoder nec_command enc in
    hs_load e (hs_new 70) (mkNec 7 9 false) = Val h' /\
    let ls := snd (hs_ticks 1400 h') in
    let n := (length (pin_wave (nec_buffer (khz_ticks 20000) 9000 4500 (7 + 2 ^ 8 * 248 + 2 ^ 16 * 9 + 2 ^ 24 * 246))) - 1)%nat in
    firstn 7 (skipn (n - 1) ls) = [false; true; false; true; false; false; false].
Proof. do 2 eexists. split; [reflexivity|]. cbv zeta. split; [vm_compute; reflexivity|]. vm_compute. reflexivity. Qed.
