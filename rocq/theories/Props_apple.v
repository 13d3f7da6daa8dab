(** * Property theorems: encoding Apple commands *)
From Coq Require Import NArith ZArith List Bool Lia ZifyBool ZifyNat ZifyN.
From Verif Require Import Machine Time Decoder Nec Sender Spec Encode_facts Props_encode.
Import ListNotations.
Open Scope N_scope.

(** ** C55: exactly

    [C55_apple_encode_refuted] shows one command whose encoding panics.  None can be encoded: at
    every tick rate at which there is an encoder (C52) it panics for every command and every buffer,
    so that loading an Apple command panics whenever the sender is idle and is ignored otherwise. *)
Theorem C55_apple_exact_partial :
  forall F,
  (F < 477219000 <-> nec_encoder NecApple F <> None) /\
  forall e, nec_encoder NecApple F = Some e ->
    (forall c buf, e_encode e c buf = Panic) /\
    (forall h c, hs_load e h c = match ps_status (hs_buffer h) with StIdle => Panic | _ => Val h end).
Proof.
  intros F. pose proof (C52_nec_encoder_exists F NecStandard 9000 4500 ltac:(left; reflexivity)) as [X1 X2].
  assert (T : nec_encoder NecApple F = None <-> nec_encoder NecStandard F = None).
  { unfold nec_encoder. cbn [nv_timing NecApple NecStandard]. destruct (nec_data NEC_STANDARD_TIMING F); split; auto; discriminate. }
  split; [split; [intros H K; apply X1; tauto|intros H; apply X2; [reflexivity|tauto]]|].
  intros e He. unfold nec_encoder in He. cbn [nv_timing NecApple] in He.
  destruct (nec_data NEC_STANDARD_TIMING F) as [[[[[[hh hl] x] dh] dz] d1]|]; [|discriminate He].
  apply (f_equal (fun o => match o with Some e => e | None => e end)) in He. subst e.
  assert (P : forall c buf, nec_encode NecApple (hh, hl, x, dh, dz, d1) c buf = Panic).
  { intros c [|y1 [|y2 [|y3 buf]]]; reflexivity. }
  split; [exact P|]. intros h c. unfold hs_load. destruct (ps_status (hs_buffer h)); try reflexivity.
  unfold ps_load, pb_load. cbn [ps_reset ps_ptb pb_reset pb_offset pb_buf Nat.leb e_encode e_cmd]. rewrite P. reflexivity.
Qed.
Print Assumptions C55_apple_exact_partial.

(** A concrete case: an idle sender at 38 kHz with a buffer that is large enough. *)
Example C55_exact_example :
  match nec_encoder NecApple 38000 with
  | Some e => ps_status (hs_buffer (hs_new 67)) = StIdle /\ forall c, hs_load e (hs_new 67) c = Panic
  | None => False
  end.
Proof.
  destruct (C55_apple_exact_partial 38000) as [X1 X2].
  destruct (nec_encoder NecApple 38000) as [e|] eqn:E; [|apply X1; reflexivity].
  split; [reflexivity|]. intros c. apply (X2 e eq_refl).
Qed.
