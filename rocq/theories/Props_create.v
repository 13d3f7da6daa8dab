(** * Properties C09, C10: exactly which values survive [create] and [AnyCommand] *)
From Coq Require Import NArith ZArith List Bool Lia ZifyBool ZifyNat ZifyN.
From Verif Require Import Machine Spec Bits Time Decoder Nec Denon Sbp Rc5 Rc6 Codec_facts Props_codec.
Import ListNotations.
Open Scope N_scope.
Ltac Zify.zify_post_hook ::= Z.div_mod_to_equations.

(** NEC and Samsung never refuse; what they make reports the values given exactly when both
    fit a byte.  RC5 refuses what does not fit a byte, and what arrives at the other end is
    what was given exactly when the address has 5 bits and the command 6. *)
Theorem C09_create_exact_partial :
  (forall a k, exists c, ac_create nec_ac a k = Some c /\
     (ac_address nec_ac c = a /\ ac_command nec_ac c = k <-> a < 2 ^ 8 /\ k < 2 ^ 8)) /\
  (forall a k, exists c, ac_create samsung_ac a k = Some c /\
     (ac_address samsung_ac c = a /\ ac_command samsung_ac c = k <-> a < 2 ^ 8 /\ k < 2 ^ 8)) /\
  (forall a k, ac_create rc5_ac a k = None <-> 2 ^ 8 <= a \/ 2 ^ 8 <= k) /\
  (forall a k c, ac_create rc5_ac a k = Some c ->
     (ac_address rc5_ac (rc5_unpack (rc5_pack c)) = a /\ ac_command rc5_ac (rc5_unpack (rc5_pack c)) = k <-> a < 2 ^ 5 /\ k < 2 ^ 6)).
Proof.
  assert (B : forall a k, as_u8 a = a /\ as_u8 k = k <-> a < 2 ^ 8 /\ k < 2 ^ 8).
  { intros a k. unfold as_u8. pows. lia. }
  split; [|split; [|split]].
  - intros a k. eexists. split; [reflexivity|]. cbn [nec_ac ac_address ac_command nec_addr nec_cmd]. apply B.
  - intros a k. eexists. split; [reflexivity|]. cbn [samsung_ac ac_address ac_command sam_addr sam_cmd]. apply B.
  - intros a k. cbn [rc5_ac ac_create]. unfold try_u8.
    destruct (a <? 2 ^ 8) eqn:Ea; [destruct (k <? 2 ^ 8) eqn:Ek|]; split; intros H; try discriminate; try reflexivity; pows; lia.
  - intros a k c E. cbn [rc5_ac ac_create] in E. unfold try_u8 in E.
    destruct (a <? 2 ^ 8) eqn:Ea; [|discriminate]. destruct (k <? 2 ^ 8) eqn:Ek; [|discriminate]. injection E as <-.
    split.
    + intros (Ha & Hk). cbn [rc5_ac ac_address ac_command] in Ha, Hk. unfold rc5_unpack in Ha, Hk. cbn [rc5_addr rc5_cmd] in Ha, Hk.
      set (w := rc5_pack _) in *. clearbody w. split.
      * rewrite <- Ha. unfold as_u8, ADDR_MASK, ADDR_SHIFT. change 1984 with (N.shiftl (N.ones 5) 6).
        rewrite N.shiftr_land, N.shiftr_shiftl_l, N.shiftl_0_r, N.land_ones by lia. pows. lia.
      * rewrite <- Hk. unfold as_u8, CMD_MASK. change 63 with (N.ones 6). rewrite N.land_ones. pows. lia.
    + intros (Ha & Hk). unfold rc5_new. rewrite rc5_unpack_pack by (auto; lia). cbn. auto.
Qed.
Print Assumptions C09_create_exact_partial.

Example C09_example :
  ac_create nec_ac 300 5 = Some (mkNec 44 5 false) /\
  ac_create samsung_ac 7 255 = Some (mkSamsung 7 255 false) /\
  ac_create rc5_ac 20 256 = None /\
  ac_create rc5_ac 20 53 = Some (mkRc5 20 53 3 false) /\ rc5_unpack (rc5_pack (mkRc5 20 53 3 false)) = mkRc5 20 53 3 false /\
  ac_create rc5_ac 33 64 = Some (mkRc5 33 64 3 false) /\ rc5_unpack (rc5_pack (mkRc5 33 64 3 false)) = mkRc5 1 0 3 true.
Proof. repeat split; vm_compute; reflexivity. Qed.

(** Beside C04_apple_command_partial: pages 14 and 0 give the same code, pages 14 and 1 do not. *)
Example C04_example :
  exists c1 c2 c3, nv_unpack NecApple 1510442990 false = Some c1 /\ nv_unpack NecApple 1510377440 false = Some c2 /\
    nv_unpack NecApple 1510442977 true = Some c3 /\
    ac_command apple_ac c1 = ac_command apple_ac c2 /\ ac_command apple_ac c1 <> ac_command apple_ac c3.
Proof.
  exists (mkApple 14 3 90 false), (mkApple 0 3 90 false), (mkApple 1 3 90 true).
  split; [|split; [|split; [|split]]]; vm_compute; (reflexivity || discriminate).
Qed.

(** The values of commands that exist: the command of an Apple frame has seven bits. *)
Definition any_valid (s : any_source) : Prop := match s with FApple c => apl_command c < 2 ^ 7 | _ => True end.

(** Two commands become the same [AnyCommand] exactly when they are of the same protocol and
    agree in these parts. *)
Theorem C10_any_exact_partial :
  forall s1 s2, any_valid s1 -> any_valid s2 ->
  to_any s1 = to_any s2 <->
  match s1, s2 with
  | FNec c1, FNec c2 => c1 = c2
  | FSamsung c1, FSamsung c2 => c1 = c2
  | FRc6 c1, FRc6 c2 => c1 = c2
  | FDenon c1, FDenon c2 => c1 = c2
  | FRc5 c1, FRc5 c2 =>
      rc5_addr c1 = rc5_addr c2 /\ rc5_cmd c1 = rc5_cmd c2 /\ rc5_toggle c1 = rc5_toggle c2
  | FSbp c1, FSbp c2 => sbp_address c1 = sbp_address c2 /\ sbp_command_ c1 = sbp_command_ c2
  | FApple c1, FApple c2 =>
      apl_command c1 = apl_command c2 /\ apl_page c1 mod 2 = apl_page c2 mod 2 /\ apl_repeat c1 = apl_repeat c2
  | _, _ => False
  end.
Proof.
  assert (L : forall p c, c < 2 ^ 7 -> N.lor (as_u8 (N.shiftl p 7)) c = c + 128 * (p mod 2)).
  { intros p c Hc. replace (as_u8 (N.shiftl p 7)) with (N.shiftl (p mod 2) 7).
    - rewrite N.lor_comm, lor_add by (pows; lia). pows. lia.
    - unfold as_u8. rewrite !shiftl_mul. pows. lia. }
  intros s1 s2 V1 V2. split.
  - intros E. pose proof (C10_any_partial s1 s2 E) as P.
    destruct s1 as [c1|c1|c1|c1|c1|c1|c1], s2 as [c2|c2|c2|c2|c2|c2|c2]; auto.
    cbn [to_any any_valid] in *. unfold any_from in E. cbn [apple_ac ac_id ac_address ac_command ac_is_repeat] in E.
    injection E as E Er. rewrite !L in E by assumption. rewrite Er. pows. split; [|split]; [lia|lia|reflexivity].
  - destruct s1 as [c1|c1|c1|c1|c1|c1|c1], s2 as [c2|c2|c2|c2|c2|c2|c2]; try contradiction; intros P; try (subst; reflexivity);
      cbn [to_any any_valid] in *; unfold any_from.
    + cbn [apple_ac ac_id ac_address ac_command ac_is_repeat]. rewrite !L by assumption. destruct P as (-> & -> & ->). reflexivity.
    + cbn. destruct P as (-> & -> & ->). reflexivity.
    + cbn. destruct P as (-> & ->). reflexivity.
Qed.
Print Assumptions C10_any_exact_partial.

Example C10_exact_example :
  to_any (FApple (mkApple 14 3 90 false)) = to_any (FApple (mkApple 0 3 17 false)) /\
  to_any (FSbp (mkSbp 7 2 true)) = to_any (FSbp (mkSbp 7 2 false)) /\
  to_any (FApple (mkApple 14 3 90 false)) <> to_any (FApple (mkApple 1 3 90 false)).
Proof. split; [|split]; vm_compute; [reflexivity|reflexivity|discriminate]. Qed.
