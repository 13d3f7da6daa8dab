(** * Properties C01-C11: command codecs *)
From Coq Require Import NArith ZArith List Bool Lia ZifyBool ZifyNat ZifyN.
From Verif Require Import Machine Spec Bits Decoder Nec Rc5 Rc6 Denon Sbp Remote Codec_facts.
Import ListNotations.
Open Scope N_scope.

(** ** C01 *)
Theorem C01_nec_words :
  forall a c r rep, a < 2 ^ 8 -> c < 2 ^ 8 ->
  exists w, nv_pack NecStandard (mkNec a c r) = Val w /\
    w = bytes4 a (compl8 a) c (compl8 c) /\
    nv_unpack NecStandard w rep = Some (mkNec a c rep).
Proof.
  intros a c r rep Ha Hc. eexists. split; [apply nec_pack_layout; auto|].
  split; [reflexivity|]. apply nec_unpack_layout; auto.
Qed.
Print Assumptions C01_nec_words.

Theorem C01_samsung_words :
  forall a c r rep, a < 2 ^ 8 -> c < 2 ^ 8 ->
  exists w, nv_pack NecSamsung (mkSamsung a c r) = Val w /\
    w = bytes4 a a c (compl8 c) /\
    nv_unpack NecSamsung w rep = Some (mkSamsung a c rep).
Proof.
  intros a c r rep Ha Hc. eexists. split; [apply samsung_pack_layout; auto|].
  split; [reflexivity|]. apply samsung_unpack_layout; auto.
Qed.
Print Assumptions C01_samsung_words.

Theorem C01_nec16_words :
  forall a c r rep, a < 2 ^ 16 -> c < 2 ^ 8 ->
  exists w, nv_pack Nec16Bit (mkNec16 a c r) = Val w /\
    w = bytes4 (a mod 256) (a / 256) c (compl8 c) /\
    nv_unpack Nec16Bit w rep = Some (mkNec16 a c rep).
Proof.
  intros a c r rep Ha Hc. eexists. split; [apply nec16_pack_layout; auto|].
  split; [reflexivity|]. apply nec16_unpack_layout; auto.
Qed.
Print Assumptions C01_nec16_words.

Theorem C01_raw_words :
  forall w rep, exists c, nv_unpack NecRaw w rep = Some c /\ nv_pack NecRaw c = Val w.
Proof. intros w rep. exists (mkNecDebug w). split; reflexivity. Qed.
Print Assumptions C01_raw_words.

Example C01_example :
  nv_pack NecStandard (mkNec 7 44 false) = Val 3542939655 /\
  nv_unpack NecStandard 3542939655 true = Some (mkNec 7 44 true).
Proof. split; vm_compute; reflexivity. Qed.

(** ** C02 *)
Theorem C02_nec_validate :
  forall w, w < 2 ^ 32 ->
  nv_validate NecStandard w = true <->
  exists a c r, a < 2 ^ 8 /\ c < 2 ^ 8 /\ nv_pack NecStandard (mkNec a c r) = Val w.
Proof. exact nec_validate_image. Qed.
Print Assumptions C02_nec_validate.

Theorem C02_samsung_validate :
  forall w, w < 2 ^ 32 ->
  nv_validate NecSamsung w = true <->
  exists a c r, a < 2 ^ 8 /\ c < 2 ^ 8 /\ nv_pack NecSamsung (mkSamsung a c r) = Val w.
Proof. exact samsung_validate_image. Qed.
Print Assumptions C02_samsung_validate.

Theorem C02_nec16_validate :
  forall w, w < 2 ^ 32 ->
  nv_validate Nec16Bit w = true <->
  exists a c r, a < 2 ^ 16 /\ c < 2 ^ 8 /\ nv_pack Nec16Bit (mkNec16 a c r) = Val w.
Proof. exact nec16_validate_image. Qed.
Print Assumptions C02_nec16_validate.

Example C02_example :
  nv_validate NecStandard 3542939655 = true /\ nv_validate NecStandard 3542939654 = false /\
  nv_validate NecSamsung 3542939655 = false.
Proof. repeat split; vm_compute; reflexivity. Qed.

(** ** C03 *)
Theorem C03_apple_unpack :
  forall w rep c, w < 2 ^ 32 ->
  nv_unpack NecApple w rep = Some c <->
  field w 5 11 = 1087 /\ Nat.odd (ones (bits_lsb 32 w)) = true /\
  c = mkApple (field w 0 5) (field w 17 7) (field w 24 8) rep.
Proof. exact apple_unpack_char. Qed.
Print Assumptions C03_apple_unpack.

Theorem C03_apple_injective :
  forall w1 w2 rep c, w1 < 2 ^ 32 -> w2 < 2 ^ 32 ->
  nv_unpack NecApple w1 rep = Some c -> nv_unpack NecApple w2 rep = Some c -> w1 = w2.
Proof. exact apple_unpack_inj. Qed.
Print Assumptions C03_apple_injective.

(** Menu on an Apple remote with device id 0x5a. *)
Example C03_example :
  nv_unpack NecApple 1510115310 false = Some (mkApple 14 1 90 false).
Proof. vm_compute. reflexivity. Qed.

(** ** C04: false, the page is shifted out of its byte. *)
Theorem C04_apple_command_refuted :
  exists w1 w2 c1 c2,
    nv_unpack NecApple w1 false = Some c1 /\ nv_unpack NecApple w2 false = Some c2 /\
    rm_decode Apple2009 c1 = Some A_Right /\ rm_decode Apple2009 c2 = Some A_BatteryLow /\
    ac_address apple_ac c1 = ac_address apple_ac c2 /\
    ac_command apple_ac c1 = ac_command apple_ac c2.
Proof.
  exists 1510442990, 1510377440, (mkApple 14 3 90 false), (mkApple 0 3 90 false).
  repeat split; vm_compute; reflexivity.
Qed.
Print Assumptions C04_apple_command_refuted.

(** What holds: the code identifies the command and the parity of the page. *)
Theorem C04_apple_command_partial :
  forall w1 w2 r1 r2 c1 c2, w1 < 2 ^ 32 -> w2 < 2 ^ 32 ->
  nv_unpack NecApple w1 r1 = Some c1 -> nv_unpack NecApple w2 r2 = Some c2 ->
  ac_command apple_ac c1 = ac_command apple_ac c2 <->
  apl_command c1 = apl_command c2 /\ apl_page c1 mod 2 = apl_page c2 mod 2.
Proof.
  intros w1 w2 r1 r2 c1 c2 H1 H2 E1 E2.
  apply apple_unpack_char in E1; auto. apply apple_unpack_char in E2; auto.
  destruct E1 as (_ & _ & ->). destruct E2 as (_ & _ & ->).
  cbn [apple_ac ac_command apl_command apl_page].
  assert (L : forall p c, c < 128 -> N.lor (as_u8 (N.shiftl p 7)) c = c + 128 * (p mod 2)).
  { intros p c Hc.
    replace (as_u8 (N.shiftl p 7)) with (N.shiftl (p mod 2) 7).
    - rewrite N.lor_comm, lor_add by (pows; lia). pows. lia.
    - unfold as_u8. rewrite !shiftl_mul. pows. lia. }
  assert (F : forall w, field w 17 7 < 128) by (intros w; unfold field; apply N.mod_lt; pows; lia).
  pose proof (F w1). pose proof (F w2). rewrite !L by auto.
  generalize dependent (field w1 17 7). generalize dependent (field w2 17 7). intros. lia.
Qed.
Print Assumptions C04_apple_command_partial.

(** ** C05 *)
Theorem C05_rc5_unpack_pack :
  forall a c s t, a < 2 ^ 5 -> c < 2 ^ 6 -> s < 2 ^ 2 ->
  rc5_pack (mkRc5 a c s t) = c + 2 ^ 6 * a + 2 ^ 11 * (if t then 1 else 0) + 2 ^ 12 * s /\
  rc5_unpack (rc5_pack (mkRc5 a c s t)) = mkRc5 a c s t.
Proof. intros. split; [exact (rc5_pack_layout a c s t H H0 H1)|apply rc5_unpack_pack; auto]. Qed.
Print Assumptions C05_rc5_unpack_pack.

Theorem C05_rc5_pack_unpack : forall w, w < 2 ^ 14 -> rc5_pack (rc5_unpack w) = w.
Proof. exact rc5_pack_unpack. Qed.
Print Assumptions C05_rc5_pack_unpack.

Example C05_example : rc5_pack (mkRc5 20 53 3 true) = 15669 /\
  rc5_unpack 15669 = mkRc5 20 53 3 true.
Proof. split; vm_compute; reflexivity. Qed.

(** ** C06 *)
Theorem C06_rc6_word :
  forall a c t, a < 2 ^ 8 -> c < 2 ^ 8 -> rc6_from_bits (2 ^ 8 * a + c) t = mkRc6 a c t.
Proof.
  intros a c t Ha Hc. rewrite rc6_from_bits_word by (pows; lia). unfold field.
  change (2 ^ 0) with 1. pows. f_equal; lia.
Qed.
Print Assumptions C06_rc6_word.

Theorem C06_rc6_word_inv :
  forall w t, w < 2 ^ 16 ->
  2 ^ 8 * rc6_addr (rc6_from_bits w t) + rc6_cmd (rc6_from_bits w t) = w /\
  rc6_toggle (rc6_from_bits w t) = t.
Proof.
  intros w t H. rewrite rc6_from_bits_word by auto. cbn [rc6_addr rc6_cmd rc6_toggle].
  unfold field. change (2 ^ 0) with 1. pows. split; [lia|reflexivity].
Qed.
Print Assumptions C06_rc6_word_inv.

Example C06_example : rc6_from_bits 1036 true = mkRc6 4 12 true.
Proof. vm_compute. reflexivity. Qed.

(** ** C07 *)
Theorem C07_sbp_valid :
  forall address bits, address < 2 ^ 16 -> bits < 2 ^ 20 ->
  sbp_address (sbp_unpack address bits) = address /\
  sbp_command_ (sbp_unpack address bits) = field bits 4 8 /\
  (sbp_valid (sbp_unpack address bits) = true <-> field bits 12 8 = compl8 (field bits 4 8)).
Proof.
  intros a c Ha Hc. rewrite sbp_unpack_char by auto. cbn. rewrite N.eqb_eq. repeat split; auto.
Qed.
Print Assumptions C07_sbp_valid.

Example C07_example :
  sbp_unpack 32 1032224 = mkSbp 32 2 false /\ sbp_unpack 32 1036320 = mkSbp 32 2 true.
Proof. split; vm_compute; reflexivity. Qed.

(** ** C08 *)
Theorem C08_rc6_create :
  forall addr cmd c,
  ac_create rc6_ac addr cmd = Some c <->
  addr < 2 ^ 8 /\ cmd < 2 ^ 8 /\ ac_address rc6_ac c = addr /\ ac_command rc6_ac c = cmd /\
  ac_is_repeat rc6_ac c = false.
Proof.
  intros addr cmd [a k t]. cbn. unfold try_u8.
  destruct (N.ltb_spec addr (2 ^ 8)); [|split; [discriminate|intros (? & _); lia]].
  destruct (N.ltb_spec cmd (2 ^ 8)); [|split; [discriminate|intros (_ & ? & _); lia]].
  unfold rc6_new. split.
  - intros E. injection E as <- <- <-. auto.
  - intros (_ & _ & -> & -> & ->). reflexivity.
Qed.
Print Assumptions C08_rc6_create.

Theorem C08_sbp_create :
  forall addr cmd,
  (forall c, ac_create sbp_ac addr cmd = Some c ->
     addr < 2 ^ 16 /\ cmd < 2 ^ 8 /\ ac_address sbp_ac c = addr /\ ac_command sbp_ac c = cmd /\
     ac_is_repeat sbp_ac c = false /\ sbp_valid c = true) /\
  (addr < 2 ^ 16 -> cmd < 2 ^ 8 -> exists c, ac_create sbp_ac addr cmd = Some c).
Proof.
  intros addr cmd. cbn. unfold try_u8, try_u16.
  destruct (N.ltb_spec addr (2 ^ 16)); [|split; [discriminate|lia]].
  destruct (N.ltb_spec cmd (2 ^ 8)); [|split; [discriminate|lia]].
  split.
  - intros c E. injection E as <-. cbn. auto 8.
  - eauto.
Qed.
Print Assumptions C08_sbp_create.

Example C08_example :
  ac_create rc6_ac 70 15 = Some (mkRc6 70 15 false) /\ ac_create rc6_ac 256 15 = None /\
  ac_create sbp_ac 65535 255 = Some (mkSbp 65535 255 true) /\ ac_create sbp_ac 1 256 = None.
Proof. repeat split; vm_compute; reflexivity. Qed.

(** ** C09: false for NEC, Samsung and RC5. *)
Theorem C09_create_refuted :
  (exists a k c, ac_create nec_ac a k = Some c /\ (ac_address nec_ac c <> a \/ ac_command nec_ac c <> k)) /\
  (exists a k c, ac_create samsung_ac a k = Some c /\ (ac_address samsung_ac c <> a \/ ac_command samsung_ac c <> k)) /\
  (exists a k c, ac_create rc5_ac a k = Some c /\
     (ac_address rc5_ac (rc5_unpack (rc5_pack c)) <> a \/ ac_command rc5_ac (rc5_unpack (rc5_pack c)) <> k)).
Proof.
  split; [|split].
  - exists 256, 1, (mkNec 0 1 false). split; [reflexivity|left; discriminate].
  - exists 7, 258, (mkSamsung 7 2 false). split; [reflexivity|right; discriminate].
  - exists 32, 1, (mkRc5 32 1 3 false). split; [reflexivity|left; discriminate].
Qed.
Print Assumptions C09_create_refuted.

(** What holds: in-range values always give a command that reports them, also
    after the trip through the transmitted word. *)
Theorem C09_create_partial :
  (forall a k, a < 2 ^ 8 -> k < 2 ^ 8 -> exists c w,
     ac_create nec_ac a k = Some c /\ nec_pack c = Val w /\ nec_unpack w false = Some c /\
     ac_address nec_ac c = a /\ ac_command nec_ac c = k) /\
  (forall a k, a < 2 ^ 8 -> k < 2 ^ 8 -> exists c w,
     ac_create samsung_ac a k = Some c /\ samsung_pack c = Val w /\ samsung_unpack w false = Some c /\
     ac_address samsung_ac c = a /\ ac_command samsung_ac c = k) /\
  (forall a k, a < 2 ^ 5 -> k < 2 ^ 6 -> exists c,
     ac_create rc5_ac a k = Some c /\ rc5_unpack (rc5_pack c) = c /\
     ac_address rc5_ac c = a /\ ac_command rc5_ac c = k).
Proof.
  split; [|split].
  - intros a k Ha Hk. cbn. rewrite !as_u8_lt by auto. do 2 eexists. split; [reflexivity|].
    split; [apply nec_pack_layout; auto|]. split; [apply nec_unpack_layout; auto|]. auto.
  - intros a k Ha Hk. cbn. rewrite !as_u8_lt by auto. do 2 eexists. split; [reflexivity|].
    split; [apply samsung_pack_layout; auto|]. split; [apply samsung_unpack_layout; auto|]. auto.
  - intros a k Ha Hk. cbn. unfold try_u8. pows.
    rewrite (proj2 (N.ltb_lt a 256)), (proj2 (N.ltb_lt k 256)) by lia.
    eexists. split; [reflexivity|]. unfold rc5_new. split; [apply rc5_unpack_pack; auto; lia|]. auto.
Qed.
Print Assumptions C09_create_partial.

(** ** C10 *)

(** The command types convertible to [AnyCommand]. *)
Inductive any_source :=
| FNec (c : nec_command) | FSamsung (c : samsung_command) | FApple (c : apple_command)
| FRc5 (c : rc5_command) | FRc6 (c : rc6_command) | FSbp (c : sbp_command) | FDenon (c : denon_command).
Definition to_any (s : any_source) : any_command :=
  match s with
  | FNec c => any_from nec_ac c
  | FSamsung c => any_from samsung_ac c
  | FApple c => any_from apple_ac c
  | FRc5 c => any_from rc5_ac c
  | FRc6 c => any_from rc6_ac c
  | FSbp c => any_from sbp_ac c
  | FDenon c => denon_any c
  end.

Theorem C10_any_refuted :
  exists s1 s2, s1 <> s2 /\ to_any s1 = to_any s2 /\
    (exists w1 w2, s1 = FRc5 (rc5_unpack w1) /\ s2 = FRc5 (rc5_unpack w2)).
Proof.
  exists (FRc5 (rc5_unpack (2 ^ 13))), (FRc5 (rc5_unpack (2 ^ 13 + 2 ^ 12))).
  split; [intros E; vm_compute in E; discriminate|]. split; [vm_compute; reflexivity|eauto].
Qed.
Print Assumptions C10_any_refuted.

(** What holds: everything is kept except the RC5 start bits, the SBP validity
    flag and part of an Apple command. *)
Theorem C10_any_partial :
  forall s1 s2, to_any s1 = to_any s2 ->
  match s1, s2 with
  | FNec c1, FNec c2 => c1 = c2
  | FSamsung c1, FSamsung c2 => c1 = c2
  | FRc6 c1, FRc6 c2 => c1 = c2
  | FDenon c1, FDenon c2 => c1 = c2
  | FRc5 c1, FRc5 c2 =>
      rc5_addr c1 = rc5_addr c2 /\ rc5_cmd c1 = rc5_cmd c2 /\ rc5_toggle c1 = rc5_toggle c2
  | FSbp c1, FSbp c2 => sbp_address c1 = sbp_address c2 /\ sbp_command_ c1 = sbp_command_ c2
  | FApple c1, FApple c2 => apl_repeat c1 = apl_repeat c2
  | _, _ => False
  end.
Proof.
  intros [[]|[]|[]|[]|[]|[]|[]] [[]|[]|[]|[]|[]|[]|[]] E; cbn in E; try discriminate E;
    unfold any_from in E; cbn in E; injection E; intros; subst; cbn; auto.
Qed.
Print Assumptions C10_any_partial.

Example C10_example :
  to_any (FSamsung (mkSamsung 7 2 false)) = mkAny PNecSamsung 0 7 2 false.
Proof. reflexivity. Qed.

(** ** C11 *)
Theorem C11_protocol_id :
  (forall p, protocol_id_from_u8 (protocol_id_as_u8 p) = p) /\
  (forall p, protocol_id_as_u8 p < 2 ^ 8) /\
  (forall p q, protocol_id_as_u8 p = protocol_id_as_u8 q -> p = q) /\
  (forall u, u < 2 ^ 8 -> (forall p, protocol_id_as_u8 p <> u) -> protocol_id_from_u8 u = PUnknown).
Proof.
  split; [|split; [|split]].
  - intros []; reflexivity.
  - intros []; cbn; lia.
  - intros [] []; intros E; try reflexivity; discriminate E.
  - intros u Hu H.
    pose proof (H PNec). pose proof (H PNec16). pose proof (H PNecSamsung). pose proof (H PNecApple).
    pose proof (H PRc5). pose proof (H PRc6). pose proof (H PSbp). pose proof (H PDenon).
    cbn in *.
    destruct u as [|[[[[]| |]|[[]|[]|]|]|[[[]|[]|]|[[]|[]|]|]|]]; cbn; try reflexivity; try congruence.
Qed.
Print Assumptions C11_protocol_id.

Example C11_example : protocol_id_from_u8 6 = PRc6 /\ protocol_id_from_u8 9 = PUnknown.
Proof. split; reflexivity. Qed.
