(** * C61-C65: remote controls *)
From Coq Require Import NArith ZArith List Bool Lia String.
From Verif Require Import Machine Spec Spec_receiver Spec_state Bits Time Decoder Nec Rc5 Sbp Receiver Sender Remote
  Time_facts Example_facts Nec_facts Codec_facts Props_codec Encode_facts Props_encode Sender_facts Props_sender.
Import ListNotations.
Open Scope N_scope.
Open Scope list_scope.

(** ** C61 *)

Lemma find_code (buttons : list (N * action)) code a :
  NoDup (map fst buttons) -> In (code, a) buttons ->
  find (fun cb => fst cb =? code) buttons = Some (code, a).
Proof.
  induction buttons as [|[c0 a0] r IH]; intros Hn Hi; [destruct Hi|]. cbn [map fst] in Hn. inversion Hn as [|? ? H1 H2]; subst.
  cbn [find fst]. destruct (N.eqb_spec c0 code) as [->|Hne].
  - destruct Hi as [E|Hi]; [congruence|]. destruct H1. apply in_map_iff. exists (code, a). auto.
  - destruct Hi as [E|Hi]; [congruence|]. auto.
Qed.

Lemma find_action (buttons : list (N * action)) a :
  match find (fun cb => action_eqb (snd cb) a) buttons with
  | Some (code, a') => a' = a /\ In (code, a) buttons
  | None => ~ In a (map snd buttons)
  end.
Proof.
  induction buttons as [|[c0 a0] r IH]; cbn [find map snd].
  - intros [].
  - unfold action_eqb at 1. destruct (action_eq_dec a0 a) as [->|Hne].
    + split; [reflexivity|left; reflexivity].
    + destruct (find _ r) as [[code a']|].
      * destruct IH as (-> & IH). split; [reflexivity|right; exact IH].
      * intros [E|E]; auto.
Qed.

(** For any remote model with the default [decode] and [encode], whatever its command type,
    address and table: if no code is listed twice and commands for the listed codes can be
    created and read back, then exactly the listed actions can be encoded, and decoding
    gives them back. *)
Theorem C61_any_model :
  forall C (ac : address_command C) p address buttons,
  NoDup (map fst buttons) ->
  (forall code a, In (code, a) buttons ->
     exists c, ac_create ac address code = Some c /\ ac_address ac c = address /\ ac_command ac c = code) ->
  let R := default_remote ac p address buttons in
  forall a, (In a (map snd buttons) <-> rm_encode R a <> None) /\
            (forall c, rm_encode R a = Some c -> rm_decode R c = Some a).
Proof.
  intros C ac p address buttons Hn Hc R a. unfold R, default_remote, default_encode, default_decode. cbn [rm_encode rm_decode].
  pose proof (find_action buttons a) as Fa. destruct (find (fun cb => action_eqb (snd cb) a) buttons) as [[code a']|].
  - destruct Fa as (-> & Hi). destruct (Hc code a Hi) as (c & Ec & Ea & Em). rewrite Ec. split.
    + split; [discriminate|]. intros _. apply in_map_iff. exists (code, a). auto.
    + intros c' E. injection E as <-. rewrite Ea, Em, N.eqb_refl. cbn [negb]. rewrite (find_code buttons code a Hn Hi). reflexivity.
  - split; [split; [contradiction|]|discriminate]. intros H. destruct H. reflexivity.
Qed.
Print Assumptions C61_any_model.

Definition table_remotes : list remote := [SamsungTv; SpecialForMp3; CdPlayer; SamsungBluRayPlayer].

Fixpoint nodupb {A} (eqb : A -> A -> bool) (l : list A) : bool :=
  match l with [] => true | x :: r => negb (existsb (eqb x) r) && nodupb eqb r end.
Lemma nodupb_spec {A} (eqb : A -> A -> bool) (Hr : forall x, eqb x x = true) l : nodupb eqb l = true -> NoDup l.
Proof.
  induction l as [|x l IH]; intros H; [constructor|]. cbn [nodupb] in H. apply andb_true_iff in H. destruct H as [H1 H2].
  constructor; [|auto]. intros Hi. apply negb_true_iff in H1.
  assert (existsb (eqb x) l = true) by (apply existsb_exists; exists x; auto). congruence.
Qed.
Lemma action_eqb_refl a : action_eqb a a = true.
Proof. unfold action_eqb. destruct (action_eq_dec a a); auto. Qed.

(** The four models of the crate: no code and no action is listed twice, exactly the listed
    actions can be encoded, and decoding gives them back. *)
Theorem C61_remotes :
  forall R, In R table_remotes ->
  NoDup (map fst (rm_buttons R)) /\ NoDup (map snd (rm_buttons R)) /\
  forall a, (In a (map snd (rm_buttons R)) <-> rm_encode R a <> None) /\
            (forall c, rm_encode R a = Some c ->
               rm_decode R c = Some a /\ ac_address (rm_ac R) c = rm_address R /\
               In (ac_command (rm_ac R) c, a) (rm_buttons R)).
Proof.
  intros R HR.
  assert (G : forall C (ac : address_command C) p address buttons, R = default_remote ac p address buttons ->
    nodupb N.eqb (map fst buttons) = true -> nodupb action_eqb (map snd buttons) = true ->
    forallb (fun cb => match ac_create ac address (fst cb) with
                       | Some c => (ac_address ac c =? address) && (ac_command ac c =? fst cb)
                       | None => false end) buttons = true ->
    NoDup (map fst (rm_buttons R)) /\ NoDup (map snd (rm_buttons R)) /\
    forall a, (In a (map snd (rm_buttons R)) <-> rm_encode R a <> None) /\
      (forall c, rm_encode R a = Some c -> rm_decode R c = Some a /\ ac_address (rm_ac R) c = rm_address R /\
               In (ac_command (rm_ac R) c, a) (rm_buttons R))).
  { intros C ac p address buttons -> N1 N2 N3. apply (nodupb_spec _ N.eqb_refl) in N1. apply (nodupb_spec _ action_eqb_refl) in N2.
    split; [exact N1|]. split; [exact N2|].
    assert (Hc : forall code a, In (code, a) buttons ->
       exists c, ac_create ac address code = Some c /\ ac_address ac c = address /\ ac_command ac c = code).
    { intros code a Hi. rewrite forallb_forall in N3. specialize (N3 _ Hi). cbn [fst] in N3.
      destruct (ac_create ac address code) as [c|]; [|discriminate]. exists c. apply andb_true_iff in N3.
      destruct N3 as [E1 E2]. apply N.eqb_eq in E1, E2. auto. }
    intros a. destruct (C61_any_model C ac p address buttons N1 Hc a) as (H1 & H2). split; [exact H1|].
    intros c Ec. split; [apply H2; exact Ec|]. unfold default_remote, default_encode in *. cbn [rm_encode rm_ac rm_address rm_buttons] in *.
    pose proof (find_action buttons a) as Fa. destruct (find (fun cb => action_eqb (snd cb) a) buttons) as [[code a']|]; [|discriminate].
    destruct Fa as (_ & Hi). destruct (Hc code a Hi) as (c' & E1 & E2 & E3). rewrite E1 in Ec. injection Ec as <-.
    split; [exact E2|]. change (In (ac_command ac c', a) buttons). rewrite E3. exact Hi. }
  unfold table_remotes in HR. cbn [In] in HR. destruct HR as [<- |[<- |[<- |[<- |[]]]]]; (eapply G; [reflexivity|vm_compute; reflexivity..]).
Qed.
Print Assumptions C61_remotes.

Example C61_example :
  rm_encode SamsungTv A_Teletext = Some (mkSamsung 7 44 false) /\ rm_decode SamsungTv (mkSamsung 7 44 true) = Some A_Teletext /\
  rm_encode CdPlayer A_Play = Some (mkRc5 20 53 3 false) /\ rm_encode CdPlayer A_Teletext = None /\
  (List.length (rm_buttons SamsungTv), List.length (rm_buttons CdPlayer)) = (41%nat, 28%nat).
Proof. repeat split. Qed.

(** ** C62 *)

(** For any model with the default [decode]. *)
Theorem C62_any_model :
  forall C (ac : address_command C) p address buttons c a, NoDup (map fst buttons) ->
  rm_decode (default_remote ac p address buttons) c = Some a <->
  (ac_address ac c = address /\ In (ac_command ac c, a) buttons).
Proof.
  intros C ac p address buttons c a Hn. unfold default_remote, default_decode. cbn [rm_decode].
  destruct (N.eqb_spec address (ac_address ac c)) as [E|E]; cbn [negb].
  - split.
    + intros H. split; [auto|]. destruct (find _ buttons) as [[code a']|] eqn:F; [|discriminate]. injection H as <-.
      apply find_some in F. destruct F as (Hi & Hf). cbn [fst] in Hf. apply N.eqb_eq in Hf. subst code. exact Hi.
    + intros (_ & Hi). rewrite (find_code buttons _ a Hn Hi). reflexivity.
  - split; [discriminate|]. intros (H & _). congruence.
Qed.
Print Assumptions C62_any_model.

Theorem C62_remotes :
  forall R, In R table_remotes -> forall c a,
  rm_decode R c = Some a <-> (ac_address (rm_ac R) c = rm_address R /\ In (ac_command (rm_ac R) c, a) (rm_buttons R)).
Proof.
  intros R HR c a. destruct (C61_remotes R HR) as (N1 & _).
  unfold table_remotes in HR. cbn [In] in HR. destruct HR as [<- |[<- |[<- |[<- |[]]]]]; apply C62_any_model; exact N1.
Qed.
Print Assumptions C62_remotes.

(** [Apple2009] has its own table of page and code; the device id is not looked at. *)
Theorem C62_apple :
  forall c a, rm_decode Apple2009 c = Some a <-> In (apl_page c, apl_command c, a) apple_buttons.
Proof.
  intros [page code dev rep] a. unfold Apple2009, apple_decode. cbn [rm_decode apl_page apl_command].
  assert (G : forall l, NoDup (map fst l) ->
     option_map snd (find (fun pca : N * N * action => (fst (fst pca) =? page) && (snd (fst pca) =? code)) l) = Some a <-> In (page, code, a) l).
  { induction l as [|[[p0 c0] a0] r IH]; intros Hn; cbn [find fst snd option_map In]; [split; [discriminate|intros []]|].
    cbn [map fst] in Hn. inversion Hn as [|? ? H1 H2]; subst.
    destruct ((p0 =? page) && (c0 =? code)) eqn:E.
    - apply andb_true_iff in E. destruct E as [E1 E2]. apply N.eqb_eq in E1, E2. subst p0 c0. cbn [option_map snd]. split.
      + intros X. left. congruence.
      + intros [X|X]; [congruence|]. destruct H1. apply in_map_iff. exists (page, code, a). auto.
    - rewrite (IH H2). split; [auto|]. intros [X|X]; [|exact X]. injection X as -> -> ->. rewrite !N.eqb_refl in E. discriminate. }
  apply G. apply (nodupb_spec (fun x y : N * N => (fst x =? fst y) && (snd x =? snd y))); [|reflexivity].
  intros x. rewrite !N.eqb_refl. reflexivity.
Qed.
Print Assumptions C62_apple.

(** A received [Button] carries the command and its repeat flag, for every model. *)
Theorem C62_button :
  forall R c a, btn_cmd (button_from R c) = c /\ button_is_repeat (button_from R c) = ac_is_repeat (rm_ac R) c /\
  (btn_action (button_from R c) = Some a <-> rm_decode R c = Some a).
Proof. intros R c a. split; [reflexivity|]. split; reflexivity. Qed.
Print Assumptions C62_button.

Example C62_example :
  rm_decode SamsungTv (mkSamsung 8 44 false) = None /\ rm_decode SamsungTv (mkSamsung 7 99 false) = None /\
  rm_decode SamsungBluRayPlayer (mkSbp 32 2 true) = Some A_One /\ rm_decode Apple2009 (mkApple 14 5 77 false) = Some A_Up.
Proof. repeat split. Qed.

(** ** C63: refuted *)

(** The menu button is decoded, but no action at all can be encoded. *)
Theorem C63_apple_refuted :
  exists c a, rm_decode Apple2009 c = Some a /\ rm_encode Apple2009 a = None.
Proof. exists (mkApple 14 1 35 false), A_Menu. split; reflexivity. Qed.
Print Assumptions C63_apple_refuted.
Theorem C63_apple_never_encodes :
  forall a, rm_encode Apple2009 a = None.
Proof. intros a. reflexivity. Qed.
Print Assumptions C63_apple_never_encodes.

(** ** C64 *)

Theorem C64_names_distinct :
  forall a b, to_str a = to_str b -> a = b.
Proof.
  assert (G : forall a, find (fun x => String.eqb (to_str x) (to_str a)) all_actions = Some a) by (intros []; reflexivity).
  intros a b E. pose proof (G a) as Ga. pose proof (G b) as Gb. rewrite E in Ga. congruence.
Qed.
Print Assumptions C64_names_distinct.
Example C64_example : to_str A_Play_Pause = "play_pause"%string /\ to_str A_Play_Pause2 = "play_pause2"%string.
Proof. split; reflexivity. Qed.

(** ** C65 *)

(** What a received [Button] tells. *)
Definition as_action {R} (x : button R) : option action * bool := (btn_action x, button_is_repeat x).

(** Writing [c] with [enc] into a buffer with room for [room] entries and reading that as
    edges gives exactly one [Button], with the last edge; its action is [a], and it is no repeat. *)
Definition button_arrives (R : remote) (P : protocol) (F : N) (into : dcmd (p_dec P) -> button R)
    (enc : list N -> res (list N * nat)) (room : nat) (a : action) : Prop :=
  forall buf, (room <= List.length buf)%nat ->
  exists buf' n os i x, enc buf = Val (buf', n) /\
    outcomes_of P F into (alternating true (firstn n buf')) = Val os /\
    os = repeat (ROk None) i ++ [ROk (Some x)] /\ as_action x = (Some a, false).

(** Through the pin of a fresh sender of any size from [room] on, polled at each tick. *)
Definition button_on_air (R : remote) (P : protocol) (F : N) (into : dcmd (p_dec P) -> button R)
    (e : encoder) (c : e_cmd e) (room : nat) (a : action) : Prop :=
  forall size, (room <= size)%nat ->
  exists h' n, hs_load e (hs_new size) c = Val h' /\
  forall k, (n <= k)%nat ->
  exists p0 os x, poll_new P F = Val p0 /\
     outs (run_polls into p0 (snd (hs_ticks k h'))) = Val os /\ commands os = [x] /\ as_action x = (Some a, false).

Lemma fresh_zero size n : Forall (fun e => e <= 1) (skipn n (contents (hs_new size))).
Proof.
  apply Forall_forall. intros x Hi. change (contents (hs_new size)) with (repeat 0 size) in Hi.
  assert (Hi' : In x (repeat 0 size)) by (rewrite <- (firstn_skipn n (repeat 0 size)); apply in_or_app; right; exact Hi).
  apply repeat_spec in Hi'. subst x. discriminate.
Qed.
Lemma fresh_size size : List.length (contents (hs_new size)) = size.
Proof. apply repeat_length. Qed.

Lemma button_on_air_intro (R : remote) P F (into : dcmd (p_dec P) -> button R) e c got room a :
  (forall size, (room <= size)%nat -> on_air P F e (hs_new size) c got) ->
  as_action (into got) = (Some a, false) -> button_on_air R P F into e c room a.
Proof.
  intros H Ha size Hs. destruct (H size Hs _ into) as (h' & n & El & Hk). exists h', n. split; [exact El|].
  intros k Hkn. destruct (Hk k Hkn) as (p0 & os & E1 & E2 & E3 & E4 & _). exists p0, os, (into got). auto.
Qed.

(** Every button of the table. *)
Lemma samsungtv_cmd a : In a (map snd (rm_buttons SamsungTv)) ->
  exists code, rm_encode SamsungTv a = Some (mkSamsung 7 code false) /\ code < 2 ^ 8 /\
    as_action (button_from SamsungTv (mkSamsung 7 code false)) = (Some a, false).
Proof.
  intros Ha. destruct (C61_remotes SamsungTv ltac:(left; reflexivity)) as (_ & _ & G). destruct (G a) as (G1 & G2).
  destruct (rm_encode SamsungTv a) as [c|] eqn:Ec; [|apply G1 in Ha; congruence].
  destruct (G2 c eq_refl) as (Ed & _).
  unfold SamsungTv, default_remote, default_encode, samsung_ac in Ec. cbn [rm_encode ac_create] in Ec.
  destruct (find _ samsungtv_buttons) as [[code x]|]; [|discriminate]. injection Ec as <-.
  exists (as_u8 code). split; [reflexivity|]. split; [unfold as_u8; apply N.mod_lt; discriminate|].
  change (rm_decode SamsungTv (mkSamsung 7 (as_u8 code) false) = Some a) in Ed.
  unfold as_action, button_from, button_is_repeat. cbn [btn_action btn_cmd]. rewrite Ed. reflexivity.
Qed.
Lemma mp3_cmd a : In a (map snd (rm_buttons SpecialForMp3)) ->
  exists code, rm_encode SpecialForMp3 a = Some (mkNec 0 code false) /\ code < 2 ^ 8 /\
    as_action (button_from SpecialForMp3 (mkNec 0 code false)) = (Some a, false).
Proof.
  intros Ha. destruct (C61_remotes SpecialForMp3 ltac:(right; left; reflexivity)) as (_ & _ & G). destruct (G a) as (G1 & G2).
  destruct (rm_encode SpecialForMp3 a) as [c|] eqn:Ec; [|apply G1 in Ha; congruence].
  destruct (G2 c eq_refl) as (Ed & _).
  unfold SpecialForMp3, default_remote, default_encode, nec_ac in Ec. cbn [rm_encode ac_create] in Ec.
  destruct (find _ mp3_buttons) as [[code x]|]; [|discriminate]. injection Ec as <-.
  exists (as_u8 code). split; [reflexivity|]. split; [unfold as_u8; apply N.mod_lt; discriminate|].
  change (rm_decode SpecialForMp3 (mkNec 0 (as_u8 code) false) = Some a) in Ed.
  unfold as_action, button_from, button_is_repeat. cbn [btn_action btn_cmd]. rewrite Ed. reflexivity.
Qed.
Lemma cdplayer_cmd a : In a (map snd (rm_buttons CdPlayer)) ->
  exists code, rm_encode CdPlayer a = Some (mkRc5 20 code 3 false) /\ code < 2 ^ 6 /\
    as_action (button_from CdPlayer (mkRc5 20 code 3 false)) = (Some a, false).
Proof.
  intros Ha. destruct (C61_remotes CdPlayer ltac:(right; right; left; reflexivity)) as (_ & _ & G). destruct (G a) as (G1 & G2).
  destruct (rm_encode CdPlayer a) as [c|] eqn:Ec; [|apply G1 in Ha; congruence].
  destruct (G2 c eq_refl) as (Ed & _ & Ei).
  assert (Hb : rc5_cmd c < 2 ^ 6).
  { assert (A : forall x, In x cdplayer_buttons -> fst x < 2 ^ 6).
    { apply Forall_forall. unfold cdplayer_buttons. repeat constructor. }
    exact (A _ Ei). }
  unfold CdPlayer, default_remote, default_encode, rc5_ac in Ec. cbn [rm_encode ac_create] in Ec.
  destruct (find _ cdplayer_buttons) as [[code x]|]; [|discriminate].
  destruct (try_u8 20) as [ad|] eqn:Ed2; [|discriminate]. destruct (try_u8 code) as [cd|]; [|discriminate]. injection Ec as <-.
  vm_compute in Ed2. injection Ed2 as <-. unfold rc5_new in *. cbn [rc5_cmd] in Hb.
  exists cd. split; [reflexivity|]. split; [exact Hb|].
  unfold as_action, button_from, button_is_repeat. cbn [btn_action btn_cmd]. rewrite Ed. reflexivity.
Qed.

Theorem C65_samsungtv :
  forall b m F a, timebase m F -> 14000 <= F -> F < 2 ^ 32 -> nec_encoder NecSamsung F <> None ->
  In a (map snd (rm_buttons SamsungTv)) ->
  exists c enc, rm_encode SamsungTv a = Some c /\ nec_encoder NecSamsung F = Some (mkEncoder samsung_command enc) /\
    button_arrives SamsungTv (nec_protocol b m NecSamsung) F (button_from SamsungTv) (enc c) 67 a /\
    button_on_air SamsungTv (nec_protocol b m NecSamsung) F (button_from SamsungTv) (mkEncoder samsung_command enc) c 67 a.
Proof.
  intros b m F a Hm H14 HF He Ha. destruct (samsungtv_cmd a Ha) as (code & Ec & Hcode & Ax).
  destruct (nec_data (nv_timing NecSamsung) F) as [data|] eqn:Ed; [|unfold nec_encoder in He; rewrite Ed in He; congruence].
  exists (mkSamsung 7 code false), (nec_encode NecSamsung data). split; [exact Ec|].
  split; [unfold nec_encoder; rewrite Ed; reflexivity|].
  destruct (C01_samsung_words 7 code false false ltac:(reflexivity) Hcode) as (w & Ep & Ew & Eu).
  assert (Hw : w < 2 ^ 32) by (rewrite Ew; apply bytes4_lt; unfold compl8; pows; lia).
  assert (Hin : In (NecSamsung, 4500, 4500) nec_senders) by (do 3 right; left; reflexivity).
  split.
  - intros buf Hb. destruct (nec_arrives_data b m F NecSamsung 4500 4500 _ _ w data Hin Hm H14 HF Ed Hw Ep Eu buf _ (button_from SamsungTv) Hb)
      as (buf' & E1 & E2 & _).
    eexists. eexists. eexists. exists 66%nat. eexists. split; [exact E1|]. split; [exact E2|]. split; [reflexivity|exact Ax].
  - apply (button_on_air_intro SamsungTv (nec_protocol b m NecSamsung) F (button_from SamsungTv) (mkEncoder samsung_command (nec_encode NecSamsung data)) _ (mkSamsung 7 code false)); [|exact Ax]. intros size Hs.
    apply (nec_on_air_data b m F NecSamsung 4500 4500 _ _ w (hs_new size) data Hin Hm H14 HF Ed Hw Ep Eu);
      [reflexivity|rewrite fresh_size; exact Hs|apply fresh_zero].
Qed.
Print Assumptions C65_samsungtv.

Theorem C65_specialformp3 :
  forall b m F a, timebase m F -> 13000 <= F -> F < 2 ^ 32 -> nec_encoder NecStandard F <> None ->
  In a (map snd (rm_buttons SpecialForMp3)) ->
  exists c enc, rm_encode SpecialForMp3 a = Some c /\ nec_encoder NecStandard F = Some (mkEncoder nec_command enc) /\
    button_arrives SpecialForMp3 (nec_protocol b m NecStandard) F (button_from SpecialForMp3) (enc c) 67 a /\
    button_on_air SpecialForMp3 (nec_protocol b m NecStandard) F (button_from SpecialForMp3) (mkEncoder nec_command enc) c 67 a.
Proof.
  intros b m F a Hm H14 HF He Ha. destruct (mp3_cmd a Ha) as (code & Ec & Hcode & Ax).
  destruct (nec_data (nv_timing NecStandard) F) as [data|] eqn:Ed; [|unfold nec_encoder in He; rewrite Ed in He; congruence].
  exists (mkNec 0 code false), (nec_encode NecStandard data). split; [exact Ec|].
  split; [unfold nec_encoder; rewrite Ed; reflexivity|].
  destruct (C01_nec_words 0 code false false ltac:(reflexivity) Hcode) as (w & Ep & Ew & Eu).
  assert (Hw : w < 2 ^ 32) by (rewrite Ew; apply bytes4_lt; unfold compl8; pows; lia).
  assert (Hin : In (NecStandard, 9000, 4500) nec_senders) by (left; reflexivity).
  split.
  - intros buf Hb. destruct (nec_arrives_data b m F NecStandard 9000 4500 _ _ w data Hin Hm H14 HF Ed Hw Ep Eu buf _ (button_from SpecialForMp3) Hb)
      as (buf' & E1 & E2 & _).
    eexists. eexists. eexists. exists 66%nat. eexists. split; [exact E1|]. split; [exact E2|]. split; [reflexivity|exact Ax].
  - apply (button_on_air_intro SpecialForMp3 (nec_protocol b m NecStandard) F (button_from SpecialForMp3) (mkEncoder nec_command (nec_encode NecStandard data)) _ (mkNec 0 code false)); [|exact Ax]. intros size Hs.
    apply (nec_on_air_data b m F NecStandard 9000 4500 _ _ w (hs_new size) data Hin Hm H14 HF Ed Hw Ep Eu);
      [reflexivity|rewrite fresh_size; exact Hs|apply fresh_zero].
Qed.
Print Assumptions C65_specialformp3.

Theorem C65_cdplayer :
  forall b m F a, timebase m F -> 13000 <= F -> F < 2 ^ 32 -> 8 <= usize_bits b ->
  In a (map snd (rm_buttons CdPlayer)) ->
  exists c enc, rm_encode CdPlayer a = Some c /\ rc5_encoder b F = Some (mkEncoder rc5_command enc) /\
    button_arrives CdPlayer (rc5_protocol b m) F (button_from CdPlayer) (enc c) 27 a.
Proof.
  intros b m F a Hm H13 HF Hu Ha. destruct (cdplayer_cmd a Ha) as (code & Ec & Hcode & Ax).
  destruct (C25_rc5_roundtrip b m F 20 code 3 false Hm H13 HF Hu ltac:(reflexivity) Hcode ltac:(right; reflexivity)) as (enc & Ee & Hx).
  exists (mkRc5 20 code 3 false), enc. split; [exact Ec|]. split; [exact Ee|].
  intros buf Hb. destruct (Hx buf _ (button_from CdPlayer) Hb) as (buf' & n & j & E1 & E2 & _).
  eexists. eexists. eexists. exists j. eexists. split; [exact E1|]. split; [exact E2|]. split; [reflexivity|exact Ax].
Qed.
Print Assumptions C65_cdplayer.

Theorem C65_cdplayer_on_air :
  forall b m F a, timebase m F -> 13000 <= F -> F < 2 ^ 32 -> 8 <= usize_bits b ->
  In a (map snd (rm_buttons CdPlayer)) ->
  exists c enc, rm_encode CdPlayer a = Some c /\ rc5_encoder b F = Some (mkEncoder rc5_command enc) /\
    button_on_air CdPlayer (rc5_protocol b m) F (button_from CdPlayer) (mkEncoder rc5_command enc) c 27 a.
Proof.
  intros b m F a Hm H13 HF Hu Ha. destruct (cdplayer_cmd a Ha) as (code & Ec & Hcode & Ax).
  destruct (C60_rc5 b m F 20 code 3 false Hm H13 HF Hu ltac:(reflexivity) Hcode ltac:(right; reflexivity)) as (enc & Ee & Hx).
  exists (mkRc5 20 code 3 false), enc. split; [exact Ec|]. split; [exact Ee|].
  apply (button_on_air_intro CdPlayer (rc5_protocol b m) F (button_from CdPlayer) (mkEncoder rc5_command enc) _ (mkRc5 20 code 3 false)); [|exact Ax]. intros size Hs.
  apply Hx; [reflexivity|rewrite fresh_size; exact Hs|left; apply (fresh_zero size 0)].
Qed.
Print Assumptions C65_cdplayer_on_air.

(** Buttons of the television remote, sent at 14 kHz and received. *)
Example C65_example :
  match nec_data NEC_SAMSUNG_TIMING 14000 with
  | Some data =>
      map (fun a => match rm_encode SamsungTv a with
                    | Some c => match nec_encode NecSamsung data c (repeat 0 67) with
                                | Val (buf, n) => match outcome_at (nec_protocol (debug_build 32) MU32 NecSamsung) 14000 (alternating true buf) 66 with
                                                  | Some (ROk (Some x)) => rm_decode SamsungTv x
                                                  | _ => None
                                                  end
                                | _ => None
                                end
                    | None => None
                    end) [A_Power; A_Teletext; A_Forward; A_Menu]
  | None => []
  end = [Some A_Power; Some A_Teletext; Some A_Forward; None].
Proof. vm_compute. reflexivity. Qed.
