(** * C93: at which tick rates NEC, 16-bit NEC, raw NEC, Samsung and RC5 work with one clock *)
From Coq Require Import NArith ZArith List Bool Lia ZifyBool ZifyNat ZifyN.
From Verif Require Import Machine Spec Spec_sender Spec_receiver Spec_state Bits Time Decoder Nec Rc5 Receiver Sender
  Time_facts Window_facts Run_facts Nec_facts Rc5_facts Codec_facts Receiver_facts State_facts Encode_facts
  Roundtrip_facts Props_codec Props_receiver Props_encode Props_calls Spec_rate Rate_facts Spec_sound Spec_grammar Grammar_facts Spec_biread Biread_facts Spec_bands Bands_facts.
Import ListNotations.
Open Scope N_scope.

(** ** The frame read when its lengths suit *)

Lemma nec_first_quiet b m F V C (into : nv_cmd V -> C) : timebase m F -> F < 2 ^ 32 -> nec_timing_ok (nv_timing V) ->
  nec_quiet (spans_of m F (nec_pulses (nv_timing V))) ->
  event_edge (D := nec_dec b m V) into (@mkRecv (nec_dec b m V) (mkNecDec NInit 0 0 (spans_of m F (nec_pulses (nv_timing V)))) 0) 0 true =
    Val (@mkRecv (nec_dec b m V) (mkNecDec NInit 0 0 (spans_of m F (nec_pulses (nv_timing V)))) 0, ROk None).
Proof.
  intros Hm Hf HT (Q1 & Q2). rewrite nec_ev_rise by (exact Hm || reflexivity). change (0 + 0) with 0.
  destruct (nec_class _ 0); try congruence; reflexivity.
Qed.

Lemma nec_receives_suited b m F V C (into : nv_cmd V -> C) w : timebase m F -> F < 2 ^ 32 -> nec_timing_ok (nv_timing V) ->
  nec_suits (spans_of m F (nec_pulses (nv_timing V))) F (header_high (nv_timing V)) (header_low (nv_timing V)) ->
  nec_quiet (spans_of m F (nec_pulses (nv_timing V))) -> w < 2 ^ 32 ->
  outcomes_of (nec_protocol b m V) F into
    (alternating true (nec_buffer (khz_ticks F) (header_high (nv_timing V)) (header_low (nv_timing V)) w)) =
  Val (repeat (ROk None) 66 ++ [ROk (option_map into (nv_unpack V w false))]).
Proof.
  intros Hm Hf HT (S1 & S2 & S3) Q Hw. unfold outcomes_of. rewrite (nec_new_val b m F V Hm Hf HT). cbn [bind].
  change (alternating true (nec_buffer (khz_ticks F) (header_high (nv_timing V)) (header_low (nv_timing V)) w)) with
    ((true, 0) :: alternating false (tl (nec_buffer (khz_ticks F) (header_high (nv_timing V)) (header_low (nv_timing V)) w))).
  unfold nec_buffer. cbn [tl].
  set (hm := header_high (nv_timing V)) in *. set (hs := header_low (nv_timing V)) in *.
  set (ds := map (fun bit : bool => (khz_ticks F 560, if bit then khz_ticks F 1690 else khz_ticks F 560)) (bits_lsb 32 w)).
  assert (Ea : alternating false (khz_ticks F hm :: khz_ticks F hs ::
      flat_map (fun bit : bool => [khz_ticks F 560; khz_ticks F (if bit then 1690 else 560)]) (bits_lsb 32 w)) =
      pair_edges ((khz_ticks F hm, khz_ticks F hs) :: ds)).
  { cbn [alternating negb pair_edges]. do 2 f_equal. unfold ds. rewrite <- alternating_pairs. f_equal.
    generalize (bits_lsb 32 w). intros l. induction l as [|[] l IH]; cbn [flat_map]; auto; f_equal; exact IH. }
  rewrite Ea. clear Ea.
  assert (Sm : forall p, p <= 9000 -> khz_ticks F p < 2 ^ 31) by (intros p Hp; apply khz_lt; assumption).
  assert (Hh : hm <= 9000 /\ hs <= 9000) by (unfold hm, hs; destruct HT as [-> | ->]; cbn; lia).
  cbn [p_dec nec_protocol]. rewrite run_edges_cons.
  pose proof (nec_first_quiet b m F V C into Hm Hf HT Q) as E0. cbn [p_dec nec_protocol] in E0. rewrite E0. cbn [bind].
  rewrite (nec_frame_run b m F V Hm Hf into w (khz_ticks F hm, khz_ticks F hs) ds 0 0 Hw).
  - reflexivity.
  - unfold is_pulse. cbn [fst snd]. split; [apply Sm; tauto|]. split; [apply Sm; tauto|]. exact S1.
  - unfold ds. generalize (bits_lsb 32 w). intros l. induction l as [|x l IH]; constructor; auto.
    unfold is_pulse. cbn [fst snd]. split; [apply Sm; lia|]. split; [destruct x; apply Sm; lia|]. destruct x; [exact S3|exact S2].
Qed.

(** ** The frame read when they do not *)

Definition all_signs : list nec_sign := [Header; Again; Zero; One; Other].
Lemma all_signs_in s : In s all_signs.
Proof. destruct s; cbn [all_signs In]; auto 10. Qed.
Definition sign_of (p : nec_pw) : nec_sign := match p with PSync => Header | PRepeat => Again | PZero => Zero | POne => One | PInvalid => Other end.
Lemma sign_of_pw p : nec_sign_pw (sign_of p) = p.
Proof. destruct p; reflexivity. Qed.

(** The signs of a frame of the bits [bs], with the time before the first edge. *)
Definition frame_signs (first head zero one : nec_sign) (bs : list bool) : list nec_sign :=
  first :: head :: map (bit_of zero one) bs.
Definition told (hit : N * bool -> bool) (o : heard (N * bool) unit) : bool := match o with Said a => hit a | _ => false end.
(** Only with the right lengths does [hit] come up; if the first sign is a header they are
    all taken to be the same. *)
Definition all_same (first head zero one : nec_sign) : bool :=
  match first, head, zero, one with Header, Header, Header, Header => true | Header, _, _, _ => false | _, _, _, _ => true end.
Definition right (head zero one : nec_sign) : bool := match head, zero, one with Header, Zero, One => true | _, _, _ => false end.
Definition misread (hit : N * bool -> bool) (w : N) : bool :=
  forallb (fun first => forallb (fun head => forallb (fun zero => forallb (fun one =>
    if right head zero one then true else
    if all_same first head zero one
    then negb (existsb (told hit) (hears_from nec_hear (NWaiting 0) (frame_signs first head zero one (bits_lsb 32 w))))
    else true) all_signs) all_signs) all_signs) all_signs.
Lemma misread_use hit w first head zero one : misread hit w = true -> right head zero one = false -> all_same first head zero one = true ->
  forall a, In (Said a) (hears_from nec_hear (NWaiting 0) (frame_signs first head zero one (bits_lsb 32 w))) -> hit a = false.
Proof.
  intros M R A a Ha. unfold misread in M. rewrite forallb_forall in M. specialize (M first (all_signs_in _)).
  rewrite forallb_forall in M. specialize (M head (all_signs_in _)). rewrite forallb_forall in M. specialize (M zero (all_signs_in _)).
  rewrite forallb_forall in M. specialize (M one (all_signs_in _)). rewrite R, A in M. apply negb_true_iff in M.
  destruct (hit a) eqn:E; [|reflexivity]. assert (X : existsb (told hit) (hears_from nec_hear (NWaiting 0) (frame_signs first head zero one (bits_lsb 32 w))) = true)
    by (apply existsb_exists; exists (Said a); split; [exact Ha|exact E]). congruence.
Qed.

Definition hit_of (V : nec_variant) (is : nv_cmd V -> bool) (a : N * bool) : bool :=
  match nv_unpack V (fst a) (snd a) with Some c => is c | None => false end.
Definition is_nec (c : nec_command) : bool := match c with mkNec 1 0 false => true | _ => false end.
Definition is_nec16 (c : nec16_command) : bool := match c with mkNec16 1 0 false => true | _ => false end.
Definition is_samsung (c : samsung_command) : bool := match c with mkSamsung 1 0 false => true | _ => false end.
Definition is_raw (c : nec_debug_cmd) : bool := match c with mkNecDebug 2 => true | _ => false end.

Lemma nec_misread : misread (hit_of NecStandard is_nec) 0xFF00FE01 = true.
Proof. vm_compute. reflexivity. Qed.
Lemma nec16_misread : misread (hit_of Nec16Bit is_nec16) 0xFF000001 = true.
Proof. vm_compute. reflexivity. Qed.
Lemma samsung_misread : misread (hit_of NecSamsung is_samsung) 0xFF000101 = true.
Proof. vm_compute. reflexivity. Qed.
Lemma raw_misread : misread (hit_of NecRaw is_raw) 2 = true.
Proof. vm_compute. reflexivity. Qed.

Lemma periods_pairs (k : N) (f : bool -> N) bs : periods_from 0 (alternating false (flat_map (fun bit => [k; f bit]) bs)) = map (fun bit => k + f bit) bs.
Proof. induction bs as [|x bs IH]; [reflexivity|]. cbn [flat_map app alternating negb periods_from map]. rewrite IH. reflexivity. Qed.

Lemma at_rises_in {A E} h : forall (hs : list (heard A E)) a, In (Said a) (at_rises h hs) -> In (Said a) hs.
Proof.
  induction h as [|[[|] d] h IH]; intros hs a H; cbn [at_rises] in H.
  - contradiction.
  - destruct hs as [|o hs]; [contradiction|]. destruct H as [->|H]; [left; reflexivity|right; apply IH; exact H].
  - destruct H as [H|H]; [discriminate H|]. apply IH. exact H.
Qed.

Lemma nec_lost_word b m F V is w C (into : nv_cmd V -> C) : timebase m F -> F < 2 ^ 32 -> nec_timing_ok (nv_timing V) ->
  ~ variant_rate (nv_timing V) F -> misread (hit_of V is) w = true ->
  exists os, outcomes_of (nec_protocol b m V) F into
      (alternating true (nec_buffer (khz_ticks F) (header_high (nv_timing V)) (header_low (nv_timing V)) w)) = Val os /\
    forall x, In (ROk (Some x)) os -> exists c, x = into c /\ is c = false.
Proof.
  intros Hm Hf HT HR M. destruct (nec_rate_suits m F V Hm Hf HT) as (_ & NS). destruct (NS HR) as (NS' & Hlo). clear NS.
  set (ss := spans_of m F (nec_pulses (nv_timing V))) in *. set (hm := header_high (nv_timing V)) in *. set (hs := header_low (nv_timing V)) in *.
  set (k := khz_ticks F) in *.
  set (h := alternating true (nec_buffer k hm hs w)).
  assert (Ep : periods_from 0 h = 0 :: k hm + k hs :: map (fun bit : bool => k 560 + k (if bit then 1690 else 560)) (bits_lsb 32 w)).
  { unfold h, nec_buffer. cbn [alternating negb periods_from]. rewrite periods_pairs. reflexivity. }
  set (first := sign_of (nec_class ss 0)). set (head := sign_of (nec_class ss (k hm + k hs))).
  set (zero := sign_of (nec_class ss (k 560 + k 560))). set (one := sign_of (nec_class ss (k 560 + k 1690))).
  assert (Sm : forall p, p <= 9000 -> k p < 2 ^ 31) by (intros p Hp; apply khz_lt; assumption).
  assert (Hh : hm <= 9000 /\ hs <= 9000) by (unfold hm, hs; destruct HT as [-> | ->]; cbn; lia).
  assert (P31 : 2 ^ 32 = 2 ^ 31 + 2 ^ 31) by reflexivity.
  destruct (nec_hear_run b m F V Hm (exact_low m F ltac:(lia)) into h (NWaiting 0) NInit 0 0 0 (frame_signs first head zero one (bits_lsb 32 w)))
    as (r & R).
  - split; reflexivity.
  - rewrite Ep. apply Forall_cons; [reflexivity|]. apply Forall_cons; [rewrite P31; pose proof (Sm hm ltac:(tauto)); pose proof (Sm hs ltac:(tauto)); lia|].
    apply Forall_forall. intros x Hx. apply in_map_iff in Hx. destruct Hx as (bit & <- & _).
    pose proof (Sm 560 ltac:(lia)). assert (k (if bit then 1690 else 560) < 2 ^ 31) by (apply Sm; destruct bit; lia). lia.
  - rewrite Ep. unfold frame_signs. constructor; [symmetry; apply sign_of_pw|]. constructor; [symmetry; apply sign_of_pw|].
    generalize (bits_lsb 32 w). intros l. induction l as [|x l IH]; constructor; auto.
    destruct x; symmetry; apply sign_of_pw.
  - exists (map (nec_outcome V into) (at_rises h (hears_from nec_hear (NWaiting 0) (frame_signs first head zero one (bits_lsb 32 w))))). split.
    { unfold outcomes_of. rewrite (nec_new_val b m F V Hm Hf HT). cbn [bind p_dec nec_protocol]. fold ss in R |- *. rewrite R. reflexivity. }
    intros x Hx. apply in_map_iff in Hx. destruct Hx as ([|[w' rep]|e] & E & Hx); cbn [nec_outcome outcome_of fst snd] in E; try discriminate E.
    apply at_rises_in in Hx.
    assert (Hr : right head zero one = false).
    { destruct (right head zero one) eqn:Er; [|reflexivity]. exfalso. apply NS'. unfold nec_suits. fold k.
      rewrite (N.add_comm (k hs)), (N.add_comm (k 1690)). revert Er. unfold head, zero, one.
      destruct (nec_class ss (k hm + k hs)), (nec_class ss (k 560 + k 560)), (nec_class ss (k 560 + k 1690)); cbn; auto; discriminate. }
    assert (Hs : all_same first head zero one = true).
    { pose proof (class_near m F (nv_timing V) 0 Hm ltac:(lia) HT) as I. fold ss in I.
      assert (Dec : nec_class ss 0 = PSync \/ nec_class ss 0 <> PSync) by (destruct (nec_class ss 0); auto; right; discriminate).
      destruct Dec as [E0|E0].
      - rewrite E0 in I. assert (Z : forall p, p = hm \/ p = hs \/ p = 560 \/ p = 1690 -> k p = 0).
        { clear -I HT. intros p Hp. unfold k, hm, hs, near, nominal in *. unfold khz_ticks.
          destruct HT as [E|E]; rewrite E in *; cbn [header_high header_low NEC_STANDARD_TIMING NEC_SAMSUNG_TIMING] in *;
            (assert (HF : F < 112) by lia; rewrite (proj2 (N.leb_le F 1000)) by lia;
             destruct Hp as [->|[->|[->| ->]]]; lia). }
        unfold first, head, zero, one. rewrite !Z by auto. change (0 + 0) with 0. rewrite E0. reflexivity.
      - unfold first. destruct (nec_class ss 0); try congruence; reflexivity. }
    pose proof (misread_use _ _ _ _ _ _ M Hr Hs _ Hx) as Hn. unfold hit_of in Hn. cbn [fst snd] in Hn.
    destruct (nv_unpack V w' rep) as [c|]; cbn [option_map] in E; [|discriminate E]. injection E as <-. exists c. auto.
Qed.

(** ** The NEC family *)

Lemma senders_facts b m V hm hs : In (V, hm, hs) nec_senders ->
  nec_timing_ok (nv_timing V) /\ hm = header_high (nv_timing V) /\ hs = header_low (nv_timing V) /\
  In (nec_protocol b m V) (parsing_protocols b m).
Proof.
  unfold nec_senders. cbn [In]. intros [E|[E|[E|[E|[]]]]]; injection E as <- <- <-; unfold nec_timing_ok, parsing_protocols; cbn [In]; auto 10.
Qed.

Lemma nec_arrives_at b m F V hm hs sent got w : In (V, hm, hs) nec_senders ->
  timebase m F -> F < 2 ^ 32 -> variant_rate (nv_timing V) F -> nec_encoder V F <> None -> w < 2 ^ 32 ->
  nv_pack V sent = Val w -> nv_unpack V w false = Some got -> nec_arrives b m F V sent got.
Proof.
  intros Hin Hm HF HR He Hw Ep Eu. destruct (senders_facts b m V hm hs Hin) as (HT & -> & -> & HP).
  destruct (C52_nec_encoder F V _ _ Hin He) as (enc & Ee & E1). exists enc. split; [exact Ee|]. intros buf C into Hb.
  destruct (E1 sent w buf Ep) as (E2 & L). rewrite written_val in E2 by (rewrite L; exact Hb). rewrite L in E2.
  eexists. split; [exact E2|]. rewrite <- L at 1 2. rewrite firstn_written.
  destruct (nec_rate_suits m F V Hm HF HT) as (A & _). destruct (A HR) as (S0 & Q).
  pose proof (nec_receives_suited b m F V C into w Hm HF HT S0 Q Hw) as R. rewrite Eu in R. cbn [option_map] in R.
  split; [exact R|].
  destruct (@commands_single C 66 0 (into got)) as (S1 & S2). cbn [repeat] in S1, S2.
  destruct (collect_outcomes b m (nec_protocol b m V) F C into _ _ HP R S2) as (it0 & it & I1 & I2).
  exists it0, it. split; [exact I1|]. rewrite <- S1. exact I2.
Qed.

(** What is sent does not arrive: whatever the receiver reports, it is not [got]. *)
Definition nec_missed (b : build) (m : mono) (F : N) (V : nec_variant) (sent got : nv_cmd V) : Prop :=
  exists enc, nec_encoder V F = Some (mkEncoder (nv_cmd V) enc) /\
  forall buf C (into : nv_cmd V -> C), (67 <= length buf)%nat ->
  exists buf' os, enc sent buf = Val (buf', 67%nat) /\
    outcomes_of (nec_protocol b m V) F into (alternating true (firstn 67 buf')) = Val os /\
    forall x, In (ROk (Some x)) os -> exists c, x = into c /\ c <> got.

Lemma nec_missed_at b m F V hm hs sent got w is : In (V, hm, hs) nec_senders ->
  timebase m F -> F < 2 ^ 32 -> ~ variant_rate (nv_timing V) F -> nec_encoder V F <> None ->
  nv_pack V sent = Val w -> misread (hit_of V is) w = true -> is got = true -> nec_missed b m F V sent got.
Proof.
  intros Hin Hm HF HR He Ep M Hg. destruct (senders_facts b m V hm hs Hin) as (HT & -> & -> & HP).
  destruct (C52_nec_encoder F V _ _ Hin He) as (enc & Ee & E1). exists enc. split; [exact Ee|]. intros buf C into Hb.
  destruct (E1 sent w buf Ep) as (E2 & L). rewrite written_val in E2 by (rewrite L; exact Hb). rewrite L in E2.
  destruct (nec_lost_word b m F V is w C into Hm HF HT HR M) as (os & R & Hos).
  eexists. exists os. split; [exact E2|]. rewrite <- L at 1. rewrite firstn_written. split; [exact R|].
  intros x Hx. destruct (Hos x Hx) as (c & -> & Hc). exists c. split; [reflexivity|]. intros ->. congruence.
Qed.

(** At the rates of the list every command arrives, at the others not all of them: address 1
    with command 0 is never reported. *)
Theorem C93_nec :
  forall b m F, timebase m F -> F < 2 ^ 32 -> nec_encoder NecStandard F <> None ->
  (nec_rate F -> forall a c rep, a < 2 ^ 8 -> c < 2 ^ 8 -> nec_arrives b m F NecStandard (mkNec a c rep) (mkNec a c false)) /\
  (~ nec_rate F -> forall rep, nec_missed b m F NecStandard (mkNec 1 0 rep) (mkNec 1 0 false)).
Proof.
  intros b m F Hm HF He. split.
  - intros HR a c rep Ha Hc. destruct (C01_nec_words a c rep false Ha Hc) as (w & Ep & Ew & Eu).
    apply (nec_arrives_at b m F NecStandard 9000 4500 _ _ w); auto; [left; reflexivity|].
    rewrite Ew. apply bytes4_lt; unfold compl8; pows; lia.
  - intros HR rep. apply (nec_missed_at b m F NecStandard 9000 4500 _ _ 0xFF00FE01 is_nec); auto using nec_misread; left; reflexivity.
Qed.
Print Assumptions C93_nec.

Theorem C93_nec16 :
  forall b m F, timebase m F -> F < 2 ^ 32 -> nec_encoder Nec16Bit F <> None ->
  (nec_rate F -> forall a c rep, a < 2 ^ 16 -> c < 2 ^ 8 -> nec_arrives b m F Nec16Bit (mkNec16 a c rep) (mkNec16 a c false)) /\
  (~ nec_rate F -> forall rep, nec_missed b m F Nec16Bit (mkNec16 1 0 rep) (mkNec16 1 0 false)).
Proof.
  intros b m F Hm HF He. split.
  - intros HR a c rep Ha Hc. destruct (C01_nec16_words a c rep false Ha Hc) as (w & Ep & Ew & Eu).
    apply (nec_arrives_at b m F Nec16Bit 9000 4500 _ _ w); auto; [right; left; reflexivity|].
    rewrite Ew. apply bytes4_lt; unfold compl8; pows; lia.
  - intros HR rep. apply (nec_missed_at b m F Nec16Bit 9000 4500 _ _ 0xFF000001 is_nec16); auto using nec16_misread; right; left; reflexivity.
Qed.
Print Assumptions C93_nec16.

Theorem C93_samsung :
  forall b m F, timebase m F -> F < 2 ^ 32 -> nec_encoder NecSamsung F <> None ->
  (samsung_rate F -> forall a c rep, a < 2 ^ 8 -> c < 2 ^ 8 -> nec_arrives b m F NecSamsung (mkSamsung a c rep) (mkSamsung a c false)) /\
  (~ samsung_rate F -> forall rep, nec_missed b m F NecSamsung (mkSamsung 1 0 rep) (mkSamsung 1 0 false)).
Proof.
  intros b m F Hm HF He. split.
  - intros HR a c rep Ha Hc. destruct (C01_samsung_words a c rep false Ha Hc) as (w & Ep & Ew & Eu).
    apply (nec_arrives_at b m F NecSamsung 4500 4500 _ _ w); auto; [do 3 right; left; reflexivity|].
    rewrite Ew. apply bytes4_lt; unfold compl8; pows; lia.
  - intros HR rep. apply (nec_missed_at b m F NecSamsung 4500 4500 _ _ 0xFF000101 is_samsung); auto using samsung_misread; do 3 right; left; reflexivity.
Qed.
Print Assumptions C93_samsung.

Theorem C93_raw :
  forall b m F, timebase m F -> F < 2 ^ 32 -> nec_encoder NecRaw F <> None ->
  (nec_rate F -> forall w, w < 2 ^ 32 -> nec_arrives b m F NecRaw (mkNecDebug w) (mkNecDebug w)) /\
  (~ nec_rate F -> nec_missed b m F NecRaw (mkNecDebug 2) (mkNecDebug 2)).
Proof.
  intros b m F Hm HF He. split.
  - intros HR w Hw. apply (nec_arrives_at b m F NecRaw 9000 4500 _ _ w); auto. do 2 right; left; reflexivity.
  - intros HR. apply (nec_missed_at b m F NecRaw 9000 4500 _ _ 2 is_raw); auto using raw_misread; do 2 right; left; reflexivity.
Qed.
Print Assumptions C93_raw.

(** ** RC5 *)

Lemma rc5_receives_at b m F C (into : rc5_command -> C) w : timebase m F -> F < 2 ^ 32 -> 8 <= usize_bits b ->
  rc5_rate F -> w < 2 ^ 14 -> N.testbit w 13 = true ->
  exists j, outcomes_of (rc5_protocol b m) F into (alternating true (rc5_buffer (khz_ticks F 889) w)) =
    Val (repeat (ROk None) j ++ [ROk (Some (into (rc5_unpack w)))]).
Proof.
  intros Hm Hf Hu HF Hw H13. unfold outcomes_of. rewrite (rc5_new_val b m F Hm Hf). cbn [bind].
  change (alternating true (rc5_buffer (khz_ticks F 889) w)) with
    ((true, 0) :: alternating false (tl (rc5_buffer (khz_ticks F 889) w))).
  unfold rc5_buffer. cbn [tl]. pose proof (rc5_rate_low F HF) as HL.
  set (l := khz_ticks F 889).
  assert (En : exists noms, level_edges false 0 (rc5_wave w) = (true, 1) :: noms /\
     Forall (fun x : edge => snd x = 1 \/ snd x = 2) noms /\
     alternating false (map (fun x : edge => l * snd x) noms) = map (fun x : edge => (fst x, l * snd x)) noms).
  { unfold rc5_wave. rewrite bits_msb_S. change (N.of_nat 13) with 13. rewrite H13. cbn [flat_map rc5_half app level_edges Bool.eqb].
    eexists. split; [reflexivity|]. split; [apply rc5_runs|]. apply (alternating_edges l _ true 1). }
  destruct En as (noms & En & Hn & Ha). rewrite En. cbn [tl]. unfold edge in Ha. rewrite Ha.
  set (acts := map (fun x : bool * N => (fst x, l * snd x)) noms).
  assert (HN : Forall2 (biphase_near F 889 rc5_tol) noms acts).
  { unfold acts. clear -Hn HF. induction Hn as [|x xs Hx Hxs IH]; cbn [map]; constructor; auto.
    split; [reflexivity|]. cbn [snd]. apply rc5_rate_near; auto. }
  cbn [p_dec rc5_protocol]. rewrite run_edges_cons, rc5_first by exact Hu. cbn [bind].
  rewrite (rc5_frame_run b m F Hm Hf into ltac:(lia) Hu w 0 noms 1 acts Hw En H13 HN).
  cbn [bind]. exists (S (length acts - 1)). reflexivity.
Qed.

(** Reading edges of which only the counts are known, if they can be counted at all.  Inside a
    frame: the bits so far, and whether the count of units is odd. *)
Definition rc5_ear : Type := option (list bool * bool).
Definition rc5_hear (q : rc5_ear) (e : bool) (c : option N) : rc5_ear * option (list bool) :=
  match q, c with
  | Some (pre, o), Some n =>
      if xorb o (N.odd n) then (Some (pre, true), None)
      else if (length pre =? 12)%nat then (None, Some (pre ++ [e])) else (Some (pre ++ [e], false), None)
  | _, _ => (if e then Some ([], false) else None, None)
  end.
Fixpoint rc5_hear_all (q : rc5_ear) (l : list (bool * option N)) : list (option (list bool)) :=
  match l with [] => [] | (e, c) :: r => let (q', o) := rc5_hear q e c in o :: rc5_hear_all q' r end.

Definition counted (freq : N) (c : option N) (d : N) : Prop :=
  match c with Some n => rc5_counts freq n d | None => rc5_uncounted freq d end.
Lemma counted_some m F d : timebase m F -> exact_rate m F -> exists c, counted F c d.
Proof.
  intros Hm He. pose proof (rc5_counts_some m F d Hm He) as H. destruct (spans_get _ d) as [k|]; [exists (Some (k + 1))|exists None]; exact H.
Qed.

Section Rc5.
  Variables (b : build) (m : mono) (F : N).
  Hypothesis (Hm : timebase m F) (He : exact_rate m F) (Hu : 8 <= usize_bits b).
  Let ss := spans_of m F rc5_pulses.
  Notation D := (rc5_dec b).
  Context {C : Type} (into : rc5_command -> C).
  Notation st s buf ck pv := (@mkRecv D (mkRc5Dec s buf ck ss) pv).

  Definition rc5_ear_state (q : rc5_ear) (ck : N) : receiver D :=
    match q with None => st R5Idle 0 ck 0 | Some (pre, _) => rc5_mid b m F pre ck 0 end.
  Definition rc5_ear_ok (q : rc5_ear) (ck : N) : Prop :=
    match q with None => True | Some (pre, o) => (length pre <= 12)%nat /\ N.odd ck = o end.

  Lemma rc5_hear_step q ck e d c k : rc5_ear_ok q ck -> room b ck (S k) -> counted F c d ->
    exists ck', room b ck' k /\ rc5_ear_ok (fst (rc5_hear q e c)) ck' /\
      event_edge (D := D) into (rc5_ear_state q ck) d e =
        Val (rc5_ear_state (fst (rc5_hear q e c)) ck', match snd (rc5_hear q e c) with
          | Some bits => ROk (Some (into (rc5_unpack (2 ^ 13 + val_msb bits)))) | None => ROk None end).
  Proof.
    intros Ho Hr Hc.
    assert (Idle : forall ck0, room b ck0 (S k) -> exists ck', room b ck' k /\ rc5_ear_ok (if e then Some ([], false) else None) ck' /\
      event_edge (D := D) into (st R5Idle 0 ck0 0) d e = Val (rc5_ear_state (if e then Some ([], false) else None) ck', ROk None)).
    { intros ck0 R0. destruct (rc5_idle_any b m F Hm He Hu into k ck0 0 d e R0) as (ck' & R & E). fold ss in E. destruct e.
      - exists 0. split; [eapply room_zero; exact R|]. split; [split; [cbn; lia|reflexivity]|]. exact E.
      - exists ck'. split; [exact R|]. split; [exact I|]. exact E. }
    destruct q as [[pre o]|]; [|destruct c; exact (Idle ck Hr)].
    destruct Ho as (L & Ho). destruct c as [n|].
    - destruct (rc5_mid_step b m F Hm He Hu into pre ck 0 d e n k L Hc Hr) as (ck' & R & O & E). fold ss in E.
      cbn [rc5_hear rc5_ear_state]. rewrite <- Ho. rewrite N.odd_add in O, E.
      destruct (xorb (N.odd ck) (N.odd n)) eqn:X; cbn [fst snd rc5_ear_ok rc5_ear_state].
      + exists ck'. split; [exact R|]. split; [split; assumption|]. exact E.
      + destruct (Nat.eqb_spec (length pre) 12) as [L12|L12]; cbn [fst snd rc5_ear_ok rc5_ear_state].
        * exists 0. split; [eapply room_zero; exact R|]. split; [exact I|]. exact E.
        * exists ck'. split; [exact R|]. split; [split; [rewrite app_length; cbn [length]; lia|exact O]|]. exact E.
    - cbn [rc5_hear]. destruct (Idle 0 (room_zero _ _ _ Hr)) as (ck' & R & O & E). exists ck'. cbn [fst snd]. split; [exact R|]. split; [exact O|].
      cbn [rc5_ear_state]. unfold rc5_mid. rewrite (rc5_anew b m F Hm He into _ _ _ 0 d e Hc). exact E.
  Qed.

  Lemma rc5_hear_run l : forall q ck cs, rc5_ear_ok q ck -> room b ck (length l) -> Forall2 (counted F) cs (map snd l) ->
    exists r, run_edges (D := D) into (rc5_ear_state q ck) l =
      Val (r, map (fun o => match o with Some bits => ROk (Some (into (rc5_unpack (2 ^ 13 + val_msb bits)))) | None => ROk None end)
                  (rc5_hear_all q (combine (map fst l) cs))).
  Proof.
    induction l as [|[e d] l IH]; intros q ck cs Ho Hr Hc.
    - eexists. reflexivity.
    - cbn [map snd fst length] in *. inversion Hc as [|c ? cs' ? C1 C2]; subst.
      destruct (rc5_hear_step q ck e d c (length l) Ho Hr C1) as (ck' & R & O & E).
      destruct (IH _ ck' cs' O R C2) as (r & E2). exists r. rewrite run_edges_cons, E. cbn [bind]. rewrite E2. cbn [bind combine rc5_hear_all].
      destruct (rc5_hear q e c) as [q' o]. reflexivity.
  Qed.
End Rc5.

(** The edges of the frame of the word [0x3000]: address 0, command 0. *)
Definition counts_of (n1 n2 : option N) (l : list edge) : list (option N) := map (fun x => if snd x =? 1 then n1 else n2) l.
Definition rc5_units : list edge := level_edges false 0 (rc5_wave 0x3000).
Definition is_rc5 (bits : list bool) : bool :=
  match rc5_unpack (2 ^ 13 + val_msb bits) with mkRc5 0 0 3 false => true | _ => false end.
Definition rc5_misread (n1 n2 : option N) : bool :=
  negb (existsb (fun o => match o with Some bits => is_rc5 bits | None => false end)
    (rc5_hear_all None (combine (map fst rc5_units) (counts_of n1 n2 rc5_units)))).
Lemma rc5_misread_all n1 n2 : rc5_misread n1 n2 = true \/ (n1 = Some 1 /\ n2 = Some 2) \/ (n1 = Some 3 /\ n2 = Some 2) \/
  (exists n, (n1 = Some n \/ n2 = Some n) /\ (n = 0 \/ 3 < n)).
Proof.
  assert (Dec : forall c : option N, (exists n, c = Some n /\ (n = 0 \/ 3 < n)) \/ c = None \/ c = Some 1 \/ c = Some 2 \/ c = Some 3).
  { intros [n|]; [|auto]. destruct (N.eq_dec n 1) as [->|]; [auto|]. destruct (N.eq_dec n 2) as [->|]; [auto|].
    destruct (N.eq_dec n 3) as [->|]; [auto 6|]. left. exists n. split; [reflexivity|lia]. }
  destruct (Dec n1) as [(n & -> & Hn)|D1]; [do 3 right; exists n; auto|].
  destruct (Dec n2) as [(n & -> & Hn)|D2]; [do 3 right; exists n; auto|].
  destruct D1 as [->|[->|[->| ->]]], D2 as [->|[->|[->| ->]]]; auto; left; vm_compute; reflexivity.
Qed.

Lemma rc5_lost_word b m F C (into : rc5_command -> C) : timebase m F -> 8 <= usize_bits b -> ~ rc5_rate F ->
  exists os, outcomes_of (rc5_protocol b m) F into (alternating true (rc5_buffer (khz_ticks F 889) 0x3000)) = Val os /\
    forall x, In (ROk (Some x)) os -> exists c, x = into c /\ c <> mkRc5 0 0 3 false.
Proof.
  intros Hm Hu HR. destruct (rc5_other_rates F HR) as (HF & B1 & B2).
  assert (He : exact_rate m F) by (apply exact_low; lia).
  set (l := khz_ticks F 889) in *.
  destruct (counted_some m F 0 Hm He) as (n0 & C0). destruct (counted_some m F (l * 1) Hm He) as (n1 & C1).
  destruct (counted_some m F (l * 2) Hm He) as (n2 & C2).
  set (h := alternating true (rc5_buffer l 0x3000)).
  assert (Es : exists rest, rc5_units = (true, 1) :: rest /\ h = (true, 0) :: map (fun x : edge => (fst x, l * snd x)) rest /\
     Forall (fun x : edge => snd x = 1 \/ snd x = 2) rest /\ (length rest < 30)%nat).
  { unfold h. let v := eval vm_compute in (tl rc5_units) in exists v.
    split; [vm_compute; reflexivity|]. split; [reflexivity|].
    split; [repeat (apply Forall_cons; [cbn [snd]; auto|]); apply Forall_nil|cbn [length]; lia]. }
  destruct Es as (rest & Eu & Eh & H12 & Hl).
  destruct (rc5_hear_run b m F Hm He Hu into h None 0 (n0 :: counts_of n1 n2 rest)) as (r & R).
  - exact I.
  - right. rewrite Eh. cbn [length]. rewrite map_length. pose proof (usize8 b Hu) as U. unfold edge in *. lia.
  - rewrite Eh. cbn [map snd]. constructor; [exact C0|]. clear -C1 C2 H12. induction H12 as [|x xs [Hx|Hx] Hxs IH]; cbn [counts_of map snd]; constructor; auto;
      rewrite Hx; assumption.
  - eexists. split.
    { unfold outcomes_of. rewrite (rc5_new_val b m F Hm) by (unfold M32; lia). cbn [bind p_dec rc5_protocol].
      cbn [rc5_ear_state] in R. fold h. rewrite R. cbn [bind]. reflexivity. }
    assert (Ec : rc5_hear_all None (combine (map fst h) (n0 :: counts_of n1 n2 rest)) =
                 rc5_hear_all None (combine (map fst rc5_units) (counts_of n1 n2 rc5_units))).
    { rewrite Eh, Eu. cbn [map fst snd counts_of combine]. cbn [rc5_hear_all rc5_hear N.eqb Pos.eqb].
      rewrite map_map. cbn [fst]. reflexivity. }
    rewrite Ec. intros x Hx. apply in_map_iff in Hx. destruct Hx as ([bits|] & E & Hx); [|discriminate E]. injection E as <-.
    exists (rc5_unpack (2 ^ 13 + val_msb bits)). split; [reflexivity|]. intros Eb.
    assert (M : rc5_misread n1 n2 = true).
    { destruct (rc5_misread_all n1 n2) as [M|[(-> & ->)|[(-> & ->)|(n & Hn & Hn2)]]]; [exact M| | |].
      - destruct (B1 (conj C1 C2)).
      - destruct (B2 (conj C1 C2)).
      - destruct Hn as [->| ->]; cbn [counted] in *; unfold rc5_counts in *; exfalso; [clear C2|clear C1]; lia. }
    unfold rc5_misread in M. apply negb_true_iff in M.
    assert (X : existsb (fun o => match o with Some bits => is_rc5 bits | None => false end)
       (rc5_hear_all None (combine (map fst rc5_units) (counts_of n1 n2 rc5_units))) = true)
      by (apply existsb_exists; exists (Some bits); split; [exact Hx|unfold is_rc5; rewrite Eb; reflexivity]).
    congruence.
Qed.

Definition rc5_arrives (b : build) (m : mono) (F : N) (enc : rc5_command -> list N -> res (list N * nat)) (c : rc5_command) : Prop :=
  forall buf C (into : rc5_command -> C), (27 <= length buf)%nat ->
  exists buf' n j, enc c buf = Val (buf', n) /\
    outcomes_of (rc5_protocol b m) F into (alternating true (firstn n buf')) = Val (repeat (ROk None) j ++ [ROk (Some (into c))]) /\
    exists it0 it, iter_new (rc5_protocol b m) F (firstn n buf') = Val it0 /\
      collect (D := rc5_dec b) into it0 = Val (it, [into c]).
Definition rc5_missed (b : build) (m : mono) (F : N) (enc : rc5_command -> list N -> res (list N * nat)) (c : rc5_command) : Prop :=
  forall buf C (into : rc5_command -> C), (27 <= length buf)%nat ->
  exists buf' n os, enc c buf = Val (buf', n) /\
    outcomes_of (rc5_protocol b m) F into (alternating true (firstn n buf')) = Val os /\
    forall x, In (ROk (Some x)) os -> exists c', x = into c' /\ c' <> c.

Theorem C93_rc5 :
  forall b m F, timebase m F -> F < 2 ^ 32 -> 8 <= usize_bits b ->
  exists enc, rc5_encoder b F = Some (mkEncoder rc5_command enc) /\
  (rc5_rate F -> forall a c s t, a < 2 ^ 5 -> c < 2 ^ 6 -> s = 2 \/ s = 3 -> rc5_arrives b m F enc (mkRc5 a c s t)) /\
  (~ rc5_rate F -> rc5_missed b m F enc (mkRc5 0 0 3 false)).
Proof.
  intros b m F Hm Hf Hu. destruct (C53_rc5_encoder b F Hf) as (enc & Ee & Hw).
  exists enc. split; [exact Ee|]. split.
  - intros HR a c s t Ha Hc Hs buf C into Hb.
    assert (Hs4 : s < 2 ^ 2) by (change (2 ^ 2) with 4; lia).
    specialize (Hw a c s t buf Ha Hc Hs4).
    destruct (C05_rc5_unpack_pack a c s t Ha Hc Hs4) as (Ep & Eu).
    assert (Ew : c + 2 ^ 6 * a + 2 ^ 11 * (if t then 1 else 0) + 2 ^ 12 * (s mod 2) + 2 ^ 13 = rc5_pack (mkRc5 a c s t)).
    { rewrite Ep. destruct Hs as [-> | ->]; lia. }
    rewrite Ew in Hw. set (w := rc5_pack (mkRc5 a c s t)) in *.
    assert (Lw : w < 2 ^ 14).
    { rewrite Ep. change (2 ^ 5) with 32 in *. change (2 ^ 6) with 64 in *. change (2 ^ 2) with 4 in *.
      change (2 ^ 11) with 2048. change (2 ^ 12) with 4096. change (2 ^ 14) with 16384. clear -Ha Hc Hs4. destruct t; lia. }
    assert (H13 : N.testbit w 13 = true).
    { rewrite <- Ew. rewrite N.add_comm.
      set (x := c + 2 ^ 6 * a + 2 ^ 11 * (if t then 1 else 0) + 2 ^ 12 * (s mod 2)).
      assert (x < 2 ^ 13).
      { unfold x. change (2 ^ 5) with 32 in *. change (2 ^ 6) with 64 in *. change (2 ^ 13) with 8192.
        change (2 ^ 11) with 2048. change (2 ^ 12) with 4096. clear -Ha Hc Hs. destruct Hs as [-> | ->]; cbn [N.modulo N.div_eucl]; destruct t; lia. }
      replace (2 ^ 13 + x) with (x + 1 * 2 ^ 13) by (clear; lia).
      rewrite <- lor_add by exact H. rewrite N.lor_spec, N.shiftl_spec_high'; [|lia]. apply orb_true_r. }
    destruct (C53_rc5_runs (khz_ticks F 889) w H13) as (L & _).
    destruct (rc5_receives_at b m F C into w Hm Hf Hu HR Lw H13) as (j & R).
    rewrite written_val in Hw by (eapply Nat.le_trans; [exact L|exact Hb]).
    rewrite Eu in R.
    eexists. eexists. exists j. split; [exact Hw|]. rewrite firstn_written. split; [exact R|].
    destruct (@commands_single C j 0 (into (mkRc5 a c s t))) as (S1 & S2). cbn [repeat] in S1, S2.
    destruct (collect_outcomes b m (rc5_protocol b m) F C into _ _ ltac:(unfold parsing_protocols; cbn [In]; auto 10) R S2)
      as (it0 & it & I1 & I2).
    exists it0, it. split; [exact I1|]. rewrite <- S1. exact I2.
  - intros HR buf C into Hb. specialize (Hw 0 0 3 false buf eq_refl eq_refl eq_refl).
    change (0 + 2 ^ 6 * 0 + 2 ^ 11 * 0 + 2 ^ 12 * (3 mod 2) + 2 ^ 13) with 0x3000 in Hw.
    destruct (C53_rc5_runs (khz_ticks F 889) 0x3000 eq_refl) as (L & _).
    rewrite written_val in Hw by (eapply Nat.le_trans; [exact L|exact Hb]).
    destruct (rc5_lost_word b m F C into Hm Hu HR) as (os & R & Ho).
    eexists. eexists. exists os. split; [exact Hw|]. rewrite firstn_written. auto.
Qed.
Print Assumptions C93_rc5.

(** At 8500 Hz what is sent arrives; at 8800 Hz, closer to the usual rates, it does not; RC5
    arrives at 8500 Hz and at 8800 Hz, but not at 10500 Hz. *)
Example C93_example :
  let nec F := match nec_data NEC_STANDARD_TIMING F with
               | Some data => match nec_encode NecStandard data (mkNec 1 0 false) (repeat 0 67) with
                              | Val (buf, _) => collected (nec_protocol (debug_build 32) MU32 NecStandard) F buf
                              | _ => None
                              end
               | None => None
               end in
  let rc5 F := match rc5_calc_freq F with
               | Some l => match rc5_encode (debug_build 32) l (mkRc5 0 0 3 false) (repeat 0 27) with
                           | Val (buf, n) => collected (rc5_protocol (debug_build 32) MU32) F (firstn n buf)
                           | _ => None
                           end
               | None => None
               end in
  (nec_rate 8500 /\ ~ nec_rate 8800 /\ rc5_rate 8800 /\ ~ rc5_rate 10500) /\
  nec 8500 = Some [mkNec 1 0 false] /\ nec 8800 = Some [] /\
  rc5 8500 = Some [mkRc5 0 0 3 false] /\ rc5 8800 = Some [mkRc5 0 0 3 false] /\ rc5 10500 = Some [].
Proof.
  cbv zeta. split; [|vm_compute; auto 10].
  assert (R : forall bands F lim, (lim <=? F) || bandsb bands F = true <-> (lim <= F \/ within bands F)).
  { intros bands F lim. rewrite orb_true_iff, bandsb_spec, N.leb_le. reflexivity. }
  unfold nec_rate, rc5_rate. rewrite <- !R. vm_compute. repeat split; discriminate || reflexivity.
Qed.
