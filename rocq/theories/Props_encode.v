(** * C24-C26, C52-C55: the encoders, and receiving what they produce *)
From Coq Require Import NArith ZArith List Bool Lia ZifyBool ZifyNat ZifyN.
From Verif Require Import Machine Spec Spec_sender Spec_receiver Spec_state Bits Time Decoder Nec Rc5 Rc6 Receiver Sender
  Time_facts Codec_facts Nec_facts Example_facts Props_codec Props_receiver Encode_facts Roundtrip_facts.
Import ListNotations.
Open Scope N_scope.
Ltac Zify.zify_post_hook ::= Z.div_mod_to_equations.

(** ** C52 *)

(** The variants that can be sent, with their header mark and space in microseconds. *)
Definition nec_senders : list (nec_variant * N * N) :=
  [ (NecStandard, 9000, 4500); (Nec16Bit, 9000, 4500); (NecRaw, 9000, 4500); (NecSamsung, 4500, 4500) ].

(** The program compiles with the encoder at every frequency below 477.219 MHz, and only
    there if the header mark is 9 ms. *)
Theorem C52_nec_encoder_exists :
  forall F V hm hs, In (V, hm, hs) nec_senders ->
  (F < 477219000 -> nec_encoder V F <> None) /\
  (hm = 9000 -> nec_encoder V F <> None -> F < 477219000).
Proof.
  intros F V hm hs Hin.
  assert (HT : nec_timing_ok (nv_timing V) /\ hm = header_high (nv_timing V)).
  { unfold nec_senders in Hin. cbn [In] in Hin.
    destruct Hin as [E|[E|[E|[E|[]]]]]; injection E as <- <- <-; unfold nec_timing_ok; auto. }
  destruct HT as (HT & ->). split.
  - intros HF. destruct (nec_data_some _ F HT HF) as (data & Ed). unfold nec_encoder. rewrite Ed. discriminate.
  - intros E. unfold nec_encoder, nec_data. rewrite E. unfold calc_ticks at 1.
    destruct (N.ltb_spec 1000 F) as [L|L]; [|intros _; lia].
    destruct (N.ltb_spec (F / 1000 * 9000) (2 ^ 32)) as [L2|L2].
    + intros _. change (2 ^ 32) with 4294967296 in L2. lia.
    + intros X. destruct X. reflexivity.
Qed.
Print Assumptions C52_nec_encoder_exists.

(** The encoder writes the 67 entries of the frame, keeps the rest of the buffer and
    panics if there is no room. *)
Theorem C52_nec_encoder :
  forall F V hm hs, In (V, hm, hs) nec_senders -> nec_encoder V F <> None ->
  exists enc, nec_encoder V F = Some (mkEncoder (nv_cmd V) enc) /\
    forall c w buf, nv_pack V c = Val w ->
      enc c buf = written (nec_buffer (khz_ticks F) hm hs w) buf /\
      length (nec_buffer (khz_ticks F) hm hs w) = 67%nat.
Proof.
  intros F V hm hs Hin HF.
  assert (HT : nec_timing_ok (nv_timing V) /\ hm = header_high (nv_timing V) /\ hs = header_low (nv_timing V)).
  { unfold nec_senders in Hin. cbn [In] in Hin.
    destruct Hin as [E|[E|[E|[E|[]]]]]; injection E as <- <- <-; unfold nec_timing_ok; auto. }
  destruct HT as (HT & -> & ->). unfold nec_encoder in HF.
  destruct (nec_data (nv_timing V) F) as [data|] eqn:Ed; [|destruct HF; reflexivity].
  exists (nec_encode V data). split.
  - unfold nec_encoder. rewrite Ed. reflexivity.
  - intros c w buf Ep. split; [apply nec_encode_written; auto|apply nec_buffer_length].
Qed.
Print Assumptions C52_nec_encoder.

(** Each entry is at most the nominal tick count and falls short of it by at most one
    tick and one more per millisecond, lost by counting whole kHz. *)
Theorem C52_ticks_accurate :
  forall F p, 1000 < F ->
  khz_ticks F p <= nominal F p /\ nominal F p <= khz_ticks F p + 1 + p / 1000.
Proof.
  intros F p H. rewrite khz_above by exact H. unfold nominal. rewrite (N.mul_comm p F).
  assert (E : F * p = 1000 * (F / 1000 * p) + F mod 1000 * p).
  { pose proof (N.div_mod F 1000 ltac:(discriminate)) as D.
    rewrite D at 1. rewrite N.mul_add_distr_r, N.mul_assoc. reflexivity. }
  assert (L : F mod 1000 * p <= 999 * p) by (apply N.mul_le_mono_r; lia).
  revert E L. generalize (F / 1000 * p) (F mod 1000 * p) (F * p). clear. intros q r x -> L. lia.
Qed.
Print Assumptions C52_ticks_accurate.

(** At 40 kHz address 7, command 44, in a buffer of 69 entries. *)
Example C52_example :
  match nec_data NEC_STANDARD_TIMING 40000 with
  | Some data => nec_encode NecStandard data (mkNec 7 44 false) (repeat 5 69)
  | None => Panic
  end = Val ([0; 360; 180; 22; 67; 22; 67; 22; 67; 22; 22; 22; 22; 22; 22; 22; 22; 22; 22;
              22; 22; 22; 22; 22; 22; 22; 67; 22; 67; 22; 67; 22; 67; 22; 67;
              22; 22; 22; 22; 22; 67; 22; 67; 22; 22; 22; 67; 22; 22; 22; 22;
              22; 67; 22; 67; 22; 22; 22; 22; 22; 67; 22; 22; 22; 67; 22; 67; 5; 5], 67%nat) /\
  khz_ticks 38400 9000 = 342 /\ nominal 38400 9000 = 345.
Proof. split; [vm_compute; reflexivity|]. split; reflexivity. Qed.

(** ** C53 *)

(** The encoder exists at every frequency.  The first of the 14 bits is always sent as 1,
    whatever the start bits of the command are. *)
Theorem C53_rc5_encoder :
  forall b F, F < 2 ^ 32 ->
  exists enc, rc5_encoder b F = Some (mkEncoder rc5_command enc) /\
    forall a c s t buf, a < 2 ^ 5 -> c < 2 ^ 6 -> s < 2 ^ 2 ->
      enc (mkRc5 a c s t) buf =
        written (rc5_buffer (khz_ticks F 889) (c + 2 ^ 6 * a + 2 ^ 11 * (if t then 1 else 0) + 2 ^ 12 * (s mod 2) + 2 ^ 13)) buf.
Proof.
  intros b F HF.
  assert (El : exists l, rc5_calc_freq F = Some l).
  { unfold rc5_calc_freq. change (2 ^ 32) with 4294967296 in *. destruct (N.ltb_spec 1000 F) as [L|L]; cbv beta iota zeta.
    - rewrite (proj2 (N.ltb_lt _ _)) by lia. eexists. reflexivity.
    - rewrite (proj2 (N.ltb_lt _ _)) by lia. eexists. reflexivity. }
  destruct El as (l & El). exists (rc5_encode b l). split.
  - unfold rc5_encoder. rewrite El. reflexivity.
  - intros a c s t buf Ha Hc Hs. rewrite (rc5_encode_written b F l _ _ El). do 2 f_equal.
    rewrite (rc5_pack_layout a c s t Ha Hc Hs).
    change (2 ^ 5) with 32 in *. change (2 ^ 6) with 64 in *. change (2 ^ 2) with 4 in *.
    change (2 ^ 11) with 2048. change (2 ^ 12) with 4096. change (2 ^ 13) with 8192. clear -Ha Hc Hs. destruct t; cbn [N.b2n]; lia.
Qed.
Print Assumptions C53_rc5_encoder.

(** Every entry after the first is one or two half-bits; there are at most 27. *)
Theorem C53_rc5_runs :
  forall l w, N.testbit w 13 = true ->
  (length (rc5_buffer l w) <= 27)%nat /\
  exists rest, rc5_buffer l w = 0 :: rest /\ Forall (fun x => x = l \/ x = 2 * l) rest.
Proof.
  intros l w H13. unfold rc5_buffer, rc5_wave. rewrite bits_msb_S. change (N.of_nat 13) with 13. rewrite H13.
  cbn [flat_map rc5_half app level_edges Bool.eqb tl]. split.
  - cbn [length]. rewrite map_length.
    assert (G : forall ls c n, (length (level_edges c n ls) <= length ls)%nat).
    { induction ls as [|x ls IH]; intros c n; cbn [level_edges length]; auto.
      destruct (Bool.eqb x c); [apply le_S, IH|]. cbn [length]. apply le_n_S, IH. }
    specialize (G (flat_map rc5_half (bits_msb 13 w)) true 1).
    assert (L : length (flat_map rc5_half (bits_msb 13 w)) = 26%nat).
    { rewrite (flat_map_const _ 2%nat) by (intros []; reflexivity). rewrite bits_msb_length. reflexivity. }
    rewrite L in G. apply le_n_S, G.
  - eexists. split; [reflexivity|]. pose proof (rc5_runs (bits_msb 13 w) true) as R.
    induction R as [|x xs Hx Hxs IH]; cbn [map]; constructor; auto. destruct Hx as [-> | ->]; lia.
Qed.
Print Assumptions C53_rc5_runs.

Example C53_example :
  match rc5_calc_freq 40000 with
  | Some l => rc5_encode (debug_build 32) l (mkRc5 20 9 3 false) (repeat 7 30)
  | None => Panic
  end = Val ([0; 35; 35; 70; 70; 70; 70; 70; 35; 35; 35; 35; 35; 35; 70; 70; 35; 35; 70; 7; 7; 7; 7; 7; 7; 7; 7; 7; 7; 7], 19%nat).
Proof. vm_compute. reflexivity. Qed.

(** ** C54 *)

Theorem C54_rc6_encoder :
  forall b F, 444 * F < 2 ^ 32 ->
  exists enc, rc6_encoder b F = Some (mkEncoder rc6_command enc) /\
    forall a c t buf, a < 2 ^ 8 -> c < 2 ^ 8 ->
      enc (mkRc6 a c t) buf = written (rc6_buffer (nominal F 444) t (2 ^ 8 * a + c)) buf /\
      (length (rc6_buffer (nominal F 444) t (2 ^ 8 * a + c)) <= 44)%nat /\
      hd_error (rc6_buffer (nominal F 444) t (2 ^ 8 * a + c)) = Some 0.
Proof.
  intros b F HF. exists (rc6_encode b (nominal F 444)).
  assert (El : rc6_data_len F = Some (nominal F 444)).
  { unfold rc6_data_len. rewrite (proj2 (N.ltb_lt _ _)) by exact HF. reflexivity. }
  split; [unfold rc6_encoder; rewrite El; reflexivity|].
  intros a c t buf Ha Hc. split; [|split].
  - apply rc6_encode_written; auto.
  - unfold rc6_buffer. rewrite map_length. unfold rc6_wave. rewrite <- !app_assoc. generalize (2 ^ 8 * a + c). intros w.
    assert (G : forall ls c n, (length (level_edges c n ls) <= length ls)%nat).
    { clear. induction ls as [|x ls IH]; intros c n; cbn [level_edges length]; auto.
      destruct (Bool.eqb x c); [apply le_S, IH|]. cbn [length]. apply le_n_S, IH. }
    assert (L : length (flat_map rc6_half (bits_msb 16 w) ++ [false]) = 33%nat).
    { rewrite app_length, (flat_map_const _ 2%nat) by (intros []; reflexivity). rewrite bits_msb_length. reflexivity. }
    assert (G' : forall c n, (length (level_edges c n (flat_map rc6_half (bits_msb 16 w) ++ [false])) <= 33)%nat)
      by (intros; rewrite <- L; apply G).
    destruct t; cbn [rc6_half app level_edges Bool.eqb length];
      match goal with |- context [level_edges ?c ?n ?l] => specialize (G' c n) end; lia.
  - unfold rc6_buffer, rc6_wave. cbn [app level_edges Bool.eqb map snd hd_error]. rewrite N.mul_0_r. reflexivity.
Qed.
Print Assumptions C54_rc6_encoder.

Example C54_example :
  match rc6_data_len 40000 with
  | Some l => rc6_encode (debug_build 32) l (mkRc6 5 32 true) (repeat 9 44)
  | None => Panic
  end = Val ([0; 102; 34; 17; 34; 17; 17; 17; 17; 51; 51; 17; 17; 17; 17; 17; 17; 17; 17; 34; 34; 34; 34; 17; 17; 34; 34;
             17; 17; 17; 17; 17; 17; 17; 17; 17; 9; 9; 9; 9; 9; 9; 9; 9], 36%nat).
Proof. vm_compute. reflexivity. Qed.

(** ** C55 *)

(** Refuted: encoding an AppleNec command panics. *)
Theorem C55_apple_encode_refuted :
  exists enc, nec_encoder NecApple 38000 = Some (mkEncoder apple_command enc) /\
    exists c buf, (67 <= length buf)%nat /\ nv_unpack NecApple 1510115310 false = Some c /\ enc c buf = Panic.
Proof.
  destruct (nec_data NEC_STANDARD_TIMING 38000) as [data|] eqn:E; [|discriminate E].
  exists (nec_encode NecApple data). split; [unfold nec_encoder; cbn [nv_timing NecApple]; rewrite E; reflexivity|].
  vm_compute in E. apply some_inj in E. subst data.
  eexists. exists (repeat 0 67). split; [apply le_n|]. split; vm_compute; reflexivity.
Qed.
Print Assumptions C55_apple_encode_refuted.

(** ** C24 *)

(** A buffer whose edges give a single command and no error, read by the buffer iterator. *)
Lemma collect_outcomes b m P F C (into : dcmd (p_dec P) -> C) buf os :
  In P (parsing_protocols b m) -> outcomes_of P F into (alternating true buf) = Val os ->
  Forall (fun o => match o with ROk _ => True | RErr _ => False end) os ->
  exists it0 it, iter_new P F buf = Val it0 /\ collect into it0 = Val (it, commands os).
Proof.
  intros HP E Ho. unfold outcomes_of in E.
  destruct (receiver_new P F) as [r0| |] eqn:Er; cbn [bind] in E; try discriminate.
  destruct (run_edges into r0 (alternating true buf)) as [[r os']| |] eqn:E1; cbn [bind outs] in E; try discriminate.
  assert (os' = os) as -> by congruence.
  assert (Ei : exists it0, iter_new P F buf = Val it0).
  { unfold receiver_new in Er. unfold iter_new. destruct (p_build P F) as [d| |]; cbn [bind] in *; try discriminate. eexists. reflexivity. }
  destruct Ei as (it0 & Ei).
  destruct (C48_buffer_partial b m P F buf C into r0 r os it0 HP Er Ei E1) as ((it & Ec) & _).
  exists it0, it. rewrite Ec, commands_cbe by exact Ho. auto.
Qed.

Lemma commands_single {C} i j (c : C) :
  commands (repeat (ROk None) i ++ ROk (Some c) :: repeat (ROk None) j : list (outcome C)) = [c] /\
  Forall (fun o : outcome C => match o with ROk _ => True | RErr _ => False end) (repeat (ROk None) i ++ ROk (Some c) :: repeat (ROk None) j).
Proof.
  split.
  - assert (Z : forall k, commands (repeat (ROk None) k : list (outcome C)) = []).
    { induction k as [|k IH]; auto. }
    unfold commands in *. rewrite flat_map_app. rewrite Z. cbn [flat_map app]. rewrite Z. reflexivity.
  - assert (Z : forall k, Forall (fun o : outcome C => match o with ROk _ => True | RErr _ => False end) (repeat (ROk None) k)).
    { induction k as [|k IH]; cbn [repeat]; auto. }
    apply Forall_app. split; auto.
Qed.

(** What is sent arrives: the entries written by the encoder [enc] of [V] at frequency [F]
    give a receiver at the same frequency exactly [got], with the last one, and the buffer
    iterator yields just that. *)
Definition nec_arrives_from (b : build) (m : mono) (F : N) (V : nec_variant) (enc : nv_cmd V -> list N -> res (list N * nat))
    (sent got : nv_cmd V) : Prop :=
  forall buf C (into : nv_cmd V -> C), (67 <= length buf)%nat ->
  exists buf', enc sent buf = Val (buf', 67%nat) /\
    outcomes_of (nec_protocol b m V) F into (alternating true (firstn 67 buf')) =
      Val (repeat (ROk None) 66 ++ [ROk (Some (into got))]) /\
    exists it0 it, iter_new (nec_protocol b m V) F (firstn 67 buf') = Val it0 /\
      collect (D := nec_dec b m V) into it0 = Val (it, [into got]).
Definition nec_arrives (b : build) (m : mono) (F : N) (V : nec_variant) (sent got : nv_cmd V) : Prop :=
  exists enc, nec_encoder V F = Some (mkEncoder (nv_cmd V) enc) /\ nec_arrives_from b m F V enc sent got.

Lemma nec_arrives_data b m F V hm hs sent got w data : In (V, hm, hs) nec_senders ->
  timebase m F -> nec_floor V <= F -> F < 2 ^ 32 -> nec_data (nv_timing V) F = Some data -> w < 2 ^ 32 ->
  nv_pack V sent = Val w -> nv_unpack V w false = Some got -> nec_arrives_from b m F V (nec_encode V data) sent got.
Proof.
  intros Hin Hm Hlo HF Ed Hw Ep Eu buf C into Hb.
  assert (HT : nec_timing_ok (nv_timing V) /\ hm = header_high (nv_timing V) /\ hs = header_low (nv_timing V) /\
     In (nec_protocol b m V) (parsing_protocols b m)).
  { unfold nec_senders in Hin. cbn [In] in Hin.
    destruct Hin as [E|[E|[E|[E|[]]]]]; injection E as <- <- <-; unfold nec_timing_ok, parsing_protocols; cbn [In]; auto 10. }
  destruct HT as (HT & -> & -> & HP).
  pose proof (nec_encode_written V F data sent w buf HT Ed Ep) as E1.
  pose proof (nec_buffer_length (khz_ticks F) (header_high (nv_timing V)) (header_low (nv_timing V)) w) as L.
  rewrite written_val in E1 by (rewrite L; exact Hb). rewrite L in E1.
  eexists. split; [exact E1|]. rewrite <- L at 1 2. rewrite firstn_written.
  assert (R : outcomes_of (nec_protocol b m V) F into
      (alternating true (nec_buffer (khz_ticks F) (header_high (nv_timing V)) (header_low (nv_timing V)) w)) =
      Val (repeat (ROk None) 66 ++ [ROk (Some (into got))])).
  { rewrite nec_receives; auto. rewrite Eu; reflexivity. }
  split; [exact R|].
  destruct (@commands_single C 66 0 (into got)) as (S1 & S2). cbn [repeat] in S1, S2.
  destruct (collect_outcomes b m (nec_protocol b m V) F C into _ _ HP R S2) as (it0 & it & I1 & I2).
  exists it0, it. split; [exact I1|]. rewrite <- S1. exact I2.
Qed.

Lemma nec_arrives_word b m F V hm hs sent got w : In (V, hm, hs) nec_senders ->
  timebase m F -> nec_floor V <= F -> F < 2 ^ 32 -> nec_encoder V F <> None -> w < 2 ^ 32 ->
  nv_pack V sent = Val w -> nv_unpack V w false = Some got -> nec_arrives b m F V sent got.
Proof.
  intros Hin Hm Hlo HF Hhi Hw Ep Eu. unfold nec_encoder in Hhi.
  destruct (nec_data (nv_timing V) F) as [data|] eqn:Ed; [|destruct Hhi; reflexivity].
  exists (nec_encode V data). split; [unfold nec_encoder; rewrite Ed; reflexivity|].
  apply (nec_arrives_data b m F V hm hs sent got w data); auto.
Qed.

Theorem C24_nec_roundtrip :
  forall b m F a c rep, timebase m F -> 13000 <= F -> F < 2 ^ 32 -> nec_encoder NecStandard F <> None -> a < 2 ^ 8 -> c < 2 ^ 8 ->
  nec_arrives b m F NecStandard (mkNec a c rep) (mkNec a c false).
Proof.
  intros b m F a c rep Hm Hlo HF Hhi Ha Hc. destruct (C01_nec_words a c rep false Ha Hc) as (w & Ep & Ew & Eu).
  apply (nec_arrives_word b m F NecStandard 9000 4500 _ _ w); auto; [left; reflexivity|].
  rewrite Ew. apply bytes4_lt; unfold compl8; pows; lia.
Qed.
Print Assumptions C24_nec_roundtrip.

Theorem C24_nec16_roundtrip :
  forall b m F a c rep, timebase m F -> 13000 <= F -> F < 2 ^ 32 -> nec_encoder Nec16Bit F <> None -> a < 2 ^ 16 -> c < 2 ^ 8 ->
  nec_arrives b m F Nec16Bit (mkNec16 a c rep) (mkNec16 a c false).
Proof.
  intros b m F a c rep Hm Hlo HF Hhi Ha Hc. destruct (C01_nec16_words a c rep false Ha Hc) as (w & Ep & Ew & Eu).
  apply (nec_arrives_word b m F Nec16Bit 9000 4500 _ _ w); auto; [right; left; reflexivity|].
  rewrite Ew. apply bytes4_lt; unfold compl8; pows; lia.
Qed.
Print Assumptions C24_nec16_roundtrip.

Theorem C24_samsung_roundtrip :
  forall b m F a c rep, timebase m F -> 14000 <= F -> F < 2 ^ 32 -> nec_encoder NecSamsung F <> None -> a < 2 ^ 8 -> c < 2 ^ 8 ->
  nec_arrives b m F NecSamsung (mkSamsung a c rep) (mkSamsung a c false).
Proof.
  intros b m F a c rep Hm Hlo HF Hhi Ha Hc. destruct (C01_samsung_words a c rep false Ha Hc) as (w & Ep & Ew & Eu).
  apply (nec_arrives_word b m F NecSamsung 4500 4500 _ _ w); auto; [do 3 right; left; reflexivity|].
  rewrite Ew. apply bytes4_lt; unfold compl8; pows; lia.
Qed.
Print Assumptions C24_samsung_roundtrip.

Theorem C24_raw_roundtrip :
  forall b m F w, timebase m F -> 13000 <= F -> F < 2 ^ 32 -> nec_encoder NecRaw F <> None -> w < 2 ^ 32 ->
  nec_arrives b m F NecRaw (mkNecDebug w) (mkNecDebug w).
Proof.
  intros b m F w Hm Hlo HF Hhi Hw.
  apply (nec_arrives_word b m F NecRaw 9000 4500 _ _ w); auto. do 2 right; left; reflexivity.
Qed.
Print Assumptions C24_raw_roundtrip.

(** The limit is sharp: without it the claim is false. *)
Theorem C24_limit_sharp :
  exists data, nec_data NEC_STANDARD_TIMING 12999 = Some data /\
  exists buf n, nec_encode NecStandard data (mkNec 7 44 false) (repeat 0 67) = Val (buf, n) /\
    outcomes (nec_protocol (debug_build 32) MU32 NecStandard) 12999 (alternating true buf) <>
    Some (repeat (ROk None) 66 ++ [ROk (Some (mkNec 7 44 false))]).
Proof.
  destruct (nec_data NEC_STANDARD_TIMING 12999) as [data|] eqn:E; [|discriminate E].
  exists data. split; [reflexivity|]. vm_compute in E. apply some_inj in E. subst data.
  eexists. eexists. split; [vm_compute; reflexivity|]. vm_compute. discriminate.
Qed.
Print Assumptions C24_limit_sharp.

(** Sending address 7, command 44 at 38 kHz and receiving it there. *)
Example C24_example :
  match nec_data NEC_STANDARD_TIMING 38000 with
  | Some data => match nec_encode NecStandard data (mkNec 7 44 true) (repeat 5 70) with
                 | Val (buf, n) => collected (nec_protocol (debug_build 32) MU32 NecStandard) 38000 (firstn n buf)
                 | _ => None
                 end
  | None => None
  end = Some [mkNec 7 44 false].
Proof. vm_compute. reflexivity. Qed.

(** ** C25 *)

Theorem C25_rc5_roundtrip :
  forall b m F a c s t, timebase m F -> 13000 <= F -> F < 2 ^ 32 -> 8 <= usize_bits b ->
  a < 2 ^ 5 -> c < 2 ^ 6 -> s = 2 \/ s = 3 ->
  exists enc, rc5_encoder b F = Some (mkEncoder rc5_command enc) /\
  forall buf C (into : rc5_command -> C), (27 <= length buf)%nat ->
  exists buf' n j, enc (mkRc5 a c s t) buf = Val (buf', n) /\
    outcomes_of (rc5_protocol b m) F into (alternating true (firstn n buf')) =
      Val (repeat (ROk None) j ++ [ROk (Some (into (mkRc5 a c s t)))]) /\
    exists it0 it, iter_new (rc5_protocol b m) F (firstn n buf') = Val it0 /\
      collect (D := rc5_dec b) into it0 = Val (it, [into (mkRc5 a c s t)]).
Proof.
  intros b m F a c s t Hm Hlo Hf Hu Ha Hc Hs. destruct (C53_rc5_encoder b F Hf) as (enc & Ee & Hw).
  exists enc. split; [exact Ee|]. intros buf C into Hb.
  assert (Hs4 : s < 2 ^ 2) by (change (2 ^ 2) with 4; lia).
  specialize (Hw a c s t buf Ha Hc Hs4).
  destruct (C05_rc5_unpack_pack a c s t Ha Hc Hs4) as (Ep & Eu).
  assert (Ew : c + 2 ^ 6 * a + 2 ^ 11 * (if t then 1 else 0) + 2 ^ 12 * (s mod 2) + 2 ^ 13 = rc5_pack (mkRc5 a c s t)).
  { rewrite Ep. destruct Hs as [-> | ->]; lia. }
  rewrite Ew in Hw. set (w := rc5_pack (mkRc5 a c s t)) in *.
  assert (Lw : w < 2 ^ 14).
  { rewrite Ep. change (2 ^ 5) with 32 in *. change (2 ^ 6) with 64 in *. change (2 ^ 2) with 4 in *.
    change (2 ^ 11) with 2048. change (2 ^ 12) with 4096. change (2 ^ 14) with 16384. clear -Ha Hc Hs4. destruct t; lia. }
  assert (H13 : N.testbit w 13 = true).
  { rewrite <- Ew. rewrite N.add_comm.
    set (x := c + 2 ^ 6 * a + 2 ^ 11 * (if t then 1 else 0) + 2 ^ 12 * (s mod 2)).
    assert (x < 2 ^ 13).
    { unfold x. change (2 ^ 5) with 32 in *. change (2 ^ 6) with 64 in *. change (2 ^ 13) with 8192.
      change (2 ^ 11) with 2048. change (2 ^ 12) with 4096. clear -Ha Hc. destruct t; lia. }
    replace (2 ^ 13 + x) with (x + 1 * 2 ^ 13) by (clear; lia).
    rewrite <- lor_add by exact H. rewrite N.lor_spec, N.shiftl_spec_high'; [|lia]. apply orb_true_r. }
  destruct (C53_rc5_runs (khz_ticks F 889) w H13) as (L & _).
  destruct (rc5_receives b m F C into w Hm Hf Hu Hlo Lw H13) as (j & R).
  rewrite written_val in Hw by (eapply Nat.le_trans; [exact L|exact Hb]).
  rewrite Eu in R.
  eexists. eexists. exists j. split; [exact Hw|]. rewrite firstn_written. split; [exact R|].
  destruct (@commands_single C j 0 (into (mkRc5 a c s t))) as (S1 & S2). cbn [repeat] in S1, S2.
  destruct (collect_outcomes b m (rc5_protocol b m) F C into _ _ ltac:(unfold parsing_protocols; cbn [In]; auto 10) R S2)
    as (it0 & it & I1 & I2).
  exists it0, it. split; [exact I1|]. rewrite <- S1. exact I2.
Qed.
Print Assumptions C25_rc5_roundtrip.

Example C25_example :
  match rc5_calc_freq 38000 with
  | Some l => match rc5_encode (debug_build 32) l (mkRc5 20 9 3 true) (repeat 5 70) with
              | Val (buf, n) => collected (rc5_protocol (debug_build 32) MU32) 38000 (firstn n buf)
              | _ => None
              end
  | None => None
  end = Some [mkRc5 20 9 3 true].
Proof. vm_compute. reflexivity. Qed.

(** ** C26 *)

(** Refuted: at 20 kHz the leader is taken for a shorter pulse and the command is lost. *)
Theorem C26_rc6_roundtrip_refuted :
  exists l buf n, rc6_data_len 20000 = Some l /\
    rc6_encode (debug_build 32) l (mkRc6 5 32 true) (repeat 0 44) = Val (buf, n) /\
    outcomes (rc6_protocol (debug_build 32) MU32) 20000 (alternating true (firstn n buf)) = Some (repeat (ROk None) n).
Proof.
  exists 8. eexists. eexists. split; [vm_compute; reflexivity|]. split; [vm_compute; reflexivity|]. vm_compute. reflexivity.
Qed.
Print Assumptions C26_rc6_roundtrip_refuted.

(** What holds: at the rates of [rc6_rate], among them all from 27028 Hz on (up to where the
    encoder exists), every command arrives.  Missing: the other frequencies, where none does
    (C87). *)
Theorem C26_rc6_roundtrip_partial :
  forall b m F a c t, timebase m F -> rc6_rate F -> 444 * F < 2 ^ 32 -> 8 <= usize_bits b ->
  a < 2 ^ 8 -> c < 2 ^ 8 ->
  exists enc, rc6_encoder b F = Some (mkEncoder rc6_command enc) /\
  forall buf C (into : rc6_command -> C), (44 <= length buf)%nat ->
  exists buf' n i j, enc (mkRc6 a c t) buf = Val (buf', n) /\
    outcomes_of (rc6_protocol b m) F into (alternating true (firstn n buf')) =
      Val (repeat (ROk None) i ++ ROk (Some (into (mkRc6 a c t))) :: repeat (ROk None) j) /\ (j <= 1)%nat /\
    exists it0 it, iter_new (rc6_protocol b m) F (firstn n buf') = Val it0 /\
      collect (D := rc6_dec b) into it0 = Val (it, [into (mkRc6 a c t)]).
Proof.
  intros b m F a c t Hm Hlo Hf Hu Ha Hc. destruct (C54_rc6_encoder b F Hf) as (enc & Ee & Hw).
  exists enc. split; [exact Ee|]. intros buf C into Hb.
  destruct (Hw a c t buf Ha Hc) as (E1 & L & _).
  assert (Lw : 2 ^ 8 * a + c < 2 ^ 16) by (pows; lia).
  assert (HF : F < 2 ^ 32) by (clear -Hf; change (2 ^ 32) with 4294967296 in *; lia).
  destruct (rc6_receives b m F C into t (2 ^ 8 * a + c) Hm HF Hu Hlo Lw) as (i & j & R & Hj).
  rewrite (C06_rc6_word a c t Ha Hc) in R.
  rewrite written_val in E1 by (eapply Nat.le_trans; [exact L|exact Hb]).
  eexists. eexists. exists i, j. split; [exact E1|]. rewrite firstn_written. split; [exact R|]. split; [exact Hj|].
  destruct (@commands_single C i j (into (mkRc6 a c t))) as (S1 & S2).
  destruct (collect_outcomes b m (rc6_protocol b m) F C into _ _ ltac:(unfold parsing_protocols; cbn [In]; auto 10) R S2)
    as (it0 & it & I1 & I2).
  exists it0, it. split; [exact I1|]. rewrite <- S1. exact I2.
Qed.
Print Assumptions C26_rc6_roundtrip_partial.

Example C26_example :
  match rc6_data_len 38000 with
  | Some l => match rc6_encode (debug_build 32) l (mkRc6 70 2 true) (repeat 5 70) with
              | Val (buf, n) => collected (rc6_protocol (debug_build 32) MU32) 38000 (firstn n buf)
              | _ => None
              end
  | None => None
  end = Some [mkRc6 70 2 true].
Proof. vm_compute. reflexivity. Qed.
