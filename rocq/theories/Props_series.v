(** * C83: commands sent one after another reach a poller *)
From Coq Require Import NArith ZArith List Bool Lia ZifyBool ZifyNat ZifyN.
From Verif Require Import Machine Spec Spec_sender Spec_receiver Bits Time Decoder Nec Rc5 Rc6 Receiver Sender
  Time_facts Window_facts Codec_facts Run_facts Nec_facts Rc5_facts Rc6_facts Keys_facts Example_facts Props_codec Props_receiver Encode_facts
  Roundtrip_facts Props_encode Sender_facts Air_facts Poll_facts Props_sender State_facts Apps Spec_apps AppSender_facts Series_facts.
Import ListNotations.
Open Scope N_scope.
Ltac Zify.zify_post_hook ::= Z.div_mod_to_equations.

(** The program of [sends]: for each command of the list in turn, [load] it into the
    sender and call [tick] the given number of times.  The pin levels of all these ticks are
    handed to a [PeriodicPoll], one [poll] per tick.

    [delivered]: the poller reports what [got] says, one report per command, in order, and
    nothing else, and the sender is ready for the next command. *)
Definition delivered (P : protocol) (F : N) (e : encoder) (h : hal_sender) (l : list (e_cmd e * nat))
    (got : e_cmd e -> dcmd (p_dec P)) : Prop :=
  forall C (into : dcmd (p_dec P) -> C), exists p0 h' levels os,
    poll_new P F = Val p0 /\ sends e h l = Val (h', levels) /\ idle h' /\
    outs (run_polls into p0 levels) = Val os /\ length os = length levels /\
    commands os = map (fun x => into (got (fst x))) l /\
    Forall (fun o => match o with ROk _ => True | RErr _ => False end) os.

(** Ticked for [ms] milliseconds and one more tick per buffer entry, at most 2^31 ticks. *)
Definition ticked (F ms : N) (size : nat) (k : nat) : Prop :=
  ms * F + 1000 * N.of_nat size <= 1000 * N.of_nat k /\ N.of_nat k < 2 ^ 31.

Lemma ticked_enough F a c size k : (a + c) * F + 1000 * N.of_nat size <= 1000 * k -> a * F / 1000 + N.of_nat size + c * F / 1000 <= k.
Proof. intros H. set (x := a * F) in *. set (y := c * F) in *. assert (x + y + 1000 * N.of_nat size <= 1000 * k) by (unfold x, y; clear -H; nia). clear -H0. lia. Qed.

Lemma poll_of P F r0 : receiver_new P F = Val r0 -> exists p0, poll_new P F = Val p0.
Proof. unfold receiver_new, poll_new. destruct (p_build P F) as [d| |]; cbn [bind]; try discriminate. eauto. Qed.

(** ** The NEC family *)
Lemma khz_le F p : 1000 < F -> 1000000 * khz_ticks F p <= F * p.
Proof.
  intros H. rewrite khz_above by exact H. set (x := F / 1000 * p).
  assert (A : 1000 * (F / 1000) <= F) by (apply N.mul_div_le; discriminate).
  assert (B : 1000 * (x / 1000) <= x) by (apply N.mul_div_le; discriminate).
  apply N.mul_le_mono_r with (p := p) in A. replace (1000 * (F / 1000) * p) with (1000 * x) in A by (unfold x; ring). clear -A B. lia.
Qed.

Lemma nec_buffer_total F hm hs w : 1000 < F -> hm <= 9000 -> hs <= 9000 ->
  1000 * total (tl (nec_buffer (khz_ticks F) hm hs w)) <= 90 * F.
Proof.
  intros HF H1 H2. unfold nec_buffer. cbn [tl]. 
  assert (K : forall l : list bool, 1000000 * total (flat_map (fun bit : bool => [khz_ticks F 560; khz_ticks F (if bit then 1690 else 560)]) l) <= F * (2250 * N.of_nat (length l))).
  { induction l as [|x l IH]; [cbn; lia|]. cbn [flat_map app total fold_right length]. unfold total in IH.
    pose proof (khz_le F 560 HF). pose proof (khz_le F (if x then 1690 else 560) HF).
    assert (F * (if x then 1690 else 560) <= F * 1690) by (apply N.mul_le_mono_l; destruct x; lia).
    rewrite Nat2N.inj_succ. lia. }
  specialize (K (bits_lsb 32 w)). rewrite bits_lsb_length in K. change (N.of_nat 32) with 32 in K.
  cbn [total fold_right]. unfold total in K. pose proof (khz_le F hm HF) as A. pose proof (khz_le F hs HF) as B.
  apply N.mul_le_mono_l with (p := F) in H1. apply N.mul_le_mono_l with (p := F) in H2. lia.
Qed.

Lemma nec_delivered b m F V hm hs data size l h (word : nv_cmd V -> N) (got : nv_cmd V -> nv_cmd V) :
  In (V, hm, hs) nec_senders -> timebase m F -> nec_floor V <= F -> F < 2 ^ 32 -> nec_data (nv_timing V) F = Some data ->
  (67 <= size)%nat -> idle h -> length (contents h) = size -> Forall (fun e => e <= 1) (skipn 67 (contents h)) ->
  Forall (fun x => (word (fst x) < 2 ^ 32 /\ nv_pack V (fst x) = Val (word (fst x)) /\ nv_unpack V (word (fst x)) false = Some (got (fst x))) /\
                   ticked F 110 size (snd x)) l ->
  delivered (nec_protocol b m V) F (mkEncoder (nv_cmd V) (nec_encode V data)) h l got.
Proof.
  intros Hin Hm Hlo HF Ed H67 Hi HL Hz Hl C into.
  assert (HT : nec_timing_ok (nv_timing V) /\ hm = header_high (nv_timing V) /\ hs = header_low (nv_timing V) /\
    4500 <= hm /\ hm <= 9000 /\ 4500 <= hs /\ hs <= 4500).
  { unfold nec_senders in Hin. cbn [In] in Hin.
    destruct Hin as [E|[E|[E|[E|[]]]]]; injection E as <- <- <-; unfold nec_timing_ok; cbn; intuition (lia || auto). }
  destruct HT as (HT & Ehm & Ehs & B1 & B2 & B3 & B4).
  assert (H13 : 13000 <= F) by (unfold nec_floor in Hlo; destruct HT as [E|E]; rewrite E in Hlo; cbn in Hlo; lia).
  pose proof (nec_new_val b m F V Hm HF HT) as Er. destruct (poll_of _ _ _ Er) as (p0 & Ep). exists p0.
  set (ss := spans_of m F (nec_pulses (nv_timing V))) in *.
  destruct (series_polled (nec_protocol b m V) (mkEncoder (nv_cmd V) (nec_encode V data)) C into
    (fun B => length B = size /\ Forall (fun e => e <= 1) (skipn 67 B))
    (fun c => word c < 2 ^ 32 /\ nv_pack V c = Val (word c) /\ nv_unpack V (word c) false = Some (got c))
    (fun c => into (got c))
    (fun r g => exists buf sv, r = @mkRecv (nec_dec b m V) (mkNecDec NInit buf sv ss) 0 /\ sv <= 1 /\
                  (g <= 1 \/ (longer F (hm + hs) 7 g /\ g < 2 ^ 31)))
    (90 * F / 1000 + N.of_nat size) (20 * F / 1000)) with (F := F) (p0 := p0) (h := h) (l := l)
    (r0 := @mkRecv (nec_dec b m V) (mkNecDec NInit 0 0 ss) 0)
    as (h' & levels & os & H1 & H2 & H3 & H4 & H5 & H6); auto.
  - clear -H13. lia.
  - intros c B (Hw & Epk & Eu) (LB & HB). set (w := word c) in *.
    pose proof (nec_encode_written V F data c w B HT Ed Epk) as E1. rewrite <- Ehm, <- Ehs in E1.
    pose proof (nec_buffer_length (khz_ticks F) hm hs w) as L.
    rewrite written_val in E1 by (rewrite L; lia). rewrite L in E1.
    destruct (nec_buffer_tail F hm hs w H13 HF B1 B2 B3 ltac:(lia)) as (Et & Hv).
    assert (Lt : length (tl (nec_buffer (khz_ticks F) hm hs w)) = 66%nat) by reflexivity.
    pose proof (nec_buffer_total F hm hs w ltac:(lia) B2 ltac:(lia)) as Tt.
    rewrite Et in E1. cbn [app] in E1.
    exists (tl (nec_buffer (khz_ticks F) hm hs w)), (skipn 67 B), 67%nat. split; [exact E1|].
    assert (Lz : length (skipn 67 B) = (size - 67)%nat) by (rewrite skipn_length; lia).
    split; [|split; [exact Hv|split; [|split]]].
    + split; [cbn [length]; rewrite app_length, Lt, Lz; lia|].
      change (0 :: tl (nec_buffer (khz_ticks F) hm hs w) ++ skipn 67 B) with ((0 :: tl (nec_buffer (khz_ticks F) hm hs w)) ++ skipn 67 B).
      rewrite skipn_app. cbn [length]. rewrite Lt, Nat.sub_diag, skipn_all2 by (cbn [length]; lia). exact HB.
    + eapply Forall_impl; [|exact HB]. cbv beta. intros x Hx. change (2 ^ 32) with 4294967296. lia.
    + change (pin_wave (0 :: tl (nec_buffer (khz_ticks F) hm hs w) ++ skipn 67 B)) with (held true (tl (nec_buffer (khz_ticks F) hm hs w) ++ skipn 67 B)).
      rewrite held_length, map_app, total_app, (total_ones _ HB), (max_one _ Hv), Lz. clear -Tt H67. lia.
    + intros r g on t (buf & sv & -> & Hsv & Hg) Ht.
      assert (Ev : event_edge (D := nec_dec b m V) into (@mkRecv (nec_dec b m V) (mkNecDec NInit buf sv ss) 0) g true =
         Val (@mkRecv (nec_dec b m V) (mkNecDec NInit buf 0 ss) 0, ROk None)).
      { destruct Hg as [Hg|(Hg & Hg2)].
        - apply nec_still; auto.
        - apply idle_gap; auto.
          + lia.
          + change (2 ^ 31) with 2147483648 in Hg2. change (2 ^ 32) with 4294967296. lia.
          + rewrite <- Ehm, <- Ehs. exact Hg. }
      pose proof (nec_run_buffer_any b m F V C into w buf sv g Hm HF HT Hlo Hw Ev) as R. rewrite <- Ehm, <- Ehs, Eu in R.
      set (tail := alternating on (map (N.max 1) (skipn 67 B)) ++ t).
      assert (Htail : Forall (fun e : edge => snd e = 1) tail).
      { unfold tail. apply Forall_app. split.
        - apply (alternating_snd _ on (fun x => x = 1)). clear -HB. induction HB as [|z zs Hz1 Hz2 IH]; cbn [map]; constructor; auto. lia.
        - destruct Ht as [-> | ->]; repeat constructor. }
      destruct (nec_quiet_any b m F V C into tail Hm HF HT H13 Htail w 0 0 ltac:(lia)) as (sv' & Hsv' & Q).
      do 2 eexists. split; [|split; [|split]].
      * pose proof (run_edges_app_val into _ _ _ _ _ _ _ R Q) as R2. exact R2.
      * refine (eq_trans (commands_app _ _) _). rewrite commands_none, app_nil_r. apply (commands_one 66 0).
      * apply Forall_app. split; [apply (quiet_one 66 0)|apply quiet_none].
      * intros g' Hg' Hg2'. exists w, sv'. split; [reflexivity|]. split; [exact Hsv'|]. right. split; [|exact Hg2'].
        unfold longer, nominal. clear -Hg' B2 B4 H13.
        assert (F * (hm + hs) <= F * 13500) by (apply N.mul_le_mono_l; lia). lia.
  - exists 0, 0. split; [reflexivity|]. split; [lia|]. left. lia.
  - eapply Forall_impl; [|exact Hl]. cbv beta. intros x (H1 & H2 & H3). split; [exact H1|]. split; [|exact H3]. exact (ticked_enough F 90 20 size _ H2).
  - exists h', levels, os. split; [exact Ep|]. split; [exact H1|]. split; [exact H2|]. split; [exact H3|]. split; [exact H4|]. split; [exact H5|exact H6].
Qed.

Theorem C83_nec :
  forall b m F size h l, timebase m F -> 13000 <= F -> F < 2 ^ 32 -> nec_encoder NecStandard F <> None ->
  (67 <= size)%nat -> idle h -> length (contents h) = size -> Forall (fun e => e <= 1) (skipn 67 (contents h)) ->
  Forall (fun x => nec_addr (fst x) < 2 ^ 8 /\ nec_cmd (fst x) < 2 ^ 8 /\ ticked F 110 size (snd x)) l ->
  exists enc, nec_encoder NecStandard F = Some (mkEncoder nec_command enc) /\
    delivered (nec_protocol b m NecStandard) F (mkEncoder nec_command enc) h l (fun c => mkNec (nec_addr c) (nec_cmd c) false).
Proof.
  intros b m F size h l Hm Hlo HF Hne H67 Hi HL Hz Hl. unfold nec_encoder in Hne.
  destruct (nec_data (nv_timing NecStandard) F) as [data|] eqn:Ed; [|destruct Hne; reflexivity].
  exists (nec_encode NecStandard data). split; [unfold nec_encoder; rewrite Ed; reflexivity|].
  apply (nec_delivered b m F NecStandard 9000 4500 data size l h
    (fun c => bytes4 (nec_addr c) (compl8 (nec_addr c)) (nec_cmd c) (compl8 (nec_cmd c)))); auto; [left; reflexivity|].
  eapply Forall_impl; [|exact Hl]. intros [[a c rep] k] (Ha & Hc & Hk). cbn [fst snd nec_addr nec_cmd] in *. split; [|exact Hk].
  destruct (C01_nec_words a c rep false Ha Hc) as (w & Epk & Ew & Eu). rewrite <- Ew. split; [|split; assumption].
  rewrite Ew. apply bytes4_lt; unfold compl8; pows; lia.
Qed.
Print Assumptions C83_nec.

Theorem C83_nec16 :
  forall b m F size h l, timebase m F -> 13000 <= F -> F < 2 ^ 32 -> nec_encoder Nec16Bit F <> None ->
  (67 <= size)%nat -> idle h -> length (contents h) = size -> Forall (fun e => e <= 1) (skipn 67 (contents h)) ->
  Forall (fun x => n16_addr (fst x) < 2 ^ 16 /\ n16_cmd (fst x) < 2 ^ 8 /\ ticked F 110 size (snd x)) l ->
  exists enc, nec_encoder Nec16Bit F = Some (mkEncoder nec16_command enc) /\
    delivered (nec_protocol b m Nec16Bit) F (mkEncoder nec16_command enc) h l (fun c => mkNec16 (n16_addr c) (n16_cmd c) false).
Proof.
  intros b m F size h l Hm Hlo HF Hne H67 Hi HL Hz Hl. unfold nec_encoder in Hne.
  destruct (nec_data (nv_timing Nec16Bit) F) as [data|] eqn:Ed; [|destruct Hne; reflexivity].
  exists (nec_encode Nec16Bit data). split; [unfold nec_encoder; rewrite Ed; reflexivity|].
  apply (nec_delivered b m F Nec16Bit 9000 4500 data size l h
    (fun c => match nv_pack Nec16Bit c with Val w => w | _ => 0 end)); auto; [right; left; reflexivity|].
  eapply Forall_impl; [|exact Hl]. intros [[a c rep] k] (Ha & Hc & Hk). cbn [fst snd n16_addr n16_cmd] in *. split; [|exact Hk].
  destruct (C01_nec16_words a c rep false Ha Hc) as (w & Epk & Ew & Eu). rewrite Epk. split; [|split; [reflexivity|assumption]].
  rewrite Ew. apply bytes4_lt; unfold compl8; pows; lia.
Qed.
Print Assumptions C83_nec16.

Theorem C83_samsung :
  forall b m F size h l, timebase m F -> 14000 <= F -> F < 2 ^ 32 -> nec_encoder NecSamsung F <> None ->
  (67 <= size)%nat -> idle h -> length (contents h) = size -> Forall (fun e => e <= 1) (skipn 67 (contents h)) ->
  Forall (fun x => sam_addr (fst x) < 2 ^ 8 /\ sam_cmd (fst x) < 2 ^ 8 /\ ticked F 110 size (snd x)) l ->
  exists enc, nec_encoder NecSamsung F = Some (mkEncoder samsung_command enc) /\
    delivered (nec_protocol b m NecSamsung) F (mkEncoder samsung_command enc) h l (fun c => mkSamsung (sam_addr c) (sam_cmd c) false).
Proof.
  intros b m F size h l Hm Hlo HF Hne H67 Hi HL Hz Hl. unfold nec_encoder in Hne.
  destruct (nec_data (nv_timing NecSamsung) F) as [data|] eqn:Ed; [|destruct Hne; reflexivity].
  exists (nec_encode NecSamsung data). split; [unfold nec_encoder; rewrite Ed; reflexivity|].
  apply (nec_delivered b m F NecSamsung 4500 4500 data size l h
    (fun c => match nv_pack NecSamsung c with Val w => w | _ => 0 end)); auto; [do 3 right; left; reflexivity|].
  eapply Forall_impl; [|exact Hl]. intros [[a c rep] k] (Ha & Hc & Hk). cbn [fst snd sam_addr sam_cmd] in *. split; [|exact Hk].
  destruct (C01_samsung_words a c rep false Ha Hc) as (w & Epk & Ew & Eu). rewrite Epk. split; [|split; [reflexivity|assumption]].
  rewrite Ew. apply bytes4_lt; unfold compl8; pows; lia.
Qed.
Print Assumptions C83_samsung.

Theorem C83_raw :
  forall b m F size h l, timebase m F -> 13000 <= F -> F < 2 ^ 32 -> nec_encoder NecRaw F <> None ->
  (67 <= size)%nat -> idle h -> length (contents h) = size -> Forall (fun e => e <= 1) (skipn 67 (contents h)) ->
  Forall (fun x => (exists w, w < 2 ^ 32 /\ fst x = mkNecDebug w) /\ ticked F 110 size (snd x)) l ->
  exists enc, nec_encoder NecRaw F = Some (mkEncoder nec_debug_cmd enc) /\
    delivered (nec_protocol b m NecRaw) F (mkEncoder nec_debug_cmd enc) h l (fun c => c).
Proof.
  intros b m F size h l Hm Hlo HF Hne H67 Hi HL Hz Hl. unfold nec_encoder in Hne.
  destruct (nec_data (nv_timing NecRaw) F) as [data|] eqn:Ed; [|destruct Hne; reflexivity].
  exists (nec_encode NecRaw data). split; [unfold nec_encoder; rewrite Ed; reflexivity|].
  apply (nec_delivered b m F NecRaw 9000 4500 data size l h
    (fun c => match nv_pack NecRaw c with Val w => w | _ => 0 end)); auto; [do 2 right; left; reflexivity|].
  eapply Forall_impl; [|exact Hl]. intros [c k] ((w & Hw & Ec) & Hk). cbn [fst snd] in *. subst c. split; [|exact Hk].
  split; [exact Hw|]. split; reflexivity.
Qed.
Print Assumptions C83_raw.

(** ** RC5 *)
Lemma rc5_buffer_min l w : N.testbit w 13 = true -> (14 <= length (rc5_buffer l w))%nat.
Proof.
  intros H13. unfold rc5_buffer, rc5_wave. rewrite bits_msb_S. change (N.of_nat 13) with 13. rewrite H13.
  cbn [flat_map rc5_half app level_edges Bool.eqb tl length]. rewrite map_length.
  assert (G : forall bs c n, (length bs <= length (level_edges c n (flat_map rc5_half bs)))%nat).
  { induction bs as [|x bs IH]; intros c n; [cbn; lia|].
    destruct x, c; cbn [flat_map rc5_half app level_edges Bool.eqb length];
      match goal with |- context [level_edges ?x ?y (flat_map rc5_half bs)] => specialize (IH x y) end; lia. }
  specialize (G (bits_msb 13 w) true 1). rewrite bits_msb_length in G. lia.
Qed.

Lemma skipn_twice {A} a : forall b (l : list A), skipn a (skipn b l) = skipn (a + b) l.
Proof.
  intros b. induction b as [|b IH]; intros l; [rewrite Nat.add_0_r; reflexivity|].
  destruct l as [|x l]; [rewrite !skipn_nil; reflexivity|]. rewrite Nat.add_succ_r. cbn [skipn]. apply IH.
Qed.

Lemma skipn_skipn_app {A} (vs B : list A) n : (length vs <= n)%nat -> skipn n (vs ++ skipn (length vs) B) = skipn n B.
Proof.
  intros H. rewrite skipn_app, (skipn_all2 vs) by exact H. cbn [app].
  revert B n H. induction vs as [|v vs IH]; intros B n H; [rewrite Nat.sub_0_r; reflexivity|]. cbn [length] in *.
  destruct n as [|n]; [lia|]. destruct B as [|x B]; [cbn [skipn]; apply skipn_nil|]. cbn [skipn Nat.sub]. apply IH. lia.
Qed.

Lemma rc5_delivered b m F size l h enc : timebase m F -> 13000 <= F -> F < 2 ^ 32 -> 8 <= usize_bits b ->
  (forall a c s t buf, a < 2 ^ 5 -> c < 2 ^ 6 -> s < 2 ^ 2 ->
      enc (mkRc5 a c s t) buf =
        written (rc5_buffer (khz_ticks F 889) (c + 2 ^ 6 * a + 2 ^ 11 * (if t then 1 else 0) + 2 ^ 12 * (s mod 2) + 2 ^ 13)) buf) ->
  (27 <= size)%nat -> idle h -> length (contents h) = size ->
  Forall (fun e => 1000000 * e <= 1778 * F) (contents h) -> Forall (fun e => e <= 1) (skipn 27 (contents h)) ->
  Forall (fun x => (rc5_addr (fst x) < 2 ^ 5 /\ rc5_cmd (fst x) < 2 ^ 6 /\ (rc5_start (fst x) = 2 \/ rc5_start (fst x) = 3)) /\
                   ticked F 50 size (snd x)) l ->
  delivered (rc5_protocol b m) F (mkEncoder rc5_command enc) h l (fun c => c).
Proof.
  intros Hm Hlo Hf Hu Hw H27 Hi HL HB0 Hz0 Hl C into.
  pose proof (rc5_new_val b m F Hm Hf) as Er. destruct (poll_of _ _ _ Er) as (p0 & Ep). exists p0.
  set (ss := spans_of m F rc5_pulses) in *.
  destruct (series_polled (rc5_protocol b m) (mkEncoder rc5_command enc) C into
    (fun B => length B = size /\ Forall (fun e => 1000000 * e <= 1778 * F) B /\ Forall (fun e => e <= 1) (skipn 27 B))
    (fun c => rc5_addr c < 2 ^ 5 /\ rc5_cmd c < 2 ^ 6 /\ (rc5_start c = 2 \/ rc5_start c = 3))
    (fun c => into c)
    (fun r g => r5_spans (rv_dec r) = ss /\ rv_prev r = 0 /\ (g = 1 \/ longer F 1778 10 g))
    (47 * F / 1000 + N.of_nat size) (3 * F / 1000)) with (F := F) (p0 := p0) (h := h) (l := l)
    (r0 := @mkRecv (rc5_dec b) (mkRc5Dec R5Idle 0 0 ss) 0)
    as (h' & levels & os & H1 & H2 & H3 & H4 & H5 & H6); auto.
  - clear -Hlo. lia.
  - intros [a c s t] B (Ha & Hc & Hs) (LB & HB & Hz). cbn [rc5_addr rc5_cmd rc5_start] in *.
    assert (Hs4 : s < 2 ^ 2) by (change (2 ^ 2) with 4; lia).
    specialize (Hw a c s t B Ha Hc Hs4).
    destruct (C05_rc5_unpack_pack a c s t Ha Hc Hs4) as (Epk & Eu).
    assert (Ew : c + 2 ^ 6 * a + 2 ^ 11 * (if t then 1 else 0) + 2 ^ 12 * (s mod 2) + 2 ^ 13 = rc5_pack (mkRc5 a c s t)).
    { rewrite Epk. destruct Hs as [-> | ->]; lia. }
    rewrite Ew in Hw. set (w := rc5_pack (mkRc5 a c s t)) in *.
    assert (Lw : w < 2 ^ 14).
    { rewrite Epk. change (2 ^ 5) with 32 in *. change (2 ^ 6) with 64 in *. change (2 ^ 2) with 4 in *.
      change (2 ^ 11) with 2048. change (2 ^ 12) with 4096. change (2 ^ 14) with 16384. clear -Ha Hc Hs4. destruct t; lia. }
    assert (H13 : N.testbit w 13 = true).
    { rewrite <- Ew. rewrite N.add_comm.
      set (x := c + 2 ^ 6 * a + 2 ^ 11 * (if t then 1 else 0) + 2 ^ 12 * (s mod 2)).
      assert (x < 2 ^ 13).
      { unfold x. change (2 ^ 5) with 32 in *. change (2 ^ 6) with 64 in *. change (2 ^ 13) with 8192.
        change (2 ^ 11) with 2048. change (2 ^ 12) with 4096. clear -Ha Hc. destruct t; lia. }
      replace (2 ^ 13 + x) with (x + 1 * 2 ^ 13) by (clear; lia).
      rewrite <- lor_add by exact H. rewrite N.lor_spec, N.shiftl_spec_high'; [|lia]. apply orb_true_r. }
    destruct (C53_rc5_runs (khz_ticks F 889) w H13) as (L & rest & Erest & Hr).
    pose proof (rc5_buffer_min (khz_ticks F 889) w H13) as Lmin.
    destruct (rc5_run_buffer b m F C into w 1 Hm Hf Hu Hlo Lw H13) as (j & R).
    rewrite written_val in Hw by (eapply Nat.le_trans; [exact L|]; rewrite LB; exact H27).
    rewrite Eu in R. rewrite Erest in *. cbn [app tl length] in *.
    set (n := S (length rest)) in *.
    pose proof (khz_le F 889 ltac:(lia)) as Kl.
    assert (B1 : 1 <= khz_ticks F 889 /\ 2 * khz_ticks F 889 < 2 ^ 32).
    { assert (L2 : khz_ticks F 889 < 2 ^ 31) by (apply khz_small; lia). rewrite khz_above in * by lia.
      change (2 ^ 31) with 2147483648 in L2. change (2 ^ 32) with 4294967296.
      assert (L1 : 13 * 889 <= F / 1000 * 889) by (apply N.mul_le_mono_r; clear -Hlo; lia).
      split; [clear -L1|clear -L2]; lia. }
    assert (Hv : Forall (fun e => 1 <= e /\ e < 2 ^ 32) rest).
    { eapply Forall_impl; [|exact Hr]. cbv beta. clear -B1. intros x [-> | ->]; lia. }
    assert (Hv2 : Forall (fun e => 1000000 * e <= 1778 * F) rest).
    { eapply Forall_impl; [|exact Hr]. cbv beta. clear -Kl. intros x [-> | ->]; lia. }
    assert (Es : skipn n B = firstn (27 - n) (skipn n B) ++ skipn 27 B).
    { replace (skipn 27 B) with (skipn (27 - n) (skipn n B)); [symmetry; apply firstn_skipn|].
      rewrite skipn_twice. f_equal. unfold n. lia. }
    set (stale := firstn (27 - n) (skipn n B)) in *.
    assert (Ls : (length stale <= 27 - n)%nat) by (unfold stale; rewrite firstn_length; lia).
    assert (Hst : Forall (fun e => 1000000 * e <= 1778 * F) stale).
    { unfold stale. apply Forall_forall. intros x Hx. rewrite Forall_forall in HB. apply HB.
      rewrite <- (firstn_skipn n B). apply in_or_app. right. rewrite <- (firstn_skipn (27 - n) (skipn n B)). apply in_or_app. left. exact Hx. }
    assert (Lzz : N.of_nat (length (skipn 27 B)) = N.of_nat size - 27) by (rewrite skipn_length; lia).
    exists rest, (skipn n B), n. split; [exact Hw|].
    split; [|split; [exact Hv|split; [|split]]].
    + split; [|split].
      * cbn [length]. rewrite app_length, skipn_length. unfold n. lia.
      * constructor; [lia|]. apply Forall_app. split; [exact Hv2|]. rewrite <- (firstn_skipn n B) in HB. apply Forall_app in HB. apply HB.
      * change (Forall (fun e => e <= 1) (skipn 27 ((0 :: rest) ++ skipn (length (0 :: rest)) B))).
        rewrite skipn_skipn_app by exact L. exact Hz.
    + apply Forall_forall. intros x Hx. rewrite Forall_forall in HB.
      assert (1000000 * x <= 1778 * F) by (apply HB; rewrite <- (firstn_skipn n B); apply in_or_app; right; exact Hx).
      change (2 ^ 32) with 4294967296 in *. clear -H Hf. lia.
    + change (pin_wave (0 :: rest ++ skipn n B)) with (held true (rest ++ skipn n B)).
      rewrite held_length, Es, !map_app, !total_app, (total_ones _ Hz), (max_one _ Hv).
      assert (T1 : total rest <= 1778 * F / 1000000 * N.of_nat (length rest)).
      { apply total_le. eapply Forall_impl; [|exact Hv2]. cbv beta. clear. intros x Hx. lia. }
      assert (T2 : total (map (N.max 1) stale) <= 1778 * F / 1000000 * N.of_nat (length stale)).
      { rewrite <- (map_length (N.max 1) stale). apply total_le. apply Forall_forall. intros x Hx. apply in_map_iff in Hx.
        destruct Hx as (y & <- & Hy). rewrite Forall_forall in Hst. specialize (Hst y Hy). cbv beta in Hst. clear -Hst Hlo. lia. }
      rewrite Lzz.
      assert (T3 : 1778 * F / 1000000 * N.of_nat (length rest) + 1778 * F / 1000000 * N.of_nat (length stale) <= 1778 * F / 1000000 * 26).
      { rewrite <- N.mul_add_distr_l. apply N.mul_le_mono_l. unfold n in *. lia. }
      assert (H26 : N.of_nat size >= 27) by lia. clear -T1 T2 T3 H26. lia.
    + intros r g on t0 (Hss & Hpv & Hg) Ht.
      assert (Ev : event_edge (D := rc5_dec b) into r g true =
         Val (@mkRecv (rc5_dec b) (mkRc5Dec (R5Data 12) (2 ^ 13) 0 ss) 0, ROk None)).
      { destruct Hg as [-> | Hg].
        - destruct r as [d pv]. cbn [rv_dec rv_prev] in Hss, Hpv. subst pv. unfold event_edge. cbn [d_event rc5_dec rv_dec]. unfold rc5_event.
          rewrite Hss. unfold ss at 1 2. rewrite rc5_one_none by auto. cbn [bind]. unfold rc5_reset.
          cbn [r5_clock r5_state r5_bitbuf r5_spans rc5_transition]. rewrite Hss. destruct b as [[] uw]; reflexivity.
        - refine (eq_trans (rc5_gap b m F Hm Hf into r g Hss Hg) _). f_equal. f_equal. f_equal. exact Hpv. }
      rewrite run_edges_cons, rc5_first in R by exact Hu.
      rewrite Es, map_app. destruct (alternating_app (map (N.max 1) stale) (map (N.max 1) (skipn 27 B)) on) as (on2 & Ea). rewrite Ea.
      destruct (rc5_short_tail b m F C into (alternating on (map (N.max 1) stale)) Hu R5Idle 0 0 0) as (s' & buf' & ck' & R2).
      { assert (La : forall vs o, length (alternating o vs) = length vs).
        { clear. induction vs as [|v vs IH]; intros o; [reflexivity|]. cbn [alternating length]. rewrite IH. reflexivity. }
        rewrite La, map_length. cbn [left5]. unfold n in *. lia. }
      { cbn [left5]. lia. }
      { assert (La : forall vs o, length (alternating o vs) = length vs).
        { clear. induction vs as [|v vs IH]; intros o; [reflexivity|]. cbn [alternating length]. rewrite IH. reflexivity. }
        rewrite La, map_length. unfold n in *. lia. }
      set (tail := alternating on2 (map (N.max 1) (skipn 27 B)) ++ t0).
      assert (Htail : Forall (fun e : edge => snd e = 1) tail).
      { unfold tail. apply Forall_app. split.
        - apply (alternating_snd _ on2 (fun x => x = 1)). clear -Hz. induction Hz as [|z zs Hz1 Hz2 IH]; cbn [map]; constructor; auto. lia.
        - destruct Ht as [-> | ->]; repeat constructor. }
      destruct (rc5_quiet b m F C into tail Hm Hf Hlo Htail (@mkRecv (rc5_dec b) (mkRc5Dec s' buf' ck' ss) 0) eq_refl) as (r3 & R3).
      cbn [bind] in R. fold ss in R.
      destruct (run_edges (D := rc5_dec b) into (@mkRecv (rc5_dec b) (mkRc5Dec (R5Data 12) (2 ^ 13) 0 ss) 0) (alternating false rest)) as [[r1 os1]| |] eqn:R1;
        cbn [bind] in R; try discriminate.
      injection R as -> Eos.
      pose proof (run_edges_app_val into _ _ _ _ _ _ _ R1 (run_edges_app_val into _ _ _ _ _ _ _ R2 R3)) as R4.
      exists r3, (ROk None :: os1 ++ repeat (ROk None) (length (alternating on (map (N.max 1) stale))) ++ repeat (ROk None) (length tail)).
      split; [|split; [|split]].
      * rewrite <- !app_assoc. fold tail. change (p_dec (rc5_protocol b m)) with (rc5_dec b).
        rewrite (run_edges_cons (D := rc5_dec b) into). rewrite Ev. cbn [bind].
        exact (f_equal (fun q => let* (x, os) := q in Val (x, ROk None :: os)) R4).
      * rewrite app_comm_cons, Eos. refine (eq_trans (commands_app _ _) _).
        refine (f_equal2 (@app C) (commands_one j 0 _) (eq_trans (commands_app _ _) _)). rewrite !commands_none. reflexivity.
      * rewrite app_comm_cons, Eos. apply Forall_app. split; [apply (quiet_one j 0)|]. apply Forall_app. split; apply quiet_none.
      * intros g' Hg' _. split; [|split].
        -- apply rc5_run_spans in R3. exact R3.
        -- apply run_edges_prev in R3. exact R3.
        -- right. unfold longer, nominal. clear -Hg' Hlo. lia.
  - eapply Forall_impl; [|exact Hl]. cbv beta. intros x (H1 & H2 & H3). split; [exact H1|]. split; [|exact H3]. exact (ticked_enough F 47 3 size _ H2).
  - exists h', levels, os. split; [exact Ep|]. split; [exact H1|]. split; [exact H2|]. split; [exact H3|]. split; [exact H4|]. split; [exact H5|exact H6].
Qed.

(** Each command is ticked for 50 ms and one tick per buffer entry.  The sender is a fresh
    one or any idle one whose first 27 entries are those of RC5 frames; its buffer may hold
    the end of a longer frame sent before. *)
Theorem C83_rc5 :
  forall b m F size h l, timebase m F -> 13000 <= F -> F < 2 ^ 32 -> 8 <= usize_bits b ->
  (27 <= size)%nat -> idle h -> length (contents h) = size ->
  Forall (fun e => 1000000 * e <= 1778 * F) (contents h) -> Forall (fun e => e <= 1) (skipn 27 (contents h)) ->
  Forall (fun x => rc5_addr (fst x) < 2 ^ 5 /\ rc5_cmd (fst x) < 2 ^ 6 /\ (rc5_start (fst x) = 2 \/ rc5_start (fst x) = 3) /\
                   ticked F 50 size (snd x)) l ->
  exists enc, rc5_encoder b F = Some (mkEncoder rc5_command enc) /\
    delivered (rc5_protocol b m) F (mkEncoder rc5_command enc) h l (fun c => c).
Proof.
  intros b m F size h l Hm Hlo Hf Hu H27 Hi HL HB Hz Hl. destruct (C53_rc5_encoder b F Hf) as (enc & Ee & Hw).
  exists enc. split; [exact Ee|]. apply (rc5_delivered b m F size l h enc); auto.
  eapply Forall_impl; [|exact Hl]. cbv beta. tauto.
Qed.
Print Assumptions C83_rc5.

(** ** RC6 *)
Lemma rc6_shape l t w : exists rest, rc6_buffer l t w = 0 :: l * 6 :: rest /\ Forall (fun x => x = l \/ x = l * 2 \/ x = l * 3) rest.
Proof.
  unfold rc6_buffer, rc6_wave.
  assert (K : forall bs c0 n, 1 <= n <= 2 -> Forall (fun x : edge => snd x = 1 \/ snd x = 2 \/ snd x = 3) (level_edges c0 n (flat_map rc6_half bs ++ [false]))).
  { clear. induction bs as [|x bs IH]; intros c0 n Hn.
    - cbn [flat_map app level_edges]. destruct c0; cbn [Bool.eqb]; constructor; [cbn [snd]; lia|constructor].
    - destruct x, c0; cbn [flat_map rc6_half app level_edges Bool.eqb];
        repeat (apply Forall_cons; [cbn [snd]; lia|]); apply IH; lia. }
  assert (M : forall es : list edge, Forall (fun x : edge => snd x = 1 \/ snd x = 2 \/ snd x = 3) es ->
    Forall (fun x => x = l \/ x = l * 2 \/ x = l * 3) (map (fun x : edge => l * snd x) es)).
  { clear. induction 1 as [|x es Hx Hes IH]; cbn [map]; constructor; auto. destruct Hx as [-> | [-> | ->]]; lia. }
  destruct t; cbn [app level_edges Bool.eqb rc6_half N.add Pos.add Pos.succ map snd]; rewrite N.mul_0_r; eexists; (split; [reflexivity|]);
    repeat (apply Forall_cons; [lia|]); apply M, K; lia.
Qed.

Lemma rc6_small m F d k : timebase m F -> F < 2 ^ 32 -> 27028 <= F -> 1 <= d -> d <= nominal F 444 * 3 ->
  spans_get (spans_of m F rc6_pulses) d = Some k -> k < 3.
Proof.
  intros Hm Hf HF Hd1 Hd E. apply spans_get_near_inv in E; auto using rc6_ok. destruct E as (p & t & En & Hn & H0).
  destruct (N.lt_ge_cases k 3) as [L|L]; [exact L|exfalso].
  assert (Hj : (3 <= N.to_nat k)%nat) by lia. clear L.
  generalize dependent (N.to_nat k). intros j En Hj.
  do 3 (destruct j as [|j]; [lia|]).
  do 3 (destruct j as [|j]; [cbn [rc6_pulses nth_error] in En; injection En as <- <-; destruct (Hn ltac:(lia)) as [_ Q];
    unfold nominal in *; clear -Q Hd HF; lia|]).
  do 2 (destruct j as [|j]; [cbn [rc6_pulses nth_error] in En; injection En as <- <-; specialize (H0 eq_refl); lia|]).
  destruct j; discriminate.
Qed.

Lemma rc6_delivered b m F size l h enc : timebase m F -> 27028 <= F -> 444 * F < 2 ^ 32 -> 8 <= usize_bits b ->
  (forall a c t buf, a < 2 ^ 8 -> c < 2 ^ 8 ->
      enc (mkRc6 a c t) buf = written (rc6_buffer (nominal F 444) t (2 ^ 8 * a + c)) buf /\
      (length (rc6_buffer (nominal F 444) t (2 ^ 8 * a + c)) <= 44)%nat /\
      hd_error (rc6_buffer (nominal F 444) t (2 ^ 8 * a + c)) = Some 0) ->
  (44 <= size)%nat -> idle h -> length (contents h) = size ->
  Forall (fun e => e <= 3 * nominal F 444) (skipn 2 (contents h)) -> Forall (fun e => e <= 1) (skipn 44 (contents h)) ->
  Forall (fun x => (rc6_addr (fst x) < 2 ^ 8 /\ rc6_cmd (fst x) < 2 ^ 8) /\ ticked F 63 size (snd x)) l ->
  delivered (rc6_protocol b m) F (mkEncoder rc6_command enc) h l (fun c => c).
Proof.
  intros Hm Hlo Hf Hu Hw H44 Hi HL HB0 Hz0 Hl C into.
  assert (HF : F < 2 ^ 32) by (clear -Hf; change (2 ^ 32) with 4294967296 in *; lia).
  pose proof (rc6_new_val b m F Hm HF) as Er. destruct (poll_of _ _ _ Er) as (p0 & Ep). exists p0.
  set (ss := spans_of m F rc6_pulses) in *. set (q := nominal F 444) in *.
  assert (Bq : 12 <= q /\ 1000000 * q <= 444 * F /\ q < 2 ^ 29).
  { unfold q, nominal. change (2 ^ 29) with 536870912. change (2 ^ 32) with 4294967296 in *. clear -Hlo Hf. lia. }
  destruct (series_polled (rc6_protocol b m) (mkEncoder rc6_command enc) C into
    (fun B => length B = size /\ Forall (fun e => e <= 3 * q) (skipn 2 B) /\ Forall (fun e => e <= 1) (skipn 44 B))
    (fun c => rc6_addr c < 2 ^ 8 /\ rc6_cmd c < 2 ^ 8)
    (fun c => into c)
    (fun r g => r6_spans (rv_dec r) = ss /\ rv_prev r = 0 /\ (g = 1 \/ longer F 2664 12 g))
    (59 * F / 1000 + N.of_nat size) (4 * F / 1000)) with (F := F) (p0 := p0) (h := h) (l := l)
    (r0 := @mkRecv (rc6_dec b) (mkRc6Dec R6Idle 0 0 false 0 ss) 0)
    as (h' & levels & os & H1 & H2 & H3 & H4 & H5 & H6); auto.
  - clear -Hlo. lia.
  - intros [a c t] B (Ha & Hc) (LB & HB & Hz). cbn [rc6_addr rc6_cmd] in *.
    destruct (Hw a c t B Ha Hc) as (E1 & L & _). set (w := 2 ^ 8 * a + c) in *.
    assert (Lw : w < 2 ^ 16) by (unfold w; pows; lia).
    rewrite written_val in E1 by (eapply Nat.le_trans; [exact L|]; rewrite LB; exact H44).
    destruct (rc6_shape q t w) as (rest & Erest & Hr). rewrite Erest in *. cbn [app length] in E1, L.
    set (n := S (S (length rest))) in *.
    assert (Hv : Forall (fun e => 1 <= e /\ e < 2 ^ 32) (q * 6 :: rest)).
    { change (2 ^ 29) with 536870912 in Bq. change (2 ^ 32) with 4294967296. constructor; [lia|].
      eapply Forall_impl; [|exact Hr]. cbv beta. clear -Bq. intros x [-> | [-> | ->]]; lia. }
    assert (Hv2 : Forall (fun e => e <= 3 * q) rest).
    { eapply Forall_impl; [|exact Hr]. cbv beta. clear. intros x [-> | [-> | ->]]; lia. }
    assert (Es : skipn n B = firstn (44 - n) (skipn n B) ++ skipn 44 B).
    { replace (skipn 44 B) with (skipn (44 - n) (skipn n B)); [symmetry; apply firstn_skipn|].
      rewrite skipn_twice. f_equal. unfold n. lia. }
    assert (Hn : Forall (fun e => e <= 3 * q) (skipn n B)).
    { replace (skipn n B) with (skipn (n - 2) (skipn 2 B)) by (rewrite skipn_twice; f_equal; unfold n; lia).
      rewrite <- (firstn_skipn (n - 2) (skipn 2 B)) in HB. apply Forall_app in HB. apply HB. }
    set (stale := firstn (44 - n) (skipn n B)) in *.
    assert (Ls : (length stale <= 44 - n)%nat) by (unfold stale; rewrite firstn_length; lia).
    assert (Hst : Forall (fun e => e <= 3 * q) stale) by (rewrite Es in Hn; apply Forall_app in Hn; apply Hn).
    assert (Lzz : N.of_nat (length (skipn 44 B)) = N.of_nat size - 44) by (rewrite skipn_length; lia).
    assert (La : forall vs o, length (alternating o vs) = length vs).
    { clear. induction vs as [|v vs IH]; intros o; [reflexivity|]. cbn [alternating length]. rewrite IH. reflexivity. }
    exists (q * 6 :: rest), (skipn n B), n. split; [exact E1|].
    split; [|split; [exact Hv|split; [|split]]].
    + split; [|split].
      * cbn [length app]. rewrite app_length, skipn_length. unfold n. lia.
      * cbn [app skipn]. apply Forall_app. split; [exact Hv2|exact Hn].
      * change (Forall (fun e => e <= 1) (skipn 44 ((0 :: q * 6 :: rest) ++ skipn (length (0 :: q * 6 :: rest)) B))).
        rewrite skipn_skipn_app by exact L. exact Hz.
    + eapply Forall_impl; [|exact Hn]. cbv beta. change (2 ^ 29) with 536870912 in Bq. change (2 ^ 32) with 4294967296. clear -Bq. lia.
    + change (pin_wave (0 :: (q * 6 :: rest) ++ skipn n B)) with (held true ((q * 6 :: rest) ++ skipn n B)).
      rewrite held_length, Es, !map_app, !total_app, (total_ones _ Hz), (max_one _ Hv).
      assert (T1 : total (q * 6 :: rest) <= q * 6 + 3 * q * N.of_nat (length rest)).
      { cbn [total fold_right]. pose proof (total_le _ _ Hv2) as T. unfold total in T. lia. }
      assert (T2 : total (map (N.max 1) stale) <= 3 * q * N.of_nat (length stale)).
      { rewrite <- (map_length (N.max 1) stale). apply total_le. apply Forall_forall. intros x Hx. apply in_map_iff in Hx.
        destruct Hx as (y & <- & Hy). rewrite Forall_forall in Hst. specialize (Hst y Hy). cbv beta in Hst. clear -Hst Bq. lia. }
      rewrite Lzz.
      assert (T3 : 3 * q * N.of_nat (length rest) + 3 * q * N.of_nat (length stale) <= 3 * q * 42).
      { rewrite <- N.mul_add_distr_l. apply N.mul_le_mono_l. unfold n in *. lia. }
      assert (H26 : N.of_nat size >= 44) by lia. clear -T1 T2 T3 H26 Bq. lia.
    + intros r g on t0 (Hss & Hpv & Hg) Ht.
      assert (Ev : exists tg, event_edge (D := rc6_dec b) into r g true =
         Val (@mkRecv (rc6_dec b) (mkRc6Dec R6Leading 0 0 tg 0 ss) 0, ROk None)).
      { destruct Hg as [-> | Hg].
        - destruct r as [d pv]. cbn [rv_dec rv_prev] in Hss, Hpv. subst pv. exists (r6_toggle d).
          unfold event_edge. cbn [d_event rc6_dec rv_dec]. unfold rc6_event.
          rewrite Hss. unfold ss at 1. rewrite rc6_one_none by auto. cbn [bind]. unfold rc6_reset, rc6_transition.
          cbn [r6_clock r6_state r6_data r6_headerdata r6_toggle r6_spans]. rewrite Hss. reflexivity.
        - destruct (rc6_gap b m F Hm HF into r g Hss Hg) as (tg & E). exists tg. refine (eq_trans E _). f_equal. f_equal. f_equal. exact Hpv. }
      destruct Ev as (tg & Ev).
      destruct (rc6_run_buffer_any b m F C into tg t w 1 Hm HF Hu (rc6_rate_high F Hlo) Lw) as (tg2 & st2 & i & j & R & Hj & Hst2).
      fold q in R. rewrite Erest in R. cbn [tl] in R. unfold w in R at 1; rewrite (C06_rc6_word a c t Ha Hc) in R. fold ss in R.
      assert (Ev1 : event_edge (D := rc6_dec b) into (@mkRecv (rc6_dec b) (mkRc6Dec R6Idle 0 0 tg 0 ss) 0) 1 true =
         Val (@mkRecv (rc6_dec b) (mkRc6Dec R6Leading 0 0 tg 0 ss) 0, ROk None)).
      { unfold event_edge. cbn [d_event rc6_dec rv_dec]. unfold rc6_event. cbn [r6_spans]. unfold ss at 1. rewrite rc6_one_none by auto.
        cbn [bind]. reflexivity. }
      rewrite run_edges_cons, Ev1 in R. cbn [bind] in R.
      rewrite Es, map_app. destruct (alternating_app (map (N.max 1) stale) (map (N.max 1) (skipn 44 B)) on) as (on2 & Ea). rewrite Ea.
      destruct (rc6_no_leader b m F C into (3 * q) (alternating on (map (N.max 1) stale)) Hu) with (s := R6Idle) (tg := tg2) (ck := st2) (pv := 0)
        as (s' & tg' & ck' & R2); auto.
      { intros d k Hd1 Hd2. apply rc6_small; auto. fold q. lia. }
      { apply (alternating_snd _ on (fun x => 1 <= x /\ x <= 3 * q)). clear -Hst Bq. induction Hst as [|z zs Hz1 Hz2 IH]; cbn [map]; constructor; auto. lia. }
      { rewrite La, map_length. unfold n in *. lia. }
      set (tail := alternating on2 (map (N.max 1) (skipn 44 B)) ++ t0).
      assert (Htail : Forall (fun e : edge => snd e = 1) tail).
      { unfold tail. apply Forall_app. split.
        - apply (alternating_snd _ on2 (fun x => x = 1)). clear -Hz. induction Hz as [|z zs Hz1 Hz2 IH]; cbn [map]; constructor; auto. lia.
        - destruct Ht as [-> | ->]; repeat constructor. }
      destruct (rc6_quiet b m F C into tail Hm HF Hlo Htail (@mkRecv (rc6_dec b) (mkRc6Dec s' 0 0 tg' ck' ss) 0) eq_refl) as (r3 & R3).
      fold ss in R2.
      destruct (run_edges (D := rc6_dec b) into (@mkRecv (rc6_dec b) (mkRc6Dec R6Leading 0 0 tg 0 ss) 0) (alternating false (q * 6 :: rest))) as [[r1 os1]| |] eqn:R1;
        cbn [bind] in R; try discriminate.
      injection R as -> Eos.
      pose proof (run_edges_app_val into _ _ _ _ _ _ _ R1 (run_edges_app_val into _ _ _ _ _ _ _ R2 R3)) as R4.
      exists r3, (ROk None :: os1 ++ repeat (ROk None) (length (alternating on (map (N.max 1) stale))) ++ repeat (ROk None) (length tail)).
      split; [|split; [|split]].
      * rewrite <- !app_assoc. fold tail. change (p_dec (rc6_protocol b m)) with (rc6_dec b).
        rewrite (run_edges_cons (D := rc6_dec b) into). rewrite Ev. cbn [bind].
        exact (f_equal (fun q => let* (x, os) := q in Val (x, ROk None :: os)) R4).
      * rewrite app_comm_cons, Eos. refine (eq_trans (commands_app _ _) _).
        refine (f_equal2 (@app C) (commands_one i j _) (eq_trans (commands_app _ _) _)). rewrite !commands_none. reflexivity.
      * rewrite app_comm_cons, Eos. apply Forall_app. split; [apply (quiet_one i j)|]. apply Forall_app. split; apply quiet_none.
      * intros g' Hg' _. split; [|split].
        -- apply rc6_run_spans in R3. exact R3.
        -- apply run_edges_prev in R3. exact R3.
        -- right. unfold longer, nominal. clear -Hg' Hlo. lia.
  - eapply Forall_impl; [|exact Hl]. cbv beta. intros x (H1 & H2 & H3). split; [exact H1|]. split; [|exact H3]. exact (ticked_enough F 59 4 size _ H2).
  - exists h', levels, os. split; [exact Ep|]. split; [exact H1|]. split; [exact H2|]. split; [exact H3|]. split; [exact H4|]. split; [exact H5|exact H6].
Qed.

(** 63 ms per command and one tick per buffer entry. *)
Theorem C83_rc6 :
  forall b m F size h l, timebase m F -> 27028 <= F -> 444 * F < 2 ^ 32 -> 8 <= usize_bits b ->
  (44 <= size)%nat -> idle h -> length (contents h) = size ->
  Forall (fun e => e <= 3 * (444 * F / 1000000)) (skipn 2 (contents h)) -> Forall (fun e => e <= 1) (skipn 44 (contents h)) ->
  Forall (fun x => rc6_addr (fst x) < 2 ^ 8 /\ rc6_cmd (fst x) < 2 ^ 8 /\ ticked F 63 size (snd x)) l ->
  exists enc, rc6_encoder b F = Some (mkEncoder rc6_command enc) /\
    delivered (rc6_protocol b m) F (mkEncoder rc6_command enc) h l (fun c => c).
Proof.
  intros b m F size h l Hm Hlo Hf Hu H44 Hi HL HB Hz Hl. destruct (C54_rc6_encoder b F Hf) as (enc & Ee & Hw).
  exists enc. split; [exact Ee|]. apply (rc6_delivered b m F size l h enc); auto.
  eapply Forall_impl; [|exact Hl]. cbv beta. tauto.
Qed.
Print Assumptions C83_rc6.

(** Fresh senders meet the hypotheses. *)
Example C83_fresh size : idle (hs_new size) /\ length (contents (hs_new size)) = size /\
  forall k B, Forall (fun e => e <= B) (skipn k (contents (hs_new size))).
Proof.
  split; [reflexivity|]. split; [apply repeat_length|]. intros k B.
  assert (H : Forall (fun e => e <= B) (contents (hs_new size))).
  { apply Forall_forall. intros x Hx. apply repeat_spec in Hx. subst x. lia. }
  rewrite <- (firstn_skipn k (contents (hs_new size))) in H. apply Forall_app in H. apply H.
Qed.

(** RC5 at 13 kHz through a sender with room for 30 entries, 53 ms per command: the second
    frame has 14 entries, the first 27, and the end of the first is sent again after the
    second. *)
Definition c83_run : option (list rc5_command * nat) :=
  match rc5_calc_freq 13000, poll_new (rc5_protocol (debug_build 32) MU32) 13000 with
  | Some l, Val p0 =>
      match sends (mkEncoder _ (rc5_encode (debug_build 32) l)) (hs_new 30)
              [(mkRc5 31 63 3 true, 700%nat); (mkRc5 10 42 2 true, 680%nat); (mkRc5 31 0 3 false, 701%nat)] with
      | Val (_, levels) => match run_polls (D := rc5_dec (debug_build 32)) (fun c => c) p0 levels with
                           | Val (_, os) => Some (commands os, length os)
                           | _ => None
                           end
      | _ => None
      end
  | _, _ => None
  end.
Example C83_example :
  c83_run = Some ([mkRc5 31 63 3 true; mkRc5 10 42 2 true; mkRc5 31 0 3 false], 2081%nat) /\
  ticked 13000 50 30 680.
Proof. split; [vm_compute; reflexivity|]. split; vm_compute; congruence. Qed.
