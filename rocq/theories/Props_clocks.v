(** * C84: sender and receiver with different, irregular clocks *)
From Coq Require Import NArith ZArith List Bool Lia ZifyBool ZifyNat ZifyN.
From Verif Require Import Machine Spec Spec_sender Spec_receiver Bits Time Decoder Nec Rc5 Rc6 Receiver Sender
  Time_facts Codec_facts Run_facts Nec_facts Rc5_facts Rc6_facts Example_facts Props_codec Props_receiver Encode_facts Roundtrip_facts Props_encode Sender_facts
  Props_sender Props_decode Spec_cross Spec_phys Phys_facts Props_phys Clocks_facts.
Import ListNotations.
Open Scope N_scope.
Ltac Zify.zify_post_hook ::= Z.div_mod_to_equations.

(** Real time is counted in units of [1/G] seconds.  A pin on which a command is sent, from
    the call of [load] to the end of the transmission: either by a [Sender] whose [tick] is
    called from an interrupt [F] times a second, early or late by at most [L] units; or by a
    [PulsedataSender] whose [tick] is called with the reading of a timer of [F] ticks per
    second (wrong by less than [j] ticks) at any times not more than [J] units apart.  [a]
    and [b]: by how much an edge can be early or late in consequence.  [ls]: the times of the
    calls and the levels set. *)
Inductive pin_signal (F G a b : N) (e : encoder) (c : e_cmd e) (buf : list N) (first : N) (ls : list (N * bool)) : Prop :=
| by_interrupt h h1 L time k :
    idle h -> contents h = buf -> hs_load e h c = Val h1 ->
    paced F G L time -> L <= a -> L <= b -> first = time O ->
    (k <> O)%nat -> idle (fst (hs_ticks k h1)) -> ls = stamped time 0 (snd (hs_ticks k h1)) ->
    pin_signal F G a b e c buf first ls
| by_timer s s1 clock j J ts :
    pb_buf (ps_ptb s) = buf -> ps_load e s c = Val s1 ->
    counts F G j clock -> j * G <= a * F -> J * F + (j - 1) * G <= b * F -> at_most J first ts ->
    ps_status (fst (ticks_at clock s1 (first :: ts))) = StIdle -> ls = snd (ticks_at clock s1 (first :: ts)) ->
    pin_signal F G a b e c buf first ls.

(** Edges at most [A] microseconds off and at least [kA] ticks per second; or at most 1
    microsecond off and at least [k1] ticks per second or one of the usual rates. *)
Definition accurate (A kA k1 : N) (usual : list N) (F G a b : N) : Prop :=
  (1000000 * a <= A * G /\ 1000000 * b <= A * G /\ kA <= F) \/
  (1000000 * a <= G /\ 1000000 * b <= G /\ (k1 <= F \/ In F usual)).

(** ** The pulses in real time *)
Lemma pulse_near F G x p L a b d : 0 < F -> pulse_sent F G a b L d ->
  100000000 * (L * G + b * F) <= (100 + x) * p * G * F -> (100 - x) * p * G * F + 100000000 * a * F <= 100000000 * L * G ->
  real_near G x p d.
Proof.
  intros HF (H1 & H2) H3 H4. unfold real_near. split.
  - apply (N.mul_le_mono_pos_r _ _ F HF). clear -H2 H3. lia.
  - apply (N.mul_le_mono_pos_r _ _ F HF). clear -H1 H4. lia.
Qed.

Definition okp (F A x p L : N) : bool :=
  (100000000 * L + 100 * A * F <=? (100 + x) * p * F) && ((100 - x) * p * F + 100 * A * F <=? 100000000 * L).

Lemma okp_near F G A x p L a b d : 0 < F -> 1000000 * a <= A * G -> 1000000 * b <= A * G -> okp F A x p L = true ->
  pulse_sent F G a b L d -> real_near G x p d.
Proof.
  intros HF Ha Hb Ho Hp. unfold okp in Ho. apply andb_prop in Ho. destruct Ho as [H1 H2]. apply N.leb_le in H1, H2.
  apply (pulse_near F G x p L a b d HF Hp).
  - apply N.mul_le_mono_r with (p := G) in H1. apply N.mul_le_mono_r with (p := 100 * F) in Hb. clear -H1 Hb. lia.
  - apply N.mul_le_mono_r with (p := G) in H2. apply N.mul_le_mono_r with (p := 100 * F) in Ha. clear -H2 Ha. lia.
Qed.

Lemma pulse_pair F G a b L1 L2 d1 d2 : pulse_sent F G a b L1 d1 -> pulse_sent F G a b L2 d2 ->
  pulse_sent F G (2 * a) (2 * b) (L1 + L2) (d1 + d2).
Proof. unfold pulse_sent. lia. Qed.

Lemma khz_low F p : 1000 < F -> p * F <= 1000000 * khz_ticks F p + 999 * p + 999000.
Proof.
  intros H. rewrite khz_above by exact H. set (q := F / 1000). assert (E : F <= 1000 * q + 999) by (unfold q; lia).
  apply N.mul_le_mono_l with (p := p) in E. replace (p * (1000 * q + 999)) with (1000 * (q * p) + 999 * p) in E by ring.
  set (x := q * p) in *. clear -E. lia.
Qed.

Lemma khz_high F p : 1000 < F -> 1000000 * khz_ticks F p <= p * F.
Proof.
  intros H. rewrite khz_above by exact H. set (q := F / 1000). assert (E : 1000 * q <= F) by (unfold q; lia).
  apply N.mul_le_mono_l with (p := p) in E. replace (p * (1000 * q)) with (1000 * (q * p)) in E by ring.
  set (x := q * p) in *. clear -E. lia.
Qed.

Lemma okp_single F A x p k : 1000 < F -> k <= F -> 100 * A <= x * p -> x <= 100 ->
  99900 * p + 99900000 <= (x * p - 100 * A) * k -> okp F A x p (khz_ticks F p) = true.
Proof.
  intros H Hk Hx Hx1 Hr. pose proof (khz_low F p H). pose proof (khz_high F p H). set (t := khz_ticks F p) in *. clearbody t.
  assert (X : (x * p - 100 * A) * k <= (x * p - 100 * A) * F) by (apply N.mul_le_mono_l; exact Hk).
  rewrite (N.mul_sub_distr_r _ _ F) in X.
  unfold okp. apply andb_true_intro. split; apply N.leb_le.
  - rewrite N.mul_add_distr_r, N.mul_add_distr_r. assert (100 * A * F <= x * p * F) by (apply N.mul_le_mono_r; exact Hx). lia.
  - rewrite N.mul_sub_distr_r, N.mul_sub_distr_r. assert (100 * A * F <= x * p * F) by (apply N.mul_le_mono_r; exact Hx).
    assert (x * p * F <= 100 * p * F) by (apply N.mul_le_mono_r, N.mul_le_mono_r; exact Hx1). lia.
Qed.

Lemma okp_double F A x p q k : 1000 < F -> k <= F -> 200 * A <= x * (p + q) -> x <= 100 ->
  99900 * (p + q) + 199800000 <= (x * (p + q) - 200 * A) * k -> okp F (2 * A) x (p + q) (khz_ticks F p + khz_ticks F q) = true.
Proof.
  intros H Hk Hx Hx1 Hr. pose proof (khz_low F p H). pose proof (khz_high F p H). pose proof (khz_low F q H). pose proof (khz_high F q H).
  set (t := khz_ticks F p) in *. set (u := khz_ticks F q) in *. clearbody t u.
  assert (X : (x * (p + q) - 200 * A) * k <= (x * (p + q) - 200 * A) * F) by (apply N.mul_le_mono_l; exact Hk).
  rewrite (N.mul_sub_distr_r _ _ F) in X.
  assert (Y : 200 * A * F <= x * (p + q) * F) by (apply N.mul_le_mono_r; exact Hx).
  assert (Z : x * (p + q) * F <= 100 * (p + q) * F) by (apply N.mul_le_mono_r, N.mul_le_mono_r; exact Hx1).
  unfold okp. apply andb_true_intro. split; apply N.leb_le.
  - rewrite N.mul_add_distr_r, N.mul_add_distr_r. lia.
  - rewrite N.mul_sub_distr_r, N.mul_sub_distr_r. lia.
Qed.

(** ** From the pin to the pulses of the frame *)
Lemma pulse_widen F G a b a' b' L d : a <= a' -> b <= b' -> pulse_sent F G a b L d -> pulse_sent F G a' b' L d.
Proof.
  intros Ha Hb (H1 & H2). split.
  - etransitivity; [exact H1|]. apply N.mul_le_mono_r. lia.
  - apply N.mul_le_mono_r with (p := F) in Hb. lia.
Qed.

Lemma signal_follows F G a b e c buf first ls lens n t0 : 0 < G -> b * F <= 2 ^ 30 * G ->
  e_encode e c buf = Val (0 :: lens, n) -> Forall (fun x => x < 2 ^ 31) (0 :: lens) ->
  pin_signal F G a b e c buf first ls -> follows F G a b (0 :: lens) t0 first ls.
Proof.
  intros HG Hb E HB [h h1 L time k Hi Ec El Hp La Lb Ef Hk Hidle Els|s s1 clock j J ts Ec El Hc Ha Hbb Hat Hidle Els].
  - subst buf. pose proof (hs_load_val e h c _ _ Hi E) as El'. rewrite El in El'. injection El' as ->.
    assert (HB' : Forall (fun x => x < 2 ^ 32) (0 :: lens)).
    { eapply Forall_impl; [|exact HB]. cbv beta. intros x Hx. change (2 ^ 31) with 2147483648 in Hx. change (2 ^ 32) with 4294967296. lia. }
    assert (Hlen : (length (pin_wave (0%N :: lens)) < k)%nat).
    { destruct (Nat.lt_ge_cases (length (pin_wave (0 :: lens))) k) as [?|Hge]; [assumption|exfalso].
      destruct (hs_transmit_status (mkPB (0 :: lens) n) lens k HB' eq_refl ltac:(lia) Hge) as (o & Eo). unfold idle in Hidle.
      rewrite Eo in Hidle. discriminate. }
    subst ls first. destruct (follows_paced F G L time lens n t0 k Hp HB' Hlen) as (l' & ds & tail & El' & Ep & Fa & Lt).
    exists l', ds, tail. split; [exact El'|]. split; [exact Ep|]. split; [|exact Lt].
    clear -Fa La Lb. induction Fa as [|x y l1 l2 H1 H2 IH]; constructor; auto. intros Hx. apply (pulse_widen F G L L); auto.
  - unfold ps_load, ps_reset, pb_reset, pb_load in El. cbn [ps_ptb pb_offset pb_buf ps_pos ps_status ps_ts skipn firstn] in El.
    rewrite Ec, E in El. cbn in El. injection El as <-.
    subst ls. exact (proj1 (follows_timer F G j J a b clock lens n t0 first ts HG Hc Ha Hbb Hb HB Hat) Hidle).
Qed.

Lemma forall2_app_l {A B} (R : A -> B -> Prop) l1 : forall l2 d, Forall2 R (l1 ++ l2) d ->
  exists d1 d2, d = d1 ++ d2 /\ Forall2 R l1 d1 /\ length d2 = length l2.
Proof.
  intros l2 d H. apply Forall2_app_inv_l in H. destruct H as (d1 & d2 & H1 & H2 & ->). exists d1, d2. split; [reflexivity|]. split; [exact H1|].
  symmetry. clear -H2. induction H2; cbn; auto.
Qed.

Lemma frame_follows F G a b frame rest t0 first ls : Forall (fun x => 1 <= x) frame ->
  follows F G a b (0 :: frame ++ rest) t0 first ls ->
  exists ds tail, pin_edges false t0 ls = (true, first - t0) :: alternating false ds ++ tail /\
    Forall2 (pulse_sent F G a b) frame ds /\ (length tail <= length rest + 1)%nat.
Proof.
  intros Hf (l' & ds & tail & El & Ep & Fa & Lt). injection El as <-. apply forall2_app_l in Fa. destruct Fa as (d1 & d2 & -> & F1 & L2).
  destruct (Air_facts.alternating_app d1 d2 false) as (on & Ea). exists d1, (alternating on d2 ++ tail). rewrite Ep, Ea, <- app_assoc. split; [reflexivity|].
  split.
  - clear -F1 Hf. induction F1 as [|x y l1 l2 H1 H2 IH]; constructor; inversion Hf; subst; auto.
  - rewrite app_length. assert (La : forall d o, length (alternating o d) = length d) by (induction d as [|x d IH]; intros o; cbn; auto).
    rewrite La. lia.
Qed.

(** ** The NEC family *)
Definition nec_accurate := accurate 8 180000 100000 [20000; 38000; 40000].

Lemma nec_okp F G a b : nec_accurate F G a b ->
  exists A, 1000000 * a <= A * G /\ 1000000 * b <= A * G /\ A <= 8 /\ 20000 <= F /\
    okp F A 3 560 (khz_ticks F 560) = true /\ okp F A 3 9000 (khz_ticks F 9000) = true /\ okp F A 3 4500 (khz_ticks F 4500) = true /\
    okp F (2 * A) 3 (9000 + 4500) (khz_ticks F 9000 + khz_ticks F 4500) = true /\ okp F (2 * A) 3 (4500 + 4500) (khz_ticks F 4500 + khz_ticks F 4500) = true /\
    okp F (2 * A) 3 (560 + 560) (khz_ticks F 560 + khz_ticks F 560) = true /\ okp F (2 * A) 3 (560 + 1690) (khz_ticks F 560 + khz_ticks F 1690) = true.
Proof.
  intros [(Ha & Hb & Hk)|(Ha & Hb & [Hk|Hu])].
  - exists 8. split; [exact Ha|]. split; [exact Hb|]. split; [lia|]. split; [lia|].
    repeat split; (apply (okp_single F _ _ _ 180000) || apply (okp_double F _ _ _ _ 180000)); lia.
  - exists 1. split; [lia|]. split; [lia|]. split; [lia|]. split; [lia|].
    repeat split; (apply (okp_single F _ _ _ 100000) || apply (okp_double F _ _ _ _ 100000)); lia.
  - exists 1. split; [lia|]. split; [lia|]. split; [lia|]. cbn [In] in Hu.
    destruct Hu as [<-|[<-|[<-|[]]]]; (split; [lia|]); repeat split; reflexivity.
Qed.

Lemma alternating_pairs2 (on : bool) x y ds : alternating on (x :: y :: ds) = (on, x) :: (negb on, y) :: alternating on ds.
Proof. cbn [alternating]. rewrite negb_involutive. reflexivity. Qed.

Lemma nec_pulses_sent F G a b hm hs w ds : (hm = 9000 \/ hm = 4500) /\ hs = 4500 -> nec_accurate F G a b ->
  Forall2 (pulse_sent F G a b) (tl (nec_buffer (khz_ticks F) hm hs w)) ds ->
  exists ps, alternating false ds = pair_edges ps /\ real_nec G 3 (hm + hs) w ps /\ real_marks G 3 hm 560 ps.
Proof.
  intros (Hm & ->) Hacc H. destruct (nec_okp F G a b Hacc) as (A & Ha & Hb & HA & HF & O1 & O2 & O3 & O4 & O5 & O6 & O7).
  assert (HF0 : 0 < F) by lia.
  assert (Ha2 : 1000000 * (2 * a) <= (2 * A) * G) by lia. assert (Hb2 : 1000000 * (2 * b) <= (2 * A) * G) by lia.
  unfold real_nec. unfold nec_buffer in H. cbn [tl] in H. remember (bits_lsb 32 w) as bits eqn:Eb. clear Eb. inversion H as [|? d1 ? r1 P1 H1]; subst. inversion H1 as [|? d2 ? r2 P2 H2]; subst. clear H H1.
  assert (Bits : forall bs r, Forall2 (pulse_sent F G a b) (flat_map (fun bit : bool => [khz_ticks F 560; khz_ticks F (if bit then 1690 else 560)]) bs) r ->
    exists qs, alternating false r = pair_edges qs /\
      Forall2 (fun (bit : bool) d => real_period G 3 (if bit then 2250 else 1120) d) bs qs /\ Forall (fun d => real_near G 3 560 (fst d)) qs).
  { induction bs as [|bt bs IH]; intros r Hr; cbn [flat_map app] in Hr.
    - inversion Hr; subst. exists []. repeat split; constructor.
    - inversion Hr as [|? x ? r' Q1 Hr1]; subst. inversion Hr1 as [|? y ? r'' Q2 Hr2]; subst.
      destruct (IH r'' Hr2) as (qs & E & B1 & B2). exists ((x, y) :: qs). rewrite alternating_pairs2, E. split; [reflexivity|].
      pose proof (pulse_pair _ _ _ _ _ _ _ _ Q1 Q2) as QQ.
      split; constructor; auto; cbn [fst snd].
      + unfold real_period. cbn [fst snd]. destruct bt.
        * apply (okp_near F G (2 * A) 3 2250 _ _ _ _ HF0 Ha2 Hb2 O7 QQ).
        * apply (okp_near F G (2 * A) 3 1120 _ _ _ _ HF0 Ha2 Hb2 O6 QQ).
      + exact (okp_near F G A 3 560 _ _ _ _ HF0 Ha Hb O1 Q1). }
  destruct (Bits _ _ H2) as (qs & E & B1 & B2). exists ((d1, d2) :: qs). rewrite alternating_pairs2, E. split; [reflexivity|].
  pose proof (pulse_pair _ _ _ _ _ _ _ _ P1 P2) as PP. split.
  - exists (d1, d2), qs. split; [reflexivity|]. split; [|exact B1]. unfold real_period. cbn [fst snd].
    destruct Hm as [-> | ->]; [apply (okp_near F G (2 * A) 3 13500 _ _ _ _ HF0 Ha2 Hb2 O4 PP)|apply (okp_near F G (2 * A) 3 9000 _ _ _ _ HF0 Ha2 Hb2 O5 PP)].
  - exists (d1, d2), qs. split; [reflexivity|]. split; [|exact B2]. cbn [fst].
    destruct Hm as [-> | ->]; [apply (okp_near F G A 3 9000 _ _ _ _ HF0 Ha Hb O2 P1)|apply (okp_near F G A 3 4500 _ _ _ _ HF0 Ha Hb O3 P1)].
Qed.

(** The signal on the pin is the transmission [tr] as a remote control would send it, every
    period within 3 percent; what follows are the entries of the buffer beyond the frame. *)
Definition carries (G : N) (tr : transmission) (t0 first : N) (ls : list (N * bool)) (extra : nat) (evs : list edge) : Prop :=
  exists tail, pin_edges false t0 ls = (true, first - t0) :: evs ++ tail /\ real_sent G 3 tr evs /\ (length tail <= extra + 1)%nat.

Lemma small_lateness A F G b : A <= 26 -> F < 2 ^ 32 -> 1000000 * b <= A * G -> b * F <= 2 ^ 30 * G.
Proof.
  intros HA HF Hb. apply N.mul_le_mono_r with (p := F) in Hb.
  assert (X : A * F <= 26 * F) by (apply N.mul_le_mono_r; exact HA). change (2 ^ 32) with 4294967296 in HF. change (2 ^ 30) with 1073741824.
  assert (Y : A * F <= 1073741824 * 1000000) by lia. apply N.mul_le_mono_r with (p := G) in Y. lia.
Qed.

Lemma nec_carried F G a b V hm hs data c w buf t0 first ls : In (V, hm, hs) nec_senders -> 0 < G -> F < 2 ^ 32 -> nec_accurate F G a b ->
  nec_data (nv_timing V) F = Some data -> nv_pack V c = Val w ->
  (67 <= length buf)%nat -> Forall (fun x => x < 2 ^ 31) buf ->
  pin_signal F G a b (mkEncoder (nv_cmd V) (nec_encode V data)) c buf first ls ->
  exists ps tail, pin_edges false t0 ls = (true, first - t0) :: pair_edges ps ++ tail /\
    real_nec G 3 (hm + hs) w ps /\ real_marks G 3 hm 560 ps /\ (length tail <= length buf - 67 + 1)%nat.
Proof.
  intros Hin HG HF Hacc Ed Epk L67 Hbuf Hpin.
  assert (HT : nec_timing_ok (nv_timing V) /\ hm = header_high (nv_timing V) /\ hs = header_low (nv_timing V) /\
    (hm = 9000 \/ hm = 4500) /\ hs = 4500).
  { unfold nec_senders in Hin. cbn [In] in Hin.
    destruct Hin as [E|[E|[E|[E|[]]]]]; injection E as <- <- <-; unfold nec_timing_ok; cbn; intuition (lia || auto). }
  destruct HT as (HT & Ehm & Ehs & Hm & Hs).
  destruct (nec_okp F G a b Hacc) as (A & Ha & Hb & HA & HF20 & _).
  pose proof (nec_encode_written V F data c w buf HT Ed Epk) as E1. rewrite <- Ehm, <- Ehs in E1.
  pose proof (nec_buffer_length (khz_ticks F) hm hs w) as L.
  rewrite written_val in E1 by (rewrite L; exact L67). rewrite L in E1.
  destruct (nec_buffer_tail F hm hs w) as (Et & Hv); [lia|exact HF|lia|lia|lia|lia|].
  assert (Hv31 : Forall (fun x => x < 2 ^ 31) (tl (nec_buffer (khz_ticks F) hm hs w))).
  { unfold nec_buffer. cbn [tl]. assert (K : forall p, p <= 9000 -> khz_ticks F p < 2 ^ 31) by (intros p Hp; apply khz_small; [lia|exact HF|exact Hp]).
    constructor; [apply K; lia|]. constructor; [apply K; lia|]. apply Forall_forall. intros x Hx. apply in_flat_map in Hx. destruct Hx as (bit & _ & Hx).
    cbn [In] in Hx. destruct Hx as [<-|[<-|[]]]; apply K; [lia|destruct bit; lia]. }
  rewrite Et in E1. cbn [app] in E1.
  assert (HFo : follows F G a b (0 :: tl (nec_buffer (khz_ticks F) hm hs w) ++ skipn 67 buf) t0 first ls).
  { refine (signal_follows F G a b (mkEncoder (nv_cmd V) (nec_encode V data)) c buf first ls _ 67%nat t0 HG _ E1 _ Hpin);
      [apply (small_lateness A); [lia|exact HF|exact Hb]|].
    constructor; [reflexivity|]. apply Forall_app. split; [exact Hv31|].
    rewrite <- (firstn_skipn 67 buf) in Hbuf. apply Forall_app in Hbuf. apply Hbuf. }
  destruct (frame_follows F G a b _ _ t0 first ls ltac:(eapply Forall_impl; [|exact Hv]; cbv beta; intros x [? ?]; assumption) HFo)
    as (ds & tail & Ep & Fa & Lt).
  destruct (nec_pulses_sent F G a b hm hs w ds (conj Hm Hs) Hacc Fa) as (ps & Ea & Rn & Rm).
  exists ps, tail. rewrite Ep, Ea. rewrite skipn_length in Lt. auto.
Qed.

(** A receiver that has got through [h1] reports [c] at the last edge of [h2], and nothing in
    [h2] before it (but possibly the end of something broken off in [h1]). *)
Definition heard (P : protocol) (freq : N) (h1 h2 : list edge) (c : dcmd (p_dec P)) : Prop :=
  forall C (into : dcmd (p_dec P) -> C) r0 r1 os,
  receiver_new P freq = Val r0 -> run_edges into r0 h1 = Val (r1, os) ->
  exists r o, run_edges into r1 h2 = Val (r, o :: repeat (ROk None) (length h2 - 2) ++ [ROk (Some (into c))]) /\
    (o = ROk None \/ o = RErr EData).

Lemma heard_app P freq h1 h2 c : (2 <= length h2)%nat ->
  (forall C (into : dcmd (p_dec P) -> C) r0 r1 os, receiver_new P freq = Val r0 -> run_edges into r0 h1 = Val (r1, os) ->
   exists r os' o, run_edges into r0 (h1 ++ h2) = Val (r, os' ++ o :: repeat (ROk None) (length h2 - 2) ++ [ROk (Some (into c))]) /\
    length os' = length h1 /\ (o = ROk None \/ o = RErr EData)) ->
  heard P freq h1 h2 c.
Proof.
  intros L2 H C into r0 r1 os E0 E1. destruct (H C into r0 r1 os E0 E1) as (r & os' & o & E & L & Ho).
  rewrite run_edges_app, E1 in E. cbn [bind] in E. destruct (run_edges into r1 h2) as [[r2 os2]| |] eqn:E2; [|discriminate|discriminate].
  cbn [bind] in E. injection E as -> Eo. pose proof (run_edges_length into h1 r0 r1 os E1) as L1.
  assert (os = os' /\ os2 = o :: repeat (ROk None) (length h2 - 2) ++ [ROk (Some (into c))]) as [_ ->].
  { apply app_eq_app in Eo. destruct Eo as (l & [[-> X]|[-> X]]).
    - pose proof (eq_trans L1 (eq_sym L)) as Z. pose proof (eq_trans (eq_sym (app_length os' l)) Z) as Y. clear -Y X.
      set (n := length os') in *. destruct l; [rewrite app_nil_r; split; auto|exfalso; change ((n + S (length l))%nat = n) in Y; lia].
    - pose proof (eq_trans L (eq_sym L1)) as Z. pose proof (eq_trans (eq_sym (app_length os l)) Z) as Y. clear -Y X.
      set (n := length os) in *. destruct l; [rewrite app_nil_r; split; auto|exfalso; change ((n + S (length l))%nat = n) in Y; lia]. }
  exists r, o. split; [reflexivity|exact Ho].
Qed.

Lemma real_near_4 G p d : real_near G 3 p d -> real_near G 4 p d.
Proof.
  intros [H1 H2]. split.
  - etransitivity; [exact H1|]. apply N.mul_le_mono_r, N.mul_le_mono_r. lia.
  - etransitivity; [|exact H2]. apply N.mul_le_mono_r, N.mul_le_mono_r. lia.
Qed.
Lemma real_nec_4 G header w ps : real_nec G 3 header w ps -> real_nec G 4 header w ps.
Proof.
  intros (h & ds & -> & Hh & F2). exists h, ds. split; [reflexivity|]. split; [apply real_near_4, Hh|].
  induction F2; constructor; auto. apply real_near_4. assumption.
Qed.

Lemma real_nec_length G x header w ps : real_nec G x header w ps -> length (pair_edges ps) = 66%nat.
Proof.
  intros (h & ds & -> & _ & F2). assert (L : length ds = 32%nat).
  { rewrite <- (bits_lsb_length 32 w). clear -F2. induction F2; cbn; auto. }
  destruct h. cbn [pair_edges length]. 
  assert (X : forall l, length (pair_edges l) = (2 * length l)%nat) by (induction l as [|[? ?] l IH]; cbn [pair_edges length]; lia).
  rewrite X, L. reflexivity.
Qed.

Lemma nec_heard b m freq V G clock th t0 hist gap ps (c : nv_cmd V) :
  (forall C (into : nv_cmd V -> C), exists r0 r os o, receiver_new (nec_protocol b m V) freq = Val r0 /\
    run_edges (D := nec_dec b m V) into r0 (measured clock th (hist ++ (true, gap) :: pair_edges ps)) =
      Val (r, os ++ o :: repeat (ROk None) 65 ++ [ROk (Some (into c))]) /\
    length os = length hist /\ (o = ROk None \/ o = RErr EData)) ->
  t0 = after th hist -> (exists w header, real_nec G 3 header w ps) ->
  heard (nec_protocol b m V) freq (measured clock th hist) (measured clock t0 ((true, gap) :: pair_edges ps)) c.
Proof.
  intros H -> (w & header & Hn). pose proof (real_nec_length _ _ _ _ _ Hn) as L.
  assert (L' : length (measured clock (after th hist) ((true, gap) :: pair_edges ps)) = 67%nat).
  { rewrite measured_length. cbn [length]. rewrite L. reflexivity. }
  apply heard_app; [apply (eq_ind_r (fun n => (2 <= n)%nat)) with (2 := L'); lia|]. intros C into r0 r1 os E0 _.
  destruct (H C into) as (r0' & r & os' & o & E0' & E & Lo & Ho).
  assert (r0' = r0) as ->. { pose proof (eq_trans (eq_sym E0') E0) as X. injection X as X. exact X. }
  exists r, os', o. split; [|split; [exact (eq_trans Lo (eq_sym (measured_length clock hist th)))|exact Ho]].
  rewrite measured_app in E. etransitivity; [exact E|]. do 6 f_equal. apply (eq_ind_r (fun n => 65%nat = (n - 2)%nat)) with (2 := L'). reflexivity.
Qed.

Lemma nec_clocks F G a b data : 0 < G -> F < 2 ^ 32 -> nec_accurate F G a b -> nec_data (nv_timing NecStandard) F = Some data ->
  let enc := nec_encode NecStandard data in
  forall addr cmd rep buf t0 first ls, addr < 2 ^ 8 -> cmd < 2 ^ 8 -> (67 <= length buf)%nat -> Forall (fun x => x < 2 ^ 31) buf ->
  pin_signal F G a b (mkEncoder nec_command enc) (mkNec addr cmd rep) buf first ls ->
  exists evs, carries G (TNec addr cmd) t0 first ls (length buf - 67) evs /\
    forall bld m freq j clock th hist, timebase m freq -> freq < 2 ^ 32 -> counts freq G j clock -> rate_ok 7000 [] freq j ->
    t0 = after th hist -> real_long G 27000 (first - t0) -> short (measured clock th (hist ++ (true, first - t0) :: evs)) ->
    heard (nec_protocol bld m NecStandard) freq (measured clock th hist) (measured clock t0 ((true, first - t0) :: evs)) (mkNec addr cmd false).
Proof.
  intros HG HF Hacc Ed enc.
  intros addr cmd rep buf t0 first ls Ha Hc L67 Hbuf Hpin. destruct (C01_nec_words addr cmd rep false Ha Hc) as (w & Ep & Ew & Eu).
  destruct (nec_carried F G a b NecStandard 9000 4500 data (mkNec addr cmd rep) w buf t0 first ls) as (ps & tail & E & Rn & Rm & Lt); auto; [left; reflexivity|].
  change (9000 + 4500) with 13500 in Rn. rewrite Ew in Rn.
  exists (pair_edges ps). split.
  - exists tail. split; [exact E|]. split; [|exact Lt]. cbn [real_sent]. eauto 8.
  - intros bld m freq j clock th hist Hm Hf Hcl Hr Et Hg Hs. apply (nec_heard bld m freq NecStandard G); auto; [|eauto].
    intros C into. apply (C68_nec bld m freq G j clock th addr cmd hist (first - t0) ps C into); auto. apply real_nec_4, Rn.
Qed.

Theorem C84_nec :
  forall F G a b, 0 < G -> F < 2 ^ 32 -> nec_accurate F G a b -> nec_encoder NecStandard F <> None ->
  exists enc, nec_encoder NecStandard F = Some (mkEncoder nec_command enc) /\
  forall addr cmd rep buf t0 first ls, addr < 2 ^ 8 -> cmd < 2 ^ 8 -> (67 <= length buf)%nat -> Forall (fun x => x < 2 ^ 31) buf ->
  pin_signal F G a b (mkEncoder nec_command enc) (mkNec addr cmd rep) buf first ls ->
  exists evs, carries G (TNec addr cmd) t0 first ls (length buf - 67) evs /\
    forall bld m freq j clock th hist, timebase m freq -> freq < 2 ^ 32 -> counts freq G j clock -> rate_ok 7000 [] freq j ->
    t0 = after th hist -> real_long G 27000 (first - t0) -> short (measured clock th (hist ++ (true, first - t0) :: evs)) ->
    heard (nec_protocol bld m NecStandard) freq (measured clock th hist) (measured clock t0 ((true, first - t0) :: evs)) (mkNec addr cmd false).
Proof.
  intros F G a b HG HF Hacc Hne. unfold nec_encoder in Hne. destruct (nec_data (nv_timing NecStandard) F) as [data|] eqn:Ed; [|destruct Hne; reflexivity].
  exists (nec_encode NecStandard data). split; [unfold nec_encoder; rewrite Ed; reflexivity|exact (nec_clocks F G a b data HG HF Hacc Ed)].
Qed.
Print Assumptions C84_nec.

Theorem C84_nec16 :
  forall F G a b, 0 < G -> F < 2 ^ 32 -> nec_accurate F G a b -> nec_encoder Nec16Bit F <> None ->
  exists enc, nec_encoder Nec16Bit F = Some (mkEncoder nec16_command enc) /\
  forall addr cmd rep buf t0 first ls, addr < 2 ^ 16 -> cmd < 2 ^ 8 -> (67 <= length buf)%nat -> Forall (fun x => x < 2 ^ 31) buf ->
  pin_signal F G a b (mkEncoder nec16_command enc) (mkNec16 addr cmd rep) buf first ls ->
  exists evs, carries G (TNec16 addr cmd) t0 first ls (length buf - 67) evs /\
    forall bld m freq j clock th hist, timebase m freq -> freq < 2 ^ 32 -> counts freq G j clock -> rate_ok 7000 [] freq j ->
    t0 = after th hist -> real_long G 27000 (first - t0) -> short (measured clock th (hist ++ (true, first - t0) :: evs)) ->
    heard (nec_protocol bld m Nec16Bit) freq (measured clock th hist) (measured clock t0 ((true, first - t0) :: evs)) (mkNec16 addr cmd false).
Proof.
  intros F G a b HG HF Hacc Hne. unfold nec_encoder in Hne. destruct (nec_data (nv_timing Nec16Bit) F) as [data|] eqn:Ed; [|destruct Hne; reflexivity].
  exists (nec_encode Nec16Bit data). split; [unfold nec_encoder; rewrite Ed; reflexivity|].
  intros addr cmd rep buf t0 first ls Ha Hc L67 Hbuf Hpin. destruct (C01_nec16_words addr cmd rep false Ha Hc) as (w & Ep & Ew & Eu).
  destruct (nec_carried F G a b Nec16Bit 9000 4500 data (mkNec16 addr cmd rep) w buf t0 first ls) as (ps & tail & E & Rn & Rm & Lt); auto; [right; left; reflexivity|].
  change (9000 + 4500) with 13500 in Rn. rewrite Ew in Rn.
  exists (pair_edges ps). split.
  - exists tail. split; [exact E|]. split; [|exact Lt]. cbn [real_sent]. eauto 8.
  - intros bld m freq j clock th hist Hm Hf Hcl Hr Et Hg Hs. apply (nec_heard bld m freq Nec16Bit G); auto; [|eauto].
    intros C into. apply (C68_nec16 bld m freq G j clock th addr cmd hist (first - t0) ps C into); auto. apply real_nec_4, Rn.
Qed.
Print Assumptions C84_nec16.

Theorem C84_samsung :
  forall F G a b, 0 < G -> F < 2 ^ 32 -> nec_accurate F G a b -> nec_encoder NecSamsung F <> None ->
  exists enc, nec_encoder NecSamsung F = Some (mkEncoder samsung_command enc) /\
  forall addr cmd rep buf t0 first ls, addr < 2 ^ 8 -> cmd < 2 ^ 8 -> (67 <= length buf)%nat -> Forall (fun x => x < 2 ^ 31) buf ->
  pin_signal F G a b (mkEncoder samsung_command enc) (mkSamsung addr cmd rep) buf first ls ->
  exists evs, carries G (TSamsung addr cmd) t0 first ls (length buf - 67) evs /\
    forall bld m freq j clock th hist, timebase m freq -> freq < 2 ^ 32 -> counts freq G j clock -> rate_ok 7000 [] freq j ->
    t0 = after th hist -> real_long G 18000 (first - t0) -> short (measured clock th (hist ++ (true, first - t0) :: evs)) ->
    heard (nec_protocol bld m NecSamsung) freq (measured clock th hist) (measured clock t0 ((true, first - t0) :: evs)) (mkSamsung addr cmd false).
Proof.
  intros F G a b HG HF Hacc Hne. unfold nec_encoder in Hne. destruct (nec_data (nv_timing NecSamsung) F) as [data|] eqn:Ed; [|destruct Hne; reflexivity].
  exists (nec_encode NecSamsung data). split; [unfold nec_encoder; rewrite Ed; reflexivity|].
  intros addr cmd rep buf t0 first ls Ha Hc L67 Hbuf Hpin. destruct (C01_samsung_words addr cmd rep false Ha Hc) as (w & Ep & Ew & Eu).
  destruct (nec_carried F G a b NecSamsung 4500 4500 data (mkSamsung addr cmd rep) w buf t0 first ls) as (ps & tail & E & Rn & Rm & Lt); auto; [do 3 right; left; reflexivity|].
  change (4500 + 4500) with 9000 in Rn. rewrite Ew in Rn.
  exists (pair_edges ps). split.
  - exists tail. split; [exact E|]. split; [|exact Lt]. cbn [real_sent]. eauto 8.
  - intros bld m freq j clock th hist Hm Hf Hcl Hr Et Hg Hs. apply (nec_heard bld m freq NecSamsung G); auto; [|eauto].
    intros C into. apply (C68_samsung bld m freq G j clock th addr cmd hist (first - t0) ps C into); auto. apply real_nec_4, Rn.
Qed.
Print Assumptions C84_samsung.

Theorem C84_raw :
  forall F G a b, 0 < G -> F < 2 ^ 32 -> nec_accurate F G a b -> nec_encoder NecRaw F <> None ->
  exists enc, nec_encoder NecRaw F = Some (mkEncoder nec_debug_cmd enc) /\
  forall w buf t0 first ls, w < 2 ^ 32 -> (67 <= length buf)%nat -> Forall (fun x => x < 2 ^ 31) buf ->
  pin_signal F G a b (mkEncoder nec_debug_cmd enc) (mkNecDebug w) buf first ls ->
  exists evs, carries G (TRaw w) t0 first ls (length buf - 67) evs /\
    forall bld m freq j clock th hist, timebase m freq -> freq < 2 ^ 32 -> counts freq G j clock -> rate_ok 7000 [] freq j ->
    t0 = after th hist -> real_long G 27000 (first - t0) -> short (measured clock th (hist ++ (true, first - t0) :: evs)) ->
    heard (nec_protocol bld m NecRaw) freq (measured clock th hist) (measured clock t0 ((true, first - t0) :: evs)) (mkNecDebug w).
Proof.
  intros F G a b HG HF Hacc Hne. unfold nec_encoder in Hne. destruct (nec_data (nv_timing NecRaw) F) as [data|] eqn:Ed; [|destruct Hne; reflexivity].
  exists (nec_encode NecRaw data). split; [unfold nec_encoder; rewrite Ed; reflexivity|].
  intros w buf t0 first ls Hw L67 Hbuf Hpin.
  destruct (nec_carried F G a b NecRaw 9000 4500 data (mkNecDebug w) w buf t0 first ls) as (ps & tail & E & Rn & Rm & Lt); auto; [do 2 right; left; reflexivity|].
  change (9000 + 4500) with 13500 in Rn.
  exists (pair_edges ps). split.
  - exists tail. split; [exact E|]. split; [|exact Lt]. cbn [real_sent]. eauto 8.
  - intros bld m freq j clock th hist Hm Hf Hcl Hr Et Hg Hs. apply (nec_heard bld m freq NecRaw G); auto; [|eauto].
    intros C into. rewrite measured_app in *.
    destruct (nec_measured freq G j clock HG Hcl Hr (after th hist) 13500 w (first - t0) ps (or_introl eq_refl) (real_nec_4 _ _ _ _ Rn) Hg) as (g' & ps' & E' & F' & G').
    rewrite E' in *. destruct (C19_raw_frame bld m freq w (measured clock th hist) g' ps' C into) as (r0 & r & os & o & E0 & E1 & L & Ho); auto.
    { destruct Hr as (Hj & [Hk|[_ []]]). lia. }
    exists r0, r, os, o. pose proof (eq_trans L (measured_length clock hist th)) as L'. auto.
Qed.
Print Assumptions C84_raw.

(** ** RC5 and RC6 *)
Lemma okp_mult F A x p L n : 1 <= n -> okp F A x p L = true -> okp F A x (p * n) (L * n) = true.
Proof.
  intros Hn H. unfold okp in *. apply andb_prop in H. destruct H as [H1 H2]. apply N.leb_le in H1, H2.
  assert (K : 100 * A * F <= 100 * A * F * n) by (rewrite <- (N.mul_1_r (100 * A * F)) at 1; apply N.mul_le_mono_l; exact Hn).
  apply N.mul_le_mono_r with (p := n) in H1. apply N.mul_le_mono_r with (p := n) in H2.
  apply andb_true_intro. split; apply N.leb_le.
  - replace ((100 + x) * (p * n) * F) with ((100 + x) * p * F * n) by ring. lia.
  - replace ((100 - x) * (p * n) * F) with ((100 - x) * p * F * n) by ring. lia.
Qed.

Lemma okp_nominal F A x p k : k <= F -> 100 * A <= x * p -> x <= 100 -> 99999900 <= (x * p - 100 * A) * k -> okp F A x p (nominal F p) = true.
Proof.
  intros Hk Hx Hx1 Hr.
  assert (N1 : nominal F p * 1000000 <= p * F /\ p * F <= nominal F p * 1000000 + 999999).
  { unfold nominal. pose proof (N.div_mod (p * F) 1000000 ltac:(discriminate)). pose proof (N.mod_lt (p * F) 1000000 ltac:(discriminate)). lia. }
  destruct N1 as [N1 N2]. set (t := nominal F p) in *. clearbody t.
  assert (X : (x * p - 100 * A) * k <= (x * p - 100 * A) * F) by (apply N.mul_le_mono_l; exact Hk).
  rewrite (N.mul_sub_distr_r _ _ F) in X.
  assert (Y : 100 * A * F <= x * p * F) by (apply N.mul_le_mono_r; exact Hx).
  assert (Z : x * p * F <= 100 * p * F) by (apply N.mul_le_mono_r, N.mul_le_mono_r; exact Hx1).
  unfold okp. apply andb_true_intro. split; apply N.leb_le.
  - rewrite N.mul_add_distr_r, N.mul_add_distr_r. lia.
  - rewrite N.mul_sub_distr_r, N.mul_sub_distr_r. lia.
Qed.

Lemma units_sent F G a b A unit l noms : 0 < F -> 1000000 * a <= A * G -> 1000000 * b <= A * G -> okp F A 3 unit l = true ->
  Forall (fun e : edge => 1 <= snd e) noms -> forall on ds, Cross_facts.alt on noms ->
  Forall2 (pulse_sent F G a b) (map (fun x : edge => l * snd x) noms) ds -> Forall2 (real_unit G 3 unit) noms (alternating on ds).
Proof.
  intros HF Ha Hb Ho Hn. induction Hn as [|[x n] noms H1 Hn IH]; intros on ds Halt H; cbn [map] in H; inversion H as [|? d ? ds' P1 P2]; subst; cbn [alternating]; [constructor|].
  cbn [Cross_facts.alt] in Halt. destruct Halt as [-> Halt]. constructor; [|apply IH; auto]. split; [reflexivity|]. cbn [snd] in *.
  exact (okp_near F G A 3 (unit * n) (l * n) a b d HF Ha Hb (okp_mult F A 3 unit l n H1 Ho) P1).
Qed.

Definition rc5_accurate := accurate 13 140000 75000 [38000; 40000].
Definition rc6_accurate := accurate 6 140000 82000 [].

Lemma rc5_okp F G a b : rc5_accurate F G a b ->
  exists A, 1000000 * a <= A * G /\ 1000000 * b <= A * G /\ A <= 13 /\ 38000 <= F /\ okp F A 3 889 (khz_ticks F 889) = true.
Proof.
  intros [(Ha & Hb & Hk)|(Ha & Hb & [Hk|Hu])].
  - exists 13. repeat (split; [assumption || lia|]). apply (okp_single F _ _ _ 140000); lia.
  - exists 1. repeat (split; [lia|]). apply (okp_single F _ _ _ 75000); lia.
  - exists 1. split; [lia|]. split; [lia|]. split; [lia|]. cbn [In] in Hu. destruct Hu as [<-|[<-|[]]]; (split; [lia|]); reflexivity.
Qed.
Lemma rc6_okp F G a b : rc6_accurate F G a b ->
  exists A, 1000000 * a <= A * G /\ 1000000 * b <= A * G /\ A <= 6 /\ 82000 <= F /\ okp F A 3 444 (nominal F 444) = true.
Proof.
  intros [(Ha & Hb & Hk)|(Ha & Hb & [Hk|[]])].
  - exists 6. repeat (split; [assumption || lia|]). apply (okp_nominal F _ _ _ 140000); lia.
  - exists 1. repeat (split; [lia|]). apply (okp_nominal F _ _ _ 82000); lia.
Qed.

Lemma heard_none P freq h1 h2 c : (2 <= length h2)%nat ->
  (forall C (into : dcmd (p_dec P) -> C) r0 r1 os, receiver_new P freq = Val r0 -> run_edges into r0 h1 = Val (r1, os) ->
   exists r, run_edges into r0 (h1 ++ h2) = Val (r, os ++ repeat (ROk None) (length h2 - 1) ++ [ROk (Some (into c))])) ->
  heard P freq h1 h2 c.
Proof.
  intros L2 H. apply heard_app; [exact L2|]. intros C into r0 r1 os E0 E1. destruct (H C into r0 r1 os E0 E1) as (r & E).
  exists r, os, (ROk None). split; [|split; [exact (run_edges_length into h1 r0 r1 os E1)|left; reflexivity]].
  rewrite E. replace (length h2 - 1)%nat with (S (length h2 - 2)) by lia. reflexivity.
Qed.

(** The word of an RC5 command. *)
Definition rc5_word (a c s : N) (t : bool) : N := c + 2 ^ 6 * a + 2 ^ 11 * (if t then 1 else 0) + 2 ^ 12 * (s mod 2) + 2 ^ 13.

Lemma rc5_word_fields a c s t : a < 2 ^ 5 -> c < 2 ^ 6 -> s = 2 \/ s = 3 ->
  rc5_word a c s t < 2 ^ 14 /\ N.testbit (rc5_word a c s t) 13 = true /\
  mkRc5 (field (rc5_word a c s t) 6 5) (field (rc5_word a c s t) 0 6) (field (rc5_word a c s t) 12 2) (negb (field (rc5_word a c s t) 11 1 =? 0)) = mkRc5 a c s t.
Proof.
  intros Ha Hc Hs. unfold rc5_word.
  assert (B : exists x, c + 2 ^ 6 * a + 2 ^ 11 * (if t then 1 else 0) + 2 ^ 12 * (s mod 2) = x /\ x < 2 ^ 13).
  { eexists. split; [reflexivity|]. change (2 ^ 5) with 32 in *. change (2 ^ 6) with 64 in *. change (2 ^ 13) with 8192.
    change (2 ^ 11) with 2048. change (2 ^ 12) with 4096. clear -Ha Hc. destruct t; lia. }
  split; [|split].
  - destruct B as (x & -> & Hx). change (2 ^ 13) with 8192 in *. change (2 ^ 14) with 16384. lia.
  - destruct B as (x & -> & Hx). rewrite N.testbit_true. change (2 ^ 13) with 8192 in *. clear -Hx. lia.
  - unfold field. change (2 ^ 5) with 32 in *. change (2 ^ 6) with 64 in *. change (2 ^ 0) with 1. change (2 ^ 1) with 2. change (2 ^ 2) with 4.
    change (2 ^ 11) with 2048. change (2 ^ 12) with 4096. change (2 ^ 13) with 8192. clear B.
    f_equal; [destruct Hs as [-> | ->], t; lia|destruct Hs as [-> | ->], t; lia|destruct Hs as [-> | ->], t; lia|].
    destruct t; [|destruct Hs as [-> | ->]; rewrite (proj2 (N.eqb_eq _ _)); [reflexivity|lia|reflexivity|lia]].
    destruct Hs as [-> | ->]; rewrite (proj2 (N.eqb_neq _ _)); try reflexivity; lia.
Qed.

Lemma map_ge1 l (noms : list edge) : 1 <= l -> Forall (fun e : edge => 1 <= snd e) noms -> Forall (fun x => 1 <= x) (map (fun x : edge => l * snd x) noms).
Proof. intros Hl H. induction H as [|x r H1 H2 IH]; cbn [map]; constructor; auto. clear -Hl H1. nia. Qed.
Lemma map_small l k (noms : list edge) : k * l < 2 ^ 31 -> Forall (fun e : edge => snd e <= k) noms -> Forall (fun x => x < 2 ^ 31) (map (fun x : edge => l * snd x) noms).
Proof.
  intros Hl H. induction H as [|x r H1 H2 IH]; cbn [map]; constructor; auto.
  eapply N.le_lt_trans; [|exact Hl]. rewrite (N.mul_comm k l). apply N.mul_le_mono_l, H1.
Qed.
Lemma forall_skipn {A} (P : A -> Prop) n (l : list A) : Forall P l -> Forall P (skipn n l).
Proof. intros H. rewrite <- (firstn_skipn n l) in H. apply Forall_app in H. apply H. Qed.

Theorem C84_rc5 :
  forall F G a b bs, 0 < G -> F < 2 ^ 32 -> rc5_accurate F G a b ->
  exists enc, rc5_encoder bs F = Some (mkEncoder rc5_command enc) /\
  forall addr cmd s t buf t0 first ls, addr < 2 ^ 5 -> cmd < 2 ^ 6 -> s = 2 \/ s = 3 ->
  (27 <= length buf)%nat -> Forall (fun x => x < 2 ^ 31) buf ->
  pin_signal F G a b (mkEncoder rc5_command enc) (mkRc5 addr cmd s t) buf first ls ->
  exists evs, carries G (TRc5 (rc5_word addr cmd s t)) t0 first ls (length buf) evs /\
    forall bld m freq j clock th hist, timebase m freq -> freq < 2 ^ 32 -> 8 <= usize_bits bld -> counts freq G j clock ->
    rate_ok 15000 [20000] freq j -> t0 = after th hist -> real_long G 3000 (first - t0) ->
    heard (rc5_protocol bld m) freq (measured clock th hist) (measured clock t0 ((true, first - t0) :: evs)) (mkRc5 addr cmd s t).
Proof.
  intros F G a b bs HG HF Hacc. destruct (C53_rc5_encoder bs F HF) as (enc & Ee & Hw). exists enc. split; [exact Ee|].
  intros addr cmd s t buf t0 first ls Ha Hc Hs L27 Hbuf Hpin.
  assert (Hs4 : s < 2 ^ 2) by (change (2 ^ 2) with 4; lia).
  specialize (Hw addr cmd s t buf Ha Hc Hs4). fold (rc5_word addr cmd s t) in Hw.
  destruct (rc5_word_fields addr cmd s t Ha Hc Hs) as (Lw & H13 & Ef). set (w := rc5_word addr cmd s t) in *.
  destruct (C53_rc5_runs (khz_ticks F 889) w H13) as (L & _).
  destruct (rc5_okp F G a b Hacc) as (A & Aa & Ab & HA & HF38 & Ho).
  assert (En : exists n noms, level_edges false 0 (rc5_wave w) = (true, n) :: noms).
  { unfold rc5_wave. rewrite bits_msb_S. change (N.of_nat 13) with 13. rewrite H13. cbn [flat_map rc5_half app level_edges Bool.eqb]. eauto. }
  destruct En as (n & noms & En). destruct (Cross_facts.rc5_noms w n noms En) as (Hn & Halt).
  assert (Hn1 : Forall (fun e : edge => 1 <= snd e) noms) by (eapply Forall_impl; [|exact Hn]; cbv beta; intros x [? ?]; assumption).
  assert (Hn2 : Forall (fun e : edge => snd e <= 2) noms) by (eapply Forall_impl; [|exact Hn]; cbv beta; intros x [? ?]; assumption).
  assert (Eb : rc5_buffer (khz_ticks F 889) w = 0 :: map (fun x : edge => khz_ticks F 889 * snd x) noms) by (unfold rc5_buffer; rewrite En; reflexivity).
  assert (Hl : khz_ticks F 889 < 2 ^ 30).
  { rewrite khz_above by lia. change (2 ^ 32) with 4294967296 in HF. change (2 ^ 30) with 1073741824.
    assert (X : F / 1000 * 889 <= 4294968 * 889) by (apply N.mul_le_mono_r; lia). clear -X. lia. }
  assert (Hl1 : 1 <= khz_ticks F 889).
  { pose proof (khz_low F 889 ltac:(lia)) as X. clear -X HF38. lia. }
  rewrite written_val in Hw by lia. rewrite Eb in Hw. cbn [app] in Hw.
  set (frame := map (fun x : edge => khz_ticks F 889 * snd x) noms) in *. set (rest := skipn (length (0 :: frame)) buf) in *.
  assert (HFo : follows F G a b (0 :: frame ++ rest) t0 first ls).
  { refine (signal_follows F G a b (mkEncoder rc5_command enc) (mkRc5 addr cmd s t) buf first ls _ _ t0 HG _ Hw _ Hpin);
      [apply (small_lateness A); [lia|exact HF|exact Ab]|].
    constructor; [reflexivity|]. apply Forall_app. split; [|apply forall_skipn, Hbuf].
    apply (map_small _ 2); [change (2 ^ 30) with 1073741824 in Hl; change (2 ^ 31) with 2147483648; lia|exact Hn2]. }
  destruct (frame_follows F G a b frame rest t0 first ls (map_ge1 _ _ Hl1 Hn1) HFo) as (ds & tail & Ep & Fa & Lt).
  pose proof (units_sent F G a b A 889 _ noms ltac:(lia) Aa Ab Ho Hn1 false ds Halt Fa) as Fu.
  exists (alternating false ds). assert (Rr : real_rc5 G 3 w (alternating false ds)) by (exists n, noms; split; assumption). split.
  - exists tail. split; [exact Ep|]. split; [cbn [real_sent]; auto|]. unfold rest in Lt. rewrite skipn_length in Lt. lia.
  - intros bld m freq j clock th hist Hm Hf Hu Hcl Hr Et Hg.
    assert (Lev : (1 <= length (alternating false ds))%nat).
    { destruct noms as [|x0 noms]; [|inversion Fu; cbn; lia]. exfalso. clear -En H13. unfold rc5_wave in En. rewrite bits_msb_S in En.
      change (N.of_nat 13) with 13 in En. rewrite H13 in En.
      assert (X : exists x bl, bits_msb 13 w = x :: bl) by (rewrite bits_msb_S; eauto). destruct X as (x & bl & E). rewrite E in En.
      destruct x; cbn [flat_map rc5_half app level_edges Bool.eqb] in En; discriminate. }
    apply heard_none; [rewrite measured_length; cbn [length]; lia|]. intros C into r0 r1 os E0 E1.
    destruct (C68_rc5 bld m freq G j clock th w hist (first - t0) (alternating false ds) C into r0 r1 os) as (r & E); auto.
    exists r. rewrite measured_app in E. rewrite <- Et in E. rewrite Ef in E. etransitivity; [exact E|]. do 5 f_equal.
    rewrite measured_length. cbn [length]. lia.
Qed.
Print Assumptions C84_rc5.

Lemma rc6_wave_length t w : length (rc6_wave t (bits_msb 16 w)) = 52%nat.
Proof.
  unfold rc6_wave. pose proof (bits_msb_length 16 w) as L. destruct (bits_msb 16 w) as [|x l]; [discriminate|]. revert L. generalize (x :: l). clear. intros l L.
  assert (X : length (flat_map rc6_half l) = (2 * length l)%nat) by (clear; induction l as [|x l IH]; [reflexivity|]; destruct x; cbn [flat_map rc6_half app length]; lia).
  destruct t; cbn [app length rc6_half]; rewrite ?app_length, X, L; reflexivity.
Qed.

Theorem C84_rc6 :
  forall F G a b bs, 0 < G -> 444 * F < 2 ^ 32 -> rc6_accurate F G a b ->
  exists enc, rc6_encoder bs F = Some (mkEncoder rc6_command enc) /\
  forall addr cmd t buf t0 first ls, addr < 2 ^ 8 -> cmd < 2 ^ 8 ->
  (44 <= length buf)%nat -> Forall (fun x => x < 2 ^ 31) buf ->
  pin_signal F G a b (mkEncoder rc6_command enc) (mkRc6 addr cmd t) buf first ls ->
  exists evs, carries G (TRc6 addr cmd t) t0 first ls (length buf) evs /\
    forall bld m freq j clock th hist, timebase m freq -> freq < 2 ^ 32 -> 8 <= usize_bits bld -> counts freq G j clock ->
    rate_ok 30000 [40000] freq j -> t0 = after th hist -> real_long G 4000 (first - t0) ->
    heard (rc6_protocol bld m) freq (measured clock th hist) (measured clock t0 ((true, first - t0) :: evs)) (mkRc6 addr cmd t).
Proof.
  intros F G a b bs HG HF444 Hacc. destruct (C54_rc6_encoder bs F HF444) as (enc & Ee & Hw). exists enc. split; [exact Ee|].
  intros addr cmd t buf t0 first ls Ha Hc L44 Hbuf Hpin. destruct (Hw addr cmd t buf Ha Hc) as (Ew & L & _). clear Hw.
  assert (HF : F < 2 ^ 32) by (clear -HF444; lia).
  destruct (rc6_okp F G a b Hacc) as (A & Aa & Ab & HA & HF82 & Ho).
  set (w := 2 ^ 8 * addr + cmd) in *. set (l := nominal F 444) in *.
  assert (En : exists n noms, level_edges false 0 (rc6_wave t (bits_msb 16 w)) = (true, n) :: noms /\ n = 0).
  { unfold rc6_wave. destruct t; cbn [app level_edges Bool.eqb]; eexists _, _; split; reflexivity. }
  destruct En as (n & noms & En & En0). destruct (Props_phys.rc6_lead _ _ _ _ En) as (noms' & ->).
  destruct (Cross_facts.rc6_noms t w n noms' En) as (Hn & Halt & _).
  assert (Hn1 : Forall (fun e : edge => 1 <= snd e) ((false, 6) :: noms')).
  { constructor; [cbn; lia|]. eapply Forall_impl; [|exact Hn]; cbv beta; intros x [? ?]; assumption. }
  assert (Hn2 : Forall (fun e : edge => snd e <= 6) ((false, 6) :: noms')).
  { constructor; [cbn; lia|]. eapply Forall_impl; [|exact Hn]; cbv beta; intros x [? ?]; lia. }
  assert (Halt' : Cross_facts.alt false ((false, 6) :: noms')) by (split; [reflexivity|exact Halt]).
  destruct (level_edges_snoc (rc6_wave t (bits_msb 16 w)) false false 0) as (tl' & Es & Ht).
  set (noms := (false, 6) :: noms') in *.
  assert (Eb : rc6_buffer l t w = 0 :: map (fun x : edge => l * snd x) noms ++ map (fun x : edge => l * snd x) tl').
  { unfold rc6_buffer. rewrite Es, En, En0. rewrite map_app. cbn [map snd app]. rewrite N.mul_0_r. reflexivity. }
  assert (Hl : l <= 4294).
  { unfold l, nominal. revert HF444. change (2 ^ 32) with 4294967296. generalize (444 * F). intros z Hz. lia. }
  assert (Hl1 : 1 <= l). { unfold l, nominal. clear -HF82. lia. }
  assert (Lb : (length (rc6_buffer l t w) <= length buf)%nat) by lia.
  assert (Htl : Forall (fun x => x < 2 ^ 31) (map (fun x : edge => l * snd x) tl')).
  { assert (T : Forall (fun e : edge => snd e <= 60) tl').
    { pose proof (Cross_facts.level_total (rc6_wave t (bits_msb 16 w) ++ [false]) false 0) as X. rewrite Es, map_app, app_length, rc6_wave_length in X.
      destruct Ht as [->|(k & ->)]; [constructor|]. constructor; [|constructor]. cbn [snd length map] in *. revert X.
      set (xs := map snd _). clearbody xs. clear. induction xs as [|x xs IH]; intros X; [unfold Spec_sound.total in X; cbn [app fold_right] in X; lia|]. apply IH. etransitivity; [|exact X]. cbn [app]. unfold Spec_sound.total. cbn [fold_right]. lia. }
    apply (map_small _ 60); [|exact T]. change (2 ^ 31) with 2147483648. lia. }
  rewrite written_val in Ew by exact Lb. rewrite Eb in Ew.
  set (frame := map (fun x : edge => l * snd x) noms) in *.
  set (rest0 := skipn (length (0 :: frame ++ map (fun x : edge => l * snd x) tl')) buf) in *.
  cbn [app] in Ew. rewrite <- app_assoc in Ew. set (rest := map (fun x : edge => l * snd x) tl' ++ rest0) in *.
  assert (HFo : follows F G a b (0 :: frame ++ rest) t0 first ls).
  { refine (signal_follows F G a b (mkEncoder rc6_command enc) (mkRc6 addr cmd t) buf first ls _ _ t0 HG _ Ew _ Hpin);
      [apply (small_lateness A); [lia|exact HF|exact Ab]|].
    constructor; [reflexivity|]. apply Forall_app. split; [|apply Forall_app; split; [exact Htl|apply forall_skipn, Hbuf]].
    apply (map_small _ 6); [change (2 ^ 31) with 2147483648; lia|exact Hn2]. }
  destruct (frame_follows F G a b frame rest t0 first ls (map_ge1 _ _ Hl1 Hn1) HFo) as (ds & tail & Ep & Fa & Lt).
  pose proof (units_sent F G a b A 444 _ noms ltac:(lia) Aa Ab Ho Hn1 false ds Halt' Fa) as Fu.
  exists (alternating false ds). assert (Rr : real_rc6 G 3 t w (alternating false ds)) by (exists n, noms; split; assumption). split.
  - exists tail. split; [exact Ep|]. split; [cbn [real_sent]; auto|].
    assert (Lr : (length rest <= length buf)%nat).
    { unfold rest, rest0. rewrite app_length, skipn_length. cbn [length]. rewrite app_length.
      pose proof Lb as X. rewrite Eb in X.
      cbn [length] in X. rewrite app_length in X. lia. }
    lia.
  - intros bld m freq j clock th hist Hm Hf Hu Hcl Hr Et Hg.
    assert (Lev : (1 <= length (alternating false ds))%nat) by (inversion Fu; cbn; lia).
    apply heard_none; [rewrite measured_length; cbn [length]; lia|]. intros C into r0 r1 os E0 E1.
    destruct (C68_rc6 bld m freq G j clock th addr cmd t hist (first - t0) (alternating false ds) C into r0 r1 os) as (r & E); auto.
    exists r. rewrite measured_app in E. rewrite <- Et in E. etransitivity; [exact E|]. do 5 f_equal.
    rewrite measured_length. cbn [length]. lia.
Qed.
Print Assumptions C84_rc6.

(** ** The conditions can be met *)

(** Ticks at exact intervals are paced, and so are ticks that are up to [L] units late. *)
Theorem C84_regular :
  forall F G T first, G = F * T -> paced F G 0 (fun i => first + N.of_nat i * T).
Proof.
  intros F G T first -> i k Hik. assert (X : N.of_nat i * T <= N.of_nat k * T) by (apply N.mul_le_mono_r; lia).
  assert (Y : N.of_nat (k - i) * T = N.of_nat k * T - N.of_nat i * T) by (rewrite Nat2N.inj_sub; apply N.mul_sub_distr_r).
  assert (Z : first + N.of_nat k * T - (first + N.of_nat i * T) = N.of_nat (k - i) * T) by lia.
  split; [lia|]. rewrite Z. split; [rewrite N.add_0_r|]; rewrite ?N.mul_0_l, ?N.add_0_r; replace (N.of_nat (k - i) * T * F) with (N.of_nat (k - i) * (F * T)) by ring; apply N.le_refl.
Qed.
Print Assumptions C84_regular.

Theorem C84_late :
  forall F G L L' time time', paced F G L time -> (forall i, time i <= time' i /\ time' i <= time i + L') ->
  (forall i k, (i <= k)%nat -> time' i <= time' k) -> paced F G (L + L') time'.
Proof.
  intros F G L L' time time' Hp Hl Hm i k Hik. destruct (Hp i k Hik) as (H1 & H2 & H3). destruct (Hl i) as [A1 A2]. destruct (Hl k) as [B1 B2].
  pose proof (Hm i k Hik) as M. split; [exact M|]. split.
  - etransitivity; [exact H2|]. apply N.mul_le_mono_r. lia.
  - assert (X : (time' k - time' i) * F <= (time k - time i + L') * F) by (apply N.mul_le_mono_r; lia).
    rewrite N.mul_add_distr_r in *. lia.
Qed.
Print Assumptions C84_late.

(** A [PulsedataSender] that is ticked at irregular times gets done: at the latest when the
    lengths of all entries, and for each entry the largest delay, have passed. *)
Theorem C84_ends :
  forall F G j J a b clock e c s s1 B n first ts, 0 < G -> counts F G j clock -> j * G <= a * F -> J * F + (j - 1) * G <= b * F ->
  b * F <= 2 ^ 30 * G -> ps_load e s c = Val s1 -> e_encode e c (pb_buf (ps_ptb s)) = Val (0 :: B, n) -> Forall (fun x => x < 2 ^ 31) B ->
  at_most J first ts -> total B * G + b * F * N.of_nat (length B) < (last ts first - first) * F ->
  ps_status (fst (ticks_at clock s1 (first :: ts))) = StIdle.
Proof.
  intros F G j J a b clock e c s s1 B n first ts HG Hc Ha Hb Hs El E HB Hat Hend.
  unfold ps_load, ps_reset, pb_reset, pb_load in El. cbn [ps_ptb pb_offset pb_buf ps_pos ps_status ps_ts skipn firstn] in El.
  rewrite E in El. cbn in El. injection El as <-.
  apply (proj2 (follows_timer F G j J a b clock B n 0 first ts HG Hc Ha Hb Hs ltac:(constructor; [reflexivity|exact HB]) Hat)). exact Hend.
Qed.
Print Assumptions C84_ends.

(** A [Sender] ticked at 40 kHz from 70 ms on, a receiver with a 1 MHz timer: what is on the
    pin, and the call that reports it. *)
Definition c84_h : hal_sender := mkHS 33 (mkPS (mkPB (repeat 3 70) 0) 9 StIdle 4).
Definition c84_enc : encoder := mkEncoder nec_command (nec_encode NecStandard (360, 180, 90, 22, 22, 67)).
Definition c84_time (i : nat) : N := 70000 + N.of_nat i * 25.
Definition c84_h1 : hal_sender := match hs_load c84_enc c84_h (mkNec 7 200 false) with Val h1 => h1 | _ => c84_h end.
Definition c84_ls : list (N * bool) := stamped c84_time 0 (snd (hs_ticks (N.to_nat 2800) c84_h1)).
Definition c84_evs : list edge := firstn 66 (tl (pin_edges false 0 c84_ls)).

Example C84_example :
  pin_signal 40000 1000000 0 0 c84_enc (mkNec 7 200 false) (repeat 3 70) 70000 c84_ls /\
  carries 1000000 (TNec 7 200) 0 70000 c84_ls 3 c84_evs /\
  heard (nec_protocol (debug_build 32) MU32 NecStandard) 1000000 [] (measured (fun t => t + 5) 0 ((true, 70000) :: c84_evs)) (mkNec 7 200 false).
Proof.
  assert (Hp : pin_signal 40000 1000000 0 0 c84_enc (mkNec 7 200 false) (repeat 3 70) 70000 c84_ls).
  { apply (by_interrupt _ _ _ _ _ _ _ _ _ c84_h c84_h1 0 c84_time (N.to_nat 2800)).
    - reflexivity.
    - reflexivity.
    - vm_compute. reflexivity.
    - apply (C84_regular 40000 1000000 25 70000). reflexivity.
    - apply N.le_refl.
    - apply N.le_refl.
    - reflexivity.
    - intros X. discriminate X.
    - vm_compute. reflexivity.
    - reflexivity. }
  split; [exact Hp|].
  pose proof (nec_clocks 40000 1000000 0 0 (360, 180, 90, 22, 22, 67) eq_refl eq_refl ltac:(right; cbn; lia) eq_refl) as H. cbv zeta in H.
  destruct (H 7 200 false (repeat 3 70) 0 70000 c84_ls eq_refl eq_refl ltac:(vm_compute; repeat constructor) ltac:(repeat constructor) Hp) as (evs & Hc & Hh).
  assert (evs = c84_evs) as ->.
  { destruct Hc as (tail & E & (_ & _ & ps & -> & Rn & _) & _). unfold c84_evs. rewrite E. cbn [tl].
    rewrite firstn_app, (real_nec_length _ _ _ _ _ Rn), firstn_all2, app_nil_r; [reflexivity|].
    apply Nat.eq_le_incl. exact (real_nec_length _ _ _ _ _ Rn). }
  split; [exact Hc|].
  apply (Hh (debug_build 32) MU32 1000000 1 (fun t => t + 5) 0 []); try reflexivity.
  - intros u v Huv. clear -Huv. lia.
  - split; [lia|left; lia].
  - unfold real_long. lia.
  - apply Forall_forall. intros x Hx. apply N.ltb_lt. revert x Hx. apply forallb_forall. vm_compute. reflexivity.
Qed.

(** A [PulsedataSender] with a 1 MHz timer, ticked after 6 and 8 microseconds in turn. *)
Lemma at_most_map J (f : nat -> N) : (forall i, f i <= f (S i) /\ f (S i) <= f i + J) ->
  forall n i, at_most J (f i) (map f (seq (S i) n)).
Proof. intros H. induction n as [|n IH]; intros i; cbn [seq map at_most]; [exact I|]. destruct (H i). repeat split; auto. Qed.

Lemma last_map (f : nat -> N) d : forall n i, last (map f (seq i (S n))) d = f (i + n)%nat.
Proof.
  induction n as [|n IH]; intros i; [cbn; f_equal; lia|]. change (map f (seq i (S (S n)))) with (f i :: map f (seq (S i) (S n))).
  change (last (f i :: map f (seq (S i) (S n))) d) with (last (map f (seq (S i) (S n))) d). rewrite IH. f_equal. lia.
Qed.

Definition c84_s : pulse_sender := mkPS (mkPB (repeat 0 96) 5) 4 (StTransmit true) 77.
Definition c84_enc1 : encoder := mkEncoder nec_command (nec_encode NecStandard (9000, 4500, 2250, 560, 560, 1690)).
Definition c84_s1 : pulse_sender := match ps_load c84_enc1 c84_s (mkNec 7 200 false) with Val s1 => s1 | _ => c84_s end.
Definition c84_B : list N := match e_encode c84_enc1 (mkNec 7 200 false) (repeat 0 96) with Val (B, _) => tl B | _ => [] end.
Definition c84_call (i : nat) : N := 70000 + 7 * N.of_nat i + N.of_nat i mod 2.
Definition c84_ts : list N := map c84_call (seq 1 (S (N.to_nat 12000))).
Definition c84_ls1 : list (N * bool) := snd (ticks_at (fun t => t + 5) c84_s1 (70000 :: c84_ts)).

Example C84_timer_example :
  ps_load c84_enc1 c84_s (mkNec 7 200 false) = Val c84_s1 /\
  pin_signal 1000000 1000000 1 8 c84_enc1 (mkNec 7 200 false) (repeat 0 96) 70000 c84_ls1 /\
  exists evs, carries 1000000 (TNec 7 200) 2000 70000 c84_ls1 29 evs.
Proof.
  assert (E : ps_load c84_enc1 c84_s (mkNec 7 200 false) = Val c84_s1) by (vm_compute; reflexivity).
  split; [exact E|].
  assert (Hc : counts 1000000 1000000 1 (fun t => t + 5)) by (intros u v Huv; clear -Huv; lia).
  assert (Ha : at_most 8 70000 c84_ts).
  { change 70000 with (c84_call 0). apply at_most_map. intros i. unfold c84_call. clear. lia. }
  assert (Hp : pin_signal 1000000 1000000 1 8 c84_enc1 (mkNec 7 200 false) (repeat 0 96) 70000 c84_ls1).
  { apply (by_timer _ _ _ _ _ _ _ _ _ c84_s c84_s1 (fun t => t + 5) 1 8 c84_ts); [reflexivity|exact E|exact Hc|lia|lia|exact Ha| |reflexivity].
    apply (C84_ends 1000000 1000000 1 8 1 8 (fun t => t + 5) c84_enc1 (mkNec 7 200 false) c84_s c84_s1 c84_B 67 70000 c84_ts);
      [lia|exact Hc|lia|lia|lia|exact E|vm_compute; reflexivity| |exact Ha|].
    - apply Forall_forall. intros x Hx. apply N.ltb_lt. revert x Hx. apply forallb_forall. vm_compute. reflexivity.
    - unfold c84_ts. rewrite last_map. unfold c84_call.
      assert (X : total c84_B * 1000000 + 8 * 1000000 * N.of_nat (length c84_B) <= 80000 * 1000000) by (vm_compute; discriminate).
      rewrite Nat2N.inj_add, N2Nat.id. eapply N.le_lt_trans; [exact X|]. vm_compute. reflexivity. }
  split; [exact Hp|].
  pose proof (nec_clocks 1000000 1000000 1 8 (9000, 4500, 2250, 560, 560, 1690) eq_refl eq_refl ltac:(left; lia) eq_refl) as H. cbv zeta in H.
  destruct (H 7 200 false (repeat 0 96) 2000 70000 _ eq_refl eq_refl ltac:(vm_compute; repeat constructor) ltac:(repeat constructor) Hp) as (evs & Hcar & _).
  exists evs. exact Hcar.
Qed.
