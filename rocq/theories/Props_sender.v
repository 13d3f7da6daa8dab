(** * C56-C60: the senders *)
From Coq Require Import NArith ZArith List Bool Lia ZifyBool ZifyNat ZifyN.
From Verif Require Import Machine Spec Spec_sender Spec_receiver Spec_state Bits Time Decoder Nec Rc5 Rc6 Receiver Sender
  Time_facts Codec_facts Nec_facts Rc5_facts Rc6_facts Example_facts Props_codec Props_receiver Encode_facts Roundtrip_facts Props_encode
  Sender_facts Air_facts.
Import ListNotations.
Open Scope N_scope.
Ltac Zify.zify_post_hook ::= Z.div_mod_to_equations.

Definition idle (h : hal_sender) : Prop := ps_status (hs_buffer h) = StIdle.
Definition contents (h : hal_sender) : list N := pb_buf (ps_ptb (hs_buffer h)).

(** ** C56 *)

(** For an idle sender in any state and any encoder: if encoding the command into the
    sender's buffer gives [buf'], the pin levels of the ticks that follow are the waveform of
    [buf'] and then off, for any number of ticks. *)
Theorem C56_waveform :
  forall e h c buf' n, idle h -> e_encode e c (contents h) = Val (buf', n) ->
  Forall (fun x => x < 2 ^ 32) buf' ->
  exists h', hs_load e h c = Val h' /\
    forall k, snd (hs_ticks k h') = firstn k (pin_wave buf' ++ repeat false k).
Proof.
  intros e h c buf' n Hi E Hb. eexists. split; [exact (hs_load_val e h c buf' n Hi E)|].
  intros k. apply (hs_transmit_prefix (mkPB buf' n)). exact Hb.
Qed.
Print Assumptions C56_waveform.

(** The runs of that waveform, for positive pulses after the pause: exactly the entries,
    marks and spaces in turn; the level after the last entry lasts one tick. *)
Theorem C56_runs :
  forall pause es, Forall (fun x => 1 <= x) es ->
  exists t, level_edges false 0 (pin_wave (pause :: es) ++ [false]) =
    (true, pause) :: alternating false es ++ t /\ (t = [] \/ t = [(false, 1)]).
Proof.
  intros pause es He. cbn [pin_wave]. rewrite <- app_assoc, level_edges_repeat. rewrite held_cons.
  cbn [app level_edges Bool.eqb]. destruct (held_edges es 0 true) as (t & Et & Ht).
  exists t. cbn [repeat] in Et. rewrite Et. cbn [negb].
  assert (Ev : map (N.max 1) es = es).
  { clear -He. induction He as [|v vs Hv1 Hv2 IH]; auto. cbn [map]. f_equal; auto. lia. }
  rewrite Ev. split; [|exact Ht]. f_equal. f_equal. lia.
Qed.
Print Assumptions C56_runs.

(** A pause of 2 ticks, then 3 on, 2 off, on (1 tick); loaded into a used sender. *)
Definition c56_encoder : encoder := mkEncoder (list N) (fun c buf => written c buf).
Definition c56_used : hal_sender := mkHS 900 (mkPS (mkPB [8; 8; 8] 3) 2 StIdle 700).
Example C56_example :
  idle c56_used /\ e_encode c56_encoder [2; 3; 2] (contents c56_used) = Val ([2; 3; 2], 3%nat) /\
  match hs_load c56_encoder c56_used [2; 3; 2] with
  | Val h' => snd (hs_ticks 12 h')
  | _ => []
  end = [false; false; true; true; true; false; false; true; false; false; false; false].
Proof. split; [reflexivity|]. split; reflexivity. Qed.

(** ** C57 *)

(** From any state (the counters and entries being 32-bit numbers) the sender is idle
    after [total + size + 1] ticks at most, and from then on the pin is off. *)
Theorem C57_finishes :
  forall h, hs_counter h < 2 ^ 32 -> ps_ts (hs_buffer h) < 2 ^ 32 -> Forall (fun x => x < 2 ^ 32) (contents h) ->
  forall k, (N.to_nat (total (contents h)) + length (contents h) + 1 <= k)%nat ->
    idle (fst (hs_ticks k h)) /\
    forall j, snd (hs_ticks j (fst (hs_ticks k h))) = repeat false j.
Proof.
  intros [c [p pos st ts]] Hc Ht Hb k Hk. unfold idle, contents in *. cbn [hs_counter hs_buffer ps_ts ps_ptb] in *.
  assert (Hs : Forall (fun x => x < 2 ^ 32) (skipn pos (pb_buf p))).
  { rewrite <- (firstn_skipn pos (pb_buf p)) in Hb. apply Forall_app in Hb. apply Hb. }
  destruct (hs_finishes p (skipn pos (pb_buf p)) c pos st ts eq_refl Hs Hc Ht) as (k0 & c' & pos' & ts' & L & Hk0 & E & En).
  pose proof (total_skipn pos (pb_buf p)) as T.
  assert (L2 : (length (skipn pos (pb_buf p)) <= length (pb_buf p))%nat) by (rewrite skipn_length; lia).
  assert (L3 : (k0 <= k)%nat) by lia. clear L L2 T Hk.
  replace k with (k0 + (k - k0))%nat by lia. rewrite hs_ticks_app.
  destruct (hs_ticks k0 {| hs_counter := c; hs_buffer := {| ps_ptb := p; ps_pos := pos; ps_status := st; ps_ts := ts |} |}) as [h1 l1] eqn:E1.
  cbn [fst] in E. subst h1.
  destruct (hs_idle p (k - k0) c' pos' StIdle ts' En) as (c2 & st2 & E2 & H0 & H1). rewrite E2. cbn [fst].
  assert (st2 = StIdle) as -> by (destruct (k - k0)%nat; [apply H0; reflexivity|apply H1; discriminate]).
  split; [reflexivity|]. intros j. destruct (hs_idle p j c2 pos' StIdle ts' En) as (c3 & st3 & E3 & _). rewrite E3. reflexivity.
Qed.
Print Assumptions C57_finishes.

(** A sender in the middle of a transmission across the wrap of its counter. *)
Definition c57_state : hal_sender := mkHS 4294967294 (mkPS (mkPB [0; 5; 3; 2] 4) 1 (StTransmit true) 4294967293).
Example C57_example :
  snd (hs_ticks 12 c57_state) = [true; true; true; true; false; false; false; true; true; false; false; false] /\
  total (contents c57_state) = 10 /\ idle (fst (hs_ticks 15 c57_state)).
Proof. split; [vm_compute; reflexivity|]. split; reflexivity. Qed.

(** ** C58 *)

(** After loading a command whose pause is 0 (all encoders of the crate write 0 first),
    during the whole waveform a second [load] leaves the sender as it is. *)
Theorem C58_load_ignored :
  forall e h c es n h', idle h -> e_encode e c (contents h) = Val (0 :: es, n) ->
  Forall (fun x => x < 2 ^ 32) es -> hs_load e h c = Val h' ->
  forall k, (1 <= k)%nat -> (k <= length (pin_wave (0%N :: es)))%nat ->
  forall e2 c2, hs_load e2 (fst (hs_ticks k h')) c2 = Val (fst (hs_ticks k h')).
Proof.
  intros e h c es n h' Hi E He El k H1 Hk e2 c2. rewrite (hs_load_val e h c _ _ Hi E) in El. injection El as <-.
  assert (Hb : Forall (fun x => x < 2 ^ 32) (0 :: es)) by (constructor; [reflexivity|exact He]).
  destruct (hs_transmit_status (mkPB (0 :: es) n) es k Hb eq_refl H1 Hk) as (o & Es).
  unfold hs_load. rewrite Es. reflexivity.
Qed.
Print Assumptions C58_load_ignored.

(** Before the first tick the sender is still idle and a second [load] replaces the
    command, as after the end of the transmission: nothing of the first is left except the
    contents of the buffer beyond the second. *)
Theorem C58_load_restarts :
  forall e h1 h2 c, idle h1 -> idle h2 -> contents h1 = contents h2 -> hs_load e h1 c = hs_load e h2 c.
Proof.
  intros e h1 h2 c I1 I2 Ec. unfold idle, contents, hs_load, ps_load, ps_reset, pb_reset, pb_load in *.
  rewrite I1, I2. cbn [ps_ptb pb_buf pb_offset ps_pos ps_status ps_ts Nat.leb skipn]. rewrite Ec. reflexivity.
Qed.
Print Assumptions C58_load_restarts.

Example C58_example :
  match hs_load c56_encoder c56_used [0; 3; 2] with
  | Val h' => let h1 := fst (hs_ticks 4 h') in
      match hs_load c56_encoder h1 [0; 1; 1] with
      | Val h2 => Some (snd (hs_ticks 5 h2), pin_wave [0; 3; 2])
      | _ => None
      end
  | _ => None
  end = Some ([false; true; false; false; false], [true; true; true; false; false; true]).
Proof. reflexivity. Qed.

(** ** C59: refuted *)

(** The loaded frame is [firstn n buf'], but the pin is switched on again after it: by
    the zero entries of a fresh sender that is larger than the frame ... *)
Theorem C59_beyond_refuted :
  exists l c buf' n h' k,
    rc5_calc_freq 2000 = Some l /\
    let e := mkEncoder rc5_command (rc5_encode (debug_build 32) l) in
    e_encode e c (contents (hs_new 30)) = Val (buf', n) /\
    hs_load e (hs_new 30) c = Val h' /\
    (length (pin_wave (firstn n buf')) <= k)%nat /\
    nth_error (snd (hs_ticks 60 h')) k = Some true.
Proof.
  exists 1, (mkRc5 20 9 3 false). eexists. eexists. eexists. exists 28%nat. split; [vm_compute; reflexivity|].
  cbv zeta. split; [vm_compute; reflexivity|]. split; [vm_compute; reflexivity|]. split; [vm_compute; repeat constructor|].
  vm_compute. reflexivity.
Qed.
Print Assumptions C59_beyond_refuted.

(** ... and by the end of a longer frame sent before. *)
Theorem C59_stale_refuted :
  exists l c1 c2 h1 buf' n h2 k,
    rc5_calc_freq 2000 = Some l /\
    let e := mkEncoder rc5_command (rc5_encode (debug_build 32) l) in
    hs_load e (hs_new 27) c1 = Val h1 /\
    idle (fst (hs_ticks 60 h1)) /\
    e_encode e c2 (contents (fst (hs_ticks 60 h1))) = Val (buf', n) /\
    hs_load e (fst (hs_ticks 60 h1)) c2 = Val h2 /\
    (length (pin_wave (firstn n buf')) <= k)%nat /\
    nth_error (snd (hs_ticks 60 h2)) k = Some true /\ nth_error (snd (hs_ticks 60 h2)) (k + 1) = Some false /\
    nth_error (snd (hs_ticks 60 h2)) (k + 2) = Some true.
Proof.
  exists 1, (mkRc5 0 0 3 false), (mkRc5 20 9 3 false). eexists. eexists. eexists. eexists. exists 28%nat. split; [vm_compute; reflexivity|].
  cbv zeta. split; [vm_compute; reflexivity|]. split; [vm_compute; reflexivity|]. split; [vm_compute; reflexivity|].
  split; [vm_compute; reflexivity|]. split; [vm_compute; repeat constructor|].
  split; [vm_compute; reflexivity|]. split; vm_compute; reflexivity.
Qed.
Print Assumptions C59_stale_refuted.

(** A sender that was never loaded switches the pin on (whatever its size, except 0). *)
Theorem C59_unloaded_refuted :
  exists S0, forall S, (S0 <= S)%nat -> snd (hs_ticks 1 (hs_new S)) = [true].
Proof. exists 1%nat. intros [|S] H; [lia|reflexivity]. Qed.
Print Assumptions C59_unloaded_refuted.

(** What holds: if the command fills the buffer, the pin shows its waveform and then stays
    off.  Missing: a buffer larger than the frame. *)
Theorem C59_exact_partial :
  forall e h c buf' n h', idle h -> e_encode e c (contents h) = Val (buf', n) -> n = length buf' ->
  Forall (fun x => x < 2 ^ 32) buf' -> hs_load e h c = Val h' ->
  forall k j, (length (pin_wave (firstn n buf')) <= j)%nat -> (j < k)%nat ->
  nth_error (snd (hs_ticks k h')) j = Some false.
Proof.
  intros e h c buf' n h' Hi E -> Hb El k j Hj Hk. rewrite firstn_all in Hj.
  rewrite (hs_load_val e h c _ _ Hi E) in El. injection El as <-.
  rewrite (hs_transmit_prefix (mkPB buf' (length buf')) k Hb). cbn [pb_buf].
  rewrite <- (firstn_skipn k (pin_wave buf' ++ repeat false k)) in *.
  assert (A : nth_error (pin_wave buf' ++ repeat false k) j = Some false).
  { rewrite nth_error_app2 by exact Hj. set (i := (j - length (pin_wave buf'))%nat).
    assert (Hi' : (i < k)%nat) by lia. clearbody i. clear -Hi'. revert i Hi'.
    induction k as [|k IH]; intros i H; [lia|]. destruct i as [|i]; [reflexivity|]. cbn [repeat nth_error]. apply IH. lia. }
  rewrite <- (firstn_skipn k (pin_wave buf' ++ repeat false k)) in A.
  rewrite nth_error_app1 in A by (rewrite firstn_length, app_length, repeat_length; lia).
  rewrite firstn_skipn. exact A.
Qed.
Print Assumptions C59_exact_partial.

Example C59_example :
  match hs_load c56_encoder c56_used [0; 2; 2] with
  | Val h' => snd (hs_ticks 9 h')
  | _ => []
  end = [true; true; false; false; true; false; false; false; false] /\ length (pin_wave [0; 2; 2]) = 5%nat.
Proof. split; reflexivity. Qed.

(** ** C60 *)

(** Loading [sent] into the idle sender [h] and ticking it [k] times, with a fresh
    [PeriodicPoll] at the same frequency polled once per tick with the level of the pin:
    one outcome per tick, no error, and just the command [got] - for every [k] from some
    point on. *)
Definition on_air (P : protocol) (F : N) (e : encoder) (h : hal_sender) (sent : e_cmd e) (got : dcmd (p_dec P)) : Prop :=
  forall C (into : dcmd (p_dec P) -> C),
  exists h' n, hs_load e h sent = Val h' /\
  forall k, (n <= k)%nat ->
  exists p0 os, poll_new P F = Val p0 /\ outs (run_polls into p0 (snd (hs_ticks k h'))) = Val os /\
    length os = k /\ commands os = [into got] /\
    Forall (fun o => match o with ROk _ => True | RErr _ => False end) os.

Lemma on_air_intro P F e h sent got vs zs n C (into : dcmd (p_dec P) -> C) r0 r1 os1 :
  idle h -> e_encode e sent (contents h) = Val (0 :: vs ++ zs, n) ->
  receiver_new P F = Val r0 ->
  Forall (fun e => 1 <= e /\ e < 2 ^ 32) vs -> Forall (fun e => e <= 1) zs ->
  run_edges into r0 ((true, 1) :: alternating false vs) = Val (r1, os1) ->
  commands os1 = [into got] -> Forall quiet os1 ->
  (forall h, Forall (fun e : edge => snd e = 1) h -> exists r2, run_edges into r1 h = Val (r2, repeat (ROk None) (length h))) ->
  exists h' n, hs_load e h sent = Val h' /\
  forall k, (n <= k)%nat ->
  exists p0 os, poll_new P F = Val p0 /\ outs (run_polls into p0 (snd (hs_ticks k h'))) = Val os /\
    length os = k /\ commands os = [into got] /\
    Forall (fun o => match o with ROk _ => True | RErr _ => False end) os.
Proof.
  intros Hi E Er Hv Hz R Hc Ho Hq. eexists. exists (S (length (pin_wave (0 :: vs ++ zs)))).
  split; [exact (hs_load_val e h sent _ _ Hi E)|]. intros k Hk.
  exact (pin_polled P F C into (into got) vs zs n r0 r1 os1 Er Hv Hz R Hc Ho Hq k Hk).
Qed.

Lemma nec_buffer_tail F hm hs w : 13000 <= F -> F < 2 ^ 32 -> 4500 <= hm -> hm <= 9000 -> 4500 <= hs -> hs <= 9000 ->
  nec_buffer (khz_ticks F) hm hs w = 0 :: tl (nec_buffer (khz_ticks F) hm hs w) /\
  Forall (fun e => 1 <= e /\ e < 2 ^ 32) (tl (nec_buffer (khz_ticks F) hm hs w)).
Proof.
  intros HF HF2 H1 H2 H3 H4. split; [reflexivity|]. unfold nec_buffer. cbn [tl].
  assert (K : forall p, 560 <= p -> p <= 9000 -> 1 <= khz_ticks F p /\ khz_ticks F p < 2 ^ 32).
  { intros p Hp1 Hp2. assert (L2 : khz_ticks F p < 2 ^ 32).
    { eapply N.lt_trans; [apply khz_small; lia|reflexivity]. }
    rewrite khz_above in * by lia.
    assert (L1 : 13 * 560 <= F / 1000 * p) by (apply N.mul_le_mono; lia).
    split; [clear -L1; lia|exact L2]. }
  constructor; [apply K; lia|]. constructor; [apply K; lia|].
  apply Forall_forall. intros x Hx. apply in_flat_map in Hx. destruct Hx as (bit & _ & Hx). cbn [In] in Hx.
  destruct Hx as [<- | [<- | []]]; apply K; destruct bit; lia.
Qed.

(** Any idle sender will do whose buffer holds only entries 0 or 1 after the 67 of a
    frame: a fresh one of any size from 67 on, or one that sent NEC commands before. *)
Lemma nec_on_air_data b m F V hm hs sent got w h data : In (V, hm, hs) nec_senders ->
  timebase m F -> nec_floor V <= F -> F < 2 ^ 32 -> nec_data (nv_timing V) F = Some data -> w < 2 ^ 32 ->
  nv_pack V sent = Val w -> nv_unpack V w false = Some got ->
  idle h -> (67 <= length (contents h))%nat -> Forall (fun e => e <= 1) (skipn 67 (contents h)) ->
  on_air (nec_protocol b m V) F (mkEncoder (nv_cmd V) (nec_encode V data)) h sent got.
Proof.
  intros Hin Hm Hlo HF Ed Hw Ep Eu Hi Hl Hz C into.
  assert (HT : nec_timing_ok (nv_timing V) /\ hm = header_high (nv_timing V) /\ hs = header_low (nv_timing V) /\
    4500 <= hm /\ hm <= 9000 /\ 4500 <= hs /\ hs <= 9000).
  { unfold nec_senders in Hin. cbn [In] in Hin.
    destruct Hin as [E|[E|[E|[E|[]]]]]; injection E as <- <- <-; unfold nec_timing_ok; cbn; intuition (lia || auto). }
  destruct HT as (HT & Ehm & Ehs & B1 & B2 & B3 & B4).
  pose proof (nec_encode_written V F data sent w (contents h) HT Ed Ep) as E1. rewrite <- Ehm, <- Ehs in E1.
  pose proof (nec_buffer_length (khz_ticks F) hm hs w) as L.
  assert (H13 : 13000 <= F) by (unfold nec_floor in Hlo; destruct HT as [E|E]; rewrite E in Hlo; cbn in Hlo; lia).
  rewrite written_val in E1 by (rewrite L; exact Hl). rewrite L in E1.
  destruct (nec_buffer_tail F hm hs w H13 HF B1 B2 B3 B4) as (Et & Hv).
  rewrite Et in E1. cbn [app] in E1.
  pose proof (nec_run_buffer b m F V C into w 1 Hm HF HT Hlo Hw ltac:(lia)) as R. rewrite <- Ehm, <- Ehs in R. rewrite Eu in R.
  destruct (@commands_single C 66 0 (into got)) as (S1 & S2). cbn [repeat] in S1, S2.
  eapply (on_air_intro (nec_protocol b m V) F (mkEncoder (nv_cmd V) (nec_encode V data)) h sent got _ _ _ C into _ _ _ Hi E1 (nec_new_val b m F V Hm HF HT) Hv Hz R S1 S2).
  intros h1 Hh1. apply (nec_quiet b m F V C into h1); auto. lia.
Qed.

Lemma nec_on_air b m F V hm hs sent got w h : In (V, hm, hs) nec_senders ->
  timebase m F -> nec_floor V <= F -> F < 2 ^ 32 -> nec_encoder V F <> None -> w < 2 ^ 32 ->
  nv_pack V sent = Val w -> nv_unpack V w false = Some got ->
  idle h -> (67 <= length (contents h))%nat -> Forall (fun e => e <= 1) (skipn 67 (contents h)) ->
  exists enc, nec_encoder V F = Some (mkEncoder (nv_cmd V) enc) /\
    on_air (nec_protocol b m V) F (mkEncoder (nv_cmd V) enc) h sent got.
Proof.
  intros Hin Hm Hlo HF Hhi Hw Ep Eu Hi Hl Hz. unfold nec_encoder in Hhi.
  destruct (nec_data (nv_timing V) F) as [data|] eqn:Ed; [|destruct Hhi; reflexivity].
  exists (nec_encode V data). split; [unfold nec_encoder; rewrite Ed; reflexivity|].
  apply (nec_on_air_data b m F V hm hs sent got w h data); auto.
Qed.

Theorem C60_nec :
  forall b m F a c rep h, timebase m F -> 13000 <= F -> F < 2 ^ 32 -> nec_encoder NecStandard F <> None -> a < 2 ^ 8 -> c < 2 ^ 8 ->
  idle h -> (67 <= length (contents h))%nat -> Forall (fun e => e <= 1) (skipn 67 (contents h)) ->
  exists enc, nec_encoder NecStandard F = Some (mkEncoder nec_command enc) /\
    on_air (nec_protocol b m NecStandard) F (mkEncoder nec_command enc) h (mkNec a c rep) (mkNec a c false).
Proof.
  intros b m F a c rep h Hm Hlo HF Hhi Ha Hc Hi Hl Hz. destruct (C01_nec_words a c rep false Ha Hc) as (w & Ep & Ew & Eu).
  apply (nec_on_air b m F NecStandard 9000 4500 _ _ w); auto; [left; reflexivity|].
  rewrite Ew. apply bytes4_lt; unfold compl8; pows; lia.
Qed.
Print Assumptions C60_nec.

Theorem C60_nec16 :
  forall b m F a c rep h, timebase m F -> 13000 <= F -> F < 2 ^ 32 -> nec_encoder Nec16Bit F <> None -> a < 2 ^ 16 -> c < 2 ^ 8 ->
  idle h -> (67 <= length (contents h))%nat -> Forall (fun e => e <= 1) (skipn 67 (contents h)) ->
  exists enc, nec_encoder Nec16Bit F = Some (mkEncoder nec16_command enc) /\
    on_air (nec_protocol b m Nec16Bit) F (mkEncoder nec16_command enc) h (mkNec16 a c rep) (mkNec16 a c false).
Proof.
  intros b m F a c rep h Hm Hlo HF Hhi Ha Hc Hi Hl Hz. destruct (C01_nec16_words a c rep false Ha Hc) as (w & Ep & Ew & Eu).
  apply (nec_on_air b m F Nec16Bit 9000 4500 _ _ w); auto; [right; left; reflexivity|].
  rewrite Ew. apply bytes4_lt; unfold compl8; pows; lia.
Qed.
Print Assumptions C60_nec16.

Theorem C60_samsung :
  forall b m F a c rep h, timebase m F -> 14000 <= F -> F < 2 ^ 32 -> nec_encoder NecSamsung F <> None -> a < 2 ^ 8 -> c < 2 ^ 8 ->
  idle h -> (67 <= length (contents h))%nat -> Forall (fun e => e <= 1) (skipn 67 (contents h)) ->
  exists enc, nec_encoder NecSamsung F = Some (mkEncoder samsung_command enc) /\
    on_air (nec_protocol b m NecSamsung) F (mkEncoder samsung_command enc) h (mkSamsung a c rep) (mkSamsung a c false).
Proof.
  intros b m F a c rep h Hm Hlo HF Hhi Ha Hc Hi Hl Hz. destruct (C01_samsung_words a c rep false Ha Hc) as (w & Ep & Ew & Eu).
  apply (nec_on_air b m F NecSamsung 4500 4500 _ _ w); auto; [do 3 right; left; reflexivity|].
  rewrite Ew. apply bytes4_lt; unfold compl8; pows; lia.
Qed.
Print Assumptions C60_samsung.

Theorem C60_raw :
  forall b m F w h, timebase m F -> 13000 <= F -> F < 2 ^ 32 -> nec_encoder NecRaw F <> None -> w < 2 ^ 32 ->
  idle h -> (67 <= length (contents h))%nat -> Forall (fun e => e <= 1) (skipn 67 (contents h)) ->
  exists enc, nec_encoder NecRaw F = Some (mkEncoder nec_debug_cmd enc) /\
    on_air (nec_protocol b m NecRaw) F (mkEncoder nec_debug_cmd enc) h (mkNecDebug w) (mkNecDebug w).
Proof.
  intros b m F w h Hm Hlo HF Hhi Hw Hi Hl Hz.
  apply (nec_on_air b m F NecRaw 9000 4500 _ _ w); auto. do 2 right; left; reflexivity.
Qed.
Print Assumptions C60_raw.

Lemma zeros_after (enc : list N -> res (list N * nat)) buf vs : enc buf = Val (vs ++ skipn (length vs) buf, length vs) ->
  Forall (fun e => e <= 1) buf \/ (forall buf' n, enc buf = Val (buf', n) -> Forall (fun e => e <= 1) (skipn n buf')) ->
  Forall (fun e => e <= 1) (skipn (length vs) buf).
Proof.
  intros E [H|H].
  - rewrite <- (firstn_skipn (length vs) buf) in H. apply Forall_app in H. apply H.
  - specialize (H _ _ E). rewrite skipn_app, skipn_all, Nat.sub_diag in H. exact H.
Qed.

(** RC5 frames differ in length.  The sender may be a fresh one or any idle one whose buffer
    holds only entries 0 or 1 after the frame. *)
Theorem C60_rc5 :
  forall b m F a c s t, timebase m F -> 13000 <= F -> F < 2 ^ 32 -> 8 <= usize_bits b ->
  a < 2 ^ 5 -> c < 2 ^ 6 -> s = 2 \/ s = 3 ->
  exists enc, rc5_encoder b F = Some (mkEncoder rc5_command enc) /\
  forall h, idle h -> (27 <= length (contents h))%nat ->
    Forall (fun e => e <= 1) (contents h) \/
    (forall buf' n, enc (mkRc5 a c s t) (contents h) = Val (buf', n) -> Forall (fun e => e <= 1) (skipn n buf')) ->
    on_air (rc5_protocol b m) F (mkEncoder rc5_command enc) h (mkRc5 a c s t) (mkRc5 a c s t).
Proof.
  intros b m F a c s t Hm Hlo Hf Hu Ha Hc Hs. destruct (C53_rc5_encoder b F Hf) as (enc & Ee & Hw).
  exists enc. split; [exact Ee|]. intros h Hi Hb Hz C into.
  assert (Hs4 : s < 2 ^ 2) by (change (2 ^ 2) with 4; lia).
  specialize (Hw a c s t (contents h) Ha Hc Hs4).
  destruct (C05_rc5_unpack_pack a c s t Ha Hc Hs4) as (Ep & Eu).
  assert (Ew : c + 2 ^ 6 * a + 2 ^ 11 * (if t then 1 else 0) + 2 ^ 12 * (s mod 2) + 2 ^ 13 = rc5_pack (mkRc5 a c s t)).
  { rewrite Ep. destruct Hs as [-> | ->]; lia. }
  rewrite Ew in Hw. set (w := rc5_pack (mkRc5 a c s t)) in *.
  assert (Lw : w < 2 ^ 14).
  { rewrite Ep. change (2 ^ 5) with 32 in *. change (2 ^ 6) with 64 in *. change (2 ^ 2) with 4 in *.
    change (2 ^ 11) with 2048. change (2 ^ 12) with 4096. change (2 ^ 14) with 16384. clear -Ha Hc Hs4. destruct t; lia. }
  assert (H13 : N.testbit w 13 = true).
  { rewrite <- Ew. rewrite N.add_comm.
    set (x := c + 2 ^ 6 * a + 2 ^ 11 * (if t then 1 else 0) + 2 ^ 12 * (s mod 2)).
    assert (x < 2 ^ 13).
    { unfold x. change (2 ^ 5) with 32 in *. change (2 ^ 6) with 64 in *. change (2 ^ 13) with 8192.
      change (2 ^ 11) with 2048. change (2 ^ 12) with 4096. clear -Ha Hc. destruct t; lia. }
    replace (2 ^ 13 + x) with (x + 1 * 2 ^ 13) by (clear; lia).
    rewrite <- lor_add by exact H. rewrite N.lor_spec, N.shiftl_spec_high'; [|lia]. apply orb_true_r. }
  destruct (C53_rc5_runs (khz_ticks F 889) w H13) as (L & rest & Er & Hr).
  destruct (rc5_run_buffer b m F C into w 1 Hm Hf Hu Hlo Lw H13) as (j & R).
  rewrite written_val in Hw by (eapply Nat.le_trans; [exact L|exact Hb]).
  apply (zeros_after (enc (mkRc5 a c s t)) _ _ Hw) in Hz.
  rewrite Eu in R. rewrite Er in *. cbn [app tl] in *.
  destruct (@commands_single C j 0 (into (mkRc5 a c s t))) as (S1 & S2). cbn [repeat] in S1, S2.
  assert (B : 1 <= khz_ticks F 889 /\ 2 * khz_ticks F 889 < 2 ^ 32).
  { assert (L2 : khz_ticks F 889 < 2 ^ 31) by (apply khz_small; lia). rewrite khz_above in * by lia.
    change (2 ^ 31) with 2147483648 in L2. change (2 ^ 32) with 4294967296.
    assert (L1 : 13 * 889 <= F / 1000 * 889) by (apply N.mul_le_mono_r; clear -Hlo; lia).
    split; [clear -L1|clear -L2]; lia. }
  assert (Hv : Forall (fun e => 1 <= e /\ e < 2 ^ 32) rest).
  { eapply Forall_impl; [|exact Hr]. cbv beta. clear -B. intros x [-> | ->]; lia. }
  eapply (on_air_intro (rc5_protocol b m) F (mkEncoder rc5_command enc) h _ _ _ _ _ C into _ _ _ Hi Hw (rc5_new_val b m F Hm Hf) Hv Hz R S1 S2).
  intros h1 Hh1. eapply (rc5_quiet b m F C into h1); eauto.
Qed.
Print Assumptions C60_rc5.

Theorem C60_rc6 :
  forall b m F a c t, timebase m F -> 27028 <= F -> 444 * F < 2 ^ 32 -> 8 <= usize_bits b ->
  a < 2 ^ 8 -> c < 2 ^ 8 ->
  exists enc, rc6_encoder b F = Some (mkEncoder rc6_command enc) /\
  forall h, idle h -> (44 <= length (contents h))%nat ->
    Forall (fun e => e <= 1) (contents h) \/
    (forall buf' n, enc (mkRc6 a c t) (contents h) = Val (buf', n) -> Forall (fun e => e <= 1) (skipn n buf')) ->
    on_air (rc6_protocol b m) F (mkEncoder rc6_command enc) h (mkRc6 a c t) (mkRc6 a c t).
Proof.
  intros b m F a c t Hm Hlo Hf Hu Ha Hc. destruct (C54_rc6_encoder b F Hf) as (enc & Ee & Hw).
  exists enc. split; [exact Ee|]. intros h Hi Hb Hz C into.
  destruct (Hw a c t (contents h) Ha Hc) as (E1 & L & Hd).
  assert (Lw : 2 ^ 8 * a + c < 2 ^ 16) by (pows; lia).
  assert (HF : F < 2 ^ 32) by (clear -Hf; change (2 ^ 32) with 4294967296 in *; lia).
  destruct (rc6_run_buffer b m F C into t (2 ^ 8 * a + c) 1 Hm HF Hu (rc6_rate_high F Hlo) Lw) as (r & i & j & R & Hj & Hss).
  rewrite (C06_rc6_word a c t Ha Hc) in R.
  rewrite written_val in E1 by (eapply Nat.le_trans; [exact L|exact Hb]).
  apply (zeros_after (enc (mkRc6 a c t)) _ _ E1) in Hz.
  assert (B : 12 <= nominal F 444 /\ nominal F 444 < 2 ^ 29) by (unfold nominal; change (2 ^ 29) with 536870912; clear -Hlo Hf; lia).
  assert (Hv : Forall (fun e => 1 <= e /\ e < 2 ^ 32) (tl (rc6_buffer (nominal F 444) t (2 ^ 8 * a + c)))).
  { unfold rc6_buffer. revert B. generalize (nominal F 444). intros l B. generalize (2 ^ 8 * a + c). intros w.
    assert (G : Forall (fun x : edge => 1 <= snd x /\ snd x <= 6) (tl (level_edges false 0 (rc6_wave t (bits_msb 16 w) ++ [false])))).
    { assert (K : forall bs c0 n, 1 <= n <= 3 -> Forall (fun x : edge => 1 <= snd x /\ snd x <= 6) (level_edges c0 n (flat_map rc6_half bs ++ [false]))).
      { clear. induction bs as [|x bs IH]; intros c0 n Hn.
        - cbn [flat_map app level_edges]. destruct c0; cbn [Bool.eqb]; constructor; [cbn [snd]; lia|constructor].
        - destruct x, c0; cbn [flat_map rc6_half app level_edges Bool.eqb];
            repeat (apply Forall_cons; [cbn [snd]; lia|]); apply IH; lia.
      }
      unfold rc6_wave. destruct t; cbn [app level_edges Bool.eqb rc6_half tl N.add Pos.add Pos.succ];
        repeat (apply Forall_cons; [cbn [snd]; lia|]); apply K; lia. }
    destruct (level_edges false 0 (rc6_wave t (bits_msb 16 w) ++ [false])) as [|x xs]; [constructor|]. cbn [map tl] in *.
    clear -G B. induction G as [|y ys Hy Hys IH]; cbn [map]; constructor; auto.
    change (2 ^ 29) with 536870912 in B. change (2 ^ 32) with 4294967296. nia. }
  destruct (rc6_buffer (nominal F 444) t (2 ^ 8 * a + c)) as [|x vs]; [discriminate|]. injection Hd as ->. cbn [tl app] in *.
  destruct (@commands_single C i j (into (mkRc6 a c t))) as (S1 & S2).
  eapply (on_air_intro (rc6_protocol b m) F (mkEncoder rc6_command enc) h _ _ _ _ _ C into _ _ _ Hi E1 (rc6_new_val b m F Hm HF) Hv Hz R S1 S2).
  intros h1 Hh1. eapply (rc6_quiet b m F C into h1); eauto.
Qed.
Print Assumptions C60_rc6.

(** Sending over the air in a concrete case: a fresh sender with room for 70 entries at
    14 kHz, and RC5 through one with room for 30 entries at 13 kHz. *)
Definition c60_run (P : protocol) (F : N) (e : encoder) (size ticks : nat) (c : e_cmd e) : option (list (dcmd (p_dec P))) :=
  match hs_load e (hs_new size) c, poll_new P F with
  | Val h', Val p0 => match run_polls (fun x => x) p0 (snd (hs_ticks ticks h')) with
                      | Val (_, os) => Some (commands os)
                      | _ => None
                      end
  | _, _ => None
  end.
Example C60_example :
  match nec_data NEC_STANDARD_TIMING 14000 with
  | Some data => c60_run (nec_protocol (debug_build 32) MU32 NecStandard) 14000 (mkEncoder _ (nec_encode NecStandard data)) 70 1000 (mkNec 7 44 true)
  | None => None
  end = Some [mkNec 7 44 false] /\
  match rc5_calc_freq 13000 with
  | Some l => c60_run (rc5_protocol (debug_build 32) MU32) 13000 (mkEncoder _ (rc5_encode (debug_build 32) l)) 30 400 (mkRc5 20 9 3 true)
  | None => None
  end = Some [mkRc5 20 9 3 true].
Proof. split; vm_compute; reflexivity. Qed.
