(** * Lemmas about the periodic sender *)
From Coq Require Import NArith ZArith List Bool Lia ZifyBool ZifyNat ZifyN.
From Verif Require Import Machine Time Decoder Rc5 Receiver Spec Spec_sender Spec_receiver Run_facts Time_facts Rc5_facts
  Roundtrip_facts Example_facts Remote Sender Sender_facts Encode_facts Props_decode Props_receiver Air_facts Poll_facts Apps Spec_apps.
Import ListNotations.
Open Scope N_scope.

Definition period : nat := N.to_nat 40000.
Global Opaque period.
Lemma period_val : period = N.to_nat 40000.
Proof. with_strategy transparent [period] reflexivity. Qed.

Definition next_word : N := 2 ^ 13 + 2 ^ 12 + 2 ^ 6 * 20 + 32.
Definition next_buffer : list N := rc5_buffer 17 next_word ++ repeat 0 (128 - length (rc5_buffer 17 next_word)).

(** A transmission followed by silence. *)
Lemma hs_transmit_padded B off k : Forall (fun e => e < 2 ^ 32) B -> (length (pin_wave B) < k)%nat ->
  exists c pos ts, hs_ticks k (mkHS 0 (mkPS (mkPB B off) 0 StIdle 0)) =
    (mkHS c (mkPS (mkPB B off) pos StIdle ts), padded k (pin_wave B)).
Proof.
  intros HB Hk. destruct (hs_transmit (mkPB B off) HB) as (c & pos & ts & E & En). cbn [pb_buf] in *.
  destruct (hs_idle (mkPB B off) (k - S (length (pin_wave B))) c pos StIdle ts En) as (c' & st' & Ei & S0 & S1).
  assert (st' = StIdle).
  { destruct (k - S (length (pin_wave B)))%nat as [|j]; [apply S0; reflexivity|apply S1; discriminate]. }
  subst st'. exists c', pos, ts.
  replace k with (S (length (pin_wave B)) + (k - S (length (pin_wave B))))%nat at 1 by lia.
  rewrite hs_ticks_app, E, Ei. f_equal. unfold padded. rewrite <- app_assoc. f_equal.
  replace (k - length (pin_wave B))%nat with (S (k - S (length (pin_wave B)))) by lia. reflexivity.
Qed.

(** Interrupts before the counter reaches the end of the period. *)
Lemma tim2s_quiet b k : forall c h, c + N.of_nat k < 40000 ->
  tim2s b k (mkApp c h) = Val (mkApp (c + N.of_nat k) (fst (hs_ticks k h)), snd (hs_ticks k h)).
Proof.
  induction k as [|k IH]; intros c h H.
  - cbn [tim2s hs_ticks fst snd]. do 3 f_equal. lia.
  - cbn [tim2s hs_ticks]. unfold tim2. cbn [app_counter app_transmitter]. destruct (hs_tick h) as [h1 l].
    unfold wrapping_add32. rewrite N.mod_small by (change (2 ^ 32) with 4294967296; lia).
    change (TIMER_FREQ * 2) with 40000. rewrite (proj2 (N.eqb_neq (c + 1) 40000)) by lia. cbn [bind].
    rewrite IH by lia. cbn [bind]. destruct (hs_ticks k h1) as [h2 ls]. cbn [fst snd]. do 3 f_equal. lia.
Qed.

Lemma tim2s_app b k1 : forall k2 s, tim2s b (k1 + k2) s =
  let* (s1, l1) := tim2s b k1 s in let* (s2, l2) := tim2s b k2 s1 in Val (s2, l1 ++ l2).
Proof.
  induction k1 as [|k IH]; intros k2 s.
  - cbn [Nat.add tim2s bind]. destruct (tim2s b k2 s) as [[s2 l2]| |]; reflexivity.
  - cbn [Nat.add tim2s]. destruct (tim2 b s) as [[s1 l]| |]; cbn [bind]; auto. rewrite IH.
    destruct (tim2s b k s1) as [[s2 l2]| |]; cbn [bind]; auto.
    destruct (tim2s b k2 s2) as [[s3 l3]| |]; cbn [bind]; auto.
Qed.

Definition loaded : hal_sender := mkHS 0 (mkPS (mkPB next_buffer (length (rc5_buffer 17 next_word))) 0 StIdle 0).

(** A whole period, in which what the transmitter holds is sent and "next" is loaded. *)
Lemma tim2s_period b B off : length B = 128%nat -> skipn (length (rc5_buffer 17 next_word)) B = repeat 0 (128 - length (rc5_buffer 17 next_word)) ->
  Forall (fun e => e < 2 ^ 32) B -> (length (pin_wave B) < period)%nat ->
  tim2s b period (mkApp 0 (mkHS 0 (mkPS (mkPB B off) 0 StIdle 0))) = Val (mkApp 0 loaded, padded period (pin_wave B)).
Proof.
  intros LB Hs HB Hk.
  destruct (hs_transmit_padded B off period HB Hk) as (c & pos & ts & E).
  remember (mkHS 0 (mkPS (mkPB B off) 0 StIdle 0)) as h.
  assert (Ep : period = (N.to_nat 39999 + 1)%nat) by (rewrite period_val; lia).
  rewrite Ep in E |- * at 1.
  set (k := N.to_nat 39999) in *. assert (Hk9 : N.of_nat k = 39999) by apply N2Nat.id. clearbody k.
  rewrite hs_ticks_app in E. rewrite tim2s_app, tim2s_quiet by lia. cbn [bind tim2s].
  destruct (hs_ticks k h) as [h1 l1]. cbn [fst snd]. cbn [hs_ticks] in E.
  unfold tim2. cbn [app_counter app_transmitter]. destruct (hs_tick h1) as [h2 l]. apply pair_equal_spec in E. destruct E as (-> & El).
  replace (wrapping_add32 (0 + N.of_nat k) 1) with 40000 by (rewrite Hk9; reflexivity).
  change (40000 =? TIMER_FREQ * 2) with true. cbv iota.
  replace (rm_encode CdPlayer A_Next) with (Some (mkRc5 20 32 3 false)) by reflexivity.
  assert (Ef : rc5_calc_freq 20000 = Some 17) by reflexivity. rewrite Ef.
  unfold hs_load. cbn [hs_buffer ps_status]. unfold ps_load, ps_reset, pb_reset, pb_load.
  cbn [ps_ptb pb_offset pb_buf ps_pos ps_status ps_ts Nat.leb skipn firstn app e_encode Nat.add].
  rewrite (rc5_encode_written b 20000 17 _ B Ef).
  replace (2 ^ 13 + rc5_pack (mkRc5 20 32 3 false) mod 2 ^ 13) with next_word by (vm_compute; reflexivity).
  replace (khz_ticks 20000 889) with 17 by reflexivity.
  unfold written. rewrite LB. replace (Nat.leb (length (rc5_buffer 17 next_word)) 128) with true by (vm_compute; reflexivity).
  cbn [bind]. rewrite Hs. fold next_buffer. cbn [tim2s bind]. rewrite Ep.
  f_equal. f_equal. exact El.
Qed.

Lemma next_buffer_ok : length next_buffer = 128%nat /\
  skipn (length (rc5_buffer 17 next_word)) next_buffer = repeat 0 (128 - length (rc5_buffer 17 next_word)) /\
  Forall (fun e => e < 2 ^ 32) next_buffer /\ (length (pin_wave next_buffer) < period)%nat.
Proof.
  split; [vm_compute; reflexivity|]. split; [vm_compute; reflexivity|]. split.
  - apply Forall_forall. assert (F : forallb (fun e => e <? 2 ^ 32) next_buffer = true) by (vm_compute; reflexivity).
    rewrite forallb_forall in F. intros x Hx. apply N.ltb_lt, F, Hx.
  - rewrite period_val. assert (E : length (pin_wave next_buffer) = N.to_nat (N.of_nat (length (pin_wave next_buffer)))) by (symmetry; apply Nat2N.id).
    rewrite E. assert (N.of_nat (length (pin_wave next_buffer)) < 40000) by (vm_compute; reflexivity). lia.
Qed.

Lemma tim2s_periods b n : tim2s b (n * period) (mkApp 0 loaded) =
  Val (mkApp 0 loaded, concat (repeat (padded period (pin_wave next_buffer)) n)).
Proof.
  destruct next_buffer_ok as (H1 & H2 & H3 & H4). induction n as [|n IH]; [reflexivity|].
  cbn [Nat.mul repeat concat]. rewrite tim2s_app. unfold loaded at 1. rewrite tim2s_period by assumption. cbn [bind]. rewrite IH. reflexivity.
Qed.

(** ** What a poller hears *)

(** The edges of one period, [g] ticks after the last one. *)
Definition next_edges : list edge := alternating false (tl (rc5_buffer 17 next_word)).
Definition tail_edges : list edge := skipn (length next_edges) (level_edges true 1 (tl (pin_wave next_buffer))).
Definition next_rest : N := snd (run_state true 1 (tl (pin_wave next_buffer))).

Lemma period_edges g rest : level_edges false g (padded period (pin_wave next_buffer) ++ rest) =
  ((true, g) :: next_edges) ++ tail_edges ++
  level_edges false (next_rest + N.of_nat (period - length (pin_wave next_buffer))) rest.
Proof.
  unfold padded. rewrite <- app_assoc.
  assert (Eh : pin_wave next_buffer = true :: tl (pin_wave next_buffer)) by (vm_compute; reflexivity).
  set (k := (period - length (pin_wave next_buffer))%nat). clearbody k. rewrite Eh at 1. cbn [app level_edges Bool.eqb].
  f_equal. rewrite level_edges_app, app_assoc. 
  assert (E1 : level_edges true 1 (tl (pin_wave next_buffer)) = next_edges ++ tail_edges) by (vm_compute; reflexivity).
  assert (E2 : fst (run_state true 1 (tl (pin_wave next_buffer))) = false) by (vm_compute; reflexivity).
  rewrite E1, E2, level_edges_repeat. reflexivity.
Qed.

Lemma tail_ones : Forall (fun e : edge => snd e = 1) tail_edges.
Proof.
  apply Forall_forall. assert (F : forallb (fun e : edge => snd e =? 1) tail_edges = true) by (vm_compute; reflexivity).
  rewrite forallb_forall in F. intros x Hx. apply N.eqb_eq, F, Hx.
Qed.

Lemma next_gap : 39000 <= next_rest + N.of_nat (period - length (pin_wave next_buffer)) < 2 ^ 32.
Proof.
  rewrite period_val. assert (E : length (pin_wave next_buffer) = N.to_nat (N.of_nat (length (pin_wave next_buffer)))) by (symmetry; apply Nat2N.id).
  rewrite E. replace next_rest with (N.of_nat (N.to_nat next_rest)) by apply N2Nat.id.
  assert (H1 : N.of_nat (length (pin_wave next_buffer)) <= 900) by (vm_compute; discriminate).
  assert (H2 : next_rest <= 900) by (vm_compute; discriminate). change (2 ^ 32) with 4294967296. lia.
Qed.

Lemma next_is_frame g : rc5_edges 20000 next_word g ((true, g) :: next_edges).
Proof. apply rc5_edges_ok. vm_compute. reflexivity. Qed.

Section Heard.
  Variables (b : build) (m : mono) (C : Type) (into : rc5_command -> C).
  Hypotheses (Hm : timebase m 20000) (Hu : 8 <= usize_bits b).
  Notation D := (rc5_dec b).
  Notation run := (run_edges (D := D) into).
  Notation next := (mkRc5 20 32 3 false).

  Lemma repeat_none_commands k : commands (repeat (ROk None) k : list (outcome C)) = [].
  Proof. induction k; auto. Qed.

  Lemma period_heard r0 h r1 os g : receiver_new (rc5_protocol b m) 20000 = Val r0 ->
    run r0 h = Val (r1, os) -> 39000 <= g -> exists r2 os2,
    run r0 (h ++ ((true, g) :: next_edges) ++ tail_edges) = Val (r2, os ++ os2) /\ commands os2 = [into next] /\ Forall quiet os2.
  Proof.
    intros Er E Hg.
    destruct (C21_rc5_frame b m 20000 next_word h g ((true, g) :: next_edges) C into r0 r1 os) as (r2 & E2); auto.
    - vm_compute. discriminate.
    - reflexivity.
    - reflexivity.
    - apply next_is_frame.
    - unfold longer. change (nominal 20000 1778) with 35. lia.
    - replace (mkRc5 (field next_word 6 5) (field next_word 0 6) (field next_word 12 2) (negb (field next_word 11 1 =? 0)))
        with next in E2 by (vm_compute; reflexivity).
      destruct (rc5_quiet b m 20000 C into tail_edges) with (r := r2) as (r3 & E3); auto.
      + reflexivity.
      + vm_compute. discriminate.
      + apply tail_ones.
      + apply rc5_run_spans in E2. rewrite E2. rewrite (rc5_new_val b m 20000) in Er by (auto; reflexivity). injection Er as <-. reflexivity.
      + rewrite app_assoc. rewrite (run_edges_app_val _ _ _ _ _ _ _ _ E2 E3). rewrite <- app_assoc.
        do 2 eexists. split; [reflexivity|]. split.
        * unfold commands. rewrite !flat_map_app. cbn [flat_map]. fold (@commands C decoding_error).
          change (commands (repeat (ROk None) (length ((true, g) :: next_edges) - 1) : list (outcome C)) ++ [into next] ++ [] ++
                  commands (repeat (ROk None) (length tail_edges) : list (outcome C)) = [into next]) || idtac.
          rewrite !repeat_none_commands. reflexivity.
        * apply Forall_app. split; [apply Forall_app; split|].
          -- apply Forall_forall. intros x Hx. apply repeat_spec in Hx. rewrite Hx. exact I.
          -- repeat constructor.
          -- apply Forall_forall. intros x Hx. apply repeat_spec in Hx. rewrite Hx. exact I.
  Qed.

  Lemma periods_heard n : forall r0 h r1 os g, receiver_new (rc5_protocol b m) 20000 = Val r0 ->
    run r0 h = Val (r1, os) -> 39000 <= g < 2 ^ 32 -> exists r2 os2,
    run r0 (h ++ level_edges false g (concat (repeat (padded period (pin_wave next_buffer)) n))) = Val (r2, os ++ os2) /\
    commands os2 = repeat (into next) n /\ Forall quiet os2.
  Proof.
    induction n as [|n IH]; intros r0 h r1 os g Er E Hg.
    - cbn [repeat concat level_edges]. exists r1, []. rewrite !app_nil_r. auto.
    - cbn [repeat concat]. rewrite period_edges.
      destruct (period_heard r0 h r1 os g Er E) as (r2 & os2 & E2 & C2 & Q2); [lia|].
      destruct (IH r0 (h ++ ((true, g) :: next_edges) ++ tail_edges) r2 (os ++ os2) _ Er E2 next_gap) as (r3 & os3 & E3 & C3 & Q3).
      exists r3, (os2 ++ os3). rewrite <- !app_assoc in E3. split; [exact E3|]. split.
      + etransitivity; [apply flat_map_app|]. exact (f_equal2 (@app C) C2 C3).
      + apply Forall_app. auto.
  Qed.

  Lemma periods_short n : forall g, g < 2 ^ 32 ->
    Forall (fun e : edge => snd e < 2 ^ 32) (level_edges false g (concat (repeat (padded period (pin_wave next_buffer)) n))).
  Proof.
    induction n as [|n IH]; intros g Hg; cbn [repeat concat]; [constructor|]. rewrite period_edges.
    apply Forall_app. split; [constructor; [exact Hg|]|apply Forall_app; split].
    - apply Forall_forall. assert (F : forallb (fun e : edge => snd e <? 2 ^ 32) next_edges = true) by (vm_compute; reflexivity).
      rewrite forallb_forall in F. intros x Hx. apply N.ltb_lt, F, Hx.
    - eapply Forall_impl; [|apply tail_ones]. intros e He. cbn beta in *. rewrite He. reflexivity.
    - apply IH. apply next_gap.
  Qed.
End Heard.
