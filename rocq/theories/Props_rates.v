(** * C87: at which tick rates RC6 works with one clock for sender and receiver *)
From Coq Require Import NArith ZArith List Bool Lia ZifyBool ZifyNat ZifyN.
From Verif Require Import Machine Spec Spec_sender Spec_receiver Spec_state Bits Time Decoder Nec Rc5 Rc6 Receiver Sender
  Time_facts Window_facts Run_facts Nec_facts Rc5_facts Rc6_facts Codec_facts Receiver_facts State_facts Encode_facts
  Roundtrip_facts Props_codec Props_receiver Props_encode.
Import ListNotations.
Open Scope N_scope.
Ltac Zify.zify_post_hook ::= Z.div_mod_to_equations.

(** ** At the other rates the leader is not read as six units, nor is anything else sent *)

Lemma rc6_other_rates F : ~ rc6_rate F -> F < 27028 /\
  (nominal F 444 = 0 \/ 600 * nominal F 444 < 88 * nominal F 2664 \/ 600 * nominal F 444 <= 112 * nominal F 2220).
Proof.
  intros H. assert (A : F < 27028 /\ Forall (fun r => F < fst r \/ snd r < F) rc6_rates).
  { split; [destruct (N.lt_ge_cases F 27028); auto; exfalso; apply H; left; auto|].
    apply Forall_forall. intros r Hr. destruct (N.lt_ge_cases F (fst r)); [left; auto|].
    destruct (N.lt_ge_cases (snd r) F); [right; auto|]. exfalso. apply H. right. apply Exists_exists. exists r. auto. }
  clear H. destruct A as (A & B). split; [exact A|]. unfold rc6_rates in B. unfold nominal.
  assert (L : 0 <= F) by lia.
  do 11 (apply Forall_cons_iff in B; let G := fresh "G" in destruct B as (G & B); cbn [fst snd] in G;
    destruct G as [G|G]; [clear B; lia | clear L; rename G into L]).
  clear B. lia.
Qed.

(** No interval of the frame selects the entry for six units. *)
Lemma rc6_unread m F d : timebase m F -> ~ rc6_rate F -> d <= nominal F 444 * 3 \/ d = nominal F 444 * 6 ->
  spans_get (spans_of m F rc6_pulses) d <> Some 5.
Proof.
  intros Hm HF Hd E. destruct (rc6_other_rates F HF) as (Hlow & K).
  rewrite spans_of_nominal in E by (auto using rc6_ok; lia).
  unfold spans_get in E. pose proof (spans_get_from_spec (nominal_spans F rc6_pulses) 0 d) as S. rewrite E in S.
  destruct S as (j & s & Ej & E1 & C1 & B1). assert (j = 5%nat) as -> by lia. clear Ej E.
  cbn [nth_error nominal_spans map fst snd rc6_pulses N.mul Pos.mul Pos.add Pos.succ] in E1. injection E1 as <-.
  apply contains_window in C1; [|lia].
  pose proof (B1 0%nat (window (nominal F 444) 12) ltac:(lia) eq_refl) as N1. pose proof (B1 4%nat (window (nominal F 2220) 12) ltac:(lia) eq_refl) as N5. clear B1.
  cbn [fst snd N.mul Pos.mul Pos.add Pos.succ] in N1, N5.
  assert (M1 : ~ inwin (nominal F 444) 12 d) by (intros Q; apply contains_window in Q; [congruence|lia]).
  assert (M5 : ~ inwin (nominal F 2220) 12 d) by (intros Q; apply contains_window in Q; [congruence|lia]).
  assert (O : 6 * nominal F 444 <= nominal F 2664 /\ nominal F 2220 <= nominal F 2664) by (unfold nominal; clear; lia).
  unfold inwin in *. revert K Hd C1 M1 M5 O. clear.
  generalize (nominal F 444) (nominal F 2220) (nominal F 2664). intros. lia.
Qed.

(** A receiver that is waiting for a leader goes on waiting. *)
Lemma rc6_deaf b C (into : rc6_command -> C) ss : 8 <= usize_bits b -> (length ss <= 8)%nat -> forall buf,
  Forall (fun d => spans_get ss d <> Some 5) buf -> forall (up : bool) da hd tg ck pv, (if up then ck <= 8 else ck = 0) ->
  exists r, run_edges (D := rc6_dec b) into (@mkRecv (rc6_dec b) (mkRc6Dec (if up then R6Idle else R6Leading) da hd tg ck ss) pv)
    (alternating up buf) = Val (r, repeat (ROk None) (length buf)).
Proof.
  intros Hu Hss. induction buf as [|d buf IH]; intros HF up da hd tg ck pv Hck; [eexists; reflexivity|].
  apply Forall_cons_iff in HF. destruct HF as (H1 & HF). cbn [alternating length repeat]. rewrite run_edges_cons.
  assert (Ev : exists da' hd' tg' ck', (if negb up then ck' <= 8 else ck' = 0) /\
    @event_edge (rc6_dec b) C into (@mkRecv (rc6_dec b) (mkRc6Dec (if up then R6Idle else R6Leading) da hd tg ck ss) pv) d up =
      Val (@mkRecv (rc6_dec b) (mkRc6Dec (if negb up then R6Idle else R6Leading) da' hd' tg' ck' ss) pv, ROk None)).
  { unfold event_edge. cbn [d_event rc6_dec rv_dec]. unfold rc6_event. cbn [r6_spans r6_clock].
    destruct (spans_get ss d) as [k|] eqn:Ek.
    - apply spans_get_below in Ek. pose proof (usize8 b Hu) as HU.
      rewrite (uadd_small _ _ k 1) by lia. cbn [bind]. destruct up.
      + rewrite uadd_small by lia. cbn [bind r6_clock]. unfold rc6_transition. cbn [r6_state r6_data r6_headerdata r6_toggle r6_spans bind rc6_to_state].
        do 4 eexists. split; [|reflexivity]. reflexivity.
      + subst ck. rewrite uadd_small by lia. cbn [bind r6_clock]. unfold rc6_transition.
        cbn [r6_state r6_data r6_headerdata r6_toggle r6_spans r6_clock].
        assert (Hk : k + 1 <> 6) by (intros Q; apply H1; f_equal; lia).
        exists da, hd, tg, (0 + (k + 1)). split; [cbn [negb]; lia|].
        destruct (k + 1) as [|[p|p|]] eqn:Eq; try reflexivity; destruct p as [p|p|]; try reflexivity; destruct p; try reflexivity; congruence.
    - cbn [bind]. unfold rc6_reset, rc6_transition. destruct up; cbn [r6_state r6_data r6_headerdata r6_toggle r6_spans r6_clock bind rc6_to_state];
        do 4 eexists; (split; [|reflexivity]); cbn; lia. }
  destruct Ev as (da' & hd' & tg' & ck' & Hck' & Ev). rewrite Ev. cbn [bind].
  destruct (IH HF (negb up) da' hd' tg' ck' pv Hck') as (r & R). rewrite R. eexists. reflexivity.
Qed.

Lemma rc6_buffer_units l t w : Forall (fun d => d <= l * 3 \/ d = l * 6) (rc6_buffer l t w).
Proof.
  unfold rc6_buffer. apply Forall_map.
  destruct (level_edges_snoc (rc6_wave t (bits_msb 16 w)) false false 0) as (tl' & E & Ht).
  assert (K : forall bs c0 n, 1 <= n <= 2 -> Forall (fun x : edge => snd x <= 3 \/ snd x = 6) (level_edges c0 n (flat_map rc6_half bs ++ [false]))).
  { clear. induction bs as [|x bs IH]; intros c0 n Hn.
    - cbn [flat_map app level_edges]. destruct c0; cbn [Bool.eqb]; constructor; [cbn [snd]; lia|constructor].
    - destruct x, c0; cbn [flat_map rc6_half app level_edges Bool.eqb];
        repeat (apply Forall_cons; [cbn [snd]; lia|]); apply IH; lia. }
  assert (G : Forall (fun x : edge => snd x <= 3 \/ snd x = 6) (level_edges false 0 (rc6_wave t (bits_msb 16 w) ++ [false]))).
  { unfold rc6_wave. destruct t; cbn [app level_edges Bool.eqb rc6_half N.add Pos.add Pos.succ];
      repeat (apply Forall_cons; [cbn [snd]; lia|]); apply K; lia. }
  eapply Forall_impl; [|exact G]. cbv beta. intros x [H|H]; [left; nia|right; lia].
Qed.

(** ** C87 *)

(** A command arrives: a receiver with the same clock reports it, and nothing else, and the
    buffer iterator yields it. *)
Definition rc6_arrives (b : build) (m : mono) (F : N) (enc : rc6_command -> list N -> res (list N * nat)) (c : rc6_command) : Prop :=
  forall buf C (into : rc6_command -> C), (44 <= length buf)%nat ->
  exists buf' n i j, enc c buf = Val (buf', n) /\
    outcomes_of (rc6_protocol b m) F into (alternating true (firstn n buf')) =
      Val (repeat (ROk None) i ++ ROk (Some (into c)) :: repeat (ROk None) j) /\ (j <= 1)%nat /\
    exists it0 it, iter_new (rc6_protocol b m) F (firstn n buf') = Val it0 /\
      collect (D := rc6_dec b) into it0 = Val (it, [into c]).

(** It is lost: the receiver reports nothing at all. *)
Definition rc6_lost (b : build) (m : mono) (F : N) (enc : rc6_command -> list N -> res (list N * nat)) (c : rc6_command) : Prop :=
  forall buf C (into : rc6_command -> C), (44 <= length buf)%nat ->
  exists buf' n, enc c buf = Val (buf', n) /\
    outcomes_of (rc6_protocol b m) F into (alternating true (firstn n buf')) = Val (repeat (ROk None) n) /\
    exists it0 it, iter_new (rc6_protocol b m) F (firstn n buf') = Val it0 /\
      collect (D := rc6_dec b) into it0 = Val (it, []).

(** At every rate either all commands arrive or all are lost. *)
Theorem C87_rc6_rates :
  forall b m F, timebase m F -> 444 * F < 2 ^ 32 -> 8 <= usize_bits b ->
  exists enc, rc6_encoder b F = Some (mkEncoder rc6_command enc) /\
  forall a c t, a < 2 ^ 8 -> c < 2 ^ 8 ->
    (rc6_rate F -> rc6_arrives b m F enc (mkRc6 a c t)) /\
    (~ rc6_rate F -> rc6_lost b m F enc (mkRc6 a c t)).
Proof.
  intros b m F Hm Hf Hu. destruct (C54_rc6_encoder b F Hf) as (enc & Ee & Hw).
  exists enc. split; [exact Ee|]. intros a c t Ha Hc. split; intros HF buf C into Hb.
  - destruct (Hw a c t buf Ha Hc) as (E1 & L & _).
    assert (Lw : 2 ^ 8 * a + c < 2 ^ 16) by (change (2 ^ 8) with 256 in *; change (2 ^ 16) with 65536; clear -Ha Hc; lia).
    assert (HF2 : F < 2 ^ 32) by (clear -Hf; change (2 ^ 32) with 4294967296 in *; lia).
    destruct (rc6_receives b m F C into t (2 ^ 8 * a + c) Hm HF2 Hu HF Lw) as (i & j & R & Hj).
    rewrite (C06_rc6_word a c t Ha Hc) in R.
    rewrite written_val in E1 by (eapply Nat.le_trans; [exact L|exact Hb]).
    eexists. eexists. exists i, j. split; [exact E1|]. rewrite firstn_written. split; [exact R|]. split; [exact Hj|].
    destruct (@commands_single C i j (into (mkRc6 a c t))) as (S1 & S2).
    destruct (collect_outcomes b m (rc6_protocol b m) F C into _ _ ltac:(unfold parsing_protocols; cbn [In]; auto 10) R S2)
      as (it0 & it & I1 & I2).
    exists it0, it. split; [exact I1|]. rewrite <- S1. exact I2.
  - destruct (Hw a c t buf Ha Hc) as (E1 & L & _).
    assert (HF2 : F < 2 ^ 32) by (clear -Hf; change (2 ^ 32) with 4294967296 in *; lia).
    rewrite written_val in E1 by (eapply Nat.le_trans; [exact L|exact Hb]).
    eexists. eexists. split; [exact E1|]. rewrite firstn_written.
    set (wv := rc6_buffer (nominal F 444) t (2 ^ 8 * a + c)) in *.
    assert (R : outcomes_of (rc6_protocol b m) F into (alternating true wv) = Val (repeat (ROk None) (length wv))).
    { unfold outcomes_of. rewrite (rc6_new_val b m F Hm HF2). cbn [bind].
      destruct (rc6_deaf b C into (spans_of m F rc6_pulses) Hu ltac:(apply Nat.le_refl) wv) with (up := true) (da := 0) (hd := 0) (tg := false) (ck := 0) (pv := 0) as (r & R).
      - eapply Forall_impl; [|apply rc6_buffer_units]. intros d Hd. apply rc6_unread; auto.
      - lia.
      - cbn [p_dec rc6_protocol]. rewrite R. reflexivity. }
    split; [exact R|].
    assert (Ho : Forall (fun o : outcome C => match o with ROk _ => True | RErr _ => False end) (repeat (ROk None) (length wv)))
      by (generalize (length wv); induction n; cbn [repeat]; auto).
    destruct (collect_outcomes b m (rc6_protocol b m) F C into _ _ ltac:(unfold parsing_protocols; cbn [In]; auto 10) R Ho)
      as (it0 & it & I1 & I2).
    exists it0, it. split; [exact I1|].
    assert (Z : commands (repeat (ROk None) (length wv) : list (outcome C)) = [])
      by (generalize (length wv); induction n as [|n IH]; [reflexivity|exact IH]).
    refine (eq_trans I2 _). rewrite Z. reflexivity.
Qed.
Print Assumptions C87_rc6_rates.

(** 20 kHz, the rate of the documentation, is not among them; 21 kHz, 38 kHz and 40 kHz are. *)
Example C87_example :
  ~ rc6_rate 20000 /\ rc6_rate 21000 /\ rc6_rate 38000 /\ rc6_rate 40000 /\ 444 * 40000 < 2 ^ 32.
Proof.
  split; [|split; [|split; [|split]]].
  - intros [H|H]; [apply N.leb_le in H; discriminate|]. unfold rc6_rates in H.
    repeat (apply Exists_cons in H; destruct H as [[H1 H2]|H]; [cbn [fst snd] in *; lia|]). inversion H.
  - right. unfold rc6_rates. do 8 apply Exists_cons_tl. apply Exists_cons_hd. cbn. lia.
  - left. lia.
  - left. lia.
  - reflexivity.
Qed.
