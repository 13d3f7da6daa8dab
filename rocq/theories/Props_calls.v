(** * Property C92: the sender under any sequence of calls *)
From Coq Require Import NArith ZArith List Bool Lia ZifyBool ZifyNat ZifyN.
From Verif Require Import Machine Bits Spec Spec_sender Spec_calls Nec Rc5 Rc6 Sender Codec_facts Rc5_facts Rc6_facts Encode_facts Roundtrip_facts Props_encode Sender_facts Props_sender.
Import ListNotations.
Open Scope N_scope.

(** A call on the sender; the protocol may be another one at every [load]. *)
Inductive call := CTick | CLoad (e : encoder) (c : e_cmd e) | CLook.

(** The calls one after the other; a panic ends the program (src/sender/hal.rs:24-49). *)
Fixpoint calls (h : hal_sender) (cs : list call) : res (list seen) :=
  match cs with
  | [] => Val []
  | CTick :: r => let '(h1, l) := hs_tick h in let* o := calls h1 r in Val (Pin l :: o)
  | CLoad e c :: r => let* h1 := hs_load e h c in calls h1 r
  | CLook :: r => let* v := pb_buffer (ps_ptb (hs_buffer h)) in let* o := calls h r in Val (Entries v :: o)
  end.

(** The call [c] asks for what [w] says: the encoder writes the entries of the frame to the
    front of any buffer (those of the crate do: C92_nec, C92_rc5, C92_rc6). *)
Definition asks (c : call) (w : wish) : Prop :=
  match c, w with
  | CTick, WTick => True
  | CLook, WLook => True
  | CLoad e x, WSend vs => (forall buf, e_encode e x buf = written vs buf) /\ Forall (fun v => v < 2 ^ 32) vs
  | _, _ => False
  end.

(** ** Lemmas *)

Definition started (B : list N) (n : nat) : hal_sender := mkHS 0 (mkPS (mkPB B n) 0 StIdle 0).

Lemma hs_ticks_snoc k h : hs_ticks (S k) h =
  let '(h1, ls) := hs_ticks k h in let '(h2, l) := hs_tick h1 in (h2, ls ++ [l]).
Proof.
  replace (S k) with (k + 1)%nat by lia. rewrite hs_ticks_app. destruct (hs_ticks k h) as [h1 ls].
  cbn [hs_ticks]. destruct (hs_tick h1) as [h2 l]. reflexivity.
Qed.

Lemma hs_tick_ptb h : ps_ptb (hs_buffer (fst (hs_tick h))) = ps_ptb (hs_buffer h).
Proof.
  unfold hs_tick, ps_tick. destruct (pb_get _ _) as [d|]; [|reflexivity]. destruct (_ <=? _); reflexivity.
Qed.
Lemma hs_ticks_ptb k : forall h, ps_ptb (hs_buffer (fst (hs_ticks k h))) = ps_ptb (hs_buffer h).
Proof.
  induction k as [|k IH]; intros h; [reflexivity|]. cbn [hs_ticks]. pose proof (hs_tick_ptb h) as E.
  destruct (hs_tick h) as [h1 l]. specialize (IH h1). destruct (hs_ticks k h1) as [h2 ls]. cbn [fst] in *. congruence.
Qed.

Lemma pin_wave_length e es : length (pin_wave (e :: es)) = (N.to_nat e + length (held true es))%nat.
Proof. cbn [pin_wave]. rewrite app_length, repeat_length. reflexivity. Qed.

(** Whether the sender is transmitting after [k] ticks. *)
Definition busy_at (B : list N) (k : nat) : bool :=
  match B with [] => false | e :: _ => Nat.ltb (N.to_nat e) k && Nat.leb k (length (pin_wave B)) end.

Lemma status_at B n k : Forall (fun v => v < 2 ^ 32) B ->
  exists o, ps_status (hs_buffer (fst (hs_ticks k (started B n)))) = if busy_at B k then StTransmit o else StIdle.
Proof.
  intros HB.
  assert (Late : (length (pin_wave B) < k)%nat ->
    ps_status (hs_buffer (fst (hs_ticks k (started B n)))) = StIdle).
  { intros Hk. destruct (hs_transmit (mkPB B n) HB) as (c & pos & ts & E & En). cbn [pb_buf] in *.
    replace k with (S (length (pin_wave B)) + (k - S (length (pin_wave B))))%nat by lia.
    unfold started. rewrite hs_ticks_app, E.
    destruct (hs_idle (mkPB B n) (k - S (length (pin_wave B))) c pos StIdle ts En) as (c' & st' & Ei & H0 & H1).
    rewrite Ei. cbn [fst hs_buffer ps_status].
    destruct (Nat.eq_dec (k - S (length (pin_wave B))) 0) as [Z|Z]; [apply H0|apply H1]; exact Z. }
  destruct B as [|e es].
  { exists false. cbn [busy_at]. destruct k as [|k]; [reflexivity|]. apply Late. cbn. lia. }
  unfold busy_at. destruct (Nat.ltb (N.to_nat e) k) eqn:E1; cbn [andb].
  2:{ apply Nat.ltb_ge in E1. exists false. inversion HB; subst.
      unfold started. change 0 with (at_ 0 0) at 1.
      rewrite (hs_wait (mkPB (e :: es) n) k 0%nat StIdle 0 0 e) by (auto; try reflexivity; lia). reflexivity. }
  apply Nat.ltb_lt in E1. destruct (Nat.leb k (length (pin_wave (e :: es)))) eqn:E2.
  2:{ apply Nat.leb_gt in E2. exists false. apply Late. exact E2. }
  apply Nat.leb_le in E2. rewrite pin_wave_length in E2. inversion HB as [|? ? He1 He2]; subst.
  replace k with (N.to_nat e + S (k - N.to_nat e - 1))%nat by lia.
  unfold started. change 0 with (at_ 0 0) at 1. rewrite hs_ticks_app.
  rewrite (hs_wait (mkPB (e :: es) n) (N.to_nat e) 0%nat StIdle 0 0 e) by (auto; try reflexivity; lia).
  rewrite hs_ticks_S.
  rewrite (hs_fire (mkPB (e :: es) n) 0%nat false StIdle 0 (0 + N.of_nat (N.to_nat e)) e)
    by (auto; try reflexivity; lia).
  cbn [negb].
  destruct (hs_held_status (mkPB (e :: es) n) es (0 + 1) true (at_ 0 (0 + N.of_nat (N.to_nat e))) (k - N.to_nat e - 1))
    as (o & Eo); auto using at_lt; [lia|].
  exists o. destruct (hs_ticks (k - N.to_nat e - 1) _) as [h2 ls]. exact Eo.
Qed.

Lemma level_at B n k : Forall (fun v => v < 2 ^ 32) B ->
  snd (hs_tick (fst (hs_ticks k (started B n)))) = nth k (pin_wave B ++ [false]) false.
Proof.
  intros HB. pose proof (hs_transmit_prefix (mkPB B n) (S k) HB) as E. cbn [pb_buf] in E.
  change (mkHS 0 (mkPS (mkPB B n) 0 StIdle 0)) with (started B n) in E.
  pose proof (hs_ticks_length k (started B n)) as L.
  rewrite hs_ticks_snoc in E. destruct (hs_ticks k (started B n)) as [h1 ls]. cbn [fst snd] in *.
  destruct (hs_tick h1) as [h2 l]. cbn [snd] in *.
  assert (En : nth k (ls ++ [l]) false = l). { rewrite app_nth2, L, Nat.sub_diag by lia. reflexivity. }
  rewrite <- En, E.
  assert (G : forall (l : list bool) j m, (j < m)%nat -> nth j (firstn m l) false = nth j l false).
  { clear. induction l as [|x l IH]; intros [|j] [|m] H; try lia; cbn; auto. apply IH. lia. }
  rewrite G by lia. destruct (Nat.lt_ge_cases k (length (pin_wave B))) as [H|H].
  - rewrite !app_nth1 by exact H. reflexivity.
  - rewrite !app_nth2 by exact H. generalize (k - length (pin_wave B))%nat. intros j.
    assert (R : forall m j, nth j (repeat false m) false = false).
    { clear. induction m as [|m IH]; intros [|j]; cbn; auto. }
    rewrite R. destruct j as [|[|j]]; reflexivity.
Qed.

Lemma skipn_step (l : list bool) k d :
  match skipn k l with [] => nth k l d = d /\ skipn (S k) l = [] | x :: r => nth k l d = x /\ skipn (S k) l = r end.
Proof.
  revert k. induction l as [|y l IH]; intros [|k]; cbn [skipn nth]; auto. apply IH.
Qed.

Lemma nth_held k es : nth k (held true es ++ [false]) false = true \/ (0 < k)%nat.
Proof. destruct k; [left|right; lia]. rewrite held_cons. reflexivity. Qed.

Lemma nth_pause k e es : (k < N.to_nat e)%nat -> nth k (pin_wave (e :: es) ++ [false]) false = false.
Proof.
  intros H. cbn [pin_wave]. rewrite <- app_assoc, app_nth1 by (rewrite repeat_length; exact H).
  destruct (nth_in_or_default k (repeat false (N.to_nat e)) false) as [I|I]; [|exact I].
  apply repeat_spec in I. exact I.
Qed.
Lemma nth_first e es : nth (N.to_nat e) (pin_wave (e :: es) ++ [false]) false = true.
Proof.
  cbn [pin_wave]. rewrite <- app_assoc, app_nth2 by (rewrite repeat_length; lia).
  rewrite repeat_length, Nat.sub_diag, held_cons. reflexivity.
Qed.
Lemma held_pos on es : (0 < length (held on es))%nat.
Proof. rewrite held_cons. cbn [length]. lia. Qed.

Lemma busy_step B k : busy_at B (S k) =
  (busy_at B k || nth k (pin_wave B ++ [false]) false) && nonempty (skipn (S k) (pin_wave B ++ [false])).
Proof.
  assert (Hn : nonempty (skipn (S k) (pin_wave B ++ [false])) = Nat.leb (S k) (length (pin_wave B))).
  { assert (L : length (skipn (S k) (pin_wave B ++ [false])) = (length (pin_wave B) - k)%nat)
      by (rewrite skipn_length, app_length; cbn [length]; lia).
    destruct (skipn _ _) as [|x r]; cbn [nonempty length] in *; symmetry; [apply Nat.leb_gt|apply Nat.leb_le]; lia. }
  rewrite Hn. destruct B as [|e es]; [destruct k; [|destruct k]; reflexivity|].
  unfold busy_at. destruct (Nat.leb (S k) (length (pin_wave (e :: es)))) eqn:E2; [|rewrite !andb_false_r; reflexivity].
  apply Nat.leb_le in E2. rewrite !andb_true_r.
  rewrite (proj2 (Nat.leb_le k _)) by lia. rewrite andb_true_r.
  destruct (Nat.lt_trichotomy (N.to_nat e) k) as [H|[H|H]].
  - rewrite !(proj2 (Nat.ltb_lt _ _)) by lia. reflexivity.
  - subst k. rewrite nth_first, orb_true_r. apply Nat.ltb_lt. lia.
  - rewrite nth_pause by exact H. rewrite !(proj2 (Nat.ltb_ge _ _)) by lia. reflexivity.
Qed.

Lemma plays_step buf frame k begun r W : begun = busy_at buf k -> W = pin_wave buf ++ [false] ->
  plays buf frame (skipn k W) begun (WTick :: r) =
  and_then (Pin (nth k W false)) (plays buf frame (skipn (S k) W) (busy_at buf (S k)) r).
Proof.
  intros Eb EW. rewrite busy_step, <- EW, <- Eb. cbn [plays]. pose proof (skipn_step W k false) as H.
  destruct (skipn k W) as [|l left]; destruct H as (-> & ->); [|reflexivity].
  cbn [nonempty]. rewrite andb_false_r. reflexivity.
Qed.

Lemma calls_plays cs : forall ws B frame tl k, Forall2 asks cs ws -> Forall (fun v => v < 2 ^ 32) B ->
  B = frame ++ tl ->
  calls (fst (hs_ticks k (started B (length frame)))) cs =
  match plays B frame (skipn k (pin_wave B ++ [false])) (busy_at B k) ws with Some l => Val l | None => Panic end.
Proof.
  induction cs as [|c cs IH]; intros ws B frame tl k F HB EB; inversion F as [|c0 w cs0 ws' Hc F']; subst ws.
  { reflexivity. }
  destruct c as [|e x|], w as [|vs|]; cbn [asks] in Hc; try contradiction; subst.
  - rewrite (plays_step _ _ k _ ws' _ eq_refl eq_refl). cbn [calls].
    set (n := length frame). set (B := frame ++ tl) in *.
    pose proof (level_at B n k HB) as El. pose proof (hs_ticks_snoc k (started B n)) as Es.
    destruct (hs_ticks k (started B n)) as [h1 ls] eqn:E1. cbn [fst] in *.
    destruct (hs_tick h1) as [h2 l]. cbn [snd] in El. rewrite El.
    specialize (IH ws' B frame tl (S k) F' HB eq_refl). fold n in IH. rewrite Es in IH. cbn [fst] in IH. rewrite IH.
    destruct (plays _ _ _ _ ws') as [o|]; reflexivity.
  - destruct Hc as (He & Hv). cbn [calls plays].
    set (n := length frame). set (B := frame ++ tl) in *.
    destruct (status_at B n k HB) as (o & Eo). pose proof (hs_ticks_ptb k (started B n)) as Ep.
    specialize (IH ws'). pose proof (IH B frame tl k F' HB eq_refl) as IHk. fold n in IHk.
    destruct (hs_ticks k (started B n)) as [h1 ls] eqn:E1. cbn [fst] in *.
    destruct (busy_at B k) eqn:Eb.
    + unfold hs_load. rewrite Eo. rewrite <- IHk. reflexivity.
    + assert (Ebuf : pb_buf (ps_ptb (hs_buffer h1)) = B) by (rewrite Ep; reflexivity).
      unfold written in He. destruct (Nat.leb (length vs) (length B)) eqn:EL.
      * specialize (He B). rewrite EL in He. rewrite (hs_load_val e h1 x _ _ Eo (eq_trans (f_equal _ Ebuf) He)).
        cbn [bind]. specialize (IH (vs ++ skipn (length vs) B) vs (skipn (length vs) B) 0%nat F').
        cbn [hs_ticks fst skipn] in IH. change (mkHS 0 _) with (started (vs ++ skipn (length vs) B) (length vs)).
        rewrite IH; [|apply Forall_app; split; [exact Hv|]|reflexivity].
        -- replace (busy_at (vs ++ skipn (length vs) B) 0) with false; [reflexivity|].
           unfold busy_at. destruct (vs ++ _); reflexivity.
        -- rewrite <- (firstn_skipn (length vs)) in HB. apply Forall_app in HB. apply HB.
      * specialize (He B). rewrite EL in He. unfold hs_load. rewrite Eo. unfold ps_load, pb_load, ps_reset, pb_reset.
        cbn [ps_ptb pb_buf pb_offset Nat.leb skipn firstn app]. rewrite Ebuf, He. reflexivity.
  - cbn [calls plays]. pose proof (hs_ticks_ptb k (started (frame ++ tl) (length frame))) as Ep.
    specialize (IH ws' (frame ++ tl) frame tl k F' HB eq_refl).
    destruct (hs_ticks k (started (frame ++ tl) (length frame))) as [h1 ls] eqn:E1. cbn [fst] in *.
    rewrite Ep. unfold pb_buffer, started. cbn [hs_buffer ps_ptb pb_offset pb_buf].
    rewrite (proj2 (Nat.leb_le _ _)) by (rewrite app_length; lia).
    rewrite firstn_app, Nat.sub_diag, firstn_all, firstn_O, app_nil_r. cbn [bind]. rewrite IH.
    destruct (plays _ _ _ _ ws') as [o|]; reflexivity.
Qed.

(** ** C92 *)

(** For a new sender with a buffer of any size and any sequence of calls - ticks, loads of
    any command with any of the encoders at any time, looks at the buffer - the pin levels,
    the buffers returned and the panics are exactly those of [session]. *)
Theorem C92_sender :
  forall S cs ws, Forall2 asks cs ws ->
  calls (hs_new S) cs = match session S ws with Some l => Val l | None => Panic end.
Proof.
  intros S cs ws F.
  pose proof (calls_plays cs ws (repeat 0 S) [] (repeat 0 S) 0%nat F) as H. cbn [hs_ticks fst skipn length app] in H.
  change (started (repeat 0 S) 0) with (hs_new S) in H.
  replace (busy_at (repeat 0 S) 0) with false in H.
  - apply H; [|reflexivity]. apply Forall_forall. intros x Hx. apply repeat_spec in Hx. subst x. reflexivity.
  - unfold busy_at. destruct (repeat 0 S); reflexivity.
Qed.
Print Assumptions C92_sender.

Lemma khz_lt F p : F < 2 ^ 32 -> p <= 9000 -> khz_ticks F p < 2 ^ 31.
Proof.
  intros HF Hp. destruct (N.lt_ge_cases 1000 F) as [H|H]; [apply khz_small; assumption|].
  unfold khz_ticks. rewrite (proj2 (N.leb_le _ _)) by exact H.
  assert (L : F * p <= 1000 * 9000) by (apply N.mul_le_mono; assumption). revert L. generalize (F * p). clear.
  intros x L. apply N.div_lt_upper_bound; [discriminate|]. change (2 ^ 31) with 2147483648. lia.
Qed.

(** The encoders of the crate ask for the frames of C52, C53 and C54. *)
Theorem C92_nec :
  forall F V hm hs, In (V, hm, hs) nec_senders -> F < 2 ^ 32 -> nec_encoder V F <> None ->
  exists enc, nec_encoder V F = Some (mkEncoder (nv_cmd V) enc) /\
    forall c w, nv_pack V c = Val w ->
      asks (CLoad (mkEncoder (nv_cmd V) enc) c) (WSend (nec_buffer (khz_ticks F) hm hs w)).
Proof.
  intros F V hm hs Hin HF He. destruct (C52_nec_encoder F V hm hs Hin He) as (enc & Ee & Hw).
  exists enc. split; [exact Ee|]. intros c w Ep. split; [intros buf; apply (Hw c w buf Ep)|].
  assert (K : forall p, p <= 9000 -> khz_ticks F p < 2 ^ 32).
  { intros p Hp. eapply N.lt_trans; [apply khz_lt; lia|reflexivity]. }
  assert (HT : hm <= 9000 /\ hs <= 9000).
  { unfold nec_senders in Hin. cbn [In] in Hin.
    destruct Hin as [E|[E|[E|[E|[]]]]]; injection E as <- <- <-; lia. }
  unfold nec_buffer. constructor; [reflexivity|]. constructor; [apply K; lia|]. constructor; [apply K; lia|].
  apply Forall_forall. intros x Hx. apply in_flat_map in Hx. destruct Hx as (bit & _ & Hx). cbn [In] in Hx.
  destruct Hx as [<- | [<- | []]]; apply K; destruct bit; lia.
Qed.
Print Assumptions C92_nec.

Lemma rc5_frame_small F a c s t : F < 2 ^ 32 -> a < 2 ^ 5 -> c < 2 ^ 6 ->
  Forall (fun v => v < 2 ^ 32)
    (rc5_buffer (khz_ticks F 889) (c + 2 ^ 6 * a + 2 ^ 11 * (if t : bool then 1 else 0) + 2 ^ 12 * (s mod 2) + 2 ^ 13)).
Proof.
  intros HF Ha Hc.
  set (x := c + 2 ^ 6 * a + 2 ^ 11 * (if t then 1 else 0) + 2 ^ 12 * (s mod 2)).
  assert (Hx : x < 2 ^ 13).
  { unfold x. change (2 ^ 5) with 32 in *. change (2 ^ 6) with 64 in *. change (2 ^ 13) with 8192.
    change (2 ^ 11) with 2048. change (2 ^ 12) with 4096. clear -Ha Hc.
    pose proof (N.mod_lt s 2 ltac:(discriminate)) as M. generalize dependent (s mod 2). intros. destruct t; lia. }
  destruct (C53_rc5_runs (khz_ticks F 889) (x + 2 ^ 13)) as (_ & rest & -> & Hr).
  { replace (x + 2 ^ 13) with (x + 1 * 2 ^ 13) by lia.
    rewrite <- lor_add by exact Hx. rewrite N.lor_spec, N.shiftl_spec_high'; [|lia]. apply orb_true_r. }
  constructor; [reflexivity|]. eapply Forall_impl; [|exact Hr]. cbv beta.
  assert (L : khz_ticks F 889 < 2 ^ 31) by (apply khz_lt; lia).
  clear -L. change (2 ^ 31) with 2147483648 in L. change (2 ^ 32) with 4294967296. intros y [-> | ->]; lia.
Qed.

Theorem C92_rc5 :
  forall b F, F < 2 ^ 32 ->
  exists enc, rc5_encoder b F = Some (mkEncoder rc5_command enc) /\
    forall a c s t, a < 2 ^ 5 -> c < 2 ^ 6 -> s < 2 ^ 2 ->
      asks (CLoad (mkEncoder rc5_command enc) (mkRc5 a c s t))
        (WSend (rc5_buffer (khz_ticks F 889) (c + 2 ^ 6 * a + 2 ^ 11 * (if t then 1 else 0) + 2 ^ 12 * (s mod 2) + 2 ^ 13))).
Proof.
  intros b F HF. destruct (C53_rc5_encoder b F HF) as (enc & Ee & Hw).
  exists enc. split; [exact Ee|]. intros a c s t Ha Hc Hs. split; [intros buf; apply Hw; assumption|].
  apply rc5_frame_small; assumption.
Qed.
Print Assumptions C92_rc5.

Theorem C92_rc6 :
  forall b F, 444 * F < 2 ^ 32 ->
  exists enc, rc6_encoder b F = Some (mkEncoder rc6_command enc) /\
    forall a c t, a < 2 ^ 8 -> c < 2 ^ 8 ->
      asks (CLoad (mkEncoder rc6_command enc) (mkRc6 a c t)) (WSend (rc6_buffer (nominal F 444) t (2 ^ 8 * a + c))).
Proof.
  intros b F HF. destruct (C54_rc6_encoder b F HF) as (enc & Ee & Hw).
  exists enc. split; [exact Ee|]. intros a c t Ha Hc. split; [intros buf; apply (Hw a c t buf Ha Hc)|].
  assert (B : nominal F 444 < 2 ^ 26).
  { unfold nominal. apply N.div_lt_upper_bound; [discriminate|]. change (2 ^ 32) with 4294967296 in HF. change (2 ^ 26) with 67108864. lia. }
  unfold rc6_buffer. clear Hw Ee. generalize dependent (nominal F 444). intros l B.
  assert (G : forall ls c0 n, Forall (fun x : edge => snd x <= n + N.of_nat (length ls)) (level_edges c0 n ls)).
  { clear. induction ls as [|x ls IH]; intros c0 n; cbn [level_edges length]; [constructor|].
    destruct (Bool.eqb x c0).
    - eapply Forall_impl; [|apply IH]. cbv beta. intros y. lia.
    - constructor; [cbn [snd]; lia|]. eapply Forall_impl; [|apply IH]. cbv beta. intros y. lia. }
  specialize (G (rc6_wave t (bits_msb 16 (2 ^ 8 * a + c)) ++ [false]) false 0).
  assert (L : (length (rc6_wave t (bits_msb 16 (2 ^ 8 * a + c)) ++ [false]) <= 60)%nat).
  { rewrite app_length. unfold rc6_wave. rewrite !app_length.
    rewrite (flat_map_const _ 2%nat (bits_msb 16 _)) by (intros []; reflexivity). rewrite bits_msb_length.
    destruct t; cbn [length flat_map rc6_half app]; lia. }
  apply Forall_forall. intros v Hv. apply in_map_iff in Hv. destruct Hv as (y & <- & Hy).
  rewrite Forall_forall in G. specialize (G y Hy). clear -G L B.
  change (2 ^ 26) with 67108864 in B. change (2 ^ 32) with 4294967296. nia.
Qed.
Print Assumptions C92_rc6.

(** RC5 at 2 kHz through a sender with room for 27 entries: a load before the first tick, a
    second one in its place, a third one in the middle of the frame, which is ignored, looks
    at the buffer and a load after the end. *)
Example C92_example :
  let e := mkEncoder rc5_command (rc5_encode (debug_build 32) 1) in
  let load a c := CLoad e (mkRc5 a c 3 false) in
  let send a c := WSend (rc5_buffer 1 (c + 2 ^ 6 * a + 2 ^ 12 + 2 ^ 13)) in
  let cs := [load 1 2; load 20 9] ++ repeat CTick 10 ++ [load 3 4; CLook] ++ repeat CTick 30 ++ [load 3 4] ++ repeat CTick 5 in
  let ws := [send 1 2; send 20 9] ++ repeat WTick 10 ++ [send 3 4; WLook] ++ repeat WTick 30 ++ [send 3 4] ++ repeat WTick 5 in
  rc5_encoder (debug_build 32) 2000 = Some e /\ Forall2 asks cs ws /\
  let l := map Pin [true; false; true; true; false; false; true; true; false; false] ++
    [Entries [0; 1; 1; 2; 2; 2; 2; 2; 1; 1; 1; 1; 1; 1; 2; 2; 1; 1; 2]] ++
    map Pin [true; true; false; true; false; true; false; true; false; false; true; true; false; true; false;
             false; true; false; false; true; true; false; true; false; true; false; true; false; false; false] ++
    map Pin [true; false; true; true; false] in
  calls (hs_new 27) cs = Val l /\ session 27 ws = Some l.
Proof.
  cbv zeta. split; [reflexivity|].
  assert (A : forall a c, a < 2 ^ 5 -> c < 2 ^ 6 ->
    asks (CLoad (mkEncoder rc5_command (rc5_encode (debug_build 32) 1)) (mkRc5 a c 3 false))
      (WSend (rc5_buffer 1 (c + 2 ^ 6 * a + 2 ^ 12 + 2 ^ 13)))).
  { intros a c Ha Hc.
    assert (E : c + 2 ^ 6 * a + 2 ^ 11 * 0 + 2 ^ 12 * (3 mod 2) + 2 ^ 13 = c + 2 ^ 6 * a + 2 ^ 12 + 2 ^ 13).
    { replace (2 ^ 11 * 0) with 0 by reflexivity. replace (2 ^ 12 * (3 mod 2)) with (2 ^ 12) by reflexivity. lia. }
    split.
    - intros buf. cbn [e_encode]. rewrite (rc5_encode_written (debug_build 32) 2000 1 _ _ eq_refl).
      replace (khz_ticks 2000 889) with 1 by reflexivity. f_equal. f_equal.
      rewrite (rc5_pack_layout a c 3 false Ha Hc eq_refl). rewrite <- E.
      change (2 ^ 5) with 32 in *. change (2 ^ 6) with 64 in *. cbn [N.b2n].
      change (2 ^ 11) with 2048. change (2 ^ 12) with 4096. change (2 ^ 13) with 8192. change (3 mod 2) with 1.
      clear -Ha Hc. lia.
    - rewrite <- E. replace 1 with (khz_ticks 2000 889) at 1 by reflexivity.
      exact (rc5_frame_small 2000 a c 3 false eq_refl Ha Hc). }
  split.
  - cbn [repeat app].
    repeat (apply Forall2_cons; [exact I || (apply A; reflexivity)|]). apply Forall2_nil.
  - split; vm_compute; reflexivity.
Qed.
