(** * Property C36: exactly how long a finished biphase decoder stays finished *)
From Coq Require Import NArith ZArith List Bool Lia ZifyBool ZifyNat ZifyN.
From Verif Require Import Machine Spec Spec_receiver Spec_state Bits Time Decoder Rc5 Rc6 Receiver
  Time_facts Window_facts Codec_facts Run_facts State_facts Example_facts Spec_sound Sound_facts
  Rc5_facts Rc6_facts Spec_rate Rate_facts Spec_biread Biread_facts Props_state.
Import ListNotations.
Open Scope N_scope.

Section resume.
  Context (D : decoder) (Q : dst D -> Prop) (s : state) (c : option (dcmd D)) (d0 : dst D) (ok bad : edge -> Prop).
  Hypothesis either : forall x, ok x \/ bad x.
  Hypothesis stays : forall d x d' s', Q d -> ok x -> d_event D d (fst x) (snd x) = Val (d', s') -> Q d' /\ s' = s.
  Hypothesis anew : forall d x, Q d -> bad x -> d_event D d (fst x) (snd x) = d_event D d0 (fst x) (snd x).
  Hypothesis says : forall d, Q d -> d_command D d = c.
  Lemma feed_resume h : forall d d' ss, Q d -> feed D d h = Val (d', ss) ->
    (Forall ok h /\ ss = repeat s (length h) /\ d_command D d' = c) \/
    (exists l x h' ss', h = l ++ x :: h' /\ Forall ok l /\ bad x /\ ss = repeat s (length l) ++ ss' /\ feed D d0 (x :: h') = Val (d', ss')).
  Proof.
    induction h as [|x h IH]; intros d d' ss Hq E.
    - cbn in E. inversion E; subst. left. auto.
    - destruct (either x) as [Ho|Hb].
      + unfold feed in E. cbn [run_res] in E. destruct (d_event D d (fst x) (snd x)) as [[d1 s1]| |] eqn:E1; cbn [bind] in E; try discriminate.
        destruct (stays _ _ _ _ Hq Ho E1) as (Hq1 & ->).
        destruct (run_res _ d1 h) as [[d2 ss2]| |] eqn:E2; cbn [bind] in E; try discriminate. inversion E; subst.
        destruct (IH d1 d' ss2 Hq1 E2) as [(A1 & A2 & A3)|(l & y & h' & ss' & A1 & A2 & A3 & A4 & A5)].
        * left. split; [constructor; auto|]. split; [cbn; congruence|exact A3].
        * right. exists (x :: l), y, h', ss'. subst. split; [reflexivity|]. split; [constructor; auto|]. auto.
      + right. exists [], x, h, ss. split; [reflexivity|]. split; [constructor|]. split; [exact Hb|]. split; [reflexivity|].
        unfold feed in *. cbn [run_res] in *. rewrite <- (anew _ _ Hq Hb). exact E.
  Qed.
End resume.

(** After [Done] (or an error) an RC5 decoder reports that state, and keeps its command, for as
    long as the intervals can be counted.  From the first interval on that cannot it is a new one. *)
Theorem C36_rc5_exact_partial : forall b m freq d s h d' ss,
  timebase m freq -> exact_rate m freq -> 8 <= usize_bits b ->
  reached (rc5_protocol b m) freq d s -> finished s -> feed (rc5_dec b) d h = Val (d', ss) ->
  (Forall (fun x => exists n, rc5_counts freq n (snd x)) h /\
     ss = repeat s (length h) /\ d_command (rc5_dec b) d' = d_command (rc5_dec b) d) \/
  (exists l x h' ss' d0, h = l ++ x :: h' /\ Forall (fun x => exists n, rc5_counts freq n (snd x)) l /\
     rc5_uncounted freq (snd x) /\ ss = repeat s (length l) ++ ss' /\
     p_build (rc5_protocol b m) freq = Val d0 /\ feed (rc5_dec b) d0 (x :: h') = Val (d', ss')).
Proof.
  intros b m freq d s h d' ss Hm Hhi Hu H (F1 & F2) E. apply rc5_reached in H. destruct H as (_ & Es & Ep).
  assert (Hf : freq < M32) by exact (exact_rate_lt m freq Hhi). pose proof Ep as Ep0.
  rewrite pulse_spans_val in Ep by auto using rc5_ok. apply val_inj in Ep.
  assert (B : p_build (rc5_protocol b m) freq = Val (rc5_reset d)).
  { cbn [p_build rc5_protocol]. unfold rc5_build. rewrite Ep0. reflexivity. }
  destruct (feed_resume (rc5_dec b) (fun x => r5_state x = r5_state d /\ r5_bitbuf x = r5_bitbuf d /\ r5_spans x = r5_spans d) s
    (d_command (rc5_dec b) d) (rc5_reset d) (fun x => exists n, rc5_counts freq n (snd x)) (fun x => rc5_uncounted freq (snd x))) with (h := h) (d := d) (d' := d') (ss := ss)
    as [A|(l & x & h' & ss' & A1 & A2 & A3 & A4 & A5)]; auto.
  - intros x. apply rc5_dec_counts.
  - intros x [e dt] x' s' (Q1 & Q2 & Q3) (n & Hd) Ex. cbn [fst snd d_event rc5_dec] in *.
    destruct (rc5_count_get b m freq Hm Hhi Hu n dt Hd) as (_ & G).
    unfold rc5_event in Ex. rewrite Q3, <- Ep, G in Ex.
    destruct (uadd _ _ (n - 1) 1); cbn [bind] in Ex; try discriminate.
    destruct (uadd _ _ _ _); cbn [bind r5_state r5_clock r5_bitbuf r5_spans] in Ex; try discriminate.
    rewrite Q1, Q2 in Ex.
    destruct (r5_state d); cbn [rc5_to_state] in Es; try congruence; cbn [rc5_transition bind] in Ex;
      injection Ex as <- <-; cbn [r5_state r5_bitbuf r5_spans rc5_to_state]; auto.
  - intros x [e dt] (Q1 & Q2 & Q3) Hd. cbn [fst snd d_event rc5_dec] in *. pose proof (rc5_uncounted_get m freq Hm Hhi dt Hd) as G.
    unfold rc5_event, rc5_reset. cbn [r5_spans r5_state r5_clock r5_bitbuf]. rewrite Q3, <- Ep, G. reflexivity.
  - intros x (Q1 & Q2 & Q3). cbn [d_command rc5_dec]. unfold rc5_command_of. rewrite Q2. reflexivity.
  - right. exists l, x, h', ss', (rc5_reset d). auto 10.
Qed.
Print Assumptions C36_rc5_exact_partial.

(** The same for RC6; after the interval that cannot be counted it is like one that was reset
    ([reset] keeps the toggle bit, which the next frame overwrites). *)
Theorem C36_rc6_exact_partial : forall b m freq d s h d' ss,
  timebase m freq -> exact_rate m freq -> 8 <= usize_bits b ->
  reached (rc6_protocol b m) freq d s -> finished s -> feed (rc6_dec b) d h = Val (d', ss) ->
  (Forall (fun x => exists n, rc6_counts freq n (snd x)) h /\
     ss = repeat s (length h) /\ d_command (rc6_dec b) d' = d_command (rc6_dec b) d) \/
  (exists l x h' ss', h = l ++ x :: h' /\ Forall (fun x => exists n, rc6_counts freq n (snd x)) l /\
     rc6_uncounted freq (snd x) /\ ss = repeat s (length l) ++ ss' /\
     feed (rc6_dec b) (d_reset (rc6_dec b) d) (x :: h') = Val (d', ss')).
Proof.
  intros b m freq d s h d' ss Hm Hhi Hu H (F1 & F2) E. apply rc6_reached in H. destruct H as (_ & Es & Ep).
  assert (Hf : freq < M32) by exact (exact_rate_lt m freq Hhi).
  rewrite pulse_spans_val in Ep by auto using rc6_ok. apply val_inj in Ep.
  apply (feed_resume (rc6_dec b) (fun x => r6_state x = r6_state d /\ r6_data x = r6_data d /\ r6_toggle x = r6_toggle d /\ r6_spans x = r6_spans d) s
    (d_command (rc6_dec b) d) (rc6_reset d) (fun x => exists n, rc6_counts freq n (snd x)) (fun x => rc6_uncounted freq (snd x))) with (h := h) (d := d); auto.
  - intros x. apply rc6_dec_counts.
  - intros x [e dt] x' s' (Q1 & Q2 & Q3 & Q4) (n & Hd) Ex. cbn [fst snd d_event rc6_dec] in *.
    destruct (rc6_count_get b m freq Hm Hhi Hu n dt Hd) as (_ & G).
    unfold rc6_event in Ex. rewrite Q4, <- Ep, G in Ex.
    destruct (uadd _ _ (n - 1) 1); cbn [bind] in Ex; try discriminate.
    destruct (uadd _ _ _ _); cbn [bind r6_clock] in Ex; try discriminate.
    unfold rc6_transition in Ex. cbn [r6_state r6_data r6_headerdata r6_toggle r6_clock r6_spans] in Ex. rewrite Q1, Q2, Q3 in Ex.
    destruct (r6_state d); cbn [rc6_to_state] in Es; try congruence; cbn [bind r6_state] in Ex;
      injection Ex as <- <-; cbn [r6_state r6_data r6_toggle r6_spans rc6_to_state]; auto.
  - intros x [e dt] (Q1 & Q2 & Q3 & Q4) Hd. cbn [fst snd d_event rc6_dec] in *. pose proof (rc6_uncounted_get m freq Hm Hhi dt Hd) as G.
    unfold rc6_event, rc6_reset. cbn [r6_spans r6_state r6_clock r6_data r6_headerdata r6_toggle]. rewrite Q3, Q4, <- Ep, G. reflexivity.
  - intros x (Q1 & Q2 & Q3 & Q4). cbn [d_command rc6_dec]. unfold rc6_command_of. rewrite Q2, Q3. reflexivity.
Qed.
Print Assumptions C36_rc6_exact_partial.

(** A finished decoder, two intervals that can be counted, one that cannot, another frame. *)
Example C36_exact_example :
  timebase MU32 1000000 /\ exact_rate MU32 1000000 /\
  feed_states (rc5_protocol (debug_build 32) MU32) 1000000 (rc5_word_edges 12289) = Some (repeat Receiving 24 ++ [Done]) /\
  feed_states (rc5_protocol (debug_build 32) MU32) 1000000 (rc5_word_edges 12289 ++ [(false, 889); (true, 1778); (false, 5000); (true, 50000)]) =
    Some (repeat Receiving 24 ++ [Done; Done; Done; Idle; Receiving]).
Proof.
  split; [repeat split; auto|]. split; [repeat split; auto|]. split; vm_compute; reflexivity.
Qed.
