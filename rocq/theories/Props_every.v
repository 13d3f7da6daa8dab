(** * Property C91: what a receiver for several protocols reports on any signal whatsoever *)
From Coq Require Import NArith ZArith List Bool Lia ZifyBool ZifyNat ZifyN.
From Verif Require Import Machine Spec Spec_receiver Bits Time Decoder Nec Rc5 Rc6 Denon Sbp Receiver
  Time_facts Run_facts Codec_facts Receiver_facts Nec_facts Denon_facts Sbp_facts Example_facts Spec_sound Sound_facts Cross_facts Spec_rate Rate_facts
  Props_decode Props_receiver Spec_grammar Grammar_facts Props_grammar Spec_biread Biread_facts Props_biread Props_unique Props_stretch Props_anywhere.
Import ListNotations.
Open Scope N_scope.
Ltac Zify.zify_post_hook ::= Z.div_mod_to_equations.

(** The protocols of the crate that can be part of a [MultiReceiver]. *)
Inductive kind := KNec | KSamsung | KApple | KRc5 | KRc6 | KDenon | KSbp.
Definition of_kind (b : build) (m : mono) (k : kind) : any_protocol_ :=
  match k with
  | KNec => mkAnyP (nec_protocol b m NecStandard) (any_from nec_ac)
  | KSamsung => mkAnyP (nec_protocol b m NecSamsung) (any_from samsung_ac)
  | KApple => mkAnyP (nec_protocol b m NecApple) (any_from apple_ac)
  | KRc5 => mkAnyP (rc5_protocol b m) (any_from rc5_ac)
  | KRc6 => mkAnyP (rc6_protocol b m) (any_from rc6_ac)
  | KDenon => mkAnyP (denon_protocol b m) denon_any
  | KSbp => mkAnyP (sbp_protocol b m) (any_from sbp_ac)
  end.

(** What each of them makes of a signal, edge by edge, in terms of the readings of C88 and C89. *)
Definition said {A E} (f : A -> option any_command) (x : heard A E) : option any_command :=
  match x with Said a => f a | _ => None end.
Definition nec_column (freq hdr rep : N) (h : list edge) (f : N * bool -> option any_command) (col : list (option any_command)) : Prop :=
  exists ps rest, nec_reading freq hdr rep h ps rest /\
    col = map (said f) (at_rises h (nec_hears 0 ps ++ repeat Nothing (length rest))).
Definition column (freq : N) (h : list edge) (k : kind) (col : list (option any_command)) : Prop :=
  match k with
  | KNec => nec_column freq 13500 11250 h (fun '(w, rep) => Some (mkAny PNec 0 (field w 0 8) (field w 16 8) rep)) col
  | KSamsung => nec_column freq 9000 6750 h (fun '(w, rep) => Some (mkAny PNecSamsung 0 (field w 0 8) (field w 16 8) rep)) col
  | KApple => nec_column freq 13500 11250 h (fun '(w, rep) =>
      if (field w 5 11 =? 1087) && Nat.odd (ones (bits_lsb 32 w))
      then Some (mkAny PNecApple 0 0 (field w 17 7 + 128 * field w 0 1) rep) else None) col
  | KDenon => exists ps rest, denon_reading freq h ps rest /\
      col = map (said (fun bits => Some (mkAny PDenon bits 0 0 false))) (at_rises h (denon_hears 0 ps ++ repeat Nothing (length rest)))
  | KSbp => exists ps rest, sbp_reading_any freq h ps rest /\
      col = map (said (fun '(a, c) => Some (mkAny PSbp 0 a (field c 4 8) false))) (at_rises h (sbp_hears ps ++ repeat Nothing (length rest)))
  | KRc5 => exists os, rc5_reads freq h os /\
      col = map (fun o => match o with
                          | Some (_ :: toggle :: rest) => Some (mkAny PRc5 0 (val_msb (firstn 5 rest)) (val_msb (skipn 5 rest)) toggle)
                          | _ => None end) os
  | KRc6 => exists os, rc6_reads freq h os /\
      col = map (option_map (fun '(toggle, bits) => mkAny PRc6 0 (val_msb (firstn 8 bits)) (val_msb (skipn 8 bits)) toggle)) os
  end.

(** What a single receiver's results become in the row of a multi receiver. *)
Definition shown (p : any_protocol_) (o : outcome (dcmd (p_dec (ap_proto p)))) : option any_command :=
  match o with ROk (Some c) => Some (ap_into p c) | _ => None end.

Lemma apple_any w : N.lor (as_u8 (N.shiftl (field w 0 5) 7)) (field w 17 7) = field w 17 7 + 128 * field w 0 1.
Proof.
  assert (H : field w 17 7 < 2 ^ 7) by (unfold field; pows; lia).
  replace (as_u8 (N.shiftl (field w 0 5) 7)) with (N.shiftl (field w 0 1) 7).
  - rewrite N.lor_comm, lor_add by (pows; lia). pows. lia.
  - unfold as_u8, field. rewrite !shiftl_mul. pows. lia.
Qed.

Section Column.
  Variables (b : build) (m : mono) (freq : N) (h : list edge).
  Hypotheses (Hm : timebase m freq) (Hlo : 1191 <= freq) (Hf : exact_rate m freq) (Hu : 8 <= usize_bits b) (Hs : short h).
  Hypothesis (Hst : overflow_checks b = false \/
    stretches_below (rc5_counts freq) (2 ^ usize_bits b) h /\ stretches_below (rc6_counts freq) (2 ^ usize_bits b) h).

  Lemma column_some k : exists col, column freq h k col.
  Proof.
    destruct k; cbn [column]; unfold nec_column.
    1-3: edestruct (nec_reading_some freq) as (ps & rest & R); eexists; exists ps, rest; split; [exact R|reflexivity].
    - destruct (rc5_reads_some freq h) as (os & R). eauto.
    - destruct (rc6_reads_some freq h) as (os & R). eauto.
    - destruct (denon_reading_some freq h) as (ps & rest & R). eauto 6.
    - destruct (sbp_reading_any_some freq h) as (ps & rest & R). eauto 6.
  Qed.

  Lemma column_shown k col : column freq h k col ->
    let p := of_kind b m k in
    exists r0 r os, receiver_new (ap_proto p) freq = Val r0 /\ run_edges (fun c => c) r0 h = Val (r, os) /\ map (shown p) os = col.
  Proof.
    pose proof (short_fits h Hs) as Hfit.
    assert (H893 : 893 <= freq /\ exact_rate m freq) by (split; [lia|exact Hf]).
    destruct k; cbn [column of_kind ap_proto]; unfold nec_column.
    - intros (ps & rest & R & ->). destruct (proj2 (C88_nec b m freq _ (fun c => c) h Hm H893 Hfit) ps rest R) as (r0 & r & E0 & E).
      exists r0, r. eexists. split; [exact E0|]. split; [exact E|]. rewrite map_map. apply map_ext. intros [|[w rep]|[]]; reflexivity.
    - intros (ps & rest & R & ->). destruct (proj2 (C88_samsung b m freq _ (fun c => c) h Hm H893 Hfit) ps rest R) as (r0 & r & E0 & E).
      exists r0, r. eexists. split; [exact E0|]. split; [exact E|]. rewrite map_map. apply map_ext. intros [|[w rep]|[]]; reflexivity.
    - intros (ps & rest & R & ->). destruct (proj2 (C88_apple b m freq _ (fun c => c) h Hm H893 Hfit) ps rest R) as (r0 & r & E0 & E).
      exists r0, r. eexists. split; [exact E0|]. split; [exact E|]. rewrite map_map. apply (map_ext_forall _ _ nec_word_ok).
      + intros [|[w rep]|[]] Hx; try reflexivity. cbn [reports said shown ap_into].
        destruct ((field w 5 11 =? 1087) && Nat.odd (ones (bits_lsb 32 w))); [|reflexivity]. unfold any_from.
        cbn [apple_ac ac_id ac_address ac_command ac_is_repeat apl_command apl_page apl_repeat]. rewrite apple_any. reflexivity.
      + apply at_rises_forall; [exact I|]. apply Forall_app. split; [apply nec_hears_words; [reflexivity|apply R]|].
        generalize (length rest). intros n. induction n; cbn [repeat]; constructor; [exact I|assumption].
    - intros (os & R & ->). destruct (C89_rc5_long b m freq _ (fun c => c) h os Hm Hf Hu ltac:(tauto) R) as (r0 & r & E0 & E).
      exists r0, r. eexists. split; [exact E0|]. split; [exact E|]. rewrite map_map. apply map_ext. intros [[|s [|t rest]]|]; reflexivity.
    - intros (os & R & ->). destruct (C89_rc6_long b m freq _ (fun c => c) h os Hm Hf Hu ltac:(tauto) R) as (r0 & r & E0 & E).
      exists r0, r. eexists. split; [exact E0|]. split; [exact E|]. rewrite map_map. apply map_ext. intros [[t bits]|]; reflexivity.
    - intros (ps & rest & R & ->). destruct (proj2 (C88_denon b m freq _ (fun c => c) h Hm (conj Hlo Hf) Hfit) ps rest R) as (r0 & r & E0 & E).
      exists r0, r. eexists. split; [exact E0|]. split; [exact E|]. rewrite map_map. apply map_ext. intros [|bits|[]]; reflexivity.
    - intros (ps & rest & R & ->). destruct (proj2 (C88_sbp_any b m freq _ (fun c => c) h Hm ltac:(split; [lia|exact Hf]) Hs) ps rest R) as (r0 & r & E0 & E).
      exists r0, r. eexists. split; [exact E0|]. split; [exact E|]. rewrite map_map. apply map_ext. intros [|[a c]|e]; reflexivity.
  Qed.

  Lemma multi_made ks : exists ss, multi_make (map (of_kind b m) ks) freq = Val ss.
  Proof.
    induction ks as [|k ks (ss & IH)]; cbn [map multi_make]; [eauto|]. destruct (column_some k) as (col & Hc).
    destruct (column_shown k col Hc) as (r0 & _ & _ & E0 & _). rewrite E0. cbn [bind]. rewrite IH. cbn [bind]. eauto.
  Qed.
End Column.

(** For any selection of protocols (also with one of them more than once) and any signal: no
    call panics, each call gives one entry per protocol, and the entries of a protocol are those
    that the reading of the signal by this protocol gives.  Errors of a protocol appear as no entry. *)
Theorem C91_multi :
  forall b m freq ks h,
  timebase m freq -> 1191 <= freq /\ exact_rate m freq -> 8 <= usize_bits b -> short h ->
  overflow_checks b = false \/
    stretches_below (rc5_counts freq) (2 ^ usize_bits b) h /\ stretches_below (rc6_counts freq) (2 ^ usize_bits b) h ->
  exists ss ss' rows, multi_make (map (of_kind b m) ks) freq = Val ss /\ run_multi ss h = Val (ss', rows) /\
    length rows = length h /\ Forall (fun row => length row = length ks) rows /\
    forall i k, nth_error ks i = Some k ->
      (exists col, column freq h k col) /\
      forall col, column freq h k col -> map (fun row => nth_error row i) rows = map Some col.
Proof.
  intros b m freq ks h Hm (Hlo & Hf) Hu Hs Hst.
  destruct (multi_made b m freq h Hm Hlo Hf Hu Hs Hst ks) as (ss & Es).
  assert (NP : forall p r0, In p (map (of_kind b m) ks) -> receiver_new (ap_proto p) freq = Val r0 ->
     exists r os, run_edges (fun c => c) r0 h = Val (r, os)).
  { intros p r0 Hp E0. apply in_map_iff in Hp. destruct Hp as (k & <- & _). destruct (column_some freq h k) as (col & Hc).
    destruct (column_shown b m freq h Hm Hlo Hf Hu Hs Hst k col Hc) as (r0' & r & os & E0' & E & _). rewrite E0 in E0'. injection E0' as <-. eauto. }
  destruct (C49_multi_no_panic _ _ _ h Es NP) as (ss' & rows & Er).
  destruct (C49_multi_independent _ _ _ _ _ _ Es Er) as (L & Hcol).
  exists ss, ss', rows. split; [exact Es|]. split; [exact Er|]. split; [|split].
  - clear - Er. revert ss ss' rows Er. induction h as [|[e d] h IH]; intros ss ss' rows Er; cbn [run_multi] in Er; [injection Er as _ <-; reflexivity|].
    destruct (multi_event ss d e) as [[s1 o]| |]; cbn [bind] in Er; try discriminate.
    destruct (run_multi s1 h) as [[s2 os]| |] eqn:E; cbn [bind] in Er; try discriminate. injection Er as _ <-. cbn [length]. f_equal. eauto.
  - rewrite map_length in L. exact L.
  - intros i k Hk. split; [apply column_some|]. intros col Hc.
    destruct (Hcol i (of_kind b m k)) as (r0 & r & os & E0 & E & Ec); [rewrite nth_error_map, Hk; reflexivity|]. rewrite Ec.
    destruct (column_shown b m freq h Hm Hlo Hf Hu Hs Hst k col Hc) as (r0' & r' & os' & E0' & E' & <-).
    rewrite E0 in E0'. injection E0' as <-. rewrite E in E'. injection E' as _ <-. rewrite map_map. reflexivity.
Qed.
Print Assumptions C91_multi.

(** At 40 kHz, all seven protocols: a NEC frame that breaks off after two bits, a repeat code
    (for which the NEC part reports a command with the two bits), noise. *)
Definition all_kinds : list kind := [KRc5; KNec; KSamsung; KApple; KRc6; KDenon; KSbp].
Definition multi_flat (b : build) (m : mono) (freq : N) (ks : list kind) (h : list edge) : option (list (list any_command)) :=
  match (let* ss := multi_make (map (of_kind b m) ks) freq in run_multi ss h) with Val (_, rows) => Some (map flatten_opts rows) | _ => None end.
Example C91_example :
  let h := (true, 4000) :: example_pairs [540; 90; 45; 450; 450; 700] in
  short h /\ stretches_below (rc5_counts 40000) (2 ^ 16) h /\ stretches_below (rc6_counts 40000) (2 ^ 16) h /\
  column 40000 h KNec (repeat None 10 ++ [Some (mkAny PNec 0 1 0 true); None; None]) /\
  multi_flat (debug_build 16) MU32 40000 all_kinds h = Some (repeat [] 10 ++ [[mkAny PNec 0 1 0 true]; []; []]).
Proof.
  split; [apply shortb_ok; reflexivity|].
  split; [apply stretches_short; [apply rc5_counts_8|reflexivity]|]. split; [apply stretches_short; [apply rc6_counts_8|reflexivity]|].
  split; [|vm_compute; reflexivity]. exists [NecNoise Other; NecBroken [true; false] Again; NecAgain; NecNoise Other], [].
  split; [apply C88_nec_example|]. vm_compute. reflexivity.
Qed.
