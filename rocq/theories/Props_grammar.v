(** * Property C88 (and C29): what a pulse-distance receiver reports on any signal whatsoever *)
From Coq Require Import NArith ZArith List Bool Lia ZifyBool ZifyNat ZifyN.
From Verif Require Import Machine Spec Bits Time Decoder Nec Denon Sbp Receiver
  Time_facts Window_facts Codec_facts Run_facts Nec_facts Denon_facts Sbp_facts Example_facts Spec_sound Sound_facts
  Rc5_facts Spec_rate Rate_facts Spec_grammar Grammar_facts Props_sound.
Import ListNotations.
Open Scope N_scope.

(** What the receiver reports for what is heard; [f] builds the command. *)
Definition reports {A E C : Type} (f : A -> option C) (err : E -> decoding_error) (x : heard A E) : outcome C :=
  match x with Nothing => ROk None | Said a => ROk (f a) | Failed e => RErr (err e) end.

Definition nec_word_ok (x : heard (N * bool) unit) : Prop := match x with Said a => fst a < 2 ^ 32 | _ => True end.

Lemma nec_hears_words ps : forall last, last < 2 ^ 32 -> Forall nec_phrase_ok ps -> Forall nec_word_ok (nec_hears last ps).
Proof.
  induction ps as [|p ps IH]; intros last Hl Hp; cbn [nec_hears]; [constructor|].
  apply Forall_cons_iff in Hp. destruct Hp as (Hp & Hps).
  assert (R : forall n, Forall nec_word_ok (repeat Nothing n)) by (intros n; induction n; constructor; cbn; auto).
  destruct p as [w|bits s| |s]; cbn [nec_phrase_ok] in Hp; try apply Forall_app; try split; auto; constructor; cbn [nec_word_ok fst]; auto.
  apply IH; auto. pose proof (val_lsb_lt bits) as B. destruct Hp as (L & _).
  eapply N.lt_le_trans; [exact B|]. apply N.pow_le_mono_r; lia.
Qed.

Lemma at_rises_forall {A E} (P : heard A E -> Prop) h : forall l, P Nothing -> Forall P l -> Forall P (at_rises h l).
Proof.
  induction h as [|[[|] d] h IH]; intros l H0 H; cbn [at_rises]; [constructor| |constructor; auto].
  destruct l as [|x l]; [constructor|]. apply Forall_cons_iff in H. destruct H. constructor; auto.
Qed.

Lemma map_ext_forall {A B} (f g : A -> B) (P : A -> Prop) l : (forall x, P x -> f x = g x) -> Forall P l -> map f l = map g l.
Proof. intros H F. induction F as [|x l Hx F IH]; cbn [map]; [reflexivity|]. rewrite (H x Hx), IH. reflexivity. Qed.

Lemma nec_grammar b m freq V C (into : nv_cmd V -> C) (f : N * bool -> option C) h ps rest :
  timebase m freq -> 893 <= freq /\ exact_rate m freq -> nec_timing_ok (nv_timing V) ->
  (forall w rep, w < 2 ^ 32 -> option_map into (nv_unpack V w rep) = f (w, rep)) ->
  periods_fit h -> nec_reading freq (header_high (nv_timing V) + header_low (nv_timing V)) (header_high (nv_timing V) + repeat_low (nv_timing V)) h ps rest ->
  exists r0 r, receiver_new (nec_protocol b m V) freq = Val r0 /\
    run_edges (D := nec_dec b m V) into r0 h =
      Val (r, map (reports f (fun _ => EData)) (at_rises h (nec_hears 0 ps ++ repeat Nothing (length rest)))).
Proof.
  intros Hm (Hlo & Hhi) HT Hf Hfit R.
  destruct (nec_hears_all b m freq V Hm Hlo Hhi HT into h ps rest Hfit R) as (r0 & r & E0 & E).
  exists r0, r. split; [exact E0|]. etransitivity; [exact E|]. do 2 f_equal.
  apply (map_ext_forall _ _ nec_word_ok).
  - intros [|[w rep]|[]] Hx; cbn [nec_outcome outcome_of reports fst snd] in *; try reflexivity. f_equal. apply Hf. exact Hx.
  - apply at_rises_forall; [exact I|]. apply Forall_app. split; [apply nec_hears_words; [reflexivity|apply R]|].
    generalize (length rest). intros n. induction n; cbn [repeat]; constructor; [exact I|assumption].
Qed.

Theorem C88_nec :
  forall b m freq C (into : nec_command -> C) h,
  timebase m freq -> 893 <= freq /\ exact_rate m freq -> periods_fit h ->
  (exists ps rest, nec_reading freq 13500 11250 h ps rest) /\
  forall ps rest, nec_reading freq 13500 11250 h ps rest ->
  exists r0 r, receiver_new (nec_protocol b m NecStandard) freq = Val r0 /\
    run_edges (D := nec_dec b m NecStandard) into r0 h =
      Val (r, map (reports (fun '(w, rep) => Some (into (mkNec (field w 0 8) (field w 16 8) rep))) (fun _ => EData))
                  (at_rises h (nec_hears 0 ps ++ repeat Nothing (length rest)))).
Proof.
  intros b m freq C into h Hm Hf Hfit. split; [apply nec_reading_some|]. intros ps rest R.
  apply (nec_grammar b m freq NecStandard C into); auto; [left; reflexivity|]. intros w rep Hw. cbn [nv_unpack NecStandard].
  rewrite nec_unpack_word by exact Hw. reflexivity.
Qed.
Print Assumptions C88_nec.

Theorem C88_nec16 :
  forall b m freq C (into : nec16_command -> C) h,
  timebase m freq -> 893 <= freq /\ exact_rate m freq -> periods_fit h ->
  (exists ps rest, nec_reading freq 13500 11250 h ps rest) /\
  forall ps rest, nec_reading freq 13500 11250 h ps rest ->
  exists r0 r, receiver_new (nec_protocol b m Nec16Bit) freq = Val r0 /\
    run_edges (D := nec_dec b m Nec16Bit) into r0 h =
      Val (r, map (reports (fun '(w, rep) => Some (into (mkNec16 (field w 0 16) (field w 16 8) rep))) (fun _ => EData))
                  (at_rises h (nec_hears 0 ps ++ repeat Nothing (length rest)))).
Proof.
  intros b m freq C into h Hm Hf Hfit. split; [apply nec_reading_some|]. intros ps rest R.
  apply (nec_grammar b m freq Nec16Bit C into); auto; [left; reflexivity|]. intros w rep Hw. cbn [nv_unpack Nec16Bit].
  rewrite nec16_unpack_word by exact Hw. reflexivity.
Qed.
Print Assumptions C88_nec16.

Theorem C88_raw :
  forall b m freq C (into : nec_debug_cmd -> C) h,
  timebase m freq -> 893 <= freq /\ exact_rate m freq -> periods_fit h ->
  (exists ps rest, nec_reading freq 13500 11250 h ps rest) /\
  forall ps rest, nec_reading freq 13500 11250 h ps rest ->
  exists r0 r, receiver_new (nec_protocol b m NecRaw) freq = Val r0 /\
    run_edges (D := nec_dec b m NecRaw) into r0 h =
      Val (r, map (reports (fun '(w, _) => Some (into (mkNecDebug w))) (fun _ => EData))
                  (at_rises h (nec_hears 0 ps ++ repeat Nothing (length rest)))).
Proof.
  intros b m freq C into h Hm Hf Hfit. split; [apply nec_reading_some|]. intros ps rest R.
  apply (nec_grammar b m freq NecRaw C into); auto. left. reflexivity.
Qed.
Print Assumptions C88_raw.

Theorem C88_samsung :
  forall b m freq C (into : samsung_command -> C) h,
  timebase m freq -> 893 <= freq /\ exact_rate m freq -> periods_fit h ->
  (exists ps rest, nec_reading freq 9000 6750 h ps rest) /\
  forall ps rest, nec_reading freq 9000 6750 h ps rest ->
  exists r0 r, receiver_new (nec_protocol b m NecSamsung) freq = Val r0 /\
    run_edges (D := nec_dec b m NecSamsung) into r0 h =
      Val (r, map (reports (fun '(w, rep) => Some (into (mkSamsung (field w 0 8) (field w 16 8) rep))) (fun _ => EData))
                  (at_rises h (nec_hears 0 ps ++ repeat Nothing (length rest)))).
Proof.
  intros b m freq C into h Hm Hf Hfit. split; [apply nec_reading_some|]. intros ps rest R.
  apply (nec_grammar b m freq NecSamsung C into); auto; [right; reflexivity|]. intros w rep Hw. cbn [nv_unpack NecSamsung].
  rewrite samsung_unpack_word by exact Hw. reflexivity.
Qed.
Print Assumptions C88_samsung.

(** Apple frames with a wrong vendor or parity are passed over without a report. *)
Theorem C88_apple :
  forall b m freq C (into : apple_command -> C) h,
  timebase m freq -> 893 <= freq /\ exact_rate m freq -> periods_fit h ->
  (exists ps rest, nec_reading freq 13500 11250 h ps rest) /\
  forall ps rest, nec_reading freq 13500 11250 h ps rest ->
  exists r0 r, receiver_new (nec_protocol b m NecApple) freq = Val r0 /\
    run_edges (D := nec_dec b m NecApple) into r0 h =
      Val (r, map (reports (fun '(w, rep) =>
                      if (field w 5 11 =? 1087) && Nat.odd (ones (bits_lsb 32 w))
                      then Some (into (mkApple (field w 0 5) (field w 17 7) (field w 24 8) rep)) else None) (fun _ => EData))
                  (at_rises h (nec_hears 0 ps ++ repeat Nothing (length rest)))).
Proof.
  intros b m freq C into h Hm Hf Hfit. split; [apply nec_reading_some|]. intros ps rest R.
  apply (nec_grammar b m freq NecApple C into); auto; [left; reflexivity|]. intros w rep Hw. cbn [nv_unpack NecApple].
  destruct (apple_unpack w rep) as [c|] eqn:E.
  - apply apple_unpack_char in E; [|exact Hw]. destruct E as (E1 & E2 & ->). rewrite E1, E2. reflexivity.
  - destruct (N.eqb_spec (field w 5 11) 1087) as [E1|E1]; [|reflexivity]. cbn [andb].
    destruct (Nat.odd (ones (bits_lsb 32 w))) eqn:E2; [|reflexivity].
    assert (Q : apple_unpack w rep = Some (mkApple (field w 0 5) (field w 17 7) (field w 24 8) rep)) by (apply apple_unpack_char; auto).
    rewrite E in Q. discriminate Q.
Qed.
Print Assumptions C88_apple.

Theorem C88_denon :
  forall b m freq C (into : denon_command -> C) h,
  timebase m freq -> 1191 <= freq /\ exact_rate m freq -> periods_fit h ->
  (exists ps rest, denon_reading freq h ps rest) /\
  forall ps rest, denon_reading freq h ps rest ->
  exists r0 r, receiver_new (denon_protocol b m) freq = Val r0 /\
    run_edges (D := denon_dec b m) into r0 h =
      Val (r, map (reports (fun bits => Some (into (mkDenon bits))) (fun _ => EData))
                  (at_rises h (denon_hears 0 ps ++ repeat Nothing (length rest)))).
Proof.
  intros b m freq C into h Hm (Hlo & Hhi) Hfit. split; [apply denon_reading_some|]. intros ps rest R.
  exact (denon_hears_all b m freq Hm Hlo Hhi into h ps rest Hfit R).
Qed.
Print Assumptions C88_denon.

Lemma sbp_reports_words {C} (into : sbp_command -> C) h ps n : Forall sbp_phrase_ok ps ->
  map (sbp_outcome into) (at_rises h (sbp_hears ps ++ repeat Nothing n)) =
  map (reports (fun '(a, c) => Some (into (mkSbp a (field c 4 8) (field c 12 8 =? compl8 (field c 4 8)))))
               (fun in_address : bool => if in_address then EAddress else EData))
      (at_rises h (sbp_hears ps ++ repeat Nothing n)).
Proof.
  intros R. apply (map_ext_forall _ _ (fun x : heard (N * N) bool => match x with Said a => fst a < 2 ^ 16 /\ snd a < 2 ^ 20 | _ => True end)).
  - intros [|[a c]|x] Hx; cbn [sbp_outcome outcome_of reports fst snd] in *; try reflexivity.
    rewrite sbp_unpack_char by apply Hx. reflexivity.
  - apply at_rises_forall; [exact I|]. assert (Rn : forall n, Forall (fun x : heard (N * N) bool => match x with Said a => fst a < 2 ^ 16 /\ snd a < 2 ^ 20 | _ => True end) (repeat Nothing n))
      by (intros k; induction k; constructor; auto).
    apply Forall_app. split; [|apply Rn]. unfold sbp_hears. induction R as [|p ps Hp R IH]; cbn [flat_map]; [constructor|].
    apply Forall_app. split; [|exact IH]. destruct p as [a c|bits s|a s|a bits s|s]; cbn [sbp_hears1 sbp_phrase_ok] in *; try apply Forall_app; try split; auto; repeat constructor; cbn [fst snd].
    + destruct Hp as (L & _). pose proof (val_lsb_lt a) as B. rewrite L in B. exact B.
    + destruct Hp as (_ & L). pose proof (val_lsb_lt c) as B. rewrite L in B. exact B.
Qed.

(** The flag of the command tells whether the inverted command byte matches. *)
Theorem C88_sbp :
  forall b m freq C (into : sbp_command -> C) h,
  timebase m freq -> 1000 <= freq /\ exact_rate m freq -> no_double_rise h -> periods_fit h ->
  (exists ps rest, sbp_reading freq h ps rest) /\
  forall ps rest, sbp_reading freq h ps rest ->
  exists r0 r, receiver_new (sbp_protocol b m) freq = Val r0 /\
    run_edges (D := sbp_dec b m) into r0 h =
      Val (r, map (reports (fun '(a, c) => Some (into (mkSbp a (field c 4 8) (field c 12 8 =? compl8 (field c 4 8)))))
                           (fun in_address : bool => if in_address then EAddress else EData))
                  (at_rises h (sbp_hears ps ++ repeat Nothing (length rest)))).
Proof.
  intros b m freq C into h Hm (Hlo & Hhi) Hn Hfit. split; [apply sbp_reading_some|]. intros ps rest R.
  destruct (sbp_hears_all b m freq Hm Hlo Hhi into h ps rest Hfit Hn R) as (r0 & r & E0 & E).
  exists r0, r. split; [exact E0|]. etransitivity; [exact E|]. do 2 f_equal. apply sbp_reports_words, R.
Qed.
Print Assumptions C88_sbp.

(** Signals in which rising edges may follow each other. *)
Theorem C88_sbp_any :
  forall b m freq C (into : sbp_command -> C) h,
  timebase m freq -> 1000 <= freq /\ exact_rate m freq -> short h ->
  (exists ps rest, sbp_reading_any freq h ps rest) /\
  forall ps rest, sbp_reading_any freq h ps rest ->
  exists r0 r, receiver_new (sbp_protocol b m) freq = Val r0 /\
    run_edges (D := sbp_dec b m) into r0 h =
      Val (r, map (reports (fun '(a, c) => Some (into (mkSbp a (field c 4 8) (field c 12 8 =? compl8 (field c 4 8)))))
                           (fun in_address : bool => if in_address then EAddress else EData))
                  (at_rises h (sbp_hears ps ++ repeat Nothing (length rest)))).
Proof.
  intros b m freq C into h Hm (Hlo & Hhi) Hs. split; [apply sbp_reading_any_some|]. intros ps rest R.
  destruct (sbp_hears_any b m freq Hm Hlo Hhi into h ps rest Hs R) as (r0 & r & E0 & E).
  exists r0, r. split; [exact E0|]. etransitivity; [exact E|]. do 2 f_equal. apply sbp_reports_words, R.
Qed.
Print Assumptions C88_sbp_any.

(** A concrete case at 40 kHz: a frame that breaks off after two bits with a repeat code,
    another repeat code and noise; the repeat code after the broken frame is reported as
    a command with the two bits. *)
Ltac fits := cbv zeta; unfold periods_fit;
  match goal with |- Forall _ ?l => let l' := eval vm_compute in l in change l with l' end;
  repeat (apply Forall_cons; [reflexivity|]); apply Forall_nil.
Definition example_pairs (ps : list N) : list edge := flat_map (fun p => [(false, p / 2); (true, p - p / 2)]) ps.
Example C88_nec_example :
  let h := (true, 4000) :: example_pairs [540; 90; 45; 450; 450; 700] in
  let ps := [NecNoise Other; NecBroken [true; false] Again; NecAgain; NecNoise Other] in
  periods_fit h /\ nec_reading 40000 13500 11250 h ps [] /\
  outcomes (nec_protocol (debug_build 32) MU32 NecStandard) 40000 h =
    Some (repeat (ROk None) 8 ++ [RErr EData; ROk None; ROk (Some (mkNec 1 0 true)); ROk None; ROk None]).
Proof.
  split; [fits|]. split; [|vm_compute; reflexivity].
  split; [repeat constructor; discriminate|]. split; [left; reflexivity|].
  change (periods _) with [4000; 540; 90; 45; 450; 450; 700]. cbn [flat_map nec_signs app map bit_of].
  repeat (apply Forall2_cons; [unfold nec_says, near, nominal; vm_compute; intuition discriminate|]). apply Forall2_nil.
Qed.

(** The same at 1 MHz, a rate that plain timestamps convert exactly. *)
Example C88_nec_example_mhz :
  let h := (true, 100000) :: example_pairs [13500; 2250; 1125; 11250; 11250; 17500] in
  let ps := [NecNoise Other; NecBroken [true; false] Again; NecAgain; NecNoise Other] in
  exact_rate MU32 1000000 /\ periods_fit h /\ nec_reading 1000000 13500 11250 h ps [] /\
  outcomes (nec_protocol (debug_build 32) MU32 NecStandard) 1000000 h =
    Some (repeat (ROk None) 8 ++ [RErr EData; ROk None; ROk (Some (mkNec 1 0 true)); ROk None; ROk None]).
Proof.
  split; [exact (exact_mhz MU32 1 ltac:(lia))|]. split; [fits|]. split; [|vm_compute; reflexivity].
  split; [repeat constructor; discriminate|]. split; [left; reflexivity|].
  change (periods _) with [100000; 13500; 2250; 1125; 11250; 11250; 17500]. cbn [flat_map nec_signs app map bit_of].
  repeat (apply Forall2_cons; [unfold nec_says, near, nominal; vm_compute; intuition discriminate|]). apply Forall2_nil.
Qed.

(** Two Denon frames that break off leave their bits in the next complete frame. *)
Example C88_denon_example :
  let h := (true, 4000) :: example_pairs ([200; 67; 34; 300; 200] ++ repeat 34 48) in
  let ps := [DnNoise DnOther; DnBroken [true; false] DnOther; DnFrame (repeat false 48)] in
  periods_fit h /\ denon_reading 40000 h ps [] /\
  outcomes (denon_protocol (debug_build 32) MU32) 40000 h = Some (repeat (ROk None) 106 ++ [ROk (Some (mkDenon 1))]).
Proof.
  split; [fits|]. split; [|vm_compute; reflexivity].
  split; [repeat constructor; discriminate|]. split; [left; reflexivity|].
  change (periods _) with ([4000; 200; 67; 34; 300; 200] ++ repeat 34 48). cbn [flat_map denon_signs app map bit_of repeat].
  repeat (apply Forall2_cons; [unfold denon_says, near, nominal; vm_compute; intuition discriminate|]). apply Forall2_nil.
Qed.

Example C88_sbp_example :
  let h := (true, 4000) :: example_pairs ([360; 80; 80; 360; 360] ++ repeat 40 16 ++ [360]) in
  let ps := [SbNoise SbOther; SbBrokenAddress [true; true] SbHeader; SbBrokenPause (repeat false 16) SbHeader] in
  periods_fit h /\ no_double_rise h /\ sbp_reading 40000 h ps [] /\
  outcomes (sbp_protocol (debug_build 32) MU32) 40000 h =
    Some (repeat (ROk None) 8 ++ [RErr EAddress] ++ repeat (ROk None) 35 ++ [RErr EData]).
Proof.
  split; [fits|]. split; [vm_compute; exact I|]. split; [|vm_compute; reflexivity].
  split; [repeat constructor; discriminate|]. split; [left; reflexivity|].
  change (periods _) with ([4000; 360; 80; 80; 360; 360] ++ repeat 40 16 ++ [360]). cbn [flat_map sbp_signs sbp_bits app map bit_of repeat].
  repeat (apply Forall2_cons; [unfold sbp_says, near, nominal; vm_compute; intuition discriminate|]). apply Forall2_nil.
Qed.

(** The sixth edge comes 20 ticks after the fifth, both rising; with the mark of 20 ticks
    before them it is a zero bit.  After the failure the mark no longer counts. *)
Example C88_sbp_any_example :
  let h := [(true, 4000); (false, 180); (true, 180); (false, 20); (true, 20); (true, 20); (true, 340); (true, 360)] in
  let ps := [SbNoise SbOther; SbBrokenAddress [false; false] SbHeader] in
  short h /\ ~ no_double_rise h /\ sbp_reading_any 40000 h ps [SbHeader] /\
  outcomes (sbp_protocol (debug_build 32) MU32) 40000 h =
    Some (repeat (ROk None) 6 ++ [RErr EAddress; ROk None]).
Proof.
  split; [apply shortb_ok; reflexivity|]. split; [cbn; tauto|]. split; [|vm_compute; reflexivity].
  split; [repeat constructor; discriminate|]. split; [right; left; exists []; split; [reflexivity|cbn; lia]|].
  match goal with |- Forall2 _ ?a ?l => let a' := eval vm_compute in a in let l' := eval vm_compute in l in change a with a'; change l with l' end.
  repeat (apply Forall2_cons; [unfold sbp_says, near, nominal; vm_compute; intuition discriminate|]). apply Forall2_nil.
Qed.

(** ** C29: exactly what a repeat code is reported as *)

Lemma nec_hears_app ps : forall last qs, nec_hears last (ps ++ qs) = nec_hears last ps ++ nec_hears (nec_left last ps) qs.
Proof.
  induction ps as [|p ps IH]; intros last qs; cbn [app nec_hears nec_left]; [reflexivity|].
  destruct p; rewrite IH; rewrite <- ?app_assoc; reflexivity.
Qed.
Lemma nec_hears_length ps : forall last, Forall nec_phrase_ok ps -> length (nec_hears last ps) = length (flat_map nec_signs ps).
Proof.
  induction ps as [|p ps IH]; intros last H; cbn [nec_hears flat_map]; [reflexivity|]. apply Forall_cons_iff in H. destruct H as (Hp & H).
  destruct p; cbn [nec_signs]; rewrite ?app_length; cbn [length app]; rewrite ?app_length, ?repeat_length, ?map_length, ?bits_lsb_length, IH by exact H; cbn [length]; lia.
Qed.
Lemma at_rises_snoc {A E} h d : forall sv (l : list (heard A E)) x, length l = length (periods_from sv h) ->
  at_rises (h ++ [(true, d)]) (l ++ [x]) = at_rises h l ++ [x] /\ length (at_rises h l) = length h.
Proof.
  induction h as [|[[|] e] h IH]; intros sv l x L; cbn [periods_from length] in L.
  - destruct l; [|discriminate L]. split; reflexivity.
  - destruct l as [|y l]; [discriminate L|]. cbn [app at_rises length]. destruct (IH 0 l x) as (-> & ->); [cbn in L; lia|]. split; reflexivity.
  - cbn [app at_rises length]. destruct (IH e l x L) as (-> & ->). split; reflexivity.
Qed.
Lemma periods_snoc_length h d : forall sv, length (periods_from sv (h ++ [(true, d)])) = S (length (periods_from sv h)).
Proof. induction h as [|[[|] e] h IH]; intros sv; cbn [app periods_from length]; [reflexivity|rewrite IH; reflexivity|apply IH]. Qed.

Lemma nec_again freq hdr rep h d ps : nec_reading freq hdr rep (h ++ [(true, d)]) (ps ++ [NecAgain]) [] ->
  exists os, at_rises (h ++ [(true, d)]) (nec_hears 0 (ps ++ [NecAgain]) ++ repeat Nothing (@length nec_sign [])) =
    os ++ [Said (nec_left 0 ps, true)] /\ length os = length h.
Proof.
  intros (H1 & _ & H3). apply Forall_app in H1. destruct H1 as (H1 & _). cbn [length repeat]. rewrite app_nil_r, nec_hears_app. cbn [nec_hears].
  assert (L := Rc5_facts.forall2_length _ _ _ H3). rewrite app_nil_r, flat_map_app, app_length in L. cbn [flat_map nec_signs app length] in L.
  unfold periods in L. rewrite periods_snoc_length in L.
  destruct (at_rises_snoc h d 0 (nec_hears 0 ps) (Said (nec_left 0 ps, true))) as (E & EL); [rewrite nec_hears_length by exact H1; lia|].
  exists (at_rises h (nec_hears 0 ps)). auto.
Qed.

(** In any signal: a repeat code is reported with the word of the last frame that was begun,
    complete or not, or with the word 0 if there was none. *)
Theorem C29_nec_exact_partial :
  forall b m freq C (into : nec_command -> C) h d ps,
  timebase m freq -> 893 <= freq /\ exact_rate m freq -> periods_fit (h ++ [(true, d)]) ->
  nec_reading freq 13500 11250 (h ++ [(true, d)]) (ps ++ [NecAgain]) [] ->
  let w := nec_left 0 ps in
  exists r0 r os, receiver_new (nec_protocol b m NecStandard) freq = Val r0 /\
    run_edges (D := nec_dec b m NecStandard) into r0 (h ++ [(true, d)]) = Val (r, os ++ [ROk (Some (into (mkNec (field w 0 8) (field w 16 8) true)))]) /\
    length os = length h.
Proof.
  intros b m freq C into h d ps Hm Hf Hfit R. destruct (C88_nec b m freq C into _ Hm Hf Hfit) as (_ & K).
  destruct (K _ _ R) as (r0 & r & E0 & E). destruct (nec_again _ _ _ _ _ _ R) as (os & Eo & L). rewrite Eo, map_app in E.
  exists r0, r. eexists. split; [exact E0|]. split; [exact E|]. rewrite map_length. exact L.
Qed.
Print Assumptions C29_nec_exact_partial.

Theorem C29_nec16_exact_partial :
  forall b m freq C (into : nec16_command -> C) h d ps,
  timebase m freq -> 893 <= freq /\ exact_rate m freq -> periods_fit (h ++ [(true, d)]) ->
  nec_reading freq 13500 11250 (h ++ [(true, d)]) (ps ++ [NecAgain]) [] ->
  let w := nec_left 0 ps in
  exists r0 r os, receiver_new (nec_protocol b m Nec16Bit) freq = Val r0 /\
    run_edges (D := nec_dec b m Nec16Bit) into r0 (h ++ [(true, d)]) = Val (r, os ++ [ROk (Some (into (mkNec16 (field w 0 16) (field w 16 8) true)))]) /\
    length os = length h.
Proof.
  intros b m freq C into h d ps Hm Hf Hfit R. destruct (C88_nec16 b m freq C into _ Hm Hf Hfit) as (_ & K).
  destruct (K _ _ R) as (r0 & r & E0 & E). destruct (nec_again _ _ _ _ _ _ R) as (os & Eo & L). rewrite Eo, map_app in E.
  exists r0, r. eexists. split; [exact E0|]. split; [exact E|]. rewrite map_length. exact L.
Qed.
Print Assumptions C29_nec16_exact_partial.

Theorem C29_samsung_exact_partial :
  forall b m freq C (into : samsung_command -> C) h d ps,
  timebase m freq -> 893 <= freq /\ exact_rate m freq -> periods_fit (h ++ [(true, d)]) ->
  nec_reading freq 9000 6750 (h ++ [(true, d)]) (ps ++ [NecAgain]) [] ->
  let w := nec_left 0 ps in
  exists r0 r os, receiver_new (nec_protocol b m NecSamsung) freq = Val r0 /\
    run_edges (D := nec_dec b m NecSamsung) into r0 (h ++ [(true, d)]) = Val (r, os ++ [ROk (Some (into (mkSamsung (field w 0 8) (field w 16 8) true)))]) /\
    length os = length h.
Proof.
  intros b m freq C into h d ps Hm Hf Hfit R. destruct (C88_samsung b m freq C into _ Hm Hf Hfit) as (_ & K).
  destruct (K _ _ R) as (r0 & r & E0 & E). destruct (nec_again _ _ _ _ _ _ R) as (os & Eo & L). rewrite Eo, map_app in E.
  exists r0, r. eexists. split; [exact E0|]. split; [exact E|]. rewrite map_length. exact L.
Qed.
Print Assumptions C29_samsung_exact_partial.

Theorem C29_apple_exact_partial :
  forall b m freq C (into : apple_command -> C) h d ps,
  timebase m freq -> 893 <= freq /\ exact_rate m freq -> periods_fit (h ++ [(true, d)]) ->
  nec_reading freq 13500 11250 (h ++ [(true, d)]) (ps ++ [NecAgain]) [] ->
  let w := nec_left 0 ps in
  exists r0 r os, receiver_new (nec_protocol b m NecApple) freq = Val r0 /\
    run_edges (D := nec_dec b m NecApple) into r0 (h ++ [(true, d)]) = Val (r, os ++ [ROk (if (field w 5 11 =? 1087) && Nat.odd (ones (bits_lsb 32 w)) then Some (into (mkApple (field w 0 5) (field w 17 7) (field w 24 8) true)) else None)]) /\
    length os = length h.
Proof.
  intros b m freq C into h d ps Hm Hf Hfit R. destruct (C88_apple b m freq C into _ Hm Hf Hfit) as (_ & K).
  destruct (K _ _ R) as (r0 & r & E0 & E). destruct (nec_again _ _ _ _ _ _ R) as (os & Eo & L). rewrite Eo, map_app in E.
  exists r0, r. eexists. split; [exact E0|]. split; [exact E|]. rewrite map_length. exact L.
Qed.
Print Assumptions C29_apple_exact_partial.

(** The broken frame of [C88_nec_example]: its repeat code is reported with its two bits. *)
Example C29_exact_example :
  let h := (true, 4000) :: example_pairs [540; 90; 45; 450] ++ [(false, 360)] in
  let ps := [NecNoise Other; NecBroken [true; false] Again] in
  periods_fit (h ++ [(true, 90)]) /\ nec_reading 40000 13500 11250 (h ++ [(true, 90)]) (ps ++ [NecAgain]) [] /\ nec_left 0 ps = 1.
Proof.
  split; [fits|]. split; [|vm_compute; reflexivity].
  split; [repeat constructor; discriminate|]. split; [left; reflexivity|].
  change (periods _) with [4000; 540; 90; 45; 450; 450]. cbn [flat_map nec_signs app map bit_of].
  repeat (apply Forall2_cons; [unfold nec_says, near, nominal; vm_compute; intuition discriminate|]). apply Forall2_nil.
Qed.
