(** * C94: frames in a row, with any pauses between them *)
From Coq Require Import NArith ZArith List Bool Lia ZifyBool ZifyNat ZifyN.
From Verif Require Import Machine Bits Time Decoder Nec Rc5 Rc6 Sbp Denon Receiver Time_facts Window_facts Run_facts Nec_facts Rc5_facts Rc6_facts
  Codec_facts Example_facts Props_receiver Rate_facts Spec Spec_rate Spec_sound Spec_grammar Spec_biread Grammar_facts Biread_facts Roundtrip_facts Props_decode Props_grammar Spec_pauses.
Import ListNotations.
Open Scope N_scope.
Ltac Zify.zify_post_hook ::= Z.div_mod_to_equations.

(** The outcomes that are not "nothing yet". *)
Definition loud {C} (os : list (outcome C)) : list (outcome C) :=
  filter (fun o => match o with ROk None => false | _ => true end) os.

(** ** Lengths of a row *)

Lemma periods_pair_edges ps r : periods_from 0 (pair_edges ps ++ r) = map (fun p => fst p + snd p) ps ++ periods_from 0 r.
Proof. induction ps as [|[a c] ps IH]; [reflexivity|]. cbn [pair_edges app periods_from map fst snd]. rewrite IH. reflexivity. Qed.

Lemma periods_row l : periods (row l) = flat_map (fun s => silence s :: lengths s) l.
Proof.
  unfold periods, row. induction l as [|s l IH]; [reflexivity|]. cbn [flat_map]. rewrite <- IH. unfold shot_edges, silence, lengths.
  destruct (s_mark s) as [a|]; cbn [app periods_from]; rewrite periods_pair_edges; reflexivity.
Qed.

Lemma news_app {A E} (l k : list (heard A E)) : news (l ++ k) = news l ++ news k.
Proof. induction l as [|[|a|e] l IH]; cbn [app news]; rewrite ?IH; reflexivity. Qed.
Lemma news_quiet {A E} n : news (repeat (@Nothing A E) n) = [].
Proof. induction n; [reflexivity|exact IHn]. Qed.

Lemma news_at_rises {A E} h : forall (hs : list (heard A E)) sv, length hs = length (periods_from sv h) -> news (at_rises h hs) = news hs.
Proof.
  induction h as [|[[|] d] h IH]; intros hs sv L; cbn [periods_from at_rises length] in *.
  - destruct hs; [reflexivity|discriminate L].
  - destruct hs as [|o hs]; [discriminate L|]. injection L as L. cbn [news]. rewrite (IH hs 0 L). reflexivity.
  - cbn [news]. exact (IH hs d L).
Qed.

Lemma loud_news {A E C} (f : A -> option C) (g : E -> decoding_error) l :
  loud (map (reports f g) l) = loud (map (reports f g) (news l)).
Proof. unfold loud. induction l as [|[|a|e] l IH]; [reflexivity| | |]; cbn [map filter reports news]; rewrite IH; reflexivity. Qed.
Lemma loud_mapped {A E C} (f : A -> option C) (g : E -> decoding_error) l : (forall a, exists c, f a = Some c) ->
  loud (map (reports f g) l) = map (reports f g) (news l).
Proof.
  intros H. unfold loud. induction l as [|[|a|e] l IH]; [reflexivity| | |]; cbn [map filter reports news]; rewrite <- IH; try reflexivity.
  destruct (H a) as (c & ->). reflexivity.
Qed.

Lemma forall2_app_more {A B} (R : A -> B -> Prop) l1 l2 k1 k2 : Forall2 R l1 k1 -> Forall2 R l2 k2 -> Forall2 R (l1 ++ l2) (k1 ++ k2).
Proof. intros H. induction H; cbn [app]; auto. Qed.

(** ** NEC *)

Lemma nec_bits_signs bs : flat_map nec_signs (map (fun x : bool => NecNoise (bit_of Zero One x)) bs) = map (bit_of Zero One) bs.
Proof. induction bs as [|x bs IH]; [reflexivity|]. cbn [map flat_map nec_signs app]. rewrite IH. reflexivity. Qed.
Lemma nec_bits_hears last bs r : news (nec_hears last (map (fun x : bool => NecNoise (bit_of Zero One x)) bs ++ r)) = news (nec_hears last r).
Proof. induction bs as [|x bs IH]; [reflexivity|exact IH]. Qed.

Lemma nec_row_reading freq header again last l os : nec_row freq header again last l os -> Forall (nec_shot freq header again) l ->
  exists ps, Forall nec_phrase_ok ps /\
    Forall2 (nec_says freq header again) (flat_map nec_signs ps) (flat_map (fun x => silence (fst x) :: lengths (fst x)) l) /\
    news (nec_hears last ps) = os.
Proof.
  induction 1 as [last|last s w r os H R IH|last s w r os H R IH|last s w r os H1 H2 R IH]; intros HF.
  - exists []. repeat split; constructor.
  - apply Forall_cons_iff in HF. destruct HF as ((Hw & Hb) & HF). cbn [fst snd] in *. destruct (IH HF) as (ps & P1 & P2 & P3).
    exists (NecBroken [] Header :: map (fun x : bool => NecNoise (bit_of Zero One x)) (bits_lsb 32 w) ++ ps). split; [|split].
    + constructor; [split; [cbn; lia|split; discriminate]|]. apply Forall_app. split; [|exact P1].
      apply Forall_forall. intros p Hp. apply in_map_iff in Hp. destruct Hp as (x & <- & _). destruct x; split; discriminate.
    + cbn [nec_signs] in Hb. inversion Hb as [|? h0 ? bs Hh Hbs E1 E2]; subst.
      cbn [flat_map nec_signs map app fst]. rewrite <- E2. cbn [app]. constructor; [exact H|]. constructor; [exact Hh|].
      rewrite flat_map_app, nec_bits_signs. apply forall2_app_more; assumption.
    + cbn [nec_hears length repeat app news]. f_equal. change (val_lsb []) with 0. rewrite nec_bits_hears. exact P3.
  - apply Forall_cons_iff in HF. destruct HF as ((Hw & Hb) & HF). cbn [fst snd] in *. destruct (IH HF) as (ps & P1 & P2 & P3).
    exists (NecAgain :: NecFrame w :: ps). split; [|split].
    + repeat (constructor; [assumption || exact I|]). exact P1.
    + change (flat_map nec_signs (NecAgain :: NecFrame w :: ps)) with (Again :: nec_signs (NecFrame w) ++ flat_map nec_signs ps).
      cbn [flat_map fst app]. constructor; [exact H|]. apply forall2_app_more; assumption.
    + cbn [nec_hears news]. rewrite news_app, news_quiet. cbn [app news]. rewrite P3. reflexivity.
  - apply Forall_cons_iff in HF. destruct HF as ((Hw & Hb) & HF). cbn [fst snd] in *. destruct (IH HF) as (ps & P1 & P2 & P3).
    destruct (nec_says_some freq header again (silence s)) as (g & Hg).
    exists (NecNoise g :: NecFrame w :: ps). split; [|split].
    + constructor; [split; intros ->; [exact (H1 Hg)|exact (H2 Hg)]|]. constructor; assumption.
    + change (flat_map nec_signs (NecNoise g :: NecFrame w :: ps)) with (g :: nec_signs (NecFrame w) ++ flat_map nec_signs ps).
      cbn [flat_map fst app]. constructor; [exact Hg|]. apply forall2_app_more; assumption.
    + cbn [nec_hears news]. rewrite news_app, news_quiet. cbn [app news]. rewrite P3. reflexivity.
Qed.

Lemma nec_row_some freq header again l : forall last, exists os, nec_row freq header again last l os.
Proof.
  induction l as [|[s w] l IH]; intros last; [eexists; constructor|].
  destruct (near_dec freq header 7 (silence s)) as [H|H]; [destruct (IH 0) as (os & R); eexists; apply NecRowLost; eassumption|].
  destruct (IH w) as (os & R).
  destruct (near_dec freq again 7 (silence s)) as [H2|H2]; [eexists; apply NecRowAgain; eassumption|eexists; apply NecRowFine; eassumption].
Qed.

Lemma flat_map_fst {A B C} (f : A -> list C) (l : list (A * B)) : flat_map f (map fst l) = flat_map (fun x => f (fst x)) l.
Proof. induction l as [|x l IH]; [reflexivity|]. cbn [map flat_map]. rewrite IH. reflexivity. Qed.

Lemma nec_row_reads freq header again l os : nec_row freq header again 0 l os -> Forall (nec_shot freq header again) l ->
  exists ps, nec_reading freq header again (row (map fst l)) ps [] /\
    news (at_rises (row (map fst l)) (nec_hears 0 ps ++ repeat Nothing (@length nec_sign []))) = os.
Proof.
  intros R HF. destruct (nec_row_reading _ _ _ _ _ _ R HF) as (ps & P1 & P2 & P3). exists ps.
  assert (Ep : periods (row (map fst l)) = flat_map (fun x : shot * N => silence (fst x) :: lengths (fst x)) l)
    by (rewrite periods_row, flat_map_fst; reflexivity).
  split; [split; [exact P1|]; split; [left; reflexivity|]; rewrite app_nil_r, Ep; exact P2|].
  cbn [length repeat]. rewrite app_nil_r. rewrite (news_at_rises _ _ 0); [exact P3|].
  fold (periods (row (map fst l))). rewrite Ep, nec_hears_length by exact P1. exact (forall2_length _ _ _ P2).
Qed.

Lemma nec_row_clear freq header again l : forall last, Forall (fun x => nec_clear freq header again (fst x)) l ->
  nec_row freq header again last l (map (fun x => Said (snd x, false)) l).
Proof.
  induction l as [|[s w] l IH]; intros last H; [constructor|]. apply Forall_cons_iff in H. destruct H as ((H1 & H2) & H).
  cbn [map snd]. apply NecRowFine; auto.
Qed.

(** The last step for each member of the family. *)
Ltac by_nec X R HF :=
  let ps := fresh "ps" in let Rd := fresh "Rd" in let En := fresh "En" in
  destruct (nec_row_reads _ _ _ _ _ R HF) as (ps & Rd & En);
  destruct (X ps [] Rd) as (r0 & r & E0 & E);
  exists r0, r; eexists; split; [exact E0|]; split; [exact E|];
  rewrite <- En.

Theorem C94_nec :
  forall b m freq C (into : nec_command -> C) l,
  timebase m freq -> 893 <= freq /\ exact_rate m freq -> periods_fit (row (map fst l)) -> Forall (nec_shot freq 13500 11250) l ->
  (exists ns, nec_row freq 13500 11250 0 l ns) /\
  (Forall (fun x => nec_clear freq 13500 11250 (fst x)) l -> nec_row freq 13500 11250 0 l (map (fun x => Said (snd x, false)) l)) /\
  forall ns, nec_row freq 13500 11250 0 l ns ->
  exists r0 r os, receiver_new (nec_protocol b m NecStandard) freq = Val r0 /\
    run_edges (D := nec_dec b m NecStandard) into r0 (row (map fst l)) = Val (r, os) /\
    loud os = map (reports (fun '(w, rep) => Some (into (mkNec (field w 0 8) (field w 16 8) rep))) (fun _ => EData)) ns.
Proof.
  intros b m freq C into l Hm Hf Hfit HF. split; [apply nec_row_some|]. split; [apply nec_row_clear|]. intros ns R.
  destruct (C88_nec b m freq C into _ Hm Hf Hfit) as (_ & X). by_nec X R HF.
  apply loud_mapped. intros [w rep]. eexists. reflexivity.
Qed.
Print Assumptions C94_nec.

Theorem C94_nec16 :
  forall b m freq C (into : nec16_command -> C) l,
  timebase m freq -> 893 <= freq /\ exact_rate m freq -> periods_fit (row (map fst l)) -> Forall (nec_shot freq 13500 11250) l ->
  (exists ns, nec_row freq 13500 11250 0 l ns) /\
  (Forall (fun x => nec_clear freq 13500 11250 (fst x)) l -> nec_row freq 13500 11250 0 l (map (fun x => Said (snd x, false)) l)) /\
  forall ns, nec_row freq 13500 11250 0 l ns ->
  exists r0 r os, receiver_new (nec_protocol b m Nec16Bit) freq = Val r0 /\
    run_edges (D := nec_dec b m Nec16Bit) into r0 (row (map fst l)) = Val (r, os) /\
    loud os = map (reports (fun '(w, rep) => Some (into (mkNec16 (field w 0 16) (field w 16 8) rep))) (fun _ => EData)) ns.
Proof.
  intros b m freq C into l Hm Hf Hfit HF. split; [apply nec_row_some|]. split; [apply nec_row_clear|]. intros ns R.
  destruct (C88_nec16 b m freq C into _ Hm Hf Hfit) as (_ & X). by_nec X R HF.
  apply loud_mapped. intros [w rep]. eexists. reflexivity.
Qed.
Print Assumptions C94_nec16.

Theorem C94_raw :
  forall b m freq C (into : nec_debug_cmd -> C) l,
  timebase m freq -> 893 <= freq /\ exact_rate m freq -> periods_fit (row (map fst l)) -> Forall (nec_shot freq 13500 11250) l ->
  (exists ns, nec_row freq 13500 11250 0 l ns) /\
  (Forall (fun x => nec_clear freq 13500 11250 (fst x)) l -> nec_row freq 13500 11250 0 l (map (fun x => Said (snd x, false)) l)) /\
  forall ns, nec_row freq 13500 11250 0 l ns ->
  exists r0 r os, receiver_new (nec_protocol b m NecRaw) freq = Val r0 /\
    run_edges (D := nec_dec b m NecRaw) into r0 (row (map fst l)) = Val (r, os) /\
    loud os = map (reports (fun '(w, _) => Some (into (mkNecDebug w))) (fun _ => EData)) ns.
Proof.
  intros b m freq C into l Hm Hf Hfit HF. split; [apply nec_row_some|]. split; [apply nec_row_clear|]. intros ns R.
  destruct (C88_raw b m freq C into _ Hm Hf Hfit) as (_ & X). by_nec X R HF.
  apply loud_mapped. intros [w rep]. eexists. reflexivity.
Qed.
Print Assumptions C94_raw.

Theorem C94_samsung :
  forall b m freq C (into : samsung_command -> C) l,
  timebase m freq -> 893 <= freq /\ exact_rate m freq -> periods_fit (row (map fst l)) -> Forall (nec_shot freq 9000 6750) l ->
  (exists ns, nec_row freq 9000 6750 0 l ns) /\
  (Forall (fun x => nec_clear freq 9000 6750 (fst x)) l -> nec_row freq 9000 6750 0 l (map (fun x => Said (snd x, false)) l)) /\
  forall ns, nec_row freq 9000 6750 0 l ns ->
  exists r0 r os, receiver_new (nec_protocol b m NecSamsung) freq = Val r0 /\
    run_edges (D := nec_dec b m NecSamsung) into r0 (row (map fst l)) = Val (r, os) /\
    loud os = map (reports (fun '(w, rep) => Some (into (mkSamsung (field w 0 8) (field w 16 8) rep))) (fun _ => EData)) ns.
Proof.
  intros b m freq C into l Hm Hf Hfit HF. split; [apply nec_row_some|]. split; [apply nec_row_clear|]. intros ns R.
  destruct (C88_samsung b m freq C into _ Hm Hf Hfit) as (_ & X). by_nec X R HF.
  apply loud_mapped. intros [w rep]. eexists. reflexivity.
Qed.
Print Assumptions C94_samsung.

(** An Apple receiver passes over words that are not an Apple remote control's. *)
Theorem C94_apple :
  forall b m freq C (into : apple_command -> C) l,
  timebase m freq -> 893 <= freq /\ exact_rate m freq -> periods_fit (row (map fst l)) -> Forall (nec_shot freq 13500 11250) l ->
  (exists ns, nec_row freq 13500 11250 0 l ns) /\
  (Forall (fun x => nec_clear freq 13500 11250 (fst x)) l -> nec_row freq 13500 11250 0 l (map (fun x => Said (snd x, false)) l)) /\
  forall ns, nec_row freq 13500 11250 0 l ns ->
  exists r0 r os, receiver_new (nec_protocol b m NecApple) freq = Val r0 /\
    run_edges (D := nec_dec b m NecApple) into r0 (row (map fst l)) = Val (r, os) /\
    loud os = loud (map (reports (fun '(w, rep) =>
                      if (field w 5 11 =? 1087) && Nat.odd (ones (bits_lsb 32 w))
                      then Some (into (mkApple (field w 0 5) (field w 17 7) (field w 24 8) rep)) else None) (fun _ => EData)) ns).
Proof.
  intros b m freq C into l Hm Hf Hfit HF. split; [apply nec_row_some|]. split; [apply nec_row_clear|]. intros ns R.
  destruct (C88_apple b m freq C into _ Hm Hf Hfit) as (_ & X). by_nec X R HF.
  apply loud_news.
Qed.
Print Assumptions C94_apple.

(** ** Denon *)

Lemma denon_bits_signs bs : flat_map denon_signs (map (fun x : bool => DnNoise (bit_of DnZero DnOne x)) bs) = map (bit_of DnZero DnOne) bs.
Proof. induction bs as [|x bs IH]; [reflexivity|]. cbn [map flat_map denon_signs app]. rewrite IH. reflexivity. Qed.
Lemma denon_bits_hears carry bs r : news (denon_hears carry (map (fun x : bool => DnNoise (bit_of DnZero DnOne x)) bs ++ r)) = news (denon_hears carry r).
Proof. induction bs as [|x bs IH]; [reflexivity|exact IH]. Qed.

Lemma denon_row_reading freq l os : denon_row freq l os -> Forall (denon_shot freq) l ->
  exists ps, Forall denon_phrase_ok ps /\
    Forall2 (denon_says freq) (flat_map denon_signs ps) (flat_map (fun x => silence (fst x) :: lengths (fst x)) l) /\
    news (denon_hears 0 ps) = os.
Proof.
  induction 1 as [|s w r os H R IH|s w r os H1 R IH]; intros HF.
  - exists []. repeat split; constructor.
  - apply Forall_cons_iff in HF. destruct HF as ((Hw & Hb) & HF). cbn [fst snd] in *. destruct (IH HF) as (ps & P1 & P2 & P3).
    exists (DnBroken [] DnSync :: map (fun x : bool => DnNoise (bit_of DnZero DnOne x)) w ++ ps). split; [|split].
    + constructor; [split; [cbn; lia|split; discriminate]|]. apply Forall_app. split; [|exact P1].
      apply Forall_forall. intros p Hp. apply in_map_iff in Hp. destruct Hp as (x & <- & _). destruct x; discriminate.
    + cbn [denon_signs] in Hb. inversion Hb as [|? h0 ? bs Hh Hbs E1 E2]; subst.
      cbn [flat_map denon_signs map app fst]. rewrite <- E2. cbn [app]. constructor; [exact H|]. constructor; [exact Hh|].
      rewrite flat_map_app, denon_bits_signs. apply forall2_app_more; assumption.
    + cbn [denon_hears length repeat app news]. change (N.lor 0 (val_lsb [])) with 0. rewrite denon_bits_hears. exact P3.
  - apply Forall_cons_iff in HF. destruct HF as ((Hw & Hb) & HF). cbn [fst snd] in *. destruct (IH HF) as (ps & P1 & P2 & P3).
    destruct (denon_says_some freq (silence s)) as (g & Hg).
    exists (DnNoise g :: DnFrame w :: ps). split; [|split].
    + constructor; [intros ->; exact (H1 Hg)|]. constructor; assumption.
    + change (flat_map denon_signs (DnNoise g :: DnFrame w :: ps)) with (g :: denon_signs (DnFrame w) ++ flat_map denon_signs ps).
      cbn [flat_map fst app]. constructor; [exact Hg|]. apply forall2_app_more; assumption.
    + cbn [denon_hears news]. rewrite news_app, news_quiet. cbn [app news]. rewrite P3, N.lor_0_l. reflexivity.
Qed.
Lemma denon_row_some freq l : exists os, denon_row freq l os.
Proof.
  induction l as [|[s w] l (os & R)]; [eexists; constructor|].
  destruct (near_dec freq 5000 8 (silence s)) as [H|H]; eexists; [apply DnRowLost|apply DnRowFine]; eassumption.
Qed.
Lemma denon_row_clear freq l : Forall (fun x => denon_clear freq (fst x)) l -> denon_row freq l (map (fun x => Said (val_lsb (firstn 47 (snd x)))) l).
Proof. induction l as [|[s w] l IH]; intros H; [constructor|]. apply Forall_cons_iff in H. destruct H as (H1 & H). cbn [map snd]. apply DnRowFine; auto. Qed.
Lemma denon_hears_length ps : forall carry, Forall denon_phrase_ok ps -> length (denon_hears carry ps) = length (flat_map denon_signs ps).
Proof.
  induction ps as [|p ps IH]; intros carry H; [reflexivity|]. apply Forall_cons_iff in H. destruct H as (Hp & H).
  destruct p; cbn [denon_hears flat_map denon_signs denon_phrase_ok] in *; rewrite ?app_length; cbn [length]; rewrite ?app_length, ?map_length, ?repeat_length; cbn [length]; rewrite IH by exact H; lia.
Qed.

Theorem C94_denon :
  forall b m freq C (into : denon_command -> C) l,
  timebase m freq -> 1191 <= freq /\ exact_rate m freq -> periods_fit (row (map fst l)) -> Forall (denon_shot freq) l ->
  (exists ns, denon_row freq l ns) /\
  (Forall (fun x => denon_clear freq (fst x)) l -> denon_row freq l (map (fun x => Said (val_lsb (firstn 47 (snd x)))) l)) /\
  forall ns, denon_row freq l ns ->
  exists r0 r os, receiver_new (denon_protocol b m) freq = Val r0 /\
    run_edges (D := denon_dec b m) into r0 (row (map fst l)) = Val (r, os) /\
    loud os = map (reports (fun bits => Some (into (mkDenon bits))) (fun _ => EData)) ns.
Proof.
  intros b m freq C into l Hm Hf Hfit HF. split; [apply denon_row_some|]. split; [apply denon_row_clear|]. intros ns R.
  destruct (denon_row_reading _ _ _ R HF) as (ps & P1 & P2 & P3).
  assert (Ep : periods (row (map fst l)) = flat_map (fun x : shot * list bool => silence (fst x) :: lengths (fst x)) l)
    by (rewrite periods_row, flat_map_fst; reflexivity).
  destruct (C88_denon b m freq C into _ Hm Hf Hfit) as (_ & X). destruct (X ps []) as (r0 & r & E0 & E).
  { split; [exact P1|]. split; [left; reflexivity|]. rewrite app_nil_r, Ep. exact P2. }
  exists r0, r. eexists. split; [exact E0|]. split; [exact E|]. rewrite loud_mapped by eauto. f_equal.
  cbn [length repeat]. rewrite app_nil_r. rewrite (news_at_rises _ _ 0); [exact P3|].
  fold (periods (row (map fst l))). rewrite Ep, denon_hears_length by exact P1. exact (forall2_length _ _ _ P2).
Qed.
Print Assumptions C94_denon.

(** ** Samsung BluRay *)

Lemma sbp_noise_signs ss : flat_map sbp_signs (map SbNoise ss) = ss.
Proof. induction ss as [|x ss IH]; [reflexivity|]. cbn [map flat_map sbp_signs app]. rewrite IH. reflexivity. Qed.
Lemma sbp_noise_hears ss r : news (sbp_hears (map SbNoise ss ++ r)) = news (sbp_hears r).
Proof. induction ss as [|x ss IH]; [reflexivity|exact IH]. Qed.

Lemma sbp_row_reading freq l os : sbp_row freq l os -> Forall (sbp_shot freq) l ->
  exists ps, Forall sbp_phrase_ok ps /\
    Forall2 (sbp_says freq) (flat_map sbp_signs ps) (flat_map (fun x => silence (fst x) :: lengths (fst x)) l) /\
    news (sbp_hears ps) = os.
Proof.
  induction 1 as [|s a c r os H R IH|s a c r os H1 R IH]; intros HF.
  - exists []. repeat split; constructor.
  - apply Forall_cons_iff in HF. destruct HF as ((Ha & Hc & Hb) & HF). cbn [fst snd] in *. destruct (IH HF) as (ps & P1 & P2 & P3).
    exists (SbBrokenAddress [] SbHeader :: map SbNoise (sbp_bits a ++ SbPause :: sbp_bits c) ++ ps). split; [|split].
    + constructor; [split; [cbn; lia|split; discriminate]|]. apply Forall_app. split; [|exact P1].
      apply Forall_forall. intros p Hp. apply in_map_iff in Hp. destruct Hp as (x & <- & Hx). cbn [sbp_phrase_ok]. intros ->.
      apply in_app_iff in Hx. destruct Hx as [Hx|[Hx|Hx]]; [|discriminate Hx|]; apply in_map_iff in Hx; destruct Hx as ([|] & Hx & _); discriminate Hx.
    + cbn [sbp_signs] in Hb. inversion Hb as [|? h0 ? bs Hh Hbs E1 E2]; subst.
      cbn [flat_map sbp_signs map app fst sbp_bits]. rewrite <- E2. cbn [app]. constructor; [exact H|]. constructor; [exact Hh|].
      rewrite flat_map_app, sbp_noise_signs. apply forall2_app_more; assumption.
    + change (news (sbp_hears (SbBrokenAddress [] SbHeader :: map SbNoise (sbp_bits a ++ SbPause :: sbp_bits c) ++ ps)))
        with (Failed true :: news (sbp_hears (map SbNoise (sbp_bits a ++ SbPause :: sbp_bits c) ++ ps)) : list (heard (N * N) bool)).
      rewrite sbp_noise_hears, P3. reflexivity.
  - apply Forall_cons_iff in HF. destruct HF as ((Ha & Hc & Hb) & HF). cbn [fst snd] in *. destruct (IH HF) as (ps & P1 & P2 & P3).
    destruct (sbp_says_some freq (silence s)) as (g & Hg).
    exists (SbNoise g :: SbFrame a c :: ps). split; [|split].
    + constructor; [intros ->; exact (H1 Hg)|]. constructor; [split|]; assumption.
    + change (flat_map sbp_signs (SbNoise g :: SbFrame a c :: ps)) with (g :: sbp_signs (SbFrame a c) ++ flat_map sbp_signs ps).
      cbn [flat_map fst app]. constructor; [exact Hg|]. apply forall2_app_more; assumption.
    + unfold sbp_hears in *. cbn [flat_map sbp_hears1 app news]. rewrite !news_app, news_quiet. cbn [app news]. rewrite P3. reflexivity.
Qed.
Lemma sbp_row_some freq l : exists os, sbp_row freq l os.
Proof.
  induction l as [|[s [a c]] l (os & R)]; [eexists; constructor|].
  destruct (near_dec freq 9000 5 (silence s)) as [H|H]; eexists; [apply SbRowLost|apply SbRowFine]; eassumption.
Qed.
Lemma sbp_row_clear freq l : Forall (fun x => sbp_clear freq (fst x)) l ->
  sbp_row freq l (map (fun x => Said (val_lsb (fst (snd x)), val_lsb (snd (snd x)))) l).
Proof. induction l as [|[s [a c]] l IH]; intros H; [constructor|]. apply Forall_cons_iff in H. destruct H as (H1 & H). cbn [map fst snd]. apply SbRowFine; auto. Qed.
Lemma sbp_hears_len ps : Forall sbp_phrase_ok ps -> length (sbp_hears ps) = length (flat_map sbp_signs ps).
Proof.
  induction ps as [|p ps IH]; intros H; [reflexivity|]. apply Forall_cons_iff in H. destruct H as (Hp & H). unfold sbp_hears in *.
  destruct p; cbn [flat_map sbp_hears1 sbp_signs sbp_phrase_ok] in *; rewrite !app_length, IH by exact H; unfold sbp_bits; cbn [length];
    rewrite ?app_length, ?map_length, ?repeat_length; cbn [length]; rewrite ?app_length, ?map_length; cbn [length]; lia.
Qed.

Theorem C94_sbp :
  forall b m freq C (into : sbp_command -> C) l,
  timebase m freq -> 1000 <= freq /\ exact_rate m freq -> no_double_rise (row (map fst l)) -> periods_fit (row (map fst l)) -> Forall (sbp_shot freq) l ->
  (exists ns, sbp_row freq l ns) /\
  (Forall (fun x => sbp_clear freq (fst x)) l -> sbp_row freq l (map (fun x => Said (val_lsb (fst (snd x)), val_lsb (snd (snd x)))) l)) /\
  forall ns, sbp_row freq l ns ->
  exists r0 r os, receiver_new (sbp_protocol b m) freq = Val r0 /\
    run_edges (D := sbp_dec b m) into r0 (row (map fst l)) = Val (r, os) /\
    loud os = map (reports (fun '(a, c) => Some (into (mkSbp a (field c 4 8) (field c 12 8 =? compl8 (field c 4 8)))))
                           (fun in_address : bool => if in_address then EAddress else EData)) ns.
Proof.
  intros b m freq C into l Hm Hf Hn Hfit HF. split; [apply sbp_row_some|]. split; [apply sbp_row_clear|]. intros ns R.
  destruct (sbp_row_reading _ _ _ R HF) as (ps & P1 & P2 & P3).
  assert (Ep : periods (row (map fst l)) = flat_map (fun x : shot * (list bool * list bool) => silence (fst x) :: lengths (fst x)) l)
    by (rewrite periods_row, flat_map_fst; reflexivity).
  destruct (C88_sbp b m freq C into _ Hm Hf Hn Hfit) as (_ & X). destruct (X ps []) as (r0 & r & E0 & E).
  { split; [exact P1|]. split; [left; reflexivity|]. rewrite app_nil_r, Ep. exact P2. }
  exists r0, r. eexists. split; [exact E0|]. split; [exact E|]. rewrite loud_mapped by (intros [a c]; eauto). f_equal.
  cbn [length repeat]. rewrite app_nil_r. rewrite (news_at_rises _ _ 0); [exact P3|].
  fold (periods (row (map fst l))). rewrite Ep, sbp_hears_len by exact P1. exact (forall2_length _ _ _ P2).
Qed.
Print Assumptions C94_sbp.

(** ** RC5 and RC6 *)

Lemma loud_app {C} (l k : list (outcome C)) : loud (l ++ k) = loud l ++ loud k.
Proof. unfold loud. induction l as [|o l IH]; [reflexivity|]. cbn [app filter]. rewrite IH. destruct o as [[c|]|e]; reflexivity. Qed.
Lemma loud_quiet {C} n : loud (repeat (ROk (@None C)) n) = [].
Proof. induction n; [reflexivity|exact IHn]. Qed.
Lemma loud_frame {C} k n (c : C) os :
  loud (repeat (ROk None) k ++ ROk None :: (repeat (ROk None) n ++ [ROk (Some c)]) ++ os) = ROk (Some c) :: loud os.
Proof.
  refine (eq_trans (loud_app _ _) _). rewrite (loud_quiet k : loud (repeat (ROk None) k) = []).
  refine (eq_trans (loud_app (C := C) (ROk None :: repeat (ROk None) n ++ [ROk (Some c)]) os) _).
  assert (E : loud (C := C) (ROk None :: repeat (ROk None) n ++ [ROk (Some c)]) = [ROk (Some c)])
    by (refine (eq_trans (loud_app (C := C) (repeat (ROk None) (S n)) [ROk (Some c)]) _); rewrite loud_quiet; reflexivity).
  rewrite E. reflexivity.
Qed.

Section Rc5.
  Variables (b : build) (m : mono) (freq : N).
  Hypothesis (Hm : timebase m freq) (Hlo : 1125 <= freq) (Hhi : exact_rate m freq) (Hu : 8 <= usize_bits b).
  Let ss := spans_of m freq rc5_pulses.
  Context {C : Type} (into : rc5_command -> C).
  Notation D := (rc5_dec b).
  Notation run := (@run_edges D C into).
  Notation st s buf ck pv := (@mkRecv D (mkRc5Dec s buf ck ss) pv).

  Lemma rc5_falls ds k : forall ck pv, room b ck (length ds + k) -> exists ck', room b ck' k /\
    run (st R5Idle 0 ck pv) (falls ds) = Val (st R5Idle 0 ck' pv, repeat (ROk None) (length ds)).
  Proof.
    induction ds as [|d ds IH]; intros ck pv Hr; [exists ck; split; [exact Hr|reflexivity]|]. cbn [length Nat.add] in Hr.
    destruct (rc5_idle_any b m freq Hm Hhi Hu into _ ck pv d false Hr) as (ck1 & R & E). fold ss in E.
    destruct (IH ck1 pv R) as (ck2 & R2 & E2). exists ck2. split; [exact R2|].
    exact (run_cons_val (D := D) into _ _ _ _ _ _ _ _ E E2).
  Qed.

  Lemma rc5_series_run h ws : rc5_series freq h ws -> forall ck pv, room b ck (length h) ->
    exists r os, run (st R5Idle 0 ck pv) h = Val (r, os) /\ loud os = map (fun w => ROk (Some (into (rc5_unpack w)))) ws.
  Proof.
    assert (Hf : freq < 2 ^ 32) by exact (exact_rate_lt m freq Hhi).
    induction 1 as [ds|ds w gap evs h ws Hw H13 He H IH]; intros ck pv Hr.
    - unfold falls in Hr. rewrite map_length in Hr. destruct (rc5_falls ds 0 ck pv ltac:(rewrite Nat.add_0_r; exact Hr)) as (ck' & _ & E).
      eexists _, _. split; [exact E|]. apply loud_quiet.
    - destruct He as (n & noms & acts & En & -> & HF). unfold edge in *. rewrite !app_length in Hr. unfold falls in Hr at 1. rewrite map_length in Hr. cbn [length Nat.add] in Hr.
      destruct (rc5_falls ds _ ck pv Hr) as (ck1 & R1 & E1).
      destruct (rc5_idle_any b m freq Hm Hhi Hu into _ ck1 pv gap true R1) as (ck2 & R2 & E2). fold ss in E2. cbn iota in E2.
      pose proof (rc5_frame_run b m freq Hm Hf into Hlo Hu w pv noms n acts Hw En H13 HF) as E3. fold ss in E3.
      destruct (IH 0 pv) as (r & os & E4 & L4); [apply (room_less b 0 (length acts + length h)); [eapply room_zero; exact R2|lia]|].
      eexists r, _. split.
      + refine (run_edges_app_val (D := D) into _ _ _ _ _ _ _ E1 _). cbn [app].
        refine (run_cons_val (D := D) into _ _ _ _ _ _ _ _ E2 _). exact (run_edges_app_val (D := D) into _ _ _ _ _ _ _ E3 E4).
      + refine (eq_trans (loud_frame _ _ _ _) _). rewrite L4. reflexivity.
  Qed.
End Rc5.

(** Every frame is reported, however short the pauses are. *)
Theorem C94_rc5 :
  forall b m freq C (into : rc5_command -> C) h ws,
  timebase m freq -> 1125 <= freq -> exact_rate m freq -> 8 <= usize_bits b ->
  (overflow_checks b = false \/ 8 * N.of_nat (length h) < 2 ^ usize_bits b) ->
  rc5_series freq h ws ->
  exists r0 r os, receiver_new (rc5_protocol b m) freq = Val r0 /\ run_edges (D := rc5_dec b) into r0 h = Val (r, os) /\
    loud os = map (fun w => ROk (Some (into (mkRc5 (field w 6 5) (field w 0 6) (field w 12 2) (negb (field w 11 1 =? 0)))))) ws.
Proof.
  intros b m freq C into h ws Hm Hlo Hhi Hu Hr H. assert (Hf : freq < 2 ^ 32) by exact (exact_rate_lt m freq Hhi).
  destruct (rc5_series_run b m freq Hm Hlo Hhi Hu into h ws H 0 0 Hr) as (r & os & E & L).
  eexists. exists r, os. split; [exact (rc5_new_val b m freq Hm Hf)|]. split; [exact E|]. rewrite L. apply map_ext. intros w. rewrite rc5_unpack_layout. reflexivity.
Qed.
Print Assumptions C94_rc5.

Section Rc6.
  Variables (b : build) (m : mono) (freq : N).
  Hypothesis (Hm : timebase m freq) (Hlo : 4130 <= freq) (Hhi : exact_rate m freq) (Hu : 8 <= usize_bits b).
  Let ss := spans_of m freq rc6_pulses.
  Context {C : Type} (into : rc6_command -> C).
  Notation D := (rc6_dec b).
  Notation run := (@run_edges D C into).
  Notation ev := (@event_edge D C into).
  Notation st s data hd tg ck pv := (@mkRecv D (mkRc6Dec s data hd tg ck ss) pv).

  Lemma rc6_idle_clean k tg ck pv d (e : bool) : room b ck (S k) -> exists ck', room b ck' k /\
    ev (st R6Idle 0 0 tg ck pv) d e = Val (if e then st R6Leading 0 0 tg 0 pv else st R6Idle 0 0 tg ck' pv, ROk None).
  Proof.
    intros Hr. destruct (rc6_dec_counts freq d) as [(n & Hn)|Hd].
    - destruct (rc6_count_ev b m freq Hm Hhi Hu into R6Idle 0 0 tg ck pv d e n k Hn Hr) as (ck' & R & _ & E). exists ck'. split; [exact R|].
      fold ss in E. rewrite E. unfold rc6_transition. cbn [r6_spans r6_clock r6_state r6_data r6_headerdata r6_toggle]. destruct e; reflexivity.
    - exists 0. split; [apply room_less with (n := S k); [eapply room_zero; exact Hr|lia]|].
      unfold event_edge. cbn [d_event rc6_dec rv_dec rv_prev]. unfold rc6_event. cbn [r6_spans r6_clock r6_state r6_data r6_headerdata r6_toggle].
      unfold ss. rewrite (rc6_uncounted_get m freq Hm Hhi d Hd). destruct e; reflexivity.
  Qed.
  Lemma rc6_falls ds k : forall tg ck pv, room b ck (length ds + k) -> exists ck', room b ck' k /\
    run (st R6Idle 0 0 tg ck pv) (falls ds) = Val (st R6Idle 0 0 tg ck' pv, repeat (ROk None) (length ds)).
  Proof.
    induction ds as [|d ds IH]; intros tg ck pv Hr; [exists ck; split; [exact Hr|reflexivity]|]. cbn [length Nat.add] in Hr.
    destruct (rc6_idle_clean _ tg ck pv d false Hr) as (ck1 & R & E).
    destruct (IH tg ck1 pv R) as (ck2 & R2 & E2). exists ck2. split; [exact R2|].
    exact (run_cons_val (D := D) into _ _ _ _ _ _ _ _ E E2).
  Qed.

  Lemma rc6_series_run h ws : rc6_series freq h ws -> forall tg ck pv, room b ck (length h) ->
    exists r os, run (st R6Idle 0 0 tg ck pv) h = Val (r, os) /\ loud os = map (fun '(a, c, t) => ROk (Some (into (mkRc6 a c t)))) ws.
  Proof.
    assert (Hf : freq < 2 ^ 32) by exact (exact_rate_lt m freq Hhi).
    induction 1 as [ds|ds a c t gap evs h ws Ha Hc He H IH]; intros tg ck pv Hr.
    - unfold falls in Hr. rewrite map_length in Hr. destruct (rc6_falls ds 0 tg ck pv ltac:(rewrite Nat.add_0_r; exact Hr)) as (ck' & _ & E).
      eexists _, _. split; [exact E|]. apply loud_quiet.
    - destruct He as (n & noms & lead & acts & En & -> & Hl & HF). unfold edge in *. rewrite !app_length in Hr. unfold falls in Hr at 1. rewrite map_length in Hr. cbn [length Nat.add] in Hr.
      assert (Hw : 2 ^ 8 * a + c < 2 ^ 16) by (change (2 ^ 8) with 256 in *; change (2 ^ 16) with 65536; lia).
      destruct (rc6_falls ds _ tg ck pv Hr) as (ck1 & R1 & E1).
      destruct (rc6_idle_clean _ tg ck1 pv gap true R1) as (ck2 & R2 & E2). cbn iota in E2.
      destruct (Rc6_facts.rc6_frame_run b m freq Hm Hf into ltac:(lia) Hu t _ tg pv lead noms n acts Hlo Hw En Hl HF) as (j & E3). fold ss in E3.
      destruct (IH t 0 pv) as (r & os & E4 & L4); [apply (room_less b 0 (S (length acts + length h))); [eapply room_zero; exact R2|lia]|].
      eexists r, _. split.
      + refine (run_edges_app_val (D := D) into _ _ _ _ _ _ _ E1 _). cbn [app].
        refine (run_cons_val (D := D) into _ _ _ _ _ _ _ _ E2 _). exact (run_edges_app_val (D := D) into _ _ _ _ _ _ _ E3 E4).
      + refine (eq_trans (loud_frame _ _ _ _) _). rewrite L4. cbn [map]. rewrite rc6_from_bits_word by exact Hw.
        assert (F : field (2 ^ 8 * a + c) 8 8 = a /\ field (2 ^ 8 * a + c) 0 8 = c) by (unfold field; change (2 ^ 8) with 256 in *; change (2 ^ 0) with 1; lia).
        destruct F as (-> & ->). reflexivity.
  Qed.
End Rc6.

Theorem C94_rc6 :
  forall b m freq C (into : rc6_command -> C) h ws,
  timebase m freq -> 4130 <= freq -> exact_rate m freq -> 8 <= usize_bits b ->
  (overflow_checks b = false \/ 8 * N.of_nat (length h) < 2 ^ usize_bits b) ->
  rc6_series freq h ws ->
  exists r0 r os, receiver_new (rc6_protocol b m) freq = Val r0 /\ run_edges (D := rc6_dec b) into r0 h = Val (r, os) /\
    loud os = map (fun '(a, c, t) => ROk (Some (into (mkRc6 a c t)))) ws.
Proof.
  intros b m freq C into h ws Hm Hlo Hhi Hu Hr H. assert (Hf : freq < 2 ^ 32) by exact (exact_rate_lt m freq Hhi).
  destruct (rc6_series_run b m freq Hm Hlo Hhi Hu into h ws H false 0 0 Hr) as (r & os & E & L).
  eexists. exists r, os. split; [exact (rc6_new_val b m freq Hm Hf)|]. split; [exact E|exact L].
Qed.
Print Assumptions C94_rc6.

(** ** Examples *)

(** At 40 kHz: a NEC frame, one that begins 13.5 ms after its last edge and is lost, one that
    begins 11.25 ms after that (a repeat code of nothing comes first), and one after 40 ms. *)
Definition nec_body (w : N) : list (N * N) :=
  (360, 180) :: map (fun x : bool => (22, if x then 68 else 23)) (bits_lsb 32 w).
Definition nec_example : list (shot * N) :=
  [(mkShot None 9000 (nec_body 0xE916FF00), 0xE916FF00); (mkShot (Some 22) 518 (nec_body 0xE817FE01), 0xE817FE01);
   (mkShot (Some 22) 428 (nec_body 0xE718FD02), 0xE718FD02); (mkShot (Some 22) 1578 (nec_body 0xE916FF00), 0xE916FF00)].
Ltac decided := unfold nec_says, denon_says, sbp_says, near, nominal; vm_compute; intuition discriminate.
Ltac shots tac := repeat (apply Forall_cons; [tac|]); apply Forall_nil.
Ltac says_all :=
  match goal with |- Forall2 _ ?a ?l => let a' := eval vm_compute in a in let l' := eval vm_compute in l in change a with a'; change l with l' end;
  repeat (apply Forall2_cons; [decided|]); apply Forall2_nil.
Example C94_example_nec :
  periods_fit (row (map fst nec_example)) /\ Forall (nec_shot 40000 13500 11250) nec_example /\
  nec_row 40000 13500 11250 0 nec_example
    [Said (0xE916FF00, false); Failed tt; Said (0, true); Said (0xE718FD02, false); Said (0xE916FF00, false)] /\
  option_map loud (outcomes (nec_protocol (debug_build 32) MU32 NecStandard) 40000 (row (map fst nec_example))) =
    Some [ROk (Some (mkNec 0 0x16 false)); RErr EData; ROk (Some (mkNec 0 0 true)); ROk (Some (mkNec 2 0x18 false)); ROk (Some (mkNec 0 0x16 false))].
Proof.
  split; [fits|]. split; [shots ltac:(split; [reflexivity|says_all])|]. split; [|vm_compute; reflexivity].
  apply NecRowFine; [decided|decided|]. apply NecRowLost; [decided|]. apply NecRowAgain; [decided|]. apply NecRowFine; [decided|decided|]. constructor.
Qed.

(** Three Denon frames; the second begins 5 ms after the first. *)
Definition denon_body (bits : list bool) : list (N * N) := (130, 70) :: map (fun x : bool => (16, if x then 51 else 18)) bits.
Definition denon_example : list (shot * list bool) :=
  let w1 := repeat true 3 ++ repeat false 45 in let w2 := repeat true 48 in
  [(mkShot None 9000 (denon_body w1), w1); (mkShot (Some 16) 184 (denon_body w2), w2); (mkShot (Some 16) 400 (denon_body w1), w1)].
Example C94_example_denon :
  periods_fit (row (map fst denon_example)) /\ Forall (denon_shot 40000) denon_example /\
  denon_row 40000 denon_example [Said 7; Said 7] /\
  option_map loud (outcomes (denon_protocol (debug_build 32) MU32) 40000 (row (map fst denon_example))) =
    Some [ROk (Some (mkDenon 7)); ROk (Some (mkDenon 7))].
Proof.
  split; [fits|]. split; [shots ltac:(split; [reflexivity|says_all])|]. split; [|vm_compute; reflexivity].
  change 7 with (val_lsb (firstn 47 (repeat true 3 ++ repeat false 45))).
  apply DnRowFine; [decided|]. apply DnRowLost; [decided|]. apply DnRowFine; [decided|]. constructor.
Qed.

(** Three BluRay frames; the second begins 9 ms after the first. *)
Definition sbp_body (a c : list bool) : list (N * N) :=
  (180, 180) :: map (fun x : bool => (20, if x then 60 else 20)) a ++ (20, 180) :: map (fun x : bool => (20, if x then 60 else 20)) c.
Definition sbp_example : list (shot * (list bool * list bool)) :=
  let a := bits_lsb 16 0x2020 in let c := bits_lsb 20 0xFE010 in
  [(mkShot None 9000 (sbp_body a c), (a, c)); (mkShot (Some 20) 340 (sbp_body a c), (a, c)); (mkShot (Some 20) 20 (sbp_body a c), (a, c))].
Example C94_example_sbp :
  no_double_rise (row (map fst sbp_example)) /\ periods_fit (row (map fst sbp_example)) /\ Forall (sbp_shot 40000) sbp_example /\
  sbp_row 40000 sbp_example [Said (0x2020, 0xFE010); Failed true; Said (0x2020, 0xFE010)] /\
  option_map loud (outcomes (sbp_protocol (debug_build 32) MU32) 40000 (row (map fst sbp_example))) =
    Some [ROk (Some (mkSbp 0x2020 1 true)); RErr EAddress; ROk (Some (mkSbp 0x2020 1 true))].
Proof.
  split; [vm_compute; exact I|]. split; [fits|]. split; [shots ltac:(split; [reflexivity|split; [reflexivity|says_all]])|]. split; [|vm_compute; reflexivity].
  change 0x2020 with (val_lsb (bits_lsb 16 0x2020)). change 0xFE010 with (val_lsb (bits_lsb 20 0xFE010)).
  apply SbRowFine; [decided|]. apply SbRowLost; [decided|]. apply SbRowFine; [decided|]. constructor.
Qed.

(** Two frames with no time at all between them, in RC5 and in RC6; the first ends with a mark. *)
Definition rc5_burst (w : N) : list edge := jitter (fun n => 36 * n) (tl (level_edges false 0 (rc5_wave w))).
Definition rc6_burst (t : bool) (w : N) : list edge :=
  (false, 106) :: jitter (fun n => 18 * n) (tl (tl (level_edges false 0 (rc6_wave t (bits_msb 16 w))))).
Example C94_example_rc5 :
  let h := falls [] ++ ((true, 9000) :: rc5_burst 0x3175) ++ falls [36] ++ ((true, 0) :: rc5_burst 0x3936) ++ falls [36] in
  rc5_series 40000 h [0x3175; 0x3936] /\
  option_map loud (outcomes (rc5_protocol (debug_build 32) MU32) 40000 h) =
    Some [ROk (Some (mkRc5 5 0x35 3 false)); ROk (Some (mkRc5 4 0x36 3 true))].
Proof.
  split; [|vm_compute; reflexivity].
  apply Rc5SeriesFrame with (gap := 9000); [reflexivity|reflexivity|apply rc5_edges_ok; vm_compute; reflexivity|].
  apply Rc5SeriesFrame with (gap := 0); [reflexivity|reflexivity|apply rc5_edges_ok; vm_compute; reflexivity|]. constructor.
Qed.
Example C94_example_rc6 :
  let h := falls [] ++ ((true, 9000) :: rc6_burst true (2 ^ 8 * 4 + 12)) ++ falls [18] ++ ((true, 0) :: rc6_burst false (2 ^ 8 * 4 + 13)) ++ falls [] in
  rc6_series 40000 h [(4, 12, true); (4, 13, false)] /\
  option_map loud (outcomes (rc6_protocol (debug_build 32) MU32) 40000 h) =
    Some [ROk (Some (mkRc6 4 12 true)); ROk (Some (mkRc6 4 13 false))].
Proof.
  split; [|vm_compute; reflexivity].
  apply Rc6SeriesFrame with (gap := 9000); [reflexivity|reflexivity|apply rc6_edges_ok; [|vm_compute; reflexivity]; vm_compute; intuition discriminate|].
  apply Rc6SeriesFrame with (gap := 0); [reflexivity|reflexivity|apply rc6_edges_ok; [|vm_compute; reflexivity]; vm_compute; intuition discriminate|]. constructor.
Qed.
