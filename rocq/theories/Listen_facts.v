(** * Interrupt handlers with a 32-bit counter: lemmas *)
From Coq Require Import NArith ZArith List Bool Lia ZifyBool ZifyNat ZifyN.
From Verif Require Import Machine Time Decoder Nec Receiver Spec Bits Codec_facts Time_facts Run_facts Nec_facts
  Spec_receiver Spec_phys Phys_facts Spec_keys Keys_facts Apps Spec_listen.
Import ListNotations.
Open Scope N_scope.

(** ** The read_intervals the handlers measure *)
Fixpoint read_intervals (i : N) (xs : list (bool * N * N)) : list edge :=
  match xs with
  | [] => []
  | (l, now, later) :: r => (l, wrapping_sub32 later i) :: read_intervals now r
  end.

Lemma exti_run {D : decoder} {C} (into : dcmd D -> C) xs : forall i (r r' : receiver D) os,
  run_edges into r (read_intervals i xs) = Val (r', os) ->
  exists i' ps, run_res (exti9_5 into) (mkListener (Some i) r) xs = Val (mkListener (Some i') r', ps) /\
    concat ps = commands os.
Proof.
  induction xs as [|[[l now] later] xs IH]; intros i r r' os E; cbn [read_intervals run_edges] in E.
  - injection E as -> <-. exists i, []. split; reflexivity.
  - cbn [run_res exti9_5 ln_last ln_recv].
    destruct (event_edge into r (wrapping_sub32 later i) l) as [[r1 o]| |]; cbn [bind] in E |- *; try discriminate.
    destruct (run_edges into r1 (read_intervals now xs)) as [[r2 os2]| |] eqn:E2; cbn [bind] in E; try discriminate.
    injection E as -> <-. destruct (IH now r1 r' os2 E2) as (i' & ps & E3 & Ec).
    rewrite E3. cbn [bind]. exists i'. eexists. split; [reflexivity|]. cbn [concat]. rewrite Ec.
    unfold commands. cbn [flat_map]. destruct o as [[c|]|e]; reflexivity.
Qed.

(** The difference of two readings of the counter. *)
Lemma wrapped_difference x y : y <= x -> wrapping_sub32 (x mod 2 ^ 32) (y mod 2 ^ 32) = (x - y) mod 2 ^ 32.
Proof.
  intros H. unfold wrapping_sub32. set (M := 2 ^ 32). assert (HM : 0 < M) by reflexivity.
  assert (HN : M <> 0) by lia.
  pose proof (N.div_mod x M HN) as Ex. pose proof (N.div_mod y M HN) as Ey.
  pose proof (N.mod_lt x M HN). pose proof (N.mod_lt y M HN).
  assert (Hq : y / M <= x / M) by (apply N.div_le_mono; auto).
  replace (x - y) with (x mod M + M * (x / M) - (y mod M + M * (y / M))) by lia.
  destruct (N.le_gt_cases (y mod M) (x mod M)) as [L|L].
  - replace (x mod M + M - y mod M) with (x mod M - y mod M + 1 * M) by lia. rewrite N.mod_add by exact HN.
    replace (x mod M + M * (x / M) - (y mod M + M * (y / M))) with (x mod M - y mod M + (x / M - y / M) * M) by (rewrite N.mul_sub_distr_r; nia).
    rewrite N.mod_add by exact HN. reflexivity.
  - assert (Hq' : y / M < x / M).
    { destruct (N.eq_dec (x / M) (y / M)) as [E|E]; [rewrite E in *; lia|lia]. }
    replace (x mod M + M * (x / M) - (y mod M + M * (y / M))) with (x mod M + M - y mod M + (x / M - y / M - 1) * M).
    + rewrite N.mod_add by exact HN. reflexivity.
    + assert (A : exists q, x / M = y / M + 1 + q) by (exists (x / M - y / M - 1); lia). destruct A as (q & ->).
      replace (y / M + 1 + q - y / M - 1) with q by lia. nia.
Qed.

(** Measured with an error of less than [j] ticks, then cut to 32 bits. *)
Definition cut_timed (freq G j : N) (real meas : edge) : Prop :=
  fst meas = fst real /\ exists n, timed freq G j real (fst real, n) /\ snd meas = n mod 2 ^ 32.

Lemma handled_timed freq G j clock L : counts freq G 1 clock -> G + L * freq <= j * G ->
  forall evs xs t read, t <= read -> read <= t + L -> handled clock L t read evs xs ->
  Forall2 (cut_timed freq G j) evs (read_intervals (clock read mod 2 ^ 32) xs).
Proof.
  intros Hc Hj. induction evs as [|[l D] evs IH]; intros [|[[low now] later] xs] t read H1 H2 H; cbn [handled] in H; try contradiction; cbn [read_intervals]; constructor.
  - destruct H as (-> & a & c & Ha & Hac & Hc' & -> & -> & _). destruct (Hc read (t + D + c) ltac:(lia)) as (Hm & U1 & U2).
    split; [reflexivity|]. exists (clock (t + D + c) - clock read). cbn [fst snd]. split; [|apply wrapped_difference; exact Hm].
    unfold timed. cbn [fst snd]. split; [reflexivity|].
    assert (A1 : (t + D + c - read) * freq <= D * freq + L * freq).
    { rewrite <- N.mul_add_distr_r. apply N.mul_le_mono_r. lia. }
    assert (A2 : D * freq <= (t + D + c - read) * freq + L * freq).
    { rewrite <- N.mul_add_distr_r. apply N.mul_le_mono_r. lia. }
    lia.
  - destruct H as (_ & a & c & Ha & Hac & Hc' & -> & _ & H). apply (IH xs (t + D) (t + D + a)); [lia|lia|exact H].
Qed.

(** ** Cutting pauses to 32 bits *)

(** In units of [1/(G*freq)] seconds, with the pauses as the counter shows them. *)
Definition cut_burst (freq G : N) (y : burst) : burst :=
  let '(gap, ps, stop) := y in (shown freq G gap, map (fun d => (fst d * freq, snd d * freq)) ps, stop * freq).
Definition cut_press {K} (freq G : N) (y : press K) : press K :=
  let '(k, f, rs) := y in (k, cut_burst freq G f, map (cut_burst freq G) rs).

Lemma cut_bursts {K} freq G (l : list (press K)) : bursts (map (cut_press freq G) l) = map (cut_burst freq G) (bursts l).
Proof.
  unfold bursts. induction l as [|[[k f] rs] l IH]; [reflexivity|]. cbn [map flat_map cut_press fst snd].
  rewrite IH, map_app. reflexivity.
Qed.

Lemma cut_held {K} freq G (l : list (press K)) : held (map (cut_press freq G) l) = held l.
Proof.
  unfold held. induction l as [|[[k f] rs] l IH]; [reflexivity|]. cbn [map flat_map cut_press].
  rewrite IH, map_length. reflexivity.
Qed.

Lemma cut_keys {K} freq G (l : list (press K)) : map (fun y => fst (fst y)) (map (cut_press freq G) l) = map (fun y => fst (fst y)) l.
Proof. rewrite map_map. apply map_ext. intros [[k f] rs]. reflexivity. Qed.

Section Cut.
  Variables (freq G j S silence : N).
  Hypothesis (HG : 0 < G) (Hf : 0 < freq).

  (** What a burst needs: the pause as shown is a pause, the sum with the mark before fits. *)
  Definition cut_ok (y : burst) : Prop :=
    let '(gap, ps, stop) := y in
    silence * (G * freq) <= 1000000 * shown freq G gap /\ j * G <= shown freq G gap /\
    shown freq G gap + S * freq + 2 * (j * G) <= 2 ^ 32 * G /\ stop <= S /\
    Forall (fun d => fst d * freq + j * G < 2 ^ 31 * G /\ snd d * freq + j * G < 2 ^ 31 * G) ps.
  Hypothesis HS : S * freq + j * G < 2 ^ 31 * G.

  (** Marks and spaces are not cut. *)
  Lemma whole l D e : D * freq + j * G <= 2 ^ 32 * G -> cut_timed freq G j (l, D) e ->
    exists n, e = (l, n) /\ n * G < D * freq + j * G /\ D * freq < n * G + j * G.
  Proof.
    intros HD. destruct e as [l' m]. intros (El & n & (_ & H1 & H2) & Em). cbn [fst snd] in *. subst l' m.
    assert (Hn : n < 2 ^ 32). { apply (N.mul_lt_mono_pos_r G); [exact HG|]. lia. }
    rewrite N.mod_small by exact Hn. exists n. auto.
  Qed.

  Lemma scaled_timed (l : bool) D n : n * G < D + j * G -> D < n * G + j * G -> timed freq (G * freq) j (l, D) (l, n).
  Proof.
    intros H1 H2. unfold timed. cbn [fst snd]. split; [reflexivity|].
    replace (n * (G * freq)) with (n * G * freq) by ring. replace (j * (G * freq)) with (j * G * freq) by ring.
    split.
    - rewrite <- N.mul_add_distr_r. apply N.mul_lt_mono_pos_r; assumption.
    - rewrite <- N.mul_add_distr_r. apply N.mul_lt_mono_pos_r; assumption.
  Qed.

  Lemma gap_cut gap e : cut_timed freq G j (true, gap) e -> j * G <= shown freq G gap ->
    shown freq G gap + j * G <= 2 ^ 32 * G ->
    exists n, e = (true, n) /\ n * G < shown freq G gap + j * G /\ shown freq G gap < n * G + j * G.
  Proof.
    destruct e as [l' m]. intros (El & n & (_ & H1 & H2) & Em) Hlo Hhi. cbn [fst snd] in *. subst l' m.
    exists (n mod 2 ^ 32). split; [reflexivity|]. unfold shown in *. set (M := 2 ^ 32) in *.
    assert (HM : M <> 0) by discriminate. assert (HMG : M * G <> 0) by (apply N.neq_mul_0; lia).
    pose proof (N.div_mod (gap * freq) (M * G) HMG) as Ed.
    pose proof (N.mod_lt (gap * freq) (M * G) HMG) as Hr.
    set (q := gap * freq / (M * G)) in *. set (R := (gap * freq) mod (M * G)) in *.
    assert (Eq : n mod M = n - q * M).
    { assert (A1 : q * M <= n).
      { apply (N.mul_le_mono_pos_r _ _ G); [exact HG|]. replace (q * M * G) with (M * G * q) by ring. lia. }
      assert (A2 : n < q * M + M).
      { apply (N.mul_lt_mono_pos_r G); [exact HG|]. replace ((q * M + M) * G) with (M * G * q + M * G) by ring. lia. }
      symmetry. apply (N.mod_unique _ _ q); [lia|]. replace (M * q) with (q * M) by ring. lia. }
    rewrite Eq, N.mul_sub_distr_r. replace (q * M * G) with (M * G * q) by ring. lia.
  Qed.

  Lemma pairs_cut ps : forall es, Forall (fun d => fst d * freq + j * G < 2 ^ 31 * G /\ snd d * freq + j * G < 2 ^ 31 * G) ps ->
    Forall2 (cut_timed freq G j) (pair_edges ps) es ->
    Forall2 (timed freq (G * freq) j) (pair_edges (map (fun d => (fst d * freq, snd d * freq)) ps)) es /\
    forall sv rest, (forall sv', sv' = match ps with [] => sv | _ => 0 end -> fit sv' rest) -> fit sv (es ++ rest).
  Proof.
    assert (P31 : 2 ^ 32 * G = 2 ^ 31 * G + 2 ^ 31 * G) by (change (2 ^ 32) with (2 ^ 31 + 2 ^ 31); ring).
    induction ps as [|[mk sp] ps IH]; intros es Hp F; cbn [pair_edges map] in F |- *.
    - inversion F; subst. split; [constructor|]. intros sv rest H. apply H. reflexivity.
    - apply Forall_cons_iff in Hp. destruct Hp as ((H1 & H2) & Hp). cbn [fst snd] in H1, H2.
      inversion F as [|e1 e1' r1 r2 F1 F2]; subst. inversion F2 as [|e2 e2' r3 r4 F3 F4]; subst.
      destruct (whole false mk e1') as (n1 & -> & A1 & A2); [lia|exact F1|].
      destruct (whole true sp e2') as (n2 & -> & B1 & B2); [lia|exact F3|].
      destruct (IH r4 Hp F4) as (I1 & I2). split.
      + cbn [fst snd]. constructor; [apply scaled_timed; assumption|]. constructor; [apply scaled_timed; assumption|exact I1].
      + intros sv rest H. cbn [app fit]. split.
        * apply (N.mul_lt_mono_pos_r G); [exact HG|]. rewrite N.mul_add_distr_r. lia.
        * apply I2. intros sv' ->. apply H. destruct ps; reflexivity.
  Qed.

  Lemma burst_cut y es sv : cut_ok y -> Forall2 (cut_timed freq G j) (burst_edges y) es -> sv * G < S * freq + j * G ->
    Forall2 (timed freq (G * freq) j) (burst_edges (cut_burst freq G y)) es /\
    forall rest, (forall sv', sv' * G < S * freq + j * G -> fit sv' rest) -> fit sv (es ++ rest).
  Proof.
    destruct y as [[gap ps] stop]. cbn [cut_ok burst_edges cut_burst]. intros (C1 & C2 & C3 & C4 & C5) F Hsv.
    inversion F as [|e1 e1' r1 r2 F1 F2]; subst. apply Forall2_app_inv_l in F2. destruct F2 as (es1 & es2 & F2 & F3 & ->).
    inversion F3 as [|e2 e2' r3 r4 F4 F5]; subst. inversion F5; subst.
    destruct (gap_cut gap e1' F1 C2 ltac:(lia)) as (n1 & -> & A1 & A2).
    assert (Hst : stop * freq <= S * freq) by (apply N.mul_le_mono_r; exact C4).
    assert (P31 : 2 ^ 32 * G = 2 ^ 31 * G + 2 ^ 31 * G) by (change (2 ^ 32) with (2 ^ 31 + 2 ^ 31); ring).
    destruct (whole false stop e2') as (n2 & -> & B1 & B2); [lia|exact F4|].
    destruct (pairs_cut ps es1 C5 F2) as (I1 & I2). split.
    - constructor; [apply scaled_timed; assumption|]. apply Forall2_app; [exact I1|].
      constructor; [apply scaled_timed; assumption|constructor].
    - intros rest H. cbn [app fit]. split.
      + apply (N.mul_lt_mono_pos_r G); [exact HG|]. rewrite N.mul_add_distr_r. lia.
      + rewrite <- app_assoc. apply I2. intros sv' _. cbn [app fit]. apply H. lia.
  Qed.

  Lemma bursts_cut ys : forall es sv, Forall cut_ok ys -> Forall2 (cut_timed freq G j) (flat_map burst_edges ys) es ->
    sv * G < S * freq + j * G ->
    Forall2 (timed freq (G * freq) j) (flat_map burst_edges (map (cut_burst freq G) ys)) es /\ fit sv es.
  Proof.
    induction ys as [|y ys IH]; intros es sv Hy F Hsv; cbn [flat_map map] in F |- *.
    - inversion F; subst. split; [constructor|exact I].
    - apply Forall_cons_iff in Hy. destruct Hy as (Hy & Hys).
      apply Forall2_app_inv_l in F. destruct F as (es1 & es2 & F1 & F2 & ->).
      destruct (burst_cut y es1 sv Hy F1 Hsv) as (I1 & I2). split.
      + apply Forall2_app; [exact I1|]. exact (proj1 (IH es2 sv Hys F2 Hsv)).
      + apply I2. intros sv' Hsv'. exact (proj2 (IH es2 sv' Hys F2 Hsv')).
  Qed.

  (** A pause that shows as half of the counter's range follows a short mark. *)
  Fixpoint marks (lim before : N) (evs : list edge) : Prop :=
    match evs with
    | [] => True
    | (true, d) :: r => (2 ^ 31 <= d -> before < lim) /\ marks lim 0 r
    | (false, d) :: r => d < 2 ^ 31 /\ marks lim d r
    end.

  Lemma pairs_marks lim ps : forall es, Forall (fun d => fst d * freq + j * G < 2 ^ 31 * G /\ snd d * freq + j * G < 2 ^ 31 * G) ps ->
    Forall2 (cut_timed freq G j) (pair_edges ps) es ->
    forall sv rest, (forall sv', sv' = match ps with [] => sv | _ => 0 end -> marks lim sv' rest) -> marks lim sv (es ++ rest).
  Proof.
    assert (P31 : 2 ^ 32 * G = 2 ^ 31 * G + 2 ^ 31 * G) by (change (2 ^ 32) with (2 ^ 31 + 2 ^ 31); ring).
    induction ps as [|[mk sp] ps IH]; intros es Hp F sv rest H; cbn [pair_edges map] in F |- *.
    - inversion F; subst. apply H. reflexivity.
    - apply Forall_cons_iff in Hp. destruct Hp as ((H1 & H2) & Hp). cbn [fst snd] in H1, H2.
      inversion F as [|e1 e1' r1 r2 F1 F2]; subst. inversion F2 as [|e2 e2' r3 r4 F3 F4]; subst.
      destruct (whole false mk e1') as (n1 & -> & A1 & A2); [lia|exact F1|].
      destruct (whole true sp e2') as (n2 & -> & B1 & B2); [lia|exact F3|].
      assert (L1 : n1 < 2 ^ 31) by (apply (N.mul_lt_mono_pos_r G); [exact HG|lia]).
      assert (L2 : n2 < 2 ^ 31) by (apply (N.mul_lt_mono_pos_r G); [exact HG|lia]).
      cbn [app marks]. split; [exact L1|]. split; [intros L3; exfalso; lia|].
      apply (IH r4 Hp F4). intros sv' ->. apply H. destruct ps; reflexivity.
  Qed.

  Lemma bursts_marks lim ys : S * freq + j * G <= lim * G -> forall es sv, Forall cut_ok ys ->
    Forall2 (cut_timed freq G j) (flat_map burst_edges ys) es -> sv < lim -> marks lim sv es.
  Proof.
    intros Hlim. assert (P31 : 2 ^ 32 * G = 2 ^ 31 * G + 2 ^ 31 * G) by (change (2 ^ 32) with (2 ^ 31 + 2 ^ 31); ring).
    induction ys as [|[[gap ps] stop] ys IH]; intros es sv Hy F Hsv; cbn [flat_map] in F.
    - inversion F; subst. exact I.
    - apply Forall_cons_iff in Hy. destruct Hy as (Hy & Hys). cbn [cut_ok] in Hy. destruct Hy as (C1 & C2 & C3 & C4 & C5).
      apply Forall2_app_inv_l in F. destruct F as (es1 & es2 & F1 & F2 & ->). cbn [burst_edges] in F1.
      inversion F1 as [|e1 e1' r1 r2 F3 F4]; subst. apply Forall2_app_inv_l in F4. destruct F4 as (es3 & es4 & F4 & F5 & ->).
      inversion F5 as [|e2 e2' r3 r4 F6 F7]; subst. inversion F7; subst.
      destruct (gap_cut gap e1' F3 C2 ltac:(lia)) as (n1 & -> & A1 & A2).
      assert (Hst : stop * freq <= S * freq) by (apply N.mul_le_mono_r; exact C4).
      destruct (whole false stop e2') as (n2 & -> & B1 & B2); [lia|exact F6|].
      cbn [app marks]. split; [auto|]. rewrite <- app_assoc. apply (pairs_marks lim ps es3 C5 F4).
      intros sv' _. cbn [app marks]. split.
      + apply (N.mul_lt_mono_pos_r G); [exact HG|lia].
      + apply IH; auto. apply (N.mul_lt_mono_pos_r G); [exact HG|lia].
  Qed.

  (** The frames keep their shape in the finer unit. *)
  Lemma scaled_near x p D : real_near G x p D -> real_near (G * freq) x p (D * freq).
  Proof.
    unfold real_near. intros (H1 & H2). split.
    - replace (100 * 1000000 * (D * freq)) with (100 * 1000000 * D * freq) by ring.
      replace ((100 + x) * p * (G * freq)) with ((100 + x) * p * G * freq) by ring. apply N.mul_le_mono_r. exact H1.
    - replace (100 * 1000000 * (D * freq)) with (100 * 1000000 * D * freq) by ring.
      replace ((100 - x) * p * (G * freq)) with ((100 - x) * p * G * freq) by ring. apply N.mul_le_mono_r. exact H2.
  Qed.
  Lemma scaled_period x p d : real_period G x p d -> real_period (G * freq) x p (fst d * freq, snd d * freq).
  Proof. unfold real_period. cbn [fst snd]. rewrite <- N.mul_add_distr_r. apply scaled_near. Qed.

  Lemma scaled_nec x header w ps : real_nec G x header w ps ->
    real_nec (G * freq) x header w (map (fun d => (fst d * freq, snd d * freq)) ps).
  Proof.
    intros (h & ds & -> & Hh & Hd). exists (fst h * freq, snd h * freq), (map (fun d => (fst d * freq, snd d * freq)) ds).
    split; [reflexivity|]. split; [apply scaled_period; exact Hh|].
    clear Hh. induction Hd as [|bit d bs ds H Hd IH]; cbn [map]; constructor; auto. apply scaled_period. exact H.
  Qed.

  Lemma press_cut {K} x header again (word : K -> N) y : real_press G x header again silence word y ->
    Forall cut_ok (snd (fst y) :: snd y) -> real_press (G * freq) x header again silence word (cut_press freq G y).
  Proof.
    destruct y as [[k [[gap ps] stop]] rs]. cbn [real_press cut_press cut_burst fst snd]. intros (H1 & H2 & H3) Hc.
    apply Forall_cons_iff in Hc. destruct Hc as ((C1 & _) & Hc). split; [exact C1|]. split; [apply scaled_nec; exact H2|].
    clear H1 H2. induction H3 as [|[[g p] s] rs (Hg & d & -> & Hd) H3 IH]; cbn [map]; constructor.
    - apply Forall_cons_iff in Hc. destruct Hc as ((C & _) & _). cbn [cut_burst]. split; [exact C|].
      exists (fst d * freq, snd d * freq). split; [reflexivity|]. apply scaled_period. exact Hd.
    - apply Forall_cons_iff in Hc. apply IH. tauto.
  Qed.
End Cut.

(** ** All together *)
Lemma real_small freq G j x p D : 0 < G -> freq < 2 ^ 32 -> x <= 4 -> p <= 13500 -> 7000 * (2 * j + 1) <= freq ->
  real_near G x p D -> D * freq + j * G < 2 ^ 31 * G.
Proof.
  intros HG Hf Hx Hp Hj (H & _).
  assert (A : 100000000 * D <= 1404000 * G).
  { etransitivity; [exact H|]. apply N.mul_le_mono_r. transitivity (104 * 13500); [apply N.mul_le_mono; lia|vm_compute; discriminate]. }
  assert (B : 100000000 * (D * freq) <= 1404000 * freq * G).
  { replace (100000000 * (D * freq)) with (100000000 * D * freq) by ring. replace (1404000 * freq * G) with (1404000 * G * freq) by ring.
    apply N.mul_le_mono_r. exact A. }
  apply (N.mul_lt_mono_pos_l 100000000); [reflexivity|]. rewrite N.mul_add_distr_l.
  apply N.le_lt_trans with (1404000 * freq * G + 100000000 * j * G); [lia|].
  rewrite <- N.mul_add_distr_r, N.mul_assoc. apply N.mul_lt_mono_pos_r; [exact HG|].
  change (2 ^ 32) with 4294967296 in Hf. change (100000000 * 2 ^ 31) with 214748364800000000. lia.
Qed.

Lemma pair_small freq G j x p d : 0 < G -> freq < 2 ^ 32 -> x <= 4 -> p <= 13500 -> 7000 * (2 * j + 1) <= freq ->
  real_period G x p d -> fst d * freq + j * G < 2 ^ 31 * G /\ snd d * freq + j * G < 2 ^ 31 * G.
Proof.
  intros HG Hf Hx Hp Hj H. pose proof (real_small freq G j x p _ HG Hf Hx Hp Hj H) as A. rewrite N.mul_add_distr_r in A. lia.
Qed.

Lemma presses_cut_ok freq G j S header again silence {K} (word : K -> N) (l : list (press K)) :
  0 < G -> freq < 2 ^ 32 -> header <= 13500 -> again <= 13500 -> 7000 * (2 * j + 1) <= freq -> 1000 <= silence ->
  Forall (real_press G 4 header again silence word) l ->
  Forall (fun y : burst => let '(gap, _, stop) := y in silence * (G * freq) <= 1000000 * shown freq G gap /\
            shown freq G gap + S * freq + 2 * (j * G) <= 2 ^ 32 * G /\ stop <= S) (bursts l) ->
  Forall (cut_ok freq G j S silence) (bursts l).
Proof.
  intros HG Hf Hh Ha Hj Hs Hl Hb.
  assert (J : forall gap, silence * (G * freq) <= 1000000 * shown freq G gap -> j * G <= shown freq G gap).
  { intros gap H. apply (N.mul_le_mono_pos_l _ _ 1000000); [reflexivity|]. etransitivity; [|exact H].
    replace (1000000 * (j * G)) with (1000 * (1000 * j) * G) by ring. replace (silence * (G * freq)) with (silence * freq * G) by ring.
    apply N.mul_le_mono_r. apply N.mul_le_mono; lia. }
  assert (P : forall ps, Forall (fun d => exists p, p <= 13500 /\ real_period G 4 p d) ps ->
    Forall (fun d => fst d * freq + j * G < 2 ^ 31 * G /\ snd d * freq + j * G < 2 ^ 31 * G) ps).
  { intros ps. apply Forall_impl. intros d (p & Hp & Hd). eapply pair_small; eauto. lia. }
  unfold bursts in *. induction Hl as [|[[k [[gap ps] stop]] rs] l (Hg & Hfr & Hrs) Hl IH]; [constructor|].
  cbn [flat_map fst snd] in *. apply Forall_app in Hb. destruct Hb as [Hb1 Hb2]. apply Forall_app. split; [|auto].
  apply Forall_cons_iff in Hb1. destruct Hb1 as ((B1 & B2 & B3) & Hb1). constructor.
  - cbn [cut_ok]. repeat split; auto. apply P. destruct Hfr as (h & ds & -> & F1 & F2). constructor; [eauto|].
    clear -F2. induction F2 as [|bit d bs ds H F2 IH]; constructor; auto.
    exists (if bit then 2250 else 1120). split; [destruct bit; vm_compute; discriminate|exact H].
  - clear -J P Ha Hrs Hb1. induction Hrs as [|[[g p] s] rs (Hg & d & -> & Hd) Hrs IH]; [constructor|].
    apply Forall_cons_iff in Hb1. destruct Hb1 as ((B1 & B2 & B3) & Hb1). constructor; [|auto].
    cbn [cut_ok]. repeat split; auto. apply P. constructor; [eauto|constructor].
Qed.

Section Series.
  Variables (freq G j S header again silence k lim : N).
  Context {K : Type} (word : K -> N).
  Hypothesis (Hf : freq < 2 ^ 32) (HG : 0 < G) (Hj : 1 <= j) (Hk : k * (2 * j + 1) <= freq)
    (A : (header = 13500 /\ again = 11250 /\ k = 7000) \/ (header = 9000 /\ again = 6750 /\ k = 7700))
    (Es : silence = 2 * header) (HS : S * freq + j * G < 2 ^ 31 * G) (Hlim : S * freq + j * G <= lim * G).

  Definition shows (y : burst) : Prop :=
    let '(gap, _, stop) := y in silence * (G * freq) <= 1000000 * shown freq G gap /\
      shown freq G gap + S * freq + 2 * (j * G) <= 2 ^ 32 * G /\ stop <= S.

  Lemma cut_series (l : list (press K)) ms : Forall (real_press G 4 header again silence word) l -> Forall shows (bursts l) ->
    Forall2 (cut_timed freq G j) (presses_edges l) ms ->
    exists l', ms = presses_edges l' /\ held l' = held l /\ map (fun y => fst (fst y)) l' = map (fun y => fst (fst y)) l /\
      Forall (press_near freq header again word) l' /\ fit 0 ms /\ marks lim 0 ms.
  Proof.
    intros Hl Hb F'.
    assert (Hcut : Forall (cut_ok freq G j S silence) (bursts l)).
    { apply (presses_cut_ok freq G j S header again silence word l); auto; lia. }
    assert (HGj : G <= j * G) by (replace G with (1 * G) at 1 by ring; apply N.mul_le_mono_r; exact Hj).
    rewrite presses_bursts in F'.
    destruct (bursts_cut freq G j S silence HG ltac:(lia) HS (bursts l) _ 0 Hcut F') as (F2 & Hfit); [lia|].
    pose proof (bursts_marks freq G j S silence HG ltac:(lia) HS lim (bursts l) Hlim ms 0 Hcut F') as Hmarks.
    rewrite <- cut_bursts, <- presses_bursts in F2.
    assert (Hl' : Forall (real_press (G * freq) 4 header again silence word) (map (cut_press freq G) l)).
    { clear -Hl Hcut. unfold bursts in Hcut. induction Hl as [|y l Hy Hl IH]; cbn [map]; constructor.
      - cbn [flat_map] in Hcut. apply Forall_app in Hcut. destruct Hcut as [Hc1 _]. eapply press_cut; eauto.
      - apply IH. cbn [flat_map] in Hcut. apply Forall_app in Hcut. tauto. }
    destruct (presses_timed freq (G * freq) j 4 header again silence ltac:(apply N.mul_pos_pos; lia))
      with (word := word) (l := map (cut_press freq G) l) (evs' := ms)
      as (l' & Em & Eh' & Ek & Hl2); auto.
    1-4: destruct A as [(-> & -> & ->)|(-> & -> & ->)];
      [apply (slack_guaranteed _ _ _ _ _ 7000) | apply (slack_guaranteed _ _ _ _ _ 7700)]; try lia; vm_compute; discriminate.
    { rewrite Es. destruct A as [(-> & -> & ->)|(-> & -> & ->)];
      [apply (gap_room _ _ _ _ _ 7000) | apply (gap_room _ _ _ _ _ 7700)]; try lia; vm_compute; discriminate. }
    rewrite cut_held in Eh'. rewrite cut_keys in Ek. exists l'. repeat split; auto. apply Hmarks.
    apply (N.mul_lt_mono_pos_r G); [exact HG|]. lia.
  Qed.
End Series.

(** ** Instants that cannot tell more than half of their range *)
Definition half (e : edge) : edge := (fst e, if snd e <? 2 ^ 31 then snd e else 0).
Definition half_burst (y : burst) : burst := let '(gap, ps, stop) := y in (snd (half (true, gap)), ps, stop).
Definition half_press {K} (y : press K) : press K := let '(k, f, rs) := y in (k, half_burst f, map half_burst rs).

Lemma half_small l d : d < 2 ^ 31 -> half (l, d) = (l, d).
Proof. intros H. unfold half. cbn [fst snd]. rewrite (proj2 (N.ltb_lt _ _)) by exact H. reflexivity. Qed.

Lemma half_short evs : short evs -> map half evs = evs.
Proof.
  induction 1 as [|[l d] evs H _ IH]; [reflexivity|]. cbn [map snd] in *. rewrite half_small by exact H. f_equal. exact IH.
Qed.

Lemma marks_pairs lim ps : forall sv rest, marks lim sv (pair_edges ps ++ rest) -> marks lim (match ps with [] => sv | _ => 0 end) rest.
Proof.
  induction ps as [|[mk sp] ps IH]; intros sv rest H; [exact H|].
  cbn [pair_edges app marks] in H. destruct H as (_ & _ & H). apply IH in H. destruct ps; exact H.
Qed.

Lemma half_bursts {K} (l : list (press K)) : bursts (map half_press l) = map half_burst (bursts l).
Proof.
  unfold bursts. induction l as [|[[k f] rs] l IH]; [reflexivity|]. cbn [map flat_map half_press fst snd].
  rewrite IH, map_app. reflexivity.
Qed.
Lemma half_held {K} (l : list (press K)) : held (map half_press l) = held l.
Proof.
  unfold held. induction l as [|[[k f] rs] l IH]; [reflexivity|]. cbn [map flat_map half_press].
  rewrite IH, map_length. reflexivity.
Qed.
Lemma half_keys {K} (l : list (press K)) : map (fun y => fst (fst y)) (map half_press l) = map (fun y => fst (fst y)) l.
Proof. rewrite map_map. apply map_ext. intros [[k f] rs]. reflexivity. Qed.

Lemma half_shape {K} freq header again (word : K -> N) y :
  press_near freq header again word y -> press_shape freq header again word (half_press y).
Proof.
  destruct y as [[k [[gap ps] stop]] rs]. intros (_ & H1 & H2). cbn [half_press half_burst press_shape]. split; [exact H1|].
  induction H2 as [|[[g p] s] rs (_ & H) H2 IH]; cbn [map]; constructor; auto.
Qed.

Section Half.
  Variables (b : build) (m : mono) (freq : N) (V : nec_variant).
  Let T := nv_timing V.
  Hypothesis (Hm : timebase m freq) (Hf : freq < M32) (HT : nec_timing_ok T) (H893 : 893 <= freq).
  Context {C : Type} (into : nv_cmd V -> C).
  Notation header := (header_high T + header_low T).
  Notation again := (header_high T + repeat_low T).
  Variable lim : N.
  Hypothesis (L1 : 100 * lim <= 92 * nominal freq header) (L2 : 100 * lim <= 92 * nominal freq again).

  (** An interval of 0 after a short mark is no pulse either. *)
  Lemma idle_zero sv : sv < lim -> sv < 2 ^ 32 -> idles b m freq V into sv 0.
  Proof.
    intros Hsv H32 buf pv. unfold event_edge. cbn [rv_dec d_event nec_dec rv_prev d_reset d_command].
    unfold nec_event. cbn [ns_dt_save ns_spans ns_state ns_bitbuf].
    assert (E : dur_add b m 0 sv = Val (0 + sv)).
    { clear -Hm H32. change (2 ^ 32) with 4294967296 in *. destruct m as [| |w mi cs]; cbn [dur_add]; unfold uadd; rewrite (proj2 (N.ltb_lt _ _)); auto.
      - change (2 ^ 64) with 18446744073709551616. lia.
      - destruct Hm as [Hw _]. pose proof (pow_ge w Hw). unfold M32 in *. lia. }
    rewrite E. cbn [bind]. rewrite N.add_0_l.
    pose proof (nec_class_inv m freq V Hm Hf HT sv) as I0. unfold nec_class in I0.
    destruct (match spans_get (spans_of m freq (nec_pulses (nv_timing V))) sv with Some i => nec_pw_from i | None => PInvalid end);
      try reflexivity; destruct I0 as [_ I0]; exfalso.
    - change (header_high (nv_timing V) + header_low (nv_timing V)) with header in I0. lia.
    - change (header_high (nv_timing V) + repeat_low (nv_timing V)) with again in I0. lia.
  Qed.

  Lemma half_quiet ys : forall sv, Forall (fun y : burst => longer freq header 7 (fst (fst y)) /\ short (pair_edges (snd (fst y)))) ys ->
    fit sv (flat_map burst_edges ys) -> marks lim sv (flat_map burst_edges ys) ->
    quiet b m freq V into sv (map half_burst ys) /\
    map half (flat_map burst_edges ys) = flat_map burst_edges (map half_burst ys).
  Proof.
    induction ys as [|[[gap ps] stop] ys IH]; intros sv Hl Hf' Hm'; cbn [map flat_map quiet]; [split; [exact I|reflexivity]|].
    apply Forall_cons_iff in Hl. destruct Hl as [[Hg Hp] Hl]. cbn [fst snd] in Hg, Hp. cbn [flat_map] in Hf', Hm'. apply fit_burst in Hf'.
    destruct Hf' as [F1 F2]. cbn [burst_edges app marks] in Hm'. destruct Hm' as [M1 M2]. rewrite <- app_assoc in M2.
    apply marks_pairs in M2. cbn [app marks] in M2. destruct M2 as [M2 M3].
    destruct (IH stop Hl F2 M3) as (I1 & I2). cbn [half_burst]. split.
    - split; [|exact I1]. unfold half. cbn [snd]. destruct (N.ltb_spec gap (2 ^ 31)) as [Hlt|Hge].
      + intros buf pv. apply idle_gap; assumption.
      + apply idle_zero; [auto|]. lia.
    - rewrite map_app, I2. f_equal. cbn [burst_edges map]. f_equal.
      rewrite map_app. f_equal; [apply half_short; exact Hp|]. cbn [map]. rewrite half_small by exact M2. reflexivity.
  Qed.

  Lemma near_pieces {K} (word : K -> N) l : Forall (press_near freq header again word) l ->
    Forall (fun y : burst => longer freq header 7 (fst (fst y)) /\ short (pair_edges (snd (fst y)))) (bursts l).
  Proof.
    unfold bursts. induction 1 as [|[[k [[gap ps] stop]] rs] l (Hg & Hfr & Hrs) Hl IH]; [constructor|]. cbn [flat_map fst snd].
    apply Forall_app. split; [|exact IH]. constructor.
    - split; [exact Hg|]. cbn [fst snd]. eapply frame_short; eauto.
    - eapply Forall_impl; [|exact Hrs]. intros [[g p] s] (H & d & -> & Hd). split; [exact H|]. cbn [fst snd].
      eapply again_short; eauto.
  Qed.

  Lemma half_run {K} (word : K -> N) l : Forall (fun y => word (fst (fst y)) < 2 ^ 32) l -> Forall (press_near freq header again word) l ->
    fit 0 (presses_edges l) -> marks lim 0 (presses_edges l) ->
    exists r os, run_edges (D := nec_dec b m V) into
        (@mkRecv (nec_dec b m V) (mkNecDec NInit 0 0 (spans_of m freq (nec_pulses T))) 0) (map half (presses_edges l)) = Val (r, os) /\
      commands os = flat_map (fun x => said V into (word (fst x)) (snd x)) (held l).
  Proof.
    intros Hw Hl Hfit Hmarks. rewrite presses_bursts in *.
    destruct (half_quiet (bursts l) 0 (near_pieces word l Hl) Hfit Hmarks) as (Q & E). rewrite E, <- half_bursts, <- presses_bursts.
    rewrite <- half_bursts in Q.
    destruct (presses_run_quiet b m freq V Hm Hf HT H893 into word (map half_press l)) with (buf := 0) (sv := 0) (pv := 0) as (r & os & R & Hc & _).
    - rewrite Forall_forall in Hw |- *. intros z Hz.
      apply (in_map (fun y : K * burst * list burst => fst (fst y))) in Hz.
      pose proof (eq_ind _ (fun q => In _ q) Hz _ (half_keys l)) as Hz2. cbv beta in Hz2. apply in_map_iff in Hz2.
      destruct Hz2 as (z' & Ez & Hz'). rewrite <- Ez. apply Hw, Hz'.
    - apply Forall_forall. intros z Hz. apply in_map_iff in Hz. destruct Hz as (z' & <- & Hz'). rewrite Forall_forall in Hl.
      apply half_shape, Hl, Hz'.
    - exact Q.
    - exists r, os. split; [exact R|]. rewrite Hc, half_held. reflexivity.
  Qed.
End Half.
