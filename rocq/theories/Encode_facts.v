(** * Lemmas about the encoders *)
From Coq Require Import NArith ZArith List Bool Lia ZifyBool ZifyNat ZifyN.
From Verif Require Import Machine Spec Spec_sender Bits Time Nec Rc5 Rc6 Sender Codec_facts Nec_facts.
Import ListNotations.
Open Scope N_scope.
Ltac Zify.zify_post_hook ::= Z.div_mod_to_equations.

(** ** Writing to a buffer *)

Lemma slice_set_at p x r v : slice_set (p ++ x :: r) (length p) v = Val (p ++ v :: r).
Proof. induction p as [|y p IH]; cbn [app length slice_set]; auto. rewrite IH. reflexivity. Qed.

Lemma slice_set_end p v : slice_set p (length p) v = Panic.
Proof. induction p as [|y p IH]; cbn [length slice_set]; auto. rewrite IH. reflexivity. Qed.

(** Writes at consecutive positions. *)
Fixpoint puts (buf : list N) (i : nat) (vs : list N) : res (list N * nat) :=
  match vs with
  | [] => Val (buf, i)
  | v :: t => let* b := slice_set buf i v in puts b (i + 1) t
  end.

Lemma puts_cons buf i v t : puts buf i (v :: t) = let* b := slice_set buf i v in puts b (i + 1) t.
Proof. reflexivity. Qed.

Lemma puts_app vs1 vs2 : forall buf i,
  puts buf i (vs1 ++ vs2) = let* (b, j) := puts buf i vs1 in puts b j vs2.
Proof.
  induction vs1 as [|v vs IH]; intros buf i; cbn [app puts bind]; auto.
  destruct (slice_set buf i v) as [b| |]; cbn [bind]; auto.
Qed.

Lemma puts_spec vs : forall p r,
  puts (p ++ r) (length p) vs =
  if Nat.leb (length vs) (length r)
  then Val (p ++ vs ++ skipn (length vs) r, (length p + length vs)%nat) else Panic.
Proof.
  induction vs as [|v vs IH]; intros p r; cbn [puts].
  - cbn [length Nat.leb skipn app]. rewrite Nat.add_0_r. reflexivity.
  - destruct r as [|x r].
    + rewrite app_nil_r, slice_set_end. reflexivity.
    + rewrite slice_set_at. cbn [bind]. specialize (IH (p ++ [v]) r). rewrite app_length in IH. cbn [length] in IH.
      rewrite <- app_assoc in IH. cbn [app] in IH. rewrite IH. cbn [length Nat.leb skipn app].
      destruct (Nat.leb (length vs) (length r)); auto. rewrite <- app_assoc. cbn [app]. do 2 f_equal. lia.
Qed.

Lemma puts_written vs buf : puts buf 0 vs = written vs buf.
Proof. apply (puts_spec vs []). Qed.

Lemma flat_map_const {A B} (f : A -> list B) k l : (forall x, length (f x) = k) -> length (flat_map f l) = (length l * k)%nat.
Proof. intros H. induction l as [|x l IH]; cbn [flat_map length]; auto. rewrite app_length, H, IH. reflexivity. Qed.

(** ** NEC *)

Lemma calc_ticks_val p F t : calc_ticks p F = Some t -> t = khz_ticks F p.
Proof.
  unfold calc_ticks, khz_ticks. destruct (N.leb_spec F 1000) as [L|L].
  - rewrite (proj2 (N.ltb_ge _ _)) by lia. destruct (_ <? _); intros E; [injection E as <-; reflexivity|discriminate].
  - rewrite (proj2 (N.ltb_lt _ _)) by lia. destruct (_ <? _); intros E; [injection E as <-; reflexivity|discriminate].
Qed.

Lemma nec_data_val T F a b c d e f : nec_data T F = Some (a, b, c, d, e, f) ->
  a = khz_ticks F (header_high T) /\ b = khz_ticks F (header_low T) /\
  d = khz_ticks F (data_high T) /\ e = khz_ticks F (data_zero_low T) /\ f = khz_ticks F (data_one_low T).
Proof.
  unfold nec_data. intros E.
  repeat match type of E with match calc_ticks ?p ?x with _ => _ end = _ =>
    let H := fresh in destruct (calc_ticks p x) eqn:H; [apply calc_ticks_val in H|discriminate] end.
  injection E as <- <- <- <- <- <-. auto.
Qed.

Lemma nec_bits_puts bits dh dz d1 : forall n k buf bi,
  nec_encode_bits bits dh dz d1 (seq k n) buf bi =
  puts buf bi (flat_map (fun i => [dh; if N.testbit bits (N.of_nat i) then d1 else dz]) (seq k n)).
Proof.
  induction n as [|n IH]; intros k buf bi; cbn [seq nec_encode_bits flat_map puts app]; auto.
  destruct (slice_set buf bi dh) as [b1| |]; cbn [bind]; auto.
  assert (E : negb (N.land (N.shiftr bits (N.of_nat k)) 1 =? 0) = N.testbit bits (N.of_nat k)).
  { rewrite land_1, <- N.bit0_mod, N.shiftr_spec', N.add_0_l. destruct (N.testbit _ _); reflexivity. }
  rewrite E. destruct (slice_set b1 (bi + 1) _) as [b2| |]; cbn [bind]; auto.
  rewrite IH. f_equal. lia.
Qed.

Lemma nec_data_some T F : nec_timing_ok T -> F < 477219000 -> exists data, nec_data T F = Some data.
Proof.
  intros HT HL. assert (G : forall p, p <= 9000 -> calc_ticks p F = Some (khz_ticks F p)).
  { intros p Hp. unfold calc_ticks, khz_ticks. destruct (N.leb_spec F 1000) as [L|L].
    - rewrite (proj2 (N.ltb_ge _ _)) by exact L. rewrite (proj2 (N.ltb_lt _ _)); auto.
      apply N.le_lt_trans with (F * 9000); [apply N.mul_le_mono_l; exact Hp|]. change (2 ^ 32) with 4294967296. lia.
    - rewrite (proj2 (N.ltb_lt _ _)) by exact L. rewrite (proj2 (N.ltb_lt _ _)); auto.
      apply N.le_lt_trans with (F / 1000 * 9000); [apply N.mul_le_mono_l; exact Hp|]. change (2 ^ 32) with 4294967296. lia. }
  unfold nec_data. destruct HT as [-> | ->]; rewrite !G by (cbn; lia); eexists; reflexivity.
Qed.

Lemma nec_encode_written V F data c w buf : nec_timing_ok (nv_timing V) ->
  nec_data (nv_timing V) F = Some data -> nv_pack V c = Val w ->
  nec_encode V data c buf = written (nec_buffer (khz_ticks F) (header_high (nv_timing V)) (header_low (nv_timing V)) w) buf.
Proof.
  intros HT E Ep. destruct data as [[[[[hh hl] rl] dh] dz] d1].
  apply nec_data_val in E. destruct E as (-> & -> & -> & -> & ->).
  rewrite <- puts_written. unfold nec_encode, nec_buffer. rewrite puts_cons.
  destruct (slice_set buf 0 0) as [b0| |]; cbn [bind]; auto. rewrite puts_cons.
  change (0 + 1)%nat with 1%nat. destruct (slice_set b0 1 _) as [b1| |]; cbn [bind]; auto. rewrite puts_cons.
  change (1 + 1)%nat with 2%nat. destruct (slice_set b1 2 _) as [b2| |]; cbn [bind]; auto.
  rewrite Ep. cbn [bind]. rewrite nec_bits_puts. change (2 + 1)%nat with 3%nat.
  apply (f_equal (puts b2 3)). unfold bits_lsb. generalize (seq 0 32). intros l.
  induction l as [|i l IH]; [reflexivity|]. cbn [flat_map map app]. rewrite IH.
  destruct HT as [-> | ->]; destruct (N.testbit w (N.of_nat i)); reflexivity.
Qed.

Lemma nec_buffer_length t hm hs w : length (nec_buffer t hm hs w) = 67%nat.
Proof. reflexivity. Qed.

(** ** RC5 *)

Lemma some_inj {A} (x y : A) : Some x = Some y -> x = y.
Proof. congruence. Qed.

Lemma rc5_freq_val F l : rc5_calc_freq F = Some l -> l = khz_ticks F 889 /\ 2 * l < 2 ^ 32.
Proof.
  unfold rc5_calc_freq, khz_ticks. change (2 ^ 32) with 4294967296. destruct (N.leb_spec F 1000) as [L|L].
  - rewrite (proj2 (N.ltb_ge _ _)) by lia. cbv beta iota zeta. rewrite (N.mul_comm F).
    destruct (N.ltb_spec (889 * F) 4294967296) as [L2|L2]; intros E; [|discriminate].
    apply some_inj in E. subst l. split; [reflexivity|]. lia.
  - rewrite (proj2 (N.ltb_lt _ _)) by lia. cbv beta iota zeta. rewrite (N.mul_comm (F / 1000)).
    destruct (N.ltb_spec (889 * (F / 1000)) 4294967296) as [L2|L2]; intros E; [|discriminate].
    apply some_inj in E. subst l. split; [reflexivity|]. clear -L2. remember (F / 1000) as q. clear Heqq. lia.
Qed.

Lemma land_bit w k : negb (N.land w (N.shiftl 1 k) =? 0) = N.testbit w k.
Proof.
  destruct (N.testbit w k) eqn:E.
  - destruct (N.eqb_spec (N.land w (N.shiftl 1 k)) 0) as [Z|Z]; auto.
    assert (N.testbit (N.land w (N.shiftl 1 k)) k = true) as T.
    { rewrite N.land_spec, E, N.shiftl_1_l, N.pow2_bits_true. reflexivity. }
    rewrite Z, N.bits_0 in T. discriminate.
  - destruct (N.eqb_spec (N.land w (N.shiftl 1 k)) 0) as [Z|Z]; auto. destruct Z.
    apply N.bits_inj. intros j. rewrite N.land_spec, N.shiftl_1_l, N.bits_0.
    destruct (N.eq_dec j k) as [->|D]; [rewrite E; reflexivity|].
    rewrite N.pow2_bits_false by congruence. apply andb_false_r.
Qed.

Lemma rc5_bits_puts b bits l : 2 * l < 2 ^ 32 -> forall n k prev buf i, (k + n = 13)%nat ->
  rc5_encode_bits b bits l (seq k n) prev buf i =
  puts buf i (map (fun x => l * snd x) (level_edges prev 1 (flat_map rc5_half (bits_msb n bits)))).
Proof.
  intros Hl. induction n as [|n IH]; intros k prev buf i Hk; [reflexivity|].
  rewrite bits_msb_S. cbn [seq rc5_encode_bits flat_map].
  rewrite land_bit. replace (12 - N.of_nat k) with (N.of_nat n) by lia.
  set (x := N.testbit bits (N.of_nat n)). assert (E : rc5_half x = [negb x; x]) by (destruct x; auto).
  rewrite E. cbn [app level_edges].
  destruct (Bool.eqb prev x) eqn:Ep.
  - assert (Bool.eqb (negb x) prev = false) as -> by (destruct x, prev; auto; discriminate).
    assert (Bool.eqb x (negb x) = false) as -> by (destruct x; auto).
    cbn [map snd puts]. rewrite N.mul_1_r. destruct (slice_set buf i l) as [b1| |]; cbn [bind]; auto.
    destruct (slice_set b1 (i + 1) l) as [b2| |]; cbn [bind]; auto.
    rewrite IH by lia. f_equal. lia.
  - assert (Bool.eqb (negb x) prev = true) as -> by (destruct x, prev; auto; discriminate).
    assert (Bool.eqb x prev = false) as -> by (destruct x, prev; auto; discriminate).
    unfold umul. rewrite (proj2 (N.ltb_lt _ _)) by lia. cbn [bind map snd puts N.add Pos.add Pos.succ].
    destruct (slice_set buf i (l * 2)) as [b1| |]; cbn [bind]; auto. rewrite IH by lia. reflexivity.
Qed.

Lemma bits_msb_low n w : bits_msb n (2 ^ N.of_nat n + w mod 2 ^ N.of_nat n) = bits_msb n w.
Proof.
  unfold bits_msb, bits_lsb. f_equal. apply map_ext_in. intros i Hi. apply in_seq in Hi.
  assert (L : w mod 2 ^ N.of_nat n < 2 ^ N.of_nat n) by (apply N.mod_lt, N.pow_nonzero; lia).
  replace (2 ^ N.of_nat n + w mod 2 ^ N.of_nat n) with (w mod 2 ^ N.of_nat n + 1 * 2 ^ N.of_nat n) by (clear; lia).
  rewrite <- lor_add by exact L. rewrite N.lor_spec, N.shiftl_spec_low by lia. rewrite orb_false_r.
  apply N.mod_pow2_bits_low. lia.
Qed.

Lemma rc5_encode_written b F l c buf :
  rc5_calc_freq F = Some l ->
  rc5_encode b l c buf = written (rc5_buffer (khz_ticks F 889) (2 ^ 13 + rc5_pack c mod 2 ^ 13)) buf.
Proof.
  intros E. apply rc5_freq_val in E. destruct E as (-> & Hl).
  rewrite <- puts_written. unfold rc5_encode, rc5_buffer. rewrite puts_cons.
  destruct (slice_set buf 0 0) as [b0| |]; cbn [bind]; auto.
  rewrite rc5_bits_puts by auto. change (0 + 1)%nat with 1%nat. apply (f_equal (puts b0 1)).
  unfold rc5_wave. rewrite (bits_msb_S 13). rewrite (bits_msb_low 13). 
  assert (T : N.testbit (2 ^ 13 + rc5_pack c mod 2 ^ 13) (N.of_nat 13) = true).
  { replace (2 ^ 13 + rc5_pack c mod 2 ^ 13) with (rc5_pack c mod 2 ^ 13 + 1 * 2 ^ 13) by (clear; lia).
    rewrite <- lor_add by (apply N.mod_lt; discriminate). rewrite N.lor_spec, N.shiftl_spec_high'; [|cbn; lia].
    apply orb_true_r. }
  rewrite T. reflexivity.
Qed.

(** ** RC6 *)

(** Levels as multiples of the unit. *)
Definition lev (l : N) (x : bool * nat) : level :=
  if fst x then High (N.of_nat (snd x) * l) else Low (N.of_nat (snd x) * l).
Definition lev_units (xs : list (bool * nat)) : list bool := flat_map (fun x => repeat (fst x) (snd x)) xs.
Definition lev_sum (xs : list (bool * nat)) : nat := fold_right (fun x s => (snd x + s)%nat) O xs.

Lemma level_edges_same c n k rest :
  level_edges c n (repeat c k ++ rest) = level_edges c (n + N.of_nat k) rest.
Proof.
  revert n. induction k as [|k IH]; intros n; cbn [repeat app level_edges].
  - f_equal. lia.
  - rewrite eqb_reflx, IH. f_equal. lia.
Qed.

Lemma rc6_merge_puts b l xs : forall prev k0 buf i,
  (N.of_nat (k0 + lev_sum xs) * l < 2 ^ 32) -> Forall (fun x => snd x <> O) xs ->
  rc6_merge b (map (lev l) xs) (lev l (prev, k0)) buf i =
  puts buf i (map (fun x => l * snd x) (level_edges prev (N.of_nat k0) (lev_units xs))).
Proof.
  induction xs as [|[x k] xs IH]; intros prev k0 buf i Hs Hk; [destruct prev; reflexivity|].
  inversion Hk as [|? ? Hk1 Hk2]; subst. cbn [snd] in Hk1.
  cbn [map]. change (lev_units ((x, k) :: xs)) with (repeat x k ++ lev_units xs).
  cbn [lev_sum fold_right snd] in Hs. fold (lev_sum xs) in Hs.
  destruct (Bool.bool_dec prev x) as [->|D].
  - rewrite level_edges_same. replace (N.of_nat k0 + N.of_nat k) with (N.of_nat (k0 + k)) by lia.
    rewrite <- (IH x (k0 + k)%nat) by (auto; rewrite <- Nat.add_assoc; exact Hs).
    assert (A : N.of_nat k0 * l + N.of_nat k * l = N.of_nat (k0 + k) * l) by lia.
    assert (B : N.of_nat (k0 + k) * l < 2 ^ 32).
    { eapply N.le_lt_trans; [|exact Hs]. apply N.mul_le_mono_r. lia. }
    unfold lev. cbn [fst snd]. destruct x; cbn [rc6_merge]; unfold uadd; rewrite A, (proj2 (N.ltb_lt _ _)) by exact B; reflexivity.
  - destruct k as [|k]; [contradiction|]. cbn [repeat app level_edges].
    assert (Bool.eqb x prev = false) as -> by (apply eqb_false_iff; congruence).
    rewrite level_edges_same. replace (1 + N.of_nat k) with (N.of_nat (S k)) by lia. cbn [map snd puts].
    assert (E : rc6_merge b (lev l (x, S k) :: map (lev l) xs) (lev l (prev, k0)) buf i =
      let* b1 := slice_set buf i (N.of_nat k0 * l) in rc6_merge b (map (lev l) xs) (lev l (x, S k)) b1 (i + 1)).
    { destruct x, prev; try contradiction; try (destruct D; reflexivity); reflexivity. }
    rewrite E, N.mul_comm. clear E. destruct (slice_set buf i (l * N.of_nat k0)) as [b1| |]; cbn [bind]; auto.
    apply IH; auto. eapply N.le_lt_trans; [|exact Hs]. apply N.mul_le_mono_r. lia.
Qed.

Lemma level_edges_tail ls : forall c n k, level_edges c n (ls ++ repeat false (S k)) = level_edges c n (ls ++ [false]).
Proof.
  induction ls as [|x ls IH]; intros c n k; cbn [app level_edges].
  - cbn [repeat level_edges]. destruct (Bool.eqb false c) eqn:E.
    + apply eqb_prop in E. subst c. rewrite <- (app_nil_r (repeat false k)), level_edges_same. reflexivity.
    + rewrite <- (app_nil_r (repeat false k)), level_edges_same. reflexivity.
  - destruct (Bool.eqb x c); [apply IH|f_equal; apply IH].
Qed.

Definition rc6_lead_units (t : bool) : list (bool * nat) :=
  [ (true, 6); (false, 2); (true, 1); (false, 1); (false, 1); (true, 1); (false, 1); (true, 1); (false, 1); (true, 1);
    (t, 2); (negb t, 2) ]%nat.
Definition rc6_bit_units (x : bool) : list (bool * nat) := [(x, 1); (negb x, 1)]%nat.

Lemma rc6_payload_units w l :
  rc6_payload w l = map (lev l) (flat_map rc6_bit_units (bits_msb 16 w)).
Proof.
  assert (G : forall n k, (k + n = 16)%nat ->
    flat_map (fun b => if negb (N.land w (N.shiftl 1 (15 - N.of_nat b)) =? 0) then [High l; Low l] else [Low l; High l]) (seq k n) =
    map (lev l) (flat_map rc6_bit_units (bits_msb n w))).
  { induction n as [|n IH]; intros k Hk; [reflexivity|]. rewrite bits_msb_S. cbn [seq flat_map].
    rewrite land_bit, IH by lia. replace (15 - N.of_nat k) with (N.of_nat n) by lia.
    rewrite map_app. f_equal. unfold lev. destruct (N.testbit w (N.of_nat n)); cbn [rc6_bit_units map fst snd negb];
      change (N.of_nat 1) with 1; rewrite !N.mul_1_l; reflexivity. }
  apply (G 16%nat O). reflexivity.
Qed.

Lemma rc6_encode_written b F l a c t buf : a < 256 -> c < 256 -> rc6_data_len F = Some l ->
  rc6_encode b l (mkRc6 a c t) buf = written (rc6_buffer (nominal F 444) t (256 * a + c)) buf.
Proof.
  intros Ha Hc. unfold rc6_data_len. destruct (N.ltb_spec (444 * F) (2 ^ 32)) as [L|L]; [|discriminate].
  change (444 * F / 1000000) with (nominal F 444). intros Ee. apply some_inj in Ee. subst l.
  assert (Hl : 100 * nominal F 444 < 2 ^ 32).
  { unfold nominal. revert L. change (2 ^ 32) with 4294967296. generalize (444 * F). intros z Hz. lia. }
  set (l := nominal F 444) in *. clearbody l. clear L.
  rewrite <- puts_written. unfold rc6_encode, rc6_buffer. cbn [rc6_toggle rc6_addr rc6_cmd].
  assert (Ew : N.lor (as_u16 (N.shiftl a 8)) c = 256 * a + c).
  { unfold as_u16. rewrite shiftl_mul. change (2 ^ 8) with 256. change (2 ^ 16) with 65536. rewrite N.mod_small by lia.
    rewrite N.lor_comm. change 256 with (2 ^ 8). rewrite <- shiftl_mul, lor_add by exact Hc. lia. }
  rewrite Ew, rc6_payload_units. set (ws := bits_msb 16 (256 * a + c)).
  assert (El : rc6_leader t l = map (lev l) (rc6_lead_units t)).
  { unfold rc6_leader, rc6_lead_units, lev. cbn [map fst snd].
    change (N.of_nat 6) with 6. change (N.of_nat 2) with 2. change (N.of_nat 1) with 1. rewrite !N.mul_1_l. destruct t; reflexivity. }
  rewrite El. change [Low (6 * l)] with (map (lev l) [(false, 6%nat)]). rewrite <- !map_app.
  change (Low 0) with (lev l (false, O)).
  rewrite rc6_merge_puts.
  - f_equal. f_equal. rewrite app_assoc. unfold lev_units at 1. rewrite flat_map_app.
    change (flat_map (fun x => repeat (fst x) (snd x)) [(false, 6%nat)]) with (repeat false 6).
    rewrite level_edges_tail. f_equal. f_equal. rewrite flat_map_app. unfold rc6_wave.
    assert (E1 : flat_map (fun x : bool * nat => repeat (fst x) (snd x)) (flat_map rc6_bit_units ws) = flat_map rc6_half ws).
    { clearbody ws. induction ws as [|x ws IH]; cbn [flat_map]; auto. rewrite flat_map_app, IH. destruct x; reflexivity. }
    rewrite E1. destruct t; reflexivity.
  - assert (S1 : lev_sum (rc6_lead_units t ++ flat_map rc6_bit_units ws ++ [(false, 6%nat)]) = 58%nat).
    { assert (lev_app : forall x y, lev_sum (x ++ y) = (lev_sum x + lev_sum y)%nat).
      { induction x as [|u x IH]; intros y; cbn [app lev_sum fold_right]; auto. fold (lev_sum x). fold (lev_sum (x ++ y)). rewrite IH. lia. }
      rewrite !lev_app. assert (lev_sum (flat_map rc6_bit_units ws) = 2 * length ws)%nat as ->.
      { clearbody ws. induction ws as [|x ws IH]; cbn [flat_map]; auto. rewrite lev_app, IH. cbn [length]. cbn. lia. }
      unfold ws. rewrite bits_msb_length. reflexivity. }
    rewrite S1. change (N.of_nat (0 + 58)) with 58. lia.
  - apply Forall_app. split; [repeat constructor; discriminate|]. apply Forall_app. split; [|repeat constructor; discriminate].
    clearbody ws. induction ws as [|x ws IH]; cbn [flat_map rc6_bit_units app]; auto.
    repeat constructor; auto; discriminate.
Qed.
