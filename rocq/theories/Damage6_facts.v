(** * Lemmas: an RC6 frame with lost pulses *)
From Coq Require Import NArith ZArith List Bool Lia ZifyBool ZifyNat ZifyN.
From Verif Require Import Machine Time Decoder Rc6 Receiver Spec Bits Time_facts State_facts Window_facts Run_facts Rc5_facts Rc6_facts
  Spec_receiver Spec_rate Rate_facts Spec_sound Biphase_facts Spec_biread Biread_facts Apps_facts Spec_cross Cross_facts
  Spec_damage Damage_facts Spec_glitch Glitch_facts Glitch6_facts.
Import ListNotations.
Open Scope N_scope.

(** ** The edges of a frame by their place, in units *)

(** Where a frame can have an edge, ... *)
Definition place (t : bool) (p : N) (e : bool) : Prop :=
  (p = 0 /\ e = true) \/ (p = 6 /\ e = false) \/ (p = 8 /\ e = true) \/ (p = 9 /\ e = false) \/ (p = 11 /\ e = true) \/
  (p = 12 /\ e = false) \/ (p = 13 /\ e = true) \/ (p = 14 /\ e = false) \/ (p = 15 /\ e = true) \/
  (p = 16 /\ e = false /\ t = false) \/ (p = 18 /\ e = negb t) \/ (20 <= p <= 51) \/ (p = 52 /\ e = false).
(** ... and where it has one. *)
Definition must (t : bool) (p : N) : Prop :=
  p = 0 \/ p = 6 \/ p = 8 \/ p = 9 \/ 11 <= p <= 15 \/ (p = 16 /\ t = false) \/ p = 18 \/ (21 <= p <= 51 /\ p mod 2 = 1).

Inductive good (t : bool) : N -> bool -> list (bool * N) -> Prop :=
| good_nil p e : (forall r, must t r -> r <= p) -> good t p e []
| good_cons p e n rest : 1 <= n -> place t (p + n) (negb e) -> (forall r, must t r -> p < r < p + n -> False) ->
    must t p \/ must t (p + n) -> good t (p + n) (negb e) rest -> good t p e ((negb e, n) :: rest).

Ltac Zify.zify_post_hook ::= Z.div_mod_to_equations.

Lemma last_first {A} (l : list A) : forall x d, last (x :: l) d = last l x.
Proof. induction l as [|y l IH]; intros x d; [reflexivity|]. change (last (y :: l) d = last (y :: l) x). rewrite !IH. reflexivity. Qed.

Lemma good_data t data : forall cur p n tl,
  p + n + 2 * N.of_nat (length data) = 52 -> (p = 18 /\ n = 2) \/ (n = 1 /\ p mod 2 = 1 /\ 21 <= p) ->
  tl = [] \/ (tl = [(false, 1)] /\ last data (negb cur) = false) -> (p = 18 -> data <> []) ->
  good t p cur (level_edges cur n (flat_map rc6_half data) ++ tl).
Proof.
  induction data as [|x data IH]; intros cur p n tl Hp Hn Ht Hd.
  - cbn [flat_map level_edges app length] in *. assert (p = 51 /\ n = 1) as [-> ->].
    { destruct Hn as [[-> _]|Hn]; [elim (Hd eq_refl); reflexivity|]. lia. }
    assert (Nil : forall p e, 51 <= p -> good t p e []) by (intros p e H; apply good_nil; unfold must; lia).
    destruct Ht as [->|[-> L]]; [apply Nil; lia|]. cbn [last] in L. destruct cur; [|discriminate L].
    change false with (negb true). apply good_cons; [lia| | | |apply Nil; lia]; unfold place, must; cbn [negb]; try lia.
  - cbn [length] in Hp. assert (M : must t p) by (unfold must; destruct Hn as [[-> _]|(_ & H1 & H2)]; [lia|]; do 7 right; lia).
    assert (Mm : must t (p + n + 1)) by (unfold must; do 7 right; lia).
    assert (K : forall tl', tl' = tl -> good t (p + n + 1) (negb x) (level_edges (negb x) 1 (flat_map rc6_half data) ++ tl')).
    { intros tl' ->. apply IH; [lia|right; lia| |lia].
      destruct Ht as [->|[-> L]]; [left; reflexivity|right; split; [reflexivity|]]. rewrite negb_involutive.
      rewrite last_first in L. exact L. }
    specialize (K tl eq_refl).
    assert (Q : forall r, must t r -> p < r < p + n + 1 -> False).
    { intros r Hr Hpr. unfold must in Hr. lia. }
    assert (Mid : good t (p + n) x ((negb x, 1) :: level_edges (negb x) 1 (flat_map rc6_half data) ++ tl)).
    { apply good_cons; [lia| |intros r Hr; lia|right; exact Mm|exact K]. unfold place. lia. }
    assert (E : forall c, level_edges c n (flat_map rc6_half (x :: data)) =
      if Bool.eqb x c then (negb x, n + 1) :: level_edges (negb x) 1 (flat_map rc6_half data)
      else (x, n) :: (negb x, 1) :: level_edges (negb x) 1 (flat_map rc6_half data)).
    { intros c. cbn [flat_map]. destruct x, c; reflexivity. }
    rewrite E. destruct (Bool.eqb x cur) eqn:Ex.
    + apply eqb_prop in Ex. subst cur. apply good_cons; [lia| | |left; exact M|].
      * unfold place. lia.
      * intros r Hr Hpr. apply (Q r Hr). lia.
      * rewrite N.add_assoc. exact K.
    + assert (x = negb cur) as -> by (destruct x, cur; try reflexivity; discriminate Ex).
      apply good_cons; [lia| | |left; exact M|exact Mid].
      * unfold place. lia.
      * intros r Hr Hpr. apply (Q r Hr). lia.
Qed.

Lemma good_frame t w n noms tl : level_edges false 0 (rc6_wave t (bits_msb 16 w)) = (true, n) :: (false, 6) :: noms ->
  tl = [] \/ (tl = [(false, 1)] /\ N.testbit w 0 = false) -> good t 0 true ((false, 6) :: noms ++ tl).
Proof.
  intros E Ht.
  assert (G : forall c, good t 18 c (level_edges c 2 (flat_map rc6_half (bits_msb 16 w)) ++ tl)).
  { intros c. apply good_data; [rewrite bits_msb_length; lia|left; auto| |].
    - destruct Ht as [->|[-> H]]; [left; reflexivity|right; split; [reflexivity|]]. 
      enough (Z : forall d, last (bits_msb 16 w) d = N.testbit w 0) by (rewrite Z; exact H). intros d. reflexivity.
    - intros _ X. apply (f_equal (@length _)) in X. rewrite bits_msb_length in X. discriminate X. }
  unfold rc6_wave in E. set (dt := flat_map rc6_half (bits_msb 16 w)) in *. clearbody dt.
  assert (Step : forall p e k rest, 1 <= k -> place t (p + k) (negb e) -> (forall r, must t r -> p < r < p + k -> False) ->
            must t p -> good t (p + k) (negb e) rest -> good t p e ((negb e, k) :: rest)) by (intros; apply good_cons; auto).
  destruct t; cbn [app level_edges Bool.eqb rc6_half N.add] in E; injection E as _ <-; cbn [app Pos.add Pos.succ].
  - apply (Step 0 true 6); [lia|unfold place; lia|unfold must; lia|unfold must; lia|]. change (0 + 6) with 6. cbn [negb].
    apply (Step 6 false 2); [lia|unfold place; lia|unfold must; lia|unfold must; lia|]. change (6 + 2) with 8. cbn [negb].
    apply (Step 8 true 1); [lia|unfold place; lia|unfold must; lia|unfold must; lia|]. change (8 + 1) with 9. cbn [negb].
    apply (Step 9 false 2); [lia|unfold place; lia|unfold must; lia|unfold must; lia|]. change (9 + 2) with 11. cbn [negb].
    apply (Step 11 true 1); [lia|unfold place; lia|unfold must; lia|unfold must; lia|]. change (11 + 1) with 12. cbn [negb].
    apply (Step 12 false 1); [lia|unfold place; lia|unfold must; lia|unfold must; lia|]. change (12 + 1) with 13. cbn [negb].
    apply (Step 13 true 1); [lia|unfold place; lia|unfold must; lia|unfold must; lia|]. change (13 + 1) with 14. cbn [negb].
    apply (Step 14 false 1); [lia|unfold place; lia|unfold must; lia|unfold must; lia|]. change (14 + 1) with 15. cbn [negb].
    apply (Step 15 true 3); [lia|unfold place; lia|unfold must; lia|unfold must; lia|]. change (15 + 3) with 18. cbn [negb].
    apply G.
  - apply (Step 0 true 6); [lia|unfold place; lia|unfold must; lia|unfold must; lia|]. change (0 + 6) with 6. cbn [negb].
    apply (Step 6 false 2); [lia|unfold place; lia|unfold must; lia|unfold must; lia|]. change (6 + 2) with 8. cbn [negb].
    apply (Step 8 true 1); [lia|unfold place; lia|unfold must; lia|unfold must; lia|]. change (8 + 1) with 9. cbn [negb].
    apply (Step 9 false 2); [lia|unfold place; lia|unfold must; lia|unfold must; lia|]. change (9 + 2) with 11. cbn [negb].
    apply (Step 11 true 1); [lia|unfold place; lia|unfold must; lia|unfold must; lia|]. change (11 + 1) with 12. cbn [negb].
    apply (Step 12 false 1); [lia|unfold place; lia|unfold must; lia|unfold must; lia|]. change (12 + 1) with 13. cbn [negb].
    apply (Step 13 true 1); [lia|unfold place; lia|unfold must; lia|unfold must; lia|]. change (13 + 1) with 14. cbn [negb].
    apply (Step 14 false 1); [lia|unfold place; lia|unfold must; lia|unfold must; lia|]. change (14 + 1) with 15. cbn [negb].
    apply (Step 15 true 1); [lia|unfold place; lia|unfold must; lia|unfold must; lia|]. change (15 + 1) with 16. cbn [negb].
    apply (Step 16 false 2); [lia|unfold place; lia|unfold must; lia|unfold must; lia|]. change (16 + 2) with 18. cbn [negb].
    apply G.
Qed.

(** ** What the decoder makes of the counts *)

(** One edge that counts [k] units: the next state, the clock, and whether a command is reported. *)
Definition move (s : rc6_state) (e : bool) (k ck : N) (s' : rc6_state) (ck' : N) (rep : bool) : Prop :=
  match s with
  | R6Idle => rep = false /\ if e then s' = R6Leading /\ ck' = 0 else s' = R6Idle /\ ck' = ck + k
  | R6Leading => rep = false /\ ck' = ck + k /\ s' = if negb e && (k =? 6) then R6LeadingPaus else R6Idle
  | R6LeadingPaus => rep = false /\ ck' = ck + k /\ s' = if e && (k =? 2) then R6HeaderData 3 else R6Idle
  | R6HeaderData n => rep = false /\ ck' = ck + k /\
      s' = if (ck + k) mod 2 =? 1 then (if n =? 0 then R6Trailing else R6HeaderData (n - 1)) else R6HeaderData n
  | R6Trailing => rep = false /\ ck' = ck + k /\
      s' = if e then (if k =? 2 then R6Data 15 else R6Idle)
           else (if k =? 3 then R6Data 15 else if k =? 1 then R6Trailing else R6Idle)
  | R6Data n =>
      if (ck + k) mod 2 =? 1
      then (if n =? 0 then rep = true /\ s' = R6Idle /\ ck' = 0 else rep = false /\ s' = R6Data (n - 1) /\ ck' = ck + k)
      else rep = false /\ s' = R6Data n /\ ck' = ck + k
  | _ => True
  end.

(** What the clock says and where the edge was: on time with nothing lost, samples left out,
    late by one or two units, or a leader found too late. *)
Definition inv (t : bool) (p : N) (e sk : bool) (s : rc6_state) (ck : N) : Prop :=
  ck <= p <= 52 /\ place t p e /\
  match s with
  | R6Idle => True
  | R6Leading => e = true /\ ck = 0 /\ ((p = 0 /\ sk = false) \/ 8 <= p)
  | R6LeadingPaus => e = false /\ ck = 6 /\ ((p = 6 /\ sk = false) \/ 14 <= p)
  | R6HeaderData n => n <= 3 /\
      ((ck = p /\ p <= 15 /\ sk = false /\ (ck + 2 * n = 13 \/ ck + 2 * n = 14)) \/
       15 <= ck + 2 * n \/ (ck + 8 <= p /\ 13 <= ck + 2 * n))
  | R6Trailing =>
      (ck = p /\ sk = false /\ (p = 15 \/ p = 16)) \/ (ck = 17 /\ 18 <= p) \/ (ck = 18 /\ 20 <= p) \/ 19 <= ck \/
      (ck + 8 <= p /\ 15 <= ck)
  | R6Data n => n <= 15 /\
      ((ck = p /\ sk = false /\ ((n = 15 /\ (p = 18 \/ p = 20)) \/ (n < 15 /\ (ck + 2 * n = 49 \/ ck + 2 * n = 50)))) \/
       51 <= ck + 2 * n \/ (ck + 2 <= p /\ 49 <= ck + 2 * n) \/
       (p = ck + 1 /\ ((ck + 2 * n = 49 /\ e = true) \/ (ck + 2 * n = 50 /\ e = false))) \/
       (ck + 8 <= p /\ 47 <= ck + 2 * n))
  | _ => False
  end.

Lemma inv_move t p e sk s ck u mg k s' ck' rep : inv t p e sk s ck -> 1 <= u -> place t (p + u) (negb e) ->
  (if mg : bool then 3 <= u /\ (exists r, must t r /\ p < r < p + u) else forall r, must t r -> p < r < p + u -> False) ->
  1 <= k <= 6 -> k <= u -> (k <= 3 -> u = k) -> u <= 8 ->
  move s (negb e) k ck s' ck' rep -> inv t (p + u) (negb e) (sk || mg) s' ck' /\ (rep = true -> sk || mg = false /\ p + u = 51).
Proof.
  intros I Hu Hp Hm Hk Hku Hk3 Hu8 Mv. destruct I as (Ip & Ie & I).
  assert (H52 : p + u <= 52) by (unfold place in Hp; lia).
  assert (M1 : u = 2 -> must t (p + 1) -> False).
  { intros -> H. destruct mg; [lia|]. apply (Hm _ H). lia. }
  assert (Mg : mg = true -> exists r, must t r /\ p < r < p + u) by (intros ->; tauto).
  clear Hm. destruct s as [| | |n| |n| |x]; cbn [inv move] in *; try contradiction.
  - (* Idle *)
    destruct Mv as [-> Mv]. split; [|discriminate]. destruct e; cbn [negb] in *.
    + destruct Mv as [-> ->]. split; [lia|auto].
    + destruct Mv as [-> ->]. split; [lia|]. split; [exact Hp|]. unfold place in *. lia.
  - (* Leading *)
    destruct Mv as (-> & -> & ->). split; [|discriminate]. destruct I as (-> & -> & I). cbn [negb andb] in *.
    destruct (N.eqb_spec k 6) as [->|]; [|repeat split; auto; lia].
    split; [lia|]. split; [exact Hp|]. split; [reflexivity|]. split; [lia|].
    destruct I as [[-> ->]|I]; [|right; lia]. left. change (0 + u) with u in *. assert (u = 6) as -> by (unfold place in Hp; lia).
    split; [reflexivity|]. destruct mg; [|reflexivity]. destruct (Mg eq_refl) as (r & Hr & Lr). unfold must in Hr. lia.
  - (* LeadingPaus *)
    destruct Mv as (-> & -> & ->). split; [|discriminate]. destruct I as (-> & -> & I). cbn [negb andb] in *.
    destruct (N.eqb_spec k 2) as [->|]; [|repeat split; auto; lia]. assert (u = 2) as -> by lia.
    split; [lia|]. split; [exact Hp|]. split; [lia|].
    destruct I as [[-> ->]|I]; [left|right; right; lia].
    split; [lia|]. split; [lia|]. split; [|right; lia]. destruct mg; [|reflexivity]. destruct (Mg eq_refl) as (r & Hr & Lr). unfold must in Hr. lia.
  - (* HeaderData *)
    destruct Mv as (-> & -> & ->). split; [|discriminate]. destruct I as (Hn & I).
    assert (A : ck = p -> p <= 15 -> sk = false -> p + u <= 15 -> u <= 2 -> (u = 2 -> p mod 2 = 1) -> sk || mg = false).
    { intros E1 E2 -> E3 E4 E5. destruct mg; [|reflexivity]. destruct (Mg eq_refl) as (r & Hr & Lr).
      assert (u = 2) as -> by lia. specialize (E5 eq_refl). assert (r = p + 1) as -> by lia. clear - Hr Ie Hp E3 E5.
      unfold must in Hr. assert (p = 11 \/ p = 13 \/ p = 7 \/ p = 5) as [->|[->|[->| ->]]] by lia; unfold place in *; destruct e; cbn [negb] in *; lia. }
    destruct ((ck + k) mod 2 =? 1) eqn:Eo; [|].
    + destruct (N.eqb_spec n 0) as [->|N0].
      * split; [lia|]. split; [exact Hp|].
        destruct I as [(E1 & E2 & E3 & E4)|[I|I]].
        -- destruct (N.eq_dec (ck + k) 15) as [E|E].
           ++ left. assert (u = k) by lia. split; [lia|]. split; [apply A; auto; lia|lia].
           ++ right. assert (17 <= ck + k) by lia. destruct (N.eq_dec (ck + k) 17) as [E'|E']; [|lia]. left. split; [lia|]. unfold place in Hp. lia.
        -- right. assert (17 <= ck + k) by lia. destruct (N.eq_dec (ck + k) 17) as [E'|E']; [|lia]. left. split; [lia|]. unfold place in Hp. lia.
        -- do 4 right. lia.
      * split; [lia|]. split; [exact Hp|]. split; [lia|].
        destruct I as [(E1 & E2 & E3 & E4)|[I|I]]; [|lia|lia].
        destruct (N.le_gt_cases (ck + k + 2 * (n - 1)) 14) as [E|E]; [|lia]. left. assert (u = k) by lia. split; [lia|]. split; [lia|].
        split; [apply A; auto; lia|lia].
    + split; [lia|]. split; [exact Hp|]. split; [lia|].
      destruct I as [(E1 & E2 & E3 & E4)|[I|I]]; [|lia|lia].
      destruct (N.le_gt_cases (ck + k + 2 * n) 14) as [E|E]; [|lia]. left. assert (u = k) by lia. split; [lia|]. split; [lia|].
      split; [apply A; auto; lia|lia].
  - (* Trailing *)
    destruct Mv as (-> & -> & ->). split; [|discriminate].
    split; [lia|]. split; [exact Hp|].
    assert (P : ck = p /\ sk = false /\ (p = 15 \/ p = 16) -> k <= 3 ->
      (p + u = 16 \/ p + u = 18) /\ sk || mg = false).
    { intros (_ & -> & E) K. specialize (Hk3 K). subst u.
      assert (Q : p + k = 16 \/ p + k = 18) by (clear - E K Hk Hp; unfold place in Hp; lia).
      split; [exact Q|]. destruct mg; [|reflexivity]. destruct (Mg eq_refl) as (r & Hr & Lr). clear - E Q Hr Lr Ie Hp K.
      destruct E as [->| ->]; [|assert (r = 17) as -> by lia; unfold must in Hr; lia]. assert (k = 3) as -> by lia.
      destruct t; [unfold must in Hr; lia|]. destruct e; cbn [negb] in *; [|unfold place in Ie; lia].
      exfalso. unfold place in Hp. cbn [negb] in Hp. lia. }
    destruct e; cbn [negb] in *.
    + destruct (N.eqb_spec k 3) as [->|N3]; [|destruct (N.eqb_spec k 1) as [->|N1]; [|exact Logic.I]].
      * assert (u = 3) as -> by lia. split; [lia|]. destruct I as [I|[I|[I|[I|I]]]]; [|unfold place in *; lia|lia|lia|lia].
        left. destruct (P I ltac:(lia)) as [P1 P2]. split; [lia|]. split; [exact P2|]. left. lia.
      * assert (u = 1) as -> by lia. destruct I as [I|[I|[I|[I|I]]]]; [| |lia|lia|lia].
        -- left. destruct (P I ltac:(lia)) as [P1 P2]. split; [lia|]. split; [exact P2|]. lia.
        -- right. right. left. unfold place in *. lia.
    + destruct (N.eqb_spec k 2) as [->|N2]; [|exact Logic.I].
      assert (u = 2) as -> by lia. split; [lia|]. destruct I as [I|[I|[I|[I|I]]]]; [|unfold place in *; lia|lia|lia|lia].
      left. destruct (P I ltac:(lia)) as [P1 P2]. split; [lia|]. split; [exact P2|]. left. lia.
  - (* Data *)
    destruct I as (Hn & I). clear Ie.
    assert (A : ck = p -> 18 <= p -> sk = false -> u <= 3 -> (u = 3 -> p = 18) -> (u = 2 -> p mod 2 = 1 \/ p = 18) -> sk || mg = false).
    { intros E1 E2 -> E3 E4 E5. destruct mg; [|reflexivity]. destruct (Mg eq_refl) as (r & Hr & Lr). clear - E2 E3 E4 E5 Hr Lr.
      assert (u = 2 \/ u = 3) as [-> | ->] by lia; [|rewrite (E4 eq_refl) in *; unfold must in Hr; lia].
      specialize (E5 eq_refl). unfold must in Hr. lia. }
    assert (B : ck + 2 * n = 49 -> p = ck + 1 -> u <> 2).
    { intros H1 H2 H3. apply (M1 H3). clear - H1 H2 Hn Ip. unfold must. do 7 right. lia. }
    clear M1 Mg.
    destruct ((ck + k) mod 2 =? 1) eqn:Eo; [destruct (N.eqb_spec n 0) as [->|N0]|].
    + destruct Mv as (-> & -> & ->). split; [split; [lia|auto]|]. intros _.
      destruct I as [(E1 & E2 & E3)|[I|[I|[(I1 & I2)|I]]]]; [|clear - I Eo H52 Ip Hku Hk; lia|clear - I Eo H52 Ip Hku Hk; lia| |clear - I Eo H52 Ip Hku Hk; lia].
      * clear B. destruct (N.eq_dec (ck + k) 51) as [E|E]; [|clear - E E1 E3 Eo H52 Hku Hk; lia].
        assert (u = k) by (clear - E E1 E3 Hk3; lia). subst u. split; [|lia]. apply A; auto; clear - E E1 E3; lia.
      * exfalso. destruct I2 as [[I2 ->]|[I2 ->]]; cbn [negb] in *.
        -- specialize (B ltac:(lia) I1). clear - B I1 I2 Eo H52 Hku Hk3 Hk. lia.
        -- clear B. assert (p + u = 52) by (clear - I1 I2 Eo H52 Hku Hk3 Hk; lia). clear - H Hp. unfold place in Hp. lia.
    + destruct Mv as (-> & -> & ->). split; [|discriminate]. split; [lia|]. split; [exact Hp|]. split; [lia|].
      destruct I as [(E1 & E2 & E3)|[I|[I|[(I1 & I2)|I]]]].
      * destruct (N.le_gt_cases (ck + k + 2 * (n - 1)) 50) as [E|E]; [|right; left; clear - E; lia].
        left. assert (u = k) by (clear - E E1 E3 Hk3 Hk Eo; lia). subst u. split; [lia|].
        split; [apply A; auto; clear - E E1 E3 Eo Hk N0; lia|]. right. clear - E E1 E3 Eo Hk N0 Hn Hp. unfold place in Hp. lia.
      * right. left. clear - I Eo Hk N0. lia.
      * right. right. left. clear - I Eo Hk N0 Hku. lia.
      * destruct I2 as [[I2 ->]|[I2 ->]]; cbn [negb] in *.
        -- specialize (B I2 I1). right. left. clear - B I1 I2 Eo N0 Hk3 Hk. lia.
        -- destruct (N.eq_dec k 1) as [->|K1]; [|right; left; clear - K1 I2 Eo N0 Hk; lia].
           right. right. right. left. clear - I1 I2 Hk3 N0. lia.
      * do 4 right. clear - I Eo Hk N0 Hku. lia.
    + destruct Mv as (-> & -> & ->). split; [|discriminate]. split; [lia|]. split; [exact Hp|]. split; [lia|].
      destruct I as [(E1 & E2 & E3)|[I|[I|[(I1 & I2)|I]]]].
      * destruct (N.le_gt_cases (ck + k + 2 * n) 50) as [E|E]; [|right; left; clear - E; lia].
        left. assert (u = k) by (clear - E E1 E3 Hk3 Hk Eo; lia). subst u. split; [lia|].
        split; [apply A; auto; clear - E E1 E3 Eo Hk; lia|]. clear - E E1 E3 Eo Hk Hn Hp. unfold place in Hp. destruct E3 as [E3|E3]; [left|right]; lia.
      * right. left. clear - I Eo Hk. lia.
      * right. right. left. clear - I Eo Hk Hku. lia.
      * destruct I2 as [[I2 ->]|[I2 ->]]; cbn [negb] in *.
        -- destruct (N.eq_dec k 1) as [->|K1]; [|right; left; clear - K1 I2 Eo Hk; lia].
           right. right. right. left. clear - I1 I2 Hk3. lia.
        -- right. left. clear - I2 Eo Hk. lia.
      * do 4 right. clear - I Eo Hk Hku. lia.
Qed.

(** ** The times of the edges *)

(** [d] ticks for [u] units, the sum of [2 * j + 1] intervals within 12 percent. *)
Definition timed (freq u j d : N) : Prop :=
  2 * j + 1 <= u /\ 100 * d <= 112 * nominal freq (444 * u) /\ 88 * (444 * freq * u) <= (100 * d + 88 * (2 * j + 1)) * 1000000.

Lemma timed_near freq n d : 1 <= n -> near freq (444 * n) 12 d -> timed freq n 0 d.
Proof.
  intros Hn [H2 H1]. split; [lia|]. split; [exact H2|]. unfold nominal in H1.
  pose proof (N.div_mod (444 * n * freq) 1000000 ltac:(lia)) as E. pose proof (N.mod_lt (444 * n * freq) 1000000 ltac:(lia)) as L.
  replace (444 * freq * n) with (444 * n * freq) by lia. set (q := 444 * n * freq / 1000000) in *. clearbody q.
  set (y := 444 * n * freq) in *. clearbody y. set (z := y mod 1000000) in *. clearbody z. lia.
Qed.

Lemma timed_sum freq u j d n2 d2 n3 d3 : timed freq u j d -> timed freq n2 0 d2 -> timed freq n3 0 d3 ->
  timed freq (u + n2 + n3) (j + 1) (d + d2 + d3).
Proof.
  intros (A1 & A2 & A3) (B1 & B2 & B3) (C1 & C2 & C3). split; [lia|]. split.
  - pose proof (nominal_sum freq (444 * u) (444 * n2)). pose proof (nominal_sum freq (444 * u + 444 * n2) (444 * n3)).
    replace (444 * (u + n2 + n3)) with (444 * u + 444 * n2 + 444 * n3) by lia. lia.
  - rewrite !N.mul_add_distr_l. lia.
Qed.

Lemma timed_count m freq u j d v : timebase m freq -> exact_rate m freq -> 38000 <= freq -> timed freq u j d ->
  spans_get (spans_of m freq rc6_pulses) d = Some v ->
  1 <= v + 1 <= 6 /\ v + 1 <= u /\ (v + 1 <= 3 -> u = v + 1) /\ u <= 8.
Proof.
  intros Hm Hx Hlo (T1 & T2 & T3) E. pose proof (rc6_counts_some m freq d Hm Hx) as C. rewrite E in C. set (k := v + 1) in *. clearbody k.
  assert (K : 1 <= k <= 6 /\ near freq (444 * k) 12 d /\ forall i, 1 <= i < k -> ~ near freq (444 * i) 12 d).
  { destruct C as [C|(_ & -> & _)]; [exact C|]. exfalso. clear - T1 T3 Hlo. nia. }
  destruct K as (K1 & [K3 K2] & K4). clear C E.
  assert (U : 100 * d * 1000000 <= 112 * (444 * freq * k)).
  { unfold nominal in K3. pose proof (N.div_mod (444 * k * freq) 1000000 ltac:(lia)) as E.
    replace (444 * freq * k) with (444 * k * freq) by lia. set (q := 444 * k * freq / 1000000) in *. clearbody q. lia. }
  assert (Lku : k <= u).
  { destruct (N.le_gt_cases k u) as [H|H]; [exact H|]. exfalso. apply (K4 u); [lia|]. split; [exact T2|].
    pose proof (nominal_le freq (444 * u) (444 * k) ltac:(lia)). lia. }
  assert (J : 88 * (444 * freq * u) <= 112 * (444 * freq * k) + 88 * (2 * j + 1) * 1000000) by lia.
  clear T2 T3 K2 K3 K4 U Hm Hx. set (y := 444 * freq) in *. assert (Y : 16872000 <= y) by (unfold y; lia). clearbody y.
  split; [exact K1|]. split; [exact Lku|].
  assert (W : forall a, a <= u -> y * a + (u - a) * y = y * u) by (intros a Ha; rewrite (N.mul_comm (u - a)), <- N.mul_add_distr_l; f_equal; lia).
  split.
  - intros K. destruct (N.eq_dec u k) as [->|Hne]; [reflexivity|exfalso].
    assert (k = 1 \/ k = 2 \/ k = 3) as [->|[->| ->]] by lia.
    + destruct (N.eq_dec u 2) as [->|]; [lia|]. pose proof (W 3 ltac:(lia)). assert (X : (u - 3) * 16872000 <= (u - 3) * y) by (apply N.mul_le_mono_l; exact Y).
      set (z := (u - 3) * y) in *. clearbody z. set (yu := y * u) in *. clearbody yu. lia.
    + destruct (N.eq_dec u 3) as [->|]; [lia|]. pose proof (W 4 ltac:(lia)). assert (X : (u - 4) * 16872000 <= (u - 4) * y) by (apply N.mul_le_mono_l; exact Y).
      set (z := (u - 4) * y) in *. clearbody z. set (yu := y * u) in *. clearbody yu. lia.
    + destruct (N.eq_dec u 4) as [->|]; [lia|]. pose proof (W 5 ltac:(lia)). assert (X : (u - 5) * 16872000 <= (u - 5) * y) by (apply N.mul_le_mono_l; exact Y).
      set (z := (u - 5) * y) in *. clearbody z. set (yu := y * u) in *. clearbody yu. lia.
  - destruct (N.le_gt_cases u 8) as [H|H]; [exact H|exfalso].
    pose proof (W 9 ltac:(lia)). assert (X : (u - 9) * 16872000 <= (u - 9) * y) by (apply N.mul_le_mono_l; exact Y).
    assert (y * k <= y * 6) by (apply N.mul_le_mono_l; lia).
    set (z := (u - 9) * y) in *. clearbody z. set (yu := y * u) in *. clearbody yu. set (yk := y * k) in *. clearbody yk. lia.
Qed.

(** ** Along the frame *)

Section Lost.
  Variables (b : build) (m : mono) (freq : N).
  Hypothesis (Hm : timebase m freq) (Hx : exact_rate m freq) (Hlo : 38000 <= freq) (Hu : 8 <= usize_bits b).
  Notation ss := (spans_of m freq rc6_pulses).
  Notation D := (rc6_dec b).
  Context {C : Type} (into : rc6_command -> C).
  Notation run := (@run_edges D C into).
  Notation ev := (@event_edge D C into).
  Notation st s da h t ck pv := (@mkRecv D (mkRc6Dec s da h t ck ss) pv).

  Lemma f32 : freq < M32.
  Proof using Hx. exact (proj1 Hx). Qed.
  Lemma low20 : 20000 <= freq.
  Proof using Hlo. clear - Hlo. lia. Qed.

  (** A receiver in state [s], its clock at [ck]. *)
  Definition at_state (s : rc6_state) (ck : N) (r : receiver D) : Prop := exists da h t pv, r = st s da h t ck pv.

  Lemma ev_move r s ck e d v r' o : at_state s ck r -> spans_get ss d = Some v -> v < 8 -> ck < 200 ->
    match s with R6HeaderData n => n <= 3 | R6Data n => n <= 15 | R6Done | R6Err _ => False | _ => True end ->
    ev r d e = Val (r', o) ->
    exists s' ck' rep, move s e (v + 1) ck s' ck' rep /\ at_state s' ck' r' /\ (rep = false -> o = ROk None).
  Proof using Hm Hx Hlo Hu.
    intros (da & h & t & pv & ->) Hv V8 Hck Hs E.
    rewrite (rc6_ev_hit b m freq f32 into (low freq low20) Hu s da h t ck pv e d (v + 1)) in E; [|rewrite Hv; f_equal; lia|lia|lia].
    unfold at_state. set (k := v + 1) in *. clearbody k.
    assert (Q : forall s' ck' rep (r1 : receiver D) (o1 : outcome C) da' h' t', Val (r1, o1) = Val (r', o) -> r1 = st s' da' h' t' ck' pv ->
      move s e k ck s' ck' rep -> (rep = false -> o1 = ROk None) ->
      exists s' ck' rep, move s e k ck s' ck' rep /\ (exists da h t pv, r' = st s' da h t ck' pv) /\ (rep = false -> o = ROk None)).
    { intros s' ck' rep r1 o1 da' h' t' E1 E2 M O. injection E1 as -> ->. exists s', ck', rep. split; [exact M|]. split; [|exact O].
      exists da', h', t', pv. exact E2. }
    destruct s as [| | |n| |n| |x]; try contradiction; cbn [rc6_transition r6_state r6_data r6_headerdata r6_toggle r6_clock r6_spans] in E; cbn [move] in Q |- *.
    - destruct e; cbn [bind rc6_to_state r6_state] in E; (eapply Q; [exact E|reflexivity|cbn; auto|auto]).
    - destruct (N.eqb_spec k 6) as [->|K6].
      + destruct e; cbn [bind rc6_to_state r6_state] in E; (eapply Q; [exact E|reflexivity|cbn; auto|auto]).
      + assert (E' : Val (st R6Idle da h t (ck + k) pv, ROk None) = Val (r', o)).
        { rewrite <- E. destruct e; [reflexivity|]. destruct k as [|[[]|[[]|[]|]|]]; try reflexivity. elim K6; reflexivity. }
        eapply Q; [exact E'|reflexivity| |auto]. cbn. rewrite andb_false_r. auto.
    - destruct (N.eqb_spec k 2) as [->|K2].
      + destruct e; cbn [bind rc6_to_state r6_state] in E; (eapply Q; [exact E|reflexivity|cbn; auto|auto]).
      + assert (E' : Val (st R6Idle da h t (ck + k) pv, ROk None) = Val (r', o)).
        { rewrite <- E. destruct e; [|reflexivity]. destruct k as [|[[]|[[]|[]|]|]]; try reflexivity. elim K2; reflexivity. }
        eapply Q; [exact E'|reflexivity| |auto]. cbn. rewrite andb_false_r. auto.
    - destruct ((ck + k) mod 2 =? 1).
      + assert (X : exists m0, (if e then Val 0 else ushl1 (overflow_checks b) 16 n) = Val m0).
        { destruct e; [eauto|]. rewrite ushl1_val by lia. eauto. }
        destruct X as (m0 & X). rewrite X in E. cbn [bind] in E. destruct (N.eqb_spec n 0) as [->|N0].
        * cbn [bind rc6_to_state r6_state] in E. eapply Q; [exact E|reflexivity|cbn; auto|auto].
        * rewrite usub_val in E by lia. cbn [bind rc6_to_state r6_state] in E.
          eapply Q; [exact E|reflexivity|cbn; auto|auto].
      + cbn [bind rc6_to_state r6_state] in E. eapply Q; [exact E|reflexivity|cbn; auto|auto].
    - destruct (N.eqb_spec k 3) as [->|K3]; [|destruct (N.eqb_spec k 2) as [->|K2]; [|destruct (N.eqb_spec k 1) as [->|K1]]].
      + destruct e; cbn [bind rc6_to_state r6_state] in E; (eapply Q; [exact E|reflexivity|cbn; auto|auto]).
      + destruct e; cbn [bind rc6_to_state r6_state] in E; (eapply Q; [exact E|reflexivity|cbn; auto|auto]).
      + destruct e; cbn [bind rc6_to_state r6_state] in E; (eapply Q; [exact E|reflexivity|cbn; auto|auto]).
      + assert (E' : Val (st R6Idle da h t (ck + k) pv, ROk None) = Val (r', o)).
        { rewrite <- E. destruct e, k as [|[[]|[]|]]; try reflexivity; exfalso; (apply K1; reflexivity) || (apply K2; reflexivity) || (apply K3; reflexivity). }
        eapply Q; [exact E'|reflexivity| |auto]. cbn. destruct e; auto.
    - destruct ((ck + k) mod 2 =? 1).
      + destruct (N.eqb_spec n 0) as [->|N0].
        * destruct e; cbn [bind rc6_to_state r6_state rc6_reset r6_toggle r6_spans] in E;
            (eapply (Q _ _ true); [exact E|reflexivity|cbn; auto|discriminate]).
        * assert (X : exists d2, rc6_to_state (r6_state d2) = Receiving /\ (exists da', d2 = mkRc6Dec (R6Data (n - 1)) da' h t (ck + k) ss) /\
            (if e then let* n1 := usub (overflow_checks b) 32 n 1 in Val (mkRc6Dec (R6Data n1) da h t (ck + k) ss)
             else let* m0 := ushl1 (overflow_checks b) 16 n in let* n1 := usub (overflow_checks b) 32 n 1 in
               Val (mkRc6Dec (R6Data n1) (N.lor da m0) h t (ck + k) ss)) = Val d2).
          { destruct e; rewrite ?ushl1_val, usub_val by lia; cbn [bind]; (eexists; split; [|split; [|reflexivity]]; [reflexivity|eauto]). }
          destruct X as (d2 & X1 & (da' & X2) & X3). rewrite X3 in E. cbn [bind] in E. rewrite X1 in E. subst d2.
          eapply Q; [exact E|reflexivity|cbn; auto|auto].
      + cbn [bind rc6_to_state r6_state] in E. eapply Q; [exact E|reflexivity|cbn; auto|auto].
  Qed.

  (** The next edge of the frame, [u] units after the last one. *)
  Lemma ev_inv t p e sk s ck r u j d mg r' o : inv t p e sk s ck -> at_state s ck r -> 1 <= u -> place t (p + u) (negb e) ->
    (if mg : bool then 3 <= u /\ (exists r, must t r /\ p < r < p + u) else forall r, must t r -> p < r < p + u -> False) ->
    timed freq u j d -> ev r d (negb e) = Val (r', o) ->
    exists s' ck', inv t (p + u) (negb e) (sk || mg) s' ck' /\ at_state s' ck' r' /\ (o = ROk None \/ (sk || mg = false /\ p + u = 51)).
  Proof using Hm Hx Hlo Hu.
    intros I A Hu1 Hp Hmg T E. destruct (spans_get ss d) as [v|] eqn:Ev.
    - destruct (timed_count m freq u j d v Hm Hx Hlo T Ev) as (K1 & K2 & K3 & K4).
      destruct (ev_move r s ck (negb e) d v r' o A Ev ltac:(lia)) as (s' & ck' & rep & Mv & A' & O); [| |exact E|].
      + destruct I as (I & _). lia.
      + destruct I as (_ & _ & I). destruct s; try exact Logic.I; try tauto.
      + destruct (inv_move t p e sk s ck u mg (v + 1) s' ck' rep I Hu1 Hp Hmg K1 K2 K3 K4 Mv) as [I' R].
        exists s', ck'. split; [exact I'|]. split; [exact A'|]. destruct rep; [right; apply R; reflexivity|left; apply O; reflexivity].
    - destruct A as (da & h & t0 & pv & ->).
      destruct (uncounted_ev b m freq Hm f32 low20 Hu into _ _ d r' o (eq_refl : r6_spans (rv_dec (st s da h t0 ck pv)) = ss) Ev E) as [-> ->].
      cbn [rv_dec r6_toggle rv_prev]. destruct I as (I & Ie & _).
      exists (if negb e then R6Leading else R6Idle), 0. split; [|split; [unfold at_state; eauto 6|auto]].
      split; [unfold place in Hp; lia|]. split; [exact Hp|]. destruct e; cbn [negb]; [exact Logic.I|].
      split; [reflexivity|]. split; [reflexivity|]. right. cbn [negb] in Hp. unfold place in *. lia.
  Qed.

  (** An interval as it was sent. *)
  Definition natural (nom act : edge) : Prop := fst act = fst nom /\ timed freq (snd nom) 0 (snd act).

  Lemma short_rest t p e noms h h' : good t p e noms -> 51 <= p -> Forall2 natural noms h -> misses h h' -> length h' = length h.
  Proof using Hm Hx Hlo Hu.
    intros G Hp F M. assert (L : (length h <= 1)%nat).
    { rewrite <- (forall2_length _ _ _ F). inversion G as [|? ? n rest Hn Pl _ _ G2]; subst; [cbn; lia|].
      inversion G2 as [|? ? n2 rest2 Hn2 Pl2 _ _ _]; subst; [cbn; lia|]. unfold place in Pl2. lia. }
    destruct h as [|x [|y h]]; [| |cbn in L; lia].
    - inversion M; reflexivity.
    - inversion M as [|? ? h1 M1|]; subst. inversion M1; reflexivity.
  Qed.

  Lemma lost_run h1 h' : misses h1 h' -> forall e' d h, h1 = (e', d) :: h ->
    forall t p e sk s ck r u j mg noms r' os, inv t p e sk s ck -> at_state s ck r -> e' = negb e ->
    1 <= u -> place t (p + u) (negb e) ->
    (if mg : bool then 3 <= u /\ (exists r, must t r /\ p < r < p + u) else forall r, must t r -> p < r < p + u -> False) ->
    timed freq u j d -> good t (p + u) (negb e) noms -> Forall2 natural noms h -> run r h' = Val (r', os) ->
    commands os = [] \/ (sk || mg = false /\ length h' = length h1).
  Proof using Hm Hx Hlo Hu.
    induction 1 as [|x h0 h0' M IH|e0 d1 d2 d3 h0 h0' M IH]; intros e' d h Eh t p e sk s ck r u j mg noms r' os I A He Hu1 Hp Hmg T G F E; [discriminate Eh| |].
    - injection Eh as -> ->. subst e'. apply (run_first b m freq Hm f32 low20 Hu into) in E.
      destruct E as (r1 & o & os1 & Ev & E & ->).
      destruct (ev_inv t p e sk s ck r u j d mg r1 o I A Hu1 Hp Hmg T Ev) as (s' & ck' & I' & A' & O).
      assert (Rest : commands os1 = [] \/ (sk || mg = false /\ length h0' = length h)).
      { destruct h as [|[e2 d2] h2].
        - inversion M; subst. left. cbn [run_edges] in E. injection E as _ <-. reflexivity.
        - inversion F as [|[en n] ? noms' ? [F1 F2] F3]; subst. cbn [fst snd] in F1, F2. subst e2.
          inversion G as [|? ? n0 rest Hn Pl Nm _ G']; subst.
          destruct (IH _ d2 h2 eq_refl t (p + u) (negb e) (sk || mg) s' ck' r1 n 0 false noms' r' os1 I' A' eq_refl Hn Pl Nm F2 G' F3 E) as [K|[K1 K2]];
            [left; exact K|right]. rewrite orb_false_r in K1. auto. }
      destruct O as [->|[O1 O2]].
      + change (commands (ROk None :: os1)) with (commands os1). destruct Rest as [K|[K1 K2]]; [left; exact K|right]. cbn [length]. auto.
      + right. split; [exact O1|]. cbn [length]. f_equal. apply (short_rest t (p + u) (negb e) noms h h0' G); [lia|exact F|exact M].
    - injection Eh as -> -> <-. subst e'.
      inversion F as [|[en n2] ? noms1 ? [F1 F2] F3]; subst. inversion F3 as [|[en3 n3] ? noms2 ? [F4 F5] F6]; subst.
      cbn [fst snd] in F1, F2, F4, F5. subst.
      inversion G as [|? ? n0 rest Hn Pl Nm Mu G']; subst. inversion G' as [|? ? n1 rest1 Hn1 Pl1 Nm1 Mu1 G'']; subst.
      rewrite !negb_involutive in *.
      destruct (IH (negb e) (d + d2 + d3) h0 eq_refl t p e sk s ck r (u + n2 + n3) (j + 1) true noms2 r' os I A eq_refl) as [K|[K _]].
      + lia.
      + rewrite !N.add_assoc. exact Pl1.
      + split; [lia|]. destruct Mu as [Mu|Mu]; [exists (p + u)|exists (p + u + n2)]; (split; [exact Mu|lia]).
      + apply timed_sum; auto.
      + rewrite !N.add_assoc. exact G''.
      + exact F6.
      + exact E.
      + left. exact K.
      + rewrite orb_true_r in K. discriminate K.
  Qed.

  (** After a pause. *)
  Lemma lost_frame h1 h' : misses h1 h' -> forall g h, h1 = (true, g) :: h ->
    forall t p (sk : bool) noms (r : receiver D) r' os, r6_spans (rv_dec r) = ss -> longer freq 2664 12 g -> (p = 0 /\ sk = false) \/ 8 <= p ->
    place t p true -> good t p true noms -> Forall2 natural noms h -> run r h' = Val (r', os) ->
    commands os = [] \/ (sk = false /\ length h' = length h1).
  Proof using Hm Hx Hlo Hu.
    induction 1 as [|x h0 h0' M IH|e0 d1 d2 d3 h0 h0' M IH]; intros g h Eh t p sk noms r r' os Sr Hg Hp Pl G F E; [discriminate Eh| |].
    - injection Eh as -> ->. apply (run_first b m freq Hm f32 low20 Hu into) in E.
      destruct E as (r1 & o & os1 & Ev & E & ->).
      destruct (rc6_gap b m freq Hm f32 into r g Sr Hg) as (t0 & Et). rewrite Et in Ev. injection Ev as <- <-.
      change (commands (ROk None :: os1)) with (commands os1).
      destruct h as [|[e2 d2] h2].
      + inversion M; subst. left. cbn [run_edges] in E. injection E as _ <-. reflexivity.
      + inversion F as [|[en n] ? noms' ? [F1 F2] F3]; subst. cbn [fst snd] in F1, F2. subst e2.
        inversion G as [|? ? n0 rest Hn Pl2 Nm _ G']; subst.
        assert (I : inv t p true sk R6Leading 0) by (split; [unfold place in Pl; lia|]; split; [exact Pl|]; auto).
        destruct (lost_run _ _ M (negb true) d2 h2 eq_refl t p true sk R6Leading 0 (st R6Leading 0 0 t0 0 (rv_prev r)) n 0 false noms' r' os1 I) as [K|[K1 K2]];
          [unfold at_state; eauto 6|reflexivity|exact Hn|exact Pl2|exact Nm|exact F2|exact G'|exact F3|exact E|left; exact K|right].
        rewrite orb_false_r in K1. split; [exact K1|]. cbn [length] in *. f_equal. exact K2.
    - injection Eh as -> -> <-.
      inversion F as [|[en n2] ? noms1 ? [F1 F2] F3]; subst. inversion F3 as [|[en3 n3] ? noms2 ? [F4 F5] F6]; subst.
      cbn [fst snd] in F1, F2, F4, F5. subst.
      inversion G as [|? ? n0 rest Hn Pl1 Nm Mu G']; subst. inversion G' as [|? ? n1 rest1 Hn1 Pl2 Nm1 Mu1 G'']; subst.
      cbn [negb] in *.
      destruct (IH (g + d2 + d3) h0 eq_refl t (p + n2 + n3) true noms2 r r' os Sr) as [K|[K _]].
      + apply (longer_more _ _ _ g _ Hg). lia.
      + right. clear - Hn Hn1 Pl1 Pl2 Hp. unfold place in *. lia.
      + exact Pl2.
      + exact G''.
      + exact F6.
      + exact E.
      + left. exact K.
      + discriminate K.
  Qed.
End Lost.
