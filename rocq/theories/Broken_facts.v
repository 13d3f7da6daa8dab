(** * Lemmas: transmissions that break off *)
From Coq Require Import NArith ZArith List Bool Lia ZifyBool ZifyNat ZifyN.
From Verif Require Import Machine Time Decoder Nec Rc5 Rc6 Denon Sbp Receiver Spec Bits Time_facts Run_facts Nec_facts Denon_facts
  Rc5_facts Spec_receiver Spec_sound Sound_facts Biphase_facts Spec_cross Cross_facts Traffic_facts Spec_damage Damage_facts Spec_broken.
Import ListNotations.
Open Scope N_scope.

(** The series lemma of C67 with broken transmissions in it. *)
Lemma series_broken {D : decoder} {C : Type} (into : dcmd D -> C) (fit : list edge -> Prop) freq (heard : transmission -> list C) r0 :
  (forall h1 h2, fit (h1 ++ h2) -> fit h1) ->
  (forall h t gap body r os, sent freq t body -> longer freq 13500 8 gap -> fit (h ++ (true, gap) :: body) ->
     @run_edges D C into r0 (h ++ (true, gap) :: body) = Val (r, os) -> commands (skipn (length h) os) = heard t) ->
  (forall h t gap body d r1 os1 r x, sent freq t body -> longer freq 13500 8 gap -> near freq (end_mark t) 12 d ->
     fit ((h ++ (true, gap) :: body) ++ [(false, d)]) ->
     @run_edges D C into r0 (h ++ (true, gap) :: body) = Val (r1, os1) ->
     @run_edges D C into r0 ((h ++ (true, gap) :: body) ++ [(false, d)]) = Val (r, os1 ++ [ROk (Some x)]) -> False) ->
  (forall h t gap p x rest r os, sent freq t (p ++ x :: rest) -> longer freq 13500 8 gap -> fit (h ++ (true, gap) :: p) ->
     @run_edges D C into r0 (h ++ (true, gap) :: p) = Val (r, os) -> commands (skipn (length h) os) = []) ->
  (forall h t gap p x rest d r1 os1 r c, sent freq t (p ++ (false, x) :: rest) -> rest <> [] -> 1 <= d -> d <= x -> longer freq 13500 8 gap ->
     fit ((h ++ (true, gap) :: p) ++ [(false, d)]) ->
     @run_edges D C into r0 (h ++ (true, gap) :: p) = Val (r1, os1) ->
     @run_edges D C into r0 ((h ++ (true, gap) :: p) ++ [(false, d)]) = Val (r, os1 ++ [ROk (Some c)]) -> False) ->
  forall hist l r os, noisy_traffic freq l -> fit (hist ++ on_air (map snd l)) ->
  @run_edges D C into r0 (hist ++ on_air (map snd l)) = Val (r, os) ->
  commands (skipn (length hist) os) = whole_said heard l.
Proof.
  intros Hfit Hone Hend Hpart Hcut hist l r os Ht Hf E.
  assert (Ea : forall k, on_air (map snd k) = flat_map (fun y : bool * (transmission * N * list edge) => (true, snd (fst (snd y))) :: snd (snd y)) k).
  { clear. unfold on_air. induction k as [|y k IH]; cbn [map flat_map]; [reflexivity|]. rewrite IH. reflexivity. }
  rewrite Ea in Hf, E. unfold whole_said.
  refine (series_heard into fit _ _ _ r0 Hfit _ hist l r os Ht Hf E).
  clear hist l r os Ht Hf E Ea. intros h [[|] [[t gap] evs]] r os [Hg Hs] Hf E; cbn [fst snd] in *.
  - destruct Hs as [Hs|(body & d & -> & Hs & Hd)]; [exact (Hone h t gap evs r os Hs Hg Hf E)|].
    change ((true, gap) :: body ++ [(false, d)]) with (((true, gap) :: body) ++ [(false, d)]) in Hf, E. rewrite app_assoc in Hf.
    refine (heard_ended into r0 h ((true, gap) :: body) d r os _ _ _ E).
    + intros r1 os1. apply Hone; auto. exact (Hfit _ _ Hf).
    + intros r1 os1 r' x. apply (Hend h t); auto.
  - destruct Hs as (p & [e x] & rest & Hs & [->|(Ex & Hr & d & Hd1 & Hd & ->)]).
    + exact (Hpart h t gap p (e, x) rest r os Hs Hg Hf E).
    + cbn [fst snd] in Ex, Hd. subst e.
      change ((true, gap) :: p ++ [(false, d)]) with (((true, gap) :: p) ++ [(false, d)]) in Hf, E. rewrite app_assoc in Hf.
      refine (heard_ended into r0 h ((true, gap) :: p) d r os _ _ _ E).
      * intros r1 os1. apply (Hpart h t gap p (false, x) rest); auto. exact (Hfit _ _ Hf).
      * intros r1 os1 r' c. exact (Hcut h t gap p x rest d r1 os1 r' c Hs Hr Hd1 Hd Hg Hf).
Qed.

(** If on the whole transmission nothing but the last edge can report a command, then nothing is
    reported before the last edge. *)
Lemma part_quiet {D : decoder} {C : Type} (into : dcmd D -> C) r0 h gap p x rest r os r' os' :
  @run_edges D C into r0 (h ++ (true, gap) :: p) = Val (r, os) ->
  @run_edges D C into r0 (h ++ (true, gap) :: p ++ x :: rest) = Val (r', os') ->
  commands (skipn (length h) (removelast os')) = [] ->
  commands (skipn (length h) os) = [].
Proof.
  intros E E' Q. change ((true, gap) :: p ++ x :: rest) with (((true, gap) :: p) ++ x :: rest) in E'.
  rewrite app_assoc, run_edges_app, E in E'. cbn [bind] in E'.
  destruct (@run_edges D C into r (x :: rest)) as [[r2 os2]| |] eqn:E2; cbn [bind] in E'; try discriminate. injection E' as <- <-.
  pose proof (run_edges_length into _ _ _ _ E2) as L2. pose proof (run_edges_length into _ _ _ _ E) as L. rewrite app_length in L.
  assert (N2 : os2 <> []) by (intros ->; discriminate L2).
  unfold outcome in *. rewrite removelast_app in Q by exact N2. rewrite skipn_app, commands_app in Q. apply app_eq_nil in Q. apply Q.
Qed.

Lemma removelast_quiet {C E} n (os : list (result (option C) E)) : commands (skipn n os) = [] -> commands (skipn n (removelast os)) = [].
Proof.
  intros Q. destruct os as [|o os] using rev_ind; [exact Q|]. rewrite removelast_last.
  rewrite skipn_app, commands_app in Q. apply app_eq_nil in Q. apply Q.
Qed.

Lemma own_quiet {C E} (os : list (result (option C) E)) o n c h :
  length os = h -> (forall x, o <> ROk (Some x)) -> commands (skipn h (removelast (os ++ o :: repeat (ROk None) n ++ [c]))) = [].
Proof.
  intros <- Ho. change (o :: repeat (ROk None) n ++ [c]) with ((o :: repeat (ROk None) n) ++ [c]).
  rewrite app_assoc, removelast_last, skipn_app, skipn_all, Nat.sub_diag. cbn [app skipn].
  change (o :: repeat (ROk None) n) with ([o] ++ repeat (ROk None) n).
  rewrite commands_app, commands_none. destruct o as [[x|]|]; [destruct (Ho x eq_refl)|reflexivity|reflexivity].
Qed.
Lemma own_quiet' {C E} (os : list (result (option C) E)) n c h :
  length os = h -> commands (skipn h (removelast (os ++ repeat (ROk None) n ++ [c]))) = [].
Proof.
  intros <-. rewrite app_assoc, removelast_last, skipn_app, skipn_all, Nat.sub_diag. cbn [app skipn]. apply commands_none.
Qed.

(** ** No interval of a transmission is long *)

Lemma near_short freq p t d : freq < 2 ^ 32 -> p <= 13500 -> t <= 60 -> near freq p t d -> d < 2 ^ 31.
Proof.
  intros Hf Hp Ht [Hn _]. pose proof (nominal_le freq p 13500 Hp) as L.
  assert (B : nominal freq 13500 <= 58000000) by (unfold nominal; change (2 ^ 32) with 4294967296 in Hf; apply N.div_le_upper_bound; lia).
  set (y := nominal freq 13500) in *. set (x := nominal freq p) in *. clearbody x y. change (2 ^ 31) with 2147483648. nia.
Qed.

Lemma pairs_short freq table ps : freq < 2 ^ 32 -> forallb (fun x => (fst x <=? 13500) && (snd x <=? 60)) table = true ->
  Forall (among freq table) (map period ps) -> short (pair_edges ps).
Proof.
  intros Hf Ht. induction ps as [|[a c] ps IH]; cbn [map pair_edges]; intros F; [constructor|]. inversion F as [|? ? (p & t & Hi & Hn) F']; subst.
  rewrite forallb_forall in Ht. apply Ht in Hi. cbn [fst snd] in Hi. apply andb_true_iff in Hi. destruct Hi as [H1 H2].
  apply N.leb_le in H1. apply N.leb_le in H2. pose proof (near_short _ _ _ _ Hf H1 H2 Hn) as K. unfold period in K. cbn [fst snd] in K.
  constructor; [cbn [snd]; lia|]. constructor; [cbn [snd]; lia|]. apply IH; auto.
Qed.

Lemma bound_short freq p (l : list edge) : freq < 2 ^ 32 -> p <= 13500 -> Forall (fun e : edge => 100 * snd e <= 112 * nominal freq p) l -> short l.
Proof.
  intros Hf Hp F. eapply Forall_impl; [|exact F]. cbv beta. intros e He. pose proof (nominal_le freq p 13500 Hp) as L.
  assert (B : nominal freq 13500 <= 58000000) by (unfold nominal; change (2 ^ 32) with 4294967296 in Hf; apply N.div_le_upper_bound; lia).
  change (2 ^ 31) with 2147483648. lia.
Qed.

Lemma sent_short freq t evs : freq < 2 ^ 32 -> sent freq t evs -> short evs.
Proof.
  intros Hf Hs. apply sent_class in Hs. destruct t.
  - destruct Hs as (w & ps & -> & F & _). apply nec_all in F. eapply pairs_short; [exact Hf| |exact F]. reflexivity.
  - destruct Hs as (w & ps & -> & F & _). apply nec_all in F. eapply pairs_short; [exact Hf| |exact F]. reflexivity.
  - destruct Hs as (w & ps & -> & F & _). apply nec_all in F. eapply pairs_short; [exact Hf| |exact F]. reflexivity.
  - destruct Hs as (w & ps & -> & F & _). apply nec_all in F. eapply pairs_short; [exact Hf| |exact F]. reflexivity.
  - destruct Hs as (a & c & ps & -> & F & _). apply sbp_all in F. eapply pairs_short; [exact Hf| |exact F]. reflexivity.
  - destruct Hs as (w & ps & -> & F & _). apply denon_frame_periods in F. eapply pairs_short; [exact Hf| |exact F]. reflexivity.
  - destruct Hs as (w & gap & n & noms & acts & El & Ee & F). injection Ee as <-. destruct (rc5_noms w n noms El) as [B _].
    apply (bound_short freq 1778); auto; [lia|]. eapply (biphase_acts_bound freq 889 rc5_tol 2 1778); [|exact B|exact F].
    intros k H1 H2. unfold rc5_tol. destruct (k =? 1); lia.
  - destruct Hs as (tg & data & gap & n & noms & lead & acts & El & Ee & Hl & F). injection Ee as ->. destruct (rc6_noms tg data n noms El) as [B _].
    constructor; [apply (near_short freq 2664 12); auto; [lia|lia|apply near_guaranteed; exact Hl]|].
    apply (bound_short freq 1332); auto; [lia|]. eapply (biphase_acts_bound freq 444 rc6_tol 3 1332); [|exact B|exact F].
    intros k H1 H2. unfold rc6_tol. lia.
Qed.

(** The whole transmission after the same history is short too. *)
Lemma whole_short freq h gap p rest t : freq < 2 ^ 32 -> sent freq t (p ++ rest) -> short (h ++ (true, gap) :: p) -> short (h ++ (true, gap) :: p ++ rest).
Proof.
  intros Hf Hs S. pose proof (sent_short _ _ _ Hf Hs) as K. unfold short in *. apply Forall_app in S. destruct S as [S1 S2].
  inversion S2 as [|? ? S3 _]; subst. apply Forall_app. split; [exact S1|]. constructor; auto.
Qed.

Lemma total_cons n l : total (n :: l) = n + total l.
Proof. reflexivity. Qed.

(** ** A mark cut short does not complete an RC5 command *)

Lemma pairs_no_rc5_part freq lead bit ps a seg c : 20000 <= freq -> marks_near freq lead bit ps ->
  50 <= lead -> 50 <= bit ->
  separate [(lead, 8); (bit, 12)] 889 13 = true -> separate [(lead, 8); (bit, 12)] 1778 11 = true ->
  pair_edges ps = a ++ seg ++ c -> (2 <= length seg)%nat -> (forall e d, In (e, d) seg -> exists n, rc5_interval freq n d) -> False.
Proof.
  intros Hf Hm P1 P2 S1 S2 E L R. pose proof (alt_pairs ps) as A. rewrite E in A.
  apply alt_app in A. destruct A as [_ (f & A)]. apply alt_app in A. destruct A as [A _].
  destruct (alt_falls f seg A L) as (d & Hi). destruct (R _ _ Hi) as (n & Hn).
  revert Hn. apply (rc5_interval_among freq [(lead, 8); (bit, 12)]); auto.
  - cbn [forallb fst snd]. apply N.leb_le in P1, P2. rewrite P1, P2. reflexivity.
  - eapply marks_among; [exact Hm|]. rewrite E. apply in_or_app. right. apply in_or_app. left. exact Hi.
Qed.

Lemma rc6_cut_rc5 freq a seg x rest d bits : 20000 <= freq -> sent_rc6 freq (a ++ seg ++ (false, x) :: rest) -> 1 <= d -> d <= x ->
  rc5_stream freq (seg ++ [(false, d)]) bits -> length bits = 13%nat -> False.
Proof.
  intros Hf Hs Hd1 Hd R L. destruct (sent_rc6_facts freq _ Hs Hf) as (_ & _ & _ & lead & acts & noms & E & Hl & F & B & T).
  pose proof (stream_length _ _ _ R) as Ls. rewrite app_length in Ls. cbn [length] in Ls.
  assert (Hseg : exists a', acts = a' ++ seg ++ (false, x) :: rest).
  { destruct a as [|y a]; cbn [app] in E; [|injection E as _ <-; exists a; reflexivity].
    destruct seg as [|y seg]; [cbn [length] in Ls; lia|].
    cbn [app] in E. injection E as -> E. exfalso.
    destruct (stream_intervals _ _ _ R false lead (or_introl eq_refl)) as (n & Hn). revert Hn.
    apply (rc5_interval_among freq [(2664, 12)]); auto; try reflexivity. exists 2664, 12. cbn; auto. }
  clear E. destruct Hseg as (a' & ->).
  apply Forall2_app_inv_r in F. destruct F as (na & n1 & _ & F & ->).
  apply Forall2_app_inv_r in F. destruct F as (ns & nc & F & Fc & ->).
  apply Forall_app in B. destruct B as [_ B]. apply Forall_app in B. destruct B as [B Bc].
  rewrite !map_app, !total_app in T.
  inversion Fc as [|nx y nc' z Hx Fc' Ey Ez]; subst nc y z. inversion Bc as [|y z [Bx1 Bx2] _]; subst y z. apply biphase_wide in Hx. unfold rc6_tol in Hx. cbn [snd] in Hx.
  destruct R as (s' & last & ks & k & Es' & Fk & Es & _). apply app_inj_tail in Es'. destruct Es' as [<- <-].
  rewrite map_app in Fk. cbn [map snd] in Fk. apply Forall2_app_inv_r in Fk. destruct Fk as (k1 & k2 & Fk & Fl & Ek).
  inversion Fl as [|k0 y l0 z Hk Fl' Ey Ez]; subst k2 y z. inversion Fl'; subst l0. apply app_inj_tail in Ek. destruct Ek as [-> ->].
  assert (K0 : k0 = 1).
  { destruct Hk as [[-> _]|[[_ [_ Hk]]|(_ & _ & Hk)]]; [reflexivity|exfalso|exfalso; lia].
    destruct Hx as [Hx _]. pose proof (nominal_le freq (444 * snd nx) 1332 ltac:(lia)) as L1.
    assert (B1 : 112 * nominal freq 1332 < 89 * nominal freq 1778); [|lia].
    unfold nominal. pose proof (N.div_mod (1332 * freq) 1000000 ltac:(lia)). pose proof (N.div_mod (1778 * freq) 1000000 ltac:(lia)).
    pose proof (N.mod_lt (1778 * freq) 1000000 ltac:(lia)). lia. }
  assert (K : Forall (fun n => n = 1) k1 /\ total (map snd ns) = 2 * N.of_nat (length seg)).
  { clear -F B Fk Hf. revert k1 Fk B. induction F as [|nom act ns seg H F IH]; intros kk Fk B.
    - inversion Fk; subst. split; [constructor|reflexivity].
    - cbn [map] in Fk. inversion Fk as [|n0 y0 l0 l1 Hk Fk']; subst. inversion B as [|x l [H1 H2] B']; subst.
      destruct (IH _ Fk' B') as [I1 I2]. apply biphase_wide in H. unfold rc6_tol in H.
      assert (snd nom = 2 /\ n0 = 1) as [N1 N2].
      { assert (C3 : snd nom = 1 \/ snd nom = 2 \/ snd nom = 3) by lia.
        destruct C3 as [C3|[C3|C3]]; rewrite C3 in H; change (444 * 1) with 444 in H; change (444 * 2) with 888 in H; change (444 * 3) with 1332 in H.
        - exfalso. revert Hk. apply (rc5_interval_among freq [(444, 12)]); auto; try reflexivity. exists 444, 12. cbn; auto.
        - split; auto. destruct Hk as [[Hk _]|[[_ Hk]|(_ & _ & Hk)]]; auto.
          + exfalso. exact (near_below freq 888 12 1778 11 _ Hf H Hk eq_refl).
          + exfalso. rewrite Hk in H. pose proof (near_pos freq 888 12 0 Hf H). lia.
        - exfalso. revert Hk. apply (rc5_interval_among freq [(1332, 12)]); auto; try reflexivity. exists 1332, 12. cbn; auto. }
      split; [constructor; auto|]. cbn [map total fold_right length]. unfold total in I2. rewrite N1, I2. lia. }
  destruct K as [K1 K2]. subst k0.
  pose proof (samples_ones (seg ++ [(false, d)]) 0 (k1 ++ [1]) ltac:(apply Forall_app; auto)) as S. rewrite Es, L in S. change (N.odd 0) with false in S.
  rewrite app_length in S. cbn [length] in S. unfold edge in *. clear -S K2 T. lia.
Qed.

Lemma rc5_cut_own freq w a seg x rest d bits : 20000 <= freq -> sent freq (TRc5 w) (a ++ seg ++ (false, x) :: rest) -> rest <> [] -> 1 <= d -> d <= x ->
  rc5_stream freq (seg ++ [(false, d)]) bits -> length bits = 13%nat -> False.
Proof.
  intros Hlo (_ & Hw & g & n & noms & acts & El & Ee & F) Hr Hd1 Hd (s' & last & ks & k & Es' & Fk & Sb & _) Lb.
  injection Ee as <-. destruct (rc5_noms w n noms El) as [B _].
  assert (D : exists data, bits_msb 14 w = true :: data /\ length data = 13%nat).
  { exists (bits_msb 13 w). rewrite bits_msb_S. change (N.of_nat 13) with 13. rewrite Hw. split; [reflexivity|apply bits_msb_length]. }
  destruct D as (data & Ed & Ld). unfold rc5_wave in El. rewrite Ed in El. cbn [flat_map rc5_half app level_edges Bool.eqb] in El.
  injection El as <- <-. set (noms := level_edges true 1 (flat_map rc5_half data)) in *.
  pose proof (level_total_less (flat_map rc5_half data) true 1 ltac:(lia)) as T. fold noms in T. rewrite rc5_half_length, Ld in T. clearbody noms.
  apply app_inj_tail in Es'. destruct Es' as [<- <-].
  assert (U : Forall2 (unit_of freq) (map snd noms) (a ++ seg ++ (false, x) :: rest)).
  { set (body := a ++ seg ++ (false, x) :: rest) in *. clearbody body. clear -F B. induction F as [|nom act noms acts H F IH]; cbn [map]; constructor.
    + inversion B as [|x l [H1 H2] _]; subst. apply biphase_wide in H. unfold rc5_tol in H.
      assert (E : snd nom = 1 \/ snd nom = 2) by lia. unfold unit_of. cbn [snd]. destruct E as [E|E]; rewrite E in H; rewrite E; [left|right; left]; split; auto.
    + inversion B; subst. auto. }
  set (tn := map snd noms) in *. clearbody tn. clear F B noms.
  apply Forall2_app_inv_r in U. destruct U as (na & n1 & _ & U & ->).
  apply Forall2_app_inv_r in U. destruct U as (ns & nc & U & Uc & ->).
  inversion Uc as [|nx y nr z Ux Ur Ey Ez]; subst nc y z.
  assert (Hrest : 1 <= total nr).
  { destruct rest as [|y rest]; [destruct Hr; reflexivity|]. inversion Ur as [|m y' nr' z Um _]; subst. apply unit_low in Um; [|exact Hlo]. rewrite total_cons. lia. }
  rewrite !total_app, total_cons in T.
  rewrite map_app in Fk. cbn [map snd] in Fk. apply Forall2_app_inv_r in Fk. destruct Fk as (k1 & k2 & Fk & Fl & Ek).
  inversion Fl as [|k0 y l0 z Hk Fl' Ey Ez]; subst k2 y z. inversion Fl'; subst l0. apply app_inj_tail in Ek. destruct Ek as [-> ->].
  assert (Q : ns = k1 /\ Forall (fun n => 1 <= n) ns).
  { clear -Hlo U Fk. revert k1 Fk. induction U as [|n x nseg seg U Fs IH]; intros kk Fk.
    - inversion Fk; subst. auto.
    - cbn [map] in Fk. inversion Fk as [|k0 y kk0 z Hk Fk0]; subst. destruct (IH _ Fk0) as [-> Q].
      destruct (unit_read freq Hlo n x k0 U Hk) as [-> H2]. apply unit_low in U; [|exact Hlo]. split; [reflexivity|]. constructor; [lia|exact Q]. }
  destruct Q as [<- Q].
  assert (K0 : 1 <= k0 /\ k0 <= nx).
  { clear -Hlo Ux Hk Hd Hd1. pose proof (nominal_double freq Hlo) as (H1 & H2 & H3). unfold unit_of, rc5_interval, near in *. cbn [snd] in Ux.
    set (p := nominal freq 889) in *. set (q := nominal freq 1778) in *. clearbody p q. lia. }
  pose proof (samples_time (seg ++ [(false, d)]) (ns ++ [k0]) 0 ltac:(apply Forall_app; split; [exact Q|constructor; [lia|constructor]])) as St.
  rewrite Sb, Lb in St. change (N.odd 0) with false in St. cbn iota in St. rewrite total_app, total_cons in St. cbn [total fold_right] in St. lia.
Qed.

Lemma rc5_cut freq t p x rest d a seg bits : 20000 <= freq -> sent freq t (p ++ (false, x) :: rest) -> rest <> [] -> 1 <= d -> d <= x ->
  p ++ [(false, d)] = a ++ seg -> rc5_stream freq seg bits -> length bits = 13%nat -> False.
Proof.
  intros Hlo Hs Hr Hd1 Hd E R L. pose proof (stream_length _ _ _ R) as Ls.
  destruct seg as [|y seg _] using rev_ind; [cbn [length] in Ls; lia|]. rewrite app_assoc in E. apply app_inj_tail in E. destruct E as [-> <-].
  rewrite app_length in Ls. cbn [length] in Ls. rewrite <- app_assoc in Hs.
  assert (I : forall e q, In (e, q) seg -> exists n, rc5_interval freq n q).
  { intros e q Hi. apply (stream_intervals _ _ _ R e). apply in_or_app. left. exact Hi. }
  assert (L2 : (2 <= length seg)%nat) by (unfold edge in *; lia).
  pose proof (sent_class _ _ _ Hs) as Hc. destruct t.
  - destruct Hc as (w & ps & E & _ & M). refine (pairs_no_rc5_part freq 9000 560 ps a seg _ Hlo M _ _ _ _ (eq_sym E) L2 I); first [reflexivity | lia].
  - destruct Hc as (w & ps & E & _ & M). refine (pairs_no_rc5_part freq 9000 560 ps a seg _ Hlo M _ _ _ _ (eq_sym E) L2 I); first [reflexivity | lia].
  - destruct Hc as (w & ps & E & _ & M). refine (pairs_no_rc5_part freq 9000 560 ps a seg _ Hlo M _ _ _ _ (eq_sym E) L2 I); first [reflexivity | lia].
  - destruct Hc as (w & ps & E & _ & M). refine (pairs_no_rc5_part freq 4500 560 ps a seg _ Hlo M _ _ _ _ (eq_sym E) L2 I); first [reflexivity | lia].
  - destruct Hc as (w & c & ps & E & _ & M). refine (pairs_no_rc5_part freq 4500 500 ps a seg _ Hlo M _ _ _ _ (eq_sym E) L2 I); first [reflexivity | lia].
  - destruct Hc as (w & ps & E & _ & M). refine (pairs_no_rc5_part freq 3400 480 ps a seg _ Hlo M _ _ _ _ (eq_sym E) L2 I); first [reflexivity | lia].
  - exact (rc5_cut_own freq word a seg x rest d bits Hlo Hs Hr Hd1 Hd R L).
  - exact (rc6_cut_rc5 freq a seg x rest d bits Hlo Hc Hd1 Hd R L).
Qed.

(** ** A mark cut short does not complete an RC6 command *)

Definition unit6 (freq : N) (nom act : edge) : Prop :=
  fst act = fst nom /\ 1 <= snd nom /\ snd nom <= 3 /\ near freq (444 * snd nom) 12 (snd act).

Lemma unit6_read freq nom act k : 20000 <= freq -> unit6 freq nom act -> rc6_interval freq k (snd act) -> k = snd nom.
Proof.
  intros Hlo (_ & H1 & H2 & H) Hk. destruct Hk as [(K1 & K2 & Hk)|(_ & _ & Hk)].
  - assert (C : snd nom = 1 \/ snd nom = 2 \/ snd nom = 3) by lia.
    assert (D : k = 1 \/ k = 2 \/ k = 3 \/ k = 4 \/ k = 5 \/ k = 6) by lia.
    destruct C as [C|[C|C]]; rewrite C in *; destruct D as [D|[D|[D|[D|[D|D]]]]]; subst k; try reflexivity; exfalso;
      first [exact (near_below freq _ 12 _ 13 _ Hlo H Hk eq_refl) | exact (near_below freq _ 13 _ 12 _ Hlo Hk H eq_refl)].
  - exfalso. rewrite Hk in H. pose proof (near_pos freq (444 * snd nom) 12 0 Hlo H ltac:(lia) ltac:(lia)). lia.
Qed.

Lemma unit6_reads freq ns l ks : 20000 <= freq -> Forall2 (unit6 freq) ns l -> Forall2 (rc6_interval freq) ks (map snd l) -> ks = map snd ns.
Proof.
  intros Hlo F. revert ks. induction F as [|n x ns l U F IH]; intros ks K; cbn [map] in *; inversion K as [|k y ks' z Hk K']; subst; [reflexivity|].
  rewrite (IH _ K'), (unit6_read freq n x k Hlo U Hk). reflexivity.
Qed.

Fixpoint read_count (ck : N) (ns : list N) : N :=
  match ns with [] => 0 | n :: r => (if N.odd (ck + n) then 1 else 0) + read_count (ck + n) r end.
Lemma samples_count l : forall ck ns, length ns = length l -> N.of_nat (length (samples true ck l ns)) = read_count ck ns.
Proof.
  induction l as [|[e d] l IH]; intros ck [|n ns] L; cbn [samples read_count length] in *; try lia.
  rewrite app_length, Nat2N.inj_add, IH by lia. destruct (N.odd (ck + n)); reflexivity.
Qed.
Lemma read_count_time ns : forall ck, Forall (fun n => 1 <= n) ns -> 2 * read_count ck ns <= total ns + (if N.odd ck then 0 else 1).
Proof.
  induction ns as [|n ns IH]; intros ck F; cbn [read_count]; [cbn [total fold_right]; destruct (N.odd ck); lia|].
  inversion F as [|? ? Hn F']; subst. specialize (IH (ck + n) F'). rewrite total_cons.
  assert (O : N.odd (ck + n) = xorb (N.odd ck) (N.odd n)) by apply N.odd_add. rewrite O in *.
  assert (P : N.odd n = false -> 2 <= n) by (intros K; destruct (N.eq_dec n 1) as [->|]; [discriminate K|lia]).
  destruct (N.odd ck), (N.odd n); cbn [xorb] in *; try (specialize (P eq_refl)); lia.
Qed.

Lemma level_first ls : forall cur n e k r, level_edges cur n ls = (e, k) :: r -> n <= k.
Proof.
  induction ls as [|l ls IH]; intros cur n e k r E; cbn [level_edges] in E; [discriminate|].
  destruct (Bool.eqb l cur); [apply IH in E; lia|]. injection E as _ <- _. lia.
Qed.

Lemma rc6_noms_start toggle dat n noms : level_edges false 0 (rc6_wave toggle dat) = (true, n) :: (false, 6) :: noms ->
  noms = [(true, 2); (false, 1); (true, 2); (false, 1); (true, 1); (false, 1); (true, 1)] ++
    (if toggle then [(false, 3)] else [(false, 1); (true, 2)]) ++ level_edges (negb toggle) 2 (flat_map rc6_half dat).
Proof.
  unfold rc6_wave. destruct toggle; cbn [app rc6_half level_edges Bool.eqb]; intros E; injection E as _ <-; reflexivity.
Qed.

Lemma rc6_cut_own freq aa cc tt p x rest d a seg tg bits : 20000 <= freq -> sent freq (TRc6 aa cc tt) (p ++ (false, x) :: rest) ->
  rest <> [] -> 1 <= d -> d <= x -> p ++ [(false, d)] = a ++ seg -> rc6_stream freq seg tg bits -> length bits = 16%nat -> False.
Proof.
  intros Hlo (_ & _ & g & n & noms & lead0 & acts & En & Ee & [Hl0 _] & F) Hr Hd1 Hd E R Lb.
  injection Ee as Ee.
  assert (Hl0' : near freq 2664 12 lead0) by (apply near_guaranteed; exact Hl0).
  destruct (rc6_noms tt _ n noms En) as [B _]. apply rc6_noms_start in En.
  set (dat := bits_msb 16 (2 ^ 8 * aa + cc)) in *.
  assert (Ld : length dat = 16%nat) by apply bits_msb_length. clearbody dat.
  set (tail := level_edges (negb tt) 2 (flat_map rc6_half dat)) in *.
  assert (T : total (map snd tail) <= 33).
  { pose proof (level_total_less (flat_map rc6_half dat) (negb tt) 2 ltac:(lia)) as T. fold tail in T. rewrite rc6_half_length, Ld in T. lia. }
  assert (T2 : forall e k r, tail = (e, k) :: r -> 2 <= k) by (intros e k r; apply level_first).
  clearbody tail. clear dat Ld.
  assert (U : Forall2 (unit6 freq) noms acts).
  { clear -F B. induction F as [|nom act noms acts H F IH]; constructor; inversion B as [|? ? [B1 B2] B3]; subst; auto.
    split; [apply H|]. split; [lia|]. split; [lia|]. apply biphase_wide in H. exact H. }
  clear F B. subst noms.
  destruct R as (lead & pause & hs & hl & hns & hn & tr & tl & ds & dl & dns & dn & Es & Hl & Hp & Fh & H3 & H4 & Ft & Htl & Fd & Hbits & Hlen).
  assert (Hl' : near freq 2664 13 lead) by (destruct Hl as [(_ & _ & H)|(H & _)]; [exact H|lia]).
  assert (Ep : p = a ++ (false, lead) :: (true, pause) :: (hs ++ [hl]) ++ (tr ++ [tl]) ++ ds /\ dl = (false, d)).
  { rewrite Es in E. replace (a ++ (false, lead) :: (true, pause) :: (hs ++ [hl]) ++ (tr ++ [tl]) ++ ds ++ [dl])
      with ((a ++ (false, lead) :: (true, pause) :: (hs ++ [hl]) ++ (tr ++ [tl]) ++ ds) ++ [dl]) in E
      by (repeat (rewrite <- app_assoc; cbn [app]); reflexivity).
    apply app_inj_tail in E. destruct E as [E1 E2]. auto. }
  clear E Es. destruct Ep as [-> ->].
  destruct a as [|y a].
  2:{ cbn [app] in Ee. injection Ee as _ Ee. rewrite <- Ee in U.
      rewrite <- app_assoc in U. apply Forall2_app_inv_r in U. destruct U as (u1 & u2 & _ & U & _). cbn [app] in U.
      inversion U as [|nl yl ul zl Ul _]; subst. assert (K : 6 = snd nl); [|destruct Ul as (_ & _ & K3 & _); lia].
      apply (unit6_read freq nl (false, lead) 6 Hlo Ul). left. cbn [snd]. change (444 * 6) with 2664. split; [lia|]. split; [lia|exact Hl']. }
  cbn [app] in Ee. injection Ee as _ Ee. rewrite <- Ee in U. clear Ee Hl Hl' Hl0 Hl0' lead lead0 acts.
  cbn [app] in U. inversion U as [|nn ya uu zz Up U1 E1 E2]; subst nn ya uu zz. clear U Up. rewrite <- !app_assoc in U1. cbn [app] in U1.
  apply Forall2_app_inv_r in U1. destruct U1 as (nhs & u1 & Uh & U1 & EN). inversion U1 as [|nhl ya u2 zz Uhl U2 E1 E2]; subst u1 ya zz. clear U1.
  apply Forall2_app_inv_r in U2. destruct U2 as (ntr & u3 & Utr & U3 & EN2). inversion U3 as [|ntl ya u4 zz Utl U4 E1 E2]; subst u3 ya zz. clear U3.
  apply Forall2_app_inv_r in U4. destruct U4 as (nds & u5 & Uds & U5 & EN3). inversion U5 as [|nx ya nr zz Ux Ur E1 E2]; subst u5 ya zz. clear U5.
  subst u2 u4.
  assert (Qh : hns = map snd nhs /\ hn = snd nhl).
  { rewrite map_app in Fh. cbn [map] in Fh. apply Forall2_app_inv_r in Fh. destruct Fh as (k1 & k2 & Fh & Fl & Ek).
    inversion Fl as [|k0 y l0 z Hk Fl' E1 E2]; subst k2 y z. inversion Fl'; subst l0. apply app_inj_tail in Ek. destruct Ek as [-> ->].
    split; [exact (unit6_reads freq nhs hs k1 Hlo Uh Fh)|exact (unit6_read freq nhl hl k0 Hlo Uhl Hk)]. }
  destruct Qh as [-> ->]. clear Fh.
  assert (Qd : dns = map snd nds /\ rc6_interval freq dn d).
  { rewrite map_app in Fd. cbn [map snd] in Fd. apply Forall2_app_inv_r in Fd. destruct Fd as (k1 & k2 & Fd & Fl & Ek).
    inversion Fl as [|k0 y l0 z Hk Fl' E1 E2]; subst k2 y z. inversion Fl'; subst l0. apply app_inj_tail in Ek. destruct Ek as [-> ->].
    split; [exact (unit6_reads freq nds ds k1 Hlo Uds Fd)|exact Hk]. }
  destruct Qd as [-> Hdn]. clear Fd.
  pose proof (forall2_length _ _ _ Uh) as Lh. pose proof (forall2_length _ _ _ Uds) as Lds. unfold edge in *.
  assert (C3 : read_count 8 (map snd nhs) = 3) by (rewrite <- (samples_count hs) by (rewrite map_length; exact Lh); rewrite H3; reflexivity).
  assert (C4 : read_count 8 (map snd nhs ++ [snd nhl]) = 4)
    by (rewrite <- (samples_count (hs ++ [hl])) by (rewrite !app_length, map_length; cbn [length]; lia); rewrite H4; reflexivity).
  clear H3 H4.
  (* the header is read from these six edges *)
  assert (Hd6 : total (map snd nhs ++ [snd nhl]) = 7 /\
    (if tt then [(false, 3)] else [(false, 1); (true, 2)]) ++ tail = ntr ++ ntl :: nds ++ nx :: nr).
  { cbn [app] in EN.
    destruct nhs as [|e1 nhs]; [discriminate C3|]. cbn [app] in EN. injection EN as <- EN.
    destruct nhs as [|e2 nhs]; [discriminate C3|]. cbn [app] in EN. injection EN as <- EN.
    destruct nhs as [|e3 nhs]; [discriminate C3|]. cbn [app] in EN. injection EN as <- EN.
    destruct nhs as [|e4 nhs]; [discriminate C3|]. cbn [app] in EN. injection EN as <- EN.
    destruct nhs as [|e5 nhs]; [cbn [app] in EN; injection EN as <- EN; discriminate C4|]. cbn [app] in EN. injection EN as <- EN.
    destruct nhs as [|e6 nhs]; cbn [app] in EN; injection EN as <- EN; [split; [reflexivity|exact EN]|].
    exfalso. cbn [map snd read_count] in C3. change (N.odd (8 + 1)) with true in C3. change (N.odd (8 + 1 + 2)) with true in C3.
    change (N.odd (8 + 1 + 2 + 1)) with false in C3. change (N.odd (8 + 1 + 2 + 1 + 1)) with true in C3.
    change (N.odd (8 + 1 + 2 + 1 + 1 + 1)) with false in C3. change (N.odd (8 + 1 + 2 + 1 + 1 + 1 + 1)) with true in C3. cbn iota in C3. lia. }
  destruct Hd6 as [T7 EN']. clear EN C3 C4. rewrite T7 in Hbits, Hlen.
  assert (Tr : Forall (fun z => fst z = false /\ snd z = 1) ntr).
  { clear -Utr Ft Hlo. induction Utr as [|z y l k U _ IH]; constructor; inversion Ft as [|? ? [F1 F2] F3]; subst; auto.
    split; [destruct U as (U & _); congruence|]. symmetry. exact (unit6_read freq z y 1 Hlo U F2). }
  assert (Tl : if tg then fst ntl = false /\ snd ntl = 3 else fst ntl = true /\ snd ntl = 2).
  { destruct tg; destruct Htl as [K1 K2]; (split; [destruct Utl as (U & _); congruence|symmetry; exact (unit6_read freq ntl tl _ Hlo Utl K2)]). }
  pose proof (forall2_length _ _ _ Utr) as Ltr. unfold edge in *.
  assert (CK : 8 + 7 + N.of_nat (length tr) + (if tg then 3 else 2) = 18 /\ tail = nds ++ nx :: nr).
  { clear -EN' Tr Tl Ltr. destruct tt; cbn [app] in EN'.
    - destruct ntr as [|z ntr]; cbn [app] in EN'; injection EN' as <- EN'.
      + destruct tg; destruct Tl as [K1 K2]; [|discriminate K1]. cbn [length] in Ltr. rewrite <- Ltr. auto.
      + inversion Tr as [|? ? [_ K] _]; subst. discriminate K.
    - destruct ntr as [|z ntr]; cbn [app] in EN'; injection EN' as <- EN'.
      + destruct tg; destruct Tl as [K1 K2]; [discriminate K2|discriminate K1].
      + inversion Tr as [|? ? _ Tr']; subst. destruct ntr as [|z ntr]; cbn [app] in EN'; injection EN' as <- EN'.
        * destruct tg; destruct Tl as [K1 K2]; [discriminate K1|]. cbn [length] in Ltr. rewrite <- Ltr. auto.
        * inversion Tr' as [|? ? [K _] _]; subst. discriminate K. }
  destruct CK as [CK ->]. rewrite CK in Hbits, Hlen.
  apply (f_equal (@length bool)) in Hbits. rewrite map_length, Lb in Hbits. rewrite Lb in Hlen.
  apply (f_equal N.of_nat) in Hbits. rewrite samples_count in Hbits by (rewrite !app_length, map_length; cbn [length]; lia).
  assert (K0 : 1 <= dn /\ dn <= snd nx).
  { destruct Ux as (_ & X1 & X2 & [X3 _]). cbn [snd] in X3. destruct Hdn as [(K1 & K2 & [_ K3])|(_ & _ & K3)]; [|lia]. split; [exact K1|].
    destruct (N.le_gt_cases dn (snd nx)) as [|G]; [assumption|exfalso].
    pose proof (nominal_le freq (444 * (snd nx + 1)) (444 * dn) ltac:(lia)) as L1.
    assert (B1 : 112 * nominal freq (444 * snd nx) < 87 * nominal freq (444 * (snd nx + 1))); [|lia].
    assert (C : snd nx = 1 \/ snd nx = 2 \/ snd nx = 3) by lia. clear -C Hlo.
    destruct C as [C|[C|C]]; rewrite C; unfold nominal;
      [change (444 * 1) with 444; change (444 * (1 + 1)) with 888; set (P := 444 * freq); set (Q := 888 * freq)
      |change (444 * 2) with 888; change (444 * (2 + 1)) with 1332; set (P := 888 * freq); set (Q := 1332 * freq)
      |change (444 * 3) with 1332; change (444 * (3 + 1)) with 1776; set (P := 1332 * freq); set (Q := 1776 * freq)];
      pose proof (N.div_mod P 1000000 ltac:(lia)); pose proof (N.div_mod Q 1000000 ltac:(lia));
      pose proof (N.mod_lt Q 1000000 ltac:(lia)); unfold P, Q in *; lia. }
  assert (Hrest : 1 <= total (map snd nr)).
  { destruct rest as [|y rest]; [destruct Hr; reflexivity|]. inversion Ur as [|m y' nr' z Um _]; subst. destruct Um as (_ & K & _).
    cbn [map]. rewrite total_cons. lia. }
  rewrite map_app, total_app in T. cbn [map] in T. rewrite total_cons in T.
  assert (W : Forall (fun n => 1 <= n) (map snd nds)).
  { clear -Uds. induction Uds as [|z y l k U _ IH]; cbn [map]; constructor; auto. apply U. }
  destruct nds as [|z nds].
  { destruct ds as [|y ds]; [cbn [map samples length] in Hlen; lia|cbn [length] in Lds; lia]. }
  cbn [app] in T2. destruct z as [ze zk]. specialize (T2 _ _ _ eq_refl).
  assert (Z3 : zk <= 3) by (inversion Uds as [|? ? ? ? Uz _]; subst; apply Uz).
  cbn [map snd app read_count] in *. rewrite total_cons in T. inversion W as [|? ? _ W']; subst.
  pose proof (read_count_time (map snd nds ++ [dn]) (18 + zk) ltac:(apply Forall_app; split; [exact W'|constructor; [lia|constructor]])) as S.
  rewrite total_app, total_cons in S. cbn [total fold_right] in S.
  assert (Z : zk = 2 \/ zk = 3) by lia. destruct Z as [->| ->].
  - change (N.odd (18 + 2)) with false in *. cbn iota in *. change (N.of_nat 16) with 16 in *. lia.
  - change (N.odd (18 + 3)) with true in *. cbn iota in *. change (N.of_nat 16) with 16 in *. lia.
Qed.

Lemma rc6_stream_interval freq seg tg bits gap : rc6_stream freq seg tg bits -> In gap (map snd seg) -> (forall n, rc6_interval freq n gap -> False) -> False.
Proof.
  intros (lead & pause & hs & hlast & hns & hn & tr & tlast & ds & dlast & dns & dn & Es & Hl & Hp & Fh & _ & _ & Ft & Htl & Fd & _) Hx G.
  assert (G2 : forall ns l, Forall2 (rc6_interval freq) ns l -> In gap l -> False).
  { intros ns l F. induction F as [|n0 y0 ns0 l0 H F IH]; intros Hi; [destruct Hi|]. destruct Hi as [-> |Hi]; eauto. }
  rewrite Es in Hx. cbn [map snd In] in Hx. rewrite !map_app in Hx. cbn [map] in Hx.
  rewrite map_app in Fh. rewrite map_app in Fd. cbn [map] in Fh, Fd.
  destruct Hx as [-> |[-> |Hx]]; eauto.
  apply in_app_or in Hx. destruct Hx as [Hx|Hx]; eauto.
  apply in_app_or in Hx. destruct Hx as [Hx|Hx]; eauto.
  apply in_app_or in Hx. destruct Hx as [Hx|[Hx|[]]].
  - apply in_map_iff in Hx. destruct Hx as ([ee dd] & Ed & Hi). rewrite Forall_forall in Ft. destruct (Ft _ Hi) as [_ H].
    cbn [snd] in *. subst dd. eauto.
  - destruct tlast as [ee dd]. cbn [fst snd] in *. subst dd. destruct tg; destruct Htl as [_ H]; eauto.
Qed.
