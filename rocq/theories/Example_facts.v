(** * Deciding the specification predicates, for the concrete examples *)
From Coq Require Import NArith ZArith List Bool Lia ZifyBool ZifyNat ZifyN.
From Verif Require Import Machine Decoder Receiver Spec.
Import ListNotations.
Open Scope N_scope.

Fixpoint forall2b {A B} (f : A -> B -> bool) (l1 : list A) (l2 : list B) : bool :=
  match l1, l2 with
  | [], [] => true
  | x :: r1, y :: r2 => f x y && forall2b f r1 r2
  | _, _ => false
  end.
Lemma forall2b_ok {A B} (f : A -> B -> bool) (P : A -> B -> Prop) :
  (forall x y, f x y = true -> P x y) -> forall l1 l2, forall2b f l1 l2 = true -> Forall2 P l1 l2.
Proof.
  intros Hf. induction l1 as [|x r1 IH]; intros [|y r2] H; try discriminate; constructor.
  - apply Hf. cbn [forall2b] in H. apply andb_true_iff in H. tauto.
  - apply IH. cbn [forall2b] in H. apply andb_true_iff in H. tauto.
Qed.

Definition nearb (freq p t d : N) : bool :=
  (100 * d <=? (100 + t) * nominal freq p) && ((100 - t) * nominal freq p <=? 100 * d).
Lemma nearb_ok freq p t d : nearb freq p t d = true -> near freq p t d.
Proof.
  unfold nearb, near. intros H. apply andb_true_iff in H. rewrite !N.leb_le in H. exact H.
Qed.

Definition period_nearb (freq p t : N) (x : N * N) : bool :=
  nearb freq p (guaranteed freq t) (fst x + snd x).

Definition nec_frameb (freq header word : N) (ps : list (N * N)) : bool :=
  match ps with
  | [] => false
  | h :: ds => period_nearb freq header 7 h &&
      forall2b (fun (bit : bool) x => if bit then period_nearb freq 2250 12 x
                                      else period_nearb freq 1120 25 x) (bits_lsb 32 word) ds
  end.
Lemma nec_frameb_ok freq header word ps :
  nec_frameb freq header word ps = true -> nec_frame freq header word ps.
Proof.
  destruct ps as [|h ds]; cbn [nec_frameb]; intros H; [discriminate|].
  apply andb_true_iff in H. destruct H as [H1 H2]. exists h, ds. split; auto. split.
  - apply nearb_ok. exact H1.
  - eapply forall2b_ok; [|exact H2]. intros [|] x Hx; apply nearb_ok; exact Hx.
Qed.

Lemma shortb_ok h : forallb (fun e => snd e <? 2 ^ 31) h = true -> short h.
Proof.
  intros H. apply Forall_forall. intros x Hx. rewrite forallb_forall in H. apply H in Hx.
  apply N.ltb_lt. exact Hx.
Qed.

(** The outcomes of a fresh receiver on a history. *)
Definition outcomes (P : protocol) (freq : N) (h : list edge) : option (list (outcome (dcmd (p_dec P)))) :=
  match receiver_new P freq with
  | Val r => match run_edges (fun c => c) r h with Val (_, os) => Some os | _ => None end
  | _ => None
  end.
Definition outcome_at (P : protocol) (freq : N) (h : list edge) (i : nat) : option (outcome (dcmd (p_dec P))) :=
  match outcomes P freq h with Some os => nth_error os i | None => None end.

Definition sbp_bitb (freq : N) (bit : bool) (x : N * N) : bool :=
  period_nearb freq (if bit then 2000 else 1000) 10 x.
Lemma sbp_frame_ok freq a c h ads pause cds :
  period_nearb freq 9000 5 h && forall2b (sbp_bitb freq) (bits_lsb 16 a) ads &&
  period_nearb freq 5000 5 pause && forall2b (sbp_bitb freq) (bits_lsb 20 c) cds = true ->
  sbp_frame freq a c (h :: ads ++ pause :: cds).
Proof.
  intros H. rewrite !andb_true_iff in H. destruct H as [[[H1 H2] H3] H4].
  exists h, ads, pause, cds. split; auto. split; [apply nearb_ok; exact H1|].
  split; [|split; [apply nearb_ok; exact H3|]]; (eapply forall2b_ok; [|eassumption]);
    intros bit x Hx; apply nearb_ok; exact Hx.
Qed.

Definition denon_bitb (freq : N) (bit : bool) (x : N * N) : bool :=
  period_nearb freq (if bit then 1680 else 840) 10 x.
Lemma denon_frame_ok freq w h ds :
  period_nearb freq 5000 8 h && forall2b (denon_bitb freq) (bits_lsb 48 w) ds = true ->
  denon_frame freq w (h :: ds).
Proof.
  intros H. rewrite !andb_true_iff in H. destruct H as [H1 H2].
  exists h, ds. split; auto. split; [apply nearb_ok; exact H1|].
  eapply forall2b_ok; [|eassumption]. intros bit x Hx; apply nearb_ok; exact Hx.
Qed.

Definition biphase_nearb (freq unit : N) (tol : N -> N) (nom act : edge) : bool :=
  Bool.eqb (fst act) (fst nom) && nearb freq (unit * snd nom) (guaranteed freq (tol (snd nom))) (snd act).
Lemma biphase_nearb_ok freq unit tol nom act :
  biphase_nearb freq unit tol nom act = true -> biphase_near freq unit tol nom act.
Proof.
  unfold biphase_nearb, biphase_near. intros H. apply andb_true_iff in H. destruct H as [H1 H2].
  split; [apply Bool.eqb_prop; exact H1|apply nearb_ok; exact H2].
Qed.

Definition rc5_edgesb (freq word : N) (acts : list edge) : bool :=
  match level_edges false 0 (rc5_wave word) with
  | (true, _) :: noms => forall2b (biphase_nearb freq 889 rc5_tol) noms acts
  | _ => false
  end.
Lemma rc5_edges_ok freq word gap acts :
  rc5_edgesb freq word acts = true -> rc5_edges freq word gap ((true, gap) :: acts).
Proof.
  unfold rc5_edgesb, rc5_edges. destruct (level_edges _ _ _) as [|[[] n] noms]; try discriminate. intros H.
  exists n, noms, acts. split; auto. split; auto.
  eapply forall2b_ok; [|exact H]. intros x y; apply biphase_nearb_ok.
Qed.

Definition rc6_edgesb (freq : N) (toggle : bool) (data : N) (acts : list edge) : bool :=
  match level_edges false 0 (rc6_wave toggle (bits_msb 16 data)) with
  | (true, _) :: (false, k) :: noms => (k =? 6) && forall2b (biphase_nearb freq 444 rc6_tol) noms acts
  | _ => false
  end.
Lemma rc6_edges_ok freq (leader : N -> Prop) toggle data gap lead acts :
  leader lead -> rc6_edgesb freq toggle data acts = true ->
  rc6_edges freq leader toggle data gap ((true, gap) :: (false, lead) :: acts).
Proof.
  unfold rc6_edgesb, rc6_edges. intros Hl.
  destruct (level_edges _ _ _) as [|[[] n] [|[[] k] noms]]; try discriminate. intros H.
  apply andb_true_iff in H. destruct H as [Hk H]. apply N.eqb_eq in Hk. subst k.
  exists n, noms, lead, acts. split; auto. split; auto. split; auto.
  eapply forall2b_ok; [|exact H]. intros x y; apply biphase_nearb_ok.
Qed.
