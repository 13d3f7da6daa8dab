(** * Property theorems: the USB examples, from the remote control to the reports *)
From Coq Require Import NArith ZArith List Bool Lia ZifyBool ZifyNat ZifyN.
From Verif Require Import Machine Time Decoder Nec Receiver Remote Spec Bits Codec_facts Time_facts Run_facts Nec_facts
  Spec_receiver Receiver_facts Spec_phys Phys_facts Spec_keys Keys_facts Apps Spec_apps Spec_listen Listen_facts
  State_facts Props_decode Props_phys Props_keys Props_apps Props_listen Example_facts.
Import ListNotations.
Open Scope N_scope.

(** ** C77: the USB mouse and the media keyboard

    [examples/bluepill/src/bin/mouse.rs] and [mediakeyboard.rs]: an Apple remote, handlers
    that read the 100 kHz timer at most 50 microseconds after their edges.  The 32-bit
    timestamps wrap every 11.9 hours; a pause must not show as less than 27 ms or lie within
    1.12 ms of the wrap. *)

Definition usb_button (x : N * bool) : button Apple2009 :=
  button_from Apple2009 (mkApple (field (fst x) 0 5) (field (fst x) 17 7) (field (fst x) 24 8) (snd x)).

Lemma usb_heard b G L (l : list (press N)) resolution clock xs :
  0 < G -> 1000000 * L <= 50 * G -> counts 100000 G 1 clock -> clock 0 = 0 ->
  Forall (fun y => apple_key (fst (fst y))) l ->
  Forall (real_press G 4 13500 11250 27000 (fun w => w)) l ->
  Forall (fun y : burst => let '(gap, _, stop) := y in 1000 * stop <= G /\
            2700 * G <= shown 100000 G gap /\ shown 100000 G gap + 112 * G <= 2 ^ 32 * G) (bursts l) ->
  stamped 32 clock L 0 0 (presses_edges l) xs ->
  exists r0 r os, receiver_new (nec_protocol b (fugit_u32 100000) NecApple) resolution = Val r0 /\
    run_instants (D := nec_dec b (fugit_u32 100000) NecApple) (button_from Apple2009) (fugit_u32 100000) r0 xs = Val (r, os) /\
    commands os = map usb_button (held l).
Proof.
  intros HG HL Hc Hc0 Hp Hl Hb Hx.
  assert (HS : 1000 * (G / 1000) <= G) by (apply N.mul_div_le; discriminate).
  destruct (stamped_held b 100000 G 6 L (G / 1000) NecApple 13500 11250 27000 7000 106 _ (button_from Apple2009) (fun w => w) l resolution clock xs)
    as (r0 & r & os & E0 & E & Ec); auto; try reflexivity; try lia.
  - left. reflexivity.
  - eapply (words_fit apple_key (fun w => w)); [exact Hp|]. intros k [H1 _]. exact H1.
  - vm_compute. discriminate.
  - vm_compute. discriminate.
  - eapply Forall_impl; [|exact Hb]. intros [[gap ps] stop] (B1 & B2 & B3). unfold shows. split; [lia|]. split; [lia|].
    apply N.div_le_lower_bound; [discriminate|exact B1].
  - exists r0, r, os. split; [exact E0|]. split; [exact E|].
    refine (eq_trans Ec _). rewrite <- flat_map_map. apply said_all with (P := apple_key); [exact Hp|].
    intros k rep Hkey. cbn [fst snd]. exact (apple_said k rep (button Apple2009) (button_from Apple2009) Hkey).
Qed.

(** The handlers act on the buttons received. *)
Lemma media_buttons b xs : forall (r r' : receiver (nec_dec b (fugit_u32 TIM_FREQ) NecApple)) os,
  run_instants (D := nec_dec b (fugit_u32 TIM_FREQ) NecApple) (button_from Apple2009) (fugit_u32 TIM_FREQ) r xs = Val (r', os) ->
  exists ps, run_res media_irq r xs = Val (r', ps) /\
    concat ps = flat_map (fun x => match btn_action x with Some a => [action_to_mediakey a; MZero] | None => [] end) (commands os).
Proof.
  induction xs as [|[low now] xs IH]; intros r r' os E; cbn [run_instants] in E.
  - injection E as -> <-. exists []. split; reflexivity.
  - cbn [run_res media_irq].
    destruct (event_instant (D := nec_dec b (fugit_u32 TIM_FREQ) NecApple) (button_from Apple2009) (fugit_u32 TIM_FREQ) r now low) as [[r1 o]| |]; cbn [bind] in E |- *; try discriminate.
    destruct (run_instants (D := nec_dec b (fugit_u32 TIM_FREQ) NecApple) (button_from Apple2009) (fugit_u32 TIM_FREQ) r1 xs) as [[r2 os2]| |] eqn:E2; cbn [bind] in E; try discriminate.
    injection E as -> <-. destruct (IH r1 r' os2 E2) as (ps & E3 & Ec).
    rewrite E3. cbn [bind]. eexists. split; [reflexivity|]. cbn [concat]. rewrite Ec.
    destruct o as [[c|]|e]; reflexivity.
Qed.

Definition sent {A} (l : list (option A)) : list A := flat_map (fun x => match x with Some r => [r] | None => [] end) l.

Lemma sent_cons {A} (x : option A) r : sent (x :: r) = sent [x] ++ sent r.
Proof. unfold sent. cbn [flat_map]. rewrite app_nil_r. reflexivity. Qed.

Lemma mouse_buttons b xs : forall (r r' : receiver (nec_dec b (fugit_u32 MONOTIMER_FREQ) NecApple)) os n n' reps,
  run_instants (D := nec_dec b (fugit_u32 MONOTIMER_FREQ) NecApple) (button_from Apple2009) (fugit_u32 MONOTIMER_FREQ) r xs = Val (r', os) ->
  mouse_run b n (commands os) = Val (n', reps) ->
  exists ps, run_res mouse_irq (mkMouse r n) xs = Val (mkMouse r' n', ps) /\ concat ps = sent reps.
Proof.
  induction xs as [|[low now] xs IH]; intros r r' os n n' reps E M; cbn [run_instants] in E.
  - injection E as -> <-. unfold mouse_run in M. cbn [commands flat_map run_res] in M. injection M as <- <-. exists []. split; reflexivity.
  - cbn [run_res mouse_irq mo_recv mo_repeated].
    destruct (event_instant (D := nec_dec b (fugit_u32 MONOTIMER_FREQ) NecApple) (button_from Apple2009) (fugit_u32 MONOTIMER_FREQ) r now low) as [[r1 o]| |]; cbn [bind] in E |- *; try discriminate.
    destruct (run_instants (D := nec_dec b (fugit_u32 MONOTIMER_FREQ) NecApple) (button_from Apple2009) (fugit_u32 MONOTIMER_FREQ) r1 xs) as [[r2 os2]| |] eqn:E2; cbn [bind] in E; try discriminate.
    injection E as -> <-. destruct o as [[c|]|e].
    + unfold mouse_run in M. cbn [commands flat_map app run_res] in M.
      destruct (process_ir_cmd b n c) as [[n1 rep]| |]; cbn [bind] in M |- *; try discriminate.
      match type of M with context [run_res (process_ir_cmd b) n1 ?l] => change l with (commands os2) in M end.
      destruct (run_res (process_ir_cmd b) n1 (commands os2)) as [[n2 reps2]| |] eqn:M2; cbn [bind] in M; try discriminate.
      injection M as -> <-. destruct (IH r1 r' os2 n1 n' reps2 E2 M2) as (ps & E3 & Ec). rewrite E3. cbn [bind].
      eexists. split; [reflexivity|]. cbn [concat]. rewrite Ec. reflexivity.
    + cbn [bind mo_repeated]. destruct (IH r1 r' os2 n n' reps E2 M) as (ps & E3 & Ec). rewrite E3. cbn [bind]. eexists. split; [reflexivity|exact Ec].
    + cbn [bind mo_repeated]. destruct (IH r1 r' os2 n n' reps E2 M) as (ps & E3 & Ec). rewrite E3. cbn [bind]. eexists. split; [reflexivity|exact Ec].
Qed.

(** What a key does: the remote's table against the specification. *)
Lemma apple_media_ok w rep : match btn_action (usb_button (w, rep)) with Some a => [action_to_mediakey a; MZero] | None => [] end =
  apple_media (field w 0 5) (field w 17 7).
Proof.
  unfold usb_button, button_from. cbn [btn_action rm_decode Apple2009 fst snd]. unfold apple_decode. cbn [apl_page apl_command].
  generalize (field w 0 5) as p, (field w 17 7) as c. intros p c. unfold apple_buttons. cbn [find fst snd].
  destruct p as [|p]; [destruct c as [|c]; [reflexivity|]; do 4 (destruct c as [c|c|]; try reflexivity)|].
  do 4 (destruct p as [p|p|]; try reflexivity). destruct c as [|c]; [reflexivity|]. do 7 (destruct c as [c|c|]; try reflexivity).
Qed.

Theorem C77_mediakeyboard :
  forall b G L (l : list (press N)) clock xs,
  0 < G -> 1000000 * L <= 50 * G -> counts 100000 G 1 clock -> clock 0 = 0 ->
  Forall (fun y => apple_key (fst (fst y))) l ->
  Forall (real_press G 4 13500 11250 27000 (fun w => w)) l ->
  Forall (fun y : burst => let '(gap, _, stop) := y in 1000 * stop <= G /\
            2700 * G <= shown 100000 G gap /\ shown 100000 G gap + 112 * G <= 2 ^ 32 * G) (bursts l) ->
  stamped 32 clock L 0 0 (presses_edges l) xs ->
  exists r0 r ps, media_new b = Val r0 /\ run_res media_irq r0 xs = Val (r, ps) /\
    concat ps = flat_map (fun x => apple_media (field (fst x) 0 5) (field (fst x) 17 7)) (held l).
Proof.
  intros b G L l clock xs HG HL Hc Hc0 Hp Hl Hb Hx.
  destruct (usb_heard b G L l 1000000 clock xs HG HL Hc Hc0 Hp Hl Hb Hx) as (r0 & r & os & E0 & E & Ec).
  destruct (media_buttons b xs r0 r os E) as (ps & Ep & Eq). exists r0, r, ps. split; [exact E0|]. split; [exact Ep|].
  rewrite Eq, Ec. clear. induction (held l) as [|[w rep] h IH]; [reflexivity|]. cbn [map flat_map]. rewrite IH, apple_media_ok. reflexivity.
Qed.
Print Assumptions C77_mediakeyboard.

Definition report (r : mouse_report) : N * Z * Z := (mr_buttons r, mr_x r, mr_y r).

Definition heading (a : action) : Z * Z :=
  match a with A_Up => (0, -1) | A_Down => (0, 1) | A_Right => (1, 0) | A_Left => (-1, 0) | _ => (0, 0) end%Z.

Lemma apple_heading w rep : apple_direction (field w 0 5) (field w 17 7) = option_map heading (btn_action (usb_button (w, rep))).
Proof.
  unfold usb_button, button_from. cbn [btn_action rm_decode Apple2009 fst snd]. unfold apple_decode. cbn [apl_page apl_command].
  generalize (field w 0 5) as p, (field w 17 7) as c. intros p c. unfold apple_buttons. cbn [find fst snd].
  destruct p as [|p]; [destruct c as [|c]; [reflexivity|]; do 4 (destruct c as [c|c|]; try reflexivity)|].
  do 4 (destruct p as [p|p|]; try reflexivity). destruct c as [|c]; [reflexivity|]. do 7 (destruct c as [c|c|]; try reflexivity).
Qed.

Lemma apple_direction_ok w rep n :
  map report (sent [option_map (fun a => button_to_mousereport a (N.of_nat (S n))) (btn_action (usb_button (w, rep)))]) =
  match apple_direction (field w 0 5) (field w 17 7) with
  | Some (dx, dy) => [(0, (step_of n * dx)%Z, (step_of n * dy)%Z)]
  | None => []
  end.
Proof.
  assert (Es : (if N.of_nat (S n) <=? 6 then Z.shiftl 1 (Z.of_N (N.of_nat (S n))) else 64%Z) = step_of n).
  { unfold step_of. rewrite nat_N_Z, Z.shiftl_1_l. destruct (N.leb_spec (N.of_nat (S n)) 6) as [L|L].
    - symmetry. apply Z.min_r. change 64%Z with (2 ^ 6)%Z. apply Z.pow_le_mono_r; lia.
    - symmetry. apply Z.min_l. change 64%Z with (2 ^ 6)%Z. apply Z.pow_le_mono_r; lia. }
  assert (Ez : (N.of_nat (S n) =? 0) = false) by (apply N.eqb_neq; lia).
  rewrite (apple_heading w rep). destruct (btn_action (usb_button (w, rep))) as [a|]; [|reflexivity].
  cbn [option_map sent flat_map map app]. unfold button_to_mousereport. rewrite Es, Ez. generalize (step_of n). clear. intros z.
  destruct a; cbn [heading report mr_buttons mr_x mr_y]; unfold report; cbn [mr_buttons mr_x mr_y]; repeat f_equal; lia.
Qed.

(** One key held, whatever was counted before. *)
Lemma mouse_press b count w n : count < 2 ^ 32 -> N.of_nat n + 1 < 2 ^ 32 ->
  exists count' reps, mouse_run b count (map usb_button ((w, false) :: repeat (w, true) n)) = Val (count', reps) /\ count' < 2 ^ 32 /\
    map report (sent reps) =
      match apple_direction (field w 0 5) (field w 17 7) with
      | Some (dx, dy) => map (fun i => (0, (step_of i * dx)%Z, (step_of i * dy)%Z)) (seq 0 (S n))
      | None => []
      end.
Proof.
  intros Hc Hn. cbn [map]. unfold mouse_run. cbn [run_res]. unfold process_ir_cmd at 1.
  change (button_is_repeat (usb_button (w, false))) with false. cbv iota.
  change (uadd (overflow_checks b) 32 0 1) with (Val 1). cbn [bind].
  assert (El : length (map usb_button (repeat (w, true) n)) = n) by (rewrite map_length, repeat_length; reflexivity).
  pose proof (mouse_repeats b (map usb_button (repeat (w, true) n)) 1) as R. rewrite El in R. unfold mouse_run in R.
  rewrite R; [|apply Forall_forall; intros x Hx; apply in_map_iff in Hx; destruct Hx as (y & <- & Hy); apply repeat_spec in Hy; subst y; reflexivity|lia].
  cbn [bind]. do 2 eexists. split; [reflexivity|]. split; [lia|].
  assert (G : forall k i, map report (sent (map (fun p => option_map (fun a => button_to_mousereport a (1 + N.of_nat (fst p))) (btn_action (snd p)))
      (combine (seq (S i) k) (map usb_button (repeat (w, true) k))))) =
    match apple_direction (field w 0 5) (field w 17 7) with
    | Some (dx, dy) => map (fun i => (0, (step_of i * dx)%Z, (step_of i * dy)%Z)) (seq (S i) k)
    | None => [] end).
  { induction k as [|k IH]; intros i; [destruct (apple_direction _ _) as [[dx dy]|]; reflexivity|].
    cbn [seq repeat map combine fst snd].
    rewrite sent_cons, map_app, IH. replace (1 + N.of_nat (S i)) with (N.of_nat (S (S i))) by lia.
    rewrite apple_direction_ok. destruct (apple_direction _ _) as [[dx dy]|]; reflexivity. }
  pose proof (apple_direction_ok w false 0) as A. change (N.of_nat 1) with 1 in A.
  specialize (G n 0%nat). rewrite sent_cons, map_app, G.
  destruct (btn_action (usb_button (w, false))) as [a|]; cbn [option_map] in A; rewrite A;
    destruct (apple_direction _ _) as [[dx dy]|]; reflexivity.
Qed.

Theorem C77_mouse :
  forall b G L (l : list (press N)) clock xs,
  0 < G -> 1000000 * L <= 50 * G -> counts 100000 G 1 clock -> clock 0 = 0 ->
  Forall (fun y => apple_key (fst (fst y)) /\ N.of_nat (length (snd y)) + 1 < 2 ^ 32) l ->
  Forall (real_press G 4 13500 11250 27000 (fun w => w)) l ->
  Forall (fun y : burst => let '(gap, _, stop) := y in 1000 * stop <= G /\
            2700 * G <= shown 100000 G gap /\ shown 100000 G gap + 112 * G <= 2 ^ 32 * G) (bursts l) ->
  stamped 32 clock L 0 0 (presses_edges l) xs ->
  exists a0 a ps, mouse_new b = Val a0 /\ run_res mouse_irq a0 xs = Val (a, ps) /\
    map report (concat ps) =
    flat_map (fun y => let '(w, _, rs) := y in
      match apple_direction (field w 0 5) (field w 17 7) with
      | Some (dx, dy) => map (fun i => (0, (step_of i * dx)%Z, (step_of i * dy)%Z)) (seq 0 (S (length rs)))
      | None => []
      end) l.
Proof.
  intros b G L l clock xs HG HL Hc Hc0 Hp Hl Hb Hx.
  destruct (usb_heard b G L l 100000 clock xs HG HL Hc Hc0) as (r0 & r & os & E0 & E & Ec); auto.
  { eapply Forall_impl; [|exact Hp]. intros y Hy. apply Hy. }
  assert (M : forall count, count < 2 ^ 32 -> exists count' reps, mouse_run b count (map usb_button (held l)) = Val (count', reps) /\
    map report (sent reps) = flat_map (fun y => let '(w, _, rs) := y in
      match apple_direction (field w 0 5) (field w 17 7) with
      | Some (dx, dy) => map (fun i => (0, (step_of i * dx)%Z, (step_of i * dy)%Z)) (seq 0 (S (length rs)))
      | None => []
      end) l).
  { clear -Hp. induction Hp as [|[[w y] rs] l (_ & Hn) Hp IH]; intros count Hcount.
    - exists count, []. split; reflexivity.
    - cbn [snd] in Hn. unfold held. cbn [flat_map]. rewrite map_app.
      destruct (mouse_press b count w (length rs) Hcount Hn) as (c1 & reps1 & M1 & Hc1 & R1).
      destruct (IH c1 Hc1) as (c2 & reps2 & M2 & R2). exists c2, (reps1 ++ reps2). split.
      + unfold mouse_run in *. unfold held in M2. rewrite run_res_app, M1. cbn [bind]. rewrite M2. reflexivity.
      + unfold sent in *. rewrite flat_map_app, map_app, R1, R2. reflexivity. }
  destruct (M 0 ltac:(reflexivity)) as (count' & reps & M1 & R). rewrite <- Ec in M1.
  destruct (mouse_buttons b xs r0 r os 0 count' reps E M1) as (ps & Ep & Eq).
  exists (mkMouse r0 0), (mkMouse r count'), ps. split; [|split; [exact Ep|rewrite Eq; exact R]].
  unfold mouse_new. unfold MONOTIMER_FREQ. rewrite E0. reflexivity.
Qed.
Print Assumptions C77_mouse.

(** Right, held for a repeat code, and menu, seven hours later: longer than half of the
    range of the timestamps.  Time is counted in microseconds, each handler reads the timer
    up to 45 of them after its edge. *)
Definition usb_keys : list (press N) :=
  [ (1510442990, (50000, slow_nec 1510442990, 560), [(98000, [(9180, 2300)], 570)]);
    (1510115310, (25200000000, slow_nec 1510115310, 555), []) ].

Fixpoint stamps (i t : N) (evs : list edge) : list (bool * N) :=
  match evs with
  | [] => []
  | (l, D) :: r => (l, ((t + D + i mod 46) * 100000 / 1000000) mod 2 ^ 32) :: stamps (i + 17) (t + D) r
  end.
Lemma stamps_ok evs : forall i t read, read <= t + 45 -> (forall l D, In (l, D) evs -> 45 <= D) ->
  stamped 32 (fun t => t * 100000 / 1000000) 45 t read evs (stamps i t evs).
Proof.
  induction evs as [|[l D] evs IH]; intros i t read Hr H; cbn [stamps stamped]; [exact I|].
  split; [reflexivity|]. pose proof (N.mod_lt i 46 ltac:(discriminate)) as Hi.
  pose proof (H l D (or_introl eq_refl)) as HD. exists (i mod 46).
  repeat split; try lia. apply IH; [lia|]. intros l' D' HI. apply (H l'). right. exact HI.
Qed.

Definition usb_sent (b : build) (xs : list (bool * N)) : option (list media_key * list (N * Z * Z)) :=
  match media_new b, mouse_new b with
  | Val r, Val a => match run_res media_irq r xs, run_res mouse_irq a xs with
                    | Val (_, ks), Val (_, ms) => Some (concat ks, map report (concat ms))
                    | _, _ => None
                    end
  | _, _ => None
  end.

Lemma clock_floor freq G : 0 < G -> counts freq G 1 (fun t => t * freq / G).
Proof.
  intros HG s t H. assert (Hm : s * freq <= t * freq) by (apply N.mul_le_mono_r; exact H).
  split; [apply N.div_le_mono; lia|].
  pose proof (N.div_mod (s * freq) G ltac:(lia)) as Es. pose proof (N.mod_lt (s * freq) G ltac:(lia)) as Ls.
  pose proof (N.div_mod (t * freq) G ltac:(lia)) as Et. pose proof (N.mod_lt (t * freq) G ltac:(lia)) as Lt.
  rewrite !N.mul_sub_distr_r. rewrite (N.mul_comm (t * freq / G) G), (N.mul_comm (s * freq / G) G). lia.
Qed.

Example C77_example :
  let xs := stamps 5 0 (presses_edges usb_keys) in
  counts 100000 1000000 1 (fun t => t * 100000 / 1000000) /\ 1000000 * 45 <= 50 * 1000000 /\
  Forall (fun y => apple_key (fst (fst y)) /\ N.of_nat (length (snd y)) + 1 < 2 ^ 32) usb_keys /\
  Forall (real_press 1000000 4 13500 11250 27000 (fun w => w)) usb_keys /\
  Forall (fun y : burst => let '(gap, _, stop) := y in 1000 * stop <= 1000000 /\
            2700 * 1000000 <= shown 100000 1000000 gap /\ shown 100000 1000000 gap + 112 * 1000000 <= 2 ^ 32 * 1000000) (bursts usb_keys) /\
  stamped 32 (fun t => t * 100000 / 1000000) 45 0 0 (presses_edges usb_keys) xs /\
  usb_sent (debug_build 32) xs =
    Some ([MNextTrack; MZero; MNextTrack; MZero; MZero; MZero], [(0, 2%Z, 0%Z); (0, 4%Z, 0%Z); (0, 0%Z, 0%Z)]).
Proof.
  intros xs. split; [apply clock_floor; reflexivity|]. split; [vm_compute; discriminate|].
  split. { unfold usb_keys. apply Forall_cons; [|apply Forall_cons; [|apply Forall_nil]]; (split; [split; [|split]; vm_compute; reflexivity|vm_compute; reflexivity]). }
  split. { unfold usb_keys. apply Forall_cons; [|apply Forall_cons; [|apply Forall_nil]]; cbn [real_press].
    - split; [vm_compute; discriminate|]. split; [apply real_nec_ok; vm_compute; reflexivity|].
      apply Forall_cons; [|apply Forall_nil]. split; [vm_compute; discriminate|].
      exists (9180, 2300). split; [reflexivity|]. apply real_nearb_ok. vm_compute. reflexivity.
    - split; [vm_compute; discriminate|]. split; [apply real_nec_ok; vm_compute; reflexivity|apply Forall_nil]. }
  split. { unfold usb_keys, bursts. cbn [flat_map fst snd app].
    repeat (apply Forall_cons; [split; [|split]; vm_compute; discriminate|]). apply Forall_nil. }
  split.
  { apply stamps_ok; [lia|]. assert (H : forallb (fun e : edge => 45 <=? snd e) (presses_edges usb_keys) = true) by (vm_compute; reflexivity).
    intros l D HI. rewrite forallb_forall in H. apply H in HI. apply N.leb_le. exact HI. }
  vm_compute. reflexivity.
Qed.
