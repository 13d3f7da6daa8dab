(** * Properties C18-C23: complete frames are decoded from any receiver state *)
From Coq Require Import NArith ZArith List Bool Lia ZifyBool ZifyNat ZifyN.
From Verif Require Import Machine Spec Bits Time Decoder Nec Rc5 Rc6 Denon Sbp Receiver
  Time_facts Window_facts Codec_facts Run_facts Nec_facts Sbp_facts Denon_facts Rc5_facts Rc6_facts Example_facts.
Import ListNotations.
Open Scope N_scope.

(** ** C18 *)

(** [hist] is any history of edges, [gap] the pause in front of the frame. *)
Theorem C18_nec_frame :
  forall b m freq a c hist gap ps C (into : nec_command -> C),
  timebase m freq -> 893 <= freq -> freq < 2 ^ 32 -> a < 2 ^ 8 -> c < 2 ^ 8 ->
  nec_frame freq 13500 (bytes4 a (compl8 a) c (compl8 c)) ps ->
  longer freq 13500 7 gap ->
  short (hist ++ (true, gap) :: pair_edges ps) ->
  exists r0 r os o,
    receiver_new (nec_protocol b m NecStandard) freq = Val r0 /\
    run_edges (D := nec_dec b m NecStandard) into r0 (hist ++ (true, gap) :: pair_edges ps) =
      Val (r, os ++ o :: repeat (ROk None) 65 ++ [ROk (Some (into (mkNec a c false)))]) /\
    length os = length hist /\ (o = ROk None \/ o = RErr EData).
Proof.
  intros b m freq a c hist gap ps C into Hm H893 Hf Ha Hc Hfr Hg Hs.
  destruct (nec_decode b m freq NecStandard Hm Hf (or_introl eq_refl) into H893
    (bytes4 a (compl8 a) c (compl8 c)) hist gap ps) as (r0 & os & o & pv & E0 & E1 & L & Ho); auto.
  { apply bytes4_lt; auto using compl8_lt. }
  cbn [nv_unpack NecStandard] in E1. rewrite nec_unpack_layout in E1 by auto.
  exists r0. eexists. exists os, o. split; [exact E0|]. split; [exact E1|]. auto.
Qed.
Print Assumptions C18_nec_frame.

(** A concrete case: noise and a truncated frame, a gap of 30 ms, then a jittered
    frame for address 21, command 200 at 40 kHz. *)
Definition nec_example_pairs (header : N * N) (w : N) : list (N * N) :=
  header :: map (fun bit : bool => if bit then (25, 69) else (19, 27)) (bits_lsb 32 w).
Definition nec_example_history : list edge :=
  [(false, 7); (false, 3); (true, 9); (false, 360); (true, 180); (false, 22); (true, 68); (false, 40)].

Ltac frame_example := apply nec_frameb_ok; vm_compute; reflexivity.
Ltac short_example := apply shortb_ok; vm_compute; reflexivity.

Example C18_example :
  let w := bytes4 21 (compl8 21) 200 (compl8 200) in
  let ps := nec_example_pairs (355, 190) w in
  nec_frame 40000 13500 w ps /\ longer 40000 13500 7 1200 /\
  short (nec_example_history ++ (true, 1200) :: pair_edges ps) /\
  let h := nec_example_history ++ (true, 1200) :: pair_edges ps in
  let P := nec_protocol (debug_build 32) MU32 NecStandard in
  outcome_at P 40000 h 8 = Some (RErr EData) /\
  outcome_at P 40000 h 74 = Some (ROk (Some (mkNec 21 200 false))).
Proof.
  split; [frame_example|]. split; [vm_compute; reflexivity|]. split; [short_example|].
  split; vm_compute; reflexivity.
Qed.

(** ** C19 *)
Theorem C19_samsung_frame :
  forall b m freq a c hist gap ps C (into : samsung_command -> C),
  timebase m freq -> 893 <= freq -> freq < 2 ^ 32 -> a < 2 ^ 8 -> c < 2 ^ 8 ->
  nec_frame freq 9000 (bytes4 a a c (compl8 c)) ps ->
  longer freq 9000 7 gap ->
  short (hist ++ (true, gap) :: pair_edges ps) ->
  exists r0 r os o,
    receiver_new (nec_protocol b m NecSamsung) freq = Val r0 /\
    run_edges (D := nec_dec b m NecSamsung) into r0 (hist ++ (true, gap) :: pair_edges ps) =
      Val (r, os ++ o :: repeat (ROk None) 65 ++ [ROk (Some (into (mkSamsung a c false)))]) /\
    length os = length hist /\ (o = ROk None \/ o = RErr EData).
Proof.
  intros b m freq a c hist gap ps C into Hm H893 Hf Ha Hc Hfr Hg Hs.
  destruct (nec_decode b m freq NecSamsung Hm Hf (or_intror eq_refl) into H893
    (bytes4 a a c (compl8 c)) hist gap ps) as (r0 & os & o & pv & E0 & E1 & L & Ho); auto.
  { apply bytes4_lt; auto using compl8_lt. }
  cbn [nv_unpack NecSamsung] in E1. rewrite samsung_unpack_layout in E1 by auto.
  exists r0. eexists. exists os, o. split; [exact E0|]. split; [exact E1|]. auto.
Qed.
Print Assumptions C19_samsung_frame.

Theorem C19_nec16_frame :
  forall b m freq a c hist gap ps C (into : nec16_command -> C),
  timebase m freq -> 893 <= freq -> freq < 2 ^ 32 -> a < 2 ^ 16 -> c < 2 ^ 8 ->
  nec_frame freq 13500 (bytes4 (a mod 2 ^ 8) (a / 2 ^ 8) c (compl8 c)) ps ->
  longer freq 13500 7 gap ->
  short (hist ++ (true, gap) :: pair_edges ps) ->
  exists r0 r os o,
    receiver_new (nec_protocol b m Nec16Bit) freq = Val r0 /\
    run_edges (D := nec_dec b m Nec16Bit) into r0 (hist ++ (true, gap) :: pair_edges ps) =
      Val (r, os ++ o :: repeat (ROk None) 65 ++ [ROk (Some (into (mkNec16 a c false)))]) /\
    length os = length hist /\ (o = ROk None \/ o = RErr EData).
Proof.
  intros b m freq a c hist gap ps C into Hm H893 Hf Ha Hc Hfr Hg Hs.
  destruct (nec_decode b m freq Nec16Bit Hm Hf (or_introl eq_refl) into H893
    (bytes4 (a mod 2 ^ 8) (a / 2 ^ 8) c (compl8 c)) hist gap ps) as (r0 & os & o & pv & E0 & E1 & L & Ho); auto.
  { change (2 ^ 8) with 256 in *. change (2 ^ 16) with 65536 in *.
    apply bytes4_lt; auto using compl8_lt; lia. }
  cbn [nv_unpack Nec16Bit] in E1. rewrite nec16_unpack_layout in E1 by auto.
  exists r0. eexists. exists os, o. split; [exact E0|]. split; [exact E1|]. auto.
Qed.
Print Assumptions C19_nec16_frame.

Theorem C19_raw_frame :
  forall b m freq w hist gap ps C (into : nec_debug_cmd -> C),
  timebase m freq -> 893 <= freq -> freq < 2 ^ 32 -> w < 2 ^ 32 ->
  nec_frame freq 13500 w ps -> longer freq 13500 7 gap ->
  short (hist ++ (true, gap) :: pair_edges ps) ->
  exists r0 r os o,
    receiver_new (nec_protocol b m NecRaw) freq = Val r0 /\
    run_edges (D := nec_dec b m NecRaw) into r0 (hist ++ (true, gap) :: pair_edges ps) =
      Val (r, os ++ o :: repeat (ROk None) 65 ++ [ROk (Some (into (mkNecDebug w)))]) /\
    length os = length hist /\ (o = ROk None \/ o = RErr EData).
Proof.
  intros b m freq w hist gap ps C into Hm H893 Hf Hw Hfr Hg Hs.
  destruct (nec_decode b m freq NecRaw Hm Hf (or_introl eq_refl) into H893
    w hist gap ps) as (r0 & os & o & pv & E0 & E1 & L & Ho); auto.
  exists r0. eexists. exists os, o. split; [exact E0|]. split; [exact E1|]. auto.
Qed.
Print Assumptions C19_raw_frame.

(** The Apple variant: a word with the vendor code and odd parity is reported, any
    other word is dropped silently. *)
Theorem C19_apple_frame :
  forall b m freq w hist gap ps C (into : apple_command -> C),
  timebase m freq -> 893 <= freq -> freq < 2 ^ 32 -> w < 2 ^ 32 ->
  nec_frame freq 13500 w ps -> longer freq 13500 7 gap ->
  short (hist ++ (true, gap) :: pair_edges ps) ->
  exists r0 r os o res,
    receiver_new (nec_protocol b m NecApple) freq = Val r0 /\
    run_edges (D := nec_dec b m NecApple) into r0 (hist ++ (true, gap) :: pair_edges ps) =
      Val (r, os ++ o :: repeat (ROk None) 65 ++ [ROk res]) /\
    length os = length hist /\ (o = ROk None \/ o = RErr EData) /\
    (field w 5 11 = 1087 /\ Nat.odd (ones (bits_lsb 32 w)) = true ->
       res = Some (into (mkApple (field w 0 5) (field w 17 7) (field w 24 8) false))) /\
    (~ (field w 5 11 = 1087 /\ Nat.odd (ones (bits_lsb 32 w)) = true) -> res = None).
Proof.
  intros b m freq w hist gap ps C into Hm H893 Hf Hw Hfr Hg Hs.
  destruct (nec_decode b m freq NecApple Hm Hf (or_introl eq_refl) into H893
    w hist gap ps) as (r0 & os & o & pv & E0 & E1 & L & Ho); auto.
  exists r0. eexists. exists os, o. eexists. split; [exact E0|]. split; [exact E1|].
  split; auto. split; auto. cbn [nv_unpack NecApple] in *. split; intros H.
  - destruct (apple_unpack w false) as [c|] eqn:E.
    + apply apple_unpack_char in E; auto. destruct E as (_ & _ & ->). reflexivity.
    + exfalso. assert (Q : apple_unpack w false = Some (mkApple (field w 0 5) (field w 17 7) (field w 24 8) false)).
      { apply apple_unpack_char; tauto. }
      congruence.
  - destruct (apple_unpack w false) as [c|] eqn:E; [|reflexivity].
    exfalso. apply apple_unpack_char in E; auto. tauto.
Qed.
Print Assumptions C19_apple_frame.

Example C19_example :
  nec_frame 40000 9000 (bytes4 7 7 200 55) (nec_example_pairs (185, 170) (bytes4 7 7 200 55)) /\
  longer 40000 9000 7 390 /\
  nec_frame 1000000 13500 1510442990
    ((9100, 4300) :: map (fun bit : bool => if bit then (600, 1600) else (500, 600)) (bits_lsb 32 1510442990)) /\
  field 1510442990 5 11 = 1087 /\ Nat.odd (ones (bits_lsb 32 1510442990)) = true.
Proof.
  split; [frame_example|]. split; [vm_compute; reflexivity|]. split; [frame_example|].
  split; vm_compute; reflexivity.
Qed.

(** ** C20 *)
Theorem C20_sbp_frame :
  forall b m freq a c hist gap ps C (into : sbp_command -> C),
  timebase m freq -> 1000 <= freq -> freq < 2 ^ 32 -> a < 2 ^ 16 -> c < 2 ^ 20 ->
  sbp_frame freq a c ps -> longer freq 9000 5 gap ->
  short (hist ++ (true, gap) :: pair_edges ps) ->
  exists r0 r os o,
    receiver_new (sbp_protocol b m) freq = Val r0 /\
    run_edges (D := sbp_dec b m) into r0 (hist ++ (true, gap) :: pair_edges ps) =
      Val (r, os ++ o :: repeat (ROk None) 75 ++
        [ROk (Some (into (mkSbp a (field c 4 8) (field c 12 8 =? compl8 (field c 4 8)))))]) /\
    length os = length hist /\ (o = ROk None \/ o = RErr EData \/ o = RErr EAddress).
Proof.
  intros b m freq a c hist gap ps C into Hm Hlo Hf Ha Hc Hfr Hg Hs.
  destruct (sbp_decode b m freq Hm Hf into Hlo a c hist gap ps) as (r0 & os & o & pv & E0 & E1 & L & Ho); auto.
  rewrite sbp_unpack_char in E1 by auto.
  exists r0. eexists. exists os, o. split; [exact E0|]. split; [exact E1|]. auto.
Qed.
Print Assumptions C20_sbp_frame.

Example C20_example :
  let c := 5 + 2 ^ 4 * 77 + 2 ^ 12 * compl8 77 in
  let bit (b : bool) := if b then (21, 62) else (19, 19) in
  let ps := (170, 185) :: map bit (bits_lsb 16 4660) ++ (20, 178) :: map bit (bits_lsb 20 c) in
  let h := [(true, 3); (false, 170); (true, 180); (false, 20); (true, 20)] ++ (true, 2000) :: pair_edges ps in
  sbp_frame 40000 4660 c ps /\ longer 40000 9000 5 2000 /\ short h /\
  outcome_at (sbp_protocol (debug_build 32) MU32) 40000 h 5 = Some (RErr EAddress) /\
  outcome_at (sbp_protocol (debug_build 32) MU32) 40000 h 81 = Some (ROk (Some (mkSbp 4660 77 true))).
Proof.
  split; [apply sbp_frame_ok; vm_compute; reflexivity|]. split; [vm_compute; reflexivity|].
  split; [short_example|]. split; vm_compute; reflexivity.
Qed.

(** ** C21 *)

(** [evs]: the edges of the frame, the first one ending the pause [gap].  The history
    may be anything the receiver processes without panicking (see C40); [usize] has
    at least 8 bits. *)
Theorem C21_rc5_frame :
  forall b m freq w hist gap evs C (into : rc5_command -> C) r0 r1 os,
  timebase m freq -> 1125 <= freq -> freq < 2 ^ 32 -> 8 <= usize_bits b ->
  w < 2 ^ 14 -> N.testbit w 13 = true ->
  rc5_edges freq w gap evs -> longer freq 1778 10 gap ->
  receiver_new (rc5_protocol b m) freq = Val r0 ->
  run_edges (D := rc5_dec b) into r0 hist = Val (r1, os) ->
  exists r,
    run_edges (D := rc5_dec b) into r0 (hist ++ evs) =
      Val (r, os ++ repeat (ROk None) (length evs - 1) ++
        [ROk (Some (into (mkRc5 (field w 6 5) (field w 0 6) (field w 12 2) (negb (field w 11 1 =? 0)))))]).
Proof.
  intros b m freq w hist gap evs C into r0 r1 os Hm Hlo Hf Hu Hw H13 He Hg E0 E1.
  rewrite (rc5_new_val b m freq Hm Hf) in E0. injection E0 as <-.
  edestruct (rc5_decode b m freq Hm Hf into Hlo Hu w) as (pv & E);
    [exact Hw|exact H13| |exact E1|exact Hg|exact He|]; [reflexivity|].
  rewrite rc5_unpack_layout in E. eexists. exact E.
Qed.
Print Assumptions C21_rc5_frame.

(** Intervals of [n] units, jittered by [lo] (one unit) or [hi] (two units) ticks. *)
Definition jitter (f : N -> N) (l : list edge) : list edge := map (fun e => (fst e, f (snd e))) l.

(** Noise, a broken frame, a pause, then the word 0b10_1_00101_110101 at 40 kHz
    (half-bit nominally 35 ticks). *)
Example C21_example :
  let w := 2 ^ 13 + 2 ^ 11 + 2 ^ 6 * 5 + 53 in
  let acts := jitter (fun n => if n =? 1 then 31 else 77) (tl (level_edges false 0 (rc5_wave w))) in
  let hist := [(true, 3); (false, 35); (true, 36); (false, 71); (true, 35); (false, 9)] in
  rc5_edges 40000 w 500 ((true, 500) :: acts) /\ longer 40000 1778 10 500 /\
  w < 2 ^ 14 /\ N.testbit w 13 = true /\
  outcomes (rc5_protocol (debug_build 16) MU32) 40000 (hist ++ (true, 500) :: acts) =
    Some (repeat (ROk None) 6 ++ repeat (ROk None) 16 ++ [ROk (Some (mkRc5 5 53 2 true))]).
Proof.
  split; [apply rc5_edges_ok; vm_compute; reflexivity|].
  split; [vm_compute; reflexivity|]. split; [vm_compute; reflexivity|]. split; vm_compute; reflexivity.
Qed.

(** ** C22: refuted for leaders that are within the protocol's 12 percent but too
    short: the windows of five and six units overlap and five wins. *)
Theorem C22_rc6_frame_refuted :
  exists evs, rc6_edges 40000 (rc6_leader_full 40000) true 1036 1000 evs /\ longer 40000 2664 12 1000 /\
    outcomes (rc6_protocol (debug_build 32) MU32) 40000 evs = Some (repeat (ROk None) (length evs)).
Proof.
  exists ((true, 1000) :: (false, 95) :: jitter (fun n => 17 * n) (tl (tl (level_edges false 0 (rc6_wave true (bits_msb 16 1036)))))).
  split; [apply rc6_edges_ok; [apply nearb_ok|]; vm_compute; reflexivity|]. split; vm_compute; reflexivity.
Qed.
Print Assumptions C22_rc6_frame_refuted.

(** What holds: the frame is decoded from any state when the leader is at most 4
    percent too short (5 percent from 15391 Hz, 6 percent from 37913 Hz on); all
    other intervals have the full 12 percent.  Missing for the full property:
    shorter leaders. *)
Theorem C22_rc6_frame_partial :
  forall b m freq a c toggle hist gap evs C (into : rc6_command -> C) r0 r1 os,
  timebase m freq -> 4130 <= freq -> freq < 2 ^ 32 -> 8 <= usize_bits b -> a < 2 ^ 8 -> c < 2 ^ 8 ->
  rc6_edges freq (rc6_leader_safe freq) toggle (2 ^ 8 * a + c) gap evs -> longer freq 2664 12 gap ->
  receiver_new (rc6_protocol b m) freq = Val r0 ->
  run_edges (D := rc6_dec b) into r0 hist = Val (r1, os) ->
  exists r,
    run_edges (D := rc6_dec b) into r0 (hist ++ evs) =
      Val (r, os ++ repeat (ROk None) (length evs - 1) ++ [ROk (Some (into (mkRc6 a c toggle)))]).
Proof.
  intros b m freq a c toggle hist gap evs C into r0 r1 os Hm Hlo Hf Hu Ha Hc He Hg E0 E1.
  assert (Hw : 2 ^ 8 * a + c < 2 ^ 16) by (change (2 ^ 8) with 256 in *; change (2 ^ 16) with 65536; lia).
  rewrite (rc6_new_val b m freq Hm Hf) in E0. injection E0 as <-.
  edestruct (rc6_decode b m freq Hm Hf into ltac:(lia) Hu toggle) as (pv & E);
    [exact Hlo|exact Hw| |exact E1|exact Hg|exact He|]; [reflexivity|].
  rewrite rc6_from_bits_word in E by auto.
  assert (F : field (2 ^ 8 * a + c) 8 8 = a /\ field (2 ^ 8 * a + c) 0 8 = c).
  { unfold field. change (2 ^ 0) with 1. change (2 ^ 8) with 256 in *. lia. }
  destruct F as [F1 F2]. rewrite F1, F2 in E. eexists. exact E.
Qed.
Print Assumptions C22_rc6_frame_partial.

Example C22_example :
  let acts := jitter (fun n => 19 * n) (tl (tl (level_edges false 0 (rc6_wave true (bits_msb 16 (2 ^ 8 * 4 + 12)))))) in
  let evs := (true, 1000) :: (false, 100) :: acts in
  rc6_edges 40000 (rc6_leader_safe 40000) true (2 ^ 8 * 4 + 12) 1000 evs /\ longer 40000 2664 12 1000 /\
  outcomes (rc6_protocol (debug_build 16) MU32) 40000 ([(true, 5); (false, 107); (true, 35)] ++ evs) =
    Some (repeat (ROk None) 3 ++ repeat (ROk None) (length evs - 1) ++ [ROk (Some (mkRc6 4 12 true))]).
Proof.
  split.
  - apply rc6_edges_ok; [|vm_compute; reflexivity].
    split; [apply nearb_ok; vm_compute; reflexivity|vm_compute; intros Q; discriminate Q].
  - split; vm_compute; reflexivity.
Qed.

(** ** C23: refuted.  The last of the 48 bits is never stored, and bits of a frame
    that was broken off are mixed into the next one. *)
Theorem C23_denon_frame_refuted :
  (exists w ps, denon_frame 40000 w ps /\ w < 2 ^ 48 /\ short ((true, 1000) :: pair_edges ps) /\
     longer 40000 5000 8 1000 /\
     exists bits, outcome_at (denon_protocol (debug_build 32) MU32) 40000 ((true, 1000) :: pair_edges ps) 98
       = Some (ROk (Some (mkDenon bits))) /\ bits <> w) /\
  (exists hist w ps, denon_frame 40000 w ps /\ w < 2 ^ 47 /\ short (hist ++ (true, 1000) :: pair_edges ps) /\
     longer 40000 5000 8 1000 /\ length hist = 4%nat /\
     exists bits, outcome_at (denon_protocol (debug_build 32) MU32) 40000 (hist ++ (true, 1000) :: pair_edges ps) 102
       = Some (ROk (Some (mkDenon bits))) /\ bits <> w).
Proof.
  split.
  - exists (2 ^ 47 + 9), ((130, 70) :: map (fun b : bool => if b then (19, 48) else (19, 14)) (bits_lsb 48 (2 ^ 47 + 9))).
    split; [apply denon_frame_ok; vm_compute; reflexivity|]. split; [reflexivity|].
    split; [short_example|]. split; [vm_compute; reflexivity|].
    exists 9. split; [vm_compute; reflexivity|discriminate].
  - exists [(false, 130); (true, 70); (false, 19); (true, 48)], 8,
      ((130, 70) :: map (fun b : bool => if b then (19, 48) else (19, 14)) (bits_lsb 48 8)).
    split; [apply denon_frame_ok; vm_compute; reflexivity|]. split; [reflexivity|].
    split; [short_example|]. split; [vm_compute; reflexivity|]. split; [reflexivity|].
    exists 9. split; [vm_compute; reflexivity|discriminate].
Qed.
Print Assumptions C23_denon_frame_refuted.

(** What holds: the frame is reported with its low 47 bits, joined with the bits
    left over from broken-off frames; after a history without anything like a
    sync pulse there are none.  Missing for the full property: bit 47, and the
    independence from broken-off frames. *)
Theorem C23_denon_frame_partial :
  forall b m freq w hist gap ps C (into : denon_command -> C),
  timebase m freq -> 1191 <= freq -> freq < 2 ^ 32 -> w < 2 ^ 48 ->
  denon_frame freq w ps -> longer freq 5000 8 gap ->
  short (hist ++ (true, gap) :: pair_edges ps) ->
  exists r0 r os old,
    receiver_new (denon_protocol b m) freq = Val r0 /\
    run_edges (D := denon_dec b m) into r0 (hist ++ (true, gap) :: pair_edges ps) =
      Val (r, os ++ repeat (ROk None) 98 ++ [ROk (Some (into (mkDenon (N.lor old (w mod 2 ^ 47)))))]) /\
    length os = length hist /\ old < 2 ^ 47 /\
    ((forall d, In d (periods hist) -> ~ near freq 5000 9 d) ->
       old = 0 /\ os = repeat (ROk None) (length hist)).
Proof.
  intros b m freq w hist gap ps C into Hm Hlo Hf Hw Hfr Hg Hs.
  destruct (denon_decode b m freq Hm Hf into Hlo w hist gap ps)
    as (r0 & pv & os & old & E0 & E1 & L & Ho & Hq); auto.
  exists r0. eexists. exists os, old. split; [exact E0|]. split; [exact E1|]. auto.
Qed.
Print Assumptions C23_denon_frame_partial.

Example C23_example :
  let w := 123456789012345 in
  let ps := (130, 70) :: map (fun b : bool => if b then (19, 48) else (19, 14)) (bits_lsb 48 w) in
  let h := [(true, 3); (false, 17); (true, 16); (false, 100)] ++ (true, 2000) :: pair_edges ps in
  denon_frame 40000 w ps /\ longer 40000 5000 8 2000 /\ short h /\
  (forall d, In d (periods [(true, 3); (false, 17); (true, 16); (false, 100)]) -> ~ near 40000 5000 9 d) /\
  outcome_at (denon_protocol (debug_build 32) MU32) 40000 h 102 = Some (ROk (Some (mkDenon w))).
Proof.
  split; [apply denon_frame_ok; vm_compute; reflexivity|]. split; [vm_compute; reflexivity|].
  split; [short_example|]. split; [|vm_compute; reflexivity].
  intros d Hd. cbn [periods periods_from In] in Hd. destruct Hd as [<-|[<-|[]]]; vm_compute; intros [H1 H2]; auto.
Qed.
