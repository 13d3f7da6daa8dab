(** * The crate's own unit tests, replayed on the model

    These are tests, not proofs of properties: they check the transcription of the code
    into the model against the recorded signals in /repo.  The buffers are copied from
    the Rust test files; each [Example] makes the assertions of the Rust test of the
    same name. *)
From Coq Require Import NArith List Bool.
From Verif Require Import Spec Spec_receiver Example_facts Apps Props_apps Machine Time Decoder Nec Rc5 Rc6 Denon Sbp Receiver Sender Remote.
Import ListNotations.
Open Scope N_scope.

(** A debug build on a 64-bit host, as run by [cargo test] (Cargo.toml). *)
Definition host : build := mkBuild true 64.

(** The commands collected from [BufferInputReceiver::iter] (src/receiver/bufferinput.rs), as in
    src/protocol/nec/tests.rs:29-31. *)
Definition collected (P : protocol) (freq : N) (buf : list N) : option (list (dcmd (p_dec P))) :=
  match iter_new P freq buf with
  | Val it => match collect (fun c => c) it with Val (_, l) => Some l | _ => None end
  | _ => None
  end.

(** The commands reported on alternating edges, as in the Rust loops that start with
    [edge = false] and flip it before each event (e.g. src/protocol/rc6/tests.rs:21-45). *)
Fixpoint alternate (e : bool) (l : list N) : list (bool * N) :=
  match l with [] => [] | d :: r => (e, d) :: alternate (negb e) r end.
(** As in the loop of src/protocol/rc6/tests.rs:21-45. *)
Definition reported (P : protocol) (freq : N) (buf : list N) : option (list (dcmd (p_dec P))) :=
  match receiver_new P freq with
  | Val r => match run_edges (fun c => c) r (alternate true buf) with
             | Val (_, os) => Some (flat_map (fun o => match o with ROk (Some c) => [c] | _ => [] end) os)
             | _ => None
             end
  | _ => None
  end.

(** [ptb.load::<Proto, F>(&cmd)] on a new buffer of 96 entries, then [ptb.buffer()] (e.g.
    src/protocol/nec/tests.rs:97-115). *)
Definition front (r : res (list N * nat)) : option (list N) :=
  match r with Val (buf, n) => Some (firstn n buf) | _ => None end.
(** src/protocol/nec/tests.rs:97-115. *)
Definition loaded_nec (F : N) (c : nec_command) : option (list N) :=
  match nec_data NEC_STANDARD_TIMING F with
  | Some data => front (nec_encode NecStandard data c (repeat 0 96))
  | None => None
  end.
(** src/protocol/rc5/tests.rs:66-106. *)
Definition loaded_rc5 (F : N) (c : rc5_command) : option (list N) :=
  match rc5_calc_freq F with Some l => front (rc5_encode host l c (repeat 0 96)) | None => None end.
(** src/protocol/rc6/tests.rs:72-91. *)
Definition loaded_rc6 (F : N) (c : rc6_command) : option (list N) :=
  match rc6_data_len F with Some l => front (rc6_encode host l c (repeat 0 96)) | None => None end.
(** Only to write the tests of src/protocol/*/tests.rs down. *)
Definition bind_opt {A B} (o : option A) (f : A -> option B) : option B :=
  match o with Some x => f x | None => None end.

(** src/protocol/utils.rs:16-26 *)
Example test_scale_with_samplerate :
  scale_with_samplerate 560 20000 = Val 11 /\ scale_with_samplerate 560 100000 = Val 56 /\
  scale_with_samplerate 560 1000000 = Val 560.
Proof. repeat split; vm_compute; reflexivity. Qed.

(** src/protocol/nec/tests.rs:12-37 *)
Example standard_nec :
  collected (nec_protocol host MU32 NecStandard) 40000
  [ 0; 363; 177; 24; 21; 24; 21; 24; 21; 24; 21; 24; 21; 24; 20; 24; 21; 24; 21; 24; 66; 24;
    66; 24; 65; 25; 65; 24; 66; 24; 66; 24; 65; 25; 65; 24; 21; 24; 21; 24; 66; 24; 65; 24; 21;
    24; 21; 24; 21; 24; 21; 24; 65; 25; 65; 24; 21; 24; 21; 24; 66; 24; 65; 25; 65; 24; 66; 24;
    0; 363; 177; 24; 21; 24; 21; 24; 21; 24; 21; 24; 21; 24; 20; 24; 21; 24; 21; 24; 66; 24;
    66; 24; 65; 25; 65; 24; 66; 24; 66; 24; 65; 25; 65; 24; 21; 24; 21; 24; 66; 24; 65; 24; 21;
    24; 21; 24; 21; 24; 21; 24; 65; 25; 65; 24; 21; 24; 21; 24; 66; 24; 65; 25; 65; 24; 66; 24 ]
  = Some [mkNec 0 12 false; mkNec 0 12 false].
Proof. vm_compute. reflexivity. Qed.

(** src/protocol/nec/tests.rs:39-57 *)
Example cmd_standard :
  nec_pack (mkNec 7 44 false) = Val 0xD32CF807 /\ nec_validate 0xD32CF807 = true /\
  nec_unpack 0xD32CF807 false = Some (mkNec 7 44 false).
Proof. repeat split; vm_compute; reflexivity. Qed.

(** src/protocol/nec/tests.rs:59-76 *)
Example cmd_samsung :
  samsung_pack (mkSamsung 7 44 false) = Val 0xD32C0707 /\ samsung_validate 0xD32C0707 = true /\
  samsung_unpack 0xD32C0707 false = Some (mkSamsung 7 44 false).
Proof. repeat split; vm_compute; reflexivity. Qed.

(** src/protocol/nec/tests.rs:78-94 *)
Example cmd_nec16 :
  nec16_pack (mkNec16 28114 220 false) = Val 0x23DC6DD2 /\ nec16_validate 0x23DC6DD2 = true /\
  nec16_unpack 0x23DC6DD2 false = Some (mkNec16 28114 220 false).
Proof. repeat split; vm_compute; reflexivity. Qed.

(** src/protocol/nec/tests.rs:146-168 *)
Example cmd_apple2009 :
  forallb (fun x : N * N => let (bits, cmdnum) := x in
    apple_validate bits &&
    match apple_unpack bits false with
    | Some c => (apl_page c =? 14) && (apl_command c =? cmdnum)
    | None => false
    end)
  [ (0x9B0987EE, 4); (0x9B0A87EE, 5); (0x9B0687EE, 3); (0x9B0C87EE, 6); (0x9B5C87EE, 46); (0x9B0587EE, 2); (0x9B0387EE, 1); (0x9B5F87EE, 47); (0x9B0587EE, 2) ] = true.
Proof. vm_compute. reflexivity. Qed.

(** src/protocol/nec/tests.rs:173-190 and :205-222, the recorded command and repeats. *)
Definition repeat_data : list N :=
  [ 0; 9130; 4532; 571; 562; 571; 562; 571; 562; 570; 563; 572; 562; 571; 562; 570; 562; 571;
    562; 571; 1699; 570; 1697; 571; 1697; 571; 1698; 572; 1697; 570; 1699; 570; 1698; 571;
    1698; 571; 562; 571; 563; 569; 564; 571; 1697; 571; 1698; 571; 562; 572; 562; 571; 562;
    571; 1697; 571; 1697; 571; 1698; 570; 563; 571; 562; 569; 1698; 571; 1698; 570; 1699; 571;
    40648; 9124; 2260; 571; 97387; 9123; 2259; 571; 97385; 9125; 2260; 571; 97398; 9126; 2260;
    571; 97380; 9120; 2258; 571; 97373; 9124; 2259; 572; 97409; 9124; 2258; 571; 97387 ].

(** src/protocol/nec/tests.rs:170-200 *)
Example repeat_ :
  collected (nec_protocol host MU32 NecStandard) 1000000 repeat_data =
  Some (mkNec 0 24 false :: repeat (mkNec 0 24 true) 7).
Proof. vm_compute. reflexivity. Qed.

(** src/protocol/nec/tests.rs:202-250, at 1 MHz: [micros p] is [p] ticks *)
Example fugit :
  reported (nec_protocol host (MFugit 32 (fun p => p) (fun a b => Some (a - b))) NecStandard) 1000000 repeat_data =
  Some (mkNec 0 24 false :: repeat (mkNec 0 24 true) 7).
Proof. vm_compute. reflexivity. Qed.

(** src/protocol/rc5/tests.rs:8-12 *)
Example rc5_command :
  rc5_unpack (rc5_pack (rc5_new 20 15 false)) = rc5_new 20 15 false.
Proof. vm_compute. reflexivity. Qed.

(** src/protocol/rc5/tests.rs:14-29 *)
Example test_bufrecv :
  option_map (map (fun c => (rc5_addr c, rc5_cmd c))) (collected (rc5_protocol host MU32) 40000
  [ 0; 37; 34; 72; 72; 73; 70; 72; 36; 37; 34; 36; 36; 36; 71; 73; 35; 37; 70; 37; 0; 37; 34;
    72; 72; 73; 70; 72; 36; 37; 34; 36; 36; 36; 71; 73; 35; 37; 70; 37 ])
  = Some [(20, 9); (20, 9)].
Proof. vm_compute. reflexivity. Qed.

(** src/protocol/rc5/tests.rs:38-44. *)
Definition mixed_data : list N :=
  [ 57910; 36; 36; 36; 35; 37; 35; 72; 71; 72; 36; 36; 36; 36; 35; 36; 36; 36; 35; 36; 36; 36;
    71; 36; 26605; 36; 36; 71; 72; 72; 71; 72; 36; 36; 35; 36; 36; 36; 35; 37; 35; 36; 36; 36;
    71; 36; 10254; 37; 35; 37; 34; 37; 35; 37; 35; 73; 34; 38; 70; 37; 141; 38; 34; 37; 35; 37;
    34; 38; 34; 37; 70; 73; 35; 37; 35; 37; 34; 38; 34; 37; 34; 38; 50973; 38; 34; 73; 70; 73;
    70; 74; 34; 37; 35; 37; 34; 38; 34; 37; 35; 37; 34; 38; 70; 37 ].

(** src/protocol/rc5/tests.rs:31-63 *)
Example command_mixed :
  option_map (map (fun c => (rc5_addr c, rc5_cmd c))) (collected (rc5_protocol host MU32) 40000 mixed_data) =
    Some [(20, 1); (20, 1); (20, 1)] /\
  option_map (map (rm_decode CdPlayer)) (collected (rc5_protocol host MU32) 40000 mixed_data) =
    Some [Some A_One; Some A_One; Some A_One].
Proof. split; vm_compute; reflexivity. Qed.

(** src/protocol/nec/tests.rs:119-144 *)
Example clock_frequencies :
  map (fun F => bind_opt (loaded_nec F (mkNec 20 10 false)) (collected (nec_protocol host MU32 NecStandard) F))
    [20000; 40000; 48000000] = repeat (Some [mkNec 20 10 false]) 3.
Proof. vm_compute. reflexivity. Qed.

(** src/protocol/rc5/tests.rs:88-107 *)
Example timer_resolution :
  map (fun F => bind_opt (loaded_rc5 F (rc5_new 10 2 false)) (collected (rc5_protocol host MU32) F))
    [20000; 40000; 48000000] = repeat (Some [rc5_new 10 2 false]) 3.
Proof. vm_compute. reflexivity. Qed.

(** src/protocol/rc6/tests.rs:8-44 *)
Example state_debug :
  bind_opt (loaded_rc6 1000000 (rc6_new 70 20)) (reported (rc6_protocol host MU32) 1000000) = Some [rc6_new 70 20].
Proof. vm_compute. reflexivity. Qed.

(** src/protocol/rc6/tests.rs:46-68 *)
Example decode_buffer :
  option_map (map (fun c => (rc6_addr c, rc6_cmd c))) (collected (rc6_protocol host MU32) 40000
  [ 0; 106; 35; 17; 35; 17; 17; 17; 17; 17; 35; 35; 17; 35; 35; 17; 17; 17; 17; 35; 17; 17; 35;
    17; 17; 17; 17; 17; 17; 17; 17; 17; 17; 17; 17; 35; 35; 35 ])
  = Some [(70, 2)].
Proof. vm_compute. reflexivity. Qed.

(** src/protocol/denon/test.rs:3-34 *)
Example denon :
  option_map (@length _) (collected (denon_protocol host MU32) 40000
  [ 0; 136; 65; 18; 16; 18; 15; 19; 49; 18; 15; 19; 48; 19; 15; 19; 48; 19; 15; 18; 15; 19; 48;
    19; 15; 19; 14; 19; 49; 18; 49; 18; 15; 19; 15; 19; 14; 19; 15; 19; 15; 18; 15; 19; 15; 19;
    14; 19; 48; 19; 15; 19; 49; 18; 16; 17; 16; 18; 16; 18; 16; 17; 16; 18; 16; 18; 15; 18; 49;
    18; 16; 17; 17; 17; 16; 18; 16; 17; 16; 18; 16; 18; 15; 18; 16; 17; 17; 17; 16; 18; 16; 18;
    15; 18; 16; 18; 49; 18; 16; 18; 2939; 138; 65; 17; 16; 18; 16; 18; 49; 18; 16; 17; 50; 18;
    15; 18; 50; 17; 16; 18; 16; 17; 50; 17; 16; 18; 16; 17; 18; 49; 18; 16; 16; 17; 18; 16; 18;
    16; 17; 16; 19; 15; 18; 15; 18; 16; 17; 50; 19; 15; 19; 48; 17; 16; 19; 15; 18; 15; 19; 15;
    18; 16; 18; 15; 19; 15; 19; 48; 19; 14; 19; 15; 19; 15; 19; 14; 19; 15; 19; 14; 19; 15; 19;
    14; 19; 15; 19; 15; 18; 15; 19; 15; 19; 14; 20; 47; 19; 15; 19; 2940; 136; 65; 19; 15; 18;
    15; 19; 49; 18; 15; 19; 48; 19; 15; 19; 48; 19; 15; 18; 15; 19; 48; 19; 15; 18; 15; 19; 49;
    18; 49; 18; 15; 19; 15; 19; 14; 19; 15; 19; 15; 18; 15; 19; 15; 19; 14; 19; 48; 19; 15; 19;
    48; 19; 15; 18; 17; 16; 19; 15; 19; 15; 18; 15; 19; 49; 19; 15; 18; 16; 17; 16; 18; 16; 18;
    15; 18; 16; 19; 14; 18; 16; 18; 16; 17; 16; 18; 16; 18; 15; 18; 16; 18; 49; 18; 16; 18 ])
  = Some 2%nat.
Proof. vm_compute. reflexivity. Qed.

(** tests/polled.rs:1-46: [n] polls at the same level for each entry [n], then the level flips. *)
Fixpoint samples_of (level : bool) (l : list N) : list bool :=
  match l with [] => [] | n :: r => repeat level (N.to_nat n) ++ samples_of (negb level) r end.
(** tests/polled.rs:1-46. *)
Definition polled (P : protocol) (freq : N) (buf : list N) : option (list (dcmd (p_dec P))) :=
  match poll_new P freq with
  | Val p => match run_polls (fun c => c) p (samples_of false buf) with
             | Val (_, os) => Some (flat_map (fun o => match o with ROk (Some c) => [c] | _ => [] end) os)
             | _ => None
             end
  | _ => None
  end.
(** tests/polled.rs:1-46; the Rust test keeps the last command only *)
Example polled_rc5 :
  polled (rc5_protocol host MU32) 40000
  [ 57910; 36; 36; 36; 35; 37; 35; 72; 71; 72; 36; 36; 36; 36; 35; 36; 36; 36; 35; 36; 36; 36;
    71; 36; 26605; 36; 36; 71; 72; 72; 71; 72; 36; 36; 35; 36; 36; 36; 35; 37; 35; 36; 36; 36;
    71; 36 ]
  = Some [mkRc5 20 1 3 true; mkRc5 20 1 3 false].
Proof. vm_compute. reflexivity. Qed.


(** ** The recording examples/vcd-parser/samsung-tv.vcd *)

(** The intervals between the 681 value changes of examples/vcd-parser/samsung-tv.vcd, in steps of 25 microseconds (line 1); the
    wire is initially 0 and the changes alternate. *)
Definition samsung_tv_vcd : list N := [
0; 0; 181; 180; 23; 66; 23; 67; 23; 67; 23; 22; 23; 21; 24; 21; 23; 22; 23; 22; 23; 67; 23; 67; 23;
66; 23; 22; 23; 22; 23; 22; 23; 22; 23; 22; 23; 21; 24; 21; 23; 67; 23; 22; 23; 22; 23; 22; 23; 21;
23; 22; 23; 67; 23; 67; 23; 22; 22; 67; 23; 67; 23; 67; 23; 67; 22; 67; 23; 2000; 182; 179; 24; 65;
25; 65; 24; 66; 24; 21; 24; 21; 24; 21; 24; 20; 25; 20; 25; 65; 24; 66; 24; 65; 25; 20; 25; 20; 25;
20; 24; 21; 24; 21; 24; 66; 24; 20; 26; 64; 24; 21; 24; 21; 24; 21; 24; 21; 24; 21; 24; 20; 25; 65;
24; 21; 24; 66; 24; 65; 25; 65; 24; 66; 24; 66; 24; 2000; 183; 179; 24; 65; 25; 65; 24; 66; 24; 21;
24; 21; 24; 20; 25; 20; 25; 20; 24; 66; 24; 66; 24; 65; 25; 20; 25; 20; 24; 21; 24; 21; 24; 21; 24;
21; 24; 65; 25; 65; 25; 20; 24; 21; 24; 21; 24; 21; 24; 21; 24; 65; 24; 21; 24; 21; 24; 66; 24; 65;
25; 65; 24; 66; 24; 66; 24; 2000; 182; 179; 24; 65; 25; 65; 24; 66; 24; 21; 24; 21; 24; 21; 24; 20;
25; 20; 25; 65; 24; 66; 24; 66; 24; 20; 25; 20; 24; 21; 24; 21; 24; 21; 24; 21; 24; 66; 24; 65; 24;
21; 24; 21; 24; 21; 24; 21; 24; 21; 24; 65; 24; 21; 24; 21; 24; 66; 24; 66; 24; 65; 24; 66; 24; 66;
24; 2000; 181; 180; 23; 67; 23; 67; 23; 66; 23; 22; 23; 22; 23; 22; 23; 22; 23; 22; 23; 67; 23; 66;
23; 67; 23; 22; 23; 22; 23; 22; 23; 22; 23; 21; 23; 22; 23; 22; 23; 22; 23; 67; 23; 22; 23; 22; 23;
21; 23; 22; 23; 67; 23; 67; 23; 67; 23; 21; 23; 67; 23; 67; 23; 67; 23; 66; 23; 2000; 182; 179; 23;
67; 23; 67; 23; 67; 23; 21; 23; 22; 23; 22; 23; 22; 23; 22; 23; 67; 23; 66; 23; 67; 23; 22; 23; 22;
23; 22; 23; 22; 23; 21; 24; 21; 23; 22; 23; 22; 23; 67; 23; 22; 23; 22; 23; 21; 24; 21; 23; 67; 23;
67; 23; 67; 23; 21; 24; 66; 23; 67; 23; 67; 23; 66; 24; 2000; 181; 180; 23; 67; 23; 67; 23; 66; 23;
22; 23; 22; 23; 22; 23; 22; 23; 22; 23; 66; 23; 67; 23; 67; 23; 22; 23; 22; 23; 22; 23; 21; 23; 22;
23; 67; 23; 22; 23; 22; 23; 67; 23; 21; 24; 21; 23; 22; 23; 22; 23; 22; 23; 67; 23; 66; 24; 21; 23;
67; 23; 67; 23; 67; 23; 66; 23; 2000; 182; 179; 23; 67; 23; 67; 23; 67; 23; 21; 24; 21; 23; 22; 23;
22; 23; 22; 23; 67; 23; 66; 24; 66; 23; 22; 23; 22; 23; 22; 23; 22; 23; 21; 24; 66; 23; 22; 23; 22;
23; 67; 23; 22; 23; 21; 24; 21; 23; 22; 23; 22; 23; 67; 23; 67; 23; 21; 24; 66; 23; 67; 23; 67; 23;
66; 24; 2000; 181; 180; 23; 67; 23; 67; 23; 66; 23; 22; 23; 22; 23; 22; 23; 22; 23; 22; 23; 66; 23;
67; 23; 67; 23; 22; 23; 22; 22; 23; 22; 22; 23; 22; 23; 22; 23; 67; 23; 22; 23; 66; 23; 22; 23; 22;
23; 22; 23; 22; 23; 67; 23; 22; 22; 67; 23; 22; 23; 67; 23; 67; 23; 66; 23; 67; 23; 2000; 182; 179;
23; 67; 23; 67; 23; 67; 23; 21; 23; 22; 23; 22; 23; 22; 23; 22; 23; 67; 23; 66; 23; 67; 23; 22; 23;
22; 23; 22; 23; 22; 23; 22; 22; 22; 23; 67; 23; 22; 23; 67; 23; 22; 23; 22; 22; 22; 23; 22; 23; 67;
23; 22; 23; 67; 23; 22; 22; 67; 23; 67; 23; 67; 23; 67; 22].
(** The commands of examples/vcd-parser/samsung-tv.vcd that give these intervals. *)
Fixpoint as_dump (t : N) (evs : list edge) : list (option vcd_command) :=
  match evs with
  | [] => []
  | (l, d) :: r => Some (Timestamp (t + d)) :: Some (ChangeScalar 0 (if l then V1 else V0)) :: as_dump (t + d) r
  end.

(** The keys One to Six of a Samsung TV remote (the last four were received twice). *)
Example samsung_tv_recording :
  vcd_lines (debug_build 64) 25 UUs 0 (as_dump 0 (alternating false samsung_tv_vcd)) =
    Some (map (fun c => PrintCmd (mkSamsung 7 c false)) [4; 5; 6; 6; 8; 8; 9; 9; 10; 10], true) /\
  map (fun c => rm_decode SamsungTv (mkSamsung 7 c false)) [4; 5; 6; 8; 9; 10] =
    map Some [A_One; A_Two; A_Three; A_Four; A_Five; A_Six].
Proof. split; vm_compute; reflexivity. Qed.
