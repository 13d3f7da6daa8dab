(** * Specification vocabulary

    Independent of the model: only numbers, lists and Booleans.  The property
    theorems are stated with these definitions and the API-level functions of
    the model. *)
From Coq Require Import NArith List Bool.
Import ListNotations.
Open Scope N_scope.

(** ** Words *)

(** The number whose little-endian bytes are given. *)
Definition bytes4 (b0 b1 b2 b3 : N) : N := b0 + 2 ^ 8 * b1 + 2 ^ 16 * b2 + 2 ^ 24 * b3.

(** Complement of a byte. *)
Definition compl8 (x : N) : N := 255 - x.

(** The [n] low bits of a word, least significant first. *)
Definition bits_lsb (n : nat) (w : N) : list bool :=
  map (fun i => N.testbit w (N.of_nat i)) (seq 0 n).

(** The [n] low bits of a word, most significant first. *)
Definition bits_msb (n : nat) (w : N) : list bool := rev (bits_lsb n w).

(** Bit [i] of a word as a number, and the field of [len] bits starting at [at_]. *)
Definition field (w at_ len : N) : N := (w / 2 ^ at_) mod 2 ^ len.

(** Value of a list of bits, least significant first. *)
Fixpoint val_lsb (l : list bool) : N :=
  match l with
  | [] => 0
  | b :: r => (if b then 1 else 0) + 2 * val_lsb r
  end.

(** Value of a list of bits, most significant first. *)
Definition val_msb (l : list bool) : N := val_lsb (rev l).

(** Number of set bits in a list. *)
Definition ones (l : list bool) : nat := length (filter (fun b => b) l).

(** ** Time *)

(** Nominal tick count of [p] microseconds at [freq] ticks per second. *)
Definition nominal (freq p : N) : N := p * freq / 1000000.

(** [d] deviates from the nominal tick count of [p] by at most [t] percent. *)
Definition near (freq p t d : N) : Prop :=
  100 * d <= (100 + t) * nominal freq p /\ (100 - t) * nominal freq p <= 100 * d.

(** The percentage guaranteed at a given tick rate: above 318 kHz the crate's
    32-bit scaling loses up to 0.4 percent, so one percent is given up. *)
Definition guaranteed (freq t : N) : N := if freq <=? 318000 then t else t - 1.

(** [d] lasts longer than [p] microseconds plus [t] percent. *)
Definition longer (freq p t d : N) : Prop := (100 + t) * nominal freq p < 100 * d.

(** ** Signals *)

(** An edge: [true] when a mark (carrier on) begins, [false] when it ends, with
    the number of ticks since the previous edge. *)
Definition edge := (bool * N)%type.

(** The edges of a series of (mark, space) pairs that starts inside a mark. *)
Fixpoint pair_edges (l : list (N * N)) : list edge :=
  match l with
  | [] => []
  | (m, s) :: r => (false, m) :: (true, s) :: pair_edges r
  end.

(** The periods (mark plus following space) of a history: one entry per rising
    edge, the time since the rising edge before, as far as the last two edges
    tell.  [saved] is the length of the mark that just ended, 0 if none. *)
Fixpoint periods_from (saved : N) (h : list edge) : list N :=
  match h with
  | [] => []
  | (true, dt) :: r => (saved + dt) :: periods_from 0 r
  | (false, dt) :: r => periods_from dt r
  end.
Definition periods (h : list edge) : list N := periods_from 0 h.

(** Durations below half the range of the smallest duration type ([u32]). *)
Definition short (h : list edge) : Prop := Forall (fun e => snd e < 2 ^ 31) h.

(** A mark-space pair whose period is [p] microseconds within [t] percent. *)
Definition period_near (freq p t : N) (x : N * N) : Prop :=
  near freq p (guaranteed freq t) (fst x + snd x).

(** A NEC-family frame: a header of [header] microseconds, then 32 bits, least
    significant first, 1120 (zero) or 2250 (one) microseconds each. *)
Definition nec_frame (freq header word : N) (ps : list (N * N)) : Prop :=
  exists h ds, ps = h :: ds /\ period_near freq header 7 h /\
    Forall2 (fun (bit : bool) x => if bit then period_near freq 2250 12 x
                                   else period_near freq 1120 25 x) (bits_lsb 32 word) ds.

(** A Samsung BluRay frame: header of 9000, 16 address bits, pause of 5000, 20
    command bits; bits least significant first, 1000 (zero) or 2000 (one)
    microseconds each. *)
Definition sbp_bit (freq : N) (bit : bool) (x : N * N) : Prop :=
  period_near freq (if bit then 2000 else 1000) 10 x.
Definition sbp_frame (freq address command : N) (ps : list (N * N)) : Prop :=
  exists h ads pause cds, ps = h :: ads ++ pause :: cds /\ period_near freq 9000 5 h /\
    Forall2 (sbp_bit freq) (bits_lsb 16 address) ads /\
    period_near freq 5000 5 pause /\
    Forall2 (sbp_bit freq) (bits_lsb 20 command) cds.

(** A Denon frame: sync of 5000, then 48 bits, least significant first, 840 (zero)
    or 1680 (one) microseconds each. *)
Definition denon_bit (freq : N) (bit : bool) (x : N * N) : Prop :=
  period_near freq (if bit then 1680 else 840) 10 x.
Definition denon_frame (freq word : N) (ps : list (N * N)) : Prop :=
  exists h ds, ps = h :: ds /\ period_near freq 5000 8 h /\
    Forall2 (denon_bit freq) (bits_lsb 48 word) ds.

(** ** Biphase waveforms *)

(** Run lengths of a list of half-bit levels, as edges: [cur] is the level
    before, [n] the number of half-bits it has lasted.  An edge appears at
    every change of level. *)
Fixpoint level_edges (cur : bool) (n : N) (ls : list bool) : list (bool * N) :=
  match ls with
  | [] => []
  | l :: r => if Bool.eqb l cur then level_edges cur (n + 1) r
              else (l, n) :: level_edges l 1 r
  end.

(** RC5: a one is space-mark, a zero mark-space. *)
Definition rc5_half (b : bool) : list bool := if b then [false; true] else [true; false].

(** RC6: the other way round. *)
Definition rc6_half (b : bool) : list bool := if b then [true; false] else [false; true].

(** The RC6 mode-0 waveform in half-bit units: leader (6 mark, 2 space), start
    bit 1, three mode bits 0, the double-width toggle bit, 16 data bits. *)
Definition rc6_wave (toggle : bool) (data : list bool) : list bool :=
  [true; true; true; true; true; true; false; false]
  ++ rc6_half true ++ rc6_half false ++ rc6_half false ++ rc6_half false
  ++ (if toggle then [true; true; false; false] else [false; false; true; true])
  ++ flat_map rc6_half data.

(** The RC5 waveform of a word, most significant of its 14 bits first. *)
Definition rc5_wave (word : N) : list bool := flat_map rc5_half (bits_msb 14 word).

(** An actual edge for a nominal one: same direction, the time since the previous
    edge is the nominal number of units (of [unit] microseconds) within [tol] percent. *)
Definition biphase_near (freq unit : N) (tol : N -> N) (nom act : edge) : Prop :=
  fst act = fst nom /\ near freq (unit * snd nom) (guaranteed freq (tol (snd nom))) (snd act).
Definition rc5_tol (n : N) : N := if n =? 1 then 12 else 10.
Definition rc6_tol (_ : N) : N := 12.

(** The edges of an RC5 word, sent after a pause: [evs] starts with the rising edge
    that ends the pause; all later edges are within tolerance. *)
Definition rc5_edges (freq word gap : N) (evs : list edge) : Prop :=
  exists n noms acts, level_edges false 0 (rc5_wave word) = (true, n) :: noms /\
    evs = (true, gap) :: acts /\ Forall2 (biphase_near freq 889 rc5_tol) noms acts.

(** The edges of an RC6 frame, sent after a pause.  [leader] says which lengths the
    leader mark (nominally six units) may have. *)
Definition rc6_edges (freq : N) (leader : N -> Prop) (toggle : bool) (data gap : N) (evs : list edge) : Prop :=
  exists n noms lead acts,
    level_edges false 0 (rc6_wave toggle (bits_msb 16 data)) = (true, n) :: (false, 6) :: noms /\
    evs = (true, gap) :: (false, lead) :: acts /\ leader lead /\
    Forall2 (biphase_near freq 444 rc6_tol) noms acts.

(** The leader within the crate's 12 percent ... *)
Definition rc6_leader_full (freq lead : N) : Prop := near freq 2664 (guaranteed freq 12) lead.
(** ... and the restriction under which it is told apart from five units, whose
    window overlaps: at most 4, 5 or 6 percent too short. *)
Definition rc6_leader_short (freq : N) : N := if freq <? 15391 then 4 else if freq <? 37913 then 5 else 6.
Definition rc6_leader_safe (freq lead : N) : Prop :=
  rc6_leader_full freq lead /\ (100 - rc6_leader_short freq) * nominal freq 2664 <= 100 * lead.

(** The tick rates at which a sender that rounds one unit of 444 microseconds down to whole
    ticks, and multiplies, still sends a leader that is read as six units: all from 27028 Hz
    on, and below it these, where the rounding loses little enough. *)
Definition rc6_rates : list (N * N) :=
  [ (2253, 2627); (4505, 4954); (6757, 7657); (9010, 9909); (11262, 12162); (13514, 14864);
    (15766, 17117); (18019, 19369); (20271, 22072); (22523, 24324); (24775, 26576) ].
Definition rc6_rate (F : N) : Prop :=
  27028 <= F \/ Exists (fun r => fst r <= F /\ F <= snd r) rc6_rates.
