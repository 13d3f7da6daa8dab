(** * Signals in real time, and the clock that measures them

    Real time is counted in units of [1/G] seconds, for any resolution [G].  The
    transmitter's timing may be off by [x] percent, the receiver's readings by
    less than [j] ticks. *)
From Coq Require Import NArith List Bool.
From Verif Require Import Spec Spec_cross.
Import ListNotations.
Open Scope N_scope.

(** The duration [D] is [p] microseconds within [x] percent. *)
Definition real_near (G x p D : N) : Prop :=
  100 * 1000000 * D <= (100 + x) * p * G /\ (100 - x) * p * G <= 100 * 1000000 * D.

(** The duration [D] is at least [p] microseconds. *)
Definition real_long (G p D : N) : Prop := p * G <= 1000000 * D.

(** [clock t] is what the receiver reads at time [t]: a counter of [freq] ticks per
    second, off by less than [j] ticks.  [j = 1] is the mere rounding to whole ticks,
    larger values allow for late reading of the timer. *)
Definition counts (freq G j : N) (clock : N -> N) : Prop :=
  forall s t, s <= t -> clock s <= clock t /\
    (clock t - clock s) * G < (t - s) * freq + j * G /\
    (t - s) * freq < (clock t - clock s) * G + j * G.

(** The edges of a signal that starts at time [t], as the receiver measures them. *)
Fixpoint measured (clock : N -> N) (t : N) (evs : list edge) : list edge :=
  match evs with
  | [] => []
  | (l, D) :: r => (l, clock (t + D) - clock t) :: measured clock (t + D) r
  end.

(** Time at the end of a signal. *)
Fixpoint after (t : N) (evs : list edge) : N :=
  match evs with
  | [] => t
  | (_, D) :: r => after (t + D) r
  end.

(** The frames of [Spec.v], in real time, every period (pulse-distance) or interval
    (biphase) within [x] percent. *)
Definition real_period (G x p : N) (d : N * N) : Prop := real_near G x p (fst d + snd d).

Definition real_nec (G x header word : N) (ps : list (N * N)) : Prop :=
  exists h ds, ps = h :: ds /\ real_period G x header h /\
    Forall2 (fun (bit : bool) d => real_period G x (if bit then 2250 else 1120) d) (bits_lsb 32 word) ds.

Definition real_sbp (G x address command : N) (ps : list (N * N)) : Prop :=
  exists h ads pause cds, ps = h :: ads ++ pause :: cds /\ real_period G x 9000 h /\
    Forall2 (fun (bit : bool) d => real_period G x (if bit then 2000 else 1000) d) (bits_lsb 16 address) ads /\
    real_period G x 5000 pause /\
    Forall2 (fun (bit : bool) d => real_period G x (if bit then 2000 else 1000) d) (bits_lsb 20 command) cds.

Definition real_denon (G x word : N) (ps : list (N * N)) : Prop :=
  exists h ds, ps = h :: ds /\ real_period G x 5000 h /\
    Forall2 (fun (bit : bool) d => real_period G x (if bit then 1680 else 840) d) (bits_lsb 48 word) ds.

Definition real_unit (G x unit : N) (nom act : edge) : Prop :=
  fst act = fst nom /\ real_near G x (unit * snd nom) (snd act).

Definition real_rc5 (G x word : N) (evs : list edge) : Prop :=
  exists n noms, level_edges false 0 (rc5_wave word) = (true, n) :: noms /\ Forall2 (real_unit G x 889) noms evs.

Definition real_rc6 (G x : N) (toggle : bool) (data : N) (evs : list edge) : Prop :=
  exists n noms, level_edges false 0 (rc6_wave toggle (bits_msb 16 data)) = (true, n) :: noms /\
    Forall2 (real_unit G x 444) noms evs.

(** The marks of a pulse-distance frame. *)
Definition real_marks (G x lead bit : N) (ps : list (N * N)) : Prop :=
  exists h ds, ps = h :: ds /\ real_near G x lead (fst h) /\ Forall (fun d => real_near G x bit (fst d)) ds.

(** A transmission of [Spec_cross.v] in real time: the edges after the rising edge with
    which it begins, all within [x] percent. *)
Definition real_sent (G x : N) (t : transmission) (evs : list edge) : Prop :=
  match t with
  | TNec a c => a < 2 ^ 8 /\ c < 2 ^ 8 /\ exists ps, evs = pair_edges ps /\
      real_nec G x 13500 (bytes4 a (compl8 a) c (compl8 c)) ps /\ real_marks G x 9000 560 ps
  | TNec16 a c => a < 2 ^ 16 /\ c < 2 ^ 8 /\ exists ps, evs = pair_edges ps /\
      real_nec G x 13500 (bytes4 (a mod 2 ^ 8) (a / 2 ^ 8) c (compl8 c)) ps /\ real_marks G x 9000 560 ps
  | TRaw w => w < 2 ^ 32 /\ exists ps, evs = pair_edges ps /\ real_nec G x 13500 w ps /\ real_marks G x 9000 560 ps
  | TSamsung a c => a < 2 ^ 8 /\ c < 2 ^ 8 /\ exists ps, evs = pair_edges ps /\
      real_nec G x 9000 (bytes4 a a c (compl8 c)) ps /\ real_marks G x 4500 560 ps
  | TSbp a c => a < 2 ^ 16 /\ c < 2 ^ 20 /\ exists ps, evs = pair_edges ps /\
      real_sbp G x a c ps /\ real_marks G x 4500 500 ps
  | TDenon w => w < 2 ^ 48 /\ exists ps, evs = pair_edges ps /\
      real_denon G x w ps /\ real_marks G x 3400 480 ps
  | TRc5 w => w < 2 ^ 14 /\ N.testbit w 13 = true /\ real_rc5 G x w evs
  | TRc6 a c tg => a < 2 ^ 8 /\ c < 2 ^ 8 /\ real_rc6 G x tg (2 ^ 8 * a + c) evs
  end.

(** With or without the edge that ends the last mark. *)
Definition real_ended (G x : N) (t : transmission) (evs : list edge) : Prop :=
  real_sent G x t evs \/
  exists body D, evs = body ++ [(false, D)] /\ real_sent G x t body /\ real_near G x (end_mark t) D.

(** A series of them, with at least 20 ms of silence before each. *)
Definition real_traffic (G x : N) (l : list (transmission * N * list edge)) : Prop :=
  Forall (fun y => real_ended G x (fst (fst y)) (snd y) /\ real_long G 20000 (snd (fst y))) l.

(** ** Sampling *)

(** The level at time [x] of a signal that starts at time [t] with level [cur]. *)
Fixpoint level_at (cur : bool) (t : N) (evs : list edge) (x : N) : bool :=
  match evs with
  | [] => cur
  | (l, D) :: r => if t + D <=? x then level_at l (t + D) r x else cur
  end.

(** [n] sampling times, every [T] units from [first] on. *)
Definition times (first T : N) (n : nat) : list N := map (fun i => first + N.of_nat i * T) (seq 0 n).
