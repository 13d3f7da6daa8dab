(** * Reading any signal with a biphase receiver: vocabulary

    The counterpart of [Spec_grammar.v] for RC5 and RC6.  A receiver counts every interval
    between two edges as a number of units and reads the direction of the edges that lie
    in the middle of a bit ([samples] of [Spec_sound.v]). *)
From Coq Require Import NArith List Bool.
From Verif Require Import Spec Spec_sound.
Import ListNotations.
Open Scope N_scope.

(** The interval [d] counts [n] units; windows that overlap are tried in order.  Intervals
    of zero ticks match an unused window. *)
Definition rc5_counts (freq n d : N) : Prop :=
  (n = 1 /\ near freq 889 12 d) \/
  (n = 2 /\ near freq 1778 10 d /\ ~ near freq 889 12 d) \/
  (n = 3 /\ d = 0 /\ ~ near freq 889 12 d /\ ~ near freq 1778 10 d).
Definition rc5_uncounted (freq d : N) : Prop := d <> 0 /\ ~ near freq 889 12 d /\ ~ near freq 1778 10 d.

Definition rc6_counts (freq n d : N) : Prop :=
  (1 <= n <= 6 /\ near freq (444 * n) 12 d /\ forall k, 1 <= k < n -> ~ near freq (444 * k) 12 d) \/
  (n = 7 /\ d = 0 /\ forall k, 1 <= k <= 6 -> ~ near freq (444 * k) 12 d).
Definition rc6_uncounted (freq d : N) : Prop := d <> 0 /\ forall k, 1 <= k <= 6 -> ~ near freq (444 * k) 12 d.

(** The edges [l] with counts [ns], the clock starting at [ck], hold [bits], the last of them at the last edge. *)
Definition holds (counts : N -> N -> Prop) (par : bool) (ck : N) (l : list edge) (ns : list N) (bits : list bool) : Prop :=
  Forall2 counts ns (map snd l) /\ samples par ck l ns = bits /\
  exists l' x ns' n, l = l' ++ [x] /\ ns = ns' ++ [n] /\ length l' = length ns' /\ S (length (samples par ck l' ns')) = length bits.

(** ... hold fewer than [k] bits. *)
Definition lacks (counts : N -> N -> Prop) (par : bool) (ck : N) (l : list edge) (ns : list N) (k : nat) : Prop :=
  Forall2 counts ns (map snd l) /\ (length (samples par ck l ns) < k)%nat.

(** ** RC5: a signal and what is heard at each of its edges

    Falling edges outside a frame are passed over; a rising edge begins a frame; a frame of 13
    more bits is heard at its last edge; an interval that cannot be counted ends a frame
    without a word, and its edge is looked at anew. *)
Inductive rc5_reads (freq : N) : list edge -> list (option (list bool)) -> Prop :=
| Rc5End : rc5_reads freq [] []
| Rc5Idle d h os : rc5_reads freq h os -> rc5_reads freq ((false, d) :: h) (None :: os)
| Rc5Frame g l ns bits h os :
    holds (rc5_counts freq) false 0 l ns bits -> length bits = 13%nat -> rc5_reads freq h os ->
    rc5_reads freq ((true, g) :: l ++ h) (repeat None (length l) ++ Some bits :: os)
| Rc5Lost g l ns e d h os :
    lacks (rc5_counts freq) false 0 l ns 13 -> rc5_uncounted freq d -> rc5_reads freq ((e, d) :: h) os ->
    rc5_reads freq ((true, g) :: l ++ (e, d) :: h) (repeat None (S (length l)) ++ os)
| Rc5Open g l ns :
    lacks (rc5_counts freq) false 0 l ns 13 -> rc5_reads freq ((true, g) :: l) (repeat None (S (length l))).

(** ** RC6 *)

(** How far a frame has been read after its first edge. *)
Inductive rc6_place := AtLeader | AtSpace | AtHeader | AtTrailer | AtData.

(** A complete header: leader mark of 6 units, space of 2, four bits; [hc] units in all. *)
Definition rc6_head (freq : N) (l : list edge) (hc : N) : Prop :=
  exists lead space hs ns bits, l = (false, lead) :: (true, space) :: hs /\
    rc6_counts freq 6 lead /\ rc6_counts freq 2 space /\
    holds (rc6_counts freq) true 8 hs ns bits /\ length bits = 4%nat /\ hc = 8 + total ns.
(** The trailer: falling edges after 1 unit, then a falling edge after 3 units (toggle set)
    or a rising edge after 2 (toggle clear). *)
Definition rc6_waits (freq : N) (l : list edge) : Prop := Forall (fun x => fst x = false /\ rc6_counts freq 1 (snd x)) l.
Definition rc6_turn (freq : N) (toggle : bool) (x : edge) : Prop :=
  if toggle then fst x = false /\ rc6_counts freq 3 (snd x) else fst x = true /\ rc6_counts freq 2 (snd x).
Definition rc6_to_data (freq : N) (l : list edge) (toggle : bool) (ck : N) : Prop :=
  exists l1 hc ws x, l = l1 ++ ws ++ [x] /\ rc6_head freq l1 hc /\ rc6_waits freq ws /\ rc6_turn freq toggle x /\
    ck = hc + N.of_nat (length ws) + (if toggle then 3 else 2).

Definition rc6_part (freq : N) (l : list edge) (p : rc6_place) : Prop :=
  match p with
  | AtLeader => l = []
  | AtSpace => exists lead, l = [(false, lead)] /\ rc6_counts freq 6 lead
  | AtHeader => exists lead space hs ns, l = (false, lead) :: (true, space) :: hs /\
      rc6_counts freq 6 lead /\ rc6_counts freq 2 space /\ lacks (rc6_counts freq) true 8 hs ns 4
  | AtTrailer => exists l1 hc ws, l = l1 ++ ws /\ rc6_head freq l1 hc /\ rc6_waits freq ws
  | AtData => exists l1 toggle ck l2 ns, l = l1 ++ l2 /\ rc6_to_data freq l1 toggle ck /\ lacks (rc6_counts freq) true ck l2 ns 16
  end.

(** An edge that can be counted but does not fit. *)
Definition rc6_wrong (p : rc6_place) (e : bool) (n : N) : Prop :=
  match p with
  | AtLeader => ~ (e = false /\ n = 6)
  | AtSpace => ~ (e = true /\ n = 2)
  | AtTrailer => ~ (e = false /\ n = 1) /\ ~ (e = false /\ n = 3) /\ ~ (e = true /\ n = 2)
  | AtHeader | AtData => False
  end.

(** Data bits are 1 at falling edges. *)
Inductive rc6_reads (freq : N) : list edge -> list (option (bool * list bool)) -> Prop :=
| Rc6End : rc6_reads freq [] []
| Rc6Idle d h os : rc6_reads freq h os -> rc6_reads freq ((false, d) :: h) (None :: os)
| Rc6Frame g l1 toggle ck l2 ns bits h os :
    rc6_to_data freq l1 toggle ck -> holds (rc6_counts freq) true ck l2 ns bits -> length bits = 16%nat -> rc6_reads freq h os ->
    rc6_reads freq ((true, g) :: (l1 ++ l2) ++ h) (repeat None (length (l1 ++ l2)) ++ Some (toggle, map negb bits) :: os)
| Rc6Lost g l p e d h os :
    rc6_part freq l p -> rc6_uncounted freq d -> rc6_reads freq ((e, d) :: h) os ->
    rc6_reads freq ((true, g) :: l ++ (e, d) :: h) (repeat None (S (length l)) ++ os)
| Rc6Wrong g l p e d n h os :
    rc6_part freq l p -> rc6_counts freq n d -> rc6_wrong p e n -> rc6_reads freq h os ->
    rc6_reads freq ((true, g) :: l ++ (e, d) :: h) (repeat None (S (S (length l))) ++ os)
| Rc6Open g l p :
    rc6_part freq l p -> rc6_reads freq ((true, g) :: l) (repeat None (S (length l))).
