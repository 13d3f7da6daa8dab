(** * Specification vocabulary for encoders and senders *)
From Coq Require Import NArith List Bool.
From Verif Require Import Machine Spec.
Import ListNotations.
Open Scope N_scope.

(** Ticks of a pulse of [p] microseconds at [F] ticks per second, counted in whole kHz
    (above 1 kHz) and rounded down. *)
Definition khz_ticks (F p : N) : N :=
  if F <=? 1000 then F * p / 1000000 else F / 1000 * p / 1000.

(** The pulse lengths of a NEC frame with the header [hm] (mark), [hs] (space): a pause
    of 0, the header, the bits of the word, least significant first. *)
Definition nec_buffer (ticks : N -> N) (hm hs w : N) : list N :=
  0 :: ticks hm :: ticks hs ::
  flat_map (fun bit : bool => [ticks 560; ticks (if bit then 1690 else 560)]) (bits_lsb 32 w).

(** The pulse lengths of an RC5 word: a pause of 0 before the first edge, then the run
    lengths of the waveform in units of [l] ticks, up to the last edge. *)
Definition rc5_buffer (l w : N) : list N :=
  0 :: map (fun x => l * snd x) (tl (level_edges false 0 (rc5_wave w))).

(** The same for RC6; the frame is followed by a space. *)
Definition rc6_buffer (l : N) (toggle : bool) (w : N) : list N :=
  map (fun x => l * snd x) (level_edges false 0 (rc6_wave toggle (bits_msb 16 w) ++ [false])).

(** The result of writing [vs] to the front of a buffer: the rest of it is kept. *)
Definition written (vs buf : list N) : res (list N * nat) :=
  if Nat.leb (length vs) (length buf) then Val (vs ++ skipn (length vs) buf, length vs) else Panic.

(** Levels of a pin, one per tick, that is held [on] for [e] ticks (at least one), then
    switched and held for the next entry, and so on; the last level lasts one tick. *)
Fixpoint held (on : bool) (es : list N) : list bool :=
  match es with
  | [] => [on]
  | e :: r => repeat on (N.to_nat (N.max 1 e)) ++ held (negb on) r
  end.
(** The levels for a pulse buffer: the first entry is the pause before the first mark. *)
Definition pin_wave (buf : list N) : list bool :=
  match buf with
  | [] => []
  | e :: r => repeat false (N.to_nat e) ++ held true r
  end.

(** Sum of the entries of a buffer. *)
Definition total (buf : list N) : N := fold_right N.add 0 buf.
