(** * Specification: tick rates at which pulse lengths are converted exactly *)
From Coq Require Import NArith List.
From Verif Require Import Machine Time.
Import ListNotations.
Open Scope N_scope.

(** With timestamps that carry their unit every rate; with plain numbers every rate up to
    318 kHz, multiples of 1 kHz up to 318 MHz, and multiples of 1 MHz.  At other rates the
    32-bit conversion drops the digits below 1 kHz (1 MHz) of the rate. *)
Definition exact_rate (m : mono) (freq : N) : Prop :=
  freq < 2 ^ 32 /\
  match m with
  | MFugit _ _ _ => True
  | MU32 | MU64 => freq <= 318000 \/ (freq mod 1000 = 0 /\ freq <= 318000000) \/ freq mod 1000000 = 0
  end.
