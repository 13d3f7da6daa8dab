(** * Reading any signal: vocabulary

    What a pulse-distance receiver reports on an arbitrary signal, described by cutting the
    periods of the signal (mark plus space, [periods] of [Spec.v]) into frames, frames that
    break off, repeat codes and noise. *)
From Coq Require Import NArith List Bool.
From Verif Require Import Spec.
Import ListNotations.
Open Scope N_scope.

(** What is heard at the end of a period: nothing, the end of a complete frame or repeat
    code ([A] is what it says), or a failure of kind [E]. *)
Inductive heard (A E : Type) := Nothing | Said (a : A) | Failed (e : E).
Arguments Nothing {A E}. Arguments Said {A E} a. Arguments Failed {A E} e.

(** [hs] has one entry for every rising edge of the signal; at falling edges nothing is heard. *)
Fixpoint at_rises {A E} (h : list edge) (hs : list (heard A E)) : list (heard A E) :=
  match h with
  | [] => []
  | (false, _) :: r => Nothing :: at_rises r hs
  | (true, _) :: r => match hs with o :: hs' => o :: at_rises r hs' | [] => [] end
  end.

Definition bit_of {S : Type} (zero one : S) (x : bool) : S := if x then one else zero.

(** ** NEC and its relatives *)

Inductive nec_sign := Header | Again | Zero | One | Other.

(** The sign that a period is, at tick rates at which the windows are exact. *)
Definition nec_says (freq header again : N) (s : nec_sign) (d : N) : Prop :=
  match s with
  | Header => near freq header 7 d
  | Again => near freq again 7 d
  | Zero => near freq 1120 25 d
  | One => near freq 2250 12 d
  | Other => ~ near freq header 7 d /\ ~ near freq again 7 d /\ ~ near freq 1120 25 d /\ ~ near freq 2250 12 d
  end.

(** A complete frame; a frame that breaks off after fewer than 32 bits, with the sign that is
    not a bit; a repeat code; any other sign outside a frame. *)
Inductive nec_phrase :=
| NecFrame (word : N) | NecBroken (bits : list bool) (s : nec_sign) | NecAgain | NecNoise (s : nec_sign).
Definition nec_phrase_ok (p : nec_phrase) : Prop :=
  match p with
  | NecFrame w => w < 2 ^ 32
  | NecBroken bits s => (length bits < 32)%nat /\ s <> Zero /\ s <> One
  | NecAgain => True
  | NecNoise s => s <> Header /\ s <> Again
  end.
Definition nec_signs (p : nec_phrase) : list nec_sign :=
  match p with
  | NecFrame w => Header :: map (bit_of Zero One) (bits_lsb 32 w)
  | NecBroken bits s => Header :: map (bit_of Zero One) bits ++ [s]
  | NecAgain => [Again]
  | NecNoise s => [s]
  end.

(** The signal may end inside a frame. *)
Definition nec_unfinished (l : list nec_sign) : Prop :=
  l = [] \/ exists bits, l = Header :: map (bit_of Zero One) bits /\ (length bits < 32)%nat.

Definition nec_reading (freq header again : N) (h : list edge) (ps : list nec_phrase) (rest : list nec_sign) : Prop :=
  Forall nec_phrase_ok ps /\ nec_unfinished rest /\
  Forall2 (nec_says freq header again) (flat_map nec_signs ps ++ rest) (periods h).

(** What is heard, period by period: the word of a complete frame; for a repeat code the word
    [last], which is the word of the frame before, or the bits received of it if it broke
    off, or 0 if there was none; a failure where a frame breaks off. *)
Fixpoint nec_hears (last : N) (ps : list nec_phrase) : list (heard (N * bool) unit) :=
  match ps with
  | [] => []
  | NecFrame w :: r => repeat Nothing 32 ++ Said (w, false) :: nec_hears w r
  | NecBroken bits _ :: r => repeat Nothing (S (length bits)) ++ Failed tt :: nec_hears (val_lsb bits) r
  | NecAgain :: r => Said (last, true) :: nec_hears last r
  | NecNoise _ :: r => Nothing :: nec_hears last r
  end.

(** The word of the last frame that was begun, complete or not, or [last]. *)
Fixpoint nec_left (last : N) (ps : list nec_phrase) : N :=
  match ps with
  | [] => last
  | NecFrame w :: r => nec_left w r
  | NecBroken bits _ :: r => nec_left (val_lsb bits) r
  | NecAgain :: r | NecNoise _ :: r => nec_left last r
  end.

(** ** Denon *)

Inductive denon_sign := DnSync | DnZero | DnOne | DnOther.
Definition denon_says (freq : N) (s : denon_sign) (d : N) : Prop :=
  match s with
  | DnSync => near freq 5000 8 d
  | DnZero => near freq 840 10 d
  | DnOne => near freq 1680 10 d
  | DnOther => ~ near freq 5000 8 d /\ ~ near freq 840 10 d /\ ~ near freq 1680 10 d
  end.
Inductive denon_phrase :=
| DnFrame (bits : list bool) | DnBroken (bits : list bool) (s : denon_sign) | DnNoise (s : denon_sign).
Definition denon_phrase_ok (p : denon_phrase) : Prop :=
  match p with
  | DnFrame bits => length bits = 48%nat
  | DnBroken bits s => (length bits < 48)%nat /\ s <> DnZero /\ s <> DnOne
  | DnNoise s => s <> DnSync
  end.
Definition denon_signs (p : denon_phrase) : list denon_sign :=
  match p with
  | DnFrame bits => DnSync :: map (bit_of DnZero DnOne) bits
  | DnBroken bits s => DnSync :: map (bit_of DnZero DnOne) bits ++ [s]
  | DnNoise s => [s]
  end.
Definition denon_unfinished (l : list denon_sign) : Prop :=
  l = [] \/ exists bits, l = DnSync :: map (bit_of DnZero DnOne) bits /\ (length bits < 48)%nat.
Definition denon_reading (freq : N) (h : list edge) (ps : list denon_phrase) (rest : list denon_sign) : Prop :=
  Forall denon_phrase_ok ps /\ denon_unfinished rest /\
  Forall2 (denon_says freq) (flat_map denon_signs ps ++ rest) (periods h).

(** A complete frame says its first 47 bits, mixed with those of the frames that broke off
    since the last complete one; breaking off is not reported. *)
Fixpoint denon_hears (carry : N) (ps : list denon_phrase) : list (heard N unit) :=
  match ps with
  | [] => []
  | DnFrame bits :: r => repeat Nothing 48 ++ Said (N.lor carry (val_lsb (firstn 47 bits))) :: denon_hears 0 r
  | DnBroken bits _ :: r => repeat Nothing (S (length bits)) ++ Nothing :: denon_hears (N.lor carry (val_lsb bits)) r
  | DnNoise _ :: r => Nothing :: denon_hears carry r
  end.

(** ** Samsung BluRay *)

Inductive sbp_sign := SbHeader | SbPause | SbZero_ | SbOne_ | SbOther.
Definition sbp_says (freq : N) (s : sbp_sign) (d : N) : Prop :=
  match s with
  | SbHeader => near freq 9000 5 d
  | SbPause => near freq 5000 5 d
  | SbZero_ => near freq 1000 10 d
  | SbOne_ => near freq 2000 10 d
  | SbOther => ~ near freq 9000 5 d /\ ~ near freq 5000 5 d /\ ~ near freq 1000 10 d /\ ~ near freq 2000 10 d
  end.
Inductive sbp_phrase :=
| SbFrame (address command : list bool)
| SbBrokenAddress (bits : list bool) (s : sbp_sign)
| SbBrokenPause (address : list bool) (s : sbp_sign)
| SbBrokenCommand (address bits : list bool) (s : sbp_sign)
| SbNoise (s : sbp_sign).
Definition sbp_phrase_ok (p : sbp_phrase) : Prop :=
  match p with
  | SbFrame a c => length a = 16%nat /\ length c = 20%nat
  | SbBrokenAddress bits s => (length bits < 16)%nat /\ s <> SbZero_ /\ s <> SbOne_
  | SbBrokenPause a s => length a = 16%nat /\ s <> SbPause
  | SbBrokenCommand a bits s => length a = 16%nat /\ (length bits < 20)%nat /\ s <> SbZero_ /\ s <> SbOne_
  | SbNoise s => s <> SbHeader
  end.
Definition sbp_bits : list bool -> list sbp_sign := map (bit_of SbZero_ SbOne_).
Definition sbp_signs (p : sbp_phrase) : list sbp_sign :=
  match p with
  | SbFrame a c => SbHeader :: sbp_bits a ++ SbPause :: sbp_bits c
  | SbBrokenAddress bits s => SbHeader :: sbp_bits bits ++ [s]
  | SbBrokenPause a s => SbHeader :: sbp_bits a ++ [s]
  | SbBrokenCommand a bits s => SbHeader :: sbp_bits a ++ SbPause :: sbp_bits bits ++ [s]
  | SbNoise s => [s]
  end.
Definition sbp_unfinished (l : list sbp_sign) : Prop :=
  l = [] \/ (exists bits, l = SbHeader :: sbp_bits bits /\ (length bits <= 16)%nat) \/
  exists a bits, l = SbHeader :: sbp_bits a ++ SbPause :: sbp_bits bits /\ length a = 16%nat /\ (length bits < 20)%nat.
Definition sbp_reading (freq : N) (h : list edge) (ps : list sbp_phrase) (rest : list sbp_sign) : Prop :=
  Forall sbp_phrase_ok ps /\ sbp_unfinished rest /\
  Forall2 (sbp_says freq) (flat_map sbp_signs ps ++ rest) (periods h).

(** The part of the frame in which it broke off: [true] in the address. *)
Definition sbp_hears1 (p : sbp_phrase) : list (heard (N * N) bool) :=
  match p with
  | SbFrame a c => repeat Nothing 37 ++ [Said (val_lsb a, val_lsb c)]
  | SbBrokenAddress bits _ => repeat Nothing (S (length bits)) ++ [Failed true]
  | SbBrokenPause _ _ => repeat Nothing 17 ++ [Failed false]
  | SbBrokenCommand _ bits _ => repeat Nothing (18 + length bits) ++ [Failed false]
  | SbNoise _ => [Nothing]
  end.
Definition sbp_hears (ps : list sbp_phrase) : list (heard (N * N) bool) := flat_map sbp_hears1 ps.

(** With two rising edges in a row there is no mark before the second.  A BluRay receiver then
    adds the mark that ended last, unless something was heard since: the lengths it looks at,
    one for each rising edge, when [hs] is what is heard at them. *)
Fixpoint sbp_lengths {A E} (mark : N) (h : list edge) (hs : list (heard A E)) : list N :=
  match h with
  | [] => []
  | (false, d) :: r => sbp_lengths d r hs
  | (true, d) :: r =>
      (mark + d) ::
      match hs with
      | [] => sbp_lengths mark r hs
      | Nothing :: hs' => sbp_lengths mark r hs'
      | _ :: hs' => sbp_lengths 0 r hs'
      end
  end.
Definition sbp_reading_any (freq : N) (h : list edge) (ps : list sbp_phrase) (rest : list sbp_sign) : Prop :=
  Forall sbp_phrase_ok ps /\ sbp_unfinished rest /\
  Forall2 (sbp_says freq) (flat_map sbp_signs ps ++ rest) (sbp_lengths 0 h (sbp_hears ps ++ repeat Nothing (length rest))).
