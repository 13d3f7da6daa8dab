(** * Specification: what a sender shows for any sequence of calls *)
From Coq Require Import NArith List Bool.
From Verif Require Import Spec_sender.
Import ListNotations.
Open Scope N_scope.

(** The calls a program makes on one sender: a tick of the timer, the wish to send a frame
    (the entries it takes in the buffer), a look at the buffer. *)
Inductive wish := WTick | WSend (frame : list N) | WLook.

(** What can be seen from outside: the level the pin is set to by a tick, the entries
    returned by a look. *)
Inductive seen := Pin (on : bool) | Entries (frame : list N).

Definition nonempty {A} (l : list A) : bool := match l with [] => false | _ => true end.

Definition and_then (x : seen) (r : option (list seen)) : option (list seen) :=
  match r with Some l => Some (x :: l) | None => None end.

(** A sender remembers the contents [buf] of its buffer, the [frame] written last, the levels
    still [left] to be shown, and whether the first mark of them has [begun].  While it has,
    wishes to send are dropped; otherwise the frame is put in front of the old contents and
    the whole buffer is shown from its beginning, followed by one tick off.  [None]: the
    frame is longer than the buffer and the program panics. *)
Fixpoint plays (buf frame : list N) (left : list bool) (begun : bool) (ws : list wish) : option (list seen) :=
  match ws with
  | [] => Some []
  | WTick :: r =>
      match left with
      | [] => and_then (Pin false) (plays buf frame [] false r)
      | l :: left' => and_then (Pin l) (plays buf frame left' ((begun || l) && nonempty left') r)
      end
  | WSend vs :: r =>
      if begun then plays buf frame left begun r
      else if Nat.leb (length vs) (length buf) then
        let buf' := vs ++ skipn (length vs) buf in
        plays buf' vs (pin_wave buf' ++ [false]) false r
      else None
  | WLook :: r => and_then (Entries frame) (plays buf frame left begun r)
  end.

(** A new sender with room for [S] entries behaves as if a buffer of zeros had been sent. *)
Definition session (S : nat) (ws : list wish) : option (list seen) :=
  plays (repeat 0 S) [] (pin_wave (repeat 0 S) ++ [false]) false ws.
