(** * Specification vocabulary for the receivers: only lists, numbers and Booleans *)
From Coq Require Import NArith List Bool.
From Verif Require Import Machine Spec.
Import ListNotations.
Open Scope N_scope.

(** Running a step function over a list of inputs, stopping at the first panic. *)
Fixpoint run_res {S I O} (step : S -> I -> res (S * O)) (s : S) (l : list I) : res (S * list O) :=
  match l with
  | [] => Val (s, [])
  | x :: r => let* (s1, o) := step s x in
              let* (s2, os) := run_res step s1 r in Val (s2, o :: os)
  end.

(** The outputs alone. *)
Definition outs {S O} (x : res (S * O)) : res O := let* (_, os) := x in Val os.

(** Edges with timestamps, as edges with the time since the one before; [elapsed]
    computes the time between two timestamps. *)
Fixpoint intervals (elapsed : N -> N -> N) (prev : N) (l : list (bool * N)) : list edge :=
  match l with
  | [] => []
  | (e, t) :: r => (e, elapsed prev t) :: intervals elapsed t r
  end.
(** Every timestamp stands in relation [ok] to the one before. *)
Fixpoint steps (ok : N -> N -> Prop) (prev : N) (l : list (bool * N)) : Prop :=
  match l with
  | [] => True
  | (_, t) :: r => ok prev t /\ steps ok t r
  end.
Definition difference (prev t : N) : N := t - prev.
(** On a timer that wraps at [2^w]. *)
Definition wrapped (w prev t : N) : N := (t + 2 ^ w - prev) mod 2 ^ w.

(** One outcome per sample: nothing while the level stays the same, at each change
    the next outcome of [os]. *)
Fixpoint at_changes {O} (nothing : O) (cur : bool) (levels : list bool) (os : list O) : list O :=
  match levels with
  | [] => []
  | l :: r => if Bool.eqb l cur then nothing :: at_changes nothing cur r os
              else match os with
                   | [] => []
                   | o :: os' => o :: at_changes nothing l r os'
                   end
  end.

(** A buffer of intervals as alternating edges, the first one rising. *)
Fixpoint alternating (level : bool) (buf : list N) : list edge :=
  match buf with
  | [] => []
  | d :: r => (level, d) :: alternating (negb level) r
  end.

(** The commands among the outcomes, ... *)
Definition commands {C E} (os : list (result (option C) E)) : list C :=
  flat_map (fun o => match o with ROk (Some c) => [c] | _ => [] end) os.
(** ... and those before the first error. *)
Fixpoint commands_before_error {C E} (os : list (result (option C) E)) : list C :=
  match os with
  | [] => []
  | ROk (Some c) :: r => c :: commands_before_error r
  | ROk None :: r => commands_before_error r
  | RErr _ :: r => []
  end.
(** The commands up to the first error and the first finished frame that gave none;
    [frames] tells at which outcomes a frame was finished, and where the errors are. *)
Fixpoint commands_until {C W E} (frames : list (result (option W) E)) (os : list (result (option C) E)) : list C :=
  match frames, os with
  | ROk None :: fs, _ :: os' => commands_until fs os'
  | ROk (Some _) :: fs, ROk (Some c) :: os' => c :: commands_until fs os'
  | _, _ => []
  end.

(** The last of the settings made, or the default. *)
Fixpoint last_set {O A} (f : O -> option A) (default : A) (ops : list O) : A :=
  match ops with
  | [] => default
  | o :: r => match f o with Some a => last_set f a r | None => last_set f default r end
  end.

(** Pin readings that succeeded, and the outcomes of a history in which failed readings
    report [fail] and the others what is reported without the failed ones. *)
Fixpoint successes {X E} (l : list (result bool E * X)) : list (bool * X) :=
  match l with
  | [] => []
  | (ROk e, x) :: r => (e, x) :: successes r
  | (RErr _, _) :: r => successes r
  end.
Fixpoint with_failures {X E O O'} (fail : E -> O') (lift : O -> O') (l : list (result bool E * X))
    (os : list O) : list O' :=
  match l with
  | [] => []
  | (RErr e, _) :: r => fail e :: with_failures fail lift r os
  | (ROk _, _) :: r => match os with
                       | [] => []
                       | o :: os' => lift o :: with_failures fail lift r os'
                       end
  end.
