(** * Specification vocabulary for the example applications *)
From Coq Require Import NArith ZArith List Bool.
From Verif Require Import Machine Decoder Receiver Spec Spec_receiver Apps.
Import ListNotations.
Open Scope N_scope.

(** ** Value change dumps *)

(** The changes of a wire in a value change dump, each with the time stamp before it; the
    dump ends at the first item that cannot be read. *)
Fixpoint wire_changes (wire now : N) (items : list (option vcd_command)) : list (bool * N) :=
  match items with
  | [] | None :: _ => []
  | Some (Timestamp t) :: r => wire_changes wire t r
  | Some OtherCommand :: r => wire_changes wire now r
  | Some (ChangeScalar i v) :: r =>
      if i =? wire then (match v with V1 => true | _ => false end, now) :: wire_changes wire now r
      else wire_changes wire now r
  end.
(** All of it can be read. *)
Definition readable (items : list (option vcd_command)) : bool :=
  forallb (fun x => match x with Some _ => true | None => false end) items.

(** One line for every command and every error. *)
Definition line {C} (o : outcome C) : list (printed C) :=
  match o with ROk (Some c) => [PrintCmd c] | RErr e => [PrintError e] | ROk None => [] end.

(** ** The mailbox between the interrupt handlers and the main loop *)

(** The last element, if any. *)
Definition last_of {A} (l : list A) : list A := match rev l with [] => [] | x :: _ => [x] end.

(** A program in rounds: what the interrupts do, then a round of the main loop. *)
Definition in_rounds {S} (main : S) (rounds : list (list S)) : list S :=
  flat_map (fun r => r ++ [main]) rounds.

(** Timer interrupts and pin changes in a run of the interrupt-driven program. *)
Fixpoint timers (ss : list uno_step) : N :=
  match ss with
  | [] => 0
  | UTimer :: r => 1 + timers r
  | _ :: r => timers r
  end.
Fixpoint pins (ss : list uno_step) : nat :=
  match ss with
  | [] => O
  | UPin _ :: r => S (pins r)
  | _ :: r => pins r
  end.
(** The pin changes, each with the number of timer interrupts since the one before ([n]
    counts those so far). *)
Fixpoint pin_edges (n : N) (ss : list uno_step) : list edge :=
  match ss with
  | [] => []
  | UTimer :: r => pin_edges (n + 1) r
  | UPin low :: r => (low, n) :: pin_edges 0 r
  | UMain :: r => pin_edges n r
  end.

(** Was the last report that is not "nothing yet" an error? *)
Definition last_is_error {C} (os : list (outcome C)) : bool :=
  fold_left (fun e o => match o with ROk None => e | ROk (Some _) => false | RErr _ => true end) os false.

(** ** The mouse *)

(** The displacement for an action, with steps of [s]: x grows to the right, y downwards. *)
Definition displacement (a : action) (s : Z) : Z * Z :=
  match a with
  | A_Up => (0, - s)%Z
  | A_Down => (0, s)%Z
  | A_Left => (- s, 0)%Z
  | A_Right => (s, 0)%Z
  | _ => (0, 0)%Z
  end.
Definition move_of (r : mouse_report) : Z * Z := (mr_x r, mr_y r).
(** The step for the [i]-th event of a button (0: the press, 1, 2, ...: the repeats). *)
Definition step_of (i : nat) : Z := Z.min 64 (2 ^ Z.of_nat (S i)).

(** ** The periodic sender *)

(** Pin levels followed by "off", [n] ticks in total. *)
Definition padded (n : nat) (ls : list bool) : list bool := ls ++ repeat false (n - length ls).

(** ** The USB examples: what the keys of an Apple remote do *)

(** The direction in which a key moves the pointer; [None]: no such key, nothing is sent. *)
Definition apple_direction (page command : N) : option (Z * Z) :=
  match page, command with
  | 14, 3 => Some (1, 0)%Z
  | 14, 4 => Some (-1, 0)%Z
  | 14, 5 => Some (0, -1)%Z
  | 14, 6 => Some (0, 1)%Z
  | 14, 1 | 14, 2 | 14, 46 | 14, 47 | 0, 3 | 0, 7 => Some (0, 0)%Z
  | _, _ => None
  end.

(** The media keys a key sends. *)
Definition apple_media (page command : N) : list media_key :=
  match page, command with
  | 14, 2 => [MPlayPause; MZero]
  | 14, 3 => [MNextTrack; MZero]
  | 14, 4 => [MPrevTrack; MZero]
  | 14, 5 => [MVolumeIncrement; MZero]
  | 14, 6 => [MVolumeDecrement; MZero]
  | 14, 1 | 14, 46 | 14, 47 | 0, 3 | 0, 7 => [MZero; MZero]
  | _, _ => []
  end.

(** The line the polled example prints for a key. *)
Definition apple_line (page command : N) : list polled_line :=
  match page, command with
  | 14, 1 => [LButton A_Menu]
  | 14, 2 => [LPlay]
  | 14, 3 => [LButton A_Right]
  | 14, 4 => [LButton A_Left]
  | 14, 5 => [LButton A_Up]
  | 14, 6 => [LButton A_Down]
  | 14, 46 => [LButton A_Enter]
  | 14, 47 => [LButton A_Play_Pause2]
  | 0, 3 | 0, 7 => [LButton A_BatteryLow]
  | _, _ => []
  end.

(** The buttons of the television of the second tutorial, and the line printed for a command. *)
Definition tv_button (address command : N) : option action :=
  match address, command with
  | 0, 1 => Some A_One | 0, 2 => Some A_Two | 0, 3 => Some A_Three
  | 0, 4 => Some A_Four | 0, 5 => Some A_Five | 0, 6 => Some A_Six
  | 0, 7 => Some A_Seven | 0, 8 => Some A_Eight | 0, 9 => Some A_Nine
  | 0, 12 => Some A_Power | 0, 60 => Some A_Teletext
  | 0, 76 => Some A_VolumeUp | 0, 77 => Some A_VolumeDown
  | _, _ => None
  end.
Definition tv_line (address command : N) (toggle : bool) : line1b :=
  match address, command with
  | 0, 60 => L1bTeletext
  | 0, 12 => L1bPower
  | _, _ => L1bCmd (@mkButton Rc6Tv (mkRc6 address command toggle) (tv_button address command))
  end.
