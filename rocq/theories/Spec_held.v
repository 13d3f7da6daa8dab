(** * Series of transmissions with keys held down

    Remote controls of the NEC family send short repeat codes after a frame for as long
    as the key stays pressed.  An item of a series is a transmission as in [Spec_cross.v]
    with its repeat codes: for each the silence before it and its edges. *)
From Coq Require Import NArith List Bool.
From Verif Require Import Spec Spec_cross Spec_phys.
Import ListNotations.
Open Scope N_scope.

Definition keypress := (transmission * N * list edge * list (N * list edge))%type.
Definition key_of (y : keypress) : transmission := fst (fst (fst y)).

(** The repeat code that belongs to a transmission.  Protocols outside the NEC family
    have none (they send the frame again). *)
Definition sent_again (freq : N) (t : transmission) (evs : list edge) : Prop :=
  match t with
  | TNec _ _ | TNec16 _ _ | TRaw _ => sent_nec_repeat freq evs
  | TSamsung _ _ => sent_samsung_repeat freq evs
  | _ => False
  end.

Definition gaps_air (rs : list (N * list edge)) : list edge := flat_map (fun r => (true, fst r) :: snd r) rs.
Definition held_air (l : list keypress) : list edge :=
  flat_map (fun y => on_air [fst y] ++ gaps_air (snd y)) l.

(** As [traffic], each transmission with any number of repeat codes. *)
Definition held_traffic (freq : N) (l : list keypress) : Prop :=
  traffic freq (map fst l) /\
  Forall (fun y => Forall (fun r => ended freq 560 (sent_again freq (key_of y)) (snd r) /\ longer freq 13500 8 (fst r)) (snd y)) l.

(** What should be reported, if [heard t] is what the transmission [t] means and [again c]
    is the command [c] marked as a repetition. *)
Definition reports {C} (heard : transmission -> list C) (again : C -> C) (l : list keypress) : list C :=
  flat_map (fun y => heard (key_of y) ++ concat (repeat (map again (heard (key_of y))) (length (snd y)))) l.

(** The same in real time (units of [1/G] seconds), within [x] percent. *)
Definition real_again (G x : N) (t : transmission) (evs : list edge) : Prop :=
  match t with
  | TNec _ _ | TNec16 _ _ | TRaw _ =>
      exists d, evs = pair_edges [d] /\ real_period G x 11250 d /\ real_near G x 9000 (fst d)
  | TSamsung _ _ =>
      exists d, evs = pair_edges [d] /\ real_period G x 6750 d /\ real_near G x 4500 (fst d)
  | _ => False
  end.
Definition real_again_ended (G x : N) (t : transmission) (evs : list edge) : Prop :=
  real_again G x t evs \/ exists body D, evs = body ++ [(false, D)] /\ real_again G x t body /\ real_near G x 560 D.
Definition real_held (G x : N) (l : list keypress) : Prop :=
  real_traffic G x (map fst l) /\
  Forall (fun y => Forall (fun r => real_again_ended G x (key_of y) (snd r) /\ real_long G 20000 (fst r)) (snd y)) l.
