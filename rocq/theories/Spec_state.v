(** * Specification vocabulary for decoders driven by hand *)
From Coq Require Import NArith List Bool.
From Verif Require Import Machine Spec Spec_receiver Decoder Receiver.
Import ListNotations.
Open Scope N_scope.

(** One event the way [ProtocolDecoder] is meant to be used: after [Done] or an error
    the decoder is reset.  The state is the one [event] returned. *)
Definition drive (D : decoder) (d : dst D) (x : edge) : res (dst D * state) :=
  let* (d1, s) := d_event D d (fst x) (snd x) in
  match s with
  | Done | Error _ => Val (d_reset D d1, s)
  | Idle | Receiving => Val (d1, s)
  end.
(** A history of events, with all states returned. *)
Definition run_states (D : decoder) := run_res (drive D).
(** Events without any reset. *)
Definition feed (D : decoder) := run_res (fun d (x : edge) => d_event D d (fst x) (snd x)).
(** Any sequence of calls to [event] ([Some]) and [reset] ([None], noted as [Idle]). *)
Definition call (D : decoder) (d : dst D) (x : option edge) : res (dst D * state) :=
  match x with
  | Some (e, dt) => d_event D d e dt
  | None => Val (d_reset D d, Idle)
  end.
Definition calls (D : decoder) := run_res (call D).
(** What the last of these calls returned; [Idle] if there was none. *)
Definition last_state (ss : list state) : state := last ss Idle.

(** Decoders obtained from [build] by any sequence of calls; [s] is the state the last one returned. *)
Definition reached (P : protocol) (freq : N) (d : dst (p_dec P)) (s : state) : Prop :=
  exists d0 xs ss, p_build P freq = Val d0 /\ calls (p_dec P) d0 xs = Val (d, ss) /\ last_state ss = s.

(** Number of edges in a history that satisfy [f]. *)
Definition count (f : edge -> bool) (h : list edge) : nat := length (filter f h).

(** The outcomes of a new receiver on a history. *)
Definition outcomes_of (P : protocol) (freq : N) {C} (into : dcmd (p_dec P) -> C) (h : list edge)
  : res (list (outcome C)) :=
  let* r := receiver_new P freq in outs (run_edges into r h).
