(** * The signals of one protocol, as seen by the receiver of another

    Each definition describes the edges that follow the rising edge with which the
    transmission begins.  Periods and intervals are within the tolerances of the
    protocol, marks within 12 percent (the leading ones 8). *)
From Coq Require Import NArith List Bool.
From Verif Require Import Spec.
Import ListNotations.
Open Scope N_scope.

(** The first mark lasts [lead] microseconds, the others [bit]. *)
Definition marks_near (freq lead bit : N) (ps : list (N * N)) : Prop :=
  exists h ds, ps = h :: ds /\ near freq lead 8 (fst h) /\ Forall (fun x => near freq bit 12 (fst x)) ds.

(** NEC, NEC with 16-bit addresses, Apple: frame and repeat code. *)
Definition sent_nec (freq : N) (evs : list edge) : Prop :=
  exists w ps, evs = pair_edges ps /\ nec_frame freq 13500 w ps /\ marks_near freq 9000 560 ps.
Definition sent_nec_repeat (freq : N) (evs : list edge) : Prop :=
  exists x, evs = pair_edges [x] /\ period_near freq 11250 7 x /\ near freq 9000 8 (fst x).

(** Samsung: frame and repeat code. *)
Definition sent_samsung (freq : N) (evs : list edge) : Prop :=
  exists w ps, evs = pair_edges ps /\ nec_frame freq 9000 w ps /\ marks_near freq 4500 560 ps.
Definition sent_samsung_repeat (freq : N) (evs : list edge) : Prop :=
  exists x, evs = pair_edges [x] /\ period_near freq 6750 7 x /\ near freq 4500 8 (fst x).

Definition sent_sbp (freq : N) (evs : list edge) : Prop :=
  exists a c ps, evs = pair_edges ps /\ sbp_frame freq a c ps /\ marks_near freq 4500 500 ps.

Definition sent_denon (freq : N) (evs : list edge) : Prop :=
  exists w ps, evs = pair_edges ps /\ denon_frame freq w ps /\ marks_near freq 3400 480 ps.

Definition sent_rc5 (freq : N) (evs : list edge) : Prop :=
  exists w gap, rc5_edges freq w gap ((true, gap) :: evs).

Definition sent_rc6 (freq : N) (evs : list edge) : Prop :=
  exists toggle data gap, rc6_edges freq (rc6_leader_full freq) toggle data gap ((true, gap) :: evs).

(** Most transmissions end in a mark.  The edge that ends it, after [mark] microseconds (12 percent),
    may be there or not (it comes after the transmission has been understood). *)
Definition ended (freq mark : N) (P : list edge -> Prop) (evs : list edge) : Prop :=
  P evs \/ exists body d, evs = body ++ [(false, d)] /\ P body /\ near freq mark 12 d.

(** ** Traffic: transmissions of several protocols, one after the other *)

Inductive transmission :=
| TNec (address command : N)
| TNec16 (address command : N)
| TRaw (word : N)                 (* any 32 bits in NEC's timing, Apple's frames among them *)
| TSamsung (address command : N)
| TSbp (address command : N)      (* command: all 20 bits that follow the pause *)
| TDenon (word : N)
| TRc5 (word : N)
| TRc6 (address command : N) (toggle : bool).

Definition sent (freq : N) (t : transmission) (evs : list edge) : Prop :=
  match t with
  | TNec a c => a < 2 ^ 8 /\ c < 2 ^ 8 /\ exists ps, evs = pair_edges ps /\
      nec_frame freq 13500 (bytes4 a (compl8 a) c (compl8 c)) ps /\ marks_near freq 9000 560 ps
  | TNec16 a c => a < 2 ^ 16 /\ c < 2 ^ 8 /\ exists ps, evs = pair_edges ps /\
      nec_frame freq 13500 (bytes4 (a mod 2 ^ 8) (a / 2 ^ 8) c (compl8 c)) ps /\ marks_near freq 9000 560 ps
  | TRaw w => w < 2 ^ 32 /\ exists ps, evs = pair_edges ps /\ nec_frame freq 13500 w ps /\ marks_near freq 9000 560 ps
  | TSamsung a c => a < 2 ^ 8 /\ c < 2 ^ 8 /\ exists ps, evs = pair_edges ps /\
      nec_frame freq 9000 (bytes4 a a c (compl8 c)) ps /\ marks_near freq 4500 560 ps
  | TSbp a c => a < 2 ^ 16 /\ c < 2 ^ 20 /\ exists ps, evs = pair_edges ps /\
      sbp_frame freq a c ps /\ marks_near freq 4500 500 ps
  | TDenon w => w < 2 ^ 48 /\ exists ps, evs = pair_edges ps /\
      denon_frame freq w ps /\ marks_near freq 3400 480 ps
  | TRc5 w => w < 2 ^ 14 /\ N.testbit w 13 = true /\ exists gap, rc5_edges freq w gap ((true, gap) :: evs)
  | TRc6 a c tg => a < 2 ^ 8 /\ c < 2 ^ 8 /\
      exists gap, rc6_edges freq (rc6_leader_safe freq) tg (2 ^ 8 * a + c) gap ((true, gap) :: evs)
  end.

(** The bits of a transmission in NEC's timing. *)
Definition nec_word (t : transmission) : option N :=
  match t with
  | TNec a c => Some (bytes4 a (compl8 a) c (compl8 c))
  | TNec16 a c => Some (bytes4 (a mod 2 ^ 8) (a / 2 ^ 8) c (compl8 c))
  | TRaw w => Some w
  | _ => None
  end.

(** The mark at the end of a transmission. *)
Definition end_mark (t : transmission) : N :=
  match t with
  | TNec _ _ | TNec16 _ _ | TRaw _ | TSamsung _ _ => 560
  | TSbp _ _ => 500
  | TDenon _ => 480
  | TRc5 _ => 889
  | TRc6 _ _ _ => 444
  end.

(** A series of transmissions, each with the silence before it and its edges. *)
Definition on_air (l : list (transmission * N * list edge)) : list edge :=
  flat_map (fun x => (true, snd (fst x)) :: snd x) l.
Definition traffic (freq : N) (l : list (transmission * N * list edge)) : Prop :=
  Forall (fun x => ended freq (end_mark (fst (fst x))) (sent freq (fst (fst x))) (snd x) /\ longer freq 13500 8 (snd (fst x))) l.
