(** * What a reported command says about the signal: vocabulary *)
From Coq Require Import NArith List Bool.
From Verif Require Import Spec.
Import ListNotations.
Open Scope N_scope.

(** ** Pulse-distance protocols *)

(** The mark measured by the last edge of a history: its length if the last edge
    ended a mark, otherwise 0. *)
Definition last_mark (h : list edge) : N :=
  match rev h with (false, dt) :: _ => dt | _ => 0 end.

(** Every period of the history fits the smallest duration type, [u32]. *)
Definition periods_fit (h : list edge) : Prop := Forall (fun p => p < 2 ^ 32) (periods h).

(** [ps] ends with a header and the 32 bits of [word], least significant first.
    One percent is added to each tolerance for the rounding of the windows. *)
Definition nec_seen_bit (freq : N) (bit : bool) (d : N) : Prop :=
  if bit then near freq 2250 13 d else near freq 1120 26 d.
Definition ends_in_nec_frame (freq header word : N) (ps : list N) : Prop :=
  exists pre hd ds, ps = pre ++ hd :: ds /\ near freq header 8 hd /\ word < 2 ^ 32 /\
    Forall2 (nec_seen_bit freq) (bits_lsb 32 word) ds.

(** [ps] ends with a repeat code. *)
Definition ends_in_repeat (freq code : N) (ps : list N) : Prop :=
  exists pre d, ps = pre ++ [d] /\ near freq code 8 d.

(** Repeat codes: each a pause after the stop mark of the frame or code before,
    then the code itself. *)
Definition repeat_code (freq header code : N) (x : (N * N) * (N * N)) : Prop :=
  longer freq header 7 (fst (fst x) + snd (fst x)) /\ period_near freq code 7 (snd x).
Definition repeat_pairs (l : list ((N * N) * (N * N))) : list (N * N) :=
  flat_map (fun x => [fst x; snd x]) l.

(** [ps] ends with a Denon sync and the 48 bits of [word], least significant first. *)
Definition denon_seen_bit (freq : N) (bit : bool) (d : N) : Prop :=
  near freq (if bit then 1680 else 840) 11 d.
Definition is_denon_frame (freq word hd : N) (ds : list N) : Prop :=
  near freq 5000 9 hd /\ word < 2 ^ 48 /\ Forall2 (denon_seen_bit freq) (bits_lsb 48 word) ds.

(** [ps] ends with a Samsung BluRay header, the 16 bits of the address, the pause and
    the 20 bits of the command. *)
Definition sbp_seen_bit (freq : N) (bit : bool) (d : N) : Prop :=
  near freq (if bit then 2000 else 1000) 11 d.
Definition ends_in_sbp_frame (freq address command : N) (ps : list N) : Prop :=
  exists pre hd ads pause cds, ps = pre ++ hd :: ads ++ pause :: cds /\
    near freq 9000 6 hd /\ near freq 5000 6 pause /\ address < 2 ^ 16 /\ command < 2 ^ 20 /\
    Forall2 (sbp_seen_bit freq) (bits_lsb 16 address) ads /\
    Forall2 (sbp_seen_bit freq) (bits_lsb 20 command) cds.

(** The periods a receiver may measure that does not forget the last mark when the
    next one begins: at every rising edge, the last mark plus the time since.
    Afterwards the mark is kept or dropped. *)
Inductive readings : list edge -> list N -> N -> Prop :=
| readings_nil : readings [] [] 0
| readings_fall h ps sv d : readings h ps sv -> readings (h ++ [(false, d)]) ps d
| readings_keep h ps sv d : readings h ps sv -> readings (h ++ [(true, d)]) (ps ++ [sv + d]) sv
| readings_drop h ps sv d : readings h ps sv -> readings (h ++ [(true, d)]) (ps ++ [sv + d]) 0.

(** No two rising edges in a row. *)
Fixpoint no_double_rise (h : list edge) : Prop :=
  match h with
  | (true, _) :: (((true, _) :: _) as r) => False
  | _ :: r => no_double_rise r
  | [] => True
  end.

(** ** Biphase protocols *)

(** The number of half-bits an interval is taken for.  Intervals of zero ticks match
    the unused windows of the tables and count as several half-bits. *)
Definition rc5_interval (freq n d : N) : Prop :=
  n = 1 /\ near freq 889 13 d \/ n = 2 /\ near freq 1778 11 d \/ 3 <= n /\ n <= 8 /\ d = 0.
Definition rc6_interval (freq n d : N) : Prop :=
  1 <= n /\ n <= 6 /\ near freq (444 * n) 13 d \/ 7 <= n /\ n <= 8 /\ d = 0.

(** The levels read from a series of edges whose intervals count [ns] half-bits: the
    direction of every edge at which the recovered clock, starting from [ck], is odd
    ([par]) or even (not [par]). *)
Fixpoint samples (par : bool) (ck : N) (l : list edge) (ns : list N) : list bool :=
  match l, ns with
  | (e, _) :: l', n :: ns' =>
      (if Bool.eqb (N.odd (ck + n)) par then [e] else []) ++ samples par (ck + n) l' ns'
  | _, _ => []
  end.
Definition total (ns : list N) : N := fold_right N.add 0 ns.

(** [evs] is a series of valid RC5 intervals read as [bits], the last bit at the last edge. *)
Definition rc5_stream (freq : N) (evs : list edge) (bits : list bool) : Prop :=
  exists evs' last ns n, evs = evs' ++ [last] /\
    Forall2 (rc5_interval freq) (ns ++ [n]) (map snd evs) /\
    samples false 0 evs (ns ++ [n]) = bits /\ S (length (samples false 0 evs' ns)) = length bits.

(** [evs] follows the start edge of an RC6 frame: leader mark, space, four header
    samples, the trailer with the toggle bit, and data read as [bits]; header and
    data end at an edge that is read. *)
Definition rc6_stream (freq : N) (evs : list edge) (toggle : bool) (bits : list bool) : Prop :=
  exists lead pause hs hlast hns hn tr tlast ds dlast dns dn,
    evs = (false, lead) :: (true, pause) :: (hs ++ [hlast]) ++ (tr ++ [tlast]) ++ (ds ++ [dlast]) /\
    rc6_interval freq 6 lead /\ rc6_interval freq 2 pause /\
    Forall2 (rc6_interval freq) (hns ++ [hn]) (map snd (hs ++ [hlast])) /\
    length (samples true 8 hs hns) = 3%nat /\ length (samples true 8 (hs ++ [hlast]) (hns ++ [hn])) = 4%nat /\
    Forall (fun x => fst x = false /\ rc6_interval freq 1 (snd x)) tr /\
    (if toggle then fst tlast = false /\ rc6_interval freq 3 (snd tlast)
     else fst tlast = true /\ rc6_interval freq 2 (snd tlast)) /\
    Forall2 (rc6_interval freq) (dns ++ [dn]) (map snd (ds ++ [dlast])) /\
    (let ck := 8 + total (hns ++ [hn]) + N.of_nat (length tr) + (if toggle then 3 else 2) in
     map negb (samples true ck (ds ++ [dlast]) (dns ++ [dn])) = bits /\
     S (length (samples true ck ds dns)) = length bits).
