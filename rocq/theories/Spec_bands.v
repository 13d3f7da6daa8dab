(** * Specification: the tick rates at which what is sent is read, with one clock for both

    The sender rounds every time of the frame down to whole ticks, and the rate to whole kHz
    (above 1 kHz); the receiver rounds the nominal times down to whole ticks.  Below some rate
    the two agree only here and there. *)
From Coq Require Import NArith List.
Import ListNotations.
Open Scope N_scope.

Definition within (bands : list (N * N)) (F : N) : Prop := Exists (fun r => fst r <= F /\ F <= snd r) bands.

(** NEC, 16-bit NEC and raw NEC: every rate from 13 kHz on, and these. *)
Definition nec_bands : list (N * N) :=
  [ (592, 592); (667, 740); (778, 814); (2000, 2222); (4000, 4370); (5000, 5333); (6000, 6518); (7000, 7111);
    (8000, 8666); (9000, 9703); (10000, 10666); (11000, 11851); (12000, 12962) ].
Definition nec_rate (F : N) : Prop := 13000 <= F \/ within nec_bands F.

(** Samsung: every rate from 14 kHz on, and these. *)
Definition samsung_bands : list (N * N) :=
  [ (667, 777); (2000, 2222); (4000, 4333); (5000, 5333); (6000, 6555); (7000, 7111);
    (8000, 8666); (9000, 9666); (10000, 10666); (11000, 11777); (12000, 13888) ].
Definition samsung_rate (F : N) : Prop := 14000 <= F \/ within samsung_bands F.

(** RC5: every rate from 13 kHz on, and these. *)
Definition rc5_bands : list (N * N) :=
  [ (5000, 5061); (6000, 6749); (7000, 7874); (8000, 8998); (9000, 10123); (11000, 11811); (12000, 12935) ].
Definition rc5_rate (F : N) : Prop := 13000 <= F \/ within rc5_bands F.
