(** * Property C14: tick rates at which the accepted window is exact *)
From Coq Require Import NArith ZArith List Bool Lia ZifyBool ZifyNat ZifyN.
From Verif Require Import Machine Spec Time Decoder Time_facts Window_facts Run_facts Spec_rate Rate_facts Props_time.
Import ListNotations.
Open Scope N_scope.

Theorem C14_exact :
  forall b m freq p t d, timebase m freq -> exact_rate m freq -> In (p, t) all_pulses -> 0 < p ->
  exists s, create_span b m freq p t = Val s /\ (contains s d = true <-> near freq p t d).
Proof.
  intros b m freq p t d Hm Hf Hin Hp.
  assert (A : p <= 13500 /\ p * t <= 100000 /\ t <= 25 /\ 1 <= t).
  { assert (E : forallb (fun x => (fst x =? 0) || ((fst x <=? 13500) && (fst x * snd x <=? 100000)
                 && (snd x <=? 25) && (1 <=? snd x))) all_pulses = true) by reflexivity.
    rewrite forallb_forall in E. apply E in Hin. cbn [fst snd] in Hin. lia. }
  destruct A as (A1 & A2 & A3 & A4). pose proof (exact_rate_lt m freq Hf) as Hl.
  eexists. split; [apply create_span_val; auto|]. rewrite contains_window by lia.
  assert (E : base_of m freq p = nominal freq p).
  { destruct m as [| |w micros cs]; cbn [base_of]; [rewrite scale_exact by auto; reflexivity|rewrite scale_exact by auto; reflexivity|].
    destruct Hm as (_ & ->). reflexivity. }
  rewrite E. reflexivity.
Qed.
Print Assumptions C14_exact.

(** At 1 MHz the NEC zero bit is accepted from 840 to 1400 microseconds;
    1000999 Hz is not exact: there the NEC header of 13513 ticks counts as 13500. *)
Example C14_exact_example :
  exact_rate MU32 1000000 /\ exact_rate MU64 80000000 /\ near 1000000 1120 25 840 /\ near 1000000 1120 25 1400 /\
  ~ near 1000000 1120 25 839 /\ ~ exact_rate MU32 1000999 /\
  scale_with_samplerate 13500 1000999 = Val 13500 /\ nominal 1000999 13500 = 13513.
Proof.
  split; [exact (exact_mhz MU32 1 ltac:(lia))|]. split; [exact (exact_mhz MU64 80 ltac:(lia))|].
  split; [vm_compute; split; discriminate|]. split; [vm_compute; split; discriminate|].
  split; [vm_compute; intros (_ & H); apply H; reflexivity|].
  split; [|split; vm_compute; reflexivity].
  intros (_ & [H|[(H & _)|H]]); [lia|vm_compute in H; discriminate H|vm_compute in H; discriminate H].
Qed.
