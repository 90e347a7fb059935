(** Averaging maxus over a window of wind directions: C65. *)
From Coq Require Import ZArith List Bool QArith Qcanon Lia.
From Verif Require Import Num WindowModel WindowProofs.
Import ListNotations.
Local Open Scope Z_scope.

(** C65: with half the window a multiple of the spacing, the mean of the directions at most that far
    around the circle, except that 0 is left out when it is reached through 360 *)
Theorem C65_window : forall inc q d vals, 0 < inc -> 360 mod inc = 0 -> 0 <= q -> q * inc < 360 -> 0 <= d < 360 -> d mod inc = 0 ->
  exists sel, NoDup sel /\ In d sel /\
    (forall e, In e sel <-> (0 <= e < 360 /\ e mod inc = 0) /\
       (Z.abs (e - d) <= q * inc \/ d + 360 - e <= q * inc \/ (e + 360 - d <= q * inc /\ e <> 0))) /\
    windowed inc (2 * q * inc) d vals =
      Some (fold_right (fun e s => (vals e + s)%Qc) 0%Qc sel / Q2Qc (inject_Z (Z.of_nat (length sel))))%Qc.
Proof. exact windowed_aligned. Qed.
Print Assumptions C65_window.

(** C65: otherwise no direction matches and the result is NaN everywhere *)
Theorem C65_misaligned : forall inc width d vals, 0 < inc -> 360 mod inc = 0 -> 0 <= width -> width mod (2 * inc) <> 0 ->
  In d (directions inc) -> windowed inc width d vals = None.
Proof. exact windowed_misaligned. Qed.
Print Assumptions C65_misaligned.

(** C65: so the window is not the same on both sides of north *)
Theorem C65_circular_refuted :
  ~ (forall inc q d e, 0 < inc -> 360 mod inc = 0 -> 0 <= q -> q * inc < 180 -> In d (directions inc) -> In e (directions inc) ->
       included inc (2 * q * inc) d e = included inc (2 * q * inc) e d).
Proof.
  intros H. specialize (H 5 3 350 0 ltac:(lia) ltac:(reflexivity) ltac:(lia) ltac:(lia)).
  rewrite !directions_spec in H by lia. specialize (H ltac:(split; [lia|reflexivity]) ltac:(split; [lia|reflexivity])).
  vm_compute in H. discriminate H.
Qed.
Print Assumptions C65_circular_refuted.

Example C65_case : filter (included 5 30 350) (directions 5) = [5; 335; 340; 345; 350; 355] /\
  filter (included 5 30 10) (directions 5) = [0; 5; 10; 15; 20; 25; 355] /\
  option_map this (windowed 90 180 0 (fun e => Q2Qc (inject_Z e))) = Some (120 # 1)%Q /\
  windowed 10 30 0 (fun _ => 1%Qc) = None.
Proof. repeat split; vm_compute; reflexivity. Qed.
