(** Specification vocabulary for storms: what it means for a list of time intervals to
    be the storms of a precipitation record.  [wet i] says that step [i] is a
    precipitation step, [n] is the number of steps, [steps] the number of dry steps
    that end a storm. *)
From Coq Require Import List Arith ZArith QArith Qcanon.
From Verif Require Import Num StormsModel.
Import ListNotations.
Local Open Scope nat_scope.

Section Storms.
Variables (n steps : nat) (wet : nat -> Prop).

(** From [a] to [w] it never stays dry for [steps] steps, and [w] is the last wet step
    before [steps] dry ones (or before the end of the record). *)
Definition wet_spell (a w : nat) : Prop :=
  a <= w < n /\ wet a /\ wet w /\
  (forall i, a <= i < w -> exists j, i < j <= i + steps /\ wet j) /\
  (forall j, w < j <= w + steps -> ~ wet j).

(** A storm of the station tracker: a wet spell with its closing dry steps. *)
Definition station_storm (a b : nat) : Prop :=
  exists w, wet_spell a w /\ b = Nat.min (w + steps) (n - 1).

(** A storm of the basin tracker: the wet spell itself. *)
Definition basin_storm (a b : nat) : Prop := wet_spell a b.

(** Time order, no overlap: every storm ends before any later one starts. *)
Definition in_order (l : list (nat * nat)) : Prop :=
  ForallOrdPairs (fun s t => snd s < fst t) l.

Definition covered (l : list (nat * nat)) : Prop :=
  forall i, i < n -> wet i -> exists s, In s l /\ fst s <= i <= snd s.

Definition is_storms (P : nat -> nat -> Prop) (l : list (nat * nat)) : Prop :=
  in_order l /\ (forall s, In s l -> P (fst s) (snd s)) /\ covered l.
End Storms.

(** Wet rows: some station above the threshold (missing stations ignored) ... *)
Definition wet_station (thr : Qc) (rows : list (list num)) (i : nat) : Prop :=
  exists r v, nth_error rows i = Some r /\ In (Some v) r /\ (thr < v)%Qc.
(** ... and for the grid-wide maximum: no missing cell, and some cell above it. *)
Definition wet_basin (thr : Qc) (grids : list (list num)) (i : nat) : Prop :=
  exists g v, nth_error grids i = Some g /\ ~ In None g /\ In (Some v) g /\ (thr < v)%Qc.

(** Sum of column [c] over the rows [a..b] that satisfy [keep]; NaN propagates. *)
Fixpoint sum_rows (keep : nat -> bool) (c i : nat) (rows : list (list num)) : num :=
  match rows with
  | [] => Some 0%Qc
  | r :: t => if keep i then nadd (nth c r None) (sum_rows keep c (S i) t)
              else sum_rows keep c (S i) t
  end.

(** Number of entries satisfying [p] after the last entry satisfying [stop]. *)
Fixpoint count_since {A} (stop p : A -> bool) (l : list A) (acc : nat) : nat :=
  match l with
  | [] => acc
  | a :: r => count_since stop p r (if stop a then 0 else if p a then S acc else acc)
  end.

(** ** Tables *)
Definition cell (t : list (list num)) (i c : nat) : num := nth c (nth i t []) None.

(** Position [i] lies in one of the storms. *)
Definition in_storms (storms : list (nat * nat)) (i : nat) : bool :=
  existsb (fun s => (fst s <=? i) && (i <=? snd s)) storms.

(** Sum of column [c] over the rows that satisfy [keep]; missing values count as nothing. *)
Fixpoint total (keep : nat -> bool) (c i : nat) (t : list (list num)) : Qc :=
  match t with
  | [] => 0%Qc
  | r :: t' => ((if keep i then match nth c r None with Some v => v | None => 0 end else 0)
                + total keep c (S i) t')%Qc
  end.

(** no station list given, or the station is in it *)
Definition selected (stations : list nat) (c : nat) : Prop := stations = [] \/ In c stations.
Definition nonneg (t : list (list num)) : Prop :=
  forall r v, In r t -> In (Some v) r -> (0 <= v)%Qc.

(** natural numbers as rationals *)
Definition Qcnat (j : nat) : Qc := Q2Qc (inject_Z (Z.of_nat j)).

(** Precipitation [p], percent snow [ps] and precipitation temperatures [temps] reset a
    pixel's days since storm: the basin is storming, no temperature is missing and some
    pixel is below 2 C, and the pixel itself gets enough precipitation and snow. *)
Definition resets (storming : bool) (mass ps_thresh : Qc) (temps : list num) (p ps : num) : Prop :=
  storming = true /\ ~ In None temps /\ (exists v, In (Some v) temps /\ (v < q 2 1)%Qc) /\
  (exists v, p = Some v /\ (mass <= v)%Qc) /\ (exists v, ps = Some v /\ (ps_thresh <= v)%Qc).

(** The same for time step [e] of a Marks 2017 run at pixel [k]. *)
Definition step_resets (mass : Qc) (k : nat) (e : mstep) : Prop :=
  match e with
  | MDry => False
  | MWet storming f =>
      exists p ps t, nth_error f k = Some (p, ps, t) /\
                     resets storming mass (q 1 2) (map snd f) p ps
  end.

Definition wet_step (e : sstep) : bool := match e with SWet _ => true | SDry => false end.
(** every grid of the run has [n] pixels *)
Definition sgrids (n : nat) (l : list sstep) : Prop :=
  forall f, In (SWet f) l -> length f = n.
Definition mgrids (n : nat) (l : list mstep) : Prop :=
  forall b f, In (MWet b f) l -> length f = n.
