(** Properties C72 (saturation vapour pressure) and C73 (vapour pressure from humidity and from dew point). *)
From Coq Require Import Reals List Bool Lra Lia.
From Verif Require Import RNum WinsModel ExpBounds SatModel SatSpec SatProofs.
Import ListNotations.
Local Open Scope R_scope.

(** The compiled and the Python function agree on every temperature above absolute zero, and compute the Goff-Gratch
    formulas.  They differ on the others: the compiled one ends the process, the Python one gives NaN below zero and 0 at zero. *)
Theorem C72_formula (t : R) : 0 < t ->
  sati_c (Some t) = Ok (Some (saturation t)) /\ sati_py (Some t) = Some (saturation t) /\ 0 < saturation t.
Proof.
  intros T. unfold sati_c, sati_py. rewrite sat_is. destruct (rleb_spec t 0); [lra|]. destruct (rltb_spec t 0); [lra|]. destruct (reqb_spec t 0); [lra|].
  repeat split. rewrite <- sat_is. apply sat_pos.
Qed.
Print Assumptions C72_formula.
Theorem C72_impossible (t : R) : t <= 0 ->
  sati_c (Some t) = Err ProcessExit /\ (t < 0 -> sati_py (Some t) = None) /\ (t = 0 -> sati_py (Some t) = Some 0) /\ sati_c None = Ok None /\ sati_py None = None.
Proof.
  intros T. unfold sati_c, sati_py. destruct (rleb_spec t 0); [|lra]. destruct (rltb_spec t 0); destruct (reqb_spec t 0); repeat split; intros; try lra; try reflexivity.
Qed.
Print Assumptions C72_impossible.
(** Warmer air saturates at a strictly higher pressure, across freezing too, up to 1300 K. *)
Theorem C72_increasing (t t' : R) : 0 < t < t' -> t' <= 1300 -> saturation t < saturation t'.
Proof. rewrite <- !sat_is. apply sat_increasing. Qed.
Print Assumptions C72_increasing.
(** Values at freezing and at boiling; just above freezing the pressure jumps up, so some pressures belong to no temperature. *)
Theorem C72_values : saturation 273.16 = 610.71 /\ saturation 373.15 = 101324.6 /\
  exists j, 610.71 < j /\ (forall t, 273.16 < t <= 1300 -> j < saturation t) /\ forall t, 0 < t <= 1300 -> ~ (610.71 < saturation t <= j).
Proof.
  split; [rewrite <- sat_is; exact sat_freeze|]. split; [rewrite <- sat_is; exact sat_boil|].
  exists (satw FREEZE). split; [exact freeze_step|].
  assert (J : forall t, 273.16 < t <= 1300 -> satw FREEZE < saturation t).
  { intros t T. rewrite <- sat_is. unfold sat. destruct (rltb_spec FREEZE t) as [L|L]; [|unfold FREEZE in L; lra]. apply satw_increasing; unfold FREEZE; lra. }
  split; [exact J|]. intros t T [A B]. destruct (Rlt_or_le 273.16 t) as [L|L]; [specialize (J t ltac:(lra)); lra|].
  assert (saturation t <= 610.71); [|lra]. rewrite <- sat_is, <- sat_freeze. apply sat_le; unfold FREEZE; lra.
Qed.
Print Assumptions C72_values.
Example C72_example : 610.71 < saturation 300 < 101324.6 /\ 0 < saturation 200 < 610.71.
Proof.
  destruct C72_values as (F & B & _). split; [split|split].
  - rewrite <- F. apply C72_increasing; lra.
  - rewrite <- B. apply C72_increasing; lra.
  - apply C72_formula. lra.
  - rewrite <- F. apply C72_increasing; lra.
Qed.

(** Relative humidity: the unit of the whole grid is decided by the first cell. *)
Definition wet_at (share : R -> R) (c : rnum * rnum) (v : rnum) : Prop :=
  (forall t r, c = (Some t, Some r) -> -273.15 < t -> v = Some (saturation (t + 273.15) * share r)) /\
  (fst c = None \/ snd c = None -> v = None).
Lemma wet_cells (share : R -> R) f : (forall r, f (Some r) = Some (share r)) -> f None = None -> forall cells,
  Forall2 (wet_at share) cells (map (fun c => rlift2 Rmult (sati_py (rlift (fun t => t + 273.15) (fst c))) (f (snd c))) cells).
Proof.
  intros F1 F0 cells. induction cells as [|[t r] cells IH]; [constructor|]. constructor; [|exact IH]. split; cbn [fst snd].
  - intros t' r' E T. injection E as -> ->. cbn [rlift option_map]. rewrite F1. destruct (C72_formula (t' + 273.15) ltac:(lra)) as (_ & -> & _). reflexivity.
  - intros [-> | ->]; [reflexivity|]. rewrite F0. destruct (sati_py _); reflexivity.
Qed.
Theorem C73_humidity (first : rnum * rnum) (rest : list (rnum * rnum)) :
  ((exists r, snd first = Some r /\ 1 <= r) -> Forall2 (wet_at (fun r => r / 100)) (first :: rest) (rh2vp (first :: rest))) /\
  (snd first = None \/ (exists r, snd first = Some r /\ r < 1) -> Forall2 (wet_at (fun r => r)) (first :: rest) (rh2vp (first :: rest))).
Proof.
  destruct first as [t0 r0]. cbn [snd]. unfold rh2vp. split.
  - intros (r & -> & R1). destruct (rleb_spec 1 r); [|lra]. apply (wet_cells (fun r => r / 100)); reflexivity.
  - intros [-> | (r & -> & R1)]; [apply (wet_cells (fun r => r) (fun x => x)); reflexivity|]. destruct (rleb_spec 1 r); [lra|]. apply (wet_cells (fun r => r) (fun x => x)); reflexivity.
Qed.
Print Assumptions C73_humidity.
Lemma two_cells (P : rnum * rnum -> rnum -> Prop) a b v : Forall2 P [a; b] v -> exists x y, v = [x; y] /\ P a x /\ P b y.
Proof. intros H. inversion H as [|? x ? w A B]; subst. inversion B as [|? y ? w' A' B']; subst. inversion B'; subst. exists x, y. auto. Qed.
(** So a grid in percent is not always read in percent: one dry or missing first cell makes all the others a hundred times too wet. *)
Theorem C73_percent_refuted : ~ (forall cells, (forall t r, In (t, Some r) cells -> 0 <= r <= 100) -> Forall2 (wet_at (fun r => r / 100)) cells (rh2vp cells)).
Proof.
  intros H. specialize (H [(Some 10, None); (Some 10, Some 50)]). 
  assert (P : forall t r, In (t, Some r) [(Some 10, None); (Some 10, Some 50)] -> 0 <= r <= 100).
  { intros t r [E | [E | []]]; [discriminate E | injection E as _ <-; lra]. }
  specialize (H P). destruct (C73_humidity (Some 10, None) [(Some 10, Some 50)]) as [_ K]. specialize (K (or_introl eq_refl)).
  destruct (two_cells _ _ _ _ H) as (x & y & E & _ & H2 & _). destruct (two_cells _ _ _ _ K) as (x' & y' & E' & _ & K2 & _).
  rewrite E in E'. injection E' as <- <-.
  specialize (H2 10 50 eq_refl ltac:(lra)). specialize (K2 10 50 eq_refl ltac:(lra)). rewrite H2 in K2. injection K2 as K2.
  pose proof (proj2 (proj2 (C72_formula (10 + 273.15) ltac:(lra)))). lra.
Qed.
Print Assumptions C73_percent_refuted.
(** Vapour pressure of a dew point in Celsius; zero Celsius is 273.15 K here. *)
Theorem C73_satvp (d : R) : -273.15 < d -> satvp (Some d) = Some (saturation (d + 273.15)).
Proof. intros D. unfold satvp. cbn [rlift option_map]. apply C72_formula. lra. Qed.
Print Assumptions C73_satvp.
Example C73_example : Forall2 (wet_at (fun r => r / 100)) [(Some 10, Some 80); (None, Some 5)] (rh2vp [(Some 10, Some 80); (None, Some 5)]).
Proof. apply C73_humidity. exists 80. split; [reflexivity | lra]. Qed.
