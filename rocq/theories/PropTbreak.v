(** Files of upwind slopes and of topographic breaks: C86. *)
From Coq Require Import Reals ZArith String List Bool Lia Lra.
From Verif Require Import RNum WinsModel SpatModel BresSpec BresProofs HordModel HordSpec HordProofs TbreakModel TbreakSpec TbreakProofs.
Import ListNotations.
Local Open Scope R_scope.

(** C86: the file of upwind slopes, whenever the run is stopped: one record for each direction 0, inc, 2 inc ... below 360
    that was done, the upwind slope (C30, C31) of that direction; nothing in the others; no other file changes *)
Theorem C86_maxus_file : forall g h dmax inc name k d, (0 < inc)%Z -> 0 < spacing (t_x g) -> whole dmax (spacing (t_x g)) ->
  exists d' f, maxus g h dmax inc name k d = Ok d' /\ d' name = Some f /\ (forall other, other <> name -> d' other = d other) /\
    holds f Maxus [("dmax"%string, dmax)] inc k
      (fun angle c => maxus_cell h (t_nx g) (t_ny g) (t_x g) (t_y g) (t_dem g) c (end_cell (spacing (t_x g)) (spacing (t_y g)) dmax (IZR angle) c)).
Proof.
  intros g h dmax inc name k d Hi P W. change (spacing (t_x g)) with (t_dx g) in *; change (spacing (t_y g)) with (t_dy g) in *. unfold maxus. rewrite (uneven_no _ _ P W), all_angles_pos by exact Hi. cbn [bind].
  eexists. eexists. split; [reflexivity|]. unfold put. rewrite String.eqb_refl. split; [reflexivity|]. split.
  - intros other N. destruct (String.eqb_spec other name); [tauto|reflexivity].
  - exact (rounds_holds Maxus _ inc k (fun a => maxus_angle g h a dmax) Hi).
Qed.
Print Assumptions C86_maxus_file.

(** C86: the file of breaks: the slope over the short distance minus the slope over the long one *)
Theorem C86_tbreak_file : forall g h dmax sepdist inc name k d, (0 < inc)%Z -> 0 < spacing (t_x g) ->
  whole dmax (spacing (t_x g)) -> whole sepdist (spacing (t_x g)) ->
  exists d' f value, tbreak g h dmax sepdist inc name k d = Ok d' /\ d' name = Some f /\ (forall other, other <> name -> d' other = d other) /\
    holds f Tbreak [("dmax"%string, dmax); ("sepdist"%string, sepdist)] inc k value /\
    forall angle c l o,
      maxus_cell h (t_nx g) (t_ny g) (t_x g) (t_y g) (t_dem g) c (end_cell (spacing (t_x g)) (spacing (t_y g)) sepdist (IZR angle) c) = Some (F l) ->
      maxus_cell h (t_nx g) (t_ny g) (t_x g) (t_y g) (t_dem g) c (end_cell (spacing (t_x g)) (spacing (t_y g)) dmax (IZR angle) c) = Some (F o) ->
      value angle c = Some (F (l - o)).
Proof.
  intros g h dmax sepdist inc name k d Hi P W W2. change (spacing (t_x g)) with (t_dx g) in *; change (spacing (t_y g)) with (t_dy g) in *. unfold tbreak. rewrite (uneven_no _ _ P W), (uneven_no _ _ P W2), all_angles_pos by exact Hi. cbn [bind orb].
  eexists. eexists. exists (fun a => tbreak_angle g h a dmax sepdist). split; [reflexivity|]. unfold put. rewrite String.eqb_refl. split; [reflexivity|]. split; [|split].
  - intros other N. destruct (String.eqb_spec other name); [tauto|reflexivity].
  - exact (rounds_holds Tbreak _ inc k (fun a => tbreak_angle g h a dmax sepdist) Hi).
  - intros angle c l o L O. unfold tbreak_angle, maxus_angle. rewrite L, O. apply f_equal, fsub_fin.
Qed.
Print Assumptions C86_tbreak_file.

(** C86: distances that are not whole numbers of columns are refused before any file is touched *)
Theorem C86_refused : forall g h dmax sepdist inc name k d, (inc <> 0)%Z ->
  (maxus g h dmax inc name k d = Err ValueError <-> spacing (t_x g) = 0 \/ ~ whole dmax (spacing (t_x g))) /\
  (tbreak g h dmax sepdist inc name k d = Err ValueError <-> spacing (t_x g) = 0 \/ ~ whole dmax (spacing (t_x g)) \/ ~ whole sepdist (spacing (t_x g))) /\
  (forall e, maxus g h dmax inc name k d = Err e \/ tbreak g h dmax sepdist inc name k d = Err e -> e = ValueError).
Proof.
  intros g h dmax sepdist inc name k d Hi. change (spacing (t_x g)) with (t_dx g) in *; change (spacing (t_y g)) with (t_dy g) in *. unfold maxus, tbreak, all_angles. destruct (Z.eqb_spec inc 0) as [E|_]; [tauto|]. cbn [bind].
  pose proof (uneven_spec dmax (t_dx g)) as U1. pose proof (uneven_spec sepdist (t_dx g)) as U2.
  destruct (uneven dmax (t_dx g)), (uneven sepdist (t_dx g)); cbn [orb]; split.
  1,3,5,7: split; intros H; try reflexivity; try discriminate H; try (now apply U1); exfalso; apply U1 in H; discriminate H.
  - split; [|intros e [H|H]; congruence]. split; intros H; [|reflexivity]. assert (t_dx g = 0 \/ ~ whole dmax (t_dx g)) by (now apply U1). tauto.
  - split; [|intros e [H|H]; congruence]. split; intros H; [|reflexivity]. assert (t_dx g = 0 \/ ~ whole dmax (t_dx g)) by (now apply U1). tauto.
  - split; [|intros e [H|H]; congruence]. split; intros H; [|reflexivity]. assert (t_dx g = 0 \/ ~ whole sepdist (t_dx g)) by (now apply U2). tauto.
  - split; [|intros e [H|H]; congruence]. split; intros H; [discriminate H|]. exfalso.
    destruct H as [H|[H|H]]; [|assert (X : false = true) by (apply U1; now right); discriminate X|assert (X : false = true) by (apply U2; now right); discriminate X].
    assert (X : false = true) by (apply U1; now left). discriminate X.
Qed.
Print Assumptions C86_refused.

(** C86: with an instrument above the ground every break is a number, less than 179 degrees either way *)
Theorem C86_range : forall g h angle dmax sepdist c, 0 < h ->
  fits c (end_cell (spacing (t_x g)) (spacing (t_y g)) dmax (IZR angle) c) -> fits c (end_cell (spacing (t_x g)) (spacing (t_y g)) sepdist (IZR angle) c) ->
  inside (t_nx g) (t_ny g) c -> monotone (t_nx g) (t_x g) -> monotone (t_ny g) (t_y g) ->
  exists o l, maxus_angle g h angle dmax c = Some (F o) /\ maxus_angle g h angle sepdist c = Some (F l) /\
    tbreak_angle g h angle dmax sepdist c = Some (F (l - o)) /\ -179 < l - o < 179.
Proof. exact tbreak_range. Qed.
Print Assumptions C86_range.

(** C86: from the ground and along a row or a column the longer search never sees less, so a break is never positive, unless
    the ground nearby drops by more than 89 degrees (such a slope is taken for 0) *)
Theorem C86_cardinal : forall g angle dmax sepdist c, 0 < spacing (t_x g) -> 0 < spacing (t_y g) -> cardinal angle -> 0 <= sepdist <= dmax ->
  let far := end_cell (spacing (t_x g)) (spacing (t_y g)) dmax (IZR angle) c in
  let near := end_cell (spacing (t_x g)) (spacing (t_y g)) sepdist (IZR angle) c in
  fits c far -> inside (t_nx g) (t_ny g) c -> monotone (t_nx g) (t_x g) -> monotone (t_ny g) (t_y g) ->
  tbreak_angle g 0 angle dmax sepdist c = Some Nan \/
  exists v, tbreak_angle g 0 angle dmax sepdist c = Some (F v) /\
    (v <= 0 \/
     0 < v < 89 /\ forall k, (0 < k < Z.to_nat 500)%nat -> (Z.of_nat k <= steps c near)%Z -> inside (t_nx g) (t_ny g) (line_cell c near (Z.of_nat k)) ->
       atan (view 0 (cell_place (t_x g) (t_y g) (t_dem g) c) (cell_place (t_x g) (t_y g) (t_dem g) (line_cell c near (Z.of_nat k)))) / c_pi * 180 <= -89).
Proof. exact tbreak_cardinal. Qed.
Print Assumptions C86_cardinal.

(** C86: with the default instrument height that is false: the longer search may give up a steeper slope it would have
    found on a shorter way *)
Theorem C86_longer_sees_more_refuted :
  ~ (forall g h angle dmax sepdist c v l, 0 < h -> 0 < spacing (t_x g) -> 0 < spacing (t_y g) -> cardinal angle -> 0 <= sepdist <= dmax ->
       whole dmax (spacing (t_x g)) -> whole sepdist (spacing (t_x g)) ->
       fits c (end_cell (spacing (t_x g)) (spacing (t_y g)) dmax (IZR angle) c) -> inside (t_nx g) (t_ny g) c ->
       monotone (t_nx g) (t_x g) -> monotone (t_ny g) (t_y g) ->
       maxus_angle g h angle sepdist c = Some (F l) -> -45 < l < 0 ->
       tbreak_angle g h angle dmax sepdist c = Some (F v) -> v <= 0).
Proof.
  intros H. destruct terrace_values as (E3 & E5 & (B1 & B2) & B3).
  specialize (H terrace 2 90%Z (IZR 5) (IZR 3) (0, 0)%Z (atan (-2 / 3) / c_pi * 180 - atan (-4 / 5) / c_pi * 180) (atan (-2 / 3) / c_pi * 180)).
  change (spacing (t_x terrace)) with (t_dx terrace) in H. change (spacing (t_y terrace)) with (t_dy terrace) in H.
  rewrite terrace_end in H by lia. rewrite terrace_dx, terrace_dy in H.
  assert (X : atan (-2 / 3) / c_pi * 180 - atan (-4 / 5) / c_pi * 180 <= 0); [|lra]. apply H; try lra.
  - unfold cardinal. lia.
  - exists 5%Z. ring.
  - exists 3%Z. ring.
  - unfold fits. cbn [fst snd]. lia.
  - unfold inside. cbn [fst snd terrace t_nx t_ny]. lia.
  - apply terrace_monotone.
  - apply terrace_monotone.
  - exact E3.
  - unfold tbreak_angle. rewrite E3, E5. apply f_equal, fsub_fin.
Qed.
Print Assumptions C86_longer_sees_more_refuted.

(** C86: an unfinished file is accepted by the windowing, which averages over the part of the window that was done *)
Theorem C86_window_of_unfinished : forall inc q d k f kd attrs val c,
  (0 < inc -> 360 mod inc = 0 -> 0 <= q -> q * inc < 360 -> 0 <= d < 360 -> d mod inc = 0 ->
  holds f kd attrs inc k (fun e c => Some (F (val e c))) ->
  exists sel, NoDup sel /\
    (forall e, In e sel <-> (0 <= e < 360 /\ e mod inc = 0) /\
       (Z.abs (e - d) <= q * inc \/ d + 360 - e <= q * inc \/ (e + 360 - d <= q * inc /\ e <> 0)) /\ e < inc * Z.of_nat k) /\
    window_value inc (2 * q * inc) d f c =
      match sel with [] => None | _ => Some (F (fold_right Rplus 0 (map (fun e => val e c) sel) / INR (length sel))%R) end)%Z.
Proof. exact window_unfinished. Qed.
Print Assumptions C86_window_of_unfinished.

(** a terrace with three directions out of 72 done: the record of the east (90 degrees, number 18) is still empty; all of
    them done: the break there is positive *)
Example C86_case : exists d3 f3 d72 f72 v,
  tbreak terrace 2 5 3 5 "tbreak.nc" 3 (fun _ => None) = Ok d3 /\ d3 "tbreak.nc"%string = Some f3 /\ f_vals f3 18 (0, 0)%Z = Fill /\
  tbreak terrace 2 5 3 5 "tbreak.nc" 72 (fun _ => None) = Ok d72 /\ d72 "tbreak.nc"%string = Some f72 /\
  f_vals f72 18 (0, 0)%Z = Stored (Some (F v)) /\ 0 < v /\
  tbreak terrace 2 5 (1 / 2) 5 "tbreak.nc" 72 (fun _ => None) = Err ValueError.
Proof.
  assert (P : 0 < t_dx terrace) by (rewrite terrace_dx; lra).
  assert (W5 : whole 5 (t_dx terrace)) by (exists 5%Z; rewrite terrace_dx; lra).
  assert (W3 : whole 3 (t_dx terrace)) by (exists 3%Z; rewrite terrace_dx; lra).
  destruct (C86_tbreak_file terrace 2 5 3 5 "tbreak.nc" 3 (fun _ => None) ltac:(lia) P W5 W3) as (d3 & f3 & v3 & A1 & A2 & _ & (_ & _ & _ & _ & _ & A6) & _).
  destruct (C86_tbreak_file terrace 2 5 3 5 "tbreak.nc" 72 (fun _ => None) ltac:(lia) P W5 W3) as (d72 & f72 & v72 & B1 & B2 & _ & (_ & _ & B3 & _ & B5 & _) & B7).
  destruct terrace_values as (E3 & E5 & (Q1 & Q2) & Q3).
  exists d3, f3, d72, f72, (atan (-2 / 3) / c_pi * 180 - atan (-4 / 5) / c_pi * 180).
  split; [exact A1|]. split; [exact A2|]. split; [apply A6; lia|]. split; [exact B1|]. split; [exact B2|]. split; [|split; [lra|]].
  - rewrite B5 by (cbv zeta in B3; lia). f_equal. change (5 * Z.of_nat 18)%Z with 90%Z. apply B7; [exact E3|exact E5].
  - destruct (C86_refused terrace 2 5 (1 / 2) 5 "tbreak.nc" 72 (fun _ => None) ltac:(lia)) as (_ & R & _). apply R. right. right.
    intros (n & N). change (spacing (t_x terrace)) with (t_dx terrace) in N. rewrite terrace_dx in N. assert (0 < IZR n < 1) by lra. destruct H as (H1 & H2). apply lt_IZR in H1. apply lt_IZR in H2. lia.
Qed.
