(** Interpolation of station readings to the grid: C27, C28, C64. *)
From Coq Require Import Reals List Bool Lia Lra.
From Verif Require Import RNum SpatModel SpatSpec SpatProofs.
Import ListNotations.
Local Open Scope R_scope.

(** C27: away from the reporting stations a cell holds the inverse distance weighted mean *)
Theorem C27_inverse_distance : forall p sta cells data c,
  0 < p -> (c < length cells)%nat -> readings sta data <> [] ->
  (forall x, In x (readings sta data) -> fst x <> nth c cells (0, 0)) ->
  nth c (calculate_idw p sta cells data) Nan = F (inverse_distance p (readings sta data) (nth c cells (0, 0))).
Proof. intros. rewrite idw_nth by assumption. now apply cell_away. Qed.
Print Assumptions C27_inverse_distance.

(** C27: which lies within the range of the readings, so constant readings are reproduced *)
Theorem C27_bounds : forall p sta cells data c lo hi,
  0 < p -> (c < length cells)%nat -> readings sta data <> [] ->
  (forall x, In x (readings sta data) -> fst x <> nth c cells (0, 0)) ->
  (forall x, In x (readings sta data) -> lo <= snd x <= hi) ->
  exists v, nth c (calculate_idw p sta cells data) Nan = F v /\ lo <= v <= hi.
Proof.
  intros. eexists. split; [now apply C27_inverse_distance|]. now apply inverse_distance_bounds.
Qed.
Print Assumptions C27_bounds.

(** C27: a station that does not report has no influence at all *)
Theorem C27_missing_stations : forall p sta cells data,
  calculate_idw p sta cells data =
  calculate_idw p (map fst (readings sta data)) cells (map (fun x => Some (snd x)) (readings sta data)).
Proof. exact idw_missing. Qed.
Print Assumptions C27_missing_stations.

Theorem C27_no_reading : forall p sta cells data, readings sta data = [] ->
  calculate_idw p sta cells data = map (fun _ => Nan) cells.
Proof. exact idw_none. Qed.
Print Assumptions C27_no_reading.

(** C27: a cell at the very place of a reporting station holds NaN, or 0 if every reading there is 0 *)
Theorem C27_cell_at_station : forall p sta cells data c,
  0 < p -> (c < length cells)%nat ->
  (exists x, In x (readings sta data) /\ fst x = nth c cells (0, 0)) ->
  ((forall x, In x (readings sta data) -> fst x = nth c cells (0, 0) -> snd x = 0) ->
     nth c (calculate_idw p sta cells data) Nan = F 0) /\
  ((exists x, In x (readings sta data) /\ fst x = nth c cells (0, 0) /\ snd x <> 0) ->
     nth c (calculate_idw p sta cells data) Nan = Nan).
Proof. intros. rewrite idw_nth by assumption. now apply cell_at. Qed.
Print Assumptions C27_cell_at_station.

(** C27: the configuration accepts any power.  With power zero every cell, at a station or not, holds the
    plain mean of the readings. *)
Theorem C27_power_zero : forall sta cells data c, (c < length cells)%nat -> readings sta data <> [] ->
  nth c (calculate_idw 0 sta cells data) Nan =
  F (rsum (map snd (readings sta data)) / INR (length (readings sta data))).
Proof. intros. rewrite idw_nth by assumption. now apply cell_mean. Qed.
Print Assumptions C27_power_zero.
(** With a negative power the far stations count most, and a station at the cell does not count at all. *)
Theorem C27_power_negative : forall p sta cells data c,
  p < 0 -> (c < length cells)%nat -> away (nth c cells (0, 0)) (readings sta data) <> [] ->
  nth c (calculate_idw p sta cells data) Nan =
  F (inverse_distance p (away (nth c cells (0, 0)) (readings sta data)) (nth c cells (0, 0))).
Proof. intros. rewrite idw_nth by assumption. now apply cell_negative. Qed.
Print Assumptions C27_power_negative.
(** Two stations reporting 1 and 3: their mean, also at the first of them. *)
Example C27_case_power_zero : nth 0 (calculate_idw 0 [(0, 0); (1, 0)] [(0, 0)] [Some 1; Some 3]) Nan = F 2.
Proof. rewrite C27_power_zero; [f_equal; simpl; lra | simpl; lia | discriminate]. Qed.

(** C27: the natural claim that interpolation reproduces a station's reading at its own place fails *)
Theorem C27_exact_at_stations_refuted :
  ~ (forall p sta cells data c x, 0 < p -> (c < length cells)%nat ->
       In x (readings sta data) -> fst x = nth c cells (0, 0) ->
       nth c (calculate_idw p sta cells data) Nan = F (snd x)).
Proof.
  intros H. specialize (H 2 [(0, 0)] [(0, 0)] [Some 5] 0%nat ((0, 0), 5) ltac:(lra) ltac:(simpl; lia) ltac:(now left) eq_refl).
  destruct (C27_cell_at_station 2 [(0, 0)] [(0, 0)] [Some 5] 0%nat) as (_ & N); [lra|simpl; lia| |].
  - exists ((0, 0), 5). split; [now left|reflexivity].
  - rewrite N in H; [discriminate|]. exists ((0, 0), 5). split; [now left|]. split; [reflexivity|]. simpl. lra.
Qed.
Print Assumptions C27_exact_at_stations_refuted.

(** C28: readings on a line in elevation whose slope the configuration allows give that line at every
    cell, also at the stations; [np.polyfit] enters only as a least-squares fit *)
Theorem C28_idw_linear : forall fit flag p sta mz cells gz data c line,
  0 < p -> length sta = length data -> length mz = length data -> length gz = length cells -> (c < length cells)%nat ->
  least_squares (profile mz data) (fit (profile mz data)) -> two_heights (profile mz data) ->
  (forall q, In q (profile mz data) -> snd q = on_line line (fst q)) ->
  match flag with Positive => 0 <= fst line | Negative => fst line <= 0 | Any => True end ->
  nth c (detrended_idw fit flag p sta mz cells gz data) Nan = F (on_line line (nth c gz 0)).
Proof. exact detrended_idw_line. Qed.
Print Assumptions C28_idw_linear.

(** C28: a fitted slope of the wrong sign is dropped: plain interpolation *)
Theorem C28_idw_discarded : forall fit flag p sta mz cells gz data,
  length mz = length data -> length gz = length cells ->
  match flag with Positive => fst (fit (profile mz data)) < 0 | Negative => 0 < fst (fit (profile mz data)) | Any => False end ->
  detrended_idw fit flag p sta mz cells gz data = calculate_idw p sta cells data.
Proof. exact idw_discarded. Qed.
Print Assumptions C28_idw_discarded.

(** C28: an allowed slope is kept, and cells away from the stations leave the trend by no more than
    the stations do *)
Theorem C28_idw_residual_bounds : forall fit flag p sta mz cells gz data c lo hi,
  let line := fit (profile mz data) in
  0 < p -> length sta = length data -> length mz = length data -> length gz = length cells -> (c < length cells)%nat ->
  profile mz data <> [] ->
  match flag with Positive => 0 <= fst line | Negative => fst line <= 0 | Any => True end ->
  (forall x, In x (readings sta data) -> fst x <> nth c cells (0, 0)) ->
  (forall q, In q (profile mz data) -> lo <= snd q - on_line line (fst q) <= hi) ->
  exists v, nth c (detrended_idw fit flag p sta mz cells gz data) Nan = F v /\
    lo <= v - on_line line (nth c gz 0) <= hi.
Proof.
  intros fit flag p sta mz cells gz data c lo hi line Hp H1 H2 H3 Hc Hn Hal Haway Hb.
  assert (T : trend fit flag mz data = line).
  { unfold trend. rewrite reported_profile. now apply constrain_spec. }
  rewrite <- T in *. now apply detrended_idw_away.
Qed.
Print Assumptions C28_idw_residual_bounds.

(** C28, gridded data: the value of a node of the triangulation is reproduced, whatever the trend *)
Theorem C28_grid_exact : forall fit griddata flag mask mz gz data c i,
  length mz = length data -> (i < length data)%nat -> (c < length gz)%nat ->
  (forall v, length v = length data -> length (griddata v) = length gz /\ nth c (griddata v) Nan = F (nth i v 0)) ->
  nth c gz 0 = nth i mz 0 ->
  nth c (detrended_grid fit griddata flag mask mz gz data) Nan = F (nth i data 0).
Proof. exact grid_exact. Qed.
Print Assumptions C28_grid_exact.

Theorem C28_grid_linear : forall fit griddata flag mask mz gz data c line,
  length mz = length data -> (c < length gz)%nat ->
  least_squares (select mask (combine mz data)) (fit (select mask (combine mz data))) ->
  two_heights (select mask (combine mz data)) ->
  (forall q, In q (combine mz data) -> snd q = on_line line (fst q)) ->
  match flag with Positive => 0 <= fst line | Negative => fst line <= 0 | Any => True end ->
  (forall v, length v = length data -> length (griddata v) = length gz /\ ((forall x, In x v -> x = 0) -> nth c (griddata v) Nan = F 0)) ->
  nth c (detrended_grid fit griddata flag mask mz gz data) Nan = F (on_line line (nth c gz 0)).
Proof. exact grid_line. Qed.
Print Assumptions C28_grid_linear.

Theorem C28_grid_discarded : forall fit griddata flag mask mz gz data,
  length mz = length data -> length (griddata data) = length gz ->
  match flag with Positive => fst (fit (select mask (combine mz data))) < 0
  | Negative => 0 < fst (fit (select mask (combine mz data))) | Any => False end ->
  detrended_grid fit griddata flag mask mz gz data = griddata data.
Proof. exact grid_discarded. Qed.
Print Assumptions C28_grid_discarded.

(** C28: a station belongs to the masked trend iff the cell nearest to it is in the mask *)
Theorem C28_grid_mask : forall mask xs ys s, xs <> [] -> ys <> [] ->
  exists i j, first_nearest (snd s) ys i /\ first_nearest (fst s) xs j /\ station_mask mask xs ys s = mask i j.
Proof.
  intros mask xs ys s Hx Hy. exists (argmin (snd s) ys), (argmin (fst s) xs).
  split; [now apply argmin_spec|]. split; [now apply argmin_spec|reflexivity].
Qed.
Print Assumptions C28_grid_mask.

(** C28, trends fitted around each node: still exact at the nodes, still exact on linear data *)
Theorem C28_local_exact : forall fit interp flag near n elev data gz c i,
  (i < n)%nat -> (c < length gz)%nat -> first near i = i -> nth c gz 0 = elev i ->
  (forall v, length v = n -> length (interp v) = length gz /\ nth c (interp v) None = Some (nth i v 0)) ->
  nth c (detrended_local fit interp flag near n elev data gz) None = Some (data i).
Proof. exact local_exact. Qed.
Print Assumptions C28_local_exact.

Theorem C28_local_linear : forall fit interp flag near n elev data gz c line,
  (c < length gz)%nat ->
  (forall i, (i < n)%nat -> near i <> [] /\ (forall j, In j (near i) -> (j < n)%nat) /\
     least_squares (map (fun j => (elev j, data j)) (near i)) (fit (map (fun j => (elev j, data j)) (near i))) /\
     two_heights (map (fun j => (elev j, data j)) (near i))) ->
  (forall i, (i < n)%nat -> data i = on_line line (elev i)) ->
  match flag with Positive => 0 <= fst line | Negative => fst line <= 0 | Any => True end ->
  (forall v k, length v = n -> length (interp v) = length gz /\ ((forall x, In x v -> x = k) -> nth c (interp v) None = Some k)) ->
  nth c (detrended_local fit interp flag near n elev data gz) None = Some (on_line line (nth c gz 0)).
Proof. exact local_line. Qed.
Print Assumptions C28_local_linear.

(** C64: with the third-party kriging the trend is never constrained: readings on a line give that
    line whatever sign of slope the configuration demands *)
Theorem C64_krige_trend_unconstrained : forall fit ok flag sta mz gz data c line,
  length mz = length data -> (c < length gz)%nat ->
  least_squares (profile mz data) (fit (profile mz data)) -> two_heights (profile mz data) ->
  (forall q, In q (profile mz data) -> snd q = on_line line (fst q)) ->
  (forall s v, length (ok s v) = length gz /\ ((forall x, In x v -> x = 0) -> nth c (ok s v) 0 = 0)) ->
  nth c (krige_calculate fit ok flag sta mz gz data) 0 = on_line line (nth c gz 0).
Proof. exact krige_line. Qed.
Print Assumptions C64_krige_trend_unconstrained.

(** *** non-vacuity *)
(** three stations, the second silent, one cell away from them *)
Example C27_case : readings [(0, 0); (1, 1); (2, 0)] [Some 4; None; Some 8] <> [] /\
  (forall x, In x (readings [(0, 0); (1, 1); (2, 0)] [Some 4; None; Some 8]) -> fst x <> (1, 0)) /\
  inverse_distance 2 (readings [(0, 0); (1, 1); (2, 0)] [Some 4; None; Some 8]) (1, 0) = 6.
Proof.
  simpl. split; [discriminate|]. split.
  - intros x [<- | [<- | []]]; cbn [fst]; intros [=]; lra.
  - unfold inverse_distance, dist. cbn [map rsum fold_right fst snd].
    replace ((1 - 0) * (1 - 0) + (0 - 0) * (0 - 0)) with 1 by ring.
    replace ((1 - 2) * (1 - 2) + (0 - 0) * (0 - 0)) with 1 by ring.
    rewrite sqrt_1. unfold Rpower. rewrite ln_1, Rmult_0_r, exp_0. field.
Qed.
(** the cell of the silent station is not affected by it *)
Example C27_case_silent : nth 0 (calculate_idw 2 [(0, 0); (1, 0); (2, 0)] [(1, 0)] [Some 4; None; Some 8]) Nan = F 6.
Proof.
  rewrite C27_inverse_distance; [|lra|simpl; lia|simpl; discriminate|].
  - f_equal. apply C27_case.
  - apply C27_case.
Qed.
Example C27_case_at : nth 0 (calculate_idw 2 [(0, 0); (2, 0)] [(0, 0)] [Some 4; Some 8]) Nan = Nan.
Proof.
  apply C27_cell_at_station; [lra|simpl; lia|exists ((0, 0), 4); split; [now left|reflexivity]|].
  exists ((0, 0), 4). split; [now left|]. split; [reflexivity|simpl; lra].
Qed.

(** temperature falling 6 degrees per km: the fit of two points through them *)
Definition two_point_fit (pts : list (R * R)) : R * R :=
  match pts with
  | p :: p' :: _ => let a := (snd p' - snd p) / (fst p' - fst p) in (a, snd p - a * fst p)
  | _ => (0, 0)
  end.
Example C28_case :
  let pts := profile [1; 2; 3] [Some 10; Some 4; None] in
  least_squares pts (two_point_fit pts) /\ two_heights pts /\
  (forall q, In q pts -> snd q = on_line (-6, 16) (fst q)) /\
  nth 0 (detrended_idw two_point_fit Negative 2 [(0, 0); (5, 0); (9, 9)] [1; 2; 3] [(0, 0); (3, 3)] [4; 5] [Some 10; Some 4; None]) Nan = F (-8).
Proof.
  intros pts.
  assert (L : least_squares pts (two_point_fit pts)).
  { intros line'. unfold pts, misfit, on_line. simpl.
    match goal with |- ?a <= ?b => assert (A : a = 0) by field end. rewrite A.
    pose proof (Rle_0_sqr (10 - (fst line' * 1 + snd line'))). pose proof (Rle_0_sqr (4 - (fst line' * 2 + snd line'))).
    unfold Rsqr in *. lra. }
  assert (T : two_heights pts) by (exists (1, 10), (2, 4); simpl; repeat split; auto; lra).
  assert (E : forall q, In q pts -> snd q = on_line (-6, 16) (fst q)).
  { intros q [<- | [<- | []]]; unfold on_line; simpl; lra. }
  split; [exact L|]. split; [exact T|]. split; [exact E|].
  rewrite (C28_idw_linear two_point_fit Negative 2 _ _ _ _ _ 0 (-6, 16)); simpl; auto; try lra; try lia.
  unfold on_line. simpl. f_equal. lra.
Qed.
(** the same readings under the opposite constraint *)
Example C28_case_discarded : detrended_idw two_point_fit Positive 2 [(0, 0); (5, 0)] [1; 2] [(3, 3)] [4] [Some 10; Some 4] =
  calculate_idw 2 [(0, 0); (5, 0)] [(3, 3)] [Some 10; Some 4].
Proof. apply C28_idw_discarded; simpl; auto. unfold Rdiv. replace (2 - 1) with 1 by ring. rewrite Rinv_1. lra. Qed.
(** two nodes, interpolated by taking the first at the first cell *)
Example C28_case_grid :
  nth 0 (detrended_grid two_point_fit (fun v => map F v) Any [true; true] [1; 2] [1; 2] [10; 4]) Nan = F 10.
Proof.
  rewrite (C28_grid_exact two_point_fit (fun v => map F v) Any [true; true] [1; 2] [1; 2] [10; 4] 0 0); simpl; auto; try lia.
  intros v Hv. split; [now rewrite map_length|]. destruct v; [discriminate|reflexivity].
Qed.
Example C28_case_mask : first_nearest 3 [0; 2; 4] 1.
Proof.
  repeat split.
  - simpl; lia.
  - intros [|[|[|j]]] H; simpl in *; try lia; unfold Rabs; repeat destruct Rcase_abs; lra.
  - intros [|j] H; simpl in *; try lia; unfold Rabs; repeat destruct Rcase_abs; lra.
Qed.
Example C28_case_local :
  nth 1 (detrended_local two_point_fit (fun v => map Some v) Any (fun i => match i with O => [0%nat; 1%nat] | _ => [1%nat; 0%nat] end) 2
    (fun i => match i with O => 1 | _ => 2 end) (fun i => match i with O => 10 | _ => 4 end) [1; 2]) None = Some 4.
Proof.
  rewrite (C28_local_exact _ _ _ _ _ _ _ _ 1 1); simpl; auto; try lia.
  intros v Hv. split; [now rewrite map_length|]. destruct v as [|a [|b v]]; try discriminate. reflexivity.
Qed.
(** rising readings under a falling constraint: the kriged field still rises, the IDW field does not *)
Example C64_case :
  nth 0 (krige_calculate two_point_fit (fun _ _ => [0; 0]) Negative [(0, 0); (5, 0)] [1; 2] [3; 4] [Some 4; Some 10]) 0 = 16 /\
  nth 1 (krige_calculate two_point_fit (fun _ _ => [0; 0]) Negative [(0, 0); (5, 0)] [1; 2] [3; 4] [Some 4; Some 10]) 0 = 22.
Proof.
  assert (L : let pts := profile [1; 2] [Some 4; Some 10] in least_squares pts (two_point_fit pts) /\ two_heights pts /\
    forall q, In q pts -> snd q = on_line (6, -2) (fst q)).
  { intros pts. split; [|split].
    - intros line'. unfold pts, misfit, on_line. simpl.
      match goal with |- ?a <= ?b => assert (A : a = 0) by field end. rewrite A.
      pose proof (Rle_0_sqr (4 - (fst line' * 1 + snd line'))). pose proof (Rle_0_sqr (10 - (fst line' * 2 + snd line'))).
      unfold Rsqr in *. lra.
    - exists (1, 4), (2, 10); simpl; repeat split; auto; lra.
    - intros q [<- | [<- | []]]; unfold on_line; simpl; lra. }
  destruct L as (L1 & L2 & L3).
  split; [rewrite (C64_krige_trend_unconstrained _ _ _ _ _ _ _ 0 (6, -2))|rewrite (C64_krige_trend_unconstrained _ _ _ _ _ _ _ 1 (6, -2))];
    auto; unfold on_line; simpl; try lra; auto.
Qed.
