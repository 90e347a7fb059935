(** Kriging properties C24-C26, C28 (detrended kriging part), C61-C63. *)
From Coq Require Import List Arith Bool ZArith QArith Qcanon Sorted Lia.
From Verif Require Import Num KrigeModel KrigeSpec LuProofs KrigeProofs DkModel DkSpec DkProofs.
Import ListNotations.
Local Open Scope Qc_scope.

(** matrices for the examples *)
Definition rows (l : list (list Qc)) : nat -> nat -> Qc := fun i j => nth j (nth i l []) 0.

(** ** C24 the solver; column n of the input is the right-hand side *)
Theorem C24_solution n A x : (forall r, (r < n)%nat -> 0 <= A r n) -> lusolv n A = Some x ->
  solves n A (fun r => A r n) x.
Proof. exact (lusolv_solves n A x). Qed.
Print Assumptions C24_solution.

Theorem C24_only_solution n A x : (forall r, (r < n)%nat -> 0 <= A r n) -> lusolv n A = Some x ->
  forall y, solves n A (fun r => A r n) y -> forall i, (i < n)%nat -> y i = x i.
Proof.
  intros Hb E y Hy. pose proof (lusolv_solves n A x Hb E) as Hx.
  assert (NS : nonsingular n A).
  { unfold lusolv in E. destruct (ludcmp n A) as [s|] eqn:El; [|discriminate].
    exact (lu_nonsingular n A s (ludcmp_some n A s El)). }
  exact (proj2 (NS _) y x Hy Hx).
Qed.
Print Assumptions C24_only_solution.

(** it reports failure exactly on the singular systems, whatever the right-hand side *)
Theorem C24_failure n A : lusolv n A = None <-> ~ nonsingular n A.
Proof. exact (lusolv_fails n A). Qed.
Print Assumptions C24_failure.

Theorem C24_negative_rhs_refuted :
  exists n A x, nonsingular n A /\ lusolv n A = Some x /\ ~ solves n A (fun r => A r n) x.
Proof.
  set (A := rows [[q 4 1; q 1 1; q (-4) 1]; [q 1 1; q 4 1; q 3 1]]).
  assert (X : option_map (fun x => (this (x 0%nat), this (x 1%nat))) (lusolv 2 A) = Some ((-6 # 5)%Q, (4 # 5)%Q)) by (vm_compute; reflexivity).
  destruct (lusolv 2 A) as [x|] eqn:E; [|discriminate X].
  exists 2%nat, A, x. split; [|split; [exact E|]].
  - unfold lusolv in E. destruct (ludcmp 2 A) as [s|] eqn:El; [|discriminate].
    exact (lu_nonsingular 2 A s (ludcmp_some 2 A s El)).
  - intros H. specialize (H 1%nat ltac:(repeat constructor)).
    injection X as X0 X1. apply this_eq in H. unfold sum, sumr in H.
    rewrite ?this_plus, ?this_mult, X0, X1 in H. vm_compute in H. discriminate.
Qed.
Print Assumptions C24_negative_rhs_refuted.

Example C24_ex : (* a zero in the corner, so rows are exchanged *)
  option_map (fun x => map (fun i => this (x i)) (seq 0 3))
    (lusolv 3 (rows [[0; q 2 1; 1; q 3 1]; [1; 0; q 2 1; 0]; [q 4 1; 1; 1; 0]]))
  = Some [(-2 # 5)%Q; (7 # 5)%Q; (1 # 5)%Q].
Proof. vm_compute. reflexivity. Qed.
Example C24_singular_ex : lusolv 2 (rows [[1; q 2 1; 1]; [q 2 1; q 4 1; 1]]) = None.
Proof. vm_compute. reflexivity. Qed.

(** ** C25 the weights of one cell *)
Theorem C25_weights nsta ad d elev w :
  (forall m, (m < nsta)%nat -> 0 <= d m) -> krige nsta ad d elev = Weights w ->
  exists K, gives_up ad d elev (seq 0 nsta) K /\ Sorted lt K /\ K <> [] /\ incl K (seq 0 nsta) /\
    nonsingular (S (length K)) (kriging_system ad K) /\
    kriging_weights ad d K w /\ (forall m, ~ In m K -> w m = 0) /\
    (forall m, In m K -> w m < 0 -> elev m <= 0) /\
    (forall m, (m < nsta)%nat -> ~ In m K -> 0 < elev m) /\
    sum_over (seq 0 nsta) w = 1.
Proof. exact (krige_weights nsta ad d elev w). Qed.
Print Assumptions C25_weights.

Theorem C25_nonnegative nsta ad d elev w :
  (forall m, (m < nsta)%nat -> 0 <= d m /\ 0 < elev m) -> krige nsta ad d elev = Weights w ->
  forall m, (m < nsta)%nat -> 0 <= w m.
Proof. exact (krige_nonneg nsta ad d elev w). Qed.
Print Assumptions C25_nonnegative.

(** the loop ends, and when no weights are returned one of the station sets reached is singular *)
Theorem C25_no_weights nsta ad d elev : (forall m, (m < nsta)%nat -> 0 <= d m) ->
  krige nsta ad d elev = Exit \/ (exists w, krige nsta ad d elev = Weights w).
Proof.
  intros Hd. pose proof (krige_spec nsta ad d elev Hd) as H. destruct (krige nsta ad d elev); eauto. contradiction.
Qed.
Print Assumptions C25_no_weights.
Theorem C25_exit nsta ad d elev : (forall m, (m < nsta)%nat -> 0 <= d m) -> krige nsta ad d elev = Exit ->
  exists K, gives_up ad d elev (seq 0 nsta) K /\ ~ nonsingular (S (length K)) (kriging_system ad K).
Proof. intros Hd E. pose proof (krige_spec nsta ad d elev Hd) as H. rewrite E in H. exact H. Qed.
Print Assumptions C25_exit.
(** the station sets are determined: any two sequences of discards follow one another *)
Theorem C25_discards_determined ad d elev K K1 K2 : Sorted lt K ->
  gives_up ad d elev K K1 -> gives_up ad d elev K K2 -> gives_up ad d elev K1 K2 \/ gives_up ad d elev K2 K1.
Proof. intros HS H1 H2. exact (gives_up_confluent ad d elev K K1 HS H1 K2 H2). Qed.
Print Assumptions C25_discards_determined.

(** three stations on a line at 0, 3 and 7 *)
Definition line3 : nat -> nat -> Qc := rows [[0; q 3 1; q 7 1]; [q 3 1; 0; q 4 1]; [q 7 1; q 4 1; 0]].
Definition shown (n : nat) (k : kriged) : option (list Q) :=
  match k with Weights w => Some (map (fun i => this (w i)) (seq 0 n)) | _ => None end.
Example C25_ex : (* stations 0 and 2 are discarded in turn *)
  shown 3 (krige 3 line3 (fun i => nth i [q 10 1; q 3 1; q 9 1] 0) (fun i => nth i [q 900 1; q 1000 1; q 1200 1] 0))
  = Some [0%Q; 1%Q; 0%Q].
Proof. vm_compute. reflexivity. Qed.
Example C25_kept_ex :
  shown 3 (krige 3 line3 (fun i => nth i [q 5 1; q 2 1; q 2 1] 0) (fun _ => q 100 1)) = Some [0%Q; (1 # 2)%Q; (1 # 2)%Q].
Proof. vm_compute. reflexivity. Qed.

(** stations at or below elevation zero keep negative weights *)
Theorem C25_below_sea_level_refuted :
  exists nsta ad d elev w m, (forall m, (m < nsta)%nat -> 0 <= d m) /\ krige nsta ad d elev = Weights w /\
    (m < nsta)%nat /\ w m < 0.
Proof.
  set (d := fun i => nth i [q 10 1; q 3 1; q 9 1] 0).
  assert (X : shown 3 (krige 3 line3 d (fun _ => 0)) = Some [(-2 # 3)%Q; (23 # 12)%Q; (-1 # 4)%Q]) by (vm_compute; reflexivity).
  destruct (krige 3 line3 d (fun _ => 0)) as [w| |] eqn:E; [|discriminate X|discriminate X].
  exists 3%nat, line3, d, (fun _ => 0), w, 0%nat. split; [|split; [exact E|split; [repeat constructor|]]].
  - intros m Hm. destruct m as [|[|[|m]]]; [vm_compute; discriminate|vm_compute; discriminate|vm_compute; discriminate|lia].
  - cbn [shown map seq] in X. injection X as X0 _ _. unfold Qclt. rewrite X0. reflexivity.
Qed.
Print Assumptions C25_below_sea_level_refuted.

(** ** C61 two stations at the same place end the process *)
Theorem C61_colocated_stations nsta ad d elev i j : colocated nsta ad i j -> krige nsta ad d elev = Exit.
Proof. exact (colocated_exit nsta ad d elev i j). Qed.
Print Assumptions C61_colocated_stations.
Example C61_ex : exists ad, colocated 3 ad 0 2 /\ ad 0%nat 1%nat <> 0.
Proof.
  exists (rows [[0; q 3 1; 0]; [q 3 1; 0; q 3 1]; [0; q 3 1; 0]]). split; [|vm_compute; discriminate].
  split; [repeat constructor|]. split; [repeat constructor|]. split; [discriminate|].
  intros n Hn. destruct n as [|[|[|n]]]; [reflexivity|reflexivity|reflexivity|lia].
Qed.

(** ** C62 a cell at a station takes that station's value *)
Theorem C62_cell_at_station nsta ad d elev m0 : (m0 < nsta)%nat ->
  (forall m, (m < nsta)%nat -> d m = ad m m0 /\ 0 <= d m) -> krige nsta ad d elev <> Exit ->
  exists w, krige nsta ad d elev = Weights w /\ forall m, w m = if Nat.eqb m m0 then 1 else 0.
Proof. exact (exact_at_station nsta ad d elev m0). Qed.
Print Assumptions C62_cell_at_station.
Theorem C62_detrended_kriging k hist s data s' v c i :
  distance_table (dk_sdist k) -> length (dk_mz k) = length data -> data <> [] ->
  dk_run k dk_init hist = Some s -> dk_calculate k s data = Some (s', v) ->
  (i < length (reports (dk_mz k) data))%nat ->
  (c < length (dk_gz k))%nat ->
  (forall m, (m < length data)%nat -> dk_gdist k c m = dk_sdist k m (station_at data i)) ->
  nth c (dk_gz k) 0 = nth (station_at data i) (dk_mz k) 0 ->
  nth (station_at data i) data None = Some (nth c v 0).
Proof.
  intros (Sy & S0 & Sp) HL ND Hr Hc Hi Hlt Hd Hgz.
  rewrite (history_fresh k hist s data Hr ND) in Hc.
  pose proof (reports_nth (dk_mz k) data HL i Hi) as R.
  assert (E : nth c v 0 = snd (nth i (reports (dk_mz k) data) (0, 0))).
  { apply (dk_exact_station k data s' v c i HL ND Sy S0 Sp Hi); auto.
    - intros m Hm. rewrite dk_idx_station. exact (Hd m Hm).
    - rewrite R. exact Hgz. }
  rewrite R in E. cbn [snd] in E. rewrite E.
  assert (I : In (station_at data i) (reporting data)).
  { unfold station_at. apply nth_In. rewrite <- kept_reporting. unfold kept. rewrite kept_values, <- (reports_length (dk_mz k)); auto. }
  unfold reporting in I. apply filter_In in I. destruct I as (_ & I).
  destruct (nth (station_at data i) data None) as [y|]; [reflexivity|discriminate].
Qed.
Print Assumptions C62_detrended_kriging.
Example C62_ex :
  shown 3 (krige 3 line3 (fun m => line3 m 1%nat) (fun _ => q 100 1)) = Some [0%Q; 1%Q; 0%Q].
Proof. vm_compute. reflexivity. Qed.

(** ** C26 the cached weights *)
Theorem C26_history_free k hist s data : dk_run k dk_init hist = Some s -> data <> [] ->
  dk_calculate k s data = dk_calculate k dk_init data.
Proof. exact (history_fresh k hist s data). Qed.
Print Assumptions C26_history_free.

Theorem C26_value_of_a_call k hist s data s' v c :
  distance_table (dk_sdist k) -> (forall c i, 0 <= dk_gdist k c i) ->
  length (dk_mz k) = length data -> data <> [] ->
  dk_run k dk_init hist = Some s -> dk_calculate k s data = Some (s', v) -> (c < length (dk_gz k))%nat ->
  let pts := reports (dk_mz k) data in
  let line := constrain (dk_slope k) (dk_fit k (map fst pts) (map snd pts)) in
  length v = length (dk_gz k) /\
  exists w K, Sorted lt K /\ K <> [] /\ incl K (seq 0 (length pts)) /\
    kriging_weights (between (dk_sdist k) data) (fun i => dk_gdist k c (station_at data i)) K w /\
    (forall m, ~ In m K -> w m = 0) /\
    (forall m, In m K -> w m < 0 -> fst (nth m pts (0, 0)) <= 0) /\
    nth c v 0 = sum_over K
        (fun i => w i * (snd (nth i pts (0, 0)) - (fst line * fst (nth i pts (0, 0)) + snd line)))
      + (fst line * nth c (dk_gz k) 0 + snd line).
Proof. exact (dk_call k hist s data s' v c). Qed.
Print Assumptions C26_value_of_a_call.

(** ** C28 trends of detrended kriging *)
Theorem C28_dk_trend flag line :
  (allowed flag (fst line) -> constrain flag line = line) /\
  (~ allowed flag (fst line) -> constrain flag line = (0, 0)).
Proof. exact (constrain_spec flag line). Qed.
Print Assumptions C28_dk_trend.

Theorem C28_dk_linear k data hist s s' v c a b :
  length (dk_mz k) = length data -> data <> [] ->
  (forall c i, 0 <= dk_gdist k c i) ->
  least_squares (reports (dk_mz k) data) (dk_fit k (map fst (reports (dk_mz k) data)) (map snd (reports (dk_mz k) data))) ->
  two_heights (reports (dk_mz k) data) ->
  (forall p, In p (reports (dk_mz k) data) -> snd p = a * fst p + b) -> allowed (dk_slope k) a ->
  dk_run k dk_init hist = Some s -> dk_calculate k s data = Some (s', v) -> (c < length (dk_gz k))%nat ->
  nth c v 0 = a * nth c (dk_gz k) 0 + b.
Proof.
  intros HL ND Hd LS TH Hex Hal Hr Hc Hlt. rewrite (history_fresh k hist s data Hr ND) in Hc.
  exact (dk_linear k data s' v c a b HL ND Hd LS TH Hex Hal Hc Hlt).
Qed.
Print Assumptions C28_dk_linear.

(** with stations above sea level the residuals are averaged, never extrapolated *)
Theorem C28_dk_residual_bounds k data hist s s' v c l h :
  length (dk_mz k) = length data -> data <> [] ->
  (forall c i, 0 <= dk_gdist k c i) -> (forall z, In z (dk_mz k) -> 0 < z) ->
  let pts := reports (dk_mz k) data in
  let line := constrain (dk_slope k) (dk_fit k (map fst pts) (map snd pts)) in
  (forall p, In p pts -> l <= snd p - (fst line * fst p + snd line) /\ snd p - (fst line * fst p + snd line) <= h) ->
  dk_run k dk_init hist = Some s -> dk_calculate k s data = Some (s', v) -> (c < length (dk_gz k))%nat ->
  l <= nth c v 0 - (fst line * nth c (dk_gz k) 0 + snd line) /\
  nth c v 0 - (fst line * nth c (dk_gz k) 0 + snd line) <= h.
Proof.
  intros HL ND Hd Hz pts line Hb Hr Hc Hlt. rewrite (history_fresh k hist s data Hr ND) in Hc.
  exact (dk_residual_bounds k data s' v c l h HL ND Hd Hz Hb Hc Hlt).
Qed.
Print Assumptions C28_dk_residual_bounds.

(** an exact straight line as the fit of the examples: slope and intercept of the normal equations *)
Definition qsum (l : list Qc) : Qc := fold_right Qcplus 0 l.
Definition fit (z y : list Qc) : Qc * Qc :=
  let n := q (Z.of_nat (length z)) 1 in
  let sz := qsum z in let sy := qsum y in
  let szz := qsum (map (fun x => x * x) z) in
  let szy := qsum (map (fun p => fst p * snd p) (combine z y)) in
  let a := (n * szy - sz * sy) / (n * szz - sz * sz) in
  (a, (sy - a * sz) / n).
Definition k3 : dk := mkDk [q 1000 1; q 1500 1; q 2300 1] line3
  (fun c i => nth i (nth c [[q 5 1; q 2 1; q 2 1]; [q 3 1; 0; q 4 1]] []) 0) [q 1800 1; q 1500 1] (-1) fit.
Example C26_ex : (* the second call has one station less, the third all of them again *)
  match dk_run k3 dk_init [[Some (q 5 1); Some (q 2 1); Some (q (-4) 1)]; [Some (q 5 1); None; Some (q (-4) 1)]] with
  | Some s => option_map (fun r => map this (snd r)) (dk_calculate k3 s [Some (q 5 1); Some (q 2 1); Some (q (-2) 1)])
  | None => None
  end = Some [(23 # 43)%Q; 2%Q].
Proof. vm_compute. reflexivity. Qed.
Example C28_ex : (* linear data with a lapse rate of -1/100, the middle station missing *)
  option_map (fun r => map this (snd r)) (dk_calculate k3 dk_init [Some (q 5 1); None; Some (q (-8) 1)])
  = Some [(-3)%Q; 0%Q] /\
  two_heights (reports (dk_mz k3) [Some (q 5 1); None; Some (q (-8) 1)]) /\
  least_squares (reports (dk_mz k3) [Some (q 5 1); None; Some (q (-8) 1)])
    (dk_fit k3 (map fst (reports (dk_mz k3) [Some (q 5 1); None; Some (q (-8) 1)]))
               (map snd (reports (dk_mz k3) [Some (q 5 1); None; Some (q (-8) 1)]))).
Proof.
  split; [vm_compute; reflexivity|]. split.
  - exists (q 1000 1, q 5 1), (q 2300 1, q (-8) 1). split; [now left|]. split; [right; now left|]. vm_compute. discriminate.
  - apply normal_least; apply Qc_is_canon; vm_compute; reflexivity.
Qed.
Example C28_forbidden_ex : (* temperature rising with height is not allowed with slope -1 *)
  constrain (-1) (q 1 2, q 3 1) = (0, 0) /\ constrain 1 (q 1 2, q 3 1) = (q 1 2, q 3 1).
Proof. vm_compute. auto. Qed.

(** ** C63 the stations option of a variable *)
Theorem C63_stations_option_ignored {A} (sort : list A -> list A) config metadata :
  initialize_stations (fst (get_stations sort config)) metadata = metadata.
Proof. exact (stations_ignored sort config metadata). Qed.
Print Assumptions C63_stations_option_ignored.
Theorem C63_selects_stations_refuted :
  ~ (forall (sort : list nat -> list nat) l metadata, (forall x, sort x = x) -> incl l metadata ->
      initialize_stations (fst (get_stations sort (Some (Some l)))) metadata = l).
Proof.
  intros H. specialize (H (fun x => x) [1%nat] [1%nat; 2%nat] (fun x => eq_refl)).
  assert (I : incl [1%nat] [1%nat; 2%nat]) by (intros x [<-|[]]; now left).
  discriminate (H I).
Qed.
Print Assumptions C63_selects_stations_refuted.
