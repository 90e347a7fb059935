(** Property C93: the Python forms of the search line and the horizon scan. *)
From Coq Require Import ZArith List Bool Reals Lia Lra.
From Verif Require Import RNum SpatModel BresModel BresSpec BresProofs HordModel HordSpec HordProofs PyWindModel PyWindSpec PyWindProofs.
Import ListNotations.
Local Open Scope Z_scope.

(** The cells of the line, in order; nothing at all for a line that is steep and goes up one way and down the
    other, or straight down the second coordinate. *)
Theorem C93_line : forall s f,
  (found s f -> bresenham s f = map (fun i => py_cell s f (Z.of_nat i)) (seq 0 (S (Z.to_nat (steps s f))))) /\
  (~ found s f -> bresenham s f = []).
Proof. intros s f. split; [apply line_found|apply line_lost]. Qed.
Print Assumptions C93_line.
Theorem C93_some_path_refuted : ~ (forall s f, bresenham s f <> []).
Proof. intros H. apply (H (0, 1) (0, 0)). apply line_lost. unfold found. cbn [fst snd]. lia. Qed.
Print Assumptions C93_some_path_refuted.

(** These cells go from the start to the end, each a neighbour of the one before, none more than half a cell
    from the true line. *)
Theorem C93_straight : forall s f, let n := steps s f in
  py_cell s f 0 = s /\ py_cell s f n = f /\
  (forall k, 0 < n -> adjacent (py_cell s f k) (py_cell s f (k + 1))) /\
  (forall k, 0 < n ->
     2 * Z.abs ((fst (py_cell s f k) - fst s) * n - k * (fst f - fst s)) <= n /\
     2 * Z.abs ((snd (py_cell s f k) - snd s) * n - k * (snd f - snd s)) <= n).
Proof.
  intros s f n. split; [apply py_0|]. split; [apply py_end|]. split; intros k Hn; [now apply py_adjacent|now apply py_nearest].
Qed.
Print Assumptions C93_straight.

(** Between two cells of the grid less than 500 steps apart the compiled form finds the same cells, unless the
    true line passes exactly between two cells and both coordinates change in the same direction. *)
Theorem C93_same_line : forall nx ny s f, fits s f -> inside nx ny s -> inside nx ny f -> steps s f < 500 -> found s f ->
  (forall k, 0 <= k <= steps s f -> ~ tie s f k) -> find_line nx ny s f = bresenham s f.
Proof.
  intros nx ny s f FT Is If L FD NT. rewrite (line_found s f FD).
  destruct (find_line_spec s f nx ny FT) as (len & E & L1 & L2 & L3 & L4). rewrite E.
  assert (LE : len = Z.to_nat (steps s f)).
  { destruct L4 as [L4|[L4|L4]]; [| lia |].
    - assert (0 <= steps s f) by (unfold steps; lia). lia.
    - exfalso. apply L4. assert (S0 : Z.of_nat len = 0 \/ 0 < steps s f) by lia. destruct S0 as [S0|S0].
      + unfold near, lc. rewrite S0, lc_0. unfold inside in Is. lia.
      + unfold near, lc, line_cell. cbn [fst snd].
        pose proof (rounded_between (Z.of_nat len) (fst f - fst s) _ S0 ltac:(lia)) as (A1 & A2).
        pose proof (rounded_between (Z.of_nat len) (snd f - snd s) _ S0 ltac:(lia)) as (B1 & B2).
        unfold inside in Is, If. destruct (Z_le_dec 0 (fst f - fst s)), (Z_le_dec 0 (snd f - snd s)); lia. }
  rewrite LE. apply map_ext_in. intros i Hi. apply in_seq in Hi. unfold lc. symmetry. apply no_tie. apply NT.
  assert (0 <= steps s f) by (unfold steps; lia). lia.
Qed.
Print Assumptions C93_same_line.
Theorem C93_same_line_refuted : exists nx ny s f, fits s f /\ inside nx ny s /\ inside nx ny f /\ found s f /\
  find_line nx ny s f = [(0, 0); (1, 0); (2, 1)] /\ bresenham s f = [(0, 0); (1, 1); (2, 1)].
Proof.
  exists 5, 5, (0, 0), (2, 1). unfold fits, inside, found. cbn [fst snd].
  split; [lia|]. split; [lia|]. split; [lia|]. split; [lia|]. split; vm_compute; reflexivity.
Qed.
Print Assumptions C93_same_line_refuted.

Example C93_ex_line : bresenham (4, 1) (0, 4) = [(4, 1); (3, 2); (2, 2); (1, 3); (0, 4)] /\
  find_line 6 6 (4, 1) (0, 4) = bresenham (4, 1) (0, 4) /\ bresenham (0, 0) (1, 3) = [(0, 0); (0, 1); (1, 2); (1, 3)] /\
  found (4, 1) (0, 4) /\ found (0, 0) (1, 3) /\ ~ found (0, 3) (1, 0) /\ bresenham (0, 3) (1, 0) = [].
Proof. unfold found. cbn [fst snd]. split; [reflexivity|]. split; [vm_compute; reflexivity|]. split; [reflexivity|]. split; [lia|]. split; [lia|]. split; [lia|reflexivity]. Qed.
Example C93_ex_tie : forall k, ~ tie (4, 1) (0, 4) k.
Proof. intros k (P & _). cbn [fst snd] in P. lia. Qed.

Local Open Scope R_scope.
(** The scan always ends, whatever the points, with a later point for all but the last. *)
Theorem C93_ends : forall h n p, (0 < n)%nat -> exists H, py_hord h n p = Some H /\
  H (n - 1)%nat = (n - 1)%nat /\ forall i, (i < n - 1)%nat -> (i < H i < n)%nat.
Proof.
  intros h n p N. destruct (py_scan_forward h n p N (n - 1) _ ltac:(lia) (start_forward n N)) as (H & E & F1 & F2).
  exists H. split; [exact E|]. split; [exact F1|]. intros i Hi. specialize (F2 i ltac:(lia)). lia.
Qed.
Print Assumptions C93_ends.

(** Along a ray, seen from the ground, it finds the horizon of every point; the compiled form returns the slope
    to the same point. *)
Theorem C93_horizon : forall n p, (0 < n)%nat ->
  distinct n (fun k => place_of (p k)) -> on_ray n (fun k => place_of (p k)) ->
  exists H, py_hord 0 n p = Some H /\ horizons 0 n (fun k => place_of (p k)) H /\
    hord_slope 0 n p = Some (slope 0 (p 0%nat) (p (H 0%nat))).
Proof.
  intros n p N D O.
  destruct (py_best 0 n p N eq_refl D O) as (H & E & L & B & S). exists H. split; [exact E|]. split; [|exact S].
  split; [exact L|]. intros i Hi. destruct (B i Hi) as (B1 & B2). split; [exact B1|]. intros k Hk. specialize (B2 k Hk).
  assert (V : forall j, HordProofs.s p i j = view 0 (place_of (p i)) (place_of (p j))).
  { intros j. unfold HordProofs.s, view, d, z. rewrite run_eq. cbn [place_of at_z]. f_equal. ring. }
  rewrite !V in B2. exact B2.
Qed.
Print Assumptions C93_horizon.

(** points on a straight line to the east *)
Definition east (xz : list (R * R)) (k : nat) : point := let q := nth k xz (0, 0) in mkPoint (fst q) 0 (snd q).
Lemma east_run xz i j : fst (nth i xz (0, 0)) <= fst (nth j xz (0, 0)) ->
  run (east xz i) (east xz j) = fst (nth j xz (0, 0)) - fst (nth i xz (0, 0)).
Proof.
  intros H. unfold run, east. cbn [px py]. set (a := fst (nth j xz (0, 0))) in *. set (b := fst (nth i xz (0, 0))) in *.
  replace (_ + _) with ((a - b) * (a - b)) by ring. apply sqrt_square. lra.
Qed.
Lemma east_ray xz n : (forall i j, (i < j < n)%nat -> fst (nth i xz (0, 0)) < fst (nth j xz (0, 0))) ->
  distinct n (fun k => place_of (east xz k)) /\ on_ray n (fun k => place_of (east xz k)).
Proof.
  intros H. split.
  - intros i j Hij. rewrite <- run_eq, east_run by (left; now apply H). specialize (H i j Hij). lra.
  - intros i j k Hij Hk. rewrite <- !run_eq. rewrite !east_run by (left; apply H; lia). ring.
Qed.

Example C93_ex_ray : let p := east [(0, 0); (1, 2); (2, 3)] in
  distinct 3 (fun k => place_of (p k)) /\ on_ray 3 (fun k => place_of (p k)).
Proof.
  apply east_ray. intros [|[|[|i]]] [|[|[|j]]] Hij; try lia; cbn [nth fst]; lra.
Qed.

(** With an instrument height it need not be the horizon, even on a ray. *)
Theorem C93_instrument_height_refuted : exists h n p, 0 < h /\ (0 < n)%nat /\
  distinct n (fun k => place_of (p k)) /\ on_ray n (fun k => place_of (p k)) /\
  forall H, py_hord h n p = Some H -> ~ horizons h n (fun k => place_of (p k)) H.
Proof.
  set (xz := [(0, 0); (10, 10); (11, 23 / 2); (100, 10)]).
  exists 2, 4%nat, (east xz). split; [lra|]. split; [lia|].
  assert (M : forall i j, (i < j < 4)%nat -> fst (nth i xz (0, 0)) < fst (nth j xz (0, 0))).
  { intros [|[|[|[|i]]]] [|[|[|[|j]]]] Hij; try lia; unfold xz; cbn [nth fst]; lra. }
  destruct (east_ray xz 4 M) as (D & O). split; [exact D|]. split; [exact O|].
  intros H E (_ & HZ). destruct (HZ 0%nat ltac:(lia)) as (_ & B). specialize (B 2%nat ltac:(lia)). revert B E.
  assert (SL : forall i j, (i < j < 4)%nat -> slope 2 (east xz i) (east xz j) =
            F ((snd (nth j xz (0, 0)) - (2 + snd (nth i xz (0, 0)))) / (fst (nth j xz (0, 0)) - fst (nth i xz (0, 0))))).
  { intros i j Hij. pose proof (M i j Hij). unfold slope. rewrite east_run by lra. unfold fdiv.
    destruct (reqb_spec (fst (nth j xz (0, 0)) - fst (nth i xz (0, 0))) 0); [lra|]. reflexivity. }
  assert (SS : forall i, slope 2 (east xz i) (east xz i) = MInf).
  { intros i. rewrite slope_self. destruct (rltb_spec 2 0); [lra|]. destruct (rltb_spec 0 2); [reflexivity|lra]. }
  set (p := east xz) in *.
  assert (V : slope 2 (p 1%nat) (p 2%nat) = F (- (1 / 2)) /\ slope 2 (p 1%nat) (p 3%nat) = F (- (2 / 90)) /\
              slope 2 (p 0%nat) (p 1%nat) = F (8 / 10) /\ slope 2 (p 0%nat) (p 3%nat) = F (8 / 100)).
  { rewrite !SL by lia. unfold xz. cbn [nth fst snd]. repeat split; f_equal; lra. }
  destruct V as (V12 & V13 & V01 & V03).
  assert (S1 : forall H, H 3%nat = 3%nat -> py_search 4 2 4 p H 2 3 = Some 3%nat).
  { intros G G3. cbn [py_search]. rewrite G3. rewrite (SL 2%nat 3%nat) by lia. cbn [flt].
    destruct (rltb_spec ((snd (nth 3 xz (0, 0)) - (2 + snd (nth 2 xz (0, 0)))) / (fst (nth 3 xz (0, 0)) - fst (nth 2 xz (0, 0))))
                        ((snd (nth 3 xz (0, 0)) - (2 + snd (nth 2 xz (0, 0)))) / (fst (nth 3 xz (0, 0)) - fst (nth 2 xz (0, 0))))) as [Q|_]; [lra|].
    reflexivity. }
  assert (S2 : forall H, H 2%nat = 3%nat -> H 3%nat = 3%nat -> py_search 4 2 4 p H 1 2 = Some 3%nat).
  { intros G G2 G3. cbn [py_search]. rewrite G2, G3, V12, V13. cbn [flt Nat.eqb Nat.sub].
    destruct (rltb_spec (- (1 / 2)) (- (2 / 90))) as [_|Q]; [|lra].
    destruct (rltb_spec (- (2 / 90)) (- (2 / 90))) as [Q|_]; [lra|]. reflexivity. }
  assert (S3 : forall H, H 1%nat = 3%nat -> py_search 4 2 4 p H 0 1 = Some 1%nat).
  { intros G G1. cbn [py_search]. rewrite G1, V01, V03. cbn [flt].
    destruct (rltb_spec (8 / 10) (8 / 100)) as [Q|_]; [lra|]. destruct (rltb_spec (8 / 100) (8 / 10)) as [_|Q]; [reflexivity|lra]. }
  intros B E. unfold py_hord in E. cbn [Nat.sub py_scan] in E.
  rewrite S1 in E by reflexivity. rewrite S2 in E by reflexivity. rewrite S3 in E by reflexivity.
  injection E as <-. unfold store in B. cbn [Nat.eqb] in B. revert B. unfold view. rewrite <- !run_eq.
  unfold p. rewrite !east_run by (left; apply M; lia). unfold east, place_of, xz. cbn [nth fst snd at_z pz]. lra.
Qed.
Print Assumptions C93_instrument_height_refuted.
