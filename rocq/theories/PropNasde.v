(** Properties C16-C19 and C57: snow fraction and new snow density.
    Vocabulary: NasdeSpec.v; model: NasdeModel.v. *)
From Coq Require Import Reals List Bool Lra Lia.
From Verif Require Import RNum NasdeModel NasdeSpec NasdeProofs.
Import ListNotations.
Local Open Scope R_scope.

(** ** C16: the pixel function is the four-piece line ... *)
Theorem C16_percent_snow : forall t_max, 0 <= t_max ->
  exists f, is_percent_snow t_max f /\ (forall t, percent_snow t_max (Some t) = Some (f t)).
Proof. exact percent_exists. Qed.
Print Assumptions C16_percent_snow.

(** ... and such a line is between 0 and 1, does not increase, strictly decreases between
    -0.5 and t_max + 1, and is continuous (Lipschitz with constant 3/4). *)
Theorem C16_bounds_and_monotone : forall t_max f, 0 <= t_max -> is_percent_snow t_max f ->
  (forall t, 0 <= f t <= 1) /\
  (forall x y, x <= y -> 0 <= f x - f y <= 3/4 * (y - x)) /\
  (forall x y, - (1/2) <= x -> x < y -> y <= t_max + 1 -> f y < f x).
Proof.
  intros t_max f Ht Hf. split; [exact (ps_range t_max f Ht Hf)|].
  split; [exact (ps_slope t_max f Ht Hf)|exact (ps_strict t_max f Ht Hf)].
Qed.
Print Assumptions C16_bounds_and_monotone.

(** A missing temperature counts as rain. *)
Theorem C16_missing_is_rain : forall t_max, percent_snow t_max None = Some 0.
Proof. reflexivity. Qed.
Print Assumptions C16_missing_is_rain.

Example C16_example :
  calc_percent_snow 0 [Some (-3); Some (-(1/4)); Some 0; Some (1/2); Some 2; None] =
  [Some 1; Some (7/8); Some (3/4); Some (3/8); Some 0; Some 0].
Proof.
  unfold calc_percent_snow, percent_snow. cbn [map]. rcasep. repeat (apply (f_equal2 cons); [f_equal; lra|]). reflexivity.
Qed.

(** ** C17 *)
Theorem C17_one_row_per_temperature : forall t,
  susong_at t (fst (table_pixel (Some t))) (snd (table_pixel (Some t))) /\
  forall ps rho ps' rho', susong_at t ps rho -> susong_at t ps' rho' -> ps = ps' /\ rho = rho'.
Proof. intros t. split; [exact (table_at t)|exact (susong_at_unique t)]. Qed.
Print Assumptions C17_one_row_per_temperature.

Theorem C17_monotone : forall t t' ps ps' rho rho',
  susong_at t ps rho -> susong_at t' ps' rho' -> t <= t' ->
  ps' <= ps /\ (t' < 1/2 -> rho <= rho').
Proof. exact susong_at_mono. Qed.
Print Assumptions C17_monotone.

(** Non-negative precipitation: a dry pixel gets zeros, a wet one the row of its
    temperature, a wet one with missing temperature zeros. *)
Theorem C17_susong_pixel : forall (t p : arr) (i : nat) (v : R),
  length t = length p -> (forall x, In x p -> exists v, x = Some v /\ 0 <= v) ->
  nth_error p i = Some (Some v) ->
  (v = 0 -> nth_error (susong_run t p) i = Some (0, 0)) /\
  (0 < v -> forall x, nth_error t i = Some (Some x) ->
      exists ps rho, nth_error (susong_run t p) i = Some (ps, rho) /\ susong_at x ps rho) /\
  (0 < v -> nth_error t i = Some None -> nth_error (susong_run t p) i = Some (0, 0)).
Proof. exact susong_pixel. Qed.
Print Assumptions C17_susong_pixel.

(** Without the sign condition the pixel-by-pixel reading fails: the early return looks at
    the sum over the grid. *)
Theorem C17_negative_precipitation_refuted : exists t p,
  length t = length p /\ nth_error p 0 = Some (Some 1) /\ nth_error t 0 = Some (Some (-10)) /\
  nth_error (susong_run t p) 0 = Some (0, 0).
Proof.
  exists [Some (-10); Some (-10)], [Some 1; Some (-1)]. repeat split.
  unfold susong_run, nsum, dry. cbn [fold_right rlift2 map nth_error].
  replace (1 + (-1 + 0)) with 0 by ring. destruct (reqb_spec 0 0); [reflexivity|lra].
Qed.
Print Assumptions C17_negative_precipitation_refuted.

Example C17_example :
  susong_run [Some (-4); Some (-(1/4)); None] [Some 2; Some 0; Some 1] = [(1, 100); (0, 0); (0, 0)].
Proof.
  unfold susong_run, nsum, dry, table_pixel, TABLE, in_row.
  cbn [fold_right rlift2 map map2 fold_left temp_min temp_max snow density andb]. rcasep; reflexivity.
Qed.

(** ** C18: uncompacted density *)
Theorem C18_piecewise_density : forall (h : heap) (tpp pp : nat), inputs_ok h tpp pp ->
  exists h' rho ps, phase_and_density h tpp pp Piecewise = Some (h', (rho, ps)) /\
  forall i, (i < length (mem h tpp))%nat ->
    (forall x, at_ h tpp i = Some x ->
       at_ h' rho i = Some (fresh 0 (-10) x) /\ at_ h' ps i = Some (frac x)) /\
    (at_ h tpp i = None -> at_ h' rho i = None /\ at_ h' ps i = Some 0).
Proof. exact phase_piecewise. Qed.
Print Assumptions C18_piecewise_density.

Theorem C18_density_shape : forall t_max t_min, t_min < t_max -> -14 <= t_min ->
  (forall x, fresh t_max t_min x = fresh t_max t_min (Rmax x t_min)) /\
  (forall x, x <= t_min -> fresh t_max t_min x = 50 + 17/10 * (t_min + 15)) /\
  (forall x, t_max <= x -> fresh t_max t_min x = 50 + 17/10 * Rpower (x + 15) (7/4)) /\
  (forall x y, x <= y -> fresh t_max t_min x <= fresh t_max t_min y).
Proof.
  intros t_max t_min H H14. split; [|split; [|split]].
  - intros x. unfold fresh. rewrite (Rmax_left (Rmax x t_min) t_min) by apply Rmax_r. reflexivity.
  - intros x. apply fresh_low; lra.
  - intros x. apply fresh_high; lra.
  - intros x y. apply fresh_mono; lra.
Qed.
Print Assumptions C18_density_shape.

(** There is no upper bound: the temperature is not capped at the warm end. *)
Theorem C18_density_bounded_refuted : forall t_max t_min, t_min < t_max ->
  ~ exists b, forall x, fresh t_max t_min x <= b.
Proof.
  intros t_max t_min H (b & Hb). destruct (fresh_unbounded t_max t_min b H) as (x & Hx).
  specialize (Hb x). lra.
Qed.
Print Assumptions C18_density_bounded_refuted.

(** Marks 2017: where snow falls (rain at a temperature below 1 C) the density is the
    compacted one, elsewhere 0; precipitation density is capped at that of water. *)
Theorem C18_marks_density : forall (h : heap) (tpp pp : nat), inputs_ok h tpp pp ->
  exists h' r, marks_run h tpp pp = (h', r) /\
  forall i, (i < length (mem h tpp))%nat ->
    (forall x y, snows h tpp pp i x y ->
       at_ h' (o_rho_s r) i = Some (1000 * compacted (snow_t x) (y * frac x) (frac_rho x)) /\
       at_ h' (o_swe r) i = Some (y * frac x) /\
       at_ h' (o_pcs r) i = Some (frac x) /\
       at_ h' (o_rho r) i =
         Some (1000 * Rmin 1 (if Rlt_dec (frac x) 1
                              then frac x * compacted (snow_t x) (y * frac x) (frac_rho x) + (1 - frac x)
                              else compacted (snow_t x) (y * frac x) (frac_rho x)))) /\
    ((forall x y, ~ snows h tpp pp i x y) ->
       at_ h' (o_rho_s r) i = Some 0 /\ at_ h' (o_rho r) i = Some 1000).
Proof. exact marks_density. Qed.
Print Assumptions C18_marks_density.

(** Compaction makes snow denser, and more so in a bigger storm. *)
Theorem C18_compaction : forall ts w w' r, 0 < r -> 0 <= w -> w < w' ->
  r < compacted ts w r /\ compacted ts w r < compacted ts w' r.
Proof. intros ts w w' r Hr Hw Hww. split; [exact (compacted_gt ts w r Hr Hw)|exact (compacted_mono ts w w' r Hr Hww)]. Qed.
Print Assumptions C18_compaction.

(** a memory with a temperature array at 0 and a precipitation array at 1 *)
Definition ex_heap : heap :=
  mkH (fun a => match a with 0%nat => [Some (-20); Some 2; None] | _ => [Some 5; Some 1; Some 3] end) 2.
Example C18_example : inputs_ok ex_heap 0 1 /\ snows ex_heap 0 1 0 (-20) 5 /\
  (forall x y, ~ snows ex_heap 0 1 1 x y) /\ 0 < frac_rho (-20).
Proof.
  split; [repeat split; simpl; lia|]. split; [repeat split; simpl; lra|]. split.
  - intros x y (Hx & Hy & _ & H). simpl in Hx. injection Hx as <-. lra.
  - unfold frac_rho. pose proof (fresh_gt_50 0 (-10) (-20)). lra.
Qed.

(** ** C19: the auxiliary outputs are one array *)
Theorem C19_aliased_outputs : forall (h : heap) (tpp pp : nat),
  inputs_ok h tpp pp -> (exists v, In (Some v) (mem h pp) /\ 0 < v) ->
  exists h' r, marks_run h tpp pp = (h', r) /\
    o_d_rho_c r = o_d_rho_m r /\ o_zs r = o_d_rho_m r /\
    mem h' (o_rho_ns r) = mem h' (o_rho_s r) /\
    (forall i, (i < length (mem h tpp))%nat ->
       at_ h' (o_rho_s r) i = option_map (fun v => 1000 * v) (at_ h' (o_zs r) i)).
Proof. exact marks_alias. Qed.
Print Assumptions C19_aliased_outputs.

Example C19_example : exists v, In (Some v) (mem ex_heap 1) /\ 0 < v.
Proof. exists 5. split; [left; reflexivity|lra]. Qed.

(** ** C57: what happens to the caller's arrays *)
Theorem C57_marks_clamps_its_argument : forall (h : heap) (tpp pp : nat), inputs_ok h tpp pp ->
  exists h' r, marks_run h tpp pp = (h', r) /\
    (forall a, (a < next h)%nat -> a <> tpp -> mem h' a = mem h a) /\
    ((exists v, In (Some v) (mem h pp) /\ 0 < v) ->
       mem h' tpp = map (option_map (fun x => Rmax x (-10))) (mem h tpp)) /\
    ((forall v, In (Some v) (mem h pp) -> v <= 0) -> mem h' tpp = mem h tpp).
Proof. exact marks_inputs. Qed.
Print Assumptions C57_marks_clamps_its_argument.

Theorem C57_phase_and_density_keeps_arguments : forall (h : heap) (tpp pp : nat) (m : model_name),
  inputs_ok h tpp pp ->
  match phase_and_density h tpp pp m with
  | None => m = OtherModel
  | Some (h', _) => m <> OtherModel /\ forall a, (a < next h)%nat -> mem h' a = mem h a
  end.
Proof. exact phase_inputs. Qed.
Print Assumptions C57_phase_and_density_keeps_arguments.

Example C57_example : exists h' r, marks_run ex_heap 0 1 = (h', r) /\ at_ h' 0 0 = Some (-10) /\ at_ ex_heap 0 0 = Some (-20).
Proof.
  destruct (C57_marks_clamps_its_argument ex_heap 0 1) as (h' & r & E & _ & H & _); [apply C18_example|].
  exists h', r. split; [exact E|]. split; [|reflexivity]. unfold at_. rewrite (H C19_example).
  cbn. rewrite Rmax_right by lra. reflexivity.
Qed.
