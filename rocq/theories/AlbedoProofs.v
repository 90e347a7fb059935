(** Proofs about snow albedo. *)
From Coq Require Import Reals ZArith String List Bool Lra Lia.
From Verif Require Import RNum WinsModel WinsSpec WinsProofs PptModel SolarProofs AlbedoModel AlbedoSpec.
Import ListNotations.
Local Open Scope string_scope.
Local Open Scope R_scope.

(** ** clean snow *)
Lemma growth_grown d : 0 <= d -> growth (d + 1) = grown d /\ 0 <= grown d < 1.
Proof.
  intros D. unfold growth, grown. assert (P : 0 < d * d + 3 * d + 4) by nra. split.
  - field. repeat split; nra.
  - split.
    + apply Rmult_le_pos; [nra | left; apply Rinv_0_lt_compat; exact P].
    + apply Rmult_lt_reg_r with (d * d + 3 * d + 4); [exact P|]. unfold Rdiv. rewrite Rmult_assoc, Rinv_l by lra. lra.
Qed.
Lemma grown_increasing d d' : 0 <= d < d' -> grown d < grown d'.
Proof.
  intros D. unfold grown. assert (P : 0 < d * d + 3 * d + 4) by nra. assert (P' : 0 < d' * d' + 3 * d' + 4) by nra.
  apply Rmult_lt_reg_r with ((d * d + 3 * d + 4) * (d' * d' + 3 * d' + 4)); [apply Rmult_lt_0_compat; assumption|].
  replace ((d * d + d) / (d * d + 3 * d + 4) * ((d * d + 3 * d + 4) * (d' * d' + 3 * d' + 4))) with ((d * d + d) * (d' * d' + 3 * d' + 4)) by (field; lra).
  replace ((d' * d' + d') / (d' * d' + 3 * d' + 4) * ((d * d + 3 * d + 4) * (d' * d' + 3 * d' + 4))) with ((d' * d' + d') * (d * d + 3 * d + 4)) by (field; lra).
  assert (0 < (d' - d) * (d * d' * 2 + 4 * (d + d') + 4)) by (apply Rmult_lt_0_compat; nra). nra.
Qed.
Lemma clean_spec d mu gs mx dirt : valid_grain gs mx dirt -> 0 <= d ->
  clean_albedo d mu gs mx dirt = Ok (clean_vis (between_at (sqrt (dirt * gs)) (sqrt (dirt * mx)) (grown d)) mu,
                                     clean_ir (between_at (sqrt gs) (sqrt mx) (grown d)) mu).
Proof.
  intros (G & M & DT) D. unfold clean_albedo. destruct (rleb_spec gs 0), (rltb_spec 500 gs), (rleb_spec mx gs), (rltb_spec 2000 mx); try lra. cbn [orb].
  destruct (rleb_spec dirt 1), (rleb_spec 10 dirt); try lra; cbn [andb].
  all: assert (0 <= dirt * gs) by (apply Rmult_le_pos; lra); assert (0 <= dirt * mx) by (apply Rmult_le_pos; lra).
  all: destruct (rltb_spec (dirt * gs) 0), (rltb_spec (dirt * mx) 0); try lra; cbn [orb].
  all: destruct (growth_grown d D) as [-> _]; unfold clean_vis, clean_ir, between_at, rltb.
  all: set (u := sqrt (dirt * gs)); set (v := sqrt (dirt * mx)); set (p := sqrt gs); set (q := sqrt mx); set (f := grown d).
  all: replace (p + (q - p) * f) with ((1 - f) * p + f * q) by ring; replace (u + (v - u) * f) with ((1 - f) * u + f * v) by ring.
  all: set (g := (1 - f) * u + f * v); set (h := (1 - f) * p + f * q).
  all: replace (-0.02123 * h) with (- (0.02123 * h)) by lra; set (e := exp (- (0.02123 * h))).
  all: destruct (Rlt_dec 0 mu); apply f_equal; apply f_equal2; lra.
Qed.
Lemma clean_refused d mu gs mx dirt : gs <= 0 \/ 500 < gs \/ mx <= gs \/ 2000 < mx -> clean_albedo d mu gs mx dirt = Err PlainException.
Proof.
  intros H. unfold clean_albedo. destruct (rleb_spec gs 0), (rltb_spec 500 gs); try reflexivity. cbn [orb].
  destruct (rleb_spec mx gs), (rltb_spec 2000 mx); try reflexivity. lra.
Qed.
Lemma grain_range gs mx f : 0 <= gs -> gs <= mx -> 0 <= f <= 1 -> 0 <= sqrt gs <= between_at (sqrt gs) (sqrt mx) f /\ between_at (sqrt gs) (sqrt mx) f <= sqrt mx.
Proof.
  intros G M F. pose proof (sqrt_pos gs). assert (sqrt gs <= sqrt mx) by (apply sqrt_le_1_alt; exact M). unfold between_at. split; [split; [assumption|]|]; nra.
Qed.
Lemma vis_range gv mu : 0 <= gv -> mu <= 1 -> 1 - 0.002 * gv <= clean_vis gv mu <= 1.
Proof. intros G M. unfold clean_vis. destruct (Rlt_dec 0 mu); [|lra]. assert (0 <= gv * (1 - mu) <= gv) by nra. lra. Qed.
Lemma vis_decreasing g g' mu : 0 <= g < g' -> mu <= 1 -> clean_vis g' mu < clean_vis g mu.
Proof. intros G M. unfold clean_vis. destruct (Rlt_dec 0 mu); [|lra]. assert (0 <= (g' - g) * (1 - mu) <= g' - g) by nra. nra. Qed.
Lemma exp_low : 0.27 < exp (- (0.02123 * 44.73)).
Proof.
  replace (- (0.02123 * 44.73)) with (- 0.474815 + - 0.4748029) by lra. rewrite exp_plus.
  pose proof (exp_ineq1 (- 0.474815) ltac:(lra)). pose proof (exp_ineq1 (- 0.4748029) ltac:(lra)). nra.
Qed.
Lemma ir_decreasing g g' mu : 0 <= g < g' -> g' <= 44.73 -> mu <= 1 -> clean_ir g' mu < clean_ir g mu.
Proof.
  intros G U M. unfold clean_ir.
  assert (E : 0.27 * (0.02123 * (g' - g)) < exp (- (0.02123 * g)) - exp (- (0.02123 * g'))).
  { replace (- (0.02123 * g)) with (- (0.02123 * g') + 0.02123 * (g' - g)) by ring. rewrite exp_plus.
    pose proof (exp_ineq1 (0.02123 * (g' - g)) ltac:(lra)). pose proof exp_low.
    assert (exp (- (0.02123 * 44.73)) <= exp (- (0.02123 * g'))) by (apply exp_le; lra). nra. }
  destruct (Rlt_dec 0 mu); [|nra]. assert (0 <= (g' - g) * (1 - mu) <= g' - g) by nra. nra.
Qed.
Lemma ir_range g mu : 0 <= g <= 44.73 -> mu <= 1 -> 0.23 < clean_ir g mu <= 0.95447.
Proof.
  intros G M. split.
  - unfold clean_ir. assert (exp (- (0.02123 * 44.73)) <= exp (- (0.02123 * g))) by (apply exp_le; lra). pose proof exp_low.
    destruct (Rlt_dec 0 mu); [|lra]. assert (0 <= (0.002 * g + 0.1) * (1 - mu)) by (apply Rmult_le_pos; lra). lra.
  - apply Rle_trans with (clean_ir 0 mu).
    + destruct (Req_dec g 0) as [->|]; [lra|]. left. apply ir_decreasing; lra.
    + unfold clean_ir. replace (- (0.02123 * 0)) with 0 by ring. rewrite exp_0. destruct (Rlt_dec 0 mu); lra.
Qed.
Lemma sqrt_2000 : sqrt 2000 < 44.73.
Proof. rewrite <- (sqrt_square 44.73) by lra. apply sqrt_lt_1_alt. lra. Qed.

(** ** decay with the date *)
Lemma hours_spec us : hours us = IZR (us / 1000000) / 3600.
Proof.
  unfold hours. replace (us / 1000000)%Z with (86400 * (us / 86400000000) + (us mod 86400000000) / 1000000)%Z.
  - rewrite plus_IZR, mult_IZR. lra.
  - rewrite (Z.div_mod us 86400000000) at 3 by lia.
    replace (86400000000 * (us / 86400000000) + us mod 86400000000)%Z with (us mod 86400000000 + (86400 * (us / 86400000000)) * 1000000)%Z by ring.
    rewrite Z.div_add by lia. ring.
Qed.
Lemma by_type_spec f z : forall d acc,
  (exists pre k m post, d = (pre ++ (k, m) :: post)%list /\ py_int k = Some z /\ (forall k' v', In (k', v') post -> py_int k' <> Some z) /\ by_type d z f acc = f m) \/
  ((forall k v, In (k, v) d -> py_int k <> Some z) /\ by_type d z f acc = acc).
Proof.
  induction d as [|[k v] d IH]; intros acc; [right; split; [intros k v [] | reflexivity]|]. cbn [by_type].
  destruct (IH (match py_int k with Some z0 => if Z.eqb z z0 then f v else acc | None => acc end)) as [(pre & k1 & m & post & E & K & N & B)|[N B]].
  - left. exists ((k, v) :: pre), k1, m, post. split; [rewrite E; reflexivity | auto].
  - destruct (py_int k) as [z0|] eqn:K.
    + destruct (Z.eqb_spec z z0) as [<-|NE].
      * left. exists [], k, v, d. auto.
      * right. split; [|exact B]. intros k' v' [[= <- <-]|I]; [rewrite K; congruence | exact (N k' v' I)].
    + right. split; [|exact B]. intros k' v' [[= <- <-]|I]; [rewrite K; discriminate | exact (N k' v' I)].
Qed.
Lemma by_type_n_by_type f g z d : forall acc acc', acc = Some acc' -> (forall k v, In (k, v) d -> py_int k = Some z -> f v = Some (g v)) ->
  by_type_n d z f acc = Some (by_type d z g acc').
Proof.
  induction d as [|[k v] d IH]; intros acc acc' A F; [exact A|]. cbn [by_type by_type_n]. apply IH.
  - destruct (py_int k) as [z0|] eqn:K; [|exact A]. destruct (Z.eqb_spec z z0) as [<-|]; [|exact A]. apply (F k v); [left; reflexivity | exact K].
  - intros k' v' I. apply (F k' v'). right. exact I.
Qed.
Lemma lookup_spec d k v : lookup d k = Some v -> exists pre post, d = (pre ++ (k, v) :: post)%list /\ forall k' v', In (k', v') pre -> k' <> k.
Proof.
  induction d as [|[k0 v0] d IH]; [discriminate|]. cbn [lookup]. destruct (String.eqb_spec k0 k) as [->|N].
  - intros [= ->]. exists [], d. split; [reflexivity | intros k' v' []].
  - intros H. destruct (IH H) as (pre & post & -> & P). exists ((k0, v0) :: pre), post. split; [reflexivity|].
    intros k' v' [[= <- <-]|I]; [exact N | exact (P k' v' I)].
Qed.
Lemma class_by_type d z dflt f : lookup d "default" = Some dflt -> exists m, class_value d z m /\ by_type d z f (f dflt) = f m.
Proof.
  intros L. destruct (by_type_spec f z d (f dflt)) as [(pre & k & m & post & E & K & N & B)|[N B]].
  - exists m. split; [left; exists pre, k, post; auto | exact B].
  - exists dflt. split; [right | exact B]. split; [exact N|]. exact (lookup_spec d "default" dflt L).
Qed.
Lemma class_in d z m : class_value d z m -> exists k, In (k, m) d.
Proof. intros [(pre & k & post & -> & _)|(_ & pre & post & -> & _)]; [exists k | exists "default"]; apply in_elt. Qed.

Lemma decay_value t T pwr m : 0 < t -> 0 < T -> 0 < m -> pwr <> 0 -> decay_val t T pwr m = m * Rpower (t / T) pwr.
Proof.
  intros HT HTT M P. unfold decay_val. pose proof (exp_pos (1 / pwr * ln m)) as E. fold (Rpower m (1 / pwr)) in E.
  replace (t / (T / Rpower m (1 / pwr))) with (Rpower m (1 / pwr) * (t / T)) by (field; lra).
  rewrite <- Rpower_mult_distr by (try assumption; apply Rdiv_lt_0_compat; assumption).
  rewrite Rpower_mult. replace (1 / pwr * pwr) with 1 by (field; exact P). rewrite Rpower_1 by exact M. reflexivity.
Qed.
Lemma decay_of_ok t T pwr m : pwr <> 0 -> 0 < m -> decay_of t T pwr m = Ok (decay_val t T pwr m).
Proof. intros P M. unfold decay_of. destruct (reqb_spec pwr 0); [contradiction|]. destruct (reqb_spec m 0); [lra|]. destruct (rltb_spec m 0); [lra | reflexivity]. Qed.
Lemma check_ok t T pwr d : pwr <> 0 -> (forall k v, In (k, v) d -> 0 < v) -> check_decays d t T pwr = Ok tt.
Proof.
  intros P. induction d as [|[k v] d IH]; intros H; [reflexivity|]. cbn [check_decays].
  rewrite decay_of_ok; [|exact P | exact (H k v (or_introl eq_refl))]. cbn [bind]. apply IH. intros k' v' I. exact (H k' v' (or_intror I)).
Qed.
Lemma check_zero t T pwr d k : (forall k v, In (k, v) d -> 0 <= v) -> In (k, 0) d -> check_decays d t T pwr = Err ZeroDivisionError.
Proof.
  induction d as [|[k0 v0] d IH]; intros H I; [destruct I|]. cbn [check_decays]. unfold decay_of.
  destruct (reqb_spec pwr 0); [reflexivity|]. destruct (reqb_spec v0 0); [reflexivity|].
  pose proof (H k0 v0 (or_introl eq_refl)). destruct (rltb_spec v0 0); [lra|]. cbn [bind]. destruct I as [[= -> ->]|I]; [contradiction|].
  apply IH; [|exact I]. intros k' v' J. exact (H k' v' (or_intror J)).
Qed.

Lemma decay_power_spec veg z st en now pwr dflt : lookup veg "default" = Some dflt ->
  let t := IZR ((now - st) / 1000000) / 3600 in let T := IZR ((en - st) / 1000000) / 3600 in
  (t <= 0 -> decay_power veg z st en now pwr = Ok 0) /\
  (0 < t -> T < t -> exists m, class_value veg z m /\ decay_power veg z st en now pwr = Ok m) /\
  (0 < t <= T -> pwr <> 0 -> (forall k v, In (k, v) veg -> 0 < v) ->
     exists m, class_value veg z m /\ decay_power veg z st en now pwr = Ok (m * Rpower (t / T) pwr)).
Proof.
  intros L t T. unfold decay_power. rewrite !hours_spec. fold t T. split; [|split].
  - intros H. destruct (rleb_spec t 0); [reflexivity | contradiction].
  - intros H H'. destruct (rleb_spec t 0); [lra|]. rewrite L. destruct (rltb_spec T t); [|contradiction].
    destruct (class_by_type veg z dflt (fun v => v) L) as (m & C & E). exists m. split; [exact C|]. rewrite Rplus_0_l. f_equal. exact E.
  - intros H P V. destruct (rleb_spec t 0); [lra|]. rewrite L. destruct (rltb_spec T t); [lra|].
    destruct (lookup_spec veg "default" dflt L) as (pre & post & EQ & _).
    assert (D0 : 0 < dflt) by (apply (V "default"); rewrite EQ; apply in_elt).
    rewrite decay_of_ok by assumption. cbn [bind]. rewrite check_ok by assumption. cbn [bind]. rewrite Rplus_0_l.
    destruct (class_by_type veg z dflt (decay_val t T pwr) L) as (m & C & E). exists m. split; [exact C|]. rewrite E.
    destruct (class_in veg z m C) as (k & I). rewrite decay_value; try lra; [reflexivity|]. exact (V k m I).
Qed.
Lemma Rpower_unit x p : 0 < x <= 1 -> 0 < p -> 0 < Rpower x p <= 1.
Proof.
  intros X P. split; [apply exp_pos|]. unfold Rpower. rewrite <- exp_0. apply exp_le.
  assert (ln x <= 0). { destruct (Req_dec x 1) as [->|]; [rewrite ln_1; lra|]. rewrite <- ln_1. left. apply ln_increasing; lra. } nra.
Qed.

(** ** litter *)
Lemma hardy_spec litter z day av ai dflt la : lookup litter "default" = Some dflt -> lookup litter "albedo" = Some la -> dflt <= 1 -> 0 <= day ->
  (forall k v, In (k, v) litter -> py_int k = Some z -> v <= 1) ->
  exists l, class_value litter z l /\ l <= 1 /\
    decay_hardy litter z day av ai = Ok (Some (av * uncovered l day + la * (1 - uncovered l day)),
                                         Some (ai * uncovered l day + la * (1 - uncovered l day))).
Proof.
  intros L A D DP V. unfold decay_hardy. rewrite L, A.
  assert (NP : forall l, l <= 1 -> npow (1 - l) day = Some (uncovered l day)).
  { intros l H. unfold npow, uncovered. destruct (rltb_spec 0 (1 - l)), (Rlt_dec l 1); try lra; [reflexivity|].
    destruct (reqb_spec (1 - l) 0); [|lra]. destruct (reqb_spec day 0), (Req_EM_T day 0); try lra; [reflexivity|]. destruct (rltb_spec 0 day); [reflexivity | lra]. }
  rewrite (by_type_n_by_type _ (fun l => uncovered l day) z litter _ (uncovered dflt day)).
  2:{ apply NP. exact D. }
  2:{ intros k v I K. apply NP. exact (V k v I K). }
  destruct (class_by_type litter z dflt (fun l => uncovered l day) L) as (l & C & E). cbv beta in E. rewrite E. exists l. split; [exact C|]. split; [|reflexivity].
  destruct C as [(pre & k & post & -> & K & _)|(_ & pre & post & EQ & P)].
  - apply (V k l); [apply in_elt | exact K].
  - destruct (lookup_spec litter "default" dflt L) as (pre' & post' & EQ' & P').
    assert (lookup litter "default" = Some l).
    { rewrite EQ. clear - P. induction pre as [|[k v] pre IH]; [reflexivity|]. cbn [app lookup]. destruct (String.eqb_spec k "default") as [->|]; [exfalso; exact (P "default" v (or_introl eq_refl) eq_refl)|].
      apply IH. intros k' v' I. exact (P k' v' (or_intror I)). }
    congruence.
Qed.
Lemma uncovered_unit l day : 0 <= l <= 1 -> 0 <= day -> 0 <= uncovered l day <= 1.
Proof.
  intros L D. unfold uncovered. destruct (Rlt_dec l 1); [|destruct (Req_EM_T day 0); lra].
  destruct (Req_dec day 0) as [->|]; [unfold Rpower; rewrite Rmult_0_l, exp_0; lra|]. pose proof (Rpower_unit (1 - l) day). lra.
Qed.
Lemma uncovered_0 l : uncovered l 0 = 1.
Proof. unfold uncovered. destruct (Rlt_dec l 1); [unfold Rpower; rewrite Rmult_0_l; apply exp_0 | destruct (Req_EM_T 0 0); lra]. Qed.
Lemma weighted_between a b s : 0 <= s <= 1 -> Rmin a b <= a * s + b * (1 - s) <= Rmax a b.
Proof.
  intros S. pose proof (Rmin_l a b). pose proof (Rmin_r a b). pose proof (Rmax_l a b). pose proof (Rmax_r a b).
  assert (Rmin a b * s <= a * s <= Rmax a b * s) by (split; apply Rmult_le_compat_r; lra).
  assert (Rmin a b * (1 - s) <= b * (1 - s) <= Rmax a b * (1 - s)) by (split; apply Rmult_le_compat_r; lra). lra.
Qed.
