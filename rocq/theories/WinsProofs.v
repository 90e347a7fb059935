(** Proofs about the Winstral wind model. *)
From Coq Require Import Reals ZArith String List Bool Lra Lia.
From Verif Require Import RNum RTrig WinsModel WinsSpec.
Import ListNotations.
Local Open Scope R_scope.

(** ** ceiling *)
Lemma rceil_spec x : exists k : Z, rceil x = IZR k /\ IZR k - 1 < x <= IZR k.
Proof.
  exists (- Int_part (- x))%Z. unfold rceil. rewrite opp_IZR. split; [reflexivity|].
  pose proof (base_Int_part (- x)) as [A B]. lra.
Qed.
Lemma rceil_unique x k : IZR k - 1 < x <= IZR k -> rceil x = IZR k.
Proof.
  intros H. destruct (rceil_spec x) as (j & E & J). rewrite E. f_equal.
  assert ((j - 1 < k)%Z /\ (k - 1 < j)%Z); [|lia].
  split; apply lt_IZR; rewrite minus_IZR; lra.
Qed.

Lemma nstep_pos n : (0 < n)%nat -> 0 < nstep n /\ INR n * nstep n = 360.
Proof.
  intros N. assert (0 < INR n) by (apply lt_0_INR; lia). unfold nstep. split.
  - apply Rdiv_lt_0_compat; lra.
  - field. lra.
Qed.

(** the bin of an azimuth *)
Lemma bin_ceil n az : (0 < n)%nat -> 0 <= az < 360 ->
  exists k : nat, (k <= n)%nat /\ rceil ((az - nstep n / 2) / nstep n) = INR k /\
    (INR k - 1 / 2) * nstep n - nstep n < az - nstep n <= (INR k + 1 / 2) * nstep n - nstep n.
Proof.
  intros N A. destruct (nstep_pos n N) as [S E]. set (s := nstep n) in *.
  destruct (rceil_spec ((az - s / 2) / s)) as (k & K & B).
  assert (Q : (az - s / 2) / s * s = az - s / 2) by (field; lra).
  set (t := (az - s / 2) / s) in *.
  assert (B1 : (IZR k - 1) * s < az - s / 2) by nra. assert (B2 : az - s / 2 <= IZR k * s) by nra.
  assert (K0 : (0 <= k)%Z). { apply Zlt_succ_le. apply lt_IZR. rewrite succ_IZR. nra. }
  assert (K1 : (k <= Z.of_nat n)%Z). { apply Zlt_succ_le. apply lt_IZR. rewrite succ_IZR, <- INR_IZR_INZ. nra. }
  exists (Z.to_nat k). rewrite INR_IZR_INZ, Z2Nat.id by lia. repeat split; [lia | exact K | lra | lra].
Qed.

Lemma dir_round_cases n az : (0 < n)%nat -> 0 <= az < 360 ->
  exists k : nat, (k <= n)%nat /\ dir_round n az = (if Nat.eqb k n then 0 else INR k * nstep n) /\
    (INR k - 1 / 2) * nstep n < az <= (INR k + 1 / 2) * nstep n.
Proof.
  intros N A. destruct (bin_ceil n az N A) as (k & K & E & B). destruct (nstep_pos n N) as [S SE].
  exists k. split; [exact K|]. split; [|lra]. unfold dir_round. rewrite E.
  assert (0 <= INR k) by apply pos_INR.
  destruct (rltb_spec (INR k * nstep n) 0); [nra|].
  destruct (Nat.eqb_spec k n) as [->|NE].
  - rewrite SE. destruct (reqb_spec 360 360); [reflexivity | lra].
  - destruct (reqb_spec (INR k * nstep n) 360) as [F|]; [|reflexivity]. exfalso. apply NE.
    apply INR_eq. rewrite <- SE in F. apply Rmult_eq_reg_r with (nstep n); lra.
Qed.

(** the binned direction characterised *)
Lemma dir_round_spec n az : (0 < n)%nat -> 0 <= az < 360 ->
  (exists j : nat, (j < n)%nat /\ dir_round n az = 360 / INR n * INR j) /\
  within_angle az (dir_round n az) (180 / INR n) /\
  (forall j : nat, (0 < j < n)%nat ->
     (dir_round n az = 360 / INR n * INR j <->
      360 / INR n * (INR j - 1 / 2) < az <= 360 / INR n * (INR j + 1 / 2))) /\
  (dir_round n az = 0 <-> az <= 180 / INR n \/ 360 - 180 / INR n < az).
Proof.
  intros N A. destruct (dir_round_cases n az N A) as (k & K & E & B).
  destruct (nstep_pos n N) as [S SE]. assert (NP : 0 < INR n) by (apply lt_0_INR; lia).
  fold (nstep n). assert (H : 180 / INR n = nstep n / 2) by (unfold nstep; field; lra). rewrite H.
  set (s := nstep n) in *. rewrite E. destruct (Nat.eqb_spec k n) as [->|NE].
  - split; [|split; [|split]].
    + exists 0%nat. split; [lia | simpl; ring].
    + exists (-1)%Z. apply Rabs_le. nra.
    + intros j J. assert (0 < INR j) by (apply lt_0_INR; lia).
      assert (INR j + 1 <= INR n). { rewrite <- S_INR. apply le_INR. lia. }
      split; intros; nra.
    + split; [right; nra | intros _; reflexivity].
  - assert (KP : 0 <= INR k) by apply pos_INR.
    assert (KN : INR k + 1 <= INR n). { rewrite <- S_INR. apply le_INR. lia. }
    split; [|split; [|split]].
    + exists k. split; [lia | ring].
    + exists 0%Z. apply Rabs_le. nra.
    + intros j J. split.
      * intros F. assert (INR k = INR j) by (apply Rmult_eq_reg_r with s; lra). nra.
      * intros [J1 J2]. assert (J3 : INR k < INR j + 1) by nra. assert (J4 : INR j < INR k + 1) by nra.
        rewrite <- S_INR in J3, J4. apply INR_lt in J3, J4. replace j with k by lia. ring.
    + split.
      * intros F. assert (INR k = 0) by nra. left. nra.
      * destruct (Nat.eq_dec k 0) as [->|KZ]; [intros _; simpl; ring|].
        assert (1 <= INR k). { change 1 with (INR 1). apply le_INR. lia. } intros [F|F]; nra.
Qed.

(** ** azimuth *)
Lemma azimuth_range u v : 0 <= azimuth u v < 360.
Proof.
  pose proof PI_RGT_0. pose proof (arctan2_range u v) as B. unfold azimuth.
  set (t := arctan2 u v * 180 / PI).
  assert (E : t * PI = arctan2 u v * 180) by (unfold t; field; lra).
  destruct (rltb_spec t 0); nra.
Qed.
Lemma azimuth_polar u v :
  let r := sqrt (u * u + v * v) in
  u = r * sin (azimuth u v * PI / 180) /\ v = r * cos (azimuth u v * PI / 180).
Proof.
  intros r. pose proof PI_RGT_0. pose proof (arctan2_polar u v) as P. cbv zeta in P.
  replace (v * v + u * u) with (u * u + v * v) in P by ring. fold r in P. unfold azimuth.
  assert (E : arctan2 u v * 180 / PI * PI / 180 = arctan2 u v) by (field; lra).
  destruct (rltb_spec (arctan2 u v * 180 / PI) 0).
  - replace ((arctan2 u v * 180 / PI + 360) * PI / 180) with (arctan2 u v + 2 * PI) by (field; lra).
    rewrite sin_plus, cos_plus, sin_2PI, cos_2PI. rewrite !Rmult_1_r, !Rmult_0_r, Rplus_0_r, Rminus_0_r. exact P.
  - rewrite E. exact P.
Qed.
Lemma azimuth_direction d : 0 <= d < 360 -> azimuth (u_direction d) (v_direction d) = d.
Proof.
  intros D. pose proof PI_RGT_0 as PP. unfold azimuth, u_direction, v_direction.
  destruct (Rle_dec d 180) as [L|L].
  - assert (E : arctan2 (sin (d * PI / 180)) (cos (d * PI / 180)) = d * PI / 180).
    { rewrite <- (arctan2_unique 1 (d * PI / 180)) at 3; [rewrite !Rmult_1_l; reflexivity | lra |].
      assert (d * PI / 180 = d / 180 * PI) by field. nra. }
    rewrite E. replace (d * PI / 180 * 180 / PI) with d by (field; lra).
    destruct (rltb_spec d 0); [lra | reflexivity].
  - assert (E : arctan2 (sin (d * PI / 180)) (cos (d * PI / 180)) = d * PI / 180 - 2 * PI).
    { rewrite <- (arctan2_unique 1 (d * PI / 180 - 2 * PI)); [|lra|].
      - rewrite !Rmult_1_l. unfold Rminus. rewrite sin_plus, cos_plus, sin_neg, cos_neg, sin_2PI, cos_2PI.
        f_equal; ring.
      - assert (d * PI / 180 = d / 180 * PI) by field. nra. }
    rewrite E. replace ((d * PI / 180 - 2 * PI) * 180 / PI) with (d - 360) by (field; lra).
    destruct (rltb_spec (d - 360) 0); lra.
Qed.

(** ** library lookup *)
Lemma first_index_some dirs d i : first_index dirs d = Some i ->
  nth_error dirs i = Some d /\ forall j, (j < i)%nat -> nth_error dirs j <> Some d.
Proof.
  revert i. induction dirs as [|e dirs IH]; intros i; simpl; [discriminate|].
  destruct (reqb_spec e d) as [->|NE].
  - intros [= <-]. split; [reflexivity | intros; lia].
  - destruct (first_index dirs d) as [k|]; [|discriminate]. intros [= <-].
    destruct (IH k eq_refl) as [A B]. split; [exact A|]. intros [|j] J; simpl; [congruence | apply B; lia].
Qed.
Lemma first_index_none dirs d : first_index dirs d = None <-> ~ In d dirs.
Proof.
  induction dirs as [|e dirs IH]; simpl; [tauto|].
  destruct (reqb_spec e d) as [->|NE]; [split; [discriminate | tauto]|].
  destruct (first_index dirs d) as [k|]; simpl; split; try discriminate.
  - intros H. exfalso. apply H. right. destruct (in_dec Req_EM_T d dirs) as [I|I]; [exact I|]. apply IH in I. discriminate.
  - intros _. destruct IH as [IH _]. specialize (IH eq_refl). tauto.
  - reflexivity.
Qed.
Lemma first_index_even n dirs j : (0 < n)%nat -> even_library n dirs -> (j < n)%nat ->
  first_index dirs (360 / INR n * INR j) = Some j.
Proof.
  intros N -> J. assert (0 < INR n) by (apply lt_0_INR; lia).
  assert (S : 0 < 360 / INR n) by (apply Rdiv_lt_0_compat; lra).
  destruct (first_index _ _) as [i|] eqn:E.
  - apply first_index_some in E. destruct E as [E _]. rewrite nth_error_map in E.
    destruct (nth_error (seq 0 n) i) as [i'|] eqn:F; [|discriminate]. simpl in E. injection E as E.
    assert (I : (i < n)%nat). { rewrite <- (seq_length n 0). apply nth_error_Some. rewrite F. discriminate. }
    apply nth_error_nth with (d := 0%nat) in F. rewrite seq_nth in F by exact I. subst i'.
    f_equal. apply INR_eq. simpl in E. apply Rmult_eq_reg_l with (360 / INR n); lra.
  - exfalso. apply first_index_none in E. apply E. apply in_map_iff. exists j. split; [reflexivity|].
    apply in_seq. lia.
Qed.

Lemma all_cells_spec ny nx p : all_cells ny nx p = true <-> forall y x, (y < ny)%nat -> (x < nx)%nat -> p y x = true.
Proof.
  unfold all_cells. rewrite forallb_forall. split.
  - intros H y x Y X. specialize (H y). rewrite forallb_forall in H. apply H; apply in_seq; lia.
  - intros H y Y. apply forallb_forall. intros x X. apply in_seq in Y, X. apply H; lia.
Qed.
Lemma classify_ok ny nx dirs maxus dr raw : classify ny nx dirs maxus dr = Ok raw ->
  forall y x, (y < ny)%nat -> (x < nx)%nat ->
    exists d i, dr y x = Some d /\ first_index dirs d = Some i /\ raw y x = maxus i y x.
Proof.
  unfold classify. destruct (all_cells ny nx _) eqn:E; [|discriminate]. intros [= <-] y x Y X.
  rewrite all_cells_spec in E. specialize (E y x Y X). unfold cell_index in *.
  destruct (dr y x) as [d|]; [|discriminate]. destruct (first_index dirs d) as [i|] eqn:F; [|discriminate].
  exists d, i. rewrite F. auto.
Qed.
Lemma classify_err ny nx dirs maxus dr y x : (y < ny)%nat -> (x < nx)%nat ->
  cell_index dirs (dr y x) = None -> classify ny nx dirs maxus dr = Err IndexError.
Proof.
  intros Y X E. unfold classify. destruct (all_cells ny nx _) eqn:A; [|reflexivity].
  rewrite all_cells_spec in A. specialize (A y x Y X). rewrite E in A. discriminate.
Qed.

(** ** vegetation *)
Lemma veg_fold tbl v m :
  fold_left (fun a kv => if (v =? fst kv)%Z then rlift (fun x => x + snd kv) a else a) tbl m =
  rlift (fun x => x + veg_total tbl v) m.
Proof.
  revert m. induction tbl as [|[k r] tbl IH]; intros m; simpl.
  - destruct m; simpl; [rewrite Rplus_0_r|]; reflexivity.
  - rewrite IH. destruct (Z.eqb_spec v k), (Z.eq_dec k v); try congruence; destruct m; simpl; f_equal; lra.
Qed.
Lemma veg_unlisted tbl v : forallb (fun kv : Z * R => negb (v =? fst kv)%Z) tbl = true <-> ~ veg_listed tbl v.
Proof.
  rewrite forallb_forall. unfold veg_listed. split.
  - intros H (r & I). specialize (H _ I). simpl in H. rewrite Z.eqb_refl in H. discriminate.
  - intros H [k r] I. simpl. destruct (Z.eqb_spec v k) as [->|]; [|reflexivity]. exfalso. eauto.
Qed.
Lemma veg_total_unlisted tbl v : ~ veg_listed tbl v -> veg_total tbl v = 0.
Proof.
  intros H. induction tbl as [|[k r] tbl IH]; simpl; [reflexivity|].
  destruct (Z.eq_dec k v) as [->|NE]; [exfalso; apply H; exists r; left; reflexivity|].
  rewrite IH; [lra|]. intros (q & I). apply H. exists q. right. exact I.
Qed.
Lemma veg_adjust_spec c v : exists r, veg_correction (veg c) (veg_default c) v r /\
  forall m, veg_adjust c v m = rlift (fun x => x + r) m.
Proof.
  unfold veg_adjust, veg_correction.
  destruct (forallb (fun kv : Z * R => negb (v =? fst kv)%Z) (veg c)) eqn:F.
  - pose proof F as F'. apply veg_unlisted in F'. exists (veg_default c). split; [split; tauto|]. intros m.
    rewrite veg_fold, veg_total_unlisted by exact F'.
    destruct (reqb_spec (veg_default c) 0) as [Z|Z]; cbn [negb andb]; destruct m; simpl; f_equal; lra.
  - assert (L : ~ ~ veg_listed (veg c) v). { intros H. apply veg_unlisted in H. congruence. }
    exists (veg_total (veg c) v). split; [tauto|]. intros m. rewrite andb_false_r. apply veg_fold.
Qed.
Lemma cap_spec lim m : 0 <= lim -> cap lim (Some m) = Some (Rmax (- lim) (Rmin lim m)).
Proof.
  intros L. unfold cap. cbn [ncmp]. destruct (rltb_spec lim m); cbn [ncmp].
  - destruct (rltb_spec lim (- lim)); [lra|]. rewrite Rmin_left, Rmax_right by lra. reflexivity.
  - destruct (rltb_spec m (- lim)); rewrite Rmin_right by lra; [rewrite Rmax_left by lra | rewrite Rmax_right by lra]; reflexivity.
Qed.

(** ** terrain *)
Lemma rabs_cases m : (m < 0 /\ Rabs m = - m) \/ (0 <= m /\ Rabs m = m).
Proof. destruct (Rlt_dec m 0); [left | right]; split; try lra; [apply Rabs_left | apply Rabs_right]; lra. Qed.
Lemma cell_wind_terrain factor flat mx : terrain_wind factor flat mx (cell_wind factor flat mx).
Proof.
  unfold terrain_wind, cell_wind. destruct mx as [m|]; [|cbn [ncmp andb rlift option_map]; f_equal; ring].
  cbn [ncmp rlift rlift2]. unfold gap, shelter, poly_hi, poly_lo.
  destruct (rabs_cases m) as [[S ->]|[S ->]].
  - split; [intros G | intros G; destruct flat as [f|]; [split; intros HM; [|lra]|]].
    + destruct G as [G|G];
      repeat match goal with |- context [rltb ?a ?b] => destruct (rltb_spec a b); [try (exfalso; lra)|try (exfalso; lra)] end;
      destruct (rleb_spec 0 m); try (exfalso; lra); cbn [andb rlift rlift2 option_map]; f_equal; ring.
    + assert (G1 : - m <> 21.3) by tauto. assert (G2 : - m <> 30.1) by tauto.
      destruct (Rlt_dec (- m) 21.3); [|destruct (Rlt_dec (- m) 30.1)];
      repeat match goal with |- context [rltb ?a ?b] => destruct (rltb_spec a b); [try (exfalso; lra)|try (exfalso; lra)] end;
      destruct (rleb_spec 0 m); try (exfalso; lra); cbn [andb rlift rlift2 option_map]; f_equal; try (replace 1.0 with 1 by lra); try rewrite (Rabs_left m) by lra; ring.
    + assert (G1 : - m <> 21.3) by tauto. assert (G2 : - m <> 30.1) by tauto.
      repeat match goal with |- context [rltb ?a ?b] => destruct (rltb_spec a b); [try (exfalso; lra)|try (exfalso; lra)] end;
      destruct (rleb_spec 0 m); try (exfalso; lra); cbn [andb rlift rlift2 option_map]; reflexivity.
  - split; [intros G | intros G; destruct flat as [f|]; [split; intros HM; [lra|]|]].
    + destruct G as [G|G];
      repeat match goal with |- context [rltb ?a ?b] => destruct (rltb_spec a b); [try (exfalso; lra)|try (exfalso; lra)] end;
      destruct (rleb_spec 0 m); try (exfalso; lra); cbn [andb rlift rlift2 option_map]; f_equal; ring.
    + assert (G1 : m <> 21.3) by tauto. assert (G2 : m <> 30.1) by tauto.
      destruct (Rlt_dec m 21.3); [|destruct (Rlt_dec m 30.1)];
      repeat match goal with |- context [rltb ?a ?b] => destruct (rltb_spec a b); [try (exfalso; lra)|try (exfalso; lra)] end;
      destruct (rleb_spec 0 m); try (exfalso; lra); cbn [andb rlift rlift2 option_map]; f_equal;
      replace (m ^ 2) with (m * m) by ring; replace (m ^ 3) with (m * m * m) by ring; try (replace 1.0 with 1 by lra); ring.
    + assert (G1 : m <> 21.3) by tauto. assert (G2 : m <> 30.1) by tauto.
      repeat match goal with |- context [rltb ?a ?b] => destruct (rltb_spec a b); [try (exfalso; lra)|try (exfalso; lra)] end;
      destruct (rleb_spec 0 m); try (exfalso; lra); cbn [andb rlift rlift2 option_map]; reflexivity.
Qed.

(** ** measured values *)
Lemma put_fold pix vs (g : grid rnum) y x :
  length vs = length pix ->
  (forall v, assigned pix vs (y, x) v ->
     fold_left (fun g pv => set_cell g (fst pv) (snd pv)) (combine pix vs) g y x = v) /\
  (~ In (y, x) pix -> fold_left (fun g pv => set_cell g (fst pv) (snd pv)) (combine pix vs) g y x = g y x) /\
  (In (y, x) pix -> exists v, assigned pix vs (y, x) v).
Proof.
  revert vs g. induction pix as [|p pix IH]; intros [|v vs] g L; try discriminate; simpl.
  - repeat split; [|tauto]. intros w (k & K & _). destruct k; discriminate.
  - injection L as L. specialize (IH vs (set_cell g p v) L). destruct IH as (A & B & C).
    assert (SE : set_cell g p v y x = if Nat.eqb y (fst p) && Nat.eqb x (snd p) then v else g y x) by reflexivity.
    assert (PE : Nat.eqb y (fst p) && Nat.eqb x (snd p) = true <-> p = (y, x)).
    { destruct p as [a b]. simpl. rewrite andb_true_iff, !Nat.eqb_eq. split; [intros [-> ->]; reflexivity | intros [= -> ->]; auto]. }
    destruct (in_dec (fun p q : nat * nat => ltac:(decide equality; apply Nat.eq_dec)) (y, x) pix) as [I|I].
    + destruct (C I) as (w0 & k0 & K1 & K2 & K3). split; [|split].
      * intros w (k & W1 & W2 & W3). destruct k as [|k]; simpl in *.
        -- exfalso. apply (W3 (S k0)); [lia | exact K1].
        -- apply A. exists k. split; [exact W1 | split; [exact W2|]]. intros k' H. apply (W3 (S k')). lia.
      * intros H. exfalso. apply H. right. exact I.
      * intros _. exists w0, (S k0). simpl. split; [exact K1 | split; [exact K2|]].
        intros [|k'] H; [lia | apply K3; lia].
    + split; [|split].
      * intros w (k & W1 & W2 & W3). destruct k as [|k]; simpl in *.
        -- rewrite (B I), SE. injection W1 as W1. injection W2 as W2. rewrite (proj2 PE W1). exact W2.
        -- exfalso. apply I. eapply nth_error_In. exact W1.
      * intros H. rewrite (B I), SE. destruct (Nat.eqb y (fst p) && Nat.eqb x (snd p)); [|reflexivity].
        exfalso. apply H. left. apply PE. reflexivity.
      * intros [E|H]; [|contradiction]. exists v, 0%nat. simpl. rewrite E. split; [reflexivity | split; [reflexivity|]].
        intros [|k'] H; [lia|]. simpl. intros F. apply I. eapply nth_error_In. exact F.
Qed.
Lemma put_stations_ok pix speeds g g' : put_stations pix speeds g = Ok g' ->
  exists vs, length vs = length pix /\
    (vs = speeds \/ exists v, speeds = [v] /\ vs = repeat v (length pix)) /\
    forall y x, (forall v, assigned pix vs (y, x) v -> g' y x = v) /\
                (In (y, x) pix -> exists v, assigned pix vs (y, x) v) /\
                (~ In (y, x) pix -> g' y x = g y x).
Proof.
  unfold put_stations. destruct (Nat.eqb_spec (length speeds) (length pix)) as [L|L].
  - intros [= <-]. exists speeds. split; [exact L | split; [left; reflexivity|]]. intros y x.
    destruct (put_fold pix speeds g y x L) as (A & B & C). auto.
  - destruct speeds as [|v [|w l]]; try discriminate. intros [= <-]. exists (repeat v (length pix)).
    assert (L' : length (repeat v (length pix)) = length pix) by apply repeat_length.
    split; [exact L' | split; [right; eauto|]]. intros y x.
    destruct (put_fold pix _ g y x L') as (A & B & C). auto.
Qed.

(** ** filling *)
Lemma last_default {A} (l : list A) a p : last (a :: l) p = last l a.
Proof.
  revert a p. induction l as [|b l IH]; intros a p; [reflexivity|].
  change (last (a :: b :: l) p) with (last (b :: l) p). rewrite !IH. reflexivity.
Qed.
Lemma interp_split x p l1 l2 :
  (forall q, In q (p :: l1) -> fst q <= x) -> (forall q, In q l2 -> x < fst q) ->
  interp_from x p (l1 ++ l2) =
    match l2 with
    | [] => snd (last l1 p)
    | q :: _ => (snd q - snd (last l1 p)) / (fst q - fst (last l1 p)) * (x - fst (last l1 p)) + snd (last l1 p)
    end.
Proof.
  revert p. induction l1 as [|a l1 IH]; intros p A B; simpl app.
  - destruct l2 as [|q l2]; simpl; [reflexivity|]. specialize (B q (or_introl eq_refl)).
    destruct (rleb_spec (fst q) x); [lra | reflexivity].
  - assert (fst a <= x) by (apply A; simpl; auto). cbn [interp_from].
    destruct (rleb_spec (fst a) x); [|lra].
    rewrite IH; [|intros q Q; apply A; simpl in *; tauto | exact B].
    rewrite last_default. reflexivity.
Qed.

Lemma row_points_in nx g y q : In q (row_points nx g y) -> exists x, (x < nx)%nat /\ g y x = Some (snd q) /\ fst q = INR y.
Proof.
  unfold row_points. rewrite in_flat_map. intros (x & X & Q). apply in_seq in X.
  destruct (g y x) as [w|] eqn:E; [|contradiction]. destruct Q as [<-|[]]. exists x. simpl. split; [lia | auto].
Qed.
Lemma row_points_nil nx g y : row_points nx g y = [] <-> row_empty g nx y.
Proof.
  unfold row_points, row_empty. split.
  - intros H x X. destruct (g y x) as [w|] eqn:E; [|reflexivity]. exfalso.
    assert (I : In (INR y, w) []). { rewrite <- H. apply in_flat_map. exists x. split; [apply in_seq; lia|]. rewrite E. left. reflexivity. }
    contradiction.
  - intros H. assert (G : forall n k, (n + k <= nx)%nat -> flat_map (fun x => match g y x with Some w => [(INR y, w)] | None => [] end) (seq n k) = []).
    { intros n k. revert n. induction k as [|k IH]; intros n L; simpl; [reflexivity|]. rewrite H by lia. apply IH. lia. }
    apply G. lia.
Qed.
(** the same for a stretch of columns *)
Lemma row_stretch (g : grid rnum) y n k :
  let l := flat_map (fun x => match g y x with Some w => [(INR y, w)] | None => [] end) (seq n k) in
  (l = [] -> forall x, (n <= x < n + k)%nat -> g y x = None) /\
  (forall q l', l = l' ++ [q] -> fst q = INR y /\ exists x, (n <= x < n + k)%nat /\ g y x = Some (snd q) /\ forall x', (x < x' < n + k)%nat -> g y x' = None) /\
  (forall q l', l = q :: l' -> fst q = INR y /\ exists x, (n <= x < n + k)%nat /\ g y x = Some (snd q) /\ forall x', (n <= x' < x)%nat -> g y x' = None).
Proof.
  revert n. induction k as [|k IH]; intros n l.
  - unfold l. simpl. repeat split; try discriminate; intros; try lia; destruct l'; discriminate.
  - destruct (IH (S n)) as (A & B & C). unfold l. clear l. simpl. set (r := flat_map _ (seq (S n) k)) in *.
    destruct (g y n) as [w|] eqn:E; simpl.
    + split; [discriminate | split].
      * intros q l' H. destruct r as [|q' r'] eqn:R.
        -- destruct l' as [|a l']; [|destruct l'; discriminate]. injection H as <-. simpl. split; [reflexivity|].
           exists n. split; [lia | split; [exact E|]]. intros x' X. apply A; [reflexivity | lia].
        -- destruct l' as [|a l']; [discriminate|]. injection H as _ H. destruct (B q l' H) as (F & x & X & G & L).
           split; [exact F|]. exists x. split; [lia | split; [exact G|]]. intros x' X'. apply L. lia.
      * intros q l' H. injection H as <- _. simpl. split; [reflexivity|]. exists n. split; [lia | split; [exact E|]]. intros; lia.
    + split; [|split].
      * intros H x X. destruct (Nat.eq_dec x n) as [->|]; [exact E | apply A; [exact H | lia]].
      * intros q l' H. destruct (B q l' H) as (F & x & X & G & L). split; [exact F|]. exists x.
        split; [lia | split; [exact G|]]. intros x' X'. apply L. lia.
      * intros q l' H. destruct (C q l' H) as (F & x & X & G & L). split; [exact F|]. exists x.
        split; [lia | split; [exact G|]]. intros x' X'. destruct (Nat.eq_dec x' n) as [->|]; [exact E | apply L; lia].
Qed.
Lemma row_last nx g y l' q : row_points nx g y = l' ++ [q] -> fst q = INR y /\ last_in_row g nx y (snd q).
Proof.
  intros H. destruct (row_stretch g y 0 nx) as (_ & B & _). destruct (B q l' H) as (F & x & X & G & L).
  split; [exact F|]. exists x. split; [lia | split; [exact G|]]. intros. apply L. lia.
Qed.
Lemma row_first nx g y l' q : row_points nx g y = q :: l' -> fst q = INR y /\ first_in_row g nx y (snd q).
Proof.
  intros H. destruct (row_stretch g y 0 nx) as (_ & _ & C). destruct (C q l' H) as (F & x & X & G & L).
  split; [exact F|]. exists x. split; [lia | split; [exact G|]]. intros. apply L. lia.
Qed.

(** rows from n on, k of them *)
Lemma rows_last nx (g : grid rnum) n k :
  let l := flat_map (row_points nx g) (seq n k) in
  (l = [] -> forall r, (n <= r < n + k)%nat -> row_empty g nx r) /\
  (forall q l', l = l' ++ [q] -> exists a, (n <= a < n + k)%nat /\ fst q = INR a /\ last_in_row g nx a (snd q) /\
      forall r, (a < r < n + k)%nat -> row_empty g nx r) /\
  (forall q l', l = q :: l' -> exists b, (n <= b < n + k)%nat /\ fst q = INR b /\ first_in_row g nx b (snd q) /\
      forall r, (n <= r < b)%nat -> row_empty g nx r).
Proof.
  revert n. induction k as [|k IH]; intros n l.
  - unfold l. simpl. repeat split; try discriminate; intros; try lia; destruct l'; discriminate.
  - destruct (IH (S n)) as (A & B & C). unfold l. clear l. simpl. set (r := flat_map _ (seq (S n) k)) in *.
    split; [|split].
    + intros H. apply app_eq_nil in H. destruct H as [H1 H2]. intros q Q.
      destruct (Nat.eq_dec q n) as [->|]; [apply row_points_nil; exact H1 | apply A; [exact H2 | lia]].
    + intros q l' H. destruct r as [|q0 r0] eqn:R.
      * rewrite app_nil_r in H. destruct (row_last _ _ _ _ _ H) as [F L]. exists n. split; [lia | split; [exact F | split; [exact L|]]].
        intros m M. apply A; [reflexivity | lia].
      * destruct (exists_last (l := q0 :: r0)) as (r1 & q1 & E); [discriminate|]. rewrite E, app_assoc in H.
        apply app_inj_tail in H. destruct H as [_ ->]. destruct (B q r1 E) as (a & X & F & L & M).
        exists a. split; [lia | split; [exact F | split; [exact L|]]]. intros m Hm. apply M. lia.
    + intros q l' H. destruct (row_points nx g n) as [|q0 r0] eqn:R.
      * destruct (C q l' H) as (b & X & F & L & M). exists b. split; [lia | split; [exact F | split; [exact L|]]].
        intros m Hm. destruct (Nat.eq_dec m n) as [->|]; [apply row_points_nil; exact R | apply M; lia].
      * injection H as -> _. destruct (row_first _ _ _ _ _ R) as [F L]. exists n. split; [lia | split; [exact F | split; [exact L|]]].
        intros; lia.
Qed.

Lemma fill_value ny nx g y p ps : (y < ny)%nat -> points ny nx g = p :: ps ->
  filled g ny nx y (np_interp (INR y) p ps).
Proof.
  intros Y P. unfold points in P.
  assert (SP : seq 0 ny = seq 0 (S y) ++ seq (S y) (ny - S y)).
  { replace ny with (S y + (ny - S y))%nat at 1 by lia. rewrite seq_app. reflexivity. }
  rewrite SP, flat_map_app in P. clear SP.
  destruct (rows_last nx g 0 (S y)) as (A0 & A1 & A2). destruct (rows_last nx g (S y) (ny - S y)) as (B0 & B1 & B2).
  set (l1 := flat_map (row_points nx g) (seq 0 (S y))) in *. set (l2 := flat_map (row_points nx g) (seq (S y) (ny - S y))) in *.
  assert (R1 : forall q, In q l1 -> fst q <= INR y).
  { intros q Q. apply in_flat_map in Q. destruct Q as (r & R & Q). apply in_seq in R. apply row_points_in in Q.
    destruct Q as (_ & _ & _ & ->). apply le_INR. lia. }
  assert (R2 : forall q, In q l2 -> INR y < fst q).
  { intros q Q. apply in_flat_map in Q. destruct Q as (r & R & Q). apply in_seq in R. apply row_points_in in Q.
    destruct Q as (_ & _ & _ & ->). apply lt_INR. lia. }
  unfold np_interp, filled. destruct l1 as [|p1 l1'] eqn:L1.
  - simpl in P. assert (PX : INR y < fst p) by (apply R2; rewrite P; left; reflexivity).
    destruct (rltb_spec (INR y) (fst p)); [|lra]. right. split; [apply A0; [reflexivity | lia]|]. right. right.
    destruct (B2 p ps P) as (b & X & F & L & M). exists b. split; [lia | split; [exact L|]].
    intros rw RW. destruct (le_lt_dec (S y) rw); [apply M; lia | apply A0; [reflexivity | lia]].
  - injection P as -> P. subst ps.
    assert (PX : fst p <= INR y) by (apply R1; left; reflexivity).
    destruct (rltb_spec (INR y) (fst p)); [lra|]. rewrite interp_split by assumption.
    assert (EL : exists l', p :: l1' = l' ++ [last l1' p]).
    { destruct l1' as [|z l1']; [exists []; reflexivity|]. exists (p :: removelast (z :: l1')).
      rewrite <- app_comm_cons. f_equal. apply app_removelast_last. discriminate. }
    destruct EL as (l' & EL). destruct (A1 _ _ EL) as (a & X & F & L & M). set (qa := last l1' p) in *.
    destruct (Nat.eq_dec a y) as [->|AY].
    { left. destruct l2 as [|q l2]; [exact L|]. replace (INR y - fst qa) with 0 by (rewrite F; ring). rewrite Rmult_0_r, Rplus_0_l. exact L. }
    assert (EMP : row_empty g nx y) by (apply M; lia). right. split; [exact EMP|].
    destruct l2 as [|qb l2'] eqn:L2.
    + right. left. exists a. split; [lia | split; [exact L|]]. intros rw RW.
      destruct (le_lt_dec rw y); [apply M; lia | apply B0; [reflexivity | lia]].
    + left. destruct (B2 qb l2' eq_refl) as (b & XB & FB & LB & MB). exists a, (snd qa), b, (snd qb).
      split; [lia | split; [lia | split; [exact L | split; [exact LB | split]]]].
      * intros rw RW. destruct (le_lt_dec rw y); [apply M; lia | apply MB; lia].
      * rewrite F, FB, !minus_INR by lia. assert (INR a < INR b) by (apply lt_INR; lia). field. lra.
Qed.

Lemma fill_ok ny nx g g' : fill_nan ny nx g = Ok g' ->
  forall y x, (y < ny)%nat -> (x < nx)%nat ->
    (forall w, g y x = Some w -> g' y x = Some w) /\
    (g y x = None -> exists w, g' y x = Some w /\ filled g ny nx y w).
Proof.
  unfold fill_nan. destruct (all_cells ny nx _) eqn:E.
  - intros [= <-] y x Y X. split; [auto|]. intros H. rewrite all_cells_spec in E. specialize (E y x Y X).
    rewrite H in E. discriminate.
  - destruct (points ny nx g) as [|p ps] eqn:P; [discriminate|]. intros [= <-] y x Y X. split.
    + intros w ->. reflexivity.
    + intros ->. eexists. split; [reflexivity|]. apply fill_value; assumption.
Qed.
Lemma fill_err ny nx g : (forall y, (y < ny)%nat -> row_empty g nx y) -> (0 < ny)%nat -> (0 < nx)%nat ->
  fill_nan ny nx g = Err ValueError.
Proof.
  intros H NY NX. unfold fill_nan. destruct (all_cells ny nx _) eqn:E.
  - rewrite all_cells_spec in E. specialize (E 0%nat 0%nat NY NX). rewrite (H 0%nat NY 0%nat NX) in E. discriminate.
  - replace (points ny nx g) with (@nil (R * R)); [reflexivity|]. symmetry. unfold points.
    assert (G : forall n k, (n + k <= ny)%nat -> flat_map (row_points nx g) (seq n k) = []).
    { intros n k. revert n. induction k as [|k IH]; intros n L; simpl; [reflexivity|].
      rewrite (proj2 (row_points_nil nx g n)) by (apply H; lia). apply IH. lia. }
    apply G. lia.
Qed.

(** ** limits *)
Lemma set_min_max_spec lo hi v : proper lo hi ->
  exists w, set_min_max lo hi (Some v) = Some w /\ limited lo hi v w.
Proof.
  unfold set_min_max, limited, proper, at_least, at_most.
  destruct lo as [l|], hi as [h|]; cbn [ncmp]; intros P.
  - destruct (rleb_spec v l); cbn [ncmp].
    + destruct (rleb_spec h l).
      * exists h. split; [reflexivity|]. repeat split; intros; try lra; f_equal; lra.
      * exists l. split; [reflexivity|]. repeat split; intros; try lra; f_equal; lra.
    + destruct (rleb_spec h v).
      * exists h. split; [reflexivity|]. repeat split; intros; try lra; f_equal; lra.
      * exists v. split; [reflexivity|]. repeat split; intros; try lra; f_equal; lra.
  - destruct (rleb_spec v l); [exists l | exists v]; (split; [reflexivity|]); repeat split; intros; try tauto; try lra; f_equal; lra.
  - destruct (rleb_spec h v); [exists h | exists v]; (split; [reflexivity|]); repeat split; intros; try tauto; try lra; f_equal; lra.
  - exists v. split; [reflexivity|]. repeat split; intros; tauto.
Qed.

(** ** the whole simulation *)
Lemma simulate_ok ny nx c dirs maxus vt flat u v pix speeds o :
  simulate_wind ny nx c dirs maxus vt flat u v pix speeds = Ok o -> proper (wmin c) (wmax c) ->
  exists (pre : grid rnum) (vs : list rnum),
    length vs = length pix /\
    (vs = speeds \/ exists a, speeds = [a] /\ vs = repeat a (length pix)) /\
    forall y x, (y < ny)%nat -> (x < nx)%nat ->
      exists az i corr w s,
        azimuth_n (u y x) (v y x) = Some az /\
        o_direction o y x = Some az /\
        o_dir_round o y x = Some (dir_round (length dirs) az) /\
        nth_error dirs i = Some (dir_round (length dirs) az) /\
        (forall j, (j < i)%nat -> nth_error dirs j <> Some (dir_round (length dirs) az)) /\
        veg_correction (veg c) (veg_default c) (vt y x) corr /\
        o_maxus o y x = option_map (fun m => Rmax (-32) (Rmin 32 (m + corr))) (maxus i y x) /\
        (In (y, x) pix -> assigned pix vs (y, x) (pre y x)) /\
        (~ In (y, x) pix -> terrain_wind (reduction_factor c) (flat y x) (o_maxus o y x) (pre y x)) /\
        (pre y x = Some w \/ pre y x = None /\ filled pre ny nx y w) /\
        o_speed o y x = Some s /\ limited (wmin c) (wmax c) w s.
Proof.
  intros H PR. unfold simulate_wind in H. cbv zeta in H.
  set (dr := fun y x => rlift (dir_round (length dirs)) (azimuth_n (u y x) (v y x))) in *.
  destruct (classify ny nx dirs maxus dr) as [raw|] eqn:CL; [|discriminate H]. cbn [bind] in H.
  destruct (put_stations pix speeds _) as [pre|] eqn:PS in H; [|discriminate H]. cbn [bind] in H.
  destruct (fill_nan ny nx pre) as [fin|] eqn:FN; [|discriminate H]. cbn [bind] in H. injection H as <-.
  cbn [o_speed o_direction o_maxus o_dir_round].
  destruct (put_stations_ok _ _ _ _ PS) as (vs & L & V & PV).
  exists pre, vs. split; [exact L | split; [exact V|]]. intros y x Y X.
  destruct (classify_ok _ _ _ _ _ _ CL y x Y X) as (d & i & D & FI & RAW).
  destruct (veg_adjust_spec c (vt y x)) as (corr & VC & VA).
  assert (AZ : exists a, azimuth_n (u y x) (v y x) = Some a /\ d = dir_round (length dirs) a).
  { unfold dr in D. destruct (azimuth_n (u y x) (v y x)) as [a|]; [|discriminate]. exists a. split; [reflexivity|]. simpl in D. congruence. }
  destruct AZ as (a & AZ & ->). apply first_index_some in FI. destruct FI as [FI1 FI2].
  assert (CM : cell_maxus c (vt y x) (raw y x) = option_map (fun m => Rmax (-32) (Rmin 32 (m + corr))) (maxus i y x)).
  { unfold cell_maxus. rewrite RAW, VA. destruct (maxus i y x) as [m|]; [|reflexivity]. cbn [rlift option_map].
    rewrite cap_spec by lra. reflexivity. }
  destruct (PV y x) as (P1 & P2 & P3). destruct (fill_ok _ _ _ _ FN y x Y X) as [F1 F2].
  assert (FW : exists w, fin y x = Some w /\ (pre y x = Some w \/ pre y x = None /\ filled pre ny nx y w)).
  { destruct (pre y x) as [w|] eqn:PRE; [exists w; auto|]. destruct (F2 eq_refl) as (w & E & F). exists w. auto. }
  destruct FW as (w & FW & FP). destruct (set_min_max_spec _ _ w PR) as (s & SM & LIM).
  exists a, i, corr, w, s. split; [exact AZ|]. split; [exact AZ|]. split; [unfold dr; rewrite AZ; reflexivity|].
  split; [exact FI1|]. split; [exact FI2|]. split; [exact VC|]. split; [exact CM|].
  split; [intros I; destruct (P2 I) as (z & Z); rewrite (P1 z Z); exact Z|].
  split; [intros I; rewrite (P3 I); apply cell_wind_terrain|].
  split; [exact FP|]. rewrite FW. split; [exact SM | exact LIM].
Qed.

Lemma simulate_missing_direction ny nx c dirs maxus vt flat u v pix speeds y x :
  (y < ny)%nat -> (x < nx)%nat -> u y x = None \/ v y x = None ->
  simulate_wind ny nx c dirs maxus vt flat u v pix speeds = Err IndexError.
Proof.
  intros Y X H. unfold simulate_wind. erewrite (classify_err _ _ _ _ _ y x Y X); [reflexivity|].
  unfold azimuth_n. destruct H as [-> | ->]; [reflexivity|]. destruct (u y x); reflexivity.
Qed.
Lemma simulate_unknown_direction ny nx c dirs maxus vt flat u v pix speeds y x a :
  (y < ny)%nat -> (x < nx)%nat -> azimuth_n (u y x) (v y x) = Some a -> ~ In (dir_round (length dirs) a) dirs ->
  simulate_wind ny nx c dirs maxus vt flat u v pix speeds = Err IndexError.
Proof.
  intros Y X A H. unfold simulate_wind. erewrite (classify_err _ _ _ _ _ y x Y X); [reflexivity|].
  rewrite A. cbn [rlift option_map cell_index]. apply first_index_none. exact H.
Qed.

Lemma cell_wind_defined factor f mx : exists w, cell_wind factor (Some f) mx = Some w.
Proof.
  pose proof (cell_wind_terrain factor (Some f) mx) as T. unfold terrain_wind in T.
  destruct mx as [m|]; [|eauto]. destruct T as [T1 T2].
  destruct (Req_EM_T (Rabs m) 21.3) as [E|E]; [eexists; apply T1; left; exact E|].
  destruct (Req_EM_T (Rabs m) 30.1) as [E'|E']; [eexists; apply T1; right; exact E'|].
  destruct T2 as [A B]; [unfold gap; tauto|]. destruct (Rlt_dec m 0); [eexists; apply A; assumption | eexists; apply B; lra].
Qed.

Lemma simulate_succeeds ny nx c n dirs maxus vt flat u v pix speeds :
  (0 < n)%nat -> even_library n dirs -> length speeds = length pix ->
  (forall y x, (y < ny)%nat -> (x < nx)%nat -> flat y x <> None /\ u y x <> None /\ v y x <> None) ->
  (forall a, In a speeds -> a <> None) ->
  exists o, simulate_wind ny nx c dirs maxus vt flat u v pix speeds = Ok o.
Proof.
  intros N EL LEN DEF SP. unfold simulate_wind.
  assert (LD : length dirs = n). { rewrite EL, map_length, seq_length. reflexivity. }
  destruct (classify ny nx dirs maxus _) as [raw|e] eqn:CL.
  2: { exfalso. unfold classify in CL. destruct (all_cells ny nx _) eqn:A; [discriminate|].
       assert (T : all_cells ny nx (fun y x => match cell_index dirs (rlift (dir_round (length dirs)) (azimuth_n (u y x) (v y x))) with Some _ => true | None => false end) = true).
       { apply all_cells_spec. intros y x Y X. destruct (DEF y x Y X) as (_ & U & V).
         destruct (u y x) as [a|]; [|contradiction]. destruct (v y x) as [b|]; [|contradiction].
         cbn [azimuth_n rlift2 rlift option_map cell_index]. rewrite LD.
         destruct (dir_round_spec n (azimuth a b) N (azimuth_range a b)) as ((j & J & ->) & _).
         rewrite (first_index_even n dirs j N EL J). reflexivity. }
       congruence. }
  cbn [bind]. unfold put_stations. rewrite LEN, Nat.eqb_refl. cbn [bind].
  set (g := fold_left _ _ _). destruct (fill_nan ny nx g) as [fin|] eqn:F; [eexists; reflexivity|]. exfalso.
  unfold fill_nan in F. destruct (all_cells ny nx _) eqn:A; [discriminate|].
  assert (T : all_cells ny nx (fun y x => match g y x with Some _ => true | None => false end) = true); [|congruence].
  apply all_cells_spec. intros y x Y X. destruct (put_fold pix speeds (fun y x => cell_wind (reduction_factor c) (flat y x) (cell_maxus c (vt y x) (raw y x))) y x LEN) as (P1 & P2 & P3).
  fold g in P1, P2. destruct (in_dec (fun p q : nat * nat => ltac:(decide equality; apply Nat.eq_dec)) (y, x) pix) as [I|I].
  - destruct (P3 I) as (z & Z). rewrite (P1 z Z). destruct Z as (k & _ & K & _). apply nth_error_In in K.
    destruct z; [reflexivity | exfalso; apply (SP None K); reflexivity].
  - rewrite (P2 I). destruct (DEF y x Y X) as (FL & _ & _). destruct (flat y x) as [f|]; [|contradiction].
    destruct (cell_wind_defined (reduction_factor c) f (cell_maxus c (vt y x) (raw y x))) as (w & ->). reflexivity.
Qed.
Lemma simulate_wrong_count ny nx c n dirs maxus vt flat u v pix speeds :
  (0 < n)%nat -> even_library n dirs -> length speeds <> length pix -> length speeds <> 1%nat ->
  (forall y x, (y < ny)%nat -> (x < nx)%nat -> u y x <> None /\ v y x <> None) ->
  simulate_wind ny nx c dirs maxus vt flat u v pix speeds = Err ValueError.
Proof.
  intros N EL LEN L1 DEF. unfold simulate_wind.
  assert (LD : length dirs = n). { rewrite EL, map_length, seq_length. reflexivity. }
  destruct (classify ny nx dirs maxus _) as [raw|e] eqn:CL.
  - cbn [bind]. unfold put_stations. destruct (Nat.eqb_spec (length speeds) (length pix)); [contradiction|].
    destruct speeds as [|a [|b l]]; [reflexivity | exfalso; apply L1; reflexivity | reflexivity].
  - exfalso. unfold classify in CL. destruct (all_cells ny nx _) eqn:A; [discriminate|].
    assert (T : all_cells ny nx (fun y x => match cell_index dirs (rlift (dir_round (length dirs)) (azimuth_n (u y x) (v y x))) with Some _ => true | None => false end) = true).
    { apply all_cells_spec. intros y x Y X. destruct (DEF y x Y X) as (U & V).
      destruct (u y x) as [a|]; [|contradiction]. destruct (v y x) as [b|]; [|contradiction].
      cbn [azimuth_n rlift2 rlift option_map cell_index]. rewrite LD.
      destruct (dir_round_spec n (azimuth a b) N (azimuth_range a b)) as ((j & J & ->) & _).
      rewrite (first_index_even n dirs j N EL J). reflexivity. }
    congruence.
Qed.

(** ** the shelter factor *)
Definition p_lo c := 1 + 0.1031717 * c - 0.008003561 * (c * c) + 0.0003996581 * (c * c * c).
Definition p_hi c := 1.756507 - 0.1678945 * c + 0.01927844 * (c * c) - 0.0003651592 * (c * c * c).
Lemma p_lo_mono a b : 0 <= a -> a < b -> p_lo a < p_lo b.
Proof.
  intros A B. unfold p_lo.
  assert (0 < (b - a) * (0.1031717 - 0.008003561 * (a + b) + 0.0003996581 * (a * a + a * b + b * b))); [|lra].
  apply Rmult_lt_0_compat; [lra|].
  assert (0 <= (a + b - 13.35) * (a + b - 13.35)) by apply Rle_0_sqr.
  assert (0 <= (a - b) * (a - b)) by apply Rle_0_sqr. nra.
Qed.
Lemma p_hi_mono a b : 21.3 <= a -> a < b -> b <= 30.1 -> p_hi a < p_hi b.
Proof.
  intros A B C. unfold p_hi.
  assert (0 < (b - a) * (- 0.1678945 + 0.01927844 * (a + b) - 0.0003651592 * (a * a + a * b + b * b))); [|lra].
  apply Rmult_lt_0_compat; [lra|].
  assert (0 <= (a - 21.3) * (30.1 - a)) by (apply Rmult_le_pos; lra).
  assert (0 <= (b - 21.3) * (30.1 - b)) by (apply Rmult_le_pos; lra).
  assert (0 <= (a - 21.3) * (30.1 - b)) by (apply Rmult_le_pos; lra).
  assert (0 <= (b - 21.3) * (30.1 - a)) by (apply Rmult_le_pos; lra).
  lra.
Qed.
Lemma shelter_bounds c : 0 <= c -> 1 <= shelter c <= 4.2112.
Proof.
  intros C. unfold shelter. destruct (Rlt_dec c 21.3) as [L|L].
  - fold (p_lo c). destruct (Req_dec c 0) as [->|NZ]; [unfold p_lo; lra|].
    assert (p_lo 0 < p_lo c) by (apply p_lo_mono; lra). assert (p_lo c < p_lo 21.3) by (apply p_lo_mono; lra).
    assert (p_lo 0 = 1) by (unfold p_lo; lra). assert (p_lo 21.3 < 4.2112) by (unfold p_lo; lra). lra.
  - destruct (Rlt_dec c 30.1) as [M|M]; [|lra]. fold (p_hi c).
    assert (p_hi c < p_hi 30.1) by (apply p_hi_mono; lra). assert (p_hi 30.1 < 4.2112) by (unfold p_hi; lra).
    destruct (Req_dec c 21.3) as [->|NZ]; [unfold p_hi; lra|].
    assert (p_hi 21.3 < p_hi c) by (apply p_hi_mono; lra). assert (1 < p_hi 21.3) by (unfold p_hi; lra). lra.
Qed.
Lemma shelter_mono a b : 0 <= a -> a < b -> same_band a b -> shelter a < shelter b.
Proof.
  intros A B [S|[S1 S2]]; unfold shelter.
  - destruct (Rlt_dec a 21.3); [|lra]. destruct (Rlt_dec b 21.3); [|lra]. apply p_lo_mono; assumption.
  - destruct (Rlt_dec a 21.3); [lra|]. destruct (Rlt_dec b 21.3); [lra|].
    destruct (Rlt_dec a 30.1); [|lra]. destruct (Rlt_dec b 30.1); [|lra]. apply p_hi_mono; lra.
Qed.

Lemma terrain_bounds factor f m w : 0 < f -> 0 < factor -> ~ gap m ->
  terrain_wind factor (Some f) (Some m) w ->
  exists r, w = Some r /\ 0 < r /\
    (0 <= m -> 1.07985 * f / 4.2112 <= r <= 1.07985 * f) /\
    (m < 0 -> 1.07985 * (factor * f) <= r <= 1.07985 * (factor * f) * 4.2112).
Proof.
  intros F K G [_ T]. destruct (T G) as [T1 T2].
  assert (FK : 0 < factor * f) by (apply Rmult_lt_0_compat; assumption).
  destruct (Rlt_dec m 0) as [N|N].
  - pose proof (shelter_bounds (- m)) as B. eexists. split; [apply T1; exact N|].
    split; [|split; [lra|intros _]]; nra.
  - pose proof (shelter_bounds m) as B. eexists. split; [apply T2; lra|].
    assert (D : f / shelter m * shelter m = f) by (field; lra). set (t := f / shelter m) in *.
    assert (TP : 0 < t). { unfold t. apply Rdiv_lt_0_compat; lra. }
    assert (D2 : f / 4.2112 * 4.2112 = f) by lra.
    split; [lra|split; [intros _|lra]].
    replace (1.07985 * f / 4.2112) with (1.07985 * (f / 4.2112)) by lra. set (t2 := f / 4.2112) in *. nra.
Qed.
Lemma terrain_less_wind factor f a b wa wb : 0 < f -> 0 < factor -> a < b -> ~ gap a -> ~ gap b ->
  (0 <= a /\ same_band a b \/ b < 0 /\ same_band (- b) (- a) \/ a < 0 <= b /\ 1 <= factor) ->
  terrain_wind factor (Some f) (Some a) (Some wa) -> terrain_wind factor (Some f) (Some b) (Some wb) -> wb <= wa.
Proof.
  intros F K AB GA GB C [_ TA] [_ TB]. destruct (TA GA) as [A1 A2]. destruct (TB GB) as [B1 B2]. clear TA TB.
  assert (FK : 0 < factor * f) by (apply Rmult_lt_0_compat; assumption).
  assert (DIV : forall p q, 0 < p -> p <= q -> f / q <= f / p).
  { intros p q P Q. unfold Rdiv. apply Rmult_le_compat_l; [lra|]. apply Rinv_le_contravar; lra. }
  destruct C as [[A S]|[[B S]|[[A B] K1]]].
  - assert (M : shelter a < shelter b) by (apply shelter_mono; assumption). pose proof (shelter_bounds a A).
    specialize (A2 A). specialize (B2 ltac:(lra)). injection A2 as ->. injection B2 as ->.
    specialize (DIV (shelter a) (shelter b) ltac:(lra) ltac:(lra)). lra.
  - specialize (A1 ltac:(lra)). injection A1 as ->. specialize (B1 ltac:(lra)). injection B1 as ->.
    assert (M : shelter (- b) < shelter (- a)) by (apply shelter_mono; lra || assumption). nra.
  - specialize (A1 A). injection A1 as ->. specialize (B2 B). injection B2 as ->.
    pose proof (shelter_bounds (- a)). pose proof (shelter_bounds b B).
    specialize (DIV 1 (shelter b) ltac:(lra) ltac:(lra)). replace (f / 1) with f in DIV by field. nra.
Qed.

(** ** stations *)
Lemma np_min_spec l v : np_min l = Ok v -> least l v.
Proof.
  destruct l as [|a l]; [discriminate|]. simpl. intros [= <-]. revert a.
  assert (N : forall l, fold_left min2 l None = None). { induction l0 as [|b l0 IH]; [reflexivity | exact IH]. }
  induction l as [|b l IH]; intros a; simpl.
  - destruct a as [m|]; simpl; [|left; reflexivity]. split; [left; reflexivity|]. intros z [<-|[]]. exists m. split; [reflexivity | lra].
  - specialize (IH (min2 a b)). destruct a as [m|]; simpl in *.
    + destruct b as [r|]; simpl in *.
      * destruct (fold_left min2 l (Some (Rmin m r))) as [q|]; simpl in *.
        -- destruct IH as [I1 I2]. destruct (I2 _ (or_introl eq_refl)) as (z & Z & QZ). injection Z as Z.
           pose proof (Rmin_l m r). pose proof (Rmin_r m r). split.
           ++ destruct I1 as [E|I]; [|tauto]. injection E as <-. unfold Rmin. destruct (Rle_dec m r); tauto.
           ++ intros a [<-|[<-|I]]; [exists m | exists r | apply I2; tauto]; (split; [reflexivity | lra]).
        -- destruct IH as [E|I]; [discriminate | tauto].
      * rewrite N in *. simpl. tauto.
    + rewrite N in *. simpl. tauto.
Qed.
Lemma np_min_ok l : l <> [] -> exists v, np_min l = Ok v.
Proof. destruct l; [congruence | simpl; eauto]. Qed.

Lemma exp_val_spec c : station_shelter c (exp_val c).
Proof.
  unfold station_shelter, exp_val, poly_hi, poly_lo. split; [|split]; intros H.
  - destruct (rltb_spec 21.3 c); [lra|]. cbn [andb]. destruct (rleb_spec 30.0 c); [lra|].
    replace 1.0 with 1 by lra. ring.
  - destruct (rltb_spec 21.3 c); [|lra]. destruct (rltb_spec c 30.0); [|lra]. cbn [andb]. ring.
  - destruct (rltb_spec 21.3 c); [|lra]. destruct (rltb_spec c 30.0); [lra|]. cbn [andb].
    destruct (rleb_spec 30.0 c); lra.
Qed.
Lemma flat_wind_spec sp m : flattened sp m (flat_wind sp (cap 35 m)).
Proof.
  unfold flattened. destruct sp as [s|]; [|reflexivity]. destruct m as [m|]; [|reflexivity].
  rewrite cap_spec by lra. unfold flat_wind. cbn [rlift2].
  replace (- (35)) with (-35) by lra. set (k := Rmax (-35) (Rmin 35 m)). exists (Rmin 35 (Rabs m)), (exp_val (Rmin 35 (Rabs m))).
  assert (E : Rabs k = Rmin 35 (Rabs m) /\ (0 < m -> 0 < k) /\ (m <= 0 -> k <= 0)).
  { unfold k. destruct (Rle_dec m (-35)) as [A|A]; [|destruct (Rle_dec 35 m) as [B|B]].
    - rewrite (Rmin_right 35 m), (Rmax_left (-35) m), !Rabs_left, (Rmin_left 35) by lra. lra.
    - rewrite (Rmin_left 35 m), (Rmax_right (-35) 35), !Rabs_right, (Rmin_left 35) by lra. lra.
    - rewrite (Rmin_right 35 m), (Rmax_right (-35) m) by lra.
      destruct (rabs_cases m) as [[C ->]|[C ->]]; rewrite Rmin_right by lra; lra. }
  destruct E as (-> & E1 & E2). split; [reflexivity | split; [apply exp_val_spec | split; intros H]].
  - destruct (rltb_spec 0 k); [reflexivity | exfalso; specialize (E1 H); lra].
  - destruct (rltb_spec 0 k); [exfalso; specialize (E2 H); lra | reflexivity].
Qed.
Lemma station_shelter_bounds c k : 0 <= c -> station_shelter c k -> 1 <= k <= 4.2112.
Proof.
  intros C (A & B & D). destruct (Rle_dec c 21.3) as [L|L].
  - rewrite (A L). fold (p_lo c). assert (p_lo 0 = 1) by (unfold p_lo; lra). assert (p_lo 21.3 < 4.2112) by (unfold p_lo; lra).
    destruct (Req_dec c 0) as [->|]; [lra|]. assert (p_lo 0 < p_lo c) by (apply p_lo_mono; lra).
    destruct (Req_dec c 21.3) as [->|]; [lra|]. assert (p_lo c < p_lo 21.3) by (apply p_lo_mono; lra). lra.
  - destruct (Rlt_dec c 30) as [M|M].
    + rewrite B by lra. fold (p_hi c). assert (p_hi c < p_hi 30.1) by (apply p_hi_mono; lra).
      assert (p_hi 30.1 < 4.2112) by (unfold p_hi; lra). assert (p_hi 21.3 < p_hi c) by (apply p_hi_mono; lra).
      assert (1 < p_hi 21.3) by (unfold p_hi; lra). lra.
    + rewrite D by lra. lra.
Qed.

(** binning of a station direction, up to and including 360 *)
Lemma bin_ceil360 n az : (0 < n)%nat -> 0 <= az <= 360 ->
  exists k : nat, (k <= n)%nat /\ rceil ((az - nstep n / 2) / nstep n) = INR k /\
    (INR k - 1 / 2) * nstep n < az <= (INR k + 1 / 2) * nstep n.
Proof.
  intros N A. destruct (Rlt_dec az 360) as [L|L].
  - destruct (bin_ceil n az N) as (k & K & E & B); [lra|]. exists k. repeat split; [exact K | exact E | lra | lra].
  - assert (az = 360) by lra. subst az. destruct (nstep_pos n N) as [S E].
    exists n. split; [lia|]. split; [|nra].
    rewrite INR_IZR_INZ. apply rceil_unique. rewrite <- INR_IZR_INZ.
    replace ((360 - nstep n / 2) / nstep n) with (INR n - 1 / 2); [lra|].
    rewrite <- E. field. lra.
Qed.
Lemma rtrunc_IZR k : rtrunc (IZR k) = k.
Proof.
  assert (I : forall z, Int_part (IZR z) = z).
  { intros z. pose proof (base_Int_part (IZR z)) as [A B]. assert ((Int_part (IZR z) <= z)%Z) by (apply le_IZR; lra).
    assert ((z < Int_part (IZR z) + 1)%Z) by (apply lt_IZR; rewrite plus_IZR; lra). lia. }
  unfold rtrunc. destruct (rleb_spec 0 (IZR k)); [apply I|]. rewrite <- opp_IZR, I. lia.
Qed.
Lemma filter_even n (s : R) (col : list rnum) j : 0 < s -> length col = n -> (j < n)%nat ->
  filter (fun p : R * rnum => reqb (fst p) (s * INR j)) (combine (map (fun k => s * INR k) (seq 0 n)) col) = [(s * INR j, nth j col None)].
Proof.
  intros S. assert (G : forall col a j, (a <= j < a + length col)%nat ->
    filter (fun p : R * rnum => reqb (fst p) (s * INR j)) (combine (map (fun k => s * INR k) (seq a (length col))) col) = [(s * INR j, nth (j - a) col None)]).
  { clear col j n. induction col as [|c col IH]; intros a j J; simpl in J; [lia|]. simpl.
    assert (Z : forall a', (j < a')%nat -> filter (fun p : R * rnum => reqb (fst p) (s * INR j)) (combine (map (fun k => s * INR k) (seq a' (length col))) col) = []).
    { clear - S. induction col as [|c col IH]; intros a' A; [reflexivity|]. simpl.
      destruct (reqb_spec (s * INR a') (s * INR j)) as [E|_]; [|apply IH; lia].
      exfalso. apply Rmult_eq_reg_l in E; [|lra]. apply INR_eq in E. lia. }
    destruct (reqb_spec (s * INR a) (s * INR j)) as [E|NE].
    - apply Rmult_eq_reg_l in E; [|lra]. apply INR_eq in E. subst a. rewrite Z by lia. rewrite Nat.sub_diag. reflexivity.
    - assert (a <> j) by (intros ->; apply NE; reflexivity). rewrite IH by lia.
      replace (j - a)%nat with (Datatypes.S (j - Datatypes.S a)) by lia. reflexivity. }
  intros L J. subst n. rewrite G by lia. rewrite Nat.sub_0_r. reflexivity.
Qed.
Lemma lib_column_nth n maxus s j : (j < n)%nat -> nth j (lib_column n maxus s) None = maxus j (st_yi s) (st_xi s).
Proof.
  intros J. unfold lib_column. rewrite nth_indep with (d' := (fun i => maxus i (st_yi s) (st_xi s)) 0%nat).
  - rewrite (map_nth (fun i => maxus i (st_yi s) (st_xi s))), seq_nth by exact J. reflexivity.
  - rewrite map_length, seq_length. exact J.
Qed.

Lemma station_val_free n dirs maxus val s d (q : Z) :
  (0 < n)%nat -> even_library n dirs -> (q * Z.of_nat n = 360)%Z -> 0 <= d <= 360 ->
  exists j, (j < n)%nat /\ within_angle d (360 / INR n * INR j) (180 / INR n) /\
    station_val None dirs maxus val s d = Ok (Some (rlift (fun m => m + st_enhancement s) (maxus j (st_yi s) (st_xi s)))).
Proof.
  intros N EL Q D. assert (LD : length dirs = n). { rewrite EL, map_length, seq_length. reflexivity. }
  destruct (bin_ceil360 n d N D) as (k & K & E & B). destruct (nstep_pos n N) as [S SE].
  assert (NP : 0 < INR n) by (apply lt_0_INR; lia).
  assert (SQ : nstep n = IZR q). { apply Rmult_eq_reg_l with (INR n); [|lra]. rewrite SE, INR_IZR_INZ, <- mult_IZR. f_equal. lia. }
  assert (H : 180 / INR n = nstep n / 2) by (unfold nstep; field; lra).
  set (j := if Nat.eqb k n then 0%nat else k). exists j.
  assert (J : (j < n)%nat) by (unfold j; destruct (Nat.eqb_spec k n); lia). split; [exact J|]. split.
  - rewrite H. fold (nstep n). unfold j. destruct (Nat.eqb_spec k n) as [->|NE].
    + exists (-1)%Z. apply Rabs_le. simpl. nra.
    + exists 0%Z. apply Rabs_le. nra.
  - unfold station_val. rewrite LD, E, SQ, INR_IZR_INZ, <- mult_IZR, rtrunc_IZR. cbv zeta.
    assert (X : IZR (if (Z.of_nat k * q =? 360)%Z then 0%Z else (Z.of_nat k * q)%Z) = IZR q * INR j).
    { unfold j. destruct (Nat.eqb_spec k n) as [->|NE].
      - destruct (Z.eqb_spec (Z.of_nat n * q) 360); [simpl; ring | exfalso; lia].
      - destruct (Z.eqb_spec (Z.of_nat k * q) 360) as [F|]; [exfalso; apply NE; nia|]. rewrite mult_IZR, INR_IZR_INZ. ring. }
    rewrite X, EL. fold (nstep n). rewrite SQ, (filter_even n); [|rewrite <- SQ; exact S | unfold lib_column; rewrite map_length, seq_length; reflexivity | exact J].
    rewrite lib_column_nth by exact J. reflexivity.
Qed.

Lemma loop_free n dirs maxus speed direction val sts l (q : Z) :
  (0 < n)%nat -> even_library n dirs -> (q * Z.of_nat n = 360)%Z ->
  (forall s d, In s sts -> get direction (st_name s) = Some (Some d) -> 0 <= d <= 360) ->
  station_loop None dirs maxus speed direction val sts = Ok l ->
  length l = length sts /\
  forall k s, nth_error sts k = Some s -> exists r, nth_error l k = Some r /\
    (get direction (st_name s) = Some None /\ r = None \/
     exists d sp j, get direction (st_name s) = Some (Some d) /\ get speed (st_name s) = Some sp /\
       (j < n)%nat /\ within_angle d (360 / INR n * INR j) (180 / INR n) /\
       flattened sp (option_map (fun m => m + st_enhancement s) (maxus j (st_yi s) (st_xi s))) r).
Proof.
  intros N EL Q. revert val l. induction sts as [|s sts IH]; intros val l D H; cbn [station_loop] in H.
  - injection H as <-. split; [reflexivity|]. intros [|k] s; discriminate.
  - assert (D' : forall s0 d, In s0 sts -> get direction (st_name s0) = Some (Some d) -> 0 <= d <= 360).
    { intros s0 d I. apply D. right. exact I. }
    destruct (get direction (st_name s)) as [[d|]|] eqn:GD; [| |discriminate].
    + destruct (station_val_free n dirs maxus val s d q N EL Q) as (j & J & W & V); [apply (D s); [left; reflexivity | exact GD]|].
      rewrite V in H. cbn [bind] in H. destruct (get speed (st_name s)) as [sp|] eqn:GS; [|discriminate].
      destruct (station_loop None dirs maxus speed direction _ sts) as [l'|] eqn:R; [|discriminate]. injection H as <-.
      destruct (IH _ _ D' R) as [L F]. split; [simpl; rewrite L; reflexivity|]. intros [|k] s0 K; simpl in *.
      * injection K as <-. eexists. split; [reflexivity|]. right. exists d, sp, j. repeat split; auto. apply flat_wind_spec.
      * apply F. exact K.
    + destruct (station_loop None dirs maxus speed direction val sts) as [l'|] eqn:R; [|discriminate]. injection H as <-.
      destruct (IH _ _ D' R) as [L F]. split; [simpl; rewrite L; reflexivity|]. intros [|k] s0 K; simpl in *.
      * injection K as <-. exists None. auto.
      * apply F. exact K.
Qed.

Lemma cap_idem lim m : 0 <= lim -> cap lim (cap lim m) = cap lim m.
Proof.
  intros L. destruct m as [m|]; [|reflexivity]. rewrite !cap_spec by exact L. f_equal.
  set (x := Rmax (- lim) (Rmin lim m)). assert (- lim <= x) by apply Rmax_l.
  assert (x <= lim) by (apply Rmax_lub; [lra | apply Rmin_l]).
  rewrite Rmin_right, Rmax_right by assumption. reflexivity.
Qed.

Lemma upper_capitals s : upper s = LoadSpec.capitals s.
Proof.
  assert (U : forall c, upper_ascii c = LoadSpec.capital_in "abcdefghijklmnopqrstuvwxyz"%string "ABCDEFGHIJKLMNOPQRSTUVWXYZ"%string c) by (intros [[] [] [] [] [] [] [] []]; vm_compute; reflexivity).
  induction s as [|c r IH]; [reflexivity|]. cbn [upper LoadSpec.capitals]. now rewrite IH, U.
Qed.
Lemma loop_peaks peaks dirs maxus speed direction val sts l :
  station_loop (Some peaks) dirs maxus speed direction val sts = Ok l ->
  length l = length sts /\
  forall k s, nth_error sts k = Some s -> exists r, nth_error l k = Some r /\
    (get direction (st_name s) = Some None /\ r = None \/
     exists d sp m, get direction (st_name s) = Some (Some d) /\ get speed (st_name s) = Some sp /\
       r = flat_wind sp (cap 35 m) /\
       ((exists p, governs peaks direction sts k p /\
                   least (map (option_map (fun m => m + st_enhancement p)) (lib_column (length dirs) maxus p)) m) \/
        (never_peak peaks direction sts k /\ val = Some m))).
Proof.
  revert val l. induction sts as [|s sts IH]; intros val l H; cbn [station_loop] in H.
  - injection H as <-. split; [reflexivity|]. intros [|k] s; discriminate.
  - destruct (get direction (st_name s)) as [[d|]|] eqn:GD; [| |discriminate].
    + unfold station_val in H. destruct (existsb (String.eqb (upper (st_name s))) peaks) eqn:P.
      * assert (IP : is_peak peaks direction s).
        { split; [|eauto]. apply existsb_exists in P. destruct P as (z & Z & E). apply String.eqb_eq in E. subst z. rewrite <- upper_capitals. exact Z. }
        destruct (np_min _) as [m|] eqn:NM in H; [|discriminate]. apply np_min_spec in NM. cbn [bind] in H.
        destruct (get speed (st_name s)) as [sp|] eqn:GS; [|discriminate].
        destruct (station_loop _ _ _ _ _ _ sts) as [l'|] eqn:R in H; [|discriminate]. injection H as <-.
        destruct (IH _ _ R) as [L F]. split; [simpl; rewrite L; reflexivity|]. intros [|k] s0 K; simpl in *.
        -- injection K as <-. eexists. split; [reflexivity|]. right. exists d, sp, m. repeat split; auto.
           left. exists s. split; [|exact NM]. exists 0%nat. split; [lia | split; [reflexivity | split; [exact IP|]]]. intros; lia.
        -- destruct (F k s0 K) as (r & NR & [C|(d0 & sp0 & m0 & G1 & G2 & G3 & C)]); exists r; (split; [exact NR|]); [left; exact C|].
           right. destruct C as [(p & (j & J1 & J2 & J3 & J4) & LE)|[NP VM]].
           ++ exists d0, sp0, m0. repeat split; auto. left. exists p. split; [|exact LE]. exists (S j).
              split; [lia | split; [exact J2 | split; [exact J3|]]]. intros [|i] s1 I1 I2; [lia|]. apply (J4 i); [lia | exact I2].
           ++ injection VM as VM. exists d0, sp0, m. repeat split; auto; [subst m0; rewrite cap_idem in G3 by lra; exact G3|].
              left. exists s. split; [|exact NM]. exists 0%nat. split; [lia | split; [reflexivity | split; [exact IP|]]].
              intros [|i] s1 I1 I2; [lia|]. apply (NP i); [lia | exact I2].
      * assert (IP : ~ is_peak peaks direction s).
        { intros [I _]. assert (X : existsb (String.eqb (upper (st_name s))) peaks = true); [|congruence].
          apply existsb_exists. exists (upper (st_name s)). split; [rewrite upper_capitals; exact I | apply String.eqb_refl]. }
        cbn [bind] in H. destruct val as [m|]; [|discriminate].
        destruct (get speed (st_name s)) as [sp|] eqn:GS; [|discriminate].
        destruct (station_loop _ _ _ _ _ _ sts) as [l'|] eqn:R in H; [|discriminate]. injection H as <-.
        destruct (IH _ _ R) as [L F]. split; [simpl; rewrite L; reflexivity|]. intros [|k] s0 K; simpl in *.
        -- injection K as <-. eexists. split; [reflexivity|]. right. exists d, sp, m. repeat split; auto.
           right. split; [|reflexivity]. intros [|i] s1 I1 I2; [|lia]. simpl in I2. injection I2 as <-. exact IP.
        -- destruct (F k s0 K) as (r & NR & [C|(d0 & sp0 & m0 & G1 & G2 & G3 & C)]); exists r; (split; [exact NR|]); [left; exact C|].
           right. destruct C as [(p & (j & J1 & J2 & J3 & J4) & LE)|[NP VM]].
           ++ exists d0, sp0, m0. repeat split; auto. left. exists p. split; [|exact LE]. exists (S j).
              split; [lia | split; [exact J2 | split; [exact J3|]]]. intros [|i] s1 I1 I2; [lia|]. apply (J4 i); [lia | exact I2].
           ++ injection VM as VM. exists d0, sp0, m. repeat split; auto; [subst m0; rewrite cap_idem in G3 by lra; exact G3|].
              right. split; [|reflexivity]. intros [|i] s1 I1 I2; simpl in I2; [injection I2 as <-; exact IP|]. apply (NP i); [lia | exact I2].
    + assert (IP : ~ is_peak peaks direction s). { intros [_ (d & E)]. congruence. }
      destruct (station_loop _ _ _ _ _ _ sts) as [l'|] eqn:R in H; [|discriminate]. injection H as <-.
      destruct (IH _ _ R) as [L F]. split; [simpl; rewrite L; reflexivity|]. intros [|k] s0 K; simpl in *.
      * injection K as <-. exists None. auto.
      * destruct (F k s0 K) as (r & NR & [C|(d0 & sp0 & m0 & G1 & G2 & G3 & C)]); exists r; (split; [exact NR|]); [left; exact C|].
        right. exists d0, sp0, m0. repeat split; auto. destruct C as [(p & (j & J1 & J2 & J3 & J4) & LE)|[NP VM]].
        -- left. exists p. split; [|exact LE]. exists (S j).
           split; [lia | split; [exact J2 | split; [exact J3|]]]. intros [|i] s1 I1 I2; [lia|]. apply (J4 i); [lia | exact I2].
        -- right. split; [|exact VM]. intros [|i] s1 I1 I2; simpl in I2; [injection I2 as <-; exact IP|]. apply (NP i); [lia | exact I2].
Qed.

(** a station with a direction before any listed one stops the run *)
Lemma loop_unbound peaks dirs maxus speed direction sts k s d :
  nth_error sts k = Some s -> get direction (st_name s) = Some (Some d) -> never_peak peaks direction sts k ->
  (forall i t, (i < k)%nat -> nth_error sts i = Some t -> get direction (st_name t) <> None) ->
  station_loop (Some peaks) dirs maxus speed direction None sts = Err UnboundLocalError.
Proof.
  revert k. induction sts as [|t sts IH]; intros k K G NP DEF; [destruct k; discriminate|]. cbn [station_loop].
  assert (NT : ~ is_peak peaks direction t) by (apply (NP 0%nat); [lia | reflexivity]).
  destruct (get direction (st_name t)) as [[e|]|] eqn:GT.
  - unfold station_val. destruct (existsb (String.eqb (upper (st_name t))) peaks) eqn:P; [|reflexivity].
    exfalso. apply NT. split; [|eauto]. apply existsb_exists in P. destruct P as (z & Z & E). apply String.eqb_eq in E. subst z. rewrite <- upper_capitals. exact Z.
  - destruct k as [|k]; [simpl in K; congruence|]. simpl in K. rewrite (IH k K G); [reflexivity| |].
    + intros i u I U. apply (NP (S i)); [lia | exact U].
    + intros i u I U. apply (DEF (S i)); [lia | exact U].
  - exfalso. destruct k as [|k]; [simpl in K; congruence|]. apply (DEF 0%nat t); [lia | reflexivity | exact GT].
Qed.

(** ** reducing a station to flat ground and simulating there again *)
Lemma round_trip factor s m : Rabs m < 30 -> Rabs m <> 21.3 ->
  cell_wind factor (flat_wind (Some s) (Some m)) (Some m) = Some (1.07985 * (if Rlt_dec m 0 then factor * s else s)).
Proof.
  intros A B. pose proof (cell_wind_terrain factor (flat_wind (Some s) (Some m)) (Some m)) as [_ T].
  assert (G : ~ gap m) by (unfold gap; lra). specialize (T G). unfold flat_wind in *. cbn [rlift2] in *.
  destruct T as [T1 T2].
  assert (E : forall c, 0 <= c -> c < 30 -> c <> 21.3 -> exp_val c = shelter c /\ 1 <= shelter c).
  { intros c C0 C1 C2. destruct (exp_val_spec c) as (S1 & S2 & _). pose proof (shelter_bounds c C0) as SB. split; [|lra].
    unfold shelter. destruct (Rlt_dec c 21.3); [apply S1; lra|]. destruct (Rlt_dec c 30.1); [|lra]. apply S2; lra. }
  destruct (rabs_cases m) as [[N R]|[N R]]; rewrite R in *.
  - destruct (E (- m)) as [E1 E2]; [lra | lra | lra|]. rewrite (T1 N). f_equal. destruct (rltb_spec 0 m); [lra|].
    destruct (Rlt_dec m 0); [|lra]. rewrite E1. field. lra.
  - destruct (E m) as [E1 E2]; [lra | lra | lra|]. rewrite (T2 N). f_equal.
    destruct (Rlt_dec m 0); [lra|]. destruct (rltb_spec 0 m); rewrite E1; [field; lra|].
    assert (m = 0) by lra. subst m. assert (S0 : shelter 0 = 1) by (unfold shelter; destruct (Rlt_dec 0 21.3); lra).
    rewrite S0. field.
Qed.

(** ** measured values at the station pixels *)
Lemma get_nth speed k m v : NoDup (map fst speed) -> nth_error speed k = Some (m, v) -> get speed m = Some v.
Proof.
  revert k. induction speed as [|[a b] speed IH]; intros k ND K; [destruct k; discriminate|]. simpl in *.
  inversion ND as [|x l NI ND']; subst. destruct k as [|k]; simpl in K.
  - injection K as -> ->. rewrite String.eqb_refl. reflexivity.
  - destruct (String.eqb_spec a m) as [->|_]; [|eapply IH; eassumption].
    exfalso. apply NI. apply nth_error_In in K. apply (in_map fst) in K. exact K.
Qed.
Lemma simulate_measured ny nx c dirs maxus vt flat u v sts speed o k s val :
  simulate_wind ny nx c dirs maxus vt flat u v (map (fun s => (st_yi s, st_xi s)) sts) (map snd speed) = Ok o ->
  proper (wmin c) (wmax c) ->
  map fst speed = map st_name sts -> NoDup (map st_name sts) -> NoDup (map (fun s => (st_yi s, st_xi s)) sts) ->
  nth_error sts k = Some s -> (st_yi s < ny)%nat -> (st_xi s < nx)%nat ->
  get speed (st_name s) = Some (Some val) ->
  exists r, o_speed o (st_yi s) (st_xi s) = Some r /\ limited (wmin c) (wmax c) val r.
Proof.
  intros H PR NM ND NP K Y X G. destruct (simulate_ok _ _ _ _ _ _ _ _ _ _ _ _ H PR) as (pre & vs & L & V & CELL).
  assert (LS : length speed = length sts) by (rewrite <- (map_length fst), NM, map_length; reflexivity).
  assert (VS : vs = map snd speed).
  { destruct V as [V|(a & V1 & V2)]; [exact V|]. rewrite V2, V1. rewrite map_length in L |- *.
    replace (length sts) with 1%nat; [reflexivity|]. rewrite <- LS, <- (map_length snd), V1. reflexivity. }
  destruct (CELL _ _ Y X) as (az & i & corr & w & r & _ & _ & _ & _ & _ & _ & _ & P & _ & W & O & LIM).
  assert (PK : nth_error (map (fun s => (st_yi s, st_xi s)) sts) k = Some (st_yi s, st_xi s)) by (rewrite nth_error_map, K; reflexivity).
  destruct (P (nth_error_In _ _ PK)) as (k' & K1 & K2 & _).
  assert (k' = k).
  { apply (proj1 (NoDup_nth_error _) NP); [apply nth_error_Some; rewrite K1; discriminate | congruence]. }
  subst k'. rewrite VS, nth_error_map in K2. destruct (nth_error speed k) as [[m v0]|] eqn:SK; [|discriminate].
  injection K2 as K2. simpl in K2. assert (m = st_name s).
  { assert (E : nth_error (map fst speed) k = Some m) by (rewrite nth_error_map, SK; reflexivity).
    rewrite NM, nth_error_map, K in E. simpl in E. congruence. }
  subst m. assert (G' : get speed (st_name s) = Some v0) by (eapply get_nth; [rewrite NM; exact ND | exact SK]).
  rewrite G in G'. injection G' as G'. rewrite <- K2, <- G' in W. destruct W as [W|[W _]]; [|discriminate].
  injection W as ->. exists r. auto.
Qed.

(** The loop comes to its end. *)
Lemma loop_free_completes n dirs maxus speed direction val sts (q : Z) :
  (0 < n)%nat -> even_library n dirs -> (q * Z.of_nat n = 360)%Z ->
  (forall s, In s sts -> get direction (st_name s) <> None /\ get speed (st_name s) <> None /\
     forall d, get direction (st_name s) = Some (Some d) -> 0 <= d <= 360) ->
  exists l, station_loop None dirs maxus speed direction val sts = Ok l.
Proof.
  intros N EL Q. revert val. induction sts as [|s sts IH]; intros val D; cbn [station_loop]; [eexists; reflexivity|].
  destruct (D s (or_introl eq_refl)) as (ND & NS & RG).
  assert (D' : forall s, In s sts -> get direction (st_name s) <> None /\ get speed (st_name s) <> None /\
     forall d, get direction (st_name s) = Some (Some d) -> 0 <= d <= 360) by (intros s0 I; apply D; right; exact I).
  destruct (get direction (st_name s)) as [[d|]|]; [| |contradiction].
  - destruct (station_val_free n dirs maxus val s d q N EL Q (RG d eq_refl)) as (j & J & W & V). rewrite V. cbn [bind].
    destruct (get speed (st_name s)) as [sp|]; [|contradiction].
    destruct (IH (Some (cap 35 (rlift (fun m => m + st_enhancement s) (maxus j (st_yi s) (st_xi s))))) D') as [l E]. cbv zeta. rewrite E. eexists. reflexivity.
  - destruct (IH val D') as [l E]. rewrite E. eexists. reflexivity.
Qed.
Lemma loop_peaks_completes peaks dirs maxus speed direction val sts : dirs <> [] ->
  (forall s, In s sts -> get direction (st_name s) <> None /\ get speed (st_name s) <> None) ->
  (val <> None \/ forall k s d, nth_error sts k = Some s -> get direction (st_name s) = Some (Some d) -> exists p, governs peaks direction sts k p) ->
  exists l, station_loop (Some peaks) dirs maxus speed direction val sts = Ok l.
Proof.
  intros DN. revert val. induction sts as [|s sts IH]; intros val D G; cbn [station_loop]; [eexists; reflexivity|].
  destruct (D s (or_introl eq_refl)) as (ND & NS).
  assert (D' : forall s, In s sts -> get direction (st_name s) <> None /\ get speed (st_name s) <> None)
    by (intros s0 I; apply D; right; exact I).
  destruct (get direction (st_name s)) as [[d|]|] eqn:GD; [| |contradiction].
  - assert (V : exists m, station_val (Some peaks) dirs maxus val s d = Ok (Some m)).
    { unfold station_val. cbv zeta. destruct (existsb (String.eqb (upper (st_name s))) peaks) eqn:EX.
      - destruct dirs as [|a dirs]; [contradiction|]. cbn [length lib_column seq map np_min bind]. eexists. reflexivity.
      - destruct G as [G|G]; [destruct val; [eexists; reflexivity|contradiction]|].
        destruct (G 0%nat s d eq_refl GD) as (p & j & J & P & [PK _] & _). assert (j = 0%nat) by lia. subst j. injection P as <-.
        exfalso. assert (T : existsb (String.eqb (upper (st_name s))) peaks = true); [|congruence].
        apply existsb_exists. exists (LoadSpec.capitals (st_name s)). split; [exact PK|]. rewrite upper_capitals. apply String.eqb_refl. }
    destruct V as [m V]. rewrite V. cbn [bind]. destruct (get speed (st_name s)) as [sp|]; [|contradiction]. cbv zeta.
    destruct (IH (Some (cap 35 m)) D') as [l E]; [left; discriminate|]. rewrite E. eexists. reflexivity.
  - destruct (IH val D') as [l E].
    + destruct G as [G|G]; [left; exact G|right]. intros k s0 d K GD0. destruct (G (S k) s0 d K GD0) as (p & j & J & P & PK & U).
      destruct j as [|j].
      * injection P as <-. destruct PK as (_ & d0 & E0). congruence.
      * exists p, j. split; [lia|]. split; [exact P|]. split; [exact PK|]. intros i t I. exact (U (S i) t ltac:(lia)).
    + rewrite E. eexists. reflexivity.
Qed.
