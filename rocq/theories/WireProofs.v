From Coq Require Import List ZArith Bool Arith Lia Permutation.
From Verif Require Import QueueModel PipelineModel PipelineSpec PipelineProofs StallProofs
  TraceProofs SmrfTopo SmrfSpec SmrfProofs WireModel WireSpec.
Import ListNotations.

Section W.
Context {V L Row : Type}.
Variable P : parts V L Row.
Variable c : cfg.
Variable o0 : objs V L.
Variable dts : list Z.
Variable order : list nat.
Variable maxvals : Z.
Hypothesis Hg : good c.
Hypothesis Hp : Permutation order (queue_names c).
Hypothesis Hn : NoDup dts.
Hypothesis Hs : rescaling c = false \/ same_speed P.

Definition T := smrf_topo (positive P) (thread_step P c dts) o0 c order maxvals dts.
Definition HW : wf T (Bnd c) smrf_owner := smrf_wf (positive P) (thread_step P c dts) o0 c order maxvals dts Hg Hp Hn.

Definition step1 (o : objs V L) (t : Z) : objs V L :=
  serial_output P c (snd (serial_distribute P c o t)) t.

Lemma serial_run_app o i l t :
  serial_run P c o i (l ++ [t]) = step1 (serial_run P c o i l) t.
Proof.
  destruct Hg as (Hf & _). revert o i; induction l as [|a l IH]; intros o i; simpl.
  - unfold step1. destruct (serial_distribute P c o t) as [x o1]. rewrite Hf, Nat.mod_1_r. reflexivity.
  - destruct (serial_distribute P c o a) as [x o1]. apply IH.
Qed.

Lemma firstn_snoc (A : Type) (l : list A) i t : nth_error l i = Some t -> firstn (S i) l = firstn i l ++ [t].
Proof.
  revert i; induction l as [|a l IH]; intros [|i] E; try discriminate.
  - injection E as ->. reflexivity.
  - cbn [nth_error] in E. cbn [firstn app]. f_equal. exact (IH i E).
Qed.

(** one date *)
Section Date.
Variables (i : nat) (t : Z) (loc : nat -> obj V L) (o : objs V L).
Hypothesis Hl : serial_locals T (Bnd c) i = Some loc.
Hypothesis Ht : nth i dts 0%Z = t.
Hypothesis Hloc : forall k, 2 <= k <= 9 -> loc k = o k.

Notation sv := (serial_value T (Bnd c) i).

(** reading a fixed list of queues *)
Lemma read_fixed k : k < 11 -> k <> 1 ->
  forall n vs st fuel l, read_all T fuel k i l st vs = Some n ->
  length vs <= length (ins c k i) ->
  (forall j v, nth_error vs j = Some v -> exists q, nth_error (ins c k i) j = Some q /\ st q = Some v) ->
  length n = length (ins c k i) /\
  forall j q, nth_error (ins c k i) j = Some q -> exists v, nth_error n j = Some v /\ st q = Some v.
Proof.
  intros Hk Hk1 n vs st fuel l. revert vs. induction fuel as [|fuel IH]; intros vs E Hlen H; simpl in E;
    unfold smrf_nextq in E; rewrite (proj2 (Nat.eqb_neq k 1) Hk1) in E.
  - destruct (nth_error (ins c k i) (length vs)) eqn:En; [discriminate|]. injection E as <-.
    apply nth_error_None in En. split; [lia|]. intros j q Hj.
    assert (j < length vs). { assert (j < length (ins c k i)) by (apply nth_error_Some; congruence). lia. }
    destruct (nth_error vs j) as [v|] eqn:Ev; [|apply nth_error_None in Ev; lia].
    destruct (H j v Ev) as (q' & Hq' & Hv). rewrite Hj in Hq'. injection Hq' as <-. eauto.
  - destruct (nth_error (ins c k i) (length vs)) as [q0|] eqn:En.
    + destruct (st q0) as [v0|] eqn:E0; [|discriminate].
      apply (IH (vs ++ [v0]) E).
      * rewrite app_length. cbn [length]. assert (length vs < length (ins c k i)) by (apply nth_error_Some; congruence). lia.
      * intros j v Hj. destruct (Nat.lt_ge_cases j (length vs)) as [Hj1|Hj1].
        -- rewrite nth_error_app1 in Hj by exact Hj1. auto.
        -- rewrite nth_error_app2 in Hj by exact Hj1.
           destruct (j - length vs) as [|m] eqn:Ej.
           ++ injection Hj as <-. exists q0. split; [|exact E0]. replace j with (length vs) by lia. exact En.
           ++ destruct m; discriminate.
    + injection E as <-. apply nth_error_None in En. split; [lia|]. intros j q Hj.
      assert (j < length vs). { assert (j < length (ins c k i)) by (apply nth_error_Some; congruence). lia. }
      destruct (nth_error vs j) as [v|] eqn:Ev; [|apply nth_error_None in Ev; lia].
      destruct (H j v Ev) as (q' & Hq' & Hv). rewrite Hj in Hq'. injection Hq' as <-. eauto.
Qed.

Lemma thr k : k < 11 -> k <> 1 -> exists vs,
  (forall j q x, nth_error (ins c k i) j = Some q -> sv q = Some x -> nth j vs (none P) = x) /\
  length vs = length (ins c k i) /\
  (forall loc', serial_locals T (Bnd c) (S i) = Some loc' -> loc' k = snd (thread_step P c dts k i (loc k) vs)) /\
  (forall q, In q (queue_names c) -> smrf_owner q = k -> sv q = Some (fst (thread_step P c dts k i (loc k) vs) q)).
Proof.
  intros Hk Hk1. destruct (serial_fix T (Bnd c) smrf_owner HW i loc k Hl Hk) as (vs & loc' & Hr & Hl' & Hf & Ho).
  destruct (read_fixed k Hk Hk1 vs [] sv (Bnd c) (loc k) Hr) as [H1 H2].
  { cbn [length]. lia. } { intros [|j] v E; discriminate. }
  exists vs. split; [|split; [exact H1|split]].
  - intros j q x Hj Hx. destruct (H2 j q Hj) as (v & Hv & Hx'). rewrite Hx in Hx'. injection Hx' as <-.
    apply nth_error_nth. exact Hv.
  - intros loc1 E. rewrite Hl' in E. injection E as <-. exact Hf.
  - intros q Hq Hw. apply Ho. apply (souts_owner c k i q Hg Hk). auto.
Qed.

Lemma thr1 : exists vs,
  (forall cz az, sv cosz = Some cz -> sv azimuth = Some az -> vs = if positive P cz then [cz; az] else [cz]) /\
  (forall q, In q (queue_names c) -> smrf_owner q = 1 -> sv q = Some (fst (thread_step P c dts 1 i (loc 1) vs) q)).
Proof.
  destruct (serial_fix T (Bnd c) smrf_owner HW i loc 1 Hl) as (vs & loc' & Hr & Hl' & Hf & Ho).
  { change (1 < 11). lia. }
  exists vs. split.
  - intros cz az Hc Ha. revert Hr. set (st := sv) in *. clearbody st.
    unfold Bnd. cbn [Nat.add read_all nextq T smrf_topo smrf_nextq Nat.eqb]. rewrite Hc. cbn [app].
    destruct (positive P cz) eqn:Epos.
    + rewrite Ha. cbn [app]. intros [= <-]. reflexivity.
    + intros [= <-]. reflexivity.
  - intros q Hq Hw. apply Ho. apply (souts_owner c 1 i q Hg ltac:(lia)). auto.
Qed.

Let X := serial_distribute P c o t.
Notation vx q := (variable P X q).

Lemma X_eq : X = (fst (fst (fst X)), snd (fst (fst X)), snd (fst X), snd X).
Proof. destruct X as [[[? ?] ?] ?]. reflexivity. Qed.

(** the serial step, object by object *)
Lemma put_at (o' : objs V L) k x : put o' k x k = x.
Proof. unfold put. rewrite Nat.eqb_refl. reflexivity. Qed.
Lemma put_other (o' : objs V L) k x j : j <> k -> put o' k x j = o' j.
Proof. intros H. unfold put. rewrite (proj2 (Nat.eqb_neq _ _) H). reflexivity. Qed.

Let ill := if positive P (fst (sun P t)) then shade P (snd (sun P t)) (fst (sun P t)) else none P.
Let O2 := do_air_temp P t o.
Let O3 := do_vapor P t O2.
Let O4 := do_wind P t O3.
Let O5 := do_precip P c t O4.
Let O6 := do_albedo P t ill O5.
Let O7 := do_cloud P t O6.
Let O8 := do_solar P t ill (fst (sun P t)) (snd (sun P t)) O7.
Let O9 := do_thermal P t O8.

Lemma X_is : X = (fst (sun P t), snd (sun P t), ill, O9).
Proof. unfold X, O9, O8, O7, O6, O5, O4, O3, O2, ill, serial_distribute. destruct (sun P t) as [cz az]. reflexivity. Qed.

Lemma Xs : vx cosz = fst (sun P t) /\ vx azimuth = snd (sun P t) /\
  vx illum_ang = (if positive P (vx cosz) then shade P (vx azimuth) (vx cosz) else none P).
Proof. rewrite X_is. repeat split. Qed.

Lemma XO : snd X = O9.
Proof. rewrite X_is. reflexivity. Qed.

Lemma O9p j : j <> 9 -> O9 j = O8 j. Proof. apply put_other. Qed.
Lemma O8p j : j <> 8 -> O8 j = O7 j. Proof. apply put_other. Qed.
Lemma O7p j : j <> 7 -> O7 j = O6 j. Proof. apply put_other. Qed.
Lemma O6p j : j <> 6 -> O6 j = O5 j. Proof. apply put_other. Qed.
Lemma O5p j : j <> 5 -> O5 j = O4 j. Proof. apply put_other. Qed.
Lemma O4p j : j <> 4 -> O4 j = O3 j. Proof. apply put_other. Qed.
Lemma O3p j : j <> 3 -> O3 j = O2 j. Proof. apply put_other. Qed.
Lemma O2p j : j <> 2 -> O2 j = o j. Proof. apply put_other. Qed.

Ltac down := repeat first [rewrite O9p by lia | rewrite O8p by lia | rewrite O7p by lia | rewrite O6p by lia
  | rewrite O5p by lia | rewrite O4p by lia | rewrite O3p by lia | rewrite O2p by lia].
Ltac syn := match goal with |- ?a = ?a => reflexivity end.

Lemma X2 : snd X 2 = ta_dist P (o 2) (data P DAirTemp t).
Proof. rewrite XO. down. unfold O2, do_air_temp. rewrite put_at. syn. Qed.
Lemma X3 : snd X 3 = vp_dist P (o 3) (data P DVaporPressure t) (attr (snd X 2) air_temp).
Proof. rewrite XO. down. unfold O3, do_vapor. rewrite put_at. down. syn. Qed.
Lemma X4 : snd X 4 = wind_distribute P (o 4) (data P DWindSpeed t) (data P DWindDirection t) t.
Proof. rewrite XO. down. unfold O4, do_wind. rewrite put_at. down. syn. Qed.
Lemma X4a q : In q [flatwind; wind_speed; wind_direction] -> attr (snd X 4) q = wm_attr P (inner (snd X 4)) q.
Proof.
  intros Hi. rewrite X4. unfold wind_distribute. cbn [attr inner].
  rewrite (proj2 (existsb_exists (Nat.eqb q) _)); [reflexivity|]. exists q. split; [exact Hi|apply Nat.eqb_refl].
Qed.
Lemma X5 : snd X 5 = ppt_distribute P c (o 5) (data P DPrecip t)
  (attr (snd X 3) dew_point) (attr (snd X 3) precip_temp) (attr (snd X 2) air_temp) t
  (data P DWindSpeed t) (data P DAirTemp t)
  (attr (snd X 4) wind_direction) (wm_attr P (inner (snd X 4)) dir_round_cell)
  (attr (snd X 4) wind_speed) (wm_attr P (inner (snd X 4)) cellmaxus).
Proof. rewrite XO. down. unfold O5, do_precip. rewrite put_at. down. syn. Qed.
Lemma X6 : snd X 6 = alb_dist P (o 6) t (vx illum_ang) (attr (snd X 5) storm_days).
Proof. rewrite (proj2 (proj2 Xs)), (proj1 Xs), (proj1 (proj2 Xs)), XO. down. unfold O6, do_albedo. rewrite put_at. down. fold ill. syn. Qed.
Lemma X7 : snd X 7 = cf_dist P (o 7) (data P DCloudFactor t).
Proof. rewrite XO. down. unfold O7, do_cloud. rewrite put_at. down. syn. Qed.
Lemma X8 : snd X 8 = sol_dist P (o 8) t (attr (snd X 7) cloud_factor) (vx illum_ang) (vx cosz) (vx azimuth)
  (attr (snd X 6) albedo_vis) (attr (snd X 6) albedo_ir).
Proof. rewrite (proj2 (proj2 Xs)), (proj1 Xs), (proj1 (proj2 Xs)), XO. down. unfold O8, do_solar. rewrite put_at. down. fold ill. syn. Qed.
Lemma X9 : snd X 9 = th_dist P (o 9) t (attr (snd X 2) air_temp) (attr (snd X 3) vapor_pressure)
  (attr (snd X 3) dew_point) (attr (snd X 7) cloud_factor).
Proof. rewrite XO. unfold O9, do_thermal. rewrite put_at. fold (do_thermal P t O8). fold O9. down. syn. Qed.
Lemma X10 : snd X 10 = o 10.
Proof. rewrite XO. down. reflexivity. Qed.

Lemma inb q : In q base_names -> In q (queue_names c).
Proof. apply in_queue_names_base. Qed.

Ltac inn := solve [apply inb; cbn [base_names In]; repeat (first [left; reflexivity | right])].
Ltac own := solve [vm_compute; reflexivity].

Ltac take k := destruct (thr k) as (vs & Hv & Hlen & Hlo & Hq); [lia|lia|].

Lemma var_attr q : In q (queue_names c) -> 2 <= smrf_owner q <= 9 -> smrf_owner q <> 4 ->
  vx q = attr (snd X (smrf_owner q)) q.
Proof.
  intros Hin Hw H4. apply queue_names_le in Hin.
  assert (G : forallb (fun q => negb ((2 <=? smrf_owner q) && (smrf_owner q <=? 9) && negb (smrf_owner q =? 4)) ||
     (negb (q =? cosz) && negb (q =? azimuth) && negb (q =? illum_ang) &&
      negb (existsb (Nat.eqb q) [cellmaxus; dir_round_cell]) && (module_of q =? smrf_owner q))) (seq 0 39) = true)
    by (vm_compute; reflexivity).
  rewrite forallb_forall in G. specialize (G q). rewrite in_seq in G. specialize (G (conj (Nat.le_0_l q) (le_n_S _ _ Hin))).
  apply orb_true_iff in G. destruct G as [G|G].
  - apply negb_true_iff in G. apply Nat.eqb_neq in H4.
    rewrite (proj2 (Nat.leb_le _ _) (proj1 Hw)), (proj2 (Nat.leb_le _ _) (proj2 Hw)), H4 in G. discriminate.
  - rewrite !andb_true_iff, !negb_true_iff in G. destruct G as ((((G1 & G2) & G3) & G4) & G5).
    apply Nat.eqb_eq in G5. unfold variable. rewrite X_eq, G1, G2, G3, G4, G5. reflexivity.
Qed.

Lemma va q k : In q (queue_names c) -> smrf_owner q = k -> 2 <= k <= 9 -> k <> 4 -> vx q = attr (snd X k) q.
Proof. intros Hin <- Hk H4. apply (var_attr q Hin Hk H4). Qed.

Lemma var_wind q : In q (queue_names c) -> smrf_owner q = 4 -> vx q = wm_attr P (inner (snd X 4)) q.
Proof.
  intros Hin Hw. apply queue_names_le in Hin.
  assert (G : forallb (fun q => negb (smrf_owner q =? 4) || existsb (Nat.eqb q) [8; 9; 10; 11; 12]) (seq 0 39) = true)
    by (vm_compute; reflexivity).
  rewrite forallb_forall in G. specialize (G q). rewrite in_seq in G. specialize (G (conj (Nat.le_0_l q) (le_n_S _ _ Hin))).
  rewrite Hw in G. apply orb_true_iff in G. destruct G as [G|G]; [discriminate|].
  apply existsb_exists in G. destruct G as (q' & Hi & E). apply Nat.eqb_eq in E. subst q'.
  unfold variable. rewrite X_eq.
  cbn [In] in Hi. destruct Hi as [<-|[<-|[<-|[<-|[<-|[]]]]]].
  - exact (X4a 8 ltac:(cbn; auto)).
  - exact (X4a 9 ltac:(cbn; auto)).
  - exact (X4a 10 ltac:(cbn; auto)).
  - reflexivity.
  - reflexivity.
Qed.

Lemma names_owner q : In q (queue_names c) -> q <> output -> smrf_owner q <= 9.
Proof.
  intros Hin Ho. apply queue_names_le in Hin.
  assert (G : forallb (fun q => (q =? output) || (smrf_owner q <=? 9)) (seq 0 39) = true) by (vm_compute; reflexivity).
  rewrite forallb_forall in G. specialize (G q). rewrite in_seq in G. specialize (G (conj (Nat.le_0_l q) (le_n_S _ _ Hin))).
  apply orb_true_iff in G. destruct G as [G|G]; [apply Nat.eqb_eq in G; contradiction|apply Nat.leb_le; exact G].
Qed.

Definition good_thread (k : nat) : Prop :=
  (forall loc', serial_locals T (Bnd c) (S i) = Some loc' -> loc' k = snd X k) /\
  (forall q, In q (queue_names c) -> smrf_owner q = k -> sv q = Some (vx q)).

Lemma plain k vs : 2 <= k <= 9 -> k <> 4 ->
  (forall loc', serial_locals T (Bnd c) (S i) = Some loc' -> loc' k = snd (thread_step P c dts k i (loc k) vs)) ->
  (forall q, In q (queue_names c) -> smrf_owner q = k -> sv q = Some (fst (thread_step P c dts k i (loc k) vs) q)) ->
  snd (thread_step P c dts k i (loc k) vs) = snd X k ->
  (forall q, fst (thread_step P c dts k i (loc k) vs) q = attr (snd (thread_step P c dts k i (loc k) vs)) q) ->
  good_thread k.
Proof.
  intros Hk H4 Hlo Hq E1 E2. split.
  - intros loc' E. rewrite (Hlo loc' E). exact E1.
  - intros q Hin Hw. rewrite (Hq q Hin Hw), E2, E1. f_equal.
    rewrite (var_attr q Hin) by (rewrite Hw; assumption). rewrite Hw. reflexivity.
Qed.

Lemma vget (vs : list V) k (Hv : forall j q x, nth_error (ins c k i) j = Some q -> sv q = Some x -> nth j vs (none P) = x)
  j q m : nth_error (ins c k i) j = Some q -> In q (queue_names c) -> smrf_owner q = m -> good_thread m ->
  nth j vs (none P) = vx q.
Proof. intros Hj Hin Hw [_ G]. apply (Hv j q); [exact Hj|]. apply G; assumption. Qed.

Lemma date_values :
  (forall q, In q (queue_names c) -> q <> output -> sv q = Some (vx q)) /\
  (forall loc', serial_locals T (Bnd c) (S i) = Some loc' -> forall k, 2 <= k <= 9 -> loc' k = snd X k).
Proof.
  (* the sun *)
  assert (S0 : sv cosz = Some (vx cosz) /\ sv azimuth = Some (vx azimuth)).
  { take 0. split; [rewrite (Hq cosz ltac:(inn) ltac:(own))|rewrite (Hq azimuth ltac:(inn) ltac:(own))]; f_equal;
    destruct Xs as (Z1 & Z2 & _); [rewrite Z1|rewrite Z2]; cbn [thread_step fst]; rewrite Ht; reflexivity. }
  destruct S0 as [Scz Saz].
  assert (Sil : sv illum_ang = Some (vx illum_ang)).
  { destruct thr1 as (vs & Hv & Hq). rewrite (Hq illum_ang ltac:(inn) ltac:(own)). f_equal.
    rewrite (Hv _ _ Scz Saz), (proj2 (proj2 Xs)).
    set (cz := vx cosz). set (az := vx azimuth). clearbody cz az. cbn [thread_step fst].
    destruct (positive P cz); reflexivity. }
  assert (G2 : good_thread 2).
  { take 2. apply (plain 2 vs); [lia|lia|exact Hlo|exact Hq| |reflexivity].
    cbn [thread_step snd]. rewrite Ht, (Hloc 2) by lia. rewrite X2. syn. }
  assert (G3 : good_thread 3).
  { take 3. apply (plain 3 vs); [lia|lia|exact Hlo|exact Hq| |reflexivity].
    cbn [thread_step snd]. rewrite Ht, (Hloc 3) by lia.
    rewrite (vget vs 3 Hv 0 air_temp 2 eq_refl ltac:(inn) ltac:(own) G2).
    rewrite (va air_temp 2) by first [inn | own | lia]. rewrite X3. syn. }
  assert (G4 : good_thread 4).
  { take 4. assert (E : snd (thread_step P c dts 4 i (loc 4) vs) = snd X 4).
    { cbn [thread_step snd]. rewrite Ht, (Hloc 4) by lia. rewrite X4. syn. }
    split.
    - intros loc' El. rewrite (Hlo loc' El). exact E.
    - intros q Hin Hw. rewrite (Hq q Hin Hw), (var_wind q Hin Hw), <- E. reflexivity. }
  assert (G5 : good_thread 5).
  { take 5. apply (plain 5 vs); [lia|lia|exact Hlo|exact Hq| |reflexivity].
    cbn [thread_step snd]. rewrite Ht, (Hloc 5) by lia.
    rewrite (vget vs 5 Hv 0 dew_point 3 eq_refl ltac:(inn) ltac:(own) G3).
    rewrite (vget vs 5 Hv 1 precip_temp 3 eq_refl ltac:(inn) ltac:(own) G3).
    rewrite (vget vs 5 Hv 2 air_temp 2 eq_refl ltac:(inn) ltac:(own) G2).
    rewrite (va dew_point 3) by first [inn | own | lia].
    rewrite (va precip_temp 3) by first [inn | own | lia].
    rewrite (va air_temp 2) by first [inn | own | lia].
    destruct (rescaling c) eqn:Er.
    - assert (Hw : winstral c = true) by (destruct Hg as (_ & _ & _ & _ & H); auto).
      assert (Hs' : same_speed P) by (destruct Hs as [H|H]; [congruence|exact H]).
      assert (Ei : ins c 5 i = [dew_point; precip_temp; air_temp; wind_direction; flatwind; dir_round_cell; cellmaxus])
        by (cbn [ins]; rewrite Er; reflexivity).
      assert (In3 : forall q, In q [flatwind; cellmaxus; dir_round_cell] -> In q (queue_names c)).
      { intros q H. unfold queue_names. rewrite Hw. apply in_or_app. right. apply in_or_app. left. exact H. }
      rewrite (vget vs 5 Hv 3 wind_direction 4 ltac:(rewrite Ei; reflexivity) ltac:(inn) ltac:(own) G4).
      rewrite (vget vs 5 Hv 4 flatwind 4 ltac:(rewrite Ei; reflexivity)
        ltac:(apply In3; cbn; auto) ltac:(own) G4).
      rewrite (vget vs 5 Hv 5 dir_round_cell 4 ltac:(rewrite Ei; reflexivity)
        ltac:(apply In3; cbn; auto) ltac:(own) G4).
      rewrite (vget vs 5 Hv 6 cellmaxus 4 ltac:(rewrite Ei; reflexivity)
        ltac:(apply In3; cbn; auto) ltac:(own) G4).
      rewrite !var_wind by first [inn | own | apply In3; cbn; auto].
      rewrite X5, !X4a by (cbn; auto). unfold ppt_distribute. rewrite Er. symmetry. apply Hs'.
    - rewrite X5. unfold ppt_distribute. rewrite Er. reflexivity. }
  assert (G6 : good_thread 6).
  { take 6. apply (plain 6 vs); [lia|lia|exact Hlo|exact Hq| |reflexivity].
    cbn [thread_step snd]. rewrite Ht, (Hloc 6) by lia.
    rewrite (Hv 0 illum_ang _ eq_refl Sil).
    rewrite (vget vs 6 Hv 1 storm_days 5 eq_refl ltac:(inn) ltac:(own) G5).
    rewrite (va storm_days 5) by first [inn | own | lia].
    rewrite X6. syn. }
  assert (G7 : good_thread 7).
  { take 7. apply (plain 7 vs); [lia|lia|exact Hlo|exact Hq| |reflexivity].
    cbn [thread_step snd]. rewrite Ht, (Hloc 7) by lia. rewrite X7. syn. }
  assert (G8 : good_thread 8).
  { take 8. apply (plain 8 vs); [lia|lia|exact Hlo|exact Hq| |reflexivity].
    cbn [thread_step snd]. rewrite Ht, (Hloc 8) by lia.
    rewrite (Hv 0 cosz _ eq_refl Scz), (Hv 1 azimuth _ eq_refl Saz), (Hv 2 illum_ang _ eq_refl Sil).
    rewrite (vget vs 8 Hv 3 albedo_ir 6 eq_refl ltac:(inn) ltac:(own) G6).
    rewrite (vget vs 8 Hv 4 albedo_vis 6 eq_refl ltac:(inn) ltac:(own) G6).
    rewrite (vget vs 8 Hv 5 cloud_factor 7 eq_refl ltac:(inn) ltac:(own) G7).
    rewrite (va albedo_ir 6) by first [inn | own | lia].
    rewrite (va albedo_vis 6) by first [inn | own | lia].
    rewrite (va cloud_factor 7) by first [inn | own | lia].
    rewrite X8. syn. }
  assert (G9 : good_thread 9).
  { take 9. apply (plain 9 vs); [lia|lia|exact Hlo|exact Hq| |reflexivity].
    cbn [thread_step snd]. rewrite Ht, (Hloc 9) by lia.
    rewrite (vget vs 9 Hv 0 air_temp 2 eq_refl ltac:(inn) ltac:(own) G2).
    rewrite (vget vs 9 Hv 1 dew_point 3 eq_refl ltac:(inn) ltac:(own) G3).
    rewrite (vget vs 9 Hv 2 vapor_pressure 3 eq_refl ltac:(inn) ltac:(own) G3).
    rewrite (vget vs 9 Hv 3 cloud_factor 7 eq_refl ltac:(inn) ltac:(own) G7).
    rewrite (va air_temp 2) by first [inn | own | lia].
    rewrite (va dew_point 3) by first [inn | own | lia].
    rewrite (va vapor_pressure 3) by first [inn | own | lia].
    rewrite (va cloud_factor 7) by first [inn | own | lia].
    rewrite X9. syn. }
  split.
  - intros q Hin Ho. pose proof (names_owner q Hin Ho) as Hw.
    destruct (smrf_owner q) as [|[|m]] eqn:Ew.
    + assert (q = cosz \/ q = azimuth) as [->| ->]; [|exact Scz|exact Saz].
      apply queue_names_le in Hin.
      assert (G : forallb (fun q => negb (smrf_owner q =? 0) || (q =? cosz) || (q =? azimuth)) (seq 0 39) = true)
        by (vm_compute; reflexivity).
      rewrite forallb_forall in G. specialize (G q). rewrite in_seq in G.
      specialize (G (conj (Nat.le_0_l q) (le_n_S _ _ Hin))). rewrite Ew in G. cbn [Nat.eqb negb orb] in G.
      apply orb_true_iff in G. destruct G as [G|G]; apply Nat.eqb_eq in G; auto.
    + assert (q = illum_ang) as ->; [|exact Sil].
      apply queue_names_le in Hin.
      assert (G : forallb (fun q => negb (smrf_owner q =? 1) || (q =? illum_ang)) (seq 0 39) = true)
        by (vm_compute; reflexivity).
      rewrite forallb_forall in G. specialize (G q). rewrite in_seq in G.
      specialize (G (conj (Nat.le_0_l q) (le_n_S _ _ Hin))). rewrite Ew in G. cbn [Nat.eqb negb orb] in G.
      apply Nat.eqb_eq in G; auto.
    + destruct m as [|[|[|[|[|[|[|[|m]]]]]]]]; [apply G2|apply G3|apply G4|apply G5|apply G6|apply G7|apply G8|apply G9|lia]; assumption.
  - intros loc' E k Hk.
    destruct k as [|[|[|[|[|[|[|[|[|[|k]]]]]]]]]]; try lia;
      [apply G2|apply G3|apply G4|apply G5|apply G6|apply G7|apply G8|apply G9]; exact E.
Qed.

(** the output *)
Lemma date_output : outputs_queued c -> loc 10 = o 10 ->
  forall loc', serial_locals T (Bnd c) (S i) = Some loc' -> loc' 10 = step1 o t 10.
Proof.
  intros Ho H10 loc' E. destruct (thr 10 ltac:(lia) ltac:(lia)) as (vs & Hv & Hlen & Hlo & _).
  rewrite (Hlo loc' E). cbn [thread_step snd]. rewrite Ht, H10.
  assert (Hf : frequency c = 1) by (destruct Hg; assumption).
  assert (Ei : ins c 10 i = outvars c).
  { cbn [ins]. rewrite Hf, Nat.mod_1_r. cbn [Nat.eqb]. clear - Ho. unfold outputs_queued in Ho.
    revert Ho. generalize (queue_names c). intros names. induction (outvars c) as [|v r IH]; intros Ho; [reflexivity|].
    cbn [filter]. change (existsb (Nat.eqb v) names) with (memb v names).
    rewrite (proj2 (memb_in v names)) by (apply Ho; left; reflexivity).
    f_equal. apply IH. intros w Hw. apply Ho. right; exact Hw. }
  rewrite Ei in *. unfold step1, serial_output, put. cbn [Nat.eqb].
  assert (E10 : snd (serial_distribute P c o t) 10 = o 10).
  { unfold serial_distribute. destruct (sun P t). reflexivity. }
  rewrite E10.
  assert (K : forall (l : list nat) ws f, length ws = length l ->
    (forall j q, nth_error l j = Some q -> In q (outvars c) /\ nth j ws (none P) = attr (snd X (module_of q)) q) ->
    fold_left (fun f p => write P f (fst p) (or_zeros P (snd p)) t) (combine l ws) f =
    fold_left (fun f v => write P f v (or_zeros P (attr (snd X (module_of v)) v)) t) l f).
  { induction l as [|q l IH]; intros ws f Hl1 H1; [reflexivity|].
    destruct ws as [|w ws]; [discriminate|]. cbn [combine fold_left fst snd].
    pose proof (proj2 (H1 0 q eq_refl)) as H0. cbn [nth] in H0. rewrite H0. apply IH; [injection Hl1 as ->; reflexivity|].
    intros j q' Hj. exact (H1 (S j) q' Hj). }
  apply K; [exact Hlen|]. intros j q Hj.
  assert (Hin : In q (outvars c)) by (apply (nth_error_In _ _ Hj)). split; [exact Hin|].
  destruct (Ho q Hin) as [Hn1 Hm].
  assert (Hout : q <> output) by (destruct Hg as (_ & _ & _ & H & _); congruence).
  rewrite (Hv j q (vx q) Hj (proj1 date_values q Hn1 Hout)).
  unfold variable. rewrite X_eq.
  assert (G : forallb (fun q => (module_of q =? 0) || (negb (q =? cosz) && negb (q =? azimuth) && negb (q =? illum_ang) &&
      negb (existsb (Nat.eqb q) [cellmaxus; dir_round_cell]))) (seq 0 39) = true) by (vm_compute; reflexivity).
  rewrite forallb_forall in G. specialize (G q). rewrite in_seq in G.
  specialize (G (conj (Nat.le_0_l q) (le_n_S _ _ (queue_names_le c q Hn1)))).
  apply orb_true_iff in G. destruct G as [G|G]; [apply Nat.eqb_eq in G; contradiction|].
  rewrite !andb_true_iff, !negb_true_iff in G. destruct G as (((G1 & G2) & G3) & G4).
  rewrite G1, G2, G3, G4. reflexivity.
Qed.

End Date.

(** all dates *)
Definition objs_at (i : nat) : objs V L := serial_run P c o0 0 (firstn i dts).

Lemma step1_other o t k : 2 <= k <= 9 -> step1 o t k = snd (serial_distribute P c o t) k.
Proof.
  intros Hk. unfold step1, serial_output, put. destruct (Nat.eqb_spec k 10); [lia|reflexivity].
Qed.

Lemma locals_at i : i <= length dts -> forall loc, serial_locals T (Bnd c) i = Some loc ->
  (forall k, 2 <= k <= 9 -> loc k = objs_at i k) /\ (outputs_queued c -> loc 10 = objs_at i 10).
Proof.
  induction i as [|i IH]; intros Hi loc E.
  - injection E as <-. unfold objs_at. cbn [firstn serial_run]. auto.
  - destruct (serial_locals_total T (Bnd c) smrf_owner HW i) as [l0 E0].
    destruct (IH ltac:(lia) l0 E0) as [I1 I2].
    destruct (nth_error dts i) as [t|] eqn:Et; [|apply nth_error_None in Et; lia].
    pose proof (nth_error_nth dts i 0%Z Et) as Ent.
    unfold objs_at. rewrite (firstn_snoc _ _ _ _ Et), serial_run_app. fold (objs_at i). split.
    + intros k Hk. rewrite step1_other by exact Hk.
      exact (proj2 (date_values i t l0 (objs_at i) E0 Ent I1) loc E k Hk).
    + intros Ho. exact (date_output i t l0 (objs_at i) E0 Ent I1 Ho (I2 Ho) loc E).
Qed.

Lemma value_at i t q : nth_error dts i = Some t -> In q (queue_names c) -> q <> output ->
  serial_value T (Bnd c) i q = Some (variable P (serial_distribute P c (objs_at i) t) q).
Proof.
  intros Et Hq Ho. destruct (serial_locals_total T (Bnd c) smrf_owner HW i) as [l0 E0].
  assert (Hi : i < length dts) by (apply nth_error_Some; congruence).
  destruct (locals_at i ltac:(lia) l0 E0) as [I1 _].
  exact (proj1 (date_values i t l0 (objs_at i) E0 (nth_error_nth dts i 0%Z Et) I1) q Hq Ho).
Qed.

Lemma serial_value_in i q v : ~ In q (queue_names c) -> serial_value T (Bnd c) i q = Some v -> False.
Proof.
  intros Hni. unfold serial_value. destruct (serial_locals T (Bnd c) i) as [loc|]; [|discriminate].
  unfold serial_date.
  assert (K : forall n x st l, serial_threads T (Bnd c) i n (fun _ => None, x) = Some (st, l) -> n <= 11 -> st q = None).
  { induction n as [|n IH]; intros x st l; cbn [serial_threads].
    - intros [= <- <-] _. reflexivity.
    - destruct (serial_threads T (Bnd c) i n (fun _ => None, x)) as [[st1 l1]|] eqn:E1; [|discriminate].
      unfold serial_thread. destruct (read_all _ _ _ _ _ _ _); [|discriminate].
      destruct (finish T n i (l1 n) l0) as [f l']. intros [= <- <-] Hn11. unfold set_many. cbn [outs T smrf_topo].
      destruct (in_dec Nat.eq_dec q (souts c n i)) as [Hin|_]; [|apply (IH x st1 l1 E1); lia].
      exfalso. apply Hni. apply (souts_owner c n i q Hg) in Hin; [tauto|lia]. }
  destruct (serial_threads T (Bnd c) i (nthreads T) (fun _ => None, loc)) as [[st l]|] eqn:E; [|discriminate].
  rewrite (K _ _ _ _ E); [discriminate|]. change (11 <= 11). lia.
Qed.

End W.
