From Coq Require Import List ZArith Bool Arith Lia Permutation.
From Verif Require Import QueueModel PipelineModel PipelineSpec PipelineProofs StallProofs SmrfTopo SmrfSpec.
Import ListNotations.

Lemma nth_error_length_none (A : Type) (l : list A) n : length l <= n -> nth_error l n = None.
Proof. apply nth_error_None. Qed.

Lemma filter_len (A : Type) (f : A -> bool) l : length (filter f l) <= length l.
Proof. induction l as [|a l IH]; simpl; [lia|]. destruct (f a); simpl; lia. Qed.

Definition memb (q : nat) (l : list nat) : bool := existsb (Nat.eqb q) l.
Lemma memb_in q l : memb q l = true <-> In q l.
Proof.
  unfold memb. rewrite existsb_exists. split.
  - intros (x & H & E). apply Nat.eqb_eq in E. subst; exact H.
  - intros H. exists q. split; [exact H|apply Nat.eqb_refl].
Qed.

Fixpoint nodupb (l : list nat) : bool :=
  match l with [] => true | a :: r => negb (memb a r) && nodupb r end.
Lemma nodupb_nodup l : nodupb l = true -> NoDup l.
Proof.
  induction l as [|a r IH]; simpl; [constructor|]. rewrite andb_true_iff, negb_true_iff.
  intros [H1 H2]. constructor; [|auto]. rewrite <- memb_in. congruence.
Qed.

(** the part of a configuration that queue_names and souts depend on *)
Definition core (c : cfg) : cfg :=
  mkCfg (winstral c) true (marks2017 c) (s_cloud c) (s_veg c) (t_cloud c) (t_veg c) 1 [].

Lemma all_cores (P : cfg -> bool) :
  (forall w m sc sv tc tv, P (mkCfg w true m sc sv tc tv 1 []) = true) -> forall c, P (core c) = true.
Proof. intros H c. apply H. Qed.

Lemma queue_names_core c : queue_names c = queue_names (core c).
Proof. reflexivity. Qed.
Lemma souts_core c k i : k < 10 -> souts c k i = souts (core c) k 0.
Proof. intros H. destruct k as [|[|[|[|[|[|[|[|[|[|k]]]]]]]]]]; try lia; reflexivity. Qed.

Lemma queue_names_nodup c : NoDup (queue_names c).
Proof.
  apply nodupb_nodup. rewrite queue_names_core. revert c.
  apply (all_cores (fun c => nodupb (queue_names c))).
  intros [] [] [] [] [] []; vm_compute; reflexivity.
Qed.

Lemma queue_names_le c q : In q (queue_names c) -> q <= 38.
Proof.
  assert (G : forall c, forallb (fun q => q <=? 38) (queue_names (core c)) = true).
  { apply (all_cores (fun c => forallb (fun q => q <=? 38) (queue_names c))).
    intros [] [] [] [] [] []; vm_compute; reflexivity. }
  intros H. specialize (G c). rewrite forallb_forall in G. apply Nat.leb_le, G, H.
Qed.

Lemma ins_length c k i : length (ins c k i) <= Bnd c.
Proof.
  unfold Bnd. destruct k as [|[|[|[|[|[|[|[|[|[|[|k]]]]]]]]]]]; try (simpl; lia).
  - simpl. destruct (rescaling c); simpl; lia.
  - cbn [ins]. destruct (i mod frequency c =? 0); [|cbn [length]; lia].
    pose proof (filter_len _ (fun v => existsb (Nat.eqb v) (queue_names c)) (outvars c)). lia.
Qed.


Lemma souts_owner c k i q :
  good c -> k < 11 -> (In q (souts c k i) <-> In q (queue_names c) /\ smrf_owner q = k).
Proof.
  intros (Hf & Hsc & Hsv & _ & _) Hk.
  assert (G : forall w m tc tv,
    forallb (fun k => forallb (fun q =>
      Bool.eqb (memb q (souts (mkCfg w true m true true tc tv 1 []) k 0))
               (memb q (queue_names (mkCfg w true m true true tc tv 1 [])) && (smrf_owner q =? k)))
      (seq 0 39)) (seq 0 11) = true).
  { intros [] [] [] []; vm_compute; reflexivity. }
  specialize (G (winstral c) (marks2017 c) (t_cloud c) (t_veg c)).
  rewrite forallb_forall in G. specialize (G k ltac:(apply in_seq; lia)).
  rewrite forallb_forall in G.
  assert (Es : souts c k i = souts (mkCfg (winstral c) true (marks2017 c) true true (t_cloud c) (t_veg c) 1 []) k 0).
  { unfold souts; simpl. rewrite Hsc, Hsv, Hf. rewrite Nat.mod_1_r. reflexivity. }
  assert (En : queue_names c = queue_names (mkCfg (winstral c) true (marks2017 c) true true (t_cloud c) (t_veg c) 1 []))
    by reflexivity.
  rewrite Es. destruct (Nat.le_gt_cases q 38) as [Hq|Hq].
  - specialize (G q ltac:(apply in_seq; lia)). apply Bool.eqb_prop in G.
    rewrite <- !memb_in. rewrite En. rewrite G, andb_true_iff, Nat.eqb_eq. reflexivity.
  - split.
    + intros Hin. exfalso.
      assert (Hb : forallb (fun x => x <=? 38)
        (souts (mkCfg (winstral c) true (marks2017 c) true true (t_cloud c) (t_veg c) 1 []) k 0) = true).
      { do 11 (destruct k as [|k]; [destruct (winstral c), (marks2017 c), (t_cloud c), (t_veg c);
          vm_compute; reflexivity|]). lia. }
      rewrite forallb_forall in Hb. specialize (Hb q Hin). apply Nat.leb_le in Hb. lia.
    + intros [Hin _]. apply queue_names_le in Hin. lia.
Qed.

Lemma souts_nodup c k i : k < 11 -> NoDup (souts c k i).
Proof.
  intros Hk. destruct (Nat.eq_dec k 10) as [->|].
  { cbn [souts]. destruct (i mod frequency c =? 0); repeat constructor. intros []. }
  assert (G : forall c, forallb (fun k => nodupb (souts (core c) k 0)) (seq 0 10) = true).
  { apply (all_cores (fun c => forallb (fun k => nodupb (souts c k 0)) (seq 0 10))).
    intros [] [] [] [] [] []; vm_compute; reflexivity. }
  rewrite souts_core by lia. apply nodupb_nodup.
  specialize (G c). rewrite forallb_forall in G. apply G, in_seq; lia.
Qed.

Lemma souts_nodup_some c k i : good c -> k < 11 -> NoDup (souts c k i) /\ souts c k i <> [].
Proof.
  intros (Hf & _) Hk. split; [apply souts_nodup; exact Hk|].
  destruct (Nat.eq_dec k 10) as [->|].
  { cbn [souts]. rewrite Hf, Nat.mod_1_r. discriminate. }
  assert (G : forall c, forallb (fun k => negb (length (souts (core c) k 0) =? 0)) (seq 0 10) = true).
  { apply (all_cores (fun c => forallb (fun k => negb (length (souts c k 0) =? 0)) (seq 0 10))).
    intros [] [] [] [] [] []; vm_compute; reflexivity. }
  rewrite souts_core by lia. specialize (G c). rewrite forallb_forall in G.
  specialize (G k ltac:(apply in_seq; lia)). destruct (souts (core c) k 0); discriminate.
Qed.

Definition base_names := [cosz; azimuth; illum_ang; output; air_temp; vapor_pressure; dew_point; precip_temp;
   wind_speed; wind_direction; precip; percent_snow; snow_density; storm_days; storm_total;
   albedo_vis; albedo_ir; cloud_factor].
Lemma in_queue_names_base c q : In q base_names -> In q (queue_names c).
Proof.
  assert (G : forall c, forallb (fun q => memb q (queue_names (core c))) base_names = true).
  { apply (all_cores (fun c => forallb (fun q => memb q (queue_names c)) base_names)).
    intros [] [] [] [] [] []; vm_compute; reflexivity. }
  intros H. specialize (G c). rewrite forallb_forall in G. apply memb_in, G, H.
Qed.

Section S.
Context {V L : Type}.
Variables (positive : V -> bool) (comp : nat -> nat -> L -> list V -> (nat -> V) * L)
          (loc0 : nat -> L).

Notation topo_of c o m d := (smrf_topo positive comp loc0 c o m d).

Lemma smrf_wf c order m dts :
  good c -> Permutation order (queue_names c) -> NoDup dts ->
  wf (topo_of c order m dts) (Bnd c) smrf_owner.
Proof.
  intros Hg Hperm Hnd. pose proof Hg as (Hf & Hsc & Hsv & Hno & Hr).
  assert (Hin : forall q, In q order <-> In q (queue_names c)).
  { intros q; split; apply Permutation_in; [exact Hperm|apply Permutation_sym; exact Hperm]. }
  split; simpl.
  - exact Hnd.
  - apply (Permutation_NoDup (Permutation_sym Hperm)). apply queue_names_nodup.
  - intros k i l vs q Hk. unfold smrf_nextq. rewrite Hin.
    destruct (Nat.eqb_spec k 1) as [->|Hk1].
    + destruct vs as [|v [|? ?]]; try discriminate.
      * intros [= <-]. split; [apply in_queue_names_base; simpl; tauto|vm_compute; lia].
      * destruct (positive v); [|discriminate]. intros [= <-].
        split; [apply in_queue_names_base; simpl; tauto|vm_compute; lia].
    + intros E. apply nth_error_In in E.
      unfold n_smrf_threads in Hk.
      destruct k as [|[|[|[|[|[|[|[|[|[|[|k]]]]]]]]]]]; try lia; cbn [ins] in E; try contradiction.
      * simpl in E. destruct E as [<-|[]].
        split; [apply in_queue_names_base; simpl; tauto|vm_compute; lia].
      * apply in_app_or in E. destruct E as [E|E].
        -- simpl in E. split; [apply in_queue_names_base; simpl; tauto|]. intuition (subst; vm_compute; lia).
        -- destruct (rescaling c); [|contradiction]. specialize (Hr eq_refl).
           simpl in E. assert (Hq : In q (queue_names c)).
           { apply memb_in. unfold queue_names. rewrite Hr.
             destruct (marks2017 c), (t_cloud c), (t_veg c);
             intuition (subst; vm_compute; reflexivity). }
           split; [exact Hq|]. intuition (subst; vm_compute; lia).
      * simpl in E. split; [apply in_queue_names_base; simpl; tauto|]. intuition (subst; vm_compute; lia).
      * simpl in E. split; [apply in_queue_names_base; simpl; tauto|]. intuition (subst; vm_compute; lia).
      * simpl in E. split; [apply in_queue_names_base; simpl; tauto|]. intuition (subst; vm_compute; lia).
      * rewrite Hf, Nat.mod_1_r in E. rewrite Nat.eqb_refl in E. apply filter_In in E. destruct E as [Ev E].
        apply memb_in in E. split; [exact E|].
        pose proof (queue_names_le _ _ E) as Hq38.
        assert (Hq3 : q <> 3) by (intros ->; apply Hno; exact Ev).
        assert (G : forallb (fun q => (q =? 3) || (smrf_owner q <? 10)) (seq 0 39) = true)
          by (vm_compute; reflexivity).
        rewrite forallb_forall in G. specialize (G q ltac:(apply in_seq; lia)).
        apply orb_true_iff in G. rewrite Nat.eqb_eq, Nat.ltb_lt in G. tauto.
  - intros k i l vs Hk Hb. unfold smrf_nextq. destruct (Nat.eqb_spec k 1) as [->|Hk1].
    + unfold Bnd in Hb. destruct vs as [|v [|? ?]]; simpl in Hb; try lia. reflexivity.
    + apply nth_error_None. pose proof (ins_length c k i). lia.
  - intros k i q Hk. rewrite Hin. apply souts_owner; assumption.
  - intros k i Hk. apply souts_nodup_some; assumption.
  - intros k i Hk. apply souts_nodup_some; assumption.
  - intros q Hq. apply Hin in Hq. pose proof (queue_names_le _ _ Hq) as Hq38.
    assert (G : forallb (fun q => smrf_owner q <? n_smrf_threads) (seq 0 39) = true)
      by (vm_compute; reflexivity).
    rewrite forallb_forall in G. specialize (G q ltac:(apply in_seq; lia)).
    apply Nat.ltb_lt in G. exact G.
Qed.

(** ** Configurations in which some queue is not filled *)
Definition main_out (k : nat) : nat :=
  nth k [cosz; illum_ang; air_temp; vapor_pressure; wind_speed; precip; albedo_vis; cloud_factor;
         net_solar; thermal] 0.

Lemma main_out_in c k i : k < 10 -> In (main_out k) (souts c k i) /\ NoDup (souts c k i).
Proof.
  intros Hk. split; [|apply souts_nodup; lia].
  assert (G : forall c, forallb (fun k => memb (main_out k) (souts (core c) k 0)) (seq 0 10) = true).
  { apply (all_cores (fun c => forallb (fun k => memb (main_out k) (souts c k 0)) (seq 0 10))).
    intros [] [] [] [] [] []; vm_compute; reflexivity. }
  rewrite souts_core by lia. specialize (G c). rewrite forallb_forall in G. apply memb_in, G, in_seq; lia.
Qed.

Lemma main_out_other c k j i : k < 10 -> j < n_smrf_threads -> j <> k -> ~ In (main_out k) (souts c j i).
Proof.
  unfold n_smrf_threads. intros Hk Hj Hne Hin. destruct (Nat.eq_dec j 10) as [->|Hj10].
  - cbn [souts] in Hin. destruct (i mod frequency c =? 0); [|contradiction].
    destruct Hin as [Hin|[]].
    destruct k as [|[|[|[|[|[|[|[|[|[|k]]]]]]]]]]; try lia; discriminate.
  - assert (G : forall c, forallb (fun k => forallb (fun j =>
      (j =? k) || negb (memb (main_out k) (souts (core c) j 0))) (seq 0 10)) (seq 0 10) = true).
    { apply (all_cores (fun c => forallb (fun k => forallb (fun j =>
        (j =? k) || negb (memb (main_out k) (souts c j 0))) (seq 0 10)) (seq 0 10))).
      intros [] [] [] [] [] []; vm_compute; reflexivity. }
    rewrite souts_core in Hin by lia. specialize (G c).
    rewrite forallb_forall in G. specialize (G k ltac:(apply in_seq; lia)).
    rewrite forallb_forall in G. specialize (G j ltac:(apply in_seq; lia)).
    apply orb_true_iff in G. destruct G as [G|G]; [apply Nat.eqb_eq in G; lia|].
    apply negb_true_iff in G. apply memb_in in Hin. congruence.
Qed.

Lemma smrf_ahead c order m dts sch s l k :
  NoDup dts -> NoDup order -> (0 < m)%Z -> k < 10 ->
  exec (topo_of c order m dts) (init (topo_of c order m dts)) sch = (s, l) ->
  (Z.of_nat (tdate (threads s k)) <= Z.of_nat (cdate (cleaner s)) + m + 1)%Z.
Proof.
  intros Hnd Hno Hm Hk E.
  apply (ahead_general (topo_of c order m dts) Hnd (main_out k) k Hno) with (sch := sch) (l := l).
  - simpl. unfold n_smrf_threads. lia.
  - intros i. apply main_out_in; exact Hk.
  - intros j i Hj Hne. apply main_out_other; assumption.
  - exact Hm.
  - exact E.
Qed.

Lemma only_8 c k i q : In q (veg_vars ++ cloud_vars) -> k < n_smrf_threads -> In q (souts c k i) -> k = 8.
Proof.
  unfold n_smrf_threads. intros Hq Hk Hin.
  destruct (Nat.eq_dec k 10) as [->|Hk10].
  { exfalso. cbn [souts] in Hin. destruct (i mod frequency c =? 0); [|contradiction].
    destruct Hin as [<-|[]]. apply memb_in in Hq. discriminate. }
  assert (G : forall c, forallb (fun k => forallb (fun q =>
      (k =? 8) || negb (memb q (souts (core c) k 0))) (veg_vars ++ cloud_vars)) (seq 0 10) = true).
  { apply (all_cores (fun c => forallb (fun k => forallb (fun q =>
      (k =? 8) || negb (memb q (souts c k 0))) (veg_vars ++ cloud_vars)) (seq 0 10))).
    intros [] [] [] [] [] []; vm_compute; reflexivity. }
  rewrite souts_core in Hin by lia. specialize (G c).
  rewrite forallb_forall in G. specialize (G k ltac:(apply in_seq; lia)).
  rewrite forallb_forall in G. specialize (G q Hq).
  apply orb_true_iff in G. destruct G as [G|G]; [apply Nat.eqb_eq in G; exact G|].
  apply negb_true_iff in G. apply memb_in in Hin. congruence.
Qed.

Lemma no_cloud_queue c order m dts sch s l d0 r0 :
  s_cloud c = false \/ s_veg c = false ->
  Permutation order (queue_names c) -> NoDup dts -> dts = d0 :: r0 ->
  exec (topo_of c order m dts) (init (topo_of c order m dts)) sch = (s, l) ->
  cdate (cleaner s) = 0.
Proof.
  intros Hs Hperm Hnd Ed E.
  set (q := if s_cloud c then 30 else 26).
  assert (Hq : In q (veg_vars ++ cloud_vars)) by (unfold q; destruct (s_cloud c); simpl; tauto).
  enough (cdate (cleaner s) <= 0) by lia.
  apply (stall_cleaner (topo_of c order m dts) Hnd q 0 d0) with (sch := sch) (l := l); simpl.
  - apply (Permutation_in _ (Permutation_sym Hperm)). unfold queue_names.
    rewrite in_app_iff in Hq. rewrite !in_app_iff. tauto.
  - rewrite Ed; reflexivity.
  - intros k Hk Hin. pose proof (only_8 _ _ _ _ Hq Hk Hin) as ->.
    unfold q in Hin. cbn [souts] in Hin.
    destruct (s_cloud c); [destruct Hs as [Hs|Hs]; [discriminate|]; rewrite Hs in Hin|];
      simpl in Hin; try (destruct (s_veg c); simpl in Hin); unfold net_solar in Hin; intuition discriminate.
  - exact E.
Qed.

Lemma freq_stall c order m dts sch s l d0 d1 r0 :
  2 <= frequency c ->
  Permutation order (queue_names c) -> NoDup dts -> dts = d0 :: d1 :: r0 ->
  exec (topo_of c order m dts) (init (topo_of c order m dts)) sch = (s, l) ->
  cdate (cleaner s) <= 1.
Proof.
  intros Hf Hperm Hnd Ed E.
  apply (stall_cleaner (topo_of c order m dts) Hnd output 1 d1) with (sch := sch) (l := l); simpl.
  - apply (Permutation_in _ (Permutation_sym Hperm)). apply in_queue_names_base. simpl; tauto.
  - rewrite Ed; reflexivity.
  - intros k Hk Hin. unfold n_smrf_threads in Hk. destruct (Nat.eq_dec k 10) as [->|Hk10].
    + cbn [souts] in Hin. rewrite Nat.mod_small in Hin by lia. simpl in Hin. contradiction.
    + assert (G : forall c, forallb (fun k => negb (memb output (souts (core c) k 0))) (seq 0 10) = true).
      { apply (all_cores (fun c => forallb (fun k => negb (memb output (souts c k 0))) (seq 0 10))).
        intros [] [] [] [] [] []; vm_compute; reflexivity. }
      rewrite souts_core in Hin by lia. specialize (G c). rewrite forallb_forall in G.
      specialize (G k ltac:(apply in_seq; lia)). apply negb_true_iff in G. apply memb_in in Hin. congruence.
  - exact E.
Qed.
End S.
