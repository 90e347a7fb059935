From Coq Require Import List Arith Bool ZArith QArith Qcanon Sorted Lia Permutation.
From Verif Require Import Num SmrfTopo OutputModel OutputSpec.
Import ListNotations.
Local Open Scope nat_scope.

Lemma index_of_nth dts i : NoDup dts -> i < length dts -> index_of (nth i dts 0%Z) dts = Some i.
Proof.
  revert i. induction dts as [|x r IH]; simpl; intros i Hn Hi; [lia|].
  inversion Hn as [|? ? Hx Hr]; subst. destruct i as [|i].
  - rewrite Z.eqb_refl. reflexivity.
  - destruct (Z.eqb_spec x (nth i r 0%Z)) as [E|E].
    + exfalso. apply Hx. rewrite E. apply nth_In. lia.
    + rewrite IH by (auto; lia). reflexivity.
Qed.

Fixpoint positions (freq : nat) (i k : nat) : list nat :=
  match k with
  | O => []
  | S k' => if i mod freq =? 0 then i :: positions freq (S i) k' else positions freq (S i) k'
  end.

Lemma positions_in freq i k j : 0 < freq -> In j (positions freq i k) <-> i <= j < i + k /\ exists m, j = m * freq.
Proof.
  intros Hf. revert i. induction k as [|k IH]; simpl; intros i.
  - split; [tauto|lia].
  - destruct (Nat.eqb_spec (i mod freq) 0) as [E|E]; simpl; rewrite IH.
    + split.
      * intros [<-|(H & m & Hm)].
        -- split; [lia|]. exists (i / freq). rewrite (Nat.div_mod_eq i freq) at 1. lia.
        -- split; [lia|]. eauto.
      * intros (H & m & Hm). destruct (Nat.eq_dec i j) as [->|N]; [tauto|]. right. split; [lia|eauto].
    + split.
      * intros (H & m & Hm). split; [lia|eauto].
      * intros (H & m & Hm). split; [|eauto]. destruct (Nat.eq_dec i j) as [->|N]; [|lia].
        exfalso. apply E. rewrite Hm. apply Nat.mod_mul. lia.
Qed.

Lemma positions_sorted freq i k : 0 < freq -> StronglySorted lt (positions freq i k).
Proof.
  intros Hf. revert i. induction k as [|k IH]; simpl; intros i; [constructor|].
  destruct (i mod freq =? 0); [|apply IH]. constructor; [apply IH|].
  apply Forall_forall. intros j Hj. apply positions_in in Hj; [lia|exact Hf].
Qed.

Lemma positions_spec freq n : 0 < freq -> multiples_below freq n (positions freq 0 n).
Proof.
  intros Hf. split; [apply positions_sorted; exact Hf|]. intros i. rewrite positions_in by exact Hf.
  split; intros (H & E); (split; [lia|exact E]).
Qed.

Lemma sorted_ext l l' : StronglySorted lt l -> StronglySorted lt l' -> (forall i, In i l <-> In i l') -> l = l'.
Proof.
  revert l'. induction l as [|a l IH]; intros [|b l'] S1 S2 E; auto.
  - exfalso. apply (proj2 (E b)). now left.
  - exfalso. apply (proj1 (E a)). now left.
  - inversion S1 as [|? ? S1' F1]; subst. inversion S2 as [|? ? S2' F2]; subst.
    rewrite Forall_forall in F1, F2.
    assert (a = b).
    { destruct (proj1 (E a) (or_introl eq_refl)) as [|Ha]; [congruence|].
      destruct (proj2 (E b) (or_introl eq_refl)) as [|Hb]; [congruence|].
      specialize (F1 _ Hb). specialize (F2 _ Ha). lia. }
    subst b. f_equal. apply IH; auto. intros i. specialize (E i). simpl in E.
    split; intros Hi.
    + destruct (proj1 E (or_intror Hi)) as [<-|]; [|assumption]. specialize (F1 _ Hi). lia.
    + destruct (proj2 E (or_intror Hi)) as [<-|]; [|assumption]. specialize (F2 _ Hi). lia.
Qed.

Lemma multiples_unique freq n ps : 0 < freq -> multiples_below freq n ps -> ps = positions freq 0 n.
Proof.
  intros Hf (S & E). destruct (positions_spec freq n Hf) as (S' & E'). apply sorted_ext; auto.
  intros i. rewrite E, E'. tauto.
Qed.

Lemma due_in freq n i : 0 < freq -> i < n -> due freq n i = Some (i mod freq =? 0).
Proof.
  intros Hf Hi. unfold due. destruct (Nat.eqb_spec freq 0) as [E|_]; [lia|].
  destruct (Nat.eqb_spec i n); [lia|]. now rewrite orb_false_r.
Qed.

Section Run.
Context {A : Type}.
Variable zeros : A.

Lemma write_vars_ok (attr : attributes) t vs : (forall v, In v vs -> attr v <> None) ->
  write_vars zeros attr t vs =
    (map (fun v => mkCall v (match attr v with Some (Some x) => x | _ => zeros end) t) vs, true).
Proof.
  induction vs as [|v r IH]; simpl; intros H; [reflexivity|].
  destruct (attr v) as [d|] eqn:E; [|exfalso; apply (H v); auto].
  rewrite IH by auto. unfold andthen. simpl. destruct d; reflexivity.
Qed.

Lemma write_vars_fail (attr : attributes) t pre v post :
  (forall u, In u pre -> attr u <> None) -> attr v = None ->
  write_vars zeros attr t (pre ++ v :: post) =
    (map (fun v => mkCall v (match attr v with Some (Some x) => x | _ => zeros end) t) pre, false).
Proof.
  induction pre as [|u r IH]; simpl; intros H Hv; [rewrite Hv; reflexivity|].
  destruct (attr u) as [d|] eqn:E; [|exfalso; apply (H u); auto].
  rewrite IH by auto. unfold andthen. simpl. destruct d; reflexivity.
Qed.

Notation data_of := (OutputSpec.data_of zeros).

Lemma serial_from_ok vars dts freq (attr : nat -> attributes) : 0 < freq -> NoDup dts ->
  forall k i, i + k = length dts ->
  (forall j v, In j (positions freq i k) -> In v vars -> attr j v <> None) ->
  serial_from zeros vars dts freq attr i (skipn i dts) =
    (all_calls dts vars (fun i v => data_of (attr i v)) (positions freq i k), true).
Proof.
  intros Hf Hn. induction k as [|k IH]; intros i Hi Hv.
  - rewrite skipn_all2 by lia. reflexivity.
  - assert (Hs : skipn i dts = nth i dts 0%Z :: skipn (S i) dts).
    { clear - Hi. revert i Hi. induction dts as [|x r IH]; intros i Hi; simpl in *; [lia|].
      destruct i; [reflexivity|]. simpl. apply IH. lia. }
    rewrite Hs. cbn [serial_from]. unfold smrf_output.
    rewrite index_of_nth by (auto; lia). rewrite due_in by (auto; lia).
    cbn [positions] in *. destruct (i mod freq =? 0).
    + rewrite write_vars_ok by (intros v Hv'; apply Hv; [now left|exact Hv']).
      rewrite IH by (try lia; intros j v Hj; apply Hv; now right).
      unfold andthen, all_calls. simpl. reflexivity.
    + rewrite IH by (try lia; intros j v Hj; apply Hv; exact Hj). reflexivity.
Qed.

Lemma serial_run_ok vars dts freq (attr : nat -> attributes) ps : 0 < freq -> NoDup dts ->
  multiples_below freq (length dts) ps ->
  (forall i v, In i ps -> In v vars -> attr i v <> None) ->
  serial_run zeros vars dts freq attr = (all_calls dts vars (fun i v => data_of (attr i v)) ps, true).
Proof.
  intros Hf Hn Hp Hv. rewrite (multiples_unique _ _ _ Hf Hp) in *.
  apply (serial_from_ok vars dts freq attr Hf Hn (length dts) 0); auto.
Qed.

Lemma thread_vars_eq queued (value : nat -> option A) t vs :
  thread_vars zeros queued value t vs =
  map (fun v => mkCall v (match value v with Some x => x | None => zeros end) t) (filter queued vs).
Proof. induction vs as [|v r IH]; simpl; [reflexivity|]. rewrite IH. destruct (queued v); reflexivity. Qed.

Lemma thread_from_eq vars dts freq queued (value : nat -> nat -> option A) : 0 < freq ->
  forall k i, i + k = length dts ->
  thread_from zeros vars freq (length dts) queued value i (skipn i dts) =
    Some (all_calls dts (filter queued vars) (fun i v => match value i v with Some x => x | None => zeros end) (positions freq i k),
          map (fun i => nth i dts 0%Z) (positions freq i k)).
Proof.
  intros Hf. induction k as [|k IH]; intros i Hi.
  - rewrite skipn_all2 by lia. reflexivity.
  - assert (Hs : skipn i dts = nth i dts 0%Z :: skipn (S i) dts).
    { clear - Hi. revert i Hi. induction dts as [|x r IH]; intros i Hi; simpl in *; [lia|].
      destruct i; [reflexivity|]. simpl. apply IH. lia. }
    rewrite Hs. cbn [thread_from]. rewrite due_in by lia. rewrite IH by lia. cbn [positions option_map].
    destruct (i mod freq =? 0); [|reflexivity]. rewrite thread_vars_eq. reflexivity.
Qed.

Lemma thread_run_ok vars dts freq queued (value : nat -> nat -> option A) ps : 0 < freq ->
  multiples_below freq (length dts) ps ->
  thread_run zeros vars dts freq queued value =
    Some (all_calls dts (filter queued vars) (fun i v => match value i v with Some x => x | None => zeros end) ps,
          map (fun i => nth i dts 0%Z) ps).
Proof.
  intros Hf Hp. rewrite (multiples_unique _ _ _ Hf Hp).
  apply (thread_from_eq vars dts freq queued value Hf (length dts) 0). reflexivity.
Qed.

Lemma run_freq_zero vars dts (attr : nat -> attributes) queued value : dts <> [] ->
  serial_run zeros vars dts 0 attr = ([], false) /\ thread_run zeros vars dts 0 queued value = None.
Proof.
  destruct dts as [|t r]; [congruence|]. intros _. unfold serial_run, thread_run. simpl.
  unfold smrf_output. simpl. rewrite Z.eqb_refl. split; reflexivity.
Qed.

(** an attribute that does not exist stops the run *)
Lemma serial_from_app vars dts freq (attr : nat -> attributes) i a b :
  serial_from zeros vars dts freq attr i (a ++ b) =
  andthen (serial_from zeros vars dts freq attr i a) (serial_from zeros vars dts freq attr (i + length a) b).
Proof.
  revert i. induction a as [|t r IH]; intros i; simpl.
  - rewrite Nat.add_0_r. unfold andthen. simpl. destruct (serial_from _ _ _ _ _ _ b); reflexivity.
  - rewrite IH. replace (S i + length r) with (i + S (length r)) by lia. unfold andthen.
    destruct (smrf_output zeros vars dts freq (attr i) t None None) as [c1 b1]. simpl. destruct b1; simpl; [|reflexivity].
    destruct (serial_from zeros vars dts freq attr (S i) r) as [c2 b2]. simpl. destruct b2; simpl; [|reflexivity].
    now rewrite app_assoc.
Qed.

Lemma serial_prefix vars dts freq (attr : nat -> attributes) : 0 < freq -> NoDup dts ->
  forall m i, i + m <= length dts ->
  (forall j v, In j (positions freq i m) -> In v vars -> attr j v <> None) ->
  serial_from zeros vars dts freq attr i (firstn m (skipn i dts)) =
    (all_calls dts vars (fun i v => data_of (attr i v)) (positions freq i m), true).
Proof.
  intros Hf Hn. induction m as [|m IH]; intros i Hi Hv; [reflexivity|].
  assert (Hs : skipn i dts = nth i dts 0%Z :: skipn (S i) dts).
  { clear - Hi. revert i Hi. induction dts as [|x r IH]; intros i Hi; simpl in *; [lia|].
    destruct i; [reflexivity|]. simpl. apply IH. lia. }
  rewrite Hs. cbn [firstn serial_from]. unfold smrf_output.
  rewrite index_of_nth by (auto; lia). rewrite due_in by (auto; lia).
  cbn [positions] in *. destruct (i mod freq =? 0).
  - rewrite write_vars_ok by (intros v Hv'; apply Hv; [now left|exact Hv']).
    rewrite IH by (try lia; intros j v Hj; apply Hv; now right).
    unfold andthen, all_calls. simpl. reflexivity.
  - rewrite IH by (try lia; intros j v Hj; apply Hv; exact Hj). reflexivity.
Qed.

Lemma positions_before freq p : 0 < freq -> forall q, In q (positions freq 0 p) <-> q < p /\ exists k, q = k * freq.
Proof. intros Hf q. rewrite positions_in by exact Hf. split; intros (H & E); (split; [lia|exact E]). Qed.

Lemma serial_run_fail pre v post dts freq (attr : nat -> attributes) p before :
  0 < freq -> NoDup dts -> p < length dts -> (exists k, p = k * freq) ->
  multiples_below freq p before ->
  (forall i u, In i before -> In u (pre ++ v :: post) -> attr i u <> None) ->
  (forall u, In u pre -> attr p u <> None) -> attr p v = None ->
  serial_run zeros (pre ++ v :: post) dts freq attr =
    (all_calls dts (pre ++ v :: post) (fun i v => data_of (attr i v)) before ++
     all_calls dts pre (fun i v => data_of (attr i v)) [p], false).
Proof.
  intros Hf Hn Hp (k & Hk) Hb Hbefore Hpre Hv.
  rewrite (multiples_unique _ _ _ Hf Hb) in *.
  unfold serial_run. rewrite <- (firstn_skipn p dts) at 2. rewrite serial_from_app.
  pose proof (serial_prefix (pre ++ v :: post) dts freq attr Hf Hn p 0) as E. simpl skipn in E.
  rewrite E by (auto; lia). clear E. rewrite firstn_length, Nat.min_l by lia. simpl (0 + p).
  assert (Hs : skipn p dts = nth p dts 0%Z :: skipn (S p) dts).
  { clear - Hp. revert p Hp. induction dts as [|x r IH]; intros i Hi; simpl in *; [lia|].
    destruct i; [reflexivity|]. simpl. apply IH. lia. }
  rewrite Hs. cbn [serial_from]. unfold smrf_output. rewrite index_of_nth by auto. rewrite due_in by auto.
  replace (p mod freq =? 0) with true
    by (symmetry; apply Nat.eqb_eq; rewrite Hk; apply Nat.mod_mul; lia).
  rewrite write_vars_fail by auto. unfold andthen. simpl. unfold all_calls. simpl. rewrite app_nil_r. reflexivity.
Qed.
End Run.

(** ** single variable requests *)
Lemma smrf_output_request {A} (zeros : A) vars dts freq attr t module out_var b count :
  index_of t dts = Some count -> due freq (length dts) count = Some b ->
  smrf_output zeros vars dts freq attr t module out_var =
    if negb b then ([], true) else
    match module, out_var with
    | None, None => write_vars zeros attr t vars
    | Some _, Some v => if existsb (Nat.eqb v) vars then write_vars zeros attr t [v] else ([], false)
    | _, _ => ([], false)
    end.
Proof. intros E1 E2. unfold smrf_output. rewrite E1, E2. destruct b, module, out_var; reflexivity. Qed.

(** ** which variables have a queue / an attribute *)
Lemma mem_natP v l : reflect (In v l) (mem_nat v l).
Proof.
  apply iff_reflect. unfold mem_nat. rewrite existsb_exists. split.
  - intros H. exists v. split; [exact H|apply Nat.eqb_refl].
  - intros (x & H & E). apply Nat.eqb_eq in E. now subst.
Qed.

Lemma no_queue c v : In v output_variables ->
  (~ In v (queue_names c) <->
   v = last_storm_day \/ v = soil_temp \/ (v = flatwind /\ winstral c = false) \/
   (v = thermal_cloud /\ t_cloud c = false) \/ (v = thermal_veg /\ t_veg c = false)).
Proof.
  intros Hv.
  destruct c as [w r m sc sv tc tv fr ov].
  assert (G : forall b1 b2 b3 b4,
     let c := mkCfg b1 r b2 sc sv b3 b4 fr ov in
     forallb (fun v => Bool.eqb (negb (mem_nat v (queue_names c)))
       ((v =? last_storm_day) || (v =? soil_temp) || ((v =? flatwind) && negb b1) ||
        ((v =? thermal_cloud) && negb b3) || ((v =? thermal_veg) && negb b4))) output_variables = true).
  { intros [] [] [] []; vm_compute; reflexivity. }
  specialize (G w m tc tv). cbv zeta in G. rewrite forallb_forall in G. specialize (G v Hv).
  apply eqb_prop in G. set (c := mkCfg w r m sc sv tc tv fr ov) in *.
  change (winstral c) with w. change (t_cloud c) with tc. change (t_veg c) with tv.
  transitivity (negb (mem_nat v (queue_names c)) = true).
  { clear G. destruct (mem_natP v (queue_names c)) as [H|H]; cbn [negb]; split; intros X; solve [reflexivity|discriminate|exact H|contradiction]. }
  rewrite G. rewrite !orb_true_iff, !andb_true_iff, !negb_true_iff, !Nat.eqb_eq. tauto.
Qed.

#[local] Opaque output_variables.
Lemma variable_dict_of_spec requested : forall seen v,
  In v (variable_dict_of seen requested) <-> In v requested /\ In v output_variables /\ ~ In v seen.
Proof.
  induction requested as [|r l IH]; intros seen v; cbn [variable_dict_of]; [simpl; tauto|].
  destruct (mem_natP r output_variables) as [Ho|Ho]; simpl andb;
    [destruct (mem_natP r seen) as [Hs|Hs]; simpl negb; cbn iota|].
  - rewrite IH. simpl. split; [tauto|]. intros ([<-|H] & H2); tauto.
  - simpl. rewrite IH. simpl. split.
    + intros [<-|(H1 & H2 & H3)]; [repeat split; auto|]. repeat split; auto.
    + intros ([<-|H] & H2 & H3); [now left|]. destruct (Nat.eq_dec r v) as [E|N]; [now left|]. right. intuition congruence.
  - rewrite IH. simpl. split; [tauto|]. intros ([<-|H] & H2); tauto.
Qed.

Lemma variable_dict_of_nodup requested : forall seen, NoDup (variable_dict_of seen requested).
Proof.
  induction requested as [|r l IH]; intros seen; cbn [variable_dict_of]; [constructor|].
  destruct (mem_nat r output_variables && negb (mem_nat r seen)); [|apply IH].
  constructor; [|apply IH]. rewrite variable_dict_of_spec. simpl. tauto.
Qed.

Lemma variable_dict_spec requested : NoDup (create_output_variable_dict requested) /\
  forall v, In v (create_output_variable_dict requested) <-> In v requested /\ In v output_variables.
Proof.
  split; [apply variable_dict_of_nodup|]. intros v. unfold create_output_variable_dict.
  rewrite variable_dict_of_spec. simpl. tauto.
Qed.

#[local] Transparent output_variables.
Lemma night_spec sun i : night_so_far sun i = true <-> exists j, j <= i /\ sun j = false.
Proof.
  induction i as [|i IH]; simpl; rewrite orb_true_iff, negb_true_iff.
  - split; [intros [H|H]; [eauto|discriminate]|]. intros (j & Hj & E). left. now replace 0 with j by lia.
  - rewrite IH. split.
    + intros [H|(j & Hj & E)]; [eauto|]. exists j. split; [lia|exact E].
    + intros (j & Hj & E). destruct (Nat.eq_dec j (S i)) as [->|N]; [tauto|]. right. exists j. split; [lia|exact E].
Qed.

Definition is_absent (k : kind) : bool := match k with Absent => true | _ => false end.
Lemma is_absent_spec k : k = Absent <-> is_absent k = true.
Proof. destruct k; split; intros; (reflexivity || discriminate). Qed.
Definition kind_b (interp si nt sc sv tc tv : bool) (v : nat) : kind :=
  if v =? flatwind then (if interp then IsNone else Absent)
  else if mem_nat v (net_solar :: clear_vars) then (if si then Value else IsNone)
  else if mem_nat v cloud_vars then
    (if si then (if sc then Value else if nt then IsNone else Absent) else IsNone)
  else if mem_nat v veg_vars then
    (if si then (if sv then Value else if nt then IsNone else Absent) else IsNone)
  else if v =? thermal_cloud then (if tc then Value else Absent)
  else if v =? thermal_veg then (if tv then Value else Absent)
  else Value.

Lemma attr_absent c interp sun i v : In v output_variables ->
  (attr_kind c interp sun i v = Absent <->
   (v = flatwind /\ interp = false) \/
   (In v cloud_vars /\ s_cloud c = false /\ forall j, j <= i -> sun j = true) \/
   (In v veg_vars /\ s_veg c = false /\ forall j, j <= i -> sun j = true) \/
   (v = thermal_cloud /\ t_cloud c = false) \/ (v = thermal_veg /\ t_veg c = false)).
Proof.
  intros Hv.
  assert (N : (forall j, j <= i -> sun j = true) <-> night_so_far sun i = false).
  { rewrite <- not_true_iff_false, night_spec. split.
    - intros H (j & Hj & E). rewrite H in E by exact Hj. discriminate.
    - intros H j Hj. destruct (sun j) eqn:E; [reflexivity|]. exfalso. eauto. }
  rewrite N. clear N.
  assert (Hs : sun i = true \/ night_so_far sun i = true).
  { destruct (sun i) eqn:E; [now left|]. right. destruct i; simpl; rewrite E; reflexivity. }
  change (attr_kind c interp sun i v) with
    (kind_b interp (sun i) (night_so_far sun i) (s_cloud c) (s_veg c) (t_cloud c) (t_veg c) v).
  generalize dependent (night_so_far sun i). generalize (sun i) (s_cloud c) (s_veg c) (t_cloud c) (t_veg c).
  intros si sc sv tc tv nt Hs.
  assert (Hb : si || nt = true) by (destruct Hs as [->| ->]; [reflexivity|apply orb_true_r]).
  assert (G : forall interp si nt sc sv tc tv, si || nt = true ->
     forallb (fun v => Bool.eqb (is_absent (kind_b interp si nt sc sv tc tv v))
       (((v =? flatwind) && negb interp) || (mem_nat v cloud_vars && (negb sc && negb nt)) ||
        (mem_nat v veg_vars && (negb sv && negb nt)) ||
        ((v =? thermal_cloud) && negb tc) || ((v =? thermal_veg) && negb tv))) output_variables = true).
  { intros [] [] [] [] [] [] [] E; try discriminate E; vm_compute; reflexivity. }
  specialize (G interp si nt sc sv tc tv Hb). rewrite forallb_forall in G. specialize (G v Hv). apply eqb_prop in G.
  rewrite is_absent_spec, G. rewrite !orb_true_iff, !andb_true_iff, !negb_true_iff, !Nat.eqb_eq.
  rewrite <- (reflect_iff _ _ (mem_natP v cloud_vars)), <- (reflect_iff _ _ (mem_natP v veg_vars)). tauto.
Qed.

(** ** the netCDF file *)
Section File.
Context {A : Type}.
Variable store : Qc -> Qc.
Variable enc : A -> A.
Notation file := (@file A).
Local Notation find_record := (OutputModel.find_record true store).
Local Notation write_time := (OutputModel.write_time true).
Local Notation nc_output := (OutputModel.nc_output true).
Local Notation nc_run := (OutputModel.nc_run true).
Local Notation interrupted := (OutputModel.interrupted true).

Lemma find_record_in t (f : file) : In t (map fst f) ->
  exists pre d post, f = pre ++ (t, d) :: post /\ ~ In t (map fst pre) /\ find_record t f = length pre.
Proof.
  induction f as [|[s e] f IH]; simpl; [tauto|]. unfold same_time. intros H.
  destruct (Qceqb_spec s t) as [->|N].
  - exists [], e, f. simpl. auto.
  - destruct H as [|H]; [congruence|]. destruct (IH H) as (pre & d & post & E & Hn & Hl).
    exists ((s, e) :: pre), d, post. simpl. rewrite E at 1. rewrite Hl. intuition congruence.
Qed.
Lemma find_record_out t (f : file) : ~ In t (map fst f) -> find_record t f = length f.
Proof.
  induction f as [|[s e] f IH]; simpl; [reflexivity|]. unfold same_time. intros H.
  destruct (Qceqb_spec s t) as [->|N]; [tauto|]. now rewrite IH by tauto.
Qed.
Lemma put_time_at t pre d s (post : file) :
  put_time store (length pre) t (pre ++ (s, d) :: post) = pre ++ (store t, d) :: post.
Proof. induction pre as [|r pre IH]; simpl; [reflexivity|]. destruct r. now rewrite IH. Qed.
Lemma put_time_end t (f : file) : put_time store (length f) t f = f ++ [(store t, None)].
Proof. induction f as [|r f IH]; simpl; [reflexivity|]. destruct r. now rewrite IH. Qed.
Lemma put_data_at d pre e s (post : file) :
  put_data enc (length pre) d (pre ++ (s, e) :: post) = pre ++ (s, Some (enc d)) :: post.
Proof. induction pre as [|r pre IH]; simpl; [reflexivity|]. destruct r. now rewrite IH. Qed.

Lemma write_time_out t (f : file) : ~ In t (map fst f) -> write_time store t f = (length f, f ++ [(store t, None)]).
Proof. intros H. unfold write_time. rewrite find_record_out by exact H. now rewrite put_time_end. Qed.
Lemma nc_output_out t d (f : file) : ~ In t (map fst f) -> nc_output store enc f (t, d) = f ++ [(store t, Some (enc d))].
Proof.
  intros H. unfold nc_output. cbn [fst snd]. rewrite write_time_out by exact H. apply (put_data_at d f None (store t) []).
Qed.
Lemma write_time_in t e pre (post : file) : ~ In t (map fst pre) -> store t = t ->
  write_time store t (pre ++ (t, e) :: post) = (length pre, pre ++ (t, e) :: post).
Proof.
  intros Hn Hs. unfold write_time.
  assert (E : find_record t (pre ++ (t, e) :: post) = length pre).
  { clear - Hn. induction pre as [|[s x] pre IH]; simpl in *; unfold same_time.
    - destruct (Qceqb_spec t t); congruence.
    - destruct (Qceqb_spec s t); [tauto|]. now rewrite IH by tauto. }
  rewrite E, put_time_at, Hs. reflexivity.
Qed.
Lemma nc_output_in t d e pre (post : file) : ~ In t (map fst pre) -> store t = t ->
  nc_output store enc (pre ++ (t, e) :: post) (t, d) = pre ++ (t, Some (enc d)) :: post.
Proof.
  intros Hn Hs. unfold nc_output. cbn [fst snd]. rewrite write_time_in by auto. apply put_data_at.
Qed.

(** keys and lookup *)
Definition keys (f : file) := map fst f.
Fixpoint ext (ks ts : list Qc) : list Qc :=
  match ts with
  | [] => ks
  | t :: r => ext (if in_dec Qc_eq_dec t ks then ks else ks ++ [t]) r
  end.
Lemma ext_first_seen ts : forall ks l, first_seen ks ts l <-> l = ext ks ts.
Proof.
  induction ts as [|t ts IH]; intros ks l; simpl.
  - split; [inversion 1; auto|intros ->; constructor].
  - destruct (in_dec Qc_eq_dec t ks) as [H|H]; rewrite <- IH; split; intros F;
      solve [inversion F; subst; tauto | now constructor].
Qed.

Lemma split_at t (f : file) : In t (keys f) -> exists pre d post, f = pre ++ (t, d) :: post /\ ~ In t (map fst pre).
Proof. intros H. destruct (find_record_in t f H) as (pre & d & post & E & Hn & _). eauto. Qed.

Lemma nc_output_keys (f : file) t d : store t = t ->
  keys (nc_output store enc f (t, d)) = ext (keys f) [t].
Proof.
  intros Hs. simpl. destruct (in_dec Qc_eq_dec t (keys f)) as [H|H].
  - destruct (split_at t f H) as (pre & e & post & -> & Hn).
    rewrite (nc_output_in t d e pre post Hn Hs). unfold keys. rewrite !map_app. reflexivity.
  - rewrite nc_output_out by exact H. unfold keys. rewrite map_app, Hs. reflexivity.
Qed.
Lemma write_time_keys (f : file) t : store t = t ->
  keys (snd (write_time store t f)) = ext (keys f) [t].
Proof.
  intros Hs. cbn [ext]. destruct (in_dec Qc_eq_dec t (keys f)) as [H|H].
  - destruct (split_at t f H) as (pre & e & post & -> & Hn).
    rewrite write_time_in by auto. reflexivity.
  - rewrite write_time_out by exact H. simpl. unfold keys. rewrite map_app, Hs. reflexivity.
Qed.

Lemma nodup_end (l : list Qc) t : NoDup l -> ~ In t l -> NoDup (l ++ [t]).
Proof.
  intros H1 H2. apply (Permutation_NoDup (l := t :: l)); [apply Permutation_cons_append|]. now constructor.
Qed.
Lemma ext_nodup ts : forall ks, NoDup ks -> NoDup (ext ks ts).
Proof.
  induction ts as [|t ts IH]; simpl; intros ks H; [exact H|]. apply IH.
  destruct (in_dec Qc_eq_dec t ks); [exact H|]. now apply nodup_end.
Qed.
Lemma ext_app a b : forall ks, ext ks (a ++ b) = ext (ext ks a) b.
Proof. induction a as [|t a IH]; simpl; intros ks; [reflexivity|]. apply IH. Qed.
Lemma ext_in ts : forall ks t, In t (ext ks ts) <-> In t ks \/ In t ts.
Proof.
  induction ts as [|u ts IH]; simpl; intros ks t; [tauto|]. rewrite IH.
  destruct (in_dec Qc_eq_dec u ks) as [H|H].
  - split; [tauto|]. intros [|[<-|]]; tauto.
  - rewrite in_app_iff. simpl. tauto.
Qed.
Lemma ext_known ts : forall ks, (forall t, In t ts -> In t ks) -> ext ks ts = ks.
Proof.
  induction ts as [|t ts IH]; simpl; intros ks H; [reflexivity|].
  destruct (in_dec Qc_eq_dec t ks) as [_|N]; [apply IH; auto|]. exfalso. auto.
Qed.

Lemma nc_run_keys calls : forall f : file, (forall c, In c calls -> store (fst c) = fst c) ->
  keys (nc_run store enc f calls) = ext (keys f) (map fst calls).
Proof.
  induction calls as [|[t d] calls IH]; intros f H; [reflexivity|]. cbn [nc_run fold_left map].
  change (keys (nc_run store enc (nc_output store enc f (t, d)) calls) = ext (keys f) (t :: map fst calls)).
  rewrite IH by (intros c Hc; apply H; now right). rewrite nc_output_keys by (apply (H (t, d)); now left). reflexivity.
Qed.

(** records *)
Lemma in_unique (f : file) t a b : NoDup (keys f) -> In (t, a) f -> In (t, b) f -> a = b.
Proof.
  unfold keys. induction f as [|[s e] f IH]; simpl; intros Hn Ha Hb; [tauto|].
  inversion Hn as [|? ? Hs Hf]; subst.
  destruct Ha as [Ha|Ha], Hb as [Hb|Hb].
  - congruence.
  - injection Ha as -> ->. exfalso. apply Hs. apply (in_map fst) in Hb. exact Hb.
  - injection Hb as -> ->. exfalso. apply Hs. apply (in_map fst) in Ha. exact Ha.
  - auto.
Qed.

Lemma nc_output_record (f : file) t d s e : NoDup (keys f) -> store t = t ->
  In (s, e) (nc_output store enc f (t, d)) <-> (s = t /\ e = Some (enc d)) \/ (s <> t /\ In (s, e) f).
Proof.
  intros Hn Hs. destruct (in_dec Qc_eq_dec t (keys f)) as [H|H].
  - destruct (split_at t f H) as (pre & x & post & -> & Hp).
    rewrite (nc_output_in t d x pre post Hp Hs).
    assert (Hq : ~ In t (map fst post)).
    { unfold keys in Hn. rewrite map_app in Hn. simpl in Hn. apply NoDup_remove_2 in Hn. rewrite in_app_iff in Hn. tauto. }
    rewrite !in_app_iff. simpl. split.
    + intros [Hi|[[= <- <-]|Hi]]; [right|tauto|right]; (split; [|tauto]);
        intros ->; apply (in_map fst) in Hi; tauto.
    + intros [(-> & ->)|(Hst & [Hi|[[= <- <-]|Hi]])]; tauto || congruence.
  - rewrite nc_output_out by exact H. rewrite in_app_iff. simpl. rewrite Hs. split.
    + intros [Hi|[[= <- <-]|[]]]; [right|tauto]. split; [|exact Hi]. intros ->. apply H. apply (in_map fst) in Hi. exact Hi.
    + intros [(-> & ->)|(_ & Hi)]; tauto.
Qed.

Lemma last_call_or (calls : list (Qc * A)) t : (exists d, last_call t calls d) \/ ~ In t (map fst calls).
Proof.
  induction calls as [|[s d] calls IH]; [right; auto|]. destruct IH as [(e & H)|H].
  - left. exists e. now constructor.
  - destruct (Qc_eq_dec s t) as [->|N]; [left; exists d; now constructor|]. right. simpl. tauto.
Qed.
Lemma last_call_in (calls : list (Qc * A)) t d : last_call t calls d -> In t (map fst calls).
Proof. induction 1; simpl; auto. Qed.

Lemma nc_run_record calls : forall f : file, NoDup (keys f) -> (forall c, In c calls -> store (fst c) = fst c) ->
  forall t, (forall d e, last_call t calls d -> (In (t, e) (nc_run store enc f calls) <-> e = Some (enc d))) /\
            (forall e, ~ In t (map fst calls) -> (In (t, e) (nc_run store enc f calls) <-> In (t, e) f)).
Proof.
  induction calls as [|[s x] calls IH]; intros f Hn Hs t.
  - split; [inversion 1|]. intros e _. reflexivity.
  - assert (Hss : store s = s) by (apply (Hs (s, x)); now left).
    assert (Hn' : NoDup (keys (nc_output store enc f (s, x)))) by (rewrite nc_output_keys by exact Hss; now apply ext_nodup).
    destruct (IH (nc_output store enc f (s, x)) Hn' (fun c Hc => Hs c (or_intror Hc)) t) as (I1 & I2).
    change (nc_run store enc f ((s, x) :: calls)) with (nc_run store enc (nc_output store enc f (s, x)) calls).
    split.
    + intros d e H. inversion H as [? ? Hx E|? ? ? Hx]; subst.
      * rewrite I2 by exact Hx. rewrite nc_output_record by auto. tauto.
      * now apply I1.
    + intros e H. simpl in H. rewrite I2 by tauto. rewrite nc_output_record by auto.
      split; [intros [(-> & _)|(_ & Hi)]; tauto|]. intros Hi. right. split; [intros ->; tauto|exact Hi].
Qed.

Lemma file_ext (f g : file) : NoDup (keys f) -> keys f = keys g -> (forall t e, In (t, e) f <-> In (t, e) g) -> f = g.
Proof.
  revert g. unfold keys. induction f as [|[s e] f IH]; intros [|[s' e'] g]; simpl; intros Hn Hk Hi; try discriminate; auto.
  injection Hk as <- Hk. inversion Hn as [|? ? Hs Hf]; subst.
  assert (Hs' : ~ In s (map fst g)) by (rewrite <- Hk; exact Hs).
  assert (e = e').
  { destruct (proj1 (Hi s e) (or_introl eq_refl)) as [E|H]; [congruence|]. apply (in_map fst) in H. simpl in H. tauto. }
  subst e'. f_equal. apply IH; auto. intros t x. split; intros H.
  - destruct (proj1 (Hi t x) (or_intror H)) as [E|]; auto. injection E as <- <-. apply (in_map fst) in H. simpl in H. tauto.
  - destruct (proj2 (Hi t x) (or_intror H)) as [E|]; auto. injection E as <- <-. apply (in_map fst) in H. simpl in H. tauto.
Qed.

Lemma nc_run_spec (f : file) calls : NoDup (map fst f) -> (forall c, In c calls -> store (fst c) = fst c) ->
  NoDup (map fst (nc_run store enc f calls)) /\
  first_seen (map fst f) (map fst calls) (map fst (nc_run store enc f calls)) /\
  forall t e, has_record (nc_run store enc f calls) t e <->
    (exists d, last_call t calls d /\ e = Some (enc d)) \/ (~ In t (map fst calls) /\ has_record f t e).
Proof.
  intros Hn Hs. pose proof (nc_run_keys calls f Hs) as Hk. fold (keys (nc_run store enc f calls)). fold (keys f).
  split; [rewrite Hk; now apply ext_nodup|]. split; [now apply ext_first_seen|].
  intros t e. destruct (nc_run_record calls f Hn Hs t) as (R1 & R2). unfold has_record. split.
  - intros H. destruct (last_call_or calls t) as [(d & Hd)|Hd].
    + left. exists d. split; [exact Hd|]. now apply (R1 d e Hd).
    + right. split; [exact Hd|]. now apply R2.
  - intros [(d & Hd & ->)|(Hd & H)]; [now apply (R1 d)|now apply R2].
Qed.

(** interrupted and then repeated *)
Lemma interrupted_keys (f : file) done rest k : NoDup (keys f) ->
  (forall c, In c (done ++ rest) -> store (fst c) = fst c) ->
  match k with Before => True | Between c => exists r, rest = c :: r end ->
  NoDup (keys (interrupted store enc f done k)) /\
  ext (keys (interrupted store enc f done k)) (map fst (done ++ rest)) = ext (keys f) (map fst (done ++ rest)) /\
  forall t e, ~ In t (map fst (done ++ rest)) -> In (t, e) (interrupted store enc f done k) <-> In (t, e) f.
Proof.
  intros Hn Hs Hk.
  assert (Hsd : forall c, In c done -> store (fst c) = fst c) by (intros; apply Hs; apply in_app_iff; now left).
  pose proof (nc_run_keys done f Hsd) as Kd.
  assert (Nd : NoDup (keys (nc_run store enc f done))) by (rewrite Kd; now apply ext_nodup).
  assert (Rd : forall t e, ~ In t (map fst (done ++ rest)) -> In (t, e) (nc_run store enc f done) <-> In (t, e) f).
  { intros t e Ht. apply (nc_run_record done f Hn Hsd t). rewrite map_app, in_app_iff in Ht. tauto. }
  destruct k as [|c]; unfold interrupted.
  - split; [exact Nd|]. split; [|exact Rd]. rewrite Kd, map_app, !ext_app.
    f_equal. apply ext_known. intros t Ht. rewrite ext_in. tauto.
  - destruct Hk as (r & ->). destruct c as [s x]. simpl fst in *.
    assert (Hss : store s = s) by (apply (Hs (s, x)); apply in_app_iff; right; now left).
    split; [rewrite write_time_keys by exact Hss; now apply ext_nodup|]. split.
    + rewrite write_time_keys, Kd by exact Hss. rewrite map_app, !ext_app. simpl map.
      change (s :: map fst r) with ([s] ++ map fst r). rewrite !ext_app. f_equal.
      rewrite (ext_known (map fst done)).
      * rewrite (ext_known [s]); [reflexivity|]. intros t [<-|[]]. rewrite ext_in. right. now left.
      * intros t Ht. rewrite !ext_in. tauto.
    + intros t e Ht. rewrite <- (Rd t e Ht).
      assert (Hts : t <> s) by (intros ->; apply Ht; rewrite map_app, in_app_iff; right; now left).
      remember (nc_run store enc f done) as g. clear - Hts Hss.
      destruct (in_dec Qc_eq_dec s (keys g)) as [H|H].
      * destruct (split_at s g H) as (pre & d & post & -> & Hp). rewrite write_time_in by auto. reflexivity.
      * rewrite write_time_out by exact H. simpl. rewrite in_app_iff. simpl. rewrite Hss. intuition congruence.
Qed.

Lemma rerun_after_crash (f : file) done rest k : NoDup (map fst f) ->
  (forall c, In c (done ++ rest) -> store (fst c) = fst c) ->
  match k with Before => True | Between c => exists r, rest = c :: r end ->
  nc_run store enc (interrupted store enc f done k) (done ++ rest) = nc_run store enc f (done ++ rest).
Proof.
  intros Hn Hs Hk. destruct (interrupted_keys f done rest k Hn Hs Hk) as (N & E & R).
  apply file_ext.
  - rewrite nc_run_keys by exact Hs. now apply ext_nodup.
  - rewrite !nc_run_keys by exact Hs. exact E.
  - intros t e.
    destruct (nc_run_record (done ++ rest) _ N Hs t) as (A1 & A2).
    destruct (nc_run_record (done ++ rest) f Hn Hs t) as (B1 & B2).
    destruct (last_call_or (done ++ rest) t) as [(d & Hd)|Hd].
    + rewrite (A1 d e Hd), (B1 d e Hd). tauto.
    + rewrite (A2 e Hd), (B2 e Hd). now apply R.
Qed.

(** times that the file cannot represent *)
Lemma nc_run_stored calls : forall f : file, (forall t, In t (map fst f) -> store t = t) ->
  (forall s, store (store s) = store s) ->
  forall t, In t (map fst (nc_run store enc f calls)) -> store t = t.
Proof.
  induction calls as [|[s d] calls IH]; intros f Hf Hi; [exact Hf|].
  change (nc_run store enc f ((s, d) :: calls)) with (nc_run store enc (nc_output store enc f (s, d)) calls).
  apply IH; [|exact Hi]. destruct (in_dec Qc_eq_dec s (map fst f)) as [H|H].
  - destruct (split_at s f H) as (pre & e & post & -> & Hp).
    assert (Hs : store s = s) by (apply Hf; exact H).
    rewrite (nc_output_in s d e pre post Hp Hs).
    intros t Ht. apply Hf. rewrite map_app in *. exact Ht.
  - rewrite nc_output_out by exact H. intros t. rewrite map_app, in_app_iff. simpl.
    intros [Ht|[<-|[]]]; [now apply Hf|apply Hi].
Qed.

Lemma nc_unrepresentable (f : file) calls t d : (forall t, In t (map fst f) -> store t = t) ->
  (forall s, store (store s) = store s) -> store t <> t ->
  nc_run store enc f (calls ++ [(t, d)]) = nc_run store enc f calls ++ [(store t, Some (enc d))].
Proof.
  intros Hf Hi Ht. unfold nc_run. rewrite fold_left_app. simpl. apply nc_output_out.
  intros H. apply Ht. now apply (nc_run_stored calls f Hf Hi).
Qed.
End File.

Lemma positions_exist freq n : 0 < freq ->
  exists ps, multiples_below freq n ps /\ forall ps', multiples_below freq n ps' -> ps' = ps.
Proof.
  intros Hf. exists (positions freq 0 n). split; [now apply positions_spec|].
  intros ps' H. now apply multiples_unique.
Qed.

Lemma last_step freq n ps : 0 < freq -> 0 < n -> multiples_below freq n ps ->
  In (n - 1) ps <-> exists k, n = k * freq + 1.
Proof.
  intros Hf Hn (_ & E). rewrite E. split.
  - intros (_ & k & Hk). exists k. lia.
  - intros (k & Hk). split; [lia|]. exists k. lia.
Qed.

Lemma smrf_output_cases {A} (zeros : A) vars dts freq attr i : 0 < freq -> NoDup dts -> i < length dts ->
  let out := smrf_output zeros vars dts freq attr (nth i dts 0%Z) in
  (forall v, attr v <> None) ->
  ((exists k, i = k * freq) ->
     out None None = (map (fun v => mkCall v (data_of zeros (attr v)) (nth i dts 0%Z)) vars, true) /\
     (forall m v, In v vars -> out (Some m) (Some v) = ([mkCall v (data_of zeros (attr v)) (nth i dts 0%Z)], true)) /\
     (forall m v, ~ In v vars -> out (Some m) (Some v) = ([], false)) /\
     (forall x, out (Some x) None = ([], false) /\ out None (Some x) = ([], false))) /\
  ((~ exists k, i = k * freq) -> forall m v, out m v = ([], true)).
Proof.
  intros Hf Hn Hi out Ha. pose proof (index_of_nth dts i Hn Hi) as E1. pose proof (due_in freq (length dts) i Hf Hi) as E2.
  assert (D : i mod freq = 0 <-> exists k, i = k * freq).
  { split.
    - intros H. exists (i / freq). pose proof (Nat.div_mod_eq i freq). lia.
    - intros (k & ->). apply Nat.mod_mul. lia. }
  split.
  - intros Hk. apply D in Hk. rewrite Hk in E2. simpl in E2. subst out.
    repeat split; intros; rewrite (smrf_output_request _ _ _ _ _ _ _ _ _ _ E1 E2); cbn [negb]; try reflexivity.
    + rewrite write_vars_ok by auto. reflexivity.
    + destruct (mem_natP v vars) as [Hm|Hm]; [|contradiction]. unfold mem_nat in *.
      change (existsb (Nat.eqb v) vars) with (mem_nat v vars). destruct (mem_natP v vars); [|contradiction].
      rewrite write_vars_ok by auto. reflexivity.
    + change (existsb (Nat.eqb v) vars) with (mem_nat v vars). destruct (mem_natP v vars); [contradiction|reflexivity].
  - intros Hk m v. rewrite <- D in Hk. apply Nat.eqb_neq in Hk. rewrite Hk in E2.
    subst out. rewrite (smrf_output_request _ _ _ _ _ _ _ _ _ _ E1 E2). reflexivity.
Qed.

Lemma written_variables {A} (zeros : A) c requested dts freq value calls puts v :
  0 < freq ->
  thread_run zeros (create_output_variable_dict requested) dts freq (fun v => mem_nat v (queue_names c)) value
    = Some (calls, puts) ->
  (exists x, In x calls /\ c_var x = v) <->
  (dts <> [] /\ In v requested /\ In v output_variables /\ In v (queue_names c)).
Proof.
  intros Hf E. rewrite (thread_run_ok zeros _ dts freq _ value _ Hf (positions_spec freq (length dts) Hf)) in E.
  injection E as <- _.
  set (vars := create_output_variable_dict requested).
  assert (V : In v (filter (fun v => mem_nat v (queue_names c)) vars) <->
              In v requested /\ In v output_variables /\ In v (queue_names c)).
  { rewrite filter_In. unfold vars. rewrite (proj2 (variable_dict_spec requested) v).
    rewrite <- (reflect_iff _ _ (mem_natP v (queue_names c))). tauto. }
  rewrite <- V. unfold all_calls. split.
  - intros (x & Hx & <-). apply in_flat_map in Hx. destruct Hx as (i & Hi & Hx).
    apply in_map_iff in Hx. destruct Hx as (u & <- & Hu). simpl. split; [|exact Hu].
    intros ->. simpl in Hi. exact Hi.
  - intros (Hd & Hv). eexists. split.
    + apply in_flat_map. exists 0. split.
      * apply positions_in; [exact Hf|]. destruct dts as [|t r]; [congruence|]. simpl. split; [lia|]. now exists 0.
      * apply in_map_iff. exists v. split; [reflexivity|exact Hv].
    + reflexivity.
Qed.

Lemma flatwind_dies {A} (zeros : A) c sun vars dts freq (attr : nat -> attributes) :
  0 < freq -> NoDup dts -> dts <> [] -> In flatwind vars ->
  (forall i v, attr i v = None <-> attr_kind c false sun i v = Absent) ->
  snd (serial_run zeros vars dts freq attr) = false /\
  forall x, In x (fst (serial_run zeros vars dts freq attr)) -> c_time x = hd 0%Z dts /\ c_var x <> flatwind.
Proof.
  intros Hf Hn Hd Hv Ha.
  assert (F : attr 0 flatwind = None) by (apply Ha; reflexivity).
  (* the first missing variable *)
  assert (S : exists pre v post, vars = pre ++ v :: post /\ (forall u, In u pre -> attr 0 u <> None) /\ attr 0 v = None).
  { clear - Hv F. induction vars as [|a r IH]; [contradiction|].
    destruct (attr 0 a) as [d|] eqn:E.
    - destruct Hv as [->|Hv]; [congruence|]. destruct (IH Hv) as (pre & v & post & -> & H1 & H2).
      exists (a :: pre), v, post. split; [reflexivity|]. split; [|exact H2]. intros u [<-|Hu]; [congruence|auto].
    - exists [], a, r. split; [reflexivity|]. split; [intros u []|exact E]. }
  destruct S as (pre & v & post & -> & H1 & H2).
  assert (L : 0 < length dts) by (destruct dts; [congruence|simpl; lia]).
  rewrite (serial_run_fail zeros pre v post dts freq attr 0 []); auto.
  - split; [reflexivity|]. simpl. rewrite app_nil_r. intros x Hx. apply in_map_iff in Hx. destruct Hx as (u & <- & Hu). simpl.
    split; [destruct dts; reflexivity|]. intros ->. exact (H1 _ Hu F).
  - exists 0. reflexivity.
  - split; [constructor|]. intros i. simpl. split; [tauto|lia].
Qed.
