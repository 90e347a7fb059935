(** Proofs about the HRU output. *)
From Coq Require Import List ZArith Bool Arith Lia QArith Qcanon.
From Verif Require Import Num WinsModel OutputModel HruModel HruSpec.
Import ListNotations.

Lemma sum_app l x : fold_right Qcplus 0%Qc (l ++ [x]) = (fold_right Qcplus 0 l + x)%Qc.
Proof.
  induction l as [|y l IH]; [cbn [app fold_right]; ring|].
  change ((y + fold_right Qcplus 0 (l ++ [x]) = y + fold_right Qcplus 0 l + x)%Qc). rewrite IH. ring.
Qed.
Lemma numbers_app l m : numbers (l ++ m) = numbers l ++ numbers m.
Proof. apply flat_map_app. Qed.
Lemma cells_succ hru (data : nat -> num) id n :
  map data (filter (fun c => Z.eqb (hru c) id) (seq 0 (S n))) =
  map data (filter (fun c => Z.eqb (hru c) id) (seq 0 n)) ++ (if Z.eqb (hru n) id then [data n] else []).
Proof.
  rewrite seq_S, filter_app, map_app. cbn [filter Nat.add]. destruct (hru n =? id)%Z; reflexivity.
Qed.
Lemma total_numbers hru (data : nat -> num) id n :
  let vs := numbers (map data (filter (fun c => Z.eqb (hru c) id) (seq 0 n))) in
  total (only hru id data) n (fold_right Qcplus 0%Qc vs) (length vs).
Proof.
  induction n as [|n IH]; [constructor|]. cbv zeta in *. rewrite cells_succ, numbers_app.
  destruct (Z.eqb_spec (hru n) id) as [E|N].
  - destruct (data n) as [x|] eqn:D.
    + cbn [numbers flat_map app]. rewrite sum_app, app_length. cbn [length]. rewrite Nat.add_1_r.
      apply t_number; [exact IH|]. unfold only. rewrite E, Z.eqb_refl. exact D.
    + cbn [numbers flat_map app]. rewrite app_nil_r. apply t_missing; [exact IH|].
      unfold only. rewrite E, Z.eqb_refl. exact D.
  - cbn [numbers flat_map]. rewrite app_nil_r. apply t_missing; [exact IH|]. unfold only.
    destruct (Z.eqb_spec (hru n) id); [contradiction|reflexivity].
Qed.
Lemma total_det f n : forall s k s' k', total f n s k -> total f n s' k' -> s = s' /\ k = k'.
Proof.
  induction n as [|n IH]; intros s k s' k' T T'.
  - inversion T; inversion T'; subst. split; congruence.
  - inversion T as [|? s0 k0 x T0 F0|? s0 k0 T0 F0]; inversion T' as [|? s1 k1 y T1 F1|? s1 k1 T1 F1]; subst;
      try congruence; destruct (IH _ _ _ _ T0 T1) as [-> ->]; [|auto].
    assert (x = y) by congruence. subst. auto.
Qed.
Lemma size_nz k : k <> 0%nat -> Q2Qc (inject_Z (Z.of_nat k)) <> 0%Qc.
Proof.
  intros H E. apply (f_equal this) in E.
  assert (Q : (inject_Z (Z.of_nat k) == 0)%Q) by (rewrite <- (this_Q2Qc (inject_Z (Z.of_nat k))), E; reflexivity).
  unfold Qeq, inject_Z in Q. cbn [Qnum Qden] in Q. lia.
Qed.
Lemma nanmean_mean w data id : is_mean (w_ncell w) (w_hru w) id data (nanmean (cells_of w data id)).
Proof.
  unfold is_mean, nanmean, cells_of.
  pose proof (total_numbers (w_hru w) data id (w_ncell w)) as T. cbv zeta in T.
  destruct (numbers _) as [|x vs] eqn:E.
  - do 2 eexists. split; [exact T|reflexivity].
  - do 2 eexists. split; [exact T|]. split; [discriminate|].
    field. apply size_nz. discriminate.
Qed.
Lemma convert_units f x : in_units f x (convert f x).
Proof.
  destruct x as [v|]; [|destruct f; exact I]. destruct f; cbn; [reflexivity| |].
  - unfold q. field. intros E. apply (f_equal this) in E. discriminate E.
  - unfold q. replace (v * Q2Qc (9 # 1) / Q2Qc (5 # 1) + Q2Qc (32 # 1) - Q2Qc (32 # 1))%Qc with (v * Q2Qc (9 # 1) / Q2Qc (5 # 1))%Qc by ring.
    replace (Q2Qc (5 # 9)) with (Q2Qc (5 # 1) / Q2Qc (9 # 1))%Qc by (apply Qc_is_canon; reflexivity).
    field. split; intros E; apply (f_equal this) in E; discriminate E.
Qed.
Lemma means_row w data : is_row (w_ncell w) (w_hru w) (w_max w) (w_func w) data (means w data).
Proof.
  unfold is_row, means. rewrite map_length, seq_length. split; [reflexivity|]. intros h y H.
  rewrite nth_error_map in H. destruct (nth_error (seq 0 (Z.to_nat (w_max w))) h) as [h'|] eqn:E; [|discriminate].
  assert (h' = h).
  { assert (L : (h < Z.to_nat (w_max w))%nat).
    { rewrite <- (seq_length (Z.to_nat (w_max w)) 0). apply nth_error_Some. congruence. }
    rewrite (nth_error_nth' _ 0%nat) in E by (rewrite seq_length; exact L). rewrite seq_nth in E by exact L. injection E as <-. reflexivity. }
  subst h'. injection H as <-. eexists. split; [apply nanmean_mean|apply convert_units].
Qed.
(** The mean is unique *)
Lemma mean_det ncell hru id data m m' : is_mean ncell hru id data m -> is_mean ncell hru id data m' -> m = m'.
Proof.
  intros (s & k & T & M) (s' & k' & T' & M'). destruct (total_det _ _ _ _ _ _ T T') as [<- <-].
  destruct m as [x|], m' as [y|]; auto; try (destruct M; contradiction); try (destruct M'; contradiction).
  destruct M as [K M], M' as [_ M']. f_equal. apply size_nz in K.
  replace x with (x * Q2Qc (inject_Z (Z.of_nat k)) / Q2Qc (inject_Z (Z.of_nat k)))%Qc by (field; exact K).
  replace y with (y * Q2Qc (inject_Z (Z.of_nat k)) / Q2Qc (inject_Z (Z.of_nat k)))%Qc by (field; exact K).
  rewrite M, M'. reflexivity.
Qed.

(** ** The calls of a run *)
Definition csvb (w : writer) : bool := match w_type w with TPrms => false | _ => true end.
Lemma outputs_csv : forall calls w, csvb w = true ->
  exists w', outputs w calls = (w', None) /\
  forall v, exists ls, w_files w' v = w_files w v ++ ls /\
    written (is_row (w_ncell w) (w_hru w) (w_max w) (w_func w)) (w_dates w) true v (w_idx w) calls ls.
Proof.
  induction calls as [|c r IH]; intros w C.
  - exists w. split; [reflexivity|]. intros v. exists []. split; [symmetry; apply app_nil_r|constructor].
  - cbn [outputs]. unfold output. cbv zeta.
    set (w1 := mkWriter (w_type w) (w_func w) (w_ncell w) (w_hru w) (w_max w) (w_dates w) (S (w_idx w))
            (put_line (w_files w) (c_var c) ((if Nat.eqb (w_idx w) 0 then [LHeader] else []) ++ [LRow (nth_error (w_dates w) (w_idx w)) (means w (c_data c))]))).
    assert (E : match w_type w with TPrms => match nth_error (w_dates w) (w_idx w) with None => Err ValueError | Some _ => Ok w1 end | _ => Ok w1 end = Ok w1)
      by (unfold csvb in C; destruct (w_type w); [reflexivity|discriminate|reflexivity]).
    replace (match match w_type w with TPrms => _ | _ => _ end with Ok w' => outputs w' r | Err e => (w, Some e) end) with (outputs w1 r).
    2:{ unfold w1, csvb in *. destruct (w_type w); [reflexivity|discriminate|reflexivity]. }
    destruct (IH w1) as (w' & O & F); [exact C|]. exists w'. split; [exact O|]. intros v.
    destruct (F v) as (ls & E1 & W). cbn [w_files w_ncell w_hru w_max w_func w_dates w_idx w1] in E1, W.
    unfold put_line in E1. destruct (Nat.eqb_spec v (c_var c)) as [->|N].
    + eexists. split; [rewrite E1, <- app_assoc; reflexivity|]. rewrite <- app_assoc. cbn [app].
      apply (w_this _ _ true); [reflexivity|apply means_row|exact W].
    + exists ls. split; [exact E1|]. apply w_other; [congruence|exact W].
Qed.
Lemma outputs_prms : forall calls w, w_type w = TPrms ->
  let fits := firstn (length (w_dates w) - w_idx w) calls in
  exists w', outputs w calls = (w', if (length calls <=? length (w_dates w) - w_idx w)%nat then None else Some ValueError) /\
  forall v, exists ls, w_files w' v = w_files w v ++ ls /\
    written (is_row (w_ncell w) (w_hru w) (w_max w) (w_func w)) (w_dates w) false v (w_idx w) fits ls.
Proof.
  induction calls as [|c r IH]; intros w C; cbv zeta.
  - exists w. split; [reflexivity|]. rewrite firstn_nil. intros v. exists []. split; [symmetry; apply app_nil_r|constructor].
  - cbn [outputs]. unfold output. cbv zeta. rewrite C.
    destruct (nth_error (w_dates w) (w_idx w)) as [t|] eqn:D.
    + assert (L : (w_idx w < length (w_dates w))%nat) by (apply nth_error_Some; congruence).
      set (w1 := mkWriter TPrms _ _ _ _ _ _ _). destruct (IH w1 eq_refl) as (w' & O & F).
      cbn [w_dates w_idx w1] in O, F. exists w'. split.
      * rewrite O. cbn [length]. 
        replace (length (w_dates w) - w_idx w)%nat with (S (length (w_dates w) - S (w_idx w))) by lia. reflexivity.
      * intros v. destruct (F v) as (ls & E1 & W). cbn [w_files w_ncell w_hru w_max w_func w1] in E1, W.
        replace (length (w_dates w) - w_idx w)%nat with (S (length (w_dates w) - S (w_idx w))) by lia. cbn [firstn].
        unfold put_line in E1. destruct (Nat.eqb_spec v (c_var c)) as [->|N].
        -- eexists. split; [rewrite E1, <- app_assoc; reflexivity|]. cbn [app]. rewrite <- D.
           apply (w_this _ _ false); [reflexivity|apply means_row|exact W].
        -- exists ls. split; [exact E1|]. apply w_other; [congruence|exact W].
    + apply nth_error_None in D. exists w.
      replace (length (w_dates w) - w_idx w)%nat with 0%nat by lia. split; [reflexivity|].
      intros v. exists []. split; [symmetry; apply app_nil_r|constructor].
Qed.

(** One call per date, all of one variable *)
Lemma written_one {A} (right : A -> list num -> Prop) dates csv v calls : forall k ls,
  written right dates csv v k calls ls -> (forall c, In c calls -> c_var c = v) ->
  (forall i c, nth_error calls i = Some c -> nth_error dates (k + i) = Some (c_time c)) ->
  exists rows, ls = (if csv && Nat.eqb k 0 then match calls with [] => [] | _ => [LHeader] end else []) ++ rows /\
    Forall2 (fun c l => exists values, l = LRow (Some (c_time c)) values /\ right (c_data c) values) calls rows.
Proof.
  induction calls as [|c r IH]; intros k ls W V T.
  - inversion W; subst. exists []. split; [|constructor]. destruct (csv && (k =? 0)%nat); reflexivity.
  - assert (Vc : c_var c = v) by (apply V; left; reflexivity). inversion W as [|? ? ? ? N|? ? ? ls' values E R W' E1 E2]; subst; [contradiction|].
    destruct (IH (S k) ls' W') as (rows & -> & F).
    + intros c' H. apply V. right; exact H.
    + intros i c' H. replace (S k + i)%nat with (k + S i)%nat by lia. apply T. exact H.
    + exists (LRow (nth_error dates k) values :: rows). split.
      * cbn [Nat.eqb andb]. rewrite andb_false_r. reflexivity.
      * constructor; [|exact F]. exists values. split; [|exact R]. f_equal.
        rewrite <- (T 0%nat c eq_refl). f_equal. lia.
Qed.

(** ** Which run can use it *)
Lemma any_netcdf {A} (zeros : A) d dts freq attr : forall todo i,
  any_serial_from zeros (Netcdf d) dts freq attr i todo = serial_from zeros d dts freq attr i todo.
Proof.
  induction todo as [|t r IH]; intros i; [reflexivity|]. cbn [any_serial_from serial_from]. rewrite IH. f_equal.
  unfold any_output, smrf_output. destruct (index_of t dts) as [c|]; [|reflexivity].
  destruct (due freq (length dts) c) as [[]|]; reflexivity.
Qed.
Lemma any_hru {A} (zeros : A) w dts freq attr : dts <> [] ->
  any_serial_run zeros (Hru w) dts freq attr = ([], false).
Proof.
  destruct dts as [|t r]; [contradiction|]. intros _. unfold any_serial_run. cbn [any_serial_from].
  unfold any_output. cbn [index_of]. rewrite Z.eqb_refl. unfold due. destruct freq as [|f]; [reflexivity|].
  cbn [Nat.eqb]. rewrite Nat.mod_0_l by discriminate. cbn [Nat.eqb orb variable_dict]. reflexivity.
Qed.

Lemma max_of_spec l m : max_of l = Some m <-> In m l /\ forall x, In x l -> (x <= m)%Z.
Proof.
  revert m; induction l as [|a l IH]; intros m; cbn [max_of].
  - split; [discriminate|intros [[] _]].
  - destruct (max_of l) as [m'|] eqn:E.
    + pose proof (proj1 (IH m') eq_refl) as [I1 M1]. split.
      * intros [= <-]. split.
        -- destruct (Z.max_spec a m') as [[_ ->]|[_ ->]]; [right; exact I1|left; reflexivity].
        -- intros x [->|Hx]; [lia|]. specialize (M1 x Hx). lia.
      * intros [I2 M2]. f_equal. pose proof (M2 a (or_introl eq_refl)). pose proof (M2 m' (or_intror I1)).
        destruct I2 as [->|I2]; [lia|]. specialize (M1 m I2). lia.
    + assert (l = []) by (destruct l; [reflexivity|discriminate]). subst l. split.
      * intros [= <-]. split; [left; reflexivity|]. intros x [->|[]]. lia.
      * intros [[->|[]] _]. reflexivity.
Qed.
