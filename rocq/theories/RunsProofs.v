(** Proofs about several runs with the same output directory. *)
From Coq Require Import List Arith Bool ZArith QArith Qabs Qcanon Lia.
From Verif Require Import Num OutputModel OutputSpec OutputProofs NcTimeProofs RunsModel RunsSpec.
Import ListNotations.
Local Open Scope nat_scope.

Lemma put_same d v f : put d v f v = Some f.
Proof. unfold put. now rewrite Nat.eqb_refl. Qed.
Lemma put_other d v f w : w <> v -> put d v f w = d w.
Proof. intros H. unfold put. destruct (Nat.eqb_spec w v); congruence. Qed.

(** ** opening *)
Lemma open_all_spec u names : forall d v,
  open_all u names d v = match d v with Some f => Some f | None => if existsb (Nat.eqb v) names then Some (create u v) else None end.
Proof.
  unfold open_all. induction names as [|n names IH]; intros d v; cbn [fold_left existsb].
  - now destruct (d v).
  - rewrite IH. unfold open. destruct (Nat.eqb_spec v n) as [->|N]; cbn [orb].
    + destruct (d n) eqn:E; [now rewrite E|]. now rewrite put_same.
    + destruct (d n) eqn:E; [reflexivity|]. now rewrite put_other by exact N.
Qed.
Lemma existsb_in v names : existsb (Nat.eqb v) names = true <-> In v names.
Proof.
  rewrite existsb_exists. split; [intros (x & H & E); apply Nat.eqb_eq in E; now subst|].
  intros H. exists v. split; [exact H|apply Nat.eqb_refl].
Qed.

(** ** the mask *)
Lemma map2o_total {X Y Z} (f : X -> Y -> option Z) (a : list X) : forall b, length a = length b ->
  (forall x y, In x a -> In y b -> f x y <> None) -> map2o f a b <> None.
Proof.
  induction a as [|x a IH]; intros [|y b] L H; try discriminate L; cbn [map2o]; [discriminate|].
  destruct (f x y) eqn:E; [|exfalso; exact (H x y (or_introl eq_refl) (or_introl eq_refl) E)].
  destruct (map2o f a b) eqn:E2; [discriminate|]. exfalso. apply (IH b); [now injection L| |exact E2].
  intros x' y' Hx Hy. apply H; now right.
Qed.
Lemma map2o_nth {X Y Z} (f : X -> Y -> option Z) (a : list X) dx dy dz : forall b r, map2o f a b = Some r ->
  length b = length a /\ length r = length a /\
  forall i, i < length a -> f (nth i a dx) (nth i b dy) = Some (nth i r dz).
Proof.
  induction a as [|x a IH]; intros [|y b] r E; cbn [map2o] in E; try discriminate E.
  - injection E as <-. repeat split. simpl. intros i Hi. lia.
  - destruct (f x y) as [z|] eqn:F; [|discriminate E]. destruct (map2o f a b) as [r'|] eqn:G; [|discriminate E].
    injection E as <-. destruct (IH b r' G) as (L1 & L2 & N). simpl. repeat split; try lia.
    intros [|i] Hi; [exact F|]. apply N. lia.
Qed.

Definition times_mask : num -> Qc -> option num := fun x m => Some (option_map (fun y => Qcmult y m) x).
Lemma masked_spec u ny nx g : shaped ny nx g -> shaped ny nx (u_mask u) ->
  exists m, masked u g = Some m /\ shaped ny nx m /\ shown u g m.
Proof.
  intros (L1 & S1) (L2 & S2). unfold masked, shown. destruct (u_mask_output u); [|exists g; repeat split; auto].
  change (fun (x : num) (m : Qc) => Some (option_map (fun y : Qc => (y * m)%Qc) x)) with times_mask.
  destruct (map2o (map2o times_mask) g (u_mask u)) as [m|] eqn:E.
  2:{ exfalso. revert E. apply map2o_total; [congruence|]. intros x y Hx Hy. apply map2o_total.
      - now rewrite (S1 x Hx), (S2 y Hy).
      - intros a b _ _. discriminate. }
  exists m. split; [reflexivity|]. destruct (map2o_nth _ _ [] [] [] _ _ E) as (_ & Lm & N).
  assert (R : forall i, i < length g -> length (nth i m []) = length (nth i g []) /\
            forall j, j < length (nth i g []) -> nth j (nth i m []) None = under (u_mask u) i j (nth j (nth i g []) None)).
  { intros i Hi. specialize (N i Hi). destruct (map2o_nth _ _ None (Q2Qc 0) None _ _ N) as (_ & Lr & Nr).
    split; [exact Lr|]. intros j Hj. specialize (Nr j Hj). injection Nr as <-. unfold under.
    now destruct (nth j (nth i g []) None). }
  split; [split; [congruence|]|split; [exact Lm|]].
  - intros row Hr. destruct (In_nth _ _ [] Hr) as (i & Hi & <-). rewrite Lm in Hi.
    rewrite (proj1 (R i Hi)). apply S1. now apply nth_In.
  - intros i. destruct (Nat.lt_ge_cases i (length g)) as [Hi|Hi]; [exact (R i Hi)|].
    rewrite !nth_overflow by lia. split; [reflexivity|]. simpl. intros j Hj. lia.
Qed.

(** ** calls *)
Section Library.
Variable promote : bool.
Variable conform : nat -> nat -> grid -> option grid.
Notation output := (output promote conform).
Notation outputs := (outputs promote conform).
Notation execute := (execute promote conform).
Notation history := (history promote conform).

(** the calls of a run for a variable, with the mask *)
Definition proj (v : nat) (u : setup) (cs : list (call grid)) : list (Z * grid) :=
  flat_map (fun c => if c_var c =? v then match masked u (c_data c) with Some m => [(c_time c, m)] | None => [] end else []) cs.
Definition added (f : ncfile) (l : list (Z * grid)) : ncfile :=
  mkFile (n_head f) (nc_run promote float32 (to_type (h_double (n_head f))) (n_records f)
    (map (fun c => (date2num (fst c - h_origin (n_head f)), snd c)) l)).
Lemma added_nil f : added f [] = f.
Proof. now destruct f. Qed.
Lemma added_app f a b : added (added f a) b = added f (a ++ b).
Proof. unfold added. cbn [n_head n_records]. unfold nc_run. now rewrite map_app, fold_left_app. Qed.

Definition sized (ny nx : nat) (d : disk) : Prop :=
  forall v f, d v = Some f -> length (h_y (n_head f)) = ny /\ length (h_x (n_head f)) = nx.

Lemma output_frame u names d c w : w <> c_var c -> fst (output u names d c) w = d w.
Proof.
  intros H. unfold RunsModel.output. destruct (existsb _ names); [|reflexivity]. destruct (d (c_var c)); [|reflexivity].
  destruct (write_time _ _ _ _). destruct (masked _ _); [destruct (conform _ _ _)|]; cbn [fst]; now apply put_other.
Qed.

Lemma output_ok ny nx u names d (c : call grid) f : keeps_matching conform -> sized ny nx d -> shaped ny nx (u_mask u) ->
  In (c_var c) names -> shaped ny nx (c_data c) -> d (c_var c) = Some f ->
  exists m, masked u (c_data c) = Some m /\
    output u names d c = (put d (c_var c) (added f [(c_time c, m)]), true).
Proof.
  intros K Sd Sm I Sc D. destruct (masked_spec u ny nx _ Sc Sm) as (m & M & Sh & _). exists m. split; [exact M|].
  unfold RunsModel.output. rewrite (proj2 (existsb_in _ _) I), D, M.
  destruct (Sd _ _ D) as (-> & ->). rewrite (K ny nx m Sh).
  unfold added. cbn [map fst snd nc_run fold_left]. unfold nc_run. cbn [fold_left]. unfold nc_output. cbn [fst snd].
  destruct (write_time _ _ _ _). reflexivity.
Qed.

Lemma proj_cons v u (c : call grid) cs m : masked u (c_data c) = Some m ->
  proj v u (c :: cs) = (if c_var c =? v then [(c_time c, m)] else []) ++ proj v u cs.
Proof. intros M. unfold proj. cbn [flat_map]. rewrite M. reflexivity. Qed.

Lemma outputs_ok ny nx u names (cs : list (call grid)) : keeps_matching conform -> shaped ny nx (u_mask u) ->
  (forall c, In c cs -> In (c_var c) names /\ shaped ny nx (c_data c)) ->
  forall d, sized ny nx d -> (forall v, In v names -> d v <> None) ->
  snd (outputs u names d cs) = true /\
  forall v, fst (outputs u names d cs) v = option_map (fun f => added f (proj v u cs)) (d v).
Proof.
  intros K Sm. induction cs as [|c cs IH]; intros H d Sd P.
  - split; [reflexivity|]. intros v. cbn [RunsModel.outputs fst proj flat_map].
    destruct (d v) as [f|]; cbn [option_map]; [|reflexivity]. now rewrite added_nil.
  - destruct (H c (or_introl eq_refl)) as (I & Sc). destruct (d (c_var c)) as [f|] eqn:D; [|now elim (P _ I)].
    destruct (output_ok ny nx u names d c f K Sd Sm I Sc D) as (m & M & O).
    cbn [RunsModel.outputs]. rewrite O.
    destruct (IH (fun c' Hc => H c' (or_intror Hc)) (put d (c_var c) (added f [(c_time c, m)]))) as (T & F).
    + intros v g. destruct (Nat.eq_dec v (c_var c)) as [->|N].
      * rewrite put_same. intros E. injection E as <-. exact (Sd _ _ D).
      * rewrite put_other by exact N. apply Sd.
    + intros v Hv. destruct (Nat.eq_dec v (c_var c)) as [->|N]; [rewrite put_same; discriminate|].
      rewrite put_other by exact N. now apply P.
    + split; [exact T|]. intros v. rewrite F, (proj_cons v u c cs m M).
      destruct (Nat.eqb_spec (c_var c) v) as [<-|N].
      * rewrite put_same, D. cbn [option_map]. now rewrite added_app.
      * rewrite put_other by congruence. reflexivity.
Qed.

(** ** runs *)
Definition file_at (v : nat) (u : setup) (names : list nat) (f : option ncfile) : option ncfile :=
  match f with Some f => Some f | None => if existsb (Nat.eqb v) names then Some (create u v) else None end.

Lemma open_sized ny nx u names d : length (u_y u) = ny -> length (u_x u) = nx -> sized ny nx d ->
  sized ny nx (open_all u names d).
Proof.
  intros Ly Lx S v f. rewrite open_all_spec. destruct (d v) eqn:D; [intros E; injection E as <-; now apply (S v)|].
  destruct (existsb _ names); [|discriminate]. intros E. injection E as <-. cbn. now rewrite !map_length.
Qed.

Lemma execute_ok ny nx r d : keeps_matching conform -> well_formed ny nx r -> sized ny nx d ->
  snd (execute d r) = true /\ sized ny nx (fst (execute d r)) /\
  forall v, fst (execute d r) v =
    option_map (fun f => added f (proj v (r_setup r) (r_calls r))) (file_at v (r_setup r) (r_names r) (d v)).
Proof.
  intros K (Ly & Lx & Sm & H) S. unfold RunsModel.execute.
  destruct (outputs_ok ny nx (r_setup r) (r_names r) (r_calls r) K Sm H (open_all (r_setup r) (r_names r) d)) as (T & F).
  - now apply open_sized.
  - intros v Hv. rewrite open_all_spec. destruct (d v); [discriminate|].
    rewrite (proj2 (existsb_in _ _) Hv). discriminate.
  - split; [exact T|]. split.
    + intros v f. rewrite F. pose proof (open_sized ny nx (r_setup r) (r_names r) d Ly Lx S v) as Q.
      destruct (open_all _ _ d v) as [g|]; [|discriminate]. intros E. injection E as <-. exact (Q g eq_refl).
    + intros v. rewrite F. now rewrite open_all_spec.
Qed.

(** what becomes of a file *)
Lemma history_ok ny nx rs : keeps_matching conform -> (forall r, In r rs -> well_formed ny nx r) ->
  forall d, sized ny nx d ->
  Forall (eq true) (snd (history d rs)) /\ length (snd (history d rs)) = length rs /\
  forall v,
    (forall f, d v = Some f -> fst (history d rs) v =
       Some (added f (flat_map (fun r => proj v (r_setup r) (r_calls r)) rs))) /\
    (d v = None -> (forall r, In r rs -> ~ In v (r_names r)) -> fst (history d rs) v = None).
Proof.
  intros K. induction rs as [|r rs IH]; intros W d S.
  - cbn. repeat split; auto. intros f ->. now rewrite added_nil.
  - cbn [RunsModel.history]. destruct (execute_ok ny nx r d K (W r (or_introl eq_refl)) S) as (T & S1 & F).
    destruct (execute d r) as (d1, ok). cbn [fst snd] in *.
    destruct (IH (fun r' Hr => W r' (or_intror Hr)) d1 S1) as (T2 & L2 & F2).
    destruct (history d1 rs) as (d2, oks). cbn [fst snd] in *. subst ok.
    split; [now constructor|]. split; [cbn; congruence|].
    intros v. destruct (F2 v) as (G1 & G2). specialize (F v). split.
    + intros f D. rewrite D in F. cbn [file_at option_map] in F. rewrite (G1 _ F), added_app. reflexivity.
    + intros D N. rewrite D in F. unfold file_at in F.
      destruct (existsb (Nat.eqb v) (r_names r)) eqn:E; [exfalso; apply (N r (or_introl eq_refl)); now apply existsb_in|].
      apply G2; [exact F|]. intros r' Hr. apply N. now right.
Qed.

Lemma history_app rs1 : forall d rs2,
  fst (history d (rs1 ++ rs2)) = fst (history (fst (history d rs1)) rs2).
Proof.
  induction rs1 as [|r rs1 IH]; intros d rs2; [reflexivity|]. cbn [app RunsModel.history].
  destruct (execute d r) as (d1, ok). specialize (IH d1 rs2).
  destruct (history d1 (rs1 ++ rs2)). cbn [fst] in IH. destruct (history d1 rs1). cbn [fst] in *. exact IH.
Qed.

(** ** a run in two parts *)
Lemma outputs_app u names a : forall d b, snd (outputs u names d a) = true ->
  outputs u names d (a ++ b) = outputs u names (fst (outputs u names d a)) b.
Proof.
  induction a as [|c a IH]; intros d b T; [reflexivity|]. cbn [app RunsModel.outputs] in *.
  destruct (output u names d c) as (d', ok). destruct ok; [now apply IH|discriminate].
Qed.

Lemma output_mask u u' names d c : u_mask_output u = u_mask_output u' -> u_mask u = u_mask u' ->
  output u names d c = output u' names d c.
Proof. intros E1 E2. unfold RunsModel.output, masked. now rewrite E1, E2. Qed.
Lemma outputs_mask u u' names : u_mask_output u = u_mask_output u' -> u_mask u = u_mask u' ->
  forall cs d, outputs u names d cs = outputs u' names d cs.
Proof.
  intros E1 E2. induction cs as [|c cs IH]; intros d; [reflexivity|]. cbn [RunsModel.outputs].
  rewrite (output_mask u u' names d c E1 E2). destruct (output u' names d c) as (d', []); auto.
Qed.

Lemma output_keeps u names d c v : d v <> None -> fst (output u names d c) v <> None.
Proof.
  intros H. destruct (Nat.eq_dec v (c_var c)) as [->|N]; [|now rewrite output_frame].
  unfold RunsModel.output. destruct (existsb _ names); [|exact H]. destruct (d (c_var c)) eqn:D; [|now elim H].
  destruct (write_time _ _ _ _). destruct (masked _ _); [destruct (conform _ _ _)|]; cbn [fst]; rewrite put_same; discriminate.
Qed.
Lemma outputs_keeps u names v cs : forall d, d v <> None -> fst (outputs u names d cs) v <> None.
Proof.
  induction cs as [|c cs IH]; intros d H; [exact H|]. cbn [RunsModel.outputs].
  pose proof (output_keeps u names d c v H) as Q. destruct (output u names d c) as (d', []); [now apply IH|exact Q].
Qed.

Lemma open_all_present u names : forall d, (forall v, In v names -> d v <> None) -> open_all u names d = d.
Proof.
  unfold open_all. induction names as [|n names IH]; intros d H; [reflexivity|]. cbn [fold_left].
  assert (E : open u d n = d) by (unfold open; destruct (d n) eqn:D; [reflexivity|now elim (H n (or_introl eq_refl))]).
  rewrite E. apply IH. intros v Hv. apply H. now right.
Qed.

Lemma continued u1 u2 names d a b : u_mask_output u1 = u_mask_output u2 -> u_mask u1 = u_mask u2 ->
  snd (execute d (mkRun u1 names a)) = true ->
  execute (fst (execute d (mkRun u1 names a))) (mkRun u2 names b) = execute d (mkRun u1 names (a ++ b)).
Proof.
  intros E1 E2 T. unfold RunsModel.execute in *. cbn [r_setup r_names r_calls] in *.
  rewrite outputs_app by exact T. rewrite open_all_present.
  - apply outputs_mask; congruence.
  - intros v Hv. apply outputs_keeps. rewrite open_all_spec. destruct (d v); [discriminate|].
    rewrite (proj2 (existsb_in _ _) Hv). discriminate.
Qed.

(** ** data that do not fit *)
Lemma refused u names d (c : call grid) f m : In (c_var c) names -> d (c_var c) = Some f -> masked u (c_data c) = Some m ->
  conform (length (h_y (n_head f))) (length (h_x (n_head f))) m = None ->
  ~ In (float32 (date2num (c_time c - h_origin (n_head f)))) (map fst (n_records f)) -> promote = false ->
  forall rest,
  outputs u names d (c :: rest) =
    (put d (c_var c) (mkFile (n_head f)
       (n_records f ++ [(float32 (date2num (c_time c - h_origin (n_head f))), None)])), false).
Proof.
  intros I D M C N P rest. cbn [RunsModel.outputs]. unfold RunsModel.output.
  rewrite (proj2 (existsb_in _ _) I), D, M, C. rewrite P. rewrite write_round.
  pose proof (write_time_out (fun t => t) (float32 (date2num (c_time c - h_origin (n_head f)))) (n_records f) N) as W.
  rewrite W. reflexivity.
Qed.
End Library.

(** ** the records *)
Lemma proj_calls ny nx v u names (cs : list (call grid)) rs l : shaped ny nx (u_mask u) ->
  (forall c, In c cs -> shaped ny nx (c_data c)) -> calls_for v rs l ->
  calls_for v (mkRun u names cs :: rs) (proj v u cs ++ l).
Proof.
  intros Sm. induction cs as [|c cs IH]; intros H R; [now constructor|].
  destruct (masked_spec u ny nx _ (H c (or_introl eq_refl)) Sm) as (m & M & _ & Sh).
  rewrite (proj_cons v u c cs m M). specialize (IH (fun c' Hc => H c' (or_intror Hc)) R).
  destruct (Nat.eqb_spec (c_var c) v) as [E|N]; cbn [app]; [|now apply cf_other].
  now apply cf_call.
Qed.
Lemma projs_calls ny nx v rs : (forall r, In r rs -> well_formed ny nx r) ->
  calls_for v rs (flat_map (fun r => proj v (r_setup r) (r_calls r)) rs).
Proof.
  induction rs as [|[u names cs] rs IH]; intros W; cbn [flat_map]; [constructor|].
  destruct (W _ (or_introl eq_refl)) as (_ & _ & Sm & H). cbn [r_setup r_calls r_names] in *.
  apply (proj_calls ny nx); [exact Sm| |].
  - intros c Hc. now apply H.
  - apply IH. intros r Hr. apply W. now right.
Qed.
Lemma proj_times v u cs t : In t (map fst (proj v u cs)) -> exists c, In c cs /\ c_var c = v /\ c_time c = t.
Proof.
  intros H. apply in_map_iff in H. destruct H as ((t', g) & <- & H). unfold proj in H. apply in_flat_map in H.
  destruct H as (c & Hc & H). exists c. split; [exact Hc|]. destruct (Nat.eqb_spec (c_var c) v) as [E|N]; [|destruct H].
  split; [exact E|]. destruct (masked u (c_data c)); [|destruct H]. destruct H as [H|[]]. injection H as <- _. reflexivity.
Qed.

Lemma records_of origin double l : (forall t, In t (map fst l) -> (Z.abs (t - origin) < 60 * 131072)%Z) ->
  exists dates, first_seen [] (map fst l) dates /\
    one_record_each (fun m => float32 (date2num (m - origin))) (held double) l dates
      (nc_run false float32 (to_type double) [] (map (fun c => (date2num (fst c - origin), snd c)) l)).
Proof.
  intros H. exists (seen Z.eq_dec [] (map fst l)). split; [apply seen_spec|].
  pose proof (records_round float32 (to_type double) [] (map (fun c => (date2num (fst c - origin), snd c)) l) (NoDup_nil _)) as (_ & F & R).
  set (P := fun m => (Z.abs (m - origin) < 60 * 131072)%Z).
  assert (J : forall m n, P m -> P n -> float32 (date2num (m - origin)) = float32 (date2num (n - origin)) -> m = n).
  { intros m n Hm Hn E. apply key_injective in E; auto. lia. }
  apply (each_of_spec Z.eq_dec _ (held double) P J).
  - intros c Hc. apply H. now apply in_map.
  - rewrite map_map. rewrite map_map, map_map in F. exact F.
  - intros s e Hi. apply R in Hi. destruct Hi as [(d & L & E)|(_ & [])]. exists d. split; [|exact E].
    unfold rounded in L. rewrite map_map in L. exact L.
Qed.

Lemma several_runs conform ny nx rs v u : keeps_matching conform -> (forall r, In r rs -> well_formed ny nx r) ->
  first_with v rs u ->
  (forall r c, In r rs -> In c (r_calls r) -> c_var c = v -> (Z.abs (c_time c - u_start u) < 60 * 131072)%Z) ->
  Forall (eq true) (snd (history false conform empty rs)) /\
  exists h recs l dates, fst (history false conform empty rs) v = Some (mkFile h recs) /\
    describes u v h /\ calls_for v rs l /\ first_seen [] (map fst l) dates /\
    one_record_each (fun m => float32 (date2num (m - u_start u))) (held (u_double u)) l dates recs.
Proof.
  intros K W (pre & r & post & E & N & I & U) B.
  assert (S0 : sized ny nx empty) by (intros w f; discriminate).
  split; [exact (proj1 (history_ok false conform ny nx rs K W empty S0))|].
  pose proof (projs_calls ny nx v rs W) as PC. rewrite E in PC. rewrite flat_map_app in PC.
  assert (Z0 : flat_map (fun r => proj v (r_setup r) (r_calls r)) pre = []).
  { assert (W' : forall p, In p pre -> well_formed ny nx p) by (intros p Hp; apply W; rewrite E; apply in_or_app; now left).
    clear - N W'. induction pre as [|p pre IH]; [reflexivity|]. cbn [flat_map].
    rewrite IH by (intros q Hq; (apply N || apply W'); now right).
    destruct (proj v (r_setup p) (r_calls p)) as [|x l] eqn:Q; [reflexivity|]. exfalso.
    destruct (proj_times v (r_setup p) (r_calls p) (fst x)) as (c & Hc & Hv & _); [rewrite Q; now left|].
    apply (N p (or_introl eq_refl)). rewrite <- Hv. now apply (W' p (or_introl eq_refl)). }
  rewrite Z0 in PC. cbn [app flat_map] in PC.
  set (l := proj v (r_setup r) (r_calls r) ++ flat_map (fun r => proj v (r_setup r) (r_calls r)) post) in *.
  destruct (records_of (u_start u) (u_double u) l) as (dates & F & R).
  { intros t Ht. unfold l in Ht. change (In t (map fst (flat_map (fun r => proj v (r_setup r) (r_calls r)) (r :: post)))) in Ht.
    apply in_map_iff in Ht. destruct Ht as (x & <- & Hx). apply in_flat_map in Hx. destruct Hx as (q & Hq & Hx).
    destruct (proj_times v (r_setup q) (r_calls q) (fst x) (in_map fst _ _ Hx)) as (c & Hc & Hv & <-).
    apply (B q c); auto. rewrite E. apply in_or_app. now right. }
  exists (n_head (create u v)), (n_records (added false (create u v) l)), l, dates.
  assert (Hd : fst (history false conform empty rs) v = Some (added false (create u v) l)).
  { rewrite E, history_app.
    destruct (history_ok false conform ny nx pre K) with (d := empty) as (_ & _ & Hp); auto.
    { intros p Hp. apply W. rewrite E. apply in_or_app. now left. }
    pose proof (proj2 (Hp v) eq_refl N) as D0. clear Hp.
    assert (S1 : sized ny nx (fst (history false conform empty pre))).
    { assert (W' : forall p, In p pre -> well_formed ny nx p) by (intros p Hq; apply W; rewrite E; apply in_or_app; now left).
      clear - W' K S0. revert S0. generalize empty. induction pre as [|p pre IH]; intros d S; [exact S|].
      cbn [RunsModel.history]. destruct (execute_ok false conform ny nx p d K (W' p (or_introl eq_refl)) S) as (_ & S1 & _).
      destruct (RunsModel.execute false conform d p) as (d1, ok). cbn [fst] in S1.
      specialize (IH (fun q Hq => W' q (or_intror Hq)) d1 S1). destruct (RunsModel.history false conform d1 pre). exact IH. }
    generalize dependent (fst (history false conform empty pre)). intros d1 D0 S1.
    cbn [RunsModel.history].
    destruct (execute_ok false conform ny nx r d1 K) as (_ & S2 & F2); auto.
    { apply W. rewrite E. apply in_or_app. right. now left. }
    destruct (RunsModel.execute false conform d1 r) as (d2, ok). cbn [fst] in *.
    specialize (F2 v). rewrite D0 in F2. unfold file_at in F2. rewrite (proj2 (existsb_in _ _) I) in F2.
    cbn [option_map] in F2.
    destruct (history_ok false conform ny nx post K) with (d := d2) as (_ & _ & Hp); auto.
    { intros p Hp. apply W. rewrite E. apply in_or_app. right. now right. }
    pose proof (proj1 (Hp v) _ F2) as G. destruct (RunsModel.history false conform d2 post). cbn [fst] in *.
    rewrite G, added_app. unfold l. rewrite U. reflexivity. }
  split; [exact Hd|]. split; [repeat split|]. split; [rewrite E; exact PC|]. split; [exact F|exact R].
Qed.
