(** Property C92: several runs with the same output directory. *)
From Coq Require Import List Arith Bool ZArith QArith Qabs Qcanon Lia.
From Verif Require Import Num OutputModel OutputSpec NcTimeProofs RunsModel RunsSpec RunsProofs.
Import ListNotations.
Local Open Scope nat_scope.

(** Any number of runs, one after another, starting with an empty directory and for topos of one size: every
    run ends normally.  The file of a variable describes the first run that had the variable.  It has one
    record per date of all runs, in the order of first output, at the time since the start of that first run,
    with the data of the last call for the date, under the mask of the run that made this call and
    rounded to the precision of the first run. *)
Theorem C92_history conform ny nx rs v u : keeps_matching conform -> (forall r, In r rs -> well_formed ny nx r) ->
  first_with v rs u ->
  (forall r c, In r rs -> In c (r_calls r) -> c_var c = v -> (Z.abs (c_time c - u_start u) < 60 * 131072)%Z) ->
  Forall (eq true) (snd (history false conform empty rs)) /\
  exists h recs l dates, fst (history false conform empty rs) v = Some (mkFile h recs) /\
    describes u v h /\ calls_for v rs l /\ first_seen [] (map fst l) dates /\
    one_record_each (fun m => float32 (date2num (m - u_start u))) (held (u_double u)) l dates recs.
Proof. exact (several_runs conform ny nx rs v u). Qed.
Print Assumptions C92_history.

(** A variable that no run asks for has no file. *)
Theorem C92_not_asked conform ny nx rs v : keeps_matching conform -> (forall r, In r rs -> well_formed ny nx r) ->
  (forall r, In r rs -> ~ In v (r_names r)) -> fst (history false conform empty rs) v = None.
Proof.
  intros K W N. destruct (history_ok false conform ny nx rs K W empty) as (_ & _ & H); [intros w f; discriminate|].
  now apply (proj2 (H v)).
Qed.
Print Assumptions C92_not_asked.

(** A run that is continued by a second one leaves the same files as one run with all the calls, in whatever
    state the directory was before and whatever the netCDF library does with data of another shape.  Only the
    mask of the second run counts: its start, time zone, coordinates and precision have no effect. *)
Theorem C92_continued promote conform d u1 u2 names a b :
  u_mask_output u1 = u_mask_output u2 -> u_mask u1 = u_mask u2 ->
  let first := execute promote conform d (mkRun u1 names a) in
  snd first = true ->
  execute promote conform (fst first) (mkRun u2 names b) = execute promote conform d (mkRun u1 names (a ++ b)).
Proof. exact (continued promote conform u1 u2 names d a b). Qed.
Print Assumptions C92_continued.

(** Runs of other variables do not touch a file. *)
Theorem C92_other_variables promote conform d r v : ~ In v (r_names r) ->
  fst (execute promote conform d r) v = d v.
Proof.
  intros N. unfold execute.
  assert (O : open_all (r_setup r) (r_names r) d v = d v).
  { rewrite open_all_spec. destruct (d v); [reflexivity|].
    destruct (existsb (Nat.eqb v) (r_names r)) eqn:E; [exfalso; apply N; now apply existsb_in|reflexivity]. }
  rewrite <- O. generalize (open_all (r_setup r) (r_names r) d). induction (r_calls r) as [|c cs IH]; intros d'; [reflexivity|].
  cbn [outputs]. assert (F : fst (output promote conform (r_setup r) (r_names r) d' c) v = d' v).
  { destruct (Nat.eq_dec v (c_var c)) as [->|M]; [|now apply output_frame]. unfold output.
    destruct (existsb (Nat.eqb (c_var c)) (r_names r)) eqn:E; [exfalso; apply N; now apply existsb_in|reflexivity]. }
  destruct (output promote conform (r_setup r) (r_names r) d' c) as (d1, []); cbn [fst] in F; [|exact F].
  rewrite IH. exact F.
Qed.
Print Assumptions C92_other_variables.

(** A call that raises ends the run: for a variable that is not one of the run's, for data that the mask does not
    fit, or for data that the file does not take.  The files then hold what the calls before it wrote and at most
    the time of this call. *)
Theorem C92_early_end promote conform d u names pre (c : call grid) post before after :
  execute promote conform d (mkRun u names pre) = (before, true) ->
  execute promote conform d (mkRun u names (pre ++ c :: post)) = after ->
  (~ In (c_var c) names -> after = (before, false)) /\
  (In (c_var c) names ->
     (u_mask_output u = true /\
        (length (c_data c) <> length (u_mask u) \/ exists i, length (nth i (c_data c) []) <> length (nth i (u_mask u) []))) \/
     (u_mask_output u = false /\ forall ny nx, conform ny nx (c_data c) = None) ->
     snd after = false /\ (forall w, w <> c_var c -> fst after w = before w) /\
     forall f, before (c_var c) = Some f -> exists f', fst after (c_var c) = Some f' /\ n_head f' = n_head f /\
       (map snd (n_records f') = map snd (n_records f) \/ map snd (n_records f') = map snd (n_records f) ++ [None])).
Proof.
  unfold execute. cbn [r_setup r_names r_calls]. generalize (open_all_spec u names d). intros OS EB EA.
  assert (HAS : forall v, In v names -> open_all u names d v <> None).
  { intros v I. rewrite OS. destruct (d v); [discriminate|]. rewrite (proj2 (existsb_in v names) I). discriminate. }
  clear OS. generalize dependent (open_all u names d). intros d0 EB EA HAS.
  assert (KEEP : forall (x : call grid) d1, (forall v, In v names -> d1 v <> None) -> forall v, In v names -> fst (output promote conform u names d1 x) v <> None).
  { intros x d1 H v I. destruct (Nat.eq_dec v (c_var x)) as [->|N]; [|rewrite output_frame by exact N; now apply H].
    specialize (H _ I). unfold output. destruct (existsb _ names); [|exact H]. destruct (d1 (c_var x)) eqn:E; [|congruence].
    destruct (write_time _ _ _ _). destruct (masked _ _); [destruct (conform _ _ _)|]; cbn [fst]; rewrite put_same; discriminate. }
  assert (A2 : after = outputs promote conform u names before (c :: post) /\ forall v, In v names -> before v <> None).
  { clear - EB EA HAS KEEP. revert d0 EB EA HAS. induction pre as [|x pre IH]; intros d0 EB EA HAS; cbn [outputs app] in EB, EA.
    - injection EB as <-. split; [now symmetry|exact HAS].
    - pose proof (KEEP x d0 HAS) as K. destruct (output promote conform u names d0 x) as (d1, []); [|discriminate EB].
      exact (IH d1 EB EA K). }
  destruct A2 as (-> & HB). cbn [outputs]. clear EB EA HAS KEEP. split.
  - intros N. unfold output. destruct (existsb (Nat.eqb (c_var c)) names) eqn:E; [exfalso; apply N; now apply existsb_in|reflexivity].
  - intros I BAD. specialize (HB _ I). pose proof (output_frame promote conform u names before c) as FR. unfold output in *.
    rewrite (proj2 (existsb_in _ _) I) in *. destruct (before (c_var c)) as [f|] eqn:F; [|congruence].
    destruct (write_time promote float32 (date2num (c_time c - h_origin (n_head f))) (n_records f)) as (i, r) eqn:WT.
    assert (R : map snd r = map snd (n_records f) \/ map snd r = map snd (n_records f) ++ [None]).
    { clear FR. unfold write_time in WT. injection WT as _ <-. generalize (date2num (c_time c - h_origin (n_head f))). intros q. generalize (find_record promote float32 q (n_records f)). clear.
      induction (n_records f) as [|(t, g) l IH]; intros n; [right; destruct n; reflexivity|]. destruct n as [|n]; cbn [put_time map snd app]; [left; reflexivity|].
      destruct (IH n) as [-> | ->]; [left|right]; reflexivity. }
    assert (OUT : forall b, b = (put before (c_var c) (mkFile (n_head f) r), false) ->
       (forall w, w <> c_var c -> fst b w = before w) ->
       snd (let (d', ok) := b in if ok then outputs promote conform u names d' post else (d', false)) = false /\
       (forall w, w <> c_var c -> fst (let (d', ok) := b in if ok then outputs promote conform u names d' post else (d', false)) w = before w) /\
       forall f0, Some f = Some f0 -> exists f', fst (let (d', ok) := b in if ok then outputs promote conform u names d' post else (d', false)) (c_var c) = Some f' /\
         n_head f' = n_head f0 /\ (map snd (n_records f') = map snd (n_records f0) \/ map snd (n_records f') = map snd (n_records f0) ++ [None])).
    { intros b -> FB. cbn [fst snd]. split; [reflexivity|]. split; [exact FB|]. intros f0 [= <-]. rewrite put_same. exists (mkFile (n_head f) r).
      split; [reflexivity|]. split; [reflexivity|exact R]. }
    apply OUT; [|exact FR]. unfold masked in *. destruct BAD as [(M & B)|(M & B)]; rewrite M.
    + destruct (map2o _ (c_data c) (u_mask u)) as [m|] eqn:E; [|reflexivity]. exfalso.
      destruct (map2o_nth _ _ [] [] [] _ _ E) as (L1 & _ & N). destruct B as [B|(k & B)]; [congruence|].
      destruct (Nat.lt_ge_cases k (length (c_data c))) as [L|L]; [|rewrite !nth_overflow in B by lia; apply B; reflexivity].
      destruct (map2o_nth _ _ None (Q2Qc 0) None _ _ (N k L)) as (L2 & _). congruence.
    + rewrite B. reflexivity.
Qed.
Print Assumptions C92_early_end.

(** What a mask of ones and zeros does to a cell: NaN stays NaN outside of the mask, too, and the other cells
    outside are zeros, not missing. *)
Theorem C92_mask u g g' i j : u_mask_output u = true -> shown u g g' -> j < length (nth i g []) ->
  (nth j (nth i (u_mask u) []) (Q2Qc 0) = Q2Qc 1 -> nth j (nth i g' []) None = nth j (nth i g []) None) /\
  (nth j (nth i (u_mask u) []) (Q2Qc 0) = Q2Qc 0 ->
     nth j (nth i g' []) None = if nth j (nth i g []) None then Some (Q2Qc 0) else None).
Proof.
  unfold shown. intros -> (_ & H) Hj. destruct (H i) as (_ & N). rewrite (N j Hj). unfold under.
  destruct (nth j (nth i g []) None) as [x|]; [|tauto].
  split; intros ->; f_equal; [apply Qcmult_1_r|apply Qcmult_0_r].
Qed.
Print Assumptions C92_mask.

(** Data that the library refuses: the time is already in the file, as a record without data; the run ends. *)
Theorem C92_refused conform u names d (c : call grid) f m rest : In (c_var c) names -> d (c_var c) = Some f ->
  u_mask_output u = false -> m = c_data c ->
  conform (length (h_y (n_head f))) (length (h_x (n_head f))) m = None ->
  let t := float32 (date2num (c_time c - h_origin (n_head f))) in
  ~ In t (map fst (n_records f)) ->
  let after := outputs false conform u names d (c :: rest) in
  snd after = false /\ fst after (c_var c) = Some (mkFile (n_head f) (n_records f ++ [(t, None)])) /\
  forall w, w <> c_var c -> fst after w = d w.
Proof.
  intros I D M -> C t N after.
  assert (E : masked u (c_data c) = Some (c_data c)) by (unfold masked; now rewrite M).
  pose proof (refused false conform u names d c f (c_data c) I D E C N eq_refl rest) as R.
  unfold after. rewrite R. cbn [fst snd]. split; [reflexivity|]. split; [apply put_same|]. intros w H. now apply put_other.
Qed.
Print Assumptions C92_refused.

(** The coordinates in the file are within a 2^24th of the coordinates: a quarter of a metre for a northing of
    4194304 m. *)
Theorem C92_coordinates x : (Qabs (this (float32 x) - this x) <= Qpower 2 (-24) * Qabs (this x))%Q.
Proof.
  assert (E : (this (float32 x) == binary 24 (this x))%Q) by (unfold float32; apply this_Q2Qc).
  rewrite E. apply binary_err.
Qed.
Print Assumptions C92_coordinates.
(** rows less than this apart can have one coordinate *)
Theorem C92_coordinates_distinct_refuted : exists y y' : Qc, (this y' - this y == 1 # 5)%Q /\ float32 y' = float32 y.
Proof.
  exists (Q2Qc (48650000 # 10)), (Q2Qc (48650002 # 10)). split; [reflexivity|]. apply Qc_is_canon. vm_compute. reflexivity.
Qed.
Print Assumptions C92_coordinates_distinct_refuted.

(** ** Examples and what does not hold *)
Definition ex_conform (ny nx : nat) (g : grid) : option grid :=
  if (length g =? ny) && forallb (fun row => length row =? nx) g then Some g else None.
Example C92_ex_conform : keeps_matching ex_conform.
Proof.
  intros ny nx g (L & S). unfold ex_conform. rewrite L, Nat.eqb_refl. cbn [andb].
  replace (forallb (fun row => length row =? nx) g) with true; [reflexivity|].
  symmetry. apply forallb_forall. intros row H. apply Nat.eqb_eq. now apply S.
Qed.
Definition ex_setup start zone x : setup :=
  mkSetup start zone [Q2Qc x; Q2Qc (x + 10)] [Q2Qc 100] false false [[Q2Qc 1; Q2Qc 0]] (fun v => (v, 7, 8)).
Definition ex_masked : setup :=
  mkSetup 0 0 [Q2Qc 0; Q2Qc 10] [Q2Qc 100] true true [[Q2Qc 1; Q2Qc 0]] (fun v => (v, 7, 8)).
Definition ex_data (k : Q) : grid := [[Some (Q2Qc k); None]].
Definition ex_runs : list run :=
  [mkRun (ex_setup 600 0 0) [3] [mkCall 3 (ex_data 1) 600%Z; mkCall 3 (ex_data 2) 660%Z];
   mkRun ex_masked [3; 4] [mkCall 3 (ex_data 5) 0%Z; mkCall 4 (ex_data 6) 0%Z; mkCall 3 (ex_data 8) 600%Z]].
Definition show (f : option ncfile) : option (Z * list (Q * option (list (list (option Q))))) :=
  option_map (fun f => (h_origin (n_head f),
    map (fun r => (this (fst r), option_map (map (map (option_map this))) (snd r))) (n_records f))) f.
Example C92_ex :
  show (fst (history false ex_conform empty ex_runs) 3) =
    Some (600%Z, [((0)%Q, Some [[Some 8%Q; None]]); ((1)%Q, Some [[Some 2%Q; None]]); ((-10)%Q, Some [[Some 5%Q; None]])]) /\
  show (fst (history false ex_conform empty ex_runs) 4) = Some (0%Z, [((0)%Q, Some [[Some 6%Q; None]])]) /\
  snd (history false ex_conform empty ex_runs) = [true; true].
Proof. repeat split; vm_compute; reflexivity. Qed.
(** three runs that end early: another variable, data that the mask does not fit and data that the file does not take *)
Example C92_ex_early_end :
  snd (execute false ex_conform empty (mkRun ex_masked [3] [mkCall 3 (ex_data 1) 0%Z])) = true /\
  let after c := execute false ex_conform empty (mkRun ex_masked [3] ([mkCall 3 (ex_data 1) 0%Z] ++ c :: [mkCall 3 (ex_data 4) 90%Z])) in
  (show (fst (after (mkCall 5 (ex_data 2) 60%Z)) 3), snd (after (mkCall 5 (ex_data 2) 60%Z))) =
    (Some (0%Z, [((0)%Q, Some [[Some 1%Q; None]])]), false) /\
  (show (fst (after (mkCall 3 [[None]] 60%Z)) 3), snd (after (mkCall 3 [[None]] 60%Z))) =
    (Some (0%Z, [((0)%Q, Some [[Some 1%Q; None]]); ((1)%Q, None)]), false).
Proof. repeat split; vm_compute; reflexivity. Qed.
Example C92_ex_well_formed : (forall r, In r ex_runs -> well_formed 1 2 r) /\
  first_with 3 ex_runs (ex_setup 600 0 0) /\ first_with 4 ex_runs ex_masked.
Proof.
  split; [|split].
  - intros r [<-|[<-|[]]]; (split; [reflexivity|]; split; [reflexivity|]; split; [split; [reflexivity|]; intros row [<-|[]]; reflexivity|]);
      intros c Hc; cbn in Hc; repeat (destruct Hc as [<-|Hc]); try contradiction;
      (split; [cbn; tauto|split; [reflexivity|]; intros row [<-|[]]; reflexivity]).
  - exists [], (nth 0 ex_runs (mkRun ex_masked [] [])), (tl ex_runs). cbn. repeat split; auto.
  - exists [hd (mkRun ex_masked [] []) ex_runs], (nth 1 ex_runs (mkRun ex_masked [] [])), []. cbn. repeat split; auto.
    intros p [<-|[]]. cbn. intros [H|[]]; discriminate H.
Qed.

(** two runs of the variable 3 that call output a few times *)
Lemma ex_two_runs u1 u2 (a b : list (call grid)) : length (u_x u1) = 2 -> length (u_y u1) = 1 ->
  u_mask_output u1 = false -> u_mask_output u2 = false ->
  (forall c, In c (a ++ b) -> c_var c = 3 /\ shaped 1 2 (c_data c)) ->
  length (u_x u2) = 2 -> length (u_y u2) = 1 -> shaped 1 2 (u_mask u1) -> shaped 1 2 (u_mask u2) ->
  Forall (eq true) (snd (history false ex_conform empty [mkRun u1 [3] a; mkRun u2 [3] b])) /\
  fst (history false ex_conform empty [mkRun u1 [3] a; mkRun u2 [3] b]) 3 =
    Some (added false (create u1 3) (map (fun c => (c_time c, c_data c)) (a ++ b))).
Proof.
  intros X1 Y1 M1 M2 H X2 Y2 S1 S2.
  assert (P : forall u (cs : list (call grid)), u_mask_output u = false -> (forall c, In c cs -> c_var c = 3) ->
            proj 3 u cs = map (fun c => (c_time c, c_data c)) cs).
  { intros u cs M Hc. induction cs as [|c cs IH]; [reflexivity|].
    assert (E : masked u (c_data c) = Some (c_data c)) by (unfold masked; now rewrite M).
    rewrite (proj_cons 3 u c cs _ E), (Hc c (or_introl eq_refl)), IH by (intros c' Hc'; apply Hc; now right). reflexivity. }
  assert (W1 : well_formed 1 2 (mkRun u1 [3] a)).
  { split; [assumption|]. split; [assumption|]. split; [assumption|]. intros c Hc.
    destruct (H c) as (V & Sh); [apply in_or_app; now left|]. split; [left; now rewrite V|exact Sh]. }
  assert (W2 : well_formed 1 2 (mkRun u2 [3] b)).
  { split; [assumption|]. split; [assumption|]. split; [assumption|]. intros c Hc.
    destruct (H c) as (V & Sh); [apply in_or_app; now right|]. split; [left; now rewrite V|exact Sh]. }
  split.
  - apply (history_ok false ex_conform 1 2); [exact C92_ex_conform|intros r [<-|[<-|[]]]; auto|intros v f; discriminate].
  - cbn [history].
    destruct (execute_ok false ex_conform 1 2 (mkRun u1 [3] a) empty C92_ex_conform W1) as (_ & Z1 & F1); [intros v f; discriminate|].
    destruct (execute false ex_conform empty (mkRun u1 [3] a)) as (d1, k1). cbn [fst] in *.
    destruct (execute_ok false ex_conform 1 2 (mkRun u2 [3] b) d1 C92_ex_conform W2 Z1) as (_ & _ & F2).
    destruct (execute false ex_conform d1 (mkRun u2 [3] b)) as (d2, k2). cbn [fst r_setup r_names r_calls] in *.
    rewrite F2, F1. cbn [file_at option_map empty existsb Nat.eqb orb]. rewrite added_app, map_app.
    rewrite !P by (auto; intros c Hc; apply H; apply in_or_app; auto). reflexivity.
Qed.
Lemma ex_data_shape k : shaped 1 2 (ex_data k).
Proof. split; [reflexivity|]. intros row [<-|[]]. reflexivity. Qed.
Lemma ex_mask_shape start zone x : shaped 1 2 (u_mask (ex_setup start zone x)).
Proof. split; [reflexivity|]. intros row [<-|[]]. reflexivity. Qed.
Lemma ex_exact : to_type false (ex_data 1) = ex_data 1.
Proof. unfold to_type, ex_data. cbn [map option_map]. repeat match goal with |- Q2Qc _ = _ => fail 1 | |- _ => f_equal end. apply Qc_is_canon. vm_compute. reflexivity. Qed.

(** The times of a file need not increase. *)
Theorem C92_increasing_refuted : exists u1 u2 (c1 c2 : call grid) f t1 t2 g1 g2,
  u_zone u1 = u_zone u2 /\ u_x u1 = u_x u2 /\ u_y u1 = u_y u2 /\
  c_time c1 = u_start u1 /\ c_time c2 = u_start u2 /\
  fst (history false ex_conform empty [mkRun u1 [3] [c1]; mkRun u2 [3] [c2]]) 3 = Some f /\
  n_records f = [(t1, g1); (t2, g2)] /\ (t2 < t1)%Qc.
Proof.
  exists (ex_setup 600 0 0), (ex_setup 0 0 0), (mkCall 3 (ex_data 1) 600%Z), (mkCall 3 (ex_data 1) 0%Z).
  eexists _, (float32 (date2num (600 - 600))), (float32 (date2num (0 - 600))), (Some (to_type false (ex_data 1))), (Some (to_type false (ex_data 1))).
  do 5 (split; [reflexivity|]). split.
  - apply ex_two_runs; try reflexivity; try apply ex_mask_shape. intros c [<-|[<-|[]]]; (split; [reflexivity|apply ex_data_shape]).
  - split.
    + unfold added. cbn [n_records n_head create h_double h_origin u_start u_double ex_setup app map c_time c_data fst snd].
      set (x := date2num (600 - 600)). set (y := date2num (0 - 600)).
      assert (N : float32 x <> float32 y) by (intros E; apply this_eq in E; vm_compute in E; discriminate E).
      unfold nc_run. cbn [fold_left]. unfold nc_output, write_time. cbn [fst snd find_record put_time put_data].
      unfold same_time. cbn [fst]. destruct (Qceqb_spec (float32 x) (float32 y)) as [E|_]; [contradiction|]. reflexivity.
    + unfold Qclt. vm_compute. reflexivity.
Qed.
Print Assumptions C92_increasing_refuted.

(** A second run in another time zone: its data are in the file at another moment, by what the file says. *)
Theorem C92_time_zone_refuted : exists u1 u2 (c : call grid) f t,
  u_x u1 = u_x u2 /\ u_y u1 = u_y u2 /\
  fst (history false ex_conform empty [mkRun u1 [3] []; mkRun u2 [3] [c]]) 3 = Some f /\
  n_records f = [(t, Some (c_data c))] /\
  (this t * 60 == inject_Z ((c_time c - u_zone u2) - (h_origin (n_head f) - h_zone (n_head f)) - 480))%Q.
Proof.
  exists (ex_setup 0 0 0), (ex_setup 0 (-480) 0), (mkCall 3 (ex_data 1) 60%Z).
  eexists _, (float32 (date2num (60 - 0))).
  split; [reflexivity|]. split; [reflexivity|]. split.
  - apply ex_two_runs; try reflexivity; try apply ex_mask_shape. intros c [<-|[]]; (split; [reflexivity|apply ex_data_shape]).
  - split; [|vm_compute; reflexivity]. cbn [c_data]. rewrite <- ex_exact at 2. reflexivity.
Qed.
Print Assumptions C92_time_zone_refuted.

(** A second run of a topo of the same size elsewhere: it ends normally and its data are in the file under the
    coordinates of the first one. *)
Theorem C92_elsewhere_refuted : exists u1 u2 (c : call grid) f t,
  map float32 (u_x u1) <> map float32 (u_x u2) /\
  Forall (eq true) (snd (history false ex_conform empty [mkRun u1 [3] []; mkRun u2 [3] [c]])) /\
  fst (history false ex_conform empty [mkRun u1 [3] []; mkRun u2 [3] [c]]) 3 = Some f /\
  n_records f = [(t, Some (c_data c))] /\ h_x (n_head f) = map float32 (u_x u1).
Proof.
  exists (ex_setup 0 0 0), (ex_setup 0 0 5000), (mkCall 3 (ex_data 1) 60%Z).
  eexists _, (float32 (date2num (60 - 0))).
  assert (H := ex_two_runs (ex_setup 0 0 0) (ex_setup 0 0 5000) [] [mkCall 3 (ex_data 1) 60%Z]
    eq_refl eq_refl eq_refl eq_refl). destruct H as (H1 & H2); try reflexivity; try apply ex_mask_shape.
  { intros c [<-|[]]; (split; [reflexivity|apply ex_data_shape]). }
  split.
  - intros E. apply (f_equal (fun l => this (hd (Q2Qc 0) l))) in E. vm_compute in E. discriminate E.
  - split; [exact H1|]. split; [exact H2|]. split; [|reflexivity]. cbn [c_data]. rewrite <- ex_exact at 2. reflexivity.
Qed.
Print Assumptions C92_elsewhere_refuted.
