(** Proofs about time steps and input files. *)
From Coq Require Import List ZArith Bool Lia Arith QArith Qcanon Ascii String DecimalString DecimalNat Sorted.
From Verif Require Import Num WinsModel StepModel LoadModel LoadSpec.
Import ListNotations.
Local Open Scope Z_scope.

(** ** Time zones *)
Lemma localize_ok z w u : zone_ok z -> (tz_localize z w = Ok u <-> shown_once z w u).
Proof.
  intros [C N]. unfold tz_localize.
  set (p := fun o => z_offset z (w - o) =? o).
  assert (F : forall o, In o (filter p (z_offsets z)) <-> wall z (w - o) = w /\ z_offset z (w - o) = o).
  { intros o. rewrite filter_In. unfold p, wall. rewrite Z.eqb_eq. split.
    - intros [_ E]. rewrite E. split; lia.
    - intros [_ E]. split; [|exact E]. rewrite <- E. apply C. }
  assert (N' : NoDup (filter p (z_offsets z))) by (apply NoDup_filter; exact N).
  assert (G : forall v, wall z v = w -> In (w - v) (filter p (z_offsets z))).
  { intros v E. apply F. replace (w - (w - v)) with v by lia. split; [exact E|]. unfold wall in E. lia. }
  destruct (filter p (z_offsets z)) as [|o [|o2 l]] eqn:E.
  - split; [discriminate|]. intros [S1 _]. destruct (G u S1).
  - split.
    + intros [= <-]. split.
      * apply F. left; reflexivity.
      * intros v Ev. destruct (G v Ev) as [H|[]]. lia.
    + intros [S1 S2]. f_equal. destruct (G u S1) as [H|[]]. lia.
  - split; [discriminate|]. intros [S1 S2]. exfalso.
    assert (H1 : wall z (w - o) = w) by (apply F; left; reflexivity).
    assert (H2 : wall z (w - o2) = w) by (apply F; right; left; reflexivity).
    apply S2 in H1. apply S2 in H2. inversion N' as [|? ? Nx _]. apply Nx. left. lia.
Qed.
Lemma localize_err z w e : tz_localize z w = Err e -> e = ValueError.
Proof. unfold tz_localize. destruct (filter _ _) as [|? [|? ?]]; congruence. Qed.

(** ** The dates of a run *)
Lemma in_date_range s e inc t : 0 < inc ->
  (In t (date_range s e inc) <-> exists k, 0 <= k /\ t = s + inc * k /\ t <= e).
Proof.
  intros P. unfold date_range. destruct (Z.ltb_spec e s) as [L|L].
  - split; [intros []|]. intros (k & Hk & -> & H). assert (0 <= inc * k) by (apply Z.mul_nonneg_nonneg; lia). lia.
  - assert (D : 0 <= (e - s) / inc) by (apply Z.div_pos; lia).
    rewrite in_map_iff. split.
    + intros (n & <- & Hn). apply in_seq in Hn. exists (Z.of_nat n). repeat split; [lia|].
      assert (Z.of_nat n <= (e - s) / inc) by lia.
      assert (inc * Z.of_nat n <= inc * ((e - s) / inc)) by (apply Z.mul_le_mono_nonneg_l; lia).
      pose proof (Z.mul_div_le (e - s) inc P). lia.
    + intros (k & Hk & -> & H). exists (Z.to_nat k). split; [rewrite Z2Nat.id by lia; reflexivity|].
      apply in_seq. split; [lia|]. assert (k <= (e - s) / inc) by (apply Z.div_le_lower_bound; lia). lia.
Qed.
Lemma date_range_nth s e inc k t : nth_error (date_range s e inc) k = Some t -> t = s + inc * Z.of_nat k.
Proof.
  unfold date_range. destruct (e <? s); [destruct k; discriminate|]. intros H.
  rewrite nth_error_map in H. destruct (nth_error (seq _ _) k) eqn:E; [|discriminate].
  injection H as <-. 
  assert (k < Z.to_nat ((e - s) / inc) + 1)%nat.
  { rewrite <- (seq_length (Z.to_nat ((e - s) / inc) + 1) 0). apply nth_error_Some. rewrite E. discriminate. }
  rewrite (nth_error_nth' _ 0%nat) in E by (rewrite seq_length; lia).
  injection E as E. rewrite seq_nth in E by lia. subst n. reflexivity.
Qed.
Lemma date_range_length s e inc : 0 < inc -> s <= e ->
  Z.of_nat (List.length (date_range s e inc)) = (e - s) / inc + 1.
Proof.
  intros P L. unfold date_range. destruct (Z.ltb_spec e s); [lia|]. rewrite map_length, seq_length.
  assert (0 <= (e - s) / inc) by (apply Z.div_pos; lia). lia.
Qed.

(** ** mapM, slices and lookups *)
Lemma mapM_ok {A B} (f : A -> res B) l bs : mapM f l = Ok bs <-> Forall2 (fun a b => f a = Ok b) l bs.
Proof.
  revert bs; induction l as [|a l IH]; intros bs; cbn [mapM].
  - split; [intros [= <-]; constructor|]. intros H; inversion H; reflexivity.
  - destruct (f a) as [b|e] eqn:E; cbn [bind].
    + destruct (mapM f l) as [bs'|e] eqn:E'; cbn [bind].
      * split.
        -- intros [= <-]. constructor; [exact E|]. apply IH. reflexivity.
        -- intros H. inversion H as [|? b1 ? l1 H1 H2]; subst. apply IH in H2. congruence.
      * split; [discriminate|]. intros H. inversion H as [|? b1 ? l1 H1 H2]; subst. apply IH in H2. discriminate.
    + split; [discriminate|]. intros H. inversion H; subst. congruence.
Qed.
Lemma mapM_err {A B} (f : A -> res B) l e : mapM f l = Err e -> exists a, In a l /\ f a = Err e.
Proof.
  induction l as [|a l IH]; cbn [mapM]; [discriminate|].
  destruct (f a) as [b|e'] eqn:E; cbn [bind].
  - destruct (mapM f l) as [bs|e'']; cbn [bind]; [discriminate|]. intros [= ->].
    destruct (IH eq_refl) as (x & Hx & Ex). exists x. split; [right; exact Hx|exact Ex].
  - intros [= ->]. exists a. split; [left; reflexivity|exact E].
Qed.
Lemma in_slice {A} s e t (x : A) l : In (t, x) (slice s e l) <-> In (t, x) l /\ s <= t <= e.
Proof.
  unfold slice. rewrite filter_In. cbn [fst]. rewrite andb_true_iff, !Z.leb_le. tauto.
Qed.
Lemma NoDup_map_filter {A B} (f : A -> B) p l : NoDup (map f l) -> NoDup (map f (filter p l)).
Proof.
  induction l as [|a l IH]; intros N; [constructor|]. cbn [map] in N. inversion N as [|? ? N1 N2]; subst.
  cbn [filter]. destruct (p a); [|apply IH; exact N2]. cbn [map]. constructor; [|apply IH; exact N2].
  intros H. apply N1. apply in_map_iff in H. destruct H as (x & <- & Hx). apply filter_In in Hx. apply in_map, Hx.
Qed.
Lemma loc_ok {A} t (x : A) l : NoDup (map fst l) -> (loc t l = Ok x <-> In (t, x) l).
Proof.
  intros N. unfold loc. induction l as [|[k y] l IH]; cbn [find fst].
  - split; [discriminate|intros []].
  - cbn [map fst] in N. inversion N as [|? ? N1 N2]; subst. destruct (Z.eqb_spec k t) as [->|Nk].
    + cbn [snd]. split; [intros [= ->]; left; reflexivity|]. intros [[= ->]|H]; [reflexivity|].
      exfalso. apply N1. apply in_map_iff. exists (t, x). auto.
    + rewrite (IH N2). split; [right; exact H|]. intros [[= -> _]|H]; [contradiction|exact H].
Qed.
Lemma loc_err {A} t (l : list (Z * A)) : (forall x, ~ In (t, x) l) -> loc t l = Err KeyError.
Proof.
  intros H. unfold loc. destruct (find _ l) as [[k x]|] eqn:E; [|reflexivity].
  apply find_some in E. destruct E as [Hin E]. cbn in E. apply Z.eqb_eq in E. subst k. destruct (H x Hin).
Qed.
Lemma pick_ok s cols row x : NoDup cols -> (pick String.eqb s cols row = Ok x <-> In (s, x) (combine cols row)).
Proof.
  intros N. revert row; induction cols as [|c cols IH]; intros row; cbn [pick combine].
  - split; [discriminate|intros []].
  - inversion N as [|? ? N1 N2]; subst. destruct row as [|y row]; [split; [discriminate|intros []]|].
    destruct (String.eqb_spec s c) as [->|Nc].
    + split; [intros [= ->]; left; reflexivity|]. intros [[= ->]|H]; [reflexivity|].
      exfalso. apply N1. exact (in_combine_l _ _ _ _ H).
    + rewrite (IH N2). split; [right; exact H|]. intros [[= -> _]|H]; [contradiction|exact H].
Qed.
Lemma keep_combine (keep : string -> bool) cols row :
  combine (filter keep cols) (keep_cols keep cols row) = filter (fun p => keep (fst p)) (combine cols row) \/ List.length row <> List.length cols.
Proof.
  unfold keep_cols. revert row; induction cols as [|c cols IH]; intros row; [left; reflexivity|].
  destruct row as [|x row]; [right; discriminate|]. destruct (IH row) as [E|E]; [left|right; cbn; lia].
  cbn [filter combine fst]. destruct (keep c); cbn [map snd combine]; [f_equal|]; exact E.
Qed.
Lemma in_keep (keep : string -> bool) cols row s x : List.length row = List.length cols ->
  (In (s, x) (combine (filter keep cols) (keep_cols keep cols row)) <-> In (s, x) (combine cols row) /\ keep s = true).
Proof.
  intros L. destruct (keep_combine keep cols row) as [E|E]; [|contradiction]. rewrite E, filter_In. cbn [fst]. tauto.
Qed.
Lemma combine_map_l {A B C} (f : A -> B) (l : list A) (m : list C) :
  combine (map f l) m = map (fun p => (f (fst p), snd p)) (combine l m).
Proof.
  revert m; induction l as [|a l IH]; intros m; [reflexivity|]. destruct m as [|c m]; [reflexivity|].
  cbn. f_equal. apply IH.
Qed.

(** ** CSV files *)
Definition kept (stations : option (list string)) (c : string) : bool :=
  match stations with None => true | Some l => existsb (String.eqb c) l end.
Lemma kept_allowed st s : kept st s = true <-> allowed st s.
Proof.
  destruct st as [l|]; cbn; [|tauto]. rewrite existsb_exists. split.
  - intros (x & Hx & E). apply String.eqb_eq in E. subst x. exact Hx.
  - intros H. exists s. split; [exact H|]. apply String.eqb_refl.
Qed.

Definition loc_row (z : zone) (r : Z * list num) : res (Z * list num) :=
  bind (tz_localize z (fst r)) (fun u => Ok (u, snd r)).
Lemma loc_row_ok z r r' : zone_ok z -> (loc_row z r = Ok r' <-> shown_once z (fst r) (fst r') /\ snd r = snd r').
Proof.
  intros Z0. unfold loc_row. destruct r as [w row], r' as [u row']. cbn [fst snd].
  destruct (tz_localize z w) as [v|e] eqn:E; cbn [bind].
  - split.
    + intros [= -> ->]. split; [apply (localize_ok z w u Z0); exact E|reflexivity].
    + intros [S1 ->]. apply (localize_ok z w u Z0) in S1. congruence.
  - split; [discriminate|]. intros [S1 _]. apply (localize_ok z w u Z0) in S1. congruence.
Qed.
Lemma forall2_in_r {A B} (R : A -> B -> Prop) l m b : Forall2 R l m -> In b m -> exists a, In a l /\ R a b.
Proof.
  intros F; induction F as [|a b' l m H F IH]; intros Hb; [destruct Hb|]. destruct Hb as [->|Hb].
  - exists a. split; [left; reflexivity|exact H].
  - destruct (IH Hb) as (x & Hx & Rx). exists x. split; [right; exact Hx|exact Rx].
Qed.
Lemma forall2_in_l {A B} (R : A -> B -> Prop) l m a : Forall2 R l m -> In a l -> exists b, In b m /\ R a b.
Proof.
  intros F; induction F as [|a' b l m H F IH]; intros Ha; [destruct Ha|]. destruct Ha as [->|Ha].
  - exists b. split; [left; reflexivity|exact H].
  - destruct (IH Ha) as (x & Hx & Rx). exists x. split; [right; exact Hx|exact Rx].
Qed.
Lemma located_in z rows rs u row : zone_ok z -> mapM (loc_row z) rows = Ok rs ->
  (In (u, row) rs <-> In (wall z u, row) rows).
Proof.
  intros Z0 M. apply mapM_ok in M. split.
  - intros H. destruct (forall2_in_r _ _ _ _ M H) as ([w r] & Hin & E).
    apply (loc_row_ok z _ _ Z0) in E. cbn in E. destruct E as [[<- _] ->]. exact Hin.
  - intros H. destruct (forall2_in_l _ _ _ _ M H) as ([v r] & Hin & E).
    apply (loc_row_ok z _ _ Z0) in E. cbn in E. destruct E as [[_ S2] ->]. rewrite (S2 u eq_refl). exact Hin.
Qed.
Lemma located_nodup z rows rs : zone_ok z -> mapM (loc_row z) rows = Ok rs ->
  NoDup (map fst rows) -> NoDup (map fst rs).
Proof.
  intros Z0 M. apply mapM_ok in M. induction M as [|[w r] [u r'] rows rs E M IH]; intros N; [constructor|].
  cbn [map fst] in *. inversion N as [|? ? N1 N2]; subst. constructor; [|exact (IH N2)].
  intros H. apply in_map_iff in H. destruct H as ([u2 r2] & <- & Hin). cbn [fst] in *.
  destruct (forall2_in_r _ _ _ _ M Hin) as ([w2 q] & Hin2 & E2).
  apply (loc_row_ok z _ _ Z0) in E, E2. cbn in E, E2. destruct E as [[E _] _], E2 as [[E2 _] _].
  apply N1. apply in_map_iff. exists (w2, q). split; [cbn; congruence|exact Hin2].
Qed.

Lemma upper_spec s : upper s = capitals s.
Proof.
  assert (U : forall c, upper_char c = capital_in "abcdefghijklmnopqrstuvwxyz"%string "ABCDEFGHIJKLMNOPQRSTUVWXYZ"%string c) by (intros [[] [] [] [] [] [] [] []]; vm_compute; reflexivity).
  induction s as [|c r IH]; [reflexivity|]. cbn [upper capitals]. now rewrite IH, U.
Qed.
Definition csv_rows (z : zone) st start stop (f : table string) rs :=
  slice start stop (map (fun r : Z * list num => (fst r, keep_cols (kept st) (map capitals (t_cols f)) (snd r))) rs) : list (Z * list num).
Lemma csv_unfold z st start stop f :
  csv_load z st start stop f =
  bind (mapM (loc_row z) (t_rows f)) (fun rs =>
    match csv_rows z st start stop f rs, filter (kept st) (map capitals (t_cols f)) with
    | [], _ | _, [] => Err PlainException
    | _, _ => Ok (mkTable (filter (kept st) (map capitals (t_cols f))) (csv_rows z st start stop f rs))
    end).
Proof.
  assert (E : map upper (t_cols f) = map capitals (t_cols f)) by (apply map_ext; exact upper_spec).
  unfold csv_rows. rewrite <- E. reflexivity.
Qed.
Lemma csv_inv z st start stop f d : csv_load z st start stop f = Ok d ->
  exists rs, mapM (loc_row z) (t_rows f) = Ok rs /\
    t_cols d = filter (kept st) (map capitals (t_cols f)) /\ t_rows d = csv_rows z st start stop f rs /\
    t_cols d <> [] /\ t_rows d <> [].
Proof.
  rewrite csv_unfold. destruct (mapM (loc_row z) (t_rows f)) as [rs|e]; cbn [bind]; [|discriminate].
  intros H. exists rs.
  destruct (csv_rows z st start stop f rs) as [|r0 rr] eqn:E1; [discriminate|].
  destruct (filter (kept st) (map capitals (t_cols f))) as [|c0 cc] eqn:E2; [discriminate|].
  injection H as <-. cbn [t_cols t_rows]. repeat split; congruence.
Qed.

Lemma csv_value z st start stop f d t s x : zone_ok z -> file_ok f -> csv_load z st start stop f = Ok d ->
  (value String.eqb d t s = Ok x <->
   start <= t <= stop /\ allowed st s /\ exists c, capitals c = s /\ file_says f (wall z t) c x).
Proof.
  intros Z0 (R & NR & NC) H. destruct (csv_inv _ _ _ _ _ _ H) as (rs & M & Ec & Er & _).
  unfold value. rewrite Ec, Er.
  assert (ND : NoDup (map fst (csv_rows z st start stop f rs))).
  { unfold csv_rows, slice. apply NoDup_map_filter. rewrite map_map. cbn [fst].
    exact (located_nodup z _ _ Z0 M NR). }
  assert (NK : NoDup (filter (kept st) (map capitals (t_cols f)))) by (apply NoDup_filter; exact NC).
  assert (IR : forall row', In (t, row') (csv_rows z st start stop f rs) <->
            start <= t <= stop /\ exists row, In (wall z t, row) (t_rows f) /\ row' = keep_cols (kept st) (map capitals (t_cols f)) row).
  { intros row'. unfold csv_rows. rewrite in_slice, in_map_iff. split.
    - intros [([u row] & [= -> <-] & Hin) W]. split; [exact W|]. exists row. split; [|reflexivity].
      apply (located_in z _ _ t row Z0 M). exact Hin.
    - intros [W (row & Hin & ->)]. split; [|exact W]. exists (t, row). split; [reflexivity|].
      apply (located_in z _ _ t row Z0 M). exact Hin. }
  assert (V : forall row', loc t (csv_rows z st start stop f rs) = Ok row' <-> In (t, row') (csv_rows z st start stop f rs))
    by (intros; apply loc_ok; exact ND).
  split.
  - destruct (loc t _) as [row'|e] eqn:E; cbn [bind]; [|discriminate]. intros P.
    apply (loc_ok _ _ _ ND), IR in E. destruct E as [W (row & Hin & ->)].
    apply (pick_ok _ _ _ _ NK) in P. apply in_keep in P; [|rewrite map_length; exact (R _ _ Hin)].
    destruct P as [P K]. rewrite combine_map_l in P. apply in_map_iff in P. destruct P as ([c y] & [= <- ->] & P).
    split; [exact W|]. split; [apply kept_allowed; exact K|]. exists c. split; [reflexivity|]. exists row. auto.
  - intros (W & A & c & <- & row & Hin & P).
    assert (E : loc t (csv_rows z st start stop f rs) = Ok (keep_cols (kept st) (map capitals (t_cols f)) row)).
    { apply V, IR. split; [exact W|]. exists row. auto. }
    rewrite E. cbn [bind]. apply (pick_ok _ _ _ _ NK). apply in_keep; [rewrite map_length; exact (R _ _ Hin)|].
    split; [|apply kept_allowed; exact A]. rewrite combine_map_l. apply in_map_iff. exists (c, x). auto.
Qed.
Lemma csv_columns z st start stop f d : csv_load z st start stop f = Ok d ->
  t_cols d <> [] /\ t_rows d <> [] /\
  exists p, t_cols d = filter p (map capitals (t_cols f)) /\ forall s, p s = true <-> allowed st s.
Proof.
  intros H. destruct (csv_inv _ _ _ _ _ _ H) as (rs & _ & Ec & _ & N1 & N2).
  split; [exact N1|]. split; [exact N2|]. exists (kept st). split; [exact Ec|]. intros s; apply kept_allowed.
Qed.
Lemma csv_fails z st start stop f : zone_ok z ->
  (csv_load z st start stop f = Err ValueError <->
     exists w row, In (w, row) (t_rows f) /\ forall u, ~ shown_once z w u) /\
  ((forall w row, In (w, row) (t_rows f) -> exists u, shown_once z w u) ->
   (csv_load z st start stop f = Err PlainException <->
     (forall u row, In (wall z u, row) (t_rows f) -> ~ start <= u <= stop) \/
     (forall c, In c (t_cols f) -> ~ allowed st (capitals c)))).
Proof.
  intros Z0. rewrite csv_unfold. split.
  - destruct (mapM (loc_row z) (t_rows f)) as [rs|e] eqn:M; cbn [bind].
    + split.
      * destruct (csv_rows z st start stop f rs); [discriminate|].
        destruct (filter (kept st) (map capitals (t_cols f))); discriminate.
      * intros (w & row & Hin & N). exfalso. apply mapM_ok in M.
        destruct (forall2_in_l _ _ _ _ M Hin) as ([u r] & _ & E). apply (loc_row_ok z _ _ Z0) in E.
        apply (N u). apply E.
    + destruct (mapM_err _ _ _ M) as ([w row] & Hin & E). unfold loc_row in E. cbn [fst snd] in E.
      destruct (tz_localize z w) as [u|e'] eqn:L; cbn [bind] in E; [discriminate|]. injection E as ->.
      pose proof (localize_err z w e L) as ->. split; [|reflexivity]. intros _. exists w, row.
      split; [exact Hin|]. intros u Su. apply (localize_ok z w u Z0) in Su. congruence.
  - intros All. destruct (mapM (loc_row z) (t_rows f)) as [rs|e] eqn:M; cbn [bind].
    2:{ exfalso. destruct (mapM_err _ _ _ M) as ([w row] & Hin & E). unfold loc_row in E. cbn [fst snd] in E.
        destruct (All w row Hin) as [u Su]. apply (localize_ok z w u Z0) in Su. rewrite Su in E. discriminate. }
    assert (ER : csv_rows z st start stop f rs = [] <-> forall u row, In (wall z u, row) (t_rows f) -> ~ start <= u <= stop).
    { split.
      - intros E u row Hin W. apply (located_in z _ _ u row Z0 M) in Hin.
        assert (X : In (u, keep_cols (kept st) (map capitals (t_cols f)) row) (csv_rows z st start stop f rs)).
        { unfold csv_rows. apply in_slice. split; [|exact W]. apply in_map_iff. exists (u, row). auto. }
        rewrite E in X. destruct X.
      - intros N. destruct (csv_rows z st start stop f rs) as [|[u r] l] eqn:E; [reflexivity|]. exfalso.
        assert (X : In (u, r) (csv_rows z st start stop f rs)) by (rewrite E; left; reflexivity).
        unfold csv_rows in X. apply in_slice in X. destruct X as [X W]. apply in_map_iff in X.
        destruct X as ([u' row] & [= -> _] & Hin). apply (located_in z _ _ u row Z0 M) in Hin. exact (N u row Hin W). }
    assert (EC : filter (kept st) (map capitals (t_cols f)) = [] <-> forall c, In c (t_cols f) -> ~ allowed st (capitals c)).
    { split.
      - intros E c Hc A. apply kept_allowed in A.
        assert (X : In (capitals c) (filter (kept st) (map capitals (t_cols f)))).
        { apply filter_In. split; [apply in_map; exact Hc|exact A]. }
        rewrite E in X. destruct X.
      - intros N. destruct (filter (kept st) (map capitals (t_cols f))) as [|c l] eqn:E; [reflexivity|]. exfalso.
        assert (X : In c (filter (kept st) (map capitals (t_cols f)))) by (rewrite E; left; reflexivity).
        apply filter_In in X. destruct X as [X K]. apply in_map_iff in X. destruct X as (c0 & <- & Hc).
        apply (N c0 Hc). apply kept_allowed. exact K. }
    rewrite <- ER, <- EC.
    destruct (csv_rows z st start stop f rs) as [|r0 rr].
    + split; [left; reflexivity|reflexivity].
    + destruct (filter (kept st) (map capitals (t_cols f))) as [|c0 cc].
      * split; [right; reflexivity|reflexivity].
      * split; [discriminate|]. intros [X|X]; discriminate.
Qed.
Lemma value_keyerror z st start stop f d t s : zone_ok z -> file_ok f -> csv_load z st start stop f = Ok d ->
  In s (t_cols d) -> (forall row, ~ In (wall z t, row) (t_rows f)) -> value String.eqb d t s = Err KeyError.
Proof.
  intros Z0 F H Hs N. destruct (csv_inv _ _ _ _ _ _ H) as (rs & M & Ec & Er & _).
  unfold value. rewrite Er. rewrite loc_err; [reflexivity|]. intros row' X. unfold csv_rows in X. apply in_slice in X.
  destruct X as [X _]. apply in_map_iff in X. destruct X as ([u row] & [= -> _] & Hin).
  apply (located_in z _ _ t row Z0 M) in Hin. exact (N row Hin).
Qed.

(** ** Names of cells *)
Fixpoint plain (s : string) : bool :=
  match s with EmptyString => true | String c r => negb (Ascii.eqb c "_"%char) && plain r end.
Lemma plain_uint d : plain (NilEmpty.string_of_uint d) = true.
Proof. induction d; cbn; auto. Qed.
Lemma append_split a : forall a' b b', plain a = true -> plain a' = true ->
  String.append a (String "_"%char b) = String.append a' (String "_"%char b') -> a = a' /\ b = b'.
Proof.
  induction a as [|c a IH]; intros [|c' a'] b b' P P' E; cbn [String.append plain] in *.
  - injection E as ->. auto.
  - injection E as E0 _. subst c'. discriminate P'.
  - injection E as E0 _. subst c. discriminate P.
  - injection E as -> E. apply andb_true_iff in P, P'. destruct (IH a' b b' (proj2 P) (proj2 P') E) as [-> ->]. auto.
Qed.
Lemma decimal_inj m n : decimal m = decimal n -> m = n.
Proof.
  unfold decimal. intros E.
  assert (U : Nat.to_uint m = Nat.to_uint n).
  { pose proof (NilEmpty.usu (Nat.to_uint m)) as A. pose proof (NilEmpty.usu (Nat.to_uint n)) as B.
    rewrite E in A. rewrite A in B. congruence. }
  apply Unsigned.to_uint_inj. exact U.
Qed.
Lemma cell_name_inj c c' : cell_name c = cell_name c' -> c = c'.
Proof.
  destruct c as [i j], c' as [i' j']. unfold cell_name. cbn [fst snd]. intros E.
  cbn [String.append] in E. injection E as E. apply append_split in E; [|apply plain_uint|apply plain_uint].
  destruct E as [E1 E2]. cbn [String.append] in E2. injection E2 as E2.
  apply decimal_inj in E1. apply decimal_inj in E2. congruence.
Qed.

(** ** netCDF files *)
Lemma nle_spec a b : nle a b = true <-> exists x y, a = Some x /\ b = Some y /\ (x <= y)%Qc.
Proof.
  destruct a as [x|], b as [y|]; cbn; try (split; [discriminate|intros (? & ? & ? & ? & _); discriminate]).
  destruct (Qcleb_spec x y) as [L|L]; split; intros H; try discriminate; eauto.
  destruct H as (x' & y' & [= <-] & [= <-] & H). contradiction.
Qed.
Lemma in_bbox_spec b lat lon : in_bbox b lat lon = true <-> inside b lat lon.
Proof.
  unfold in_bbox, inside. rewrite !andb_true_iff, !nle_spec. split.
  - intros [[[(x1 & la & E1 & E2 & L1) (la' & y2 & E3 & E4 & L2)] (x3 & lo & E5 & E6 & L3)] (lo' & y4 & E7 & E8 & L4)].
    injection E1 as <-. injection E5 as <-. subst lat lon. injection E3 as <-. injection E7 as <-.
    injection E4 as <-. injection E8 as <-.
    exists la, lo. auto 10.
  - intros (la & lo & -> & -> & H1 & H2 & H3 & H4). repeat split; eauto 6.
Qed.
Lemma in_selected b ny nx lat lon i j : In (i, j) (selected b ny nx lat lon) <->
  (i < ny)%nat /\ (j < nx)%nat /\ inside b (lat i j) (lon i j).
Proof.
  unfold selected. rewrite filter_In. cbn [fst snd]. rewrite in_prod_iff, !in_seq, in_bbox_spec. intuition lia.
Qed.
Lemma NoDup_prod {A B} (l : list A) (m : list B) : NoDup l -> NoDup m -> NoDup (list_prod l m).
Proof.
  intros Nl Nm. induction Nl as [|a l Ha Nl IH]; cbn; [constructor|].
  assert (G : forall m', NoDup m' -> NoDup (map (fun y : B => (a, y)) m' ++ list_prod l m)).
  { intros m' N. induction N as [|y m' Hy N IH']; cbn; [exact IH|]. constructor; [|exact IH'].
    intros H. apply in_app_or in H. destruct H as [H|H].
    - apply in_map_iff in H. destruct H as (y' & [= ->] & H). contradiction.
    - apply in_prod_iff in H. apply Ha, H. }
  apply G. exact Nm.
Qed.
Lemma selected_nodup b ny nx lat lon : NoDup (selected b ny nx lat lon).
Proof. apply NoDup_filter, NoDup_prod; apply seq_NoDup. Qed.

Definition series (nt : nat) (var : nat -> nat -> nat -> num) (c : nat * nat) : list num :=
  map (fun k => var k (fst c) (snd c)) (seq 0 nt).
Lemma fold_cols nt var l : forall df,
  fold_left (fun df c => set_col (cell_name c) (series nt var c) df) l df =
  map (fun p => fold_left (fun p c => if String.eqb (fst p) (cell_name c) then (fst p, series nt var c) else p) l p) df.
Proof.
  induction l as [|c l IH]; intros df; cbn [fold_left].
  - symmetry. apply map_id.
  - rewrite IH. unfold set_col. rewrite map_map. reflexivity.
Qed.
Lemma fold_keep nt var c l : fold_left (fun (p : string * list num) c => if String.eqb (fst p) (cell_name c) then (fst p, series nt var c) else p) l
   (cell_name c, series nt var c) = (cell_name c, series nt var c).
Proof.
  induction l as [|c' l IH]; [reflexivity|]. cbn [fold_left fst]. destruct (String.eqb_spec (cell_name c) (cell_name c')) as [E|N]; [|exact IH].
  apply cell_name_inj in E. subst c'. exact IH.
Qed.
Lemma fold_hit nt var c l x : In c l -> fold_left (fun (p : string * list num) c => if String.eqb (fst p) (cell_name c) then (fst p, series nt var c) else p) l
   (cell_name c, x) = (cell_name c, series nt var c).
Proof.
  revert x; induction l as [|c' l IH]; intros x H; [destruct H|]. cbn [fold_left fst].
  destruct (String.eqb_spec (cell_name c) (cell_name c')) as [E|N].
  - apply cell_name_inj in E. subst c'. apply fold_keep.
  - destruct H as [->|H]; [contradiction|]. apply IH. exact H.
Qed.
Lemma fill_columns_spec nt fv var cells :
  fill_columns nt fv var cells = map (fun c => (cell_name c, map (drop_fill fv) (series nt var c))) cells.
Proof.
  unfold fill_columns.
  change (fun df c => set_col (cell_name c) (map (fun k => var k (fst c) (snd c)) (seq 0 nt)) df)
    with (fun df c => set_col (cell_name c) (series nt var c) df).
  rewrite fold_cols, !map_map. apply map_ext_in. intros c Hc. rewrite (fold_hit nt var c cells _ Hc). reflexivity.
Qed.

Lemma file_cells_ok c : exists lat lon, file_cells c = Ok (rows_of c, cols_of c, lat, lon) /\
  forall i j a o, (i < rows_of c)%nat -> (j < cols_of c)%nat -> (lat i j = a /\ lon i j = o <-> coords_of c i j a o).
Proof.
  destruct c as [la lo|ny nx la lo]; cbn.
  - do 2 eexists. split; [reflexivity|]. intros i j a o Hi Hj. cbn.
    rewrite (nth_error_nth' la None Hi), (nth_error_nth' lo None Hj). split; [intros [-> ->]; auto|intros [[= ->] [= ->]]; auto].
  - do 2 eexists. split; [reflexivity|]. intros i j a o Hi Hj. cbn. intuition congruence.
Qed.

Section Netcdf.
Variables (z : zone) (b : bbox) (utm : num -> num -> num * num) (c : coords) (eny enx : nat) (elev : nat -> nat -> num).
Variables (origin minutes : Z) (times : list Q) (fv : option Qc) (var : nat -> nat -> nat -> num) (start stop : Z).
Hypothesis Z0 : zone_ok z.
Let load := netcdf_load z b utm c eny enx elev origin minutes times fv var start stop.
Definition file_wall (v : Q) : Z := origin + minutes * trunc v.

Lemma netcdf_inv meta d : load = Ok (meta, d) ->
  eny = rows_of c /\ enx = cols_of c /\
  exists lat lon ts, file_cells c = Ok (rows_of c, cols_of c, lat, lon) /\
    Forall2 (fun v t => shown_once z (file_wall v) t) times ts /\
    let cells := selected b (rows_of c) (cols_of c) lat lon in
    meta = metadata utm lat lon elev cells /\
    t_cols d = map cell_name cells /\
    t_rows d = slice start stop (map (fun kt => (snd kt, map (fun q => drop_fill fv (var (fst kt) (fst q) (snd q))) cells))
                                     (combine (seq 0 (List.length times)) ts)).
Proof.
  unfold load, netcdf_load. destruct (file_cells_ok c) as (lat & lon & E & _). rewrite E. cbn [bind].
  destruct (Nat.eqb_spec eny (rows_of c)) as [E1|]; [|discriminate].
  destruct (Nat.eqb_spec enx (cols_of c)) as [E2|]; [|discriminate]. cbn [negb andb].
  destruct (mapM (file_time z origin minutes) times) as [ts|e] eqn:M; cbn [bind]; [|discriminate].
  intros [= <- <-]. split; [exact E1|]. split; [exact E2|]. exists lat, lon, ts. split; [reflexivity|].
  split; [|split; [reflexivity|]].
  - apply mapM_ok in M. clear - M Z0. induction M as [|v t vs ts H M IH]; constructor; [|exact IH].
    apply (localize_ok z _ _ Z0). exact H.
  - rewrite fill_columns_spec. cbn [t_cols t_rows]. rewrite !map_map. cbn [fst]. split; [reflexivity|].
    f_equal. apply map_ext_in. intros [k t] Hk. cbn [fst snd]. f_equal. rewrite map_map. cbn [snd]. apply map_ext. intros q.
    apply in_combine_l in Hk. apply in_seq in Hk.
    rewrite (nth_indep _ None (drop_fill fv None)) by (rewrite map_length; unfold series; rewrite map_length, seq_length; lia).
    rewrite map_nth.
    f_equal. unfold series. rewrite (nth_indep _ None (var 0%nat (fst q) (snd q))) by (rewrite map_length, seq_length; lia).
    rewrite (map_nth (fun k => var k (fst q) (snd q))). rewrite seq_nth by lia. reflexivity.
Qed.

Lemma combine_seq_nth {A} (l : list A) k t n : In (k, t) (combine (seq n (List.length l)) l) <-> (n <= k)%nat /\ nth_error l (k - n) = Some t.
Proof.
  revert n; induction l as [|a l IH]; intros n; cbn [List.length seq combine].
  - split; [intros []|]. intros [_ H]. destruct (k - n)%nat; discriminate.
  - cbn [In]. rewrite IH. split.
    + intros [[= <- <-]|[L H]].
      * split; [lia|]. rewrite Nat.sub_diag. reflexivity.
      * split; [lia|]. replace (k - n)%nat with (S (k - S n)) by lia. exact H.
    + intros [L H]. destruct (Nat.eq_dec k n) as [->|N].
      * left. rewrite Nat.sub_diag in H. cbn in H. congruence.
      * right. split; [lia|]. replace (k - n)%nat with (S (k - S n)) in H by lia. exact H.
Qed.
Lemma forall2_nth {A B} (R : A -> B -> Prop) l m : Forall2 R l m -> forall k, 
  (forall b, nth_error m k = Some b -> exists a, nth_error l k = Some a /\ R a b) /\
  (forall a, nth_error l k = Some a -> exists b, nth_error m k = Some b /\ R a b).
Proof.
  intros F; induction F as [|a b0 l m H F IH]; intros [|k]; cbn; split; intros x E; try discriminate.
  - injection E as <-. eauto.
  - injection E as <-. eauto.
  - apply IH in E. exact E.
  - apply IH in E. exact E.
Qed.

Lemma netcdf_value meta d t i j x : load = Ok (meta, d) -> NoDup (map file_wall times) ->
  (value String.eqb d t (cell_name (i, j)) = Ok x <->
   start <= t <= stop /\
   (exists lat lon, coords_of c i j lat lon /\ inside b lat lon) /\
   exists k v, nth_error times k = Some v /\ wall z t = origin + minutes * trunc v /\ x = drop_fill fv (var k i j)).
Proof.
  intros H N. destruct (netcdf_inv meta d H) as (Ey & Ex & lat & lon & ts & Fc & T & _ & Ec & Er).
  destruct (file_cells_ok c) as (lat' & lon' & Fc' & Co). rewrite Fc in Fc'. injection Fc' as <- <-.
  set (cells := selected b (rows_of c) (cols_of c) lat lon) in *.
  unfold value. rewrite Ec, Er.
  assert (Lt : List.length ts = List.length times) by (clear - T; induction T; cbn; congruence).
  assert (Nt : NoDup ts).
  { clear - T N. revert N. induction T as [|v t vs ts S1 T IH]; intros N; [constructor|]. cbn [map] in N.
    inversion N as [|? ? N1 N2]; subst. constructor; [|exact (IH N2)]. intros Hin.
    destruct (forall2_in_r _ _ _ _ T Hin) as (v' & Hv & S2). apply N1. apply in_map_iff. exists v'.
    split; [|exact Hv]. destruct S1 as [<- _], S2 as [<- _]. reflexivity. }
  match goal with |- context [slice start stop ?rs] => set (rows := rs) end.
  assert (NR : NoDup (map fst (slice start stop rows))).
  { unfold slice. apply NoDup_map_filter. unfold rows. rewrite map_map. cbn [fst].
    clear - Nt Lt. rewrite <- Lt. 
    assert (G : forall (l : list Z) n, map (fun x : nat * Z => snd x) (combine (seq n (List.length l)) l) = l).
    { intros l; induction l as [|a l IH]; intros n; [reflexivity|]. cbn. f_equal. apply IH. }
    rewrite G. exact Nt. }
  assert (IR : forall row, In (t, row) (slice start stop rows) <-> start <= t <= stop /\
     exists k, nth_error ts k = Some t /\ row = map (fun q => drop_fill fv (var k (fst q) (snd q))) cells).
  { intros row. rewrite in_slice. unfold rows. rewrite in_map_iff. rewrite <- Lt. split.
    - intros [([k t'] & [= -> <-] & Hin) W]. apply combine_seq_nth in Hin. destruct Hin as [_ Hin].
      rewrite Nat.sub_0_r in Hin. split; [exact W|]. exists k. auto.
    - intros [W (k & Hk & ->)]. split; [|exact W]. exists (k, t). split; [reflexivity|].
      apply combine_seq_nth. rewrite Nat.sub_0_r. split; [lia|exact Hk]. }
  assert (NC : NoDup (map cell_name cells)).
  { assert (S1 : NoDup cells) by apply selected_nodup. clear - S1. induction S1 as [|q l Hq S1 IH]; cbn; [constructor|].
    constructor; [|exact IH]. intros H. apply in_map_iff in H. destruct H as (q' & E & Hin).
    apply cell_name_inj in E. subst q'. contradiction. }
  assert (PC : forall k, In (cell_name (i, j), x) (combine (map cell_name cells) (map (fun q => drop_fill fv (var k (fst q) (snd q))) cells)) <->
       In (i, j) cells /\ x = drop_fill fv (var k i j)).
  { intros k. clear. induction cells as [|q l IH]; cbn [map combine In]; [tauto|]. rewrite IH. split.
    - intros [E|[H1 H2]]; [|tauto]. apply pair_equal_spec in E. destruct E as [E1 E2].
      apply cell_name_inj in E1. subst q. cbn [fst snd] in E2. split; [tauto|congruence].
    - intros [[->|H1] H2]; [|tauto]. left. cbn [fst snd]. congruence. }
  assert (IC : In (i, j) cells <-> exists lat lon, coords_of c i j lat lon /\ inside b lat lon).
  { unfold cells. rewrite in_selected. split.
    - intros (Hi & Hj & In1). exists (lat i j), (lon i j). split; [apply (Co i j _ _ Hi Hj); auto|exact In1].
    - intros (a & o & C1 & In1).
      assert (B : (i < rows_of c)%nat /\ (j < cols_of c)%nat).
      { destruct c as [la lo|ny nx la lo]; cbn in C1 |- *; [|tauto]. destruct C1 as [A1 A2].
        split; apply nth_error_Some; congruence. }
      destruct B as [Hi Hj]. apply (Co i j _ _ Hi Hj) in C1. destruct C1 as [-> ->]. auto. }
  rewrite <- IC. split.
  - intros V. destruct (loc t (slice start stop rows)) as [row|e] eqn:E; cbn [bind] in V; [|discriminate].
    apply (loc_ok _ _ _ NR), IR in E. destruct E as [W (k & Hk & ->)].
    apply (pick_ok _ _ _ _ NC), PC in V. destruct V as [V1 V2]. split; [exact W|]. split; [exact V1|].
    destruct (forall2_nth _ _ _ T k) as [F1 _]. destruct (F1 t Hk) as (v & Hv & Sv). exists k, v.
    split; [exact Hv|]. split; [apply Sv|exact V2].
  - intros (W & Hc & k & v & Hv & Ew & Exx). destruct (forall2_nth _ _ _ T k) as [_ F2].
    destruct (F2 v Hv) as (t' & Ht' & Sv). assert (t = t') by (apply Sv; exact Ew). subst t'.
    assert (E : loc t (slice start stop rows) = Ok (map (fun q => drop_fill fv (var k (fst q) (snd q))) cells)).
    { apply (loc_ok _ _ _ NR), IR. split; [exact W|]. exists k. auto. }
    rewrite E. cbn [bind]. apply (pick_ok _ _ _ _ NC), PC. auto.
Qed.
Lemma netcdf_meta meta d : load = Ok (meta, d) ->
  map s_name meta = t_cols d /\ NoDup (t_cols d) /\
  forall m, In m meta <-> exists i j lat lon, coords_of c i j lat lon /\ inside b lat lon /\
     m = mkStation (cell_name (i, j)) lat lon (elev i j) (utm lat lon).
Proof.
  intros H. destruct (netcdf_inv meta d H) as (Ey & Ex & lat & lon & ts & Fc & T & Em & Ec & Er).
  destruct (file_cells_ok c) as (lat' & lon' & Fc' & Co). rewrite Fc in Fc'. injection Fc' as <- <-.
  set (cells := selected b (rows_of c) (cols_of c) lat lon) in *.
  split; [|split].
  - rewrite Em, Ec. unfold metadata. rewrite map_map. reflexivity.
  - rewrite Ec. assert (S1 : NoDup cells) by apply selected_nodup. clear - S1. induction S1 as [|q l Hq S1 IH]; cbn; [constructor|].
    constructor; [|exact IH]. intros H. apply in_map_iff in H. destruct H as (q' & E & Hin).
    apply cell_name_inj in E. subst q'. contradiction.
  - intros m. rewrite Em. unfold metadata. rewrite in_map_iff. split.
    + intros ([i j] & <- & Hin). unfold cells in Hin. apply in_selected in Hin. destruct Hin as (Hi & Hj & In1).
      exists i, j, (lat i j), (lon i j). split; [apply (Co i j _ _ Hi Hj); auto|]. split; [exact In1|reflexivity].
    + intros (i & j & a & o & C1 & In1 & ->).
      assert (B : (i < rows_of c)%nat /\ (j < cols_of c)%nat).
      { destruct c as [la lo|ny nx la lo]; cbn in C1 |- *; [|tauto]. destruct C1 as [A1 A2].
        split; apply nth_error_Some; congruence. }
      destruct B as [Hi Hj]. apply (Co i j _ _ Hi Hj) in C1. destruct C1 as [<- <-].
      exists (i, j). split; [reflexivity|]. unfold cells. apply in_selected. auto.
Qed.
Lemma netcdf_loads : (exists r, load = Ok r) <->
  eny = rows_of c /\ enx = cols_of c /\ forall v, In v times -> exists t, shown_once z (file_wall v) t.
Proof.
  split.
  - intros [[meta d] H]. destruct (netcdf_inv meta d H) as (Ey & Ex & lat & lon & ts & Fc & T & _).
    split; [exact Ey|]. split; [exact Ex|]. intros v Hv. destruct (forall2_in_l _ _ _ _ T Hv) as (t & _ & S1). eauto.
  - intros (E1 & E2 & A). unfold load, netcdf_load. destruct (file_cells_ok c) as (lat & lon & E & _). rewrite E. cbn [bind].
    rewrite <- E1, <- E2, !Nat.eqb_refl. cbn [negb andb].
    destruct (mapM (file_time z origin minutes) times) as [ts|e] eqn:M; cbn [bind]; [eauto|].
    exfalso. destruct (mapM_err _ _ _ M) as (v & Hv & Ev). destruct (A v Hv) as [t St].
    apply (localize_ok z _ _ Z0) in St. unfold file_time in Ev. unfold file_wall in St. congruence.
Qed.
End Netcdf.

(** ** Cloud fraction, boxes *)
Lemma qsum_bounds l : (forall x, In x l -> 0 <= x /\ x <= 1)%Qc ->
  (0 <= qsum l /\ qsum l <= Q2Qc (inject_Z (Z.of_nat (List.length l))))%Qc.
Proof.
  induction l as [|x l IH]; intros H.
  - split; vm_compute; discriminate.
  - destruct IH as [A B]; [intros y Hy; apply H; right; exact Hy|]. destruct (H x (or_introl eq_refl)) as [C D].
    change (qsum (x :: l)) with (x + qsum l)%Qc. cbn [List.length].
    assert (E : (Q2Qc (inject_Z (Z.of_nat (S (List.length l)))) = 1 + Q2Qc (inject_Z (Z.of_nat (List.length l))))%Qc).
    { apply Qc_is_canon. rewrite this_plus, !this_Q2Qc. rewrite Nat2Z.inj_succ. unfold Z.succ. rewrite inject_Z_plus. 
      change (this 1%Qc) with 1%Q. ring. }
    rewrite E. change (this 1%Qc) with 1%Q in *. split; qc_push; change (this 1%Qc) with 1%Q in *; change (this 0%Qc) with 0%Q in *; Lqa.lra.
Qed.
Lemma cloud_factor_bounds l : l <> [] -> (forall x, In x l -> 0 <= x /\ x <= 1)%Qc ->
  (0 <= wrf_cloud_factor l /\ wrf_cloud_factor l <= 1)%Qc.
Proof.
  intros Hne H. destruct (qsum_bounds l H) as [A B]. unfold wrf_cloud_factor.
  set (n := Q2Qc (inject_Z (Z.of_nat (List.length l)))) in *.
  assert (P : (0 < n)%Qc).
  { unfold n, Qclt. rewrite (this_Q2Qc (inject_Z (Z.of_nat (List.length l)))). destruct l as [|x l]; [contradiction|].
    apply (Qlt_le_trans _ (inject_Z 1)); [vm_compute; reflexivity|]. cbn [List.length]. unfold Qle, inject_Z. cbn [Qnum Qden]. lia. }
  assert (NZ : n <> 0%Qc) by (intros E; rewrite E in P; apply (Qclt_not_eq _ _ P); reflexivity).
  assert (Q0 : (0 <= qsum l / n)%Qc).
  { unfold Qcdiv. replace 0%Qc with (0 * / n)%Qc by ring. apply Qcmult_le_compat_r; [exact A|].
    unfold Qcle. rewrite this_inv. change (this 0%Qc) with 0%Q. apply Qinv_le_0_compat. apply Qlt_le_weak. exact P. }
  assert (Q1 : (qsum l / n <= 1)%Qc).
  { replace 1%Qc with (n / n)%Qc by (field; exact NZ). unfold Qcdiv. apply Qcmult_le_compat_r; [exact B|].
    unfold Qcle. rewrite this_inv. change (this 0%Qc) with 0%Q. apply Qinv_le_0_compat. apply Qlt_le_weak. exact P. }
  generalize dependent (qsum l / n)%Qc. intros y Y0 Y1. split; qc_push; change (this 1%Qc) with 1%Q in *; change (this 0%Qc) with 0%Q in *; Lqa.lra.
Qed.

Lemma qsum_zero l : (forall x, In x l -> 0 <= x)%Qc -> (qsum l = 0%Qc <-> forall x, In x l -> x = 0%Qc).
Proof.
  induction l as [|x l IH]; intros H; [split; [intros _ y []|reflexivity]|].
  change (qsum (x :: l)) with (x + qsum l)%Qc.
  assert (P : forall m : list Qc, (forall y, In y m -> 0 <= y)%Qc -> (0 <= qsum m)%Qc).
  { intros m; induction m as [|y m IHm]; intros Hm; [vm_compute; discriminate|].
    change (qsum (y :: m)) with (y + qsum m)%Qc. specialize (IHm (fun z Hz => Hm z (or_intror Hz))).
    pose proof (Hm y (or_introl eq_refl)) as Hy. replace 0%Qc with (0 + 0)%Qc by ring. apply Qcplus_le_compat; assumption. }
  pose proof (P l (fun z Hz => H z (or_intror Hz))) as Pl. pose proof (H x (or_introl eq_refl)) as Px.
  specialize (IH (fun z Hz => H z (or_intror Hz))). split.
  - intros E. assert (Ex : x = 0%Qc).
    { apply Qcle_antisym; [|exact Px]. replace 0%Qc with (x + qsum l)%Qc by exact E.
      replace x with (x + 0)%Qc at 1 by ring. apply Qcplus_le_compat; [apply Qcle_refl|exact Pl]. }
    assert (El : qsum l = 0%Qc) by (rewrite Ex in E; replace (qsum l) with (0 + qsum l)%Qc by ring; exact E).
    intros y [<-|Hy]; [exact Ex|]. apply IH; assumption.
  - intros A. rewrite (A x (or_introl eq_refl)). rewrite (proj2 IH (fun z Hz => A z (or_intror Hz))). ring.
Qed.
Lemma qsum_compl l : (Q2Qc (inject_Z (Z.of_nat (List.length l))) - qsum l)%Qc = qsum (map (fun x => 1 - x)%Qc l).
Proof.
  induction l as [|x l IH]; [reflexivity|]. cbn [map List.length].
  change (qsum (x :: l)) with (x + qsum l)%Qc. 
  assert (E : (Q2Qc (inject_Z (Z.of_nat (S (List.length l)))) = 1 + Q2Qc (inject_Z (Z.of_nat (List.length l))))%Qc).
  { apply Qc_is_canon. rewrite this_plus, !this_Q2Qc. rewrite Nat2Z.inj_succ. unfold Z.succ. rewrite inject_Z_plus.
    change (this 1%Qc) with 1%Q. ring. }
  rewrite E. cbn [qsum fold_right]. fold (qsum (map (fun x0 => 1 - x0)%Qc l)). rewrite <- IH. ring.
Qed.
Lemma cloud_factor_ends l : l <> [] -> (forall x, In x l -> 0 <= x /\ x <= 1)%Qc ->
  (wrf_cloud_factor l = 1%Qc <-> forall x, In x l -> x = 0%Qc) /\
  (wrf_cloud_factor l = 0%Qc <-> forall x, In x l -> x = 1%Qc).
Proof.
  intros Hne H. unfold wrf_cloud_factor. pose proof (qsum_compl l) as C.
  set (n := Q2Qc (inject_Z (Z.of_nat (List.length l)))) in *.
  assert (NZ : n <> 0%Qc).
  { intros E. apply (f_equal this) in E. assert (Q : (inject_Z (Z.of_nat (List.length l)) == 0)%Q).
    { rewrite <- (this_Q2Qc (inject_Z (Z.of_nat (List.length l)))). fold n. rewrite E. reflexivity. }
    unfold Qeq, inject_Z in Q. cbn [Qnum Qden] in Q. destruct l; [contradiction|]. cbn [List.length] in Q. lia. }
  split.
  - rewrite <- qsum_zero by (intros x Hx; apply H; exact Hx). split.
    + intros E. assert (Ed : (qsum l / n = 0)%Qc).
      { replace (qsum l / n)%Qc with (1 - (1 - qsum l / n))%Qc by ring. rewrite E. ring. }
      replace (qsum l) with (qsum l / n * n)%Qc by (field; exact NZ). rewrite Ed. ring.
    + intros ->. field. exact NZ.
  - assert (G : (forall x, In x l -> x = 1%Qc) <-> qsum (map (fun x => 1 - x)%Qc l) = 0%Qc).
    { rewrite qsum_zero.
      - split.
        + intros A y Hy. apply in_map_iff in Hy. destruct Hy as (x & <- & Hx). rewrite (A x Hx). ring.
        + intros A x Hx. assert (E : (1 - x = 0)%Qc) by (apply A; apply in_map_iff; exists x; auto).
          replace x with (1 - (1 - x))%Qc by ring. rewrite E. ring.
      - intros y Hy. apply in_map_iff in Hy. destruct Hy as (x & <- & Hx). destruct (H x Hx) as [_ U].
        replace 0%Qc with (x + - x)%Qc by ring. unfold Qcminus. apply Qcplus_le_compat; [exact U|apply Qcle_refl]. }
    rewrite G, <- C. split.
    + intros E. replace (n - qsum l)%Qc with ((1 - qsum l / n) * n)%Qc by (field; exact NZ). rewrite E. ring.
    + intros E. replace (1 - qsum l / n)%Qc with ((n - qsum l) / n)%Qc by (field; exact NZ). rewrite E. unfold Qcdiv. ring.
Qed.
Lemma trunc_spec v : (0 <= v)%Q ->
  (inject_Z (trunc v) <= v)%Q /\ (v < inject_Z (trunc v + 1))%Q /\ forall n, trunc (inject_Z n) = n.
Proof.
  intros P. unfold trunc. destruct v as [a b]. cbn [Qnum Qden].
  assert (A : 0 <= a) by (unfold Qle in P; cbn in P; lia).
  rewrite Z.quot_div_nonneg by lia. split; [|split].
  - unfold Qle, inject_Z. cbn [Qnum Qden]. pose proof (Z.mul_div_le a (Zpos b) ltac:(lia)). lia.
  - unfold Qlt, inject_Z. cbn [Qnum Qden]. pose proof (Z.mul_succ_div_gt a (Zpos b) ltac:(lia)). lia.
  - intros n. cbn [inject_Z Qnum Qden]. apply Z.quot_1_r.
Qed.
