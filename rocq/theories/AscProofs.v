(** Proofs about the grids of the WindNinja files. *)
From Coq Require Import Reals ZArith Ascii String List Bool Lra Lia.
From Verif Require Import RNum WinsModel WinsProofs NinjaModel NinjaSpec NinjaProofs AscModel AscSpec.
Import ListNotations.
Local Open Scope R_scope.

(** ** Words *)
Lemma blank_white c : blank c = true <-> white c.
Proof.
  unfold blank, white. cbv zeta. set (n := nat_of_ascii c). rewrite orb_true_iff, !andb_true_iff, !Nat.leb_le. cbn [In]. lia.
Qed.
Lemma blank_not c : ~ white c -> blank c = false.
Proof. intros N. destruct (blank c) eqn:E; [apply blank_white in E; contradiction|reflexivity]. Qed.
Lemma append_nil s : append s EmptyString = s.
Proof. induction s as [|c s IH]; cbn [append]; [reflexivity|rewrite IH; reflexivity]. Qed.
Lemma append_assoc a b c : append a (append b c) = append (append a b) c.
Proof. induction a as [|x a IH]; cbn [append]; [reflexivity|rewrite IH; reflexivity]. Qed.
Lemma split_word w : forall p r, all_of (fun c => ~ white c) w -> split_from p (append w r) = split_from (append p w) r.
Proof.
  induction w as [|c w IH]; intros p r H; cbn [append]; [rewrite append_nil; reflexivity|].
  cbn [all_of] in H. destruct H as [H1 H2]. cbn [split_from]. rewrite (blank_not c H1), IH by exact H2.
  rewrite <- append_assoc. reflexivity.
Qed.
Lemma split_gap g : forall s, gap g -> split (append g s) = split s.
Proof.
  unfold split, gap. induction g as [|c g IH]; intros s H; cbn [append]; [reflexivity|]. cbn [all_of] in H. destruct H as [H1 H2].
  cbn [split_from]. rewrite (proj2 (blank_white c) H1). cbn [word_then]. apply IH. exact H2.
Qed.
Definition ends (r : string) : Prop := r = EmptyString \/ exists c s, r = String c s /\ white c.
Lemma split_done w r : w <> EmptyString -> ends r -> split_from w r = w :: split r.
Proof.
  intros N [->|(c & s & -> & W)].
  - destruct w; [contradiction|reflexivity].
  - unfold split. cbn [split_from]. rewrite (proj2 (blank_white c) W). destruct w; [contradiction|reflexivity].
Qed.
Lemma split_next g w r : gap g -> word w -> ends r -> split (append g (append w r)) = w :: split r.
Proof. intros G [N W] E. rewrite split_gap by exact G. unfold split. rewrite split_word by exact W. cbn [append]. apply split_done; assumption. Qed.
Lemma split_rest s : exists w r, s = append w r /\ all_of (fun c => ~ white c) w /\ ends r.
Proof.
  induction s as [|c s (w & r & E & W & R)]; [exists EmptyString, EmptyString; repeat split; left; reflexivity|].
  destruct (blank c) eqn:B.
  - exists EmptyString, (String c s). split; [reflexivity|]. split; [exact I|]. right. exists c, s. split; [reflexivity|]. apply blank_white. exact B.
  - exists (String c w), r. split; [cbn [append]; rewrite E; reflexivity|]. split; [|exact R]. cbn [all_of]. split; [|exact W].
    intros X. apply blank_white in X. congruence.
Qed.
Lemma split_first s : gap s /\ split s = [] \/ exists g w r, s = append g (append w r) /\ gap g /\ word w /\ ends r.
Proof.
  induction s as [|c s IH]; [left; split; [exact I|reflexivity]|]. destruct (blank c) eqn:B.
  - destruct IH as [[G E]|(g & w & r & E & G & W & R)].
    + left. split; [split; [apply blank_white; exact B|exact G]|]. unfold split. cbn [split_from]. rewrite B. cbn [word_then]. exact E.
    + right. exists (String c g), w, r. split; [cbn [append]; rewrite E; reflexivity|]. split; [split; [apply blank_white; exact B|exact G]|]. auto.
  - right. destruct (split_rest (String c s)) as (w & r & E & W & R). exists EmptyString, w, r. cbn [append]. split; [exact E|]. split; [exact I|]. split; [|exact R].
    split; [|exact W]. intros ->. cbn [append] in E. subst r. destruct R as [R|(c' & s' & R & X)]; [discriminate R|]. injection R as <- <-.
    apply blank_white in X. congruence.
Qed.
Lemma says_split l k v : says l k v <-> exists rest, split l = k :: v :: rest.
Proof.
  split.
  - intros (b & m & a & -> & B & K & M & MN & V & A). exists (split a).
    rewrite split_next; [|exact B|exact K|].
    + f_equal. apply split_next; assumption.
    + right. destruct m as [|c m]; [contradiction|]. exists c, (append m (append v a)). split; [reflexivity|]. apply M.
  - intros (rest & E). destruct (split_first l) as [[_ X]|(g & w & r & -> & G & W & R)]; [congruence|].
    rewrite split_next in E by assumption. injection E as <- E.
    destruct (split_first r) as [[_ X]|(g2 & w2 & r2 & ER & G2 & W2 & R2)]; [congruence|]. rewrite ER in E. rewrite split_next in E by assumption.
    injection E as <- _. exists g, g2, r2. split; [rewrite ER; reflexivity|]. split; [exact G|]. split; [exact W|]. split; [exact G2|]. split; [|split; [exact W2|exact R2]].
    intros ->. cbn [append] in ER. destruct W2 as [N2 W2]. destruct w2 as [|c w2]; [contradiction|]. cbn [append] in ER. cbn [all_of] in W2.
    destruct R as [R|(c' & s' & R & X)]; [congruence|]. rewrite R in ER. injection ER as -> _. tauto.
Qed.

(** ** The header *)
Definition pair_of (l : string) : string * string := match split l with k :: v :: _ => (k, v) | _ => (EmptyString, EmptyString) end.
Lemma read_header_spec n : forall lines h,
  (forall i l, (i < n)%nat -> nth_error lines i = Some l -> exists k v, says l k v) /\
    read_header n lines h = Ok (rev (map pair_of (firstn n lines)) ++ h) \/
  ~ (forall i l, (i < n)%nat -> nth_error lines i = Some l -> exists k v, says l k v) /\ read_header n lines h = Err IndexError.
Proof.
  induction n as [|n IH]; intros lines h; [left; split; [intros; lia|destruct lines; reflexivity]|].
  destruct lines as [|l r]; [left; split; [intros [|i] l _ X; discriminate X|reflexivity]|].
  cbn [read_header firstn map rev].
  assert (C : (exists k v rest, split l = k :: v :: rest) \/ ~ exists k v, says l k v).
  { destruct (split l) as [|k [|v rest]] eqn:E.
    - right. intros (k & v & S). apply says_split in S. destruct S as (rest & S). congruence.
    - right. intros (k' & v & S). apply says_split in S. destruct S as (rest & S). congruence.
    - left. eauto. }
  destruct C as [(k & v & rest & E)|N].
  - assert (P : pair_of l = (k, v)) by (unfold pair_of; rewrite E; reflexivity). rewrite E, P.
    destruct (IH r ((k, v) :: h)) as [[A B]|[A B]].
    + left. split; [|rewrite B, <- app_assoc; reflexivity]. intros [|i] l' L X; [|apply (A i l'); [lia|exact X]]. injection X as <-.
      exists k, v. apply says_split. eauto.
    + right. split; [|exact B]. intros H. apply A. intros i l' L X. apply (H (S i) l'); [lia|exact X].
  - right. split; [intros H; apply N; apply (H 0%nat l); [lia|reflexivity]|].
    destruct (split l) as [|k [|v rest]] eqn:E; try reflexivity. exfalso. apply N. exists k, v. apply says_split. eauto.
Qed.
Lemma find_rev {A} (f : A -> bool) (l : list A) p : find f (rev l) = Some p <->
  exists i, nth_error l i = Some p /\ f p = true /\ forall j q, (i < j)%nat -> nth_error l j = Some q -> f q = false.
Proof.
  induction l as [|x l IH] using rev_ind.
  - cbn. split; [discriminate|]. intros ([|i] & X & _); discriminate X.
  - rewrite rev_app_distr. cbn [rev app find]. destruct (f x) eqn:F.
    + split.
      * intros [= <-]. exists (length l). rewrite nth_error_app2, Nat.sub_diag by lia. split; [reflexivity|]. split; [exact F|].
        intros j q L X. rewrite nth_error_app2 in X by lia. destruct (j - length l)%nat as [|[|]] eqn:D; [lia|discriminate X|discriminate X].
      * intros (i & X & P & H). destruct (Nat.lt_trichotomy i (length l)) as [L|[L|L]].
        -- specialize (H (length l) x L). rewrite nth_error_app2, Nat.sub_diag in H by lia. rewrite (H eq_refl) in F. discriminate F.
        -- subst i. rewrite nth_error_app2, Nat.sub_diag in X by lia. exact X.
        -- rewrite nth_error_app2 in X by lia. destruct (i - length l)%nat as [|[|]] eqn:D; [lia|discriminate X|discriminate X].
    + rewrite IH. split; intros (i & X & P & H); exists i.
      * assert (L : (i < length l)%nat) by (apply nth_error_Some; congruence). rewrite nth_error_app1 by exact L. split; [exact X|]. split; [exact P|].
        intros j q J Y. destruct (Nat.lt_ge_cases j (length l)) as [LJ|LJ]; [rewrite nth_error_app1 in Y by exact LJ; exact (H j q J Y)|].
        rewrite nth_error_app2 in Y by exact LJ. destruct (j - length l)%nat as [|[|]]; [injection Y as <-; exact F|discriminate Y|discriminate Y].
      * destruct (Nat.lt_ge_cases i (length l)) as [L|L].
        -- rewrite nth_error_app1 in X by exact L. split; [exact X|]. split; [exact P|]. intros j q J Y. apply (H j q J). rewrite nth_error_app1; [exact Y|]. apply nth_error_Some. congruence.
        -- rewrite nth_error_app2 in X by exact L. destruct (i - length l)%nat as [|[|]]; [injection X as <-; congruence|discriminate X|discriminate X].
Qed.
Lemma nth_error_firstn_lt {A} n : forall (l : list A) i, (i < n)%nat -> nth_error (firstn n l) i = nth_error l i.
Proof. induction n as [|n IH]; intros [|x l] [|i] L; try lia; cbn; try reflexivity. apply IH. lia. Qed.
Lemma item_spec lines h k v : proper_header lines -> read_header 6 lines [] = Ok h -> (item h k = Ok v <-> header_value lines k v).
Proof.
  intros P R. destruct (read_header_spec 6 lines []) as [[_ E]|[N _]]; [|contradiction]. assert (EH : h = rev (map pair_of (firstn 6 lines)) ++ []) by congruence. subst h. clear R E. rewrite app_nil_r.
  set (ps := map pair_of (firstn 6 lines)).
  assert (PS : forall i q, nth_error ps i = Some q <-> (i < 6)%nat /\ exists l, nth_error lines i = Some l /\ pair_of l = q).
  { intros i q. unfold ps. rewrite nth_error_map. destruct (Nat.lt_ge_cases i 6) as [L|L].
    - rewrite nth_error_firstn_lt by exact L. destruct (nth_error lines i) as [l|]; cbn [option_map].
      + split; [intros [= <-]; eauto|intros (_ & l' & [= <-] & <-); reflexivity].
      + split; [discriminate|intros (_ & l' & X & _); discriminate X].
    - replace (nth_error (firstn 6 lines) i) with (@None string). 2:{ symmetry. apply nth_error_None. pose proof (firstn_le_length 6 lines). lia. }
      cbn. split; [discriminate|lia]. }
  assert (PO : forall i l k v, (i < 6)%nat -> nth_error lines i = Some l -> (pair_of l = (k, v) <-> says l k v)).
  { intros i l k' v' L X. destruct (P i l L X) as (k0 & v0 & S). rewrite says_split. apply says_split in S. destruct S as (rest & S). unfold pair_of. rewrite S.
    split; [intros [= <- <-]; eauto|intros (rest' & [= <- <- _]); reflexivity]. }
  unfold item. split.
  - destruct (find (fun p => String.eqb (fst p) k) (rev ps)) as [[k0 v0]|] eqn:F; [|discriminate]. intros [= <-]. apply find_rev in F. destruct F as (i & X & FK & H). cbn [fst snd] in *.
    apply String.eqb_eq in FK. subst k0. apply PS in X. destruct X as (L & l & X & Q). exists i, l. split; [exact L|]. split; [exact X|]. split; [apply (PO i); assumption|].
    intros j l' v' [J1 J2] Y S. assert (Q' : pair_of l' = (k, v')) by (apply (PO j); assumption).
    specialize (H j (k, v') J1 (proj2 (PS j (k, v')) (conj J2 (ex_intro _ l' (conj Y Q'))))). cbn [fst] in H. rewrite String.eqb_refl in H. discriminate H.
  - intros (i & l & L & X & S & H).
    assert (F : find (fun p => String.eqb (fst p) k) (rev ps) = Some (k, v)).
    { apply find_rev. exists i. split; [apply PS; split; [exact L|]; exists l; split; [exact X|]; apply (PO i); assumption|]. split; [apply String.eqb_refl|].
      intros j [k' v'] J Y. apply PS in Y. destruct Y as (L' & l' & Y & Q). cbn [fst]. destruct (String.eqb_spec k' k) as [->|]; [|reflexivity].
      exfalso. apply (H j l' v'); [lia|exact Y|]. apply (PO j); assumption. }
    rewrite F. reflexivity.
Qed.
Lemma header_reads lines : proper_header lines <-> exists h, read_header 6 lines [] = Ok h.
Proof.
  destruct (read_header_spec 6 lines []) as [[A B]|[A B]].
  - split; [intros _; eauto|intros _; exact A].
  - split; [contradiction|]. intros (h & E). congruence.
Qed.
Lemma proper_or lines : proper_header lines /\ (exists h, read_header 6 lines [] = Ok h) \/ ~ proper_header lines /\ read_header 6 lines [] = Err IndexError.
Proof. destruct (read_header_spec 6 lines []) as [[A B]|[A B]]; [left|right]; split; eauto. Qed.

(** ** The points *)
Lemma points_length xs ys : length (flat_map (fun y : R => map (fun x : R => (x, y)) xs) ys) = (length ys * length xs)%nat.
Proof. induction ys as [|y ys IH]; [reflexivity|]. cbn [flat_map]. rewrite app_length, map_length, IH. reflexivity. Qed.
Lemma points_nth xs : forall ys i j x y, nth_error ys i = Some y -> nth_error xs j = Some x ->
  nth_error (flat_map (fun y : R => map (fun x : R => (x, y)) xs) ys) (i * length xs + j) = Some (x, y).
Proof.
  induction ys as [|y' ys IH]; intros [|i] j x y Y X; try discriminate Y.
  - injection Y as ->. assert (L : (j < length xs)%nat) by (apply nth_error_Some; congruence). cbn [flat_map Nat.mul Nat.add].
    rewrite nth_error_app1 by (rewrite map_length; exact L). rewrite nth_error_map, X. reflexivity.
  - cbn [flat_map]. rewrite nth_error_app2 by (rewrite map_length; cbn [Nat.mul]; lia). rewrite map_length.
    replace (S i * length xs + j - length xs)%nat with (i * length xs + j)%nat by (cbn [Nat.mul]; lia). apply IH; assumption.
Qed.
Lemma nth_error_rev {A} (l : list A) i : (i < length l)%nat -> nth_error (rev l) i = nth_error l (length l - 1 - i).
Proof.
  induction l as [|x l IH]; cbn [length rev]; intros L; [lia|].
  destruct (Nat.eq_dec i (length l)) as [->|N].
  - rewrite nth_error_app2 by (rewrite rev_length; lia). rewrite rev_length, Nat.sub_diag. replace (S (length l) - 1 - length l)%nat with 0%nat by lia. reflexivity.
  - rewrite nth_error_app1 by (rewrite rev_length; lia). rewrite IH by lia. replace (S (length l) - 1 - i)%nat with (S (length l - 1 - i)) by lia. reflexivity.
Qed.
Lemma nth_error_seq0 n i : (i < n)%nat -> nth_error (seq 0 n) i = Some i.
Proof. intros L. rewrite nth_error_nth' with (d := 0%nat) by (rewrite seq_length; exact L). rewrite seq_nth by exact L. reflexivity. Qed.
Lemma centres_ok v u du nx ny :
  cell_centres v u du ny nx (points (mkStats (map (fun a => a + du / 2) (map (fun j => v + du * INR j) (seq 0 nx)))
                                             (map (fun a => a + du / 2) (rev (map (fun i => u + du * INR i) (seq 0 ny)))))).
Proof.
  unfold points. cbn [s_x s_y]. split.
  - rewrite points_length, !map_length, rev_length, map_length, !seq_length. reflexivity.
  - intros i j I J.
    replace (i * nx + j)%nat with (i * length (map (fun a => (a + du / 2)%R) (map (fun j => (v + du * INR j)%R) (seq 0 nx))) + j)%nat
      by (rewrite !map_length, seq_length; reflexivity).
    apply points_nth.
    + rewrite nth_error_map, nth_error_rev by (rewrite map_length, seq_length; exact I). rewrite map_length, seq_length, nth_error_map, nth_error_seq0 by lia.
      cbn [option_map]. f_equal. field.
    + rewrite nth_error_map, nth_error_map, nth_error_seq0 by exact J. cbn [option_map]. f_equal. field.
Qed.

(** ** Weighted values *)
Lemma weighted_linear (values : nat -> rnum) pts tri place a b c :
  (forall k, (k < length pts)%nat -> values k = Some (a + b * fst (nth k pts (0, 0)) + c * snd (nth k pts (0, 0)))) ->
  barycentric pts place tri -> (forall k w, In (k, w) tri -> 0 <= w) ->
  weighted values tri = Some (a + b * fst place + c * snd place).
Proof.
  intros V (R & S & X & Y) P. unfold weighted.
  assert (N : existsb (fun vw => rltb (snd vw) 0) tri = false).
  { apply not_true_is_false. intros E. apply existsb_exists in E. destruct E as ([k w] & I & L). cbn [snd] in L. specialize (P k w I). destruct (rltb_spec w 0); [lra|discriminate L]. }
  rewrite N. clear N P.
  assert (G : forall t, (forall k w, In (k, w) t -> (k < length pts)%nat) ->
    fold_right (fun vw s => rlift2 Rplus (rlift (fun v => v * snd vw) (values (fst vw))) s) (Some 0) t =
    Some (a * fold_right (fun vw s => snd vw + s) 0 t + b * fold_right (fun vw s => snd vw * fst (nth (fst vw) pts (0, 0)) + s) 0 t
          + c * fold_right (fun vw s => snd vw * snd (nth (fst vw) pts (0, 0)) + s) 0 t)).
  { induction t as [|[k w] t IH]; intros H; cbn [fold_right fst snd]; [f_equal; ring|]. rewrite IH by (intros; eapply H; right; eassumption).
    rewrite V by (apply (H k w); left; reflexivity). cbn [rlift option_map rlift2]. f_equal. ring. }
  rewrite G by exact R. rewrite S, X, Y. f_equal. ring.
Qed.
Lemma in_range_spec c data : in_range c data = true <->
  forall i j k w, (i < n_ny c)%nat -> (j < n_nx c)%nat -> In (k, w) (n_tri c i j) -> (k < length data)%nat.
Proof.
  unfold in_range. rewrite all_cells_spec. split.
  - intros H i j k w I J T. specialize (H i j I J). rewrite forallb_forall in H. specialize (H _ T). apply Nat.ltb_lt in H. exact H.
  - intros H i j I J. apply forallb_forall. intros [k w] T. apply Nat.ltb_lt. exact (H i j k w I J T).
Qed.
Lemma fill_full ny nx xs ys (g : grid rnum) : (0 < ny)%nat -> (2 <= nx)%nat -> (forall i j, (i < ny)%nat -> (j < nx)%nat -> g i j <> None) ->
  fill_data ny nx xs ys g = Ok g.
Proof.
  intros NY NX H. unfold fill_data.
  assert (C0 : count nx (fun j => isnan (g 0%nat j)) = 0%nat).
  { unfold count. apply length_zero_iff_nil. destruct (filter _ (seq 0 nx)) as [|j l] eqn:E; [reflexivity|]. exfalso.
    assert (I : In j (filter (fun j => isnan (g 0%nat j)) (seq 0 nx))) by (rewrite E; left; reflexivity). apply filter_In in I. destruct I as [I X]. apply in_seq in I.
    apply (H 0%nat j); [lia|lia|]. destruct (g 0%nat j); [discriminate X|reflexivity]. }
  rewrite C0. cbv zeta. destruct (Nat.eqb_spec ny 0); [lia|]. destruct (Nat.leb_spec nx (0 + 1)); [lia|]. cbn [orb].
  assert (C1 : count ny (fun i => isnan (g i (0 + 1)%nat)) = 0%nat).
  { unfold count. apply length_zero_iff_nil. destruct (filter _ (seq 0 ny)) as [|j l] eqn:E; [reflexivity|]. exfalso.
    assert (I : In j (filter (fun i => isnan (g i (0 + 1)%nat)) (seq 0 ny))) by (rewrite E; left; reflexivity). apply filter_In in I. destruct I as [I X]. apply in_seq in I.
    apply (H j 1%nat); [lia|lia|]. cbn [Nat.add] in X. destruct (g j 1%nat); [discriminate X|reflexivity]. }
  rewrite C1. cbn [Nat.ltb Nat.leb andb].
  replace (all_cells ny nx (fun i j => negb (isnan (g i j)))) with true; [reflexivity|]. symmetry. apply all_cells_spec.
  intros i j I J. specialize (H i j I J). destruct (g i j); [reflexivity|contradiction].
Qed.

(** ** The steps *)
Section Steps.
Context (int : string -> option Z) (float : string -> option R) (triangulate : list (R * R) -> res (R * R -> list (nat * R))).
Lemma run_some c w : forall steps gs e k g, run int float triangulate c (Some w) steps = (gs, e) -> nth_error gs k = Some g ->
  exists f, nth_error steps k = Some f /\ convert_files w (fst f) (snd f) = Ok g.
Proof.
  induction steps as [|f r IH]; intros gs e k g R N; cbn [run] in R.
  - injection R as <- _. destruct k; discriminate N.
  - unfold distribute in R. cbn [bind] in R. destruct (convert_files w (fst f) (snd f)) as [g'|e'] eqn:C; cbn [bind] in R; [|injection R as <- _; destruct k; discriminate N].
    destruct (run int float triangulate c (Some w) r) as [gs' e'] eqn:RR. injection R as <- <-. destruct k as [|k].
    + injection N as <-. exists f. auto.
    + apply (IH gs' e' k g); [reflexivity|exact N].
Qed.
Lemma run_first c f r gs e g0 gs' : run int float triangulate c None (f :: r) = (gs, e) -> gs = g0 :: gs' ->
  exists w, initialize_interp int float triangulate c (fst f) = Ok w /\
    forall k g, nth_error gs k = Some g -> exists f', nth_error (f :: r) k = Some f' /\ convert_files w (fst f') (snd f') = Ok g.
Proof.
  intros R E. cbn [run] in R. unfold distribute in R. destruct (initialize_interp int float triangulate c (fst f)) as [w|e'] eqn:I; cbn [bind] in R.
  2:{ injection R as <- _. discriminate E. }
  exists w. split; [reflexivity|]. destruct (convert_files w (fst f) (snd f)) as [g1|e'] eqn:C; cbn [bind] in R; [|injection R as <- _; discriminate E].
  destruct (run int float triangulate c (Some w) r) as [gs1 e1] eqn:RR. injection R as <- <-. intros [|k] g N.
  - injection N as <-. exists f. auto.
  - exact (run_some c w r gs1 e1 k g RR N).
Qed.
End Steps.
