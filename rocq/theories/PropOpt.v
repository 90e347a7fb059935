(** Property C96: options for vegetation classes and stations. *)
From Coq Require Import Ascii String Reals List Bool ZArith Arith Lia Lra.
From Verif Require Import RNum WinsModel PptModel AlbedoModel AlbedoSpec OptModel OptSpec OptProofs.
Import ListNotations.
Local Open Scope string_scope.

(** ** The albedo *)
(** The tables of the albedo have for each name the value of the last option with the word and this ending. *)
Theorem C96_albedo_table d opts k x :
  says (albedo_table d opts) k x <->
  exists pre n post, opts = (pre ++ (n, x) :: post)%list /\ mentions (d ++ "_") n /\ ends_in n k /\
    forall n' x', In (n', x') post -> mentions (d ++ "_") n' -> ~ ends_in n' k.
Proof.
  assert (NE : d ++ "_" <> "") by (destruct d; discriminate).
  rewrite says_lookup by (rewrite albedo_is; apply build_nodup; constructor). rewrite albedo_is, build_lookup.
  assert (K : forall n, contains (d ++ "_") n = true -> forall k, last (split_us n) "" = k <-> ends_in n k).
  { intros n C k'. apply contains_spec in C; [|exact NE]. apply mentions_more in C. split; [intros <-; now apply last_ends|apply ends_last]. }
  split.
  - intros [(pre & n & post & O & C & L & F)|(L & _)]; [|discriminate L]. exists pre, n, post. split; [exact O|].
    split; [now apply contains_spec|]. split; [now apply K|]. intros n' x' I M X. apply contains_spec in M; [|exact NE]. apply (F n' x' I M). now apply K.
  - intros (pre & n & post & O & M & X & F). left. exists pre, n, post. apply contains_spec in M; [|exact NE]. split; [exact O|]. split; [exact M|].
    split; [now apply K|]. intros n' x' I C L. apply (F n' x' I); [now apply contains_spec|]. now apply K.
Qed.
Print Assumptions C96_albedo_table.

(** If the only options for vegetation are those of the date method, each class has its own. *)
Theorem C96_date opts : section opts ->
  (forall n x, In (n, x) opts -> mentions "veg_" n -> exists k, word k /\ n = "date_method_veg_" ++ k) ->
  (forall k x, word k -> (says (albedo_table "veg" opts) k x <-> In ("date_method_veg_" ++ k, x) opts)) /\
  forall z m, class_value (albedo_table "veg" opts) z m ->
    (exists k, py_int k = Some z /\ In ("date_method_veg_" ++ k, m) opts) \/
    ((forall k x, word k -> In ("date_method_veg_" ++ k, x) opts -> py_int k <> Some z) /\ In ("date_method_veg_default", m) opts).
Proof.
  intros S O.
  assert (ND : NoDup (map fst (albedo_table "veg" opts))) by (rewrite albedo_is; apply build_nodup; constructor).
  assert (A : forall k x, word k -> (says (albedo_table "veg" opts) k x <-> In ("date_method_veg_" ++ k, x) opts)).
  { intros k x W. rewrite C96_albedo_table. split.
    - intros (pre & n & post & -> & M & X & _). destruct (O n x) as (k' & W' & ->); [apply in_elt|exact M|].
      rewrite (ends_of "date_method_veg" k' k W' X). apply in_elt.
    - intros I. destruct (in_split _ _ I) as (pre & post & ->). exists pre, ("date_method_veg_" ++ k), post. split; [reflexivity|].
      split; [exists "date_method_", k; reflexivity|]. split; [split; [exact W|now exists "date_method_veg"]|].
      intros n' x' I' M X. destruct (O n' x') as (k' & W' & ->); [apply in_or_app; right; now right|exact M|].
      assert (k = k') as <- by exact (ends_of "date_method_veg" k' k W' X).
      unfold section in S. rewrite map_app in S. cbn [map fst] in S. apply NoDup_remove_2 in S. apply S, in_or_app. right. now apply (in_map fst) in I'. }
  split; [exact A|]. assert (WK : forall k x, In (k, x) (albedo_table "veg" opts) -> word k /\ In ("date_method_veg_" ++ k, x) opts).
  { intros k x I. assert (X : says (albedo_table "veg" opts) k x) by (split; assumption). pose proof X as X'. rewrite C96_albedo_table in X'.
    destruct X' as (_ & n & _ & _ & _ & (W & _) & _). split; [exact W|]. now apply A. }
  intros z m [(pre & k & post & E & P & _)|(N & pre & post & E & _)].
  - left. exists k. split; [exact P|]. apply WK. rewrite E. apply in_elt.
  - right. split.
    + intros k x W I. apply (N k x). apply A in I; [|exact W]. apply I.
    + apply (WK "default"). rewrite E. apply in_elt.
Qed.
Print Assumptions C96_date.

(** If the only options for litter are those of Hardy's method, each has its own place. *)
Theorem C96_litter opts : section opts ->
  (forall n x, In (n, x) opts -> mentions "litter_" n ->
     n = "hardy2000_litter_albedo" \/ n = "hardy2000_litter_default" \/
     exists k, word k /\ k <> "albedo" /\ k <> "default" /\ n = "hardy2000_litter_veg_" ++ k) ->
  (forall x, says (albedo_table "litter" opts) "albedo" x <-> In ("hardy2000_litter_albedo", x) opts) /\
  (forall x, says (albedo_table "litter" opts) "default" x <-> In ("hardy2000_litter_default", x) opts) /\
  forall k x, word k -> k <> "albedo" -> k <> "default" ->
    (says (albedo_table "litter" opts) k x <-> In ("hardy2000_litter_veg_" ++ k, x) opts).
Proof.
  intros S O. set (name := fun k => if String.eqb k "albedo" then "hardy2000_litter_albedo" else if String.eqb k "default" then "hardy2000_litter_default" else "hardy2000_litter_veg_" ++ k).
  assert (NM : forall k, word k -> ends_in (name k) k /\ mentions "litter_" (name k)).
  { intros k W. unfold name. destruct (String.eqb_spec k "albedo") as [->|]; [split; [split; [exact W|exists "hardy2000_litter"]|exists "hardy2000_", "albedo"]; reflexivity|].
    destruct (String.eqb_spec k "default") as [->|]; [split; [split; [exact W|exists "hardy2000_litter"]|exists "hardy2000_", "default"]; reflexivity|].
    split; [split; [exact W|now exists "hardy2000_litter_veg"]|exists "hardy2000_", ("veg_" ++ k); reflexivity]. }
  assert (ON : forall n x k, In (n, x) opts -> mentions "litter_" n -> ends_in n k -> n = name k).
  { intros n x k I M X. destruct (O n x I M) as [->|[->|(k' & W & N1 & N2 & ->)]]; [apply ends_last in X; cbn in X; subst k; reflexivity|apply ends_last in X; cbn in X; subst k; reflexivity|].
    assert (k = k') as <- by exact (ends_of "hardy2000_litter_veg" k' k W X). unfold name.
    destruct (String.eqb_spec k "albedo"); [contradiction|]. destruct (String.eqb_spec k "default"); [contradiction|reflexivity]. }
  assert (A : forall k x, word k -> (says (albedo_table "litter" opts) k x <-> In (name k, x) opts)).
  { intros k x W. rewrite C96_albedo_table. split.
    - intros (pre & n & post & E & M & X & _). assert (I : In (n, x) opts) by (rewrite E; apply in_elt). now rewrite <- (ON n x k I M X).
    - intros I. destruct (in_split _ _ I) as (pre & post & E). exists pre, (name k), post. destruct (NM k W) as (X & M).
      split; [exact E|]. split; [exact M|]. split; [exact X|]. intros n' x' I' M' X'.
      assert (n' = name k) as -> by (apply (ON n' x'); [rewrite E; apply in_or_app; right; now right|exact M'|exact X']).
      unfold section in S. rewrite E, map_app in S. cbn [map fst] in S. apply NoDup_remove_2 in S. apply S, in_or_app. right. now apply (in_map fst) in I'. }
  split; [intros x; apply A; cbn; repeat split; discriminate|]. split; [intros x; apply A; cbn; repeat split; discriminate|].
  intros k x W N1 N2. rewrite (A k x W). unfold name. destruct (String.eqb_spec k "albedo"); [contradiction|]. destruct (String.eqb_spec k "default"); [contradiction|reflexivity].
Qed.
Print Assumptions C96_litter.

(** With the options of both methods, as in a file with all of them, the date method takes for a class what was
    given last, which can be the rate of litter of the other method. *)
Theorem C96_mixed_refuted pre k y post : word k -> (forall n x, In (n, x) post -> mentions "veg_" n -> ~ ends_in n k) ->
  says (albedo_table "veg" (pre ++ ("hardy2000_litter_veg_" ++ k, y) :: post)) k y.
Proof.
  intros W F. apply C96_albedo_table. exists pre, ("hardy2000_litter_veg_" ++ k), post. split; [reflexivity|].
  split; [exists "hardy2000_litter_", k; reflexivity|]. split; [split; [exact W|now exists "hardy2000_litter_veg"]|exact F].
Qed.
Print Assumptions C96_mixed_refuted.

(** ** The wind *)
Section Wind.
Context {E : Type} (to_float : E -> res R).
Lemma number_entry v x : number to_float v = Ok x <-> exists e, entry v e /\ to_float e = Ok x.
Proof.
  unfold entry. destruct v as [e|[|e l]]; cbn [number]; split.
  - intros H. exists e. auto.
  - intros (e' & [[= ->]|(r & H)] & X); [exact X|discriminate H].
  - discriminate.
  - intros (e' & [H|(r & H)] & X); discriminate H.
  - intros H. exists e. split; [right; now exists l|exact H].
  - intros (e' & [H|(r & [= -> ->])] & X); [discriminate H|exact X].
Qed.

(** If the options for vegetation are "veg_" and a class, each class has its own; they are accepted exactly if all of
    them are numbers. *)
Theorem C96_wind (opts : list (string * value E)) : section opts ->
  (forall n v, In (n, v) opts -> mentions "veg_" n -> exists k, word k /\ n = "veg_" ++ k) ->
  ((exists t, wind_veg to_float opts = Ok t) <->
     forall k v, In ("veg_" ++ k, v) opts -> exists e x, entry v e /\ to_float e = Ok x) /\
  forall t, wind_veg to_float opts = Ok t -> NoDup (map fst t) /\
    forall k x, word k -> (says t k x <-> exists v e, In ("veg_" ++ k, v) opts /\ entry v e /\ to_float e = Ok x).
Proof.
  intros S O. unfold wind_veg. split; [split|].
  - intros (t & H) k v I. apply wind_veg_from_spec in H. destruct H as (H & _). destruct (H _ v I) as (x & X).
    + apply contains_spec; [discriminate|]. exists "", k. reflexivity.
    + apply number_entry in X. destruct X as (e & ? & ?). eauto.
  - intros H. eexists. apply wind_veg_from_spec. split; [|reflexivity]. intros n v I C. apply contains_spec in C; [|discriminate].
    destruct (O n v I C) as (k & _ & ->). destruct (H k v I) as (e & x & ? & ?). exists x. apply number_entry. eauto.
  - intros t H. apply wind_veg_from_spec in H. destruct H as (H & ->).
    assert (ND : NoDup (map fst (build (contains "veg_") (fun n => nth 1 (split_us n) "") (map (fun o => (fst o, val to_float (snd o))) opts) []))) by (apply build_nodup; constructor).
    split; [exact ND|]. intros k x W. rewrite (says_lookup _ _ _ ND), build_lookup.
    assert (K : forall k, word k -> nth 1 (split_us ("veg_" ++ k)) "" = k) by (intros k' W'; cbn [append split_us Ascii.eqb Bool.eqb]; now rewrite split_word).
    assert (V : forall k v, In ("veg_" ++ k, v) opts -> number to_float v = Ok (val to_float v)).
    { intros k' v I. destruct (H _ v I) as (y & Y); [apply contains_spec; [discriminate|]; exists "", k'; reflexivity|]. unfold val. now rewrite Y. }
    split.
    + intros [(pre & n & post & M & C & L & _)|(L & _)]; [|discriminate L]. apply contains_spec in C; [|discriminate].
      assert (I : In (n, x) (map (fun o => (fst o, val to_float (snd o))) opts)) by (rewrite M; apply in_elt). apply in_map_iff in I.
      destruct I as ((n', v) & [= <- <-] & I). destruct (O n' v I C) as (k' & W' & ->). rewrite (K k' W') in L. subst k'.
      pose proof (V k v I) as X. apply number_entry in X. destruct X as (e & ? & ?). eauto.
    + intros (v & e & I & EN & X). left. assert (NX : number to_float v = Ok x) by (apply number_entry; eauto).
      destruct (in_split _ _ I) as (pre & post & ->). exists (map (fun o => (fst o, val to_float (snd o))) pre), ("veg_" ++ k), (map (fun o => (fst o, val to_float (snd o))) post).
      rewrite map_app. cbn [map fst snd]. split; [unfold val; rewrite NX; reflexivity|]. split; [apply contains_spec; [discriminate|]; exists "", k; reflexivity|].
      split; [now apply K|]. intros n' x' I' C' L'. apply in_map_iff in I'. destruct I' as ((n2, v') & [= <- <-] & I'). apply contains_spec in C'; [|discriminate].
      destruct (O n2 v') as (k' & W' & ->); [apply in_or_app; right; now right|exact C'|]. rewrite (K k' W') in L'. subst k'.
      unfold section in S. rewrite map_app in S. cbn [map fst] in S. apply NoDup_remove_2 in S. apply S, in_or_app. right. now apply (in_map fst) in I'.
Qed.

(** The classes of the wind model: every name but the default's must be a number. *)
Theorem C96_classes t : NoDup (map fst t) ->
  ((exists tbl dflt, classes t = Ok (tbl, dflt)) <->
     (forall k x, says t k x -> k <> "default" -> py_int k <> None) /\ exists x, says t "default" x) /\
  forall tbl dflt, classes t = Ok (tbl, dflt) -> says t "default" dflt /\
    forall z x, In (z, x) tbl <-> exists k, k <> "default" /\ says t k x /\ py_int k = Some z.
Proof.
  intros N. unfold classes. set (f := filter (fun p => negb (String.eqb (fst p) "default")) t).
  assert (FI : forall k x, In (k, x) f <-> In (k, x) t /\ k <> "default").
  { intros k x. unfold f. rewrite filter_In. cbn [fst]. destruct (String.eqb_spec k "default"); cbn [negb]; intuition discriminate. }
  split; [split|].
  - intros (tbl & dflt & H). destruct (veg_keys f) as [l|e] eqn:V; cbn [bind] in H; [|discriminate].
    destruct (lookup t "default") as [d|] eqn:L; [|discriminate]. apply veg_keys_spec in V. split; [|exists d; now apply says_lookup].
    intros k x (I & _) K P. assert (F : In (k, x) f) by (apply FI; auto). clear - V F P. induction V as [|p q l l' (A & _) V IH]; [exact F|].
    destruct F as [->|F]; [cbn in A; congruence|auto].
  - intros (H & d & D). apply (says_lookup _ _ _ N) in D. rewrite D.
    assert (X : exists l, veg_keys f = Ok l).
    { assert (P : forall k x, In (k, x) f -> py_int k <> None) by (intros k x I; apply FI in I; destruct I; apply (H k x); [split; assumption|assumption]).
      clear - P. induction f as [|(k, x) f IH]; [eexists; reflexivity|]. cbn [veg_keys]. destruct (py_int k) eqn:E; [|exfalso; apply (P k x); [now left|exact E]].
      destruct IH as (l & ->); [intros k' x' I; apply (P k' x'); now right|]. eexists; reflexivity. }
    destruct X as (l & ->). cbn [bind]. eauto.
  - intros tbl dflt H. destruct (veg_keys f) as [l|e] eqn:V; cbn [bind] in H; [|discriminate].
    destruct (lookup t "default") as [d|] eqn:L; [|discriminate]. injection H as <- <-. apply veg_keys_spec in V. split; [now apply says_lookup|].
    intros z x. assert (G : In (z, x) l <-> exists k, In (k, x) f /\ py_int k = Some z).
    { clear - V. induction V as [|(k, y) (z', y') m m' (A & B) V IH]; [split; [intros []|intros (k & [] & _)]|]. cbn in A, B. subst y'. cbn [In]. rewrite IH. split.
      - intros [[= -> ->]|(k' & I & P)]; eauto.
      - intros (k' & [[= -> ->]|I] & P); [left; congruence|eauto]. }
    rewrite G. split.
    + intros (k & I & P). apply FI in I. exists k. unfold says. tauto.
    + intros (k & K & (I & _) & P). exists k. split; [now apply FI|exact P].
Qed.

(** ** The enhancements of the stations *)
Lemma lower_lowered s : lowered s (lower s).
Proof.
  induction s as [|a s IH]; [exact I|]. cbn [lower lowered]. split; [|split; [|exact IH]]; unfold lower_char.
  - intros H. destruct (Nat.leb_spec 65 (nat_of_ascii a)); [|lia]. destruct (Nat.leb_spec (nat_of_ascii a) 90); [|lia]. cbn [andb]. apply nat_ascii_embedding. lia.
  - intros H. destruct (Nat.leb_spec 65 (nat_of_ascii a)); [|reflexivity]. destruct (Nat.leb_spec (nat_of_ascii a) 90); [lia|reflexivity].
Qed.
(** A column of the table is kept.  Otherwise a station has the value of the option with its name in lower case,
    or else the default. *)
Theorem C96_enhancements (opts : list (string * value E)) names : section opts ->
  (forall l, enhancements to_float (Some l) opts names = Ok l) /\
  (forall l, enhancements to_float None opts names = Ok l -> exists e d, In ("station_default", One e) opts /\ to_float e = Ok d /\
     Forall2 (fun m x => exists n, lowered m n /\
        ((exists v e', In (n, v) opts /\ entry v e' /\ to_float e' = Ok x) \/ (~ In n (map fst opts) /\ x = d))) names l) /\
  ((exists l, enhancements to_float None opts names = Ok l) <->
     (exists e d, In ("station_default", One e) opts /\ to_float e = Ok d) /\
     forall m v, In m names -> In (lower m, v) opts -> exists e x, entry v e /\ to_float e = Ok x).
Proof.
  intros S. split; [reflexivity|]. unfold enhancements. split.
  - intros l H. destruct (option_of opts "station_default") as [v|] eqn:D; [|discriminate]. apply (option_of_in _ _ _ S) in D. destruct v as [e|]; [|discriminate].
    destruct (to_float e) as [d|] eqn:F; cbn [bind] in H; [|discriminate]. exists e, d. split; [exact D|]. split; [exact F|].
    revert l H. induction names as [|m names IH]; intros l H; cbn [each] in H; [injection H as <-; constructor|].
    destruct (match option_of opts (lower m) with Some v => number to_float v | None => Ok d end) as [x|] eqn:X; cbn [bind] in H; [|discriminate].
    destruct (each to_float opts d names) as [l'|]; cbn [bind] in H; [|discriminate]. injection H as <-. constructor; [|now apply IH].
    exists (lower m). split; [apply lower_lowered|]. destruct (option_of opts (lower m)) as [v|] eqn:G.
    + left. apply (option_of_in _ _ _ S) in G. apply number_entry in X. destruct X as (e' & ? & ?). eauto.
    + right. apply option_of_none in G. split; [exact G|congruence].
  - split.
    + intros (l & H). destruct (option_of opts "station_default") as [v|] eqn:D; [|discriminate]. apply (option_of_in _ _ _ S) in D. destruct v as [e|]; [|discriminate].
      destruct (to_float e) as [d|] eqn:F; cbn [bind] in H; [|discriminate]. split; [eauto|].
      revert l H. induction names as [|m names IH]; intros l H m' v I J; [destruct I|]. cbn [each] in H.
      destruct (match option_of opts (lower m) with Some v => number to_float v | None => Ok d end) as [x|] eqn:X; cbn [bind] in H; [|discriminate].
      destruct (each to_float opts d names) as [l'|] eqn:EA; cbn [bind] in H; [|discriminate]. destruct I as [->|I]; [|exact (IH l' eq_refl m' v I J)].
      apply (option_of_in _ _ _ S) in J. rewrite J in X. apply number_entry in X. destruct X as (e' & ? & ?). eauto.
    + intros ((e & d & D & F) & H). apply (option_of_in _ _ _ S) in D. rewrite D, F. cbn [bind].
      induction names as [|m names IH]; cbn [each]; [eauto|]. destruct IH as (l & L); [intros m' v I; apply H; now right|]. rewrite L.
      destruct (option_of opts (lower m)) as [v|] eqn:G; [|cbn [bind]; eauto]. apply (option_of_in _ _ _ S) in G.
      destruct (H m v (or_introl eq_refl) G) as (e' & x & A & B). assert (X : number to_float v = Ok x) by (apply number_entry; eauto). rewrite X. cbn [bind]. eauto.
Qed.
End Wind.
Print Assumptions C96_wind.
Print Assumptions C96_classes.
Print Assumptions C96_enhancements.

(** A station whose name is that of another option of the section gets the value of this option, not the default:
    here the least wind speed. *)
Theorem C96_station_name_refuted : exists opts : list (string * value R), section opts /\
  In ("min", One 0.447%R) opts /\ In ("station_default", One 11.4%R) opts /\ enhancements (@Ok R) None opts ["MIN"; "Tower"] = Ok [0.447%R; 11.4%R].
Proof.
  exists [("min", One 0.447%R); ("station_default", One 11.4%R)]. split; [|cbn; auto].
  unfold section. cbn. repeat constructor; cbn; intuition discriminate.
Qed.
Print Assumptions C96_station_name_refuted.

(** ** Examples: the options of CoreConfig.ini *)
Definition ex_date : list (string * R) :=
  [("decay_power", 0.714%R); ("date_method_veg_default", 0.25%R); ("date_method_veg_41", 0.36%R); ("date_method_veg_42", 0.36%R)].
Definition ex_hardy : list (string * R) :=
  [("hardy2000_litter_albedo", 0.2%R); ("hardy2000_litter_default", 0.003%R); ("hardy2000_litter_veg_41", 0.006%R)].
Lemma ex_names (P : string -> Prop) sub (l : list (string * R)) : sub <> "" ->
  Forall (fun o => contains sub (fst o) = true -> P (fst o)) l -> forall n x, In (n, x) l -> mentions sub n -> P n.
Proof. intros NE F n x I M. rewrite Forall_forall in F. apply (F _ I). now apply contains_spec. Qed.
Example C96_ex_date : section ex_date /\
  (forall n x, In (n, x) ex_date -> mentions "veg_" n -> exists k, word k /\ n = "date_method_veg_" ++ k) /\
  albedo_table "veg" ex_date = [("default", 0.25%R); ("41", 0.36%R); ("42", 0.36%R)].
Proof.
  split; [unfold section; cbn; repeat constructor; cbn; intuition discriminate|]. split; [|reflexivity].
  apply (ex_names (fun n => exists k, word k /\ n = "date_method_veg_" ++ k)); [discriminate|].
  repeat constructor; cbn [fst]; intros H; try discriminate H.
  - exists "default". split; [cbn; repeat split; discriminate|reflexivity].
  - exists "41". split; [cbn; repeat split; discriminate|reflexivity].
  - exists "42". split; [cbn; repeat split; discriminate|reflexivity].
Qed.
Example C96_ex_litter : section ex_hardy /\
  (forall n x, In (n, x) ex_hardy -> mentions "litter_" n ->
     n = "hardy2000_litter_albedo" \/ n = "hardy2000_litter_default" \/
     exists k, word k /\ k <> "albedo" /\ k <> "default" /\ n = "hardy2000_litter_veg_" ++ k) /\
  albedo_table "litter" ex_hardy = [("albedo", 0.2%R); ("default", 0.003%R); ("41", 0.006%R)].
Proof.
  split; [unfold section; cbn; repeat constructor; cbn; intuition discriminate|]. split; [|reflexivity].
  apply (ex_names (fun n => n = "hardy2000_litter_albedo" \/ n = "hardy2000_litter_default" \/
     exists k, word k /\ k <> "albedo" /\ k <> "default" /\ n = "hardy2000_litter_veg_" ++ k)); [discriminate|].
  apply Forall_cons; [intros _; now left|]. apply Forall_cons; [intros _; right; now left|]. apply Forall_cons; [|apply Forall_nil].
  intros _. right. right. exists "41". repeat split; try discriminate.
Qed.
(** both: the decay of class 41 is 0.006 instead of 0.36 *)
Example C96_ex_mixed : says (albedo_table "veg" (ex_date ++ ex_hardy)) "41" 0.006%R /\ section (ex_date ++ ex_hardy).
Proof.
  split; [split; [cbn; auto|]|unfold section]; cbn; repeat constructor; cbn; intuition discriminate.
Qed.
Example C96_ex_wind : let opts := [("veg_default", One 0%R); ("max", One 47%R); ("veg_41", Many [3.3%R]); ("veg_3011", One 3.3%R)] in
  section opts /\ (forall n v, In (n, v) opts -> mentions "veg_" n -> exists k, word k /\ n = "veg_" ++ k) /\
  exists t, wind_veg (@Ok R) opts = Ok t /\ classes t = Ok ([(41%Z, 3.3%R); (3011%Z, 3.3%R)], 0%R).
Proof.
  cbv zeta. split; [unfold section; cbn; repeat constructor; cbn; intuition discriminate|]. split; [|eexists; split; reflexivity].
  intros n v I M. apply contains_spec in M; [|discriminate].
  destruct I as [[= <- <-]|[[= <- <-]|[[= <- <-]|[[= <- <-]|[]]]]]; try discriminate M;
    [exists "default"|exists "41"|exists "3011"]; (split; [cbn; repeat split; discriminate|reflexivity]).
Qed.
