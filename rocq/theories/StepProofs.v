(** Proofs about loading HRRR data one time step at a time. *)
From Coq Require Import List ZArith Bool Lia Arith Qcanon.
From Verif Require Import Num DataModel DataSpec DataProofs QueueModel WinsModel StepModel StepSpec.
Import ListNotations.
Local Open Scope Z_scope.

(** ** The cloud factor *)
Lemma col_last (b x : num) : last (ffill None (interpolate [b; x])) None
  = match x with Some _ => x | None => match b with Some _ => b | None => None end end.
Proof.
  destruct x as [v|].
  - apply column_out. apply ln_later, ln_here. intros ? [].
  - destruct b as [w|].
    + apply column_out. apply ln_here. intros y [<-|[]]. reflexivity.
    + reflexivity.
Qed.
Lemma col_one (x : num) : last (ffill None (interpolate [x])) None = x.
Proof.
  destruct x as [v|]; [|reflexivity]. apply column_out. apply ln_here. intros ? [].
Qed.
Lemma cols_one {V} n t (v : V) raw : length raw = n ->
  columns V n [mkRow t v raw] = map (fun x => [x]) raw.
Proof.
  intros <-. unfold columns. cbn [map r_cloud]. induction raw as [|x raw IH]; [reflexivity|].
  cbn [length seq map nth]. f_equal. rewrite <- seq_shift, map_map. exact IH.
Qed.
Lemma check_one before raw : 
  check_cloud_factor before (map (fun x => [x]) raw) = fill before raw.
Proof.
  destruct before as [b|]; unfold check_cloud_factor, fill.
  - revert b. induction raw as [|x raw IH]; intros b.
    + destruct b; reflexivity.
    + destruct b as [|y b]; [reflexivity|]. cbn [map combine fst snd]. f_equal; [|apply IH].
      rewrite col_last. destruct x, y; reflexivity.
  - assert (E : existsb has_nan (map (fun x => [x]) raw) = existsb missing raw).
    { induction raw as [|x raw IH]; [reflexivity|]. cbn [map existsb]. rewrite IH. f_equal.
      destruct x; reflexivity. }
    rewrite E. destruct (existsb missing raw).
    + rewrite !map_map. apply map_ext. intros x. exact (col_one (Some 1%Qc)).
    + rewrite !map_map. induction raw as [|x raw IH]; [reflexivity|]. cbn [map]. f_equal.
      * apply col_one.
      * apply IH. cbn [map existsb] in E. apply orb_false_iff in E. apply E.
Qed.
Lemma fill_length before raw n : (forall b, before = Some b -> length b = n) -> length raw = n ->
  length (fill before raw) = n.
Proof.
  intros Hb Hr. destruct before as [b|]; unfold fill.
  - rewrite map_length, combine_length, (Hb b eq_refl), Hr. lia.
  - destruct (existsb missing raw); [rewrite map_length|]; exact Hr.
Qed.
Lemma complete_existsb raw : complete raw -> existsb missing raw = false.
Proof.
  intros C. destruct (existsb missing raw) eqn:E; [|reflexivity]. apply existsb_exists in E.
  destruct E as ([x|] & Hx & M); [discriminate|]. destruct (C Hx).
Qed.
Lemma fill_complete before raw : (forall b, before = Some b -> length b = length raw) -> complete raw ->
  fill before raw = raw.
Proof.
  intros Hb C. destruct before as [b|]; unfold fill.
  - specialize (Hb b eq_refl). revert b Hb. induction raw as [|x raw IH]; intros b Hb.
    + destruct b; [reflexivity|discriminate].
    + destruct b as [|y b]; [discriminate|]. injection Hb as Hb. cbn [combine map fst snd]. f_equal.
      * destruct x; [reflexivity|]. exfalso. apply C. left; reflexivity.
      * apply IH; [intros Hx; apply C; right; exact Hx|exact Hb].
  - rewrite complete_existsb by exact C. reflexivity.
Qed.
Lemma fill_all_length before raws : length (fill_all before raws) = length raws.
Proof. revert before; induction raws; intros; simpl; [|rewrite IHraws]; reflexivity. Qed.

(** ** One row per date *)
Section One.
Context {V : Type} (archive : Z -> Z -> list (row V)) (n : nat).
Lemma one_cons t dates datas raws : one_row_per_date archive n (t :: dates) datas raws ->
  exists v vs raw rs, datas = v :: vs /\ raws = raw :: rs /\ length raw = n /\
    archive t (t + 20) = [mkRow t v raw] /\ one_row_per_date archive n dates vs rs.
Proof.
  intros (Ld & Lr & Ln & A). destruct datas as [|v vs]; [discriminate|]. destruct raws as [|raw rs]; [discriminate|].
  exists v, vs, raw, rs. repeat split; auto.
  - apply Ln. left; reflexivity.
  - exact (A 0%nat t v raw eq_refl eq_refl eq_refl).
  - intros r Hr. apply Ln. right; exact Hr.
  - intros i t' v' raw' H1 H2 H3. apply (A (S i)); assumption.
Qed.
Lemma load_one mem t v raw : length raw = n -> archive t (t + 20) = [mkRow t v raw] ->
  load_timestep V archive n mem t = Ok (mkLoaded V [(t, v)] (t, fill mem raw)).
Proof.
  intros L E. unfold load_timestep, load, TIME_STEP. rewrite E. rewrite (cols_one n t v raw L).
  rewrite check_one. reflexivity.
Qed.
Lemma slice_in {A} start stop t (a : A) : start <= t <= stop -> slice start stop [(t, a)] = [(t, a)].
Proof.
  intros H. unfold slice. cbn [filter fst].
  destruct (Z.leb_spec start t); [|lia]. destruct (Z.leb_spec t stop); [|lia]. reflexivity.
Qed.

Lemma serial_all start stop : forall dates mem datas raws, one_row_per_date archive n dates datas raws ->
  (forall t, In t dates -> start <= t <= stop) ->
  serial_steps V archive n start stop mem dates = (combine datas (fill_all mem raws), None).
Proof.
  induction dates as [|t dates IH]; intros mem datas raws O W.
  - destruct O as (Ld & Lr & _). destruct datas; [|discriminate]. destruct raws; [|discriminate]. reflexivity.
  - destruct (one_cons _ _ _ _ O) as (v & vs & raw & rs & -> & -> & L & E & O').
    cbn [serial_steps]. rewrite (load_one mem t v raw L E). cbn [l_rows l_cloud snd].
    rewrite !slice_in by (apply W; left; reflexivity). unfold loc. cbn [find fst]. rewrite Z.eqb_refl. cbn [snd].
    rewrite (IH (Some (fill mem raw)) vs rs O') by (intros u Hu; apply W; right; exact Hu).
    reflexivity.
Qed.
Lemma thread_all : forall dates mem datas raws, one_row_per_date archive n dates datas raws ->
  thread_puts V archive n mem dates = combine dates (combine datas (fill_all mem raws)).
Proof.
  induction dates as [|t dates IH]; intros mem datas raws O; [reflexivity|].
  destruct (one_cons _ _ _ _ O) as (v & vs & raw & rs & -> & -> & L & E & O').
  cbn [thread_puts]. rewrite (load_one mem t v raw L E). cbn [l_rows l_cloud snd].
  rewrite (IH (Some (fill mem raw)) vs rs O'). reflexivity.
Qed.
Definition thread_clouds (raws : list (list num)) : list (list num) :=
  match raws with [] => [] | r :: rest => r :: fill_all None rest end.
Lemma thread_clouds_length raws : length (thread_clouds raws) = length raws.
Proof. destruct raws; [reflexivity|]. cbn. rewrite fill_all_length. reflexivity. Qed.
Lemma puts_all start stop dates datas raws : dates <> [] -> one_row_per_date archive n dates datas raws ->
  (forall t, In t dates -> start <= t <= stop) ->
  data_puts V archive n start stop dates = combine dates (combine datas (thread_clouds raws)).
Proof.
  intros Hne O W. destruct dates as [|t dates]; [contradiction|].
  destruct (one_cons _ _ _ _ O) as (v & vs & raw & rs & -> & -> & L & E & O').
  unfold data_puts, first_puts, load, TIME_STEP. cbn [hd tl]. rewrite E. cbn [map r_time r_data r_cloud].
  rewrite slice_in by (apply W; left; reflexivity).
  rewrite (thread_all dates None vs rs O'). reflexivity.
Qed.
End One.

(** ** The queue *)
Lemma update_new {V} (k : Z) (v : V) l : ~ In k (map fst l) -> d_update k v l = l ++ [(k, v)].
Proof.
  induction l as [|[k' v'] l IH]; intros H; [reflexivity|]. cbn [d_update].
  destruct (Z.eqb_spec k k') as [->|N]; [exfalso; apply H; left; reflexivity|].
  rewrite IH by (intros Hk; apply H; right; exact Hk). reflexivity.
Qed.
Lemma puts_items {V} (ps : list (Z * V)) : forall q, maxsize q = 0 ->
  NoDup (map fst (items q) ++ map fst ps) ->
  let q' := fold_left (fun q p => fst (@try_put V q (fst p) (snd p) true false)) ps q in
  maxsize q' = 0 /\ timeout q' = timeout q /\ items q' = items q ++ ps.
Proof.
  induction ps as [|[k v] ps IH]; intros q M N q'.
  - subst q'. cbn. rewrite app_nil_r. auto.
  - assert (E : fst (@try_put V q k v true false) = mkQ (maxsize q) (timeout q) (items q ++ [(k, v)]) (S (tasks q))).
    { unfold try_put. rewrite M. cbn [Z.ltb Z.compare fst]. f_equal. apply update_new.
      intros Hk. cbn [map fst] in N. apply NoDup_remove_2 in N. apply N. apply in_or_app. left; exact Hk. }
    specialize (IH (fst (@try_put V q k v true false))). rewrite E in IH. cbn [maxsize items timeout] in IH.
    subst q'. cbn [fold_left fst snd]. rewrite E.
    destruct (IH M) as (I1 & I2 & I3).
    + rewrite map_app. cbn [map fst]. rewrite <- app_assoc. exact N.
    + repeat split; auto. rewrite I3, <- app_assoc. reflexivity.
Qed.
Lemma find_none_in {V} d (l : list (Z * V)) : ~ In d (map fst l) -> d_find d l = None.
Proof.
  induction l as [|[k v] l IH]; intros N; [reflexivity|]. cbn [d_find].
  destruct (Z.eqb_spec d k) as [->|Nk]; [exfalso; apply N; left; reflexivity|].
  apply IH. intros H; apply N; right; exact H.
Qed.
Lemma find_nth {V} (l : list (Z * V)) : NoDup (map fst l) -> forall i d v,
  nth_error l i = Some (d, v) -> d_find d l = Some v.
Proof.
  induction l as [|[k w] l IH]; intros N i d v H; [destruct i; discriminate|].
  cbn [map fst] in N. inversion N as [|? ? N1 N2]; subst. destruct i as [|i]; cbn [nth_error] in H.
  - injection H as -> ->. cbn [d_find]. rewrite Z.eqb_refl. reflexivity.
  - cbn [d_find]. destruct (Z.eqb_spec d k) as [->|Nk]; [|exact (IH N2 i d v H)].
    exfalso. apply N1. apply in_map_iff. exists (k, v). split; [reflexivity|]. exact (nth_error_In _ _ H).
Qed.
Lemma combine_nth_error {A B} (l : list A) (m : list B) i a b :
  nth_error l i = Some a -> nth_error m i = Some b -> nth_error (combine l m) i = Some (a, b).
Proof.
  revert m i; induction l as [|x l IH]; intros m i H1 H2; [destruct i; discriminate|].
  destruct m as [|y m]; [destruct i; discriminate|]. destruct i as [|i]; cbn in *; [congruence|].
  apply IH; assumption.
Qed.
Lemma nth_error_firstn_lt {A} (l : list A) k i : (i < k)%nat -> nth_error (firstn k l) i = nth_error l i.
Proof.
  revert k i; induction l as [|x l IH]; intros k i H; destruct k; [lia| |lia|].
  - destruct i; reflexivity.
  - cbn. destruct i; [reflexivity|]. cbn. apply IH. lia.
Qed.
Lemma map_fst_combine {A B} (l : list A) (m : list B) : length m = length l -> map fst (combine l m) = l.
Proof.
  revert m; induction l as [|x l IH]; intros m H; [reflexivity|]. destruct m; [discriminate|].
  cbn. f_equal. apply IH. cbn in H. lia.
Qed.
Lemma firstn_not_later {A} (l : list A) k i a : NoDup l -> nth_error l i = Some a -> (k <= i)%nat ->
  ~ In a (firstn k l).
Proof.
  revert k i; induction l as [|x l IH]; intros k i N H L; [destruct i; discriminate|].
  destruct k; [intros []|]. destruct i; [lia|]. cbn in H. inversion N as [|? ? N1 N2]; subst.
  cbn. intros [->|Hin]; [apply N1; exact (nth_error_In _ _ H)|].
  apply (IH k i N2 H); [lia|exact Hin].
Qed.

Lemma NoDup_firstn {A} k (l : list A) : NoDup l -> NoDup (firstn k l).
Proof.
  revert k; induction l as [|x l IH]; intros k N; [rewrite firstn_nil; constructor|].
  destruct k; [constructor|]. inversion N as [|? ? N1 N2]; subst. cbn. constructor; [|apply IH; exact N2].
  intros Hx. apply N1. rewrite <- (firstn_skipn k l). apply in_or_app. left; exact Hx.
Qed.

Section Queue1.
Context {V : Type} (archive : Z -> Z -> list (row V)) (n : nat) (tmo : option Z) (start stop : Z).
Context (dates : list Z) (datas : list V) (raws : list (list num)).
Hypothesis Hne : dates <> [].
Hypothesis ND : NoDup dates.
Hypothesis O : one_row_per_date archive n dates datas raws.
Hypothesis W : forall t, In t dates -> start <= t <= stop.

Let puts := combine dates (combine datas (thread_clouds raws)).
Lemma len_inner : length (combine datas (thread_clouds raws)) = length dates.
Proof. destruct O as (A & B & _). rewrite combine_length, thread_clouds_length. lia. Qed.
Lemma puts_fst : map fst puts = dates.
Proof. apply map_fst_combine. apply len_inner. Qed.
Lemma queue_items k : maxsize (data_queue V archive n tmo start stop dates k) = 0 /\
  timeout (data_queue V archive n tmo start stop dates k) = tmo /\
  items (data_queue V archive n tmo start stop dates k) = firstn k puts.
Proof.
  unfold data_queue. rewrite (puts_all archive n start stop dates datas raws Hne O W). fold puts.
  destruct (puts_items (firstn k puts) (q_new 0 tmo) eq_refl) as (A & B & C).
  - cbn [items q_new map app]. rewrite <- firstn_map, puts_fst.
    apply NoDup_firstn; exact ND.
  - split; [exact A|]. split; [exact B|exact C].
Qed.

Lemma get_value k i t v c b tm e : nth_error dates i = Some t -> nth_error datas i = Some v ->
  nth_error (thread_clouds raws) i = Some c -> (i < k)%nat ->
  snd (@try_get (V * list num) (data_queue V archive n tmo start stop dates k) t b tm e) = OVal (v, c).
Proof.
  intros H1 H2 H3 L. destruct (queue_items k) as (A & B & C).
  assert (N : NoDup (map fst (firstn k puts))).
  { rewrite <- firstn_map, puts_fst. apply NoDup_firstn; exact ND. }
  assert (F : d_find t (firstn k puts) = Some (v, c)).
  { apply (find_nth _ N i). rewrite nth_error_firstn_lt by exact L.
    apply combine_nth_error; [exact H1|]. apply combine_nth_error; assumption. }
  unfold try_get. destruct tm; cbn [items]; rewrite C, F; reflexivity.
Qed.
Lemma get_wait k i t tm e : nth_error dates i = Some t -> (k <= i)%nat ->
  snd (@try_get (V * list num) (data_queue V archive n tmo start stop dates k) t true tm e)
  = (match tm with Some _ => if e then OExit else OWaiting
     | None => match tmo with Some _ => if e then OExit else OWaiting | None => OWaiting end end).
Proof.
  intros H1 L. destruct (queue_items k) as (A & B & C).
  assert (F : d_find t (firstn k puts) = None).
  { apply find_none_in. rewrite <- firstn_map, puts_fst. exact (firstn_not_later dates k i t ND H1 L). }
  unfold try_get. destruct tm; cbn [items timeout]; rewrite C, F; cbn [negb].
  - destruct e; reflexivity.
  - rewrite B. destruct tmo; [destruct e|]; reflexivity.
Qed.
End Queue1.

(** ** When the two runs agree *)
Lemma fill_all_nth_len raws n : (forall r, In r raws -> length r = n) -> forall before i c,
  (forall b, before = Some b -> length b = n) ->
  nth_error (fill_all before raws) i = Some c -> length c = n.
Proof.
  induction raws as [|r raws IH]; intros L before i c Hb H; [destruct i; discriminate|].
  assert (Lf : length (fill before r) = n).
  { apply fill_length; [exact Hb|]. apply L. left; reflexivity. }
  destruct i as [|i]; cbn in H.
  - injection H as <-. exact Lf.
  - apply (IH (fun r' H' => L r' (or_intror H')) (Some (fill before r)) i c); [|exact H].
    intros b [= <-]. exact Lf.
Qed.
Lemma fill_all_agree raws n : (forall r, In r raws -> length r = n) -> forall b1 b2 m raw i,
  (forall b, b1 = Some b -> length b = n) -> (forall b, b2 = Some b -> length b = n) ->
  nth_error raws m = Some raw -> complete raw -> (m <= i)%nat ->
  nth_error (fill_all b1 raws) i = nth_error (fill_all b2 raws) i.
Proof.
  induction raws as [|r raws IH]; intros L b1 b2 m raw i H1 H2 Hm C Hi; [destruct m; discriminate|].
  assert (Lr : length r = n) by (apply L; left; reflexivity).
  destruct m as [|m]; cbn in Hm.
  - injection Hm as ->. cbn [fill_all].
    assert (E1 : fill b1 raw = raw) by (apply fill_complete; [intros b Hb; rewrite Lr; auto|exact C]).
    assert (E2 : fill b2 raw = raw) by (apply fill_complete; [intros b Hb; rewrite Lr; auto|exact C]).
    rewrite E1, E2. reflexivity.
  - destruct i as [|i]; [lia|]. cbn [fill_all nth_error].
    apply (IH (fun r' H' => L r' (or_intror H')) (Some (fill b1 r)) (Some (fill b2 r)) m raw i).
    + intros b [= <-]. apply fill_length; assumption.
    + intros b [= <-]. apply fill_length; assumption.
    + exact Hm.
    + exact C.
    + lia.
Qed.
Lemma clouds_agree raws n i : (forall r, In r raws -> length r = n) ->
  (i = 0%nat /\ (forall raw, nth_error raws 0 = Some raw -> complete raw)) \/
  (exists m raw, (1 <= m <= i)%nat /\ nth_error raws m = Some raw /\ complete raw) ->
  nth_error (fill_all None raws) i = nth_error (thread_clouds raws) i.
Proof.
  intros L [(-> & C)|(m & raw & Hm & E & C)]; (destruct raws as [|r rest]; [reflexivity|]).
  - cbn. specialize (C r eq_refl). rewrite complete_existsb by exact C. reflexivity.
  - destruct m as [|m]; [lia|]. destruct i as [|i]; [lia|]. cbn [fill_all thread_clouds nth_error] in *.
    apply (fill_all_agree rest n (fun r' H' => L r' (or_intror H')) _ _ m raw i); auto.
    + intros b [= <-]. change (length (fill None r) = n). apply fill_length; [discriminate|apply L; left; reflexivity].
    + discriminate.
    + lia.
Qed.
Lemma fill_all_complete raws n before : (forall r, In r raws -> length r = n) ->
  (forall b, before = Some b -> length b = n /\ complete b) ->
  forall i c, nth_error (fill_all before raws) i = Some c -> complete c.
Proof.
  intros L; revert before. induction raws as [|r raws IH]; intros before Hb i c H; [destruct i; discriminate|].
  assert (Lr : length r = n) by (apply L; left; reflexivity).
  assert (Cf : complete (fill before r)).
  { unfold fill, complete. destruct before as [b|].
    - destruct (Hb b eq_refl) as [Lb Cb]. intros Hin. apply in_map_iff in Hin.
      destruct Hin as ([x y] & E & Hin). cbn [fst snd] in E. destruct y; [discriminate|]. subst x.
      apply Cb. exact (in_combine_l _ _ _ _ Hin).
    - destruct (existsb missing r) eqn:E.
      + intros Hin. apply in_map_iff in Hin. destruct Hin as (? & ? & _). discriminate.
      + intros Hin. assert (existsb missing r = true) by (apply existsb_exists; exists None; auto). congruence. }
  destruct i as [|i]; cbn in H.
  - injection H as <-. exact Cf.
  - apply (IH (fun r' H' => L r' (or_intror H')) (Some (fill before r))) with i; [|exact H].
    intros b [= <-]. split; [|exact Cf]. apply fill_length; [|exact Lr]. intros b Eb. exact (proj1 (Hb b Eb)).
Qed.
