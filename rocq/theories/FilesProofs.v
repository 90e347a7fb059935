From Coq Require Import List Arith Bool ZArith QArith Qabs Qcanon Sorted Lia Lqa.
From Verif Require Import Num SmrfTopo OutputModel OutputSpec OutputProofs NcTimeProofs RunsModel RunsSpec RunsProofs FilesModel FilesSpec.
Import ListNotations.
Local Open Scope nat_scope.

Lemma zeros_shape u : on_topo u (zeros u).
Proof. unfold on_topo, zeros. split; [apply repeat_length|]. intros row H. apply repeat_spec in H. subst. apply repeat_length. Qed.
Lemma zeros_zero u : all_zero u (zeros u).
Proof.
  split; [apply zeros_shape|]. intros row x Hr Hx. unfold zeros in Hr. apply repeat_spec in Hr. subst row. now apply repeat_spec in Hx.
Qed.

(** ** the calls of a variable *)
Lemma calls_skip v u names cs l : (forall c : call grid, In c cs -> c_var c <> v) ->
  forall rest, calls_for v [mkRun u names (cs ++ rest)] l -> calls_for v [mkRun u names rest] l.
Proof.
  induction cs as [|c cs IH]; intros H rest C; [exact C|]. cbn [app] in C. inversion C; subst.
  - apply IH; auto. intros c' Hc. apply H. now right.
  - exfalso. now apply (H c (or_introl eq_refl)).
Qed.
Lemma calls_hit v u names c rest l : c_var c = v -> calls_for v [mkRun u names (c :: rest)] l ->
  exists g l', shown u (c_data c) g /\ l = (c_time c, g) :: l' /\ calls_for v [mkRun u names rest] l'.
Proof. intros E C. inversion C; subst; [contradiction|]. eauto. Qed.
Lemma calls_none v u names l : calls_for v [mkRun u names []] l -> l = [].
Proof. intros C. inversion C; subst. match goal with H : calls_for v [] _ |- _ => inversion H end. reflexivity. Qed.

(** what is written when the variables [vs i] are written at the positions [ps] *)
Definition step_calls {A} (dts : list Z) (vs : nat -> list nat) (value : nat -> nat -> A) (ps : list nat) : list (call A) :=
  flat_map (fun i => map (fun v => mkCall v (value i v) (nth i dts 0%Z)) (vs i)) ps.
Lemma step_calls_const {A} dts vars (value : nat -> nat -> A) ps : all_calls dts vars value ps = step_calls dts (fun _ => vars) value ps.
Proof. reflexivity. Qed.

Lemma calls_match u names dts vs (value : nat -> nat -> grid) v : forall ps l, (forall i, In i ps -> NoDup (vs i)) ->
  calls_for v [mkRun u names (step_calls dts vs value ps)] l ->
  Forall2 (fun i c => fst c = nth i dts 0%Z /\ shown u (value i v) (snd c)) (filter (fun i => mem_nat v (vs i)) ps) l.
Proof.
  induction ps as [|i ps IH]; intros l ND C.
  - cbn in C. apply calls_none in C. subst. constructor.
  - unfold step_calls in C. cbn [flat_map] in C. cbn [filter]. assert (NDi := ND i (or_introl eq_refl)).
    assert (ND' : forall i, In i ps -> NoDup (vs i)) by (intros j Hj; apply ND; now right).
    destruct (mem_natP v (vs i)) as [Hv|Hv].
    + destruct (in_split _ _ Hv) as (pre & post & E). rewrite E in *. apply NoDup_remove_2 in NDi.
      rewrite map_app in C. cbn [map] in C. rewrite <- app_assoc in C. apply calls_skip in C.
      2:{ intros c Hc. apply in_map_iff in Hc. destruct Hc as (w & <- & Hw). cbn. intros ->. apply NDi. apply in_or_app. now left. }
      cbn [app] in C. apply calls_hit in C; [|reflexivity]. destruct C as (g & l' & S & -> & C). cbn [c_data c_time] in *.
      apply calls_skip in C.
      2:{ intros c Hc. apply in_map_iff in Hc. destruct Hc as (w & <- & Hw). cbn. intros ->. apply NDi. apply in_or_app. now right. }
      constructor; [split; [reflexivity|exact S]|]. now apply IH.
    + apply calls_skip in C; [now apply IH|]. intros c Hc. apply in_map_iff in Hc. destruct Hc as (w & <- & Hw). cbn. now intros ->.
Qed.

(** ** distinct dates *)
Lemma first_seen_new {T} (ts : list T) : forall ks l, NoDup (ks ++ ts) -> first_seen ks ts l -> l = ks ++ ts.
Proof.
  induction ts as [|t ts IH]; intros ks l ND F; inversion F; subst.
  - now rewrite app_nil_r.
  - exfalso. apply NoDup_remove_2 in ND. apply ND. apply in_or_app. now left.
  - match goal with H : first_seen (ks ++ [t]) ts l |- _ => apply IH in H; [rewrite <- app_assoc in H; exact H|] end.
    now rewrite <- app_assoc.
Qed.
Lemma last_call_in {T A} (t : T) (l : list (T * A)) d : last_call t l d -> In (t, d) l.
Proof. induction 1; [now left|now right]. Qed.
Lemma pair_unique {T A} (l : list (T * A)) t a b : NoDup (map fst l) -> In (t, a) l -> In (t, b) l -> a = b.
Proof.
  induction l as [|[s c] l IH]; cbn; intros ND Ha Hb; [contradiction|]. inversion ND; subst.
  destruct Ha as [Ha|Ha], Hb as [Hb|Hb].
  - congruence.
  - injection Ha as -> ->. exfalso. apply H1. now apply (in_map fst) in Hb.
  - injection Hb as -> ->. exfalso. apply H1. now apply (in_map fst) in Ha.
  - now apply IH.
Qed.
Lemma records_direct {A} (key : Z -> Qc) (enc : A -> A) l recs : NoDup (map fst l) ->
  one_record_each key enc l (map fst l) recs ->
  Forall2 (fun c r => fst r = key (fst c) /\ snd r = Some (enc (snd c))) l recs.
Proof.
  intros ND. unfold one_record_each. assert (G : forall l' recs, incl l' l ->
    Forall2 (fun t r => fst r = key t /\ exists d, last_call t l d /\ snd r = Some (enc d)) (map fst l') recs ->
    Forall2 (fun c r => fst r = key (fst c) /\ snd r = Some (enc (snd c))) l' recs).
  { induction l' as [|c l' IH]; intros rs I F; inversion F; subst; constructor.
    - destruct H1 as (K & d & L & E). split; [exact K|]. rewrite E. do 2 f_equal. apply last_call_in in L.
      apply (pair_unique l (fst c)); auto. destruct c. apply I. now left.
    - apply IH; auto. intros x Hx. apply I. now right. }
  apply G. apply incl_refl.
Qed.

Lemma sorted_nth dts : StronglySorted Z.lt dts -> forall i j, i < j -> j < length dts -> (nth i dts 0 < nth j dts 0)%Z.
Proof.
  induction 1 as [|a l S IH F]; intros i j Hij Hj; cbn in *; [lia|].
  destruct j as [|j]; [lia|]. destruct i as [|i].
  - rewrite Forall_forall in F. apply F. apply nth_In. lia.
  - apply IH; lia.
Qed.
Lemma sorted_map {A B} (R : A -> A -> Prop) (Q : B -> B -> Prop) (g : A -> B) l :
  StronglySorted R l -> (forall x y, In x l -> In y l -> R x y -> Q (g x) (g y)) -> StronglySorted Q (map g l).
Proof.
  induction 1 as [|a l S IH F]; intros H; cbn; constructor.
  - apply IH. intros x y Hx Hy. apply H; now right.
  - rewrite Forall_forall in *. intros b Hb. apply in_map_iff in Hb. destruct Hb as (x & <- & Hx).
    apply H; [now left|now right|now apply F].
Qed.
Lemma sorted_nodup l : StronglySorted Z.lt l -> NoDup l.
Proof.
  induction 1 as [|a l S IH F]; constructor; auto. intros I. rewrite Forall_forall in F. specialize (F a I). lia.
Qed.
Lemma shown_later m n : (Z.abs m < 60 * 131072)%Z -> (Z.abs n < 60 * 131072)%Z -> (m < n)%Z ->
  (float32 (date2num m) < float32 (date2num n))%Qc.
Proof.
  intros Hm Hn L. pose proof (err_minutes m Hm) as A. pose proof (err_minutes n Hn) as B.
  apply Qabs_Qlt_condition in A. apply Qabs_Qlt_condition in B. unfold Qclt.
  set (a := this (float32 (date2num m))) in *. set (b := this (float32 (date2num n))) in *.
  assert (G : ((m # 60) + (1 # 60) <= (n # 60))%Q) by (unfold Qle, Qplus; cbn [Qnum Qden]; lia).
  lra.
Qed.

(** ** the files *)
Lemma filter_sorted {A} (R : A -> A -> Prop) f l : StronglySorted R l -> StronglySorted R (filter f l).
Proof.
  induction 1 as [|a l S IH F]; [constructor|]. cbn. destruct (f a); [|exact IH]. constructor; [exact IH|].
  rewrite Forall_forall in *. intros x Hx. apply F. now apply filter_In in Hx.
Qed.
Lemma files_of_calls conform u names vs dts (value : nat -> nat -> grid) ps :
  keeps_matching conform -> consistent u -> usable u dts -> StronglySorted lt ps -> (forall i, In i ps -> i < length dts) ->
  (forall i, In i ps -> NoDup (vs i) /\ incl (vs i) names) ->
  (forall i v, In i ps -> In v (vs i) -> on_topo u (value i v)) ->
  let after := execute false conform empty (mkRun u names (step_calls dts vs value ps)) in
  snd after = true /\
  forall v,
    (In v names -> exists f, fst after v = Some f /\ describes u v (n_head f) /\
       increasing (map fst (n_records f)) /\
       Forall2 (fun i r => record_of u (nth i dts 0%Z) (value i v) r) (filter (fun i => mem_nat v (vs i)) ps) (n_records f)) /\
    (~ In v names -> fst after v = None).
Proof.
  intros K CU (SD & BD) SP EP NI SV after.
  set (cs := step_calls dts vs value ps) in *. set (r := mkRun u names cs) in *.
  assert (WF : forall q, In q [r] -> well_formed (length (u_y u)) (length (u_x u)) q).
  { intros q [<-|[]]. split; [reflexivity|]. split; [reflexivity|]. split; [exact CU|]. cbn [r_calls r r_names]. intros c Hc.
    unfold cs, step_calls in Hc. apply in_flat_map in Hc. destruct Hc as (i & Hi & Hc). apply in_map_iff in Hc.
    destruct Hc as (w & <- & Hw). cbn [c_var c_data]. split; [now apply (NI i Hi)|now apply SV]. }
  assert (TI : forall c, In c cs -> In (c_time c) dts).
  { intros c Hc. unfold cs, step_calls in Hc. apply in_flat_map in Hc. destruct Hc as (i & Hi & Hc). apply in_map_iff in Hc.
    destruct Hc as (w & <- & Hw). cbn [c_time]. apply nth_In. now apply EP. }
  assert (HE : history false conform empty [r] = (fst after, [snd after])).
  { cbn [history]. unfold after. destruct (execute false conform empty r). reflexivity. }
  split.
  - destruct (history_ok false conform _ _ [r] K WF empty) as (T & _); [intros w f; discriminate|].
    rewrite HE in T. cbn [snd] in T. inversion T. now symmetry.
  - intros v. split.
    + intros Hv. destruct (several_runs conform _ _ [r] v u K WF) as (_ & h & recs & l & dates & E & D & C & F & R).
      * exists [], r, []. split; [reflexivity|]. split; [intros p []|]. split; [exact Hv|reflexivity].
      * intros q c [<-|[]] Hc _. apply BD. now apply TI.
      * rewrite HE in E. cbn [fst] in E. exists (mkFile h recs). split; [exact E|]. split; [exact D|]. cbn [n_records].
        pose proof (calls_match u names dts vs value v ps l (fun i Hi => proj1 (NI i Hi)) C) as M.
        set (qs := filter (fun i => mem_nat v (vs i)) ps) in *.
        assert (EQ : forall i, In i qs -> i < length dts) by (intros i Hi; apply EP; now apply filter_In in Hi).
        assert (ST : StronglySorted Z.lt (map (fun i => nth i dts 0%Z) qs)).
        { apply (sorted_map lt); [now apply filter_sorted|]. intros x y Hx Hy L. apply sorted_nth; auto. }
        assert (TL : map fst l = map (fun i => nth i dts 0%Z) qs).
        { clearbody qs. clear - M. induction M as [|i c qs l (E & _) M IH]; [reflexivity|]. cbn. now rewrite E, IH. }
        assert (NDL : NoDup (map fst l)) by (rewrite TL; now apply sorted_nodup).
        assert (DE : dates = map fst l) by (apply (first_seen_new (map fst l) []); auto).
        rewrite DE in R. pose proof (records_direct _ _ _ _ NDL R) as Q. split.
        -- assert (KE : map fst recs = map (fun m => float32 (date2num (m - u_start u))) (map fst l)).
           { clear - Q. induction Q as [|c x l recs (E & _) Q IH]; [reflexivity|]. cbn. now rewrite E, IH. }
           rewrite KE, TL. apply (sorted_map Z.lt); [exact ST|].
           assert (B : forall x, In x (map (fun i => nth i dts 0%Z) qs) -> (Z.abs (x - u_start u) < 60 * 131072)%Z).
           { intros x Hx. apply in_map_iff in Hx. destruct Hx as (i & <- & Hi). apply BD. apply nth_In. now apply EQ. }
           intros x y Hx Hy L. apply shown_later; auto. lia.
        -- clearbody qs. clear - M Q. revert recs Q. induction M as [|i c qs l (E & S) M IH]; intros recs Q; inversion Q; subst; constructor.
           ++ destruct H1 as (Q1 & Q2). split; [now rewrite Q1, E|]. exists (snd c). split; [exact S|exact Q2].
           ++ now apply IH.
    + intros N. destruct (history_ok false conform _ _ [r] K WF empty) as (_ & _ & H); [intros w f; discriminate|].
      rewrite HE in H. apply (proj2 (H v)); [reflexivity|]. intros q [<-|[]]. exact N.
Qed.

Lemma filter_all {A} (f : A -> bool) l : (forall x, In x l -> f x = true) -> filter f l = l.
Proof. induction l as [|a l IH]; intros H; [reflexivity|]. cbn. rewrite H by now left. f_equal. apply IH. intros x Hx. apply H. now right. Qed.
Lemma filter_none {A} (f : A -> bool) l : (forall x, In x l -> f x = false) -> filter f l = [].
Proof. induction l as [|a l IH]; intros H; [reflexivity|]. cbn. rewrite H by now left. apply IH. intros x Hx. apply H. now right. Qed.
Lemma zero_unique u z : all_zero u z -> z = zeros u.
Proof.
  intros ((L & S) & Z). unfold zeros. rewrite <- L. clear L.
  induction z as [|row z IH]; [reflexivity|]. cbn [length repeat]. f_equal.
  - rewrite <- (S row (or_introl eq_refl)). assert (Q : forall x, In x row -> x = Some (Q2Qc 0)) by (intros x; apply Z; now left).
    clear - Q. induction row as [|x row IH]; [reflexivity|]. cbn [length repeat]. f_equal; [apply Q; now left|]. apply IH. intros y Hy. apply Q. now right.
  - apply IH; [intros r Hr; apply S; now right|intros r x Hr; apply Z; now right].
Qed.
(** the variables before a new one stay before it *)
Lemma dict_split v : In v output_variables -> forall a b seen, ~ In v a -> ~ In v seen ->
  exists c, variable_dict_of seen (a ++ v :: b) = variable_dict_of seen a ++ v :: c.
Proof.
  intros Ho. induction a as [|w a IH]; intros b seen Na Ns.
  - cbn [app variable_dict_of]. destruct (mem_natP v output_variables) as [_|]; [|contradiction].
    destruct (mem_natP v seen) as [|_]; [contradiction|]. cbn [andb negb app]. eauto.
  - cbn [app variable_dict_of]. destruct (mem_nat w output_variables && negb (mem_nat w seen)).
    + destruct (IH b (w :: seen)) as (c & E); [intros H; apply Na; now right| |].
      * intros [->|H]; [apply Na; now left|contradiction].
      * exists c. now rewrite E.
    + apply IH; [intros H; apply Na; now right|exact Ns].
Qed.

Section Run.
Variable conform : nat -> nat -> grid -> option grid.
Variable u : setup.
Variable requested : list nat.
Variable dts : list Z.
Variable freq : nat.
Variable z : grid.
Hypothesis K : keeps_matching conform.
Hypothesis CU : consistent u.
Hypothesis US : usable u dts.
Hypothesis Hf : 0 < freq.
Hypothesis AZ : all_zero u z.
Let names := create_output_variable_dict requested.

Lemma names_in v : In v names <-> In v requested /\ In v output_variables.
Proof. apply variable_dict_spec. Qed.
Lemma names_nodup : NoDup names.
Proof. apply variable_dict_spec. Qed.

Lemma serial_ok attr ps : multiples_below freq (length dts) ps ->
  (forall i v, In i ps -> In v requested -> In v output_variables ->
     attr i v <> None /\ forall g, attr i v = Some (Some g) -> on_topo u g) ->
  let after := serial_files false conform u requested dts freq attr empty in
  snd after = true /\
  forall v,
    (In v requested /\ In v output_variables -> exists f, fst after v = Some f /\ describes u v (n_head f) /\
       increasing (map fst (n_records f)) /\
       Forall2 (fun i r => record_of u (nth i dts 0%Z) (data_of z (attr i v)) r) ps (n_records f)) /\
    (~ (In v requested /\ In v output_variables) -> fst after v = None).
Proof.
  intros MP AT after. pose proof (zero_unique _ _ AZ) as ->.
  assert (SR : serial_run (zeros u) names dts freq attr =
               (all_calls dts names (fun i v => data_of (zeros u) (attr i v)) ps, true)).
  { apply serial_run_ok; auto; [apply sorted_nodup; apply US|]. intros i v Hi Hv. apply names_in in Hv. now apply AT. }
  unfold after, serial_files. fold names. rewrite SR. cbn [fst snd]. rewrite andb_true_r, step_calls_const.
  destruct (files_of_calls conform u names (fun _ => names) dts (fun i v => data_of (zeros u) (attr i v)) ps K CU US (proj1 MP)) as (T & F).
  { intros i Hi. now apply MP in Hi. }
  { intros i Hi. split; [apply names_nodup|apply incl_refl]. }
  { intros i v Hi Hv. apply names_in in Hv. destruct (AT i v Hi (proj1 Hv) (proj2 Hv)) as (A1 & A2). unfold data_of.
    destruct (attr i v) as [[g|]|]; [now apply A2|apply zeros_shape|congruence]. }
  split; [exact T|]. intros v. destruct (F v) as (F1 & F2). split.
  - intros Hv. apply names_in in Hv. destruct (F1 Hv) as (f & E & D & IN & R). exists f. rewrite filter_all in R; auto.
    intros i _. now destruct (mem_natP v names).
  - intros N. apply F2. intros H. apply N. now apply names_in.
Qed.

Lemma threaded_ok queued value ps : multiples_below freq (length dts) ps ->
  (forall i v g, In i ps -> value i v = Some g -> on_topo u g) ->
  exists after, threaded_files false conform u requested dts freq queued value empty = Some (after, true) /\
  forall v,
    (In v requested /\ In v output_variables -> exists f, after v = Some f /\ describes u v (n_head f) /\
       increasing (map fst (n_records f)) /\
       (queued v = true -> Forall2 (fun i r => record_of u (nth i dts 0%Z) (match value i v with Some g => g | None => z end) r) ps (n_records f)) /\
       (queued v = false -> n_records f = [])) /\
    (~ (In v requested /\ In v output_variables) -> after v = None).
Proof.
  intros MP AT. pose proof (zero_unique _ _ AZ) as ->.
  assert (SR := thread_run_ok (zeros u) names dts freq queued value ps Hf MP). rewrite step_calls_const in SR.
  destruct (files_of_calls conform u names (fun _ => filter queued names) dts
              (fun i v => match value i v with Some g => g | None => zeros u end) ps K CU US (proj1 MP)) as (T & F).
  { intros i Hi. now apply MP in Hi. }
  { intros i Hi. split; [apply NoDup_filter, names_nodup|]. intros v Hv. now apply filter_In in Hv. }
  { intros i v Hi Hv. destruct (value i v) as [g|] eqn:E; [now apply (AT i v)|apply zeros_shape]. }
  unfold threaded_files. fold names. rewrite SR. cbn [option_map fst].
  destruct (execute false conform empty _) as (after, ok). cbn [fst snd] in *. subst ok. exists after. split; [reflexivity|].
  intros v. destruct (F v) as (F1 & F2). split.
  - intros Hv. apply names_in in Hv. destruct (F1 Hv) as (f & E & D & IN & R). exists f. split; [exact E|]. split; [exact D|]. split; [exact IN|].
    split; intros Q.
    + rewrite filter_all in R; [exact R|]. intros i _. destruct (mem_natP v (filter queued names)) as [|N]; [reflexivity|].
      exfalso. apply N. now apply filter_In.
    + rewrite filter_none in R; [now inversion R|]. intros i _. destruct (mem_natP v (filter queued names)) as [H|]; [|reflexivity].
      apply filter_In in H. destruct H as (_ & H). congruence.
  - intros N. apply F2. intros H. apply N. now apply names_in.
Qed.

Lemma missing_ok attr a v b p before : requested = a ++ v :: b -> ~ In v a -> In v output_variables ->
  p < length dts -> (exists k, p = k * freq) -> multiples_below freq p before ->
  (forall i w, In i before -> In w requested -> In w output_variables -> attr i w <> None) ->
  (forall w, In w a -> In w output_variables -> attr p w <> None) -> attr p v = None ->
  (forall i w g, attr i w = Some (Some g) -> on_topo u g) ->
  let after := serial_files false conform u requested dts freq attr empty in
  snd after = false /\
  forall w,
    (In w requested /\ In w output_variables -> exists f, fst after w = Some f /\ describes u w (n_head f) /\
       increasing (map fst (n_records f)) /\
       (In w a -> Forall2 (fun i r => record_of u (nth i dts 0%Z) (data_of z (attr i w)) r) (before ++ [p]) (n_records f)) /\
       (~ In w a -> Forall2 (fun i r => record_of u (nth i dts 0%Z) (data_of z (attr i w)) r) before (n_records f))) /\
    (~ (In w requested /\ In w output_variables) -> fst after w = None).
Proof.
  intros ER Na Ho Hp Hk MB A1 A2 A3 SH after. pose proof (zero_unique _ _ AZ) as ->.
  destruct (dict_split v Ho a b [] Na (fun x => x)) as (c & EN). rewrite <- ER in EN.
  set (pre := variable_dict_of [] a) in *. change (names = pre ++ v :: c) in EN.
  assert (HP : forall w, In w pre <-> In w a /\ In w output_variables) by apply variable_dict_spec.
  assert (SR : serial_run (zeros u) names dts freq attr =
    (step_calls dts (fun i => if i =? p then pre else names) (fun i v => data_of (zeros u) (attr i v)) (before ++ [p]), false)).
  { rewrite EN at 1. rewrite (serial_run_fail (zeros u) pre v c dts freq attr p before); auto.
    - f_equal. unfold step_calls. rewrite flat_map_app. f_equal.
      + rewrite <- EN. assert (B : forall i, In i before -> i <> p) by (intros i Hi; apply MB in Hi; lia).
        clear - B. unfold all_calls. induction before as [|i l IH]; [reflexivity|]. cbn [flat_map].
        rewrite IH by (intros j Hj; apply B; now right). destruct (Nat.eqb_spec i p) as [E|_]; [|reflexivity].
        exfalso. apply (B i); [now left|exact E].
      + unfold all_calls. cbn [flat_map]. now rewrite Nat.eqb_refl.
    - apply sorted_nodup. apply US.
    - intros i w Hi Hw. rewrite <- EN in Hw. apply names_in in Hw. now apply A1.
    - intros w Hw. apply HP in Hw. now apply A2. }
  unfold after, serial_files. fold names. rewrite SR. cbn [fst snd]. rewrite andb_false_r.
  assert (NN := names_nodup).
  destruct (files_of_calls conform u names (fun i => if i =? p then pre else names) dts
              (fun i v => data_of (zeros u) (attr i v)) (before ++ [p]) K CU US) as (_ & F).
  { destruct MB as (SB & EB). assert (B : forall i, In i before -> i < p) by (intros i Hi; now apply EB in Hi).
    clear - SB B. induction SB as [|i l S IH F]; cbn; [repeat constructor|]. constructor.
    - apply IH. intros j Hj. apply B. now right.
    - apply Forall_app. split; [exact F|]. constructor; [|constructor]. apply B. now left. }
  { intros i Hi. apply in_app_or in Hi. destruct Hi as [Hi|[<-|[]]]; [apply MB in Hi; lia|exact Hp]. }
  { intros i _. destruct (i =? p); [|split; [exact NN|apply incl_refl]]. split; [apply variable_dict_of_nodup|].
    rewrite EN. apply incl_appl, incl_refl. }
  { intros i w Hi Hw. unfold data_of. destruct (attr i w) as [[g|]|] eqn:E; [now apply (SH i w)|apply zeros_shape|].
    apply zeros_shape. }
  split; [reflexivity|]. intros w. destruct (F w) as (F1 & F2). split.
  - intros Hw. apply names_in in Hw. destruct (F1 Hw) as (f & E & D & IN & R). exists f. split; [exact E|]. split; [exact D|]. split; [exact IN|].
    rewrite filter_app in R. rewrite (filter_all _ before) in R.
    2:{ intros i Hi. apply MB in Hi. destruct (Nat.eqb_spec i p) as [->|_]; [lia|]. now destruct (mem_natP w names). }
    cbn [filter] in R. rewrite Nat.eqb_refl in R. apply names_in in Hw. split; intros Q.
    + destruct (mem_natP w pre) as [_|N]; [exact R|]. exfalso. apply N, HP. tauto.
    + destruct (mem_natP w pre) as [H|_]; [|now rewrite app_nil_r in R]. apply HP in H. tauto.
  - intros N. apply F2. intros H. apply N. now apply names_in.
Qed.
End Run.
