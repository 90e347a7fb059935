(** Proofs for the start of a run *)
From Coq Require Import Ascii String.
From Coq Require Import List ZArith Bool Lia Arith.
From Verif Require Import WinsModel LoadModel LoadSpec LoadProofs BackupModel BackupProofs StartModel StartSpec.
Import ListNotations.
Local Open Scope Z_scope.

Lemma has_dot_append a b : has_dot (append a b) = has_dot a || has_dot b.
Proof. induction a as [|c r IH]; cbn [append has_dot]; [reflexivity|]. rewrite IH. apply orb_assoc. Qed.
Lemma last_part_spec x : has_dot x = false ->
  forall f, last_part f = x <-> (has_dot f = false /\ f = x) \/ exists a, f = append a (String dot x).
Proof.
  intros HX. induction f as [|c r IH]; cbn [last_part].
  - split; [intros <-; left; auto|]. intros [[_ <-]|[a E]]; [reflexivity|]. destruct a; discriminate.
  - destruct (has_dot r) eqn:D.
    + rewrite IH. split.
      * intros [[D' _]|[a ->]]; [congruence|]. right. exists (String c a). reflexivity.
      * intros [[D' _]|[a E]]; [cbn [has_dot] in D'; rewrite D, orb_true_r in D'; discriminate|].
        destruct a as [|c' a]; cbn [append] in E; injection E as -> ->; [congruence|]. right. exists a. reflexivity.
    + destruct (Ascii.eqb_spec c dot) as [->|N].
      * split.
        -- intros ->. right. exists EmptyString. reflexivity.
        -- intros [[D' _]|[a E]]; [cbn in D'; discriminate|].
           destruct a as [|c' a]; cbn [append] in E; injection E; [congruence|].
           intros E1 _. rewrite E1 in D. rewrite has_dot_append in D. cbn in D. rewrite orb_true_r in D. discriminate.
      * split.
        -- intros <-. left. cbn [has_dot]. rewrite D. destruct (Ascii.eqb_spec c dot); [contradiction|]. auto.
        -- intros [[_ E]|[a E]]; [exact E|].
           destruct a as [|c' a]; cbn [append] in E; injection E; [intros; contradiction|].
           intros E1 _. rewrite E1 in D. rewrite has_dot_append in D. cbn in D. rewrite orb_true_r in D. discriminate.
Qed.
Lemma is_ini f : String.eqb (last_part f) "ini" = true <-> ini_name f.
Proof.
  rewrite String.eqb_eq, (last_part_spec "ini" eq_refl). unfold ini_name. split.
  - intros [[_ ->]|[a ->]]; [left; reflexivity|right; exists a; reflexivity].
  - intros [->|[a ->]]; [left; auto|right; exists a; reflexivity].
Qed.
Lemma filter_none {A} (p : A -> bool) l : filter p l = [] <-> forall x, In x l -> p x <> true.
Proof.
  induction l as [|a l IH]; cbn [filter In]; [split; [intros _ x []|reflexivity]|].
  destruct (p a) eqn:E; [split; [discriminate|intros H; destruct (H a (or_introl eq_refl) E)]|].
  rewrite IH. split; [intros H x [<-|I]; [congruence|exact (H x I)]|intros H x I; apply H; right; exact I].
Qed.
Lemma filter_one {A} (p : A -> bool) l f : filter p l = [f] <->
  exists l1 l2, l = l1 ++ f :: l2 /\ p f = true /\ forall g, In g (l1 ++ l2) -> p g <> true.
Proof.
  split.
  - induction l as [|a l IH]; cbn [filter]; [discriminate|]. destruct (p a) eqn:E.
    + intros [= -> F]. exists [], l. split; [reflexivity|]. split; [exact E|]. apply filter_none. exact F.
    + intros F. destruct (IH F) as (l1 & l2 & -> & P & N). exists (a :: l1), l2. split; [reflexivity|]. split; [exact P|].
      intros g [<-|I]; [congruence|exact (N g I)].
  - intros (l1 & l2 & -> & P & N). rewrite filter_app. cbn [filter]. rewrite P.
    assert (E1 : filter p l1 = []) by (apply filter_none; intros x I; apply N; apply in_app_iff; auto).
    assert (E2 : filter p l2 = []) by (apply filter_none; intros x I; apply N; apply in_app_iff; auto).
    rewrite E1, E2. reflexivity.
Qed.
Lemma only_ini_filter l f : filter (fun f => String.eqb (last_part f) "ini") l = [f] <-> only_ini l f.
Proof.
  rewrite filter_one. unfold only_ini. split; intros (l1 & l2 & E & P & N); exists l1, l2; (split; [exact E|]);
    (split; [apply is_ini; exact P|]); intros g I; rewrite <- is_ini || rewrite is_ini; exact (N g I) || (intros Q; apply (N g I), is_ini; exact Q).
Qed.

Lemma options_go isdir isfile listdir arg c :
  handle_run_script_options isdir isfile listdir arg = Go c <->
  isfile c = true /\ ((isdir arg = false /\ c = arg) \/ (isdir arg = true /\ exists f, only_ini (listdir arg) f /\ c = join arg f)).
Proof.
  unfold handle_run_script_options, find_configs. cbv zeta. destruct (isdir arg).
  - destruct (filter _ (listdir arg)) as [|f [|g r]] eqn:F; cbn [map].
    + split; [discriminate|]. intros [_ [[X _]|[_ (f & O & _)]]]; [discriminate|]. apply only_ini_filter in O. congruence.
    + destruct (isfile (join arg f)) eqn:I.
      * split.
        -- intros [= <-]. split; [exact I|]. right. split; [reflexivity|]. exists f. split; [apply only_ini_filter; exact F|reflexivity].
        -- intros [_ [[X _]|[_ (f' & O & ->)]]]; [discriminate|]. apply only_ini_filter in O. congruence.
      * split; [discriminate|]. intros [I' [[X _]|[_ (f' & O & ->)]]]; [discriminate|]. apply only_ini_filter in O. congruence.
    + split; [discriminate|]. intros [_ [[X _]|[_ (f' & O & _)]]]; [discriminate|]. apply only_ini_filter in O. congruence.
  - destruct (isfile arg) eqn:I.
    + split; [intros [= <-]; auto|]. intros [_ [[_ ->]|[X _]]]; [reflexivity|discriminate].
    + split; [discriminate|]. intros [I' [[_ ->]|[X _]]]; [congruence|discriminate].
Qed.
Lemma options_stop isdir isfile listdir arg s :
  handle_run_script_options isdir isfile listdir arg = Stop s ->
  (s = Failed (Raised IndexError) <-> isdir arg = true /\ forall f, In f (listdir arg) -> ~ ini_name f) /\
  (s = Failed (Raised IndexError) \/ s = Exit 0).
Proof.
  unfold handle_run_script_options, find_configs. cbv zeta. destruct (isdir arg).
  - destruct (filter _ (listdir arg)) as [|f [|g r]] eqn:F; cbn [map].
    + intros [= <-]. split; [|left; reflexivity]. split; [|reflexivity]. intros _. split; [reflexivity|].
      intros f I N. apply is_ini in N. rewrite filter_none in F. exact (F f I N).
    + assert (X : ~ (true = true /\ forall h, In h (listdir arg) -> ~ ini_name h)).
      { intros [_ N]. assert (I : In f (filter (fun f => String.eqb (last_part f) "ini") (listdir arg))) by (rewrite F; left; reflexivity).
        apply filter_In in I. destruct I as [I P]. apply (N f I), is_ini. exact P. }
      destruct (isfile (join arg f)); [discriminate|]. intros [= <-]. split; [|right; reflexivity]. split; [discriminate|]. intros Y; destruct (X Y).
    + assert (X : ~ (true = true /\ forall h, In h (listdir arg) -> ~ ini_name h)).
      { intros [_ N]. assert (I : In f (filter (fun f => String.eqb (last_part f) "ini") (listdir arg))) by (rewrite F; left; reflexivity).
        apply filter_In in I. destruct I as [I P]. apply (N f I), is_ini. exact P. }
      intros [= <-]. split; [|right; reflexivity]. split; [discriminate|]. intros Y; destruct (X Y).
  - destruct (isfile arg); [discriminate|]. intros [= <-]. split; [|right; reflexivity]. split; [discriminate|]. intros [Y _]; discriminate.
Qed.

(** ** SMRF.__init__ *)
Lemma decay_go c d : decay_dates c = Go d <-> decay_given c d.
Proof.
  unfold decay_dates, decay_given, replace_tzinfo. destruct (s_decay_start c) as [| |a]; [| |destruct (s_decay_end c) as [| |b]].
  - split; [intros [= <-]; left; auto|]. intros [[_ ->]|(a & b & X & _)]; [reflexivity|discriminate].
  - split; [discriminate|]. intros [[X _]|(a & b & X & _)]; discriminate.
  - split; [discriminate|]. intros [[X _]|(a' & b & _ & X & _)]; discriminate.
  - split; [discriminate|]. intros [[X _]|(a' & b & _ & X & _)]; discriminate.
  - split; [intros [= <-]; right; eauto|]. intros [[X _]|(a' & b' & [= <-] & [= <-] & ->)]; [discriminate|reflexivity].
Qed.
Lemma future_test now c start stop :
  ((now <? start) && negb (gridded c)) || ((now <? stop) && negb (gridded c)) = true <-> in_future now c start stop.
Proof.
  unfold in_future, gridded. rewrite orb_true_iff, !andb_true_iff, !Z.ltb_lt. destruct (s_gridded c); cbn [negb]; intuition (try discriminate).
Qed.
Lemma init_go now c b : zone_ok (s_zone c) ->
  (snd (init now c) = Go b <->
   s_errors c = O /\
   exists start stop d, shown_once (s_zone c) (s_start c) start /\ shown_once (s_zone c) (s_end c) stop /\
     decay_given c d /\ ~ in_future now c start stop /\
     b = mkBegun (date_range start stop (s_step c)) d (gridded c) (hrrr_data_timestep c)).
Proof.
  intros Z0. unfold init. destruct (Nat.eqb_spec (s_errors c) 0) as [E|E]; cbn [negb].
  2:{ split; [discriminate|]. intros [X _]. contradiction. }
  destruct (tz_localize (s_zone c) (s_start c)) as [u|e] eqn:E1.
  2:{ split; [discriminate|]. intros (_ & start & stop & d & S1 & _). apply (localize_ok _ _ _ Z0) in S1. congruence. }
  destruct (tz_localize (s_zone c) (s_end c)) as [v|e] eqn:E2.
  2:{ split; [discriminate|]. intros (_ & start & stop & d & _ & S2 & _). apply (localize_ok _ _ _ Z0) in S2. congruence. }
  assert (L1 : forall x, shown_once (s_zone c) (s_start c) x -> x = u) by (intros x X; apply (localize_ok _ _ _ Z0) in X; congruence).
  assert (L2 : forall x, shown_once (s_zone c) (s_end c) x -> x = v) by (intros x X; apply (localize_ok _ _ _ Z0) in X; congruence).
  pose proof (proj1 (localize_ok _ _ _ Z0) E1) as S1. pose proof (proj1 (localize_ok _ _ _ Z0) E2) as S2.
  destruct (decay_dates c) as [d|s] eqn:D.
  2:{ split; [discriminate|]. intros (_ & start & stop & d & _ & _ & G & _). apply decay_go in G. congruence. }
  destruct (_ || _) eqn:F.
  - apply future_test in F. split; [discriminate|]. intros (_ & start & stop & d' & A & B & _ & N & _).
    rewrite (L1 _ A), (L2 _ B) in N. contradiction.
  - cbn [snd]. assert (NF : ~ in_future now c u v) by (rewrite <- future_test, F; discriminate). split.
    + intros [= <-]. split; [exact E|]. exists u, v, d. apply decay_go in D. auto.
    + intros (_ & start & stop & d' & A & B & G & _ & ->). rewrite (L1 _ A), (L2 _ B). apply decay_go in G. congruence.
Qed.
Lemma init_effects now c :
  fst (init now c) = MakeDirs (s_out c) :: (if (s_errors c =? 0)%nat then [WriteConfig (join (s_out c) "config.ini")] else []).
Proof.
  unfold init. destruct (s_errors c =? 0)%nat; cbn [negb]; [|reflexivity].
  destruct (tz_localize _ _); [|reflexivity]. destruct (tz_localize _ _); [|reflexivity].
  destruct (decay_dates c); [|reflexivity]. destruct (_ || _); reflexivity.
Qed.
Lemma init_stop now c s : snd (init now c) = Stop s -> s = Exit 0 /\ s_errors c <> O \/ s_errors c = O /\ exists f, s = Failed f.
Proof.
  unfold init. destruct (Nat.eqb_spec (s_errors c) 0) as [E|E]; cbn [negb]; [|cbn [snd]; intros [= <-]; left; auto].
  intros H. right. split; [exact E|].
  destruct (tz_localize _ (s_start c)); [|injection H as <-; eauto]. destruct (tz_localize _ (s_end c)); [|injection H as <-; eauto].
  destruct (decay_dates c) as [d|s'] eqn:D.
  - destruct (_ || _); [injection H as <-; eauto|discriminate].
  - cbn [snd] in H. injection H as <-. unfold decay_dates in D.
    destruct (s_decay_start c); [discriminate| |]; [injection D as <-; eauto|]. destruct (s_decay_end c); [| |discriminate]; injection D as <-; eauto.
Qed.

(** ** Stages *)
Lemma run_stages_spec does : forall l, 
  (fst (run_stages does l) = l /\ snd (run_stages does l) = Go tt /\ forall s, In s l -> does s = None) \/
  (exists l1 s l2 e, l = l1 ++ s :: l2 /\ fst (run_stages does l) = l1 ++ [s] /\ snd (run_stages does l) = Stop e /\
     does s = Some e /\ forall s', In s' l1 -> does s' = None).
Proof.
  induction l as [|s l IH]; cbn [run_stages]; [left; split; [reflexivity|]; split; [reflexivity|intros s []]|].
  destruct (does s) as [e|] eqn:D.
  - right. exists [], s, l, e. cbn. split; [reflexivity|]. split; [reflexivity|]. split; [reflexivity|]. split; [exact D|intros s' []].
  - destruct (run_stages does l) as [tr o]. cbn [fst snd] in *.
    destruct IH as [(-> & -> & A)|(l1 & s1 & l2 & e & E & E1 & E2 & D1 & A)].
    + left. split; [reflexivity|]. split; [reflexivity|]. intros s' [<-|I]; [exact D|exact (A s' I)].
    + right. exists (s :: l1), s1, l2, e. rewrite E, E1, E2. split; [reflexivity|]. split; [reflexivity|]. split; [reflexivity|].
      split; [exact D1|]. intros s' [<-|I]; [exact D|exact (A s' I)].
Qed.
