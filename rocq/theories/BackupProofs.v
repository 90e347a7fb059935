(** Proofs for the backup of a run's input *)
From Coq Require Import Ascii String.
From Coq Require Import List ZArith Bool Lia Arith QArith Qcanon.
From Verif Require Import Num WinsModel StepModel LoadModel LoadSpec LoadProofs BackupModel BackupSpec.
Import ListNotations.
Local Open Scope Z_scope.

(** ** Dictionaries *)
Lemma dget_dset {V} k (v : V) d : dget k (dset k v d) = Some v.
Proof.
  induction d as [|[k' v'] r IH]; cbn [dset dget]; [rewrite String.eqb_refl; reflexivity|].
  destruct (String.eqb k k') eqn:E; cbn [dget]; rewrite E; [reflexivity|exact IH].
Qed.
Lemma dget_dset_other {V} k k' (v : V) d : k <> k' -> dget k (dset k' v d) = dget k d.
Proof.
  intros N. induction d as [|[k2 v2] r IH]; cbn [dset dget].
  - destruct (String.eqb_spec k k'); [contradiction|reflexivity].
  - destruct (String.eqb_spec k' k2) as [E|E]; cbn [dget]; destruct (String.eqb_spec k k2) as [E2|E2]; congruence.
Qed.
Lemma dget_ddel_other {V} k k' (d : list (string * V)) : k <> k' -> dget k (ddel k' d) = dget k d.
Proof.
  intros N. induction d as [|[k2 v2] r IH]; cbn [ddel dget]; [reflexivity|].
  destruct (String.eqb_spec k' k2) as [E|E]; cbn [dget]; destruct (String.eqb_spec k k2) as [E2|E2]; congruence.
Qed.
Lemma dget_in {V} k (v : V) d : dget k d = Some v -> In (k, v) d.
Proof.
  induction d as [|[k' v'] r IH]; cbn [dget]; [discriminate|].
  destruct (String.eqb_spec k k') as [->|_]; [intros [= ->]; left; reflexivity|intros H; right; exact (IH H)].
Qed.
Lemma dget_ddel {V} k (d : list (string * V)) : dict d -> dget k (ddel k d) = None.
Proof.
  unfold dict. induction d as [|[k' v'] r IH]; cbn [ddel dget map fst]; intros N; [reflexivity|].
  inversion N as [|? ? N1 N2]; subst. destruct (String.eqb k k') eqn:E; cbn [dget].
  - apply String.eqb_eq in E. subst. destruct (dget k' r) eqn:G; [|reflexivity].
    exfalso. apply N1. apply dget_in in G. apply in_map_iff. exists (k', v). auto.
  - rewrite E. apply IH. exact N2.
Qed.

(** ** Paths *)
Lemma append_inj a b c : append a b = append a c -> b = c.
Proof. induction a; cbn [append]; [auto|]. intros [= H]. auto. Qed.
Lemma ends_append a b : b <> EmptyString -> ends_with_slash (append a b) = ends_with_slash b.
Proof.
  intros N. induction a as [|c r IH]; cbn [append]; [reflexivity|]. rewrite <- IH. cbn [ends_with_slash].
  destruct (append r b) eqn:E; [|reflexivity]. destruct r; cbn [append] in E; [contradiction|discriminate].
Qed.
Lemma append_not_empty a b : b <> EmptyString -> append a b <> EmptyString.
Proof. destruct a; cbn [append]; [auto|discriminate]. Qed.
Lemma backup_dir_form loc : exists a, backup_dir loc = append a "input_backup".
Proof.
  unfold backup_dir. cbn [join]. change (Ascii.eqb "i" slash) with false. cbn match.
  destruct (String.eqb loc "" || ends_with_slash loc); [exists loc; reflexivity|].
  exists (append loc "/"). induction loc as [|c r IH]; cbn [append]; [reflexivity|]. f_equal. exact IH.
Qed.
Lemma join_backup loc n : has_slash n = false -> join (backup_dir loc) n = append (backup_dir loc) (String slash n).
Proof.
  intros N. destruct (backup_dir_form loc) as [a E].
  assert (E1 : ends_with_slash (backup_dir loc) = false) by (rewrite E, ends_append by discriminate; reflexivity).
  assert (E2 : String.eqb (backup_dir loc) "" = false).
  { apply String.eqb_neq. rewrite E. apply append_not_empty. discriminate. }
  unfold join. rewrite E1, E2. cbn [orb]. destruct n as [|c r]; [reflexivity|].
  cbn [has_slash] in N. apply orb_false_iff in N. destruct N as [-> _]. reflexivity.
Qed.
Lemma join_inj loc m n : has_slash m = false -> has_slash n = false ->
  join (backup_dir loc) m = join (backup_dir loc) n -> m = n.
Proof. intros M N. rewrite !join_backup by assumption. intros H. apply append_inj in H. congruence. Qed.
Lemma basename_no_slash s : has_slash (basename s) = false.
Proof.
  induction s as [|c r IH]; [reflexivity|]. cbn [basename]. destruct (Ascii.eqb c slash || has_slash r) eqn:E; [exact IH|].
  cbn [has_slash]. exact E.
Qed.

Lemma csv_var_saved k : In k csv_var <-> saved k.
Proof. unfold saved, saved_variables, csv_var. cbn [In]. intuition congruence. Qed.
Lemma saved_no_slash k : saved k -> has_slash (append k ".csv") = false.
Proof.
  rewrite <- csv_var_saved. unfold csv_var. cbn [In].
  intros [<-|[<-|[<-|[<-|[<-|[<-|[<-|[]]]]]]]]; reflexivity.
Qed.
Lemma saved_csv_inj k k' : saved k -> saved k' -> append k ".csv" = append k' ".csv" -> k = k'.
Proof.
  rewrite <- !csv_var_saved. unfold csv_var. cbn [In].
  intros [<-|[<-|[<-|[<-|[<-|[<-|[<-|[]]]]]]]] [<-|[<-|[<-|[<-|[<-|[<-|[<-|[]]]]]]]]; intros H; try reflexivity; discriminate H.
Qed.
Lemma saved_as_inj loc k k' : saved k -> saved k' -> saved_as loc k = saved_as loc k' -> k = k'.
Proof.
  intros A B H. apply saved_csv_inj; [assumption..|]. apply (join_inj loc); [apply saved_no_slash; assumption..|exact H].
Qed.
Lemma ignore_setting k : existsb (String.eqb k) ignore = true <-> setting k.
Proof.
  unfold ignore, setting. cbn [existsb]. rewrite !orb_true_iff, !String.eqb_eq. intuition congruence.
Qed.

(** ** Writing the tables *)
Lemma fwrite_same p c fs : fwrite p c fs p = Some c.
Proof. unfold fwrite. rewrite String.eqb_refl. reflexivity. Qed.
Lemma fwrite_other p q c fs : q <> p -> fwrite p c fs q = fs q.
Proof. intros N. unfold fwrite. destruct (String.eqb_spec q p); [contradiction|reflexivity]. Qed.

Lemma write_vars_frame z loc l ks : forall fs sec fs' r, (forall k, In k ks -> saved k) ->
  write_vars z (backup_dir loc) l ks fs sec = (fs', r) ->
  (forall p, (forall k, In k ks -> p <> saved_as loc k) -> fs' p = fs p).
Proof.
  induction ks as [|k ks IH]; intros fs sec fs' r K H p P; cbn [write_vars] in H.
  - injection H as <- <-. reflexivity.
  - destruct (attribute z l k) as [t|]; [|injection H as <- <-; reflexivity].
    rewrite (IH _ _ _ _ (fun k' h => K k' (or_intror h)) H p (fun k' h => P k' (or_intror h))).
    apply fwrite_other. apply (P k). left. reflexivity.
Qed.
Lemma write_vars_done z loc l ks : forall fs sec fs' sec', (forall k, In k ks -> saved k) ->
  write_vars z (backup_dir loc) l ks fs sec = (fs', Done sec') ->
  (forall k, In k ks -> exists t, attribute z l k = Some t /\ fs' (saved_as loc k) = Some (Csv t) /\
                                  dget k sec' = Some (VStr (saved_as loc k))) /\
  (forall k, ~ In k ks -> dget k sec' = dget k sec).
Proof.
  induction ks as [|k ks IH]; intros fs sec fs' sec' K H; cbn [write_vars] in H.
  - injection H as <- <-. split; [intros k []|reflexivity].
  - destruct (attribute z l k) as [t|] eqn:A; [|discriminate H].
    pose proof (write_vars_frame z loc l ks _ _ _ _ (fun k' h => K k' (or_intror h)) H) as F.
    destruct (IH _ _ _ _ (fun k' h => K k' (or_intror h)) H) as [I1 I2]. split.
    + intros k0 I0. destruct (in_dec String.string_dec k0 ks) as [I|N]; [exact (I1 k0 I)|].
      destruct I0 as [<-|I0]; [|contradiction]. exists t. split; [exact A|]. split.
      * rewrite F; [apply fwrite_same|]. intros k' I' E. apply N.
        rewrite (saved_as_inj loc k k' (K k (or_introl eq_refl)) (K k' (or_intror I')) E). exact I'.
      * rewrite (I2 k N). apply dget_dset.
    + intros k0 N. rewrite I2 by (intros I; apply N; right; exact I).
      apply dget_dset_other. intros ->. apply N. left. reflexivity.
Qed.
Lemma write_vars_fails z dir l ks : forall fs sec,
  (exists fs' sec', write_vars z dir l ks fs sec = (fs', Done sec')) /\ (forall k, In k ks -> attribute z l k <> None) \/
  (exists fs', write_vars z dir l ks fs sec = (fs', Fail NoAttribute)) /\ (exists k, In k ks /\ attribute z l k = None).
Proof.
  induction ks as [|k ks IH]; intros fs sec; cbn [write_vars].
  - left. split; [eauto|intros k []].
  - destruct (attribute z l k) as [t|] eqn:A.
    + destruct (IH (fwrite (join dir (append k ".csv")) (Csv t) fs) (dset k (VStr (join dir (append k ".csv"))) sec))
        as [[E F]|[E (k' & I & F)]].
      * left. split; [exact E|]. intros k' [<-|I]; [congruence|exact (F k' I)].
      * right. split; [exact E|]. exists k'. split; [right; exact I|exact F].
    + right. split; [eauto|]. exists k. split; [left; reflexivity|exact A].
Qed.

(** ** Copying the topography *)
Definition named (sec : section) (k src : string) : Prop :=
  ~ setting k /\ (dget k sec = Some (VStr src) \/ dget k sec = Some (VList [src])).
Lemma named_unlist sec k src : option_map unlist (dget k sec) = Some (VStr src) ->
  dget k sec = Some (VStr src) \/ dget k sec = Some (VList [src]).
Proof.
  destruct (dget k sec) as [[| | | |[|s [|]]]|]; cbn [option_map unlist]; intros [= <-]; auto.
Qed.
Lemma copy_topo_spec loc ks : forall fs sec fs' r, NoDup ks ->
  copy_topo (backup_dir loc) ks fs sec = (fs', r) ->
  (forall p, (forall k src, In k ks -> named sec k src -> p <> join (backup_dir loc) (basename src)) -> fs' p = fs p) /\
  (forall sec', r = Done sec' ->
     (forall k src, In k ks -> named sec k src -> dget k sec' = Some (VStr (join (backup_dir loc) (basename src)))) /\
     (forall k, ~ In k ks \/ (forall src, ~ named sec k src) -> dget k sec' = dget k sec)).
Proof.
  induction ks as [|k ks IH]; intros fs sec fs' r ND H; cbn [copy_topo] in H.
  - injection H as <- <-. split; [reflexivity|]. intros sec' [= <-]. split; [intros k src []|reflexivity].
  - inversion ND as [|? ? N ND']; subst.
    assert (SKIP : (forall src, ~ named sec k src) -> copy_topo (backup_dir loc) ks fs sec = (fs', r) -> 
      (forall p, (forall k0 src, In k0 (k :: ks) -> named sec k0 src -> p <> join (backup_dir loc) (basename src)) -> fs' p = fs p) /\
      (forall sec', r = Done sec' ->
         (forall k0 src, In k0 (k :: ks) -> named sec k0 src -> dget k0 sec' = Some (VStr (join (backup_dir loc) (basename src)))) /\
         (forall k0, ~ In k0 (k :: ks) \/ (forall src, ~ named sec k0 src) -> dget k0 sec' = dget k0 sec))).
    { intros NN H'. destruct (IH _ _ _ _ ND' H') as [A B]. split.
      - intros p P. apply A. intros k0 src I. apply P. right. exact I.
      - intros sec' E. destruct (B sec' E) as [B1 B2]. split.
        + intros k0 src [<-|I] M; [destruct (NN src M)|exact (B1 k0 src I M)].
        + intros k0 [O|O]; apply B2; [left; intros I; apply O; right; exact I|right; exact O]. }
    destruct (existsb (String.eqb k) ignore) eqn:S.
    { apply SKIP; [|exact H]. intros src [M _]. apply M. apply ignore_setting. exact S. }
    assert (NS : ~ setting k) by (rewrite <- ignore_setting, S; discriminate).
    assert (NU : forall src, named sec k src -> option_map unlist (dget k sec) = Some (VStr src)).
    { intros src [_ [E|E]]; rewrite E; reflexivity. }
    destruct (option_map unlist (dget k sec)) as [[| | |src|]|] eqn:U;
      try (apply SKIP; [intros src M; specialize (NU src M); discriminate NU|exact H]);
      try (injection H as <- <-; split; [reflexivity|intros sec' E; discriminate E]).
    destruct (String.eqb src (join (backup_dir loc) (basename src))).
    { injection H as <- <-. split; [reflexivity|intros sec' E; discriminate E]. }
    destruct (fs src) as [c|].
    2:{ injection H as <- <-. split; [reflexivity|intros sec' E; discriminate E]. }
    set (dst := join (backup_dir loc) (basename src)) in *.
    assert (OTHER : forall k0 s0, k0 <> k -> (named (dset k (VStr dst) sec) k0 s0 <-> named sec k0 s0)).
    { intros k0 s0 D. unfold named. rewrite dget_dset_other by exact D. reflexivity. }
    assert (MS : named sec k src) by (split; [exact NS|apply named_unlist; exact U]).
    assert (NE : forall k0, In k0 ks -> k0 <> k) by (intros k0 I ->; contradiction).
    destruct (IH _ _ _ _ ND' H) as [A B]. split.
    + intros p P. rewrite A.
      * apply fwrite_other. apply (P k src (or_introl eq_refl) MS).
      * intros k0 s0 I M. apply (P k0 s0 (or_intror I)). apply OTHER; [exact (NE k0 I)|exact M].
    + intros sec' E. destruct (B sec' E) as [B1 B2]. split.
      * intros k0 s0 [<-|I] M.
        -- rewrite B2 by (left; exact N). rewrite dget_dset. specialize (NU s0 M). injection NU as ->. reflexivity.
        -- apply B1; [exact I|]. apply OTHER; [exact (NE k0 I)|exact M].
      * intros k0 [O|O].
        -- rewrite B2 by (left; intros I; apply O; right; exact I).
           apply dget_dset_other. intros ->. apply O. left. reflexivity.
        -- assert (D : k0 <> k) by (intros ->; exact (O src MS)).
           rewrite B2; [apply dget_dset_other; exact D|]. right. intros s0 M. apply (O s0). apply OTHER; assumption.
Qed.
(** The content of the copies *)
Lemma copy_topo_content loc ks : forall fs sec fs' sec', NoDup ks ->
  (forall k src k' src', In k ks -> In k' ks -> named sec k src -> named sec k' src' -> basename src = basename src' -> k = k') ->
  (forall k src, In k ks -> named sec k src -> forall k' src', In k' ks -> named sec k' src' -> src <> join (backup_dir loc) (basename src')) ->
  copy_topo (backup_dir loc) ks fs sec = (fs', Done sec') ->
  forall k src, In k ks -> named sec k src -> fs src <> None /\ fs' (join (backup_dir loc) (basename src)) = fs src.
Proof.
  induction ks as [|k ks IH]; intros fs sec fs' sec' ND UN AP H k0 s0 I0 M0; [destruct I0|].
  cbn [copy_topo] in H. inversion ND as [|? ? N ND']; subst.
  assert (NE : forall k0, In k0 ks -> k0 <> k) by (intros k1 I ->; contradiction).
  assert (SKIP : (forall src, ~ named sec k src) -> copy_topo (backup_dir loc) ks fs sec = (fs', Done sec') ->
    fs s0 <> None /\ fs' (join (backup_dir loc) (basename s0)) = fs s0).
  { intros NN H'. destruct I0 as [<-|I0]; [destruct (NN s0 M0)|].
    apply (IH fs sec fs' sec' ND') with (k := k0); auto.
    - intros k1 x k2 y I1 I2. apply UN; right; assumption.
    - intros k1 x I1 M1 k2 y I2. apply (AP k1 x (or_intror I1) M1 k2 y (or_intror I2)). }
  destruct (existsb (String.eqb k) ignore) eqn:S.
  { apply SKIP; [|exact H]. intros src [M _]. apply M. apply ignore_setting. exact S. }
  assert (NS : ~ setting k) by (rewrite <- ignore_setting, S; discriminate).
  assert (NU : forall src, named sec k src -> option_map unlist (dget k sec) = Some (VStr src)).
  { intros src [_ [E|E]]; rewrite E; reflexivity. }
  destruct (option_map unlist (dget k sec)) as [[| | |src|]|] eqn:U;
    try (apply SKIP; [intros src M; specialize (NU src M); discriminate NU|exact H]); try discriminate H.
  destruct (String.eqb src (join (backup_dir loc) (basename src))); [discriminate H|].
  destruct (fs src) as [c|] eqn:FS; [|discriminate H].
  set (dst := join (backup_dir loc) (basename src)) in *.
  assert (OTHER : forall k0 s0, k0 <> k -> (named (dset k (VStr dst) sec) k0 s0 <-> named sec k0 s0)).
  { intros k1 s1 D. unfold named. rewrite dget_dset_other by exact D. reflexivity. }
  assert (MS : named sec k src) by (split; [exact NS|apply named_unlist; exact U]).
  destruct I0 as [<-|I0].
  - specialize (NU s0 M0). injection NU as <-. rewrite FS. split; [discriminate|].
    destruct (copy_topo_spec loc ks _ _ _ _ ND' H) as [A _]. rewrite A; [unfold dst; apply fwrite_same|].
    intros k1 s1 I1 M1 E. apply (OTHER k1 s1 (NE k1 I1)) in M1.
    apply join_inj in E; [|apply basename_no_slash..].
    assert (X : k = k1) by exact (UN k src k1 s1 (or_introl eq_refl) (or_intror I1) MS M1 E).
    subst k1. exact (N I1).
  - assert (FE : fwrite dst c fs s0 = fs s0).
    { apply fwrite_other. exact (AP k0 s0 (or_intror I0) M0 k src (or_introl eq_refl) MS). }
    rewrite <- FE. apply (IH (fwrite dst c fs) (dset k (VStr dst) sec) fs' sec' ND') with (k := k0); auto.
    + intros k1 x k2 y I1 I2 M1 M2. apply OTHER in M1; [|exact (NE k1 I1)]. apply OTHER in M2; [|exact (NE k2 I2)].
      apply UN; [right; assumption..|exact M1|exact M2].
    + intros k1 x I1 M1 k2 y I2 M2. apply OTHER in M1; [|exact (NE k1 I1)]. apply OTHER in M2; [|exact (NE k2 I2)].
      exact (AP k1 x (or_intror I1) M1 k2 y (or_intror I2) M2).
    + apply OTHER; [exact (NE k0 I0)|exact M0].
Qed.

(** ** The whole backup *)
Lemma drop_client_other k cfg : k <> "stations"%string -> dget k (drop_client cfg) = dget k cfg.
Proof. intros N. unfold drop_client. destruct (dget "stations" cfg); [apply dget_dset_other; exact N|reflexivity]. Qed.
Lemma backup_done z l cfg fs fs' cfg' : backup_input z l cfg fs = (fs', Done cfg') ->
  exists out loc fs1 csv' topo fs2 topo',
    dget "output" cfg = Some out /\ dget "out_location" out = Some (VStr loc) /\
    write_vars z (backup_dir loc) l csv_var fs (match dget "csv" cfg with Some s => s | None => [] end) = (fs1, Done csv') /\
    dget "topo" cfg = Some topo /\
    copy_topo (backup_dir loc) (map fst topo) fs1 topo = (fs2, Done topo') /\
    cfg' = dset "output" (dset "input_backup" (VBool false) out) (dset "topo" topo' (dset "csv" csv' (drop_client cfg))) /\
    fs' = fwrite (join (backup_dir loc) "backup_config.ini") (Ini cfg') fs2.
Proof.
  unfold backup_input. cbv zeta. destruct (dget "output" cfg) as [out|] eqn:EO; [|discriminate].
  destruct (dget "out_location" out) as [[| | |loc|]|] eqn:EL; try discriminate.
  fold (backup_dir loc).
  destruct (write_vars z (backup_dir loc) l csv_var fs _) as [fs1 [csv'|f]] eqn:EW; [|discriminate].
  rewrite dget_dset_other by discriminate.
  rewrite drop_client_other by discriminate. destruct (dget "topo" cfg) as [topo|] eqn:ETo; [|discriminate].
  destruct (copy_topo _ _ _ _) as [fs2 [topo'|f]] eqn:EC; [|discriminate].
  intros [= <- <-]. exists out, loc, fs1, csv', topo, fs2, topo'. repeat (split; [first [reflexivity|assumption]|]). reflexivity.
Qed.

Lemma named_topo_file cfg topo k src : dget "topo" cfg = Some topo -> (named topo k src <-> topo_file cfg k src).
Proof. intros E. unfold named, topo_file, cfg_get. rewrite E. reflexivity. Qed.
Lemma named_in topo k src : named topo k src -> In k (map fst topo).
Proof. intros [_ [E|E]]; apply dget_in in E; apply in_map_iff; eexists; split; [|exact E| |exact E]; reflexivity. Qed.

Lemma ini_not_saved loc k : saved k -> saved_as loc k <> join (backup_dir loc) "backup_config.ini".
Proof.
  intros S E. apply join_inj in E; [|apply saved_no_slash; exact S|reflexivity].
  rewrite <- csv_var_saved in S. unfold csv_var in S. cbn [In] in S.
  destruct S as [<-|[<-|[<-|[<-|[<-|[<-|[<-|[]]]]]]]]; discriminate E.
Qed.

(** The saved tables survive the copies *)
Lemma backup_tables z l cfg fs fs' cfg' loc :
  (forall s, dget "topo" cfg = Some s -> dict s) -> topo_apart cfg ->
  backup_input z l cfg fs = (fs', Done cfg') -> cfg_get cfg "output" "out_location" = Some (VStr loc) ->
  forall k, saved k -> exists t, attribute z l k = Some t /\ fs' (saved_as loc k) = Some (Csv t) /\
                                 cfg_get cfg' "csv" k = Some (VStr (saved_as loc k)).
Proof.
  intros DT AP H CL k SK.
  destruct (backup_done _ _ _ _ _ _ H) as (out & loc' & fs1 & csv' & topo & fs2 & topo' & EO & EL & EW & ET & EC & EF & EFS).
  assert (loc' = loc) by (unfold cfg_get in CL; rewrite EO in CL; congruence). subst loc'.
  destruct (write_vars_done z loc l csv_var _ _ _ _ (fun k h => proj1 (csv_var_saved k) h) EW) as [W1 W2].
  destruct (W1 k (proj2 (csv_var_saved k) SK)) as (t & A & F & G). exists t. split; [exact A|]. split.
  - rewrite EFS. rewrite fwrite_other by (apply ini_not_saved; exact SK).
    destruct (copy_topo_spec loc _ _ _ _ _ (DT _ ET) EC) as [C _]. rewrite C; [exact F|].
    intros k0 src I M E. apply join_inj in E; [|apply saved_no_slash; exact SK|apply basename_no_slash].
    apply (named_topo_file cfg topo) in M; [|exact ET]. destruct AP as [AP _].
    destruct (AP k0 src M) as [_ X]. apply (X k SK). symmetry. exact E.
  - unfold cfg_get. rewrite EF. rewrite !dget_dset_other by discriminate. rewrite dget_dset. exact G.
Qed.

Lemma backup_config z l cfg fs fs' cfg' loc :
  (forall s, dget "topo" cfg = Some s -> dict s) -> (forall s, dget "stations" cfg = Some s -> dict s) ->
  backup_input z l cfg fs = (fs', Done cfg') -> cfg_get cfg "output" "out_location" = Some (VStr loc) ->
  fs' (join (backup_dir loc) "backup_config.ini") = Some (Ini cfg') /\
  cfg_get cfg' "output" "input_backup" = Some (VBool false) /\
  cfg_get cfg' "stations" "client" = None /\
  (forall k src, topo_file cfg k src -> cfg_get cfg' "topo" k = Some (VStr (join (backup_dir loc) (basename src)))) /\
  (forall sec k,
     ~ (sec = "csv"%string /\ saved k) -> ~ (sec = "output"%string /\ k = "input_backup"%string) ->
     ~ (sec = "stations"%string /\ k = "client"%string) -> ~ (sec = "topo"%string /\ exists src, topo_file cfg k src) ->
     cfg_get cfg' sec k = cfg_get cfg sec k).
Proof.
  intros DT DS H CL.
  destruct (backup_done _ _ _ _ _ _ H) as (out & loc' & fs1 & csv' & topo & fs2 & topo' & EO & EL & EW & ET & EC & EF & EFS).
  assert (loc' = loc) by (unfold cfg_get in CL; rewrite EO in CL; congruence). subst loc'.
  destruct (write_vars_done z loc l csv_var _ _ _ _ (fun k h => proj1 (csv_var_saved k) h) EW) as [W1 W2].
  destruct (copy_topo_spec loc _ _ _ _ _ (DT _ ET) EC) as [_ C]. destruct (C _ eq_refl) as [C1 C2].
  split; [rewrite EFS; apply fwrite_same|].
  split; [unfold cfg_get; rewrite EF, dget_dset; apply dget_dset|].
  split.
  { unfold cfg_get. rewrite EF. rewrite !dget_dset_other by discriminate.
    unfold drop_client. destruct (dget "stations" cfg) as [s|] eqn:ES.
    - rewrite dget_dset. apply dget_ddel. exact (DS s eq_refl).
    - rewrite ES. reflexivity. }
  split.
  { intros k src M. unfold cfg_get. rewrite EF. rewrite dget_dset_other by discriminate. rewrite dget_dset.
    apply (named_topo_file cfg topo) in M; [|exact ET]. apply C1; [exact (named_in topo k src M)|exact M]. }
  intros sec k N1 N2 N3 N4. unfold cfg_get. rewrite EF.
  destruct (string_dec sec "output") as [->|D1].
  { rewrite dget_dset, EO. apply dget_dset_other. intros ->. apply N2. split; reflexivity. }
  rewrite dget_dset_other by exact D1.
  destruct (string_dec sec "topo") as [->|D2].
  { rewrite dget_dset, ET. apply C2. right. intros src M. apply N4. split; [reflexivity|]. exists src.
    apply (named_topo_file cfg topo); assumption. }
  rewrite dget_dset_other by exact D2.
  destruct (string_dec sec "csv") as [->|D3].
  { rewrite dget_dset. rewrite W2.
    - destruct (dget "csv" cfg); reflexivity.
    - intros I. apply N1. split; [reflexivity|apply csv_var_saved; exact I]. }
  rewrite dget_dset_other by exact D3.
  unfold drop_client. destruct (dget "stations" cfg) as [s|] eqn:ES; [|reflexivity].
  destruct (string_dec sec "stations") as [->|D4].
  { rewrite dget_dset, ES. apply dget_ddel_other. intros ->. apply N3. split; reflexivity. }
  rewrite dget_dset_other by exact D4. reflexivity.
Qed.

Lemma backup_topo z l cfg fs fs' cfg' loc :
  (forall s, dget "topo" cfg = Some s -> dict s) -> topo_apart cfg ->
  (forall k src n, topo_file cfg k src -> src <> join (backup_dir loc) n) ->
  backup_input z l cfg fs = (fs', Done cfg') -> cfg_get cfg "output" "out_location" = Some (VStr loc) ->
  forall k src, topo_file cfg k src ->
    fs src <> None /\ fs' (join (backup_dir loc) (basename src)) = fs src /\ fs' src = fs src.
Proof.
  intros DT AP OUT H CL k src M.
  destruct (backup_done _ _ _ _ _ _ H) as (out & loc' & fs1 & csv' & topo & fs2 & topo' & EO & EL & EW & ET & EC & EF & EFS).
  assert (loc' = loc) by (unfold cfg_get in CL; rewrite EO in CL; congruence). subst loc'.
  assert (F1 : fs1 src = fs src).
  { apply (write_vars_frame z loc l csv_var _ _ _ _ (fun k h => proj1 (csv_var_saved k) h) EW).
    intros k0 _. exact (OUT k src _ M). }
  pose proof (proj2 (named_topo_file cfg topo k src ET) M) as M'.
  assert (U : forall k1 s1 k2 s2, In k1 (map fst topo) -> In k2 (map fst topo) -> named topo k1 s1 -> named topo k2 s2 ->
                basename s1 = basename s2 -> k1 = k2).
  { intros k1 s1 k2 s2 _ _ M1 M2. destruct AP as [_ AP].
    apply (AP k1 s1 k2 s2); apply (named_topo_file cfg topo); assumption. }
  assert (V : forall k1 s1, In k1 (map fst topo) -> named topo k1 s1 -> forall k2 s2, In k2 (map fst topo) -> named topo k2 s2 ->
                s1 <> join (backup_dir loc) (basename s2)).
  { intros k1 s1 _ M1 k2 s2 _ M2. apply (OUT k1 s1). apply (named_topo_file cfg topo); assumption. }
  destruct (copy_topo_content loc _ _ _ _ _ (DT _ ET) U V EC k src (named_in topo k src M') M') as [A B].
  rewrite F1 in A, B. split; [exact A|]. split.
  - rewrite EFS. rewrite fwrite_other; [exact B|]. intros E. apply join_inj in E; [|apply basename_no_slash|reflexivity].
    destruct AP as [AP _]. destruct (AP k src M) as [X _]. contradiction.
  - rewrite EFS. rewrite fwrite_other by exact (OUT k src _ M).
      destruct (copy_topo_spec loc _ _ _ _ _ (DT _ ET) EC) as [C _]. rewrite C; [exact F1|].
      intros k0 s0 _ _. exact (OUT k src _ M).
Qed.

Lemma backup_outside z l cfg fs loc p :
  (forall s, dget "topo" cfg = Some s -> dict s) ->
  cfg_get cfg "output" "out_location" = Some (VStr loc) -> (forall n, p <> join (backup_dir loc) n) ->
  fst (backup_input z l cfg fs) p = fs p.
Proof.
  intros DT CL N. unfold backup_input, cfg_get in *. cbv zeta. destruct (dget "output" cfg) as [out|] eqn:EO; [|discriminate CL].
  rewrite CL. fold (backup_dir loc).
  destruct (write_vars z (backup_dir loc) l csv_var fs _) as [fs1 r1] eqn:EW.
  assert (F1 : fs1 p = fs p).
  { apply (write_vars_frame z loc l csv_var _ _ _ _ (fun k h => proj1 (csv_var_saved k) h) EW). intros k _. apply N. }
  destruct r1 as [csv'|f]; [|exact F1].
  rewrite dget_dset_other by discriminate.
  rewrite drop_client_other by discriminate. destruct (dget "topo" cfg) as [topo|] eqn:ETo; [|exact F1].
  destruct (copy_topo _ _ _ _) as [fs2 r2] eqn:EC.
  assert (F2 : fs2 p = fs1 p).
  { destruct (copy_topo_spec loc _ _ _ _ _ (DT _ eq_refl) EC) as [C _]. apply C. intros k src _ _. apply N. }
  destruct r2; cbn [fst]; [rewrite fwrite_other by apply N|]; congruence.
Qed.

Lemma attribute_none z l k : saved k -> (attribute z l k = None <-> In k saved_variables /\ dget k (l_vars l) = None).
Proof.
  intros S. unfold attribute. destruct (String.eqb_spec k "metadata") as [->|N].
  - split; [discriminate|]. intros [I _]. cbn in I. intuition discriminate.
  - destruct S as [S|S]; [contradiction|]. destruct (dget k (l_vars l)); cbn [option_map]; split; try discriminate; intuition.
    discriminate.
Qed.
Lemma copy_topo_not_attribute dir ks : forall fs sec, snd (copy_topo dir ks fs sec) <> Fail NoAttribute.
Proof.
  induction ks as [|k ks IH]; intros fs sec; cbn [copy_topo]; [discriminate|].
  destruct (existsb _ _); [apply IH|].
  destruct (option_map unlist (dget k sec)) as [[| | |src|]|]; try apply IH; try discriminate.
  destruct (String.eqb _ _); [discriminate|]. destruct (fs src); [apply IH|discriminate].
Qed.
Lemma backup_incomplete z l cfg fs loc :
  cfg_get cfg "output" "out_location" = Some (VStr loc) ->
  (snd (backup_input z l cfg fs) = Fail NoAttribute <-> exists k, In k saved_variables /\ dget k (l_vars l) = None) /\
  (snd (backup_input z l cfg fs) = Fail NoAttribute ->
   fst (backup_input z l cfg fs) (join (backup_dir loc) "backup_config.ini") = fs (join (backup_dir loc) "backup_config.ini")).
Proof.
  intros CL. unfold backup_input, cfg_get in *. cbv zeta. destruct (dget "output" cfg) as [out|] eqn:EO; [|discriminate CL].
  rewrite CL. fold (backup_dir loc).
  set (c0 := match dget "csv" cfg with Some s => s | None => [] end).
  destruct (write_vars_fails z (backup_dir loc) l csv_var fs c0) as [[(fs1 & csv' & EW) A]|[(fs1 & EW) (k & I & A)]]; rewrite EW.
  - match goal with |- context [dget "topo" ?c] => generalize (dget "topo" c) as o end. intros o.
    assert (X : forall r : files * outcome config, snd r <> Fail NoAttribute ->
      (snd r = Fail NoAttribute <-> exists k, In k saved_variables /\ dget k (l_vars l) = None) /\
      (snd r = Fail NoAttribute -> fst r (join (backup_dir loc) "backup_config.ini") = fs (join (backup_dir loc) "backup_config.ini"))).
    { intros r N. split; [|intros H; contradiction]. split; [intros H; contradiction|].
      intros (k & I & G). exfalso. apply (A k).
      - apply csv_var_saved. right. exact I.
      - apply attribute_none; [right; exact I|]. split; assumption. }
    apply X. destruct o as [topo|]; [|discriminate].
    pose proof (copy_topo_not_attribute (backup_dir loc) (map fst topo) fs1 topo) as Q.
    destruct (copy_topo _ _ _ _) as [fs2 [t'|f]]; cbn [snd] in *; [discriminate|].
    intros E. apply Q. congruence.
  - cbn [fst snd]. split.
    + split; [|reflexivity]. intros _. exists k. apply csv_var_saved in I. apply (attribute_none z); assumption.
    + intros _. apply (write_vars_frame z loc l csv_var _ _ _ _ (fun k h => proj1 (csv_var_saved k) h) EW).
      intros k0 I0 E. apply (ini_not_saved loc k0); [apply csv_var_saved; exact I0|symmetry; exact E].
Qed.

(** ** What is in the saved files *)
Lemma in_combine_map_number (s : string) x : forall cols row, In (s, Number x) (combine cols (map Number row)) <-> In (s, x) (combine cols row).
Proof.
  induction cols as [|c cols IH]; intros [|y row]; cbn [combine map In]; try tauto. rewrite IH.
  split; (intros [E|E]; [left; congruence|right; exact E]).
Qed.
Lemma data_text_says z d u s x : text_says (data_to_csv z d) u s x <-> data_says d u s x.
Proof.
  unfold text_says, data_says, data_to_csv. cbn [x_lines x_header tl]. split.
  - intros (w & o & row & I & E & C). apply in_map_iff in I. destruct I as ([u' r] & E' & I). cbn [fst snd] in E'.
    injection E' as <- <- <-. exists r. unfold wall in E. replace u' with u in I by lia. split; [exact I|].
    apply in_combine_map_number. exact C.
  - intros (row & I & C). exists (wall z u), (z_offset z u), (map Number row). split.
    + apply in_map_iff. exists (u, row). auto.
    + split; [unfold wall; lia|]. apply in_combine_map_number. exact C.
Qed.
Lemma meta_text m s cells : In (Text s :: cells) (x_lines (meta_to_csv m)) <-> In (s, cells) (m_rows m).
Proof.
  unfold meta_to_csv. cbn [x_lines]. rewrite in_map_iff. split.
  - intros ([s' c] & E & I). cbn [fst snd] in E. injection E as <- <-. exact I.
  - intros I. exists (s, cells). auto.
Qed.

(** ** Reading the backup *)
Lemma read_backup_fails z z2 st a b d : exists f, read_data z2 st a b (data_to_csv z d) = Fail f.
Proof.
  unfold read_data. destruct (index_of _ _) as [[|p]|]; [|eauto..].
  unfold data_to_csv. cbn [x_lines x_header tl]. destruct (t_rows (d_table d)) as [|r rows]; cbn [map naive]; [|eauto].
  unfold csv_load. cbn. eauto.
Qed.
Lemma read_backup_type z z2 st a b d : d_name d = Some "date_time"%string -> t_rows (d_table d) <> [] ->
  read_data z2 st a b (data_to_csv z d) = Fail (Raised TypeError).
Proof.
  intros N R. unfold read_data, data_to_csv. cbn [x_header x_lines]. rewrite N. cbn [index_label index_of].
  rewrite String.eqb_refl. destruct (t_rows (d_table d)) as [|r rows]; [contradiction|]. reflexivity.
Qed.
Lemma load_vars_get z st a b fs k v : forall sec vs, load_vars z st a b fs sec = Done vs -> dget k sec = Some v ->
  exists t d, open_csv fs v = Done t /\ read_data z st a b t = Done d /\ dget k vs = Some d.
Proof.
  induction sec as [|[k' v'] r IH]; intros vs H G; cbn [dget] in G; [discriminate|]. cbn [load_vars] in H.
  destruct (open_csv fs v') as [t|] eqn:O; [|discriminate]. cbn [and_then] in H.
  destruct (read_data z st a b t) as [d|] eqn:R; [|discriminate]. cbn [and_then] in H.
  destruct (load_vars z st a b fs r) as [ds|] eqn:L; [|discriminate]. injection H as <-. cbn [dget].
  destruct (String.eqb k k'); [injection G as <-; eauto|]. exact (IH ds eq_refl G).
Qed.
Lemma csv_section_get cfg k : k <> "stations"%string -> dget k (csv_section cfg) = cfg_get cfg "csv" k.
Proof.
  intros N. unfold csv_section, cfg_get. destruct (dget "csv" cfg) as [s|]; cbn [dget].
  - destruct (dget "stations" s); [reflexivity|]. apply dget_dset_other. exact N.
  - cbn [dset dget]. destruct (String.eqb_spec k "stations"); [contradiction|reflexivity].
Qed.
Lemma csv_section_stations cfg : exists v, dget "stations" (csv_section cfg) = Some v.
Proof.
  unfold csv_section. set (s := match dget "csv" cfg with Some s => s | None => [] end).
  destruct (dget "stations" s) eqn:E; [eauto|]. rewrite dget_dset. eauto.
Qed.
Lemma replay_fails z l cfg fs fs' cfg' loc z2 a b :
  (forall s, dget "topo" cfg = Some s -> dict s) -> topo_apart cfg ->
  backup_input z l cfg fs = (fs', Done cfg') -> cfg_get cfg "output" "out_location" = Some (VStr loc) ->
  exists f, load_csv z2 a b fs' (csv_section cfg') = Fail f.
Proof.
  intros DT AP H CL.
  destruct (backup_tables z l cfg fs fs' cfg' loc DT AP H CL "air_temp") as (t & A & F & G); [right; left; reflexivity|].
  destruct (load_csv z2 a b fs' (csv_section cfg')) as [l2|f] eqn:L; [exfalso|eauto].
  unfold load_csv in L. destruct (dget "stations" (csv_section cfg')) as [st|]; [|discriminate].
  destruct (dget "metadata" (csv_section cfg')) as [mv|]; [|discriminate].
  destruct (open_csv fs' mv) as [mt|]; [|discriminate]. cbn [and_then] in L.
  destruct (read_meta mt) as [m|]; [|discriminate]. cbn [and_then] in L.
  destruct (load_vars _ _ _ _ _ _) as [vs|] eqn:V; [|discriminate].
  destruct (load_vars_get _ _ _ _ _ "air_temp" (VStr (saved_as loc "air_temp")) _ _ V) as (t2 & d2 & O & R & _).
  { rewrite !dget_ddel_other by discriminate. rewrite csv_section_get by discriminate. exact G. }
  unfold open_csv in O. rewrite F in O. injection O as <-.
  cbn in A. destruct (dget "air_temp" (l_vars l)) as [d|]; [|discriminate]. injection A as <-.
  destruct (read_backup_fails z z2 (station_list st) a b d) as [f E]. congruence.
Qed.

Lemma index_of_none n : forall l, index_of n l = None <-> ~ In n l.
Proof.
  induction l as [|c r IH]; cbn [index_of In]; [tauto|]. destruct (String.eqb_spec n c) as [->|N].
  - split; [discriminate|]. intros H. exfalso. apply H. left. reflexivity.
  - destruct (index_of n r); cbn [option_map]; [split; [discriminate|]|].
    + intros H. exfalso. assert (X : Some n0 = None) by (apply IH; intros I; apply H; right; exact I). discriminate.
    + split; [|reflexivity]. intros _ [E|I]; [congruence|]. exact (proj1 IH eq_refl I).
Qed.
Lemma drop_index n : forall l p, NoDup l -> index_of n l = Some p -> ~ In n (drop p l).
Proof.
  induction l as [|c r IH]; intros p ND; cbn [index_of]; [discriminate|]. inversion ND as [|? ? N1 N2]; subst.
  destruct (String.eqb_spec n c) as [->|N]; [intros [= <-]; exact N1|].
  destruct (index_of n r) as [q|] eqn:E; [|discriminate]. intros [= <-]. cbn [drop In]. intros [X|X]; [congruence|].
  exact (IH q N2 eq_refl X).
Qed.
Lemma read_meta_cols t m : NoDup (x_header t) -> read_meta t = Done m -> m_name m = None /\ ~ In "primary_id"%string (m_cols m).
Proof.
  intros ND. unfold read_meta. destruct (index_of "primary_id" (x_header t)) as [p|] eqn:E; [|discriminate].
  destruct (fold_right _ _ _) as [rows|]; [|discriminate]. cbn [and_then]. intros [= <-]. cbn [m_name m_cols].
  split; [reflexivity|]. exact (drop_index _ _ _ ND E).
Qed.
Lemma set_col_meta_spec c v m : m_name (set_col_meta c v m) = m_name m /\
  forall n, In n (m_cols (set_col_meta c v m)) -> In n (m_cols m) \/ n = c.
Proof.
  unfold set_col_meta. destruct (index_of c (m_cols m)); cbn [m_name m_cols]; split; auto.
  intros n I. apply in_app_iff in I. destruct I as [I|[I|[]]]; auto.
Qed.
Lemma replay_value_error z l cfg fs fs' cfg' loc z2 a b :
  (forall s, dget "topo" cfg = Some s -> dict s) -> topo_apart cfg ->
  backup_input z l cfg fs = (fs', Done cfg') -> cfg_get cfg "output" "out_location" = Some (VStr loc) ->
  m_name (l_meta l) = None -> ~ In "primary_id"%string (m_cols (l_meta l)) ->
  load_csv z2 a b fs' (csv_section cfg') = Fail (Raised ValueError).
Proof.
  intros DT AP H CL MN MC.
  destruct (backup_tables z l cfg fs fs' cfg' loc DT AP H CL "metadata") as (t & A & F & G); [left; reflexivity|].
  cbn in A. injection A as <-.
  unfold load_csv. destruct (csv_section_stations cfg') as [st ->].
  rewrite csv_section_get by discriminate. rewrite G. unfold open_csv. rewrite F. cbn [and_then].
  unfold read_meta. assert (X : index_of "primary_id" (x_header (meta_to_csv (l_meta l))) = None).
  { apply index_of_none. unfold meta_to_csv. cbn [x_header]. rewrite MN. cbn [index_label In]. intros [E|E]; [discriminate|]. contradiction. }
  rewrite X. reflexivity.
Qed.
Lemma csv_run_meta z start stop fs0 sec l0 pixels p mt :
  load_csv z start stop fs0 sec = Done l0 -> dget "metadata" sec = Some (VStr p) -> fs0 p = Some (Csv mt) -> NoDup (x_header mt) ->
  m_name (l_meta (set_variables pixels start stop l0)) = None /\
  ~ In "primary_id"%string (m_cols (l_meta (set_variables pixels start stop l0))).
Proof.
  intros L M P ND. unfold load_csv in L. destruct (dget "stations" sec) as [st|]; [|discriminate]. rewrite M in L.
  unfold open_csv in L. rewrite P in L. cbn [and_then] in L. destruct (read_meta mt) as [m|] eqn:R; [|discriminate]. cbn [and_then] in L.
  destruct (load_vars _ _ _ _ _ _) as [vs|]; [|discriminate]. injection L as <-. cbn [set_variables l_meta].
  destruct (read_meta_cols mt m ND R) as [N C].
  destruct (set_col_meta_spec "xi" (fun s => fst (pixels s)) m) as [X1 X2].
  destruct (set_col_meta_spec "yi" (fun s => snd (pixels s)) (set_col_meta "xi" (fun s => fst (pixels s)) m)) as [Y1 Y2].
  split; [congruence|]. intros I. destruct (Y2 _ I) as [I2|I2]; [|discriminate]. destruct (X2 _ I2) as [I3|I3]; [contradiction|discriminate].
Qed.

(** ** The data of a run from CSV files *)
Lemma csv_says z st start stop f d n u s x : zone_ok z ->
  (forall w row, In (w, row) (t_rows f) -> List.length row = List.length (t_cols f)) ->
  csv_load z st start stop f = Ok d ->
  (data_says (mkData n d) u s x <->
   start <= u <= stop /\ allowed st s /\ exists c, capitals c = s /\ file_says f (wall z u) c x).
Proof.
  intros Z0 R H. destruct (csv_inv _ _ _ _ _ _ H) as (rs & M & Ec & Er & _).
  unfold data_says. cbn [d_table]. rewrite Ec, Er.
  split.
  - intros (row' & I & P). unfold csv_rows in I. apply in_slice in I. destruct I as [I W].
    apply in_map_iff in I. destruct I as ([u' row] & E & I). cbn [fst snd] in E. injection E as -> <-.
    apply (located_in z _ _ u row Z0 M) in I.
    apply in_keep in P; [|rewrite map_length; exact (R _ _ I)]. destruct P as [P K].
    rewrite combine_map_l in P. apply in_map_iff in P. destruct P as ([c y] & [= <- ->] & P).
    split; [exact W|]. split; [apply kept_allowed; exact K|]. exists c. split; [reflexivity|]. exists row. auto.
  - intros (W & A & c & <- & row & I & P). exists (keep_cols (kept st) (map capitals (t_cols f)) row). split.
    + unfold csv_rows. apply in_slice. split; [|exact W]. apply in_map_iff. exists (u, row). split; [reflexivity|].
      apply (located_in z _ _ u row Z0 M). exact I.
    + apply in_keep; [rewrite map_length; exact (R _ _ I)|]. split; [|apply kept_allowed; exact A].
      rewrite combine_map_l. apply in_map_iff. exists (c, x). auto.
Qed.
Lemma naive_in lines : forall rows, naive lines = Some rows ->
  forall w row, In (w, row) rows <-> exists cells, In (Time w None :: cells) lines /\ row = map number cells.
Proof.
  induction lines as [|line r IH]; intros rows; cbn [naive].
  - intros [= <-] w row. split; [intros []|intros (c & [] & _)].
  - destruct line as [|[w0 [o|]| |] cells]; try discriminate.
    destruct (naive r) as [rs|]; [|discriminate]. intros [= <-] w row. cbn [In]. rewrite (IH rs eq_refl). split.
    + intros [E|(c & I & E)]; [injection E as <- <-; eauto|eauto].
    + intros (c & [E|I] & ->); [left; injection E as <- <-; reflexivity|right; eauto].
Qed.
Lemma combine_map_r {A B C} (f : B -> C) (l : list A) (m : list B) :
  combine l (map f m) = map (fun p => (fst p, f (snd p))) (combine l m).
Proof. revert m; induction l as [|a l IH]; intros [|b m]; cbn; [reflexivity..|]. f_equal. apply IH. Qed.
Lemma dget_set_vars pixels start stop l k d : known k = true -> dget k (l_vars l) = Some d ->
  dget k (l_vars (set_variables pixels start stop l)) = Some (cut start stop d).
Proof.
  intros K. cbn [set_variables l_vars]. induction (l_vars l) as [|[k' d'] r IH]; cbn [dget]; [discriminate|].
  destruct (String.eqb_spec k k') as [<-|N].
  - intros [= ->]. cbn [filter fst]. rewrite K. cbn [map dget fst snd]. rewrite String.eqb_refl. reflexivity.
  - intros H. cbn [filter fst]. destruct (known k'); [|exact (IH H)]. cbn [map dget fst snd].
    destruct (String.eqb_spec k k'); [contradiction|]. exact (IH H).
Qed.
Lemma saved_known k : In k saved_variables -> known k = true.
Proof. cbn [saved_variables In]. intros [<-|[<-|[<-|[<-|[<-|[<-|[]]]]]]]; reflexivity. Qed.

Lemma csv_run_values z start stop fs0 sec l0 pixels k p t0 st :
  zone_ok z ->
  (forall line, In line (x_lines t0) -> List.length line = List.length (x_header t0)) ->
  (forall c cells, In (c :: cells) (x_lines t0) -> forall y, In y cells -> exists x, y = Number x) ->
  load_csv z start stop fs0 sec = Done l0 -> dget "stations" sec = Some st ->
  In k saved_variables -> dget k sec = Some (VStr p) -> fs0 p = Some (Csv t0) ->
  exists d, dget k (l_vars (set_variables pixels start stop l0)) = Some d /\ d_name d = Some "date_time"%string /\
    t_rows (d_table d) <> [] /\
    forall u s x, data_says d u s x <->
      start <= u <= stop /\ allowed (station_list st) s /\
      exists c cells, capitals c = s /\ In (Time (wall z u) None :: cells) (x_lines t0) /\ In (c, Number x) (combine (tl (x_header t0)) cells).
Proof.
  intros Z0 LEN NUM L ST K G P. unfold load_csv in L. rewrite ST in L.
  destruct (dget "metadata" sec) as [mv|]; [|discriminate].
  destruct (open_csv fs0 mv) as [mt|]; [|discriminate]. cbn [and_then] in L.
  destruct (read_meta mt) as [m|]; [|discriminate]. cbn [and_then] in L.
  destruct (load_vars _ _ _ _ _ _) as [vs|] eqn:V; [|discriminate]. injection L as <-.
  assert (KN : k <> "metadata"%string /\ k <> "stations"%string).
  { split; intros ->; cbn in K; intuition discriminate. }
  destruct (load_vars_get _ _ _ _ _ k (VStr p) _ _ V) as (t & d & O & R & GV).
  { rewrite !dget_ddel_other by apply KN. exact G. }
  unfold open_csv in O. rewrite P in O. injection O as <-.
  exists (cut start stop d). split; [apply dget_set_vars; [apply saved_known; exact K|exact GV]|].
  unfold read_data in R. destruct (index_of _ _) as [[|q]|] eqn:IX; [|discriminate..].
  destruct (naive (x_lines t0)) as [rows|] eqn:NV; [|discriminate].
  destruct (csv_load _ _ _ _ _) as [tb|] eqn:CL; [|discriminate]. cbn [lift and_then] in R. injection R as <-.
  split; [reflexivity|].
  set (f := mkTable (tl (x_header t0)) rows) in *.
  pose proof (naive_in _ _ NV) as NI.
  assert (RL : forall w row, In (w, row) (t_rows f) -> List.length row = List.length (t_cols f)).
  { intros w row I. apply NI in I. destruct I as (cells & I & ->). rewrite map_length. cbn [t_cols f].
    specialize (LEN _ I). cbn [List.length] in LEN. destruct (x_header t0); [discriminate IX|]. cbn [tl List.length] in *. lia. }
  assert (SL : forall r, In r (t_rows tb) -> start <= fst r <= stop).
  { intros r I. destruct (csv_inv _ _ _ _ _ _ CL) as (rs & _ & _ & Er & _). rewrite Er in I. unfold csv_rows, slice in I.
    apply filter_In in I. destruct I as [_ I]. cbn beta in I. apply andb_true_iff in I. rewrite !Z.leb_le in I. exact I. }
  split.
  { destruct (csv_inv _ _ _ _ _ _ CL) as (rs & _ & _ & _ & _ & NE). cbn [cut d_table t_rows].
    destruct (t_rows tb) as [|r rr]; [contradiction|]. specialize (SL r (or_introl eq_refl)).
    unfold slice. cbn [filter]. assert (E : ((start <=? fst r) && (fst r <=? stop)) = true) by (rewrite andb_true_iff, !Z.leb_le; exact SL).
    rewrite E. discriminate. }
  intros u s x.
  assert (E : data_says (cut start stop (mkData (Some "date_time"%string) tb)) u s x <-> data_says (mkData (Some "date_time"%string) tb) u s x).
  { unfold data_says. cbn [cut d_table t_rows t_cols]. split; intros (row & I & C); exists row; (split; [|exact C]).
    - apply in_slice in I. apply I.
    - apply in_slice. split; [exact I|]. exact (SL _ I). }
  rewrite E. rewrite (csv_says z (station_list st) start stop f tb (Some "date_time"%string) u s x Z0 RL CL).
  assert (F : forall c, file_says f (wall z u) c x <->
     exists cells, In (Time (wall z u) None :: cells) (x_lines t0) /\ In (c, Number x) (combine (tl (x_header t0)) cells)).
  { intros c. unfold file_says. cbn [t_rows t_cols f]. split.
    - intros (row & I & C). apply NI in I. destruct I as (cells & I & ->). exists cells. split; [exact I|].
      rewrite combine_map_r in C. apply in_map_iff in C. destruct C as ([c' y] & EE & C). cbn [fst snd] in EE. injection EE as <- <-.
      destruct (NUM _ _ I y (in_combine_r _ _ _ _ C)) as [x' ->]. exact C.
    - intros (cells & I & C). exists (map number cells). split; [apply NI; eauto|].
      rewrite combine_map_r. apply in_map_iff. exists (c, Number x). auto. }
  split.
  - intros (W & A & c & U & S1). apply F in S1. destruct S1 as (cells & S1 & S2). split; [exact W|]. split; [exact A|]. eauto 6.
  - intros (W & A & c & cells & U & S1 & S2). split; [exact W|]. split; [exact A|]. exists c. split; [exact U|]. apply F. eauto.
Qed.

(** ** When the backup is finished *)
Lemma copy_topo_finishes loc ks : forall fs sec, NoDup ks ->
  (forall k, In k ks -> setting k \/ dget k sec = None \/ dget k sec = Some VNone \/
     exists src, named sec k src /\ fs src <> None /\ forall n, src <> join (backup_dir loc) n) ->
  exists fs' sec', copy_topo (backup_dir loc) ks fs sec = (fs', Done sec').
Proof.
  induction ks as [|k ks IH]; intros fs sec ND H; cbn [copy_topo]; [eauto|].
  inversion ND as [|? ? N ND']; subst.
  assert (HR : forall k0, In k0 ks -> setting k0 \/ dget k0 sec = None \/ dget k0 sec = Some VNone \/
     exists src, named sec k0 src /\ fs src <> None /\ forall n, src <> join (backup_dir loc) n) by (intros k0 I; apply H; right; exact I).
  destruct (existsb (String.eqb k) ignore) eqn:S; [exact (IH fs sec ND' HR)|].
  destruct (H k (or_introl eq_refl)) as [X|[X|[X|(src & [_ M] & F & O)]]].
  - apply ignore_setting in X. congruence.
  - rewrite X. exact (IH fs sec ND' HR).
  - rewrite X. exact (IH fs sec ND' HR).
  - assert (U : option_map unlist (dget k sec) = Some (VStr src)) by (destruct M as [M|M]; rewrite M; reflexivity).
    rewrite U. destruct (String.eqb_spec src (join (backup_dir loc) (basename src))) as [E|_]; [destruct (O _ E)|].
    destruct (fs src) as [c|]; [|contradiction]. apply IH; [exact ND'|]. intros k0 I.
    assert (D : k0 <> k) by (intros ->; contradiction). unfold named. rewrite dget_dset_other by exact D.
    destruct (HR k0 I) as [Y|[Y|[Y|(s0 & M0 & F0 & O0)]]]; auto.
    right. right. right. exists s0. split; [exact M0|]. split; [|exact O0]. rewrite fwrite_other by apply O0. exact F0.
Qed.
Lemma backup_finishes z l cfg fs loc topo :
  cfg_get cfg "output" "out_location" = Some (VStr loc) -> dget "topo" cfg = Some topo -> dict topo ->
  (forall k, In k saved_variables -> dget k (l_vars l) <> None) ->
  (forall k, cfg_get cfg "topo" k <> None -> setting k \/ cfg_get cfg "topo" k = Some VNone \/
     exists src, topo_file cfg k src /\ fs src <> None /\ forall n, src <> join (backup_dir loc) n) ->
  exists fs' cfg', backup_input z l cfg fs = (fs', Done cfg').
Proof.
  intros CL ET DT V T. unfold backup_input, cfg_get in *. cbv zeta. destruct (dget "output" cfg) as [out|] eqn:EO; [|discriminate CL].
  rewrite CL. fold (backup_dir loc).
  set (c0 := match dget "csv" cfg with Some s => s | None => [] end).
  destruct (write_vars_fails z (backup_dir loc) l csv_var fs c0) as [[(fs1 & csv' & EW) A]|[_ (k & I & A)]].
  2:{ exfalso. apply csv_var_saved in I. apply (attribute_none z l k I) in A. destruct A as [I' A]. exact (V k I' A). }
  rewrite EW. rewrite dget_dset_other by discriminate. rewrite drop_client_other by discriminate. rewrite ET in *.
  destruct (copy_topo_finishes loc (map fst topo) fs1 topo DT) as (fs2 & topo' & EC).
  - intros k I. destruct (dget k topo) as [v|] eqn:G; [|auto].
    destruct (T k) as [X|[X|(src & M & F & O)]]; [congruence|auto|rewrite <- X, G; auto|].
    right. right. right. exists src. split; [|split; [|exact O]].
    + destruct M as [NS M]. split; [exact NS|]. unfold cfg_get in M. rewrite ET, G in M. rewrite G. exact M.
    + rewrite (write_vars_frame z loc l csv_var _ _ _ _ (fun k h => proj1 (csv_var_saved k) h) EW); [exact F|].
      intros k0 _. apply O.
  - rewrite EC. eauto.
Qed.
