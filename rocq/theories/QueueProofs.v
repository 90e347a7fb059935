From Coq Require Import List ZArith Bool Lia.
From Verif Require Import QueueModel QueueSpec.
Import ListNotations.
Local Open Scope Z_scope.

Section P.
Context {V : Type}.
Implicit Types q : queue V.

Lemma run_app q h1 h2 :
  run q (h1 ++ h2) =
  let '(q1, l1) := run q h1 in let '(q2, l2) := run q1 h2 in (q2, l1 ++ l2).
Proof.
  revert q; induction h1 as [|o h1 IH]; intros q; simpl.
  - destruct (run q h2); reflexivity.
  - destruct (step q o) as [q1 x]. rewrite IH.
    destruct (run q1 h1) as [q2 l2]. destruct (run q2 h2); reflexivity.
Qed.

Lemma run_snoc q h o q1 l :
  run q h = (q1, l) ->
  run q (h ++ [o]) = (fst (step q1 o), l ++ [(o, snd (step q1 o))]).
Proof.
  intros H. rewrite run_app, H. simpl. destruct (step q1 o); reflexivity.
Qed.

(** dictionary lemmas *)
Lemma d_find_update k v (l : list (Z * V)) k' :
  d_find k' (d_update k v l) = if k' =? k then Some v else d_find k' l.
Proof.
  induction l as [|[k0 v0] r IH]; simpl.
  - destruct (k' =? k); reflexivity.
  - destruct (Z.eqb_spec k k0) as [->|Hn]; simpl.
    + destruct (k' =? k0); reflexivity.
    + rewrite IH. destruct (Z.eqb_spec k' k0), (Z.eqb_spec k' k); subst; congruence.
Qed.
Lemma d_update_keys k v (l : list (Z * V)) :
  map fst (d_update k v l) =
  if in_dec Z.eq_dec k (map fst l) then map fst l else map fst l ++ [k].
Proof.
  induction l as [|[k0 v0] r IH].
  - reflexivity.
  - cbn [d_update map fst]. destruct (Z.eqb_spec k k0) as [->|Hn].
    + cbn [map fst]. destruct (in_dec Z.eq_dec k0 (k0 :: map fst r)) as [|Hni]; [reflexivity|].
      exfalso; apply Hni; left; reflexivity.
    + cbn [map fst]. rewrite IH.
      destruct (in_dec Z.eq_dec k (map fst r)) as [Hi|Hi];
        destruct (in_dec Z.eq_dec k (k0 :: map fst r)) as [Hj|Hj]; try reflexivity.
      * exfalso; apply Hj; right; exact Hi.
      * destruct Hj; [congruence|contradiction].
Qed.
Lemma NoDup_app_one (A : Type) (l : list A) x : NoDup l -> ~ In x l -> NoDup (l ++ [x]).
Proof.
  induction l as [|a l IH]; simpl; intros Hn Hx; [constructor; [auto|constructor]|].
  inversion Hn as [|? ? Ha Hl]; subst. constructor.
  - rewrite in_app_iff; simpl. intuition congruence.
  - apply IH; intuition.
Qed.
Lemma d_update_nodup k v (l : list (Z * V)) :
  NoDup (map fst l) -> NoDup (map fst (d_update k v l)).
Proof.
  intros H. rewrite d_update_keys. destruct (in_dec _ _ _); [exact H|].
  apply NoDup_app_one; assumption.
Qed.
Lemma d_find_some_in k (l : list (Z * V)) :
  (exists v, d_find k l = Some v) <-> In k (map fst l).
Proof.
  induction l as [|[k0 v0] r IH]; simpl.
  - split; [intros [v H]; discriminate|tauto].
  - destruct (Z.eqb_spec k k0) as [->|Hn].
    + split; [tauto|eauto].
    + rewrite IH. intuition congruence.
Qed.
Lemma d_find_none k (l : list (Z * V)) : d_find k l = None <-> ~ In k (map fst l).
Proof.
  rewrite <- d_find_some_in. destruct (d_find k l).
  - split; [discriminate|]. intros H; exfalso; apply H; eauto.
  - split; [|reflexivity]. intros _ [v H]; discriminate.
Qed.
Lemma d_del_in k (l : list (Z * V)) k' :
  In k' (map fst (d_del k l)) -> In k' (map fst l).
Proof.
  induction l as [|[k0 v0] r IH]; simpl; [tauto|].
  destruct (k =? k0); simpl; tauto.
Qed.
Lemma d_del_nodup k (l : list (Z * V)) :
  NoDup (map fst l) -> NoDup (map fst (d_del k l)).
Proof.
  induction l as [|[k0 v0] r IH]; simpl; intros H; [constructor|].
  inversion H; subst. destruct (k =? k0); [assumption|].
  simpl; constructor; [|auto]. intros Hi. apply d_del_in in Hi. contradiction.
Qed.
Lemma d_find_del k (l : list (Z * V)) k' :
  NoDup (map fst l) ->
  d_find k' (d_del k l) = if k' =? k then None else d_find k' l.
Proof.
  induction l as [|[k0 v0] r IH]; simpl; intros H.
  - destruct (k' =? k); reflexivity.
  - inversion H as [|? ? Hni Hnd]; subst.
    destruct (Z.eqb_spec k k0) as [->|Hn].
    + destruct (Z.eqb_spec k' k0) as [E|E]; [rewrite E|reflexivity].
      apply d_find_none; exact Hni.
    + simpl. rewrite IH by assumption.
      destruct (Z.eqb_spec k' k0), (Z.eqb_spec k' k); subst; congruence.
Qed.
Lemma d_del_length_le k (l : list (Z * V)) : (length (d_del k l) <= length l)%nat.
Proof. induction l as [|[k0 v0] r IH]; simpl; [lia|]. destruct (k =? k0); simpl; lia. Qed.
Lemma d_update_length k v (l : list (Z * V)) :
  (length (d_update k v l) <= S (length l))%nat.
Proof. induction l as [|[k0 v0] r IH]; simpl; [lia|]. destruct (k =? k0); simpl; lia. Qed.

(** the log after one more event *)
Lemma current_nil d (v : V) : ~ current [] d v.
Proof. intros (l1 & ev & l2 & H & _). destruct l1; discriminate. Qed.

Lemma current_snoc l ev d (v : V) :
  current (l ++ [ev]) d v <->
  stores ev d v \/ (current l d v /\ ~ removes ev d /\ forall v', ~ stores ev d v').
Proof.
  split.
  - intros (l1 & ev0 & l2 & H & Hs & Hl).
    destruct (rev l2) as [|e2 r2] eqn:E.
    + assert (l2 = []) as -> by (rewrite <- (rev_involutive l2), E; reflexivity).
      apply app_inj_tail in H. destruct H as [_ <-]. left; exact Hs.
    + assert (l2 = rev r2 ++ [e2]) as -> by (rewrite <- (rev_involutive l2), E; reflexivity).
      rewrite app_comm_cons, app_assoc in H. apply app_inj_tail in H. destruct H as [-> <-].
      right. split.
      * exists l1, ev0, (rev r2). split; [reflexivity|]. split; [exact Hs|].
        intros e He. apply Hl. apply in_or_app; left; exact He.
      * apply Hl. apply in_or_app; right; left; reflexivity.
  - intros [Hs|[(l1 & ev0 & l2 & -> & Hs & Hl) Hn]].
    + exists l, ev, []. repeat split; try assumption; contradiction.
    + exists l1, ev0, (l2 ++ [ev]). rewrite <- app_assoc. split; [reflexivity|].
      split; [exact Hs|]. intros e He. apply in_app_or in He. destruct He as [He|[<-|[]]].
      * apply Hl; exact He.
      * exact Hn.
Qed.

(** The main invariant between the state and the log. *)
Record Inv (m : Z) (t0 : option Z) (q : queue V) (l : list (op V * out V)) : Prop := {
  inv_max : maxsize q = m;
  inv_tmo : timeout q = timeout_in_force t0 l;
  inv_nodup : NoDup (map fst (items q));
  inv_cur : forall d v, d_find d (items q) = Some v <-> current l d v;
  inv_cap : 0 < m -> qsize q <= m;
  inv_tasks : tasks q = nputs l }.

Lemma timeout_snoc t0 (l : list (op V * out V)) ev :
  timeout_in_force t0 (l ++ [ev]) =
  match ev with (OGet _ _ (Some t) _, _) => Some t | _ => timeout_in_force t0 l end.
Proof.
  revert t0; induction l as [|[o x] l IH]; intros t0; simpl.
  - destruct ev as [[] ?]; try reflexivity; destruct tmo; reflexivity.
  - destruct o as [| ? ? [|] ? |]; apply IH.
Qed.
Lemma nputs_snoc (l : list (op V * out V)) ev :
  nputs (l ++ [ev]) =
  match ev with (OPut _ _ _ _, ODone) => S (nputs l) | _ => nputs l end.
Proof.
  unfold nputs. rewrite filter_app, app_length. destruct ev as [[] []]; simpl; lia.
Qed.

Lemma current_other l (ev : op V * out V) d v :
  (forall d' v', ~ stores ev d' v') -> (forall d', ~ removes ev d') ->
  current (l ++ [ev]) d v <-> current l d v.
Proof.
  intros H1 H2. rewrite current_snoc. specialize (H1 d). specialize (H2 d). split.
  - intros [Hs|[Hc _]]; [exfalso; exact (H1 v Hs)|exact Hc].
  - intros Hc. right. split; [exact Hc|]. split; assumption.
Qed.

Lemma step_inv m t0 q l o :
  Inv m t0 q l -> Inv m t0 (fst (step q o)) (l ++ [(o, snd (step q o))]).
Proof.
  intros [Hm Ht Hnd Hc Hcap Htk].
  assert (Same : forall q' x,
     maxsize q' = maxsize q -> items q' = items q -> tasks q' = tasks q ->
     timeout q' = timeout_in_force t0 (l ++ [(o, x)]) ->
     (forall d' v', ~ stores (o, x) d' v') -> (forall d', ~ removes (o, x) d') ->
     nputs (l ++ [(o, x)]) = nputs l -> Inv m t0 q' (l ++ [(o, x)])).
  { intros q' x E1 E2 E3 E4 N1 N2 E5. split.
    - congruence.
    - assumption.
    - rewrite E2; assumption.
    - intros d v. rewrite E2, Hc, current_other by assumption. reflexivity.
    - unfold qsize. rewrite E2. exact Hcap.
    - congruence. }
  destruct o as [d v b e|d b tm e|d]; simpl.
  - unfold try_put.
    set (full := qsize q =? maxsize q). set (st := (mkQ _ _ _ _, ODone)).
    assert (Hst : (0 < m -> full = false) -> Inv m t0 (fst st) (l ++ [(OPut d v b e, snd st)])).
    { intros Hf. subst st. simpl. split; simpl.
      - exact Hm.
      - rewrite timeout_snoc. exact Ht.
      - apply d_update_nodup; exact Hnd.
      - intros d' v'. rewrite d_find_update, current_snoc.
        destruct (Z.eqb_spec d' d) as [->|Hn].
        + split.
          * intros [= ->]. left. exists b, e; reflexivity.
          * intros [(b' & e' & [= -> -> ->])|(_ & _ & Hx)]; [reflexivity|].
            exfalso. apply (Hx v). exists b, e; reflexivity.
        + rewrite Hc. split.
          * intros Hcur. right. split; [exact Hcur|]. split; [discriminate|].
            intros v'' (b' & e' & [= ? ? ?]); congruence.
          * intros [(b' & e' & [= ? ? ?])|(Hx & _)]; [congruence|exact Hx].
      - intros Hpos. specialize (Hcap Hpos). specialize (Hf Hpos).
        subst full. apply Z.eqb_neq in Hf. unfold qsize in *. simpl.
        pose proof (d_update_length d v (items q)). lia.
      - rewrite nputs_snoc. congruence. }
    destruct (Z.ltb_spec 0 (maxsize q)) as [Hpos|Hneg].
    + destruct full eqn:Hf; subst full.
      * destruct b; simpl.
        -- destruct (timeout q) eqn:E; [destruct e|]; apply Same; try reflexivity;
             try (rewrite timeout_snoc; cbn; congruence);
             try (intros ? ? (? & ? & ?); discriminate);
             try (intros ? ?; discriminate); rewrite nputs_snoc; reflexivity.
        -- apply Same; try reflexivity;
             try (rewrite timeout_snoc; cbn; congruence);
             try (intros ? ? (? & ? & ?); discriminate);
             try (intros ? ?; discriminate); rewrite nputs_snoc; reflexivity.
      * destruct b; simpl; apply Hst; intros; reflexivity.
    + apply Hst. intros; lia.
  - unfold try_get.
    set (q' := match tm with None => q | Some t => _ end).
    assert (E1 : maxsize q' = maxsize q) by (subst q'; destruct tm; reflexivity).
    assert (E2 : items q' = items q) by (subst q'; destruct tm; reflexivity).
    assert (E3 : tasks q' = tasks q) by (subst q'; destruct tm; reflexivity).
    assert (E4 : forall x, timeout q' = timeout_in_force t0 (l ++ [(OGet d b tm e, x)])).
    { intros x. rewrite timeout_snoc. subst q'. destruct tm; [reflexivity|exact Ht]. }
    assert (G : forall x, Inv m t0 q' (l ++ [(OGet d b tm e, x)])).
    { intros x. apply Same; auto.
      - intros ? ? (? & ? & ?); discriminate.
      - intros ? ?; discriminate.
      - rewrite nputs_snoc; reflexivity. }
    destruct (d_find d (items q')); [apply G|].
    destruct b; simpl.
    + destruct (timeout q') as [tt|]; [destruct e|]; apply G.
    + destruct (qsize q' =? 0); apply G.
  - split; simpl.
    + exact Hm.
    + rewrite timeout_snoc; exact Ht.
    + apply d_del_nodup; exact Hnd.
    + intros d' v'. rewrite d_find_del by exact Hnd. rewrite current_snoc.
      destruct (Z.eqb_spec d' d) as [->|Hn].
      * split; [discriminate|].
        intros [(? & ? & ?)|(_ & Hx & _)]; [discriminate|]. exfalso; apply Hx; reflexivity.
      * rewrite Hc. split.
        -- intros Hcur. right. split; [exact Hcur|]. split.
           ++ intros [= E]; congruence.
           ++ intros ? (? & ? & ?); discriminate.
        -- intros [(? & ? & ?)|(Hx & _)]; [discriminate|exact Hx].
    + intros Hpos. specialize (Hcap Hpos). unfold qsize in *; simpl.
      pose proof (d_del_length_le d (items q)). lia.
    + rewrite nputs_snoc; exact Htk.
Qed.

Lemma run_inv m t0 h q l : run (q_new m t0) h = (q, l) -> Inv m t0 q l.
Proof.
  revert q l. induction h as [|o h IH] using rev_ind; intros q l H.
  - injection H as <- <-. split; simpl.
    + reflexivity.
    + reflexivity.
    + constructor.
    + intros d v. split; [discriminate|]. intros Hc. exfalso. apply (current_nil d v Hc).
    + unfold qsize; simpl; lia.
    + reflexivity.
  - destruct (run (q_new m t0) h) as [q1 l1] eqn:E.
    rewrite (run_snoc _ _ _ _ _ E) in H. injection H as <- <-.
    apply step_inv. apply IH; reflexivity.
Qed.

(** C01 *)
Lemma get_current m t0 h q l d b tm e v :
  run (q_new m t0) h = (q, l) ->
  snd (step q (OGet d b tm e)) = OVal v <-> current l d v.
Proof.
  intros H. apply run_inv in H. destruct H as [_ _ _ Hc _ _]. rewrite <- Hc.
  simpl. unfold try_get. set (q' := match tm with None => q | Some t => _ end).
  assert (E2 : items q' = items q) by (subst q'; destruct tm; reflexivity).
  rewrite <- E2. destruct (d_find d (items q')) eqn:F; simpl.
  - split; congruence.
  - split; [|discriminate]. destruct b; simpl.
    + destruct (timeout q'); [destruct e|]; discriminate.
    + destruct (qsize q' =? 0); discriminate.
Qed.

Lemma get_absent m t0 h q l d b tm e ds :
  run (q_new m t0) h = (q, l) -> present l ds -> ~ In d ds ->
  snd (step q (OGet d b tm e)) =
  get_absent_outcome (timeout_in_force t0 l) b tm e (match ds with [] => false | _ => true end).
Proof.
  intros H [Hnd Hp] Hni. apply run_inv in H. destruct H as [_ Ht Hnd' Hc _ _].
  assert (Hin : forall x, In x ds <-> In x (map fst (items q))).
  { intros x. rewrite Hp, <- d_find_some_in. setoid_rewrite Hc. reflexivity. }
  simpl. unfold try_get. set (q' := match tm with None => q | Some t => _ end).
  assert (E2 : items q' = items q) by (subst q'; destruct tm; reflexivity).
  rewrite E2.
  assert (F : d_find d (items q) = None) by (apply d_find_none; rewrite <- Hin; exact Hni).
  rewrite F. unfold get_absent_outcome. destruct b; simpl.
  - subst q'. destruct tm; simpl.
    + destruct e; reflexivity.
    + rewrite Ht. destruct (timeout_in_force t0 l); [destruct e|]; reflexivity.
  - unfold qsize. rewrite E2.
    destruct (items q) as [|[k w] r] eqn:Ei; simpl.
    + destruct ds as [|z ds]; [reflexivity|]. exfalso. apply (Hin z). left; reflexivity.
    + destruct ds as [|z ds]; [|reflexivity]. exfalso. apply (Hin k). left; reflexivity.
Qed.

Lemma present_length m t0 h q l ds :
  run (q_new m t0) h = (q, l) -> present l ds -> Z.of_nat (length ds) = qsize q.
Proof.
  intros H [Hnd Hp]. apply run_inv in H. destruct H as [_ Ht Hnd' Hc _ _].
  assert (Hin : forall x, In x ds <-> In x (map fst (items q))).
  { intros x. rewrite Hp, <- d_find_some_in. setoid_rewrite Hc. reflexivity. }
  unfold qsize. f_equal. rewrite <- (map_length fst (items q)).
  apply Nat.le_antisymm; apply NoDup_incl_length; try assumption; intros x; apply Hin.
Qed.

Lemma present_exists m t0 h q l :
  run (q_new m t0) h = (q, l) -> present l (map fst (items q)).
Proof.
  intros H. apply run_inv in H. destruct H as [_ Ht Hnd' Hc _ _]. split; [exact Hnd'|].
  intros d. rewrite <- d_find_some_in. setoid_rewrite Hc. reflexivity.
Qed.

(** C02 *)
Lemma capacity m t0 h q l ds :
  0 < m -> run (q_new m t0) h = (q, l) -> present l ds -> Z.of_nat (length ds) <= m.
Proof.
  intros Hm H Hp. rewrite (present_length _ _ _ _ _ _ H Hp).
  apply run_inv in H. destruct H as [_ _ _ _ Hcap _]. auto.
Qed.

Lemma put_outcome m t0 h q l ds d v b e :
  run (q_new m t0) h = (q, l) -> present l ds ->
  snd (step q (OPut d v b e)) =
  (if (0 <? m) && (Z.of_nat (length ds) =? m) then
     if b then match timeout_in_force t0 l with
               | None => OWaiting
               | Some _ => if e then OExit else OWaiting
               end
     else OLogged E_Full
   else ODone).
Proof.
  intros H Hp. rewrite (present_length _ _ _ _ _ _ H Hp). apply run_inv in H.
  destruct H as [Hm Ht _ _ _ _]. simpl. unfold try_put. rewrite Hm, Ht.
  destruct (0 <? m); simpl; [|reflexivity].
  destruct (qsize q =? m); destruct b; simpl; try reflexivity.
  destruct (timeout_in_force t0 l); [destruct e|]; reflexivity.
Qed.

Lemma not_done_unchanged q d v b e :
  snd (step q (OPut d v b e)) <> ODone -> fst (step q (OPut d v b e)) = q.
Proof.
  simpl. unfold try_put.
  destruct (0 <? maxsize q); [|simpl; congruence].
  destruct b; simpl; destruct (qsize q =? maxsize q); simpl; try congruence;
    destruct (timeout q); try destruct e; simpl; congruence.
Qed.

Lemma tasks_count m t0 h q l : run (q_new m t0) h = (q, l) -> tasks q = nputs l.
Proof. intros H. apply run_inv in H. apply H. Qed.
Lemma timeout_in_force_app t0 (l1 l2 : list (op V * out V)) :
  timeout_in_force t0 (l1 ++ l2) = timeout_in_force (timeout_in_force t0 l1) l2.
Proof.
  revert t0; induction l1 as [|[o x] l1 IH]; intros t0; simpl; [reflexivity|].
  destruct o as [| ? ? [|] ? |]; apply IH.
Qed.
Lemma run_log_ops q h : map fst (snd (run q h)) = h.
Proof.
  revert q; induction h as [|o h IH]; intros q; simpl; [reflexivity|].
  destruct (step q o) as [q1 x]. specialize (IH q1).
  destruct (run q1 h) as [q2 l2]. simpl in *. f_equal; exact IH.
Qed.
Lemma timeout_none_pass t0 (l : list (op V * out V)) :
  Forall (fun o => match o with OGet _ _ (Some _) _ => False | _ => True end) (map fst l) ->
  timeout_in_force t0 l = t0.
Proof.
  revert t0; induction l as [|[o x] l IH]; intros t0 H; simpl in *; [reflexivity|].
  inversion H; subst. destruct o as [| ? ? [|] ? |]; try contradiction; apply IH; assumption.
Qed.
Lemma timeout_sticky m t0 (h1 h2 : list (op V)) d b t e :
  Forall (fun o => match o with OGet _ _ (Some _) _ => False | _ => True end) h2 ->
  timeout (fst (run (q_new m t0) (h1 ++ OGet d b (Some t) e :: h2))) = Some t.
Proof.
  intros Hh. destruct (run (q_new m t0) (h1 ++ OGet d b (Some t) e :: h2)) as [q l] eqn:E.
  pose proof (run_inv _ _ _ _ _ E) as [_ Ht _ _ _ _]. simpl. rewrite Ht.
  rewrite run_app in E. destruct (run (q_new m t0) h1) as [q1 l1]. simpl in E.
  destruct (try_get q1 d b (Some t) e) as [q2 x].
  pose proof (run_log_ops q2 h2) as Hl.
  destruct (run q2 h2) as [q3 l3]. simpl in Hl. injection E as <- <-.
  rewrite timeout_in_force_app. simpl. apply timeout_none_pass. rewrite Hl. exact Hh.
Qed.
End P.
