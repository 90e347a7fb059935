(** Facts about arbitrary thread graphs, well formed or not: a queue that misses a
    date stops the cleaner there, and a stopped cleaner stops everybody. *)
From Coq Require Import List ZArith Bool Arith Lia.
From Verif Require Import QueueModel QueueProofs PipelineModel PipelineSpec PipelineProofs.
Import ListNotations.

Section Stall.
Context {V L : Type}.
Variable T : topo V L.
Hypothesis Hdates : NoDup (dates T).

(** ** A date that nobody puts on queue [q] *)
Section Missing.
Variables (q0 i0 : nat) (d0 : Z).
Hypothesis Hq0 : In q0 (qids T).
Hypothesis Hd0 : nth_error (dates T) i0 = Some d0.
Hypothesis Hno : forall k, k < nthreads T -> ~ In q0 (outs T k i0).

Record SInv (s : state V L) : Prop := {
  si_key : d_find d0 (items (queues s q0)) = None;
  si_puts : forall k r v, k < nthreads T -> tputs (threads s k) = Some r -> In (q0, v) r ->
            tdate (threads s k) <> i0;
  si_cl : cdate (cleaner s) <= i0;
  si_ph : cdate (cleaner s) = i0 -> exists r, cph (cleaner s) = CGet r /\ In q0 r }.

Lemma sinit : SInv (init T).
Proof.
  split; simpl; try reflexivity; try lia.
  - discriminate.
  - intros _. exists (qids T). auto.
Qed.

Lemma d_find_del_none (V' : Type) k k' (l : list (Z * V')) :
  d_find k' l = None -> d_find k' (d_del k l) = None.
Proof.
  induction l as [|[a v] r IH]; simpl; [auto|].
  destruct (k' =? a)%Z eqn:E; [discriminate|]. intros H.
  destruct (k =? a)%Z; [exact H|]. simpl. rewrite E. auto.
Qed.

Lemma sstep s k s' e : SInv s -> pstep T s k = Some (s', e) -> SInv s'.
Proof.
  intros [H1 H2 H3 H4]. unfold pstep. destruct (Nat.ltb_spec k (nthreads T)) as [Hk|_].
  - unfold tstep. destruct (nth_error (dates T) (tdate (threads s k))) as [d|] eqn:Hd; [|discriminate].
    destruct (tputs (threads s k)) as [[|[q v] r]|] eqn:Hp.
    + intros [= <- <-]. split; simpl; auto.
      intros j r v Hj. unfold upd. destruct (Nat.eqb_spec j k); [discriminate|]. apply H2; auto.
    + destruct (try_put (queues s q) d v true false) as [q' o] eqn:Hput.
      destruct o; try discriminate. intros [= <- <-].
      apply try_put_done in Hput. destruct Hput as [-> _]. split; simpl; auto.
      * unfold upd. destruct (Nat.eqb_spec q0 q) as [<-|]; [|exact H1]. simpl.
        rewrite d_find_update. destruct (Z.eqb_spec d0 d) as [<-|]; [|exact H1].
        exfalso. apply (H2 k _ v Hk Hp (or_introl eq_refl)).
        eapply dts_inj; eauto.
      * intros j r0 v0 Hj. unfold upd. destruct (Nat.eqb_spec j k) as [->|]; [|apply H2; auto].
        simpl. intros [= <-] Hin. apply (H2 k _ v0 Hk Hp). right; exact Hin.
    + destruct (nextq _ _ _ _ _) as [q|].
      * destruct (try_get (queues s q) d true None false) as [q' o] eqn:Hg.
        destruct o; try discriminate. intros [= <- <-].
        pose proof (try_get_val _ _ _ _ Hg) as [-> _]. split; simpl; auto.
        -- rewrite upd_same_queue. exact H1.
        -- intros j r0 v0 Hj. unfold upd. destruct (Nat.eqb_spec j k); [discriminate|]. apply H2; auto.
      * destruct (finish _ _ _ _ _) as [f l']. intros [= <- <-]. split; simpl; auto.
        intros j r0 v0 Hj. unfold upd. destruct (Nat.eqb_spec j k) as [->|]; [|apply H2; auto].
        simpl. intros [= <-] Hin E. apply in_map_iff in Hin.
        destruct Hin as (q & [= -> _] & Hin). rewrite E in Hin. exact (Hno k Hk Hin).
  - destruct (k =? nthreads T); [|discriminate]. unfold cstep.
    destruct (nth_error (dates T) (cdate (cleaner s))) as [d|] eqn:Hd; [|discriminate].
    destruct (cph (cleaner s)) as [[|q r]|[|q r]] eqn:Hp.
    + intros [= <- <-]. split; simpl; auto.
      intros E. destruct (H4 E) as (r & Er & Hin). injection Er as <-. contradiction.
    + destruct (try_get (queues s q) d true None false) as [q' o] eqn:Hg.
      destruct o; try discriminate. intros [= <- <-].
      pose proof (try_get_val _ _ _ _ Hg) as [-> Hf]. split; simpl; auto.
      * rewrite upd_same_queue. exact H1.
      * intros E. destruct (H4 E) as (r' & Er & Hin). injection Er as <-.
        exists r. split; [reflexivity|]. destruct Hin as [->|Hin]; [|exact Hin].
        rewrite E, Hd0 in Hd. injection Hd as <-. congruence.
    + intros [= <- <-].
      assert (Hne : cdate (cleaner s) <> i0).
      { intros E. destruct (H4 E) as (r & Er & _). discriminate. }
      split; simpl; auto; [lia|]. intros _. exists (qids T). auto.
    + intros [= <- <-]. split; simpl; auto.
      * unfold upd. destruct (Nat.eqb_spec q0 q) as [<-|]; [|exact H1]. simpl.
        apply d_find_del_none; exact H1.
      * intros E. destruct (H4 E) as (r' & Er & _). discriminate.
Qed.

Lemma stall_cleaner sch s l :
  exec T (init T) sch = (s, l) -> cdate (cleaner s) <= i0.
Proof.
  assert (G : forall sch s s' l, SInv s -> exec T s sch = (s', l) -> SInv s').
  { clear sch s l. induction sch as [|k r IH]; intros s s' l HI; simpl.
    - intros [= <- <-]; exact HI.
    - destruct (pstep T s k) as [[s1 e]|] eqn:E; [|apply IH; exact HI].
      destruct (exec T s1 r) as [s2 l2] eqn:E2. intros [= <- <-].
      apply (IH s1 _ l2); [|exact E2]. eapply sstep; eauto. }
  intros H. apply (si_cl s (G _ _ _ _ sinit H)).
Qed.

Lemma stall_never_finished sch s l : exec T (init T) sch = (s, l) -> ~ finished T s.
Proof.
  intros H [_ Hf]. apply stall_cleaner in H.
  assert (i0 < length (dates T)) by (apply nth_error_Some; congruence). lia.
Qed.
End Missing.

(** ** A thread that fills a bounded queue at every date stays close to the cleaner *)
Section Ahead.
Variables (q1 k1 : nat).
Hypothesis Hqn : NoDup (qids T).
Hypothesis Hk1 : k1 < nthreads T.
Hypothesis Hout : forall i, In q1 (outs T k1 i) /\ NoDup (outs T k1 i).
Hypothesis Hoth : forall k i, k < nthreads T -> k <> k1 -> ~ In q1 (outs T k i).
Hypothesis Hpos : (0 < qmax T)%Z.

Notation np s := (nput (threads s k1) q1).
Notation nc s := (ncl (cleaner s) q1).

Record AInv (s : state V L) : Prop := {
  ai_max : maxsize (queues s q1) = qmax T;
  ai_keys : forall d, d_find d (items (queues s q1)) <> None ->
            exists i, nth_error (dates T) i = Some d /\ i < np s;
  ai_len : np s <= length (items (queues s q1)) + nc s;
  ai_cap : (qsize (queues s q1) <= qmax T)%Z;
  ai_nd : forall r, tputs (threads s k1) = Some r -> NoDup (map fst r);
  ai_suf : forall r, tputs (threads s k1) = Some r ->
           exists dn, outs T k1 (tdate (threads s k1)) = dn ++ map fst r;
  ai_oth : forall k r v, k < nthreads T -> k <> k1 -> tputs (threads s k) = Some r -> ~ In (q1, v) r;
  ai_cnd : match cph (cleaner s) with CGet _ => True | CClean r => NoDup r end }.

Lemma ainit : AInv (init T).
Proof.
  split; simpl; try reflexivity; try discriminate; auto.
  - intros d H. congruence.
  - unfold qsize; simpl; lia.
Qed.

Lemma d_del_len (V' : Type) k (l : list (Z * V')) : length l <= S (length (d_del k l)).
Proof. induction l as [|[a v] r IH]; simpl; [lia|]. destruct (k =? a)%Z; simpl; lia. Qed.

Lemma d_find_del_sub (V' : Type) k k' (l : list (Z * V')) :
  d_find k' (d_del k l) <> None -> d_find k' l <> None.
Proof. intros H1 H2. apply H1. apply d_find_del_none; exact H2. Qed.

Lemma d_update_new_len (V' : Type) k (v : V') l :
  d_find k l = None -> length (d_update k v l) = S (length l).
Proof.
  induction l as [|[a w] r IH]; simpl; [reflexivity|].
  destruct (k =? a)%Z; [discriminate|]. intros H. simpl. rewrite IH by exact H. reflexivity.
Qed.

Lemma astep s k s' e : AInv s -> pstep T s k = Some (s', e) -> AInv s'.
Proof.
  intros HA. pose proof HA as [A1 A2 A3 A4 A5 A6 A7 A8].
  unfold pstep. destruct (Nat.ltb_spec k (nthreads T)) as [Hk|_].
  - unfold tstep. destruct (nth_error (dates T) (tdate (threads s k))) as [d|] eqn:Hd; [|discriminate].
    destruct (tputs (threads s k)) as [[|[q v] r]|] eqn:Hp.
    + intros [= <- <-]. set (s1 := mkS _ _ _).
      assert (E : np s1 = np s).
      { unfold s1; simpl. unfold upd. destruct (Nat.eqb_spec k1 k) as [->|]; [|reflexivity].
        unfold nput. rewrite Hp. simpl. lia. }
      split; try rewrite E; unfold s1; simpl; auto.
      * intros r. unfold upd. destruct (Nat.eqb_spec k1 k); [discriminate|]. apply A5.
      * intros r. unfold upd. destruct (Nat.eqb_spec k1 k); [discriminate|]. apply A6.
      * intros j r v Hj Hne. unfold upd. destruct (Nat.eqb_spec j k); [discriminate|]. apply A7; auto.
    + destruct (try_put (queues s q) d v true false) as [q' o] eqn:Hput.
      destruct o; try discriminate. intros [= <- <-].
      apply try_put_done in Hput. destruct Hput as [-> Hcap].
      set (s1 := mkS _ _ _).
      destruct (Nat.eq_dec k k1) as [->|Hkk].
      * (* the producer itself *)
        pose proof (A5 _ Hp) as Hnd. simpl in Hnd. apply NoDup_cons_iff in Hnd.
        destruct Hnd as [Hnq Hnr]. destruct (A6 _ Hp) as [dn Edn].
        assert (Hnp1 : np s1 = if Nat.eq_dec q q1 then S (np s) else np s).
        { unfold s1; simpl. rewrite upd_eq. unfold nput. simpl. rewrite Hp. simpl.
          destruct (Nat.eq_dec q q1) as [E0|E0].
          - subst q. destruct (in_dec Nat.eq_dec q1 (map fst r)); [contradiction|]. lia.
          - destruct (in_dec Nat.eq_dec q1 (map fst r)); reflexivity. }
        destruct (Nat.eq_dec q q1) as [->|Hqq].
        -- assert (Hnpd : np s = tdate (threads s k1)).
           { unfold nput. rewrite Hp. simpl. destruct (Nat.eq_dec q1 q1); [lia|congruence]. }
           assert (Hnew : d_find d (items (queues s q1)) = None).
           { destruct (d_find d (items (queues s q1))) eqn:F; [|reflexivity].
             destruct (A2 d) as (i & Hi & Hlt); [congruence|].
             pose proof (dts_inj _ Hdates _ _ _ Hi Hd). lia. }
           split; try rewrite Hnp1; unfold s1; cbn [queues threads cleaner];
             rewrite ?upd_eq; cbn [maxsize items tputs tdate]; auto.
           ++ intros d'. rewrite d_find_update. destruct (Z.eqb_spec d' d) as [->|].
              ** intros _. exists (tdate (threads s k1)). split; [exact Hd|lia].
              ** intros F. destruct (A2 d' F) as (i & Hi & Hlt). exists i. split; [exact Hi|lia].
           ++ rewrite d_update_new_len by exact Hnew. lia.
           ++ unfold qsize in *. cbn [items]. rewrite d_update_new_len by exact Hnew.
              rewrite A1 in Hcap. specialize (Hcap Hpos). lia.
           ++ intros r0 [= <-]. exact Hnr.
           ++ intros r0 [= <-]. exists (dn ++ [q1]). rewrite <- app_assoc. exact Edn.
           ++ intros j r0 v0 Hj Hne. rewrite upd_neq by exact Hne. apply A7; auto.
        -- split; try rewrite Hnp1; unfold s1; cbn [queues threads cleaner];
             rewrite ?upd_eq, ?(upd_neq _ q _ q1) by congruence; cbn [maxsize items tputs tdate]; auto.
           ++ intros r0 [= <-]. exact Hnr.
           ++ intros r0 [= <-]. exists (dn ++ [q]). rewrite <- app_assoc. exact Edn.
           ++ intros j r0 v0 Hj Hne. rewrite upd_neq by exact Hne. apply A7; auto.
      * assert (Hqq : q <> q1).
        { intros ->. apply (A7 k _ v Hk Hkk Hp). left; reflexivity. }
        split; unfold s1; cbn [queues threads cleaner];
          rewrite ?(upd_neq _ k _ k1), ?(upd_neq _ q _ q1) by congruence; auto.
        intros j r0 v0 Hj Hne. unfold upd. destruct (Nat.eqb_spec j k) as [->|]; [|apply A7; auto].
        simpl. intros [= <-] Hin. apply (A7 k _ v0 Hk Hkk Hp). right; exact Hin.
    + destruct (nextq _ _ _ _ _) as [q|].
      * destruct (try_get (queues s q) d true None false) as [q' o] eqn:Hg.
        destruct o; try discriminate. intros [= <- <-].
        pose proof (try_get_val _ _ _ _ Hg) as [-> _]. set (s1 := mkS _ _ _).
        assert (E : np s1 = np s).
        { unfold s1; simpl. unfold upd. destruct (Nat.eqb_spec k1 k) as [->|]; [|reflexivity].
          unfold nput. rewrite Hp. reflexivity. }
        split; try rewrite E; unfold s1; cbn [queues threads cleaner]; rewrite ?upd_same_queue; auto.
        -- intros r. unfold upd. destruct (Nat.eqb_spec k1 k); [discriminate|]. apply A5.
        -- intros r. unfold upd. destruct (Nat.eqb_spec k1 k); [discriminate|]. apply A6.
        -- intros j r0 v0 Hj Hne. unfold upd. destruct (Nat.eqb_spec j k); [discriminate|]. apply A7; auto.
      * destruct (finish _ _ _ _ _) as [f l']. intros [= <- <-]. set (s1 := mkS _ _ _).
        assert (E : np s1 = np s).
        { unfold s1; simpl. unfold upd. destruct (Nat.eqb_spec k1 k) as [<-|]; [|reflexivity].
          unfold nput. rewrite Hp. simpl. rewrite map_map. simpl. rewrite map_id.
          destruct (in_dec _ _ _) as [|Hni]; [reflexivity|]. exfalso; apply Hni. apply Hout. }
        split; try rewrite E; unfold s1; cbn [queues threads cleaner]; auto.
        -- intros r. unfold upd. destruct (Nat.eqb_spec k1 k) as [<-|]; [|apply A5].
           simpl. intros [= <-]. rewrite map_map. simpl. rewrite map_id. apply Hout.
        -- intros r. unfold upd. destruct (Nat.eqb_spec k1 k) as [<-|]; [|apply A6].
           simpl. intros [= <-]. exists []. rewrite map_map. simpl. rewrite map_id. reflexivity.
        -- intros j r0 v0 Hj Hne. unfold upd. destruct (Nat.eqb_spec j k) as [->|]; [|apply A7; auto].
           simpl. intros [= <-] Hin. apply in_map_iff in Hin. destruct Hin as (q & [= -> _] & Hin).
           exact (Hoth k _ Hk Hne Hin).
  - destruct (k =? nthreads T); [|discriminate]. unfold cstep.
    destruct (nth_error (dates T) (cdate (cleaner s))) as [d|] eqn:Hd; [|discriminate].
    destruct (cph (cleaner s)) as [[|q r]|[|q r]] eqn:Hp.
    + intros [= <- <-]. split; simpl; auto.
      unfold ncl in *. simpl. rewrite Hp in A3. destruct (in_dec _ _ _); lia.
    + destruct (try_get (queues s q) d true None false) as [q' o] eqn:Hg.
      destruct o; try discriminate. intros [= <- <-].
      pose proof (try_get_val _ _ _ _ Hg) as [-> Hf].
      split; cbn [queues threads cleaner]; rewrite ?upd_same_queue; auto.
      unfold ncl in *. simpl. rewrite Hp in A3. lia.
    + intros [= <- <-]. split; simpl; auto.
      unfold ncl in *. simpl. rewrite Hp in A3. simpl in A3. lia.
    + intros [= <- <-]. apply NoDup_cons_iff in A8. destruct A8 as [B1 B2].
      set (s1 := mkS _ _ _). split; try exact A5; try exact A6; try exact A7.
      * unfold s1; cbn [queues]. unfold upd. destruct (q1 =? q) eqn:E; [|exact A1].
        apply Nat.eqb_eq in E. subst q. exact A1.
      * unfold s1; cbn [queues threads]. intros d'. unfold upd. destruct (q1 =? q) eqn:E; [|apply A2].
        apply Nat.eqb_eq in E. subst q. simpl. intros F. apply A2. eapply d_find_del_sub; exact F.
      * unfold s1; cbn [queues threads cleaner]. unfold upd, ncl in *. cbn [cph cdate]. rewrite Hp in A3.
        destruct (Nat.eqb_spec q1 q) as [<-|Hne].
        -- simpl. destruct (in_dec Nat.eq_dec q1 r); [contradiction|].
           destruct (in_dec Nat.eq_dec q1 (q1 :: r)) as [|Hni]; [|exfalso; apply Hni; left; reflexivity].
           pose proof (d_del_len _ d (items (queues s q1))). lia.
        -- destruct (in_dec Nat.eq_dec q1 r) as [Hr|Hr], (in_dec Nat.eq_dec q1 (q :: r)) as [Hi|Hi]; try lia.
           exfalso; apply Hi; right; exact Hr.
      * unfold s1; cbn [queues]. unfold upd. destruct (q1 =? q) eqn:E; [|exact A4].
        apply Nat.eqb_eq in E. subst q. unfold qsize in *. simpl.
        pose proof (d_del_length_le d (items (queues s q1))). lia.
      * unfold s1; simpl. exact B2.
Qed.

Lemma ahead_general sch s l :
  exec T (init T) sch = (s, l) ->
  (Z.of_nat (tdate (threads s k1)) <= Z.of_nat (cdate (cleaner s)) + qmax T + 1)%Z.
Proof.
  assert (G : forall sch s s' l, AInv s -> exec T s sch = (s', l) -> AInv s').
  { clear sch s l. induction sch as [|k r IH]; intros s s' l HI; simpl.
    - intros [= <- <-]; exact HI.
    - destruct (pstep T s k) as [[s1 e]|] eqn:E; [|apply IH; exact HI].
      destruct (exec T s1 r) as [s2 l2] eqn:E2. intros [= <- <-].
      apply (IH s1 _ l2); [|exact E2]. eapply astep; eauto. }
  intros H. destruct (G _ _ _ _ ainit H) as [_ _ A3 A4 _ _ _ _].
  pose proof (nput_bounds (threads s k1) q1). pose proof (ncl_bounds (cleaner s) q1).
  unfold qsize in A4. lia.
Qed.
End Ahead.
End Stall.
