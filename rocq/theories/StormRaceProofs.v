From Coq Require Import List ZArith Bool Arith Lia.
From Verif Require Import QueueModel QueueProofs PipelineModel PipelineSpec PipelineProofs
  StormRaceModel StormRaceSpec.
Import ListNotations.

(** * Two more invariants of the pipeline *)
Section Base.
Context {V L : Type}.
Variable T : topo V L.
Variable B : nat.
Variable owner : nat -> nat.
Hypothesis Hwf : wf T B owner.

(** number of dates whose computation the thread has finished *)
Definition fin (s : state V L) (k : nat) : nat :=
  tdate (threads s k) + match tputs (threads s k) with None => 0 | Some _ => 1 end.

Lemma fin_mono s k s' e j : pstep T s k = Some (s', e) -> fin s j <= fin s' j.
Proof.
  unfold pstep. destruct (k <? nthreads T).
  - unfold tstep. set (t := threads s k).
    destruct (nth_error (dates T) (tdate t)) as [d|]; [|discriminate].
    destruct (tputs t) as [[|[q v] r]|] eqn:Hp.
    + intros [= <- <-]. unfold fin; simpl. unfold upd.
      destruct (Nat.eqb_spec j k) as [->|]; [|lia]. fold t. rewrite Hp. simpl. lia.
    + destruct (try_put _ _ _ _ _) as [q' []]; try discriminate. intros [= <- <-].
      unfold fin; simpl. unfold upd.
      destruct (Nat.eqb_spec j k) as [->|]; [|lia]. fold t. rewrite Hp. simpl. lia.
    + destruct (nextq T k (tdate t) (tlocal t) (treads t)) as [q|].
      * destruct (try_get _ _ _ _ _) as [q' []]; try discriminate. intros [= <- <-].
        unfold fin; simpl. unfold upd.
        destruct (Nat.eqb_spec j k) as [->|]; [|lia]. fold t. rewrite Hp. simpl. lia.
      * destruct (finish T k (tdate t) (tlocal t) (treads t)) as [f l']. intros [= <- <-].
        unfold fin; simpl. unfold upd.
        destruct (Nat.eqb_spec j k) as [->|]; [|lia]. fold t. rewrite Hp. simpl. lia.
  - destruct (k =? nthreads T); [|discriminate]. unfold cstep.
    destruct (nth_error (dates T) (cdate (cleaner s))) as [d|]; [|discriminate].
    destruct (cph (cleaner s)) as [[|q r]|[|q r]].
    + intros [= <- <-]. apply le_n.
    + destruct (try_get _ _ _ _ _) as [q' []]; try discriminate. intros [= <- <-]. apply le_n.
    + intros [= <- <-]. apply le_n.
    + intros [= <- <-]. apply le_n.
Qed.

Lemma pcount_mono s k s' e q : pstep T s k = Some (s', e) -> pcount owner s q <= pcount owner s' q.
Proof.
  unfold pstep. destruct (k <? nthreads T).
  - unfold tstep. set (t := threads s k).
    destruct (nth_error (dates T) (tdate t)) as [d|]; [|discriminate].
    destruct (tputs t) as [[|[q0 v] r]|] eqn:Hp.
    + intros [= <- <-]. unfold pcount, nput; simpl. unfold upd.
      destruct (Nat.eqb_spec (owner q) k) as [->|]; [|lia]. fold t. rewrite Hp. simpl. lia.
    + destruct (try_put _ _ _ _ _) as [q' []]; try discriminate. intros [= <- <-].
      unfold pcount, nput; simpl. unfold upd.
      destruct (Nat.eqb_spec (owner q) k) as [->|]; [|lia]. fold t. rewrite Hp. cbn [map fst tdate tputs].
      destruct (in_dec Nat.eq_dec q (q0 :: map fst r)) as [|Hn],
        (in_dec Nat.eq_dec q (map fst r)) as [Hi|]; try lia.
      exfalso; apply Hn; right; exact Hi.
    + destruct (nextq T k (tdate t) (tlocal t) (treads t)) as [q0|].
      * destruct (try_get _ _ _ _ _) as [q' []]; try discriminate. intros [= <- <-].
        unfold pcount, nput; simpl. unfold upd.
        destruct (Nat.eqb_spec (owner q) k) as [->|]; [|lia]. fold t. rewrite Hp. simpl. lia.
      * destruct (finish T k (tdate t) (tlocal t) (treads t)) as [f l']. intros [= <- <-].
        unfold pcount, nput; simpl. unfold upd.
        destruct (Nat.eqb_spec (owner q) k) as [->|]; [|lia]. fold t. rewrite Hp. simpl. lia.
  - destruct (k =? nthreads T); [|discriminate]. unfold cstep.
    destruct (nth_error (dates T) (cdate (cleaner s))) as [d|]; [|discriminate].
    destruct (cph (cleaner s)) as [[|q0 r]|[|q0 r]].
    + intros [= <- <-]. apply le_n.
    + destruct (try_get _ _ _ _ _) as [q' []]; try discriminate. intros [= <- <-]. apply le_n.
    + intros [= <- <-]. apply le_n.
    + intros [= <- <-]. apply le_n.
Qed.

(** whatever a thread has read for its date had been put for that date *)
Definition rd_inv (s : state V L) : Prop :=
  forall k, k < nthreads T -> tputs (threads s k) = None ->
  forall n q, n < length (treads (threads s k)) ->
    nextq T k (tdate (threads s k)) (tlocal (threads s k)) (firstn n (treads (threads s k))) = Some q ->
    tdate (threads s k) < pcount owner s q.

Lemma pstep_rd s k s' e : Inv T B owner s -> rd_inv s -> pstep T s k = Some (s', e) -> rd_inv s'.
Proof.
  intros HI HR E j Hj Hpj n q Hn Hq.
  pose proof (pcount_mono _ _ _ _ q E) as Hmono. revert E Hpj n q Hn Hq Hmono.
  unfold pstep. destruct (Nat.ltb_spec k (nthreads T)) as [Hk|Hk].
  - unfold tstep. set (t := threads s k).
    destruct (nth_error (dates T) (tdate t)) as [d|] eqn:Hd; [|discriminate].
    destruct (tputs t) as [[|[q0 v] r]|] eqn:Hp.
    + intros [= <- <-]. simpl. unfold upd. destruct (Nat.eqb_spec j k) as [->|].
      * simpl. intros; lia.
      * intros Hpj n0 q Hn Hq Hm. eapply Nat.lt_le_trans; [|exact Hm]. eapply HR; eauto.
    + destruct (try_put _ _ _ _ _) as [q' []]; try discriminate. intros [= <- <-].
      simpl. unfold upd. destruct (Nat.eqb_spec j k) as [->|].
      * simpl. intros; discriminate.
      * intros Hpj n0 q Hn Hq Hm. eapply Nat.lt_le_trans; [|exact Hm]. eapply HR; eauto.
    + destruct (nextq T k (tdate t) (tlocal t) (treads t)) as [q0|] eqn:Eq.
      * destruct (try_get _ _ _ _ _) as [q' []] eqn:Eg; try discriminate. intros [= <- <-].
        simpl. unfold upd. destruct (Nat.eqb_spec j k) as [->|].
        { cbn [tdate tlocal treads tputs]. intros _ n q Hn Hq Hm. eapply Nat.lt_le_trans; [|exact Hm].
          rewrite app_length in Hn. simpl in Hn.
          destruct (Nat.eq_dec n (length (treads t))) as [->|].
          - rewrite firstn_app, firstn_all, Nat.sub_diag in Hq. simpl in Hq. rewrite app_nil_r in Hq.
            rewrite Eq in Hq. injection Hq as ->.
            destruct (wf_reads Hwf _ _ _ _ _ Hk Eq) as [Hqi _].
            apply try_get_val in Eg as [_ Hf].
            destruct (iq _ _ _ _ HI q Hqi) as [_ _ Hle Hcont _].
            rewrite (content_find _ (wf_dates Hwf) _ _ _ _ _ _ Hcont Hd) in Hf.
            destruct (andb _ _) eqn:Ea; [|discriminate].
            apply andb_true_iff in Ea as [Ea1 Ea2]. apply Nat.leb_le in Ea1. apply Nat.ltb_lt in Ea2.
            lia.
          - rewrite firstn_app in Hq. replace (n - length (treads t)) with 0 in Hq by lia.
            simpl in Hq. rewrite app_nil_r in Hq. apply (HR k Hk Hp n q); [fold t; lia|exact Hq]. }
        { intros Hpj n0 q Hn Hq Hm. eapply Nat.lt_le_trans; [|exact Hm]. eapply HR; eauto. }
      * destruct (finish T k (tdate t) (tlocal t) (treads t)) as [f l']. intros [= <- <-].
        simpl. unfold upd. destruct (Nat.eqb_spec j k) as [->|].
        { simpl. intros; discriminate. }
        { intros Hpj n0 q Hn Hq Hm. eapply Nat.lt_le_trans; [|exact Hm]. eapply HR; eauto. }
  - destruct (k =? nthreads T); [|discriminate]. unfold cstep.
    destruct (nth_error (dates T) (cdate (cleaner s))) as [d|]; [|discriminate].
    destruct (cph (cleaner s)) as [[|q0 r]|[|q0 r]].
    + intros [= <- <-]. simpl. intros. eapply Nat.lt_le_trans; [|eassumption]. eapply HR; eauto.
    + destruct (try_get _ _ _ _ _) as [q' []]; try discriminate. intros [= <- <-].
      simpl. intros. eapply Nat.lt_le_trans; [|eassumption]. eapply HR; eauto.
    + intros [= <- <-]. simpl. intros. eapply Nat.lt_le_trans; [|eassumption]. eapply HR; eauto.
    + intros [= <- <-]. simpl. intros. eapply Nat.lt_le_trans; [|eassumption]. eapply HR; eauto.
Qed.

Lemma exec_rd s sch s' l : Inv T B owner s -> rd_inv s -> exec T s sch = (s', l) -> rd_inv s'.
Proof.
  revert s l; induction sch as [|k r IH]; intros s l HI HR E; simpl in E.
  - injection E as <- <-; exact HR.
  - destruct (pstep T s k) as [[s1 e]|] eqn:E1; [|eauto].
    destruct (exec T s1 r) as [s2 l2] eqn:E2. injection E as <- <-.
    apply (IH s1 l2); [|eapply pstep_rd; eauto|exact E2].
    exact (pstep_inv T B owner Hwf _ _ _ _ HI E1).
Qed.

Lemma serial_value_known i q v : serial_value T B i q = Some v -> In q (qids T).
Proof.
  unfold serial_value. destruct (serial_locals T B i) as [loc|]; [|discriminate].
  unfold serial_date.
  assert (G : forall n st loc', n <= nthreads T ->
    serial_threads T B i n (fun _ => None, loc) = Some (st, loc') ->
    forall v, st q = Some v -> In q (qids T)).
  { induction n as [|n IH]; intros st loc' Hn E v0 Hv; simpl in E.
    - injection E as <- _. discriminate.
    - destruct (serial_threads T B i n (fun _ => None, loc)) as [[st1 l1]|] eqn:E1; [|discriminate].
      unfold serial_thread in E. destruct (read_all _ _ _ _ _ _ _); [|discriminate].
      destruct (finish _ _ _ _ _) as [f l']. injection E as <- _. unfold set_many in Hv.
      destruct (in_dec Nat.eq_dec q (outs T n i)) as [Hi|].
      + apply (wf_outs Hwf n i q) in Hi; [tauto|lia].
      + eapply (IH st1 l1); eauto. lia. }
  destruct (serial_threads T B i (nthreads T) (fun _ => None, loc)) as [[st l']|] eqn:E; [|discriminate].
  exact (G _ _ _ (le_n _) E v).
Qed.

(** a thread that reads queue [q0] first of all has done so once it has read anything *)
Definition fst_inv (k q0 : nat) (s : state V L) : Prop :=
  treads (threads s k) <> [] \/ tputs (threads s k) <> None ->
  tdate (threads s k) < pcount owner s q0.

Lemma pstep_fst k0 q0 s k s' e :
  k0 < nthreads T -> (forall i l, nextq T k0 i l [] = Some q0) ->
  Inv T B owner s -> rd_inv s -> fst_inv k0 q0 s -> pstep T s k = Some (s', e) -> fst_inv k0 q0 s'.
Proof.
  intros Hk0 Hf HI HR HF E Hc.
  pose proof (pcount_mono _ _ _ _ q0 E) as Hm. pose proof (pstep_rd _ _ _ _ HI HR E) as HR'.
  destruct (tputs (threads s' k0)) eqn:Ep.
  - (* computed: read before *)
    revert E. unfold pstep. destruct (Nat.ltb_spec k (nthreads T)) as [Hk|Hk].
    + unfold tstep. set (t := threads s k).
      destruct (nth_error (dates T) (tdate t)) as [d|] eqn:Hd; [|discriminate].
      destruct (tputs t) as [[|[q v] r]|] eqn:Hp.
      * intros [= <- <-]. revert Ep Hm. simpl. unfold upd. destruct (Nat.eqb_spec k0 k) as [->|].
        { simpl. discriminate. }
        { intros Ep Hm. eapply Nat.lt_le_trans; [|exact Hm]. apply HF. right; congruence. }
      * destruct (try_put _ _ _ _ _) as [q' []]; try discriminate. intros [= <- <-].
        revert Ep Hm. simpl. unfold upd. destruct (Nat.eqb_spec k0 k) as [->|].
        { simpl. intros _ Hm. eapply Nat.lt_le_trans; [|exact Hm]. apply HF. right. fold t. congruence. }
        { intros Ep Hm. eapply Nat.lt_le_trans; [|exact Hm]. apply HF. right; congruence. }
      * destruct (nextq T k (tdate t) (tlocal t) (treads t)) as [q|] eqn:En.
        { destruct (try_get _ _ _ _ _) as [q' []]; try discriminate. intros [= <- <-].
          revert Ep Hm. simpl. unfold upd. destruct (Nat.eqb_spec k0 k) as [->|].
          { simpl. discriminate. }
          { intros Ep Hm. eapply Nat.lt_le_trans; [|exact Hm]. apply HF. right; congruence. } }
        { destruct (finish T k (tdate t) (tlocal t) (treads t)) as [f l']. intros [= <- <-].
          revert Ep Hm. simpl. unfold upd. destruct (Nat.eqb_spec k0 k) as [->|].
          { simpl. intros _ Hm. eapply Nat.lt_le_trans; [|exact Hm]. apply HF. left. fold t.
            intros E0. rewrite E0, Hf in En. discriminate. }
          { intros Ep Hm. eapply Nat.lt_le_trans; [|exact Hm]. apply HF. right; congruence. } }
    + destruct (k =? nthreads T); [|discriminate]. unfold cstep.
      destruct (nth_error (dates T) (cdate (cleaner s))) as [d|]; [|discriminate].
      destruct (cph (cleaner s)) as [[|q r]|[|q r]].
      * intros [= <- <-]. eapply Nat.lt_le_trans; [|exact Hm]. apply HF. right. simpl in Ep. congruence.
      * destruct (try_get _ _ _ _ _) as [q' []]; try discriminate. intros [= <- <-].
        eapply Nat.lt_le_trans; [|exact Hm]. apply HF. right. simpl in Ep. congruence.
      * intros [= <- <-]. eapply Nat.lt_le_trans; [|exact Hm]. apply HF. right. simpl in Ep. congruence.
      * intros [= <- <-]. eapply Nat.lt_le_trans; [|exact Hm]. apply HF. right. simpl in Ep. congruence.
  - destruct Hc as [Hc|Hc]; [|congruence].
    apply (HR' k0 Hk0 Ep 0 q0).
    + destruct (treads (threads s' k0)); [congruence|simpl; lia].
    + apply Hf.
Qed.

Lemma exec_fst k0 q0 s sch s' l :
  k0 < nthreads T -> (forall i l, nextq T k0 i l [] = Some q0) ->
  Inv T B owner s -> rd_inv s -> fst_inv k0 q0 s -> exec T s sch = (s', l) -> fst_inv k0 q0 s'.
Proof.
  intros Hk0 Hf. revert s l; induction sch as [|k r IH]; intros s l HI HR HF E; simpl in E.
  - injection E as <- <-; exact HF.
  - destruct (pstep T s k) as [[s1 e]|] eqn:E1; [|eauto].
    destruct (exec T s1 r) as [s2 l2] eqn:E2. injection E as <- <-.
    apply (IH s1 l2); [| | |exact E2].
    + exact (pstep_inv T B owner Hwf _ _ _ _ HI E1).
    + eapply pstep_rd; eauto.
    + eapply pstep_fst; eauto.
Qed.

Lemma init_fst k0 q0 : fst_inv k0 q0 (init T).
Proof. intros [H|H]; exfalso; apply H; reflexivity. Qed.

Lemma init_rd : rd_inv (init T).
Proof. intros k Hk Hp n q Hn. simpl in Hn. lia. Qed.
End Base.

(** * The race machine *)
Section Race.
Context {V L A : Type}.
Variable R : race V L A.
Variable B : nat.
Variable owner : nat -> nat.
Variable clean : nat -> Prop.
Variable firstq : nat.
Hypothesis HW : race_wf R B owner clean firstq.

Notation w := (writer R).

Lemma inst_wf a : wf (inst R a) B owner.
Proof. destruct (rw_wf HW). split; simpl; assumption. Qed.

(** what the clean threads do does not depend on what anybody sees *)
Lemma read_all_same a a' fuel k i l st st' vs :
  clean k -> k < nthreads (skel R) ->
  (forall q, In q (qids (skel R)) -> clean (owner q) -> st q = st' q) ->
  read_all (inst R a) fuel k i l st vs = read_all (inst R a') fuel k i l st' vs.
Proof.
  intros Hc Hk H. revert vs; induction fuel as [|n IH]; intros vs; simpl;
    destruct (nextq (skel R) k i l vs) as [q|] eqn:E; try reflexivity.
  pose proof (rw_closed HW _ _ _ _ _ Hc Hk E) as Hq.
  destruct (wf_reads (rw_wf HW) _ _ _ _ _ Hk E) as [Hqi _].
  rewrite (H q Hqi Hq). destruct (st' q); [apply IH|reflexivity].
Qed.

Lemma clean_serial_date a a' i loc loc' :
  serial_locals (inst R a) B i = Some loc -> serial_locals (inst R a') B i = Some loc' ->
  (forall k, clean k -> k < nthreads (skel R) -> loc k = loc' k) ->
  forall n k, k < n -> clean k -> k < nthreads (skel R) ->
  read_all (inst R a) B k i (loc k) (serial_value (inst R a) B i) [] =
  read_all (inst R a') B k i (loc' k) (serial_value (inst R a') B i) [] /\
  forall q, In q (qids (skel R)) -> owner q = k ->
    serial_value (inst R a) B i q = serial_value (inst R a') B i q.
Proof.
  intros E E' Hl. induction n as [|n IH]; intros k Hkn Hc Hk; [lia|].
  destruct (serial_fix _ B owner (inst_wf a) i loc k E Hk) as (vs & l1 & Er & _ & _ & Hv).
  destruct (serial_fix _ B owner (inst_wf a') i loc' k E' Hk) as (vs' & l1' & Er' & _ & _ & Hv').
  assert (G : read_all (inst R a) B k i (loc k) (serial_value (inst R a) B i) [] =
              read_all (inst R a') B k i (loc' k) (serial_value (inst R a') B i) []).
  { rewrite (Hl k Hc Hk).
    rewrite <- (read_all_ext (inst R a) B owner (inst_wf a) B k i (loc' k)
                  (fun q => if owner q <? k then serial_value (inst R a) B i q
                            else serial_value (inst R a') B i q)
                  (serial_value (inst R a) B i) []); [|exact Hk|].
    2:{ intros q _ Ho. apply Nat.ltb_lt in Ho. rewrite Ho. reflexivity. }
    apply read_all_same; [exact Hc|exact Hk|]. intros q Hqi Hqc.
    destruct (Nat.ltb_spec (owner q) k) as [Ho|]; [|reflexivity].
    apply (IH (owner q)); auto; lia. }
  split; [exact G|]. rewrite Er, Er' in G. injection G as <-.
  intros q Hqi Hqo.
  assert (Ho : In q (outs (skel R) k i)) by (apply (wf_outs (rw_wf HW) k i q Hk); auto).
  rewrite (Hv q Ho), (Hv' q Ho). simpl. rewrite (Hl k Hc Hk).
  rewrite (rw_blind HW k i (loc' k) vs (a k i) (a' k i) Hc Hk). reflexivity.
Qed.

Lemma clean_serial_locals a a' i loc loc' :
  serial_locals (inst R a) B i = Some loc -> serial_locals (inst R a') B i = Some loc' ->
  forall k, clean k -> k < nthreads (skel R) -> loc k = loc' k.
Proof.
  revert loc loc'; induction i as [|i IH]; intros loc loc' E E' k Hc Hk.
  - simpl in E, E'. congruence.
  - destruct (serial_locals_total (inst R a) B owner (inst_wf a) i) as [m Em].
    destruct (serial_locals_total (inst R a') B owner (inst_wf a') i) as [m' Em'].
    pose proof (IH m m' Em Em') as Hm.
    destruct (serial_fix _ B owner (inst_wf a) i m k Em Hk) as (vs & l1 & Er & E1 & Hf & _).
    destruct (serial_fix _ B owner (inst_wf a') i m' k Em' Hk) as (vs' & l1' & Er' & E1' & Hf' & _).
    destruct (clean_serial_date a a' i m m' Em Em' Hm (S k) k (Nat.lt_succ_diag_r k) Hc Hk) as [G _].
    rewrite Er, Er' in G. injection G as <-.
    rewrite E in E1. injection E1 as <-. rewrite E' in E1'. injection E1' as <-.
    rewrite Hf, Hf'. simpl. rewrite (Hm k Hc Hk).
    rewrite (rw_blind HW k i (m' k) vs (a k i) (a' k i) Hc Hk). reflexivity.
Qed.

Lemma clean_serial_value a a' i q :
  In q (qids (skel R)) -> clean (owner q) ->
  serial_value (inst R a) B i q = serial_value (inst R a') B i q.
Proof.
  intros Hq Hc. pose proof (wf_owner (rw_wf HW) q Hq) as Ho.
  destruct (serial_locals_total (inst R a) B owner (inst_wf a) i) as [m Em].
  destruct (serial_locals_total (inst R a') B owner (inst_wf a') i) as [m' Em'].
  destruct (clean_serial_date a a' i m m' Em Em' (clean_serial_locals a a' i m m' Em Em')
              (S (owner q)) (owner q) (Nat.lt_succ_diag_r _) Hc Ho) as [_ G].
  apply G; auto.
Qed.

(** a step depends on what its own thread has seen for its own date only *)
Lemma pstep_same a a' s k :
  (k < nthreads (skel R) -> a k (tdate (threads s k)) = a' k (tdate (threads s k))) ->
  pstep (inst R a) s k = pstep (inst R a') s k.
Proof.
  intros H. unfold pstep. simpl. destruct (Nat.ltb_spec k (nthreads (skel R))) as [Hk|]; [|reflexivity].
  unfold tstep. simpl. rewrite (H Hk). reflexivity.
Qed.

(** ... and only when it finishes its computation *)
Lemma pstep_not_computing a a' s k :
  (k < nthreads (skel R) -> computing R s k = false) ->
  pstep (inst R a) s k = pstep (inst R a') s k.
Proof.
  intros H. unfold pstep. simpl. destruct (Nat.ltb_spec k (nthreads (skel R))) as [Hk|]; [|reflexivity].
  specialize (H Hk). unfold computing in H. unfold tstep. simpl.
  destruct (nth_error _ _); [|reflexivity].
  destruct (tputs _); [reflexivity|]. destruct (nextq _ _ _ _ _); [reflexivity|discriminate].
Qed.

Definition sight (i : nat) (x : A) : Prop :=
  exists m j, arr_at R B m j x /\ i < m /\
    ((0 < qmax (skel R))%Z ->
     (Z.of_nat (m + (if (j =? 0)%nat then 0 else 1))%nat <= Z.of_nat i + qmax (skel R))%Z).

Record RInv (s : rstate V L A) (ev : list (event V)) : Prop := {
  ri_base : exists a sch, forall a',
    (forall k i, i < fin (base s) k -> a' k i = a k i) ->
    exec (inst R a') (init (skel R)) sch = (base s, ev);
  ri_arr : exists y, arr_after R B (fin (base s) w) = Some y /\
    arr s = apply_ops (firstn (ndone s) (cur_ops R (base s))) y /\
    ndone s <= length (cur_ops R (base s));
  ri_idle : computing R (base s) w = false -> ndone s = 0;
  ri_looks : forall k, k < nthreads (skel R) -> looks s k <> [] -> tputs (threads (base s) k) = None;
  ri_sight : forall k x, k < nthreads (skel R) -> In x (looks s k) -> sight (tdate (threads (base s) k)) x }.

Lemma rinit_inv : RInv (rinit R) [].
Proof.
  split; simpl.
  - exists (fun _ _ => []), []. reflexivity.
  - exists (arr0 R). split; [reflexivity|]. split; [reflexivity|lia].
  - reflexivity.
  - intros k _ H. exfalso; apply H; reflexivity.
  - contradiction.
Qed.

Lemma ri_inv s ev : RInv s ev -> exists a,
  Inv (inst R a) B owner (base s) /\ rd_inv (inst R a) owner (base s) /\
  fst_inv owner w firstq (base s).
Proof.
  intros [(a & sch & H) _ _ _ _]. exists a. specialize (H a (fun _ _ _ => eq_refl)).
  change (init (skel R)) with (init (inst R a)) in H. split; [|split].
  - exact (reach_inv _ B owner (inst_wf a) _ _ _ H).
  - exact (exec_rd _ B owner (inst_wf a) _ _ _ _ (init_inv _ B owner (inst_wf a)) (init_rd _ owner) H).
  - exact (exec_fst _ B owner (inst_wf a) w firstq _ _ _ _ (rw_writer HW) (rw_first HW)
             (init_inv _ B owner (inst_wf a)) (init_rd _ owner) (init_fst _ owner w firstq) H).
Qed.

(** while the writer computes, its statements are those of the serial run *)
Lemma cur_ops_serial s ev :
  RInv s ev -> computing R (base s) w = true ->
  date_ops R B (tdate (threads (base s) w)) = Some (cur_ops R (base s)) /\
  tputs (threads (base s) w) = None.
Proof.
  intros HI Hc. destruct (ri_inv s ev HI) as (a & HB & _ & _).
  pose proof (it _ _ _ _ HB w (rw_writer HW)) as Ht.
  unfold computing in Hc. unfold tinv in Ht. unfold cur_ops.
  set (t := threads (base s) w) in *.
  destruct (nth_error _ _); [|discriminate]. destruct (tputs t); [discriminate|].
  destruct (nextq _ _ _ _ _) eqn:En; [discriminate|].
  destruct Ht as (_ & _ & loc & fuel & vs & El & Eloc & Er & Er').
  split; [|reflexivity].
  rewrite <- Eloc in Er'.
  assert (Evs : vs = treads t).
  { destruct fuel; simpl in Er'; rewrite En in Er'; congruence. }
  subst vs. unfold date_ops, no_look.
  destruct (serial_locals_total (inst R (fun _ _ => [])) B owner (inst_wf _) (tdate t)) as [l0 E0].
  rewrite E0.
  pose proof (clean_serial_locals a (fun _ _ => []) _ _ _ El E0) as Hl.
  destruct (clean_serial_date a (fun _ _ => []) _ _ _ El E0 Hl (S w) w (Nat.lt_succ_diag_r _)
              (rw_clean HW) (rw_writer HW)) as [G _].
  rewrite Er in G. rewrite <- G. rewrite <- (Hl w (rw_clean HW) (rw_writer HW)), <- Eloc. reflexivity.
Qed.

(** where the array is, in terms of a thread that still holds the reference *)
Lemma look_sight s ev k :
  RInv s ev -> k < nthreads (skel R) -> holds R (base s) k = true ->
  sight (tdate (threads (base s) k)) (arr s) /\ tputs (threads (base s) k) = None.
Proof.
  intros HI Hk Hh. destruct (ri_inv s ev HI) as (a & HB & HR & HF).
  destruct (ri_arr _ _ HI) as (y & Hy & Harr & Hle).
  unfold holds in Hh. set (t := threads (base s) k) in *.
  destruct (tputs t) eqn:Hp; [discriminate|]. split; [|reflexivity].
  apply existsb_exists in Hh as (n & Hn & Hq). apply in_seq in Hn.
  destruct (nextq (skel R) k (tdate t) (tlocal t) (firstn n (treads t))) as [q|] eqn:En; [|discriminate].
  apply existsb_exists in Hq as (q' & Hq' & Eq). apply Nat.eqb_eq in Eq. subst q'.
  destruct (rw_refq HW q Hq') as [Hqi Hqo].
  pose proof (HR k Hk Hp n q ltac:(fold t; lia) En) as Hlow. fold t in Hlow.
  assert (Hlow' : tdate t < fin (base s) w).
  { revert Hlow. unfold pcount, nput, fin. rewrite Hqo.
    destruct (tputs (threads (base s) w)); [|lia]. destruct (in_dec _ _ _); lia. }
  exists (fin (base s) w), (ndone s). split; [|split; [exact Hlow'|]].
  - exists y. split; [exact Hy|]. destruct (ndone s) as [|j] eqn:Ej; [exact Harr|].
    assert (Hc : computing R (base s) w = true).
    { destruct (computing R (base s) w) eqn:E; [reflexivity|].
      pose proof (ri_idle _ _ HI E). lia. }
    destruct (cur_ops_serial s ev HI Hc) as [Ho Hpw].
    exists (cur_ops R (base s)). split; [|split; [exact Hle|exact Harr]].
    unfold fin. rewrite Hpw, Nat.add_0_r. exact Ho.
  - intros Hmax.
    destruct (outs (inst R a) w (tdate (threads (base s) w))) as [|o r] eqn:Eo.
    { exfalso. exact (wf_outs_some (inst_wf a) _ _ (rw_writer HW) Eo). }
    assert (Ho : In o (qids (skel R)) /\ owner o = w).
    { apply (outs_owner (inst R a) B owner (inst_wf a) w (tdate (threads (base s) w))); [exact (rw_writer HW)|].
      rewrite Eo. left; reflexivity. }
    destruct Ho as [Hoi Hoo].
    pose proof (reading_not_cleaned (inst R a) B owner (inst_wf a) (base s) k o HB Hk Hp) as Hcl. fold t in Hcl.
    destruct (iq _ _ _ _ HB o Hoi) as [_ _ Q3 _ Q5]. specialize (Q5 Hmax). cbn [qmax inst] in Q5.
    destruct (wf_reads (inst_wf a) w 0 (init_local (skel R) w) [] firstq (rw_writer HW) (rw_first HW _ _)) as [Hfi _].
    pose proof (reading_not_cleaned (inst R a) B owner (inst_wf a) (base s) k firstq HB Hk Hp) as Hcf.
    fold t in Hcf. destruct (iq _ _ _ _ HB firstq Hfi) as [_ _ F3 _ F5]. specialize (F5 Hmax).
    cbn [qmax inst] in F5. unfold fst_inv in HF.
    destruct (tputs (threads (base s) w)) eqn:Epw.
    + assert (ndone s = 0) as ->.
      { apply (ri_idle _ _ HI). unfold computing. rewrite Epw. destruct (nth_error _ _); reflexivity. }
      assert (Hlt : tdate (threads (base s) w) < pcount owner (base s) firstq) by (apply HF; right; discriminate).
      unfold fin. rewrite Epw. cbn [Nat.eqb]. lia.
    + destruct (ndone s =? 0) eqn:En0.
      * assert (fin (base s) w = pcount owner (base s) o) as ->.
        { unfold fin, pcount, nput. rewrite Hoo, Epw. reflexivity. }
        lia.
      * apply Nat.eqb_neq in En0.
        assert (Hc : computing R (base s) w = true).
        { destruct (computing R (base s) w) eqn:E; [reflexivity|].
          pose proof (ri_idle _ _ HI E). lia. }
        assert (Ht : treads (threads (base s) w) <> []).
        { intros E. unfold computing in Hc. rewrite E, (rw_first HW), Epw in Hc.
          destruct (nth_error _ _); discriminate. }
        specialize (HF (or_introl Ht)). unfold fin. rewrite Epw. lia.
Qed.

Lemma in_outs_finish s k : computing R s k = true -> tputs (threads s k) = None.
Proof.
  unfold computing. destruct (nth_error _ _); [|discriminate].
  destruct (tputs _); [discriminate|reflexivity].
Qed.

(** what a step does to its own thread *)
Lemma step_thread T (s : state V L) k s' e :
  nthreads T = nthreads (skel R) -> dates T = dates (skel R) -> nextq T = nextq (skel R) ->
  k < nthreads (skel R) -> pstep T s k = Some (s', e) ->
  (forall j, j <> k -> threads s' j = threads s j) /\
  (if computing R s k then
     tdate (threads s' k) = tdate (threads s k) /\ tputs (threads s' k) <> None
   else
     computing R s k = false /\
     (tputs (threads s k) = None -> tdate (threads s' k) = tdate (threads s k) /\ tputs (threads s' k) = None) /\
     fin s' k = fin s k).
Proof.
  intros En Ed Eq Hk. unfold pstep. rewrite En.
  destruct (Nat.ltb_spec k (nthreads (skel R))); [|lia].
  unfold tstep, computing, fin. set (t := threads s k). rewrite Ed, Eq.
  destruct (nth_error (dates (skel R)) (tdate t)) as [d|] eqn:Hd; [|discriminate].
  destruct (tputs t) as [[|[q v] r]|] eqn:Hp.
  - intros [= <- <-]. simpl. split; [intros j Hj; apply upd_neq; exact Hj|].
    rewrite upd_eq. simpl. split; [reflexivity|]. split; [discriminate|lia].
  - destruct (try_put _ _ _ _ _) as [q' []]; try discriminate. intros [= <- <-].
    simpl. split; [intros j Hj; apply upd_neq; exact Hj|].
    rewrite upd_eq. simpl. split; [reflexivity|]. split; [discriminate|lia].
  - destruct (nextq (skel R) k (tdate t) (tlocal t) (treads t)) as [q|].
    + destruct (try_get _ _ _ _ _) as [q' []]; try discriminate. intros [= <- <-].
      simpl. split; [intros j Hj; apply upd_neq; exact Hj|].
      rewrite upd_eq. simpl. split; [reflexivity|]. split; [auto|lia].
    + destruct (finish T k (tdate t) (tlocal t) (treads t)) as [f l']. intros [= <- <-].
      simpl. split; [intros j Hj; apply upd_neq; exact Hj|].
      rewrite upd_eq. simpl. split; [reflexivity|discriminate].
Qed.

Lemma cleaner_threads T (s : state V L) k s' e :
  nthreads T = nthreads (skel R) ->
  ~ k < nthreads (skel R) -> pstep T s k = Some (s', e) -> threads s' = threads s.
Proof.
  intros En Hk. unfold pstep. rewrite En.
  destruct (Nat.ltb_spec k (nthreads (skel R))); [lia|].
  destruct (k =? _); [|discriminate]. unfold cstep.
  destruct (nth_error (dates T) (cdate (cleaner s))) as [d|]; [|discriminate].
  destruct (cph (cleaner s)) as [[|q r]|[|q r]].
  - intros [= <- <-]. reflexivity.
  - destruct (try_get _ _ _ _ _) as [q' []]; try discriminate. intros [= <- <-]. reflexivity.
  - intros [= <- <-]. reflexivity.
  - intros [= <- <-]. reflexivity.
Qed.

Lemma computing_ext (s s' : state V L) k : threads s' k = threads s k -> computing R s' k = computing R s k.
Proof. intros E. unfold computing. rewrite E. reflexivity. Qed.
Lemma cur_ops_ext (s s' : state V L) : threads s' w = threads s w -> cur_ops R s' = cur_ops R s.
Proof. intros E. unfold cur_ops. rewrite E. reflexivity. Qed.
Lemma fin_ext (s s' : state V L) k : threads s' k = threads s k -> fin s' k = fin s k.
Proof. intros E. unfold fin. rewrite E. reflexivity. Qed.

Lemma rstep_inv s x s' e ev : RInv s ev -> rstep R s x = Some (s', e) -> RInv s' (ev ++ e).
Proof.
  intros HI. destruct x as [k| |k]; simpl.
  - (* Step *)
    destruct (Nat.ltb_spec k (nthreads (skel R))) as [Hk|Hk].
    + cbn [andb]. destruct (computing R (base s) k && (k =? w) && (ndone s <? length (cur_ops R (base s)))) eqn:Eb;
        [discriminate|].
      destruct (pstep (inst R (fun j _ => looks s j)) (base s) k) as [[b e0]|] eqn:Ep; [|discriminate].
      intros [= <- <-].
      destruct (step_thread (inst R (fun j _ => looks s j)) _ _ _ _ eq_refl eq_refl eq_refl Hk Ep) as [Hoth Hown].
      split; cbn [base arr ndone looks].
      * (* base *)
        destruct (ri_base _ _ HI) as (a & sch & Ha).
        exists (fun k' i => if (k' =? k) && (i =? tdate (threads (base s) k)) && computing R (base s) k
                            then looks s k else a k' i), (sch ++ [k]).
        intros a' Ha'. change (init (skel R)) with (init (inst R a')).
        rewrite (exec_app (inst R a')). change (init (inst R a')) with (init (skel R)).
        rewrite (Ha a').
        -- simpl. replace (pstep (inst R a') (base s) k) with (Some (b, e0)); [reflexivity|].
           rewrite <- Ep. destruct (computing R (base s) k) eqn:Ec.
           ++ apply pstep_same. intros _. rewrite Ha'.
              ** rewrite !Nat.eqb_refl. reflexivity.
              ** unfold fin. destruct Hown as [-> Hsome].
                 destruct (tputs (threads b k)); [lia|congruence].
           ++ apply pstep_not_computing. auto.
        -- intros k' i Hi. rewrite Ha' by (eapply Nat.lt_le_trans; [exact Hi|eapply fin_mono; exact Ep]).
           destruct (Nat.eqb_spec k' k) as [->|]; [|reflexivity].
           destruct (Nat.eqb_spec i (tdate (threads (base s) k))) as [->|]; [|reflexivity].
           destruct (computing R (base s) k) eqn:Ec; [|reflexivity].
           unfold fin in Hi. rewrite (in_outs_finish _ _ Ec) in Hi. lia.
      * (* arr *)
        destruct (ri_arr _ _ HI) as (y & Hy & Harr & Hle).
        destruct (Nat.eqb_spec k w) as [->|Hne].
        -- destruct (computing R (base s) w) eqn:Ec; cbn [andb] in *.
           ++ apply Nat.ltb_ge in Eb.
              destruct (cur_ops_serial s ev HI Ec) as [Ho Hpw].
              exists (arr s). split; [|split; [reflexivity|lia]].
              unfold fin. destruct Hown as [-> Hsome].
              destruct (tputs (threads b w)) eqn:Ebp; [|congruence].
              rewrite Nat.add_1_r. cbn [arr_after].
              unfold fin in Hy. rewrite Hpw, Nat.add_0_r in Hy. rewrite Hy, Ho.
              rewrite Harr, firstn_all2 by lia. reflexivity.
           ++ destruct Hown as (_ & _ & Hf). pose proof (ri_idle _ _ HI Ec) as Hz. rewrite Hz in Harr |- *.
              exists y. rewrite Hf. split; [exact Hy|]. split; [exact Harr|lia].
        -- rewrite andb_false_r. exists y.
           rewrite (fin_ext (base s) b w), (cur_ops_ext (base s) b) by (apply Hoth; congruence).
           auto.
      * (* idle *)
        destruct (Nat.eqb_spec k w) as [->|Hne].
        -- destruct (computing R (base s) w) eqn:Ec; cbn [andb]; [reflexivity|].
           intros _. exact (ri_idle _ _ HI Ec).
        -- rewrite andb_false_r. rewrite (computing_ext (base s) b w) by (apply Hoth; congruence).
           exact (ri_idle _ _ HI).
      * (* looks *)
        intros j Hj. destruct (Nat.eq_dec j k) as [->|Hne].
        -- destruct (computing R (base s) k) eqn:Ec; [rewrite upd_eq; congruence|].
           intros Hl. destruct Hown as (_ & Hn & _). apply Hn. exact (ri_looks _ _ HI k Hk Hl).
        -- replace ((if computing R (base s) k then upd (looks s) k [] else looks s) j) with (looks s j)
             by (destruct (computing R (base s) k); [symmetry; apply upd_neq; exact Hne|reflexivity]).
           rewrite (Hoth j Hne). apply (ri_looks _ _ HI j Hj).
      * (* sight *)
        intros j x Hj Hx. destruct (Nat.eq_dec j k) as [->|Hne].
        -- destruct (computing R (base s) k) eqn:Ec; [rewrite upd_eq in Hx; contradiction|].
           destruct Hown as (_ & Hn & _).
           assert (Hl : looks s k <> []) by (intros E; rewrite E in Hx; contradiction).
           destruct (Hn (ri_looks _ _ HI k Hk Hl)) as [-> _]. exact (ri_sight _ _ HI k x Hk Hx).
        -- replace ((if computing R (base s) k then upd (looks s) k [] else looks s) j) with (looks s j) in Hx
             by (destruct (computing R (base s) k); [symmetry; apply upd_neq; exact Hne|reflexivity]).
           rewrite (Hoth j Hne). exact (ri_sight _ _ HI j x Hj Hx).
    + cbn [andb].
      destruct (pstep (inst R (fun j _ => looks s j)) (base s) k) as [[b e0]|] eqn:Ep; [|discriminate].
      intros [= <- <-].
      pose proof (cleaner_threads (inst R (fun j _ => looks s j)) _ _ _ _ eq_refl (proj2 (Nat.nlt_ge _ _) Hk) Ep) as Hth.
      split; cbn [base arr ndone looks].
      * destruct (ri_base _ _ HI) as (a & sch & Ha). exists a, (sch ++ [k]). intros a' Ha'.
        change (init (skel R)) with (init (inst R a')).
        rewrite (exec_app (inst R a')). change (init (inst R a')) with (init (skel R)).
        rewrite (Ha a').
        -- simpl. replace (pstep (inst R a') (base s) k) with (Some (b, e0)); [reflexivity|].
           rewrite <- Ep. apply pstep_same. lia.
        -- intros k' i Hi. apply Ha'. rewrite (fin_ext (base s) b k') by (rewrite Hth; reflexivity). exact Hi.
      * rewrite (fin_ext (base s) b w), (cur_ops_ext (base s) b) by (rewrite Hth; reflexivity).
        exact (ri_arr _ _ HI).
      * rewrite (computing_ext (base s) b w) by (rewrite Hth; reflexivity). exact (ri_idle _ _ HI).
      * rewrite Hth. exact (ri_looks _ _ HI).
      * rewrite Hth. exact (ri_sight _ _ HI).
  - (* Mutate *)
    destruct (computing R (base s) w) eqn:Ec; [|discriminate].
    destruct (nth_error (cur_ops R (base s)) (ndone s)) as [f|] eqn:En; [|discriminate].
    intros [= <- <-]. rewrite app_nil_r. destruct HI as [H1 H2 H3 H4 H5].
    split; cbn [base arr ndone looks]; try assumption.
    + destruct H2 as (y & Hy & Harr & Hle). exists y. split; [exact Hy|].
      assert (Hlt : ndone s < length (cur_ops R (base s))) by (apply nth_error_Some; congruence).
      split; [|lia]. rewrite Harr.
      replace (firstn (S (ndone s)) (cur_ops R (base s)))
        with (firstn (ndone s) (cur_ops R (base s)) ++ [f]).
      { unfold apply_ops. rewrite fold_left_app. reflexivity. }
      clear - En. revert En. generalize (ndone s). generalize (cur_ops R (base s)).
      induction l as [|g l IH]; intros [|n] En; simpl in *; try discriminate.
      * congruence.
      * f_equal. apply IH. exact En.
    + congruence.
  - (* Look *)
    destruct (Nat.ltb_spec k (nthreads (skel R))) as [Hk|]; [|discriminate]. cbn [andb].
    destruct (holds R (base s) k) eqn:Eh; [|discriminate].
    intros [= <- <-]. rewrite app_nil_r.
    destruct (look_sight s ev k HI Hk Eh) as [Hs Hp]. destruct HI as [H1 H2 H3 H4 H5].
    split; cbn [base arr ndone looks]; try assumption.
    + intros j Hj. destruct (Nat.eq_dec j k) as [->|]; [auto|]. rewrite upd_neq by assumption. auto.
    + intros j x Hj Hx. destruct (Nat.eq_dec j k) as [->|].
      * rewrite upd_eq in Hx. apply in_app_or in Hx as [Hx|[<-|[]]]; [auto|exact Hs].
      * rewrite upd_neq in Hx by assumption. auto.
Qed.

Lemma rexec_inv sch : forall s ev s' l,
  RInv s ev -> rexec R s sch = (s', l) -> RInv s' (ev ++ l).
Proof.
  induction sch as [|x r IH]; intros s ev s' l HI E; simpl in E.
  - injection E as <- <-. rewrite app_nil_r. exact HI.
  - destruct (rstep R s x) as [[s1 e]|] eqn:E1; [|eauto].
    destruct (rexec R s1 r) as [s2 l2] eqn:E2. injection E as <- <-.
    rewrite app_assoc. eapply IH; [|exact E2]. eapply rstep_inv; eauto.
Qed.

Lemma reach_rinv sch s l : rexec R (rinit R) sch = (s, l) -> RInv s l.
Proof. intros E. exact (rexec_inv sch _ [] _ _ rinit_inv E). Qed.

End Race.
