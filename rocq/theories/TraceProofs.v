(** The sequence of puts and cleans on each queue of a threaded run. *)
From Coq Require Import List ZArith Bool Arith Lia.
From Verif Require Import QueueModel PipelineModel PipelineSpec PipelineProofs.
Import ListNotations.

Section Trace.
Context {V L : Type}.
Variable T : topo V L.
Variable B : nat.
Variable owner : nat -> nat.
Hypothesis Hwf : wf T B owner.

Notation N := (length (dates T)).
Notation val := (serial_value T B).
Notation Inv := (Inv T B owner).
Notation pcount := (pcount owner).

Definition pst (q a b : nat) : list (Z * option V) :=
  combine (firstn (b - a) (skipn a (dates T))) (map (fun i => val i q) (seq a (b - a))).

Lemma skipn_nth (A : Type) (l : list A) n x : nth_error l n = Some x -> skipn n l = x :: skipn (S n) l.
Proof.
  revert n; induction l as [|a l IH]; intros [|n] H; simpl in *; try discriminate.
  - congruence.
  - apply IH; exact H.
Qed.

Lemma pst_cons q a b d v :
  a < b -> nth_error (dates T) a = Some d -> val a q = Some v -> pst q a b = (d, Some v) :: pst q (S a) b.
Proof.
  intros Hab Hd Hv. unfold pst. replace (b - a) with (S (b - S a)) by lia.
  rewrite (skipn_nth _ _ _ _ Hd). cbn [firstn seq map combine]. rewrite Hv. reflexivity.
Qed.

Lemma pst_nil q a : pst q a a = [].
Proof. unfold pst. rewrite Nat.sub_diag. reflexivity. Qed.

Lemma step_puts s k s' e q :
  Inv s -> In q (qids T) -> pstep T s k = Some (s', e) ->
  (exists d v, puts_on q [e] = [(d, Some v)] /\ pcount s' q = S (pcount s q) /\
               nth_error (dates T) (pcount s q) = Some d /\ val (pcount s q) q = Some v) \/
  (puts_on q [e] = [] /\ pcount s' q = pcount s q).
Proof.
  intros HI Hq0. unfold pstep. destruct (Nat.ltb_spec k (nthreads T)) as [Hk|_].
  - unfold tstep. set (t := threads s k).
    destruct (nth_error (dates T) (tdate t)) as [d|] eqn:Hd; [|discriminate].
    pose proof (it _ _ _ _ HI k Hk) as Ht. unfold tinv in Ht. fold t in Ht.
    destruct (tputs t) as [[|[q1 v] r]|] eqn:Hp.
    + intros [= <- <-]. right. split; [reflexivity|]. unfold pcount. simpl. unfold upd.
      destruct (Nat.eqb_spec (owner q) k) as [E|]; [|reflexivity]. rewrite E. fold t.
      unfold nput. rewrite Hp. simpl. lia.
    + destruct (try_put (queues s q1) d v true false) as [q' o] eqn:Hput.
      destruct o; try discriminate. intros [= <- <-].
      destruct Ht as (HdN & (loc' & El & Eloc) & (dn & Edn) & Hall).
      inversion Hall as [|? ? Hv Hr]; subst. simpl in Hv.
      assert (Hown : In q1 (qids T) /\ owner q1 = k).
      { apply (outs_owner T B owner Hwf k (tdate t)); [exact Hk|]. rewrite Edn. apply in_or_app; right; left; reflexivity. }
      destruct Hown as [Hqn Hqk].
      assert (Hnd : NoDup (map fst ((q1, v) :: r))).
      { pose proof (wf_outs_nodup Hwf k (tdate t) Hk) as Hn. rewrite Edn in Hn.
        revert Hn. clear. induction dn as [|a dn IH]; simpl; [auto|]. intros H; inversion H; auto. }
      simpl in Hnd. apply NoDup_cons_iff in Hnd; destruct Hnd as [Hnq Hnr].
      simpl. destruct (Nat.eqb_spec q1 q) as [->|Hne].
      * left. exists d, v. split; [reflexivity|].
        assert (Hpq : pcount s q = tdate t).
        { unfold pcount. rewrite Hqk. fold t. unfold nput. rewrite Hp. simpl.
          destruct (Nat.eq_dec q q); [lia|congruence]. }
        rewrite Hpq. split; [|auto].
        unfold pcount. simpl. rewrite Hqk, upd_eq. unfold nput. simpl.
        destruct (in_dec _ _ _); [contradiction|lia].
      * right. split; [reflexivity|]. unfold pcount. simpl. unfold upd.
        destruct (Nat.eqb_spec (owner q) k) as [E|]; [|reflexivity]. rewrite E. fold t.
        unfold nput. rewrite Hp. simpl.
        destruct (Nat.eq_dec q1 q); [congruence|].
        destruct (in_dec Nat.eq_dec q (map fst r)); reflexivity.
    + destruct (nextq T k (tdate t) (tlocal t) (treads t)) as [q1|] eqn:En.
      * destruct (try_get (queues s q1) d true None false) as [q' o] eqn:Hg.
        destruct o; try discriminate. intros [= <- <-]. right. split; [reflexivity|].
        unfold pcount. simpl. unfold upd.
        destruct (Nat.eqb_spec (owner q) k) as [E|]; [|reflexivity]. rewrite E. fold t.
        unfold nput. rewrite Hp. reflexivity.
      * destruct (finish T k (tdate t) (tlocal t) (treads t)) as [f l'] eqn:Ef.
        intros [= <- <-]. right. split; [reflexivity|].
        unfold pcount. simpl. unfold upd.
        destruct (Nat.eqb_spec (owner q) k) as [E|]; [|reflexivity]. rewrite E. fold t.
        unfold nput. rewrite Hp. simpl. rewrite map_map. simpl. rewrite map_id.
        destruct (in_dec Nat.eq_dec q (outs T k (tdate t))) as [|Hni]; [reflexivity|].
        exfalso. apply Hni. apply (wf_outs Hwf k (tdate t) q Hk). auto.
  - destruct (k =? nthreads T); [|discriminate]. unfold cstep.
    destruct (nth_error (dates T) (cdate (cleaner s))) as [d|]; [|discriminate].
    destruct (cph (cleaner s)) as [[|q1 r]|[|q1 r]].
    + intros [= <- <-]. right; split; reflexivity.
    + destruct (try_get (queues s q1) d true None false) as [q' o]; destruct o; try discriminate.
      intros [= <- <-]. right; split; reflexivity.
    + intros [= <- <-]. right; split; reflexivity.
    + intros [= <- <-]. right; split; reflexivity.
Qed.

Lemma puts_on_cons q (e : event V) l : puts_on q (e :: l) = puts_on q [e] ++ puts_on q l.
Proof. destruct e; simpl; try reflexivity. destruct (_ =? _); reflexivity. Qed.

Lemma exec_puts s sch s' l q :
  Inv s -> In q (qids T) -> exec T s sch = (s', l) ->
  pcount s q <= pcount s' q /\ puts_on q l = pst q (pcount s q) (pcount s' q).
Proof.
  intros HI Hq. revert s l HI; induction sch as [|k r IH]; intros s l HI; cbn [exec].
  - intros [= <- <-]. rewrite pst_nil. auto.
  - destruct (pstep T s k) as [[s1 e]|] eqn:E; [|apply IH; exact HI].
    destruct (exec T s1 r) as [s2 l2] eqn:E2. intros [= <- <-].
    destruct (IH s1 l2 (pstep_inv T B owner Hwf _ _ _ _ HI E) E2) as [Hle Hl].
    rewrite puts_on_cons, Hl.
    destruct (step_puts _ _ _ _ _ HI Hq E) as [(d & v & -> & E1 & Hd & Hv)|[-> E1]]; rewrite E1 in *.
    + split; [lia|]. symmetry. apply pst_cons; [lia|exact Hd|exact Hv].
    + auto.
Qed.

Lemma finished_pcount s q : Inv s -> finished T s -> In q (qids T) -> pcount s q = N.
Proof.
  intros HI [H1 H2] Hq. pose proof (wf_owner Hwf q Hq) as Ho.
  unfold pcount, nput. pose proof (it _ _ _ _ HI _ Ho) as Ht. unfold tinv in Ht.
  rewrite (H1 _ Ho) in *. destruct (tputs _); [destruct Ht|]; lia.
Qed.

Lemma finished_puts sch s l q :
  exec T (init T) sch = (s, l) -> finished T s -> In q (qids T) ->
  puts_on q l = combine (dates T) (map (fun i => val i q) (seq 0 N)).
Proof.
  intros E Hf Hq.
  destruct (exec_puts _ _ _ _ _ (init_inv T B owner Hwf) Hq E) as [_ ->].
  pose proof (reach_inv T B owner Hwf _ _ _ E) as HI.
  rewrite (finished_pcount _ _ HI Hf Hq). unfold pst.
  assert (E0 : pcount (init T) q = 0) by reflexivity. rewrite E0.
  rewrite Nat.sub_0_r. simpl. rewrite firstn_all. reflexivity.
Qed.

Lemma exec_split s sch s' l1 e l2 :
  Inv s -> exec T s sch = (s', l1 ++ e :: l2) ->
  exists s1 k s2 sch2, Inv s1 /\ pstep T s1 k = Some (s2, e) /\ exec T s2 sch2 = (s', l2).
Proof.
  revert s l1; induction sch as [|k0 r IH]; intros s l1 HI; simpl.
  - intros [= _ E]. destruct l1; discriminate.
  - destruct (pstep T s k0) as [[s1 e1]|] eqn:E; [|apply IH; exact HI].
    destruct (exec T s1 r) as [s2 l3] eqn:E2. intros [= <- El].
    destruct l1 as [|e2 l1]; simpl in El; injection El as -> El; subst l3.
    + exists s, k0, s1, r. auto.
    + eapply (IH s1); eauto. eapply pstep_inv; eauto.
Qed.

Lemma clean_step_past s k s' q d :
  Inv s -> pstep T s k = Some (s', EClean q d) ->
  exists i, nth_error (dates T) i = Some d /\ past T s' i.
Proof.
  intros HI E. pose proof (pstep_inv T B owner Hwf _ _ _ _ HI E) as HI1.
  unfold pstep in E. destruct (Nat.ltb_spec k (nthreads T)).
  { exfalso. unfold tstep in E.
    destruct (nth_error (dates T) (tdate (threads s k))) as [d'|]; [|discriminate].
    destruct (tputs (threads s k)) as [[|[q0 v0] r0]|].
    - discriminate.
    - destruct (try_put (queues s q0) d' v0 true false) as [q1 o]. destruct o; discriminate.
    - destruct (nextq _ _ _ _ _) as [q0|].
      + destruct (try_get (queues s q0) d' true None false) as [q1 o]. destruct o; discriminate.
      + destruct (finish _ _ _ _ _); discriminate. }
  destruct (k =? nthreads T); [|discriminate]. unfold cstep in E.
  destruct (nth_error (dates T) (cdate (cleaner s))) as [d'|] eqn:Hd; [|discriminate].
  pose proof (ic _ _ _ _ HI) as Hc. unfold cinv in Hc.
  destruct (cph (cleaner s)) as [[|q0 r0]|[|q0 r0]] eqn:Hp; try discriminate.
  { destruct (try_get (queues s q0) d' true None false) as [q1 o]. destruct o; discriminate. }
  injection E as <- <- <-. destruct Hc as (_ & (dn & H2) & _).
  exists (cdate (cleaner s)). split; [exact Hd|].
  apply (cleaned_past T B owner Hwf _ q0); [exact HI1|].
  unfold ccount, ncl. simpl.
  pose proof (suffix_nodup _ _ _ _ (wf_qids Hwf) H2) as Hnd.
  apply NoDup_cons_iff in Hnd; destruct Hnd as [Hnq Hnr].
  destruct (in_dec _ _ _); [contradiction|lia].
Qed.

Lemma past_exec s sch s' l i : past T s i -> exec T s sch = (s', l) -> past T s' i.
Proof.
  revert s l; induction sch as [|k r IH]; intros s l HP; simpl.
  - intros [= <- <-]; exact HP.
  - destruct (pstep T s k) as [[s1 e]|] eqn:E; [|apply IH; exact HP].
    destruct (exec T s1 r) as [s2 l2] eqn:E2. intros [= <- <-].
    eapply IH; [|exact E2]. eapply past_step; eauto.
Qed.

Lemma cleaned_not_reading sch s l1 q d l2 :
  exec T (init T) sch = (s, l1 ++ EClean q d :: l2) ->
  forall k, k < nthreads T -> nth_error (dates T) (tdate (threads s k)) = Some d ->
  tputs (threads s k) <> None.
Proof.
  intros E k Hk Hd.
  destruct (exec_split _ _ _ _ _ _ (init_inv T B owner Hwf) E) as (s1 & k1 & s2 & sch2 & HI & Hs & E2).
  destruct (clean_step_past _ _ _ _ _ HI Hs) as (i & Hi & HP).
  pose proof (past_exec _ _ _ _ _ HP E2) as [HP1 _].
  assert (tdate (threads s k) = i) as Ei by (eapply dts_inj; eauto using wf_dates).
  destruct (HP1 k Hk) as [Hlt|[_ Hn]]; [lia|exact Hn].
Qed.
End Trace.
