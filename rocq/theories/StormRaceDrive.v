(** Driving the race machine: how far the writer can get ahead. *)
From Coq Require Import List ZArith Bool Arith Lia.
From Verif Require Import QueueModel QueueProofs PipelineModel PipelineSpec PipelineProofs
  StormRaceModel StormRaceSpec StormRaceProofs.
Import ListNotations.

Section Drive.
Context {V L A : Type}.
Variable R : race V L A.
Variable B : nat.
Variable owner : nat -> nat.
Variable clean : nat -> Prop.
Variable firstq : nat.
Hypothesis HW : race_wf R B owner clean firstq.

Notation w := (writer R).
Notation T0 := (skel R).

(** from [s] (after events [ev]) the machine can get to [s'] *)
Definition reach (s : rstate V L A) (s' : rstate V L A) : Prop :=
  exists sch l, rexec R s sch = (s', l).

Lemma rexec_app a : forall b s, rexec R s (a ++ b) =
  let '(s1, l1) := rexec R s a in let '(s2, l2) := rexec R s1 b in (s2, l1 ++ l2).
Proof.
  induction a as [|x a IH]; intros b s; simpl.
  - destruct (rexec R s b); reflexivity.
  - destruct (rstep R s x) as [[s1 e]|]; [|apply IH]. rewrite IH.
    destruct (rexec R s1 a) as [s2 l2]. destruct (rexec R s2 b) as [s3 l3]. rewrite app_assoc. reflexivity.
Qed.

Lemma reach_refl s : reach s s.
Proof. exists [], []. reflexivity. Qed.
Lemma reach_trans a b c : reach a b -> reach b c -> reach a c.
Proof.
  intros (s1 & l1 & E1) (s2 & l2 & E2). exists (s1 ++ s2), (l1 ++ l2).
  rewrite rexec_app, E1, E2. reflexivity.
Qed.
Lemma reach_step a x b e : rstep R a x = Some (b, e) -> reach a b.
Proof. intros E. exists [x], (e ++ []). simpl. rewrite E. reflexivity. Qed.
Lemma reach_inv s s' ev : RInv R B s ev -> reach s s' -> exists ev', RInv R B s' ev'.
Proof. intros H (sch & l & E). eexists. eapply rexec_inv; eauto. Qed.

(** nothing has been cleaned *)
Definition fresh (s : rstate V L A) : Prop := cleaner (base s) = mkC 0 (CGet (qids T0)).

(** same but for thread [k] *)
Definition only (k : nat) (s s' : rstate V L A) : Prop :=
  (forall j, j <> k -> threads (base s') j = threads (base s) j) /\
  cleaner (base s') = cleaner (base s) /\ (forall j, looks s j = [] -> looks s' j = []).

Lemma only_refl k s : only k s s.
Proof. repeat split; auto. Qed.
Lemma only_trans k a b c : only k a b -> only k b c -> only k a c.
Proof.
  intros (A1 & A2 & A3) (B1 & B2 & B3). split; [|split].
  - intros j Hj. rewrite B1, A1; auto.
  - congruence.
  - auto.
Qed.

Lemma upd_only s k t b ar nd lk :
  only k s (mkRS (mkS (upd (threads (base s)) k t) b (cleaner (base s))) ar nd lk) <->
  (forall j, looks s j = [] -> lk j = []).
Proof.
  split; [intros (_ & _ & H); exact H|]. intros H. split; [|split]; simpl; auto.
  intros j Hj. apply upd_neq; exact Hj.
Qed.

(** the reads *)
Lemma drive_reads n : forall s ev k,
  RInv R B s ev -> k < nthreads T0 -> B <= length (treads (threads (base s) k)) + n ->
  tdate (threads (base s) k) < length (dates T0) -> tputs (threads (base s) k) = None ->
  (forall q, In q (qids T0) -> owner q < k -> tdate (threads (base s) k) < pcount owner (base s) q) ->
  exists s', reach s s' /\ only k s s' /\ computing R (base s') k = true /\
    tdate (threads (base s') k) = tdate (threads (base s) k) /\ arr s' = arr s /\ ndone s' = ndone s.
Proof.
  induction n as [|n IH]; intros s ev k HI Hk HB Hd Hp Hq.
  - exists s. split; [apply reach_refl|]. split; [apply only_refl|].
    split; [|auto]. unfold computing. rewrite Hp.
    rewrite (wf_bound (rw_wf HW) k _ _ _ Hk) by lia.
    destruct (nth_error (dates T0) (tdate (threads (base s) k))) eqn:E; [reflexivity|].
    apply nth_error_None in E. lia.
  - destruct (nth_error (dates T0) (tdate (threads (base s) k))) as [d|] eqn:Ed.
    2:{ apply nth_error_None in Ed. lia. }
    destruct (nextq T0 k (tdate (threads (base s) k)) (tlocal (threads (base s) k))
                (treads (threads (base s) k))) as [q|] eqn:En.
    2:{ exists s. split; [apply reach_refl|]. split; [apply only_refl|].
        split; [|auto]. unfold computing. rewrite Ed, Hp, En. reflexivity. }
    destruct (ri_inv R B owner clean firstq HW s ev HI) as (a & HBI & _ & _).
    destruct (wf_reads (rw_wf HW) _ _ _ _ _ Hk En) as [Hqi Hqo].
    pose proof (Hq q Hqi Hqo) as Hpc.
    pose proof (reading_not_cleaned (inst R a) B owner (inst_wf R B owner clean firstq HW a)
                  (base s) k q HBI Hk Hp) as Hcc.
    destruct (get_enabled (inst R a) B owner (inst_wf R B owner clean firstq HW a) (base s) q d _
                HBI Hqi Ed Hcc Hpc) as [v Hg].
    set (t := threads (base s) k) in *.
    pose (s1 := mkRS (mkS (upd (threads (base s)) k (mkT (tdate t) (tlocal t) (treads t ++ [v]) None))
                       (upd (queues (base s)) q (queues (base s) q)) (cleaner (base s)))
                     (arr s) (ndone s) (looks s)).
    assert (Es : rstep R s (Step k) = Some (s1, [EGet k q d v])).
    { simpl. unfold computing at 1. fold t. rewrite Ed, Hp, En. rewrite !andb_false_r. cbn [andb].
      assert (Hk' : (k <? nthreads T0) = true) by (apply Nat.ltb_lt; exact Hk).
      unfold pstep, tstep. cbn [nthreads dates nextq inst]. rewrite Hk'. fold t. rewrite Ed, Hp, En, Hg.
      unfold computing. fold t. rewrite Ed, Hp, En. rewrite !andb_false_r. reflexivity. }
    assert (Et : threads (base s1) k = mkT (tdate t) (tlocal t) (treads t ++ [v]) None).
    { simpl. apply upd_eq. }
    destruct (IH s1 (ev ++ [EGet k q d v]) k) as (s' & R1 & O1 & C1 & D1 & A1 & N1).
    + eapply rstep_inv; eauto.
    + exact Hk.
    + rewrite Et. cbn [treads]. rewrite app_length. simpl. lia.
    + rewrite Et. exact Hd.
    + rewrite Et. reflexivity.
    + intros q' Hqi' Hqo'. rewrite Et. cbn [tdate].
      replace (pcount owner (base s1) q') with (pcount owner (base s) q'); [auto|].
      unfold pcount. simpl. rewrite upd_neq by lia. reflexivity.
    + exists s'. split; [eapply reach_trans; [eapply reach_step; exact Es|exact R1]|].
      split; [|rewrite Et in D1; auto].
      eapply only_trans; [|exact O1]. apply upd_only. auto.
Qed.

(** the writer's statements *)
Lemma drive_ops n : forall s, computing R (base s) w = true ->
  length (cur_ops R (base s)) = ndone s + n ->
  exists s', reach s s' /\ base s' = base s /\ looks s' = looks s /\
    ndone s' = length (cur_ops R (base s')).
Proof.
  induction n as [|n IH]; intros s Hc Hl.
  - exists s. split; [apply reach_refl|]. split; [reflexivity|]. split; [reflexivity|]. lia.
  - destruct (nth_error (cur_ops R (base s)) (ndone s)) as [f|] eqn:En.
    2:{ apply nth_error_None in En. lia. }
    destruct (IH (mkRS (base s) (f (arr s)) (S (ndone s)) (looks s))) as (s' & R1 & E1 & E2 & E3).
    + exact Hc.
    + simpl. lia.
    + exists s'. split; [|auto]. eapply reach_trans; [|exact R1].
      eapply reach_step with (x := Mutate). simpl. rewrite Hc, En. reflexivity.
Qed.

(** the computation *)
Lemma drive_finish s ev k :
  RInv R B s ev -> k < nthreads T0 -> computing R (base s) k = true ->
  exists s', reach s s' /\ only k s s' /\
    tdate (threads (base s') k) = tdate (threads (base s) k) /\
    exists f, tputs (threads (base s') k) = Some (map (fun q => (q, f q)) (outs T0 k (tdate (threads (base s) k)))).
Proof.
  intros HI Hk Hc.
  assert (G : forall s1, computing R (base s1) k = true ->
             (k = w -> ndone s1 = length (cur_ops R (base s1))) ->
             exists s', reach s1 s' /\ only k s1 s' /\
               tdate (threads (base s') k) = tdate (threads (base s1) k) /\
               exists f, tputs (threads (base s') k) =
                 Some (map (fun q => (q, f q)) (outs T0 k (tdate (threads (base s1) k))))).
  { intros s1 Hc1 Hn. pose proof Hc1 as Hc1'. unfold computing in Hc1'.
    set (t := threads (base s1) k) in *.
    destruct (nth_error (dates T0) (tdate t)) as [d|] eqn:Ed; [|discriminate].
    destruct (tputs t) eqn:Hp; [discriminate|].
    destruct (nextq T0 k (tdate t) (tlocal t) (treads t)) eqn:En; [discriminate|].
    destruct (lfinish R k (tdate t) (tlocal t) (treads t) (looks s1 k)) as [f l'] eqn:Ef.
    assert (Hk' : (k <? nthreads T0) = true) by (apply Nat.ltb_lt; exact Hk).
    eexists. split.
    - eapply reach_step with (x := Step k). simpl. rewrite Hk', Hc1. cbn [andb].
      replace ((k =? w) && (ndone s1 <? length (cur_ops R (base s1)))) with false.
      2:{ destruct (Nat.eqb_spec k w) as [E|]; [|reflexivity]. rewrite (Hn E). simpl.
          rewrite Nat.ltb_irrefl. reflexivity. }
      unfold pstep, tstep. cbn [nthreads dates nextq inst finish outs]. rewrite Hk'. fold t.
      rewrite Ed, Hp, En, Ef. reflexivity.
    - split; [apply upd_only; intros j Hj; unfold upd; destruct (j =? k); auto|].
      simpl. rewrite upd_eq. simpl. split; [reflexivity|]. exists f. reflexivity. }
  destruct (Nat.eq_dec k w) as [->|Hne].
  - destruct (ri_arr _ _ _ _ HI) as (y & _ & _ & Hle).
    destruct (drive_ops (length (cur_ops R (base s)) - ndone s) s Hc ltac:(lia)) as (s1 & R1 & E1 & E2 & E3).
    destruct (G s1) as (s2 & R2 & O2 & D2 & P2).
    + rewrite E1. exact Hc.
    + intros _. exact E3.
    + exists s2. split; [eapply reach_trans; eauto|]. rewrite E1 in D2, P2.
      split; [|auto]. destruct O2 as (X1 & X2 & X3). rewrite E1, E2 in *. split; auto.
  - apply G; [exact Hc|congruence].
Qed.

(** the puts *)
Lemma drive_puts : forall r s ev k,
  RInv R B s ev -> k < nthreads T0 -> fresh s -> tputs (threads (base s) k) = Some r ->
  ((0 < qmax T0)%Z -> (Z.of_nat (tdate (threads (base s) k)) < qmax T0)%Z) ->
  exists s', reach s s' /\ only k s s' /\
    tdate (threads (base s') k) = S (tdate (threads (base s) k)) /\ tputs (threads (base s') k) = None /\
    treads (threads (base s') k) = [].
Proof.
  induction r as [|[q v] r IH]; intros s ev k HI Hk Hf Hp Hcap;
    set (t := threads (base s) k) in *;
    destruct (ri_inv R B owner clean firstq HW s ev HI) as (a & HBI & _ & _);
    pose proof (it _ _ _ _ HBI k Hk) as Ht; unfold tinv in Ht; fold t in Ht; rewrite Hp in Ht;
    destruct Ht as (HdN & _ & (dn & Edn) & _); cbn [dates inst] in HdN;
    assert (Hk' : (k <? nthreads T0) = true) by (apply Nat.ltb_lt; exact Hk);
    (destruct (nth_error (dates T0) (tdate t)) as [d|] eqn:Ed; [|apply nth_error_None in Ed; lia]);
    assert (Hc : computing R (base s) k = false) by (unfold computing; fold t; rewrite Ed, Hp; reflexivity).
  - eexists. split.
    + eapply reach_step with (x := Step k). simpl. rewrite Hk', Hc. cbn [andb].
      unfold pstep, tstep. cbn [nthreads dates nextq inst finish outs]. rewrite Hk'. fold t.
      rewrite Ed, Hp. reflexivity.
    + split; [apply upd_only; auto|]. simpl. rewrite upd_eq. auto.
  - assert (Hown : In q (qids T0) /\ owner q = k).
    { apply (outs_owner (inst R a) B owner (inst_wf R B owner clean firstq HW a) k (tdate t)); [exact Hk|].
      rewrite Edn. apply in_or_app; right; left; reflexivity. }
    destruct Hown as [Hqi Hqo]. destruct (iq _ _ _ _ HBI q Hqi) as [Q1 Q2 Q3 Q4 Q5].
    cbn [qmax inst] in Q1.
    assert (Hpq : pcount owner (base s) q = tdate t).
    { unfold pcount. rewrite Hqo. unfold nput. fold t. rewrite Hp. simpl.
      destruct (Nat.eq_dec q q); [lia|congruence]. }
    assert (Hcq : ccount (base s) q = 0).
    { unfold ccount, ncl. rewrite Hf. reflexivity. }
    assert (Hz : qsize (queues (base s) q) = Z.of_nat (tdate t)).
    { unfold qsize. rewrite (content_length _ _ _ _ _ Q4). f_equal. lia. }
    assert (Hput : exists q', try_put (queues (base s) q) d v true false = (q', ODone)).
    { unfold try_put. rewrite Hz, Q1. destruct (Z.ltb_spec 0 (qmax T0)) as [Hpos|]; cbn [negb].
      - destruct (Z.eqb_spec (Z.of_nat (tdate t)) (qmax T0)); [specialize (Hcap Hpos); lia|].
        eexists; reflexivity.
      - eexists; reflexivity. }
    destruct Hput as [q' Hput].
    pose (s1 := mkRS (mkS (upd (threads (base s)) k (mkT (tdate t) (tlocal t) (treads t) (Some r)))
                       (upd (queues (base s)) q q') (cleaner (base s))) (arr s) (ndone s) (looks s)).
    assert (Es : rstep R s (Step k) = Some (s1, [EPut k q d v])).
    { simpl. rewrite Hk', Hc. cbn [andb].
      unfold pstep, tstep. cbn [nthreads dates nextq inst finish outs]. rewrite Hk'. fold t.
      rewrite Ed, Hp, Hput. reflexivity. }
    assert (Et : threads (base s1) k = mkT (tdate t) (tlocal t) (treads t) (Some r)).
    { simpl. apply upd_eq. }
    destruct (IH s1 (ev ++ [EPut k q d v]) k) as (s' & R1 & O1 & D1).
    + eapply rstep_inv; eauto.
    + exact Hk.
    + exact Hf.
    + rewrite Et. reflexivity.
    + rewrite Et. exact Hcap.
    + exists s'. split; [eapply reach_trans; [eapply reach_step; exact Es|exact R1]|].
      split; [eapply only_trans; [|exact O1]; apply upd_only; auto|]. rewrite Et in D1. exact D1.
Qed.

(** a thread does one whole date *)
Lemma drive_date s ev k i :
  RInv R B s ev -> k < nthreads T0 -> fresh s ->
  tdate (threads (base s) k) = i -> tputs (threads (base s) k) = None ->
  i < length (dates T0) -> ((0 < qmax T0)%Z -> (Z.of_nat i < qmax T0)%Z) ->
  (forall j, j < k -> i < tdate (threads (base s) j)) ->
  exists s', reach s s' /\ only k s s' /\
    tdate (threads (base s') k) = S i /\ tputs (threads (base s') k) = None.
Proof.
  intros HI Hk Hf Hd Hp HN Hcap Hj.
  assert (HN' : tdate (threads (base s) k) < length (dates T0)) by (rewrite Hd; exact HN).
  destruct (drive_reads B s ev k HI Hk ltac:(lia) HN' Hp) as (s1 & R1 & O1 & C1 & D1 & _).
  { intros q Hqi Hqo. rewrite Hd. unfold pcount.
    pose proof (nput_bounds (threads (base s) (owner q)) q). specialize (Hj _ Hqo). lia. }
  destruct (reach_inv s s1 ev HI R1) as [ev1 HI1].
  destruct (drive_finish s1 ev1 k HI1 Hk C1) as (s2 & R2 & O2 & D2 & f & P2).
  destruct (reach_inv s1 s2 ev1 HI1 R2) as [ev2 HI2].
  assert (Hf2 : fresh s2).
  { unfold fresh. destruct O1 as (_ & X & _), O2 as (_ & Y & _). rewrite Y, X. exact Hf. }
  assert (Hcap2 : (0 < qmax T0)%Z -> (Z.of_nat (tdate (threads (base s2) k)) < qmax T0)%Z).
  { rewrite D2, D1, Hd. exact Hcap. }
  destruct (drive_puts _ s2 ev2 k HI2 Hk Hf2 P2 Hcap2) as (s3 & R3 & O3 & D3 & P3 & _).
  exists s3. split; [eapply reach_trans; [exact R1|eapply reach_trans; eauto]|].
  split; [eapply only_trans; [exact O1|eapply only_trans; eauto]|].
  split; [|exact P3]. congruence.
Qed.

(** threads 0 .. w are at date [i], the first [n] of them already one further; the others
    have not started *)
Definition level (i n : nat) (s : rstate V L A) : Prop :=
  (forall k, k <= w -> tdate (threads (base s) k) = i + (if k <? n then 1 else 0) /\
                       tputs (threads (base s) k) = None) /\
  (forall k, w < k -> threads (base s) k = mkT 0 (init_local T0 k) [] None) /\
  fresh s /\ (forall k, looks s k = []).

Lemma level_S i s : level i (S w) s -> level (S i) 0 s.
Proof.
  intros (H1 & H2). split; [|exact H2]. intros k Hk. destruct (H1 k Hk) as [Hd Hp].
  split; [|exact Hp]. rewrite Hd. destruct (Nat.ltb_spec k (S w)); [|lia]. simpl. lia.
Qed.

Lemma drive_level i s ev :
  RInv R B s ev -> level i 0 s -> i < length (dates T0) ->
  ((0 < qmax T0)%Z -> (Z.of_nat i < qmax T0)%Z) ->
  forall n, n <= S w -> exists s', reach s s' /\ level i n s'.
Proof.
  intros HI HL HN Hcap. induction n as [|n IH]; intros Hn.
  - exists s. split; [apply reach_refl|exact HL].
  - destruct IH as (s1 & R1 & (L1 & L2 & L3 & L4)); [lia|].
    destruct (reach_inv s s1 ev HI R1) as [ev1 HI1].
    destruct (L1 n ltac:(lia)) as [Hd Hp]. rewrite Nat.ltb_irrefl, Nat.add_0_r in Hd.
    pose proof (rw_writer HW) as Hw.
    destruct (drive_date s1 ev1 n i HI1 ltac:(lia) L3 Hd Hp HN Hcap) as (s2 & R2 & (X1 & X2 & X3) & D2 & P2).
    { intros j Hj. destruct (L1 j ltac:(lia)) as [Hdj _]. rewrite Hdj.
      destruct (Nat.ltb_spec j n); lia. }
    exists s2. split; [eapply reach_trans; eauto|]. split; [|split; [|split]].
    + intros k Hk. destruct (Nat.eq_dec k n) as [->|Hne].
      * split; [|exact P2]. rewrite D2. destruct (Nat.ltb_spec n (S n)); lia.
      * rewrite (X1 k Hne). destruct (L1 k Hk) as [-> ->]. split; [|reflexivity].
        destruct (Nat.ltb_spec k n), (Nat.ltb_spec k (S n)); lia.
    + intros k Hk. rewrite (X1 k) by lia. auto.
    + unfold fresh. rewrite X2. exact L3.
    + auto.
Qed.

Lemma drive_levels : forall i, i <= length (dates T0) ->
  ((0 < qmax T0)%Z -> (Z.of_nat i <= qmax T0)%Z) ->
  exists s, reach (rinit R) s /\ level i 0 s.
Proof.
  induction i as [|i IH]; intros HN Hcap.
  - exists (rinit R). split; [apply reach_refl|].
    split; [|split; [|split]]; try (intros; reflexivity). intros k _. split; reflexivity.
  - destruct IH as (s & R1 & HL); [lia|lia|].
    destruct (reach_inv (rinit R) s [] (rinit_inv R B) R1) as [ev HI].
    destruct (drive_level i s ev HI HL ltac:(lia) ltac:(lia) (S w) (le_n _)) as (s' & R2 & HL').
    exists s'. split; [eapply reach_trans; eauto|]. apply level_S. exact HL'.
Qed.

(** the writer and everything before it have done [n] dates, thread [k] is computing
    its first one *)
Lemma drive_ahead n k :
  w < k -> k < nthreads T0 -> (forall i l vs q, nextq T0 k i l vs = Some q -> owner q <= w) ->
  0 < n -> n <= length (dates T0) -> ((0 < qmax T0)%Z -> (Z.of_nat n <= qmax T0)%Z) ->
  exists s, reach (rinit R) s /\ computing R (base s) k = true /\
    tdate (threads (base s) k) = 0 /\ tlocal (threads (base s) k) = init_local T0 k /\
    looks s k = [] /\ arr_after R B n = Some (arr s).
Proof.
  intros Hk1 Hk2 Hreads Hn HN Hcap.
  destruct (drive_levels n HN Hcap) as (s & R1 & HL & HL2 & HL3 & HL4).
  destruct (reach_inv (rinit R) s [] (rinit_inv R B) R1) as [ev HI].
  pose proof (HL2 k Hk1) as Ek.
  assert (G : forall m s0 ev0, RInv R B s0 ev0 -> threads (base s0) k = mkT 0 (init_local T0 k) (treads (threads (base s0) k)) None ->
     B <= length (treads (threads (base s0) k)) + m ->
     (forall j, j <= w -> 0 < tdate (threads (base s0) j)) ->
     exists s', reach s0 s' /\ only k s0 s' /\ computing R (base s') k = true /\
       threads (base s') k = mkT 0 (init_local T0 k) (treads (threads (base s') k)) None /\
       arr s' = arr s0 /\ ndone s' = ndone s0).
  { induction m as [|m IH]; intros s0 ev0 HI0 Et HB Hj.
    - exists s0. split; [apply reach_refl|]. split; [apply only_refl|].
      split; [|auto]. unfold computing. rewrite Et. cbn [tdate tputs tlocal treads].
      rewrite (wf_bound (rw_wf HW) k _ _ _ Hk2) by lia.
      destruct (nth_error (dates T0) 0) eqn:E; [reflexivity|]. apply nth_error_None in E. lia.
    - destruct (nth_error (dates T0) 0) as [d|] eqn:Ed.
      2:{ apply nth_error_None in Ed. lia. }
      set (rs := treads (threads (base s0) k)) in *.
      destruct (nextq T0 k 0 (init_local T0 k) rs) as [q|] eqn:En.
      2:{ exists s0. split; [apply reach_refl|]. split; [apply only_refl|].
          split; [|auto]. unfold computing. rewrite Et. cbn [tdate tputs tlocal treads].
          rewrite Ed, En. reflexivity. }
      destruct (ri_inv R B owner clean firstq HW s0 ev0 HI0) as (a & HBI & _ & _).
      destruct (wf_reads (rw_wf HW) _ _ _ _ _ Hk2 En) as [Hqi _].
      pose proof (Hreads _ _ _ _ En) as Hqo.
      assert (Hp : tputs (threads (base s0) k) = None) by (rewrite Et; reflexivity).
      pose proof (reading_not_cleaned (inst R a) B owner (inst_wf R B owner clean firstq HW a)
                    (base s0) k q HBI Hk2 Hp) as Hcc.
      assert (Hpc : 0 < pcount owner (base s0) q).
      { unfold pcount. pose proof (nput_bounds (threads (base s0) (owner q)) q).
        specialize (Hj _ Hqo). lia. }
      rewrite Et in Hcc. cbn [tdate] in Hcc.
      destruct (get_enabled (inst R a) B owner (inst_wf R B owner clean firstq HW a) (base s0) q d 0
                  HBI Hqi Ed Hcc Hpc) as [v Hg].
      pose (s1 := mkRS (mkS (upd (threads (base s0)) k (mkT 0 (init_local T0 k) (rs ++ [v]) None))
                         (upd (queues (base s0)) q (queues (base s0) q)) (cleaner (base s0)))
                       (arr s0) (ndone s0) (looks s0)).
      assert (Hk' : (k <? nthreads T0) = true) by (apply Nat.ltb_lt; exact Hk2).
      assert (Hc : computing R (base s0) k = false).
      { unfold computing. rewrite Et. cbn [tdate tputs tlocal treads]. rewrite Ed, En. reflexivity. }
      assert (Es : rstep R s0 (Step k) = Some (s1, [EGet k q d v])).
      { simpl. rewrite Hc. rewrite !andb_false_r. cbn [andb].
        unfold pstep, tstep. cbn [nthreads dates nextq inst]. rewrite Hk'. rewrite Et.
        cbn [tdate tputs tlocal treads]. rewrite Ed, En, Hg. reflexivity. }
      assert (Et1 : threads (base s1) k = mkT 0 (init_local T0 k) (rs ++ [v]) None).
      { simpl. apply upd_eq. }
      destruct (IH s1 (ev0 ++ [EGet k q d v])) as (s' & P1 & P2 & P3 & P4 & P5 & P6).
      + eapply rstep_inv; eauto.
      + rewrite Et1. reflexivity.
      + rewrite Et1. cbn [treads]. rewrite app_length. simpl. lia.
      + intros j Hjw. simpl. rewrite upd_neq by lia. auto.
      + exists s'. split; [eapply reach_trans; [eapply reach_step; exact Es|exact P1]|].
        split; [|auto]. eapply only_trans; [|exact P2]. apply upd_only. auto. }
  destruct (G B s ev HI) as (s' & P1 & (O1 & O2 & O3) & P3 & P4 & P5 & P6).
  { rewrite Ek. reflexivity. }
  { lia. }
  { intros j Hj. destruct (HL j Hj) as [-> _]. simpl. lia. }
  exists s'. split; [eapply reach_trans; eauto|]. split; [exact P3|].
  rewrite P4. cbn [tdate tlocal]. split; [reflexivity|]. split; [reflexivity|].
  split; [apply O3, HL4|].
  destruct (HL w (le_n _)) as [Hdw Hpw]. simpl in Hdw. rewrite Nat.add_0_r in Hdw.
  destruct (ri_arr _ _ _ _ HI) as (y & Hy & Harr & _).
  unfold fin in Hy. rewrite Hpw, Hdw, Nat.add_0_r in Hy. rewrite Hy, P5, Harr. f_equal.
  assert (Hz : ndone s = 0).
  { apply (ri_idle _ _ _ _ HI). unfold computing. rewrite Hpw.
    destruct (ri_inv R B owner clean firstq HW s ev HI) as (a & HBI & _ & HF).
    unfold fst_inv in HF.
    destruct (treads (threads (base s) w)) as [|x r] eqn:Er.
    - rewrite (rw_first HW). destruct (nth_error _ _); reflexivity.
    - exfalso. assert (Hlt : tdate (threads (base s) w) < pcount owner (base s) firstq) by (apply HF; left; discriminate).
      destruct (wf_reads (rw_wf HW) w 0 (init_local T0 w) [] firstq (rw_writer HW) (rw_first HW _ _)) as [_ Hfo].
      unfold pcount, nput in Hlt. destruct (HL (owner firstq) ltac:(lia)) as [Hd2 Hp2].
      rewrite Hp2, Hd2, Hdw in Hlt. simpl in Hlt. lia. }
  rewrite Hz. reflexivity.
Qed.

(** The race machine never gets stuck before everybody has finished. *)
Lemma race_progress s ev : RInv R B s ev -> ~ finished T0 (base s) ->
  exists x s' e, (forall k, x <> Look k) /\ rstep R s x = Some (s', e).
Proof.
  intros HI Hn. destruct (ri_inv R B owner clean firstq HW s ev HI) as (a & HBI & _ & _).
  destruct (progress (inst R a) B owner (inst_wf R B owner clean firstq HW a) (base s) HBI Hn)
    as (k & b & e & Hs).
  destruct ((k <? nthreads T0) && computing R (base s) k && (k =? w) && (ndone s <? length (cur_ops R (base s)))) eqn:E.
  - apply andb_true_iff in E as [E El]. apply andb_true_iff in E as [E Ew]. apply andb_true_iff in E as [_ Ec].
    apply Nat.eqb_eq in Ew. subst k. apply Nat.ltb_lt in El.
    destruct (nth_error (cur_ops R (base s)) (ndone s)) as [f|] eqn:En.
    2:{ apply nth_error_None in En. lia. }
    exists Mutate. eexists. eexists. split; [discriminate|]. simpl. rewrite Ec, En. reflexivity.
  - exists (Step k).
    assert (Hp : exists b' e', pstep (inst R (fun j _ => looks s j)) (base s) k = Some (b', e')).
    { revert Hs. unfold pstep. cbn [nthreads inst]. destruct (k <? nthreads T0).
      - unfold tstep. cbn [dates nextq inst finish outs].
        destruct (nth_error _ _); [|discriminate].
        destruct (tputs _) as [[|[q v] r]|].
        + eauto.
        + destruct (try_put _ _ _ _ _) as [q' []]; try discriminate. eauto.
        + destruct (nextq _ _ _ _ _) as [q|].
          * destruct (try_get _ _ _ _ _) as [q' []]; try discriminate. eauto.
          * intros _. destruct (lfinish R k (tdate (threads (base s) k)) (tlocal (threads (base s) k))
              (treads (threads (base s) k)) (looks s k)). eauto.
      - destruct (k =? nthreads T0); [|discriminate]. unfold cstep. cbn [dates qids nthreads inst]. eauto. }
    destruct Hp as (b' & e' & Hp). eexists. exists [e']. split; [discriminate|]. simpl. rewrite E, Hp. reflexivity.
Qed.
End Drive.
