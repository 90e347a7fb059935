From Coq Require Import List ZArith Bool Arith Lia.
From Verif Require Import QueueModel QueueProofs PipelineModel PipelineSpec.
Import ListNotations.

Lemma upd_eq {A} (f : nat -> A) k x : upd f k x k = x.
Proof. unfold upd. rewrite Nat.eqb_refl. reflexivity. Qed.
Lemma upd_neq {A} (f : nat -> A) k x j : j <> k -> upd f k x j = f j.
Proof. intros H. unfold upd. destruct (Nat.eqb_spec j k); congruence. Qed.

(** * The serial evaluation is total on well-formed graphs and is a fixpoint *)
Section Serial.
Context {V L : Type}.
Variable T : topo V L.
Variable B : nat.
Variable owner : nat -> nat.
Hypothesis Hwf : wf T B owner.

Lemma read_all_ext fuel k i l st st' vs :
  k < nthreads T ->
  (forall q, In q (qids T) -> owner q < k -> st q = st' q) ->
  read_all T fuel k i l st vs = read_all T fuel k i l st' vs.
Proof.
  intros Hk H. revert vs; induction fuel as [|n IH]; intros vs; simpl;
    destruct (nextq T k i l vs) as [q|] eqn:E; try reflexivity.
  destruct (wf_reads Hwf _ _ _ _ _ Hk E) as [Hq Ho].
  rewrite <- (H q Hq Ho). destruct (st q); [apply IH|reflexivity].
Qed.

Lemma read_all_total k i l st fuel vs :
  k < nthreads T ->
  (forall q, In q (qids T) -> owner q < k -> st q <> None) ->
  B <= length vs + fuel ->
  exists vs', read_all T fuel k i l st vs = Some vs'.
Proof.
  intros Hk Hst. revert vs; induction fuel as [|n IH]; intros vs Hlen; simpl.
  - rewrite (wf_bound Hwf k i l vs Hk) by lia. eauto.
  - destruct (nextq T k i l vs) as [q|] eqn:E; [|eauto].
    destruct (wf_reads Hwf _ _ _ _ _ Hk E) as [Hq Ho].
    specialize (Hst q Hq Ho). destruct (st q) as [v|]; [|congruence].
    apply IH. rewrite app_length; simpl; lia.
Qed.

Lemma serial_threads_total i loc n :
  n <= nthreads T ->
  exists st loc', serial_threads T B i n (fun _ => None, loc) = Some (st, loc') /\
    (forall q, In q (qids T) -> owner q < n -> st q <> None) /\
    (forall k, n <= k -> loc' k = loc k).
Proof.
  induction n as [|n IH]; intros Hn.
  - exists (fun _ => None), loc. split; [reflexivity|]. split; [lia|reflexivity].
  - destruct IH as (st & loc' & E & Hst & Hloc); [lia|].
    cbn [serial_threads]. rewrite E. unfold serial_thread.
    destruct (read_all_total n i (loc' n) st B [] ltac:(lia) Hst ltac:(simpl; lia)) as [vs Ev].
    rewrite Ev. destruct (finish T n i (loc' n) vs) as [f l'] eqn:Ef.
    eexists; eexists; split; [reflexivity|]. split.
    + intros q Hq Ho. unfold set_many. destruct (in_dec _ _ _) as [|Hni]; [discriminate|].
      apply Hst; [exact Hq|]. destruct (Nat.eq_dec (owner q) n) as [En|]; [|lia].
      exfalso; apply Hni. apply (wf_outs Hwf); [lia|]. split; [exact Hq|exact En].
    + intros k Hk. rewrite upd_neq by lia. apply Hloc; lia.
Qed.

Lemma serial_threads_stable i x n m st loc st' loc' :
  n + m <= nthreads T ->
  serial_threads T B i n x = Some (st, loc) ->
  serial_threads T B i (m + n) x = Some (st', loc') ->
  (forall q, In q (qids T) -> owner q < n -> st' q = st q) /\
  (forall k, k < n -> loc' k = loc k).
Proof.
  revert st' loc'; induction m as [|m IH]; intros st' loc' Hn E E'.
  - simpl in E'. rewrite E in E'. injection E' as <- <-. auto.
  - cbn [Nat.add serial_threads] in E'.
    destruct (serial_threads T B i (m + n) x) as [[st1 loc1]|] eqn:E1; [|discriminate].
    destruct (IH st1 loc1 ltac:(lia) E eq_refl) as [H1 H2].
    unfold serial_thread in E'. destruct (read_all _ _ _ _ _ _ _) as [vs|]; [|discriminate].
    destruct (finish _ _ _ _ _) as [f l']. injection E' as <- <-. split.
    + intros q Hq Ho. unfold set_many. destruct (in_dec _ _ _) as [Hi|]; [|auto].
      apply (wf_outs Hwf) in Hi; [|lia]. lia.
    + intros k Hk. rewrite upd_neq by lia. auto.
Qed.

Lemma serial_locals_total i : exists loc, serial_locals T B i = Some loc.
Proof.
  induction i as [|i [loc IH]]; simpl; [eauto|]. rewrite IH. unfold serial_date.
  destruct (serial_threads_total i loc (nthreads T) (le_n _)) as (st & loc' & -> & _). eauto.
Qed.

(** the equations the serial values satisfy *)
Lemma serial_fix i loc k :
  serial_locals T B i = Some loc -> k < nthreads T ->
  exists vs loc',
    read_all T B k i (loc k) (serial_value T B i) [] = Some vs /\
    serial_locals T B (S i) = Some loc' /\
    loc' k = snd (finish T k i (loc k) vs) /\
    forall q, In q (outs T k i) ->
      serial_value T B i q = Some (fst (finish T k i (loc k) vs) q).
Proof.
  intros Hl Hk.
  destruct (serial_threads_total i loc (nthreads T) (le_n _)) as (stF & locF & EF & _ & _).
  assert (HV : forall q, serial_value T B i q = stF q).
  { intros q. unfold serial_value, serial_date. rewrite Hl, EF. reflexivity. }
  assert (HL : serial_locals T B (S i) = Some locF).
  { simpl. rewrite Hl. unfold serial_date. rewrite EF. reflexivity. }
  destruct (serial_threads_total i loc k ltac:(lia)) as (st & loc1 & Ek & Hst & Hloc1).
  destruct (serial_threads_total i loc (S k) ltac:(lia)) as (st2 & loc2 & Ek2 & _ & _).
  pose proof Ek2 as Ek2'. cbn [serial_threads] in Ek2'. rewrite Ek in Ek2'.
  unfold serial_thread in Ek2'.
  destruct (read_all T B k i (loc1 k) st []) as [vs|] eqn:Er; [|discriminate].
  destruct (finish T k i (loc1 k) vs) as [f l'] eqn:Ef. injection Ek2' as <- <-.
  rewrite (Hloc1 k (le_n _)) in Er, Ef.
  destruct (serial_threads_stable i (fun _ => None, loc) k (nthreads T - k) st loc1 stF locF
              ltac:(lia) Ek) as [Sk _].
  { replace (nthreads T - k + k) with (nthreads T) by lia. exact EF. }
  destruct (serial_threads_stable i (fun _ => None, loc) (S k) (nthreads T - S k) _ _ stF locF
              ltac:(lia) Ek2) as [Sk2 Lk2].
  { replace (nthreads T - S k + S k) with (nthreads T) by lia. exact EF. }
  exists vs, locF. split; [|split; [exact HL|split]].
  - rewrite <- Er. apply read_all_ext; [exact Hk|]. intros q Hq Ho. rewrite HV. auto.
  - rewrite Ef. simpl. rewrite (Lk2 k) by lia. apply upd_eq.
  - intros q Hq. rewrite HV, Ef. simpl. pose proof Hq as Hq'.
    apply (wf_outs Hwf) in Hq'; [|exact Hk]. rewrite (Sk2 q) by (try lia; tauto).
    unfold set_many. destruct (in_dec _ _ _); [reflexivity|contradiction].
Qed.

End Serial.

(** * Queue content lemmas *)
Section Content.
Context {V : Type}.
Variable dts : list Z.
Hypothesis Hnd : NoDup dts.

Lemma dts_inj i j d : nth_error dts i = Some d -> nth_error dts j = Some d -> i = j.
Proof.
  intros Hi Hj. apply (proj1 (NoDup_nth_error dts) Hnd).
  - apply nth_error_Some; congruence.
  - congruence.
Qed.

(** items of a queue holding the dates with index in [c, c+n) *)
Definition content (val : nat -> option V) (c n : nat) (l : list (Z * V)) : Prop :=
  Forall2 (fun i it => nth_error dts i = Some (fst it) /\ val i = Some (snd it)) (seq c n) l.

Lemma Forall2_len (A C : Type) (R : A -> C -> Prop) l l' : Forall2 R l l' -> length l = length l'.
Proof. induction 1; simpl; congruence. Qed.
Lemma content_length val c n l : content val c n l -> length l = n.
Proof. intros H. apply Forall2_len in H. rewrite seq_length in H. congruence. Qed.

Lemma content_find val c n l i d :
  content val c n l -> nth_error dts i = Some d ->
  d_find d l = if (c <=? i) && (i <? c + n) then val i else None.
Proof.
  intros H Hd. revert c l H; induction n as [|n IH]; intros c l H.
  - inversion H; subst. simpl. destruct (c <=? i) eqn:E1, (i <? c + 0) eqn:E2; try reflexivity.
    apply Nat.leb_le in E1. apply Nat.ltb_lt in E2. lia.
  - inversion H as [|? [k v] ? r [H1 H2] H3]; subst. simpl in H1, H2. simpl d_find.
    specialize (IH (S c) r H3). rewrite IH.
    destruct (Z.eqb_spec d k) as [->|Hne].
    + assert (i = c) as -> by (eapply dts_inj; eauto).
      rewrite Nat.leb_refl. replace (c <? c + S n) with true; [simpl; congruence|].
      symmetry; apply Nat.ltb_lt; lia.
    + assert (i <> c) by (intros ->; congruence).
      destruct (Nat.leb_spec c i), (Nat.leb_spec (S c) i), (Nat.ltb_spec i (c + S n)),
        (Nat.ltb_spec i (S c + n)); simpl; try reflexivity; lia.
Qed.

Lemma content_snoc val c n l d v :
  content val c n l -> nth_error dts (c + n) = Some d -> val (c + n) = Some v ->
  content val c (S n) (d_update d v l).
Proof.
  intros H Hd Hv.
  assert (Hf : d_find d l = None).
  { rewrite (content_find _ _ _ _ _ _ H Hd).
    replace (c + n <? c + n) with false; [rewrite andb_false_r; reflexivity|].
    symmetry; apply Nat.ltb_irrefl. }
  assert (Hu : d_update d v l = l ++ [(d, v)]).
  { clear -Hf. induction l as [|[k w] r IH]; simpl in *; [reflexivity|].
    destruct (d =? k)%Z; [discriminate|]. rewrite IH by exact Hf. reflexivity. }
  rewrite Hu. unfold content. rewrite seq_S. apply Forall2_app; [exact H|].
  constructor; [|constructor]. simpl. auto.
Qed.

Lemma content_tail val c n l d :
  content val c (S n) l -> nth_error dts c = Some d -> content val (S c) n (d_del d l).
Proof.
  intros H Hd. inversion H as [|? [k v] ? r [H1 H2] H3]; subst. simpl in *.
  assert (d = k) as -> by congruence. rewrite Z.eqb_refl. exact H3.
Qed.
End Content.

(** * The invariant of the threaded run *)
Section Machine.
Context {V L : Type}.
Variable T : topo V L.
Variable B : nat.
Variable owner : nat -> nat.
Hypothesis Hwf : wf T B owner.

Notation N := (length (dates T)).
Notation val := (serial_value T B).

Definition nput (t : tstate V L) (q : nat) : nat :=
  tdate t + match tputs t with
            | None => 0
            | Some r => if in_dec Nat.eq_dec q (map fst r) then 0 else 1
            end.
Definition pcount (s : state V L) (q : nat) : nat := nput (threads s (owner q)) q.
Definition ncl (c : cstate) (q : nat) : nat :=
  cdate c + match cph c with
            | CGet _ => 0
            | CClean r => if in_dec Nat.eq_dec q r then 0 else 1
            end.
Definition ccount (s : state V L) (q : nat) : nat := ncl (cleaner s) q.

Record qinv (s : state V L) (q : nat) : Prop := {
  qi_max : maxsize (queues s q) = qmax T;
  qi_tmo : timeout (queues s q) = None;
  qi_le : ccount s q <= pcount s q;
  qi_items : content (dates T) (fun i => val i q) (ccount s q)
               (pcount s q - ccount s q) (items (queues s q));
  qi_cap : (0 < qmax T -> Z.of_nat (pcount s q - ccount s q) <= qmax T)%Z }.

Definition tinv (t : tstate V L) (k : nat) : Prop :=
  match tputs t with
  | None => tdate t <= N /\ length (treads t) <= B /\
      exists loc fuel vs, serial_locals T B (tdate t) = Some loc /\ tlocal t = loc k /\
        read_all T B k (tdate t) (loc k) (val (tdate t)) [] = Some vs /\
        read_all T fuel k (tdate t) (loc k) (val (tdate t)) (treads t) = Some vs
  | Some r => tdate t < N /\
      (exists loc', serial_locals T B (S (tdate t)) = Some loc' /\ tlocal t = loc' k) /\
      (exists dn, outs T k (tdate t) = dn ++ map fst r) /\
      Forall (fun p => val (tdate t) (fst p) = Some (snd p)) r
  end.

Definition cinv (s : state V L) : Prop :=
  let c := cleaner s in
  match cph c with
  | CGet r => cdate c <= N /\
      exists dn, qids T = dn ++ r /\ forall q, In q dn -> cdate c < pcount s q
  | CClean r => cdate c < N /\ (exists dn, qids T = dn ++ r) /\
      forall q, In q (qids T) -> cdate c < pcount s q
  end.

Record Inv (s : state V L) : Prop := {
  iq : forall q, In q (qids T) -> qinv s q;
  it : forall k, k < nthreads T -> tinv (threads s k) k;
  ic : cinv s }.

Lemma init_inv : Inv (init T).
Proof.
  split.
  - intros q Hq. split; simpl; try reflexivity.
    + constructor.
    + unfold pcount, ccount; simpl. unfold nput, ncl; simpl. lia.
  - intros k Hk. unfold tinv; simpl. split; [apply Nat.le_0_l|]. split; [apply Nat.le_0_l|].
    destruct (serial_fix T B owner Hwf 0 (init_local T) k eq_refl Hk) as (vs & loc' & E & _).
    exists (init_local T), B, vs. auto.
  - unfold cinv; simpl. split; [apply Nat.le_0_l|]. exists []. split; [reflexivity|]. contradiction.
Qed.

Lemma nput_bounds t q : tdate t <= nput t q <= S (tdate t).
Proof. unfold nput. destruct (tputs t); [destruct (in_dec _ _ _)|]; lia. Qed.
Lemma ncl_bounds c q : cdate c <= ncl c q <= S (cdate c).
Proof. unfold ncl. destruct (cph c); [|destruct (in_dec _ _ _)]; lia. Qed.

(** a thread that is still reading is not behind the cleaner *)
Lemma reading_not_cleaned s k q :
  Inv s -> k < nthreads T -> tputs (threads s k) = None ->
  ccount s q <= tdate (threads s k).
Proof.
  intros [Hq Ht Hc] Hk Hp.
  destruct (outs T k (tdate (threads s k))) as [|o r] eqn:Eo.
  { exfalso. exact (wf_outs_some Hwf _ _ Hk Eo). }
  assert (Ho : In o (qids T) /\ owner o = k).
  { apply (wf_outs Hwf k (tdate (threads s k)) o Hk). rewrite Eo. left; reflexivity. }
  destruct Ho as [Hoq Hok].
  assert (Hpo : pcount s o = tdate (threads s k)).
  { unfold pcount, nput. rewrite Hok, Hp. lia. }
  unfold cinv in Hc. unfold ccount, ncl in *.
  destruct (cph (cleaner s)) as [r'|r'] eqn:Ec.
  - pose proof (qi_le _ _ (Hq o Hoq)) as Hle. unfold ccount, ncl in Hle. rewrite Ec in Hle. lia.
  - destruct Hc as (_ & _ & Hall). specialize (Hall o Hoq).
    destruct (in_dec _ _ _); lia.
Qed.

(** the d of a thread that can read *)
Lemma get_value s k q d v :
  Inv s -> k < nthreads T -> tputs (threads s k) = None ->
  In q (qids T) ->
  nth_error (dates T) (tdate (threads s k)) = Some d ->
  try_get (queues s q) d true None false = (queues s q, OVal v) ->
  val (tdate (threads s k)) q = Some v.
Proof.
  intros HI Hk Hp Hq Hd Hg. destruct (iq _ HI q Hq) as [_ _ _ Hcont _].
  unfold try_get in Hg. simpl in Hg.
  rewrite (content_find _ (wf_dates Hwf) _ _ _ _ _ _ Hcont Hd) in Hg.
  destruct (_ && _); [|destruct (timeout (queues s q)); discriminate].
  destruct (val (tdate (threads s k)) q); [congruence|].
  destruct (timeout (queues s q)); discriminate.
Qed.

Lemma try_get_state (q : queue V) d : fst (try_get q d true None false) = q.
Proof.
  unfold try_get; simpl. destruct (d_find d (items q)); [reflexivity|].
  destruct (timeout q); reflexivity.
Qed.

Lemma try_get_val (q q' : queue V) d v :
  try_get q d true None false = (q', OVal v) -> q' = q /\ d_find d (items q) = Some v.
Proof.
  intros H. pose proof (try_get_state q d) as Hs. rewrite H in Hs. simpl in Hs.
  split; [exact Hs|]. subst q'. unfold try_get in H; simpl in H.
  destruct (d_find d (items q)); [congruence|]. destruct (timeout q); discriminate.
Qed.

Lemma try_put_done (q q' : queue V) d v :
  try_put q d v true false = (q', ODone) ->
  q' = mkQ (maxsize q) (timeout q) (d_update d v (items q)) (S (tasks q)) /\
  ((0 < maxsize q)%Z -> qsize q <> maxsize q).
Proof.
  unfold try_put. simpl.
  destruct (Z.ltb_spec 0 (maxsize q)); [destruct (Z.eqb_spec (qsize q) (maxsize q))|].
  - destruct (timeout q); discriminate.
  - intros [= <-]; auto.
  - intros [= <-]; split; [reflexivity|lia].
Qed.

(** The invariant depends on queues only through the queues below nqueues. *)
Lemma upd_same_queue (s : state V L) q : forall j, upd (queues s) q (queues s q) j = queues s j.
Proof. intros j. unfold upd. destruct (Nat.eqb_spec j q); subst; reflexivity. Qed.

Lemma qinv_transfer s s' q :
  queues s' q = queues s q -> pcount s' q = pcount s q -> ccount s' q = ccount s q ->
  qinv s q -> qinv s' q.
Proof. intros E1 E2 E3 [? ? ? ? ?]. split; rewrite ?E1, ?E2, ?E3; assumption. Qed.

Lemma cinv_transfer s s' :
  cleaner s' = cleaner s ->
  (forall q, In q (qids T) -> pcount s q <= pcount s' q) ->
  cinv s -> cinv s'.
Proof.
  intros E H Hc. unfold cinv in *. rewrite E. destruct (cph (cleaner s)) as [r|r].
  - destruct Hc as (H1 & dn & H2 & H3). split; [exact H1|]. exists dn. split; [exact H2|].
    intros q Hq. specialize (H3 q Hq).
    assert (In q (qids T)).
    { assert (Hi : In q (qids T)) by (rewrite H2; apply in_or_app; left; exact Hq). exact Hi. }
    specialize (H q H0). lia.
  - destruct Hc as (H1 & H2 & H3). repeat split; try assumption.
    intros q Hq. specialize (H3 q Hq). specialize (H q Hq). lia.
Qed.

Lemma outs_owner k i q : k < nthreads T -> In q (outs T k i) -> In q (qids T) /\ owner q = k.
Proof. intros Hk H. apply (wf_outs Hwf k i q Hk). exact H. Qed.

Lemma tstep_inv s k s' e :
  Inv s -> k < nthreads T -> tstep T s k = Some (s', e) -> Inv s'.
Proof.
  intros HI Hk. pose proof HI as [Hq Ht Hc]. pose proof (Ht k Hk) as Htk.
  unfold tstep. set (t := threads s k) in *.
  destruct (nth_error (dates T) (tdate t)) as [d|] eqn:Hd; [|discriminate].
  assert (HdN : tdate t < N) by (apply nth_error_Some; congruence).
  destruct (tputs t) as [[|[q v] r]|] eqn:Hp.
  - (* next date *)
    intros [= <- <-]. unfold tinv in Htk. rewrite Hp in Htk.
    destruct Htk as (_ & (loc' & El & Etl) & _ & _).
    assert (Hpc : forall q, In q (qids T) ->
       pcount {| threads := upd (threads s) k (mkT (S (tdate t)) (tlocal t) [] None);
                 queues := queues s; cleaner := cleaner s |} q = pcount s q).
    { intros q Hqn. unfold pcount. simpl. unfold upd.
      destruct (Nat.eqb_spec (owner q) k) as [->|]; [|reflexivity].
      fold t. unfold nput. rewrite Hp. simpl. lia. }
    split.
    + intros q Hqn. apply (qinv_transfer s); auto.
    + intros j Hj. simpl. unfold upd. destruct (Nat.eqb_spec j k) as [->|]; [|auto].
      unfold tinv; simpl. split; [lia|]. split; [lia|].
      destruct (serial_fix T B owner Hwf _ _ k El Hk) as (vs & loc2 & E1 & _).
      exists loc', B, vs. auto.
    + apply (cinv_transfer s); [reflexivity| |exact Hc]. intros q Hqn. rewrite Hpc; auto.
  - (* put *)
    destruct (try_put (queues s q) d v true false) as [q' o] eqn:Hput.
    destruct o; try discriminate. intros [= <- <-].
    apply try_put_done in Hput. destruct Hput as [-> Hcap].
    unfold tinv in Htk. rewrite Hp in Htk.
    destruct Htk as (_ & Hloc & (dn & Edn) & Hvals).
    assert (Hown : In q (qids T) /\ owner q = k).
    { apply (outs_owner k (tdate t)); [exact Hk|]. rewrite Edn. apply in_or_app; right; left; reflexivity. }
    destruct Hown as [Hqn Hqk].
    assert (Hnd : NoDup (map fst ((q, v) :: r))).
    { pose proof (wf_outs_nodup Hwf k (tdate t) Hk) as Hn. rewrite Edn in Hn.
      revert Hn. clear. induction dn as [|a dn IH]; simpl; [auto|]. intros H; inversion H; auto. }
    simpl in Hnd. apply NoDup_cons_iff in Hnd; destruct Hnd as [Hnq Hnr].
    set (s1 := mkS _ _ _).
    assert (Hpq : pcount s q = tdate t).
    { unfold pcount. rewrite Hqk. fold t. unfold nput. rewrite Hp. simpl.
      destruct (Nat.eq_dec q q); [lia|congruence]. }
    assert (Hpq1 : pcount s1 q = S (tdate t)).
    { unfold pcount, s1. simpl. rewrite Hqk, upd_eq. unfold nput. simpl.
      destruct (in_dec _ _ _); [contradiction|lia]. }
    assert (Hpo : forall j, In j (qids T) -> j <> q -> pcount s1 j = pcount s j).
    { intros j Hj Hne. unfold pcount, s1. simpl. unfold upd.
      destruct (Nat.eqb_spec (owner j) k) as [E|]; [|reflexivity].
      unfold nput. rewrite E. fold t. simpl. rewrite Hp. simpl.
      destruct (Nat.eq_dec q j); [congruence|].
      destruct (in_dec Nat.eq_dec j (map fst r)); reflexivity. }
    assert (Hcc : forall j, ccount s1 j = ccount s j) by reflexivity.
    split.
    + intros j Hj. destruct (Nat.eq_dec j q) as [->|Hne].
      * destruct (Hq q Hqn) as [Q1 Q2 Q3 Q4 Q5].
        rewrite Hpq in Q3, Q4, Q5.
        assert (Hlen : qsize (queues s q) = Z.of_nat (tdate t - ccount s q)).
        { unfold qsize. rewrite (content_length _ _ _ _ _ Q4). reflexivity. }
        split; rewrite ?Hpq1, ?Hcc; unfold s1; cbn [queues]; rewrite ?upd_eq; unfold do_clean; cbn [fst maxsize timeout items]; try assumption.
        -- lia.
        -- replace (S (tdate t) - ccount s q) with (S (tdate t - ccount s q)) by lia.
           apply content_snoc; [exact (wf_dates Hwf)|exact Q4| |].
           ++ replace (ccount s q + (tdate t - ccount s q)) with (tdate t) by lia. exact Hd.
           ++ replace (ccount s q + (tdate t - ccount s q)) with (tdate t) by lia.
              inversion Hvals; subst. assumption.
        -- intros Hpos. specialize (Q5 Hpos). rewrite Q1 in Hcap. specialize (Hcap Hpos). lia.
      * apply (qinv_transfer s); auto. unfold s1; simpl. apply upd_neq; exact Hne.
    + intros j Hj. unfold s1; simpl. unfold upd. destruct (Nat.eqb_spec j k) as [->|]; [|auto].
      unfold tinv; simpl. split; [exact HdN|]. split; [exact Hloc|]. split.
      * exists (dn ++ [q]). rewrite <- app_assoc. exact Edn.
      * inversion Hvals; subst; assumption.
    + apply (cinv_transfer s); [reflexivity| |exact Hc].
      intros j Hj. destruct (Nat.eq_dec j q) as [->|Hne]; [lia|]. rewrite Hpo; auto.
  - destruct (nextq T k (tdate t) (tlocal t) (treads t)) as [q|] eqn:Hn.
    + (* get *)
      destruct (try_get (queues s q) d true None false) as [q' o] eqn:Hg.
      destruct o; try discriminate. intros [= <- <-].
      destruct (wf_reads Hwf _ _ _ _ _ Hk Hn) as [Hqn Hqk].
      pose proof (try_get_val _ _ _ _ Hg) as [-> Hf].
      assert (Hv : val (tdate t) q = Some v).
      { apply (get_value s k q d v); assumption. }
      set (s1 := mkS _ _ _).
      assert (Hpo : forall j, pcount s1 j = pcount s j).
      { intros j. unfold pcount, s1. simpl. unfold upd.
        destruct (Nat.eqb_spec (owner j) k) as [E|]; [|reflexivity].
        unfold nput. rewrite E. fold t. simpl. rewrite Hp. reflexivity. }
      split.
      * intros j Hj. apply (qinv_transfer s); auto. unfold s1; simpl. apply upd_same_queue.
      * intros j Hj. unfold s1; simpl. unfold upd. destruct (Nat.eqb_spec j k) as [->|]; [|auto].
        unfold tinv in Htk |- *. simpl. rewrite Hp in Htk.
        destruct Htk as (H1 & H2 & loc & fuel & vs & E1 & E2 & E3 & E4).
        assert (Hlen : length (treads t) < B).
        { destruct (Nat.lt_ge_cases (length (treads t)) B) as [|Hge]; [assumption|].
          rewrite (wf_bound Hwf _ _ _ _ Hk Hge) in Hn. discriminate. }
        split; [exact H1|]. split; [rewrite app_length; simpl; lia|].
        rewrite <- E2 in E4. destruct fuel as [|n]; simpl in E4; rewrite Hn in E4; [discriminate|].
        rewrite Hv in E4. exists loc, n, vs. rewrite <- E2 in *. auto.
      * apply (cinv_transfer s); [reflexivity| |exact Hc]. intros j Hj. rewrite Hpo; auto.
    + (* compute *)
      destruct (finish T k (tdate t) (tlocal t) (treads t)) as [f l'] eqn:Hfin.
      intros [= <- <-]. set (s1 := mkS _ _ _).
      unfold tinv in Htk. rewrite Hp in Htk.
      destruct Htk as (H1 & H2 & loc & fuel & vs & E1 & E2 & E3 & E4).
      assert (Evs : vs = treads t).
      { rewrite <- E2 in E4. destruct fuel; simpl in E4; rewrite Hn in E4; congruence. }
      subst vs.
      destruct (serial_fix T B owner Hwf _ _ k E1 Hk) as (vs & loc2 & F1 & F2 & F3 & F4).
      assert (vs = treads t) as -> by congruence.
      rewrite <- E2, Hfin in F3, F4. simpl in F3, F4.
      assert (Hpo : forall j, In j (qids T) -> pcount s1 j = pcount s j).
      { intros j Hj. unfold pcount, s1. simpl. unfold upd.
        destruct (Nat.eqb_spec (owner j) k) as [E|]; [|reflexivity].
        unfold nput. rewrite E. fold t. simpl. rewrite Hp. rewrite map_map. simpl.
        rewrite map_id. destruct (in_dec _ _ _) as [|Hni]; [reflexivity|].
        exfalso; apply Hni. apply (wf_outs Hwf); auto. }
      split.
      * intros j Hj. apply (qinv_transfer s); auto.
      * intros j Hj. unfold s1; simpl. unfold upd. destruct (Nat.eqb_spec j k) as [->|]; [|auto].
        unfold tinv. simpl. split; [exact HdN|]. split; [exists loc2; auto|]. split.
        -- exists []. rewrite map_map. simpl. rewrite map_id. reflexivity.
        -- apply Forall_forall. intros [q w] Hin. apply in_map_iff in Hin.
           destruct Hin as (q0 & [= <- <-] & Hin). simpl. apply F4; exact Hin.
      * apply (cinv_transfer s); [reflexivity| |exact Hc]. intros j Hj. rewrite Hpo; auto.
Qed.

Lemma all_nodup : NoDup (qids T).
Proof. exact (wf_qids Hwf). Qed.

Lemma suffix_nodup (A : Type) (l dn r : list A) : NoDup l -> l = dn ++ r -> NoDup r.
Proof.
  intros H ->. revert H. induction dn as [|a dn IH]; simpl; [auto|]. intros H; inversion H; auto.
Qed.

Lemma cstep_inv s s' e : Inv s -> cstep T s = Some (s', e) -> Inv s'.
Proof.
  intros HI. pose proof HI as [Hq Ht Hc]. unfold cstep. set (c := cleaner s) in *.
  destruct (nth_error (dates T) (cdate c)) as [d|] eqn:Hd; [|discriminate].
  assert (HdN : cdate c < N) by (apply nth_error_Some; congruence).
  unfold cinv in Hc. fold c in Hc.
  destruct (cph c) as [[|q r]|[|q r]] eqn:Hp.
  - intros [= <- <-]. destruct Hc as (H1 & dn & H2 & H3). rewrite app_nil_r in H2. subst dn.
    assert (Hin : forall q, In q (qids T) -> In q (qids T)).
    { auto. }
    split.
    + intros q Hqn. apply (qinv_transfer s); auto. unfold ccount, ncl; simpl.
      fold c. rewrite Hp. destruct (in_dec _ _ _) as [|Hni]; [reflexivity|].
      exfalso; auto.
    + exact Ht.
    + unfold cinv; simpl. split; [exact HdN|]. split; [exists []; reflexivity|].
      intros q Hqn. exact (H3 q (Hin q Hqn)).
  - destruct (try_get (queues s q) d true None false) as [q' o] eqn:Hg.
    destruct o; try discriminate. intros [= <- <-].
    destruct Hc as (H1 & dn & H2 & H3).
    assert (Hqn : In q (qids T)).
    { assert (Hi : In q (qids T)) by (rewrite H2; apply in_or_app; right; left; reflexivity). exact Hi. }
    pose proof (try_get_val _ _ _ _ Hg) as [-> Hf].
    destruct (Hq q Hqn) as [Q1 Q2 Q3 Q4 Q5].
    rewrite (content_find _ (wf_dates Hwf) _ _ _ _ _ _ Q4 Hd) in Hf.
    split.
    + intros j Hj. apply (qinv_transfer s); auto.
      * simpl. apply upd_same_queue.
      * unfold ccount, ncl; simpl. fold c. rewrite Hp. reflexivity.
    + exact Ht.
    + unfold cinv; simpl. split; [exact H1|]. exists (dn ++ [q]). rewrite <- app_assoc.
      split; [exact H2|]. intros j Hj. unfold pcount in *. simpl.
      apply in_app_or in Hj. destruct Hj as [Hj|[<-|[]]]; [apply H3; exact Hj|].
      destruct (Nat.leb_spec (ccount s q) (cdate c)); [|simpl in Hf; discriminate].
      destruct (Nat.ltb_spec (cdate c) (ccount s q + (nput (threads s (owner q)) q - ccount s q)));
        [|simpl in Hf; discriminate]. lia.
  - intros [= <- <-]. destruct Hc as (H1 & _ & H3). split.
    + intros q Hqn. apply (qinv_transfer s); auto. unfold ccount, ncl; simpl.
      fold c. rewrite Hp. simpl. lia.
    + exact Ht.
    + unfold cinv; simpl. split; [lia|]. exists []. split; [reflexivity|contradiction].
  - intros [= <- <-]. destruct Hc as (H1 & (dn & H2) & H3).
    assert (Hqn : In q (qids T)).
    { assert (Hi : In q (qids T)) by (rewrite H2; apply in_or_app; right; left; reflexivity). exact Hi. }
    pose proof (suffix_nodup _ _ _ _ all_nodup H2) as Hnd. apply NoDup_cons_iff in Hnd; destruct Hnd as [Hnq Hnr].
    set (s1 := mkS _ _ _).
    assert (Hcq : ccount s q = cdate c).
    { unfold ccount, ncl. fold c. rewrite Hp. destruct (in_dec _ _ _) as [|Hni]; [lia|].
      exfalso; apply Hni; left; reflexivity. }
    assert (Hcq1 : ccount s1 q = S (cdate c)).
    { unfold ccount, ncl, s1. simpl. destruct (in_dec _ _ _); [contradiction|lia]. }
    assert (Hco : forall j, j <> q -> ccount s1 j = ccount s j).
    { intros j Hne. unfold ccount, ncl, s1. simpl. fold c. rewrite Hp.
      destruct (in_dec Nat.eq_dec j r), (in_dec Nat.eq_dec j (q :: r)) as [Hi|Hi]; try reflexivity.
      - exfalso; apply Hi; right; assumption.
      - destruct Hi; [congruence|contradiction]. }
    split.
    + intros j Hj. destruct (Nat.eq_dec j q) as [->|Hne].
      * destruct (Hq q Hqn) as [Q1 Q2 Q3 Q4 Q5]. specialize (H3 q Hqn).
        rewrite Hcq in Q3, Q4, Q5.
        split; rewrite ?Hcq1; change (pcount s1 q) with (pcount s q);
          unfold s1; cbn [queues]; rewrite ?upd_eq; unfold do_clean; cbn [fst maxsize timeout items]; try assumption.
        -- apply content_tail; [|exact Hd].
           replace (S (pcount s q - S (cdate c))) with (pcount s q - cdate c) by lia. exact Q4.
        -- intros Hpos. specialize (Q5 Hpos). lia.
      * apply (qinv_transfer s); auto. unfold s1; simpl. apply upd_neq; exact Hne.
    + exact Ht.
    + unfold cinv; simpl. split; [exact HdN|]. split; [|exact H3].
      exists (dn ++ [q]). rewrite <- app_assoc. exact H2.
Qed.

Lemma pstep_inv s k s' e : Inv s -> pstep T s k = Some (s', e) -> Inv s'.
Proof.
  intros HI. unfold pstep. destruct (Nat.ltb_spec k (nthreads T)).
  - apply tstep_inv; assumption.
  - destruct (Nat.eqb_spec k (nthreads T)); [apply cstep_inv; assumption|discriminate].
Qed.

Lemma exec_inv s sch s' l : Inv s -> exec T s sch = (s', l) -> Inv s'.
Proof.
  revert s l; induction sch as [|k r IH]; intros s l HI; simpl.
  - intros [= <- <-]; exact HI.
  - destruct (pstep T s k) as [[s1 e]|] eqn:E; [|apply IH; exact HI].
    destruct (exec T s1 r) as [s2 l2] eqn:E2. intros [= <- <-].
    apply (IH s1 l2); [|exact E2]. eapply pstep_inv; eauto.
Qed.

Lemma reach_inv sch s l : exec T (init T) sch = (s, l) -> Inv s.
Proof. apply exec_inv. apply init_inv. Qed.

(** * Deadlock freedom *)
Lemma get_enabled s q d i :
  Inv s -> In q (qids T) -> nth_error (dates T) i = Some d ->
  ccount s q <= i -> i < pcount s q ->
  exists v, try_get (queues s q) d true None false = (queues s q, OVal v) .
Proof.
  intros HI Hq Hd H1 H2. destruct (iq _ HI q Hq) as [_ _ _ Q4 _].
  pose proof (content_find _ (wf_dates Hwf) _ _ _ _ _ _ Q4 Hd) as Hf. simpl in Hf.
  replace ((ccount s q <=? i) && (i <? ccount s q + (pcount s q - ccount s q))) with true in Hf.
  2:{ symmetry. apply andb_true_iff. rewrite Nat.leb_le, Nat.ltb_lt. lia. }
  assert (Hs : exists v, val i q = Some v).
  { (* the value is recorded in the content *)
    assert (Hin : In i (seq (ccount s q) (pcount s q - ccount s q))) by (apply in_seq; lia).
    revert Q4 Hin. clear. unfold content. generalize (items (queues s q)).
    induction (seq (ccount s q) (pcount s q - ccount s q)) as [|j js IH]; intros l H Hin;
      [contradiction|]. inversion H as [|? ? ? ? [_ Hv] Hr]; subst.
    destruct Hin as [->|Hin]; eauto. }
  destruct Hs as [v Hv]. exists v. unfold try_get; simpl. rewrite Hf, Hv. reflexivity.
Qed.

(** lexicographically least unfinished thread *)
Lemma least_thread (s : state V L) n :
  (forall k, k < n -> tdate (threads s k) = N) \/
  exists k, k < n /\ tdate (threads s k) <> N /\
    (forall j, j < n -> tdate (threads s j) <> N -> tdate (threads s k) <= tdate (threads s j)) /\
    (forall j, j < k -> tdate (threads s j) <> N -> tdate (threads s k) < tdate (threads s j)).
Proof.
  induction n as [|n IH].
  - left; lia.
  - destruct (Nat.eq_dec (tdate (threads s n)) N) as [En|En].
    + destruct IH as [IH|(k & H1 & H2 & H3 & H4)].
      * left. intros k Hk. destruct (Nat.eq_dec k n) as [->|]; [exact En|apply IH; lia].
      * right. exists k. repeat split; auto.
        intros j Hj Hjn. apply H3; [|exact Hjn]. destruct (Nat.eq_dec j n) as [->|]; [congruence|lia].
    + destruct IH as [IH|(k & H1 & H2 & H3 & H4)].
      * right. exists n. repeat split; auto.
        -- intros j Hj Hjn. destruct (Nat.eq_dec j n) as [->|]; [lia|].
           exfalso; apply Hjn; apply IH; lia.
        -- intros j Hj Hjn. exfalso; apply Hjn; apply IH; lia.
      * right. destruct (Nat.le_gt_cases (tdate (threads s k)) (tdate (threads s n))).
        -- exists k. repeat split; auto.
           intros j Hj Hjn. destruct (Nat.eq_dec j n) as [->|]; [lia|apply H3; [lia|exact Hjn]].
        -- exists n. repeat split; auto.
           ++ intros j Hj Hjn. destruct (Nat.eq_dec j n) as [->|]; [lia|].
              specialize (H3 j ltac:(lia) Hjn). lia.
           ++ intros j Hj Hjn. specialize (H3 j ltac:(lia) Hjn). lia.
Qed.

Lemma tdate_le s k : Inv s -> k < nthreads T -> tdate (threads s k) <= N.
Proof.
  intros HI Hk. pose proof (it _ HI k Hk) as H. unfold tinv in H.
  destruct (tputs (threads s k)); destruct H; lia.
Qed.

(** an unfinished thread that has completed its reads and whose own queues are not
    full, or that can read, can move *)
Lemma thread_enabled s k :
  Inv s -> k < nthreads T -> tdate (threads s k) <> N ->
  (forall j, j < nthreads T -> tdate (threads s j) <> N ->
             tdate (threads s k) <= tdate (threads s j)) ->
  (forall j, j < k -> tdate (threads s j) <> N ->
             tdate (threads s k) < tdate (threads s j)) ->
  tdate (threads s k) <= cdate (cleaner s) ->
  exists s' e, tstep T s k = Some (s', e).
Proof.
  intros HI Hk HnN Hmin Hlex Hcd.
  pose proof (tdate_le s k HI Hk) as HleN.
  destruct (nth_error (dates T) (tdate (threads s k))) as [d|] eqn:Hd.
  2:{ apply nth_error_None in Hd. lia. }
  pose proof (it _ HI k Hk) as Htk. unfold tinv in Htk.
  unfold tstep. rewrite Hd.
  destruct (tputs (threads s k)) as [[|[q v] r]|] eqn:Hp.
  - eauto.
  - destruct Htk as (_ & _ & (dn & Edn) & _).
    assert (Hown : In q (qids T) /\ owner q = k).
    { apply (outs_owner k (tdate (threads s k))); [exact Hk|]. rewrite Edn.
      apply in_or_app; right; left; reflexivity. }
    destruct Hown as [Hqn Hqk]. destruct (iq _ HI q Hqn) as [Q1 Q2 Q3 Q4 Q5].
    assert (Hpq : pcount s q = tdate (threads s k)).
    { unfold pcount. rewrite Hqk. unfold nput. rewrite Hp. simpl.
      destruct (Nat.eq_dec q q); [lia|congruence]. }
    pose proof (ncl_bounds (cleaner s) q) as Hcb. fold (ccount s q) in Hcb.
    assert (Hz : qsize (queues s q) = 0%Z).
    { unfold qsize. rewrite (content_length _ _ _ _ _ Q4). lia. }
    unfold try_put. rewrite Hz, Q1.
    destruct (Z.ltb_spec 0 (qmax T)) as [Hpos|]; cbn [negb].
    + destruct (Z.eqb_spec 0 (qmax T)); [lia|]. eexists; eexists; reflexivity.
    + eexists; eexists; reflexivity.
  - destruct (nextq T k (tdate (threads s k)) (tlocal (threads s k)) (treads (threads s k)))
      as [q|] eqn:Hn.
    + destruct (wf_reads Hwf _ _ _ _ _ Hk Hn) as [Hqn Hqk].
      pose proof (reading_not_cleaned s k q HI Hk Hp) as Hcc.
      assert (Hpc : tdate (threads s k) < pcount s q).
      { unfold pcount. pose proof (nput_bounds (threads s (owner q)) q) as Hb.
        destruct (Nat.eq_dec (tdate (threads s (owner q))) N) as [E|E]; [lia|].
        specialize (Hlex _ Hqk E). lia. }
      destruct (get_enabled s q d _ HI Hqn Hd Hcc Hpc) as [v Hg]. rewrite Hg. eauto.
    + destruct (finish _ _ _ _ _); eauto.
Qed.

Lemma cleaner_enabled s :
  Inv s -> cdate (cleaner s) <> N ->
  (forall k, k < nthreads T -> tdate (threads s k) <> N ->
             cdate (cleaner s) < tdate (threads s k)) ->
  exists s' e, cstep T s = Some (s', e).
Proof.
  intros HI HnN Hall. pose proof (ic _ HI) as Hc. unfold cinv in Hc.
  assert (HcN : cdate (cleaner s) <= N) by (destruct (cph (cleaner s)); destruct Hc; lia).
  destruct (nth_error (dates T) (cdate (cleaner s))) as [d|] eqn:Hd.
  2:{ apply nth_error_None in Hd. lia. }
  unfold cstep. rewrite Hd.
  destruct (cph (cleaner s)) as [[|q r]|[|q r]] eqn:Hp; eauto.
  destruct Hc as (_ & dn & H2 & H3).
  assert (Hqn : In q (qids T)).
  { assert (Hi : In q (qids T)) by (rewrite H2; apply in_or_app; right; left; reflexivity). exact Hi. }
  assert (Hcc : ccount s q <= cdate (cleaner s)).
  { unfold ccount, ncl. rewrite Hp. lia. }
  assert (Hpc : cdate (cleaner s) < pcount s q).
  { pose proof (wf_owner Hwf q Hqn) as Ho. unfold pcount.
    pose proof (nput_bounds (threads s (owner q)) q) as Hb.
    destruct (Nat.eq_dec (tdate (threads s (owner q))) N) as [E|E]; [lia|].
    specialize (Hall _ Ho E). lia. }
  destruct (get_enabled s q d _ HI Hqn Hd Hcc Hpc) as [v Hg]. rewrite Hg. eauto.
Qed.

Lemma finished_dec s : finished T s \/ ~ finished T s.
Proof.
  unfold finished. destruct (Nat.eq_dec (cdate (cleaner s)) N); [|right; tauto].
  destruct (least_thread s (nthreads T)) as [H|(k & H1 & H2 & _)]; [left; auto|].
  right. intros [H _]. apply H2; auto.
Qed.

Lemma progress s : Inv s -> ~ finished T s -> exists k s' e, pstep T s k = Some (s', e).
Proof.
  intros HI Hnf.
  destruct (least_thread s (nthreads T)) as [Hall|(k & Hk & HkN & Hmin & Hlex)].
  - assert (HcN : cdate (cleaner s) <> N) by (intros E; apply Hnf; split; assumption).
    destruct (cleaner_enabled s HI HcN) as (s' & e & He).
    { intros j Hj Hjn. exfalso; apply Hjn; auto. }
    exists (nthreads T), s', e. unfold pstep. rewrite Nat.ltb_irrefl, Nat.eqb_refl. exact He.
  - destruct (Nat.le_gt_cases (tdate (threads s k)) (cdate (cleaner s))) as [Hle|Hgt].
    + destruct (thread_enabled s k HI Hk HkN Hmin Hlex Hle) as (s' & e & He).
      exists k, s', e. unfold pstep. destruct (Nat.ltb_spec k (nthreads T)); [exact He|lia].
    + pose proof (tdate_le s k HI Hk).
      destruct (cleaner_enabled s HI) as (s' & e & He).
      * lia.
      * intros j Hj Hjn. specialize (Hmin j Hj Hjn). lia.
      * exists (nthreads T), s', e. unfold pstep. rewrite Nat.ltb_irrefl, Nat.eqb_refl. exact He.
Qed.

(** * Termination *)
Definition owidth (k : nat) : nat := length (filter (fun q => owner q =? k) (qids T)).
Definition twidth (k : nat) : nat := B + owidth k + 2.
Definition tmeas (t : tstate V L) (k : nat) : nat :=
  (N - tdate t) * twidth k -
  match tputs t with
  | None => length (treads t)
  | Some r => B + 1 + (owidth k - length r)
  end.
Definition cwidth : nat := 2 * length (qids T) + 3.
Definition cmeas (c : cstate) : nat :=
  (N - cdate c) * cwidth -
  match cph c with
  | CGet r => length (qids T) - length r
  | CClean r => length (qids T) + 1 + (length (qids T) - length r)
  end.
Definition meas (s : state V L) : nat :=
  list_sum (map (fun k => tmeas (threads s k) k) (seq 0 (nthreads T))) + cmeas (cleaner s).

Lemma outs_length k i : k < nthreads T -> length (outs T k i) = owidth k.
Proof.
  intros Hk. unfold owidth.
  assert (Hnd : NoDup (filter (fun q => owner q =? k) (qids T))).
  { apply NoDup_filter. apply all_nodup. }
  apply Nat.le_antisymm; apply NoDup_incl_length.
  - apply (wf_outs_nodup Hwf); exact Hk.
  - intros q Hq. apply (wf_outs Hwf) in Hq; [|exact Hk]. apply filter_In. split.
    + tauto.
    + apply Nat.eqb_eq; tauto.
  - exact Hnd.
  - intros q Hq. apply filter_In in Hq. destruct Hq as [H1 H2].
    apply (wf_outs Hwf); [exact Hk|]. apply Nat.eqb_eq in H2. auto.
Qed.

Lemma list_sum_upd (f g : nat -> nat) n k a :
  a <= k -> k < a + n -> (forall j, j <> k -> f j = g j) -> f k < g k ->
  list_sum (map f (seq a n)) < list_sum (map g (seq a n)).
Proof.
  intros Ha Hk Hne Hlt. revert a Ha Hk. induction n as [|n IH]; intros a Ha Hk; [lia|].
  simpl. destruct (Nat.eq_dec a k) as [->|Hak].
  - assert (E : map f (seq (S k) n) = map g (seq (S k) n)).
    { apply map_ext_in. intros j Hj. apply in_seq in Hj. apply Hne. lia. }
    rewrite E. lia.
  - rewrite (Hne a Hak). specialize (IH (S a) ltac:(lia) ltac:(lia)). lia.
Qed.

Lemma mul_step N' i w : i < N' -> (N' - i) * w = (N' - S i) * w + w.
Proof. intros H. replace (N' - i) with (S (N' - S i)) by lia. simpl. lia. Qed.

Lemma tstep_meas s k s' e :
  Inv s -> k < nthreads T -> tstep T s k = Some (s', e) -> meas s' < meas s.
Proof.
  intros HI Hk H.
  assert (G : cleaner s' = cleaner s /\ (forall j, j <> k -> threads s' j = threads s j) /\
              tmeas (threads s' k) k < tmeas (threads s k) k).
  { pose proof (it _ HI k Hk) as Htk. unfold tinv in Htk.
    unfold tstep in H. set (t := threads s k) in *.
    destruct (nth_error (dates T) (tdate t)) as [d|] eqn:Hd; [|discriminate].
    assert (HdN : tdate t < N) by (apply nth_error_Some; congruence).
    pose proof (mul_step N (tdate t) (twidth k) HdN) as Hm.
    assert (Hw : twidth k = B + owidth k + 2) by reflexivity.
    set (X := (N - tdate t) * twidth k) in *. set (Y := (N - S (tdate t)) * twidth k) in *.
    destruct (tputs t) as [[|[q v] r]|] eqn:Hp.
    - injection H as <- <-. simpl. split; [reflexivity|]. split.
      + intros j Hj. apply upd_neq; exact Hj.
      + rewrite upd_eq. unfold tmeas. cbn [tdate tputs treads]. rewrite Hp. fold X; try fold Y; cbn [length]; try fold Y; lia.
    - destruct (try_put (queues s q) d v true false) as [q' o] eqn:Hput.
      destruct o; try discriminate. injection H as <- <-. simpl. split; [reflexivity|]. split.
      + intros j Hj. apply upd_neq; exact Hj.
      + rewrite upd_eq. unfold tmeas. cbn [tdate tputs treads]. rewrite Hp. cbn [length].
        destruct Htk as (_ & _ & (dn & Edn) & _).
        pose proof (outs_length k (tdate t) Hk) as Hol. rewrite Edn, app_length in Hol.
        simpl in Hol. rewrite map_length in Hol. fold X; try fold Y; lia.
    - destruct Htk as (H1 & H2 & loc & fuel & vs & E1 & E2 & E3 & E4).
      destruct (nextq T k (tdate t) (tlocal t) (treads t)) as [q|] eqn:Hn.
      + destruct (try_get (queues s q) d true None false) as [q' o] eqn:Hg.
        destruct o; try discriminate. injection H as <- <-. simpl. split; [reflexivity|]. split.
        * intros j Hj. apply upd_neq; exact Hj.
        * rewrite upd_eq. unfold tmeas. cbn [tdate tputs treads]. rewrite Hp. rewrite app_length. cbn [length].
          assert (Hlen : length (treads t) < B).
          { destruct (Nat.lt_ge_cases (length (treads t)) B) as [|Hge]; [assumption|].
            rewrite (wf_bound Hwf _ _ _ _ Hk Hge) in Hn. discriminate. }
          fold X; try fold Y; lia.
      + destruct (finish T k (tdate t) (tlocal t) (treads t)) as [f l'] eqn:Hfin.
        injection H as <- <-. simpl. split; [reflexivity|]. split.
        * intros j Hj. apply upd_neq; exact Hj.
        * rewrite upd_eq. unfold tmeas. cbn [tdate tputs treads]. rewrite Hp, map_length.
          rewrite (outs_length k (tdate t) Hk). fold X; try fold Y; lia. }
  destruct G as (G1 & G2 & G3). unfold meas. rewrite G1.
  apply Nat.add_lt_mono_r. apply (list_sum_upd _ _ _ k 0); try lia.
  intros j Hj. rewrite G2 by exact Hj. reflexivity.
Qed.

Lemma cstep_meas s s' e : Inv s -> cstep T s = Some (s', e) -> meas s' < meas s.
Proof.
  intros HI H. pose proof (ic _ HI) as Hc. unfold cinv in Hc.
  assert (G : threads s' = threads s /\ cmeas (cleaner s') < cmeas (cleaner s)).
  { unfold cstep in H. set (c := cleaner s) in *.
    destruct (nth_error (dates T) (cdate c)) as [d|] eqn:Hd; [|discriminate].
    assert (HdN : cdate c < N) by (apply nth_error_Some; congruence).
    pose proof (mul_step N (cdate c) cwidth HdN) as Hm.
    assert (Hw : cwidth = 2 * length (qids T) + 3) by reflexivity.
    set (X := (N - cdate c) * cwidth) in *. set (Y := (N - S (cdate c)) * cwidth) in *.
    unfold cmeas. destruct (cph c) as [[|q r]|[|q r]] eqn:Hp.
    - injection H as <- <-. cbn [threads cleaner cdate cph length]. split; [reflexivity|]. fold X; try fold Y; lia.
    - destruct (try_get (queues s q) d true None false) as [q' o] eqn:Hg.
      destruct o; try discriminate. injection H as <- <-. cbn [threads cleaner cdate cph length]. split; [reflexivity|].
      destruct Hc as (_ & dn & H2 & _). apply (f_equal (@length nat)) in H2. rewrite app_length in H2. simpl in H2.
      fold X; try fold Y; lia.
    - injection H as <- <-. cbn [threads cleaner cdate cph length]. split; [reflexivity|]. fold X; try fold Y; lia.
    - injection H as <- <-. cbn [threads cleaner cdate cph length]. split; [reflexivity|].
      destruct Hc as (_ & (dn & H2) & _). apply (f_equal (@length nat)) in H2. rewrite app_length in H2. simpl in H2.
      fold X; try fold Y; lia. }
  destruct G as [G1 G2]. unfold meas. rewrite G1. lia.
Qed.

Lemma pstep_meas s k s' e : Inv s -> pstep T s k = Some (s', e) -> meas s' < meas s.
Proof.
  intros HI. unfold pstep. destruct (Nat.ltb_spec k (nthreads T)).
  - apply tstep_meas; assumption.
  - destruct (Nat.eqb_spec k (nthreads T)); [apply cstep_meas; assumption|discriminate].
Qed.

Lemma exec_meas s sch s' l : Inv s -> exec T s sch = (s', l) -> meas s' + length l <= meas s.
Proof.
  revert s l; induction sch as [|k r IH]; intros s l HI; simpl.
  - intros [= <- <-]; simpl; lia.
  - destruct (pstep T s k) as [[s1 e]|] eqn:E; [|apply IH; exact HI].
    destruct (exec T s1 r) as [s2 l2] eqn:E2. intros [= <- <-]. simpl.
    pose proof (pstep_meas _ _ _ _ HI E).
    pose proof (IH s1 l2 (pstep_inv _ _ _ _ HI E) E2). lia.
Qed.

Lemma meas_init : meas (init T) = N * (list_sum (map twidth (seq 0 (nthreads T))) + cwidth).
Proof.
  unfold meas, cmeas. simpl. rewrite !Nat.sub_0_r.
  rewrite Nat.sub_diag, Nat.sub_0_r.
  rewrite Nat.mul_add_distr_l. f_equal.
  induction (seq 0 (nthreads T)) as [|a l IH]; simpl; [lia|].
  rewrite IH. unfold tmeas. simpl. lia.
Qed.

(** every infinite fair schedule finishes *)
Lemma exec_app s a b :
  exec T s (a ++ b) =
  let '(s1, l1) := exec T s a in let '(s2, l2) := exec T s1 b in (s2, l1 ++ l2).
Proof.
  revert s; induction a as [|k a IH]; intros s; simpl.
  - destruct (exec T s b); reflexivity.
  - destruct (pstep T s k) as [[s1 e]|]; [|apply IH]. rewrite IH.
    destruct (exec T s1 a) as [s2 l2]. destruct (exec T s2 b); reflexivity.
Qed.

Lemma finished_stuck s k : finished T s -> pstep T s k = None.
Proof.
  intros [H1 H2]. unfold pstep. destruct (Nat.ltb_spec k (nthreads T)) as [Hk|].
  - unfold tstep. rewrite H1 by exact Hk.
    destruct (nth_error (dates T) N) eqn:E; [|reflexivity].
    assert (N < N) by (apply nth_error_Some; congruence). lia.
  - destruct (k =? nthreads T); [|reflexivity]. unfold cstep. rewrite H2.
    destruct (nth_error (dates T) N) eqn:E; [|reflexivity].
    assert (N < N) by (apply nth_error_Some; congruence). lia.
Qed.

Lemma pstep_id_le s k s' e : pstep T s k = Some (s', e) -> k <= nthreads T.
Proof.
  unfold pstep. destruct (Nat.ltb_spec k (nthreads T)); [lia|].
  destruct (Nat.eqb_spec k (nthreads T)); [lia|discriminate].
Qed.

(** from position m of the schedule, an effective step happens unless finished *)
Lemma fair_progress f s m :
  fair T f -> Inv s -> ~ finished T s ->
  exists n s' l, exec T s (map f (seq m n)) = (s', l) /\ l <> [].
Proof.
  intros Hf HI Hnf. destruct (progress s HI Hnf) as (k & s1 & e & Hs).
  destruct (Hf k (pstep_id_le _ _ _ _ Hs) m) as (m' & Hm' & Hfk).
  exists (S (m' - m)).
  destruct (exec T s (map f (seq m (S (m' - m))))) as [s' l] eqn:E. exists s', l.
  split; [reflexivity|]. intros ->.
  rewrite seq_S, map_app, exec_app in E.
  destruct (exec T s (map f (seq m (m' - m)))) as [s2 l2] eqn:E2. simpl in E.
  replace (m + (m' - m)) with m' in E by lia. rewrite Hfk in E.
  assert (l2 = [] /\ s2 = s).
  { assert (Hnil : forall sch s0 s3, exec T s0 sch = (s3, []) -> s3 = s0).
    { clear. induction sch as [|a sch IH]; intros s0 s3; simpl; [congruence|].
      destruct (pstep T s0 a) as [[s4 e4]|]; [|apply IH].
      destruct (exec T s4 sch); discriminate. }
    destruct (pstep T s2 k) as [[s4 e4]|].
    - injection E as _ E. destruct l2; discriminate.
    - injection E as <- E. destruct l2; [|discriminate]. split; [reflexivity|].
      eapply Hnil; exact E2. }
  destruct H as [-> ->]. rewrite Hs in E. discriminate.
Qed.

Lemma fair_terminates f :
  fair T f -> exists n, forall n', n <= n' ->
    finished T (fst (exec T (init T) (map f (seq 0 n')))).
Proof.
  intros Hf.
  assert (G : forall b s m, Inv s -> meas s <= b ->
             exists n, finished T (fst (exec T s (map f (seq m n))))).
  { induction b as [|b IH]; intros s m HI Hb.
    - destruct (finished_dec s) as [H|H]; [exists 0; exact H|].
      destruct (progress s HI H) as (k & s1 & e & Hs).
      apply pstep_meas in Hs; [lia|exact HI].
    - destruct (finished_dec s) as [H|H]; [exists 0; exact H|].
      destruct (fair_progress f s m Hf HI H) as (n & s' & l & E & Hl).
      pose proof (exec_meas _ _ _ _ HI E) as Hm. destruct l as [|e l]; [congruence|].
      simpl in Hm. destruct (IH s' (m + n) (exec_inv _ _ _ _ HI E) ltac:(lia)) as [n2 H2].
      exists (n + n2). rewrite seq_app, map_app, exec_app, E.
      destruct (exec T s' (map f (seq (m + n) n2))); exact H2. }
  destruct (G _ _ 0 init_inv (le_n _)) as [n Hn]. exists n. intros n' Hn'.
  replace n' with (n + (n' - n)) by lia. rewrite seq_app, map_app, exec_app.
  destruct (exec T (init T) (map f (seq 0 n))) as [s l]. simpl in Hn.
  assert (Hst : forall sch, exec T s sch = (s, [])).
  { induction sch as [|a sch IH]; simpl; [reflexivity|]. rewrite finished_stuck by exact Hn. exact IH. }
  rewrite Hst. exact Hn.
Qed.

(** * Values, cleaner safety, distance *)
Lemma event_values s k s' e :
  Inv s -> pstep T s k = Some (s', e) ->
  match e with
  | EGet _ q d v | EPut _ q d v =>
      exists i, nth_error (dates T) i = Some d /\ val i q = Some v
  | _ => True
  end.
Proof.
  intros HI. unfold pstep. destruct (Nat.ltb_spec k (nthreads T)) as [Hk|_].
  - unfold tstep. destruct (nth_error (dates T) (tdate (threads s k))) as [d|] eqn:Hd; [|discriminate].
    destruct (tputs (threads s k)) as [[|[q v] r]|] eqn:Hp.
    + intros [= <- <-]. exact I.
    + destruct (try_put (queues s q) d v true false) as [q' o] eqn:Hput.
      destruct o; try discriminate. intros [= <- <-].
      exists (tdate (threads s k)). split; [exact Hd|].
      pose proof (it _ HI k Hk) as Htk. unfold tinv in Htk. rewrite Hp in Htk.
      destruct Htk as (_ & _ & _ & Hv). inversion Hv; subst; assumption.
    + destruct (nextq _ _ _ _ _) as [q|] eqn:Hn.
      * destruct (try_get (queues s q) d true None false) as [q' o] eqn:Hg.
        destruct o; try discriminate. intros [= <- <-].
        exists (tdate (threads s k)). split; [exact Hd|].
        destruct (wf_reads Hwf _ _ _ _ _ Hk Hn) as [Hqn Hqk].
        pose proof (try_get_val _ _ _ _ Hg) as [-> _].
        apply (get_value s k q d v); assumption.
      * destruct (finish _ _ _ _ _). intros [= <- <-]. exact I.
  - destruct (k =? nthreads T); [|discriminate]. unfold cstep.
    destruct (nth_error (dates T) (cdate (cleaner s))) as [d|] eqn:Hd; [|discriminate].
    destruct (cph (cleaner s)) as [[|q r]|[|q r]] eqn:Hp; try (intros [= <- <-]; exact I).
    destruct (try_get (queues s q) d true None false) as [q' o] eqn:Hg.
    destruct o; try discriminate. intros [= <- <-].
    exists (cdate (cleaner s)). split; [exact Hd|].
    pose proof (ic _ HI) as Hc. unfold cinv in Hc. rewrite Hp in Hc.
    destruct Hc as (_ & dn & H2 & _).
    assert (Hqn : In q (qids T)).
    { assert (Hi : In q (qids T)) by (rewrite H2; apply in_or_app; right; left; reflexivity). exact Hi. }
    pose proof (try_get_val _ _ _ _ Hg) as [-> Hf].
    destruct (iq _ HI q Hqn) as [_ _ _ Q4 _].
    rewrite (content_find _ (wf_dates Hwf) _ _ _ _ _ _ Q4 Hd) in Hf.
    destruct (_ && _); [exact Hf|discriminate].
Qed.

Lemma trace_values s sch s' l :
  Inv s -> exec T s sch = (s', l) ->
  Forall (fun e => match e with
                   | EGet _ q d v | EPut _ q d v =>
                       exists i, nth_error (dates T) i = Some d /\ val i q = Some v
                   | _ => True
                   end) l.
Proof.
  revert s l; induction sch as [|k r IH]; intros s l HI; simpl.
  - intros [= <- <-]; constructor.
  - destruct (pstep T s k) as [[s1 e]|] eqn:E; [|apply IH; exact HI].
    destruct (exec T s1 r) as [s2 l2] eqn:E2. intros [= <- <-]. constructor.
    + eapply event_values; eauto.
    + apply (IH s1); [|exact E2]. eapply pstep_inv; eauto.
Qed.

(** once a date has been cleaned from some queue, no thread is still reading it *)
Definition past (s : state V L) (i : nat) : Prop :=
  (forall k, k < nthreads T -> i < tdate (threads s k) \/
             (tdate (threads s k) = i /\ tputs (threads s k) <> None)) /\
  (i < cdate (cleaner s) \/ (cdate (cleaner s) = i /\ exists r, cph (cleaner s) = CClean r)).

Lemma cleaned_past s q i : Inv s -> i < ccount s q -> past s i.
Proof.
  intros HI Hi. split.
  - intros k Hk. destruct (tputs (threads s k)) as [r|] eqn:Hp.
    + destruct (outs T k (tdate (threads s k))) as [|o ro] eqn:Eo.
      { exfalso. exact (wf_outs_some Hwf _ _ Hk Eo). }
      assert (Ho : In o (qids T) /\ owner o = k).
      { apply (outs_owner k (tdate (threads s k))); [exact Hk|]. rewrite Eo. left; reflexivity. }
      destruct Ho as [Hoq Hok].
      pose proof (nput_bounds (threads s k) o) as Hb.
      assert (Hpo : i < pcount s o).
      { pose proof (ic _ HI) as Hc. unfold cinv in Hc. unfold ccount, ncl in Hi.
        destruct (cph (cleaner s)) as [r'|r'] eqn:Ec.
        - pose proof (qi_le _ _ (iq _ HI o Hoq)) as Hle. unfold ccount, ncl in Hle.
          rewrite Ec in Hle. lia.
        - destruct Hc as (_ & _ & Hall). specialize (Hall o Hoq). destruct (in_dec _ _ _); lia. }
      unfold pcount in Hpo. rewrite Hok in Hpo.
      destruct (Nat.lt_ge_cases i (tdate (threads s k))); [left; assumption|].
      right. split; [lia|discriminate].
    + left. pose proof (reading_not_cleaned s k q HI Hk Hp). lia.
  - unfold ccount, ncl in Hi. destruct (cph (cleaner s)) as [r|r] eqn:Ec; [left; lia|].
    destruct (Nat.lt_ge_cases i (cdate (cleaner s))); [left; assumption|].
    right. split; [destruct (in_dec _ _ _); lia|eauto].
Qed.

Lemma past_step s k s' e i :
  past s i -> pstep T s k = Some (s', e) -> past s' i.
Proof.
  intros [H1 H2]. unfold pstep. destruct (Nat.ltb_spec k (nthreads T)) as [Hk|_].
  - intros Hs.
    assert (G : cleaner s' = cleaner s /\ (forall j, j <> k -> threads s' j = threads s j) /\
      (i < tdate (threads s' k) \/ (tdate (threads s' k) = i /\ tputs (threads s' k) <> None))).
    { specialize (H1 k Hk). unfold tstep in Hs.
      destruct (nth_error (dates T) (tdate (threads s k))) as [d|] eqn:Hd; [|discriminate].
      destruct (tputs (threads s k)) as [[|[q v] r]|] eqn:Hp.
      - injection Hs as <- <-. simpl. split; [reflexivity|]. split.
        + intros j Hj. apply upd_neq; exact Hj.
        + rewrite upd_eq. simpl. left. destruct H1 as [|[? ?]]; lia.
      - destruct (try_put (queues s q) d v true false) as [q' o].
        destruct o; try discriminate. injection Hs as <- <-. simpl. split; [reflexivity|]. split.
        + intros j Hj. apply upd_neq; exact Hj.
        + rewrite upd_eq. simpl. destruct H1 as [|[? ?]]; [left; lia|right; split; [lia|discriminate]].
      - destruct H1 as [H1|[_ H1]]; [|congruence].
        destruct (nextq _ _ _ _ _) as [q|].
        + destruct (try_get (queues s q) d true None false) as [q' o].
          destruct o; try discriminate. injection Hs as <- <-. simpl. split; [reflexivity|]. split.
          * intros j Hj. apply upd_neq; exact Hj.
          * rewrite upd_eq. simpl. left; lia.
        + destruct (finish _ _ _ _ _). injection Hs as <- <-. simpl. split; [reflexivity|]. split.
          * intros j Hj. apply upd_neq; exact Hj.
          * rewrite upd_eq. simpl. left; lia. }
    destruct G as (G1 & G2 & G3). split; [|rewrite G1; exact H2].
    intros j Hj. destruct (Nat.eq_dec j k) as [->|Hne]; [exact G3|].
    rewrite G2 by exact Hne. auto.
  - destruct (k =? nthreads T); [|discriminate]. unfold cstep.
    destruct (nth_error (dates T) (cdate (cleaner s))) as [d|] eqn:Hd; [|discriminate].
    destruct (cph (cleaner s)) as [[|q r]|[|q r]] eqn:Hp.
    + intros [= <- <-]. split; [exact H1|]. simpl. destruct H2 as [|[? (r & ?)]]; [left; lia|discriminate].
    + destruct (try_get (queues s q) d true None false) as [q' o].
      destruct o; try discriminate. intros [= <- <-]. split; [exact H1|]. simpl.
      destruct H2 as [|[? (r' & ?)]]; [left; lia|discriminate].
    + intros [= <- <-]. split; [exact H1|]. simpl. left. destruct H2 as [|[? ?]]; lia.
    + intros [= <- <-]. split; [exact H1|]. simpl. destruct H2 as [|[? ?]]; [left; lia|right].
      split; [assumption|eauto].
Qed.

(** no read of a past date *)
Lemma past_no_get s k s' e i d q v k' :
  past s i -> nth_error (dates T) i = Some d ->
  pstep T s k = Some (s', e) -> e <> EGet k' q d v.
Proof.
  intros [H1 H2] Hi Hs ->. unfold pstep in Hs.
  destruct (Nat.ltb_spec k (nthreads T)) as [Hk|_].
  - specialize (H1 k Hk). unfold tstep in Hs.
    destruct (nth_error (dates T) (tdate (threads s k))) as [d'|] eqn:Hd; [|discriminate].
    destruct (tputs (threads s k)) as [[|[q0 v0] r]|] eqn:Hp.
    + discriminate.
    + destruct (try_put (queues s q0) d' v0 true false) as [q' o]. destruct o; discriminate.
    + destruct (nextq _ _ _ _ _) as [q0|].
      * destruct (try_get (queues s q0) d' true None false) as [q' o].
        destruct o; try discriminate. injection Hs as _ _ _ Ed _. subst d'.
        pose proof (dts_inj _ (wf_dates Hwf) _ _ _ Hi Hd). destruct H1 as [|[_ H1]]; [lia|congruence].
      * destruct (finish _ _ _ _ _); discriminate.
  - destruct (k =? nthreads T); [|discriminate]. unfold cstep in Hs.
    destruct (nth_error (dates T) (cdate (cleaner s))) as [d'|] eqn:Hd; [|discriminate].
    destruct (cph (cleaner s)) as [[|q0 r]|[|q0 r]] eqn:Hp; try discriminate.
    destruct (try_get (queues s q0) d' true None false) as [q' o].
    destruct o; try discriminate. injection Hs as _ _ _ Ed _. subst d'.
    pose proof (dts_inj _ (wf_dates Hwf) _ _ _ Hi Hd).
    destruct H2 as [|[_ (r' & H2)]]; [lia|discriminate].
Qed.

Lemma past_trace s sch s' l i d k' q v :
  past s i -> nth_error (dates T) i = Some d ->
  exec T s sch = (s', l) -> ~ In (EGet k' q d v) l.
Proof.
  revert s l; induction sch as [|k r IH]; intros s l HP Hi; simpl.
  - intros [= <- <-] [].
  - destruct (pstep T s k) as [[s1 e]|] eqn:E; [|apply IH; assumption].
    destruct (exec T s1 r) as [s2 l2] eqn:E2. intros [= <- <-]. intros [He|Hl].
    + eapply past_no_get; eauto.
    + eapply (IH s1); eauto. eapply past_step; eauto.
Qed.

Lemma clean_then_no_get s sch s' l1 q d l2 k q' v :
  Inv s -> exec T s sch = (s', l1 ++ EClean q d :: l2) -> ~ In (EGet k q' d v) l2.
Proof.
  revert s l1; induction sch as [|k0 r IH]; intros s l1 HI; simpl.
  - intros [= _ E]. destruct l1; discriminate.
  - destruct (pstep T s k0) as [[s1 e]|] eqn:E; [|apply IH; exact HI].
    destruct (exec T s1 r) as [s2 l3] eqn:E2. intros [= <- El].
    destruct l1 as [|e1 l1]; simpl in El; injection El as -> El; subst l3.
    2:{ eapply (IH s1); eauto. eapply pstep_inv; eauto. }
    (* the clean happens now *)
    pose proof (pstep_inv _ _ _ _ HI E) as HI1.
    unfold pstep in E. destruct (Nat.ltb_spec k0 (nthreads T)).
    { exfalso. unfold tstep in E.
      destruct (nth_error (dates T) (tdate (threads s k0))) as [d'|]; [|discriminate].
      destruct (tputs (threads s k0)) as [[|[q0 v0] r0]|].
      - discriminate.
      - destruct (try_put (queues s q0) d' v0 true false) as [q1 o]. destruct o; discriminate.
      - destruct (nextq _ _ _ _ _) as [q0|].
        + destruct (try_get (queues s q0) d' true None false) as [q1 o]. destruct o; discriminate.
        + destruct (finish _ _ _ _ _); discriminate. }
    destruct (k0 =? nthreads T); [|discriminate]. unfold cstep in E.
    destruct (nth_error (dates T) (cdate (cleaner s))) as [d'|] eqn:Hd; [|discriminate].
    pose proof (ic _ HI) as Hc. unfold cinv in Hc.
    destruct (cph (cleaner s)) as [[|q0 r0]|[|q0 r0]] eqn:Hp; try discriminate.
    { destruct (try_get (queues s q0) d' true None false) as [q1 o]. destruct o; discriminate. }
    injection E as <- <- <-. destruct Hc as (_ & (dn & H2) & _).
    eapply (past_trace _ _ _ _ (cdate (cleaner s))); [|exact Hd|exact E2].
    apply (cleaned_past _ q0); [exact HI1|].
    unfold ccount, ncl. simpl.
    pose proof (suffix_nodup _ _ _ _ all_nodup H2) as Hnd. apply NoDup_cons_iff in Hnd; destruct Hnd as [Hnq Hnr].
    destruct (in_dec _ _ _); [contradiction|lia].
Qed.

Lemma ahead s k : Inv s -> k < nthreads T -> (0 < qmax T)%Z ->
  (Z.of_nat (tdate (threads s k)) <= Z.of_nat (cdate (cleaner s)) + qmax T + 1)%Z.
Proof.
  intros HI Hk Hpos.
  destruct (outs T k (tdate (threads s k))) as [|o ro] eqn:Eo.
  { exfalso. exact (wf_outs_some Hwf _ _ Hk Eo). }
  assert (Ho : In o (qids T) /\ owner o = k).
  { apply (outs_owner k (tdate (threads s k))); [exact Hk|]. rewrite Eo. left; reflexivity. }
  destruct Ho as [Hoq Hok]. destruct (iq _ HI o Hoq) as [_ _ Q3 _ Q5]. specialize (Q5 Hpos).
  pose proof (nput_bounds (threads s k) o). pose proof (ncl_bounds (cleaner s) o).
  unfold pcount, ccount in *. rewrite Hok in *. lia.
Qed.

Lemma final_locals s k loc :
  Inv s -> finished T s -> k < nthreads T -> serial_locals T B N = Some loc ->
  tlocal (threads s k) = loc k.
Proof.
  intros HI [H1 _] Hk El. pose proof (it _ HI k Hk) as Ht. unfold tinv in Ht.
  rewrite (H1 k Hk) in Ht. destruct (tputs (threads s k)).
  - destruct Ht; lia.
  - destruct Ht as (_ & _ & loc' & fuel & vs & E1 & E2 & _). congruence.
Qed.

(** contents *)
Lemma item_value s q d v :
  Inv s -> In q (qids T) -> In (d, v) (items (queues s q)) ->
  exists i, nth_error (dates T) i = Some d /\ val i q = Some v.
Proof.
  intros HI Hq Hin. destruct (iq _ HI q Hq) as [_ _ _ Q4 _]. unfold content in Q4.
  revert Hin Q4. generalize (items (queues s q)).
  induction (seq (ccount s q) (pcount s q - ccount s q)) as [|j js IH]; intros l Hin H.
  - inversion H; subst; contradiction.
  - inversion H as [|? it0 ? r [Ha Hb] Hr]; subst. destruct Hin as [->|Hin]; [exists j; auto|].
    eapply IH; eauto.
Qed.

Lemma queue_size s q : Inv s -> In q (qids T) -> (0 < qmax T)%Z ->
  (qsize (queues s q) <= qmax T)%Z.
Proof.
  intros HI Hq Hpos. destruct (iq _ HI q Hq) as [_ _ _ Q4 Q5]. unfold qsize.
  rewrite (content_length _ _ _ _ _ Q4). auto.
Qed.

(** at the end all queues are empty and every value has been put once *)
Lemma final_empty s q : Inv s -> finished T s -> In q (qids T) -> items (queues s q) = [].
Proof.
  intros HI [H1 H2] Hq. destruct (iq _ HI q Hq) as [_ _ Q3 Q4 _].
  pose proof (wf_owner Hwf q Hq) as Ho.
  assert (pcount s q = N).
  { unfold pcount, nput. pose proof (it _ HI _ Ho) as Ht. unfold tinv in Ht.
    rewrite (H1 _ Ho) in *. destruct (tputs _); [destruct Ht|]; lia. }
  pose proof (ncl_bounds (cleaner s) q). fold (ccount s q) in H0. rewrite H2 in H0.
  assert (Hz : pcount s q - ccount s q = 0) by lia. rewrite Hz in Q4.
  inversion Q4; reflexivity.
Qed.

End Machine.
