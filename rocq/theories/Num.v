(** Exact numbers used by the models: canonical rationals [Qc] (no axioms), missing
    values as [None], and a linear-arithmetic tactic for [Qc]. *)
From Coq Require Import QArith Qcanon Lqa List Bool ZArith.
Import ListNotations.
Local Open Scope Qc_scope.

Lemma this_plus (x y : Qc) : (this (x + y) == this x + this y)%Q.
Proof. apply Qred_correct. Qed.
Lemma this_mult (x y : Qc) : (this (x * y) == this x * this y)%Q.
Proof. apply Qred_correct. Qed.
Lemma this_opp (x : Qc) : (this (- x) == - this x)%Q.
Proof. apply Qred_correct. Qed.
Lemma this_minus (x y : Qc) : (this (x - y) == this x - this y)%Q.
Proof. unfold Qcminus. rewrite this_plus, this_opp. reflexivity. Qed.
Lemma this_inv (x : Qc) : (this (/ x) == / this x)%Q.
Proof. apply Qred_correct. Qed.
Lemma this_Q2Qc q : (this (Q2Qc q) == q)%Q.
Proof. apply Qred_correct. Qed.
Lemma this_eq (x y : Qc) : x = y -> (this x == this y)%Q.
Proof. intros ->. reflexivity. Qed.

Ltac qc_push :=
  repeat match goal with
  | H : @eq Qc _ _ |- _ => apply this_eq in H
  | H : not (@eq Qc _ _) |- _ => clear H
  | H : Qclt _ _ |- _ => unfold Qclt in H
  | H : Qcle _ _ |- _ => unfold Qcle in H
  end;
  try apply Qc_is_canon; unfold Qclt, Qcle;
  repeat match goal with
  | H : context [this (Qcplus _ _)] |- _ => rewrite this_plus in H
  | H : context [this (Qcmult _ _)] |- _ => rewrite this_mult in H
  | H : context [this (Qcminus _ _)] |- _ => rewrite this_minus in H
  | H : context [this (Qcopp _)] |- _ => rewrite this_opp in H
  | H : context [this (Q2Qc _)] |- _ => rewrite this_Q2Qc in H
  end;
  repeat first [rewrite this_plus | rewrite this_mult | rewrite this_minus | rewrite this_opp | rewrite this_Q2Qc].
Ltac qclra := intros; qc_push; lra.
Ltac qcl := qc_push; lra.
Ltac qcn := qc_push; nra.

Definition Qcltb (x y : Qc) : bool := if Qclt_le_dec x y then true else false.
Definition Qcleb (x y : Qc) : bool := if Qclt_le_dec y x then false else true.
Definition Qceqb (x y : Qc) : bool := if Qc_eq_dec x y then true else false.
Lemma Qcltb_spec x y : reflect (x < y) (Qcltb x y).
Proof. unfold Qcltb. destruct (Qclt_le_dec x y); constructor; auto. apply Qcle_not_lt; auto. Qed.
Lemma Qcleb_spec x y : reflect (x <= y) (Qcleb x y).
Proof. unfold Qcleb. destruct (Qclt_le_dec y x); constructor; auto. apply Qclt_not_le; auto. Qed.
Lemma Qceqb_spec x y : reflect (x = y) (Qceqb x y).
Proof. unfold Qceqb. destruct (Qc_eq_dec x y); constructor; auto. Qed.

(** A measured number: [None] is NaN. *)
Notation num := (option Qc).
Definition nadd (a b : num) : num :=
  match a, b with Some x, Some y => Some (x + y) | _, _ => None end.

(** literals: [q 3 2] is 3/2 *)
Definition q (n : Z) (d : positive) : Qc := Q2Qc (n # d).

(** pandas Series.max / DataFrame row.max: NaN skipped, NaN if nothing is left. *)
Definition qmax (x y : Qc) : Qc := if Qclt_le_dec x y then y else x.
Fixpoint pd_max (r : list num) : num :=
  match r with
  | [] => None
  | None :: t => pd_max t
  | Some x :: t => match pd_max t with None => Some x | Some y => Some (qmax x y) end
  end.
(** numpy ndarray.max: NaN propagates (an empty array raises in numpy, None here). *)
Fixpoint np_max (r : list num) : num :=
  match r with
  | [] => None
  | [x] => x
  | x :: t => match x, np_max t with Some a, Some b => Some (qmax a b) | _, _ => None end
  end.
(** python [x > y] with x possibly NaN *)
Definition gtb (a : num) (thr : Qc) : bool :=
  match a with None => false | Some x => Qcltb thr x end.
(** python [x >= y] with x possibly NaN *)
Definition geb (a : num) (thr : Qc) : bool :=
  match a with None => false | Some x => Qcleb thr x end.

Lemma qmax_spec x y : x <= qmax x y /\ y <= qmax x y /\ (qmax x y = x \/ qmax x y = y).
Proof.
  unfold qmax. destruct (Qclt_le_dec x y); repeat split; auto using Qcle_refl, Qclt_le_weak.
Qed.

Lemma pd_max_spec r :
  match pd_max r with
  | None => forall v, ~ In (Some v) r
  | Some m => In (Some m) r /\ forall v, In (Some v) r -> v <= m
  end.
Proof.
  induction r as [|[x|] t IH]; simpl.
  - auto.
  - destruct (pd_max t) as [y|].
    + destruct IH as [I1 I2]. pose proof (qmax_spec x y) as (M1 & M2 & M3). split.
      * destruct M3 as [-> | ->]; auto.
      * intros v [[= ->]|Hv]; [exact M1|]. eapply Qcle_trans; [apply I2; exact Hv|exact M2].
    + split; [auto|]. intros v [[= ->]|Hv]; [apply Qcle_refl|]. exfalso; exact (IH v Hv).
  - destruct (pd_max t) as [y|].
    + destruct IH as [I1 I2]. split; [auto|]. intros v [E|Hv]; [discriminate|auto].
    + intros v [E|Hv]; [discriminate|]. exact (IH v Hv).
Qed.

Lemma gtb_pd_max r thr : gtb (pd_max r) thr = true <-> exists v, In (Some v) r /\ thr < v.
Proof.
  pose proof (pd_max_spec r) as H. unfold gtb. destruct (pd_max r) as [m|].
  - destruct H as [H1 H2]. destruct (Qcltb_spec thr m) as [L|L]; split; try discriminate; auto.
    + intros _. eauto.
    + intros (v & Hv & Lv). exfalso. apply L. eapply Qclt_le_trans; [exact Lv|auto].
  - split; [discriminate|]. intros (v & Hv & _). exfalso; exact (H v Hv).
Qed.

Lemma np_max_spec r : r <> [] ->
  match np_max r with
  | None => In None r
  | Some m => In (Some m) r /\ forall x, In x r -> exists v, x = Some v /\ v <= m
  end.
Proof.
  induction r as [|x t IH]; [congruence|]. intros _. destruct t as [|y t].
  - simpl. destruct x as [a|]; [|auto]. split; [auto|]. intros z [<-|[]]. eauto using Qcle_refl.
  - change (np_max (x :: y :: t)) with
      (match x, np_max (y :: t) with Some a, Some b => Some (qmax a b) | _, _ => None end).
    specialize (IH ltac:(discriminate)). remember (y :: t) as l.
    destruct x as [a|]; [|left; reflexivity].
    destruct (np_max l) as [b|]; [|right; exact IH].
    destruct IH as [I1 I2]. pose proof (qmax_spec a b) as (M1 & M2 & M3). split.
    + destruct M3 as [-> | ->]; [left; reflexivity|right; exact I1].
    + intros z [<-|Hz]; [eauto|]. destruct (I2 z Hz) as (v & -> & Hv).
      exists v. split; [reflexivity|]. eapply Qcle_trans; eauto.
Qed.

Lemma gtb_np_max r thr : r <> [] ->
  (gtb (np_max r) thr = true <-> (~ In None r) /\ exists v, In (Some v) r /\ thr < v).
Proof.
  intros Hr. pose proof (np_max_spec r Hr) as H. unfold gtb. destruct (np_max r) as [m|].
  - destruct H as [H1 H2].
    assert (Hn : ~ In None r) by (intros Hi; destruct (H2 _ Hi) as (v & E & _); discriminate).
    destruct (Qcltb_spec thr m) as [L|L]; split; try discriminate; auto.
    + intros _. eauto.
    + intros [_ (v & Hv & Lv)]. exfalso. apply L.
      destruct (H2 _ Hv) as (v' & [= <-] & Hle). eapply Qclt_le_trans; eauto.
  - split; [discriminate|]. intros [Hn _]. contradiction.
Qed.
