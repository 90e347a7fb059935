(** Lemmas about runs that are continued from the storm days of an earlier one. *)
From Coq Require Import List Arith Lia Bool ZArith QArith Qcanon.
From Verif Require Import Num StormsModel DataModel DataProofs MarksModel SusongModel StormsSpec SusongSpec SusongProofs.
Import ListNotations.
Local Open Scope Qc_scope.

Lemma zeros_repeat {A} (l : list A) : zeros_of l = repeat (Some 0) (length l).
Proof. induction l as [|x l IH]; [reflexivity|]. cbn. f_equal. exact IH. Qed.

Section Cont.
Context (interp : list num -> list num) (phase : list num -> list num -> list num * list num)
        (gauge : nat -> nat -> Qc) (drift : nat -> list num -> list num) (wday : nat -> Qc)
        (lo hi : option Qc) (ts mass time : Qc) (n : nat).
Hypothesis interp_size : forall d, length (interp d) = n.
Hypothesis phase_size : forall tp p, length (snd (phase tp p)) = length p.
Notation dist g d w := (sus_distribute interp phase g d w lo hi ts mass time).
Notation from g d w := (sus_from interp phase g d w lo hi ts mass time).

(** The parameters of a run that starts [j] steps later. *)
Lemma from_shift j : forall rows temps t st,
  from (fun i => gauge (j + i)%nat) (fun i => drift (j + i)%nat) (fun i => wday (j + i)%nat) t rows temps st = from gauge drift wday (j + t) rows temps st.
Proof.
  induction rows as [|row rows IH]; intros [|tp temps] t st; try reflexivity. cbn [sus_from].
  change (dist (fun i => gauge (j + i)%nat) (fun i => drift (j + i)%nat) (fun i => wday (j + i)%nat) t row tp st)
    with (dist gauge drift wday (j + t)%nat row tp st).
  destruct (dist gauge drift wday (j + t)%nat row tp st); [|reflexivity]. rewrite IH, Nat.add_succ_r. reflexivity.
Qed.
(** The rest of a run. *)
Lemma from_rest : forall rows temps t st l e k s, from gauge drift wday t rows temps st = (l, e) -> nth_error l k = Some s ->
  from gauge drift wday (t + S k) (skipn (S k) rows) (skipn (S k) temps) s = (skipn (S k) l, e).
Proof.
  induction rows as [|row rows IH]; intros [|tp temps] t st l e k s H K; cbn [sus_from] in H;
    try (injection H as <- <-; destruct k; discriminate K).
  destruct (dist gauge drift wday t row tp st) as [o|]; [|injection H as <- <-; destruct k; discriminate K].
  destruct (from gauge drift wday (S t) rows temps o) as (l', e') eqn:F. injection H as <- <-.
  destruct k as [|k]; cbn [nth_error] in K.
  - injection K as <-. cbn [skipn]. rewrite Nat.add_1_r. exact F.
  - cbn [skipn]. rewrite Nat.add_succ_r. exact (IH temps (S t) o l' e' k s F K).
Qed.

(** Two states of which the second may have other days and totals. *)
Definition like (a b : dstate) : Prop :=
  length (d_days a) = n /\ length (d_days b) = n /\ length (d_total a) = n /\ length (d_total b) = n.
Definition agree (x : nat) (a b : dstate) : Prop :=
  nth x (d_days a) 0 = nth x (d_days b) 0 /\ geb (nth x (d_total a) None) mass = geb (nth x (d_total b) None) mass.

Lemma cell_agree none p ps d sp sp' : geb sp mass = geb sp' mass ->
  fst (storm_cell mass time none p ps d sp) = fst (storm_cell mass time none p ps d sp') /\
  geb (snd (storm_cell mass time none p ps d sp)) mass = geb (snd (storm_cell mass time none p ps d sp')) mass.
Proof.
  intros G. unfold storm_cell. destruct none; [split; reflexivity|]. cbn [fst snd].
  destruct (geb ps (q 1 2)); [split; reflexivity|]. destruct (Qcleb time (d + 1)); [split; reflexivity|]. rewrite G. split; reflexivity.
Qed.

Lemma step_agree t row tp a b oa : like a b -> dist gauge drift wday t row tp a = MOk oa ->
  exists ob, dist gauge drift wday t row tp b = MOk ob /\ like oa ob /\
    d_precip ob = d_precip oa /\ d_psnow ob = d_psnow oa /\ d_dens ob = d_dens oa /\
    forall x, (x < n)%nat -> agree x a b -> agree x oa ob /\ nth x (d_last oa) 0 = nth x (d_last ob) 0.
Proof.
  intros (A1 & B1 & A2 & B2) H. unfold sus_distribute, sus_time in *.
  assert (LST : forall w (u v : list Qc) x, length u = n -> length v = n -> (x < n)%nat -> nth x u 0 = nth x v 0 ->
    nth x (map (fun d => w - d - q 1 1000) u) 0 = nth x (map (fun d => w - d - q 1 1000) v) 0).
  { intros w u v x U V X E. rewrite !(nth_indep (map _ _) 0 (w - 0 - q 1 1000)) by (rewrite map_length; lia).
    rewrite !(map_nth (fun d => w - d - q 1 1000)). rewrite E. reflexivity. }
  destruct (Qcltb _ _).
  - unfold distribute1 in *. destruct (forallb _ _); [discriminate H|]. cbn [mbind] in *.
    match type of H with context [phase ?u ?v] => set (p := v) in *; pose proof (phase_size u p) as LP; destruct (phase u p) as (den, ps) end.
    cbn [mbind snd] in *. injection H as <-. eexists. split; [reflexivity|]. cbn [d_days d_total d_precip d_psnow d_dens d_last].
    assert (Lp : length p = n) by (unfold p; rewrite (proj1 (DataProofs.set_min_max_spec _ lo hi)); apply interp_size).
    pose proof (storm_cells_length mass time p ps (d_days a) (d_total a) ltac:(lia) ltac:(lia) ltac:(lia)) as LA.
    pose proof (storm_cells_length mass time p ps (d_days b) (d_total b) ltac:(lia) ltac:(lia) ltac:(lia)) as LB.
    split; [repeat split; cbn [d_days d_total]; rewrite map_length; lia|]. repeat (split; [reflexivity|]).
    intros x X (E1 & E2).
    assert (N1 : forall d sp, nth x (map fst (storm_cells mass time p ps d sp)) 0 = fst (nth x (storm_cells mass time p ps d sp) (0, None)))
      by (intros; change 0 with (fst (0 : Qc, None : num)) at 1; apply map_nth).
    assert (N2 : forall d sp, nth x (map snd (storm_cells mass time p ps d sp)) None = snd (nth x (storm_cells mass time p ps d sp) (0, None)))
      by (intros; change (@None Qc) with (snd (0 : Qc, None : num)) at 1; apply map_nth).
    assert (AG : nth x (map fst (storm_cells mass time p ps (d_days a) (d_total a))) 0 = nth x (map fst (storm_cells mass time p ps (d_days b) (d_total b))) 0 /\
      geb (nth x (map snd (storm_cells mass time p ps (d_days a) (d_total a))) None) mass = geb (nth x (map snd (storm_cells mass time p ps (d_days b) (d_total b))) None) mass).
    { rewrite !N1, !N2, !storm_cells_nth by lia. rewrite E1. apply cell_agree. exact E2. }
    split; [exact AG|]. apply LST; [rewrite map_length; lia|rewrite map_length; lia|exact X|exact (proj1 AG)].
  - cbn [mbind] in *. injection H as <-. eexists. split; [reflexivity|]. cbn [d_days d_total d_precip d_psnow d_dens d_last].
    rewrite !zeros_repeat, !map_length, A1, B1.
    split; [repeat split; cbn [d_days d_total]; rewrite ?map_length; assumption|]. repeat (split; [reflexivity|]).
    intros x X (E1 & E2).
    assert (E3 : nth x (map (fun d => d + ts) (d_days a)) 0 = nth x (map (fun d => d + ts) (d_days b)) 0).
    { rewrite !(nth_indep (map _ _) 0 (0 + ts)) by (rewrite map_length; lia). rewrite !(map_nth (fun d => d + ts)). rewrite E1. reflexivity. }
    split; [split; [exact E3|exact E2]|]. apply LST; [rewrite map_length; lia|rewrite map_length; lia|exact X|exact E3].
Qed.

Lemma from_agree : forall rows temps t a b l e, like a b -> from gauge drift wday t rows temps a = (l, e) -> e = None ->
  exists l', from gauge drift wday t rows temps b = (l', None) /\ length l' = length l /\
    forall k o, nth_error l k = Some o -> exists o', nth_error l' k = Some o' /\
      d_precip o' = d_precip o /\ d_psnow o' = d_psnow o /\ d_dens o' = d_dens o /\
      forall x, (x < n)%nat -> agree x a b -> agree x o o' /\ nth x (d_last o) 0 = nth x (d_last o') 0.
Proof.
  induction rows as [|row rows IH]; intros [|tp temps] t a b l e L H E; cbn [sus_from] in *;
    try (injection H as <- <-; exists []; split; [reflexivity|]; split; [reflexivity|]; intros [|k] o K; discriminate K).
  destruct (dist gauge drift wday t row tp a) as [oa|] eqn:DA; [|injection H as _ H; congruence].
  destruct (step_agree t row tp a b oa L DA) as (ob & DB & L' & P1 & P2 & P3 & AG). rewrite DB.
  destruct (from gauge drift wday (S t) rows temps oa) as (l1, e1) eqn:F. injection H as <- <-.
  destruct (IH temps (S t) oa ob l1 e1 L' F E) as (l2 & F2 & LL & N). rewrite F2.
  exists (ob :: l2). split; [reflexivity|]. split; [cbn; f_equal; exact LL|]. intros [|k] o K; cbn [nth_error] in *.
  - injection K as <-. exists ob. repeat (split; [assumption || reflexivity|]). exact AG.
  - destruct (N k o K) as (o' & K' & Q1 & Q2 & Q3 & AG'). exists o'. repeat (split; [assumption|]).
    intros x X A0. apply AG'; [exact X|]. exact (proj1 (AG x X A0)).
Qed.
End Cont.
