(** Lemmas about the solar spectrum. *)
From Coq Require Import List QArith Qreals Reals Qabs Qminmax Lra Lia Bool.
From Verif Require Import RNum WinsModel SunModel SolarModel SpectrumModel SpectrumSpec.
Import ListNotations.
Local Open Scope R_scope.

(** ** Differentiation of functions that are put together *)
Lemma glue f g h c l : derivable_pt_lim g c l -> derivable_pt_lim h c l ->
  (forall x, x < c -> f x = g x) -> (forall x, c <= x -> f x = h x) -> g c = h c -> derivable_pt_lim f c l.
Proof.
  intros G H FG FH E eps P. destruct (G eps P) as [d1 D1]. destruct (H eps P) as [d2 D2].
  assert (M : 0 < Rmin d1 d2) by (apply Rmin_glb_lt; apply cond_pos).
  exists (mkposreal _ M). intros k K L. simpl in L.
  assert (FC : f c = h c) by (apply FH; lra).
  pose proof (Rmin_l d1 d2). pose proof (Rmin_r d1 d2).
  destruct (Rlt_dec k 0) as [N|N].
  - rewrite (FG (c + k)) by lra. rewrite FC, <- E. apply D1; [exact K|lra].
  - rewrite (FH (c + k)) by lra. rewrite FC. apply D2; [exact K|lra].
Qed.
Lemma local f g x l d : 0 < d -> (forall y, Rabs (y - x) < d -> f y = g y) -> derivable_pt_lim g x l -> derivable_pt_lim f x l.
Proof.
  intros D E G eps P. destruct (G eps P) as [d1 D1].
  assert (M : 0 < Rmin d1 d) by (apply Rmin_glb_lt; [apply cond_pos|exact D]).
  exists (mkposreal _ M). intros k K L. simpl in L. pose proof (Rmin_l d1 d). pose proof (Rmin_r d1 d).
  rewrite (E (x + k)), (E x).
  - apply D1; [exact K|lra].
  - replace (x - x) with 0 by ring. rewrite Rabs_R0. exact D.
  - replace (x + k - x) with k by ring. lra.
Qed.

(** ** The pieces *)
Definition dcubic (p : piece) (x : R) : R :=
  let d := x - Q2R (x0 p) in 3 * Q2R (c0 p) * d ^ 2 + 2 * Q2R (c1 p) * d + Q2R (c2 p).
Lemma cubic_derive p x : derivable_pt_lim (cubic p) x (dcubic p x).
Proof.
  unfold cubic, dcubic. set (k := Q2R (x0 p)).
  assert (L : derivable_pt_lim (fun x => x - k) x 1).
  { apply (derivable_pt_lim_ext (fun x => id x - (fun _ => k) x)); [reflexivity|]. replace 1 with (1 - 0) by ring.
    apply derivable_pt_lim_minus; [apply derivable_pt_lim_id|apply derivable_pt_lim_const]. }
  assert (PW : forall n, derivable_pt_lim (fun x => (x - k) ^ n) x (INR n * (x - k) ^ (pred n))).
  { intros n. replace (INR n * (x - k) ^ (pred n)) with (INR n * (x - k) ^ (pred n) * 1) by ring.
    apply (derivable_pt_lim_comp (fun x => x - k) (fun y => y ^ n) x); [exact L|apply derivable_pt_lim_pow]. }
  pose proof (PW 3%nat) as P3. pose proof (PW 2%nat) as P2. cbn [pred INR] in P3, P2.
  set (a := Q2R (c0 p)). set (b := Q2R (c1 p)). set (c := Q2R (c2 p)). set (e := Q2R (c3 p)).
  replace (3 * a * (x - k) ^ 2 + 2 * b * (x - k) + c) with (a * ((1 + 1 + 1) * (x - k) ^ 2) + b * ((1 + 1) * (x - k) ^ 1) + c * 1 + 0) by ring.
  apply (derivable_pt_lim_plus (fun x => a * (x - k) ^ 3 + b * (x - k) ^ 2 + c * (x - k)) (fun _ => e)); [|apply derivable_pt_lim_const].
  apply (derivable_pt_lim_plus (fun x => a * (x - k) ^ 3 + b * (x - k) ^ 2) (fun x => c * (x - k)));
    [|apply (derivable_pt_lim_scal (fun x => x - k)); exact L].
  apply (derivable_pt_lim_plus (fun x => a * (x - k) ^ 3) (fun x => b * (x - k) ^ 2));
    [apply (derivable_pt_lim_scal (fun x => (x - k) ^ 3)); exact P3|apply (derivable_pt_lim_scal (fun x => (x - k) ^ 2)); exact P2].
Qed.
Lemma quartic_derive p x : derivable_pt_lim (quartic p) x (cubic p x).
Proof.
  unfold cubic, quartic. set (k := Q2R (x0 p)).
  assert (L : derivable_pt_lim (fun x => x - k) x 1).
  { replace 1 with (1 - 0) by ring.
    apply (derivable_pt_lim_minus id (fun _ => k)); [apply derivable_pt_lim_id|apply derivable_pt_lim_const]. }
  assert (PW : forall n, derivable_pt_lim (fun x => (x - k) ^ n) x (INR n * (x - k) ^ (pred n))).
  { intros n. replace (INR n * (x - k) ^ (pred n)) with (INR n * (x - k) ^ (pred n) * 1) by ring.
    apply (derivable_pt_lim_comp (fun x => x - k) (fun y => y ^ n) x); [exact L|apply derivable_pt_lim_pow]. }
  pose proof (PW 4%nat) as P4. pose proof (PW 3%nat) as P3. pose proof (PW 2%nat) as P2. cbn [pred INR] in P4, P3, P2.
  set (a := Q2R (c0 p)). set (b := Q2R (c1 p)). set (c := Q2R (c2 p)). set (e := Q2R (c3 p)).
  apply (derivable_pt_lim_ext (fun x => a / 4 * (x - k) ^ 4 + b / 3 * (x - k) ^ 3 + c / 2 * (x - k) ^ 2 + e * (x - k)));
    [intros y; field|].
  replace (a * (x - k) ^ 3 + b * (x - k) ^ 2 + c * (x - k) + e)
    with (a / 4 * ((1 + 1 + 1 + 1) * (x - k) ^ 3) + b / 3 * ((1 + 1 + 1) * (x - k) ^ 2) + c / 2 * ((1 + 1) * (x - k) ^ 1) + e * 1) by field.
  apply (derivable_pt_lim_plus (fun x => a / 4 * (x - k) ^ 4 + b / 3 * (x - k) ^ 3 + c / 2 * (x - k) ^ 2) (fun x => e * (x - k)));
    [|apply (derivable_pt_lim_scal (fun x => x - k)); exact L].
  apply (derivable_pt_lim_plus (fun x => a / 4 * (x - k) ^ 4 + b / 3 * (x - k) ^ 3) (fun x => c / 2 * (x - k) ^ 2));
    [|apply (derivable_pt_lim_scal (fun x => (x - k) ^ 2)); exact P2].
  apply (derivable_pt_lim_plus (fun x => a / 4 * (x - k) ^ 4) (fun x => b / 3 * (x - k) ^ 3));
    [apply (derivable_pt_lim_scal (fun x => (x - k) ^ 4)); exact P4|apply (derivable_pt_lim_scal (fun x => (x - k) ^ 3)); exact P3].
Qed.

(** Pieces that fit: each goes from its first to its last x, where the next one has the same value and slope *)
Fixpoint fits (l : list piece) : Prop :=
  match l with
  | [] => True
  | p :: r => Q2R (x0 p) < Q2R (x1 p) /\
              match r with
              | [] => True
              | q :: _ => Q2R (x1 p) = Q2R (x0 q) /\ cubic p (Q2R (x1 p)) = cubic q (Q2R (x0 q)) /\
                          dcubic p (Q2R (x1 p)) = dcubic q (Q2R (x0 q)) /\ fits r
              end
  end.
(** slope of the whole *)
Fixpoint dvalue (l : list piece) (x : R) : R :=
  match l with
  | [] => 0
  | p :: r => match r with [] => dcubic p x | _ => if rltb x (Q2R (x1 p)) then dcubic p x else dvalue r x end
  end.
Lemma fits_tail p r : fits (p :: r) -> fits r.
Proof. destruct r as [|q r]; [intros; exact I|]. intros (_ & _ & _ & _ & H). exact H. Qed.
Lemma fits_head p r : fits (p :: r) -> Q2R (x0 p) < Q2R (x1 p).
Proof. intros [H _]. exact H. Qed.
Lemma value_start p r : fits (p :: r) -> value (p :: r) (Q2R (x0 p)) = cubic p (Q2R (x0 p)).
Proof.
  intros F. apply fits_head in F. cbn [value]. destruct r; [reflexivity|]. destruct (rltb_spec (Q2R (x0 p)) (Q2R (x1 p))); [reflexivity|lra].
Qed.
Lemma dvalue_start p r : fits (p :: r) -> dvalue (p :: r) (Q2R (x0 p)) = dcubic p (Q2R (x0 p)).
Proof.
  intros F. apply fits_head in F. cbn [dvalue]. destruct r; [reflexivity|]. destruct (rltb_spec (Q2R (x0 p)) (Q2R (x1 p))); [reflexivity|lra].
Qed.
Lemma primitive_start p r acc : fits (p :: r) -> primitive (p :: r) acc (Q2R (x0 p)) = acc.
Proof.
  intros F. apply fits_head in F. cbn [primitive].
  assert (Z : quartic p (Q2R (x0 p)) = 0) by (unfold quartic, Rdiv; cbv zeta; ring).
  destruct r; [rewrite Z; ring|]. destruct (rltb_spec (Q2R (x0 p)) (Q2R (x1 p))); [rewrite Z; ring|lra].
Qed.

(** a function that is [f] up to [c] and [g] from there on *)
Lemma two_parts (F f g : R -> R) (f' g' : R -> R) c x :
  (forall y, F y = if rltb y c then f y else g y) -> (forall y, derivable_pt_lim f y (f' y)) -> (forall y, derivable_pt_lim g y (g' y)) ->
  f c = g c -> f' c = g' c -> derivable_pt_lim F x (if rltb x c then f' x else g' x).
Proof.
  intros E DF DG C C'. destruct (rltb_spec x c) as [L|L].
  - apply (local F f x _ (c - x)); [lra| |apply DF]. intros y Y. rewrite E. apply Rabs_def2 in Y.
    destruct (rltb_spec y c); [reflexivity|lra].
  - destruct (Req_dec x c) as [->|N].
    + apply (glue F f g c).
      * rewrite <- C'. apply DF.
      * apply DG.
      * intros y Y. rewrite E. destruct (rltb_spec y c); [reflexivity|lra].
      * intros y Y. rewrite E. destruct (rltb_spec y c); [lra|reflexivity].
      * exact C.
    + apply (local F g x _ (x - c)); [lra| |apply DG]. intros y Y. rewrite E. apply Rabs_def2 in Y.
      destruct (rltb_spec y c); [lra|reflexivity].
Qed.
Lemma value_derive l : fits l -> l <> [] -> forall x, derivable_pt_lim (value l) x (dvalue l x).
Proof.
  induction l as [|p r IH]; intros F N x; [contradiction|]. destruct r as [|q r].
  - cbn [value dvalue]. apply cubic_derive.
  - pose proof (fits_tail _ _ F) as FT. pose proof F as (_ & EX & EV & ED & _).
    change (dvalue (p :: q :: r) x) with (if rltb x (Q2R (x1 p)) then dcubic p x else dvalue (q :: r) x).
    apply (two_parts _ (cubic p) (value (q :: r)) (dcubic p) (dvalue (q :: r))).
    + reflexivity.
    + apply cubic_derive.
    + apply IH; [exact FT|discriminate].
    + rewrite EV, EX, value_start by exact FT. reflexivity.
    + rewrite ED, EX, dvalue_start by exact FT. reflexivity.
Qed.
Lemma primitive_derive l : fits l -> l <> [] -> forall acc x, derivable_pt_lim (primitive l acc) x (value l x).
Proof.
  induction l as [|p r IH]; intros F N acc x; [contradiction|].
  assert (D0 : forall y, derivable_pt_lim (fun x => acc + quartic p x) y (cubic p y)).
  { intros y. replace (cubic p y) with (0 + cubic p y) by ring.
    apply (derivable_pt_lim_plus (fun _ => acc) (quartic p)); [apply derivable_pt_lim_const|apply quartic_derive]. }
  destruct r as [|q r].
  - cbn [value primitive]. apply D0.
  - pose proof (fits_tail _ _ F) as FT. pose proof F as (_ & EX & EV & ED & _).
    change (value (p :: q :: r) x) with (if rltb x (Q2R (x1 p)) then cubic p x else value (q :: r) x).
    apply (two_parts _ (fun x => acc + quartic p x) (primitive (q :: r) (acc + quartic p (Q2R (x1 p)))) (cubic p) (value (q :: r))).
    + reflexivity.
    + exact D0.
    + apply IH; [exact FT|discriminate].
    + rewrite EX at 3. rewrite primitive_start by exact FT. reflexivity.
    + rewrite EV, EX, value_start by exact FT. reflexivity.
Qed.
Lemma value_continuous l : fits l -> l <> [] -> continuity (value l).
Proof. intros F N x. apply derivable_continuous_pt. exists (dvalue l x). apply value_derive; assumption. Qed.

(** ** The integral *)
Lemma quad_integral l a b (pr : Riemann_integrable (value l) a b) : fits l -> l <> [] -> a <= b ->
  RiemannInt pr = primitive l 0 b - primitive l 0 a.
Proof.
  intros F N AB.
  assert (D : derivable (primitive l 0)) by (intros x; exists (value l x); apply primitive_derive; assumption).
  assert (E : forall x, derive (primitive l 0) D x = value l x).
  { intros x. unfold derive. apply derive_pt_eq_0. apply primitive_derive; assumption. }
  assert (C : continuity (derive (primitive l 0) D)).
  { intros x eps P. destruct (value_continuous l F N x eps P) as (d & DP & DD). exists d. split; [exact DP|].
    intros y Y. rewrite !E. apply DD. exact Y. }
  assert (pr' : Riemann_integrable (derive (primitive l 0) D) a b).
  { apply continuity_implies_RiemannInt; [exact AB|]. intros x _. apply C. }
  transitivity (RiemannInt pr'); [|exact (FTC_Riemann (mkC1 C) pr')].
  apply RiemannInt_P18; [exact AB|]. intros x _. symmetry. apply E.
Qed.

(** ** The pieces of a table fit, go through its points and have the given slopes *)
Lemma Q2R_red q : Q2R (Qred q) = Q2R q.
Proof. apply Qeq_eqR, Qred_correct. Qed.
Ltac to_R := rewrite ?Q2R_red, ?Q2R_plus, ?Q2R_minus, ?Q2R_mult, ?Q2R_opp.
Lemma Q2R_two : Q2R 2 = 2. Proof. unfold Q2R. cbn. lra. Qed.
Lemma Q2R_frac a b : ~ (b == 0)%Q -> Q2R (a / b) = Q2R a / Q2R b.
Proof. intros N. apply Q2R_div. exact N. Qed.
Lemma hermite_ends x y t x' y' t' : (x < x')%Q ->
  let p := hermite x y t x' y' t' in
  Q2R (x0 p) = Q2R x /\ Q2R (x1 p) = Q2R x' /\ cubic p (Q2R x) = Q2R y /\ cubic p (Q2R x') = Q2R y' /\
  dcubic p (Q2R x) = Q2R t /\ dcubic p (Q2R x') = Q2R t'.
Proof.
  intros L. cbv zeta. cbn [hermite x0 x1].
  assert (N : ~ (x' - x == 0)%Q) by (intros E; apply (Qlt_not_eq _ _ L); symmetry; rewrite <- (Qplus_0_l x), <- E; ring).
  assert (NR : Q2R x' - Q2R x <> 0) by (apply Qlt_Rlt in L; lra).
  split; [reflexivity|]. split; [reflexivity|].
  unfold cubic, dcubic, hermite. cbv zeta. cbn [x0 c0 c1 c2 c3].
  repeat (rewrite ?Q2R_red, ?Q2R_minus, ?Q2R_plus, ?Q2R_mult; try (rewrite Q2R_frac by exact N)). rewrite Q2R_two.
  set (X := Q2R x) in *. set (X' := Q2R x') in *.
  split; [ring|]. split; [field; exact NR|]. split; [ring|field; exact NR].
Qed.

Lemma pieces_fit tbl : forall ts, increasing tbl -> fits (pieces tbl ts).
Proof.
  induction tbl as [|[x y] r IH]; intros ts I; [exact Logic.I|]. destruct r as [|[x' y'] r]; [exact Logic.I|].
  destruct ts as [|t [|t' ts]]; [exact Logic.I..|]. destruct I as [L I].
  pose proof (IH (t' :: ts) I) as F. destruct (hermite_ends x y t x' y' t' L) as (H0 & H1 & V0 & V1 & D0 & D1).
  change (pieces ((x, y) :: (x', y') :: r) (t :: t' :: ts)) with (hermite x y t x' y' t' :: pieces ((x', y') :: r) (t' :: ts)).
  split; [rewrite H0, H1; apply Qlt_Rlt; exact L|].
  destruct (pieces ((x', y') :: r) (t' :: ts)) as [|q qs] eqn:E; [exact Logic.I|].
  destruct r as [|[x2 y2] r]; [discriminate E|]. destruct ts as [|t2 ts]; [discriminate E|]. destruct I as [L' I].
  cbn [pieces] in E. injection E as <- _. destruct (hermite_ends x' y' t' x2 y2 t2 L') as (G0 & _ & W0 & _ & K0 & _).
  rewrite H1, G0, V1, W0, D1, K0. split; [reflexivity|]. split; [reflexivity|]. split; [reflexivity|exact F].
Qed.
Lemma pieces_through tbl : forall ts, increasing tbl -> length ts = length tbl -> (2 <= length tbl)%nat ->
  forall i x y t, nth_error tbl i = Some (x, y) -> nth_error ts i = Some t ->
  value (pieces tbl ts) (Q2R x) = Q2R y /\ dvalue (pieces tbl ts) (Q2R x) = Q2R t.
Proof.
  induction tbl as [|[x y] r IH]; intros ts I LN L2 i xi yi ti HX HT; [cbn in L2; lia|].
  destruct r as [|[x' y'] r]; [cbn in L2; lia|]. destruct ts as [|t [|t' ts]]; [discriminate LN..|].
  pose proof I as [L I'].
  pose proof (pieces_fit _ (t :: t' :: ts) I) as F.
  destruct (hermite_ends x y t x' y' t' L) as (H0 & H1 & V0 & V1 & D0 & D1).
  assert (NX : (x < x')%Q -> Q2R x < Q2R x') by (apply Qlt_Rlt). specialize (NX L).
  change (pieces ((x, y) :: (x', y') :: r) (t :: t' :: ts)) with (hermite x y t x' y' t' :: pieces ((x', y') :: r) (t' :: ts)) in *.
  destruct i as [|i].
  - injection HX as <- <-. injection HT as <-. rewrite <- H0. rewrite value_start, dvalue_start by exact F. rewrite H0. auto.
  - cbn [nth_error] in HX, HT. destruct r as [|[x2 y2] r].
    + destruct i as [|i]; [|destruct i; discriminate HX]. injection HX as <- <-. injection HT as <-. cbn [pieces value dvalue]. auto.
    + destruct ts as [|t2 ts]; [discriminate LN|].
      assert (LN' : length (t' :: t2 :: ts) = length ((x', y') :: (x2, y2) :: r)) by (cbn in LN |- *; lia).
      destruct (IH (t' :: t2 :: ts) I' LN' ltac:(cbn; lia) i xi yi ti HX HT) as [A B].
      assert (G : Q2R x' <= Q2R xi).
      { assert (S1 : forall l a0 b0 j aj bj, increasing ((a0, b0) :: l) -> nth_error ((a0, b0) :: l) j = Some (aj, bj) -> Q2R a0 <= Q2R aj).
        { clear. induction l as [|[a b] l IHl]; intros a0 b0 j aj bj I H.
          - destruct j as [|j]; [injection H as <- <-; lra|destruct j; discriminate H].
          - destruct j as [|j]; [injection H as <- <-; lra|]. destruct I as [L I]. apply Qlt_Rlt in L.
            cbn [nth_error] in H. specialize (IHl a b j aj bj I H). lra. }
        exact (S1 _ _ _ _ _ _ I' HX). }
      set (P := pieces ((x', y') :: (x2, y2) :: r) (t' :: t2 :: ts)) in *.
      assert (PN : exists q qs, P = q :: qs) by (unfold P; cbn [pieces]; eauto). destruct PN as (q & qs & PE). rewrite PE in *.
      cbn [value dvalue]. cbn [value dvalue] in A, B. rewrite H1. destruct (rltb_spec (Q2R xi) (Q2R x')); [lra|]. auto.
Qed.

(** as many slopes as points *)
Lemma secants_length tbl : length (secants tbl) = (length tbl - 1)%nat.
Proof.
  induction tbl as [|[x y] r IH]; [reflexivity|]. destruct r as [|[x' y'] r]; [reflexivity|].
  change (secants ((x, y) :: (x', y') :: r)) with (Qred ((y' - y) / (x' - x)) :: secants ((x', y') :: r)). cbn [length]. rewrite IH. cbn [length]. lia.
Qed.
Lemma in_front_length m : (2 <= length m)%nat -> length (in_front m) = (2 + length m)%nat.
Proof. destruct m as [|a [|b m]]; cbn [length]; try lia. intros _. reflexivity. Qed.
Lemma slopes_length small m : length (slopes small m) = (length m - 3)%nat.
Proof.
  induction m as [|a m IH]; [reflexivity|]. destruct m as [|b [|c [|d m]]]; [reflexivity..|].
  change (slopes small (a :: b :: c :: d :: m)) with (slope small a b c d :: slopes small (b :: c :: d :: m)). cbn [length] in *. rewrite IH. lia.
Qed.
Lemma akima_length tbl : (3 <= length tbl)%nat -> length (akima_slopes tbl) = length tbl.
Proof.
  intros L. unfold akima_slopes. cbv zeta. rewrite slopes_length. unfold extended.
  rewrite rev_length, in_front_length; rewrite rev_length, in_front_length; rewrite secants_length; lia.
Qed.

(** the slopes are Akima's *)
Lemma nth_windows {A} (f : Q -> Q -> Q -> Q -> A) (g : list Q -> list A) :
  (forall m, g m = match m with a :: ((b :: c :: d :: _) as r) => f a b c d :: g r | _ => [] end) ->
  forall m i a b c d, nth_error m i = Some a -> nth_error m (S i) = Some b -> nth_error m (S (S i)) = Some c -> nth_error m (S (S (S i))) = Some d ->
  nth_error (g m) i = Some (f a b c d).
Proof.
  intros G m. induction m as [|x m IH]; intros i a b c d A0 A1 A2 A3; [destruct i; discriminate|].
  rewrite G. destruct i as [|i].
  - destruct m as [|b' [|c' [|d' m]]]; try discriminate A1; try discriminate A2; try discriminate A3.
    injection A0 as ->. injection A1 as ->. injection A2 as ->. injection A3 as ->. reflexivity.
  - cbn [nth_error] in A0, A1, A2, A3. destruct m as [|b' [|c' [|d' m]]].
    + destruct i; discriminate A0.
    + destruct i; discriminate A1.
    + destruct i as [|[|i]]; try discriminate A2; discriminate A1.
    + cbn [nth_error]. apply (IH i a b c d); assumption.
Qed.
Lemma slopes_eq small m : slopes small m = match m with a :: ((b :: c :: d :: _) as r) => slope small a b c d :: slopes small r | _ => [] end.
Proof. destruct m; reflexivity. Qed.
Lemma f12s_eq m : f12s m = match m with a :: ((b :: c :: d :: _) as r) => Qred (Qabs (d - c) + Qabs (b - a)) :: f12s r | _ => [] end.
Proof. destruct m; reflexivity. Qed.
Lemma f12s_length m : length (f12s m) = (length m - 3)%nat.
Proof.
  induction m as [|a m IH]; [reflexivity|]. destruct m as [|b [|c [|d m]]]; [reflexivity..|].
  change (f12s (a :: b :: c :: d :: m)) with (Qred (Qabs (d - c) + Qabs (b - a)) :: f12s (b :: c :: d :: m)). cbn [length] in *. rewrite IH. lia.
Qed.
Lemma secants_nth tbl : forall i p q, nth_error tbl i = Some p -> nth_error tbl (S i) = Some q ->
  nth_error (secants tbl) i = Some (Qred (secant p q)).
Proof.
  induction tbl as [|[x y] r IH]; intros i p q P Q0; [destruct i; discriminate|].
  destruct r as [|[x' y'] r]; [destruct i as [|[|i]]; discriminate|].
  change (secants ((x, y) :: (x', y') :: r)) with (Qred ((y' - y) / (x' - x)) :: secants ((x', y') :: r)).
  destruct i as [|i]; [injection P as <-; injection Q0 as <-; reflexivity|]. cbn [nth_error] in *. apply IH; assumption.
Qed.
Lemma extended_eq m l u v : m = l ++ [u; v] ->
  let e := Qred (2 * v - u) in extended m = in_front m ++ [e; Qred (2 * e - v)].
Proof.
  intros E. cbv zeta. unfold extended.
  assert (F : exists f, in_front m = f ++ m).
  { destruct m as [|a [|b m]]; [exists []; reflexivity..|]. cbn [in_front]. eexists [_; _]. reflexivity. }
  destruct F as [f F]. rewrite F, E, !rev_app_distr. cbn [rev app in_front]. rewrite !rev_app_distr. cbn [rev app].
  rewrite !rev_involutive, <- !app_assoc. reflexivity.
Qed.
Lemma extended_nth tbl s : (3 <= length tbl)%nat -> extends tbl s -> forall i, (i < length tbl + 3)%nat ->
  exists a, nth_error (extended (secants tbl)) i = Some a /\ (a == s i)%Q.
Proof.
  intros L3 (HS & H1 & H0 & HN1 & HN2) i LI. pose proof (secants_length tbl) as LS. set (n := length tbl) in *.
  assert (SEC : forall j, (j < n - 1)%nat -> exists a, nth_error (secants tbl) j = Some a /\ (a == s (2 + j)%nat)%Q).
  { intros j J. assert (P : exists p, nth_error tbl j = Some p).
    { destruct (nth_error tbl j) eqn:E; [eauto|]. apply nth_error_None in E. unfold n in *. lia. }
    assert (Q0 : exists p, nth_error tbl (S j) = Some p).
    { destruct (nth_error tbl (S j)) eqn:E; [eauto|]. apply nth_error_None in E. unfold n in *. lia. }
    destruct P as [p P]. destruct Q0 as [q Q0]. exists (Qred (secant p q)). split; [apply secants_nth; assumption|].
    rewrite Qred_correct. symmetry. apply HS; assumption. }
  destruct (SEC 0%nat ltac:(lia)) as (m2 & M2 & E2). destruct (SEC 1%nat ltac:(lia)) as (m3 & M3 & E3).
  destruct (SEC (n - 3)%nat ltac:(lia)) as (u & U & EU). destruct (SEC (n - 2)%nat ltac:(lia)) as (v & V & EV).
  assert (SPL : exists l, secants tbl = l ++ [u; v]).
  { destruct (nth_error_split _ _ U) as (l1 & l2 & E & L1). exists l1.
    rewrite E in V. rewrite nth_error_app2 in V by lia. replace (n - 2 - length l1)%nat with 1%nat in V by lia.
    destruct l2 as [|w l2]; [discriminate V|]. injection V as ->.
    assert (LL : length (secants tbl) = length (l1 ++ u :: v :: l2)) by (rewrite E; reflexivity).
    rewrite app_length in LL. cbn [length] in LL. destruct l2; [exact E|cbn [length] in LL; lia]. }
  destruct SPL as [l SPL]. rewrite (extended_eq _ _ _ _ SPL).
  assert (FR : in_front (secants tbl) = Qred (2 * Qred (2 * m2 - m3) - m2) :: Qred (2 * m2 - m3) :: secants tbl).
  { destruct (secants tbl) as [|a [|b r]]; try discriminate M2; try discriminate M3.
    injection M2 as ->. injection M3 as ->. reflexivity. }
  rewrite FR. destruct i as [|[|i]].
  - eexists. split; [reflexivity|]. rewrite !Qred_correct, H0, H1, E2, E3. reflexivity.
  - eexists. split; [reflexivity|]. rewrite !Qred_correct, H1, E2, E3. reflexivity.
  - cbn [app nth_error]. destruct (Nat.lt_ge_cases i (n - 1)) as [LT|GE].
    + destruct (SEC i LT) as (a & A & EA). exists a. split; [rewrite nth_error_app1 by lia; exact A|exact EA].
    + rewrite nth_error_app2 by lia. rewrite LS.
      assert (RU : (u == s (n - 1)%nat)%Q) by (rewrite EU; replace (2 + (n - 3))%nat with (n - 1)%nat by lia; reflexivity).
      assert (RV : (v == s n)%Q) by (rewrite EV; replace (2 + (n - 2))%nat with n by lia; reflexivity).
      assert (C : i = (n - 1)%nat \/ i = n) by lia. destruct C as [-> | ->].
      * rewrite Nat.sub_diag. eexists. split; [reflexivity|]. rewrite Qred_correct, RU, RV.
        replace (S (S (n - 1))) with (n + 1)%nat by lia. symmetry. exact HN1.
      * replace (n - (n - 1))%nat with 1%nat by lia. eexists. split; [reflexivity|]. rewrite !Qred_correct, RU, RV, <- HN1.
        replace (S (S n)) with (n + 2)%nat by lia. symmetry. exact HN2.
Qed.
Lemma maximum_ge l a : In a l -> (a <= maximum l)%Q.
Proof.
  unfold maximum. induction l as [|b l IH]; [intros []|]. cbn [fold_right]. intros [->|H].
  - apply Q.le_max_l.
  - apply Qle_trans with (fold_right Qmax 0%Q l); [apply IH; exact H|apply Q.le_max_r].
Qed.
Lemma maximum_le l b : (0 <= b)%Q -> (forall a, In a l -> (a <= b)%Q) -> (maximum l <= b)%Q.
Proof.
  unfold maximum. intros B. induction l as [|a l IH]; intros H; [exact B|]. cbn [fold_right].
  apply Q.max_lub; [apply H; left; reflexivity|apply IH; intros c C; apply H; right; exact C].
Qed.
Lemma spread_nonneg s i : (0 <= spread s i)%Q.
Proof. unfold spread. rewrite <- (Qplus_0_l 0). apply Qplus_le_compat; apply Qabs_nonneg. Qed.
Lemma akima_slopes_nth tbl s big : (3 <= length tbl)%nat -> extends tbl s -> largest tbl s big -> forall i, (i < length tbl)%nat ->
  exists t, nth_error (akima_slopes tbl) i = Some t /\ (t == akima_slope s big i)%Q.
Proof.
  intros L3 EX [BG (k & K & BE)]. pose proof (extended_nth tbl s L3 EX) as EN.
  assert (LE : length (extended (secants tbl)) = (length tbl + 3)%nat).
  { unfold extended. rewrite rev_length, in_front_length; rewrite rev_length, in_front_length; rewrite secants_length; lia. }
  assert (WIN : forall i, (i < length tbl)%nat -> exists a b c d,
      nth_error (extended (secants tbl)) i = Some a /\ nth_error (extended (secants tbl)) (S i) = Some b /\
      nth_error (extended (secants tbl)) (S (S i)) = Some c /\ nth_error (extended (secants tbl)) (S (S (S i))) = Some d /\
      (a == s i)%Q /\ (b == s (i + 1)%nat)%Q /\ (c == s (i + 2)%nat)%Q /\ (d == s (i + 3)%nat)%Q).
  { intros i LI. destruct (EN i ltac:(lia)) as (a & A & EA). destruct (EN (i + 1)%nat ltac:(lia)) as (b & B & EB).
    destruct (EN (i + 2)%nat ltac:(lia)) as (c & C & EC). destruct (EN (i + 3)%nat ltac:(lia)) as (d & D & ED).
    replace (i + 1)%nat with (S i) in B by lia. replace (i + 2)%nat with (S (S i)) in C by lia. replace (i + 3)%nat with (S (S (S i))) in D by lia.
    exists a, b, c, d. repeat (split; [assumption|]). assumption. }
  assert (F12 : forall i, (i < length tbl)%nat -> exists w, nth_error (f12s (extended (secants tbl))) i = Some w /\ (w == spread s i)%Q).
  { intros i LI. destruct (WIN i LI) as (a & b & c & d & A & B & C & D & EA & EB & EC & ED).
    eexists. split; [exact (nth_windows (fun a b c d => Qred (Qabs (d - c) + Qabs (b - a))) f12s f12s_eq _ i a b c d A B C D)|].
    rewrite Qred_correct. unfold spread. rewrite EA, EB, EC, ED. reflexivity. }
  assert (MX : (maximum (f12s (extended (secants tbl))) == big)%Q).
  { apply Qle_antisym.
    - apply maximum_le; [rewrite <- BE; apply spread_nonneg|]. intros w W. apply In_nth_error in W. destruct W as [j W].
      assert (J : (j < length tbl)%nat).
      { assert (H : nth_error (f12s (extended (secants tbl))) j <> None) by congruence. apply nth_error_Some in H. rewrite f12s_length, LE in H. lia. }
      destruct (F12 j J) as (w' & W' & EW). rewrite W in W'. injection W' as <-. rewrite EW. apply BG. exact J.
    - destruct (F12 k K) as (w & W & EW). rewrite <- BE, <- EW. apply maximum_ge. eapply nth_error_In. exact W. }
  intros i LI. destruct (WIN i LI) as (a & b & c & d & A & B & C & D & EA & EB & EC & ED).
  unfold akima_slopes. cbv zeta. eexists.
  split; [exact (nth_windows (slope _) (slopes _) (slopes_eq _) _ i a b c d A B C D)|].
  unfold slope, akima_slope. cbv zeta.
  assert (SP : (Qabs (d - c) + Qabs (b - a) == spread s i)%Q) by (unfold spread; rewrite EA, EB, EC, ED; reflexivity).
  destruct (Qle_bool (Qabs (d - c) + Qabs (b - a)) (Qred (1e-9 * maximum (f12s (extended (secants tbl)))))) eqn:QB.
  - apply Qle_bool_iff in QB. rewrite SP, Qred_correct, MX in QB.
    destruct (Qlt_le_dec (1e-9 * big) (spread s i)) as [L|L]; [destruct (Qlt_not_le _ _ L QB)|].
    rewrite Qred_correct, EA, ED. rewrite (Qplus_comm (s (i + 3)%nat)). reflexivity.
  - destruct (Qlt_le_dec (1e-9 * big) (spread s i)) as [L|L].
    + rewrite Qred_correct, SP, EA, EB, EC, ED. reflexivity.
    + exfalso. assert (T : Qle_bool (Qabs (d - c) + Qabs (b - a)) (Qred (1e-9 * maximum (f12s (extended (secants tbl))))) = true).
      { apply Qle_bool_iff. rewrite SP, Qred_correct, MX. exact L. }
      congruence.
Qed.

(** ** The sum of the pieces *)
Definition area (p : piece) : Q :=
  let d := (x1 p - x0 p)%Q in ((((c0 p * d / 4 + c1 p / 3) * d + c2 p / 2) * d + c3 p) * d)%Q.
Fixpoint areas (l : list piece) : R := match l with [] => 0 | p :: r => Q2R (area p) + areas r end.
Lemma area_quartic p : quartic p (Q2R (x1 p)) = Q2R (area p).
Proof.
  unfold quartic, area. cbv zeta.
  repeat first [rewrite Q2R_plus | rewrite Q2R_frac by (intros E; discriminate E) | rewrite Q2R_mult | rewrite Q2R_minus].
  replace (Q2R 4) with 4 by (unfold Q2R; cbn; lra). replace (Q2R 3) with 3 by (unfold Q2R; cbn; lra).
  rewrite Q2R_two. field.
Qed.
Lemma areas_cons p l : areas (p :: l) = Q2R (area p) + areas l.
Proof. reflexivity. Qed.
Lemma areas_app l m : areas (l ++ m) = areas l + areas m.
Proof. induction l as [|p l IH]; cbn [app areas]; [ring | rewrite IH; ring]. Qed.
(** bounds for them, in units of 1e-12 *)
Fixpoint rounded (l : list piece) (zs : list Z) : bool :=
  match l, zs with
  | [], [] => true
  | p :: l, z :: zs => if Qle_bool (z # 1000000000000) (area p) then if Qle_bool (area p) (z + 1 # 1000000000000) then rounded l zs else false else false
  | _, _ => false
  end.
Definition total (zs : list Z) : Z := fold_right Z.add 0%Z zs.
Lemma rounded_areas l : forall zs, rounded l zs = true ->
  IZR (total zs) / 1000000000000 <= areas l <= IZR (total zs + Z.of_nat (length zs)) / 1000000000000.
Proof.
  induction l as [|p l IH]; intros [|z zs] H; cbn [rounded] in H; try discriminate H.
  - cbn. lra.
  - destruct (Qle_bool (z # 1000000000000) (area p)) eqn:A; [|discriminate H]. destruct (Qle_bool (area p) (z + 1 # 1000000000000)) eqn:B; [|discriminate H].
    apply IH in H. apply Qle_bool_iff, Qle_Rle in A. apply Qle_bool_iff, Qle_Rle in B.
    unfold Q2R at 1 in A. unfold Q2R at 2 in B. cbn [Qnum Qden] in A, B.
    rewrite areas_cons. cbn [total fold_right length]. fold (total zs). rewrite Nat2Z.inj_succ. unfold Z.succ.
    replace (z + total zs + (Z.of_nat (length zs) + 1))%Z with (z + 1 + (total zs + Z.of_nat (length zs)))%Z by ring.
    rewrite (plus_IZR z), (plus_IZR (z + 1)). unfold Rdiv in *. lra.
Qed.
Lemma rounded_firstn k : forall l zs, rounded l zs = true -> rounded (firstn k l) (firstn k zs) = true.
Proof.
  induction k as [|k IH]; intros [|p l] [|z zs] H; cbn [rounded] in H; try discriminate H; try reflexivity. cbn [firstn rounded].
  destruct (Qle_bool (z # 1000000000000) (area p)); [|discriminate H]. destruct (Qle_bool (area p) (z + 1 # 1000000000000)); [|discriminate H]. apply IH. exact H.
Qed.
Lemma fits_app_le l1 : forall p l2 q, fits (q :: l1 ++ p :: l2) -> Q2R (x1 q) <= Q2R (x0 p).
Proof.
  induction l1 as [|r l1 IH]; intros p l2 q F.
  - cbn [app] in F. destruct F as (_ & E & _). lra.
  - pose proof F as (_ & E & _). cbn [app] in E. apply fits_tail in F. pose proof (IH p l2 r F). apply fits_head in F. cbn [app] in *. lra.
Qed.
Lemma primitive_at l1 : forall p l2 acc, fits (l1 ++ p :: l2) ->
  primitive (l1 ++ p :: l2) acc (Q2R (x0 p)) = acc + areas l1.
Proof.
  induction l1 as [|q l1 IH]; intros p l2 acc F.
  - cbn [app] in *. rewrite primitive_start by exact F. cbn [areas]. ring.
  - pose proof (fits_app_le l1 p l2 q F) as L. rewrite areas_cons, <- area_quartic.
    change ((q :: l1) ++ p :: l2) with (q :: (l1 ++ p :: l2)) in *. apply fits_tail in F.
    specialize (IH p l2 (acc + quartic q (Q2R (x1 q))) F).
    assert (NE : exists u v, l1 ++ p :: l2 = u :: v) by (destruct l1; cbn; eauto). destruct NE as (u & v & NE). rewrite NE in *.
    change (primitive (q :: u :: v) acc (Q2R (x0 p))) with
      (if rltb (Q2R (x0 p)) (Q2R (x1 q)) then acc + quartic q (Q2R (x0 p)) else primitive (u :: v) (acc + quartic q (Q2R (x1 q))) (Q2R (x0 p))).
    destruct (rltb_spec (Q2R (x0 p)) (Q2R (x1 q))); [lra|]. rewrite IH. ring.
Qed.
Lemma fits_last l : forall q, fits (q :: l) -> Q2R (x1 q) <= Q2R (last_x (q :: l)).
Proof.
  induction l as [|r l IH]; intros q F; [cbn; lra|]. pose proof F as (_ & E & _). apply fits_tail in F.
  pose proof (IH r F). apply fits_head in F. change (last_x (q :: r :: l)) with (last_x (r :: l)). lra.
Qed.
Lemma primitive_end l : forall acc, fits l -> l <> [] -> primitive l acc (Q2R (last_x l)) = acc + areas l.
Proof.
  induction l as [|q l IH]; intros acc F N; [contradiction|]. rewrite areas_cons, <- area_quartic. destruct l as [|r l].
  - cbn [primitive last_x]. cbn [areas]. ring.
  - pose proof (fits_last _ _ (fits_tail _ _ F)) as L1. pose proof F as (_ & E & _). apply fits_tail in F. pose proof (fits_head _ _ F).
    change (last_x (q :: r :: l)) with (last_x (r :: l)).
    change (primitive (q :: r :: l) acc (Q2R (last_x (r :: l)))) with
      (if rltb (Q2R (last_x (r :: l))) (Q2R (x1 q)) then acc + quartic q (Q2R (last_x (r :: l))) else primitive (r :: l) (acc + quartic q (Q2R (x1 q))) (Q2R (last_x (r :: l)))).
    destruct (rltb_spec (Q2R (last_x (r :: l))) (Q2R (x1 q))); [lra|]. rewrite IH by (exact F || discriminate). ring.
Qed.

(** ** Positive pieces: the coefficients of Bernstein's form *)
Definition positive_piece (p : piece) : bool :=
  let h := (x1 p - x0 p)%Q in
  let y := c3 p in
  let y' := (c0 p * h * h * h + c1 p * h * h + c2 p * h + c3 p)%Q in
  let t' := (3 * c0 p * h * h + 2 * c1 p * h + c2 p)%Q in
  Qle_bool 0 y && Qle_bool 0 (3 * y + h * c2 p)%Q && Qle_bool 0 (3 * y' - h * t')%Q && negb (Qle_bool y' 0).
Lemma bernstein p x : positive_piece p = true -> Q2R (x0 p) < x <= Q2R (x1 p) -> 0 < cubic p x.
Proof.
  unfold positive_piece. cbv zeta. rewrite !andb_true_iff, negb_true_iff. intros [[[A B] C] D] X.
  apply Qle_bool_iff, Qle_Rle in A. apply Qle_bool_iff, Qle_Rle in B. apply Qle_bool_iff, Qle_Rle in C.
  assert (D' : (0 < c0 p * (x1 p - x0 p) * (x1 p - x0 p) * (x1 p - x0 p) + c1 p * (x1 p - x0 p) * (x1 p - x0 p) + c2 p * (x1 p - x0 p) + c3 p)%Q).
  { apply Qnot_le_lt. intros L. apply Qle_bool_iff in L. rewrite L in D. discriminate. }
  clear D. apply Qlt_Rlt in D'.
  repeat first [rewrite Q2R_minus in B | rewrite Q2R_plus in B | rewrite Q2R_mult in B].
  repeat first [rewrite Q2R_minus in C | rewrite Q2R_plus in C | rewrite Q2R_mult in C].
  repeat first [rewrite Q2R_minus in D' | rewrite Q2R_plus in D' | rewrite Q2R_mult in D'].
  rewrite RMicromega.Q2R_0 in *.
  replace (Q2R 3) with 3 in * by (unfold Q2R; cbn; lra). rewrite ?Q2R_two in *.
  unfold cubic. cbv zeta. set (h := Q2R (x1 p) - Q2R (x0 p)) in *. set (d := x - Q2R (x0 p)) in *.
  assert (HD : 0 < d <= h) by (unfold d, h; lra).
  set (a := Q2R (c0 p)) in *. set (b := Q2R (c1 p)) in *. set (c := Q2R (c2 p)) in *. set (e := Q2R (c3 p)) in *.
  set (y' := a * h * h * h + b * h * h + c * h + e) in *.
  set (w := 3 * y' - h * (3 * a * h * h + 2 * b * h + c)) in *.
  set (s := h - d). assert (0 <= s) by (unfold s; lra).
  apply Rmult_lt_reg_l with (h ^ 3); [apply pow_lt; lra|]. rewrite Rmult_0_r.
  replace (h ^ 3 * (a * d ^ 3 + b * d ^ 2 + c * d + e)) with (e * s ^ 3 + (3 * e + h * c) * (s ^ 2 * d) + w * (s * d ^ 2) + y' * d ^ 3)
    by (unfold w, y', s; ring).
  assert (0 <= s ^ 3) by (apply pow_le; lra). assert (0 <= s ^ 2 * d) by (apply Rmult_le_pos; [apply pow_le|]; lra).
  assert (0 <= s * d ^ 2) by (apply Rmult_le_pos; [|apply pow_le]; lra). assert (0 < d ^ 3) by (apply pow_lt; lra).
  assert (0 <= e * s ^ 3) by (apply Rmult_le_pos; assumption). assert (0 <= (3 * e + h * c) * (s ^ 2 * d)) by (apply Rmult_le_pos; assumption).
  assert (0 <= w * (s * d ^ 2)) by (apply Rmult_le_pos; assumption). assert (0 < y' * d ^ 3) by (apply Rmult_lt_0_compat; assumption).
  lra.
Qed.
Lemma positive_value l1 : forall p l2, fits (l1 ++ p :: l2) -> forallb positive_piece l1 = true ->
  forall x, Q2R (first_x (l1 ++ p :: l2)) < x <= Q2R (x0 p) -> 0 < value (l1 ++ p :: l2) x.
Proof.
  induction l1 as [|q l1 IH]; intros p l2 F A x X.
  - cbn [app first_x] in X. lra.
  - cbn [forallb] in A. apply andb_true_iff in A. destruct A as [A1 A2].
    change ((q :: l1) ++ p :: l2) with (q :: (l1 ++ p :: l2)) in *. cbn [first_x] in X.
    pose proof (fits_tail _ _ F) as F'. pose proof (fits_head _ _ F) as H0.
    specialize (IH p l2 F' A2).
    assert (NE : exists u v, l1 ++ p :: l2 = u :: v) by (destruct l1; cbn; eauto). destruct NE as (u & v & NE). rewrite NE in *.
    change (value (q :: u :: v) x) with (if rltb x (Q2R (x1 q)) then cubic q x else value (u :: v) x).
    destruct (rltb_spec x (Q2R (x1 q))) as [L|L]; [apply bernstein; [exact A1|lra]|].
    destruct (Req_dec x (Q2R (x1 q))) as [E|N].
    + rewrite E. pose proof F as (_ & EX & EV & _). rewrite EX, value_start by exact F'. rewrite <- EV. apply bernstein; [exact A1|lra].
    + apply IH. cbn [first_x]. pose proof F as (_ & EX & _). lra.
Qed.

(** ** The ends of the table *)
Lemma pieces_first tbl ts x y : length ts = length tbl -> (2 <= length tbl)%nat -> nth_error tbl 0 = Some (x, y) ->
  first_x (pieces tbl ts) = x.
Proof.
  destruct tbl as [|[a b] [|[a' b'] tbl]]; cbn [length]; intros LN L2 H; try lia. destruct ts as [|t [|t' ts]]; try discriminate LN.
  injection H as <- <-. reflexivity.
Qed.
Lemma pieces_last tbl : forall ts x y, length ts = length tbl -> (2 <= length tbl)%nat -> nth_error tbl (length tbl - 1) = Some (x, y) ->
  last_x (pieces tbl ts) = x.
Proof.
  induction tbl as [|[a b] tbl IH]; intros ts x y LN L2 H; [cbn in L2; lia|].
  destruct tbl as [|[a' b'] tbl]; [cbn in L2; lia|]. destruct ts as [|t [|t' ts]]; [discriminate LN..|].
  destruct tbl as [|[a2 b2] tbl].
  - destruct ts; [|discriminate LN]. injection H as <- <-. reflexivity.
  - destruct ts as [|t2 ts]; [discriminate LN|].
    change (last_x (pieces ((a, b) :: (a', b') :: (a2, b2) :: tbl) (t :: t' :: t2 :: ts)))
      with (last_x (pieces ((a', b') :: (a2, b2) :: tbl) (t' :: t2 :: ts))).
    apply (IH (t' :: t2 :: ts) x y); [cbn in LN |- *; lia|cbn; lia|]. cbn [length] in H |- *.
    replace (S (S (S (length tbl))) - 1)%nat with (S (S (length tbl))) in H by lia.
    replace (S (S (length tbl)) - 1)%nat with (S (length tbl)) by lia. exact H.
Qed.
Lemma increasing_le tbl : forall i j x y x' y', increasing tbl -> (i <= j)%nat -> nth_error tbl i = Some (x, y) -> nth_error tbl j = Some (x', y') ->
  Q2R x <= Q2R x'.
Proof.
  induction tbl as [|[a b] tbl IH]; intros i j x y x' y' I L HI HJ; [destruct i; discriminate HI|].
  destruct tbl as [|[a' b'] tbl].
  - destruct i as [|i]; [|destruct i; discriminate HI]. destruct j as [|j]; [|destruct j; discriminate HJ].
    injection HI as <- <-. injection HJ as <- <-. lra.
  - pose proof I as [L' I']. destruct i as [|i].
    + injection HI as <- <-. destruct j as [|j]; [injection HJ as <- <-; lra|].
      pose proof (IH 0%nat j a' b' x' y' I' ltac:(lia) eq_refl HJ). apply Qlt_Rlt in L'. lra.
    + destruct j as [|j]; [lia|]. apply (IH i j x y x' y' I'); [lia|exact HI|exact HJ].
Qed.
Lemma pieces_nonempty tbl ts : length ts = length tbl -> (2 <= length tbl)%nat -> pieces tbl ts <> [].
Proof. destruct tbl as [|[a b] [|[a' b'] tbl]]; cbn [length]; intros LN L2; try lia. destruct ts as [|t [|t' ts]]; discriminate. Qed.

(** ** The solar spectrum *)
Fixpoint increasingb (tbl : list (Q * Q)) : bool :=
  match tbl with
  | (x, _) :: (((x', _) :: _) as r) => negb (Qle_bool x' x) && increasingb r
  | _ => true
  end.
Lemma increasingb_true tbl : increasingb tbl = true -> increasing tbl.
Proof.
  induction tbl as [|[x y] r IH]; [intros; exact I|]. destruct r as [|[x' y'] r]; [intros; exact I|].
  change (increasingb ((x, y) :: (x', y') :: r)) with (negb (Qle_bool x' x) && increasingb ((x', y') :: r)).
  rewrite andb_true_iff, negb_true_iff. intros [A B]. split; [|apply IH; exact B].
  apply Qnot_le_lt. intros L. apply Qle_bool_iff in L. congruence.
Qed.
Lemma solar_usable : usable solar_data.
Proof. split; [apply Nat.leb_le; vm_compute; reflexivity|]. apply increasingb_true. vm_compute. reflexivity. Qed.
Definition same_q (a b : Q) : bool := if Z.eqb (Qnum a) (Qnum b) then Pos.eqb (Qden a) (Qden b) else false.
Definition same_piece (a b : piece) : bool :=
  forallb (fun f => same_q (f a) (f b)) [x0; x1; c0; c1; c2; c3].
Fixpoint same (a b : list piece) : bool :=
  match a, b with [], [] => true | x :: a, y :: b => if same_piece x y then same a b else false | _, _ => false end.
Lemma same_q_eq a b : same_q a b = true -> a = b.
Proof.
  unfold same_q. destruct a as [n d], b as [n' d']. cbn [Qnum Qden]. destruct (Z.eqb_spec n n'); [|discriminate].
  intros E. apply Pos.eqb_eq in E. subst. reflexivity.
Qed.
Lemma same_eq a : forall b, same a b = true -> a = b.
Proof.
  induction a as [|x a IH]; intros [|y b] H; cbn [same] in H; try discriminate H; [reflexivity|].
  destruct (same_piece x y) eqn:E; [|discriminate H]. f_equal; [|apply IH; exact H]. unfold same_piece in E. cbn [forallb] in E.
  rewrite !andb_true_iff in E. destruct E as (A & B & C & D & F & G & _). destruct x, y. cbn in A, B, C, D, F, G.
  f_equal; apply same_q_eq; assumption.
Qed.
Lemma spectrum_akima : akima solar_data = spectrum.
Proof. apply same_eq. vm_compute. reflexivity. Qed.
Lemma spectrum_fits : fits spectrum.
Proof. rewrite <- spectrum_akima. apply pieces_fit, solar_usable. Qed.
Lemma spectrum_nonempty : spectrum <> [].
Proof. discriminate. Qed.
Lemma spectrum_first : Q2R (first_x spectrum) = 0.
Proof. unfold spectrum. cbn [first_x x0]. unfold Q2R. cbn. lra. Qed.
Lemma spectrum_last : Q2R (last_x spectrum) = 1000.
Proof. rewrite (Qeq_eqR (last_x spectrum) (1000 # 1)) by (vm_compute; reflexivity). unfold Q2R. cbn [Qnum Qden]. lra. Qed.
Lemma spectrum_interpolant x : interpolant spectrum x = if rltb x 0 || rltb 1000 x then None else Some (value spectrum x).
Proof. unfold interpolant. rewrite spectrum_first, spectrum_last. reflexivity. Qed.
Lemma solint_some a b : 0 <= a <= 1000 -> 0 <= b <= 1000 ->
  solint a b = Some ((primitive spectrum 0 b - primitive spectrum 0 a) * 1368).
Proof.
  intros A B. unfold solint, quad. rewrite !spectrum_interpolant.
  destruct (rltb_spec a 0), (rltb_spec 1000 a), (rltb_spec b 0), (rltb_spec 1000 b); try lra. reflexivity.
Qed.
Lemma solint_none a b : solint a b = None <-> ~ (0 <= a <= 1000 /\ 0 <= b <= 1000).
Proof.
  split.
  - intros H [A B]. rewrite solint_some in H by assumption. discriminate.
  - intros N. unfold solint, quad. rewrite !spectrum_interpolant.
    destruct (rltb_spec a 0), (rltb_spec 1000 a), (rltb_spec b 0), (rltb_spec 1000 b); cbn [orb]; try reflexivity. exfalso. apply N. lra.
Qed.
Lemma spectrum_at k p l2 q : skipn k spectrum = p :: l2 -> Q2R (x0 p) = q ->
  primitive spectrum 0 q = areas (firstn k spectrum).
Proof.
  intros E <-. assert (E2 : spectrum = firstn k spectrum ++ p :: l2) by (rewrite <- E; symmetry; apply firstn_skipn).
  pose proof spectrum_fits as F. rewrite E2 in F. rewrite E2 at 1. rewrite primitive_at by exact F. ring.
Qed.
Definition lows : list Z := Eval vm_compute in map (fun p => let q := (area p * 1000000000000)%Q in (Qnum q / Zpos (Qden q))%Z) spectrum.
Lemma spectrum_rounded : rounded spectrum lows = true.
Proof. vm_compute. reflexivity. Qed.
Lemma spectrum_areas k : IZR (total (firstn k lows)) / 1000000000000 <= areas (firstn k spectrum)
  <= IZR (total (firstn k lows) + Z.of_nat (length (firstn k lows))) / 1000000000000.
Proof. apply rounded_areas, rounded_firstn, spectrum_rounded. Qed.
