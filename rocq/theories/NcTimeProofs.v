(** Rounding of times in the output files, and the writer under both comparisons. *)
From Coq Require Import List Arith Bool ZArith QArith Qround Qabs Qcanon Qpower Lqa Lia Znumtheory Zpow_facts.
From Verif Require Import Num OutputModel OutputSpec OutputProofs.
Import ListNotations.
Local Open Scope Q_scope.

Lemma p2_pos e : 0 < Qpower 2 e.
Proof. apply Qpower_0_lt. reflexivity. Qed.
Lemma p2_plus a b : Qpower 2 (a + b) == Qpower 2 a * Qpower 2 b.
Proof. apply Qpower_plus. discriminate. Qed.
Lemma p2_mono a b : (a <= b)%Z -> Qpower 2 a <= Qpower 2 b.
Proof. intros H. apply Qpower_le_compat_l; [exact H|discriminate]. Qed.
Lemma p2_Z e : (0 <= e)%Z -> Qpower 2 e == inject_Z (2 ^ e).
Proof. intros H. symmetry. apply (Zpower_Qpower 2 e H). Qed.
Lemma p2_S e : Qpower 2 (e + 1) == 2 * Qpower 2 e.
Proof. rewrite p2_plus. change (Qpower 2 1) with 2. ring. Qed.
Lemma p2_lt_inv a b : Qpower 2 a < Qpower 2 b -> (a < b)%Z.
Proof. intros H. destruct (Z.lt_ge_cases a b) as [|G]; [auto|]. pose proof (p2_mono b a G). lra. Qed.

(** round_even *)
Lemma round_even_err x : Qabs (inject_Z (round_even x) - x) <= 1 # 2.
Proof.
  unfold round_even. pose proof (Qfloor_le x) as L. pose proof (Qlt_floor x) as U.
  rewrite inject_Z_plus in U. change (inject_Z 1) with 1 in U.
  apply Qabs_Qle_condition.
  destruct (Qcompare_spec (x - inject_Z (Qfloor x)) (1 # 2)) as [E|E|E];
    [destruct (Z.even (Qfloor x))| |]; rewrite ?inject_Z_plus; change (inject_Z 1) with 1; split; lra.
Qed.
Lemma round_even_Z x n : x == inject_Z n -> round_even x = n.
Proof.
  intros E. unfold round_even.
  assert (F : Qfloor x = n) by (rewrite E; apply Qfloor_Z).
  rewrite F. destruct (Qcompare_spec (x - inject_Z n) (1 # 2)) as [G|G|G]; [|reflexivity|]; rewrite E in G; lra.
Qed.

(** exponent *)
Lemma exponent_spec x : ~ x == 0 -> Qpower 2 (exponent x) <= Qabs x < Qpower 2 (exponent x + 1).
Proof.
  intros Hx. unfold exponent. destruct x as [n d]. cbn [Qnum Qden].
  assert (Hn : (0 < Z.abs n)%Z) by (unfold Qeq in Hx; cbn [Qnum Qden] in Hx; lia).
  destruct (Z.log2_spec (Z.abs n) Hn) as (A1 & A2). destruct (Z.log2_spec (Zpos d)) as (B1 & B2); [lia|].
  set (a := Z.log2 (Z.abs n)) in *. set (b := Z.log2 (Zpos d)) in *.
  assert (Ha : (0 <= a)%Z) by apply Z.log2_nonneg. assert (Hb : (0 <= b)%Z) by apply Z.log2_nonneg.
  assert (EQ : Qabs (n # d) * inject_Z (Zpos d) == inject_Z (Z.abs n)).
  { unfold Qeq, Qabs, Qmult, inject_Z. cbn [Qnum Qden]. lia. }
  assert (NL : Qpower 2 a <= inject_Z (Z.abs n)) by (rewrite p2_Z by lia; rewrite <- Zle_Qle; exact A1).
  assert (NU : inject_Z (Z.abs n) < Qpower 2 (a + 1)) by (rewrite p2_Z by lia; rewrite <- Zlt_Qlt; exact A2).
  assert (DL : Qpower 2 b <= inject_Z (Zpos d)) by (rewrite p2_Z by lia; rewrite <- Zle_Qle; exact B1).
  assert (DU : inject_Z (Zpos d) < Qpower 2 (b + 1)) by (rewrite p2_Z by lia; rewrite <- Zlt_Qlt; exact B2).
  set (x := Qabs (n # d)) in *. set (D := inject_Z (Zpos d)) in *.
  assert (EA : Qpower 2 a == Qpower 2 (a - b) * Qpower 2 b) by (rewrite <- p2_plus; f_equiv; lia).
  pose proof (p2_pos (a - b)) as P1. pose proof (p2_pos b) as P2.
  assert (Xp : 0 < x).
  { pose proof (p2_pos a). apply Qnot_le_lt. intros H0. assert (x * D <= 0) by (assert (0 < D) by lra; nra). lra. }
  assert (Low : Qpower 2 (a - b) < 2 * x).
  { apply (Qmult_lt_r _ _ (Qpower 2 b)); [exact P2|]. rewrite <- EA. rewrite p2_S in DU.
    assert (x * D < x * (2 * Qpower 2 b)) by (apply Qmult_lt_l; [exact Xp|exact DU]). lra. }
  assert (Up : x < 2 * Qpower 2 (a - b)).
  { apply (Qmult_lt_r _ _ D); [lra|]. rewrite EQ. rewrite p2_S in NU.
    assert (Qpower 2 (a - b) * Qpower 2 b <= Qpower 2 (a - b) * D) by (apply Qmult_le_l; [exact P1|exact DL]). lra. }
  destruct (Qle_bool (Qpower 2 (a - b)) x) eqn:B.
  - apply Qle_bool_iff in B. split; [exact B|]. rewrite p2_S. exact Up.
  - assert (G : x < Qpower 2 (a - b)).
    { apply Qnot_le_lt. intros H. apply Qle_bool_iff in H. congruence. }
    replace (a - b - 1 + 1)%Z with (a - b)%Z by lia. split; [|exact G].
    assert (E1 : Qpower 2 (a - b) == 2 * Qpower 2 (a - b - 1)) by (rewrite <- p2_S; f_equiv; lia).
    lra.
Qed.

Lemma binary_unfold p x : ~ x == 0 ->
  binary p x = inject_Z (round_even (x / Qpower 2 (exponent x - p + 1))) * Qpower 2 (exponent x - p + 1).
Proof.
  intros H. unfold binary. destruct (Qeq_bool x 0) eqn:E; [apply Qeq_bool_iff in E; contradiction|reflexivity].
Qed.
Lemma binary_zero p x : x == 0 -> binary p x = 0.
Proof. intros H. unfold binary. apply Qeq_bool_iff in H. now rewrite H. Qed.

(** the relative error is at most half a unit *)
Lemma binary_err p x : Qabs (binary p x - x) <= Qpower 2 (- p) * Qabs x.
Proof.
  destruct (Qeq_dec x 0) as [Z0|N].
  - rewrite binary_zero by exact Z0. rewrite Z0. cbn. change (Qabs (0 - 0)) with 0.
    pose proof (p2_pos (- p)). change (Qabs 0) with 0. lra.
  - rewrite binary_unfold by exact N. destruct (exponent_spec x N) as (L & _).
    set (e := exponent x) in *. set (u := Qpower 2 (e - p + 1)).
    assert (Hu : 0 < u) by apply p2_pos.
    pose proof (round_even_err (x / u)) as R. set (m := inject_Z (round_even (x / u))) in *.
    assert (E : m * u - x == (m - x / u) * u) by (field; lra).
    rewrite E, Qabs_Qmult, (Qabs_pos u) by lra.
    assert (Eu : u == 2 * (Qpower 2 (- p) * Qpower 2 e)).
    { unfold u. rewrite <- p2_plus, <- p2_S. f_equiv. lia. }
    pose proof (p2_pos (- p)). apply Qle_trans with ((1 # 2) * u); [nra|]. rewrite Eu. nra.
Qed.

(** numbers with a significand of at most p bits are kept *)
Lemma binary_exact p x m k : (0 < p)%Z -> x == inject_Z m * Qpower 2 k -> (Z.abs m <= 2 ^ p)%Z -> binary p x == x.
Proof.
  intros Hp Ex Hm. destruct (Qeq_dec x 0) as [Z0|N]; [rewrite binary_zero by exact Z0; now symmetry|].
  rewrite binary_unfold by exact N. destruct (exponent_spec x N) as (L & U).
  set (e := exponent x) in *. set (u := Qpower 2 (e - p + 1)).
  assert (Hu : 0 < u) by apply p2_pos.
  assert (Hx : Qabs x == inject_Z (Z.abs m) * Qpower 2 k).
  { rewrite Ex, Qabs_Qmult. rewrite (Qabs_pos (Qpower 2 k)) by (apply Qlt_le_weak, p2_pos). f_equiv. }
  assert (I : exists j, x / u == inject_Z j).
  { destruct (Z.le_gt_cases (e - p + 1) k) as [G|G].
    - exists (m * 2 ^ (k - (e - p + 1)))%Z. rewrite inject_Z_mult, <- p2_Z by lia.
      assert (Ek : Qpower 2 k == Qpower 2 (k - (e - p + 1)) * u) by (unfold u; rewrite <- p2_plus; f_equiv; lia).
      rewrite Ex, Ek. field. lra.
    - (* then |m| = 2^p and k = e - p *)
      assert (M : inject_Z (Z.abs m) <= Qpower 2 p) by (rewrite p2_Z by lia; rewrite <- Zle_Qle; exact Hm).
      pose proof (p2_pos k) as Pk. rewrite Hx in L.
      assert (L2 : Qpower 2 e <= Qpower 2 (p + k)) by (rewrite p2_plus; nra).
      assert (e <= p + k)%Z.
      { destruct (Z.le_gt_cases e (p + k)) as [|G2]; [auto|]. exfalso.
        assert (Qpower 2 (p + k + 1) <= Qpower 2 e) by (apply p2_mono; lia). rewrite p2_S in H.
        pose proof (p2_pos (p + k)). lra. }
      assert (Ke : k = (e - p)%Z) by lia.
      assert (Em : inject_Z (Z.abs m) == Qpower 2 p).
      { apply Qle_antisym; [exact M|]. apply (Qmult_le_r _ _ (Qpower 2 k)); [exact Pk|].
        rewrite <- p2_plus. replace (p + k)%Z with e by lia. exact L. }
      rewrite p2_Z in Em by lia. apply (proj1 (inject_Z_injective _ _)) in Em.
      exists (Z.sgn m * 2 ^ (p - 1))%Z.
      assert (Mm : m = (Z.sgn m * 2 ^ p)%Z) by (rewrite <- Em; lia).
      assert (E2 : (2 ^ p = 2 * 2 ^ (p - 1))%Z) by (rewrite <- Z.pow_succ_r by lia; f_equal; lia).
      assert (Eu : u == 2 * Qpower 2 k) by (unfold u; rewrite Ke, <- p2_S; f_equiv; lia).
      rewrite Ex, Eu. rewrite Mm at 1. rewrite E2, !inject_Z_mult. change (inject_Z 2) with 2. field. lra. }
  destruct I as (j & Ej). rewrite (round_even_Z _ j Ej), <- Ej. field. lra.
Qed.

(** what rounding gives: a significand of at most p bits *)
Lemma binary_form p x : (0 < p)%Z -> exists m k, binary p x == inject_Z m * Qpower 2 k /\ (Z.abs m <= 2 ^ p)%Z /\
  (~ x == 0 -> k = (exponent x - p + 1)%Z).
Proof.
  intros Hp. destruct (Qeq_dec x 0) as [Z0|N].
  - exists 0%Z, 0%Z. rewrite binary_zero by exact Z0. split; [reflexivity|]. split; [cbn; lia|contradiction].
  - rewrite binary_unfold by exact N. destruct (exponent_spec x N) as (L & U).
    set (e := exponent x) in *. set (u := Qpower 2 (e - p + 1)).
    assert (Hu : 0 < u) by apply p2_pos.
    exists (round_even (x / u)), (e - p + 1)%Z. split; [reflexivity|]. split; [|reflexivity].
    pose proof (round_even_err (x / u)) as R. apply Qabs_Qle_condition in R.
    assert (B : Qabs (x / u) < Qpower 2 p).
    { unfold Qdiv. rewrite Qabs_Qmult. rewrite (Qabs_pos (/ u)) by (apply Qlt_le_weak, Qinv_lt_0_compat, Hu).
      apply (Qmult_lt_r _ _ u); [exact Hu|].
      assert (E1 : Qabs x * / u * u == Qabs x) by (field; lra). rewrite E1.
      unfold u. rewrite <- p2_plus. replace (p + (e - p + 1))%Z with (e + 1)%Z by lia. exact U. }
    apply Qabs_Qlt_condition in B. rewrite p2_Z in B by lia.
    assert (L1 : inject_Z (- 2 ^ p - 1) < inject_Z (round_even (x / u))).
    { unfold Z.sub. rewrite inject_Z_plus, inject_Z_opp. change (inject_Z (- (1))) with (- (1)). lra. }
    assert (U1 : inject_Z (round_even (x / u)) < inject_Z (2 ^ p + 1)).
    { rewrite inject_Z_plus. change (inject_Z 1) with 1. lra. }
    rewrite <- Zlt_Qlt in L1, U1. lia.
Qed.

Lemma binary_idem p x : (0 < p)%Z -> binary p (binary p x) == binary p x.
Proof. intros Hp. destruct (binary_form p x Hp) as (m & k & E & B & _). exact (binary_exact p _ m k Hp E B). Qed.
Lemma float32_idem t : float32 (float32 t) = float32 t.
Proof.
  apply Qc_is_canon. unfold float32. rewrite this_Q2Qc.
  destruct (binary_form 24 t eq_refl) as (m & k & E & B & _).
  assert (H : binary 24 (Q2Qc (binary 24 t)) == Q2Qc (binary 24 t)).
  { apply (binary_exact 24 _ m k); [reflexivity| |exact B]. rewrite this_Q2Qc. exact E. }
  rewrite H. reflexivity.
Qed.

(** ** minutes *)
Lemma err_minutes m : (Z.abs m < 60 * 131072)%Z ->
  Qabs (this (float32 (date2num m)) - (m # 60)) < 1 # 120.
Proof.
  intros Hm. unfold float32, date2num. rewrite this_Q2Qc.
  set (x := m # 60). set (d := this (Q2Qc (binary 53 x))).
  assert (Ed : d == binary 53 x) by apply this_Q2Qc.
  pose proof (binary_err 53 x) as E1. rewrite <- Ed in E1.
  pose proof (binary_err 24 d) as E2.
  assert (Bx : Qabs x < 131072).
  { unfold x, Qabs, Qlt. cbn [Qnum Qden]. lia. }
  change (Qpower 2 (- (53))) with (1 # 9007199254740992) in E1.
  change (Qpower 2 (- (24))) with (1 # 16777216) in E2.
  assert (Bd : Qabs d <= Qabs x + (1 # 9007199254740992) * Qabs x).
  { setoid_replace d with (x + (d - x)) at 1 by ring. eapply Qle_trans; [apply Qabs_triangle|]. lra. }
  setoid_replace (binary 24 d - x) with ((binary 24 d - d) + (d - x)) by ring.
  eapply Qle_lt_trans; [apply Qabs_triangle|]. lra.
Qed.
Lemma key_injective m n : (Z.abs m < 60 * 131072)%Z -> (Z.abs n < 60 * 131072)%Z ->
  float32 (date2num m) = float32 (date2num n) -> m = n.
Proof.
  intros Hm Hn E. pose proof (err_minutes m Hm) as A. pose proof (err_minutes n Hn) as B. rewrite E in A.
  apply Qabs_Qlt_condition in A. apply Qabs_Qlt_condition in B.
  set (v := this (float32 (date2num n))) in *.
  assert (L : (m # 60) - (n # 60) < 1 # 60) by lra. assert (U : (n # 60) - (m # 60) < 1 # 60) by lra.
  unfold Qlt, Qminus, Qplus, Qopp in L, U. cbn [Qnum Qden] in L, U. lia.
Qed.

(** multiples of a quarter of an hour are kept, other minutes are not *)
Lemma quarter_exact m : (15 | m)%Z -> (Z.abs m <= 60 * 2097152)%Z ->
  (this (date2num m) == m # 60) /\ float32 (date2num m) = date2num m.
Proof.
  intros (k & ->) Hm.
  assert (E : (k * 15 # 60) == inject_Z k * Qpower 2 (-2)).
  { change (Qpower 2 (-2)) with (1 # 4). unfold Qeq, Qmult, inject_Z. cbn [Qnum Qden]. lia. }
  assert (D : this (date2num (k * 15)) == (k * 15 # 60)).
  { unfold date2num. rewrite this_Q2Qc. apply (binary_exact 53 _ k (-2)); [reflexivity|exact E|].
    change (2 ^ 53)%Z with 9007199254740992%Z. lia. }
  split; [exact D|]. apply Qc_is_canon. unfold float32. rewrite this_Q2Qc.
  apply (binary_exact 24 _ k (-2)); [reflexivity|rewrite D; exact E|]. change (2 ^ 24)%Z with 16777216%Z. lia.
Qed.
Lemma not_quarter m : ~ (15 | m)%Z -> (Z.abs m <= 60 * 2097152)%Z -> float32 (date2num m) <> date2num m.
Proof.
  intros Hd Hm E. apply (f_equal this) in E. unfold float32 in E.
  assert (E' : binary 24 (date2num m) == date2num m) by (rewrite <- E at 2; symmetry; apply this_Q2Qc). clear E.
  assert (Dx : this (date2num m) == binary 53 (m # 60)) by apply this_Q2Qc.
  set (d := this (date2num m)) in *. set (x := m # 60) in *.
  assert (Hm0 : m <> 0%Z) by (intros ->; apply Hd; exists 0%Z; reflexivity).
  assert (Nx : ~ x == 0) by (unfold x, Qeq; cbn [Qnum Qden]; lia).
  pose proof (binary_err 53 x) as E1. rewrite <- Dx in E1.
  change (Qpower 2 (- (53))) with (1 # 9007199254740992) in E1.
  assert (Px : 0 < Qabs x).
  { unfold x, Qabs, Qlt. cbn [Qnum Qden]. lia. }
  assert (Bx : Qabs x <= 2097152).
  { unfold x, Qabs, Qle. cbn [Qnum Qden]. lia. }
  assert (Tx : Qabs x <= Qabs d + Qabs (d - x)).
  { setoid_replace x with (d + - (d - x)) at 1 by ring. eapply Qle_trans; [apply Qabs_triangle|].
    rewrite Qabs_opp. lra. }
  assert (Td : Qabs d <= Qabs x + Qabs (d - x)).
  { setoid_replace d with (x + (d - x)) at 1 by ring. apply Qabs_triangle. }
  assert (Nd : ~ d == 0).
  { intros Z0. assert (Qabs d == 0) by (rewrite Z0; reflexivity). lra. }
  destruct (binary_form 24 d eq_refl) as (a & k & Ea & Ba & Hk). specialize (Hk Nd).
  destruct (exponent_spec d Nd) as (L & U). set (e := exponent d) in *.
  assert (He : (e <= 21)%Z).
  { destruct (Z.le_gt_cases e 21) as [|G]; [auto|]. exfalso.
    assert (H : Qpower 2 22 <= Qpower 2 e) by (apply p2_mono; lia). change (Qpower 2 22) with 4194304 in H. lra. }
  assert (Hk2 : (k <= -2)%Z) by lia.
  rewrite E' in Ea.
  (* x - d = (m 2^j - 15 a) / (60 2^j) with j = -2 - k *)
  set (j := (-2 - k)%Z). assert (Hj : (0 <= j)%Z) by lia.
  set (w := (m * 2 ^ j - 15 * a)%Z).
  assert (Hw : w <> 0%Z).
  { intros W. apply Hd. apply (Gauss 15 (2 ^ j) m); [exists a; unfold w in W; lia|].
    apply Zpow_facts.rel_prime_Zpower_r; [exact Hj|].
    apply bezout_rel_prime. apply (Bezout_intro 15 2 1 1 (-7)). reflexivity. }
  assert (Ek : Qpower 2 k * inject_Z (2 ^ j) == 1 # 4).
  { rewrite <- p2_Z by exact Hj. rewrite <- p2_plus. replace (k + j)%Z with (-2)%Z by (unfold j; lia). reflexivity. }
  assert (Ew : (x - d) * inject_Z (2 ^ j) == inject_Z w * (1 # 60)).
  { unfold w. rewrite Ea. unfold Z.sub. rewrite inject_Z_plus, inject_Z_opp, !inject_Z_mult.
    change (inject_Z 15) with 15.
    setoid_replace x with (inject_Z m * (1 # 60)) by (unfold x, Qeq, Qmult, inject_Z; cbn [Qnum Qden]; lia).
    setoid_replace ((inject_Z m * (1 # 60) - inject_Z a * 2 ^ k) * inject_Z (2 ^ j))
      with (inject_Z m * inject_Z (2 ^ j) * (1 # 60) - inject_Z a * (2 ^ k * inject_Z (2 ^ j))) by ring.
    rewrite Ek. ring. }
  assert (Aw : 1 # 60 <= Qabs (x - d) * inject_Z (2 ^ j)).
  { rewrite <- (Qabs_pos (inject_Z (2 ^ j))).
    - rewrite <- Qabs_Qmult, Ew, Qabs_Qmult. change (Qabs (1 # 60)) with (1 # 60).
      assert (1 <= Qabs (inject_Z w)).
      { change (Qabs (inject_Z w)) with (inject_Z (Z.abs w)). change 1 with (inject_Z 1). rewrite <- Zle_Qle. lia. }
      lra.
    - change 0 with (inject_Z 0). rewrite <- Zle_Qle. apply Z.pow_nonneg. lia. }
  (* |d| < 2^(e+1) = 2^24 2^k *)
  assert (Ud : Qabs d * inject_Z (2 ^ j) < 4194304).
  { assert (P : 0 < inject_Z (2 ^ j)) by (rewrite <- p2_Z by exact Hj; apply p2_pos).
    apply Qlt_le_trans with (Qpower 2 (e + 1) * inject_Z (2 ^ j)); [apply Qmult_lt_r; [exact P|exact U]|].
    rewrite <- p2_Z by exact Hj. rewrite <- p2_plus. replace (e + 1 + j)%Z with 22%Z by (unfold j; lia).
    change (Qpower 2 22) with 4194304. lra. }
  assert (Es : Qabs (x - d) == Qabs (d - x)) by (rewrite Qabs_Qminus; reflexivity).
  assert (P : 0 < inject_Z (2 ^ j)) by (rewrite <- p2_Z by exact Hj; apply p2_pos).
  rewrite Es in Aw.
  assert (Xd : Qabs x <= 2 * Qabs d) by lra.
  assert (Qabs (d - x) <= (1 # 4503599627370496) * Qabs d) by lra.
  assert (Qabs (d - x) * inject_Z (2 ^ j) <= (1 # 4503599627370496) * Qabs d * inject_Z (2 ^ j))
    by (apply Qmult_le_r; [exact P|assumption]).
  lra.
Qed.

(** ** the writer *)
Section Writer.
Context {A : Type}.
Variable store : Qc -> Qc.
Variable enc : A -> A.
Definition rounded (calls : list (Qc * A)) : list (Qc * A) := map (fun c => (store (fst c), snd c)) calls.

(** comparing rounded times is the same as working with rounded times *)
Lemma find_round t (f : list (Qc * option A)) : find_record false store t f = find_record true (fun t => t) (store t) f.
Proof. induction f as [|r f IH]; [reflexivity|]. cbn [find_record]. rewrite IH. reflexivity. Qed.
Lemma put_round t (f : list (Qc * option A)) : forall i, put_time store i t f = put_time (fun t => t) i (store t) f.
Proof. induction f as [|[s d] f IH]; intros [|i]; cbn [put_time]; try reflexivity. now rewrite IH. Qed.
Lemma write_round t (f : list (Qc * option A)) : write_time false store t f = write_time true (fun t => t) (store t) f.
Proof. unfold write_time. now rewrite find_round, put_round. Qed.
Lemma run_round calls : forall f : list (Qc * option A),
  nc_run false store enc f calls = nc_run true (fun t => t) enc f (rounded calls).
Proof.
  unfold nc_run, rounded. induction calls as [|c calls IH]; intros f; [reflexivity|]. cbn [fold_left map].
  rewrite IH. f_equal. unfold nc_output. cbn [fst snd]. now rewrite write_round.
Qed.
Lemma interrupted_round (f : list (Qc * option A)) done k : interrupted false store enc f done k =
  interrupted true (fun t => t) enc f (rounded done)
    (match k with Before => Before | Between c => Between (store (fst c), snd c) end).
Proof. destruct k as [|c]; unfold interrupted; cbn [fst snd]; rewrite run_round, ?write_round; reflexivity. Qed.

Lemma rounded_keys calls : map fst (rounded calls) = map store (map fst calls).
Proof. unfold rounded. rewrite !map_map. reflexivity. Qed.

Lemma records_round (f : list (Qc * option A)) calls : NoDup (map fst f) ->
  let run := nc_run false store enc f calls in
  NoDup (map fst run) /\ first_seen (map fst f) (map store (map fst calls)) (map fst run) /\
  forall s e, has_record run s e <->
    (exists d, last_call s (rounded calls) d /\ e = Some (enc d)) \/
    (~ In s (map store (map fst calls)) /\ has_record f s e).
Proof.
  intros Hn. cbv zeta. rewrite run_round, <- rounded_keys. apply nc_run_spec; auto.
Qed.
Lemma rerun_round (f : list (Qc * option A)) done rest k : NoDup (map fst f) -> crash_point rest k ->
  nc_run false store enc (interrupted false store enc f done k) (done ++ rest) = nc_run false store enc f (done ++ rest).
Proof.
  intros Hn Hk. rewrite interrupted_round, !run_round.
  assert (E : rounded (done ++ rest) = rounded done ++ rounded rest) by apply map_app. rewrite E.
  apply rerun_after_crash; auto. destruct k as [|c]; [exact I|]. destruct Hk as (r & ->). exists (rounded r). reflexivity.
Qed.
End Writer.

(** ** one record for each time *)
Section Each.
Context {T A : Type}.
Variable eq_dec : forall a b : T, {a = b} + {a <> b}.
Variable key : T -> Qc.
Variable enc : A -> A.

Fixpoint seen (ks ts : list T) : list T :=
  match ts with
  | [] => ks
  | t :: r => seen (if in_dec eq_dec t ks then ks else ks ++ [t]) r
  end.
Lemma seen_spec ts : forall ks, first_seen ks ts (seen ks ts).
Proof.
  induction ts as [|t ts IH]; intros ks; simpl; [constructor|].
  destruct (in_dec eq_dec t ks) as [H|H]; now constructor.
Qed.
Lemma seen_in ts : forall ks t, In t (seen ks ts) <-> In t ks \/ In t ts.
Proof.
  induction ts as [|u ts IH]; simpl; intros ks t; [tauto|]. rewrite IH.
  destruct (in_dec eq_dec u ks) as [H|H].
  - split; [tauto|]. intros [|[<-|]]; tauto.
  - rewrite in_app_iff. simpl. tauto.
Qed.
Lemma first_seen_unique {U} ks ts (l : list U) : first_seen ks ts l -> forall l', first_seen ks ts l' -> l = l'.
Proof.
  induction 1 as [ks|ks t ts l Hi _ IH|ks t ts l Hi _ IH]; intros l' F; inversion F; subst; auto; contradiction.
Qed.

Variable P : T -> Prop.
Hypothesis inj : forall a b, P a -> P b -> key a = key b -> a = b.

Lemma first_seen_map ks ts l : (forall t, In t ks -> P t) -> (forall t, In t ts -> P t) ->
  first_seen ks ts l -> first_seen (map key ks) (map key ts) (map key l).
Proof.
  intros Hk Ht F. revert Hk Ht. induction F as [ks|ks t ts l Hi _ IH|ks t ts l Hi _ IH]; intros Hk Ht; simpl.
  - constructor.
  - apply fs_old; [now apply in_map|]. apply IH; auto. intros u Hu. apply Ht. now right.
  - apply fs_new.
    + intros H. apply in_map_iff in H. destruct H as (u & Eu & Hu). apply Hi.
      replace t with u; [exact Hu|]. symmetry. apply inj; auto. apply Ht. now left.
    + change [key t] with (map key [t]). rewrite <- map_app. apply IH.
      * intros u Hu. apply in_app_iff in Hu. destruct Hu as [Hu|[<-|[]]]; [auto|]. apply Ht. now left.
      * intros u Hu. apply Ht. now right.
Qed.
Lemma last_call_map calls t d : P t -> (forall c, In c calls -> P (fst c)) ->
  last_call (key t) (map (fun c => (key (fst c), snd c)) calls) d -> @last_call T A t calls d.
Proof.
  intros Ht Hc. induction calls as [|[s x] calls IH]; intros H; simpl in H; inversion H as [? ? Hx|? ? ? Hx]; subst.
  - assert (Es : s = t) by (apply inj; auto; apply (Hc (s, d)); now left). subst s.
    constructor. intros Hi. apply Hx. rewrite map_map. simpl. apply in_map_iff in Hi. destruct Hi as (c & <- & Hi).
    apply (in_map (fun c => key (fst c))). exact Hi.
  - constructor. apply IH; auto. intros c Hi. apply Hc. now right.
Qed.

(** the writer used with times [key t] that the file shows as they are *)
Lemma each_of_spec calls (run : list (Qc * option A)) : (forall c, In c calls -> P (fst c)) ->
  first_seen [] (map key (map fst calls)) (map fst run) ->
  (forall s e, In (s, e) run -> exists d, last_call s (map (fun c => (key (fst c), snd c)) calls) d /\ e = Some (enc d)) ->
  one_record_each key enc calls (seen [] (map fst calls)) run.
Proof.
  intros Hc F R.
  assert (Hp : forall t, In t (map fst calls) -> P t).
  { intros t H. apply in_map_iff in H. destruct H as (c & <- & H). auto. }
  assert (K : map fst run = map key (seen [] (map fst calls))).
  { apply (first_seen_unique _ _ _ F). apply (first_seen_map [] (map fst calls)); auto; [intros t []|]. apply seen_spec. }
  unfold one_record_each.
  assert (Q : forall ts run', (forall t, In t ts -> P t) -> (forall r, In r run' -> In r run) -> map fst run' = map key ts ->
    Forall2 (fun t r => fst r = key t /\ exists d, last_call t calls d /\ snd r = Some (enc d)) ts run').
  { induction ts as [|t ts IH]; intros [|[s e] run'] Pt Hi E; try discriminate; constructor.
    - simpl in E. injection E as E _. simpl. split; [exact E|]. subst s.
      destruct (R _ _ (Hi _ (or_introl eq_refl))) as (d & L & ->). exists d. split; [|reflexivity].
      apply last_call_map; auto. apply Pt. now left.
    - simpl in E. injection E as _ E. apply IH; auto; intros; [apply Pt|apply Hi]; now right. }
  apply Q; auto. intros t H. apply seen_in in H. destruct H as [[]|H]. auto.
Qed.
End Each.
