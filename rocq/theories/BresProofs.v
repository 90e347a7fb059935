From Coq Require Import ZArith List Bool Lia.
From Verif Require Import BresModel BresSpec.
Import ListNotations.
Local Open Scope Z_scope.

Lemma short_id z : -32768 <= z <= 32767 -> short z = z.
Proof. intros H. unfold short. rewrite Z.mod_small by lia. lia. Qed.

Lemma rounded_spec k a n : 0 < n -> 2 * k * a - n <= 2 * n * rounded k a n < 2 * k * a + n.
Proof.
  intros H. unfold rounded. pose proof (Z.mul_div_le (n - 2 * k * a) (2 * n) ltac:(lia)).
  pose proof (Z.mul_succ_div_gt (n - 2 * k * a) (2 * n) ltac:(lia)). lia.
Qed.
Lemma rounded_unique k a n e : 0 < n -> 2 * k * a - n <= 2 * n * e < 2 * k * a + n -> rounded k a n = e.
Proof. intros H He. pose proof (rounded_spec k a n H). nia. Qed.
Lemma rounded_0 a n : 0 < n -> rounded 0 a n = 0.
Proof. intros. apply rounded_unique; lia. Qed.
Lemma rounded_full k n : 0 < n -> rounded k n n = k.
Proof. intros. apply rounded_unique; nia. Qed.
Lemma rounded_back k n : 0 < n -> rounded k (- n) n = - k.
Proof. intros. apply rounded_unique; nia. Qed.
Lemma rounded_end a n : 0 < n -> rounded n a n = a.
Proof. intros. apply rounded_unique; nia. Qed.
Lemma rounded_flat k n : 0 < n -> rounded k 0 n = 0.
Proof. intros. apply rounded_unique; lia. Qed.

(** moving by at most one *)
Lemma rounded_right k a n : 0 < n -> 0 <= a <= n ->
  rounded (k + 1) a n = rounded k a n + (if 2 * a * (k + 1) - n - 2 * n * rounded k a n <=? 0 then 0 else 1).
Proof.
  intros Hn Ha. pose proof (rounded_spec k a n Hn) as S. apply rounded_unique; [exact Hn|].
  destruct (Z.leb_spec (2 * a * (k + 1) - n - 2 * n * rounded k a n) 0); lia.
Qed.
Lemma rounded_left k a n : 0 < n -> - n <= a <= 0 ->
  rounded (k + 1) a n = rounded k a n - (if n + 2 * a * (k + 1) - 2 * n * rounded k a n <=? 0 then 1 else 0).
Proof.
  intros Hn Ha. pose proof (rounded_spec k a n Hn) as S. apply rounded_unique; [exact Hn|].
  destruct (Z.leb_spec (n + 2 * a * (k + 1) - 2 * n * rounded k a n) 0); lia.
Qed.
Lemma rounded_between k a n : 0 < n -> 0 <= k <= n ->
  (0 <= a -> 0 <= rounded k a n <= a) /\ (a <= 0 -> a <= rounded k a n <= 0).
Proof.
  intros Hn Hk. pose proof (rounded_spec k a n Hn). split; intros; nia.
Qed.

(** ** the line data after [k] steps *)
Section Line.
Variables s f : Z * Z.
Definition sw := Z.abs (snd s - snd f) <? Z.abs (fst s - fst f).
(** minor and major axis *)
Definition s1 := swap_if sw s.
Definition f1 := swap_if sw f.
Definition am := fst f1 - fst s1.
Definition aM := snd f1 - snd s1.
Definition nM := steps s f.
Definition dval (k : Z) : Z :=
  if am <=? 0 then nM + 2 * am * (k + 1) - 2 * nM * rounded k am nM
  else 2 * am * (k + 1) - nM - 2 * nM * rounded k am nM.
Hypothesis FITS : fits s f.
Hypothesis POS : 0 < nM.

Lemma major : Z.abs aM = nM /\ Z.abs am <= nM.
Proof.
  unfold aM, am, nM, steps, s1, f1, sw, swap_if. destruct (Z.ltb_spec (Z.abs (snd s - snd f)) (Z.abs (fst s - fst f))); cbn [fst snd]; lia.
Qed.
Lemma dval_bound k : - (2 * nM) <= dval k <= 2 * nM.
Proof.
  pose proof (rounded_spec k am nM POS). destruct major as (_ & M). unfold dval.
  destruct (Z.leb_spec am 0); lia.
Qed.
Lemma nM_small : Z.abs am + nM <= 16383.
Proof.
  destruct FITS as (_ & _ & _ & _ & B). destruct major as (M & _). revert M B.
  unfold aM, am, s1, f1, sw, swap_if. destruct (Z.ltb_spec (Z.abs (snd s - snd f)) (Z.abs (fst s - fst f))); cbn [fst snd]; lia.
Qed.
Lemma initialize_eq : initialize s f =
  mkLine (Z.abs am)
    (if am <=? 0 then 2 * am else 2 * am)
    (if am <=? 0 then 2 * am + 2 * nM else 2 * (am + nM))
    (if am <=? 0 then 2 * am - 2 * nM else 2 * (am - nM))
    (if aM <? 0 then -1 else 1) (if am <=? 0 then -1 else 1) (dval 0)
    (if am <=? 0 then (if aM <? 0 then 5 else 8) else (if aM <? 0 then 4 else 1)) sw.
Proof.
  pose proof nM_small as SM. pose proof major as (M1 & M2). destruct FITS as (F1 & F2 & F3 & F4 & B).
  unfold initialize. rewrite (short_id (Z.abs (fst s - fst f))) by lia. rewrite (short_id (Z.abs (snd s - snd f))) by lia.
  fold sw.
  assert (EA : (if sw then Z.abs (snd s - snd f) else Z.abs (fst s - fst f)) = Z.abs am).
  { unfold am, s1, f1, swap_if. destruct sw; cbn [fst snd]; lia. }
  rewrite EA. fold s1 f1. destruct s1 as [sx sy] eqn:Es, f1 as [ex ey] eqn:Ef.
  assert (Am : am = ex - sx) by (unfold am; rewrite Es, Ef; reflexivity).
  assert (AM : aM = ey - sy) by (unfold aM; rewrite Es, Ef; reflexivity).
  assert (C1 : (ey <? sy) = (aM <? 0)) by (destruct (Z.ltb_spec ey sy), (Z.ltb_spec aM 0); lia).
  assert (C2 : (ex <=? sx) = (am <=? 0)) by (destruct (Z.leb_spec ex sx), (Z.leb_spec am 0); lia).
  rewrite C1, C2. unfold dval. rewrite rounded_0 by exact POS.
  assert (DY : (if aM <? 0 then short (sy - ey) else short (ey - sy)) = nM).
  { destruct (Z.ltb_spec aM 0); rewrite short_id by lia; lia. }
  rewrite DY.
  destruct (Z.leb_spec am 0); f_equal; rewrite ?short_id by lia; lia.
Qed.

Definition state (k : Z) : line := set_d (initialize s f) (dval k).
Lemma state_0 : state 0 = initialize s f.
Proof. unfold state. rewrite initialize_eq. reflexivity. Qed.

Lemma swap_swap b p : swap_if b (swap_if b p) = p.
Proof. destruct b, p; reflexivity. Qed.
Lemma cell_swapped k : swap_if sw (line_cell s f k) = (fst s1 + rounded k am nM, snd s1 + rounded k aM nM).
Proof. unfold line_cell, am, aM, s1, f1, swap_if, nM. destruct sw; reflexivity. Qed.

Lemma next_line k : 0 <= k < nM -> next s f (state k) (line_cell s f k) = (line_cell s f (k + 1), state (k + 1)).
Proof.
  intros Hk. pose proof nM_small as SM. pose proof major as (M1 & M2). pose proof (dval_bound k) as DB.
  pose proof (dval_bound (k + 1)) as DB'.
  assert (F1 : -32768 <= fst s1 <= 32767 /\ -32768 <= snd s1 <= 32767 /\ -32768 <= fst f1 <= 32767 /\ -32768 <= snd f1 <= 32767).
  { destruct FITS as (A & B & C & D & _). unfold s1, f1, swap_if. destruct sw; cbn [fst snd]; lia. }
  unfold next, state. rewrite initialize_eq. cbn [set_d l_steep l_dx l_inc1 l_inc2 l_inc3 l_inc4 l_inc5 l_d l_octent].
  fold s1 f1. rewrite cell_swapped.
  replace (line_cell s f (k + 1)) with (swap_if sw (fst s1 + rounded (k + 1) am nM, snd s1 + rounded (k + 1) aM nM))
    by (rewrite <- cell_swapped; apply swap_swap).
  assert (Em : am = fst f1 - fst s1) by reflexivity. assert (EM : aM = snd f1 - snd s1) by reflexivity.
  destruct s1 as [sx sy], f1 as [ex ey]. cbn [fst snd] in *.
  pose proof (rounded_between k am nM POS ltac:(lia)) as (RB1 & RB2).
  pose proof (rounded_between (k + 1) am nM POS ltac:(lia)) as (RB1' & RB2').
  assert (RM : rounded k aM nM = (if aM <? 0 then - k else k) /\ rounded (k + 1) aM nM = (if aM <? 0 then - (k + 1) else k + 1)).
  { destruct (Z.ltb_spec aM 0).
    - replace aM with (- nM) by lia. split; apply rounded_back; exact POS.
    - replace aM with nM by lia. split; apply rounded_full; exact POS. }
  destruct RM as (RM & RM'). rewrite RM, RM'.
  destruct (Z.leb_spec am 0) as [Ha|Ha].
  - pose proof (rounded_left k am nM POS ltac:(lia)) as RL.
    assert (Dk : dval k = nM + 2 * am * (k + 1) - 2 * nM * rounded k am nM).
    { unfold dval. destruct (Z.leb_spec am 0); [reflexivity|lia]. }
    assert (Dk' : dval (k + 1) = nM + 2 * am * (k + 1 + 1) - 2 * nM * rounded (k + 1) am nM).
    { unfold dval. destruct (Z.leb_spec am 0); [reflexivity|lia]. }
    rewrite <- Dk in RL.
    assert (OCT : ((if aM <? 0 then 5 else 8) =? 5) || ((if aM <? 0 then 5 else 8) =? 8) = true) by (destruct (aM <? 0); reflexivity).
    rewrite OCT. rewrite RL in Dk'.
    assert (Y : short (sy + (if aM <? 0 then - k else k) + (if aM <? 0 then -1 else 1)) = sy + (if aM <? 0 then - (k + 1) else k + 1)).
    { destruct (Z.ltb_spec aM 0); rewrite short_id by lia; lia. }
    rewrite Y.
    destruct (Z.leb_spec ex sx); [|lia]. destruct (Z.ltb_spec sx ex); [lia|]. cbn [andb orb]. rewrite !orb_false_r.
    destruct (Z.eq_dec am 0) as [Z0|NZ].
    + (* vertical *)
      destruct (Z.leb_spec sx ex); [|lia]. destruct (Z.ltb_spec ex sx); [lia|]. cbn [andb orb]. rewrite orb_false_r.
      rewrite Z0 in *. rewrite rounded_flat in * by exact POS.
      destruct (Z.leb_spec 0 (dval k)); [|lia]. destruct (Z.leb_spec (Z.abs 0) 0); [|lia].
      destruct (Z.leb_spec (dval k) 0); [lia|].
      rewrite ?rounded_flat by exact POS. rewrite (short_id (dval k - 2 * 0)) by lia. f_equal. unfold set_d. f_equal. rewrite Dk'. lia.
    + destruct (Z.leb_spec sx ex); [lia|]. destruct (Z.ltb_spec ex sx); [|lia]. cbn [andb orb].
      rewrite RL. destruct (Z.leb_spec (dval k) 0) as [D|D].
      * destruct (Z.leb_spec (Z.abs am) 0); [lia|]. rewrite RL in *. rewrite (short_id (_ + -1)) by lia.
        rewrite (short_id (dval k + _)) by lia. f_equal; [f_equal; f_equal; lia|]. unfold set_d. f_equal. rewrite Dk'. lia.
      * destruct (Z.leb_spec 0 (Z.abs am)); [|lia].
        rewrite (short_id (dval k + _)) by lia. f_equal; [f_equal; f_equal; lia|]. unfold set_d. f_equal. rewrite Dk'. lia.
  - pose proof (rounded_right k am nM POS ltac:(lia)) as RL.
    assert (Dk : dval k = 2 * am * (k + 1) - nM - 2 * nM * rounded k am nM).
    { unfold dval. destruct (Z.leb_spec am 0); [lia|reflexivity]. }
    assert (Dk' : dval (k + 1) = 2 * am * (k + 1 + 1) - nM - 2 * nM * rounded (k + 1) am nM).
    { unfold dval. destruct (Z.leb_spec am 0); [lia|reflexivity]. }
    rewrite <- Dk in RL.
    assert (OCT : ((if aM <? 0 then 4 else 1) =? 5) || ((if aM <? 0 then 4 else 1) =? 8) = false) by (destruct (aM <? 0); reflexivity).
    assert (OCT' : ((if aM <? 0 then 4 else 1) =? 1) || ((if aM <? 0 then 4 else 1) =? 4) = true) by (destruct (aM <? 0); reflexivity).
    rewrite OCT, OCT'. rewrite RL in Dk'.
    assert (Y : short (sy + (if aM <? 0 then - k else k) + (if aM <? 0 then -1 else 1)) = sy + (if aM <? 0 then - (k + 1) else k + 1)).
    { destruct (Z.ltb_spec aM 0); rewrite short_id by lia; lia. }
    rewrite Y.
    destruct (Z.leb_spec ex sx); [lia|]. destruct (Z.ltb_spec sx ex); [|lia].
    destruct (Z.leb_spec sx ex); [|lia]. destruct (Z.ltb_spec ex sx); [lia|].
    destruct (Z.leb_spec 0 (Z.abs am)); [|lia]. destruct (Z.leb_spec (Z.abs am) 0); [lia|].
    cbn [andb orb]. rewrite ?orb_false_r. rewrite RL.
    destruct (Z.leb_spec (dval k) 0) as [D|D].
    + rewrite (short_id (dval k + _)) by lia. f_equal; [f_equal; f_equal; lia|]. unfold set_d. f_equal. rewrite Dk'. lia.
    + rewrite RL in *. rewrite (short_id (_ + 1)) by lia.
      rewrite (short_id (dval k + _)) by lia. f_equal; [f_equal; f_equal; lia|]. unfold set_d. f_equal. rewrite Dk'. lia.
Qed.
End Line.

(** ** the walk *)
Definition lc (s f : Z * Z) (i : nat) : Z * Z := line_cell s f (Z.of_nat i).
Definition near (nx ny : Z) (c : Z * Z) : Prop := 0 <= fst c <= nx /\ 0 <= snd c <= ny.
Lemma lc_end s f : line_cell s f (steps s f) = f.
Proof.
  destruct (Z.eq_dec (steps s f) 0) as [E|E].
  - unfold line_cell. rewrite E. unfold rounded. change (2 * 0) with 0. rewrite !Zdiv_0_r. destruct s as [x y], f as [u v]. unfold steps in E. cbn [fst snd] in *. f_equal; lia.
  - assert (0 < steps s f) by (unfold steps in *; lia). unfold line_cell. rewrite !rounded_end by assumption. destruct f; cbn [fst snd]. f_equal; lia.
Qed.
Lemma lc_not_end s f k : 0 <= k < steps s f -> line_cell s f k <> f.
Proof.
  intros Hk E. assert (P : 0 < steps s f) by lia.
  assert (A : rounded k (fst f - fst s) (steps s f) = fst f - fst s) by (apply (f_equal fst) in E; cbn [line_cell fst] in E; lia).
  assert (B : rounded k (snd f - snd s) (steps s f) = snd f - snd s) by (apply (f_equal snd) in E; cbn [line_cell snd] in E; lia).
  pose proof (rounded_spec k (fst f - fst s) _ P) as SA. pose proof (rounded_spec k (snd f - snd s) _ P) as SB.
  rewrite A in SA. rewrite B in SB.
  assert (M : Z.abs (fst f - fst s) = steps s f \/ Z.abs (snd f - snd s) = steps s f) by (unfold steps; lia).
  set (n := steps s f) in *. clearbody n. destruct M as [M|M].
  - assert (fst f - fst s = n \/ fst f - fst s = - n) as [Q|Q] by lia; rewrite Q in SA; nia.
  - assert (snd f - snd s = n \/ snd f - snd s = - n) as [Q|Q] by lia; rewrite Q in SB; nia.
Qed.
Lemma lc_0 s f : line_cell s f 0 = s.
Proof.
  destruct (Z.eq_dec (steps s f) 0) as [E|E].
  - unfold line_cell. rewrite E. unfold rounded. rewrite !Zdiv_0_r. destruct s; cbn [fst snd]. f_equal; lia.
  - assert (0 < steps s f) by (unfold steps in *; lia). unfold line_cell. rewrite !rounded_0 by assumption. destruct s; cbn [fst snd]. f_equal; lia.
Qed.

Lemma walk_spec s f nx ny : fits s f -> forall room k L, Z.of_nat k <= steps s f ->
  (L = Some (state s f (Z.of_nat k)) \/ (L = None /\ k = 0%nat)) ->
  exists len, walk room nx ny s f L (lc s f k) = map (lc s f) (seq (S k) len) /\ (len <= room)%nat /\
    Z.of_nat (k + len) <= steps s f /\ (forall i, (k <= i < k + len)%nat -> near nx ny (lc s f i)) /\
    (len = room \/ Z.of_nat (k + len) = steps s f \/ ~ near nx ny (lc s f (k + len))).
Proof.
  intros FT. induction room as [|room IH]; intros k L Hk HL.
  - exists 0%nat. rewrite Nat.add_0_r. repeat split; auto; try lia.
  - cbn [walk]. destruct (Z.eq_dec (Z.of_nat k) (steps s f)) as [E|E].
    + exists 0%nat. unfold lc at 1 2. rewrite E, lc_end, !Z.eqb_refl. cbn [andb]. rewrite Nat.add_0_r. repeat split; auto; try lia.
    + assert (NE : (fst (lc s f k) =? fst f) && (snd (lc s f k) =? snd f) = false).
      { apply not_true_iff_false. intros C. apply andb_prop in C. destruct C as (C1 & C2). apply Z.eqb_eq in C1. apply Z.eqb_eq in C2.
        apply (lc_not_end s f (Z.of_nat k)); [lia|]. unfold lc in C1, C2. destruct (line_cell s f (Z.of_nat k)), f; cbn [fst snd] in *. congruence. }
      rewrite NE.
      destruct ((nx <? fst (lc s f k)) || (fst (lc s f k) <? 0) || (ny <? snd (lc s f k)) || (snd (lc s f k) <? 0)) eqn:OUT.
      * exists 0%nat. rewrite Nat.add_0_r. repeat split; auto; try lia. right. right. unfold near.
        rewrite !orb_true_iff, !Z.ltb_lt in OUT. lia.
      * assert (NR : near nx ny (lc s f k)).
        { unfold near. rewrite !orb_false_iff, !Z.ltb_ge in OUT. lia. }
        assert (EL : match L with Some L0 => L0 | None => initialize s f end = state s f (Z.of_nat k)).
        { destruct HL as [-> | [-> ->]]; [reflexivity|]. change (Z.of_nat 0) with 0. symmetry. apply state_0; [exact FT|]. unfold nM. lia. }
        rewrite EL. unfold lc at 1. rewrite next_line by (auto; unfold nM; lia).
        assert (EK : Z.of_nat k + 1 = Z.of_nat (S k)) by lia. rewrite EK. fold (lc s f (S k)).
        destruct (IH (S k) (Some (state s f (Z.of_nat (S k))))) as (len & I1 & I2 & I3 & I4 & I5); [lia|now left|].
        exists (S len). rewrite I1. split; [reflexivity|]. split; [lia|]. split; [lia|]. split.
        -- intros i Hi. destruct (Nat.eq_dec i k) as [->|]; [exact NR|]. apply I4. lia.
        -- replace (k + S len)%nat with (S k + len)%nat by lia. destruct I5 as [I5|[I5|I5]]; auto.
Qed.

Lemma find_line_spec s f nx ny : fits s f -> exists len,
  find_line nx ny s f = map (lc s f) (seq 0 (S len)) /\ (len <= Z.to_nat 499)%nat /\ Z.of_nat len <= steps s f /\
  (forall i, (i < len)%nat -> near nx ny (lc s f i)) /\
  (len = Z.to_nat 499 \/ Z.of_nat len = steps s f \/ ~ near nx ny (lc s f len)).
Proof.
  intros FT. unfold find_line.
  assert (E : (short (fst s), short (snd s)) = lc s f 0).
  { unfold lc. rewrite lc_0. destruct FT as (A & B & _). rewrite !short_id by assumption. now destruct s. }
  rewrite E. destruct (walk_spec s f nx ny FT (Z.to_nat 499) 0 None) as (len & W1 & W2 & W3 & W4 & W5).
  - unfold steps. lia.
  - right; auto.
  - exists len. rewrite W1. cbn [seq map]. rewrite Nat.add_0_l in *. split; [|repeat split; auto].
    + f_equal. unfold lc. now rewrite lc_0.
    + apply W4. lia.
    + apply W4. lia.
    + apply W4. lia.
    + apply W4. lia.
Qed.

(** ** cells in the domain *)
Lemma rounded_mono i j a n : 0 < n -> 0 <= a -> i <= j -> rounded i a n <= rounded j a n.
Proof. intros Hn Ha Hij. pose proof (rounded_spec i a n Hn). pose proof (rounded_spec j a n Hn). assert (i * a <= j * a) by nia. nia. Qed.
Lemma rounded_anti i j a n : 0 < n -> a <= 0 -> i <= j -> rounded j a n <= rounded i a n.
Proof. intros Hn Ha Hij. pose proof (rounded_spec i a n Hn). pose proof (rounded_spec j a n Hn). assert (j * a <= i * a) by nia. nia. Qed.
Lemma coord_leaves s a n hi i j : 0 < n -> 0 <= s < hi -> 0 <= i <= j ->
  ~ (0 <= s + rounded i a n < hi) -> (s + rounded i a n < 0 -> s + rounded j a n < 0) /\ (hi <= s + rounded i a n -> hi <= s + rounded j a n).
Proof.
  intros Hn Hs Hij Hout. destruct (Z_le_dec 0 a) as [A|A].
  - pose proof (rounded_mono i j a n Hn A ltac:(lia)). pose proof (rounded_mono 0 i a n Hn A ltac:(lia)). rewrite rounded_0 in * by exact Hn. lia.
  - pose proof (rounded_anti i j a n Hn ltac:(lia) ltac:(lia)). pose proof (rounded_anti 0 i a n Hn ltac:(lia) ltac:(lia)). rewrite rounded_0 in * by exact Hn. lia.
Qed.
Lemma in_domain_inside nx ny c : in_domain nx ny c = true <-> inside nx ny c.
Proof. unfold in_domain, inside. rewrite !andb_true_iff, !Z.leb_le. lia. Qed.
Lemma leaves s f nx ny i j : inside nx ny s -> 0 <= i <= j -> j <= steps s f -> ~ inside nx ny (line_cell s f i) -> ~ inside nx ny (line_cell s f j).
Proof.
  intros Hs Hij Hj Hout Hin. destruct (Z.eq_dec (steps s f) 0) as [E|E].
  - replace j with i in Hin by lia. contradiction.
  - assert (P : 0 < steps s f) by lia. unfold inside, line_cell in *. cbn [fst snd] in *.
    destruct Hs as (H1 & H2). destruct Hin as (I1 & I2).
    pose proof (coord_leaves (fst s) (fst f - fst s) (steps s f) nx i j P H1 ltac:(lia)) as L1.
    pose proof (coord_leaves (snd s) (snd f - snd s) (steps s f) ny i j P H2 ltac:(lia)) as L2. lia.
Qed.

Lemma prefix_count (P : nat -> bool) : forall N, (forall i j, (i <= j < N)%nat -> P i = false -> P j = false) ->
  exists m, (m <= N)%nat /\ (forall i, (i < N)%nat -> P i = true <-> (i < m)%nat) /\ length (filter P (seq 0 N)) = m.
Proof.
  induction N as [|N IH]; intros H.
  - exists 0%nat. repeat split; simpl; auto; lia.
  - destruct IH as (m & M1 & M2 & M3); [intros; apply (H i j); [lia|assumption]|].
    rewrite seq_S, filter_app, app_length, M3. cbn [filter plus]. destruct (P N) eqn:E.
    + assert (m = N).
      { destruct (Nat.eq_dec m N); [assumption|]. destruct (P m) eqn:Em; [apply M2 in Em; lia|].
        rewrite (H m N) in E; [discriminate|lia|exact Em]. }
      subst m. exists (S N). split; [lia|]. split; [|simpl; lia]. intros i Hi. destruct (Nat.eq_dec i N) as [->|].
      * split; auto.
      * rewrite M2 by lia. lia.
    + exists m. split; [lia|]. split; [|simpl; lia]. intros i Hi. destruct (Nat.eq_dec i N) as [->|].
      * rewrite E. split; [discriminate|lia].
      * apply M2. lia.
Qed.

Lemma filter_map_length {A B} (g : A -> B) (P : B -> bool) l : length (filter P (map g l)) = length (filter (fun x => P (g x)) l).
Proof. induction l as [|x l IH]; simpl; [reflexivity|]. destruct (P (g x)); simpl; now rewrite IH. Qed.
Lemma firstn_seq : forall m n k, (m <= n)%nat -> firstn m (seq k n) = seq k m.
Proof. induction m as [|m IH]; intros [|n] k H; simpl; auto; try lia. rewrite IH by lia. reflexivity. Qed.

Lemma samples_spec s f nx ny : fits s f -> inside nx ny s -> exists m,
  samples nx ny (find_line nx ny s f) = map (fun i => Some (lc s f i)) (seq 0 m) /\
  (0 < m <= Z.to_nat 500)%nat /\ (m <= Z.to_nat (steps s f) + 1)%nat /\
  forall k, (k < Z.to_nat 500)%nat -> Z.of_nat k <= steps s f -> inside nx ny (lc s f k) <-> (k < m)%nat.
Proof.
  intros FT Hs. destruct (find_line_spec s f nx ny FT) as (len & E & L1 & L2 & L3 & L4). rewrite E.
  set (P := fun i => in_domain nx ny (lc s f i)).
  destruct (prefix_count P (S len)) as (m & M1 & M2 & M3).
  { intros i j Hij Hi. apply not_true_iff_false. intros C. apply in_domain_inside in C.
    apply (leaves s f nx ny (Z.of_nat i) (Z.of_nat j)) in C; auto; try lia.
    intros I. apply in_domain_inside in I. unfold P, lc in Hi. congruence. }
  exists m. unfold samples. rewrite filter_map_length. fold P. rewrite M3, map_map, firstn_map, firstn_seq by exact M1.
  assert (M0 : (0 < m)%nat).
  { apply M2; [lia|]. unfold P, lc. rewrite lc_0. now apply in_domain_inside. }
  split; [|split; [lia|split; [lia|]]].
  - apply map_ext_in. intros i Hi. apply in_seq in Hi. assert (T : P i = true) by (apply M2; lia). unfold P in T. now rewrite T.
  - intros k Hk1 Hk2. rewrite <- in_domain_inside. fold (P k). destruct (Nat.lt_ge_cases k (S len)) as [K|K]; [now apply M2|].
    split; [|lia]. intros C. exfalso. destruct L4 as [L4|[L4|L4]]; [lia|lia|].
    unfold P in C. apply in_domain_inside in C. revert C. apply (leaves s f nx ny (Z.of_nat len)); auto; try lia.
    intros I. apply L4. unfold near. unfold inside in I. unfold lc. lia.
Qed.

(** neighbours *)
Lemma rounded_step k a n : 0 < n -> Z.abs a <= n -> Z.abs (rounded (k + 1) a n - rounded k a n) <= 1.
Proof. intros Hn Ha. destruct (Z_le_dec 0 a); [rewrite rounded_right by lia|rewrite rounded_left by lia]; destruct (_ <=? 0); lia. Qed.
Lemma lc_adjacent s f k : 0 < steps s f -> adjacent (line_cell s f k) (line_cell s f (k + 1)).
Proof.
  intros P. unfold adjacent, line_cell. cbn [fst snd].
  pose proof (rounded_step k (fst f - fst s) _ P ltac:(unfold steps; lia)).
  pose proof (rounded_step k (snd f - snd s) _ P ltac:(unfold steps; lia)).
  assert (M : Z.abs (fst f - fst s) = steps s f \/ Z.abs (snd f - snd s) = steps s f) by (unfold steps; lia).
  assert (G : forall a, Z.abs a = steps s f -> Z.abs (rounded (k + 1) a (steps s f) - rounded k a (steps s f)) = 1).
  { intros a Ea. assert (a = steps s f \/ a = - steps s f) as [-> | ->] by lia; [rewrite !rounded_full by exact P|rewrite !rounded_back by exact P]; lia. }
  destruct M as [M|M]; apply G in M; lia.
Qed.
Lemma lc_nearest s f k : 0 < steps s f ->
  2 * Z.abs ((fst (line_cell s f k) - fst s) * steps s f - k * (fst f - fst s)) <= steps s f /\
  2 * Z.abs ((snd (line_cell s f k) - snd s) * steps s f - k * (snd f - snd s)) <= steps s f.
Proof.
  intros P. unfold line_cell. cbn [fst snd]. pose proof (rounded_spec k (fst f - fst s) _ P). pose proof (rounded_spec k (snd f - snd s) _ P).
  split; lia.
Qed.
