From Coq Require Import List Arith Bool Lia ZArith QArith Qcanon.
From Verif Require Import Num StormsModel StormsSpec.
Import ListNotations.
Local Open Scope nat_scope.

(** ** Facts about the specification *)
Section Uniq.
Variables (n steps : nat) (wet : nat -> Prop).
Hypothesis wet_lt : forall i, wet i -> i < n.

Lemma wet_spell_end a w w' : wet_spell n steps wet a w -> wet_spell n steps wet a w' -> w = w'.
Proof.
  assert (G : forall w w', wet_spell n steps wet a w -> wet_spell n steps wet a w' -> w < w' -> False).
  { clear. intros w w' (H1 & H2 & H3 & H4 & H5) (G1 & G2 & G3 & G4 & G5) Hlt.
    destruct (G4 w ltac:(lia)) as (j & Hj & Wj). exact (H5 j Hj Wj). }
  intros H H'. destruct (Nat.lt_total w w') as [?|[?|?]]; auto; exfalso; eauto.
Qed.

Lemma storms_unique_aux (P : nat -> nat -> Prop) :
  (forall a b, P a b -> wet a /\ a <= b) -> (forall a b b', P a b -> P a b' -> b = b') ->
  forall l l' m,
  in_order l -> in_order l' ->
  (forall s, In s l -> P (fst s) (snd s) /\ m <= fst s) ->
  (forall s, In s l' -> P (fst s) (snd s) /\ m <= fst s) ->
  (forall i, m <= i -> wet i -> exists s, In s l /\ fst s <= i <= snd s) ->
  (forall i, m <= i -> wet i -> exists s, In s l' /\ fst s <= i <= snd s) ->
  l = l'.
Proof.
  intros HP Hu. induction l as [|s l IH]; intros l' m O O' H H' C C'.
  - destruct l' as [|t l']; [reflexivity|]. exfalso.
    destruct (H' t (or_introl eq_refl)) as [Pt Ht]. destruct (HP _ _ Pt) as [Wt _].
    destruct (C _ Ht Wt) as (x & [] & _).
  - destruct l' as [|t l'].
    { exfalso. destruct (H s (or_introl eq_refl)) as [Ps Hs]. destruct (HP _ _ Ps) as [Ws _].
      destruct (C' _ Hs Ws) as (x & [] & _). }
    inversion O as [|? ? O1 O2]; subst. inversion O' as [|? ? O1' O2']; subst.
    rewrite Forall_forall in O1, O1'.
    destruct (H s (or_introl eq_refl)) as [Ps Hs]. destruct (HP _ _ Ps) as [Ws Ls].
    destruct (H' t (or_introl eq_refl)) as [Pt Ht]. destruct (HP _ _ Pt) as [Wt Lt].
    assert (E1 : fst t <= fst s).
    { destruct (C' _ Hs Ws) as (x & [<-|Hx] & Hr); [lia|]. specialize (O1' x Hx). lia. }
    assert (E2 : fst s <= fst t).
    { destruct (C _ Ht Wt) as (x & [<-|Hx] & Hr); [lia|]. specialize (O1 x Hx). lia. }
    assert (E : s = t).
    { destruct s as [a b], t as [a' b']; simpl in *. assert (a = a') by lia. subst a'.
      f_equal. eapply Hu; eauto. }
    subst t. f_equal. apply (IH l' (S (snd s))); auto.
    + intros x Hx. destruct (H x (or_intror Hx)) as [Px _]. split; [exact Px|]. specialize (O1 x Hx). lia.
    + intros x Hx. destruct (H' x (or_intror Hx)) as [Px _]. split; [exact Px|]. specialize (O1' x Hx). lia.
    + intros i Hi Wi. destruct (C i ltac:(lia) Wi) as (x & [<-|Hx] & Hr); [lia|eauto].
    + intros i Hi Wi. destruct (C' i ltac:(lia) Wi) as (x & [<-|Hx] & Hr); [lia|eauto].
Qed.

Lemma station_storms_unique l l' :
  is_storms n wet (station_storm n steps wet) l -> is_storms n wet (station_storm n steps wet) l' -> l = l'.
Proof.
  intros (O & H & C) (O' & H' & C').
  apply (storms_unique_aux (station_storm n steps wet)) with (m := 0); auto.
  - intros a b (w & (H1 & H2 & _) & ->). split; [exact H2|]. lia.
  - intros a b b' (w & Hw & ->) (w' & Hw' & ->). rewrite (wet_spell_end _ _ _ Hw Hw'). reflexivity.
  - intros s Hs. split; [auto|lia].
  - intros s Hs. split; [auto|lia].
Qed.

Lemma basin_storms_unique l l' :
  is_storms n wet (basin_storm n steps wet) l -> is_storms n wet (basin_storm n steps wet) l' -> l = l'.
Proof.
  intros (O & H & C) (O' & H' & C').
  apply (storms_unique_aux (basin_storm n steps wet)) with (m := 0); auto.
  - intros a b (H1 & H2 & _). split; [exact H2|lia].
  - intros a b b' Hw Hw'. exact (wet_spell_end _ _ _ Hw Hw').
  - intros s Hs. split; [auto|lia].
  - intros s Hs. split; [auto|lia].
Qed.
End Uniq.

(** ** Helpers on ForallOrdPairs *)
Lemma fop_app (A : Type) (R : A -> A -> Prop) l x :
  ForallOrdPairs R l -> (forall y, In y l -> R y x) -> ForallOrdPairs R (l ++ [x]).
Proof.
  induction 1 as [|a l Ha Hl IH]; intros H; simpl.
  - repeat constructor.
  - constructor.
    + apply Forall_app. split; [exact Ha|]. constructor; [apply H; left; reflexivity|constructor].
    + apply IH. intros y Hy. apply H. right; exact Hy.
Qed.

Definition span (s : storm) : nat * nat := (s_start s, s_end s).

(** ** Station tracker: the invariant after [n] rows *)
Section Station.
Variables (thr : Qc) (steps : nat).
Variable rows : list (list num).

Definition wetb (i : nat) : bool :=
  match nth_error rows i with Some r => gtb (pd_max r) thr | None => false end.
Lemma wetb_wet i : wetb i = true <-> wet_station thr rows i.
Proof.
  unfold wetb, wet_station. destruct (nth_error rows i) as [r|] eqn:E.
  - rewrite gtb_pd_max. split.
    + intros (v & H1 & H2). exists r, v. auto.
    + intros (r' & v & [= <-] & H1 & H2). eauto.
  - split; [discriminate|]. intros (r & v & H & _). discriminate.
Qed.

(** total of the wet rows of an interval *)
Definition keep (a b i : nat) : bool := (a <=? i) && (i <=? b) && wetb i.
Definition totals (a b : nat) : nat -> num := fun c => sum_rows (keep a b) c 0 rows.

(** open storm [a..b] with last wet step [w], after [m] rows *)
Definition spell (a w : nat) : Prop :=
  a <= w /\ wetb a = true /\ wetb w = true /\
  (forall i, a <= i < w -> exists j, i < j <= i + steps /\ wetb j = true).

Record tinv (m : nat) (s : tracker) : Prop := {
  ti_ord : in_order (map span (tr_done s));
  ti_done : forall x, In x (tr_done s) ->
     exists w, spell (s_start x) w /\ w + steps < m /\ s_end x = w + steps /\
               (forall j, w < j <= w + steps -> wetb j = false);
  ti_cov : forall i, i < m -> wetb i = true ->
     (exists x, In x (tr_done s) /\ s_start x <= i <= s_end x) \/
     (tr_on s = true /\ s_start (tr_cur s) <= i <= s_end (tr_cur s));
  ti_lt : forall x, In x (tr_done s) -> tr_on s = true -> s_end x < s_start (tr_cur s);
  ti_cur : tr_on s = true ->
     exists w, spell (s_start (tr_cur s)) w /\ w < m /\ s_end (tr_cur s) = m - 1 /\
               tr_cnt s = m - 1 - w /\ tr_cnt s < steps /\
               (forall j, w < j < m -> wetb j = false) }.

Lemma track_row_inv m s r :
  nth_error rows m = Some r -> tinv m s -> tinv (S m) (track_row thr steps s m r).
Proof.
  intros Hr [I1 I2 I3 I4 I5].
  assert (Hw : gtb (pd_max r) thr = wetb m) by (unfold wetb; rewrite Hr; reflexivity).
  unfold track_row. rewrite Hw. destruct (wetb m) eqn:W.
  - (* wet row *)
    set (cur0 := if tr_on s then tr_cur s else mkStorm m m (map (fun _ => Some 0%Qc) r)).
    set (cur1 := mkStorm (s_start cur0) m (zip_add (s_tot cur0) r)).
    cbn [tr_on tr_cnt tr_cur tr_done].
    assert (Hsp : spell (s_start cur0) m).
    { unfold cur0. destruct (tr_on s) eqn:On; simpl.
      - destruct (I5 eq_refl) as (w & (S1 & S2 & S3 & S4) & Hwm & He & Hc & Hcs & Hd).
        split; [lia|]. split; [exact S2|]. split; [exact W|]. intros i Hi.
        destruct (Nat.lt_ge_cases i w) as [Hiw|Hiw]; [apply S4; lia|].
        exists m. split; [lia|exact W].
      - split; [lia|]. split; [exact W|]. split; [exact W|]. intros i Hi; lia. }
    assert (Hord : forall x, In x (tr_done s) -> s_end x < s_start cur0).
    { intros x Hx. unfold cur0. destruct (tr_on s) eqn:On; simpl; [apply I4; auto|].
      destruct (I2 x Hx) as (w & _ & H1 & H2 & _). lia. }
    assert (Hcov : forall i, i < S m -> wetb i = true ->
       (exists x, In x (tr_done s) /\ s_start x <= i <= s_end x) \/ (s_start cur0 <= i <= m)).
    { intros i Hi Wi. destruct (Nat.eq_dec i m) as [->|Hne].
      - right. destruct Hsp; lia.
      - destruct (I3 i ltac:(lia) Wi) as [H|[On H]]; [left; exact H|]. right.
        unfold cur0. rewrite On. lia. }
    destruct (Nat.leb_spec steps 0) as [H0|H0]; cbn [andb].
    + (* steps = 0: closed at once *)
      assert (steps = 0) as Hs0 by lia. split; cbn [tr_on tr_cnt tr_cur tr_done].
      * rewrite map_app. apply fop_app; [exact I1|]. intros y Hy.
        apply in_map_iff in Hy. destruct Hy as (x & <- & Hx). simpl. apply Hord; exact Hx.
      * intros x Hx. apply in_app_or in Hx. destruct Hx as [Hx|[<-|[]]].
        -- destruct (I2 x Hx) as (w & H1 & H2 & H3 & H4). exists w. repeat split; auto; try lia; apply H1.
        -- exists m. simpl. split; [exact Hsp|]. split; [lia|]. split; [lia|]. intros j Hj; lia.
      * intros i Hi Wi. left. destruct (Hcov i Hi Wi) as [(x & Hx & Hr')|Hr'].
        -- exists x. split; [apply in_or_app; auto|exact Hr'].
        -- exists cur1. split; [apply in_or_app; right; left; reflexivity|exact Hr'].
      * discriminate.
      * discriminate.
    + split; cbn [tr_on tr_cnt tr_cur tr_done].
      * exact I1.
      * intros x Hx. destruct (I2 x Hx) as (w & H1 & H2 & H3 & H4). exists w. repeat split; auto; try lia; apply H1.
      * intros i Hi Wi. destruct (Hcov i Hi Wi) as [H|H]; [left; exact H|right; split; [reflexivity|exact H]].
      * intros x Hx _. apply Hord; exact Hx.
      * intros _. exists m. unfold cur1. cbn [s_start s_end]. split; [exact Hsp|].
        repeat split; try lia.
  - destruct (tr_on s) eqn:On; cbn [andb].
    + destruct (I5 eq_refl) as (w & Hsp & Hwm & He & Hc & Hcs & Hd).
      destruct (Nat.ltb_spec (tr_cnt s) steps) as [_|]; [|lia].
      set (cur1 := mkStorm (s_start (tr_cur s)) m (s_tot (tr_cur s))).
      cbn [tr_on tr_cnt tr_cur tr_done].
      assert (Hd' : forall j, w < j < S m -> wetb j = false).
      { intros j Hj. destruct (Nat.eq_dec j m) as [->|]; [exact W|apply Hd; lia]. }
      assert (Hcov : forall i, i < S m -> wetb i = true ->
         (exists x, In x (tr_done s) /\ s_start x <= i <= s_end x) \/ (s_start (tr_cur s) <= i <= m)).
      { intros i Hi Wi. assert (i <> m) by (intros ->; congruence).
        destruct (I3 i ltac:(lia) Wi) as [H'|[_ H']]; [left; exact H'|]. right. lia. }
      destruct (Nat.leb_spec steps (S (tr_cnt s))) as [H0|H0]; cbn [andb].
      * assert (Hm : m = w + steps) by lia.
        split; cbn [tr_on tr_cnt tr_cur tr_done].
        -- rewrite map_app. apply fop_app; [exact I1|]. intros y Hy.
           apply in_map_iff in Hy. destruct Hy as (x & <- & Hx). simpl. apply I4; auto.
        -- intros x Hx. apply in_app_or in Hx. destruct Hx as [Hx|[<-|[]]].
           ++ destruct (I2 x Hx) as (w' & H1 & H2 & H3 & H4). exists w'. repeat split; auto; try lia; apply H1.
           ++ exists w. simpl. split; [exact Hsp|]. split; [lia|]. split; [lia|]. intros j Hj; apply Hd'; lia.
        -- intros i Hi Wi. left. destruct (Hcov i Hi Wi) as [(x & Hx & Hr')|Hr'].
           ++ exists x. split; [apply in_or_app; auto|exact Hr'].
           ++ exists cur1. split; [apply in_or_app; right; left; reflexivity|exact Hr'].
        -- discriminate.
        -- discriminate.
      * split; cbn [tr_on tr_cnt tr_cur tr_done].
        -- exact I1.
        -- intros x Hx. destruct (I2 x Hx) as (w' & H1 & H2 & H3 & H4). exists w'. repeat split; auto; try lia; apply H1.
        -- intros i Hi Wi. destruct (Hcov i Hi Wi) as [H'|H']; [left; exact H'|right; split; [reflexivity|exact H']].
        -- intros x Hx _. apply I4; auto.
        -- intros _. exists w. unfold cur1. cbn [s_start s_end]. split; [exact Hsp|].
           repeat split; try lia. exact Hd'.
    + rewrite On. rewrite andb_false_r. split.
      * exact I1.
      * intros x Hx. destruct (I2 x Hx) as (w' & H1 & H2 & H3 & H4). exists w'. repeat split; auto; try lia; apply H1.
      * intros i Hi Wi. assert (i <> m) by (intros ->; congruence).
        destruct (I3 i ltac:(lia) Wi) as [H'|[H' _]]; [left; exact H'|discriminate].
      * intros x Hx H; congruence.
      * intros H; congruence.
Qed.

Lemma nth_error_skip (A : Type) (l : list A) pre x t : l = pre ++ x :: t -> nth_error l (length pre) = Some x.
Proof. intros ->. rewrite nth_error_app2 by lia. rewrite Nat.sub_diag. reflexivity. Qed.

Lemma track_rows_inv t pre s :
  rows = pre ++ t -> tinv (length pre) s -> tinv (length rows) (track_rows thr steps s (length pre) t).
Proof.
  revert pre s; induction t as [|r t IH]; intros pre s E H; simpl.
  - rewrite app_nil_r in E. subst pre. exact H.
  - replace (S (length pre)) with (length (pre ++ [r])) by (rewrite app_length; simpl; lia).
    apply IH; [rewrite <- app_assoc; exact E|].
    rewrite app_length; simpl. rewrite Nat.add_1_r. apply track_row_inv; [|exact H].
    eapply nth_error_skip; eauto.
Qed.

Lemma tinv0 : tinv 0 (mkTr false 0 (mkStorm 0 0 []) []).
Proof. split; simpl; try discriminate; try contradiction; try lia. constructor. Qed.

Lemma wetb_lt i : wetb i = true -> i < length rows.
Proof.
  unfold wetb. destruct (nth_error rows i) eqn:E; [|discriminate]. intros _.
  apply nth_error_Some. congruence.
Qed.

Lemma station_spec :
  is_storms (length rows) (wet_station thr rows)
    (station_storm (length rows) steps (wet_station thr rows))
    (map span (tracking_by_station thr steps rows)).
Proof.
  pose proof (track_rows_inv rows [] _ eq_refl tinv0) as H. cbn [length] in H.
  unfold tracking_by_station. set (s := track_rows _ _ _ _ _) in *.
  destruct H as [I1 I2 I3 I4 I5].
  assert (Hspell : forall a w, spell a w -> a <= w < length rows /\ wet_station thr rows a /\ wet_station thr rows w /\
     (forall i, a <= i < w -> exists j, i < j <= i + steps /\ wet_station thr rows j)).
  { intros a w (S1 & S2 & S3 & S4). split; [split; [exact S1|apply wetb_lt; exact S3]|].
    split; [apply wetb_wet; exact S2|]. split; [apply wetb_wet; exact S3|].
    intros i Hi. destruct (S4 i Hi) as (j & Hj & Wj). exists j. split; [exact Hj|apply wetb_wet; exact Wj]. }
  assert (Hdone : forall x, In x (tr_done s) ->
     station_storm (length rows) steps (wet_station thr rows) (s_start x) (s_end x)).
  { intros x Hx. destruct (I2 x Hx) as (w & Hsp & Hm & He & Hd). exists w.
    destruct (Hspell _ _ Hsp) as (A1 & A2 & A3 & A4). split.
    - split; [exact A1|]. split; [exact A2|]. split; [exact A3|]. split; [exact A4|].
      intros j Hj Wj. apply wetb_wet in Wj. rewrite (Hd j Hj) in Wj. discriminate.
    - rewrite He. lia. }
  destruct (tr_on s) eqn:On.
  - destruct (I5 eq_refl) as (w & Hsp & Hwm & He & Hc & Hcs & Hd).
    destruct (Hspell _ _ Hsp) as (A1 & A2 & A3 & A4).
    split; [|split].
    + rewrite map_app. apply fop_app; [exact I1|]. intros y Hy.
      apply in_map_iff in Hy. destruct Hy as (x & <- & Hx). simpl. apply I4; auto.
    + intros y Hy. apply in_map_iff in Hy. destruct Hy as (x & <- & Hx). simpl.
      apply in_app_or in Hx. destruct Hx as [Hx|[<-|[]]]; [apply Hdone; exact Hx|].
      exists w. split.
      * split; [exact A1|]. split; [exact A2|]. split; [exact A3|]. split; [exact A4|].
        intros j Hj Wj. apply wetb_wet in Wj. pose proof (wetb_lt _ Wj).
        rewrite (Hd j ltac:(lia)) in Wj. discriminate.
      * lia.
    + intros i Hi Wi. apply wetb_wet in Wi. destruct (I3 i Hi Wi) as [(x & Hx & Hr)|[_ Hr]].
      * exists (span x). split; [apply in_map, in_or_app; auto|exact Hr].
      * exists (span (tr_cur s)). split; [apply in_map, in_or_app; right; left; reflexivity|exact Hr].
  - split; [exact I1|split].
    + intros y Hy. apply in_map_iff in Hy. destruct Hy as (x & <- & Hx). apply Hdone; exact Hx.
    + intros i Hi Wi. apply wetb_wet in Wi. destruct (I3 i Hi Wi) as [(x & Hx & Hr)|[H _]]; [|discriminate].
      exists (span x). split; [apply in_map; exact Hx|exact Hr].
Qed.

(** ** Totals *)
Variable width : nat.
Hypothesis Hwidth : Forall (fun r => length r = width) rows.

(** sum over the first [m] rows only *)
Definition ktot (m a b c : nat) : num := sum_rows (keep a b) c 0 (firstn m rows).

Lemma sum_rows_app kp c t1 t2 i :
  sum_rows kp c i (t1 ++ t2) = nadd (sum_rows kp c i t1) (sum_rows kp c (length t1 + i) t2).
Proof.
  revert i; induction t1 as [|r t1 IH]; intros i; cbn [app sum_rows length].
  - destruct (sum_rows kp c (0 + i) t2) eqn:E; simpl in *; rewrite E; [|reflexivity].
    simpl. f_equal. ring.
  - rewrite IH. replace (length t1 + S i) with (S (length t1) + i) by lia.
    destruct (kp i); [|reflexivity].
    destruct (nth c r None), (sum_rows kp c (S i) t1), (sum_rows kp c (S (length t1) + i) t2); simpl; try reflexivity.
    f_equal. ring.
Qed.

Lemma sum_rows_ext kp kp' c t i :
  (forall j, i <= j < i + length t -> kp j = kp' j) -> sum_rows kp c i t = sum_rows kp' c i t.
Proof.
  revert i; induction t as [|r t IH]; intros i H; simpl; [reflexivity|].
  rewrite (H i) by (simpl; lia). rewrite (IH (S i)); [reflexivity|].
  intros j Hj. apply H. simpl. lia.
Qed.

Lemma sum_rows_none kp c t i :
  (forall j, i <= j < i + length t -> kp j = false) -> sum_rows kp c i t = Some 0%Qc.
Proof.
  revert i; induction t as [|r t IH]; intros i H; simpl; [reflexivity|].
  rewrite (H i) by (simpl; lia). apply IH. intros j Hj. apply H. simpl. lia.
Qed.

Lemma ktot_S m r a b c :
  nth_error rows m = Some r -> keep a b m = true ->
  ktot (S m) a b c = nadd (ktot m a b c) (nth c r None).
Proof.
  intros Hr Hk. unfold ktot.
  assert (E : firstn (S m) rows = firstn m rows ++ [r]).
  { clear -Hr. revert m Hr; generalize rows. induction rows0 as [|x l IH]; intros [|m] H; simpl in *; try discriminate.
    - congruence.
    - f_equal. apply IH; exact H. }
  assert (Hl : length (firstn m rows) = m).
  { apply firstn_length_le. apply Nat.lt_le_incl, nth_error_Some. congruence. }
  rewrite E, sum_rows_app, Hl, Nat.add_0_r. simpl. rewrite Hk.
  destruct (nth c r None); simpl; [|reflexivity].
  destruct (sum_rows (keep a b) c 0 (firstn m rows)); simpl; [|reflexivity]. f_equal. ring.
Qed.

Lemma ktot_S_skip m a b c : keep a b m = false -> ktot (S m) a b c = ktot m a b c.
Proof.
  intros Hk. unfold ktot. destruct (nth_error rows m) as [r|] eqn:Hr.
  - assert (E : firstn (S m) rows = firstn m rows ++ [r]).
    { clear -Hr. revert m Hr; generalize rows. induction rows0 as [|x l IH]; intros [|m] H; simpl in *; try discriminate.
      - congruence.
      - f_equal. apply IH; exact H. }
    assert (Hl : length (firstn m rows) = m).
    { apply firstn_length_le. apply Nat.lt_le_incl, nth_error_Some. congruence. }
    rewrite E, sum_rows_app, Hl, Nat.add_0_r. simpl. rewrite Hk.
    destruct (sum_rows (keep a b) c 0 (firstn m rows)); simpl; [|reflexivity]. f_equal. ring.
  - apply nth_error_None in Hr. rewrite !firstn_all2 by lia. reflexivity.
Qed.

Lemma ktot_ext m a b b' c : (forall j, j < m -> keep a b j = keep a b' j) -> ktot m a b c = ktot m a b' c.
Proof.
  intros H. unfold ktot. apply sum_rows_ext. intros j Hj. apply H.
  rewrite firstn_length in Hj. lia.
Qed.

Record totinv (m : nat) (s : tracker) : Prop := {
  to_done : forall x, In x (tr_done s) -> s_end x < m /\ length (s_tot x) = width /\
     forall c, c < width -> nth c (s_tot x) None = ktot m (s_start x) (s_end x) c;
  to_cur : tr_on s = true -> length (s_tot (tr_cur s)) = width /\
     s_end (tr_cur s) = m - 1 /\ 0 < m /\ s_start (tr_cur s) < m /\
     forall c, c < width -> nth c (s_tot (tr_cur s)) None = ktot m (s_start (tr_cur s)) (m - 1) c }.

Lemma zip_add_nth a b c : length a = length b -> c < length a ->
  nth c (zip_add a b) None = nadd (nth c a None) (nth c b None).
Proof.
  unfold zip_add. revert b c; induction a as [|x a IH]; intros [|y b] c Hl Hc; simpl in *; try lia.
  destruct c; [reflexivity|]. apply IH; lia.
Qed.
Lemma zip_add_length a b : length a = length b -> length (zip_add a b) = length a.
Proof. intros H. unfold zip_add. rewrite map_length, combine_length. lia. Qed.

Lemma keep_out a b j : b < j -> keep a b j = false.
Proof. intros H. unfold keep. destruct (Nat.leb_spec j b); [lia|]. rewrite andb_false_r. reflexivity. Qed.

Lemma keep_true a b j : a <= j -> j <= b -> wetb j = true -> keep a b j = true.
Proof.
  intros H1 H2 H3. unfold keep. rewrite H3.
  destruct (Nat.leb_spec a j), (Nat.leb_spec j b); try lia; reflexivity.
Qed.

Lemma track_row_tot m s r :
  nth_error rows m = Some r -> tinv m s -> totinv m s -> totinv (S m) (track_row thr steps s m r).
Proof.
  intros Hr HI [T1 T2].
  assert (Hlen : length r = width).
  { rewrite Forall_forall in Hwidth. apply Hwidth. eapply nth_error_In; eauto. }
  assert (T1' : forall x, In x (tr_done s) -> s_end x < S m /\ length (s_tot x) = width /\
     forall c, c < width -> nth c (s_tot x) None = ktot (S m) (s_start x) (s_end x) c).
  { intros x Hx. destruct (T1 x Hx) as (A1 & A2 & A3). split; [lia|]. split; [exact A2|].
    intros c Hc. rewrite A3 by exact Hc. symmetry. apply ktot_S_skip. apply keep_out; lia. }
  assert (Hw : gtb (pd_max r) thr = wetb m) by (unfold wetb; rewrite Hr; reflexivity).
  assert (Fin : forall cnt cur d on,
     (forall x, In x d -> s_end x < S m /\ length (s_tot x) = width /\
        forall c, c < width -> nth c (s_tot x) None = ktot (S m) (s_start x) (s_end x) c) ->
     (on = true -> length (s_tot cur) = width /\ s_end cur = m /\ s_start cur < S m /\
        forall c, c < width -> nth c (s_tot cur) None = ktot (S m) (s_start cur) m c) ->
     totinv (S m) (let s1 := mkTr on cnt cur d in
       if (steps <=? tr_cnt s1)%nat && tr_on s1 then
         mkTr false (tr_cnt s1) (tr_cur s1) (tr_done s1 ++ [tr_cur s1]) else s1)).
  { intros cnt cur d on Hd Hon. simpl. destruct on; [|rewrite andb_false_r; split; simpl; auto; discriminate].
    destruct (Hon eq_refl) as (B1 & B2 & B3 & B4).
    destruct (_ && _).
    - split; simpl; [|discriminate]. intros x Hx. apply in_app_or in Hx. destruct Hx as [Hx|[<-|[]]]; [auto|].
      split; [lia|]. split; [exact B1|]. intros c Hc. rewrite B2. auto.
    - split; simpl; [auto|]. intros _. rewrite Nat.sub_0_r. repeat split; auto; lia. }
  unfold track_row. rewrite Hw. destruct (wetb m) eqn:W.
  - apply Fin; [exact T1'|]. intros _. cbn [s_tot s_start s_end].
    destruct (tr_on s) eqn:On.
    + destruct (T2 eq_refl) as (B1 & B2 & B3 & B4 & B5).
      assert (El : length (s_tot (tr_cur s)) = length r) by congruence.
      split; [rewrite zip_add_length by lia; lia|]. split; [reflexivity|]. split; [lia|].
      intros c Hc. rewrite zip_add_nth by lia. rewrite B5 by exact Hc.
      rewrite (ktot_S m r) by (auto; apply keep_true; auto; lia).
      f_equal. apply ktot_ext. intros j Hj. unfold keep.
      destruct (Nat.leb_spec j (m - 1)), (Nat.leb_spec j m); try lia; reflexivity.
    + cbn [s_tot s_start].
      match goal with |- context [zip_add ?z r] => set (zz := z) end.
      assert (El : length zz = length r) by apply map_length.
      assert (El2 : length (zip_add zz r) = width) by (rewrite zip_add_length; [exact (eq_trans El Hlen)|exact El]).
      split; [exact El2|]. split; [reflexivity|]. split; [lia|].
      intros c Hc. assert (Hcz : c < length zz) by (rewrite (eq_trans El Hlen); exact Hc).
      rewrite (zip_add_nth zz r c El Hcz).
      rewrite (ktot_S m r) by (auto; apply keep_true; auto).
      f_equal.
      assert (Ez : nth c zz None = Some 0%Qc).
      { rewrite (nth_indep zz None (Some 0%Qc) Hcz). apply (map_nth (fun _ : num => Some 0%Qc) r None). }
      etransitivity; [exact Ez|].
      unfold ktot. symmetry. apply sum_rows_none. intros j Hj. rewrite firstn_length in Hj. unfold keep.
      destruct (Nat.leb_spec m j); [lia|reflexivity].
  - assert (Hk : forall a b, keep a b m = false) by (intros a b; unfold keep; rewrite W, andb_false_r; reflexivity).
    destruct (tr_on s) eqn:On; cbn [andb].
    + destruct (T2 eq_refl) as (B1 & B2 & B3 & B4 & B5).
      destruct (ti_cur _ _ HI On) as (_ & _ & _ & _ & _ & Hcs & _).
      destruct (Nat.ltb_spec (tr_cnt s) steps) as [_|]; [|lia].
      apply Fin; [exact T1'|]. intros _. cbn [s_tot s_start s_end]. split; [exact B1|].
        split; [reflexivity|]. split; [lia|]. intros c Hc. rewrite B5 by exact Hc.
        rewrite ktot_S_skip by apply Hk. apply ktot_ext. intros j Hj. unfold keep.
        destruct (Nat.leb_spec j (m - 1)), (Nat.leb_spec j m); try lia; reflexivity.
    + rewrite On, andb_false_r. split; [exact T1'|]. intros H; congruence.
Qed.

Lemma track_rows_tot t pre s :
  rows = pre ++ t -> tinv (length pre) s -> totinv (length pre) s ->
  totinv (length rows) (track_rows thr steps s (length pre) t).
Proof.
  revert pre s; induction t as [|r t IH]; intros pre s E HI H; simpl.
  - rewrite app_nil_r in E. subst pre. exact H.
  - assert (Hr : nth_error rows (length pre) = Some r) by (eapply nth_error_skip; eauto).
    replace (S (length pre)) with (length (pre ++ [r])) by (rewrite app_length; simpl; lia).
    apply IH; [rewrite <- app_assoc; exact E| |];
      rewrite app_length; simpl; rewrite Nat.add_1_r.
    + apply track_row_inv; auto.
    + apply track_row_tot; auto.
Qed.

Lemma station_totals x c :
  In x (tracking_by_station thr steps rows) -> c < width ->
  nth c (s_tot x) None = totals (s_start x) (s_end x) c.
Proof.
  assert (T0 : totinv 0 (mkTr false 0 (mkStorm 0 0 []) [])) by (split; simpl; [contradiction|discriminate]).
  pose proof (track_rows_tot rows [] _ eq_refl tinv0 T0) as H. cbn [length] in H.
  pose proof (track_rows_inv rows [] _ eq_refl tinv0) as HI. cbn [length] in HI.
  unfold tracking_by_station. set (s := track_rows _ _ _ _ _) in *.
  assert (Ek : forall a b, ktot (length rows) a b c = totals a b c).
  { intros a b. unfold ktot, totals. rewrite firstn_all. reflexivity. }
  destruct H as [T1 T2]. intros Hx Hc. destruct (tr_on s) eqn:On.
  - apply in_app_or in Hx. destruct Hx as [Hx|[<-|[]]].
    + destruct (T1 x Hx) as (_ & _ & H). rewrite H by exact Hc. apply Ek.
    + destruct (T2 eq_refl) as (_ & He & _ & _ & H). rewrite H by exact Hc. rewrite He. apply Ek.
  - destruct (T1 x Hx) as (_ & _ & H). rewrite H by exact Hc. apply Ek.
Qed.

Lemma station_totals_spec x c (kp : nat -> bool) :
  In x (tracking_by_station thr steps rows) -> c < width ->
  (forall i, kp i = true <-> s_start x <= i <= s_end x /\ wet_station thr rows i) ->
  nth c (s_tot x) None = sum_rows kp c 0 rows.
Proof.
  intros Hx Hc Hk. rewrite station_totals by assumption. unfold totals. apply sum_rows_ext.
  intros j _. apply eq_true_iff_eq. rewrite Hk. unfold keep. rewrite !andb_true_iff, !Nat.leb_le, wetb_wet. tauto.
Qed.
End Station.

(** ** Basin tracker *)
Section Basin.
Variables (thr : Qc) (steps : nat).
Variable grids : list (list num).
Hypothesis Hne : Forall (fun g => g <> []) grids.

Definition bwet (i : nat) : bool :=
  match nth_error grids i with Some g => gtb (np_max g) thr | None => false end.
Lemma bwet_wet i : bwet i = true <-> wet_basin thr grids i.
Proof.
  unfold bwet, wet_basin. destruct (nth_error grids i) as [g|] eqn:E.
  - rewrite gtb_np_max.
    + split.
      * intros (H1 & v & H2 & H3). exists g, v. auto.
      * intros (g' & v & [= <-] & H1 & H2 & H3). eauto.
    + rewrite Forall_forall in Hne. apply Hne. eapply nth_error_In; eauto.
  - split; [discriminate|]. intros (g & v & H & _). discriminate.
Qed.

Definition bspell (a w : nat) : Prop :=
  a <= w /\ bwet a = true /\ bwet w = true /\
  (forall i, a <= i < w -> exists j, i < j <= i + steps /\ bwet j = true).

Record binv (m : nat) (b : basin) : Prop := {
  bi_ord : ForallOrdPairs (fun s t => snd s + steps < fst t) (b_list b);
  bi_all : forall s, In s (b_list b) -> bspell (fst s) (snd s) /\ snd s < m /\
             forall j, snd s < j <= snd s + steps -> j < m -> bwet j = false;
  bi_cov : forall i, i < m -> bwet i = true -> exists s, In s (b_list b) /\ fst s <= i <= snd s;
  bi_on : b_on b = true -> exists l a w, b_list b = l ++ [(a, w)] /\ b_cnt b = m - 1 - w /\ b_cnt b < steps;
  bi_off : b_on b = false -> forall s, In s (b_list b) -> snd s + steps < m }.

Lemma set_last_end_app l a w t : set_last_end (l ++ [(a, w)]) t = l ++ [(a, t)].
Proof.
  induction l as [|x l IH]; [reflexivity|]. cbn [app]. destruct x as [x1 x2].
  destruct l as [|y l]; [reflexivity|]. cbn [app] in *. change (set_last_end ((x1, x2) :: y :: l ++ [(a, w)]) t)
    with ((x1, x2) :: set_last_end (y :: l ++ [(a, w)]) t). rewrite IH. reflexivity.
Qed.

Lemma fop_inv (A : Type) (R : A -> A -> Prop) l x :
  ForallOrdPairs R (l ++ [x]) -> ForallOrdPairs R l /\ forall y, In y l -> R y x.
Proof.
  induction l as [|a l IH]; simpl; intros H.
  - split; [constructor|contradiction].
  - inversion H as [|? ? H1 H2]; subst. apply Forall_app in H1. destruct H1 as [H1 H3].
    destruct (IH H2) as [I1 I2]. split; [constructor; assumption|].
    intros y [<-|Hy]; [inversion H3; assumption|auto].
Qed.

Lemma basin_step_inv m b g :
  nth_error grids m = Some g -> binv m b -> binv (S m) (tracking_by_basin thr steps b m g).
Proof.
  intros Hg [I1 I2 I3 I4 I5].
  assert (Hw : gtb (np_max g) thr = bwet m) by (unfold bwet; rewrite Hg; reflexivity).
  (* closing step *)
  assert (Fin : forall b1, ForallOrdPairs (fun s t => snd s + steps < fst t) (b_list b1) ->
     (forall s, In s (b_list b1) -> bspell (fst s) (snd s) /\ snd s < S m /\
             forall j, snd s < j <= snd s + steps -> j < S m -> bwet j = false) ->
     (forall i, i < S m -> bwet i = true -> exists s, In s (b_list b1) /\ fst s <= i <= snd s) ->
     (b_on b1 = true -> exists l a w, b_list b1 = l ++ [(a, w)] /\ b_cnt b1 = m - w /\ w <= m) ->
     (b_on b1 = false -> forall s, In s (b_list b1) -> snd s + steps < S m) ->
     binv (S m) (if (steps <=? b_cnt b1)%nat then mkB (b_list b1) (b_cnt b1) false else b1)).
  { intros b1 F1 F2 F3 F4 F5. destruct (Nat.leb_spec steps (b_cnt b1)) as [Hc|Hc].
    - split; cbn [b_list b_cnt b_on]; auto; [discriminate|].
      intros _ s Hs. destruct (b_on b1) eqn:On; [|auto].
      destruct (F4 eq_refl) as (l & a & w & El & Ecnt & Hwm). rewrite El in *.
      apply fop_inv in F1. destruct F1 as [F1 F1']. apply in_app_or in Hs. destruct Hs as [Hs|[<-|[]]].
      + specialize (F1' s Hs). destruct (F2 (a, w)) as [(Haw & _) _]; [apply in_or_app; right; left; reflexivity|].
        simpl in *. lia.
      + simpl. lia.
    - split; auto. intros On. destruct (F4 On) as (l & a & w & El & Ecnt & Hwm).
      exists l, a, w. split; [exact El|]. split; [lia|exact Hc]. }
  unfold tracking_by_basin. rewrite Hw. destruct (bwet m) eqn:W.
  - destruct (b_on b) eqn:On.
    + destruct (I4 eq_refl) as (l & a & w & El & Ecnt & Hcs).
      assert (Hlen : (length (b_list b) =? 0)%nat = false).
      { rewrite El, app_length. simpl. apply Nat.eqb_neq. lia. }
      rewrite Hlen. cbn [orb negb]. rewrite El, set_last_end_app.
      rewrite El in *. apply fop_inv in I1. destruct I1 as [I1 I1'].
      destruct (I2 (a, w)) as (Hsp & Hwm & Hdry); [apply in_or_app; right; left; reflexivity|].
      cbn [fst snd] in *. destruct Hsp as (S1 & S2 & S3 & S4).
      apply Fin; cbn [b_list b_cnt b_on].
      * apply fop_app; [exact I1|]. intros y Hy. specialize (I1' y Hy). simpl in *. exact I1'.
      * intros s Hs. apply in_app_or in Hs. destruct Hs as [Hs|[<-|[]]].
        -- destruct (I2 s (in_or_app _ _ _ (or_introl Hs))) as (A1 & A2 & A3).
           split; [exact A1|]. split; [lia|]. intros j Hj Hjm. apply A3; [exact Hj|].
           specialize (I1' s Hs). simpl in I1'. lia.
        -- cbn [fst snd]. split; [|split; [lia|intros j Hj; lia]].
           split; [lia|]. split; [exact S2|]. split; [exact W|]. intros i Hi.
           destruct (Nat.lt_ge_cases i w); [apply S4; lia|]. exists m. split; [lia|exact W].
      * intros i Hi Wi. destruct (Nat.eq_dec i m) as [->|].
        -- exists (a, m). split; [apply in_or_app; right; left; reflexivity|simpl; lia].
        -- destruct (I3 i ltac:(lia) Wi) as (s & Hs & Hr). apply in_app_or in Hs. destruct Hs as [Hs|[<-|[]]].
           ++ exists s. split; [apply in_or_app; auto|exact Hr].
           ++ exists (a, m). split; [apply in_or_app; right; left; reflexivity|simpl in *; lia].
      * intros _. exists l, a, m. split; [reflexivity|]. lia.
      * congruence.
    + rewrite orb_true_r. cbn [b_list b_cnt b_on]. rewrite set_last_end_app.
      specialize (I5 eq_refl).
      apply (Fin (mkB (b_list b ++ [(m, m)]) 0 true)); cbn [b_list b_cnt b_on].
      * apply fop_app; [exact I1|]. intros y Hy. simpl. apply I5; exact Hy.
      * intros s Hs. apply in_app_or in Hs. destruct Hs as [Hs|[<-|[]]].
        -- destruct (I2 s Hs) as (A1 & A2 & A3). specialize (I5 s Hs).
           split; [exact A1|]. split; [lia|]. intros j Hj Hjm. apply A3; lia.
        -- cbn [fst snd]. split; [|split; [lia|intros j Hj; lia]].
           split; [lia|]. split; [exact W|]. split; [exact W|]. intros i Hi; lia.
      * intros i Hi Wi. destruct (Nat.eq_dec i m) as [->|].
        -- exists (m, m). split; [apply in_or_app; right; left; reflexivity|simpl; lia].
        -- destruct (I3 i ltac:(lia) Wi) as (s & Hs & Hr). exists s. split; [apply in_or_app; auto|exact Hr].
      * intros _. exists (b_list b), m, m. split; [reflexivity|]. lia.
      * discriminate.
  - assert (I2' : forall s, In s (b_list b) -> bspell (fst s) (snd s) /\ snd s < S m /\
             forall j, snd s < j <= snd s + steps -> j < S m -> bwet j = false).
    { intros s Hs. destruct (I2 s Hs) as (A1 & A2 & A3). split; [exact A1|]. split; [lia|].
      intros j Hj Hjm. destruct (Nat.eq_dec j m) as [->|]; [exact W|apply A3; lia]. }
    assert (I3' : forall i, i < S m -> bwet i = true -> exists s, In s (b_list b) /\ fst s <= i <= snd s).
    { intros i Hi Wi. apply I3; [|exact Wi]. assert (i <> m) by (intros ->; congruence). lia. }
    destruct (b_on b) eqn:On; cbn [andb].
    + destruct (I4 eq_refl) as (l & a & w & El & Ecnt & Hcs).
      destruct (I2 (a, w)) as (_ & Hwm & _); [rewrite El; apply in_or_app; right; left; reflexivity|]. simpl in Hwm.
      destruct (Nat.ltb_spec (b_cnt b) steps) as [_|]; [|lia].
      apply Fin; cbn [b_list b_cnt b_on]; auto; [|congruence].
      intros _. exists l, a, w. split; [exact El|]. lia.
    + apply Fin; auto.
      * rewrite On; discriminate.
      * intros _ s Hs. specialize (I5 eq_refl s Hs). lia.
Qed.

Lemma basin_run_inv t pre b :
  grids = pre ++ t -> binv (length pre) b -> binv (length grids) (basin_run thr steps b (length pre) t).
Proof.
  revert pre b; induction t as [|r t IH]; intros pre b E H; simpl.
  - rewrite app_nil_r in E. subst pre. exact H.
  - replace (S (length pre)) with (length (pre ++ [r])) by (rewrite app_length; simpl; lia).
    apply IH; [rewrite <- app_assoc; exact E|].
    rewrite app_length; simpl. rewrite Nat.add_1_r. apply basin_step_inv; [|exact H].
    eapply nth_error_skip; eauto.
Qed.

Lemma binv0 : binv 0 basin0.
Proof. split; simpl; try discriminate; try contradiction; try lia. constructor. Qed.

Lemma bwet_lt i : bwet i = true -> i < length grids.
Proof.
  unfold bwet. destruct (nth_error grids i) eqn:E; [|discriminate]. intros _.
  apply nth_error_Some. congruence.
Qed.

Lemma basin_spec :
  let b := basin_run thr steps basin0 0 grids in
  is_storms (length grids) (wet_basin thr grids)
    (basin_storm (length grids) steps (wet_basin thr grids)) (b_list b) /\
  ForallOrdPairs (fun s t => snd s + steps < fst t) (b_list b) /\
  (b_on b = true <-> exists s, In s (b_list b) /\ length grids - 1 < snd s + steps).
Proof.
  intros b. pose proof (basin_run_inv grids [] _ eq_refl binv0) as H. cbn [length] in H. fold b in H.
  destruct H as [I1 I2 I3 I4 I5]. split; [|split].
  - split; [|split].
    + unfold in_order. clear -I1. induction I1 as [|a l H1 H2 IH]; constructor; [|exact IH].
      eapply Forall_impl; [|exact H1]. simpl. intros; lia.
    + intros s Hs. destruct (I2 s Hs) as ((S1 & S2 & S3 & S4) & A2 & A3).
      split; [lia|]. split; [apply bwet_wet; exact S2|]. split; [apply bwet_wet; exact S3|]. split.
      * intros i Hi. destruct (S4 i Hi) as (j & Hj & Wj). exists j. split; [exact Hj|apply bwet_wet; exact Wj].
      * intros j Hj Wj. apply bwet_wet in Wj. pose proof (bwet_lt _ Wj).
        rewrite (A3 j Hj) in Wj by assumption. discriminate.
    + intros i Hi Wi. apply bwet_wet in Wi. auto.
  - exact I1.
  - split.
    + intros On. destruct (I4 On) as (l & a & w & El & Ecnt & Hcs). exists (a, w).
      assert (Hin : In (a, w) (b_list b)) by (rewrite El; apply in_or_app; right; left; reflexivity).
      split; [exact Hin|]. destruct (I2 _ Hin) as (_ & Hwm & _). simpl in *. lia.
    + intros (s & Hs & Hr). destruct (b_on b) eqn:On; [reflexivity|].
      specialize (I5 eq_refl s Hs). lia.
Qed.
End Basin.

(** ** Clipping *)
Section Clip.
Local Open Scope Qc_scope.

Lemma overlay_length a b i o x : length o = length x -> length (overlay a b i o x) = length x.
Proof. revert i x; induction o as [|r o IH]; intros i [|y x] H; simpl in *; try lia. rewrite IH; lia. Qed.

Lemma overlay_nth a b i o x k :
  length o = length x -> (k < length x)%nat ->
  nth k (overlay a b i o x) [] =
  if (a <=? i + k)%nat && (i + k <=? b)%nat then nth k o [] else nth k x [].
Proof.
  revert i x k; induction o as [|r o IH]; intros i [|y x] k H Hk; simpl in *; try lia.
  destruct k; simpl.
  - rewrite Nat.add_0_r. reflexivity.
  - rewrite IH by lia. replace (S i + k)%nat with (i + S k)%nat by lia. reflexivity.
Qed.

Lemma clip_fold storms precip acc :
  length acc = length precip ->
  length (fold_left (fun acc s => overlay (fst s) (snd s) 0 precip acc) storms acc) = length precip /\
  forall k, (k < length precip)%nat ->
  nth k (fold_left (fun acc s => overlay (fst s) (snd s) 0 precip acc) storms acc) [] =
  if in_storms storms k then nth k precip [] else nth k acc [].
Proof.
  revert acc; induction storms as [|s storms IH]; intros acc H; simpl.
  - auto.
  - assert (H' : length (overlay (fst s) (snd s) 0 precip acc) = length precip)
      by (rewrite overlay_length; lia).
    destruct (IH _ H') as [I1 I2]. split; [exact I1|]. intros k Hk. rewrite I2 by exact Hk.
    rewrite overlay_nth by lia. simpl.
    destruct (in_storms storms k); [rewrite orb_true_r; reflexivity|]. rewrite orb_false_r. reflexivity.
Qed.

Lemma clip_length storms precip : length (clip storms precip) = length precip.
Proof. apply clip_fold. apply map_length. Qed.

Lemma clip_nth storms precip k : (k < length precip)%nat ->
  nth k (clip storms precip) [] =
  if in_storms storms k then nth k precip [] else map (fun _ => Some 0) (nth k precip []).
Proof.
  intros Hk. unfold clip.
  destruct (clip_fold storms precip (map (map (fun _ => Some 0)) precip) (map_length _ _)) as [_ H].
  etransitivity; [exact (H k Hk)|].
  destruct (in_storms storms k); [reflexivity|].
  apply (map_nth (map (fun _ : num => Some 0)) precip []).
Qed.

Lemma scale_row_nth f c r k : (k < length r)%nat ->
  nth k (scale_row f c r) None = nscale (nth k r None) (f (c + k)%nat).
Proof.
  revert c k; induction r as [|x r IH]; intros c k Hk; simpl in *; [lia|].
  destruct k; [rewrite Nat.add_0_r; reflexivity|]. rewrite IH by lia. f_equal. f_equal. lia.
Qed.
Lemma scale_row_length f c r : length (scale_row f c r) = length r.
Proof. revert c; induction r as [|x r IH]; intros c; simpl; [reflexivity|]. rewrite IH; reflexivity. Qed.

Variables (precip : list (list num)) (storms : list (nat * nat)) (stations : list nat) (width : nat).
Hypothesis Hw : Forall (fun r => length r = width) precip.

Lemma row_len k : (k < length precip)%nat -> length (nth k precip []) = width.
Proof. intros Hk. rewrite Forall_forall in Hw. apply Hw. apply nth_In; exact Hk. Qed.

Lemma clip_row_len k : (k < length precip)%nat -> length (nth k (clip storms precip) []) = width.
Proof.
  intros Hk. rewrite clip_nth by exact Hk. destruct (in_storms storms k).
  - apply row_len; exact Hk.
  - rewrite map_length. apply row_len; exact Hk.
Qed.

Notation out := (clip_and_correct precip storms stations).

Lemma out_length : length out = length precip.
Proof. unfold clip_and_correct. rewrite map_length. apply clip_length. Qed.

Lemma out_cell i c : (i < length precip)%nat -> (c < width)%nat ->
  cell out i c = nscale (if in_storms storms i then cell precip i c else Some 0)
                        (correction storms stations precip c).
Proof.
  intros Hi Hc. unfold cell, clip_and_correct.
  rewrite (nth_indep _ [] (scale_row (correction storms stations precip) 0 []))
    by (rewrite map_length, clip_length; exact Hi).
  rewrite map_nth, scale_row_nth by (rewrite clip_row_len; assumption).
  simpl. f_equal. rewrite clip_nth by exact Hi. destruct (in_storms storms i); [reflexivity|].
  rewrite (nth_indep _ None (Some 0)) by (rewrite map_length, row_len; assumption).
  apply (map_nth (fun _ : num => Some 0) (nth i precip []) None).
Qed.

Lemma colsum_scale f c t : Forall (fun r => (c < length r)%nat) t ->
  f c <> None ->
  colsum c (map (scale_row f 0) t) = colsum c t * match f c with Some x => x | None => 0 end.
Proof.
  intros H Hf. induction H as [|r t Hr Ht IH]; simpl; [ring|].
  rewrite IH. rewrite scale_row_nth by exact Hr. simpl.
  destruct (f c) as [x|]; [|congruence]. destruct (nth c r None); simpl; ring.
Qed.

Lemma out_sum c : (c < width)%nat -> correction storms stations precip c <> None ->
  colsum c out = colsum c (clip storms precip) *
                 match correction storms stations precip c with Some x => x | None => 0 end.
Proof.
  intros Hc Hn. unfold clip_and_correct. apply colsum_scale; [|exact Hn].
  rewrite Forall_forall. intros r Hr. apply In_nth with (d := []) in Hr.
  destruct Hr as (k & Hk & <-). rewrite clip_length in Hk. rewrite clip_row_len; assumption.
Qed.

Lemma correction_selected c : selected stations c ->
  correction storms stations precip c =
  Some (if Qceqb (colsum c precip) 0 then 1
        else if Qceqb (colsum c (clip storms precip)) 0 then 0
        else colsum c precip / colsum c (clip storms precip)).
Proof.
  intros H. unfold correction.
  assert (E : (length stations =? 0)%nat || existsb (Nat.eqb c) stations = true).
  { destruct H as [->|H]; [reflexivity|]. apply orb_true_iff. right.
    apply existsb_exists. exists c. split; [exact H|apply Nat.eqb_refl]. }
  rewrite E. reflexivity.
Qed.
Lemma correction_unselected c : ~ selected stations c -> correction storms stations precip c = None.
Proof.
  intros H. unfold correction.
  destruct ((length stations =? 0)%nat || existsb (Nat.eqb c) stations) eqn:E; [|reflexivity].
  exfalso. apply H. apply orb_true_iff in E. destruct E as [E|E].
  - left. apply Nat.eqb_eq in E. destruct stations; [reflexivity|discriminate].
  - right. apply existsb_exists in E. destruct E as (x & Hx & E). apply Nat.eqb_eq in E. subst; exact Hx.
Qed.

Lemma out_sum_selected c : (c < width)%nat -> selected stations c ->
  colsum c out =
  if Qceqb (colsum c precip) 0 then colsum c (clip storms precip) else
  if Qceqb (colsum c (clip storms precip)) 0 then 0 else colsum c precip.
Proof.
  intros Hc Hs. pose proof (correction_selected c Hs) as E.
  rewrite out_sum by (rewrite ?E; congruence). rewrite E.
  destruct (Qceqb_spec (colsum c precip) 0); [ring|].
  destruct (Qceqb_spec (colsum c (clip storms precip)) 0); [ring|]. field. assumption.
Qed.

(** non-negative data *)
Lemma Qc_add_nonneg x y : 0 <= x -> 0 <= y -> 0 <= x + y.
Proof. qclra. Qed.

Lemma colsum_nonneg c t : nonneg t -> 0 <= colsum c t.
Proof.
  induction t as [|r t IH]; intros H; simpl; [apply Qcle_refl|].
  apply Qc_add_nonneg.
  - destruct (nth c r None) as [v|] eqn:E; [|apply Qcle_refl].
    apply (H r v); [left; reflexivity|]. destruct (Nat.lt_ge_cases c (length r)).
    + rewrite <- E. apply nth_In; assumption.
    + rewrite nth_overflow in E by assumption. discriminate.
  - apply IH. intros r' v Hr. apply H. right; exact Hr.
Qed.

Lemma colsum_ext_le c t t' :
  length t = length t' ->
  (forall k, (k < length t)%nat ->
     (match cell t k c with Some v => v | None => 0 end) <= (match cell t' k c with Some v => v | None => 0 end)) ->
  colsum c t <= colsum c t'.
Proof.
  unfold cell. revert t'; induction t as [|r t IH]; intros [|r' t'] Hl H; simpl in *; try lia; [apply Qcle_refl|].
  assert (H1 := H 0%nat ltac:(lia)). simpl in H1.
  assert (H2 : colsum c t <= colsum c t').
  { apply IH; [lia|]. intros k Hk. apply (H (S k)). lia. }
  revert H1 H2. qclra.
Qed.

Lemma clip_sum_le c : nonneg precip -> (c < width)%nat -> colsum c (clip storms precip) <= colsum c precip.
Proof.
  intros Hn Hc. apply colsum_ext_le; [apply clip_length|]. intros k Hk. rewrite clip_length in Hk.
  unfold cell. rewrite clip_nth by exact Hk. destruct (in_storms storms k); [apply Qcle_refl|].
  assert (E : nth c (map (fun _ : num => Some 0) (nth k precip [])) None = Some 0).
  { rewrite (nth_indep _ None (Some 0)) by (rewrite map_length, row_len; assumption).
    apply (map_nth (fun _ : num => Some 0) (nth k precip []) None). }
  match goal with |- match ?e with _ => _ end <= _ => replace e with (Some 0) by (symmetry; exact E) end.
  destruct (nth c (nth k precip []) None) as [v|] eqn:E2; [|apply Qcle_refl].
  apply (Hn (nth k precip []) v); [apply nth_In; exact Hk|]. rewrite <- E2. apply nth_In.
  rewrite row_len; assumption.
Qed.

Lemma colsum_total c t i : colsum c t = total (fun _ => true) c i t.
Proof. revert i; induction t as [|r t IH]; intros i; simpl; [reflexivity|]. rewrite <- IH. reflexivity. Qed.

Lemma total_skip (t' : list (list num)) : forall (pre : list (list num)) cl c (kp : nat -> bool),
  length cl = length t' ->
  (forall k, (k < length t')%nat -> match cell cl k c with Some v => v | None => 0 end =
     if kp (length pre + k)%nat then match cell t' k c with Some v => v | None => 0 end else 0) ->
  colsum c cl = total kp c (length pre) t'.
Proof.
  unfold cell.
  induction t' as [|r t IH]; intros pre [|x cl] c kp Hl H; simpl in Hl; try discriminate; [reflexivity|].
  simpl. assert (H0 := H 0%nat ltac:(simpl; lia)). simpl in H0. rewrite Nat.add_0_r in H0. rewrite H0.
  f_equal. change (S (length pre)) with (length (r :: pre)). apply IH; [lia|].
  intros k Hk. specialize (H (S k) ltac:(simpl; lia)). simpl in H.
  rewrite H. replace (length pre + S k)%nat with (length (r :: pre) + k)%nat by (simpl; lia). reflexivity.
Qed.

Lemma clip_total c : (c < width)%nat -> colsum c (clip storms precip) = total (in_storms storms) c 0 precip.
Proof.
  intros Hc. apply (total_skip precip []); [apply clip_length|]. intros k Hk. simpl length. simpl plus.
  unfold cell. rewrite clip_nth by exact Hk. destruct (in_storms storms k); [reflexivity|].
  assert (E : nth c (map (fun _ : num => Some 0) (nth k precip [])) None = Some 0).
  { rewrite (nth_indep _ None (Some 0)) by (rewrite map_length, row_len; assumption).
    apply (map_nth (fun _ : num => Some 0) (nth k precip []) None). }
  match goal with |- match ?e with _ => _ end = _ => replace e with (Some 0) by (symmetry; exact E) end.
  reflexivity.
Qed.

Lemma clip_spec c : (c < width)%nat -> selected stations c ->
  let orig := total (fun _ => true) c 0 precip in
  let inside := total (in_storms storms) c 0 precip in
  exists f : Qc,
    (forall i, (i < length precip)%nat ->
       cell out i c = if in_storms storms i then option_map (fun v => v * f) (cell precip i c) else Some 0) /\
    (orig = 0 -> f = 1) /\
    (orig <> 0 -> inside = 0 -> f = 0) /\
    (orig <> 0 -> inside <> 0 -> f = orig / inside /\ total (fun _ => true) c 0 out = orig).
Proof.
  intros Hc Hs orig inside.
  pose proof (correction_selected c Hs) as E. rewrite clip_total, (colsum_total c precip 0) in E by exact Hc.
  fold orig inside in E.
  exists (if Qceqb orig 0 then 1 else if Qceqb inside 0 then 0 else orig / inside).
  split; [|split; [|split]].
  - intros i Hi. rewrite out_cell by assumption. rewrite E.
    destruct (in_storms storms i); [destruct (cell precip i c); reflexivity|].
    simpl. f_equal. ring.
  - intros ->. destruct (Qceqb_spec 0 0); congruence.
  - intros H1 H2. destruct (Qceqb_spec orig 0); [contradiction|].
    destruct (Qceqb_spec inside 0); congruence.
  - intros H1 H2. destruct (Qceqb_spec orig 0); [contradiction|].
    destruct (Qceqb_spec inside 0); [contradiction|]. split; [reflexivity|].
    rewrite <- colsum_total, out_sum_selected by assumption.
    rewrite clip_total, (colsum_total c precip 0) by exact Hc. fold orig inside.
    destruct (Qceqb_spec orig 0); [contradiction|]. destruct (Qceqb_spec inside 0); [contradiction|].
    reflexivity.
Qed.

Lemma clip_missing c i : (c < width)%nat -> ~ selected stations c -> (i < length precip)%nat ->
  cell out i c = None.
Proof.
  intros Hc Hs Hi. rewrite out_cell, correction_unselected by assumption.
  destruct (in_storms storms i); [destruct (cell precip i c)|]; reflexivity.
Qed.

Lemma clip_mass c : (c < width)%nat -> selected stations c -> nonneg precip ->
  let orig := total (fun _ => true) c 0 precip in
  let inside := total (in_storms storms) c 0 precip in
  total (fun _ => true) c 0 out = if Qceqb inside 0 then 0 else orig.
Proof.
  intros Hc Hs Hn orig inside.
  rewrite <- colsum_total, out_sum_selected by assumption.
  rewrite clip_total, (colsum_total c precip 0) by exact Hc. fold orig inside.
  assert (H1 : inside <= orig).
  { unfold inside, orig. rewrite <- clip_total, <- colsum_total by exact Hc. apply clip_sum_le; assumption. }
  assert (H2 : 0 <= inside).
  { unfold inside. rewrite <- clip_total by exact Hc.
    assert (E : colsum c (clip storms precip) = total (in_storms storms) c 0 precip) by (apply clip_total; exact Hc).
    rewrite E. clear -Hn. revert Hn. generalize 0%nat.
    induction precip as [|r t IH]; intros n Hn; simpl; [apply Qcle_refl|].
    apply Qc_add_nonneg.
    - destruct (in_storms storms n); [|apply Qcle_refl].
      destruct (nth c r None) as [v|] eqn:E; [|apply Qcle_refl].
      apply (Hn r v); [left; reflexivity|]. destruct (Nat.lt_ge_cases c (length r)).
      + rewrite <- E. apply nth_In; assumption.
      + rewrite nth_overflow in E by assumption. discriminate.
    - apply IH. intros r' v Hr. apply Hn. right; exact Hr. }
  destruct (Qceqb_spec orig 0) as [Z|Z], (Qceqb_spec inside 0) as [Z'|Z']; try reflexivity; try exact Z'.
  exfalso. apply Z'. rewrite Z in H1. apply Qcle_antisym; assumption.
Qed.

Lemma out_shape i : (i < length precip)%nat -> length (nth i out []) = width.
Proof.
  intros Hi. unfold clip_and_correct.
  rewrite (nth_indep _ [] (scale_row (correction storms stations precip) 0 []))
    by (rewrite map_length, clip_length; exact Hi).
  rewrite map_nth, scale_row_length. apply clip_row_len; exact Hi.
Qed.
End Clip.

(** ** time since storm *)
Section Since.
Local Open Scope Qc_scope.

Lemma nth_map_in (A B : Type) (f : A -> B) l k da db :
  (k < length l)%nat -> nth k (map f l) db = f (nth k l da).
Proof.
  intros H. rewrite (nth_indep _ db (f da)) by (rewrite map_length; exact H). apply map_nth.
Qed.

Lemma tss_nth ts mass time thr g k d dx :
  (k < length g)%nat ->
  nth k (time_since_storm ts mass time thr g) d =
  let x := nth k g dx in
  if Qceqb (qsum (map t_ps g)) 0 then (t_days x + 1, 0)
  else let sp := if Qcleb thr (t_ps x) then t_p x
                 else if Qcleb time (t_days x + 1) then 0 else t_sp x in
       (if Qcleb mass sp then 0 else t_days x + 1, sp).
Proof.
  intros Hk. unfold time_since_storm. destruct (Qceqb (qsum (map t_ps g)) 0);
  rewrite (nth_map_in _ _ _ _ _ dx) by exact Hk; reflexivity.
Qed.

Lemma tss_length ts mass time thr g : length (time_since_storm ts mass time thr g) = length g.
Proof. unfold time_since_storm. destruct (Qceqb _ _); apply map_length. Qed.

Lemma tssp_nth storming ts mass thr g k dx :
  (k < length g)%nat ->
  nth k (time_since_storm_pixel storming ts mass thr g) 0 =
  let x := nth k g dx in
  if storming && (match np_min (map p_dpt g) with Some m => Qcltb m (q 2 1) | None => false end)
     && geb (p_p x) mass && geb (p_ps x) thr then 0 else p_days x + ts.
Proof.
  intros Hk. unfold time_since_storm_pixel.
  rewrite (nth_map_in _ _ _ _ _ dx) by exact Hk. cbv zeta.
  destruct (match np_min (map p_dpt g) with Some m => Qcltb m (q 2 1) | None => false end), storming;
    simpl; try reflexivity.
Qed.

(** minimum of an array without NaN below 2 iff some entry is *)
Lemma np_min_lt g x : g <> [] ->
  (match np_min g with Some m => Qcltb m x | None => false end = true <->
   (~ In None g) /\ exists v, In (Some v) g /\ v < x).
Proof.
  intros Hg.
  assert (Hm : map (option_map Qcopp) g <> []) by (destruct g; [congruence|discriminate]).
  pose proof (gtb_np_max (map (option_map Qcopp) g) (- x) Hm) as H. unfold gtb in H.
  assert (E : (match np_min g with Some m => Qcltb m x | None => false end) =
              match np_max (map (option_map Qcopp) g) with Some y => Qcltb (- x) y | None => false end).
  { unfold np_min. destruct (np_max (map (option_map Qcopp) g)) as [m|]; [|reflexivity]. cbn [option_map].
    destruct (Qcltb_spec (- m) x) as [L|L], (Qcltb_spec (- x) m) as [L'|L']; try reflexivity; exfalso.
    - apply L'. revert L. qclra.
    - apply L. revert L'. qclra. }
  rewrite E, H. split.
  - intros (H1 & v & H2 & H3). split.
    + intros Hi. apply H1. apply in_map_iff. exists None. auto.
    + apply in_map_iff in H2. destruct H2 as ([w|] & Ew & Hw); [|discriminate].
      injection Ew as <-. exists w. split; [exact Hw|]. revert H3. qclra.
  - intros (H1 & v & H2 & H3). split.
    + intros Hi. apply in_map_iff in Hi. destruct Hi as ([w|] & Ew & Hw); [discriminate|]. contradiction.
    + exists (- v). split; [apply in_map_iff; exists (Some v); auto|]. revert H3. qclra.
Qed.

Lemma Qcnat_S j : Qcnat (S j) = Qcnat j + 1.
Proof.
  unfold Qcnat. apply Qc_is_canon. rewrite this_plus, !this_Q2Qc. rewrite Nat2Z.inj_succ, <- Z.add_1_r.
  rewrite inject_Z_plus. reflexivity.
Qed.
Lemma Qcnat_0 : Qcnat 0 = 0.
Proof. reflexivity. Qed.

(** *** the susong1999 loop at pixel [k] *)
Variables (ts mass time : Qc) (k n : nat).

Definition frame_ok (e : sstep) : Prop := match e with SWet f => length f = n | SDry => True end.

Lemma susong_step_length st e : length st = n -> frame_ok e -> length (susong_step ts mass time st e) = n.
Proof.
  intros H Hf. destruct e as [|f]; simpl in *.
  - rewrite map_length; exact H.
  - rewrite tss_length, map_length, combine_length. lia.
Qed.

Lemma susong_step_pixel st f : length st = n -> length f = n -> (k < n)%nat ->
  let p := fst (nth k f (0, 0)) in let ps := snd (nth k f (0, 0)) in
  let d := fst (nth k st (0, 0)) in let sp := snd (nth k st (0, 0)) in
  nth k (susong_step ts mass time st (SWet f)) (0, 0) =
  if Qceqb (qsum (map snd f)) 0 then (d + 1, 0)
  else let sp' := if Qcleb (q 1 2) ps then p else if Qcleb time (d + 1) then 0 else sp in
       (if Qcleb mass sp' then 0 else d + 1, sp').
Proof.
  intros Hst Hf Hk. cbv zeta. simpl susong_step.
  assert (Hl : (k < length (combine f st))%nat) by (rewrite combine_length; lia).
  rewrite (tss_nth _ _ _ _ _ _ _ (mk_tpx ((0,0),(0,0)))) by (rewrite map_length; exact Hl).
  rewrite map_nth, combine_nth by lia. cbn [mk_tpx t_p t_ps t_days t_sp fst snd].
  rewrite map_map. cbn [mk_tpx t_ps].
  assert (E : map (fun x : Qc * Qc * (Qc * Qc) => snd (fst x)) (combine f st) = map snd f).
  { rewrite <- (map_map fst snd). f_equal. clear -Hst Hf. revert f st n Hst Hf.
    induction f as [|a f IH]; intros [|b st] m H1 H2; simpl in *; try reflexivity; try lia.
    f_equal. apply (IH st (pred m)); lia. }
  rewrite E. reflexivity.
Qed.

Lemma susong_dry_pixel st : length st = n -> (k < n)%nat ->
  nth k (susong_step ts mass time st SDry) (0, 0) = (fst (nth k st (0, 0)) + ts, snd (nth k st (0, 0))).
Proof. intros H Hk. simpl. apply (nth_map_in _ _ (fun x : Qc * Qc => (fst x + ts, snd x))). lia. Qed.

(** sub-threshold steps never reset the counter *)
Lemma susong_days_below l : forall st,
  0 < mass -> length st = n -> (k < n)%nat -> Forall frame_ok l ->
  snd (nth k st (0, 0)) < mass ->
  (forall f, In (SWet f) l -> fst (nth k f (0, 0)) < mass) ->
  fst (nth k (susong_run ts mass time st l) (0, 0)) =
  fst (nth k st (0, 0)) + Qcnat (length (filter wet_step l)) +
  ts * Qcnat (length (filter (fun e => negb (wet_step e)) l)).
Proof.
  induction l as [|e l IH]; intros st Hm Hst Hk Hf Hsp Hall.
  - cbn [susong_run fold_left filter length]. rewrite Qcnat_0. unfold susong_run. simpl fold_left. ring.
  - apply Forall_cons_iff in Hf. destruct Hf as [He Hl]. unfold susong_run. cbn [fold_left].
    fold (susong_run ts mass time (susong_step ts mass time st e) l).
    assert (Hall' : forall f, In (SWet f) l -> fst (nth k f (0, 0)) < mass)
      by (intros f Hi; apply Hall; right; exact Hi).
    pose proof (susong_step_length st e Hst He) as Hlen.
    destruct e as [|f]; cbn [filter wet_step negb length].
    + pose proof (susong_dry_pixel st Hst Hk) as E.
      rewrite IH; auto; rewrite E; cbn [fst snd]; [|exact Hsp].
      rewrite Qcnat_S. ring.
    + pose proof (susong_step_pixel st f Hst He Hk) as E. cbv zeta in E.
      assert (Hp : fst (nth k f (0, 0)) < mass) by (apply Hall; left; reflexivity).
      assert (Hd : fst (nth k (susong_step ts mass time st (SWet f)) (0, 0)) = fst (nth k st (0, 0)) + 1 /\
                   snd (nth k (susong_step ts mass time st (SWet f)) (0, 0)) < mass).
      { rewrite E. destruct (Qceqb (qsum (map snd f)) 0); cbn [fst snd]; [auto|].
        set (sp' := if Qcleb (q 1 2) _ then _ else _).
        assert (Hs : sp' < mass).
        { unfold sp'. destruct (Qcleb (q 1 2) _); [exact Hp|]. destruct (Qcleb time _); auto. }
        split; [|exact Hs]. destruct (Qcleb_spec mass sp') as [L|L]; [|reflexivity].
        exfalso. apply Qclt_not_le in Hs. contradiction. }
      destruct Hd as [Hd1 Hd2]. rewrite IH; auto. rewrite Hd1, Qcnat_S. ring.
Qed.

(** *** the marks2017 loop *)
Definition mframe_ok (e : mstep) : Prop := match e with MWet _ f => length f = n | MDry => True end.
Definition no_px : num * num * num := (None, None, None).

(** reset of pixel [k]: storming, somewhere below 2 C with no missing temperature, and at
    the pixel enough precipitation and snow *)
Definition mreset (e : mstep) : bool :=
  match e with
  | MDry => false
  | MWet storming f =>
      storming && (match np_min (map snd f) with Some m => Qcltb m (q 2 1) | None => false end)
      && geb (fst (fst (nth k f no_px))) mass && geb (snd (fst (nth k f no_px))) (q 1 2)
  end.

Lemma marks_step_length st e : length st = n -> mframe_ok e -> length (marks_step ts mass st e) = n.
Proof.
  intros H Hf. destruct e as [|s f]; simpl in *.
  - rewrite map_length; exact H.
  - unfold time_since_storm_pixel. rewrite !map_length, combine_length. lia.
Qed.

Lemma marks_step_pixel st e : length st = n -> mframe_ok e -> (k < n)%nat ->
  nth k (marks_step ts mass st e) 0 = if mreset e then 0 else nth k st 0 + ts.
Proof.
  intros Hst He Hk. destruct e as [|s f]; cbn [marks_step mreset].
  - apply (nth_map_in _ _ (fun d => d + ts)). lia.
  - simpl in He.
    assert (Hl : (k < length (combine f st))%nat) by (rewrite combine_length; lia).
    rewrite (tssp_nth _ _ _ _ _ _ (mk_ppx (no_px, 0))) by (rewrite map_length; exact Hl).
    rewrite map_nth, combine_nth by lia. cbn [mk_ppx p_p p_ps p_dpt p_days fst snd].
    rewrite map_map. cbn [mk_ppx p_dpt].
    assert (E : map (fun x : num * num * num * Qc => snd (fst x)) (combine f st) = map snd f).
    { rewrite <- (map_map fst snd). f_equal. clear -Hst He. revert f st n Hst He.
      induction f as [|a f IH]; intros [|b st] m H1 H2; simpl in *; try reflexivity; try lia.
      f_equal. apply (IH st (pred m)); lia. }
    rewrite E. reflexivity.
Qed.

Lemma marks_days l : forall st acc,
  length st = n -> (k < n)%nat -> Forall mframe_ok l -> nth k st 0 = ts * Qcnat acc ->
  nth k (marks_run ts mass st l) 0 = ts * Qcnat (count_since mreset (fun _ => true) l acc).
Proof.
  induction l as [|e l IH]; intros st acc Hst Hk Hf Ha.
  - exact Ha.
  - apply Forall_cons_iff in Hf. destruct Hf as [He Hl]. unfold marks_run. cbn [fold_left count_since].
    fold (marks_run ts mass (marks_step ts mass st e) l).
    apply IH; auto.
    + apply marks_step_length; assumption.
    + rewrite marks_step_pixel by assumption. destruct (mreset e).
      * rewrite Qcnat_0. ring.
      * rewrite Ha, Qcnat_S. ring.
Qed.

Lemma geb_iff x y : geb x y = true <-> exists v, x = Some v /\ y <= v.
Proof.
  unfold geb. destruct x as [v|].
  - destruct (Qcleb_spec y v) as [L|L].
    + split; [eauto|reflexivity].
    + split; [discriminate|]. intros (w & [= <-] & H). contradiction.
  - split; [discriminate|]. intros (w & [=] & _).
Qed.

Lemma resets_iff storming m thr temps p ps : temps <> [] ->
  (storming && (match np_min temps with Some v => Qcltb v (q 2 1) | None => false end)
   && geb p m && geb ps thr = true <-> resets storming m thr temps p ps).
Proof.
  intros H. unfold resets. rewrite !andb_true_iff, !geb_iff, (np_min_lt temps (q 2 1) H). tauto.
Qed.

Lemma tssp_spec storming tst m thr g j dx : (j < length g)%nat ->
  let x := nth j g dx in
  let R := resets storming m thr (map p_dpt g) (p_p x) (p_ps x) in
  (R -> nth j (time_since_storm_pixel storming tst m thr g) 0 = 0) /\
  (~ R -> nth j (time_since_storm_pixel storming tst m thr g) 0 = p_days x + tst).
Proof.
  intros Hj x R. rewrite (tssp_nth _ _ _ _ _ _ dx) by exact Hj. fold x.
  assert (Hg : map p_dpt g <> []) by (destruct g; [simpl in Hj; lia|discriminate]).
  pose proof (resets_iff storming m thr _ (p_p x) (p_ps x) Hg) as E. fold R in E. cbv zeta.
  match goal with |- context [if ?b then _ else _] => destruct b end; split; intros H.
  - reflexivity.
  - exfalso. apply H. apply E. reflexivity.
  - apply E in H. discriminate.
  - reflexivity.
Qed.

Lemma mreset_iff e : mframe_ok e -> (k < n)%nat -> (mreset e = true <-> step_resets mass k e).
Proof.
  intros He Hk. destruct e as [|s f]; simpl.
  - split; [discriminate|contradiction].
  - simpl in He.
    assert (Hf : map snd f <> []) by (destruct f; [simpl in He; lia|discriminate]).
    rewrite resets_iff by exact Hf.
    rewrite (nth_error_nth' f no_px) by lia.
    destruct (nth k f no_px) as [[p ps] t]. cbn [fst snd]. split.
    + intros H. exists p, ps, t. auto.
    + intros (p' & ps' & t' & [= <- <- <-] & H). exact H.
Qed.

Lemma count_since_ext (A : Type) (p q r : A -> bool) l acc :
  (forall a, In a l -> p a = q a) -> count_since p r l acc = count_since q r l acc.
Proof.
  revert acc; induction l as [|a l IH]; intros acc H; simpl; [reflexivity|].
  rewrite (H a) by (left; reflexivity). apply IH. intros b Hb. apply H. right; exact Hb.
Qed.

Lemma marks_counter l (rb : mstep -> bool) :
  mgrids n l -> (k < n)%nat -> (forall e, In e l -> (rb e = true <-> step_resets mass k e)) ->
  nth k (marks_run ts mass (repeat 0 n) l) 0 = ts * Qcnat (count_since rb (fun _ => true) l 0).
Proof.
  intros Hl Hk Hr.
  assert (Hf : Forall mframe_ok l).
  { apply Forall_forall. intros [|b f] Hi; simpl; [exact I|]. eapply Hl; eauto. }
  rewrite (marks_days l (repeat 0 n) 0%nat); auto.
  - f_equal. f_equal. apply count_since_ext. intros e He. apply eq_true_iff_eq.
    rewrite Hr by exact He. apply mreset_iff; [|exact Hk]. rewrite Forall_forall in Hf. auto.
  - apply repeat_length.
  - rewrite Qcnat_0. transitivity (0 : Qc); [|ring].
    destruct (nth_in_or_default k (repeat 0 n) 0) as [H|H]; [eapply repeat_spec; eauto|exact H].
Qed.

Lemma susong_counter l st :
  0 < mass -> length st = n -> (k < n)%nat -> sgrids n l ->
  snd (nth k st (0, 0)) < mass ->
  (forall f, In (SWet f) l -> fst (nth k f (0, 0)) < mass) ->
  fst (nth k (susong_run ts mass time st l) (0, 0)) =
  fst (nth k st (0, 0)) + Qcnat (length (filter wet_step l)) +
  ts * Qcnat (length (filter (fun e => negb (wet_step e)) l)).
Proof.
  intros Hm Hst Hk Hl. apply susong_days_below; auto.
  apply Forall_forall. intros [|f] Hi; simpl; [exact I|]. apply Hl; exact Hi.
Qed.
End Since.
