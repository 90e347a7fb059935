(** Proofs about the calendar helpers. *)
From Coq Require Import ZArith List Bool QArith Lia.
From Verif Require Import CalModel CalSpec.
Import ListNotations.
Local Open Scope Z_scope.

Lemma eqb_mod_divide y k : k <> 0 -> (y mod k =? 0) = true <-> (k | y).
Proof. intros Hk. rewrite Z.eqb_eq. apply Z.mod_divide. exact Hk. Qed.

Lemma leapP y : reflect (leap y) (is_leap_year y).
Proof.
  apply iff_reflect. unfold leap, is_leap_year.
  rewrite orb_true_iff, andb_true_iff, negb_true_iff.
  rewrite !eqb_mod_divide by discriminate.
  rewrite <- (not_true_iff_false (y mod 100 =? 0)), eqb_mod_divide by discriminate. tauto.
Qed.

Definition month_len (y m : Z) : Z :=
  if m =? 2 then if is_leap_year y then 29 else 28
  else if (m =? 4) || (m =? 6) || (m =? 9) || (m =? 11) then 30 else 31.

Lemma months m : 1 <= m <= 12 ->
  m = 1 \/ m = 2 \/ m = 3 \/ m = 4 \/ m = 5 \/ m = 6 \/ m = 7 \/ m = 8 \/ m = 9 \/ m = 10 \/ m = 11 \/ m = 12.
Proof. lia. Qed.

Ltac month_cases H :=
  apply months in H;
  destruct H as [-> | [-> | [-> | [-> | [-> | [-> | [-> | [-> | [-> | [-> | [-> | ->]]]]]]]]]]].

Lemma month_has_len y m n : month_has y m n <-> 1 <= m <= 12 /\ n = month_len y m.
Proof.
  split.
  - intros H. inversion H; subst; unfold month_len.
    + split; [lia|]. destruct H0 as [->|[->|[->|[->|[->|[->| ->]]]]]]; reflexivity.
    + split; [lia|]. destruct H0 as [->|[->|[->| ->]]]; reflexivity.
    + split; [lia|]. simpl. destruct (leapP y); tauto.
    + split; [lia|]. simpl. destruct (leapP y); tauto.
  - intros [Hm ->]. unfold month_len.
    month_cases Hm; simpl; try (apply mh31; lia); try (apply mh30; lia).
    destruct (leapP y); [apply mh29|apply mh28]; assumption.
Qed.

Lemma leapyear_eq y : 0 <= y -> leapyear y = Some (is_leap_year y).
Proof.
  intros H. unfold leapyear, is_leap_year. destruct (Z.leb_spec 0 y); [|lia].
  destruct (_ || _); reflexivity.
Qed.

Lemma numdays_eq y m : 0 <= y -> 1 <= m <= 12 -> numdays y m = Some (month_len y m).
Proof.
  intros Hy Hm. unfold numdays. rewrite leapyear_eq by exact Hy.
  destruct (Z.leb_spec 0 y); [|lia].
  unfold month_len. month_cases Hm; simpl; try reflexivity.
  destruct (is_leap_year y); reflexivity.
Qed.

Lemma numdays_none y m : ~ (0 <= y /\ 1 <= m <= 12) -> numdays y m = None.
Proof.
  intros H. unfold numdays.
  destruct (Z.leb_spec 0 y); destruct (Z.leb_spec 1 m); destruct (Z.leb_spec m 12);
    simpl; try reflexivity; lia.
Qed.

Lemma numdays_month y m n : numdays y m = Some n <-> 0 <= y /\ month_has y m n.
Proof.
  rewrite month_has_len. split.
  - intros H. destruct (Z.le_decidable 0 y) as [Hy|Hy].
    + destruct (Z.le_decidable 1 m) as [H1|H1]; [|rewrite numdays_none in H by lia; discriminate].
      destruct (Z.le_decidable m 12) as [H2|H2]; [|rewrite numdays_none in H by lia; discriminate].
      rewrite numdays_eq in H by lia. injection H as <-. lia.
    + rewrite numdays_none in H by lia; discriminate.
  - intros (Hy & Hm & ->). apply numdays_eq; assumption.
Qed.

Lemma before_month_next l m : 1 <= m < 12 ->
  before_month l (m + 1) = before_month l m +
    (if m =? 2 then if l then 29 else 28
     else if (m =? 4) || (m =? 6) || (m =? 9) || (m =? 11) then 30 else 31).
Proof.
  intros H. assert (H' : 1 <= m <= 12) by lia.
  month_cases H'; try lia; destruct l; reflexivity.
Qed.

Lemma add_months_eq' y k d : 0 <= y -> (k <= 11)%nat ->
  add_months y k d = Some (before_month (is_leap_year y) (Z.of_nat k + 1) + d).
Proof.
  intros Hy. revert d. induction k as [|k IH]; intros d Hk.
  - simpl. unfold before_month. rewrite andb_false_r. f_equal; simpl; lia.
  - cbn [add_months]. rewrite numdays_eq by lia. rewrite IH by lia. f_equal.
    rewrite (before_month_next _ (Z.of_nat (S k))) by lia. unfold month_len.
    replace (Z.of_nat k + 1) with (Z.of_nat (S k)) by lia. lia.
Qed.

Lemma add_months_eq y m d : 0 <= y -> 1 <= m <= 12 ->
  add_months y (Z.to_nat (m - 1)) d = Some (before_month (is_leap_year y) m + d).
Proof.
  intros Hy Hm. rewrite add_months_eq' by lia. repeat f_equal. lia.
Qed.

Lemma yearday_eq y m d : 0 <= y -> 1 <= m <= 12 -> 1 <= d <= month_len y m ->
  yearday y m d = Some (before_month (is_leap_year y) m + d).
Proof.
  intros Hy Hm Hd. unfold yearday. rewrite numdays_eq by assumption.
  destruct (Z.leb_spec 0 y); [|lia]. destruct (Z.leb_spec 1 m); [|lia].
  destruct (Z.leb_spec m 12); [|lia]. simpl.
  destruct (Z.leb_spec 1 d); [|lia]. destruct (Z.leb_spec d (month_len y m)); [|lia]. simpl.
  apply add_months_eq; assumption.
Qed.

Lemma yearday_none y m d : ~ (0 <= y /\ real_date (mkD y m d)) -> yearday y m d = None.
Proof.
  intros H. unfold yearday.
  destruct (Z.leb_spec 0 y); [|reflexivity]. destruct (Z.leb_spec 1 m); [|reflexivity].
  destruct (Z.leb_spec m 12); [|reflexivity]. simpl.
  rewrite numdays_eq by lia.
  destruct (Z.leb_spec 1 d); [|reflexivity].
  destruct (Z.leb_spec d (month_len y m)); [|reflexivity].
  exfalso. apply H. split; [assumption|]. exists (month_len y m). split; [|simpl; lia].
  apply month_has_len. simpl. lia.
Qed.

(** ** ordinals *)
Lemma real_date_len y m d : real_date (mkD y m d) <-> 1 <= m <= 12 /\ 1 <= d <= month_len y m.
Proof.
  unfold real_date. simpl. split.
  - intros (n & H & Hd). apply month_has_len in H. destruct H as [H ->]. auto.
  - intros [H Hd]. exists (month_len y m). split; [apply month_has_len; auto|exact Hd].
Qed.

Lemma dby_next y : days_before_year (y + 1) = days_before_year y + (if is_leap_year y then 366 else 365).
Proof.
  unfold days_before_year, is_leap_year.
  replace (y + 1 - 1) with y by lia.
  destruct (Z.eqb_spec (y mod 4) 0); destruct (Z.eqb_spec (y mod 100) 0);
    destruct (Z.eqb_spec (y mod 400) 0); cbn [negb andb orb];
    Z.div_mod_to_equations; lia.
Qed.

Lemma month_len_range y m : 28 <= month_len y m <= 31.
Proof. unfold month_len. destruct (m =? 2); [destruct (is_leap_year y); lia|]. destruct (_ || _); lia. Qed.

Lemma ord_tomorrow a b : tomorrow a b ->
  ordinal (yr b) (mo b) (dy b) = ordinal (yr a) (mo a) (dy a) + 1.
Proof.
  intros H. inversion H; subst; simpl; unfold ordinal.
  - lia.
  - apply month_has_len in H0. destruct H0 as [_ ->]. rewrite before_month_next by lia.
    unfold month_len. lia.
  - rewrite dby_next. unfold before_month.
    destruct (is_leap_year (y + 1)), (is_leap_year y); simpl; lia.
Qed.

Lemma tomorrow_real a b : tomorrow a b -> real_date a /\ real_date b.
Proof.
  intros H. inversion H; subst.
  - split; exists n; simpl; split; auto; lia.
  - split; [exists n; split; auto; simpl|].
    + apply month_has_len in H0. destruct H0 as [_ ->]. pose proof (month_len_range y m). lia.
    + apply real_date_len. pose proof (month_len_range y (m + 1)). lia.
  - split; apply real_date_len; [unfold month_len; simpl; lia|].
    unfold month_len. simpl. lia.
Qed.

Lemma tomorrow_exists a : real_date a -> exists b, tomorrow a b.
Proof.
  destruct a as [y m d]. intros H. apply real_date_len in H. destruct H as [Hm Hd].
  destruct (Z.eq_dec d (month_len y m)) as [->|Hne].
  - destruct (Z.eq_dec m 12) as [->|].
    + change (month_len y 12) with 31. eexists. apply tm_year.
    + eexists. apply tm_month; [apply month_has_len; auto|lia].
  - eexists. eapply tm_day with (n := month_len y m); [apply month_has_len; auto|lia].
Qed.

Ltac bm :=
  repeat match goal with
  | |- context [before_month true ?m] =>
      let v := eval vm_compute in (before_month true m) in change (before_month true m) with v
  | |- context [before_month false ?m] =>
      let v := eval vm_compute in (before_month false m) in change (before_month false m) with v
  | H : context [before_month true ?m] |- _ =>
      let v := eval vm_compute in (before_month true m) in change (before_month true m) with v in H
  | H : context [before_month false ?m] |- _ =>
      let v := eval vm_compute in (before_month false m) in change (before_month false m) with v in H
  end.

(** days of a year *)
Definition yd (y m d : Z) : Z := before_month (is_leap_year y) m + d.

Lemma before_month_mono l m m' : 1 <= m -> m < m' -> m' <= 12 ->
  before_month l m + (if m =? 2 then if l then 29 else 28
     else if (m =? 4) || (m =? 6) || (m =? 9) || (m =? 11) then 30 else 31) <= before_month l m'.
Proof.
  intros H1 Hlt Hm'. rewrite <- before_month_next by lia.
  assert (G : forall n, m + 1 + Z.of_nat n <= 12 -> before_month l (m + 1) <= before_month l (m + 1 + Z.of_nat n)).
  { induction n as [|n IH]; intros Hn.
    - rewrite Z.add_0_r. lia.
    - rewrite Nat2Z.inj_succ in *. unfold Z.succ in *.
      rewrite (Z.add_assoc _ _ 1), (before_month_next l (m + 1 + Z.of_nat n)) by lia.
      specialize (IH ltac:(lia)).
      destruct (_ =? 2); [destruct l; lia|]. destruct (_ || _); lia. }
  replace m' with (m + 1 + Z.of_nat (Z.to_nat (m' - m - 1))) by lia. apply G. lia.
Qed.

Lemma yd_range y m d : 1 <= m <= 12 -> 1 <= d <= month_len y m ->
  1 <= yd y m d <= (if is_leap_year y then 366 else 365).
Proof.
  intros Hm Hd. unfold yd. unfold month_len in Hd.
  destruct (is_leap_year y); month_cases Hm; cbn [Z.eqb Pos.eqb orb] in Hd; bm; lia.
Qed.

Lemma yd_inj y m d m' d' :
  1 <= m <= 12 -> 1 <= d <= month_len y m -> 1 <= m' <= 12 -> 1 <= d' <= month_len y m' ->
  yd y m d = yd y m' d' -> m = m' /\ d = d'.
Proof.
  intros Hm Hd Hm' Hd'. unfold yd. intros E.
  destruct (Z.lt_trichotomy m m') as [L|[->|L]]; [|lia|].
  - pose proof (before_month_mono (is_leap_year y) m m' ltac:(lia) L ltac:(lia)) as B.
    unfold month_len in Hd. lia.
  - pose proof (before_month_mono (is_leap_year y) m' m ltac:(lia) L ltac:(lia)) as B.
    unfold month_len in Hd'. lia.
Qed.

Lemma dby_mono y n : 0 <= n -> days_before_year y + 365 * n <= days_before_year (y + n).
Proof.
  intros Hn. pattern n. apply natlike_ind; [|intros k Hk IH|exact Hn].
  - rewrite Z.mul_0_r, !Z.add_0_r. lia.
  - unfold Z.succ. rewrite Z.add_assoc, dby_next. destruct (is_leap_year _); lia.
Qed.

Lemma ordinal_inj a b : real_date a -> real_date b ->
  ordinal (yr a) (mo a) (dy a) = ordinal (yr b) (mo b) (dy b) -> a = b.
Proof.
  destruct a as [y m d], b as [y' m' d']. intros Ha Hb.
  apply real_date_len in Ha. apply real_date_len in Hb. destruct Ha as [Hm Hd], Hb as [Hm' Hd'].
  simpl. intros E.
  assert (Hy : y = y').
  { pose proof (yd_range y m d Hm Hd) as R1. pose proof (yd_range y' m' d' Hm' Hd') as R2.
    unfold ordinal in E. fold (yd y m d) in E.
    change (days_before_year y + before_month (is_leap_year y) m + d) with
      (days_before_year y + before_month (is_leap_year y) m + d) in E.
    assert (E' : days_before_year y + yd y m d = days_before_year y' + yd y' m' d')
      by (unfold yd; lia).
    destruct (Z.lt_trichotomy y y') as [L|[->|L]]; [exfalso|reflexivity|exfalso].
    - pose proof (dby_mono (y + 1) (y' - (y + 1)) ltac:(lia)) as M.
      replace (y + 1 + (y' - (y + 1))) with y' in M by lia.
      rewrite dby_next in M. destruct (is_leap_year y); lia.
    - pose proof (dby_mono (y' + 1) (y - (y' + 1)) ltac:(lia)) as M.
      replace (y' + 1 + (y - (y' + 1))) with y in M by lia.
      rewrite dby_next in M. destruct (is_leap_year y'); lia. }
  subst y'. unfold ordinal in E.
  destruct (yd_inj y m d m' d') as [-> ->]; auto. unfold yd. lia.
Qed.

Lemma days_later_ord a n b : real_date a -> days_later a n b ->
  0 <= n /\ real_date b /\ ordinal (yr b) (mo b) (dy b) = ordinal (yr a) (mo a) (dy a) + n.
Proof.
  intros Ha H. induction H as [|n b c H (I0 & I1 & I2) Ht].
  - split; [lia|]. split; [exact Ha|lia].
  - split; [lia|]. split; [apply (tomorrow_real b c Ht)|]. rewrite (ord_tomorrow b c Ht). lia.
Qed.

Lemma days_later_exists a n : real_date a -> 0 <= n -> exists b, days_later a n b.
Proof.
  intros Ha Hn. pattern n. apply natlike_ind; [|intros k Hk [b IH]|exact Hn].
  - exists a. constructor.
  - destruct (days_later_ord a k b Ha IH) as (_ & Hb & _).
    destruct (tomorrow_exists b Hb) as [c Hc]. exists c. unfold Z.succ. econstructor; eauto.
Qed.

Lemma days_later_iff a n b : real_date a -> real_date b ->
  (days_later a n b <-> 0 <= n /\ ordinal (yr b) (mo b) (dy b) = ordinal (yr a) (mo a) (dy a) + n).
Proof.
  intros Ha Hb. split.
  - intros H. apply days_later_ord in H; tauto.
  - intros [Hn E]. destruct (days_later_exists a n Ha Hn) as [c Hc].
    destruct (days_later_ord a n c Ha Hc) as (_ & Rc & Ec).
    replace b with c; [exact Hc|]. apply ordinal_inj; auto. lia.
Qed.

(** ** yearday counts days from January 1 *)
Lemma real_date_jan1 y : real_date (mkD y 1 1).
Proof. apply real_date_len. unfold month_len. simpl. lia. Qed.
Lemma real_date_oct1 y : real_date (mkD y 10 1).
Proof. apply real_date_len. unfold month_len. simpl. lia. Qed.

Lemma yearday_counts y m d n : 0 <= y -> real_date (mkD y m d) ->
  (yearday y m d = Some n <-> days_later (mkD y 1 1) (n - 1) (mkD y m d)).
Proof.
  intros Hy Hr. rewrite days_later_iff by auto using real_date_jan1. simpl.
  apply real_date_len in Hr. destruct Hr as [Hm Hd].
  rewrite yearday_eq by assumption. fold (yd y m d).
  pose proof (yd_range y m d Hm Hd) as R.
  assert (E1 : ordinal y m d = days_before_year y + yd y m d) by (unfold ordinal, yd; lia).
  assert (E2 : ordinal y 1 1 = days_before_year y + 1).
  { unfold ordinal, before_month. rewrite andb_false_r. simpl. lia. }
  rewrite E1, E2. split.
  - intros [= <-]. lia.
  - intros [_ E]. f_equal. lia.
Qed.

Lemma yearday_defined y m d : (exists n, yearday y m d = Some n) <-> 0 <= y /\ real_date (mkD y m d).
Proof.
  split.
  - intros [n Hn]. destruct (Z.le_decidable 0 y) as [Hy|Hy].
    + split; [exact Hy|]. unfold yearday in Hn.
      destruct (Z.leb_spec 0 y); [|discriminate]. destruct (Z.leb_spec 1 m); [|discriminate].
      destruct (Z.leb_spec m 12); [|discriminate]. cbn [yr mo dy] in Hn.
      rewrite numdays_eq in Hn by lia.
      destruct (Z.leb_spec 1 d); [|discriminate].
      destruct (Z.leb_spec d (month_len y m)); [|discriminate].
      apply real_date_len. lia.
    + rewrite yearday_none in Hn by tauto. discriminate.
  - intros [Hy Hr]. apply real_date_len in Hr. destruct Hr. eexists. apply yearday_eq; assumption.
Qed.

Lemma yearday_span y m d n : yearday y m d = Some n ->
  (leap y -> 1 <= n <= 366) /\ (~ leap y -> 1 <= n <= 365).
Proof.
  intros H. destruct (proj1 (yearday_defined y m d) (ex_intro _ n H)) as [Hy Hr].
  apply real_date_len in Hr. destruct Hr as [Hm Hd]. rewrite yearday_eq in H by assumption.
  injection H as <-. pose proof (yd_range y m d Hm Hd) as R. unfold yd in R.
  destruct (leapP y); split; intros; tauto || lia.
Qed.

Lemma yearday_onto y n : 0 <= y -> (1 <= n <= 365 \/ leap y /\ n = 366) ->
  exists m d, yearday y m d = Some n.
Proof.
  intros Hy Hn.
  destruct (days_later_exists (mkD y 1 1) (n - 1) (real_date_jan1 y) ltac:(lia)) as [[y' m d] Hb].
  destruct (days_later_ord _ _ _ (real_date_jan1 y) Hb) as (_ & Hr & Ho). simpl in Ho.
  assert (Hyy : y' = y).
  { apply real_date_len in Hr. destruct Hr as [Hm Hd].
    pose proof (yd_range y' m d Hm Hd) as R.
    assert (E1 : ordinal y' m d = days_before_year y' + yd y' m d) by (unfold ordinal, yd; lia).
    assert (E2 : ordinal y 1 1 = days_before_year y + 1).
    { unfold ordinal, before_month. rewrite andb_false_r. simpl. lia. }
    rewrite E1, E2 in Ho.
    assert (Hn' : n <= (if is_leap_year y then 366 else 365)).
    { destruct (leapP y); [lia|]. destruct Hn as [?|[? ?]]; [lia|tauto]. }
    destruct (Z.lt_trichotomy y y') as [L|[->|L]]; [exfalso|reflexivity|exfalso].
    - pose proof (dby_mono (y + 1) (y' - (y + 1)) ltac:(lia)) as M.
      replace (y + 1 + (y' - (y + 1))) with y' in M by lia.
      rewrite dby_next in M. destruct (is_leap_year y); lia.
    - pose proof (dby_mono (y' + 1) (y - (y' + 1)) ltac:(lia)) as M.
      replace (y' + 1 + (y - (y' + 1))) with y in M by lia.
      rewrite dby_next in M. destruct (is_leap_year y'); lia. }
  subst y'. exists m, d. apply yearday_counts; auto.
Qed.

(** ** water_day *)
Definition time_ok (t : dtime) : Prop := 0 <= d_sec t < 86400 /\ 0 <= d_us t < 1000000.

Lemma td_parts n s u : 0 <= s < 86400 -> 0 <= u < 1000000 ->
  td_days ((n * 86400 + s) * 1000000 + u) = n /\ td_seconds ((n * 86400 + s) * 1000000 + u) = s.
Proof.
  intros Hs Hu. unfold td_days, td_seconds.
  change (86400 * 1000000) with 86400000000.
  assert (D : ((n * 86400 + s) * 1000000 + u) / 86400000000 = n).
  { symmetry. apply Z.div_unique with (s * 1000000 + u); lia. }
  split; [exact D|].
  assert (M : ((n * 86400 + s) * 1000000 + u) mod 86400000000 = s * 1000000 + u).
  { symmetry. apply Z.mod_unique with n; lia. }
  rewrite M. symmetry. apply Z.div_unique with u; lia.
Qed.

Lemma ordinal_oct1_cmp y m d : real_date (mkD y m d) ->
  (m < 10 -> ordinal y m d < ordinal y 10 1) /\ (10 <= m -> ordinal y 10 1 <= ordinal y m d).
Proof.
  intros H. apply real_date_len in H. destruct H as [Hm Hd]. unfold ordinal. split; intros Hlt.
  - pose proof (before_month_mono (is_leap_year y) m 10 ltac:(lia) Hlt ltac:(lia)) as B.
    unfold month_len in Hd. lia.
  - destruct (Z.eq_dec m 10) as [->|]; [lia|].
    pose proof (before_month_mono (is_leap_year y) 10 m ltac:(lia) ltac:(lia) ltac:(lia)) as B.
    simpl in B. lia.
Qed.

Lemma midnight_ok y m d : 1 <= y <= 9999 -> midnight y m d = Some (mkDt y m d 0 0).
Proof.
  intros H. unfold midnight. destruct (Z.leb_spec 1 y); [|lia].
  destruct (Z.leb_spec y 9999); [reflexivity|lia].
Qed.

Lemma water_day_spec t : real_date (mkD (d_year t) (d_month t) (d_day t)) -> time_ok t ->
  1 <= d_year t <= 9999 ->
  let wy := if d_month t <? 10 then d_year t else d_year t + 1 in
  (wy = 1 /\ water_day t = None) \/
  (2 <= wy /\ exists n, water_day t = Some ((inject_Z n + (d_sec t # 86400))%Q, wy) /\
     days_later (mkD (wy - 1) 10 1) n (mkD (d_year t) (d_month t) (d_day t)) /\
     n < (if is_leap_year wy then 366 else 365)).
Proof.
  destruct t as [y m d s u]. unfold time_ok. simpl. intros Hr [Hs Hu] Hy.
  destruct (ordinal_oct1_cmp y m d Hr) as [O1 O2].
  unfold water_day. cbn [d_year]. rewrite (midnight_ok y 10 1 Hy).
  assert (C : (usecs (mkDt y m d s u) <? usecs (mkDt y 10 1 0 0)) = (m <? 10)).
  { unfold usecs. simpl. destruct (Z.ltb_spec m 10) as [L|L].
    - apply Z.ltb_lt. specialize (O1 L). nia.
    - apply Z.ltb_ge. specialize (O2 L). nia. }
  rewrite C. set (wy := if m <? 10 then y else y + 1).
  assert (Hwy : 1 <= wy <= 10000) by (subst wy; destruct (m <? 10); lia).
  destruct (Z.leb_spec 1 (wy - 1)) as [Hw|Hw].
  - rewrite (midnight_ok (wy - 1) 10 1) by lia.
    right. split; [lia|].
    set (n := ordinal y m d - ordinal (wy - 1) 10 1).
    assert (Hn : 0 <= n < (if is_leap_year wy then 366 else 365)).
    { subst n wy. destruct (Z.ltb_spec m 10) as [L|L].
      - specialize (O1 L).
        assert (Ey : y = (y - 1) + 1) by lia.
        pose proof (dby_next (y - 1)) as Dn. rewrite <- Ey in Dn.
        pose proof Hr as Hr'. apply real_date_len in Hr'. destruct Hr' as [Hm Hd].
        pose proof (yd_range y m d Hm Hd) as R. unfold yd in R.
        unfold ordinal in *.
        destruct (is_leap_year (y - 1)), (is_leap_year y);
          generalize dependent (before_month true m);
          generalize dependent (before_month false m); intros; bm; lia.
      - specialize (O2 L). replace (y + 1 - 1) with y by lia.
        pose proof Hr as Hr'. apply real_date_len in Hr'. destruct Hr' as [Hm Hd].
        unfold ordinal in *. unfold month_len in Hd.
        assert (Hm3 : m = 10 \/ m = 11 \/ m = 12) by lia.
        destruct Hm3 as [->|[->| ->]]; destruct (is_leap_year y), (is_leap_year (y + 1));
          cbn [Z.eqb Pos.eqb orb] in Hd; bm; lia. }
    exists n. split.
    + assert (U : usecs (mkDt y m d s u) - usecs (mkDt (wy - 1) 10 1 0 0) =
                  (n * 86400 + s) * 1000000 + u) by (unfold usecs; simpl; subst n; lia).
      rewrite U.
      destruct (td_parts n s u Hs Hu) as [-> ->]. reflexivity.
    + split; [|lia]. apply days_later_iff; [apply real_date_oct1|exact Hr|]. simpl.
      subst n. lia.
  - left. split; [lia|]. unfold midnight. destruct (Z.leb_spec 1 (wy - 1)); [lia|reflexivity].
Qed.

(** ** the ephemeris day number *)
Lemma quot_days y : 1901 <= y -> Z.quot ((y - 1900) * 36525 - 25) 100 = 365 * (y - 1900) + (y - 1901) / 4.
Proof.
  intros Hy. rewrite Z.quot_div_nonneg by lia.
  symmetry. set (k := y - 1901). replace (y - 1900) with (k + 1) by (subst k; lia).
  assert (Hk : 0 <= k) by (subst k; lia).
  pose proof (Z.div_mod k 4 ltac:(lia)) as D. pose proof (Z.mod_pos_bound k 4 ltac:(lia)) as B.
  apply Z.div_unique with (25 * (k mod 4)); [lia|].
  (* (k+1)*36525 - 25 = 100*(365(k+1) + k/4) + 25*(k mod 4) *)
  nia.
Qed.

Lemma dby_1900 y : 1900 <= y <= 2100 ->
  Z.quot ((y - 1900) * 36525 - 25) 100 = days_before_year y - days_before_year 1900.
Proof.
  intros Hy. destruct (Z.eq_dec y 1900) as [->|]; [reflexivity|].
  rewrite quot_days by lia. unfold days_before_year.
  change ((1900 - 1) / 4) with 474. change ((1900 - 1) / 100) with 18. change ((1900 - 1) / 400) with 4.
  Z.div_mod_to_equations. lia.
Qed.

Lemma dby_2101 y : 2101 <= y <= 2200 ->
  Z.quot ((y - 1900) * 36525 - 25) 100 = days_before_year y - days_before_year 1900 + 1.
Proof.
  intros Hy. rewrite quot_days by lia. unfold days_before_year.
  change ((1900 - 1) / 4) with 474. change ((1900 - 1) / 100) with 18. change ((1900 - 1) / 400) with 4.
  Z.div_mod_to_equations. lia.
Qed.

Lemma ephemeris_day_gen y m d k n : 1900 <= y -> real_date (mkD y m d) ->
  Z.quot ((y - 1900) * 36525 - 25) 100 = days_before_year y - days_before_year 1900 + k ->
  days_later (mkD 1900 1 1) n (mkD y m d) -> ephemeris_day y m d = Some (n + 1 + k).
Proof.
  intros Hy Hr Hq Hn. apply days_later_iff in Hn; auto using real_date_jan1. cbn [yr mo dy] in Hn.
  destruct Hn as [_ Hn].
  apply real_date_len in Hr. destruct Hr as [Hm Hd].
  unfold ephemeris_day. rewrite yearday_eq by (auto; lia). rewrite Hq. f_equal.
  assert (E2 : ordinal 1900 1 1 = days_before_year 1900 + 1) by (vm_compute; reflexivity).
  rewrite E2 in Hn. unfold ordinal in Hn. lia.
Qed.

Lemma ephemeris_day_ok y m d n : 1900 <= y <= 2100 -> real_date (mkD y m d) ->
  days_later (mkD 1900 1 1) n (mkD y m d) -> ephemeris_day y m d = Some (n + 1).
Proof.
  intros Hy Hr Hn. rewrite (ephemeris_day_gen y m d 0 n) by (auto; try lia; rewrite dby_1900 by lia; lia).
  f_equal. lia.
Qed.

Lemma ephemeris_day_late y m d n : 2101 <= y <= 2200 -> real_date (mkD y m d) ->
  days_later (mkD 1900 1 1) n (mkD y m d) -> ephemeris_day y m d = Some (n + 2).
Proof.
  intros Hy Hr Hn. rewrite (ephemeris_day_gen y m d 1 n) by (auto; try lia; rewrite dby_2101 by lia; lia).
  f_equal. lia.
Qed.

(** ** statements used by the property file *)
Lemma leap_helpers y :
  (is_leap_year y = true <-> leap y) /\
  (0 <= y -> leapyear y = Some (is_leap_year y)) /\ (y < 0 -> leapyear y = None).
Proof.
  split; [|split].
  - destruct (leapP y); split; auto; discriminate.
  - apply leapyear_eq.
  - intros H. unfold leapyear. destruct (Z.leb_spec 0 y); [lia|reflexivity].
Qed.

Lemma yearday_next y m d m' d' n : yearday y m d = Some n ->
  tomorrow (mkD y m d) (mkD y m' d') -> yearday y m' d' = Some (n + 1).
Proof.
  intros H Ht. destruct (proj1 (yearday_defined y m d) (ex_intro _ n H)) as [Hy Hr].
  apply yearday_counts; [exact Hy|apply (tomorrow_real _ _ Ht)|].
  replace (n + 1 - 1) with (n - 1 + 1) by lia. econstructor; [|exact Ht].
  apply yearday_counts; auto.
Qed.

Lemma yearday_ends y : 0 <= y ->
  yearday y 1 1 = Some 1 /\ (leap y -> yearday y 12 31 = Some 366) /\ (~ leap y -> yearday y 12 31 = Some 365).
Proof.
  intros Hy. repeat split; intros.
  - rewrite yearday_eq; [|exact Hy|lia|unfold month_len; simpl; lia].
    f_equal. unfold before_month. rewrite andb_false_r. reflexivity.
  - rewrite yearday_eq; [|exact Hy|lia|unfold month_len; simpl; lia].
    destruct (leapP y); [reflexivity|tauto].
  - rewrite yearday_eq; [|exact Hy|lia|unfold month_len; simpl; lia].
    destruct (leapP y); [tauto|reflexivity].
Qed.

Lemma water_day_correct t : real_date (mkD (d_year t) (d_month t) (d_day t)) ->
  0 <= d_sec t < 86400 -> 0 <= d_us t < 1000000 ->
  (1 < d_year t <= 9999 \/ d_year t = 1 /\ 10 <= d_month t) ->
  exists n wy, water_day t = Some ((inject_Z n + (d_sec t # 86400))%Q, wy) /\
    days_later (mkD (wy - 1) 10 1) n (mkD (d_year t) (d_month t) (d_day t)) /\
    0 <= n < 366 /\ (~ leap wy -> n < 365) /\
    (d_month t < 10 -> wy = d_year t) /\ (10 <= d_month t -> wy = d_year t + 1).
Proof.
  intros Hr Hs Hu Hy.
  destruct (water_day_spec t Hr (conj Hs Hu) ltac:(lia)) as [[H1 H2]|(H1 & n & H2 & H3 & H4)].
  - exfalso. destruct (Z.ltb_spec (d_month t) 10); lia.
  - set (wy := if d_month t <? 10 then d_year t else d_year t + 1) in *.
    exists n, wy. split; [exact H2|]. split; [exact H3|].
    assert (Hn : 0 <= n) by (apply days_later_ord in H3; [tauto|apply real_date_oct1]).
    repeat split; try assumption.
    + destruct (is_leap_year wy); lia.
    + intros Hl. destruct (leapP wy); [tauto|lia].
    + subst wy. intros. destruct (Z.ltb_spec (d_month t) 10); lia.
    + subst wy. intros. destruct (Z.ltb_spec (d_month t) 10); lia.
Qed.

Lemma water_day_first_year t : real_date (mkD (d_year t) (d_month t) (d_day t)) ->
  0 <= d_sec t < 86400 -> 0 <= d_us t < 1000000 -> d_year t = 1 -> d_month t < 10 ->
  water_day t = None.
Proof.
  intros Hr Hs Hu Hy Hm.
  destruct (water_day_spec t Hr (conj Hs Hu) ltac:(lia)) as [[H1 H2]|(H1 & n & H2 & H3 & H4)].
  - exact H2.
  - exfalso. destruct (Z.ltb_spec (d_month t) 10); lia.
Qed.

Lemma days_later_det a n n' b : real_date a -> days_later a n b -> days_later a n' b -> n = n'.
Proof.
  intros Ha H H'. apply days_later_ord in H; [|exact Ha]. apply days_later_ord in H'; [|exact Ha]. lia.
Qed.

Lemma water_day_next t t' dd wy : water_day t = Some (dd, wy) ->
  0 <= d_sec t < 86400 -> 0 <= d_us t < 1000000 -> 1 <= d_year t -> d_year t' <= 9999 ->
  d_sec t' = d_sec t -> 0 <= d_us t' < 1000000 ->
  tomorrow (mkD (d_year t) (d_month t) (d_day t)) (mkD (d_year t') (d_month t') (d_day t')) ->
  (d_month t' = 10 /\ d_day t' = 1 /\ water_day t' = Some ((0 + (d_sec t # 86400))%Q, wy + 1)) \/
  (~ (d_month t' = 10 /\ d_day t' = 1) /\
   exists dd', water_day t' = Some (dd', wy) /\ (dd' == dd + 1)%Q).
Proof.
  intros H Hs Hu Hy Hy' Es Hu' Ht.
  destruct (tomorrow_real _ _ Ht) as [Hr Hr'].
  assert (Hyy : d_year t <= d_year t') by (inversion Ht; lia).
  assert (Hnot : 1 < d_year t <= 9999 \/ d_year t = 1 /\ 10 <= d_month t).
  { destruct (Z.eq_dec (d_year t) 1) as [E|]; [|lia].
    destruct (Z.leb_spec 10 (d_month t)); [lia|].
    rewrite (water_day_first_year t) in H by (auto; lia). discriminate. }
  destruct (water_day_correct t Hr Hs Hu Hnot) as (n & w & E1 & L1 & B1 & B2 & W1 & W2).
  rewrite H in E1. injection E1 as -> ->.
  assert (Hs' : 0 <= d_sec t' < 86400) by lia.
  assert (Hm' : d_year t' = 1 -> 10 <= d_month t').
  { intros E. assert (d_year t = 1) by lia. destruct Hnot as [?|[_ Hm]]; [lia|].
    inversion Ht; subst; lia. }
  destruct (water_day_correct t' Hr' Hs' Hu' ltac:(lia)) as (n' & w' & E2 & L2 & _ & _ & W1' & W2').
  rewrite Es in E2.
  assert (Cases : (d_month t' = 10 /\ d_day t' = 1 /\ d_month t < 10 /\ w' = w + 1) \/
                  (~ (d_month t' = 10 /\ d_day t' = 1) /\ w' = w)).
  { clear - Ht W1 W2 W1' W2'.
    remember (mkD (d_year t) (d_month t) (d_day t)) as a eqn:Ea.
    remember (mkD (d_year t') (d_month t') (d_day t')) as b eqn:Eb.
    destruct Ht as [y m d nn Hmh Hd|y m nn Hmh Hm|y];
      injection Ea; injection Eb; clear Ea Eb; intros.
    - right. split; [lia|]. destruct (Z.ltb_spec (d_month t) 10).
      + rewrite W1, W1' by lia. lia.
      + rewrite W2, W2' by lia. lia.
    - destruct (Z.eq_dec (d_month t) 9) as [E9|].
      + left. specialize (W1 ltac:(lia)). specialize (W2' ltac:(lia)). repeat split; lia.
      + right. split; [lia|]. destruct (Z.ltb_spec (d_month t) 10).
        * rewrite W1, W1' by lia. lia.
        * rewrite W2, W2' by lia. lia.
    - right. split; [lia|]. rewrite W2, W1' by lia. lia. }
  destruct Cases as [(C1 & C2 & C3 & ->)|(C1 & ->)].
  - left. split; [exact C1|]. split; [exact C2|]. rewrite E2.
    rewrite C1, C2 in L2. specialize (W2' ltac:(lia)).
    assert (n' = 0).
    { eapply days_later_det; [|exact L2|].
      - apply real_date_oct1.
      - rewrite W2'. replace (d_year t' + 1 - 1) with (d_year t') by lia. constructor. }
    subst n'. reflexivity.
  - right. split; [exact C1|]. exists (inject_Z n' + (d_sec t # 86400))%Q.
    split; [exact E2|].
    assert (n' = n + 1).
    { eapply days_later_det; [|exact L2|].
      - apply real_date_oct1.
      - econstructor; [exact L1|exact Ht]. }
    subst n'. rewrite inject_Z_plus. ring.
Qed.

Lemma ephemeris_day_wrong :
  exists y m d n, real_date (mkD y m d) /\ days_later (mkD 1900 1 1) n (mkD y m d) /\
    ephemeris_day y m d <> Some (n + 1).
Proof.
  assert (Hr : real_date (mkD 2101 1 1)) by apply real_date_jan1.
  exists 2101, 1, 1, (ordinal 2101 1 1 - ordinal 1900 1 1). split; [exact Hr|].
  assert (Hl : days_later (mkD 1900 1 1) (ordinal 2101 1 1 - ordinal 1900 1 1) (mkD 2101 1 1)).
  { apply days_later_iff; auto using real_date_jan1. split; [vm_compute; discriminate|reflexivity]. }
  split; [exact Hl|]. rewrite (ephemeris_day_late 2101 1 1 _ ltac:(lia) Hr Hl).
  vm_compute. discriminate.
Qed.
