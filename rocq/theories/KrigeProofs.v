From Coq Require Import List Arith Bool QArith Qcanon Lia Sorted.
From Verif Require Import Num KrigeModel KrigeSpec LuProofs.
Import ListNotations.
Local Open Scope Qc_scope.

Lemma sum_over_ext K f g : (forall m, In m K -> f m = g m) -> sum_over K f = sum_over K g.
Proof.
  induction K as [|m K IH]; intros H; simpl; [reflexivity|]. rewrite H by now left. rewrite IH; [reflexivity|].
  intros p Hp. apply H. now right.
Qed.
Lemma sum_over_sumr K f : sum_over K f = sumr 0 (length K) (fun c => f (nth_act K c)).
Proof.
  unfold nth_act. induction K as [|m K IH]; simpl; [reflexivity|]. f_equal. rewrite IH.
  assert (G : forall cnt lo, sumr lo cnt (fun c => f (nth c K 0%nat)) = sumr (S lo) cnt (fun c => f (match c with O => m | S n => nth n K 0%nat end))).
  { induction cnt as [|c IHc]; intros lo; simpl; [reflexivity|]. f_equal. apply IHc. }
  apply G.
Qed.
Lemma weight_of_nth x K : NoDup K -> forall c mm, (c < length K)%nat -> weight_of x mm K (nth_act K c) = x (mm + c)%nat.
Proof.
  unfold nth_act. induction 1 as [|m K Hm Hn IH]; intros c mm Hc; simpl in *; [lia|].
  destruct c as [|c].
  - rewrite Nat.eqb_refl. f_equal. lia.
  - destruct (Nat.eqb_spec m (nth c K 0%nat)) as [E|N].
    + exfalso. apply Hm. rewrite E. apply nth_In. lia.
    + rewrite IH by lia. f_equal. lia.
Qed.
Lemma weight_of_out x K m : ~ In m K -> forall mm, weight_of x mm K m = 0.
Proof.
  induction K as [|k K IH]; intros H mm; simpl; [reflexivity|]. destruct (Nat.eqb_spec k m) as [->|N].
  - exfalso. apply H. now left.
  - apply IH. intros Hi. apply H. now right.
Qed.
Lemma in_nth_act K m : In m K -> exists c, (c < length K)%nat /\ nth_act K c = m.
Proof. intros H. destruct (In_nth K m 0%nat H) as (c & Hc & E). exists c. auto. Qed.

(** the equations in terms of the stations *)
Lemma system_solves ad d K x : NoDup K ->
  (solves (S (length K)) (kriging_system ad K)
     (fun r => if Nat.ltb r (length K) then d (nth_act K r) else 1) x <->
   sum_over K (weight_of x 0 K) = 1 /\
   forall m, In m K -> sum_over K (fun n => ad m n * weight_of x 0 K n) + x (length K) = d m).
Proof.
  intros ND. set (ns := length K).
  assert (R1 : forall r, (r < ns)%nat ->
     sum (S ns) (fun c => kriging_system ad K r c * x c) =
     sum_over K (fun n => ad (nth_act K r) n * weight_of x 0 K n) + x ns).
  { intros r Hr. unfold sum. rewrite sumr_last. rewrite sum_over_sumr. f_equal.
    - apply sumr_ext. intros c Hc. rewrite weight_of_nth by (auto; lia). unfold kriging_system. fold ns.
      destruct (Nat.ltb_spec r ns), (Nat.ltb_spec c ns); try lia. reflexivity.
    - unfold kriging_system. fold ns. simpl. destruct (Nat.ltb_spec r ns); [|lia]. rewrite Nat.ltb_irrefl. ring. }
  assert (R2 : sum (S ns) (fun c => kriging_system ad K ns c * x c) = sum_over K (weight_of x 0 K)).
  { unfold sum. rewrite sumr_last. rewrite sum_over_sumr. simpl. unfold kriging_system at 2. fold ns.
    rewrite !Nat.ltb_irrefl. rewrite Qcmult_0_l, Qcplus_0_r. apply sumr_ext. intros c Hc.
    rewrite weight_of_nth by (auto; lia). unfold kriging_system. fold ns. rewrite Nat.ltb_irrefl.
    destruct (Nat.ltb_spec c ns); [simpl; ring|lia]. }
  split.
  - intros H. split.
    + rewrite <- R2. rewrite (H ns) by lia. now rewrite Nat.ltb_irrefl.
    + intros m Hm. destruct (in_nth_act K m Hm) as (r & Hr & <-). rewrite <- R1 by exact Hr. rewrite (H r) by (fold ns in Hr; lia).
      fold ns in Hr. destruct (Nat.ltb_spec r ns); [reflexivity|lia].
  - intros (H1 & H2) r Hr. destruct (Nat.eq_dec r ns) as [->|N].
    + rewrite R2, Nat.ltb_irrefl. exact H1.
    + rewrite R1 by lia. destruct (Nat.ltb_spec r ns); [|lia]. apply H2. unfold nth_act. apply nth_In. fold ns. lia.
Qed.

Lemma solves_ext n M M' b b' x : (forall r c, (r < n)%nat -> (c < n)%nat -> M r c = M' r c) ->
  (forall r, (r < n)%nat -> b r = b' r) -> solves n M b x -> solves n M' b' x.
Proof.
  intros HM Hb H r Hr. rewrite <- Hb by exact Hr. rewrite <- (H r Hr). unfold sum. apply sumr_ext.
  intros c Hc. rewrite HM by lia. reflexivity.
Qed.
Lemma nonsingular_ext n M M' : (forall r c, (r < n)%nat -> (c < n)%nat -> M r c = M' r c) -> nonsingular n M -> nonsingular n M'.
Proof.
  intros HM H b. destruct (H b) as ((x & Hx) & U). split.
  - exists x. revert Hx. apply solves_ext; auto.
  - intros y z Hy Hz. apply U.
    + revert Hy. apply solves_ext; auto. intros; symmetry; auto.
    + revert Hz. apply solves_ext; auto. intros; symmetry; auto.
Qed.

Lemma krige_matrix_sys ad d K r c : (r < S (length K))%nat -> (c < S (length K))%nat ->
  krige_matrix ad d K r c = kriging_system ad K r c.
Proof.
  intros Hr Hc. unfold krige_matrix, kriging_system, nth_act.
  destruct (Nat.ltb_spec r (length K)), (Nat.ltb_spec c (length K)); try reflexivity;
    destruct (Nat.eqb_spec c (length K)); try lia; reflexivity.
Qed.
Lemma krige_matrix_rhs ad d K r : (r < S (length K))%nat ->
  krige_matrix ad d K r (S (length K)) = if Nat.ltb r (length K) then d (nth_act K r) else 1.
Proof.
  intros Hr. unfold krige_matrix. destruct (Nat.ltb_spec r (length K)).
  - destruct (Nat.ltb_spec (S (length K)) (length K)); [lia|].
    destruct (Nat.eqb_spec (S (length K)) (length K)); [lia|reflexivity].
  - destruct (Nat.ltb_spec (S (length K)) (length K)); [lia|].
    destruct (Nat.eqb_spec (S (length K)) (length K)); [lia|reflexivity].
Qed.

Lemma solve_fails ad d K : lusolv (length K + 1) (krige_matrix ad d K) = None <->
  ~ nonsingular (S (length K)) (kriging_system ad K).
Proof.
  rewrite Nat.add_1_r. rewrite lusolv_fails. split; intros H N; apply H; revert N; apply nonsingular_ext.
  - intros r c Hr Hc. symmetry. now apply krige_matrix_sys.
  - intros r c Hr Hc. now apply krige_matrix_sys.
Qed.
Lemma solve_weights ad d K x : NoDup K -> (forall m, In m K -> 0 <= d m) ->
  lusolv (length K + 1) (krige_matrix ad d K) = Some x ->
  nonsingular (S (length K)) (kriging_system ad K) /\ kriging_weights ad d K (weight_of x 0 K).
Proof.
  intros ND Hd E. split.
  - destruct (lusolv_fails (length K + 1) (krige_matrix ad d K)) as (_ & F).
    unfold lusolv in E. destruct (ludcmp (length K + 1) (krige_matrix ad d K)) as [s|] eqn:El; [|discriminate].
    rewrite Nat.add_1_r in El. apply ludcmp_some, lu_nonsingular in El. revert El. apply nonsingular_ext.
    intros r c Hr Hc. now apply krige_matrix_sys.
  - rewrite Nat.add_1_r in E. apply lusolv_solves in E.
    + apply (solves_ext _ _ (kriging_system ad K) _ (fun r => if Nat.ltb r (length K) then d (nth_act K r) else 1)) in E.
      * apply system_solves in E; [|exact ND]. destruct E as (E1 & E2). split; [exact E1|]. exists (x (length K)). exact E2.
      * intros r c Hr Hc. now apply krige_matrix_sys.
      * intros r Hr. now apply krige_matrix_rhs.
    + intros r Hr. rewrite krige_matrix_rhs by exact Hr. destruct (Nat.ltb_spec r (length K)); [|discriminate].
      apply Hd. unfold nth_act. now apply nth_In.
Qed.

(** uniqueness of the weights *)
Lemma weights_unique ad d K w w' : NoDup K -> nonsingular (S (length K)) (kriging_system ad K) ->
  kriging_weights ad d K w -> kriging_weights ad d K w' -> forall m, In m K -> w m = w' m.
Proof.
  intros ND NS.
  assert (Conv : forall v, kriging_weights ad d K v -> exists mu,
     solves (S (length K)) (kriging_system ad K) (fun r => if Nat.ltb r (length K) then d (nth_act K r) else 1)
            (fun c => if Nat.ltb c (length K) then v (nth_act K c) else mu)).
  { intros v (H1 & mu & H2). exists mu. apply system_solves; [exact ND|].
    assert (V : forall m, In m K -> weight_of (fun c => if Nat.ltb c (length K) then v (nth_act K c) else mu) 0 K m = v m).
    { intros m Hm. destruct (in_nth_act K m Hm) as (c & Hc & <-). rewrite weight_of_nth by auto. simpl.
      destruct (Nat.ltb_spec c (length K)); [reflexivity|lia]. }
    split.
    - rewrite <- H1. apply sum_over_ext. exact V.
    - intros m Hm. rewrite Nat.ltb_irrefl. rewrite <- (H2 m Hm). f_equal. apply sum_over_ext. intros n Hn. now rewrite V. }
  intros H H' m Hm. destruct (Conv w H) as (mu & S1). destruct (Conv w' H') as (mu' & S2).
  destruct (NS (fun r => if Nat.ltb r (length K) then d (nth_act K r) else 1)) as (_ & U).
  destruct (in_nth_act K m Hm) as (c & Hc & <-).
  specialize (U _ _ S1 S2 c ltac:(lia)). simpl in U. destruct (Nat.ltb_spec c (length K)); [exact U|lia].
Qed.

(** ** the choice of the station to give up *)
Lemma select_spec x elev : forall K mm ms es, Sorted lt K ->
  NoDup K ->
  match select x elev mm K ms es with
  | None => ms = None /\ forall c, (c < length K)%nat -> x (mm + c)%nat < 0 -> elev (nth_act K c) <= es
  | Some m =>
      (ms = Some m /\ forall c, (c < length K)%nat -> x (mm + c)%nat < 0 -> elev (nth_act K c) <= es) \/
      (exists c, (c < length K)%nat /\ m = nth_act K c /\ x (mm + c)%nat < 0 /\ es < elev m /\
       forall c', (c' < length K)%nat -> x (mm + c')%nat < 0 ->
          elev (nth_act K c') < elev m \/ (elev (nth_act K c') = elev m /\ (c <= c')%nat))
  end.
Proof.
  unfold nth_act. induction K as [|m K IH]; intros mm ms es HS HN; simpl.
  - destruct ms; [left|]; split; auto; simpl; lia.
  - inversion HS as [|? ? HS' _]; subst. inversion HN as [|? ? HN1 HN']; subst.
    assert (Skip : forall (ms' : option nat) es', (x mm < 0 -> elev m <= es') -> forall c, (c < S (length K))%nat ->
        (forall c, (c < length K)%nat -> x (S mm + c)%nat < 0 -> elev (nth c K 0%nat) <= es') ->
        x (mm + c)%nat < 0 -> elev (nth c (m :: K) 0%nat) <= es').
    { intros _ es' H0 c Hc H Hx. destruct c as [|c]; [rewrite Nat.add_0_r in Hx; now apply H0|].
      simpl. apply H; [lia|]. replace (S mm + c)%nat with (mm + S c)%nat by lia. exact Hx. }
    assert (Shift : forall es', (x mm < 0 -> elev m <= es') ->
       forall r, (exists c, (c < length K)%nat /\ r = nth c K 0%nat /\ x (S mm + c)%nat < 0 /\ es' < elev r /\
         (forall c', (c' < length K)%nat -> x (S mm + c')%nat < 0 ->
            elev (nth c' K 0%nat) < elev r \/ (elev (nth c' K 0%nat) = elev r /\ (c <= c')%nat))) ->
       exists c, (c < S (length K))%nat /\ r = nth c (m :: K) 0%nat /\ x (mm + c)%nat < 0 /\ es' < elev r /\
         (forall c', (c' < S (length K))%nat -> x (mm + c')%nat < 0 ->
            elev (nth c' (m :: K) 0%nat) < elev r \/ (elev (nth c' (m :: K) 0%nat) = elev r /\ (c <= c')%nat))).
    { intros es' H0 r (c & Hc & -> & Hx & He & Hall). exists (S c).
      split; [lia|]. split; [reflexivity|]. split; [now replace (mm + S c)%nat with (S mm + c)%nat by lia|]. split; [exact He|].
      intros c' Hc' Hx'. destruct c' as [|c'].
      - rewrite Nat.add_0_r in Hx'. left. simpl. eapply Qcle_lt_trans; [apply H0; exact Hx'|exact He].
      - replace (mm + S c')%nat with (S mm + c')%nat in Hx' by lia.
        destruct (Hall c' ltac:(lia) Hx') as [L|(L & L')]; [left; exact L|right; split; [exact L|lia]]. }
    destruct (Qcltb_spec (x mm) 0) as [Neg|Neg].
    + destruct (Qcltb_spec es (elev m)) as [Hi|Lo].
      * specialize (IH (S mm) (Some m) (elev m) HS' HN').
        destruct (select x elev (S mm) K (Some m) (elev m)) as [r|]; [|destruct IH; discriminate].
        right. destruct IH as [(E & H)|H].
        -- injection E as <-. exists 0%nat. split; [lia|]. split; [reflexivity|]. rewrite Nat.add_0_r. split; [exact Neg|]. split; [exact Hi|].
           intros c' Hc' Hx'. destruct c' as [|c']; [right; split; [reflexivity|lia]|].
           replace (mm + S c')%nat with (S mm + c')%nat in Hx' by lia.
           pose proof (H c' ltac:(lia) Hx') as Le. simpl.
           destruct (Qcle_lt_or_eq _ _ Le); [left; assumption|right; split; [assumption|lia]].
        -- apply (Shift (elev m)) in H; [|intros _; apply Qcle_refl].
           destruct H as (c & A1 & A2 & A3 & A4 & A5). exists c. repeat split; auto. eapply Qclt_trans; eauto.
      * apply Qcnot_lt_le in Lo. specialize (IH (S mm) ms es HS' HN').
        destruct (select x elev (S mm) K ms es) as [r|].
        -- destruct IH as [(E & H)|H].
           ++ left. split; [exact E|]. intros c Hc. apply (Skip ms es); auto.
           ++ right. apply (Shift es); auto.
        -- destruct IH as (E & H). split; [exact E|]. intros c Hc. apply (Skip ms es); auto.
    + specialize (IH (S mm) ms es HS' HN').
      destruct (select x elev (S mm) K ms es) as [r|].
      * destruct IH as [(E & H)|H].
        -- left. split; [exact E|]. intros c Hc. apply (Skip ms es); tauto.
        -- right. apply (Shift es); tauto.
      * destruct IH as (E & H). split; [exact E|]. intros c Hc. apply (Skip ms es); tauto.
Qed.

Lemma sorted_nth_le K : Sorted lt K -> forall c c', (c <= c')%nat -> (c' < length K)%nat -> (nth_act K c <= nth_act K c')%nat.
Proof.
  unfold nth_act. intros HS. apply Sorted_StronglySorted in HS; [|intros a b c; lia].
  induction HS as [|m K HS IH F]; intros c c' Hc Hc'; simpl in *; [lia|].
  destruct c as [|c], c' as [|c']; try lia.
  - rewrite Forall_forall in F. apply Nat.lt_le_incl. apply F. apply nth_In. lia.
  - apply IH; lia.
Qed.
Lemma sorted_nodup K : Sorted lt K -> NoDup K.
Proof.
  intros HS. apply Sorted_StronglySorted in HS; [|intros a b c; lia].
  induction HS as [|m K HS IH F]; constructor; [|exact IH].
  intros H. rewrite Forall_forall in F. specialize (F m H). lia.
Qed.

Lemma select_worst x elev K : Sorted lt K ->
  match select x elev 0 K None 0 with
  | None => forall m, In m K -> weight_of x 0 K m < 0 -> elev m <= 0
  | Some m => worst elev K (weight_of x 0 K) m
  end.
Proof.
  intros HS. pose proof (sorted_nodup K HS) as ND. pose proof (select_spec x elev K 0 None 0 HS ND) as H.
  destruct (select x elev 0 K None 0) as [m|].
  - destruct H as [(E & _)|(c & Hc & -> & Hx & He & Hall)]; [discriminate|]. split; [|split; [|split]].
    + unfold nth_act. now apply nth_In.
    + now rewrite weight_of_nth.
    + exact He.
    + intros p Hp Hw. destruct (in_nth_act K p Hp) as (c' & Hc' & <-). rewrite weight_of_nth in Hw by auto.
      destruct (Hall c' Hc' Hw) as [L|(L & L')]; [left; exact L|right; split; [exact L|]]. now apply sorted_nth_le.
  - destruct H as (_ & H). intros m Hm Hw. destruct (in_nth_act K m Hm) as (c & Hc & <-).
    rewrite weight_of_nth in Hw by auto. now apply H.
Qed.

Lemma worst_unique elev K w m m' : worst elev K w m -> worst elev K w m' -> m = m'.
Proof.
  intros (I1 & W1 & E1 & A1) (I2 & W2 & E2 & A2).
  destruct (A1 m' I2 W2) as [L|(L & L')], (A2 m I1 W1) as [M|(M & M')].
  - exfalso. eapply Qclt_not_le; [exact L|]. now apply Qclt_le_weak.
  - rewrite M in L. exfalso. eapply Qclt_not_le; [exact L|apply Qcle_refl].
  - rewrite L in M. exfalso. eapply Qclt_not_le; [exact M|apply Qcle_refl].
  - lia.
Qed.

(** ** the loop *)
Lemma filter_remove m K : filter (fun x => negb (Nat.eqb x m)) K = remove Nat.eq_dec m K.
Proof.
  induction K as [|k K IH]; simpl; [reflexivity|]. destruct (Nat.eq_dec m k) as [->|N].
  - rewrite Nat.eqb_refl. simpl. exact IH.
  - rewrite (proj2 (Nat.eqb_neq k m)) by congruence. simpl. now rewrite IH.
Qed.
Lemma remove_sorted m K : Sorted lt K -> Sorted lt (remove Nat.eq_dec m K).
Proof.
  intros HS. apply Sorted_StronglySorted in HS; [|intros a b c; lia]. apply StronglySorted_Sorted.
  induction HS as [|k K HS IH F]; simpl; [constructor|]. destruct (Nat.eq_dec m k); [exact IH|].
  constructor; [exact IH|]. rewrite Forall_forall in *. intros y Hy. apply F. apply (in_remove Nat.eq_dec) in Hy. tauto.
Qed.

Lemma krige_loop_spec ad d elev : forall fuel K, (length K < fuel)%nat -> Sorted lt K -> (forall m, In m K -> 0 <= d m) ->
  match krige_loop fuel ad d elev K with
  | Fuel => False
  | Exit => exists K', gives_up ad d elev K K' /\ ~ nonsingular (S (length K')) (kriging_system ad K')
  | Weights w => exists K', gives_up ad d elev K K' /\ nonsingular (S (length K')) (kriging_system ad K') /\
       kriging_weights ad d K' w /\ (forall m, ~ In m K' -> w m = 0) /\ (forall m, In m K' -> w m < 0 -> elev m <= 0)
  end.
Proof.
  induction fuel as [|fuel IH]; intros K Hf HS Hd; [lia|]. cbn [krige_loop].
  pose proof (sorted_nodup K HS) as ND.
  destruct (lusolv (length K + 1) (krige_matrix ad d K)) as [x|] eqn:E.
  - pose proof (solve_weights ad d K x ND Hd E) as (NS & KW). pose proof (select_worst x elev K HS) as SW.
    destruct (select x elev 0 K None 0) as [m|].
    + rewrite filter_remove.
      assert (Hlen : (length (remove Nat.eq_dec m K) < length K)%nat) by (apply remove_length_lt; apply SW).
      specialize (IH (remove Nat.eq_dec m K) ltac:(lia) (remove_sorted m K HS)).
      assert (Hd' : forall p, In p (remove Nat.eq_dec m K) -> 0 <= d p).
      { intros p Hp. apply Hd. apply (in_remove Nat.eq_dec) in Hp. tauto. }
      specialize (IH Hd'). destruct (krige_loop fuel ad d elev (remove Nat.eq_dec m K)); auto.
      * destruct IH as (K' & G & Rest). exists K'. split; [|exact Rest]. now apply (give_up_one ad d elev K (weight_of x 0 K) m).
      * destruct IH as (K' & G & Rest). exists K'. split; [|exact Rest]. now apply (give_up_one ad d elev K (weight_of x 0 K) m).
    + exists K. split; [constructor|]. split; [exact NS|]. split; [exact KW|]. split; [|exact SW].
      intros m Hm. now apply weight_of_out.
  - apply solve_fails in E. exists K. split; [constructor|exact E].
Qed.

Lemma krige_never_fuel ad d elev : forall fuel K, (length K < fuel)%nat -> krige_loop fuel ad d elev K <> Fuel.
Proof.
  induction fuel as [|fuel IH]; intros K Hf; [lia|]. cbn [krige_loop].
  destruct (lusolv (length K + 1) (krige_matrix ad d K)) as [x|]; [|discriminate].
  destruct (select x elev 0 K None 0) as [m|] eqn:E; [|discriminate]. rewrite filter_remove. apply IH.
  assert (In m K).
  { revert E. assert (G : forall L mm ms es, select x elev mm L ms es = Some m -> In m L \/ ms = Some m).
    { induction L as [|k L IHL]; intros mm ms es; simpl; [auto|].
      destruct (Qcltb (x mm) 0); [destruct (Qcltb es (elev k))|]; intros H; apply IHL in H; destruct H as [H|H]; auto.
      injection H as ->. auto. }
    intros H. apply G in H. destruct H as [H|H]; [exact H|discriminate]. }
  pose proof (remove_length_lt Nat.eq_dec K m H). lia.
Qed.

Lemma gives_up_incl ad d elev K K' : gives_up ad d elev K K' -> incl K' K /\ (Sorted lt K -> Sorted lt K') /\
  (forall m, In m K -> ~ In m K' -> 0 < elev m).
Proof.
  induction 1 as [K|K w m K' NS KW W G (I1 & I2 & I3)].
  - split; [apply incl_refl|]. split; auto. tauto.
  - split; [|split].
    + intros p Hp. apply I1 in Hp. apply (in_remove Nat.eq_dec) in Hp. tauto.
    + intros HS. apply I2. now apply remove_sorted.
    + intros p Hp Hn. destruct (Nat.eq_dec p m) as [->|N]; [apply W|]. apply I3; [|exact Hn].
      now apply in_in_remove.
Qed.
Lemma weights_nonempty ad d K w : kriging_weights ad d K w -> K <> [].
Proof. intros (H & _) ->. discriminate. Qed.

(** the sequence of sets is determined *)
Lemma gives_up_confluent ad d elev K K1 : Sorted lt K -> gives_up ad d elev K K1 -> forall K2, gives_up ad d elev K K2 ->
  gives_up ad d elev K1 K2 \/ gives_up ad d elev K2 K1.
Proof.
  intros HS G. revert HS. induction G as [K|K w m K1 NS KW W G IH]; intros HS K2 G2; [now left|].
  destruct G2 as [K|K w2 m2 K2 NS2 KW2 W2 G2].
  - right. eapply give_up_one; eauto.
  - assert (m2 = m).
    { pose proof (weights_unique ad d K w w2 (sorted_nodup K HS) NS KW KW2) as U.
      apply (worst_unique elev K w); [|exact W]. destruct W2 as (A & B & C & D). split; [exact A|]. split; [now rewrite (U m2 A)|]. split; [exact C|].
      intros p Hp Hw. apply D; [exact Hp|]. now rewrite <- (U p Hp). }
    subst m2. apply IH; [now apply remove_sorted|exact G2].
Qed.

Lemma seq_sorted n lo : Sorted lt (seq lo n).
Proof.
  revert lo. induction n as [|n IH]; intros lo; simpl; constructor; [apply IH|].
  destruct n; simpl; constructor. lia.
Qed.

Lemma krige_spec nsta ad d elev : (forall m, (m < nsta)%nat -> 0 <= d m) ->
  match krige nsta ad d elev with
  | Fuel => False
  | Exit => exists K, gives_up ad d elev (seq 0 nsta) K /\ ~ nonsingular (S (length K)) (kriging_system ad K)
  | Weights w => exists K, gives_up ad d elev (seq 0 nsta) K /\ nonsingular (S (length K)) (kriging_system ad K) /\
       kriging_weights ad d K w /\ (forall m, ~ In m K -> w m = 0) /\ (forall m, In m K -> w m < 0 -> elev m <= 0)
  end.
Proof.
  intros Hd. unfold krige. apply krige_loop_spec.
  - rewrite seq_length. lia.
  - apply seq_sorted.
  - intros m Hm. apply in_seq in Hm. apply Hd. lia.
Qed.

Lemma sum_over_support K all w : Sorted lt K -> incl K all -> NoDup all -> (forall m, ~ In m K -> w m = 0) ->
  sum_over all w = sum_over K w.
Proof.
  intros HS Hi ND Hw. pose proof (sorted_nodup K HS) as NK. clear HS.
  revert w all Hi ND Hw. induction K as [|k K IH]; intros w all Hi ND Hw.
  - simpl. clear Hi ND. induction all as [|a all IHa]; simpl; [reflexivity|]. rewrite IHa. rewrite Hw by auto. ring.
  - inversion NK as [|? ? N1 N2]; subst. destruct (in_split k all) as (l1 & l2 & ->); [apply Hi; now left|].
    apply NoDup_remove in ND as ND'. destruct ND' as (ND1 & ND2).
    assert (E : sum_over (l1 ++ k :: l2) w = w k + sum_over (l1 ++ l2) w).
    { clear. induction l1 as [|a l1 IHl]; simpl; [reflexivity|]. rewrite IHl. ring. }
    rewrite E. simpl. f_equal.
    (* the value at k does not matter any more *)
    set (w' := fun m => if Nat.eqb m k then 0 else w m).
    assert (E1 : forall l, ~ In k l -> sum_over l w = sum_over l w').
    { intros l Hl. apply sum_over_ext. intros m Hm. unfold w'. destruct (Nat.eqb_spec m k) as [->|]; [contradiction|reflexivity]. }
    rewrite (E1 (l1 ++ l2)) by exact ND2. rewrite (E1 K) by exact N1. apply IH; auto.
    + intros m Hm. specialize (Hi m (or_intror Hm)). apply in_app_iff in Hi. apply in_app_iff. simpl in Hi.
      destruct Hi as [Hi|[Hi|Hi]]; [left; exact Hi|subst; contradiction|right; exact Hi].
    + intros m Hm. unfold w'. destruct (Nat.eqb_spec m k) as [->|Nk]; [reflexivity|]. apply Hw. simpl. intros [E2|E2]; [congruence|contradiction].
Qed.

Lemma krige_weights nsta ad d elev w : (forall m, (m < nsta)%nat -> 0 <= d m) -> krige nsta ad d elev = Weights w ->
  exists K, gives_up ad d elev (seq 0 nsta) K /\ Sorted lt K /\ K <> [] /\ incl K (seq 0 nsta) /\
    nonsingular (S (length K)) (kriging_system ad K) /\
    kriging_weights ad d K w /\ (forall m, ~ In m K -> w m = 0) /\ (forall m, In m K -> w m < 0 -> elev m <= 0) /\
    (forall m, (m < nsta)%nat -> ~ In m K -> 0 < elev m) /\
    sum_over (seq 0 nsta) w = 1.
Proof.
  intros Hd E. pose proof (krige_spec nsta ad d elev Hd) as H. rewrite E in H.
  destruct H as (K & G & NS & KW & W0 & WN). destruct (gives_up_incl ad d elev _ _ G) as (I1 & I2 & I3).
  specialize (I2 (seq_sorted nsta 0)).
  exists K. split; [exact G|]. split; [exact I2|]. split; [eapply weights_nonempty; eauto|]. split; [exact I1|].
  split; [exact NS|]. split; [exact KW|]. split; [exact W0|]. split; [exact WN|]. split.
  - intros m Hm Hn. apply I3; [|exact Hn]. apply in_seq. lia.
  - rewrite (sum_over_support K (seq 0 nsta) w); auto; [apply KW|apply seq_NoDup].
Qed.

(** co-located stations *)
Lemma colocated_exit nsta ad d elev i j : colocated nsta ad i j -> krige nsta ad d elev = Exit.
Proof.
  intros (Hi & Hj & Nij & Had). unfold krige. cbn [krige_loop].
  replace (lusolv (length (seq 0 nsta) + 1) (krige_matrix ad d (seq 0 nsta))) with (@None (nat -> Qc)); [reflexivity|].
  symmetry. apply solve_fails. rewrite seq_length. intros NS.
  destruct (NS (fun r => if Nat.eqb r i then 1 else 0)) as ((x & Hx) & _).
  pose proof (Hx i ltac:(lia)) as E1. pose proof (Hx j ltac:(lia)) as E2. simpl in E1, E2.
  rewrite Nat.eqb_refl in E1. rewrite (proj2 (Nat.eqb_neq j i)) in E2 by auto.
  assert (E : sum (S nsta) (fun c => kriging_system ad (seq 0 nsta) i c * x c) =
              sum (S nsta) (fun c => kriging_system ad (seq 0 nsta) j c * x c)).
  { unfold sum. apply sumr_ext. intros c Hc. f_equal. unfold kriging_system. rewrite seq_length.
    destruct (Nat.ltb_spec i nsta), (Nat.ltb_spec j nsta); try lia.
    destruct (Nat.ltb_spec c nsta); [|reflexivity]. rewrite !seq_nth by lia. simpl. apply Had. lia. }
  rewrite E, E2 in E1. discriminate.
Qed.

(** a cell at a station *)
Lemma exact_at_station nsta ad d elev m0 : (m0 < nsta)%nat ->
  (forall m, (m < nsta)%nat -> d m = ad m m0 /\ 0 <= d m) ->
  krige nsta ad d elev <> Exit ->
  exists w, krige nsta ad d elev = Weights w /\ forall m, w m = if Nat.eqb m m0 then 1 else 0.
Proof.
  intros Hm0 Hd. unfold krige. cbn [krige_loop]. set (all := seq 0 nsta).
  assert (HS : Sorted lt all) by apply seq_sorted. pose proof (sorted_nodup all HS) as ND.
  assert (In0 : In m0 all) by (apply in_seq; lia).
  destruct (lusolv (length all + 1) (krige_matrix ad d all)) as [x|] eqn:E; [|congruence]. intros _.
  destruct (solve_weights ad d all x ND) as (NS & KW); [intros m Hm; apply in_seq in Hm; apply Hd; lia|exact E|].
  set (e := fun m => if Nat.eqb m m0 then 1 else 0).
  assert (Se : forall g, sum_over all (fun n => g n * e n) = g m0).
  { intros g. clear - In0 ND. induction all as [|a all IH]; [destruct In0|]. inversion ND as [|? ? N1 N2]; subst. simpl. unfold e at 1.
    destruct In0 as [->|In0].
    - rewrite Nat.eqb_refl. replace (sum_over all (fun n => g n * e n)) with 0; [ring|].
      rewrite (sum_over_ext all _ (fun _ => 0)).
      + clear. induction all as [|a all IH]; simpl; [reflexivity|]. rewrite <- IH. ring.
      + intros n Hn. unfold e. destruct (Nat.eqb_spec n m0) as [->|]; [contradiction|ring].
    - destruct (Nat.eqb_spec a m0) as [->|N]; [contradiction|]. rewrite IH by auto. ring. }
  assert (KE : kriging_weights ad d all e).
  { split.
    - rewrite (sum_over_ext all e (fun n => 1 * e n)) by (intros; ring). apply Se.
    - exists 0. intros m Hm. rewrite Se. destruct (Hd m) as (-> & _); [apply in_seq in Hm; lia|]. ring. }
  pose proof (weights_unique ad d all _ _ ND NS KW KE) as U.
  pose proof (select_worst x elev all HS) as SW. destruct (select x elev 0 all None 0) as [m|].
  - exfalso. destruct SW as (A & B & _). rewrite U in B by exact A. unfold e in B. destruct (Nat.eqb m m0); discriminate.
  - exists (weight_of x 0 all). split; [reflexivity|]. intros m. destruct (in_dec Nat.eq_dec m all) as [I|N].
    + now apply U.
    + rewrite weight_of_out by exact N. destruct (Nat.eqb_spec m m0) as [->|]; [contradiction|reflexivity].
Qed.
