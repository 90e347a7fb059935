From Coq Require Import ZArith List Bool QArith Qcanon Lia FinFun.
From Verif Require Import Num WindowModel.
Import ListNotations.
Local Open Scope Z_scope.

Lemma directions_spec inc e : 0 < inc -> In e (directions inc) <-> 0 <= e < 360 /\ e mod inc = 0.
Proof.
  intros Hi. unfold directions. rewrite in_map_iff. split.
  - intros (k & <- & Hk). apply in_seq in Hk. rewrite Z.mul_comm, Z.mod_mul by lia. split; [|reflexivity].
    split; [nia|]. assert (Z.of_nat k < (360 + inc - 1) / inc) by lia.
    assert (Z.of_nat k + 1 <= (360 + inc - 1) / inc) as L by lia.
    pose proof (Z.mul_div_le (360 + inc - 1) inc Hi). nia.
  - intros ((E0 & E1) & E2). exists (Z.to_nat (e / inc)). pose proof (Z.div_mod e inc ltac:(lia)) as D.
    assert (0 <= e / inc) by (apply Z.div_pos; lia). rewrite Z2Nat.id by assumption. split; [lia|]. apply in_seq. split; [lia|].
    cbn [plus]. apply Z2Nat.inj_lt; try lia.
    + apply Z.div_pos; lia.
    + apply Z.div_lt_upper_bound; [lia|]. pose proof (Z.mul_succ_div_gt (360 + inc - 1) inc Hi). lia.
Qed.
Lemma arange_spec start stop step a : 0 < step -> In a (arange start stop step) <-> start <= a < stop /\ (a - start) mod step = 0.
Proof.
  intros Hs. unfold arange. rewrite in_map_iff. split.
  - intros (k & <- & Hk). apply in_seq in Hk. replace (start + step * Z.of_nat k - start) with (Z.of_nat k * step) by ring.
    rewrite Z.mod_mul by lia. split; [|reflexivity]. split; [nia|].
    assert (Z.of_nat k < (stop - start + step - 1) / step) by lia.
    pose proof (Z.mul_div_le (stop - start + step - 1) step Hs). nia.
  - intros ((A0 & A1) & A2). exists (Z.to_nat ((a - start) / step)). pose proof (Z.div_mod (a - start) step ltac:(lia)) as D.
    assert (0 <= (a - start) / step) by (apply Z.div_pos; lia). rewrite Z2Nat.id by assumption. split; [lia|]. apply in_seq. split; [lia|].
    cbn [plus]. apply Z2Nat.inj_lt; try lia.
    + apply Z.div_pos; lia.
    + apply Z.div_lt_upper_bound; [lia|]. pose proof (Z.mul_succ_div_gt (stop - start + step - 1) step Hs). lia.
Qed.
Lemma included_spec inc width d e : 0 < inc -> included inc width d e = true <->
  exists a, 2 * d - width <= a <= 2 * d + width + 1 /\ (a - (2 * d - width)) mod (2 * inc) = 0 /\ wrap a = 2 * e.
Proof.
  intros Hi. unfold included. rewrite existsb_exists. unfold window. split.
  - intros (x & Hx & E). apply Z.eqb_eq in E. apply in_map_iff in Hx. destruct Hx as (a & <- & Ha).
    apply arange_spec in Ha; [|lia]. exists a. split; [lia|]. split; [tauto|lia].
  - intros (a & A1 & A2 & A3). exists (2 * e). split; [|apply Z.eqb_refl]. apply in_map_iff. exists a. split; [exact A3|].
    apply arange_spec; [lia|]. split; [lia|exact A2].
Qed.
(** the window is a multiple of the spacing on either side *)
Lemma aligned inc q d e : 0 < inc -> 360 mod inc = 0 -> 0 <= q -> q * inc < 360 -> In d (directions inc) -> In e (directions inc) ->
  included inc (2 * q * inc) d e = true <->
  Z.abs (e - d) <= q * inc \/ d + 360 - e <= q * inc \/ (e + 360 - d <= q * inc /\ e <> 0).
Proof.
  intros Hi H360 Hq Hw Hd He. apply directions_spec in Hd; [|exact Hi]. apply directions_spec in He; [|exact Hi].
  rewrite included_spec by exact Hi.
  apply Z.mod_divide in H360; [|lia]. destruct H360 as (c & Hc).
  destruct Hd as (Hd & Dd). apply Z.mod_divide in Dd; [|lia]. destruct Dd as (x & ->).
  destruct He as (He & De). apply Z.mod_divide in De; [|lia]. destruct De as (y & ->).
  assert (M : forall k, (2 * (k * inc) - (2 * (x * inc) - 2 * q * inc)) mod (2 * inc) = 0).
  { intros k. replace (2 * (k * inc) - (2 * (x * inc) - 2 * q * inc)) with ((k - x + q) * (2 * inc)) by ring. apply Z.mod_mul. lia. }
  split.
  - intros (a & A1 & A2 & A3). unfold wrap in A3.
    apply Z.mod_divide in A2; [|lia]. destruct A2 as (k & A2).
    destruct (Z.ltb_spec a 0); [destruct (Z.ltb_spec 720 (a + 720))|destruct (Z.ltb_spec 720 a)]; nia.
  - intros [H|[H|[H N]]].
    + exists (2 * (y * inc)). split; [lia|]. split; [apply M|]. unfold wrap.
      destruct (Z.ltb_spec (2 * (y * inc)) 0); [lia|]. destruct (Z.ltb_spec 720 (2 * (y * inc))); lia.
    + exists (2 * ((y - c) * inc)). split; [lia|]. split; [apply M|]. unfold wrap.
      destruct (Z.ltb_spec (2 * ((y - c) * inc)) 0); [|nia]. destruct (Z.ltb_spec 720 (2 * ((y - c) * inc) + 720)); lia.
    + exists (2 * ((y + c) * inc)). split; [lia|]. split; [apply M|]. unfold wrap.
      destruct (Z.ltb_spec (2 * ((y + c) * inc)) 0); [nia|]. destruct (Z.ltb_spec 720 (2 * ((y + c) * inc))); lia.
Qed.
(** otherwise nothing is included *)
Lemma misaligned inc width d : 0 < inc -> 360 mod inc = 0 -> 0 <= width -> width mod (2 * inc) <> 0 -> In d (directions inc) ->
  forall e, In e (directions inc) -> included inc width d e = false.
Proof.
  intros Hi H360 Hw Hm Hd e He. apply directions_spec in Hd; [|exact Hi]. apply directions_spec in He; [|exact Hi].
  apply not_true_iff_false. intros C. apply included_spec in C; [|exact Hi]. destruct C as (a & A1 & A2 & A3). apply Hm.
  apply Z.mod_divide in H360; [|lia]. destruct H360 as (c & Hc).
  destruct Hd as (Hd & Dd). apply Z.mod_divide in Dd; [|lia]. destruct Dd as (x & ->).
  destruct He as (He & De). apply Z.mod_divide in De; [|lia]. destruct De as (y & ->).
  apply Z.mod_divide in A2; [|lia]. destruct A2 as (k & A2).
  apply Z.mod_divide; [lia|]. unfold wrap in A3.
  destruct (Z.ltb_spec a 0); [destruct (Z.ltb_spec 720 (a + 720))|destruct (Z.ltb_spec 720 a)].
  - lia.
  - exists (k - (y - c - x)). nia.
  - exists (k - (y + c - x)). nia.
  - exists (k - (y - x)). nia.
Qed.
Lemma windowed_misaligned inc width d vals : 0 < inc -> 360 mod inc = 0 -> 0 <= width -> width mod (2 * inc) <> 0 -> In d (directions inc) ->
  windowed inc width d vals = None.
Proof.
  intros Hi H360 Hw Hm Hd. unfold windowed.
  assert (E : filter (included inc width d) (directions inc) = []).
  { destruct (filter (included inc width d) (directions inc)) as [|e l] eqn:E; [reflexivity|].
    assert (I : In e (filter (included inc width d) (directions inc))) by (rewrite E; now left).
    apply filter_In in I. destruct I as (I1 & I2). rewrite misaligned in I2; auto. discriminate. }
  now rewrite E.
Qed.
Lemma directions_nodup inc : 0 < inc -> NoDup (directions inc).
Proof.
  intros Hi. unfold directions. apply FinFun.Injective_map_NoDup; [|apply seq_NoDup]. intros a b H. apply Z.mul_reg_l in H; lia.
Qed.
Lemma windowed_aligned inc q d vals : 0 < inc -> 360 mod inc = 0 -> 0 <= q -> q * inc < 360 -> 0 <= d < 360 -> d mod inc = 0 ->
  exists sel, NoDup sel /\ In d sel /\
    (forall e, In e sel <-> (0 <= e < 360 /\ e mod inc = 0) /\
       (Z.abs (e - d) <= q * inc \/ d + 360 - e <= q * inc \/ (e + 360 - d <= q * inc /\ e <> 0))) /\
    windowed inc (2 * q * inc) d vals =
      Some (fold_right (fun e s => (vals e + s)%Qc) 0%Qc sel / Q2Qc (inject_Z (Z.of_nat (length sel))))%Qc.
Proof.
  intros Hi H360 Hq Hw Hd Dd. assert (Id : In d (directions inc)) by (apply directions_spec; auto).
  set (sel := filter (included inc (2 * q * inc) d) (directions inc)).
  assert (Ch : forall e, In e sel <-> (0 <= e < 360 /\ e mod inc = 0) /\
       (Z.abs (e - d) <= q * inc \/ d + 360 - e <= q * inc \/ (e + 360 - d <= q * inc /\ e <> 0))).
  { intros e. unfold sel. rewrite filter_In. rewrite <- (directions_spec inc e Hi). split; intros (A & B); (split; [exact A|]).
    - now apply aligned.
    - now apply aligned. }
  assert (Ids : In d sel) by (apply Ch; split; [auto|left; nia]).
  exists sel. split; [apply NoDup_filter; now apply directions_nodup|]. split; [exact Ids|]. split; [exact Ch|].
  unfold windowed. fold sel. destruct sel; [destruct Ids|reflexivity].
Qed.
