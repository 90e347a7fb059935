(** C85: the model domain.  Model: TopoModel.v; specification: TopoSpec.v *)
From Coq Require Import List ZArith Bool Arith Lia QArith Qcanon.
From Verif Require Import Num WinsModel LoadModel LoadProofs TopoModel TopoSpec TopoProofs.
Import ListNotations.

Lemma read_inv nan_int to_latlon f t : readNetCDF nan_int to_latlon f = Ok t ->
  exists m, readImages nan_int f IMAGES None (fun _ => None) = Ok (images t) /\ f_image f Mask = Some m /\ f_zone f = Some (zone_number t) /\
    to_latlon (cx t) (cy t) (zone_number t) = true /\ (cx t, cy t) = get_center (f_x f) (f_y f) m /\
    t = mkTopo (images t) (length (f_x f)) (length (f_y f)) (mean (diff (f_x f))) (nabs (mean (diff (f_y f)))) (cx t) (cy t) (zone_number t).
Proof.
  unfold readNetCDF. destruct (f_zone f) as [z|]; [|discriminate]. destruct (readImages _ _ _ _ _) as [ims|]; [|discriminate].
  cbn [bind]. destruct (f_image f Mask) as [m|]; [|discriminate]. destruct (get_center _ _ _) as [cx0 cy0] eqn:E.
  destruct (to_latlon cx0 cy0 z) eqn:L; [|discriminate]. intros [= <-]. exists m. cbn. auto 10.
Qed.

(** When a file can be read, and how reading fails *)
Theorem C85_reads nan_int to_latlon f :
  (exists t, readNetCDF nan_int to_latlon f = Ok t) <->
  exists z m, f_zone f = Some z /\ f_image f Dem <> None /\ f_image f Mask = Some m /\
    exists cx cy, balance m (fun i j => nth j (f_x f) 0%Qc) (length (f_y f)) (length (f_x f)) cx /\
                  balance m (fun i j => nth i (f_y f) 0%Qc) (length (f_y f)) (length (f_x f)) cy /\ to_latlon cx cy z = true.
Proof.
  split.
  - intros [t H]. apply read_inv in H. destruct H as (m & R & M & Z & L & C & _). apply readImages_ok in R. destruct R as [D _].
    exists (zone_number t), m. split; [exact Z|]. split; [exact D|]. split; [exact M|]. exists (cx t), (cy t).
    injection C as C1 C2. split; [|split; [|exact L]].
    + rewrite C1. apply (center_balance m (fun i j => nth j (f_x f) 0%Qc)).
    + rewrite C2. apply (center_balance m (fun i j => nth i (f_y f) 0%Qc)).
  - intros (z & m & Z & D & M & cx & cy & B1 & B2 & L). unfold readNetCDF. rewrite Z.
    destruct (readImages_dem nan_int f D) as [ims ->]. cbn [bind]. rewrite M.
    replace (get_center (f_x f) (f_y f) m) with (cx, cy).
    2:{ unfold get_center. f_equal; symmetry; eapply balance_unique.
        - apply (center_balance m (fun i j => nth j (f_x f) 0%Qc)). - exact B1.
        - apply (center_balance m (fun i j => nth i (f_y f) 0%Qc)). - exact B2. }
    rewrite L. eexists; reflexivity.
Qed.
Theorem C85_errors nan_int to_latlon f :
  (f_zone f = None -> readNetCDF nan_int to_latlon f = Err PlainException) /\
  (f_zone f <> None -> f_image f Dem = None -> readNetCDF nan_int to_latlon f = Err UnboundLocalError) /\
  (f_zone f <> None -> f_image f Dem <> None -> f_image f Mask = None -> readNetCDF nan_int to_latlon f = Err KeyError).
Proof.
  unfold readNetCDF. split; [intros ->; reflexivity|]. split.
  - intros Z D. destruct (f_zone f); [|contradiction]. rewrite readImages_err by exact D. reflexivity.
  - intros Z D M. destruct (f_zone f); [|contradiction]. destruct (readImages_dem nan_int f D) as [ims ->]. cbn [bind]. rewrite M. reflexivity.
Qed.

(** The images: those of the file, vegetation types cut to whole numbers.  An image the file does not have is the one
    before it in the list. *)
Theorem C85_images nan_int to_latlon f t : readNetCDF nan_int to_latlon f = Ok t ->
  forall n,
    match f_image f n with
    | Some im =>
        exists im', images t n = Some im' /\
        forall i j, match n, im i j with
                    | VegType, Some x => exists k, cut_to x k /\ im' i j = Some (Q2Qc (inject_Z k))
                    | VegType, None => im' i j <> None
                    | _, v => im' i j = v
                    end
    | None => exists p, before n = Some p /\ images t n = images t p
    end.
Proof.
  intros H n. apply read_inv in H. destruct H as (m & R & _). apply readImages_ok in R. destruct R as [_ R]. specialize (R n).
  destruct (f_image f n) as [im|]; [|exact R]. eexists. split; [exact R|]. intros i j. unfold read.
  destruct n; try reflexivity. cbv beta. destruct (im i j) as [x|]; [|discriminate]. cbn [astype_int].
  exists (trunc (this x)). split; [apply trunc_cut|reflexivity].
Qed.

(** The spacing is the mean spacing of the coordinates; that of the rows without its sign.  None with fewer than two
    coordinates. *)
Theorem C85_spacing nan_int to_latlon f t : readNetCDF nan_int to_latlon f = Ok t ->
  nx t = length (f_x f) /\ ny t = length (f_y f) /\
  match dx t with
  | None => (nx t <= 1)%nat
  | Some d => (2 <= nx t)%nat /\ (d * Q2Qc (inject_Z (Z.of_nat (nx t - 1))) = last (f_x f) 0 - hd 0 (f_x f))%Qc
  end /\
  match dy t with
  | None => (ny t <= 1)%nat
  | Some d => (2 <= ny t)%nat /\ (0 <= d)%Qc /\
      ((d * Q2Qc (inject_Z (Z.of_nat (ny t - 1))) = last (f_y f) 0 - hd 0 (f_y f))%Qc \/
       (d * Q2Qc (inject_Z (Z.of_nat (ny t - 1))) = hd 0 (f_y f) - last (f_y f) 0)%Qc)
  end.
Proof.
  intros H. apply read_inv in H. destruct H as (m & _ & _ & _ & _ & _ & E). rewrite E. cbn [nx ny dx dy].
  split; [reflexivity|]. split; [reflexivity|]. split; [apply (spacing (f_x f))|].
  pose proof (spacing (f_y f)) as P. destruct (mean (diff (f_y f))) as [d|]; [|exact P]. cbn [nabs]. destruct P as [P1 P2].
  split; [exact P1|]. destruct (Qclt_le_dec d 0) as [L|L].
  - split; [qcl|]. right. replace (hd 0 (f_y f) - last (f_y f) 0)%Qc with (- (last (f_y f) 0 - hd 0 (f_y f)))%Qc by ring. rewrite <- P2. ring.
  - split; [exact L|]. left. exact P2.
Qed.
(** On a regular grid it is the spacing of the grid *)
Theorem C85_regular nan_int to_latlon f t x0 y0 d e : readNetCDF nan_int to_latlon f = Ok t -> (2 <= nx t)%nat -> (2 <= ny t)%nat ->
  (forall k v, nth_error (f_x f) k = Some v -> v = (x0 + Q2Qc (inject_Z (Z.of_nat k)) * d)%Qc) ->
  (forall k v, nth_error (f_y f) k = Some v -> v = (y0 + Q2Qc (inject_Z (Z.of_nat k)) * e)%Qc) ->
  dx t = Some d /\ ((0 <= e)%Qc -> dy t = Some e) /\ ((e <= 0)%Qc -> dy t = Some (- e)%Qc).
Proof.
  intros H Lx Ly Ux Uy. apply read_inv in H. destruct H as (m & _ & _ & _ & _ & _ & E). rewrite E in Lx, Ly |- *. cbn [nx ny dx dy] in *.
  rewrite (uniform _ _ _ Lx Ux), (uniform _ _ _ Ly Uy). cbn [nabs]. split; [reflexivity|].
  destruct (Qclt_le_dec e 0) as [L|L]; split; intros G.
  - apply Qclt_not_le in L. contradiction.
  - reflexivity.
  - reflexivity.
  - f_equal. apply Qcle_antisym; qcl.
Qed.

(** The centre is the mean of the coordinates of the cells whose mask is 1, missing if there are none *)
Theorem C85_center nan_int to_latlon f t m : readNetCDF nan_int to_latlon f = Ok t -> f_image f Mask = Some m ->
  balance m (fun i j => nth j (f_x f) 0%Qc) (length (f_y f)) (length (f_x f)) (cx t) /\
  balance m (fun i j => nth i (f_y f) 0%Qc) (length (f_y f)) (length (f_x f)) (cy t).
Proof.
  intros H M. apply read_inv in H. destruct H as (m' & _ & M' & _ & _ & C & _). rewrite M in M'. injection M' as <-.
  injection C as -> ->. split; [apply (center_balance m (fun i j => nth j (f_x f) 0%Qc))|apply (center_balance m (fun i j => nth i (f_y f) 0%Qc))].
Qed.
Theorem C85_center_unique m g ny nx a b : balance m g ny nx a -> balance m g ny nx b -> a = b.
Proof. apply balance_unique. Qed.
(** It lies within every box that contains the basin *)
Theorem C85_center_box nan_int to_latlon f t m x0 x1 y0 y1 vx vy : readNetCDF nan_int to_latlon f = Ok t -> f_image f Mask = Some m ->
  (forall i j, (i < ny t)%nat -> (j < nx t)%nat -> m i j = Some 1%Qc ->
     x0 <= nth j (f_x f) 0 /\ nth j (f_x f) 0 <= x1 /\ y0 <= nth i (f_y f) 0 /\ nth i (f_y f) 0 <= y1)%Qc ->
  cx t = Some vx -> cy t = Some vy -> (x0 <= vx /\ vx <= x1 /\ y0 <= vy /\ vy <= y1)%Qc.
Proof.
  intros H M B Ex Ey. destruct (C85_center _ _ _ _ _ H M) as [C1 C2]. destruct (C85_spacing _ _ _ _ H) as (N1 & N2 & _).
  rewrite Ex in C1. rewrite Ey in C2. rewrite N1, N2 in B.
  destruct (balance_box _ _ _ _ _ x0 x1 C1) as [A1 A2]; [intros i j Hi Hj Mi; destruct (B i j Hi Hj Mi) as (P1 & P2 & _); split; [exact P1|exact P2]|].
  destruct (balance_box _ _ _ _ _ y0 y1 C2) as [A3 A4]; [intros i j Hi Hj Mi; destruct (B i j Hi Hj Mi) as (_ & _ & P1 & P2); split; [exact P1|exact P2]|].
  auto.
Qed.

(** ** A concrete case: three rows, four columns, the rows from north to south *)
Definition ex_mask : image := fun i j => Some (if Nat.eqb i 1 && Nat.ltb j 2 then 1%Qc else if Nat.eqb i 2 && Nat.eqb j 3 then 1%Qc else 0%Qc).
Definition ex_dem : image := fun i j => Some (q (Z.of_nat (i + j)) 1).
Definition ex_file (vt : option image) : topo_file :=
  mkFile (Some 11%Z) [q 0 1; q 10 1; q 20 1; q 30 1] [q 50 1; q 40 1; q 30 1]
    (fun n => match n with Dem => Some ex_dem | Mask => Some ex_mask | VegType => vt | VegHeight => Some ex_dem | _ => None end).
Definition ex_ok (a b : num) (z : Z) : bool := match a, b with Some _, Some _ => true | _, _ => false end.
Example C85_case : exists t, readNetCDF 0 ex_ok (ex_file (Some (fun _ _ => Some (q 7 2)))) = Ok t /\
  cx t = Some (q 40 3) /\ cy t = Some (q 110 3) /\ dx t = Some (q 10 1) /\ dy t = Some (q 10 1) /\
  option_map (fun im => im 0%nat 0%nat) (images t VegType) = Some (Some (q 3 1)) /\ zone_number t = 11%Z.
Proof.
  eexists. split; [reflexivity|]. cbn [cx cy dx dy images zone_number].
  repeat split; vm_compute; repeat (f_equal; try (apply Qc_is_canon; reflexivity)).
Qed.

(** ** What a user may expect and does not get *)
(** A file without the vegetation's transmissivity is read, and the vegetation's height takes its place *)
Theorem C85_missing_image_refuted :
  ~ (forall nan_int to_latlon f t n, readNetCDF nan_int to_latlon f = Ok t -> f_image f n = None -> images t n = None).
Proof.
  intros H. specialize (H 0%Z ex_ok (ex_file None) _ VegTau eq_refl eq_refl). cbn in H. discriminate H.
Qed.
(** Columns from east to west: the spacing of the columns is negative, although that of the rows never is *)
Theorem C85_dx_positive_refuted :
  ~ (forall nan_int to_latlon f t d, readNetCDF nan_int to_latlon f = Ok t -> dx t = Some d -> (0 <= d)%Qc).
Proof.
  intros H.
  specialize (H 0%Z ex_ok (mkFile (Some 11%Z) [q 30 1; q 20 1] [q 50 1; q 40 1] (fun n => Some (fun i j => Some 1%Qc))) _ (q (-10) 1) eq_refl).
  cbn [dx] in H.
  match type of H with ?a = _ -> _ => assert (E : a = Some (q (-10) 1)) by (vm_compute; repeat (f_equal; try (apply Qc_is_canon; reflexivity))) end.
  specialize (H E). apply H. reflexivity.
Qed.
(** The centre may lie in a cell outside of the basin: a basin of the first and the last of three columns *)
Theorem C85_center_inside_refuted :
  ~ (forall nan_int to_latlon f t m vx vy, readNetCDF nan_int to_latlon f = Ok t -> f_image f Mask = Some m -> cx t = Some vx -> cy t = Some vy ->
       forall i j, nth_error (f_x f) j = Some vx -> nth_error (f_y f) i = Some vy -> m i j = Some 1%Qc).
Proof.
  intros H.
  specialize (H 0%Z ex_ok (mkFile (Some 11%Z) [q 0 1; q 10 1; q 20 1] [q 50 1] (fun n => Some (fun i j => Some (if Nat.eqb j 1 then 0%Qc else 1%Qc)))) _
                _ (q 10 1) (q 50 1) eq_refl eq_refl).
  cbn [cx cy] in H.
  match type of H with ?a = _ -> _ => assert (E : a = Some (q 10 1)) by (vm_compute; repeat (f_equal; try (apply Qc_is_canon; reflexivity))) end.
  specialize (H E). clear E.
  match type of H with ?a = _ -> _ => assert (E : a = Some (q 50 1)) by (vm_compute; repeat (f_equal; try (apply Qc_is_canon; reflexivity))) end.
  specialize (H E 0%nat 1%nat eq_refl eq_refl). cbn in H. injection H as H. discriminate H.
Qed.

Print Assumptions C85_reads.
Print Assumptions C85_errors.
Print Assumptions C85_images.
Print Assumptions C85_spacing.
Print Assumptions C85_regular.
Print Assumptions C85_center.
Print Assumptions C85_center_unique.
Print Assumptions C85_center_box.
Print Assumptions C85_missing_image_refuted.
Print Assumptions C85_dx_positive_refuted.
Print Assumptions C85_center_inside_refuted.
