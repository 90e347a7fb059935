(** C80: HRRR data loaded one time step at a time. *)
From Coq Require Import List ZArith Bool Lia Arith Qcanon.
From Verif Require Import Num DataModel QueueModel WinsModel StepModel StepSpec StepProofs.
Import ListNotations.
Local Open Scope Z_scope.

(** The serial run gives the modules, at every date, the date's data, with the cloud factor filled from
    the hour before, the first date included. *)
Theorem C80_serial {V} (archive : Z -> Z -> list (row V)) ncell start stop dates datas raws :
  one_row_per_date archive ncell dates datas raws ->
  (forall t, In t dates -> start <= t <= stop) ->
  serial_steps V archive ncell start stop None dates = (combine datas (fill_all None raws), None).
Proof. apply serial_all. Qed.
Print Assumptions C80_serial.

(** In the threaded run, at every moment of the loading ([k] puts done) and for every date:
    if the date has been loaded a get returns the date's data, otherwise it waits (or gives up after
    the timeout).  The cloud factor of the first date is the unfilled one, and filling
    starts anew with the second date. *)
Theorem C80_threaded {V} (archive : Z -> Z -> list (row V)) ncell tmo start stop dates datas raws k i t v raw first rest block tm expired :
  NoDup dates -> one_row_per_date archive ncell dates datas raws ->
  (forall t, In t dates -> start <= t <= stop) ->
  raws = first :: rest ->
  nth_error dates i = Some t -> nth_error datas i = Some v -> nth_error (first :: fill_all None rest) i = Some raw ->
  let o := snd (try_get (data_queue V archive ncell tmo start stop dates k) t block tm expired) in
  ((i < k)%nat -> o = OVal (v, raw)) /\
  ((k <= i)%nat -> block = true -> tmo <> None -> o = if expired then OExit else OWaiting).
Proof.
  intros ND O W E Ht Hv Hr o. subst raws.
  assert (Hne : dates <> []) by (intros ->; destruct i; discriminate).
  split.
  - intros L. exact (get_value archive ncell tmo start stop dates datas _ Hne ND O W k i t v raw block tm expired Ht Hv Hr L).
  - intros L -> Hm. unfold o. rewrite (get_wait archive ncell tmo start stop dates datas _ Hne ND O W k i t tm expired Ht L).
    destruct tm; [reflexivity|]. destruct tmo; [reflexivity|contradiction].
Qed.
Print Assumptions C80_threaded.

(** The two runs are given the same data at a date if nothing is missing at some date in between, the
    first one not counting: from the first complete hour after the start on they agree, and on the first
    date they agree if it is complete. *)
Theorem C80_same_when_complete {V} (archive : Z -> Z -> list (row V)) ncell tmo start stop dates datas raws i t v c :
  NoDup dates -> one_row_per_date archive ncell dates datas raws ->
  (forall t, In t dates -> start <= t <= stop) ->
  nth_error dates i = Some t ->
  nth_error (fst (serial_steps V archive ncell start stop None dates)) i = Some (v, c) ->
  (i = 0%nat /\ (forall raw, nth_error raws 0 = Some raw -> complete raw)) \/
  (exists m raw, (1 <= m <= i)%nat /\ nth_error raws m = Some raw /\ complete raw) ->
  forall k block tm expired, (i < k)%nat ->
  snd (try_get (data_queue V archive ncell tmo start stop dates k) t block tm expired) = OVal (v, c).
Proof.
  intros ND O W Ht Hs C k block tm expired L.
  assert (Hne : dates <> []) by (intros ->; destruct i; discriminate).
  rewrite (serial_all archive ncell start stop dates None datas raws O W) in Hs. cbn [fst] in Hs.
  assert (Ln : forall r, In r raws -> length r = ncell) by (destruct O as (_ & _ & Ln & _); exact Ln).
  assert (Hv : nth_error datas i = Some v /\ nth_error (fill_all None raws) i = Some c).
  { clear - Hs. revert i Hs. generalize (fill_all None raws). induction datas as [|x l IH]; intros m i H; [destruct i; discriminate|].
    destruct m as [|y m]; [destruct i; discriminate|]. destruct i; cbn in *; [injection H as -> ->; auto|]. apply IH; exact H. }
  destruct Hv as [Hv Hc]. rewrite (clouds_agree raws ncell i Ln C) in Hc.
  exact (get_value archive ncell tmo start stop dates datas raws Hne ND O W k i t v c block tm expired Ht Hv Hc L).
Qed.
Print Assumptions C80_same_when_complete.

(** The serial run's cloud factor is never missing; neither is the threaded run's, after the first date *)
Theorem C80_filled raws ncell : (forall r, In r raws -> length r = ncell) ->
  (forall i c, nth_error (fill_all None raws) i = Some c -> length c = ncell /\ complete c).
Proof.
  intros L i c H. split.
  - apply (fill_all_nth_len raws ncell L None i c); [discriminate|exact H].
  - apply (fill_all_complete raws ncell None L) with i; [discriminate|exact H].
Qed.
Print Assumptions C80_filled.

(** "The runs are given the same data" is false in general.  Two cells, three hours: dusk after the first
    hour.  The serial run keeps the first hour's clouds, the threaded run has a clear sky. *)
Definition half : num := Some (Q2Qc (QArith_base.Qmake 1 2)).
Definition dusk (t _ : Z) : list (row Z) :=
  if t =? 0 then [mkRow 0 10 [half; half]]
  else if t =? 60 then [mkRow 60 11 [None; None]]
  else [mkRow 120 12 [None; None]].
(** The run starts at night *)
Definition night (t _ : Z) : list (row Z) :=
  if t =? 0 then [mkRow 0 10 [None; half]] else [mkRow t 11 [half; half]].
Example C80_dusk_meets : one_row_per_date dusk 2 [0; 60; 120] [10; 11; 12] [[half; half]; [None; None]; [None; None]].
Proof.
  repeat split.
  - intros raw [<-|[<-|[<-|[]]]]; reflexivity.
  - intros [|[|[|[|i]]]] t v raw; cbn; intros [= <-] [= <-] [= <-]; reflexivity.
Qed.
Theorem C80_same_data_refuted :
  ~ (forall (archive : Z -> Z -> list (row Z)) ncell dates datas raws, NoDup dates ->
       one_row_per_date archive ncell dates datas raws ->
       forall i t x, nth_error dates i = Some t ->
       nth_error (fst (serial_steps Z archive ncell 0 120 None dates)) i = Some x ->
       snd (try_get (data_queue Z archive ncell (Some 100) 0 120 dates (length dates)) t true None false) = OVal x).
Proof.
  intros H. specialize (H dusk 2%nat [0; 60; 120] [10; 11; 12] _ ltac:(repeat constructor; cbn; lia) C80_dusk_meets 1%nat 60 (11, [half; half]) eq_refl).
  assert (E1 : nth_error (fst (serial_steps Z dusk 2 0 120 None [0; 60; 120])) 1 = Some (11, [half; half]))
    by (rewrite (C80_serial dusk 2 0 120 _ _ _ C80_dusk_meets) by (cbn; lia); reflexivity).
  specialize (H E1).
  assert (E2 : snd (try_get (data_queue Z dusk 2 (Some 100) 0 120 [0; 60; 120] 3) 60 true None false)
               = OVal (11, [Some 1%Qc; Some 1%Qc])) by (vm_compute; reflexivity).
  cbn [length] in H. rewrite E2 in H.
  discriminate H.
Qed.
Print Assumptions C80_same_data_refuted.

(** "No cell is without a cloud factor" is false of the threaded run: the first hour's is not filled. *)
Theorem C80_threaded_filled_refuted :
  snd (try_get (data_queue Z night 2 (Some 100) 0 60 [0; 60] 2) 0 true None false) = OVal (10, [None; half]) /\
  nth_error (fst (serial_steps Z night 2 0 60 None [0; 60])) 0 = Some (10, [Some 1%Qc; Some 1%Qc]).
Proof. split; reflexivity. Qed.
Print Assumptions C80_threaded_filled_refuted.

(** "Loading step by step keeps a bounded number of time steps in memory" is false: the loader never
    waits, and once it is done the data of every date of the run is on the queue. *)
Theorem C80_all_kept {V} (archive : Z -> Z -> list (row V)) ncell tmo start stop dates datas raws k :
  dates <> [] -> NoDup dates -> one_row_per_date archive ncell dates datas raws ->
  (forall t, In t dates -> start <= t <= stop) ->
  let q := data_queue V archive ncell tmo start stop dates in
  qsize (q k) = Z.of_nat (Nat.min k (length dates)) /\
  map fst (items (q k)) = firstn k dates /\
  (forall d x e, snd (try_put (q k) d x true e) = ODone).
Proof.
  intros Hne ND O W q. destruct (queue_items archive ncell tmo start stop dates datas raws Hne ND O W k) as (A & B & C).
  fold (q k) in A, B, C.
  assert (E : map fst (items (q k)) = firstn k dates).
  { rewrite C, <- firstn_map. rewrite (puts_fst archive ncell dates datas raws O). reflexivity. }
  split; [|split; [exact E|]].
  - unfold qsize. rewrite <- (map_length fst), E, firstn_length. reflexivity.
  - intros d x e. unfold try_put. rewrite A. reflexivity.
Qed.
Print Assumptions C80_all_kept.

(** "A date whose hour is missing in the archive stops the run": the serial run stops; the threaded run takes
    the row of another time if the window of 20 minutes has one. *)
Definition late (t _ : Z) : list (row Z) := if t =? 60 then [mkRow 70 11 [half]] else [mkRow t 10 [half]].
Theorem C80_missing_hour_refuted :
  serial_steps Z late 1 0 120 None [0; 60; 120] = ([(10, [half])], Some KeyError) /\
  snd (try_get (data_queue Z late 1 (Some 100) 0 120 [0; 60; 120] 3) 60 true None false) = OVal (11, [half]).
Proof. split; vm_compute; reflexivity. Qed.
Print Assumptions C80_missing_hour_refuted.

Example C80_ex :
  serial_steps Z dusk 2 0 120 None [0; 60; 120] = ([(10, [half; half]); (11, [half; half]); (12, [half; half])], None).
Proof. vm_compute. reflexivity. Qed.
