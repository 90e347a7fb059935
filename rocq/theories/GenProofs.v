From Coq Require Import Ascii String DecimalString DecimalZ.
From Coq Require Import List ZArith Bool Reals Lia Lra.
From Verif Require Import RNum WinsModel SpatModel WindowModel WindowProofs HordModel TbreakModel TbreakSpec TbreakProofs StartModel GenModel GenSpec.
Import ListNotations.

(** ** names *)
Lemma split_last_app c : forall a b, ~ In c b -> split_last c (a ++ c :: b) = Some (a, b).
Proof.
  assert (N : forall b, ~ In c b -> split_last c b = None).
  { induction b as [|x b IH]; intros H; [reflexivity|]. cbn [split_last]. rewrite IH by (intros X; apply H; now right).
    destruct (Ascii.eqb_spec x c) as [->|_]; [exfalso; apply H; now left|reflexivity]. }
  induction a as [|x a IH]; intros b H.
  - cbn [app split_last]. rewrite N by exact H. now rewrite Ascii.eqb_refl.
  - cbn [app split_last]. now rewrite IH.
Qed.
Lemma split_last_none c : forall b, ~ In c b -> split_last c b = None.
Proof.
  induction b as [|x b IH]; intros H; [reflexivity|]. cbn [split_last]. rewrite IH by (intros X; apply H; now right).
  destruct (Ascii.eqb_spec x c) as [->|_]; [exfalso; apply H; now left|reflexivity].
Qed.
Lemma split_last_inv c : forall l, match split_last c l with Some (a, b) => l = a ++ c :: b /\ ~ In c b | None => ~ In c l end.
Proof.
  induction l as [|x l IH]; [intros []|]. cbn [split_last]. destruct (split_last c l) as [[a b]|].
  - destruct IH as (-> & N). now split.
  - destruct (Ascii.eqb_spec x c) as [->|D]; [now split|]. intros [E|E]; [now apply D|tauto].
Qed.
Lemma chars_app a b : chars (a ++ b) = chars a ++ chars b.
Proof. unfold chars. induction a as [|x a IH]; [reflexivity|]. cbn [append list_ascii_of_string app]. now rewrite IH. Qed.
Lemma str_chars s : str (chars s) = s.
Proof. apply string_of_list_ascii_of_string. Qed.
Lemma chars_str l : chars (str l) = l.
Proof. apply list_ascii_of_string_of_list_ascii. Qed.
Lemma chars_inj a b : chars a = chars b -> a = b.
Proof. intros H. rewrite <- (str_chars a), <- (str_chars b). now rewrite H. Qed.

(** directory and base of a name *)
Definition cut (p : string) : list ascii * list ascii :=
  match split_last slash (chars p) with None => ([], chars p) | Some (h, b) => (h ++ [slash], b) end.
Lemma cut_spec p : let '(dir, base) := cut p in chars p = dir ++ base /\ ~ In slash base /\ (dir = [] \/ exists h, dir = h ++ [slash]).
Proof.
  unfold cut. pose proof (split_last_inv slash (chars p)) as I. destruct (split_last slash (chars p)) as [[h b]|].
  - destruct I as (E & N). split; [|split; [exact N|right; now exists h]]. rewrite E, <- app_assoc. reflexivity.
  - split; [reflexivity|]. split; [exact I|now left].
Qed.
Lemma cut_of p dir base : chars p = dir ++ base -> ~ In slash base -> (dir = [] \/ exists h, dir = h ++ [slash]) -> cut p = (dir, base).
Proof.
  intros E N [->|(h & ->)]; unfold cut; rewrite E.
  - cbn [app]. now rewrite split_last_none.
  - rewrite <- app_assoc. cbn [app]. now rewrite split_last_app.
Qed.
Lemma dirname_cut p : dirname p = match fst (cut p) with
  | [] => ""%string
  | head => if forallb (Ascii.eqb slash) head then str head else str (rev (lstrip slash (rev head))) end.
Proof.
  unfold dirname, cut. destruct (split_last slash (chars p)) as [[h b]|]; [|reflexivity]. cbn [fst].
  destruct (h ++ [slash]) eqn:E; [destruct h; discriminate E|reflexivity].
Qed.
Lemma root_cut p : root p = let '(dir, base) := cut p in
  match split_last dot base with None => p | Some (b, _) => if forallb (Ascii.eqb dot) b then p else str (dir ++ b) end.
Proof. reflexivity. Qed.
Lemma root_cases p : root p = p \/ exists e, p = (root p ++ "." ++ e)%string /\ ~ In dot (chars e) /\ ~ In slash (chars e).
Proof.
  rewrite root_cut. pose proof (cut_spec p) as C. destruct (cut p) as [dir base]. destruct C as (E & N & D).
  pose proof (split_last_inv dot base) as I. destruct (split_last dot base) as [[b e]|]; [|now left].
  destruct (forallb (Ascii.eqb dot) b); [now left|]. right. destruct I as (E2 & N2). exists (str e). rewrite chars_str. split; [|split; [exact N2|]].
  - apply chars_inj. rewrite E, !chars_app, !chars_str, E2, <- app_assoc. reflexivity.
  - intros H. apply N. rewrite E2. apply in_or_app. right. now right.
Qed.
Lemma append_inj_l r : forall a b : string, (r ++ a = r ++ b)%string -> a = b.
Proof. induction r as [|x r IH]; intros a b H; [exact H|]. cbn [append] in H. inversion H. now apply IH. Qed.
Lemma length_append : forall a b, String.length (a ++ b) = (String.length a + String.length b)%nat.
Proof. induction a as [|x a IH]; intros b; [reflexivity|]. cbn [append String.length plus]. now rewrite IH. Qed.
Lemma window_other p w : window_name p w <> p.
Proof.
  intros H. unfold window_name in H. destruct (root_cases p) as [E|(e & E & _)].
  - rewrite E in H. assert (L : String.length (p ++ "_" ++ dec w ++ "window.nc") = String.length p) by now rewrite H.
    rewrite length_append in L. cbn [append String.length] in L. lia.
  - rewrite E in H at 2. apply append_inj_l in H. cbn [append] in H. discriminate H.
Qed.
Local Definition us : ascii := "_"%char.
Lemma uint_no u : ~ In us (chars (NilZero.string_of_uint u)) /\ ~ In slash (chars (NilZero.string_of_uint u)).
Proof.
  assert (G : forall u, ~ In us (chars (NilEmpty.string_of_uint u)) /\ ~ In slash (chars (NilEmpty.string_of_uint u))).
  { clear u. induction u as [|u IH|u IH|u IH|u IH|u IH|u IH|u IH|u IH|u IH|u IH]; (split; [intros H; cbn in H|intros H; cbn in H]);
      try tauto; destruct H as [H|H]; try discriminate H; tauto. }
  destruct u; try (apply G). split; intros [H|[]]; discriminate H.
Qed.
Lemma dec_no w : ~ In us (chars (dec w)) /\ ~ In slash (chars (dec w)).
Proof.
  unfold dec. destruct (Z.to_int w) as [u|u]; cbn [NilZero.string_of_int]; [apply uint_no|].
  split; intros [H|H]; try discriminate H; now apply uint_no in H.
Qed.
Lemma dec_inj v w : dec v = dec w -> v = w.
Proof.
  unfold dec. intros H. rewrite <- (DecimalZ.of_to v), <- (DecimalZ.of_to w). f_equal.
  assert (I : forall z, NilZero.int_of_string (NilZero.string_of_int (Z.to_int z)) = Some (Z.to_int z)).
  { intros z. apply NilZero.isi; destruct z; cbn [Z.to_int]; try discriminate; intros E; inversion E as [E2]; revert E2; apply DecimalPos.Unsigned.to_uint_nonnil. }
  assert (X : Some (Z.to_int v) = Some (Z.to_int w)) by (rewrite <- !I; now rewrite H). now inversion X.
Qed.
Lemma window_tail w : ~ In us (chars (dec w ++ "window.nc")) /\ ~ In slash (chars (dec w ++ "window.nc")).
Proof.
  rewrite chars_app. split; intros H; apply in_app_or in H; destruct H as [H|H]; try (now apply dec_no in H);
    cbn in H; repeat destruct H as [H|H]; try discriminate H; exact H.
Qed.
Lemma append_inj_r a b : forall c, (a ++ c = b ++ c)%string -> a = b.
Proof.
  intros c H. apply chars_inj. assert (E : chars a ++ chars c = chars b ++ chars c) by (rewrite <- !chars_app; now rewrite H).
  now apply app_inv_tail in E.
Qed.
Lemma window_name_inj p q v w : window_name p v = window_name q w <-> root p = root q /\ v = w.
Proof.
  split; [|intros (E & ->); unfold window_name; now rewrite E]. intros H. unfold window_name in H.
  assert (E : Some (chars (root p), chars (dec v ++ "window.nc")) = Some (chars (root q), chars (dec w ++ "window.nc"))).
  { rewrite <- !(split_last_app us) by apply window_tail.
    assert (X : chars (root p ++ "_" ++ dec v ++ "window.nc") = chars (root q ++ "_" ++ dec w ++ "window.nc")) by now rewrite H.
    rewrite (chars_app (root p)), (chars_app (root q)) in X. cbn [append] in X. cbn [chars list_ascii_of_string] in X. unfold us. exact (f_equal (split_last "_"%char) X). }
  inversion E as [[E1 E2]]. split; [now apply chars_inj|]. apply dec_inj. apply chars_inj in E2. now apply append_inj_r in E2.
Qed.
Lemma window_dir p w : dirname (window_name p w) = dirname p.
Proof.
  rewrite !dirname_cut. f_equal. replace (fst (cut (window_name p w))) with (fst (cut p)); [reflexivity|].
  pose proof (cut_spec p) as C. destruct (cut p) as [dir base] eqn:EC. destruct C as (E & N & D). cbn [fst].
  assert (R : exists b, chars (root p) = dir ++ b /\ ~ In slash b).
  { rewrite root_cut, EC. pose proof (split_last_inv dot base) as I. destruct (split_last dot base) as [[b e]|]; [|now exists base].
    destruct (forallb (Ascii.eqb dot) b); [now exists base|]. destruct I as (E2 & _). exists b. rewrite chars_str. split; [reflexivity|].
    intros H. apply N. rewrite E2. apply in_or_app. now left. }
  destruct R as (b & ER & NB).
  rewrite (cut_of (window_name p w) dir (b ++ us :: chars (dec w ++ "window.nc"))); [reflexivity| | |exact D].
  - unfold window_name. rewrite chars_app, ER, <- app_assoc. reflexivity.
  - intros H. apply in_app_or in H. destruct H as [H|[H|H]]; [tauto|discriminate H|]. now apply window_tail in H.
Qed.
Lemma dir_chars s : a_dir s -> chars s = [] \/ exists h, chars s = h ++ [slash].
Proof. intros [->|(t & ->)]; [now left|]. right. exists (chars t). rewrite chars_app. reflexivity. Qed.
Lemma root_ext s b e : a_dir s -> without "/" b -> without "/" e -> without "." e -> (exists c, In c (list_ascii_of_string b) /\ c <> "."%char) ->
  root (s ++ b ++ "." ++ e) = (s ++ b)%string.
Proof.
  intros D Nb Ne Nd (c & Hc & Hd). rewrite root_cut.
  rewrite (cut_of _ (chars s) (chars b ++ dot :: chars e)).
  - rewrite split_last_app by exact Nd. destruct (forallb (Ascii.eqb dot) (chars b)) eqn:F.
    + exfalso. rewrite forallb_forall in F. specialize (F c Hc). apply Ascii.eqb_eq in F. now apply Hd.
    + apply chars_inj. now rewrite chars_str, chars_app.
  - rewrite !chars_app. reflexivity.
  - intros H. apply in_app_or in H. destruct H as [H|[H|H]]; [now apply Nb|discriminate H|now apply Ne].
  - now apply dir_chars.
Qed.
Lemma root_plain s b e : a_dir s -> without "/" b -> without "/" e -> without "." e -> (forall c, In c (list_ascii_of_string b) -> c = "."%char) ->
  root (s ++ b ++ e) = (s ++ b ++ e)%string.
Proof.
  intros D Nb Ne Nd A. rewrite root_cut. rewrite (cut_of _ (chars s) (chars b ++ chars e)).
  - assert (P : forall l, (forall c, In c l -> c = "."%char) -> match split_last dot (l ++ chars e) with None => True | Some (x, _) => forallb (Ascii.eqb dot) x = true end).
    { clear - Nd. induction l as [|x l IH]; intros H.
      - cbn [app]. now rewrite (split_last_none dot (chars e) Nd).
      - cbn [app split_last]. specialize (IH (fun c Hc => H c (or_intror Hc))). rewrite (H x) by now left.
        destruct (split_last dot (l ++ chars e)) as [[y z]|]; [cbn [forallb]; now rewrite IH|reflexivity]. }
    specialize (P (chars b) A). destruct (split_last dot (chars b ++ chars e)) as [[x y]|]; [now rewrite P|reflexivity].
  - now rewrite !chars_app.
  - intros H. apply in_app_or in H. destruct H; [now apply Nb|now apply Ne].
  - now apply dir_chars.
Qed.

(** ** runs *)
Local Open Scope R_scope.
Lemma put_same d n f : put d n f n = Some f.
Proof. unfold put. now rewrite String.eqb_refl. Qed.
Lemma put_other d n f m : m <> n -> put d n f m = d m.
Proof. intros H. unfold put. destruct (String.eqb_spec m n); [tauto|reflexivity]. Qed.
Lemma stage_ok run n d name G : (forall k, run k d = Ok (put d name (G k))) ->
  stage run n true d = (map (fun k => put d name (G k)) (seq 0 (S n)), None).
Proof.
  intros H. unfold stage. rewrite H. f_equal. induction (seq 0 (S n)) as [|k l IH]; [reflexivity|]. cbn [flat_map map]. now rewrite H, IH.
Qed.
Lemma last_states d name (G : nat -> file) n z : last (map (fun k => put d name (G k)) (seq 0 (S n))) z = put d name (G n).
Proof. rewrite seq_S, map_app. cbn [map plus]. apply last_last. Qed.
Lemma last_cons {A} (l : list A) : forall x z, last (x :: l) z = last l x.
Proof.
  induction l as [|y l IH]; intros x z; [reflexivity|]. transitivity (last (y :: l) z); [reflexivity|]. rewrite (IH y z), (IH y x). reflexivity.
Qed.
Lemma last_app2 {A} (l m : list A) : forall z, last (l ++ m) z = last m (last l z).
Proof. induction l as [|x l IH]; intros z; [reflexivity|]. cbn [app]. rewrite !last_cons. apply IH. Qed.
Lemma whole_rounds kd attrs inc calc : (0 < inc)%Z ->
  whole_file (rounds (length (directions inc)) calc (directions inc) (output_init kd (directions inc) attrs)) kd attrs inc calc.
Proof.
  intros Hi. pose proof (rounds_holds kd attrs inc (length (directions inc)) calc Hi) as H. unfold whole_file.
  assert (L : length (f_dirs (rounds (length (directions inc)) calc (directions inc) (output_init kd (directions inc) attrs))) = length (directions inc)).
  { destruct H as (_ & _ & HL & _). pose proof (directions_len inc Hi) as L2. cbv zeta in HL, L2. nia. }
  now rewrite L.
Qed.
Lemma main_sees w a g d : sees w a g -> main w a d = compute w a g d.
Proof.
  intros (H1 & H2 & H3 & H4 & f & H5 & H6 & H7 & H8 & -> & H9 & H10). unfold main. rewrite H1, H3, H4, H5, H6, H7, H8. cbn [negb orb andb].
  destruct (String.eqb_spec (dirname (a_out a)) ""); [tauto|]. cbn [orb]. change (String.eqb "nc" "nc") with true. cbn [negb].
  destruct (Z.ltb_spec (t_nx (n_grid f (a_var a))) 2); [lia|]. destruct (Z.ltb_spec (t_ny (n_grid f (a_var a))) 2); [lia|]. reflexivity.
Qed.
(** the two files of the first half *)
Definition slopes a g k := rounds k (fun an => maxus_angle g (IZR (a_height a)) an (IZR (a_dmax a))) (directions (a_inc a))
  (output_init Maxus (directions (a_inc a)) [("dmax"%string, IZR (a_dmax a))]).
Definition breaks a g k := rounds k (fun an => tbreak_angle g (IZR (a_height a)) an (IZR (a_dmax a)) (IZR (a_sep a))) (directions (a_inc a))
  (output_init Tbreak (directions (a_inc a)) [("dmax"%string, IZR (a_dmax a)); ("sepdist"%string, IZR (a_sep a))]).
Definition windows a kd f k := rounds k (fun an => window_value (a_inc a) (a_window a) an f) (directions (a_inc a)) (output_init kd (directions (a_inc a)) []).
Definition steps_of a := length (directions (a_inc a)).
Lemma maxus_run a g d k : fine a g -> maxus g (IZR (a_height a)) (IZR (a_dmax a)) (a_inc a) (a_out a) k d = Ok (put d (a_out a) (slopes a g k)).
Proof. intros ((Hi & _) & P & W). unfold maxus. change (spacing (t_x g)) with (t_dx g) in *. rewrite (uneven_no _ _ P W), all_angles_pos by exact Hi. reflexivity. Qed.
Lemma tbreak_run a g d k : fine a g -> whole (IZR (a_sep a)) (spacing (t_x g)) ->
  tbreak g (IZR (a_height a)) (IZR (a_dmax a)) (IZR (a_sep a)) (a_inc a) (a_out_tb a) k d = Ok (put d (a_out_tb a) (breaks a g k)).
Proof. intros ((Hi & _) & P & W) W2. unfold tbreak. change (spacing (t_x g)) with (t_dx g) in *. rewrite (uneven_no _ _ P W), (uneven_no _ _ P W2), all_angles_pos by exact Hi. reflexivity. Qed.
Lemma rounds_kind k calc ds f : f_kind (rounds k calc ds f) = f_kind f.
Proof. exact (proj1 (rounds_spec k calc ds f)). Qed.
Lemma windower_run a kd name f d k : d name = Some f -> f_kind f = kd ->
  windower (a_inc a) (a_window a) kd name k d = Ok (put d (window_name name (a_window a)) (windows a kd f k)).
Proof. intros E K. unfold windower. rewrite E, K. destruct kd; reflexivity. Qed.

Definition d1 a g d := put d (a_out a) (slopes a g (steps_of a)).
Definition d2 a g d := put (d1 a g d) (maxus_window a) (windows a Maxus (slopes a g (steps_of a)) (steps_of a)).
Definition l1 a g d := map (fun k => put d (a_out a) (slopes a g k)) (seq 0 (S (steps_of a))).
Definition l2 a g d := map (fun k => put (d1 a g d) (maxus_window a) (windows a Maxus (slopes a g (steps_of a)) k)) (seq 0 (S (steps_of a))).
Definition rest w a g (d : disk) : trace :=
  if a_tb a
  then andthen (stage (fun k d => tbreak g (IZR (a_height a)) (IZR (a_dmax a)) (IZR (a_sep a)) (a_inc a) (a_out_tb a) k d) (steps_of a)
                  (String.eqb (dirname (a_out_tb a)) "" || isdir w (dirname (a_out_tb a))) d) d (fun d3 =>
       stage (windower (a_inc a) (a_window a) Tbreak (a_out_tb a)) (steps_of a) true d3)
  else ([], None).
Lemma compute_first w a g d : fine a g ->
  compute w a g d = let '(l, o) := rest w a g (d2 a g d) in (l1 a g d ++ l2 a g d ++ l, o).
Proof.
  intros Hf. unfold compute. fold (steps_of a).
  rewrite (stage_ok _ _ d (a_out a) (slopes a g)) by (intros k; now apply maxus_run).
  unfold andthen at 1. rewrite last_states. fold (d1 a g d).
  rewrite (stage_ok _ _ (d1 a g d) (maxus_window a) (windows a Maxus (slopes a g (steps_of a)))).
  2:{ intros k. apply windower_run; [apply put_same|]. unfold slopes. now rewrite rounds_kind. }
  unfold andthen at 1. rewrite last_states. fold (d2 a g d). fold (rest w a g (d2 a g d)). destruct (rest w a g (d2 a g d)) as [l o].
  reflexivity.
Qed.
Lemma d2_has a g d : fine a g -> has_maxus a g (d2 a g d).
Proof.
  intros ((Hi & _) & _ & _). exists (slopes a g (steps_of a)), (windows a Maxus (slopes a g (steps_of a)) (steps_of a)).
  unfold d2, d1. split; [|split; [apply put_same|split]].
  - rewrite put_other; [apply put_same|]. intros E. symmetry in E. now apply window_other in E.
  - exact (whole_rounds Maxus _ (a_inc a) (fun an => maxus_angle g (IZR (a_height a)) an (IZR (a_dmax a))) Hi).
  - exact (whole_rounds Maxus _ (a_inc a) _ Hi).
Qed.
Lemma d2_other a g d n : n <> a_out a -> n <> maxus_window a -> d2 a g d n = d n.
Proof. intros H1 H2. unfold d2, d1. now rewrite !put_other. Qed.
Lemma last_l12 a g d l : last (l1 a g d ++ l2 a g d ++ l) d = last l (d2 a g d).
Proof. rewrite !last_app2. unfold l1. rewrite last_states. unfold l2. rewrite last_states. reflexivity. Qed.

Lemma done w a g d : sees w a g -> fine a g -> a_tb a = false ->
  exists l, main w a d = (l, None) /\ has_maxus a g (last l d) /\
    (forall n, n <> a_out a -> n <> maxus_window a -> last l d n = d n).
Proof.
  intros S Hf T. rewrite (main_sees w a g d S), compute_first by exact Hf. unfold rest. rewrite T. eexists. split; [reflexivity|].
  rewrite last_l12. cbn [last]. split; [now apply d2_has|]. apply d2_other.
Qed.
Definition d3 a g d := put (d2 a g d) (a_out_tb a) (breaks a g (steps_of a)).
Definition d4 a g d := put (d3 a g d) (tbreak_window a) (windows a Tbreak (breaks a g (steps_of a)) (steps_of a)).
Definition l3 a g d := map (fun k => put (d2 a g d) (a_out_tb a) (breaks a g k)) (seq 0 (S (steps_of a))).
Definition l4 a g d := map (fun k => put (d3 a g d) (tbreak_window a) (windows a Tbreak (breaks a g (steps_of a)) k)) (seq 0 (S (steps_of a))).
Lemma rest_tb w a g d : fine a g -> whole (IZR (a_sep a)) (spacing (t_x g)) -> a_tb a = true ->
  dirname (a_out_tb a) = ""%string \/ isdir w (dirname (a_out_tb a)) = true ->
  rest w a g (d2 a g d) = (l3 a g d ++ l4 a g d, None).
Proof.
  intros Hf W T C. unfold rest. rewrite T.
  assert (X : String.eqb (dirname (a_out_tb a)) "" || isdir w (dirname (a_out_tb a)) = true).
  { apply orb_true_iff. destruct C as [C|C]; [left; now apply String.eqb_eq|now right]. }
  rewrite X. rewrite (stage_ok _ _ (d2 a g d) (a_out_tb a) (breaks a g)) by (intros k; now apply tbreak_run).
  unfold andthen. rewrite last_states. fold (d3 a g d).
  rewrite (stage_ok _ _ (d3 a g d) (tbreak_window a) (windows a Tbreak (breaks a g (steps_of a)))); [reflexivity|].
  intros k. apply windower_run; [apply put_same|]. unfold breaks. now rewrite rounds_kind.
Qed.
Lemma d4_has a g d : fine a g -> has_tbreak a g (d4 a g d).
Proof.
  intros ((Hi & _) & _ & _).
  exists (breaks a g (steps_of a)), (windows a Tbreak (breaks a g (steps_of a)) (steps_of a)),
    (fun an => tbreak_angle g (IZR (a_height a)) an (IZR (a_dmax a)) (IZR (a_sep a))).
  unfold d4, d3. split; [|split; [apply put_same|split; [|split]]].
  - rewrite put_other; [apply put_same|]. intros E. symmetry in E. now apply window_other in E.
  - exact (whole_rounds Tbreak _ (a_inc a) _ Hi).
  - intros an c l o L O. unfold tbreak_angle. change (maxus_angle g (IZR (a_height a)) an (IZR (a_dmax a)) c) with (upwind g a (a_dmax a) an c).
    change (maxus_angle g (IZR (a_height a)) an (IZR (a_sep a)) c) with (upwind g a (a_sep a) an c). rewrite L, O. apply f_equal, fsub_fin.
  - exact (whole_rounds Tbreak _ (a_inc a) _ Hi).
Qed.
Lemma d4_other a g d n : n <> a_out_tb a -> n <> tbreak_window a -> d4 a g d n = d2 a g d n.
Proof. intros H1 H2. unfold d4, d3. now rewrite !put_other. Qed.
Lemma done_tb w a g d : sees w a g -> fine a g -> a_tb a = true -> whole (IZR (a_sep a)) (spacing (t_x g)) ->
  dirname (a_out_tb a) = ""%string \/ isdir w (dirname (a_out_tb a)) = true ->
  exists l, main w a d = (l, None) /\ has_tbreak a g (last l d) /\
    (forall n, n <> a_out a -> n <> maxus_window a -> n <> a_out_tb a -> n <> tbreak_window a -> last l d n = d n) /\
    (a_out a <> a_out_tb a -> a_out a <> tbreak_window a -> maxus_window a <> a_out_tb a -> maxus_window a <> tbreak_window a ->
     has_maxus a g (last l d)).
Proof.
  intros S Hf T W C. rewrite (main_sees w a g d S), compute_first by exact Hf. rewrite rest_tb by assumption.
  eexists. split; [reflexivity|]. rewrite last_l12.
  assert (E : last (l3 a g d ++ l4 a g d) (d2 a g d) = d4 a g d).
  { rewrite last_app2. unfold l3. rewrite last_states. unfold l4. rewrite last_states. reflexivity. }
  rewrite E. split; [now apply d4_has|]. split.
  - intros n N1 N2 N3 N4. rewrite d4_other by assumption. now apply d2_other.
  - intros N1 N2 N3 N4. destruct (d2_has a g d Hf) as (f & fw & A & B & F1 & F2). exists f, fw. rewrite !d4_other by assumption. tauto.
Qed.
Lemma stage_fail run n c d e : run n d = Err e -> stage run n c d = ([], Some (Raised e)).
Proof. intros H. unfold stage. now rewrite H. Qed.
Lemma late w a g d : sees w a g -> fine a g -> a_tb a = true ->
  ~ whole (IZR (a_sep a)) (spacing (t_x g)) \/ (dirname (a_out_tb a) <> ""%string /\ isdir w (dirname (a_out_tb a)) = false) ->
  exists l e, main w a d = (l, Some e) /\ (e = Raised ValueError \/ e = OSError) /\ has_maxus a g (last l d) /\
    (forall n, n <> a_out a -> n <> maxus_window a -> last l d n = d n).
Proof.
  intros S Hf T B. rewrite (main_sees w a g d S), compute_first by exact Hf.
  assert (X : exists e, rest w a g (d2 a g d) = ([], Some e) /\ (e = Raised ValueError \/ e = OSError)).
  { unfold rest. rewrite T. destruct (uneven (IZR (a_sep a)) (t_dx g)) eqn:U.
    - rewrite (stage_fail _ _ _ _ ValueError); [|unfold tbreak; now rewrite U]. exists (Raised ValueError). split; [reflexivity|now left].
    - destruct B as [B|(B1 & B2)].
      + exfalso. assert (Y : uneven (IZR (a_sep a)) (t_dx g) = true) by (apply uneven_spec; now right). congruence.
      + exists OSError. split; [|now right]. rewrite B2, orb_false_r. destruct (String.eqb_spec (dirname (a_out_tb a)) ""); [tauto|].
        unfold stage at 1. destruct Hf as ((Hi & _) & P & W). unfold tbreak at 1. change (spacing (t_x g)) with (t_dx g) in *. rewrite U, (uneven_no _ _ P W), all_angles_pos by exact Hi.
        reflexivity. }
  destruct X as (e & -> & He). exists (l1 a g d ++ l2 a g d ++ []), e. split; [reflexivity|]. split; [exact He|]. rewrite last_l12. cbn [last].
  split; [now apply d2_has|]. apply d2_other.
Qed.

(** ** killed *)
Lemma killed w a g d l o s : sees w a g -> fine a g -> a_tb a = false -> main w a d = (l, o) -> In s l ->
  (forall n, n <> a_out a -> n <> maxus_window a -> s n = d n) /\
  exists f k, s (a_out a) = Some f /\ holds f Maxus [("dmax"%string, IZR (a_dmax a))] (a_inc a) k (upwind g a (a_dmax a)) /\
    ((k <= length (f_dirs f))%nat /\ s (maxus_window a) = d (maxus_window a) \/
     k = length (f_dirs f) /\ exists fw j, s (maxus_window a) = Some fw /\
       holds fw Maxus [] (a_inc a) j (fun angle c => window_value (a_inc a) (a_window a) angle f c)).
Proof.
  intros S Hf T E I. rewrite (main_sees w a g d S), compute_first in E by exact Hf. unfold rest in E. rewrite T in E. pose proof (f_equal fst E) as EL. cbn [fst] in EL. rewrite <- EL in I. clear E EL.
  pose proof Hf as ((Hi & _) & _ & _). rewrite app_nil_r in I.
  assert (LS : forall k, length (f_dirs (slopes a g k)) = steps_of a).
  { intros k. pose proof (rounds_holds Maxus [("dmax"%string, IZR (a_dmax a))] (a_inc a) k (fun an => maxus_angle g (IZR (a_height a)) an (IZR (a_dmax a))) Hi) as (_ & _ & L & _).
    pose proof (directions_len (a_inc a) Hi) as L2. unfold slopes, steps_of. cbv zeta in L, L2. nia. }
  apply in_app_or in I. destruct I as [I|I]; apply in_map_iff in I; destruct I as (k & <- & Hk); apply in_seq in Hk.
  - split; [intros n N1 N2; now apply put_other|]. exists (slopes a g k), k. split; [apply put_same|].
    split; [exact (rounds_holds Maxus _ (a_inc a) k _ Hi)|]. left. rewrite LS. split; [lia|]. apply put_other, window_other.
  - split; [intros n N1 N2; rewrite put_other by exact N2; unfold d1; now apply put_other|].
    exists (slopes a g (steps_of a)), (steps_of a). split; [|split].
    + rewrite put_other; [apply put_same|]. intros X. symmetry in X. now apply window_other in X.
    + exact (rounds_holds Maxus _ (a_inc a) _ _ Hi).
    + right. rewrite LS. split; [reflexivity|]. exists (windows a Maxus (slopes a g (steps_of a)) k), k. split; [apply put_same|].
      exact (rounds_holds Maxus _ (a_inc a) k _ Hi).
Qed.

Lemma killed_tb w a g d l o s : sees w a g -> fine a g -> a_tb a = true -> whole (IZR (a_sep a)) (spacing (t_x g)) ->
  dirname (a_out_tb a) = ""%string \/ isdir w (dirname (a_out_tb a)) = true ->
  a_out a <> a_out_tb a -> a_out a <> tbreak_window a -> maxus_window a <> a_out_tb a -> maxus_window a <> tbreak_window a ->
  main w a d = (l, o) -> In s l ->
  (forall n, n <> a_out a -> n <> maxus_window a -> n <> a_out_tb a -> n <> tbreak_window a -> s n = d n) /\
  ((s (a_out_tb a) = d (a_out_tb a) /\ s (tbreak_window a) = d (tbreak_window a) /\
    exists f k, s (a_out a) = Some f /\ holds f Maxus [("dmax"%string, IZR (a_dmax a))] (a_inc a) k (upwind g a (a_dmax a)) /\
    ((k <= length (f_dirs f))%nat /\ s (maxus_window a) = d (maxus_window a) \/
     k = length (f_dirs f) /\ exists fw j, s (maxus_window a) = Some fw /\
       holds fw Maxus [] (a_inc a) j (fun angle c => window_value (a_inc a) (a_window a) angle f c))) \/
   (has_maxus a g s /\
    exists f k value, s (a_out_tb a) = Some f /\
      holds f Tbreak [("dmax"%string, IZR (a_dmax a)); ("sepdist"%string, IZR (a_sep a))] (a_inc a) k value /\ is_break g a value /\
    ((k <= length (f_dirs f))%nat /\ s (tbreak_window a) = d (tbreak_window a) \/
     k = length (f_dirs f) /\ exists fw j, s (tbreak_window a) = Some fw /\
       holds fw Tbreak [] (a_inc a) j (fun angle c => window_value (a_inc a) (a_window a) angle f c)))).
Proof.
  intros S Hf T W C N1 N2 N3 N4 E I. rewrite (main_sees w a g d S), compute_first in E by exact Hf. rewrite rest_tb in E by assumption.
  pose proof (f_equal fst E) as EL. cbn [fst] in EL. rewrite <- EL in I. clear E EL.
  pose proof Hf as ((Hi & _) & _ & _).
  assert (LS : forall k, length (f_dirs (slopes a g k)) = steps_of a).
  { intros k. pose proof (rounds_holds Maxus [("dmax"%string, IZR (a_dmax a))] (a_inc a) k (fun an => maxus_angle g (IZR (a_height a)) an (IZR (a_dmax a))) Hi) as (_ & _ & L & _).
    pose proof (directions_len (a_inc a) Hi) as L2. unfold slopes, steps_of. cbv zeta in L, L2. nia. }
  assert (LB : forall k, length (f_dirs (breaks a g k)) = steps_of a).
  { intros k. pose proof (rounds_holds Tbreak [("dmax"%string, IZR (a_dmax a)); ("sepdist"%string, IZR (a_sep a))] (a_inc a) k
      (fun an => tbreak_angle g (IZR (a_height a)) an (IZR (a_dmax a)) (IZR (a_sep a))) Hi) as (_ & _ & L & _).
    pose proof (directions_len (a_inc a) Hi) as L2. unfold breaks, steps_of. cbv zeta in L, L2. nia. }
  assert (IB : is_break g a (fun an => tbreak_angle g (IZR (a_height a)) an (IZR (a_dmax a)) (IZR (a_sep a)))).
  { intros an c x y L O. unfold tbreak_angle. change (maxus_angle g (IZR (a_height a)) an (IZR (a_dmax a)) c) with (upwind g a (a_dmax a) an c).
    change (maxus_angle g (IZR (a_height a)) an (IZR (a_sep a)) c) with (upwind g a (a_sep a) an c). rewrite L, O. apply f_equal, fsub_fin. }
  assert (NW : a_out a <> maxus_window a) by (intros X; symmetry in X; now apply window_other in X).
  assert (NB : a_out_tb a <> tbreak_window a) by (intros X; symmetry in X; now apply window_other in X).
  apply in_app_or in I. destruct I as [I|I]; [|apply in_app_or in I; destruct I as [I|I]; [|apply in_app_or in I; destruct I as [I|I]]];
    apply in_map_iff in I; destruct I as (k & <- & Hk); apply in_seq in Hk.
  - split; [intros n M1 M2 M3 M4; now apply put_other|]. left. split; [|split].
    1,2: apply put_other; congruence.
    exists (slopes a g k), k. split; [apply put_same|].
    split; [exact (rounds_holds Maxus _ (a_inc a) k _ Hi)|]. left. rewrite LS. split; [lia|]. apply put_other, window_other.
  - unfold d1. split; [intros n M1 M2 M3 M4; now rewrite !put_other|]. left. split; [|split].
    1,2: rewrite !put_other; congruence.
    exists (slopes a g (steps_of a)), (steps_of a). split; [|split].
    + rewrite put_other by congruence. apply put_same.
    + exact (rounds_holds Maxus _ (a_inc a) _ _ Hi).
    + right. rewrite LS. split; [reflexivity|]. exists (windows a Maxus (slopes a g (steps_of a)) k), k. split; [apply put_same|].
      exact (rounds_holds Maxus _ (a_inc a) k _ Hi).
  - split; [intros n M1 M2 M3 M4; rewrite put_other by exact M3; now apply d2_other|]. right. split.
    { destruct (d2_has a g d Hf) as (f & fw & A & B & F). exists f, fw. rewrite !put_other by congruence. tauto. }
    exists (breaks a g k), k, (fun an => tbreak_angle g (IZR (a_height a)) an (IZR (a_dmax a)) (IZR (a_sep a))). split; [apply put_same|].
    split; [exact (rounds_holds Tbreak _ (a_inc a) k _ Hi)|]. split; [exact IB|]. left. rewrite LB. split; [lia|].
    rewrite put_other by congruence. apply d2_other; congruence.
  - unfold d3. split; [intros n M1 M2 M3 M4; rewrite !put_other by assumption; now apply d2_other|]. right. split.
    { destruct (d2_has a g d Hf) as (f & fw & A & B & F). exists f, fw. rewrite !put_other by congruence. tauto. }
    exists (breaks a g (steps_of a)), (steps_of a), (fun an => tbreak_angle g (IZR (a_height a)) an (IZR (a_dmax a)) (IZR (a_sep a))).
    split; [rewrite put_other by congruence; apply put_same|].
    split; [exact (rounds_holds Tbreak _ (a_inc a) _ _ Hi)|]. split; [exact IB|]. right. rewrite LB. split; [reflexivity|].
    exists (windows a Tbreak (breaks a g (steps_of a)) k), k. split; [apply put_same|]. exact (rounds_holds Tbreak _ (a_inc a) k _ Hi).
Qed.

(** ** windows *)
Lemma window_mean inc q angle f kd attrs value val c : (0 < inc -> 360 mod inc = 0 -> 0 <= q -> q * inc < 360 -> 0 <= angle < 360 -> angle mod inc = 0 ->
  whole_file f kd attrs inc value -> (forall e, 0 <= e < 360 -> e mod inc = 0 -> value e c = Some (F (val e))) ->
  exists sel, NoDup sel /\ In angle sel /\
    (forall e, In e sel <-> (0 <= e < 360 /\ e mod inc = 0) /\
       (Z.abs (e - angle) <= q * inc \/ angle + 360 - e <= q * inc \/ (e + 360 - angle <= q * inc /\ e <> 0))) /\
    window_value inc (2 * q * inc) angle f c = Some (F (fold_right Rplus 0 (map val sel) / INR (length sel))%R))%Z.
Proof.
  intros Hi H360 Hq Hw Ha Ma Hf Hv.
  set (f' := mkFile kd attrs (f_dirs f) (fun i _ => f_vals f i c)).
  assert (H' : holds f' kd attrs inc (length (f_dirs f')) (fun e _ => Some (F (val e)))).
  { destruct Hf as (K & At & L & D & V & Fl). unfold holds, f'. cbn [f_kind f_attrs f_dirs f_vals]. repeat split; try assumption; try (now apply L).
    - intros i c' H1 H2. rewrite V by assumption. f_equal. cbv zeta in L. apply Hv; [nia|]. rewrite Z.mul_comm. apply Z.mod_mul. lia.
    - intros i c' H. now apply Fl. }
  destruct (window_unfinished inc q angle _ f' kd attrs (fun e _ => val e) c Hi H360 Hq Hw Ha Ma H') as (sel & ND & Sel & E).
  assert (LF : forall e, (0 <= e < 360 -> e mod inc = 0 -> e < inc * Z.of_nat (length (f_dirs f')))%Z).
  { intros e He _. destruct Hf as (_ & _ & L & _). cbv zeta in L. unfold f'. cbn [f_dirs]. nia. }
  assert (IA : In angle sel) by (apply Sel; split; [tauto|]; split; [left; rewrite Z.sub_diag; cbn [Z.abs]; nia|now apply LF]).
  exists sel. split; [exact ND|]. split; [exact IA|]. split.
  - intros e. rewrite Sel. split; [tauto|]. intros (A & B). split; [exact A|]. split; [exact B|]. now apply LF.
  - change (window_value inc (2 * q * inc) angle f c) with (window_value inc (2 * q * inc) angle f' c). rewrite E.
    destruct sel; [destruct IA|reflexivity].
Qed.
Lemma window_none inc width angle f kd attrs value c : (0 < inc -> 360 mod inc = 0 -> 0 <= width -> width mod (2 * inc) <> 0 -> 0 <= angle < 360 -> angle mod inc = 0 ->
  whole_file f kd attrs inc value -> window_value inc width angle f c = None)%Z.
Proof.
  intros Hi H360 Hw Hm Ha Ma Hf. unfold window_value.
  assert (Ia : In angle (directions inc)) by (apply directions_spec; auto).
  assert (E : filter (fun ie : nat * Z => included inc width angle (snd ie)) (combine (seq 0 (length (directions inc))) (directions inc)) = []).
  { assert (N : forall ie, In ie (combine (seq 0 (length (directions inc))) (directions inc)) -> included inc width angle (snd ie) = false).
    { intros (i, e) I. apply in_combine_r in I. now apply misaligned. }
    induction (combine (seq 0 (length (directions inc))) (directions inc)) as [|ie l IH]; [reflexivity|].
    cbn [filter]. rewrite N by now left. apply IH. intros x Hx. apply N. now right. }
  now rewrite E.
Qed.

(** ** refusals *)
Lemma main_lost w a d : ~ found w a -> main w a d = ([], Some OSError).
Proof.
  intros H. unfold main. destruct (isfile w (a_dem a)) eqn:E1; [|reflexivity]. cbn [negb].
  destruct (String.eqb_spec (dirname (a_out a)) ""); [reflexivity|]. cbn [orb].
  destruct (isdir w (dirname (a_out a))) eqn:E2; [|reflexivity]. cbn [negb].
  destruct (String.eqb_spec (last_part (a_dem a)) "nc"); [|reflexivity]. exfalso. apply H. now repeat split.
Qed.
Lemma main_found w a d : found w a -> main w a d = match opens w (a_dem a) with
  | None => ([], Some OSError)
  | Some f => if negb (n_has f (a_var a)) then ([], Some OSError)
              else if negb (n_has f "x" && n_has f "y") then ([], Some (Raised KeyError))
              else let g := n_grid f (a_var a) in
                   if ((t_nx g <? 2) || (t_ny g <? 2))%Z then ([], Some (Raised IndexError)) else compute w a g d
  end.
Proof.
  intros (H1 & H2 & H3 & H4). unfold main. rewrite H1, H3, H4. destruct (String.eqb_spec (dirname (a_out a)) ""); [tauto|]. reflexivity.
Qed.
Lemma spacing_pos x : spacing x = 0 \/ 0 < spacing x.
Proof. unfold spacing. pose proof (Rabs_pos (x 1%Z - x 0%Z)). lra. Qed.
Lemma compute_refused w a g d : spacing (t_x g) = 0 \/ ~ whole (IZR (a_dmax a)) (spacing (t_x g)) -> compute w a g d = ([], Some (Raised ValueError)).
Proof.
  intros H. unfold compute. rewrite (stage_fail _ _ _ _ ValueError); [reflexivity|]. unfold maxus. replace (uneven (IZR (a_dmax a)) (t_dx g)) with true; [reflexivity|].
  symmetry. now apply uneven_spec.
Qed.
Lemma compute_starts w a g d : fine a g -> fst (compute w a g d) <> [].
Proof. intros Hf. rewrite compute_first by exact Hf. destruct (rest w a g (d2 a g d)) as [l o]. cbn. discriminate. Qed.

Lemma lost_main w a d : lost w a -> main w a d = ([], Some OSError).
Proof.
  intros H. assert (D : found w a \/ ~ found w a).
  { unfold found. destruct (isfile w (a_dem a)), (isdir w (dirname (a_out a))), (string_dec (dirname (a_out a)) ""), (string_dec (last_part (a_dem a)) "nc");
      try (now left; repeat split); right; intros (A & B & C & E); congruence. }
  destruct D as [D|D]; [|now apply main_lost]. destruct H as [H|H]; [tauto|]. rewrite main_found by exact D.
  destruct (opens w (a_dem a)) as [f|]; [|reflexivity]. now rewrite (H f eq_refl).
Qed.
Lemma nokey_main w a d : nokey w a -> main w a d = ([], Some (Raised KeyError)).
Proof.
  intros (D & f & E & V & N). rewrite main_found by exact D. rewrite E, V. cbn [negb].
  destruct (n_has f "x"), (n_has f "y"); try reflexivity. exfalso. apply N. now split.
Qed.
Lemma tiny_main w a d : tiny w a -> main w a d = ([], Some (Raised IndexError)).
Proof.
  intros (D & f & E & V & X & Y & N). rewrite main_found by exact D. rewrite E, V, X, Y. cbn [negb andb].
  destruct (Z.ltb_spec (t_nx (n_grid f (a_var a))) 2), (Z.ltb_spec (t_ny (n_grid f (a_var a))) 2); try reflexivity. lia.
Qed.
Lemma odd_main w a d : odd w a -> main w a d = ([], Some (Raised ValueError)).
Proof. intros (g & S & H). rewrite (main_sees w a g d S). now apply compute_refused. Qed.
Lemma starts_main w a d : starts w a -> fst (main w a d) <> [].
Proof. intros (g & S & H). rewrite (main_sees w a g d S). now apply compute_starts. Qed.
Lemma one_of w a : (0 < a_inc a < 360)%Z -> lost w a \/ nokey w a \/ tiny w a \/ odd w a \/ starts w a.
Proof.
  intros Hi. assert (D : found w a \/ ~ found w a).
  { unfold found. destruct (isfile w (a_dem a)), (isdir w (dirname (a_out a))), (string_dec (dirname (a_out a)) ""), (string_dec (last_part (a_dem a)) "nc");
      try (now left; repeat split); right; intros (A & B & C & E); congruence. }
  destruct D as [D|D]; [|left; now left].
  destruct (opens w (a_dem a)) as [f|] eqn:E; [|left; right; intros f; rewrite E; discriminate].
  destruct (n_has f (a_var a)) eqn:V; [|left; right; intros f' E'; rewrite E in E'; inversion E'; now subst].
  destruct (n_has f "x") eqn:X, (n_has f "y") eqn:Y;
    try (right; left; split; [exact D|]; exists f; split; [exact E|]; split; [exact V|]; intros (A & B); congruence).
  destruct (Z.ltb_spec (t_nx (n_grid f (a_var a))) 2) as [L|L]; [right; right; left; split; [exact D|]; exists f; tauto|].
  destruct (Z.ltb_spec (t_ny (n_grid f (a_var a))) 2) as [L2|L2]; [right; right; left; split; [exact D|]; exists f; tauto|].
  assert (S : sees w a (n_grid f (a_var a))).
  { destruct D as (D1 & D2 & D3 & D4). unfold sees. repeat (split; [assumption|]). exists f. tauto. }
  right; right; right. destruct (uneven (IZR (a_dmax a)) (t_dx (n_grid f (a_var a)))) eqn:U.
  - left. exists (n_grid f (a_var a)). split; [exact S|]. now apply uneven_spec.
  - right. exists (n_grid f (a_var a)). split; [exact S|]. split; [exact Hi|].
    assert (N : ~ (spacing (t_x (n_grid f (a_var a))) = 0 \/ ~ whole (IZR (a_dmax a)) (spacing (t_x (n_grid f (a_var a)))))).
    { intros X'. apply uneven_spec in X'. unfold t_dx in U. unfold spacing in X'. congruence. }
    destruct (spacing_pos (t_x (n_grid f (a_var a)))) as [Z0|Z0]; [exfalso; apply N; now left|]. split; [exact Z0|].
    destruct (Classical_Prop.classic (whole (IZR (a_dmax a)) (spacing (t_x (n_grid f (a_var a)))))) as [W|W]; [exact W|]. exfalso. apply N. now right.
Qed.
Lemma refusals w a d : (0 < a_inc a < 360)%Z ->
  (main w a d = ([], Some OSError) <-> lost w a) /\ (main w a d = ([], Some (Raised KeyError)) <-> nokey w a) /\
  (main w a d = ([], Some (Raised IndexError)) <-> tiny w a) /\ (main w a d = ([], Some (Raised ValueError)) <-> odd w a) /\
  (fst (main w a d) <> [] <-> starts w a).
Proof.
  intros Hi. destruct (one_of w a Hi) as [H|[H|[H|[H|H]]]].
  1: pose proof (lost_main w a d H) as E. 2: pose proof (nokey_main w a d H) as E. 3: pose proof (tiny_main w a d H) as E. 4: pose proof (odd_main w a d H) as E.
  5: pose proof (starts_main w a d H) as E.
  all: split; [|split; [|split; [|split]]]; (split; [intros X|intros X]); try exact H;
    try (rewrite E in X; cbn in X; congruence); try (apply lost_main; exact X); try (apply nokey_main; exact X); try (apply tiny_main; exact X);
    try (apply odd_main; exact X); try (apply starts_main; exact X); try (rewrite X in E; cbn in E; congruence).
Qed.

(** ** names of directories *)
Lemma dirname_none p : dirname p = ""%string <-> without "/" p.
Proof.
  unfold without. split.
  - intros H I. rewrite dirname_cut in H. pose proof (cut_spec p) as C. destruct (cut p) as [dir base]. destruct C as (E & N & D). cbn [fst] in H.
    destruct D as [->|(h & ->)].
    + apply N. cbn [app] in E. rewrite <- E. exact I.
    + destruct (h ++ [slash]) as [|x r] eqn:EH; [destruct h; discriminate EH|]. destruct (forallb (Ascii.eqb slash) (x :: r)) eqn:Fa; [discriminate H|].
      assert (Z : rev (lstrip slash (rev (x :: r))) = []) by (apply (f_equal chars) in H; rewrite chars_str in H; exact H).
      assert (Z2 : lstrip slash (rev (x :: r)) = []) by (rewrite <- (rev_involutive (lstrip slash (rev (x :: r)))), Z; reflexivity).
      assert (A : forall l, lstrip slash l = [] -> forallb (Ascii.eqb slash) l = true).
      { clear. induction l as [|y l IH]; intros H; [reflexivity|]. cbn [lstrip] in H. destruct (Ascii.eqb_spec y slash) as [->|]; [|discriminate H].
        cbn [forallb]. rewrite Ascii.eqb_refl. now apply IH. }
      apply A in Z2. assert (forallb (Ascii.eqb slash) (x :: r) = true); [|congruence]. apply forallb_forall. intros y Hy. rewrite forallb_forall in Z2. apply Z2. now apply in_rev in Hy.
  - intros N. unfold dirname. now rewrite split_last_none.
Qed.
Lemma dirname_some t c b : c <> "/"%char -> without "/" b -> dirname (t ++ String c "" ++ "/" ++ b) = (t ++ String c "")%string.
Proof.
  intros N Nb. unfold dirname. rewrite !chars_app. change (chars "/") with [slash]. change (chars (String c "")) with [c]. rewrite !app_assoc, <- app_assoc.
  cbn [app]. rewrite split_last_app by exact Nb.
  assert (Fa : forallb (Ascii.eqb slash) ((chars t ++ [c]) ++ [slash]) = false).
  { apply not_true_iff_false. intros H. rewrite forallb_forall in H. specialize (H c). rewrite Ascii.eqb_eq in H. apply N. symmetry. apply H. apply in_or_app. left. apply in_or_app. right. now left. }
  rewrite Fa, !rev_app_distr. cbn [rev app lstrip]. rewrite Ascii.eqb_refl. destruct (Ascii.eqb_spec c slash); [tauto|].
  apply chars_inj. rewrite chars_str, chars_app. cbn [rev]. rewrite rev_involutive. reflexivity.
Qed.
