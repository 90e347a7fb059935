(** The command gen_maxus: C97. *)
From Coq Require Import Ascii String.
From Coq Require Import List ZArith Bool Reals Lia Lra.
From Verif Require Import RNum WinsModel SpatModel WindowModel HordModel TbreakModel TbreakSpec TbreakProofs StartModel GenModel GenSpec GenProofs.
Import ListNotations.
Local Open Scope R_scope.

(** C97: the options: the last one given counts, otherwise the default; any word after --make_tbreak asks for breaks *)
Theorem C97_options : forall dem opts, let a := parse dem opts in
  a_dem a = dem /\
  a_out a = last (given (fun o => match o with OutMaxus s => Some s | _ => None end) opts) "./maxus.nc"%string /\
  a_inc a = last (given (fun o => match o with Increment z => Some z | _ => None end) opts) 5%Z /\
  a_dmax a = last (given (fun o => match o with SvGlobal z => Some z | _ => None end) opts) 500%Z /\
  a_sep a = last (given (fun o => match o with SvLocal z => Some z | _ => None end) opts) 100%Z /\
  a_height a = last (given (fun o => match o with Height z => Some z | _ => None end) opts) 3%Z /\
  a_window a = last (given (fun o => match o with Window z => Some z | _ => None end) opts) 100%Z /\
  a_var a = last (given (fun o => match o with VarName s => Some s | _ => None end) opts) "dem"%string /\
  a_out_tb a = last (given (fun o => match o with OutTbreak s => Some s | _ => None end) opts) "./tbreak.nc"%string /\
  (a_tb a = true <-> last (given (fun o => match o with MakeTbreak w => Some w | _ => None end) opts) ""%string <> ""%string).
Proof.
  intros dem opts. cbv zeta. induction opts as [|o opts IH] using rev_ind; [repeat split; try discriminate; intros X; now contradict X|].
  unfold parse, given in *. rewrite fold_left_app, !flat_map_app. cbn [fold_left]. destruct IH as (H1 & H2 & H3 & H4 & H5 & H6 & H7 & H8 & H9 & H10).
  destruct o; cbn [flat_map app set_opt a_dem a_out a_inc a_dmax a_sep a_height a_window a_var a_tb a_out_tb];
    rewrite ?app_nil_r, ?last_last; repeat (split; [first [reflexivity|assumption]|]); try assumption.
  all: try reflexivity.
  destruct (String.eqb_spec word ""); cbn [negb]; split; intros X; congruence.
Qed.
Print Assumptions C97_options.

(** C97: saying that no breaks are wanted asks for them *)
Theorem C97_flag_refuted : ~ (forall dem opts, a_tb (parse dem (opts ++ [MakeTbreak "False"])) = false).
Proof. intros H. specialize (H "dem.nc"%string []). discriminate H. Qed.
Print Assumptions C97_flag_refuted.

(** C97: the name of a windowed file is made from the name without its extension and the width; it is never the name of
    the file it is made from, is in the same directory, and two files share it only if they differ in the extension *)
Theorem C97_names : 
  (forall s b e, a_dir s -> without "/" b -> without "/" e -> without "." e -> (exists c, In c (list_ascii_of_string b) /\ c <> "."%char) ->
     root (s ++ b ++ "." ++ e) = (s ++ b)%string) /\
  (forall s b e, a_dir s -> without "/" b -> without "/" e -> without "." e -> (forall c, In c (list_ascii_of_string b) -> c = "."%char) ->
     root (s ++ b ++ e) = (s ++ b ++ e)%string) /\
  (forall p w, window_name p w <> p) /\
  (forall p w, dirname (window_name p w) = dirname p) /\
  (forall p q v w, window_name p v = window_name q w <-> root p = root q /\ v = w) /\
  (forall p w, exists digits, without "_" digits /\ window_name p w = (root p ++ "_" ++ digits ++ "window.nc")%string) /\
  (forall p, dirname p = ""%string <-> without "/" p) /\
  (forall t c b, c <> "/"%char -> without "/" b -> dirname (t ++ String c "" ++ "/" ++ b) = (t ++ String c "")%string).
Proof.
  split; [exact root_ext|]. split; [exact root_plain|]. split; [exact window_other|]. split; [exact window_dir|]. split; [exact window_name_inj|].
  split; [|split; [exact dirname_none|exact dirname_some]]. intros p w. exists (dec w). split; [exact (proj1 (dec_no w))|reflexivity].
Qed.
Print Assumptions C97_names.

(** C97: without breaks: the file of slopes, complete, and the windowed file made from it; nothing else is touched *)
Theorem C97_slopes : forall w a g d, sees w a g -> fine a g -> a_tb a = false ->
  exists l, main w a d = (l, None) /\ has_maxus a g (last l d) /\
    (forall n, n <> a_out a -> n <> maxus_window a -> last l d n = d n).
Proof. exact done. Qed.
Print Assumptions C97_slopes.

(** C97: with breaks: also the file of breaks and its windowed file; the files of slopes survive if the names differ *)
Theorem C97_breaks : forall w a g d, sees w a g -> fine a g -> a_tb a = true -> whole (IZR (a_sep a)) (spacing (t_x g)) ->
  dirname (a_out_tb a) = ""%string \/ isdir w (dirname (a_out_tb a)) = true ->
  exists l, main w a d = (l, None) /\ has_tbreak a g (last l d) /\
    (forall n, n <> a_out a -> n <> maxus_window a -> n <> a_out_tb a -> n <> tbreak_window a -> last l d n = d n) /\
    (a_out a <> a_out_tb a -> a_out a <> tbreak_window a -> maxus_window a <> a_out_tb a -> maxus_window a <> tbreak_window a ->
     has_maxus a g (last l d)).
Proof. exact done_tb. Qed.
Print Assumptions C97_breaks.

(** C97: names that differ in the extension only: the windowed slopes are replaced by windowed breaks, and a run with that
    file ends *)
Theorem C97_same_root : forall w a g d shape, sees w a g -> fine a g -> a_tb a = true -> whole (IZR (a_sep a)) (spacing (t_x g)) ->
  dirname (a_out_tb a) = ""%string \/ isdir w (dirname (a_out_tb a)) = true -> root (a_out a) = root (a_out_tb a) ->
  exists l, main w a d = (l, None) /\ load_maxus (last l d (maxus_window a)) shape shape = inl (Raised KeyError).
Proof.
  intros w a g d shape S Hf T W C R. destruct (done_tb w a g d S Hf T W C) as (l & E & (f & fw & value & _ & A & _ & _ & (K & _)) & _).
  exists l. split; [exact E|]. replace (maxus_window a) with (tbreak_window a) by (apply window_name_inj; auto). rewrite A. unfold load_maxus. now rewrite K.
Qed.
Print Assumptions C97_same_root.

(** C97: the means of the windowed files: the values of the directions at most half the width away, the direction 0 left
    out when it is reached through 360 ... *)
Theorem C97_means : forall inc q angle f kd attrs value val c,
  (0 < inc -> 360 mod inc = 0 -> 0 <= q -> q * inc < 360 -> 0 <= angle < 360 -> angle mod inc = 0 ->
  whole_file f kd attrs inc value -> (forall e, 0 <= e < 360 -> e mod inc = 0 -> value e c = Some (F (val e))) ->
  exists sel, NoDup sel /\ In angle sel /\
    (forall e, In e sel <-> (0 <= e < 360 /\ e mod inc = 0) /\
       (Z.abs (e - angle) <= q * inc \/ angle + 360 - e <= q * inc \/ (e + 360 - angle <= q * inc /\ e <> 0))) /\
    window_value inc (2 * q * inc) angle f c = Some (F (fold_right Rplus 0 (map val sel) / INR (length sel))%R))%Z.
Proof. exact window_mean. Qed.
Print Assumptions C97_means.

(** ... and when half the width is not a whole number of increments, nothing at all *)
Theorem C97_no_means : forall inc width angle f kd attrs value c,
  (0 < inc -> 360 mod inc = 0 -> 0 <= width -> width mod (2 * inc) <> 0 -> 0 <= angle < 360 -> angle mod inc = 0 ->
  whole_file f kd attrs inc value -> window_value inc width angle f c = None)%Z.
Proof. exact window_none. Qed.
Print Assumptions C97_no_means.

(** C97: what is refused before anything is written, and how *)
Theorem C97_refused : forall w a d, (0 < a_inc a < 360)%Z ->
  (main w a d = ([], Some OSError) <-> lost w a) /\
  (main w a d = ([], Some (Raised KeyError)) <-> nokey w a) /\
  (main w a d = ([], Some (Raised IndexError)) <-> tiny w a) /\
  (main w a d = ([], Some (Raised ValueError)) <-> odd w a) /\
  (fst (main w a d) <> [] <-> starts w a).
Proof. exact refusals. Qed.
Print Assumptions C97_refused.

(** C97: a name without a directory is refused, although the current directory exists *)
Theorem C97_plain_name : forall w a d, without "/" (a_out a) -> main w a d = ([], Some OSError).
Proof. intros w a d H. apply lost_main. left. intros (_ & N & _). apply N. now apply dirname_none. Qed.
Print Assumptions C97_plain_name.

(** C97: the distance and the directory for the breaks are looked at only after the slopes are done *)
Theorem C97_late : forall w a g d, sees w a g -> fine a g -> a_tb a = true ->
  ~ whole (IZR (a_sep a)) (spacing (t_x g)) \/ (dirname (a_out_tb a) <> ""%string /\ isdir w (dirname (a_out_tb a)) = false) ->
  exists l e, main w a d = (l, Some e) /\ (e = Raised ValueError \/ e = OSError) /\ has_maxus a g (last l d) /\
    (forall n, n <> a_out a -> n <> maxus_window a -> last l d n = d n).
Proof. exact late. Qed.
Print Assumptions C97_late.

(** C97: a run killed at any of its writes: no other file is touched; the file of slopes has the first directions; the
    windowed file is still the old one, or made from the complete file of slopes beside it *)
Theorem C97_killed : forall w a g d l o s, sees w a g -> fine a g -> a_tb a = false -> main w a d = (l, o) -> In s l ->
  (forall n, n <> a_out a -> n <> maxus_window a -> s n = d n) /\
  exists f k, s (a_out a) = Some f /\ holds f Maxus [("dmax"%string, IZR (a_dmax a))] (a_inc a) k (upwind g a (a_dmax a)) /\
    ((k <= length (f_dirs f))%nat /\ s (maxus_window a) = d (maxus_window a) \/
     k = length (f_dirs f) /\ exists fw j, s (maxus_window a) = Some fw /\
       holds fw Maxus [] (a_inc a) j (fun angle c => window_value (a_inc a) (a_window a) angle f c)).
Proof. exact killed. Qed.
Print Assumptions C97_killed.

(** C97: a run with breaks killed at any of its writes, when its four files have different names: no other file is touched;
    the files of breaks are still the old ones, and then the files of slopes are as above, or both files of slopes are
    complete, the file of breaks has the first directions, and its windowed file is still the old one or made from the
    complete file of breaks beside it *)
Theorem C97_killed_breaks : forall w a g d l o s, sees w a g -> fine a g -> a_tb a = true -> whole (IZR (a_sep a)) (spacing (t_x g)) ->
  dirname (a_out_tb a) = ""%string \/ isdir w (dirname (a_out_tb a)) = true ->
  a_out a <> a_out_tb a -> a_out a <> tbreak_window a -> maxus_window a <> a_out_tb a -> maxus_window a <> tbreak_window a ->
  main w a d = (l, o) -> In s l ->
  (forall n, n <> a_out a -> n <> maxus_window a -> n <> a_out_tb a -> n <> tbreak_window a -> s n = d n) /\
  ((s (a_out_tb a) = d (a_out_tb a) /\ s (tbreak_window a) = d (tbreak_window a) /\
    exists f k, s (a_out a) = Some f /\ holds f Maxus [("dmax"%string, IZR (a_dmax a))] (a_inc a) k (upwind g a (a_dmax a)) /\
    ((k <= length (f_dirs f))%nat /\ s (maxus_window a) = d (maxus_window a) \/
     k = length (f_dirs f) /\ exists fw j, s (maxus_window a) = Some fw /\
       holds fw Maxus [] (a_inc a) j (fun angle c => window_value (a_inc a) (a_window a) angle f c))) \/
   (has_maxus a g s /\
    exists f k value, s (a_out_tb a) = Some f /\
      holds f Tbreak [("dmax"%string, IZR (a_dmax a)); ("sepdist"%string, IZR (a_sep a))] (a_inc a) k value /\ is_break g a value /\
    ((k <= length (f_dirs f))%nat /\ s (tbreak_window a) = d (tbreak_window a) \/
     k = length (f_dirs f) /\ exists fw j, s (tbreak_window a) = Some fw /\
       holds fw Tbreak [] (a_inc a) j (fun angle c => window_value (a_inc a) (a_window a) angle f c)))).
Proof. exact killed_tb. Qed.
Print Assumptions C97_killed_breaks.

(** a terrace, a directory and the command *)
Definition here : world := mkWorld (fun p => String.eqb p "dem.nc") (fun p => String.eqb p ".")
  (fun p => if String.eqb p "dem.nc" then Some (mkNc (fun v => existsb (String.eqb v) ["x"; "y"; "dem"]%string) (fun _ => terrace)) else None).
Definition plain : args := parse "dem.nc" [SvGlobal 5; SvLocal 3].
Definition wanted : args := parse "dem.nc" [SvGlobal 5; SvLocal 3; MakeTbreak "False"].
Lemma here_sees a : a_dem a = "dem.nc"%string -> a_out a = "./maxus.nc"%string -> a_var a = "dem"%string -> sees here a terrace.
Proof.
  intros D O V. unfold sees. rewrite D, O, V. split; [reflexivity|]. split; [vm_compute; discriminate|]. split; [reflexivity|]. split; [reflexivity|].
  eexists. split; [reflexivity|]. repeat (split; [reflexivity|]). cbn [terrace t_nx t_ny]. lia.
Qed.
Lemma plain_fine a : a_inc a = 5%Z -> a_dmax a = 5%Z -> fine a terrace.
Proof.
  intros I D. unfold fine. rewrite I, D. change (spacing (t_x terrace)) with (t_dx terrace). rewrite terrace_dx. split; [lia|]. split; [lra|]. exists 5%Z. ring.
Qed.

(** C97: so the two files on the disk need not belong together: here the windowed file is of an earlier run with another
    increment *)
Theorem C97_pair_refuted :
  ~ (forall w a g d l o s f fw, sees w a g -> fine a g -> a_tb a = false -> main w a d = (l, o) -> In s l ->
       s (a_out a) = Some f -> s (maxus_window a) = Some fw ->
       exists j, holds fw Maxus [] (a_inc a) j (fun angle c => window_value (a_inc a) (a_window a) angle f c)).
Proof.
  intros H. set (old := mkFile Maxus [] (map Some (directions 10)) (fun _ _ => Stored (Some (F 0)))).
  set (d := put (fun _ => None) (maxus_window plain) old).
  assert (S : sees here plain terrace) by (now apply here_sees). assert (Fi : fine plain terrace) by (now apply plain_fine).
  assert (T : a_tb plain = false) by reflexivity.
  destruct (starts_main here plain d ltac:(now exists terrace)). destruct (main here plain d) as [l o] eqn:E. cbn [fst].
  pose proof (main_sees here plain terrace d S) as M. rewrite compute_first in M by exact Fi. unfold rest in M. rewrite T in M. rewrite E in M.
  assert (I : In (put d (a_out plain) (slopes plain terrace 0)) l).
  { pose proof (f_equal fst M) as ML. cbn [fst] in ML. rewrite ML. apply in_or_app. left. unfold l1. apply in_map_iff. exists 0%nat. split; [reflexivity|]. apply in_seq. lia. }
  destruct (H here plain terrace d l o _ (slopes plain terrace 0) old S Fi T E I (put_same _ _ _)) as (j & _ & _ & L & _).
  - rewrite put_other by apply window_other. apply put_same.
  - exfalso. vm_compute in L. destruct L as (_ & L). apply L. reflexivity.
Qed.
Print Assumptions C97_pair_refuted.

(** C97: a run takes a complete file of slopes with grids of the topo's shape, and no file of breaks *)
Theorem C97_taken : forall f kd attrs inc value m t, (0 < inc)%Z -> whole_file f kd attrs inc value ->
  (forall ds, load_maxus (Some f) m t = inr ds <-> kd = Maxus /\ m = t /\ ds = f_dirs f) /\
  (load_maxus (Some f) m t = inl (Raised KeyError) <-> kd = Tbreak) /\
  (load_maxus (Some f) m t = inl OSError <-> kd = Maxus /\ m <> t) /\
  load_maxus None m t = inl OSError.
Proof.
  intros f kd attrs inc value (m1, m2) (t1, t2) Hi (K & _ & L & _). unfold load_maxus. rewrite K. cbn [fst snd]. cbv zeta in L.
  destruct (f_dirs f) as [|x r]; [cbn [length Z.of_nat] in L; lia|].
  destruct kd; cbn [kind_eqb negb].
  - destruct (Z.eqb_spec t1 m1) as [->|N]; [destruct (Z.eqb_spec t2 m2) as [->|N]|]; cbn [andb].
    + split; [|split; [|split]]; try reflexivity; try (split; intros X; try discriminate X; destruct X; congruence).
      intros ds. split; [intros X; inversion X; auto|intros (_ & _ & ->); reflexivity].
    + split; [|split; [|split]]; try reflexivity; [intros ds|..]; split; intros X; try discriminate X; try reflexivity.
      * destruct X as (_ & X & _). congruence.
      * split; [reflexivity|congruence].
    + split; [|split; [|split]]; try reflexivity; [intros ds|..]; split; intros X; try discriminate X; try reflexivity.
      * destruct X as (_ & X & _). congruence.
      * split; [reflexivity|congruence].
  - split; [|split; [|split]]; try reflexivity; [intros ds|..]; split; intros X; try discriminate X; try reflexivity; destruct X as (X & _); discriminate X.
Qed.
Print Assumptions C97_taken.

(** C97: so it need not be made from the topo of the run, as the message says *)
Theorem C97_topo_refuted :
  ~ (forall w a g g' d l ds, sees w a g -> fine a g -> a_tb a = false -> main w a d = (l, None) ->
       load_maxus (last l d (a_out a)) (t_ny g, t_nx g) (t_ny g', t_nx g') = inr ds -> forall c, t_dem g c = t_dem g' c).
Proof.
  intros H. assert (S : sees here plain terrace) by (now apply here_sees). assert (Fi : fine plain terrace) by (now apply plain_fine).
  destruct (done here plain terrace (fun _ => None) S Fi eq_refl) as (l & E & (f & fw & A & _ & W & _) & _).
  specialize (H here plain terrace (mkTerrain 6 2 IZR IZR (fun _ => 1)) _ l (f_dirs f) S Fi eq_refl E). rewrite A in H.
  assert (P : (0 < a_inc plain)%Z) by reflexivity.
  destruct (C97_taken f _ _ _ _ (2, 6)%Z (2, 6)%Z P W) as (B & _).
  assert (X : 0 = 1); [|lra]. exact (H (proj2 (B (f_dirs f)) (conj eq_refl (conj eq_refl eq_refl))) (0, 0)%Z).
Qed.
Print Assumptions C97_topo_refuted.

(** the command on the terrace: names, two files; and, although "False" is said, the four files *)
Example C97_case :
  maxus_window plain = "./maxus_100window.nc"%string /\ tbreak_window wanted = "./tbreak_100window.nc"%string /\ dirname "./maxus.nc" = "."%string /\
  (exists l, main here plain (fun _ => None) = (l, None) /\ has_maxus plain terrace (last l (fun _ => None))) /\
  (exists l, main here wanted (fun _ => None) = (l, None) /\ has_maxus wanted terrace (last l (fun _ => None)) /\ has_tbreak wanted terrace (last l (fun _ => None))) /\
  main here (parse "dem.nc" [OutMaxus "maxus.nc"]) (fun _ => None) = ([], Some OSError) /\
  root "a.b/.c" = "a.b/.c"%string /\ window_name "/d/x.y.nc" 30 = "/d/x.y_30window.nc"%string /\ dirname "/x" = "/"%string /\ dirname "a//x" = "a"%string.
Proof.
  split; [reflexivity|]. split; [reflexivity|]. split; [reflexivity|]. split; [|split; [|split; [|now repeat split]]].
  - destruct (done here plain terrace (fun _ => None)) as (l & E & H & _); [now apply here_sees|now apply plain_fine|reflexivity|]. now exists l.
  - destruct (done_tb here wanted terrace (fun _ => None)) as (l & E & H & _ & H2); [now apply here_sees|now apply plain_fine|reflexivity| |right; reflexivity|].
    + change (spacing (t_x terrace)) with (t_dx terrace). rewrite terrace_dx. exists 3%Z. cbn [wanted parse fold_left set_opt a_sep]. ring.
    + exists l. split; [exact E|]. split; [|exact H]. apply H2; vm_compute; discriminate.
  - apply C97_plain_name. vm_compute. intuition discriminate.
Qed.
(** a run with breaks, stopped at any write, started on a disk that has an old file of breaks *)
Example C97_case_killed : forall d l o s, main here wanted d = (l, o) -> In s l ->
  s "./other.nc"%string = d "./other.nc"%string /\
  (s "./tbreak.nc"%string = d "./tbreak.nc"%string \/ has_maxus wanted terrace s).
Proof.
  intros d l o s E I.
  assert (S : sees here wanted terrace) by now apply here_sees.
  assert (F : fine wanted terrace) by now apply plain_fine.
  assert (W : whole (IZR (a_sep wanted)) (spacing (t_x terrace))).
  { change (spacing (t_x terrace)) with (t_dx terrace). rewrite terrace_dx. exists 3%Z. cbn [wanted parse fold_left set_opt a_sep]. ring. }
  assert (C : dirname (a_out_tb wanted) = ""%string \/ isdir here (dirname (a_out_tb wanted)) = true) by (right; reflexivity).
  assert (N1 : a_out wanted <> a_out_tb wanted) by (vm_compute; discriminate).
  assert (N2 : a_out wanted <> tbreak_window wanted) by (vm_compute; discriminate).
  assert (N3 : maxus_window wanted <> a_out_tb wanted) by (vm_compute; discriminate).
  assert (N4 : maxus_window wanted <> tbreak_window wanted) by (vm_compute; discriminate).
  destruct (C97_killed_breaks here wanted terrace d l o s S F eq_refl W C N1 N2 N3 N4 E I) as (A & B).
  split; [apply A; vm_compute; discriminate|]. destruct B as [(B & _)|(B & _)]; [left; exact B|right; exact B].
Qed.
