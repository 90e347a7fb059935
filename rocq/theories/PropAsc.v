(** The grids of the WindNinja files: C90. *)
From Coq Require Import Reals ZArith Ascii String List Bool Lra Lia.
From Verif Require Import RNum WinsModel WinsProofs NinjaModel NinjaSpec NinjaProofs AscModel AscSpec AscProofs.
Import ListNotations.
Local Open Scope R_scope.

(** What a file says of its grid: the lines may come in any order, with any white space, and with more after the value.  The
    values of the file belong to the middles of the cells, row by row from the north. *)
Definition grid_header (int : string -> option Z) (float : string -> option R) (lines : list string) (x0 y0 size : R) (rows cols : nat) : Prop :=
  proper_header lines /\
  (exists s n, header_value lines "ncols" s /\ int s = Some n /\ cols = Z.to_nat n) /\
  (exists s n, header_value lines "nrows" s /\ int s = Some n /\ rows = Z.to_nat n) /\
  (exists s, header_value lines "cellsize" s /\ float s = Some size) /\
  (exists s, header_value lines "yllcorner" s /\ float s = Some y0) /\
  (exists s, header_value lines "xllcorner" s /\ float s = Some x0).
Theorem C90_header int float lines x0 y0 size rows cols : grid_header int float lines x0 y0 size rows cols ->
  exists s, get_asc_stats int float lines = Ok s /\ cell_centres x0 y0 size rows cols (points s) /\ length (s_x s) = cols /\ length (s_y s) = rows.
Proof.
  intros (P & (s1 & n1 & H1 & I1 & ->) & (s2 & n2 & H2 & I2 & ->) & (s3 & H3 & I3) & (s4 & H4 & I4) & (s5 & H5 & I5)).
  destruct (proj1 (header_reads lines) P) as (h & R). unfold get_asc_stats. rewrite R. cbn [bind].
  rewrite (proj2 (item_spec lines h _ _ P R) H1), (proj2 (item_spec lines h _ _ P R) H2), (proj2 (item_spec lines h _ _ P R) H3),
    (proj2 (item_spec lines h _ _ P R) H4), (proj2 (item_spec lines h _ _ P R) H5).
  cbn [bind]. unfold number. rewrite I1, I2, I3, I4, I5. cbn [bind]. cbv zeta.
  eexists. split; [reflexivity|]. split; [apply centres_ok|]. cbn [s_x s_y]. rewrite !map_length, rev_length, map_length, !seq_length. auto.
Qed.
Print Assumptions C90_header.
(** Anything else is refused: a line among the first six without a value with an IndexError, a missing key with a KeyError and a value
    that is no number with a ValueError, whichever comes first. *)
Theorem C90_header_errors int float lines :
  (get_asc_stats int float lines = Err IndexError <-> ~ proper_header lines) /\
  ((exists s, get_asc_stats int float lines = Ok s) <-> exists x0 y0 size rows cols, grid_header int float lines x0 y0 size rows cols) /\
  (get_asc_stats int float lines = Err KeyError -> exists key, In key ["ncols"; "nrows"; "cellsize"; "yllcorner"; "xllcorner"]%string /\
     forall v, ~ header_value lines key v) /\
  (get_asc_stats int float lines = Err ValueError -> exists key v, header_value lines key v /\
     (In key ["ncols"; "nrows"]%string /\ int v = None \/ In key ["cellsize"; "yllcorner"; "xllcorner"]%string /\ float v = None)) /\
  (forall e, get_asc_stats int float lines = Err e -> e = IndexError \/ e = KeyError \/ e = ValueError).
Proof.
  destruct (proper_or lines) as [[P (h & R)]|[P R]].
  2:{ assert (E : get_asc_stats int float lines = Err IndexError) by (unfold get_asc_stats; rewrite R; reflexivity). rewrite E.
      split; [tauto|]. split; [|repeat split; try discriminate; intros e [= <-]; auto].
      split; [intros (s & X); discriminate X|]. intros (x0 & y0 & size & rows & cols & X & _). contradiction. }
  assert (IS := fun k v => item_spec lines h k v P R).
  assert (K : forall {A} (read : string -> option A) k,
    (exists s a, header_value lines k s /\ read s = Some a /\ bind (item h k) (number read) = Ok a) \/
    ((forall v, ~ header_value lines k v) /\ bind (item h k) (number read) = Err KeyError) \/
    (exists s, header_value lines k s /\ read s = None /\ bind (item h k) (number read) = Err ValueError)).
  { intros A read k. destruct (item h k) as [s|e] eqn:I.
    - assert (HV : header_value lines k s) by (apply IS; exact I). cbn [bind]. unfold number. destruct (read s) as [a|] eqn:RS; [left; exists s, a; auto|right; right; exists s; auto].
    - right; left. split; [intros v HV; apply IS in HV; congruence|]. unfold item in I. destruct (find _ h); [discriminate I|]. injection I as <-. reflexivity. }
  unfold get_asc_stats. rewrite R. cbn [bind].
  assert (KEY : forall key (Q : Prop), (forall v, ~ header_value lines key v) -> In key ["ncols"; "nrows"; "cellsize"; "yllcorner"; "xllcorner"]%string ->
    (Err KeyError = (Err IndexError : res stats) <-> ~ proper_header lines) /\
    ((exists s : stats, Err KeyError = Ok s) <-> exists x0 y0 size rows cols, grid_header int float lines x0 y0 size rows cols) /\
    (Err KeyError = (Err KeyError : res stats) -> exists key, In key ["ncols"; "nrows"; "cellsize"; "yllcorner"; "xllcorner"]%string /\ forall v, ~ header_value lines key v) /\
    (Err KeyError = (Err ValueError : res stats) -> Q) /\
    (forall e, Err KeyError = (Err e : res stats) -> e = IndexError \/ e = KeyError \/ e = ValueError)).
  { intros key Q N I. split; [split; [discriminate|contradiction]|]. split; [|split; [intros _; eauto|split; [discriminate|intros e [= <-]; auto]]].
    split; [intros (s & X); discriminate X|]. intros (x0 & y0 & size & rows & cols & _ & (s1 & _ & H1 & _) & (s2 & _ & H2 & _) & (s3 & H3 & _) & (s4 & H4 & _) & (s5 & H5 & _)).
    exfalso. cbn [In] in I. destruct I as [<-|[<-|[<-|[<-|[<-|[]]]]]]; eapply N; eassumption. }
  assert (VAL : forall key v (Q : Prop), header_value lines key v ->
     (In key ["ncols"; "nrows"]%string /\ int v = None \/ In key ["cellsize"; "yllcorner"; "xllcorner"]%string /\ float v = None) ->
    (Err ValueError = (Err IndexError : res stats) <-> ~ proper_header lines) /\
    ((exists s : stats, Err ValueError = Ok s) <-> exists x0 y0 size rows cols, grid_header int float lines x0 y0 size rows cols) /\
    (Err ValueError = (Err KeyError : res stats) -> Q) /\
    (Err ValueError = (Err ValueError : res stats) -> exists key v, header_value lines key v /\
      (In key ["ncols"; "nrows"]%string /\ int v = None \/ In key ["cellsize"; "yllcorner"; "xllcorner"]%string /\ float v = None)) /\
    (forall e, Err ValueError = (Err e : res stats) -> e = IndexError \/ e = KeyError \/ e = ValueError)).
  { intros key v Q HV N. split; [split; [discriminate|contradiction]|]. split; [|split; [discriminate|split; [intros _; eauto|intros e [= <-]; auto]]].
    split; [intros (s & X); discriminate X|]. intros (x0 & y0 & size & rows & cols & _ & (s1 & a1 & H1 & I1 & _) & (s2 & a2 & H2 & I2 & _) & (s3 & H3 & I3) & (s4 & H4 & I4) & (s5 & H5 & I5)).
    exfalso. apply IS in HV, H1, H2, H3, H4, H5. cbn [In] in N. destruct N as [[[<-|[<-|[]]] N]|[[<-|[<-|[<-|[]]]] N]]; congruence. }
  destruct (K Z int "ncols"%string) as [(s1 & a1 & H1 & I1 & ->)|[[N ->]|(s & HV & N & ->)]]; cbn [bind];
    [|apply (KEY _ _ N); cbn; auto 10|apply (VAL _ _ _ HV); left; split; [cbn; auto 10|exact N]].
  destruct (K Z int "nrows"%string) as [(s2 & a2 & H2 & I2 & ->)|[[N ->]|(s & HV & N & ->)]]; cbn [bind];
    [|apply (KEY _ _ N); cbn; auto 10|apply (VAL _ _ _ HV); left; split; [cbn; auto 10|exact N]].
  destruct (K _ float "cellsize"%string) as [(s3 & a3 & H3 & I3 & ->)|[[N ->]|(s & HV & N & ->)]]; cbn [bind];
    [|apply (KEY _ _ N); cbn; auto 10|apply (VAL _ _ _ HV); right; split; [cbn; auto 10|exact N]].
  destruct (K _ float "yllcorner"%string) as [(s4 & a4 & H4 & I4 & ->)|[[N ->]|(s & HV & N & ->)]]; cbn [bind];
    [|apply (KEY _ _ N); cbn; auto 10|apply (VAL _ _ _ HV); right; split; [cbn; auto 10|exact N]].
  destruct (K _ float "xllcorner"%string) as [(s5 & a5 & H5 & I5 & ->)|[[N ->]|(s & HV & N & ->)]]; cbn [bind];
    [|apply (KEY _ _ N); cbn; auto 10|apply (VAL _ _ _ HV); right; split; [cbn; auto 10|exact N]].
  split; [split; [discriminate|contradiction]|]. split; [|repeat split; discriminate].
  split; [intros _|intros _; eauto]. exists a5, a4, a3, (Z.to_nat a2), (Z.to_nat a1). split; [exact P|].
  split; [exists s1, a1; auto|]. split; [exists s2, a2; auto|]. split; [exists s3; auto|]. split; [exists s4; auto|exists s5; auto].
Qed.
Print Assumptions C90_header_errors.

Section Runs.
Context (int : string -> option Z) (float : string -> option R) (triangulate : list (R * R) -> res (R * R -> list (nat * R))).
Notation run := (run int float triangulate).
(** what qhull is relied on for: the weights of a place reproduce it *)
Definition good_weights : Prop := forall pts tri, triangulate pts = Ok tri -> forall place, barycentric pts place (tri place).

(** At a model with WindNinja's resolution (no filling), in every time step of a run: a field that is linear in the coordinates
    given by the header of the first file is reproduced, scaled by the two logarithmic profiles, wherever a cell has a triangle. *)
Theorem C90_linear c f rest gs e k g vel ang x0 y0 size rows cols a b d :
  good_weights -> run c None (f :: rest) = (gs, e) -> nth_error gs k = Some g -> nth_error (f :: rest) k = Some (Some vel, ang) ->
  (forall v, fst f = Some v -> grid_header int float (a_lines v) x0 y0 size rows cols) ->
  (forall i j, (i < rows)%nat -> (j < cols)%nat ->
     nth (i * cols + j) (a_data vel) None = Some (a + b * (x0 + size * (INR j + 1 / 2)) + d * (y0 + size * (INR (rows - 1 - i) + 1 / 2)))) ->
  n_dxdy c = (n_xs c (n_nx c - 1)%nat - n_xs c 0%nat) / INR (n_nx c - 1) -> 0 < n_roughness c -> 0 < n_height c ->
  exists pts tri, cell_centres x0 y0 size rows cols pts /\ triangulate pts = Ok tri /\
  forall i j, (forall m w, In (m, w) (tri (n_xs c j, n_ys c i)) -> 0 <= w) ->
    exists z, 0.01 <= z <= 1.6 /\ (forall h, n_veg c i j = Some h -> 0.01 * 7.39 <= h <= 1.6 * 7.39 -> z = h / 7.39) /\
      fst g i j = Some ((a + b * n_xs c j + d * n_ys c i) * (profile z (n_height c) / profile (n_roughness c) (n_height c))).
Proof.
  intros GW RUN NG NF HD LIN DX RO HE. destruct gs as [|g0 gs']; [destruct k; discriminate NG|].
  destruct (run_first int float triangulate c f rest _ e g0 gs' RUN eq_refl) as (w & INI & ALL).
  destruct (ALL k g NG) as (f' & NF' & CF). rewrite NF in NF'. injection NF' as <-. cbn [fst snd] in CF.
  unfold initialize_interp in INI. destruct (fst f) as [v0|]; [|discriminate INI]. cbn [open_file bind] in INI.
  destruct (C90_header int float (a_lines v0) x0 y0 size rows cols (HD v0 eq_refl)) as (s & ES & CC & _). rewrite ES in INI. cbn [bind] in INI.
  destruct (triangulate (points s)) as [tri|] eqn:TR; [|discriminate INI]. cbn [bind] in INI. injection INI as <-.
  exists (points s), tri. split; [exact CC|]. split; [exact TR|]. intros i j POS.
  unfold convert_files in CF. cbn [open_file bind] in CF. unfold take in CF. destruct (in_range _ (a_data vel)); [|discriminate CF]. cbn [bind] in CF.
  destruct (convert_speed _ _) as [sp|] eqn:CS; [|discriminate CF]. cbn [bind] in CF.
  destruct (open_file ang) as [ga|]; [|discriminate CF]. cbn [bind] in CF. destruct (if in_range _ (a_data ga) then _ else _) as [aa|]; [|discriminate CF]. cbn [bind] in CF.
  destruct (convert_direction _ _) as [dd|]; [|discriminate CF]. injection CF as <-. cbn [fst].
  unfold convert_speed, model_dxdy in CS. cbn [n_dxdy n_xs n_nx n_ny n_ys n_tri n_roughness n_height n_veg] in CS.
  rewrite <- DX in CS. destruct (reqb_spec (n_dxdy c) (n_dxdy c)) as [_|NE]; [|destruct (NE eq_refl)]. cbn [bind] in CS. injection CS as <-.
  exists (veg_roughness (n_veg c i j)). split; [apply rough_range|]. split.
  { intros h -> Hr. rewrite rough_value. rewrite Rmax_right, Rmin_right; [reflexivity| |]; lra. }
  destruct CC as [CL CN].
  rewrite (weighted_linear _ (points s) _ (n_xs c j, n_ys c i) a b d); [|  |apply GW; exact TR|exact POS].
  { cbn [rlift option_map fst snd]. f_equal. rewrite scale_profile. reflexivity. }
  intros m M. rewrite CL in M. assert (CP : (0 < cols)%nat) by nia.
  pose proof (Nat.div_mod m cols ltac:(lia)) as DM. pose proof (Nat.mod_upper_bound m cols ltac:(lia)) as MB.
  assert (DB : (m / cols < rows)%nat) by (apply Nat.div_lt_upper_bound; lia).
  replace m with (m / cols * cols + m mod cols)%nat at 1 by lia. rewrite LIN by assumption.
  rewrite (nth_error_nth (points s) m (0, 0) (x := (x0 + size * (INR (m mod cols) + 1 / 2), y0 + size * (INR (rows - 1 - m / cols) + 1 / 2)))).
  - reflexivity.
  - rewrite <- (CN (m / cols)%nat (m mod cols)%nat DB MB). f_equal. lia.
Qed.
(** A speed that the header declares to mean "no data" is taken for a speed. *)
Theorem C90_nodata_refuted c f rest gs e k g vel ang x0 y0 size rows cols word v :
  good_weights -> run c None (f :: rest) = (gs, e) -> nth_error gs k = Some g -> nth_error (f :: rest) k = Some (Some vel, ang) ->
  (forall v, fst f = Some v -> grid_header int float (a_lines v) x0 y0 size rows cols) ->
  header_value (a_lines vel) "NODATA_value" word -> float word = Some v ->
  (forall m, (m < rows * cols)%nat -> nth m (a_data vel) None = Some v) ->
  n_dxdy c = (n_xs c (n_nx c - 1)%nat - n_xs c 0%nat) / INR (n_nx c - 1) -> 0 < n_roughness c -> 0 < n_height c ->
  exists pts tri, cell_centres x0 y0 size rows cols pts /\ triangulate pts = Ok tri /\
  forall i j, (forall m w, In (m, w) (tri (n_xs c j, n_ys c i)) -> 0 <= w) ->
    exists factor, 0 < factor /\ fst g i j = Some (v * factor).
Proof.
  intros GW RUN NG NF HD _ _ U DX RO HE.
  destruct (C90_linear c f rest gs e k g vel ang x0 y0 size rows cols v 0 0 GW RUN NG NF HD) as (pts & tri & A & B & C); try assumption.
  { intros i j I J. rewrite U by nia. f_equal. ring. }
  exists pts, tri. split; [exact A|]. split; [exact B|]. intros i j POS. destruct (C i j POS) as (z & Z & _ & E).
  exists (profile z (n_height c) / profile (n_roughness c) (n_height c)). split; [apply Rdiv_lt_0_compat; apply profile_pos; lra|].
  rewrite E. f_equal. ring.
Qed.
(** If the speed files of a run have the same six lines, every time step gives the fields it would give alone. *)
Theorem C90_same_grid c f rest gs e k g fk : run c None (f :: rest) = (gs, e) -> nth_error gs k = Some g -> nth_error (f :: rest) k = Some fk ->
  (forall v0 vk, fst f = Some v0 -> fst fk = Some vk -> a_lines vk = a_lines v0) ->
  run c None [fk] = ([g], None).
Proof.
  intros RUN NG NF SAME. destruct gs as [|g0 gs']; [destruct k; discriminate NG|].
  destruct (run_first int float triangulate c f rest _ e g0 gs' RUN eq_refl) as (w & INI & ALL).
  destruct (ALL k g NG) as (f' & NF' & CF). rewrite NF in NF'. injection NF' as <-.
  assert (I2 : initialize_interp int float triangulate c (fst fk) = Ok w).
  { unfold initialize_interp in *. destruct (fst f) as [v0|]; [|discriminate INI]. destruct (fst fk) as [vk|] eqn:FK.
    - cbn [open_file bind] in *. rewrite (SAME v0 vk eq_refl eq_refl). exact INI.
    - unfold convert_files in CF. discriminate CF. }
  cbn [AscModel.run]. unfold distribute. rewrite I2. cbn [bind]. rewrite CF. reflexivity.
Qed.
End Runs.
Print Assumptions C90_linear.
Print Assumptions C90_nodata_refuted.
Print Assumptions C90_same_grid.

(** ** Two files *)
Definition a_int (s : string) : option Z := if String.eqb s "2" then Some 2%Z else None.
Definition a_float (s : string) : option R :=
  if String.eqb s "0.0" then Some 0 else if String.eqb s "0.5" then Some (1 / 2) else if String.eqb s "1.0" then Some 1
  else if String.eqb s "-9999" then Some (-9999) else None.
Definition lines_at (y : string) : list string :=
  ["ncols         2"; append "yllcorner     " (append y " "); "NODATA_value  -9999"; "nrows 2"; "  xllcorner 0.0 m"; "cellsize      1.0"; "1 2"]%string.
(** the triangle of the first three of four points *)
Definition corner_triangle (pts : list (R * R)) : res (R * R -> list (nat * R)) :=
  match pts with
  | [p; q; r; _] =>
      if reqb (snd p) (snd q) && reqb (fst p) (fst r) && rltb (fst p) (fst q) && rltb (snd r) (snd p)
      then Ok (fun z => let u := (fst z - fst p) / (fst q - fst p) in let v := (snd z - snd p) / (snd r - snd p) in
                        [(0%nat, 1 - u - v); (1%nat, u); (2%nat, v)])
      else Err ValueError
  | _ => Err ValueError
  end.
Lemma corner_good : good_weights corner_triangle.
Proof.
  intros pts tri. unfold corner_triangle. destruct pts as [|p [|q [|r [|s [|]]]]]; try discriminate.
  destruct (reqb_spec (snd p) (snd q)) as [E1|]; [|discriminate]. destruct (reqb_spec (fst p) (fst r)) as [E2|]; [|discriminate].
  destruct (rltb_spec (fst p) (fst q)); [|discriminate]. destruct (rltb_spec (snd r) (snd p)); [|discriminate]. cbn [andb]. intros [= <-] place.
  split; [|cbn [fold_right fst snd nth]; split; [ring|split]].
  - intros k w. cbn [In]. intros [X|[X|[X|[]]]]; injection X as <- _; cbn; lia.
  - rewrite <- E2. field. lra.
  - rewrite <- E1. field. lra.
Qed.
Definition two_cells : ninja :=
  mkNinja 1 2 (fun j => match j with O => 1 / 2 | _ => 3 / 4 end) (fun _ => 3 / 2) (1 / 4) 0.01 10 (fun _ _ => Some 7.39) (fun _ _ => []).
Definition speeds (y : string) (d : list R) : option asc := Some (mkAsc (lines_at y) (map Some d)).
Lemma lines_header y : (y = "0.0" \/ y = "0.5")%string -> forall v, a_float y = Some v ->
  get_asc_stats a_int a_float (lines_at y) = Ok (mkStats [0 + 1 * 0 + 1 / 2; 0 + 1 * 1 + 1 / 2] [v + 1 * 1 + 1 / 2; v + 1 * 0 + 1 / 2]).
Proof. intros [-> | ->] v E; injection E as <-; reflexivity. Qed.
Lemma two_cells_run y v d : (y = "0.0" \/ y = "0.5")%string -> a_float y = Some v -> 0 <= v <= 1 / 2 -> forall w,
  initialize_interp a_int a_float corner_triangle two_cells (speeds y d) = Ok w ->
  forall d0 d1 d2 d3, exists s dir, convert_files w (speeds y [d0; d1; d2; d3]) (speeds y [90; 90; 90; 90]) = Ok (s, dir) /\
    s 0%nat 0%nat = Some (((1 - v) * d0 + v * d2) * (profile 1 10 / profile 0.01 10)).
Proof.
  intros Y E V w. unfold initialize_interp, speeds. cbn [open_file bind a_lines]. rewrite (lines_header y Y v E). cbn [bind].
  unfold points. cbn [s_x s_y flat_map map app].
  unfold corner_triangle. cbn [fst snd].
  destruct (reqb_spec (v + 1 * 1 + 1 / 2) (v + 1 * 1 + 1 / 2)) as [_|N]; [|destruct (N eq_refl)].
  destruct (reqb_spec (0 + 1 * 0 + 1 / 2) (0 + 1 * 0 + 1 / 2)) as [_|N]; [|destruct (N eq_refl)].
  destruct (rltb_spec (0 + 1 * 0 + 1 / 2) (0 + 1 * 1 + 1 / 2)); [|lra]. destruct (rltb_spec (v + 1 * 0 + 1 / 2) (v + 1 * 1 + 1 / 2)); [|lra]. cbn [andb bind].
  intros [= <-] d0 d1 d2 d3.
  set (w := mkNinja _ _ _ _ _ _ _ _ _).
  assert (TRI : forall i j, n_tri w i j = let x := match j with O => 1 / 2 | _ => 3 / 4 end in [(0%nat, (1 - v) - (x - 1 / 2)); (1%nat, x - 1 / 2); (2%nat, v)]).
  { intros i j. cbn [n_tri w]. cbn [n_xs n_ys two_cells fst snd]. cbv zeta.
    replace ((3 / 2 - (v + 1 * 1 + 1 / 2)) / (v + 1 * 0 + 1 / 2 - (v + 1 * 1 + 1 / 2))) with v by (field; lra).
    destruct j as [|j].
    - replace ((1 / 2 - (0 + 1 * 0 + 1 / 2)) / (0 + 1 * 1 + 1 / 2 - (0 + 1 * 0 + 1 / 2))) with (1 / 2 - 1 / 2) by field.
      replace (1 - (1 / 2 - 1 / 2) - v) with (1 - v - (1 / 2 - 1 / 2)) by ring. reflexivity.
    - replace ((3 / 4 - (0 + 1 * 0 + 1 / 2)) / (0 + 1 * 1 + 1 / 2 - (0 + 1 * 0 + 1 / 2))) with (3 / 4 - 1 / 2) by field.
      replace (1 - (3 / 4 - 1 / 2) - v) with (1 - v - (3 / 4 - 1 / 2)) by ring. reflexivity. }
  assert (IR : forall l, (3 <= length l)%nat -> in_range w l = true).
  { intros l L. apply in_range_spec. intros i j k q I J T. rewrite TRI in T. cbn [In] in T. destruct T as [T|[T|[T|[]]]]; injection T as <- _; lia. }
  assert (W : forall (f : nat -> rnum) i j, f 0%nat <> None -> f 1%nat <> None -> f 2%nat <> None -> weighted f (n_tri w i j) =
     rlift2 Rplus (rlift (fun a => a * ((1 - v) - (match j with O => 1 / 2 | _ => 3 / 4 end - 1 / 2))) (f 0%nat))
       (rlift2 Rplus (rlift (fun a => a * (match j with O => 1 / 2 | _ => 3 / 4 end - 1 / 2)) (f 1%nat)) (rlift2 Rplus (rlift (fun a => a * v) (f 2%nat)) (Some 0)))).
  { intros f i j _ _ _. rewrite TRI. cbv zeta. unfold weighted. cbn [existsb snd].
    destruct (rltb_spec ((1 - v) - (match j with O => 1 / 2 | _ => 3 / 4 end - 1 / 2)) 0); [destruct j; lra|].
    destruct (rltb_spec (match j with O => 1 / 2 | _ => 3 / 4 end - 1 / 2) 0); [destruct j; lra|]. destruct (rltb_spec v 0); [lra|]. reflexivity. }
  unfold convert_files. cbn [open_file bind]. unfold take. cbn [a_data]. rewrite !IR by (cbn; lia). cbn [bind].
  unfold convert_speed. assert (DX : model_dxdy w = n_dxdy w) by (unfold model_dxdy; cbn; lra).
  destruct (reqb_spec (model_dxdy w) (n_dxdy w)); [|contradiction]. cbn [bind].
  unfold convert_direction.
  rewrite !fill_full; [|cbn; lia|cbn; lia| |cbn; lia|cbn; lia|].
  - cbn [bind]. eexists _, _. split; [reflexivity|]. cbv beta. rewrite W by (cbn; discriminate). cbn [nth map rlift option_map rlift2]. f_equal.
    rewrite scale_profile. replace (veg_roughness (n_veg w 0%nat 0%nat)) with 1.
    + cbn [n_height n_roughness w two_cells]. ring.
    + cbn [n_veg w two_cells]. rewrite rough_value, Rmax_right, Rmin_right; lra.
  - intros i j _ _. rewrite W by (cbn; discriminate). cbn [nth map rlift option_map rlift2]. discriminate.
  - intros i j _ _. rewrite W by (cbn; discriminate). cbn [nth map rlift option_map rlift2]. discriminate.
Qed.
(** "The header of each file tells where its values are" is false: a file whose grid is shifted by half a cell is read
    on the grid of the first time step. *)
Theorem C90_own_grid_refuted :
  ~ (forall int float triangulate c f rest gs e k g fk, good_weights triangulate ->
       run int float triangulate c None (f :: rest) = (gs, e) -> nth_error gs k = Some g -> nth_error (f :: rest) k = Some fk ->
       forall g', run int float triangulate c None [fk] = ([g'], None) -> fst g' 0%nat 0%nat = fst g 0%nat 0%nat).
Proof.
  intros H.
  assert (I : forall y v d, (y = "0.0" \/ y = "0.5")%string -> a_float y = Some v -> exists w, initialize_interp a_int a_float corner_triangle two_cells (speeds y d) = Ok w).
  { intros y v d Y E. unfold initialize_interp, speeds. cbn [open_file bind a_lines]. rewrite (lines_header y Y v E). cbn [bind]. unfold points. cbn [s_x s_y flat_map map app].
    unfold corner_triangle. cbn [fst snd].
    destruct (reqb_spec (v + 1 * 1 + 1 / 2) (v + 1 * 1 + 1 / 2)) as [_|N]; [|destruct (N eq_refl)].
    destruct (reqb_spec (0 + 1 * 0 + 1 / 2) (0 + 1 * 0 + 1 / 2)) as [_|N]; [|destruct (N eq_refl)].
    destruct (rltb_spec (0 + 1 * 0 + 1 / 2) (0 + 1 * 1 + 1 / 2)); [|lra]. destruct (rltb_spec (v + 1 * 0 + 1 / 2) (v + 1 * 1 + 1 / 2)); [|lra]. cbn [andb bind]. eauto. }
  assert (SC : 0 < profile 1 10 / profile 0.01 10) by (apply Rdiv_lt_0_compat; apply profile_pos; lra).
  destruct (I "0.0"%string 0 [1; 1; 1; 1]) as (w0 & W0); [auto|reflexivity|]. destruct (I "0.5"%string (1 / 2) [0; 0; 1; 1]) as (w1 & W1); [auto|reflexivity|].
  destruct (two_cells_run "0.0" 0 [1; 1; 1; 1] ltac:(auto) eq_refl ltac:(lra) w0 W0 1 1 1 1) as (s0 & d0 & R0 & _).
  destruct (two_cells_run "0.0" 0 [1; 1; 1; 1] ltac:(auto) eq_refl ltac:(lra) w0 W0 0 0 1 1) as (s1 & d1 & R1 & E1).
  destruct (two_cells_run "0.5" (1 / 2) [0; 0; 1; 1] ltac:(auto) eq_refl ltac:(lra) w1 W1 0 0 1 1) as (s2 & d2 & R2 & E2).
  specialize (H a_int a_float corner_triangle two_cells (speeds "0.0" [1; 1; 1; 1], speeds "0.0" [90; 90; 90; 90])
    [(speeds "0.5" [0; 0; 1; 1], speeds "0.5" [90; 90; 90; 90])] [(s0, d0); (s1, d1)] None 1%nat (s1, d1) (speeds "0.5" [0; 0; 1; 1], speeds "0.5" [90; 90; 90; 90]) corner_good).
  cbn [run] in H. unfold distribute in H. cbn [fst snd] in H. rewrite W0 in H. cbn [bind] in H. rewrite R0 in H. cbn [bind] in H.
  assert (R1' : convert_files w0 (speeds "0.5" [0; 0; 1; 1]) (speeds "0.5" [90; 90; 90; 90]) = Ok (s1, d1)) by exact R1.
  rewrite R1' in H. cbn [bind] in H. specialize (H eq_refl eq_refl eq_refl (s2, d2)). rewrite W1 in H. cbn [bind] in H. rewrite R2 in H. cbn [bind] in H.
  specialize (H eq_refl). cbn [fst] in H. rewrite E1, E2 in H. injection H as H. lra.
Qed.
Print Assumptions C90_own_grid_refuted.

(** the header of these files *)
Example C90_ex : grid_header a_int a_float (lines_at "0.5") 0 (1 / 2) 1 2 2 /\ good_weights corner_triangle /\
  get_asc_stats a_int a_float ["ncols 2"; "nrows"]%string = Err IndexError /\
  get_asc_stats a_int a_float ["ncols 2"; "nrows 2"]%string = Err KeyError /\
  get_asc_stats a_int a_float ["ncols 2"; "nrows two"]%string = Err ValueError.
Proof.
  split; [|split; [exact corner_good|repeat split]].
  assert (S : forall i l, nth_error (lines_at "0.5") i = Some l -> exists k v, says l k v).
  { intros i l X. do 7 (destruct i as [|i]; [injection X as <-; eexists; eexists; apply says_split; eexists; vm_compute; reflexivity|]). destruct i; discriminate X. }
  assert (P : proper_header (lines_at "0.5")) by (intros i l _ X; exact (S i l X)).
  destruct (proj1 (header_reads _) P) as (h & R). pose proof R as R'. vm_compute in R'.
  assert (IT : forall k v, item h k = Ok v -> header_value (lines_at "0.5") k v) by (intros k v; apply item_spec; assumption).
  injection R' as EH. subst h.
  split; [exact P|]. split; [exists "2"%string, 2%Z; split; [apply IT; reflexivity|split; reflexivity]|].
  split; [exists "2"%string, 2%Z; split; [apply IT; reflexivity|split; reflexivity]|].
  split; [exists "1.0"%string; split; [apply IT; reflexivity|reflexivity]|].
  split; [exists "0.5"%string; split; [apply IT; reflexivity|reflexivity]|exists "0.0"%string; split; [apply IT; reflexivity|reflexivity]].
Qed.
