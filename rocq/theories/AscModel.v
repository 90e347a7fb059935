(** Model of reading the WindNinja grids: get_asc_stats (smrf/utils/utils.py 333-364) and the time steps of WindNinjaModel,
    initialize_interp and distribute (smrf/distribute/wind/wind_ninja.py 144-190).  Reals stand for floats; int() and float() of
    a word, what np.loadtxt reads after the header, and qhull's triangulation are given. *)
From Coq Require Import Reals ZArith Ascii String List Bool.
From Verif Require Import RNum WinsModel NinjaModel.
Import ListNotations.
Local Open Scope R_scope.

(** ** line.strip().split(), utils.py 342, for ASCII *)
Definition blank (c : ascii) : bool :=
  let n := nat_of_ascii c in ((9 <=? n)%nat && (n <=? 13)%nat) || ((28 <=? n)%nat && (n <=? 32)%nat).
Definition word_then (w : string) (l : list string) : list string := match w with EmptyString => l | _ => w :: l end.
Fixpoint split_from (w s : string) : list string :=
  match s with
  | EmptyString => word_then w []
  | String c r => if blank c then word_then w (split_from EmptyString r) else split_from (append w (String c EmptyString)) r
  end.
Definition split (s : string) : list string := split_from EmptyString s.

(** ** The header, 341-346: at most six lines, each with a key and a value; a later line replaces an earlier one *)
Fixpoint read_header (n : nat) (lines : list string) (h : list (string * string)) : res (list (string * string)) :=
  match n, lines with
  | O, _ | _, [] => Ok h
  | S n, l :: r =>
      match split l with
      | k :: v :: _ => read_header n r ((k, v) :: h)
      | _ => Err IndexError
      end
  end.
Definition item (h : list (string * string)) (k : string) : res string :=
  match find (fun p => String.eqb (fst p) k) h with Some p => Ok (snd p) | None => Err KeyError end.
Definition number {A} (read : string -> option A) (s : string) : res A :=
  match read s with Some v => Ok v | None => Err ValueError end.

Section Files.
Context (int : string -> option Z) (float : string -> option R).
(** 349-364.  The cellsize is looked up twice (351-352) with the same result. *)
Record stats := mkStats { s_x : list R; s_y : list R }.
Definition get_asc_stats (lines : list string) : res stats :=
  bind (read_header 6 lines []) (fun h =>
  bind (bind (item h "ncols") (number int)) (fun nx =>
  bind (bind (item h "nrows") (number int)) (fun ny =>
  bind (bind (item h "cellsize") (number float)) (fun du =>
  bind (bind (item h "yllcorner") (number float)) (fun u =>
  bind (bind (item h "xllcorner") (number float)) (fun v =>
  let x := map (fun j => v + du * INR j) (seq 0 (Z.to_nat nx)) in
  let y := rev (map (fun i => u + du * INR i) (seq 0 (Z.to_nat ny))) in
  Ok (mkStats (map (fun a => a + du / 2) x) (map (fun a => a + du / 2) y)))))))).

(** ** initialize_interp, wind_ninja.py 144-173: the points of the file, row by row, and the triangle and weights of each cell of
    the model, utils.interp_weights (C52).  [triangulate] is qhull on the points, which may fail. *)
Definition points (s : stats) : list (R * R) := flat_map (fun y => map (fun x => (x, y)) (s_x s)) (s_y s).
Context (triangulate : list (R * R) -> res (R * R -> list (nat * R))).
(** a file: its lines, and the numbers after the header, flattened *)
Record asc := mkAsc { a_lines : list string; a_data : list rnum }.
(** wind_ninja_path, 96-98 *)
Definition open_file (f : option asc) : res asc := match f with Some f => Ok f | None => Err ValueError end.
Definition initialize_interp (c : ninja) (vel : option asc) : res ninja :=
  bind (open_file vel) (fun f =>
  bind (get_asc_stats (a_lines f)) (fun s =>
  bind (triangulate (points s)) (fun tri =>
  Ok (mkNinja (n_ny c) (n_nx c) (n_xs c) (n_ys c) (n_dxdy c) (n_roughness c) (n_height c) (n_veg c)
        (fun i j => tri (n_xs c j, n_ys c i)))))).
(** np.take in grid_interpolate, utils.py 422: an index beyond the data is an IndexError *)
Definition in_range (c : ninja) (data : list rnum) : bool :=
  all_cells (n_ny c) (n_nx c) (fun i j => forallb (fun vw => (fst vw <? length data)%nat) (n_tri c i j)).
Definition take (c : ninja) (f : asc) : res (nat -> rnum) :=
  if in_range c (a_data f) then Ok (fun k => nth k (a_data f) None) else Err IndexError.
(** convert_wind_ninja, 192-243, with its files *)
Definition convert_files (c : ninja) (vel ang : option asc) : res (grid rnum * grid rnum) :=
  bind (open_file vel) (fun f =>
  bind (take c f) (fun v =>
  bind (convert_speed c v) (fun s =>
  bind (open_file ang) (fun g =>
  bind (take c g) (fun a =>
  bind (convert_direction c a) (fun d => Ok (s, d))))))).
(** distribute, 175-190: the weights are made once, with the file of the first time step ([w] is None before that) *)
Definition distribute (c : ninja) (w : option ninja) (files : option asc * option asc) : res (ninja * (grid rnum * grid rnum)) :=
  bind (match w with Some w => Ok w | None => initialize_interp c (fst files) end) (fun w =>
  bind (convert_files w (fst files) (snd files)) (fun r => Ok (w, r))).
(** the time steps of a run: the fields, and the error that ended it *)
Fixpoint run (c : ninja) (w : option ninja) (steps : list (option asc * option asc)) : list (grid rnum * grid rnum) * option error :=
  match steps with
  | [] => ([], None)
  | f :: r => match distribute c w f with
              | Err e => ([], Some e)
              | Ok (w, g) => let '(gs, e) := run c (Some w) r in (g :: gs, e)
              end
  end.
End Files.
