(** Model of the command gen_maxus, /repo/scripts/gen_maxus 12-167: its options, the checks it makes, and the files it
    leaves, and of the check of such a file in WinstralWindModel.__init__, smrf/distribute/wind/winstral.py 79-92.

    The computations are those of TbreakModel.  Names of files are compared as strings: two spellings of a path are two
    files.  The elevations are read into memory before anything is written (126-128).  Whole numbers on the command line
    are given as such (argparse's [type=int]). *)
From Coq Require Import Ascii String DecimalString.
From Coq Require Import List ZArith Bool Reals.
From Verif Require Import WinsModel SpatModel WindowModel TbreakModel StartModel.
Import ListNotations.
Local Open Scope R_scope.

(** ** Names of files: os.path.dirname and os.path.splitext (posixpath), used at gen_maxus 98 and wind/model.py 236 *)
Definition slash : ascii := "/"%char.
(** what is before and after the last [c] *)
Fixpoint split_last (c : ascii) (l : list ascii) : option (list ascii * list ascii) :=
  match l with
  | [] => None
  | x :: r => match split_last c r with
              | Some (a, b) => Some (x :: a, b)
              | None => if Ascii.eqb x c then Some ([], r) else None
              end
  end.
Definition chars := list_ascii_of_string.
Definition str := string_of_list_ascii.
Fixpoint lstrip (c : ascii) (l : list ascii) : list ascii :=
  match l with [] => [] | x :: r => if Ascii.eqb x c then lstrip c r else l end.
Definition dirname (p : string) : string :=
  match split_last slash (chars p) with
  | None => ""
  | Some (h, _) =>
      let head := h ++ [slash] in
      if forallb (Ascii.eqb slash) head then str head else str (rev (lstrip slash (rev head)))
  end.
(** splitext(p)[0]: a name that starts with dots keeps them *)
Definition root (p : string) : string :=
  let '(dir, base) := match split_last slash (chars p) with None => ([], chars p) | Some (h, b) => (h ++ [slash], b) end in
  match split_last dot base with
  | None => p
  | Some (b, _) => if forallb (Ascii.eqb dot) b then p else str (dir ++ b)
  end.
(** model.py 236-237: [ "%s_%iwindow.nc" % (name[0], window_width) ] *)
Definition dec (z : Z) : string := NilZero.string_of_int (Z.to_int z).
Definition window_name (p : string) (width : Z) : string := root p ++ "_" ++ dec width ++ "window.nc".

(** ** The command line, 12-86.  [a_tb] is what [type=bool] makes of the word that follows --make_tbreak (71-77):
    bool(word), true of every word but the empty one.  An option given twice: the last one. *)
Record args := mkArgs {
  a_dem : string; a_out : string; a_inc : Z; a_dmax : Z; a_sep : Z; a_height : Z; a_window : Z; a_var : string;
  a_tb : bool; a_out_tb : string }.
Definition defaults (dem : string) : args := mkArgs dem "./maxus.nc" 5 500 100 3 100 "dem" false "./tbreak.nc".
Inductive opt :=
  | OutMaxus (s : string) | Increment (z : Z) | SvGlobal (z : Z) | SvLocal (z : Z) | Height (z : Z) | Window (z : Z)
  | VarName (s : string) | MakeTbreak (word : string) | OutTbreak (s : string).
Definition set_opt (a : args) (o : opt) : args :=
  match o with
  | OutMaxus s => mkArgs (a_dem a) s (a_inc a) (a_dmax a) (a_sep a) (a_height a) (a_window a) (a_var a) (a_tb a) (a_out_tb a)
  | Increment z => mkArgs (a_dem a) (a_out a) z (a_dmax a) (a_sep a) (a_height a) (a_window a) (a_var a) (a_tb a) (a_out_tb a)
  | SvGlobal z => mkArgs (a_dem a) (a_out a) (a_inc a) z (a_sep a) (a_height a) (a_window a) (a_var a) (a_tb a) (a_out_tb a)
  | SvLocal z => mkArgs (a_dem a) (a_out a) (a_inc a) (a_dmax a) z (a_height a) (a_window a) (a_var a) (a_tb a) (a_out_tb a)
  | Height z => mkArgs (a_dem a) (a_out a) (a_inc a) (a_dmax a) (a_sep a) z (a_window a) (a_var a) (a_tb a) (a_out_tb a)
  | Window z => mkArgs (a_dem a) (a_out a) (a_inc a) (a_dmax a) (a_sep a) (a_height a) z (a_var a) (a_tb a) (a_out_tb a)
  | VarName s => mkArgs (a_dem a) (a_out a) (a_inc a) (a_dmax a) (a_sep a) (a_height a) (a_window a) s (a_tb a) (a_out_tb a)
  | MakeTbreak w => mkArgs (a_dem a) (a_out a) (a_inc a) (a_dmax a) (a_sep a) (a_height a) (a_window a) (a_var a)
                      (negb (String.eqb w "")) (a_out_tb a)
  | OutTbreak s => mkArgs (a_dem a) (a_out a) (a_inc a) (a_dmax a) (a_sep a) (a_height a) (a_window a) (a_var a) (a_tb a) s
  end.
Definition parse (dem : string) (opts : list opt) : args := fold_left set_opt opts (defaults dem).

(** ** What is on the disk before: files and directories, and the netCDF files among them.  [n_grid v]: the terrain of
    the variable [v] with the coordinates x and y. *)
Record ncfile := mkNc { n_has : string -> bool; n_grid : string -> terrain }.
Record world := mkWorld { isfile : string -> bool; isdir : string -> bool; opens : string -> option ncfile }.
Inductive fault := OSError | Raised (e : error).

(** A run is the list of the states of the disk after each of its writes, and how it ends: [None] is the regular end.
    A run that is killed stops at one of the states. *)
Definition trace := (list disk * option fault)%type.
(** one of the files: [run k] is the disk after the first [k] directions; netCDF4 refuses to create a file in a
    directory that does not exist *)
Definition stage (run : nat -> disk -> res disk) (n : nat) (creatable : bool) (d : disk) : trace :=
  match run n d with
  | Err e => ([], Some (Raised e))
  | Ok _ => if creatable
            then (flat_map (fun k => match run k d with Ok s => [s] | Err _ => [] end) (seq 0 (S n)), None)
            else ([], Some OSError)
  end.
Definition andthen (t : trace) (d : disk) (f : disk -> trace) : trace :=
  match t with
  | (l, Some e) => (l, Some e)
  | (l, None) => let '(l2, o) := f (last l d) in (l ++ l2, o)
  end.

Definition kind_eqb (a b : kind) : bool := match a, b with Maxus, Maxus | Tbreak, Tbreak => true | _, _ => false end.
(** windower, model.py 217-269: the directions of the file [name] are 0, inc, 2 inc ... (at least two of them, so that
    their mean difference, 243, is inc).  [None] in the new file is a masked value: the cell is left unwritten. *)
Definition windower (inc width : Z) (kd : kind) (name : string) (k : nat) (d : disk) : res disk :=
  match d name with
  | None => Err PlainException
  | Some f =>
      if kind_eqb (f_kind f) kd
      then Ok (put d (window_name name width)
                 (rounds k (fun angle => window_value inc width angle f) (directions inc) (output_init kd (directions inc) [])))
      else Err KeyError
  end.

(** main, 149-160, for a terrain *)
Definition compute (w : world) (a : args) (g : terrain) (d : disk) : trace :=
  let n := length (directions (a_inc a)) in
  andthen (stage (fun k d => maxus g (IZR (a_height a)) (IZR (a_dmax a)) (a_inc a) (a_out a) k d) n true d) d (fun d1 =>
  andthen (stage (windower (a_inc a) (a_window a) Maxus (a_out a)) n true d1) d1 (fun d2 =>
  if a_tb a
  then andthen (stage (fun k d => tbreak g (IZR (a_height a)) (IZR (a_dmax a)) (IZR (a_sep a)) (a_inc a) (a_out_tb a) k d) n
                  (String.eqb (dirname (a_out_tb a)) "" || isdir w (dirname (a_out_tb a))) d2) d2 (fun d3 =>
       stage (windower (a_inc a) (a_window a) Tbreak (a_out_tb a)) n true d3)
  else ([], None))).
(** main, 89-146.  [os.path.isdir('')] is false. *)
Definition main (w : world) (a : args) (d : disk) : trace :=
  if negb (isfile w (a_dem a)) then ([], Some OSError)                                                      (* 95-96 *)
  else if String.eqb (dirname (a_out a)) "" || negb (isdir w (dirname (a_out a))) then ([], Some OSError)   (* 98-101 *)
  else if negb (String.eqb (last_part (a_dem a)) "nc") then ([], Some OSError)                              (* 121-123, 138-141 *)
  else match opens w (a_dem a) with
       | None => ([], Some OSError)                                                                         (* 124 *)
       | Some f =>
           if negb (n_has f (a_var a)) then ([], Some OSError)                                              (* 130-136 *)
           else if negb (n_has f "x" && n_has f "y") then ([], Some (Raised KeyError))                      (* 127-128 *)
           else let g := n_grid f (a_var a) in
                if ((t_nx g <? 2) || (t_ny g <? 2))%Z then ([], Some (Raised IndexError))                   (* model.py 59-60 *)
                else compute w a g d
       end.

(** ** WinstralWindModel.__init__, winstral.py 78-96: [m_shape] is the shape of the grids in the file, [t_shape] that of the
    topo's dem; what is kept are the directions *)
Definition load_maxus (f : option file) (m_shape t_shape : Z * Z) : fault + list (option Z) :=
  match f with
  | None => inl OSError
  | Some f =>
      if negb (kind_eqb (f_kind f) Maxus) then inl (Raised KeyError)
      else match f_dirs f with
           | [] => inl (Raised IndexError)
           | ds => if (Z.eqb (fst t_shape) (fst m_shape) && Z.eqb (snd t_shape) (snd m_shape))%bool then inr ds
                   else inl OSError
           end
  end.
