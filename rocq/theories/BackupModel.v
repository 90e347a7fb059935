(** Model of the backup of a run's input data and of a run from that backup: backup_input, smrf/utils/utils.py
    205-264, called when the data are loaded (smrf/framework/model_framework.py 335-338), InputCSV.load,
    smrf/data/csv.py 26-74, and set_variables and metadata_pixel_location, smrf/data/input_data.py 116-141.

    pandas' to_csv and read_csv are modelled at the level of names, times and numbers: a number is read as it was
    written.  Paths are compared as text, as inicheck makes them absolute. *)
From Coq Require Import Ascii String.
From Coq Require Import List ZArith Bool Arith QArith Qcanon.
From Verif Require Import Num WinsModel StepModel LoadModel.
Import ListNotations.
Local Open Scope Z_scope.

(** ** CSV files *)
(** A time in a CSV file: what the clocks show and, if written, the offset from UTC ("2020-10-01 00:00:00-07:00") *)
Inductive cell := Time (w : Z) (offset : option Z) | Number (x : num) | Text (s : string).
Record text := mkText { x_header : list string; x_lines : list (list cell) }.

(** pandas tables: the name of the index, the columns and the rows.  A table of a variable has times (instants), that of the
    metadata has the stations' names as index. *)
Record data := mkData { d_name : option string; d_table : table string }.
Record meta := mkMeta { m_name : option string; m_cols : list string; m_rows : list (string * list cell) }.

(** DataFrame.to_csv, called at utils.py 241: the index comes first, below its name or below nothing; times with
    a time zone are written with their offset *)
Definition index_label (n : option string) : string := match n with Some s => s | None => EmptyString end.
Definition data_to_csv (z : zone) (d : data) : text :=
  mkText (index_label (d_name d) :: t_cols (d_table d))
         (map (fun r => Time (wall z (fst r)) (Some (z_offset z (fst r))) :: map Number (snd r)) (t_rows (d_table d))).
Definition meta_to_csv (m : meta) : text :=
  mkText (index_label (m_name m) :: m_cols m) (map (fun r => Text (fst r) :: snd r) (m_rows m)).

(** Failures: Python errors of [WinsModel.error], AttributeError, FileNotFoundError, shutil.SameFileError *)
Inductive failure := Raised (e : error) | NoAttribute | NoFile | SameFile.
Inductive outcome (A : Type) := Done (a : A) | Fail (f : failure).
Arguments Done {A}. Arguments Fail {A}.
Definition and_then {A B} (x : outcome A) (k : A -> outcome B) : outcome B :=
  match x with Done a => k a | Fail f => Fail f end.
Definition lift {A} (x : res A) : outcome A := match x with Ok a => Done a | Err e => Fail (Raised e) end.

Fixpoint index_of (n : string) (l : list string) : option nat :=
  match l with
  | [] => None
  | c :: r => if String.eqb n c then Some O else option_map S (index_of n r)
  end.
Fixpoint drop {A} (p : nat) (l : list A) : list A :=
  match l, p with
  | [], _ => []
  | _ :: r, O => r
  | x :: r, S p => x :: drop p r
  end.

(** csv.py 44-49: ValueError, "Index primary_id invalid", without such a column.  Line 48 puts a list in the place of the index,
    which loses its name.  A name that is not text has no upper(). *)
Definition read_meta (t : text) : outcome meta :=
  match index_of "primary_id" (x_header t) with
  | None => Fail (Raised ValueError)
  | Some p =>
      and_then (fold_right (fun line acc =>
                  and_then acc (fun rows => match nth_error line p with
                                            | Some (Text s) => Done ((upper s, drop p line) :: rows)
                                            | _ => Fail NoAttribute
                                            end)) (Done []) (x_lines t))
               (fun rows => Done (mkMeta None (drop p (x_header t)) rows))
  end.

(** csv.py 57-74 for one variable.  If the first column, the one that is parsed, is the index and all its times are
    without offset, what follows is [csv_load]; tz_localize fails with TypeError on times that have an offset ("Already
    tz-aware") and on an index that is not of times. *)
Definition number (c : cell) : num := match c with Number x => x | _ => None end.
Fixpoint naive (lines : list (list cell)) : option (list (Z * list num)) :=
  match lines with
  | [] => Some []
  | (Time w None :: row) :: r => option_map (cons (w, map number row)) (naive r)
  | _ => None
  end.
Definition read_data (z : zone) (stations : option (list string)) (start stop : Z) (t : text) : outcome data :=
  match index_of "date_time" (x_header t) with
  | None => Fail (Raised ValueError)
  | Some (S _) => Fail (Raised TypeError)
  | Some O => match naive (x_lines t) with
              | None => Fail (Raised TypeError)
              | Some rows => and_then (lift (csv_load z stations start stop (mkTable (tl (x_header t)) rows)))
                                      (fun d => Done (mkData (Some "date_time"%string) d))
              end
  end.

(** ** Dictionaries, configurations, files *)
Fixpoint dget {V} (k : string) (d : list (string * V)) : option V :=
  match d with [] => None | (k', v) :: r => if String.eqb k k' then Some v else dget k r end.
Fixpoint dset {V} (k : string) (v : V) (d : list (string * V)) : list (string * V) :=
  match d with
  | [] => [(k, v)]
  | (k', v') :: r => if String.eqb k k' then (k', v) :: r else (k', v') :: dset k v r
  end.
Fixpoint ddel {V} (k : string) (d : list (string * V)) : list (string * V) :=
  match d with [] => [] | (k', v) :: r => if String.eqb k k' then r else (k', v) :: ddel k r end.

Inductive cval := VNone | VBool (b : bool) | VInt (n : Z) | VStr (s : string) | VList (l : list string).
Notation section := (list (string * cval)) (only parsing).
Notation config := (list (string * list (string * cval))) (only parsing).
Inductive content := Csv (t : text) | Ini (c : config) | Other (id : nat).
Definition files := string -> option content.
Definition fwrite (p : string) (c : content) (fs : files) : files := fun q => if String.eqb q p then Some c else fs q.

(** posixpath.join and posixpath.basename *)
Definition slash : Ascii.ascii := "/"%char.
Fixpoint ends_with_slash (s : string) : bool :=
  match s with
  | EmptyString => false
  | String c EmptyString => Ascii.eqb c slash
  | String _ r => ends_with_slash r
  end.
Definition join (a b : string) : string :=
  match b with
  | String c _ => if Ascii.eqb c slash then b
                  else if String.eqb a EmptyString || ends_with_slash a then append a b else append a (String slash b)
  | EmptyString => if String.eqb a EmptyString || ends_with_slash a then a else append a (String slash EmptyString)
  end.
Fixpoint has_slash (s : string) : bool :=
  match s with EmptyString => false | String c r => Ascii.eqb c slash || has_slash r end.
Fixpoint basename (s : string) : string :=
  match s with
  | EmptyString => EmptyString
  | String c r => if Ascii.eqb c slash || has_slash r then basename r else s
  end.

(** ** Loading from CSV files *)
Record loaded := mkLoaded { l_meta : meta; l_vars : list (string * data) }.

(** A CSV file at a path of the configuration.  Anything else cannot be parsed: ParserError and UnicodeDecodeError are
    ValueErrors. *)
Definition open_csv (fs : files) (v : cval) : outcome text :=
  match v with
  | VStr p => match fs p with Some (Csv t) => Done t | Some _ => Fail (Raised ValueError) | None => Fail NoFile end
  | _ => Fail (Raised ValueError)
  end.
Definition station_list (v : cval) : option (list string) := match v with VList l => Some l | _ => None end.
(** InputCSV, csv.py 12-74, for the section of the configuration.  [variable_list.remove] (41, 50) fails with
    ValueError, [self.config['metadata']] (45) with KeyError. *)
Fixpoint load_vars (z : zone) (stations : option (list string)) (start stop : Z) (fs : files) (sec : section)
    : outcome (list (string * data)) :=
  match sec with
  | [] => Done []
  | (k, v) :: r =>
      and_then (open_csv fs v) (fun t => and_then (read_data z stations start stop t) (fun d =>
      and_then (load_vars z stations start stop fs r) (fun ds => Done ((k, d) :: ds))))
  end.
Definition load_csv (z : zone) (start stop : Z) (fs : files) (sec : section) : outcome loaded :=
  match dget "stations" sec with
  | None => Fail (Raised ValueError)
  | Some st =>
      match dget "metadata" sec with
      | None => Fail (Raised KeyError)
      | Some mv =>
          and_then (open_csv fs mv) (fun mt => and_then (read_meta mt) (fun m =>
          and_then (load_vars z (station_list st) start stop fs (ddel "metadata" (ddel "stations" sec))) (fun vs =>
          Done (mkLoaded m vs))))
      end
  end.

(** set_variables, input_data.py 116-126: of what was loaded, the variables SMRF knows, from start to end.
    metadata_pixel_location, 128-141: two more columns; [pixels] gives their values for a station *)
Definition VARIABLES : list string :=
  ["air_temp"; "vapor_pressure"; "precip"; "wind_speed"; "wind_direction"; "cloud_factor"; "thermal"]%string.
Definition known (k : string) : bool := existsb (String.eqb k) VARIABLES.
Definition cut (start stop : Z) (d : data) : data :=
  mkData (d_name d) (mkTable (t_cols (d_table d)) (slice start stop (t_rows (d_table d)))).
Definition set_col_meta (c : string) (values : string -> cell) (m : meta) : meta :=
  match index_of c (m_cols m) with
  | Some p => mkMeta (m_name m) (m_cols m) (map (fun r => (fst r, firstn p (snd r) ++ values (fst r) :: skipn (S p) (snd r))) (m_rows m))
  | None => mkMeta (m_name m) (m_cols m ++ [c]) (map (fun r => (fst r, snd r ++ [values (fst r)])) (m_rows m))
  end.
Definition set_variables (pixels : string -> cell * cell) (start stop : Z) (l : loaded) : loaded :=
  mkLoaded (set_col_meta "yi" (fun s => snd (pixels s)) (set_col_meta "xi" (fun s => fst (pixels s)) (l_meta l)))
           (map (fun p => (fst p, cut start stop (snd p))) (filter (fun p => known (fst p)) (l_vars l))).

(** ** backup_input, utils.py 205-264 *)
Definition csv_var : list string :=
  ["metadata"; "air_temp"; "vapor_pressure"; "precip"; "wind_speed"; "wind_direction"; "cloud_factor"]%string.
Definition ignore : list string := ["northern_hemisphere"; "gradient_method"; "sky_view_factor_angles"]%string.

(** 240-241: [getattr(data, k).to_csv], AttributeError if the variable was not loaded *)
Definition attribute (z : zone) (l : loaded) (k : string) : option text :=
  if String.eqb k "metadata" then Some (meta_to_csv (l_meta l))
  else option_map (data_to_csv z) (dget k (l_vars l)).
(** 238-244 *)
Fixpoint write_vars (z : zone) (dir : string) (l : loaded) (ks : list string) (fs : files) (sec : section)
    : files * outcome section :=
  match ks with
  | [] => (fs, Done sec)
  | k :: r => match attribute z l k with
              | None => (fs, Fail NoAttribute)
              | Some t => let fname := join dir (append k ".csv") in
                          write_vars z dir l r (fwrite fname (Csv t) fs) (dset k (VStr fname) sec)
              end
  end.
(** 246-257: [mk_lst(src, unlst=True)] is the only member of a list of one *)
Definition unlist (v : cval) : cval := match v with VList [s] => VStr s | _ => v end.
Fixpoint copy_topo (dir : string) (ks : list string) (fs : files) (sec : section) : files * outcome section :=
  match ks with
  | [] => (fs, Done sec)
  | k :: r =>
      if existsb (String.eqb k) ignore then copy_topo dir r fs sec
      else match option_map unlist (dget k sec) with
           | None | Some VNone => copy_topo dir r fs sec
           | Some (VStr src) =>
               let dst := join dir (basename src) in
               if String.eqb src dst then (fs, Fail SameFile)
               else match fs src with
                    | None => (fs, Fail NoFile)
                    | Some c => copy_topo dir r (fwrite dst c fs) (dset k (VStr dst) sec)
                    end
           | Some _ => (fs, Fail (Raised TypeError))
           end
  end.
(** 230-232 *)
Definition drop_client (cfg : config) : config :=
  match dget "stations" cfg with
  | Some s => dset "stations" (ddel "client" s) cfg
  | None => cfg
  end.
(** 216-264.  The directory of the output exists (SMRF.__init__ makes it); the copy of the configuration is the value
    that is changed here, so that the run's own remains. *)
Definition backup_input (z : zone) (l : loaded) (cfg : config) (fs : files) : files * outcome config :=
  match dget "output" cfg with
  | None => (fs, Fail (Raised KeyError))
  | Some out =>
  match dget "out_location" out with
  | Some (VStr loc) =>
      let dir := join loc "input_backup" in                                                     (* 219-222 *)
      let csv := match dget "csv" cfg with Some s => s | None => [] end in                      (* 225-226 *)
      let cfg := drop_client cfg in                                                             (* 230-232 *)
      match write_vars z dir l csv_var fs csv with                                              (* 235-244 *)
      | (fs, Fail f) => (fs, Fail f)
      | (fs, Done csv) =>
          let cfg := dset "csv" csv cfg in
          match dget "topo" cfg with
          | None => (fs, Fail (Raised KeyError))
          | Some topo =>
              match copy_topo dir (map fst topo) fs topo with                                   (* 246-257 *)
              | (fs, Fail f) => (fs, Fail f)
              | (fs, Done topo) =>
                  let cfg := dset "output" (dset "input_backup" (VBool false) out) (dset "topo" topo cfg) in (* 260 *)
                  (fwrite (join dir "backup_config.ini") (Ini cfg) fs, Done cfg)                (* 263-264 *)
              end
          end
      end
  | Some _ => (fs, Fail (Raised TypeError))
  | None => (fs, Fail (Raised KeyError))
  end
  end.

(** A run from the backup's configuration, as far as reading its CSV files: inicheck adds the key 'stations', without
    a value, if it is missing *)
Definition csv_section (cfg : config) : section :=
  let s := match dget "csv" cfg with Some s => s | None => [] end in
  match dget "stations" s with Some _ => s | None => dset "stations" VNone s end.
Definition replay (z : zone) (start stop : Z) (fs : files) (ini : string) : outcome loaded :=
  match fs ini with
  | Some (Ini cfg) => load_csv z start stop fs (csv_section cfg)
  | Some _ => Fail (Raised ValueError)
  | None => Fail NoFile
  end.
