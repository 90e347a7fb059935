(** Model of the start of a run: the command run_smrf (/repo/scripts/run_smrf 23-39), smrf/utils/utils.py 63-112,
    and SMRF.__init__, run_smrf and its stages, smrf/framework/model_framework.py 87-181 and 774-804.

    Times are in minutes, as in LoadModel.  Reading the configuration and checking it (inicheck) is a parameter. *)
From Coq Require Import Ascii String.
From Coq Require Import List ZArith Bool Arith.
From Verif Require Import WinsModel LoadModel BackupModel.
Import ListNotations.
Local Open Scope Z_scope.

(** How Python ends: sys.exit with a status, or an exception *)
Inductive stop := Exit (status : Z) | Failed (f : failure).
Inductive started (A : Type) := Go (a : A) | Stop (s : stop).
Arguments Go {A}. Arguments Stop {A}.

(** ** The configuration file of the command: utils.py 63-112 *)
(** [f.split('.')[-1]] *)
Definition dot : ascii := "."%char.
Fixpoint has_dot (s : string) : bool :=
  match s with EmptyString => false | String c r => Ascii.eqb c dot || has_dot r end.
Fixpoint last_part (s : string) : string :=
  match s with
  | EmptyString => EmptyString
  | String c r => if has_dot r then last_part r else if Ascii.eqb c dot then r else s
  end.
(** find_configs, 63-79: [listdir] gives the names in a directory, files and directories, in any order *)
Definition find_configs (listdir : string -> list string) (directory : string) : list string :=
  map (join directory) (filter (fun f => String.eqb (last_part f) "ini") (listdir directory)).
(** handle_run_script_options, 82-112; [sys.exit()] has status 0 *)
Definition handle_run_script_options (isdir isfile : string -> bool) (listdir : string -> list string) (arg : string) : started string :=
  let found := if isdir arg
               then match find_configs listdir arg with
                    | [] => Stop (Failed (Raised IndexError))                    (* 103: configs[0] *)
                    | [c] => Go c
                    | _ => Stop (Exit 0)                                         (* 97-100 *)
                    end
               else Go arg in
  match found with
  | Stop s => Stop s
  | Go c => if isfile c then Go c else Stop (Exit 0)                             (* 107-110 *)
  end.

(** ** SMRF.__init__, model_framework.py 87-181 *)
(** The part of a configuration that is used.  A date of the albedo section: the key is missing, has no value, or has one. *)
Inductive date_key := Missing | Unset | Date (w : Z).
Record settings := mkSettings {
  s_out : string; s_errors : nat;                                      (* output directory; number of errors inicheck finds *)
  s_zone : zone; s_lmt : Z;                                            (* time zone; the first offset of its history *)
  s_start : Z; s_end : Z; s_step : Z;                                  (* wall times, minutes *)
  s_decay_start : date_key; s_decay_end : date_key;
  s_gridded : option (string * string) }.                              (* data_type and hrrr_load_method *)

(** 147-154: [datetime.replace(tzinfo=...)].  A time zone of pytz that is put into a datetime this way stands for the
    first offset of its history, the local mean time, at all dates; inicheck's dates are datetimes. *)
Definition replace_tzinfo (c : settings) (w : Z) : Z := w - s_lmt c.
Definition decay_dates (c : settings) : started (option (Z * Z)) :=
  match s_decay_start c, s_decay_end c with
  | Missing, _ => Go None
  | Unset, _ => Stop (Failed NoAttribute)
  | Date _, Missing => Stop (Failed (Raised KeyError))
  | Date _, Unset => Stop (Failed NoAttribute)
  | Date a, Date b => Go (Some (replace_tzinfo c a, replace_tzinfo c b))
  end.
(** 156-164 *)
Definition gridded (c : settings) : bool := match s_gridded c with Some _ => true | None => false end.
Definition hrrr_data_timestep (c : settings) : bool :=
  match s_gridded c with
  | Some (d, m) => String.eqb d "hrrr_grib" && String.eqb m "timestep"
  | None => false
  end.

(** What is written before the first stage *)
Inductive effect := MakeDirs (d : string) | WriteConfig (p : string).
Record begun := mkBegun { b_dates : list Z; b_decay : option (Z * Z); b_gridded : bool; b_timestep : bool }.

(** 87-181 for a configuration that was read; [now] is the time.  start_date and end_date are localised as in
    LoadModel.setup_dates; the dates are its dates. *)
Definition init (now : Z) (c : settings) : list effect * started begun :=
  let made := [MakeDirs (s_out c)] in                                                                    (* 119-120 *)
  if negb (s_errors c =? 0)%nat then (made, Stop (Exit 0))                                               (* 130-133 *)
  else
  let written := made ++ [WriteConfig (join (s_out c) "config.ini")] in                                  (* 136-139 *)
  match tz_localize (s_zone c) (s_start c), tz_localize (s_zone c) (s_end c) with                        (* 145 *)
  | Ok start, Ok stop =>
      match decay_dates c with                                                                           (* 148-154 *)
      | Stop s => (written, Stop s)
      | Go decay =>
          if ((now <? start) && negb (gridded c)) || ((now <? stop) && negb (gridded c))                 (* 166-170 *)
          then (written, Stop (Failed (Raised ValueError)))
          else (written, Go (mkBegun (date_range start stop (s_step c)) decay (gridded c) (hrrr_data_timestep c)))
      end
  | Err e, _ | _, Err e => (written, Stop (Failed (Raised e)))
  end.
(** 92-107: a path must be a file; what is neither a path nor a configuration is refused *)
Inductive argument := Path (p : string) | Config (c : settings) | SomethingElse.
Definition SMRF (isfile : string -> bool) (read : string -> settings) (now : Z) (a : argument) : list effect * started begun :=
  match a with
  | Path p => if isfile p then init now (read p) else ([], Stop (Failed (Raised PlainException)))
  | Config c => init now c
  | SomethingElse => ([], Stop (Failed (Raised PlainException)))
  end.

(** ** run_smrf, 774-804: six stages, each of which may fail; [__exit__] (211-217) lets exceptions pass *)
Inductive stage := LoadTopo | CreateDistribution | InitializeOutput | LoadData | Distribute | PostProcess.
Definition stages : list stage := [LoadTopo; CreateDistribution; InitializeOutput; LoadData; Distribute; PostProcess].
Fixpoint run_stages (does : stage -> option stop) (l : list stage) : list stage * started unit :=
  match l with
  | [] => ([], Go tt)
  | s :: r => match does s with
              | Some e => ([s], Stop e)
              | None => let '(tr, o) := run_stages does r in (s :: tr, o)
              end
  end.
Definition run_smrf (isfile : string -> bool) (read : string -> settings) (now : Z) (a : argument)
    (does : begun -> stage -> option stop) : list effect * list stage * started unit :=
  match SMRF isfile read now a with
  | (fx, Stop s) => (fx, [], Stop s)
  | (fx, Go b) => let '(tr, o) := run_stages (does b) stages in (fx, tr, o)
  end.

(** The command and its exit status; an exception that nobody catches has status 1 *)
Definition command (isdir isfile : string -> bool) (listdir : string -> list string) (read : string -> settings) (now : Z)
    (arg : string) (does : begun -> stage -> option stop) : list effect * list stage * started unit :=
  match handle_run_script_options isdir isfile listdir arg with
  | Stop s => ([], [], Stop s)
  | Go c => run_smrf isfile read now (Path c) does
  end.
Definition status (o : started unit) : Z :=
  match o with Go _ => 0 | Stop (Exit n) => n | Stop (Failed _) => 1 end.
