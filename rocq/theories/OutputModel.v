(** Model of the output: SMRF.output and the serial loop (model_framework.py 386-402,
    704-749), the output thread (queue.py 240-295), the netCDF writer
    (output_netcdf.py 64-93, 148-188) and the attributes the serial run reads. *)
From Coq Require Import List Arith Bool ZArith QArith Qround Qabs Qcanon.
From Verif Require Import Num SmrfTopo.
Import ListNotations.
Local Open Scope nat_scope.

(** One call of [out_func.output(variable, data, date_time)]. *)
Record call (A : Type) := mkCall { c_var : nat; c_data : A; c_time : Z }.
Arguments mkCall {A}. Arguments c_var {A}. Arguments c_data {A}. Arguments c_time {A}.

(** [list.index], a ValueError if absent.  Dates are integers. *)
Fixpoint index_of (t : Z) (l : list Z) : option nat :=
  match l with
  | [] => None
  | x :: r => if Z.eqb x t then Some 0 else option_map S (index_of t r)
  end.

(** The test of model_framework.py 719-720 and queue.py 271-272; [frequency = 0] raises. *)
Definition due (freq n count : nat) : option bool :=
  if freq =? 0 then None else Some ((count mod freq =? 0) || (count =? n)).

(** The calls made before the end or the first exception, and whether it ended normally. *)
Definition outcome (A : Type) := (list (call A) * bool)%type.
Definition andthen {A} (a : outcome A) (b : outcome A) : outcome A :=
  if snd a then (fst a ++ fst b, snd b) else a.

Section Run.
Context {A : Type}.
Variable zeros : A.
Variable variable_dict : list nat.

(** What [getattr(self.distribute[module], variable)] gives at the current step: [None] is an
    AttributeError, [Some None] the value None. *)
Definition attributes := nat -> option (option A).

(** model_framework.py 739-749 *)
Fixpoint write_vars (attr : attributes) (t : Z) (vs : list nat) : outcome A :=
  match vs with
  | [] => ([], true)
  | v :: r =>
      match attr v with
      | None => ([], false)
      | Some d =>
          andthen ([mkCall v (match d with Some x => x | None => zeros end) t], true)
                  (write_vars attr t r)
      end
  end.

(** SMRF.output, 704-749.  [module] and [out_var] are the optional arguments; a KeyError if
    [out_var] is not in the dict (726). *)
Definition smrf_output (dts : list Z) (freq : nat) (attr : attributes) (t : Z)
    (module out_var : option nat) : outcome A :=
  match index_of t dts with
  | None => ([], false)
  | Some count =>
      match due freq (length dts) count with
      | None => ([], false)
      | Some false => ([], true)
      | Some true =>
          match module, out_var with
          | Some _, Some v => if existsb (Nat.eqb v) variable_dict then write_vars attr t [v] else ([], false)
          | Some _, None | None, Some _ => ([], false)
          | None, None => write_vars attr t variable_dict
          end
      end
  end.

(** disttribute_data_serial, 390-402: [attr i] are the attributes after the i-th time step
    has been distributed. *)
Fixpoint serial_from (dts : list Z) (freq : nat) (attr : nat -> attributes) (i : nat) (todo : list Z) : outcome A :=
  match todo with
  | [] => ([], true)
  | t :: r => andthen (smrf_output dts freq (attr i) t None None) (serial_from dts freq attr (S i) r)
  end.
Definition serial_run (dts : list Z) (freq : nat) (attr : nat -> attributes) : outcome A :=
  serial_from dts freq attr 0 dts.

(** QueueOutput.run, queue.py 268-295: [queued v] tells whether there is a queue, [value i v]
    what it holds for the i-th date ([None]: the value None).  The second component of the
    result is the list of dates put on the "output" queue. *)
Fixpoint thread_vars (queued : nat -> bool) (value : nat -> option A) (t : Z) (vs : list nat) : list (call A) :=
  match vs with
  | [] => []
  | v :: r =>
      (if queued v
       then [mkCall v (match value v with Some x => x | None => zeros end) t] else [])
      ++ thread_vars queued value t r
  end.
Fixpoint thread_from (freq n : nat) (queued : nat -> bool) (value : nat -> nat -> option A)
    (i : nat) (todo : list Z) : option (list (call A) * list Z) :=
  match todo with
  | [] => Some ([], [])
  | t :: r =>
      match due freq n i with
      | None => None
      | Some b =>
          option_map (fun p => if b then (thread_vars queued (value i) t variable_dict ++ fst p, t :: snd p) else p)
                     (thread_from freq n queued value (S i) r)
      end
  end.
Definition thread_run (dts : list Z) (freq : nat) (queued : nat -> bool) (value : nat -> nat -> option A) :=
  thread_from freq (length dts) queued value 0 dts.
End Run.

(** ** Which output variables exist, model_framework.py 214-220 with the modules'
    OUTPUT_VARIABLES: air_temp.py 31-37, vapor_pressure.py 42-58, wind.py 46-62,
    precipitation.py 64-95, albedo.py 36-47, cloud_factor.py 30-36, solar.py 114-181,
    thermal.py 165-186, soil_temp.py 28-34. *)
Definition output_variables : list nat :=
  [air_temp; vapor_pressure; dew_point; precip_temp; flatwind; wind_speed; wind_direction;
   precip; percent_snow; snow_density; storm_days; storm_total; last_storm_day;
   albedo_vis; albedo_ir; cloud_factor] ++ clear_vars ++ cloud_vars ++ [net_solar] ++ veg_vars ++
  [thermal; thermal_clear; thermal_cloud; thermal_veg; soil_temp].

Definition mem_nat (v : nat) (l : list nat) : bool := existsb (Nat.eqb v) l.

(** create_output_variable_dict, 634-661: unknown names are logged and left out.  A python
    dict keeps the first position of a repeated key. *)
Fixpoint variable_dict_of (seen requested : list nat) : list nat :=
  match requested with
  | [] => []
  | v :: r => if mem_nat v output_variables && negb (mem_nat v seen)
              then v :: variable_dict_of (v :: seen) r else variable_dict_of seen r
  end.
Definition create_output_variable_dict (requested : list nat) : list nat := variable_dict_of [] requested.

(** The kinds of value an attribute can have after the i-th step of a serial run.
    [sun i]: the sun was up at step i (solar.py 289: cosz > 0).
    [flatwind] lives on the wind model; on the Wind object it exists (as None) only when the
    object is its own wind model (wind.py 80-85).  [interp]: wind_model is 'interp'.
    solar.py 316-331: set in daylight if the correction is on; 341-357: set to None at night.
    thermal.py 304, 330, 340.  All other output variables are assigned by __init__,
    initialize or every distribute. *)
Inductive kind := Absent | IsNone | Value.
Fixpoint night_so_far (sun : nat -> bool) (i : nat) : bool :=
  negb (sun i) || match i with O => false | S i' => night_so_far sun i' end.
Definition attr_kind (c : cfg) (interp : bool) (sun : nat -> bool) (i v : nat) : kind :=
  if v =? flatwind then (if interp then IsNone else Absent)
  else if mem_nat v (net_solar :: clear_vars) then (if sun i then Value else IsNone)
  else if mem_nat v cloud_vars then
    (if sun i then (if s_cloud c then Value else if night_so_far sun i then IsNone else Absent) else IsNone)
  else if mem_nat v veg_vars then
    (if sun i then (if s_veg c then Value else if night_so_far sun i then IsNone else Absent) else IsNone)
  else if v =? thermal_cloud then (if t_cloud c then Value else Absent)
  else if v =? thermal_veg then (if t_veg c then Value else Absent)
  else Value.

(** ** Numbers in the time variable *)
(** IEEE 754 rounding to nearest, ties to even, with a significand of [p] bits; the limits of the exponent
    are left out. *)
Definition round_even (x : Q) : Z :=
  let n := Qfloor x in
  match Qcompare (x - inject_Z n) (1 # 2) with
  | Lt => n | Gt => (n + 1)%Z | Eq => if Z.even n then n else (n + 1)%Z
  end.
(** the e with 2^e <= |x| < 2^(e+1) *)
Definition exponent (x : Q) : Z :=
  let e := (Z.log2 (Z.abs (Qnum x)) - Z.log2 (Zpos (Qden x)))%Z in
  if Qle_bool (Qpower 2 e) (Qabs x) then e else (e - 1)%Z.
Definition binary (p : Z) (x : Q) : Q :=
  if Qeq_bool x 0 then 0%Q
  else let u := Qpower 2 (exponent x - p + 1) in (inject_Z (round_even (x / u)) * u)%Q.
(** the type 'f' of the time variable, output_netcdf.py 87 *)
Definition float32 (t : Qc) : Qc := Q2Qc (binary 24 t).
(** [nc.date2num], 167-169, for a date a number of minutes after the date in the units of the file: hours as
    a python float *)
Definition date2num (minutes : Z) : Qc := Q2Qc (binary 53 (minutes # 60)).

(** ** The netCDF file of one variable: the records (time, data) along the unlimited
    dimension; data [None] is the fill value of a record whose data was never written.
    [store] rounds a time to the precision of the time variable ('f', line 87), [enc] is the
    mask (184) and the precision of the data variable.  [promote] tells how numpy compares an array in
    single precision with one number in double precision: before version 2 the number is first rounded
    to the type of the array, from version 2 on the array is converted. *)
Section File.
Context {A : Type}.
Variable promote : bool.
Variable store : Qc -> Qc.
Variable enc : A -> A.
Definition file := list (Qc * option A).

(** [times[:] == t], 172, for one record *)
Definition same_time (r t : Qc) : bool := Qceqb r (if promote then t else store t).
(** [np.where(times[:] == t)[0]], first match or the number of records (171-178) *)
Fixpoint find_record (t : Qc) (f : file) : nat :=
  match f with
  | [] => 0
  | r :: rest => if same_time (fst r) t then 0 else S (find_record t rest)
  end.
(** writing the time at an index extends the unlimited dimension if needed (181) *)
Fixpoint put_time (i : nat) (t : Qc) (f : file) : file :=
  match f, i with
  | [], _ => [(store t, None)]
  | (_, d) :: rest, O => (store t, d) :: rest
  | r :: rest, S i' => r :: put_time i' t rest
  end.
(** writing the data (183-186) *)
Fixpoint put_data (i : nat) (d : A) (f : file) : file :=
  match f, i with
  | [], _ => []
  | (t, _) :: rest, O => (t, Some (enc d)) :: rest
  | r :: rest, S i' => r :: put_data i' d rest
  end.

(** output, 148-188, as the two writes it performs *)
Definition write_time (t : Qc) (f : file) : nat * file :=
  let i := find_record t f in (i, put_time i t f).
Definition nc_output (f : file) (c : Qc * A) : file :=
  let (i, f1) := write_time (fst c) f in put_data i (snd c) f1.
Definition nc_run (f : file) (calls : list (Qc * A)) : file := fold_left nc_output calls f.

(** An interrupted run: all calls before the crash are complete; of the call in progress
    nothing ([Before]) or only the time ([Between]) has reached the file. *)
Inductive crash := Before | Between (c : Qc * A).
Definition interrupted (f : file) (done : list (Qc * A)) (k : crash) : file :=
  match k with
  | Before => nc_run f done
  | Between c => snd (write_time (fst c) (nc_run f done))
  end.

(** __init__, 64-93: an existing file is kept, otherwise it is created empty *)
Definition nc_init (existing : option file) : file :=
  match existing with Some f => f | None => [] end.
End File.
Arguments crash A : clear implicits.
