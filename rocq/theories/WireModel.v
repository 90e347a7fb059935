(** Model of how the modules are wired together: the serial time step,
    model_framework.py 379-484 and 682-749, and the [distribute_thread] loops of the
    threaded run.  What the modules compute is arbitrary; which value is passed to which
    argument is as in the code.

    Simplifications: methods do not change their array arguments and values do not change
    after they were put on a queue (StormRaceModel.v treats the one array for which this
    matters); both runs see the same input data (StepModel.v treats HRRR data loaded
    step by step, for which this need not hold); nothing raises; the log is left out. *)
From Coq Require Import List ZArith Bool Arith.
From Verif Require Import SmrfTopo.
Import ListNotations.

Section Wire.
Variables V L Row : Type.

(** An object of smrf/distribute: its attributes that are variables, and the rest of it.
    For the wind the rest contains the object [self.wind_model] (for the 'interp' model
    wind.py 80-81 [self.wind_model] is [self]). *)
Record obj := mkObj { inner : L; attr : nat -> V }.

(** The rows of self.data, input_data.py VARIABLES. *)
Inductive series := DAirTemp | DVaporPressure | DPrecip | DWindSpeed | DWindDirection | DCloudFactor.

(** What the code computes: sunang.py 15-51 and shade of topocalc (with the topography
    in it), the test [cosz > 0], None, the zeros that replace it in the output, the data,
    and the methods [distribute].  [wm_dist], [wm_clamp] and [wm_attr] belong to
    self.wind_model; precipitation is split at the test of precip_rescaling_model,
    precipitation.py 311-325; [write] is out_func.output on the state of the files. *)
Record parts := mkParts {
  sun : Z -> V * V;
  shade : V -> V -> V;
  positive : V -> bool;
  none : V;
  or_zeros : V -> V;
  done : V;
  data : series -> Z -> Row;
  ta_dist : obj -> Row -> obj;
  vp_dist : obj -> Row -> V -> obj;
  wm_dist : L -> Row -> Row -> Z -> L;
  wm_clamp : L -> L;
  wm_attr : L -> nat -> V;
  ppt_dist : obj -> Row -> V -> V -> V -> Z -> Row -> Row -> obj;
  ppt_rescale : obj -> V -> V -> V -> V -> V -> obj;
  alb_dist : obj -> Z -> V -> V -> obj;
  cf_dist : obj -> Row -> obj;
  sol_dist : obj -> Z -> V -> V -> V -> V -> V -> V -> obj;
  th_dist : obj -> Z -> V -> V -> V -> V -> obj;
  write : obj -> nat -> V -> Z -> obj }.

Variable P : parts.
Variable c : cfg.

(** Wind.distribute, wind.py 144-190.  Lines 184-185 copy the references of the three
    output variables from the wind model; line 188 clamps the wind speed in place
    (utils.py set_min_max), in the array that both objects name. *)
Definition wind_distribute (o : obj) (speed direction : Row) (t : Z) : obj :=
  let m := wm_clamp P (wm_dist P (inner o) speed direction t) in
  mkObj m (fun v => if existsb (Nat.eqb v) [flatwind; wind_speed; wind_direction] then wm_attr P m v else attr o v).

(** ppt.distribute, precipitation.py 236-325: the last four arguments are used when the
    precipitation is rescaled and not otherwise. *)
Definition ppt_distribute (o : obj) (dat : Row) (dpt pt ta : V) (t : Z) (ws tarow : Row)
  (wdir dround speed maxus : V) : obj :=
  let o1 := ppt_dist P o dat dpt pt ta t ws tarow in
  if rescaling c then ppt_rescale P o1 dpt wdir dround speed maxus else o1.

(** The objects in self.distribute, by the numbers of the threads in SmrfTopo.v
    (2 air_temp .. 9 thermal), and 10 the output files.  soil_temp does nothing
    (soil_temp.py 67-77). *)
Definition objs := nat -> obj.
Definition put (o : objs) (k : nat) (x : obj) : objs := fun j => if j =? k then x else o j.

(** The statements of distribute_single_timestep, model_framework.py 404-484, each on
    the objects as the ones before it left them. *)
Definition do_air_temp (t : Z) (o : objs) : objs :=                        (* 428 *)
  put o 2 (ta_dist P (o 2) (data P DAirTemp t)).
Definition do_vapor (t : Z) (o : objs) : objs :=                           (* 431-433 *)
  put o 3 (vp_dist P (o 3) (data P DVaporPressure t) (attr (o 2) air_temp)).
Definition do_wind (t : Z) (o : objs) : objs :=                            (* 436-439 *)
  put o 4 (wind_distribute (o 4) (data P DWindSpeed t) (data P DWindDirection t) t).
Definition do_precip (t : Z) (o : objs) : objs :=                          (* 442-453 *)
  put o 5 (ppt_distribute (o 5) (data P DPrecip t)
             (attr (o 3) dew_point) (attr (o 3) precip_temp) (attr (o 2) air_temp) t
             (data P DWindSpeed t) (data P DAirTemp t)
             (attr (o 4) wind_direction) (wm_attr P (inner (o 4)) dir_round_cell)
             (attr (o 4) wind_speed) (wm_attr P (inner (o 4)) cellmaxus)).
Definition do_albedo (t : Z) (ill : V) (o : objs) : objs :=                (* 456-459 *)
  put o 6 (alb_dist P (o 6) t ill (attr (o 5) storm_days)).
Definition do_cloud (t : Z) (o : objs) : objs :=                           (* 462-463 *)
  put o 7 (cf_dist P (o 7) (data P DCloudFactor t)).
Definition do_solar (t : Z) (ill cz az : V) (o : objs) : objs :=           (* 466-473 *)
  put o 8 (sol_dist P (o 8) t (attr (o 7) cloud_factor) ill cz az
             (attr (o 6) albedo_vis) (attr (o 6) albedo_ir)).
Definition do_thermal (t : Z) (o : objs) : objs :=                         (* 476-481 *)
  put o 9 (th_dist P (o 9) t (attr (o 2) air_temp) (attr (o 3) vapor_pressure)
             (attr (o 3) dew_point) (attr (o 7) cloud_factor)).

(** All of distribute_single_timestep: the three numbers of the sun and the objects
    afterwards. *)
Definition serial_distribute (o : objs) (t : Z) : V * V * V * objs :=
  let '(cz, az) := sun P t in                                              (* 413-416 *)
  let ill := if positive P cz then shade P az cz else none P in            (* 419-425 *)
  let o := do_air_temp t o in
  let o := do_vapor t o in
  let o := do_wind t o in
  let o := do_precip t o in
  let o := do_albedo t ill o in
  let o := do_cloud t o in
  let o := do_solar t ill cz az o in
  let o := do_thermal t o in
  (cz, az, ill, o).

(** The module that has an output variable as its attribute (image_data.py 80-86, the
    numbers of the threads as above); soil_temp is not one of the numbered ones. *)
Definition module_of (v : nat) : nat :=
  if existsb (Nat.eqb v) [air_temp] then 2
  else if existsb (Nat.eqb v) [vapor_pressure; dew_point; precip_temp] then 3
  else if existsb (Nat.eqb v) [wind_speed; wind_direction; flatwind] then 4
  else if existsb (Nat.eqb v) [precip; percent_snow; snow_density; storm_days; storm_total; storm_id; last_storm_day] then 5
  else if existsb (Nat.eqb v) [albedo_vis; albedo_ir] then 6
  else if existsb (Nat.eqb v) [cloud_factor] then 7
  else if existsb (Nat.eqb v) (clear_vars ++ veg_vars ++ cloud_vars ++ [net_solar]) then 8
  else if existsb (Nat.eqb v) [thermal; thermal_clear; thermal_cloud; thermal_veg] then 9
  else 0.

(** SMRF.output, 704-749, at a date that is output, and the serial loop, 384-402. *)
Definition serial_output (o : objs) (t : Z) : objs :=
  put o 10 (fold_left (fun f v => write P f v (or_zeros P (attr (o (module_of v)) v)) t) (outvars c) (o 10)).

Fixpoint serial_run (o : objs) (i : nat) (dts : list Z) : objs :=
  match dts with
  | [] => o
  | t :: r => let '(_, o1) := serial_distribute o t in
              serial_run (if i mod frequency c =? 0 then serial_output o1 t else o1) (S i) r
  end.

(** ** The same modules in the threaded run: what thread [k] does with the values [vs] it
    got from the queues for the date, in the order of [ins] (SmrfTopo.v). *)
Variable dts : list Z.

Definition thread_step (k i : nat) (o : obj) (vs : list V) : (nat -> V) * obj :=
  let t := nth i dts 0%Z in
  let a n := nth n vs (none P) in
  match k with
  | 0 => (fun q => if q =? cosz then fst (sun P t) else snd (sun P t), o)  (* sunang.py 70-79 *)
  | 1 => (fun _ => match vs with                                           (* model.py 29-41 *)
                   | [cz; az] => shade P az cz
                   | _ => none P
                   end, o)
  | 2 => let o1 := ta_dist P o (data P DAirTemp t) in (attr o1, o1)        (* air_temp.py 102-106 *)
  | 3 => let o1 := vp_dist P o (data P DVaporPressure t) (a 0) in (attr o1, o1)  (* vapor_pressure.py 182-191 *)
  | 4 => let o1 := wind_distribute o (data P DWindSpeed t) (data P DWindDirection t) t in
         (wm_attr P (inner o1), o1)                                        (* wind.py 204-224 *)
  | 5 => let o1 :=                                                         (* precipitation.py 475-519 *)
           if rescaling c
           then ppt_distribute o (data P DPrecip t) (a 0) (a 1) (a 2) t (data P DWindSpeed t) (data P DAirTemp t)
                  (a 3) (a 5) (a 4) (a 6)
           else ppt_distribute o (data P DPrecip t) (a 0) (a 1) (a 2) t (data P DWindSpeed t) (data P DAirTemp t)
                  (none P) (none P) (none P) (none P) in (attr o1, o1)
  | 6 => let o1 := alb_dist P o t (a 0) (a 1) in (attr o1, o1)             (* albedo.py 175-183 *)
  | 7 => let o1 := cf_dist P o (data P DCloudFactor t) in (attr o1, o1)    (* cloud_factor.py 102-106 *)
  | 8 => let o1 := sol_dist P o t (a 5) (a 2) (a 0) (a 1) (a 4) (a 3) in (attr o1, o1)  (* solar.py 376-407 *)
  | 9 => let o1 := th_dist P o t (a 0) (a 2) (a 1) (a 3) in (attr o1, o1)  (* thermal.py 357-376 *)
  | 10 => (fun _ => done P,                                                (* queue.py 265-295 *)
           fold_left (fun f p => write P f (fst p) (or_zeros P (snd p)) t) (combine (ins c 10 i) vs) o)
  | _ => (fun _ => done P, o)
  end.

End Wire.
Arguments mkObj {V L}. Arguments inner {V L}. Arguments attr {V L}. Arguments put {V L}.
Arguments sun {V L Row}. Arguments shade {V L Row}. Arguments positive {V L Row}. Arguments none {V L Row}.
Arguments or_zeros {V L Row}. Arguments done {V L Row}. Arguments data {V L Row}. Arguments ta_dist {V L Row}.
Arguments vp_dist {V L Row}. Arguments wm_dist {V L Row}. Arguments wm_clamp {V L Row}. Arguments wm_attr {V L Row}.
Arguments ppt_dist {V L Row}. Arguments ppt_rescale {V L Row}. Arguments alb_dist {V L Row}. Arguments cf_dist {V L Row}.
Arguments sol_dist {V L Row}. Arguments th_dist {V L Row}. Arguments write {V L Row}. Arguments mkParts {V L Row}.
Arguments wind_distribute {V L Row}. Arguments ppt_distribute {V L Row}. Arguments serial_distribute {V L Row}.
Arguments do_air_temp {V L Row}. Arguments do_vapor {V L Row}. Arguments do_wind {V L Row}. Arguments do_precip {V L Row}.
Arguments do_albedo {V L Row}. Arguments do_cloud {V L Row}. Arguments do_solar {V L Row}. Arguments do_thermal {V L Row}.
Arguments serial_output {V L Row}. Arguments serial_run {V L Row}. Arguments thread_step {V L Row}.
