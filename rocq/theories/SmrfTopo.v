(** The thread graph that SMRF builds (model_framework.py 486-632). *)
From Coq Require Import List ZArith Bool Arith Permutation.
From Verif Require Import QueueModel PipelineModel.
Import ListNotations.

(** Names of the queues = keys of the dict [smrf_queue]:
    model_framework.py 83-85 (base), and BASE_THREAD_VARIABLES of
    air_temp.py 39-41, vapor_pressure.py 64-68, wind.py 67-70, winstral.py 58-62,
    precipitation.py 101-107 (+178), albedo.py 52-55, cloud_factor.py 42-44,
    solar.py 183-209, thermal.py 191-194 (+249, 252).  The last two are output
    variables without a queue (precipitation.py OUTPUT_VARIABLES, soil_temp.py). *)
Definition cosz := 0. Definition azimuth := 1. Definition illum_ang := 2. Definition output := 3.
Definition air_temp := 4. Definition vapor_pressure := 5. Definition dew_point := 6.
Definition precip_temp := 7. Definition wind_speed := 8. Definition wind_direction := 9.
Definition flatwind := 10. Definition cellmaxus := 11. Definition dir_round_cell := 12.
Definition precip := 13. Definition percent_snow := 14. Definition snow_density := 15.
Definition storm_days := 16. Definition storm_total := 17. Definition storm_id := 18.
Definition albedo_vis := 19. Definition albedo_ir := 20. Definition cloud_factor := 21.
Definition clear_vars := [22; 23; 24; 25].   (* clear_ir_beam, _ir_diffuse, _vis_beam, _vis_diffuse *)
Definition veg_vars := [26; 27; 28; 29].     (* veg_... *)
Definition cloud_vars := [30; 31; 32; 33].   (* cloud_... *)
Definition net_solar := 34. Definition thermal := 35. Definition thermal_clear := 36.
Definition thermal_cloud := 37. Definition thermal_veg := 38.
Definition last_storm_day := 39. Definition soil_temp := 40.

(** The configuration entries that change the graph. *)
Record cfg := mkCfg {
  winstral : bool;     (* wind.wind_model == 'winstral' *)
  rescaling : bool;    (* precip.precip_rescaling_model == 'winstral' *)
  marks2017 : bool;    (* precip.new_snow_density_model == 'marks2017' *)
  s_cloud : bool;      (* solar.correct_cloud *)
  s_veg : bool;        (* solar.correct_veg *)
  t_cloud : bool;      (* thermal.correct_cloud *)
  t_veg : bool;        (* thermal.correct_veg *)
  frequency : nat;     (* output.frequency *)
  outvars : list nat   (* the variables in out_func.variable_dict *) }.

Definition opt (b : bool) (l : list nat) : list nat := if b then l else [].

(** model_framework.py 560-566 with the modules' thread_variables after
    initialization: wind.py 138-139, precipitation.py 177-178, thermal.py 248-252. *)
Definition queue_names (c : cfg) : list nat :=
  [cosz; azimuth; illum_ang; output; air_temp; vapor_pressure; dew_point; precip_temp;
   wind_speed; wind_direction] ++ opt (winstral c) [flatwind; cellmaxus; dir_round_cell] ++
  [precip; percent_snow; snow_density; storm_days; storm_total] ++ opt (marks2017 c) [storm_id] ++
  [albedo_vis; albedo_ir; cloud_factor] ++ clear_vars ++ veg_vars ++ cloud_vars ++
  [net_solar; thermal; thermal_clear] ++
  opt (t_cloud c) [thermal_cloud] ++ opt (t_veg c) [thermal_veg].

(** Threads: 0 sun_angle, 1 illum_angle, 2 air_temp, 3 vapor_pressure, 4 wind,
    5 precipitation, 6 albedo, 7 cloud_factor, 8 solar, 9 thermal
    (model_framework.py 605-632), 10 output (model_framework.py 510-518). *)
Definition n_smrf_threads := 11.

(** Queues read per date, in order.  sunang.py 70-79; model.py 31-41 (thread 1 is
    conditional, see [smrf_nextq]); air_temp.py 102-106; vapor_pressure.py 182-185;
    wind.py 206-209; precipitation.py 475-497; albedo.py 175-178;
    cloud_factor.py 102-104; solar.py 375-384; thermal.py 356-361;
    queue.py 269-288: the output thread reads, at the dates it outputs, those of the
    variables that have a queue. *)
Definition ins (c : cfg) (k i : nat) : list nat :=
  match k with
  | 3 => [air_temp]
  | 5 => [dew_point; precip_temp; air_temp] ++
         opt (rescaling c) [wind_direction; flatwind; dir_round_cell; cellmaxus]
  | 6 => [illum_ang; storm_days]
  | 8 => [cosz; azimuth; illum_ang; albedo_ir; albedo_vis; cloud_factor]
  | 9 => [air_temp; dew_point; vapor_pressure; cloud_factor]
  | 10 => if i mod frequency c =? 0 then
            filter (fun v => existsb (Nat.eqb v) (queue_names c)) (outvars c)
          else []
  | _ => []
  end.

(** Queues filled per date, in order.  sunang.py 78-79; model.py 41; air_temp.py 106;
    vapor_pressure.py 189-191; wind.py 213-224; precipitation.py 513-520;
    albedo.py 182-183; cloud_factor.py 106; solar.py 394-407 (the vegetation queues
    are filled under correct_cloud and the cloud queues under correct_veg);
    thermal.py 366-376; queue.py 268-295 (frequency). *)
Definition souts (c : cfg) (k i : nat) : list nat :=
  match k with
  | 0 => [cosz; azimuth]
  | 1 => [illum_ang]
  | 2 => [air_temp]
  | 3 => [vapor_pressure; precip_temp; dew_point]
  | 4 => [wind_speed; wind_direction] ++ opt (winstral c) [flatwind; cellmaxus; dir_round_cell]
  | 5 => [precip; percent_snow; snow_density; storm_days; storm_total] ++
         opt (marks2017 c) [storm_id]
  | 6 => [albedo_vis; albedo_ir]
  | 7 => [cloud_factor]
  | 8 => clear_vars ++ opt (s_cloud c) veg_vars ++ opt (s_veg c) cloud_vars ++ [net_solar]
  | 9 => opt (t_veg c) [thermal_veg] ++ opt (t_cloud c) [thermal_cloud] ++ [thermal_clear; thermal]
  | 10 => if i mod frequency c =? 0 then [output] else []
  | _ => []
  end.

Section Smrf.
Variables V L : Type.
(** [positive v]: the test [cosz > 0] of model.py 36 on the value read. *)
Variable positive : V -> bool.
(** What the modules compute is arbitrary. *)
Variable comp : nat -> nat -> L -> list V -> (nat -> V) * L.
Variable loc0 : nat -> L.

Definition smrf_nextq (c : cfg) (k i : nat) (_ : L) (vs : list V) : option nat :=
  if k =? 1 then
    match vs with
    | [] => Some cosz
    | [v] => if positive v then Some azimuth else None
    | _ => None
    end
  else nth_error (ins c k i) (length vs).

(** [order]: the iteration order of the dict (built from frozensets, so any). *)
Definition smrf_topo (c : cfg) (order : list nat) (maxvals : Z) (dts : list Z) : topo V L :=
  mkTopo n_smrf_threads order maxvals dts (smrf_nextq c) comp (souts c) loc0.
End Smrf.
Arguments smrf_topo {V L}. Arguments smrf_nextq {V L}.
