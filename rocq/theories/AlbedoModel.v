(** Model of snow albedo: smrf/envphys/albedo.py and smrf/distribute/albedo.py, cell by cell.  Reals stand
    for floats. *)
From Coq Require Import Reals ZArith String List Bool.
From Verif Require Import RNum WinsModel PptModel.
Import ListNotations.
Local Open Scope string_scope.
Local Open Scope R_scope.

(** growth, 19-32 *)
Definition growth (t : R) : R :=
  let factor := (4 + 3 * t + t * t) / (2 + 1 * t + t * t) - 1 in 1 - factor.

(** albedo, 35-107, one cell; [telapsed] in days.  The bare Exception is [PlainException]; a negative dirt
    makes math.sqrt fail. *)
Definition clean_albedo (telapsed cosz gsize maxgsz dirt : R) : res (R * R) :=
  if rleb gsize 0 || rltb 500 gsize then Err PlainException
  else if rleb maxgsz gsize || rltb 2000 maxgsz then Err PlainException
  else if rleb dirt 1 && rleb 10 dirt then Err PlainException
  else if rltb (dirt * gsize) 0 || rltb (dirt * maxgsz) 0 then Err ValueError
  else
    let radius_ir := sqrt gsize in
    let range_ir := sqrt maxgsz - radius_ir in
    let radius_v := sqrt (dirt * gsize) in
    let range_v := sqrt (dirt * maxgsz) - radius_v in
    let growth_factor := growth (telapsed + 1) in
    let gv := radius_v + range_v * growth_factor in
    let gir := radius_ir + range_ir * growth_factor in
    let alb_v_1 := 1 - gv / 500 in
    let alb_ir_1 := 0.85447 * exp (-0.02123 * gir) in
    let dzv := gv * 0.001375 in
    let dzir := gir * 0.002 + 0.1 in
    if rltb 0 cosz then Ok (alb_v_1 + dzv * (1 - cosz), alb_ir_1 + dzir * (1 - cosz))
    else Ok (alb_v_1, alb_ir_1).

(** a datetime difference in microseconds, as hours from its days and seconds, 146-154 *)
Definition hours (us : Z) : R :=
  let days := (us / 86400000000)%Z in
  let seconds := ((us mod 86400000000) / 1000000)%Z in
  IZR days * 24 + IZR seconds / 3600.

(** value of a configuration dictionary *)
Fixpoint lookup (d : list (string * R)) (k : string) : option R :=
  match d with [] => None | (k', v) :: d' => if String.eqb k' k then Some v else lookup d' k end.
(** assignments for the keys that are numbers, in the order of the dictionary: [f] of the value where the
    cell's vegetation type is the key (168-170, 182-188, 242-247).  Keys are words or strings of digits. *)
Fixpoint by_type (d : list (string * R)) (veg_type : Z) (f : R -> R) (acc : R) : R :=
  match d with
  | [] => acc
  | (k, v) :: d' =>
      by_type d' veg_type f (match py_int k with Some z => if Z.eqb veg_type z then f v else acc | None => acc end)
  end.
(** one of the numbers tao of 176 and 184 with the decay of 179 and 188.  Python floats: division by a zero
    power, or by a zero tao root, fails.  A negative maximum would give complex numbers; the model stops there
    with TypeError. *)
Definition decay_of (t T pwr maxd : R) : res R :=
  if reqb pwr 0 then Err ZeroDivisionError
  else if reqb maxd 0 then Err ZeroDivisionError
  else if rltb maxd 0 then Err TypeError
  else Ok (Rpower (t / (T / Rpower maxd (1 / pwr))) pwr).
Fixpoint check_decays (d : list (string * R)) (t T pwr : R) : res unit :=
  match d with
  | [] => Ok tt
  | (_, v) :: d' => bind (decay_of t T pwr v) (fun _ => check_decays d' t T pwr)
  end.
(** the value already known to be defined *)
Definition decay_val (t T pwr maxd : R) : R := Rpower (t / (T / Rpower maxd (1 / pwr))) pwr.
(** decay_alb_power, 110-193: what is taken off the albedos of a cell; times in microseconds *)
Definition decay_power (veg : list (string * R)) (veg_type : Z) (start_decay end_decay t_curr : Z) (pwr : R) : res R :=
  let t := hours (t_curr - start_decay) in
  let T := hours (end_decay - start_decay) in
  if rleb t 0 then Ok 0
  else match lookup veg "default" with
  | None => Err KeyError
  | Some dflt =>
      if rltb T t then Ok (by_type veg veg_type (fun v => v) (0 + dflt))
      else bind (decay_of t T pwr dflt) (fun x =>
           bind (check_decays veg t T pwr) (fun _ =>
           Ok (by_type veg veg_type (decay_val t T pwr) (0 + x))))
  end.

(** numpy power of a scalar base; a negative base (a litter rate above one) is left out and gives NaN, as it
    does for fractional days; the infinity of zero to a negative power is NaN here *)
Definition npow (base e : R) : rnum :=
  if rltb 0 base then Some (Rpower base e)
  else if reqb base 0 then (if reqb e 0 then Some 1 else if rltb 0 e then Some 0 else None)
  else None.
Fixpoint by_type_n (d : list (string * R)) (veg_type : Z) (f : R -> rnum) (acc : rnum) : rnum :=
  match d with
  | [] => acc
  | (k, v) :: d' =>
      by_type_n d' veg_type f (match py_int k with Some z => if Z.eqb veg_type z then f v else acc | None => acc end)
  end.
(** decay_alb_hardy, 196-256, one cell *)
Definition decay_hardy (litter : list (string * R)) (veg_type : Z) (storm_day alb_v alb_ir : R) : res (rnum * rnum) :=
  match lookup litter "default", lookup litter "albedo" with
  | Some l_rate, Some alb_litter =>
      let sc := by_type_n litter veg_type (fun l => npow (1 - l) storm_day) (npow (1 - l_rate) storm_day) in
      let lc := rlift (fun s => 1 - s) sc in
      Ok (rlift2 (fun s l => alb_v * s + alb_litter * l) sc lc, rlift2 (fun s l => alb_ir * s + alb_litter * l) sc lc)
  | _, _ => Err KeyError
  end.

(** distribute/albedo.py 104-159 *)
Inductive decay_method := NoDecay | DateMethod | Hardy2000.
Record albedo_cfg := mk_albedo_cfg {
  a_grain : R; a_max_grain : R; a_dirt : R; a_method : decay_method; a_start : Z; a_end : Z; a_power : R;
  a_veg : list (string * R); a_litter : list (string * R); a_min : option R; a_max : option R
}.
(** one cell; [cosz] is None when there is no illumination grid *)
Definition distribute_albedo (c : albedo_cfg) (now : Z) (cosz : option R) (storm_day : R) (veg_type : Z) : res (rnum * rnum) :=
  match cosz with
  | None => Ok (Some 0, Some 0)
  | Some mu =>
      bind (clean_albedo storm_day mu (a_grain c) (a_max_grain c) (a_dirt c)) (fun a =>
      bind (match a_method c with
            | NoDecay => Ok (Some (fst a), Some (snd a))
            | DateMethod => bind (decay_power (a_veg c) veg_type (a_start c) (a_end c) now (a_power c)) (fun x =>
                            Ok (Some (fst a - x), Some (snd a - x)))
            | Hardy2000 => decay_hardy (a_litter c) veg_type storm_day (fst a) (snd a)
            end) (fun d =>
      Ok (set_min_max (a_min c) (a_max c) (fst d), set_min_max (a_min c) (a_max c) (snd d))))
  end.
