(** Model of smrf/envphys/precip.py (gauge undercatch and wind redistribution) and of the parts of
    smrf/distribute/precipitation.py that call it.  Reals stand for floats; [None] is NaN. *)
From Coq Require Import Reals ZArith String Ascii List Bool.
From Verif Require Import RNum WinsModel.
Import ListNotations.
Local Open Scope R_scope.

(** ws ** a for a non-integer exponent: NaN for a negative base *)
Definition fpow (x a : R) : rnum :=
  if rltb x 0 then None else if reqb x 0 then Some 0 else Some (Rpower x a).

(** catchment_ratios, precip.py 12-54 *)
Definition catchment_ratios (ws : rnum) (gauge_type : string) (snowing : bool) : res R :=
  let pw a := match ws with Some w => fpow w a | None => None end in
  let fin (cr : rnum) := Ok (match cr with Some x => x / 100.0 | None => 100.0 / 100.0 end) in
  if String.eqb gauge_type "us_nws_8_shielded" then
    fin (if snowing then rlift (fun p => exp (4.61 - 0.04 * p)) (pw 1.75)
         else rlift (fun w => 101.04 - 5.62 * w) ws)
  else if String.eqb gauge_type "us_nws_8_unshielded" then
    fin (if snowing then rlift (fun p => exp (4.61 - 0.16 * p)) (pw 1.28)
         else rlift (fun w => 100.77 - 8.34 * w) ws)
  else Err ValueError.

(** one station, 77-94; [types] is the configuration: gauge type by station name, and the default *)
Fixpoint find_type (types : list (string * string)) (k : string) : option string :=
  match types with
  | [] => None
  | (a, b) :: t => if String.eqb a k then Some b else find_type t k
  end.
Definition adjust_one (types : list (string * string)) (wind temp : series) (sta : string) (p : rnum) : res rnum :=
  match get temp sta, get wind sta with
  | Some t, Some ws =>
      let ws := if ncmp rltb (Some 6.0) ws then Some 6.0 else ws in
      let snowing := ncmp rltb t (Some (-0.5)) in
      match (match find_type types sta with Some g => Some g | None => find_type types "station_undercatch_model_default" end) with
      | None => Err KeyError
      | Some g => bind (catchment_ratios ws g snowing) (fun cr => Ok (rlift (fun x => x / cr) p))
      end
  | _, _ => Ok p
  end.
(** adjust_for_undercatch, 57-96 *)
Fixpoint adjust_for_undercatch (p_vec wind temp : series) (types : list (string * string)) : res series :=
  match p_vec with
  | [] => Ok []
  | (sta, p) :: rest =>
      bind (adjust_one types wind temp sta p) (fun a =>
      bind (adjust_for_undercatch rest wind temp types) (fun l => Ok ((sta, a) :: l)))
  end.

(** ** dist_precip_wind, 99-211 *)
Definition config := list (string * R).
Fixpoint cfg_get (c : config) (k : string) : res R :=
  match c with
  | [] => Err KeyError
  | (a, v) :: c' => if String.eqb a k then Ok v else cfg_get c' k
  end.

(** int(v) of a string of decimal digits; any other string is refused (Python also takes signs, spaces
    and underscores, which no key of the configuration has) *)
Definition digit (a : ascii) : option Z :=
  let n := nat_of_ascii a in
  if (Nat.leb 48 n && Nat.leb n 57)%bool then Some (Z.of_nat (n - 48)) else None.
Fixpoint digits (acc : Z) (s : string) : option Z :=
  match s with
  | EmptyString => Some acc
  | String a s' => match digit a with Some d => digits (10 * acc + d)%Z s' | None => None end
  end.
Definition py_int (s : string) : option Z :=
  match s with EmptyString => None | _ => digits 0%Z s end.
(** the keys of veg_fact as numbers, line 192; the loop runs over them whatever the cells are *)
Fixpoint veg_keys (vf : list (string * R)) : res (list (Z * R)) :=
  match vf with
  | [] => Ok []
  | (k, r) :: vf' =>
      match py_int k with
      | None => Err ValueError
      | Some z => bind (veg_keys vf') (fun l => Ok ((z, r) :: l))
      end
  end.

(** limits of the two factors and threshold, 124-128 *)
Record drift_cfg := mk_drift_cfg {
  d_thr : R; d_min_scour : R; d_max_scour : R; d_min_drift : R; d_max_drift : R
}.
Definition read_cfg (c : config) : res drift_cfg :=
  bind (cfg_get c "tbreak_threshold") (fun t =>
  bind (cfg_get c "winstral_min_scour") (fun a =>
  bind (cfg_get c "winstral_max_scour") (fun b =>
  bind (cfg_get c "winstral_min_drift") (fun x =>
  bind (cfg_get c "winstral_max_drift") (fun y => Ok (mk_drift_cfg t a b x y)))))).

(** drift factor, 165-172 *)
Definition drift_factor (d : drift_cfg) (ws : rnum) : rnum :=
  set_min_max (Some (d_min_drift d)) (Some (d_max_drift d))
    (rlift (fun w => 1.000761 * exp (-0.0956 * w + 0.0289 * w ^ 2)) ws).
(** scour factor, 186-201; the constant term is ppt_poly['a'], as in line 189; vegetation factors are
    taken to be different from zero *)
Definition scour_factor (d : drift_cfg) (vf : list (Z * R)) (v : Z) (mx : rnum) : rnum :=
  let p := rlift (fun m => 0.0001737 + 0.03265 * m - 0.002549 * m ^ 2 + 0.0001737 * m ^ 3) mx in
  let p := fold_left (fun p kv => if (v =? fst kv)%Z then rlift (fun x => x * 1.0 / snd kv) p else p) vf p in
  let p := if ((v =? 3055) || (v =? 3053) || (v =? 42))%Z then Some 1.0 else p in
  set_min_max (Some (d_min_scour d)) (Some (d_max_scour d)) p.
(** one cell, from zero, 144 and 161-209 *)
Definition drift_cell (d : drift_cfg) (vf : list (Z * R)) (precip ptemp tb ws mx : rnum) (v : Z) : rnum :=
  let cold := ncmp rltb ptemp (Some 0.5) in
  let r := Some 0 in
  let r := if ncmp rltb (Some (d_thr d)) tb && cold then rlift2 Rmult (drift_factor d ws) precip else r in
  let r := if ncmp rleb tb (Some (d_thr d)) && cold then rlift2 Rmult (scour_factor d vf v mx) precip else r in
  if ncmp rleb (Some 0.5) ptemp then precip else r.
Definition dist_precip_wind (ny nx : nat) (c : config) (precip ptemp dir_round wind maxus : grid rnum)
    (tbreak : library) (tdirs : list R) (veg_type : grid Z) (vf : list (string * R)) : res (grid rnum) :=
  bind (read_cfg c) (fun d =>
  bind (classify ny nx tdirs tbreak dir_round) (fun tb =>
  bind (veg_keys vf) (fun vf =>
  Ok (fun y x => drift_cell d vf (precip y x) (ptemp y x) (tb y x) (wind y x) (maxus y x) (veg_type y x))))).

(** ** precipitation.py *)
(** str.split('_') *)
Fixpoint split_us (s : string) : list string :=
  match s with
  | EmptyString => [EmptyString]
  | String a s' =>
      if Ascii.eqb a "_" then EmptyString :: split_us s'
      else match split_us s' with
           | w :: ws => String a w :: ws
           | [] => [String a EmptyString]
           end
  end.
Definition contains (sub s : string) : bool :=
  match String.index 0 sub s with Some _ => true | None => false end.
Fixpoint dict_set (d : list (string * R)) (k : string) (v : R) : list (string * R) :=
  match d with
  | [] => [(k, v)]
  | (a, b) :: d' => if String.eqb a k then (a, v) :: d' else (a, b) :: dict_set d' k v
  end.
(** self.veg of ppt.initialize, 224-234: the key is the second part of the option name *)
Definition init_veg (c : config) : list (string * R) :=
  fold_left (fun d kv => if contains "winstral_veg_" (fst kv) && negb (String.eqb (fst kv) "winstral_veg_default")
                         then dict_set d (nth 1 (split_us (fst kv)) EmptyString) (snd kv) else d) c [].

(** the redistribution step of ppt.distribute, 307-326 *)
Definition any_cell (ny nx : nat) (p : nat -> nat -> bool) : bool :=
  existsb (fun y => existsb (fun x => p y x) (seq 0 nx)) (seq 0 ny).
Definition rescale_step (winstral : bool) (ny nx : nat) (c : config) (precip dpt dir_round wind maxus : grid rnum)
    (tbreak : library) (tdirs : list R) (veg_type : grid Z) : res (grid rnum) :=
  if winstral then
    if any_cell ny nx (fun y x => ncmp rltb (dpt y x) (Some 0.5))
    then dist_precip_wind ny nx c precip dpt dir_round wind maxus tbreak tdirs veg_type (init_veg c)
    else Ok precip
  else Ok precip.

(** which model the measured precipitation reaches, ppt.distribute 268-305, given what the two models
    and the undercatch adjustment do; [S] is the state of the object, [D] a time step of data.  For
    marks2017 the data is the clipped and corrected series instead of the argument. *)
Record ppt_cfg := mk_ppt_cfg { gridded : bool; nasde_marks2017 : bool; undercatch : bool }.
Definition distribute_ppt {S D} (c : ppt_cfg) (adjust : D -> res D) (marks susong : S -> D -> res S)
    (st : S) (data corrected : D) : res S :=
  if gridded c then susong st data
  else if nasde_marks2017 c then
    if undercatch c then bind (adjust corrected) (marks st) else marks st corrected
  else if undercatch c then bind (adjust data) (susong st) else Ok st.
