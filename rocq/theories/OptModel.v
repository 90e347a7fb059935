(** What the modules make of the options for vegetation classes and stations: albedo.__init__, distribute/albedo.py
    68-80; WinstralWindModel.__init__, distribute/wind/winstral.py 104-115; the enhancements of
    WinstralWindModel.initialize, 134-149; the use of the classes in simulateWind, 224-235. *)
From Coq Require Import Ascii String Reals List Bool ZArith Arith.
From Verif Require Import RNum WinsModel PptModel AlbedoModel.
Import ListNotations.
Local Open Scope string_scope.

(** self.veg and self.litter of the albedo, 70-80, for [d] = veg and litter: the options with "d_" in their name, by
    the last part of the name.  The options are numbers (type float in CoreConfig.ini). *)
Definition albedo_table (d : string) (opts : list (string * R)) : list (string * R) :=
  fold_left (fun t o => if contains (d ++ "_") (fst o) then dict_set t (last (split_us (fst o)) "") (snd o) else t) opts [].

Section Wind.
(** An entry of an option, and [float(entry)] *)
Variable E : Type.
Variable to_float : E -> res R.
(** An option has one entry or a list of them *)
Inductive value := One (e : E) | Many (l : list E).

(** 109-113 and 142-148: the first entry of a list *)
Definition number (v : value) : res R :=
  match v with
  | One e => to_float e
  | Many [] => Err IndexError
  | Many (e :: _) => to_float e
  end.

(** self.veg of the wind, 104-115: the options with "veg_" in their name, by the second part of the name *)
Fixpoint wind_veg_from (t : list (string * R)) (opts : list (string * value)) : res (list (string * R)) :=
  match opts with
  | [] => Ok t
  | (k, v) :: r =>
      if contains "veg_" k then bind (number v) (fun x => wind_veg_from (dict_set t (nth 1 (split_us k) "") x) r)
      else wind_veg_from t r
  end.
Definition wind_veg (opts : list (string * value)) : res (list (string * R)) := wind_veg_from [] opts.

(** 226-235 as far as the table is concerned: all keys but 'default' as numbers, then the default *)
Definition classes (t : list (string * R)) : res (list (Z * R) * R) :=
  bind (veg_keys (filter (fun p => negb (String.eqb (fst p) "default")) t)) (fun l =>
  match lookup t "default" with Some x => Ok (l, x) | None => Err KeyError end).

(** str.lower, 139; names are ASCII *)
Definition lower_char (a : ascii) : ascii :=
  let n := nat_of_ascii a in if Nat.leb 65 n && Nat.leb n 90 then ascii_of_nat (n + 32) else a.
Fixpoint lower (s : string) : string :=
  match s with EmptyString => EmptyString | String a s' => String (lower_char a) (lower s') end.
Fixpoint option_of (opts : list (string * value)) (k : string) : option value :=
  match opts with [] => None | (k', v) :: r => if String.eqb k' k then Some v else option_of r k end.
Fixpoint each (opts : list (string * value)) (dflt : R) (names : list string) : res (list R) :=
  match names with
  | [] => Ok []
  | m :: r =>
      bind (match option_of opts (lower m) with Some v => number v | None => Ok dflt end) (fun x =>
      bind (each opts dflt r) (fun l => Ok (x :: l)))
  end.
(** 133-149: the column enhancement of the stations' table, [column] if it has one already.  [float] of a list is a
    TypeError (135-136). *)
Definition enhancements (column : option (list R)) (opts : list (string * value)) (names : list string) : res (list R) :=
  match column with
  | Some l => Ok l
  | None =>
      match option_of opts "station_default" with
      | None => Err KeyError
      | Some (Many _) => Err TypeError
      | Some (One e) => bind (to_float e) (fun d => each opts d names)
      end
  end.
End Wind.
Arguments One {E}. Arguments Many {E}. Arguments number {E}. Arguments wind_veg {E}. Arguments option_of {E}.
Arguments each {E}. Arguments enhancements {E}.
