(** Model of smrf/output/output_hru.py, the output of means over hydrologic response units (HRU), and of
    smrf/framework/model_framework.py 663-702 and 704-749, which choose and use it.

    The cells of the domain are numbered 0 .. [ncell] - 1, values are exact rationals, [None] is NaN;
    the numbers of the HRU are integers (a simplification: the file may contain fractions, which
    belong to no HRU).  Dates are integers, variables are numbered.  A file is the list of its
    lines; the three fixed lines of the PRMS header (137-140) are one line here.  The formatting of numbers and dates is
    not modelled. *)
From Coq Require Import List ZArith Bool Arith QArith Qcanon.
From Verif Require Import Num WinsModel OutputModel.
Import ListNotations.

(** config['output_type'], output_hru.py 36-46; anything else leaves [ext] unbound *)
Inductive output_type := TCsv | TPrms | TOther.
(** config['func'], 160-163 and model_framework.py 700-702; any other value is ignored *)
Inductive func := FNone | FMm2in | FC2F.

Inductive line :=
| LHeader                                   (* the column names of a csv file, 184-186 *)
| LPrms (v : nat) (hru_max : Z)             (* 137-140 *)
| LRow (date : option Z) (values : list num).   (* [None]: the date's cells are empty *)

Record writer := mkWriter {
  w_type : output_type;
  w_func : func;
  w_ncell : nat;
  w_hru : nat -> Z;                          (* 72 *)
  w_max : Z;                                 (* 73 *)
  w_dates : list Z;                          (* 66 *)
  w_idx : nat;                               (* 67 *)
  w_files : nat -> list line                 (* by variable; an absent file has no lines *)
}.

(** np.max(hru), 73: an empty file is a ValueError *)
Fixpoint max_of (l : list Z) : option Z :=
  match l with
  | [] => None
  | x :: r => Some (match max_of r with None => x | Some m => Z.max x m end)
  end.

(** __init__, 20-113, with the [func] set afterwards.  Files left by an earlier run are removed (56-59), so
    what they contained does not matter.  The PRMS form needs the file of the HRU to exist (42-43), which is assumed. *)
Definition make (ty : output_type) (f : func) (vars : list nat) (dates : list Z) (ncell : nat) (hru : nat -> Z) : res writer :=
  match ty with
  | TOther => Err UnboundLocalError
  | _ =>
      match max_of (map hru (seq 0 ncell)) with
      | None => Err ValueError
      | Some m =>
          Ok (mkWriter ty f ncell hru m dates 0
                (fun v => match ty with
                          | TPrms => if existsb (Nat.eqb v) vars then [LPrms v m] else []
                          | _ => []
                          end))
      end
  end.

(** np.nanmean, 155: NaN if there is no number *)
Definition numbers (l : list num) : list Qc := flat_map (fun x => match x with Some v => [v] | None => [] end) l.
Definition nanmean (l : list num) : num :=
  match numbers l with
  | [] => None
  | vs => Some (fold_right Qcplus 0 vs / Q2Qc (inject_Z (Z.of_nat (length vs))))%Qc
  end.

(** data[self.IND[h]], 78-80 and 155, for the HRU number [h + 1] *)
Definition cells_of (w : writer) (data : nat -> num) (id : Z) : list num :=
  map data (filter (fun c => Z.eqb (w_hru w c) id) (seq 0 (w_ncell w))).

(** 160-163 *)
Definition convert (f : func) (x : num) : num :=
  match f, x with
  | FMm2in, Some v => Some (v / Q2Qc (254 # 10))%Qc
  | FC2F, Some v => Some (v * Q2Qc (9 # 1) / Q2Qc (5 # 1) + Q2Qc (32 # 1))%Qc
  | _, _ => x
  end.
Definition means (w : writer) (data : nat -> num) : list num :=
  map (fun h => convert (w_func w) (nanmean (cells_of w data (Z.of_nat h + 1)))) (seq 0 (Z.to_nat (w_max w))).

(** output, 142-192.  [self.hru_data.loc[self.idx, ...] = ...] appends a row without a date when [self.idx] is beyond
    the dates (165); its date cannot be turned into an integer for PRMS (178-179).  Only the row of [self.idx] is
    written, so the table itself need not be kept.  The argument [date_time] is only logged. *)
Definition put_line (files : nat -> list line) (v : nat) (ls : list line) : nat -> list line :=
  fun v' => if Nat.eqb v' v then (files v' ++ ls)%list else files v'.
Definition output (w : writer) (v : nat) (data : nat -> num) (date_time : Z) : res writer :=
  let date := nth_error (w_dates w) (w_idx w) in
  let row := LRow date (means w data) in
  match w_type w, date with
  | TPrms, None => Err ValueError
  | _, _ =>
      let hdr := match w_type w with TPrms => [] | _ => if Nat.eqb (w_idx w) 0 then [LHeader] else [] end in
      Ok (mkWriter (w_type w) (w_func w) (w_ncell w) (w_hru w) (w_max w) (w_dates w) (S (w_idx w))
            (put_line (w_files w) v (hdr ++ [row])))
  end.

(** The calls of a run one after the other, until an exception *)
Fixpoint outputs (w : writer) (calls : list (call (nat -> num))) : writer * option error :=
  match calls with
  | [] => (w, None)
  | c :: r => match output w (c_var c) (c_data c) (c_time c) with
              | Ok w' => outputs w' r
              | Err e => (w, Some e)
              end
  end.

(** initializeOutput, model_framework.py 682-698 *)
Inductive out_func := Netcdf (variable_dict : list nat) | Hru (w : writer).
(** [self.out_func.variable_dict], model_framework.py 726 and 736 and queue.py 276: an object of class output_hru has
    [variable_list] (61) but no [variable_dict] *)
Definition variable_dict (o : out_func) : option (list nat) :=
  match o with Netcdf d => Some d | Hru _ => None end.
(** SMRF.output, 704-749, with any kind of output; without the attribute it ends with an AttributeError *)
Definition any_output {A} (zeros : A) (o : out_func) (dts : list Z) (freq : nat) (attr : @attributes A) (t : Z) : outcome A :=
  match index_of t dts with
  | None => ([], false)
  | Some count =>
      match due freq (length dts) count with
      | None => ([], false)
      | Some false => ([], true)
      | Some true => match variable_dict o with
                     | None => ([], false)
                     | Some d => smrf_output zeros d dts freq attr t None None
                     end
      end
  end.
Fixpoint any_serial_from {A} (zeros : A) (o : out_func) (dts : list Z) (freq : nat) (attr : nat -> @attributes A) (i : nat) (todo : list Z) : outcome A :=
  match todo with
  | [] => ([], true)
  | t :: r => andthen (any_output zeros o dts freq (attr i) t) (any_serial_from zeros o dts freq attr (S i) r)
  end.
Definition any_serial_run {A} (zeros : A) (o : out_func) (dts : list Z) (freq : nat) (attr : nat -> @attributes A) : outcome A :=
  any_serial_from zeros o dts freq attr 0 dts.
