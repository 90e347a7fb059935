(** What the output properties talk about, independently of the model's functions. *)
From Coq Require Import List Arith ZArith QArith Qcanon Sorted.
From Verif Require Import OutputModel.
Import ListNotations.
Local Open Scope nat_scope.

(** [ps] are the positions below [n] that are multiples of [freq], in increasing order *)
Definition multiples_below (freq n : nat) (ps : list nat) : Prop :=
  StronglySorted lt ps /\ forall i, In i ps <-> i < n /\ exists k, i = k * freq.

(** the calls for the positions [ps]: every variable in turn, at the date of the position *)
Definition all_calls {A} (dts : list Z) (vars : list nat) (value : nat -> nat -> A) (ps : list nat) : list (call A) :=
  flat_map (fun i => map (fun v => mkCall v (value i v) (nth i dts 0%Z)) vars) ps.

(** what is written for an attribute: zeros when its value is None *)
Definition data_of {A} (zeros : A) (a : option (option A)) : A :=
  match a with Some (Some x) => x | _ => zeros end.
Definition queue_data {A} (zeros : A) (a : option A) : A :=
  match a with Some x => x | None => zeros end.

(** the data of the last call for time [t] *)
Inductive last_call {T A} (t : T) : list (T * A) -> A -> Prop :=
| lc_here d l : ~ In t (map fst l) -> last_call t ((t, d) :: l) d
| lc_later c l d : last_call t l d -> last_call t (c :: l) d.

(** [l] lists the elements of [done] and then those of [ts] that are new, in order of first
    appearance *)
Inductive first_seen {T} : list T -> list T -> list T -> Prop :=
| fs_end known : first_seen known [] known
| fs_old known t ts l : In t known -> first_seen known ts l -> first_seen known (t :: ts) l
| fs_new known t ts l : ~ In t known -> first_seen (known ++ [t]) ts l -> first_seen known (t :: ts) l.

(** the file's record for a time *)
Definition has_record {A} (f : list (Qc * option A)) (t : Qc) (d : option A) : Prop := In (t, d) f.

(** [k] is a crash point of the calls [done ++ rest]: [done] are complete and, if the crash is
    between the two writes of a call, that call is the first of [rest] *)
Definition crash_point {A} (rest : list (Qc * A)) (k : crash A) : Prop :=
  match k with Before => True | Between c => exists r, rest = c :: r end.

(** [run] has one record per element of [times], in that order, and the data of each record are those of
    the last call for its time; [key] is the time as the file shows it *)
Definition one_record_each {T A} (key : T -> Qc) (enc : A -> A) (calls : list (T * A)) (times : list T)
    (run : list (Qc * option A)) : Prop :=
  Forall2 (fun t r => fst r = key t /\ exists d, last_call t calls d /\ snd r = Some (enc d)) times run.
