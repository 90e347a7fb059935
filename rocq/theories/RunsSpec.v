(** What the property about several runs talks about. *)
From Coq Require Import List Arith Bool ZArith QArith Qcanon.
From Verif Require Import Num OutputModel OutputSpec RunsModel.
Import ListNotations.
Local Open Scope nat_scope.

Definition shaped {X} (ny nx : nat) (g : list (list X)) : Prop :=
  length g = ny /\ forall row, In row g -> length row = nx.

(** an empty directory *)
Definition empty : disk := fun _ => None.

(** a cell under a mask *)
Definition under (m : list (list Qc)) (i j : nat) (x : num) : num :=
  match x with Some y => Some (Qcmult y (nth j (nth i m []) (Q2Qc 0))) | None => None end.
(** [g'] is [g] as the run shows it: as it is, or each cell under the mask *)
Definition shown (u : setup) (g g' : grid) : Prop :=
  if u_mask_output u
  then length g' = length g /\
       forall i, length (nth i g' []) = length (nth i g []) /\
         forall j, j < length (nth i g []) ->
           nth j (nth i g' []) None = under (u_mask u) i j (nth j (nth i g []) None)
  else g' = g.

(** numbers rounded to what the type of the file can hold: 24 or 53 bits *)
Definition held (double : bool) : grid -> grid :=
  map (map (option_map (fun x : Qc => Q2Qc (binary (if double then 53%Z else 24%Z) x)))).

(** a run as the framework makes it, for a topo of [ny] rows and [nx] columns *)
Definition well_formed (ny nx : nat) (r : run) : Prop :=
  length (u_y (r_setup r)) = ny /\ length (u_x (r_setup r)) = nx /\
  shaped ny nx (u_mask (r_setup r)) /\
  forall c, In c (r_calls r) -> In (c_var c) (r_names r) /\ shaped ny nx (c_data c).

(** the calls of all runs for a variable, in order, with the data as shown by the run that made the call *)
Inductive calls_for (v : nat) : list run -> list (Z * grid) -> Prop :=
| cf_end : calls_for v [] []
| cf_next u names rs l : calls_for v rs l -> calls_for v (mkRun u names [] :: rs) l
| cf_other u names c cs rs l : c_var c <> v -> calls_for v (mkRun u names cs :: rs) l ->
    calls_for v (mkRun u names (c :: cs) :: rs) l
| cf_call u names c cs rs l g : c_var c = v -> shown u (c_data c) g -> calls_for v (mkRun u names cs :: rs) l ->
    calls_for v (mkRun u names (c :: cs) :: rs) ((c_time c, g) :: l).

(** [u] is the setup of the first run with the variable *)
Definition first_with (v : nat) (rs : list run) (u : setup) : Prop :=
  exists pre r post, rs = pre ++ r :: post /\ (forall p, In p pre -> ~ In v (r_names p)) /\
    In v (r_names r) /\ r_setup r = u.

(** netCDF4 writes data of the shape of the record as they are *)
Definition keeps_matching (conform : nat -> nat -> grid -> option grid) : Prop :=
  forall ny nx g, shaped ny nx g -> conform ny nx g = Some g.

(** what the file of a variable says when it is made by a run *)
Definition describes (u : setup) (v : nat) (h : header) : Prop :=
  h_origin h = u_start u /\ h_zone h = u_zone u /\
  h_x h = map float32 (u_x u) /\ h_y h = map float32 (u_y u) /\
  h_double h = u_double u /\ h_info h = u_info u v.
