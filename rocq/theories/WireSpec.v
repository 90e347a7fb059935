(** Specification vocabulary for C78: what a variable of the serial run is. *)
From Coq Require Import List ZArith Bool Arith.
From Verif Require Import SmrfTopo WireModel.
Import ListNotations.

(** The variable named [q] after a serial time step that left the sun's numbers and the
    objects [x]: the sun's cosine, azimuth and illumination are the local variables of
    distribute_single_timestep, the maxus of the cells and the rounded direction belong
    to the wind model, everything else is an attribute of its module. *)
Definition variable {V L Row} (P : parts V L Row) (x : V * V * V * objs V L) (q : nat) : V :=
  let '(cz, az, ill, o) := x in
  if q =? cosz then cz else if q =? azimuth then az else if q =? illum_ang then ill
  else if existsb (Nat.eqb q) [cellmaxus; dir_round_cell] then wm_attr P (inner (o 4)) q
  else attr (o (module_of q)) q.

(** The rescaling of precipitation does not notice whether it is given the wind speed or
    the flat wind. *)
Definition same_speed {V L Row} (P : parts V L Row) : Prop :=
  forall o dpt wdir dround m maxus,
  ppt_rescale P o dpt wdir dround (wm_attr P m wind_speed) maxus =
  ppt_rescale P o dpt wdir dround (wm_attr P m flatwind) maxus.

(** Every output variable has a queue and is an attribute of a module. *)
Definition outputs_queued (c : cfg) : Prop :=
  forall v, In v (outvars c) -> In v (queue_names c) /\ module_of v <> 0.
