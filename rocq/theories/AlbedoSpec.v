(** Specification of snow albedo. *)
From Coq Require Import Reals ZArith String List.
From Verif Require Import RNum PptModel.
Import ListNotations.
Local Open Scope string_scope.
Local Open Scope R_scope.

(** Share of the grain growth completed after d days, and a quantity on its way from lo to hi. *)
Definition grown (d : R) : R := (d * d + d) / (d * d + 3 * d + 4).
Definition between_at (lo hi f : R) : R := (1 - f) * lo + f * hi.
(** Visible and infrared albedo of clean snow for the grain radii gv and gi (square roots of micrometres) and
    the illumination cosine mu; the increase for a low sun only where the cell faces the sun. *)
Definition clean_vis (gv mu : R) : R :=
  1 - 0.002 * gv + (if Rlt_dec 0 mu then 0.001375 * gv * (1 - mu) else 0).
Definition clean_ir (gi mu : R) : R :=
  0.85447 * exp (- (0.02123 * gi)) + (if Rlt_dec 0 mu then (0.002 * gi + 0.1) * (1 - mu) else 0).
Definition valid_grain (gs mx dirt : R) : Prop := 0 < gs <= 500 /\ gs < mx <= 2000 /\ 0 <= dirt.

(** The value configured for vegetation type z: the last entry whose name is the number z, else the default. *)
Definition class_value (d : list (string * R)) (z : Z) (m : R) : Prop :=
  (exists pre k post, d = (pre ++ (k, m) :: post)%list /\ py_int k = Some z /\ forall k' v', In (k', v') post -> py_int k' <> Some z) \/
  ((forall k v, In (k, v) d -> py_int k <> Some z) /\
   exists pre post, d = (pre ++ ("default", m) :: post)%list /\ forall k v, In (k, v) pre -> k <> "default").

(** Share of the snow still free of litter after [day] days when a share [l] of it is covered every day. *)
Definition uncovered (l day : R) : R :=
  if Rlt_dec l 1 then Rpower (1 - l) day else if Req_EM_T day 0 then 1 else 0.

(** Albedos of clean snow [day] days after the last storm. *)
Definition snow_vis (gs mx dirt day mu : R) : R := clean_vis (between_at (sqrt (dirt * gs)) (sqrt (dirt * mx)) (grown day)) mu.
Definition snow_ir (gs mx day mu : R) : R := clean_ir (between_at (sqrt gs) (sqrt mx) (grown day)) mu.
