# Formal model of SMRF in Rocq (Coq 8.16.1)

This file is assembled by `tools/design.py` from `tools/design_parts/` and from the output of
`Print Assumptions`.

## Layout

Every topic has up to four kinds of files in `rocq/theories/`:

* `XModel.v`   - total, computable Gallina transcription of the code; every
  definition cites file and lines in `/repo`, simplifications are in the comment.
* `XSpec.v`    - (where needed) the small independent vocabulary used to state
  the property; does not mention the model's helpers.
* `XProofs.v`  - lemmas.
* `PropX.v`    - the property theorems only (`Theorem ... Proof. exact lemma. Qed.`),
  next to each an `Example` showing that a concrete non-trivial case meets the
  hypotheses, and `Print Assumptions`.

A claim that turned out false of the code is kept as a theorem
`..._refuted` (a computed counterexample), the property statement in
`properties.jsonl` says what is true instead, and that is what is proved.

`seeded/LOG.jsonl` records the wrong programs the theorems were tried against.

## Numbers

* discrete logic (queues, schedules, storms, output, calendars): `nat`, `Z`.
* rational computations (kriging, LU, trends, clipping, storm masses): `Qc`, canonical
  rationals: Leibniz equality, no axioms. Every finite double is a rational; only
  rounding is abstracted.
* physics using exp/log/sqrt/trig/pow and inverse distance weighting: the standard library reals `R`.
* NaN, where the code tests or propagates it, is an explicit `None`; infinities are explicit
  in the horizon scan and in the interpolation weights (`fl`), where the code divides by zero distances.

Floating-point rounding and overflow are not modelled, except: the 16 bit overflow of the
search line (C31), the single precision tolerance of the dew point solver, which is an arbitrary
rounding function obeying the IEEE error bound (C51), and the rounding of the output times
to double and single precision, which is modelled bit for bit (C09).
