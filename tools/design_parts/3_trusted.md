## Trusted base

* Coq 8.16.1's kernel, its standard library and, for theorems over the reals, the four axioms the
  standard library's `Reals` uses: `ClassicalDedekindReals.sig_forall_dec`,
  `ClassicalDedekindReals.sig_not_dec`, `FunctionalExtensionality.functional_extensionality_dep` and
  `Classical_Prop.classic`. No axiom is added, no other library is imported, no kernel check is switched off.
* The transcription of the code into the `*Model.v` files (by reading; each definition cites its lines).
* Python, numpy, pandas and C semantics as stated in the model comments: integer division and modulo,
  NaN comparisons, boolean masks, in-place operators, reference sharing of arrays, exceptions as an
  explicit error value.
* `threading.Condition` gives mutual exclusion, and a waiting thread re-tests its condition; fairness is
  not assumed for safety, and termination is stated for every maximal schedule.
* External functions are parameters of the theorems, with only the hypotheses written in each statement:
  `np.polyfit` (slope first, normal equations where needed), scipy's `griddata`, `Delaunay` and quadrature,
  `pykrige`, `topocalc` (gradient, sky view, horizon, illumination), `netCDF4`/HDF5 (a killed file holds a
  prefix of its writes), `pygrib`, `utm`, `inicheck`.
* Exact arithmetic: theorems speak about the rational or real number the float program approximates.
