## Plan per property

| id | modelled | proof |
|----|----------|-------|
| C01 | `DateQueueThreading` as a finite map with an operation history | refinement to "last put not followed by clean", induction on history |
| C02 | same, with `maxsize`, block flag, swallowed `Full`/`Empty`/`KeyError` | invariant by induction on history |
| C03 | generic DAG of threads (blocking gets, then puts, per date), cleaner, bounded queues; small-step scheduler; SMRF instance | progress by minimality argument on the least-advanced thread; termination by a strictly decreasing measure |
| C04 | same with values; per-thread private state and arbitrary step function | invariant: every item put equals the serial value |
| C05, C06 | same | inductive invariants |
| C07 | output loops of both modes | induction on the list of dates |
| C08 | pipeline instance in which the output thread skips puts | invariant that the cleaner can not pass step 1 |
| C09 | netCDF time axis as a list, first match overwrite, else append; rounding of the times to single precision, and both ways numpy may compare them | induction on history; error bound of the rounding; divisibility for the minutes that are not exact |
| C10, C11 | `tracking_by_station` fold | invariants over the fold, relational spec of storms |
| C12 | `clip_and_correct` in Qc | algebra over sums |
| C13 | `tracking_by_basin` step function | invariants |
| C14, C15 | per pixel step functions in Q / Z with grid-wide guards | induction on history |
| C16-C19 | NASDE models over R, arrays as lists, aliasing with an explicit heap of arrays | real analysis, case analysis |
| C20 | `set_min_max` on option values | case analysis |
| C21, C22 | Z calendars | lia + exhaustive case on months, all years |
| C23 | R | trigonometric identity |
| C24 | `ludcmp`, `lubksb` on rational matrices as written (in-place, pivot vector) | loop invariants P*A = L*U, forward and back substitution |
| C25 | `krige` discard loop on top of the solver | uses C24 |
| C26 | `DK.calculate` cache machine | induction on history |
| C27, C28 | IDW and trends over R with infinities; the trend only through the normal equations | algebra |
| C29 | cellwise | case analysis |
| C30 | `hord` loop with its H table | the classic horizon argument: hull lemma over a stack invariant |
| C31 | Bresenham state machine per octant, with C shorts | loop invariant on the error term |
| C32, C33, C34 | Winstral lookup, interpolation, flat wind | algebra, list induction |
| C35, C36 | catch ratios, drift rescaling over R | real analysis |
| C37-C40 | diffuse split, canopy, albedo, thermal over R | real analysis |
| C41 | argmin | list induction |
| C42 | memory state machine | induction on loads |
| C43 | grouping | list induction |
| C44 | fold over image list | induction |
| C45 | dispatch | case analysis on configuration and trace of calls |
| C46-C49 | framework glue | list reasoning |
| C50 | pipeline whose precipitation thread puts a reference to one mutable array, with looks at any moment | invariant on how far the writer is ahead; schedule witness constructed by driving the DAG |
| C51 | Brent's step of `zerobr` as written, over R, function as oracle | bracket invariant, progress measure |
| C52, C53 | Q | algebra |
| C54 | `get` with `timeout` and the shared default | history induction |
| C55 | topology of the threaded run for every flag combination | computed sources, stall invariant |
| C56, C57 | storm day units, heap of arrays | case analysis |
| C58 | day number of the ephemeris against a Julian day specification | Z arithmetic, all dates |
| C59 | writer with a crash point | prefix induction |
| C60 | attribute table of the serial run | case analysis over every module list and option |
| C61, C62 | `krige` on duplicate stations; kriging at a station | pivot argument on equal rows; uniqueness of the solution |
| C63, C64 | station selection; third-party kriging | list reasoning |
| C65 | `windower` on half degree angles | list induction |
| C66 | branch table of `ppt.distribute` | case analysis |
| C67 | `simulateWind` positional assignment | list reasoning |
| C68, C69 | toporad sum and two-stream solution as written | the differential equations by derivatives, monotonicity by calculus |
| C70, C71 | cloud factor of gridded data, wind components | list induction, arctan2 lemmas |
| C72-C74 | saturation pressure, humidity, wet bulb | derivatives, mean value theorem |
| C75 | thermal stages | real analysis |
| C76 | ephemeris against the almanac series | trigonometry, quadrant case analysis |
| C77 | irradiance and clear sky | algebra, monotonicity |
| C78 | threaded run equals serial run, module by module | `serial_fix` of the pipeline, induction on dates |
| C79 | WindNinja fields: edges, logarithmic law, direction, file names | counting lemmas, sorting lemmas, real algebra |
| C80 | HRRR step loading, serial against threaded | induction on dates, queue contents |
| C81 | dates of a run, time zones as offset functions | case analysis on the offsets, division |
| C82 | CSV tables | membership lemmas for filters, slices and lookups |
| C83 | gridded tables, names, box, loader | injectivity of decimal names, fold over columns |
| C84 | HRU output, files as lists of lines | induction on the calls |
| C85 | the topo file as coordinates and named images | induction on the list of images; sums over the basin |
| C86 | maxus and tbreak as loops writing a file, stopped after any number of directions | induction on the directions; C30 along rows and columns; a terrace as counterexample |
| C87 | backup_input on a map from paths to contents, CSV text as headers, times with offsets and numbers, reading it again | induction on the list of tables and of topo keys; counterexample for all backups |
| C88 | the command's argument, __init__ as effects and outcome, the stages as a list that may fail anywhere | case analysis; induction on the stages and on file names; a zone as counterexample |
| C89 | the table and Akima's interpolation over the rationals, values and integral over the reals | gluing of polynomials, the fundamental theorem; Bernstein coefficients and sums computed in the rationals |
| C90 | words of the header lines, the points, the weights made once per run | splitting inverse to joining, row-major order, barycentric weights; a run on two shifted grids |
| C91 | the table, the set-up, the choice of the method, failures, limits | the grid as a function of the stations that report, invariant under permutation and removal of the others |
| C92 | the directory of netCDF files, opening and creating them, masks, precision, any history of runs | induction over the runs; the records by the lemmas of C09 |
| C93 | bresenham and hord of wind_model | closed form of the cells by induction over the rounds; on a ray the scan takes the decisions of the compiled one |
| C94 | from the time steps to the contents of the files | the calls of the output, position by position, are the records of each file (C92 for one run with distinct dates) |
| C95 | tables with labels, reindexing, the way from the files' tables to the model's | labels found by search or refused if they occur twice; the physics of a cell from C70, C71 and C72 |
| C96 | the tables that constructors make of option names | texts split at underscores; a dictionary built by a loop says for a key what the last matching option says |
| C97 | the command as the list of the states of the disk after each write | names as lists of characters split at the last slash, dot or underscore; each stage adds a file; case distinction over what can be refused |
| C98 | the attributes of the precipitation module as a state, one function per time step, the run as a recursion over the rows | invariant over the steps for the storm's number, flag and total, with the storm tracker's and the clipping's specifications (C10 to C12) |
| C99 | the same for the runs through distribute_for_susong1999, with NaN in precipitation, percent snow and storm total | each step's result from the one before, then induction over the steps for the cells where a storm is held |
| C100 | C99's run with the storm days read from the records of an earlier run | the rest of a run is a run from its state; two runs whose totals are on the same side of the threshold in a cell keep the same days there |
