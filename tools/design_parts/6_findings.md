## What the proofs found in the code

Each of these is a theorem (`..._refuted` or a characterisation); the property in brackets says which.

* Queues: a timeout given to one `get` becomes the queue's default (C54). An output frequency above 1 stalls
  every threaded run (C08). With a solar correction off, threads wait for queues nobody fills (C55). The
  storm days array is shared by reference: a threaded reader can see later or half-updated contents unless
  `queue_max_values` is 1 (C50).
* Output: the serial run dies on several output variables that the threaded run accepts (C60); with
  numpy 2 a time that is not a quarter of an hour is appended again instead of being overwritten, and about
  30 years after the file's reference date one minute overwrites another (C09).
* Storms and precipitation: clipping with a station subset gives NaN and loses mass (C12); Susong storm days
  mix days and hours (C56); measured precipitation is skipped for station runs without undercatch correction
  and another density model (C66); Winstral rescaling always raises KeyError (C36); undercatch in calm air
  reduces precipitation (C35).
* Snow models: they change the caller's temperature array (C57); the piecewise density is unbounded for warm
  air; Marks2017's arrays alias (C16-C19).
* Interpolation: `lubksb` skips negative partial sums (C24); duplicate stations end the process (C61); the
  slope constraint and the station list are ignored in places (C63, C64); zero distances are not replaced (C27).
* Wind: the horizon scan is not maximal for a raised instrument (C30); long lines overflow shorts (C31);
  the window drops direction 0 and gives NaN for some widths (C65); station values are assigned by position (C67);
  gridded wind direction is a mathematical angle, not a compass bearing (C71).
* Radiation: net solar counts diffuse light twice (C68); the two-stream code fails for zero optical depth on
  wide grids (C69); the canopy correction changes its argument (C38); the thermal terrain correction uses
  degrees Celsius to the fourth power (C75); the cloud factor is NaN for runs that start at night (C70); the
  ephemeris' day count is off after 2100 and latitudes to 360 degrees are accepted (C23, C58, C76).
* Humidity: NaN vapour pressure gives a dew point near -273 C and a non-positive one never returns (C51); the
  unit of relative humidity is decided by the first cell (C73); tolerances of 1 or more return the air
  temperature as wet bulb (C74); saturation pressure jumps at freezing (C72).
* Threads: the serial run rescales precipitation by the distributed wind speed, the threaded run by the flat
  wind (C78).
* WindNinja: columns missing in the first row are overwritten in every row, filled speeds may be negative, gaps
  in the speed stay when the resolutions agree, and the hour repeated when clocks are set back reads one file
  twice (C79).
* HRRR step by step: the threaded run's first hour is not filled and its cloud memory starts an hour later than
  the serial run's, so the cloud factors differ at dusk and at night; all hours stay in memory (C80).
* Input: netCDF times are cut to whole units, so a record for half past is used at the full hour (C83); the test for
  two-dimensional coordinates looks at the longitude only (C83); WRF runs outside UTC fail (C83); the box around the
  domain uses two corners only (C83); a CSV file with the hour that is shown twice cannot be read (C82).
* HRU output: dates of rows advance with every call, so two variables or a frequency above 1 give wrong dates; a run
  with it fails at its first date because the framework needs an attribute only the netCDF output has (C84).
* Topo file: a missing image is silently the image before it in the list, so vegetation height is taken for
  transmissivity; the column spacing keeps its sign; the centre may lie outside of the basin (C85).
* Wet bulb: because saturation pressure jumps at freezing, a dew point and an air temperature just on both sides of
  freezing give a wet bulb below the dew point (C74).
* Topographic breaks: with the default instrument height a longer search can miss a slope a shorter one finds, so breaks
  can be positive; an unfinished file of slopes is windowed without complaint (C86).
* Backup of the input, on by default: no run can be made from it, because the saved stations have lost the name of their
  index and the saved times have offsets; a run without all six variables stops at the backup (C87).
* The command ends with status 0 when the configuration has errors or the argument is refused; the run's copy of the
  configuration is written over a config.ini in the output directory, also if that is the user's own; the dates of the albedo
  decay are taken in the local mean time of the zone, 45 minutes late in Boise in winter (C88).
* The table of the solar spectrum does not sum to 1: all wavelengths together have 1332 W/m2, not the solar constant of 1368;
  its interpolation is negative beyond 100 micrometers; wavelengths in the wrong order are accepted as a band, with negative
  irradiance (C89).
* WindNinja: the no data value of a file is taken for a wind speed, and files after the first are read on the grid of the
  first one, whatever their headers say (C90).
* One missing value among the points of gridded data ends a run that removes an elevation trend, while the other methods
  leave the point out; tables with the old coordinate names X and Y fail at the first step with local trends,
  and so does the grid method nearest (C91).
* An output file keeps what it says about its first run. A later run into the same directory in another time zone or for
  another area of the same size is written without a complaint at the wrong moments or under the wrong coordinates (C92).
* A write that fails leaves a record with a time and no data; a mask turns cells outside into 0 but leaves NaN (C92).
* `bresenham` of `wind_model` decides about going backwards before it exchanges the coordinates of a steep line: it returns
  no cell for a steep line whose coordinates change in opposite directions, nor for one straight down (C93).
* With threads, the file of a variable without a queue (the soil temperature, the last storm day) is made but stays without
  records; without threads it has them all (C94).
* The vapour pressure of HRRR data combines temperature and humidity by position, all other tables are matched by time and pixel:
  humidities with pixels in another order, or for one time only, give the vapour pressure of another pixel or time without any
  message (C95).
* The options `hardy2000_litter_veg_41` etc. also match the search for the options of the date method, so in a configuration with
  both the decay of the date method for these classes is the litter rate (0.006 instead of 0.36 with the default values).  The
  recipes remove the options of the other method, so a run from a file is not affected (C96).
* A weather station called like an option of the section [wind], in any case of letters, gets the value of that option as its
  enhancement (C96).
* `gen_maxus --make_tbreak False` makes the breaks: argparse's `type=bool` is true of every word but the empty one (C97).
* `gen_maxus -O maxus.nc` is refused ("Directory to out_maxus argument maxus.nc does not exist!"), because the directory of a
  plain name is the empty string; a missing directory for the breaks, or an uneven local distance, is found only after the
  slopes are done (C97).
* Only the shape of a file of upwind slopes is compared with the topo of a run: slopes made from other terrain are taken (C97).
* With marks2017, a threaded run over a period without any precipitation ends at its first step: storm_id is never set, and
  the queue for it is fed after every step (AttributeError); the same run without threads finishes (C98).
* With marks2017, a storm that starts cold and during which every station misses one wet step ends the run, although some
  station reports at every step: all its station totals are NaN and `_distribute` refuses them (C98).
* With marks2017, a storm that starts with all cells at 2 C or warmer never gets its total: the output goes on showing that of
  the storm before, also when it turns to snow later (C98).
* mwgamma tests `g == 1` (the asymmetry) before the formula that holds for a single-scattering albedo of 1: with an asymmetry
  of exactly 1 the albedo is ignored and the atmosphere absorbs nothing (C69).
* time_since_storm resets the days of every cell whose recorded storm precipitation is above the threshold, also where it does
  not snow now; the record is only cleared once the days reach the limit, which the reset prevents. A cell with one snowfall
  followed by rain stays at 0 days (new snow for the albedo) as long as it snows anywhere else in the grid (C99).
* storm_days_restart looks for the start date itself in the file, so a run that starts one step after the earlier one ended does
  not find it and starts with 0 days everywhere (one warning); and since storm totals are not restored, a run started again
  inside the earlier one has other days where a storm was going on (C100).
* With marks2017 the stations' precipitation is scaled so that what falls outside storms of the loaded record is not lost, so the
  precipitation written for a date depends on the end date of the run: one more step can change all earlier ones (C98). The
  runs of C99 do not look ahead.
