{"id": "C01", "title": "A date queue is a finite map with last-put-wins reads", "statement": "For a DateQueueThreading, after any history of completed put, get and clean calls, a blocking get(d) that returns yields exactly the value of the most recent put for date d that has not been followed by clean(d); get never removes or changes any entry, put(d) changes only the entry of d, clean(d) removes only the entry of d.", "quantifier": "all finite histories of put/get/clean calls, all dates, all values", "why_tests_cant": "the histories are unbounded; tests sample a few short ones", "anchors": ["smrf/utils/queue.py: DateQueueThreading._put,_get,get,put,clean"]}
{"id": "C02", "title": "A bounded date queue never holds more than maxsize dates, and a refused put changes nothing", "statement": "With maxsize > 0 the queue never holds more than maxsize dates after any history of calls; a non-blocking put on a full queue returns normally (the Full exception is swallowed), drops the item and leaves the queue unchanged; with maxsize <= 0 no put is ever refused. A non-blocking get of a date that is absent returns None instead of raising.", "quantifier": "all histories, all capacities, blocking and non-blocking calls", "why_tests_cant": "needs all histories and capacities", "anchors": ["smrf/utils/queue.py: DateQueueThreading.put, get"]}
{"id": "C03", "title": "The threaded run never deadlocks and always finishes", "statement": "With one queue per produced variable, queue_max_values >= 1 (or unbounded), no time-outs and every declared queue fed once per time step by its producing thread after that thread's reads, every schedule of the producer/consumer threads, output thread and cleaner ends with every thread having processed every time step; in every reachable state that is not final some thread can move. This holds for the thread graph SMRF builds (solar cloud and vegetation corrections both on, output frequency 1).", "quantifier": "all thread schedules, all numbers of time steps, all queue capacities >= 1, all acyclic producer/consumer graphs, instantiated on SMRF's", "why_tests_cant": "schedules are unbounded in number; a test run exercises one", "anchors": ["smrf/framework/model_framework.py: disttribute_data_threaded, create_distributed_threads", "smrf/utils/queue.py: QueueCleaner.run, QueueOutput.run, DateQueueThreading", "smrf/distribute/*: distribute_thread"]}
{"id": "C04", "title": "Threaded results do not depend on the schedule", "statement": "When the values put on the queues are not modified afterwards, every complete threaded run computes, for every variable and time step, the same value as the serial evaluation of the modules in dependency order.", "quantifier": "all thread schedules, all per-module step functions with private state, all numbers of time steps", "why_tests_cant": "quantifies over all interleavings", "anchors": ["smrf/framework/model_framework.py: distribute_single_timestep, disttribute_data_threaded", "smrf/distribute/*: distribute_thread"]}
{"id": "C05", "title": "The cleaner never removes a time step somebody still needs", "statement": "In every reachable state of a threaded run, if the cleaner has removed date t from some queue then every thread has already performed all of its reads for t; hence no reader ever waits for a removed item.", "quantifier": "all schedules and reachable states", "why_tests_cant": "quantifies over all interleavings", "anchors": ["smrf/utils/queue.py: QueueCleaner.run"]}
{"id": "C06", "title": "No thread runs more than queue_max_values steps ahead of the cleaner", "statement": "In every reachable state, the number of time steps a thread has put on a queue minus the number of time steps cleaned from it is at most the queue's maxsize, so memory use is bounded by maxsize grids per variable whatever the schedule.", "quantifier": "all schedules, all capacities", "why_tests_cant": "quantifies over all interleavings", "anchors": ["smrf/utils/queue.py", "smrf/framework/model_framework.py: create_distributed_threads"]}
{"id": "C07", "title": "Which time steps are written", "statement": "Serial and threaded output write exactly the time steps whose position in the run is a multiple of the output frequency, each once and in order; in particular the last time step is written only when its position is a multiple of the frequency (the 'or if it is the end' test in the code can never hold).", "quantifier": "all run lengths, all frequencies >= 1", "why_tests_cant": "all lengths and frequencies", "anchors": ["smrf/framework/model_framework.py: output", "smrf/utils/queue.py: QueueOutput.run"]}
{"id": "C08", "title": "A threaded run with output frequency above 1 stalls", "statement": "With output frequency f > 1 and more than one time step, no schedule of the threaded run lets the cleaner get past the second time step, so a bounded run of more than maxsize+1 steps never finishes (without time-outs).", "quantifier": "all schedules, all f > 1, all run lengths > 1", "why_tests_cant": "a non-termination claim over all schedules", "anchors": ["smrf/utils/queue.py: QueueOutput.run, QueueCleaner.run"]}
{"id": "C09", "title": "netCDF output keeps one record per time and the latest data wins", "statement": "After any sequence of output calls, including re-runs into an existing file, the file has exactly one record per time as the file's single precision time variable can show it, in order of first output, and the record holds the data of the latest call for that time. For dates in whole minutes less than 131072 hours (about 15 years) from the file's reference date this is one record per date, and the time shown is within half a minute of the date; beyond that, one minute can overwrite another. With numpy 2, which compares the times in double precision, the same holds for dates in quarters of an hour, while any other minute is appended again on every call.", "quantifier": "all sequences of output calls and re-runs, all dates in whole minutes in the range", "why_tests_cant": "unbounded histories, and rounding that differs for every date", "anchors": ["smrf/output/output_netcdf.py: OutputNetcdf.output, __init__"]}
{"id": "C10", "title": "Station storm tracking yields ordered, separated storms that cover exactly the wet steps", "statement": "For every precipitation table, tracking_by_station returns storms in time order whose [start,end] row intervals are disjoint; every row whose maximum exceeds the mass threshold lies in exactly one storm; every storm starts on such a row; a storm is closed exactly when steps_thresh consecutive non-wet rows follow its last wet row, and those trailing dry rows belong to the storm.", "quantifier": "all tables (any number of rows and stations), all thresholds >= 1", "why_tests_cant": "unbounded tables", "anchors": ["smrf/envphys/storms.py: tracking_by_station"]}
{"id": "C100", "title": "Starting a run again from the storm days of an earlier run", "statement": "In the runs of C99, with the storm days of every step written: a run started again at any date of the first run but its first, with storm_days_restart naming that file, completes, and has the precipitation, percent snow and density of the first run at every step, and its days since the last storm in every cell whose storm total was below the mass threshold, or missing, just before. Refuted: it has the same days everywhere (the storm totals start at 0 again). A run that starts at a date the file does not have starts with 0 days everywhere, and one that starts at the file's first date with the days of its last record. Refuted: a run that starts where the earlier one ended goes on from its storm days.", "quantifier": "all input records, first runs, start dates and later steps, with the parameters of C99", "why_tests_cant": "all cut points and all histories before and after them", "anchors": ["smrf/distribute/precipitation.py: ppt.initialize, ppt.distribute_for_susong1999", "smrf/envphys/storms.py: time_since_storm"]}
{"id": "C11", "title": "Storm totals are the sum of the wet rows of the storm", "statement": "The per-station total reported for a storm equals the sum over the rows of that storm whose maximum exceeds the threshold of that station's precipitation.", "quantifier": "all tables, stations and thresholds", "why_tests_cant": "unbounded tables", "anchors": ["smrf/envphys/storms.py: tracking_by_station"]}
{"id": "C12", "title": "Clipping conserves each station's mass and removes inter-storm precipitation", "statement": "clip_and_correct returns zero at every row outside all storms for every station it corrects; inside storms every value is the original scaled by one per-station factor; for every station whose in-storm precipitation does not sum to zero the corrected column sums to the original column sum; for non-negative data a station with no in-storm precipitation gets zero everywhere (its mass is lost). Stations left out of the optional station list become missing everywhere.", "quantifier": "all tables, all storm lists", "why_tests_cant": "unbounded tables", "anchors": ["smrf/envphys/storms.py: clip_and_correct"]}
{"id": "C13", "title": "Basin storm tracking is an incremental version of the same storm definition", "statement": "Feeding tracking_by_basin one step at a time from the initial state yields after every prefix an ordered, disjoint storm list in which each storm starts and ends on a wet step, every wet step lies in a storm, consecutive storms are separated by at least steps_thresh dry steps and no storm contains steps_thresh consecutive dry steps.", "quantifier": "all sequences of basin precipitation", "why_tests_cant": "unbounded sequences", "anchors": ["smrf/envphys/storms.py: tracking_by_basin"]}
{"id": "C14", "title": "Days since storm per pixel", "statement": "time_since_storm_pixel adds the time step to every pixel and then resets to zero exactly the pixels with precip >= mass and percent snow >= threshold, and only if storming and the coldest pixel is below 2 C; iterating from zero the counter always equals time_step times the number of steps since the pixel's last reset.", "quantifier": "all grids and all step sequences", "why_tests_cant": "unbounded histories", "anchors": ["smrf/envphys/storms.py: time_since_storm_pixel"]}
{"id": "C15", "title": "time_since_storm counts calls and does not accumulate storm mass", "statement": "time_since_storm adds 1 per call whatever time_step is, and a snowing pixel's storm precipitation becomes the precipitation of that call only (earlier precipitation is overwritten), so the counter is reset exactly at pixels whose current recorded precipitation reaches the mass threshold; a storm delivering any number of sub-threshold steps never resets the counter.", "quantifier": "all grids and all call histories", "why_tests_cant": "unbounded histories", "anchors": ["smrf/envphys/storms.py: time_since_storm"]}
{"id": "C16", "title": "Percent snow is between 0 and 1 and never increases with temperature", "statement": "calc_percent_snow returns values in [0,1] for every temperature and every t_max >= 0, equals 1 at or below -0.5 C and 0 above t_max+1, is 0.75 at 0 C and is non-increasing and continuous in temperature.", "quantifier": "all real temperatures", "why_tests_cant": "continuum of inputs", "anchors": ["smrf/envphys/nasde_model/utils.py: calc_percent_snow"]}
{"id": "C17", "title": "The Susong 1999 table assigns exactly one density/percent pair to every temperature", "statement": "Every real temperature falls in exactly one row of the table, so a wet pixel gets exactly that row's percent snow and density, a dry pixel gets zero for both, and percent snow is non-increasing in temperature.", "quantifier": "all real temperatures and precipitation grids", "why_tests_cant": "continuum of inputs", "anchors": ["smrf/envphys/nasde_model/susong_1999.py"]}
{"id": "C18", "title": "New snow density of the piecewise and Marks 2017 models", "statement": "The piecewise density depends on temperature only through clamping at t_min, equals 50+1.7(t_min+15) below t_min, never decreases with temperature and has no upper bound because the temperature is not capped above; Marks2017 returns density 0 where no snow falls and, where it falls, the uncompacted density increased by overburden and metamorphism, strictly more than the uncompacted density and increasing with the storm total; the precipitation density never exceeds 1000 kg/m3.", "quantifier": "all temperatures, precipitation grids and thresholds t_min < t_max, t_min >= -14", "why_tests_cant": "continuum of inputs", "anchors": ["smrf/envphys/nasde_model/piecewise_suosong_1999.py", "smrf/envphys/nasde_model/marks_2017.py"]}
{"id": "C19", "title": "Marks2017 auxiliary outputs are overwritten by aliasing", "statement": "Whenever any pixel has snow, the returned d_rho_c, d_rho_m and zs arrays are identical to each other and hold the final (proportional) snow density, and rho_ns equals rho_s, because the arrays are one object; rho_s, rho, swe and pcs are unaffected.", "quantifier": "all inputs", "why_tests_cant": "needs all inputs; existing tests only look at rho_s and pcs", "anchors": ["smrf/envphys/nasde_model/marks_2017.py: Marks2017.run"]}
{"id": "C20", "title": "set_min_max clamps and keeps missing values missing", "statement": "For min <= max every non-NaN output lies in [min,max], every value already inside is unchanged, NaN stays NaN at exactly the same positions, and applying it twice equals applying it once; None bounds do not constrain.", "quantifier": "all arrays and bounds", "why_tests_cant": "all arrays", "anchors": ["smrf/utils/utils.py: set_min_max"]}
{"id": "C21", "title": "Calendar helpers agree with the Gregorian calendar", "statement": "is_leap_year and leapyear agree on every year; yearday is strictly increasing over the dates of a year, maps onto 1..365/366, and numdays gives the lengths of the months it sums.", "quantifier": "all years and dates", "why_tests_cant": "all years", "anchors": ["smrf/envphys/sunang.py: yearday, numdays, leapyear", "smrf/utils/utils.py: is_leap_year"]}
{"id": "C22", "title": "Water day", "statement": "water_day returns the day count since the preceding October 1 00:00, 0 <= dd < 366, and the water year, for every UTC date; dd increases by 1 per day and restarts at 0 on October 1.", "quantifier": "all UTC date-times", "why_tests_cant": "all dates", "anchors": ["smrf/utils/utils.py: water_day"]}
{"id": "C23", "title": "The sun in the sky of a place", "statement": "sunpath answers exactly when latitudes are within 360, longitudes within 180, the declination within 23.6 and the sun's longitude within 180 degrees, and raises ValueError otherwise. Its answer is where the sun stands in the sky of the place: the cosine of the zenith angle lies in [-1,1] and is the product of the directions of sun and zenith, the azimuth is counted from south, positive toward east, in [-180,180), and the two determine the sun's direction and are the only ones that do. sunang answers for every place and every second of the years 1900 to 2500 (unless the mean anomaly is exactly zero). Refuted: latitudes beyond 90 degrees are rejected (120 is taken for 60).", "quantifier": "all latitudes, longitudes, declinations and hour angles; all seconds of six centuries", "why_tests_cant": "continuum of angles; a sign or quadrant error shows only for some", "anchors": ["smrf/envphys/sunang.py: sunang, sunpath, rotate"]}
{"id": "C24", "title": "The LU solver solves the system when the right-hand side is non-negative", "statement": "lusolv reports failure exactly when the matrix is singular (some right-hand side has no solution or more than one), whatever the right-hand side; otherwise, with exact arithmetic and a non-negative right-hand side, the returned vector is the only solution of the original system. With a right-hand side that has a negative entry the returned vector can be wrong.", "quantifier": "all n, all rational matrices and right-hand sides", "why_tests_cant": "all sizes", "anchors": ["smrf/spatial/dk/lusolv.c: lusolv, ludcmp, lubksb"]}
{"id": "C25", "title": "Kriging weights sum to one and are non-negative when stations are above sea level", "statement": "For every station layout on which krige returns, the weights sum to 1, discarded stations have weight exactly 0, the remaining weights solve the ordinary kriging system of the remaining stations, and if all elevations are positive no weight is negative; stations at or below elevation 0 can keep negative weights. krige performs at most nsta+1 solves.", "quantifier": "all station counts and layouts", "why_tests_cant": "all sizes", "anchors": ["smrf/spatial/dk/krige.c: krige"]}
{"id": "C26", "title": "Detrended kriging always uses weights for the current set of reporting stations", "statement": "After any sequence of calculate calls on one DK object, the weights used for a call are those computed for exactly the stations reporting (non-NaN) in that call.", "quantifier": "all call histories", "why_tests_cant": "cache coherence over unbounded histories", "anchors": ["smrf/spatial/dk/dk.py: DK.calculate"]}
{"id": "C27", "title": "Inverse distance weighting stays within the data and ignores missing stations", "statement": "At a grid cell not coincident with any reporting station, and with a positive power, the IDW value is the mean of the reporting values weighted by inverse distance; it lies between the smallest and largest reporting value (so constant data is reproduced). Stations reporting NaN have no influence, wherever they are; with none reporting the field is NaN. At a cell that coincides with a reporting station the result is NaN (0 if the reading there is 0), not the station's value.", "quantifier": "all station sets, data and cells", "why_tests_cant": "all sizes", "anchors": ["smrf/spatial/idw.py: IDW.calculateDistances, calculateWeights, calculateIDW"]}
{"id": "C28", "title": "Detrending is exact and the trend has the requested sign", "statement": "The elevation trend used is the least-squares line through the reporting stations, or exactly zero when its slope has the forbidden sign; with any interpolation that reproduces station values the detrend-interpolate-retrend pipeline reproduces every station's value at its location and elevation, and for data that is exactly linear in elevation (allowed sign) the result is that line everywhere.", "quantifier": "all station sets and data", "why_tests_cant": "all sizes", "anchors": ["smrf/spatial/idw.py: detrendData, retrendData, detrendedIDW", "smrf/spatial/grid.py: detrendedInterpolationMask", "smrf/spatial/dk/dk.py: detrendData, retrendData"]}
{"id": "C29", "title": "Dew point stays below air temperature", "statement": "After the vapour pressure distribution of a cell with known air temperature, the pressure is limited to the configured range and the dew point is strictly below the air temperature: the dew point of the limited pressure where that is below, exactly 0.2 below the air temperature otherwise. The precipitation temperature is that dew point, or the wet bulb of air temperature and that dew point. A missing air temperature leaves the dew point as found. For every limited pressure in (0, sea level] the distribution ends.", "quantifier": "all pressures, air temperatures, limits, elevations and tolerances", "why_tests_cant": "all grids", "anchors": ["smrf/distribute/vapor_pressure.py: vp.distribute"]}
{"id": "C30", "title": "The horizon scan finds the steepest upwind slope", "statement": "The horizon scan always ends with the slope to one of the later points; for points on a ray and zero instrument height it is the steepest of all. With an instrument height, or along a line that is not a ray, it need not be the steepest. With a positive instrument height every cell gets a value above -89 and at most 90 degrees.", "quantifier": "all profiles", "why_tests_cant": "all lengths", "anchors": ["smrf/utils/wind/calc_wind.c: hord", "smrf/utils/wind/model.py: hord"]}
{"id": "C31", "title": "The search line is a connected 8-neighbour path that ends at the target and stays in the table", "statement": "find_line returns, in order, the cells of the straight line (each within half a cell of it and a neighbour of the one before), from the start to the end, at most 500 of them, stopping early only beyond the border; the elevations then used are exactly those of the line's cells inside the domain (no uninitialised entry). Every cell searches along the same vector. Differences beyond what a 16 bit short holds break the line.", "quantifier": "all start/end cells and grid sizes", "why_tests_cant": "all cells", "anchors": ["smrf/utils/wind/breshen.c", "smrf/utils/wind/calc_wind.c: find_line, calc_maxus"]}
{"id": "C32", "title": "Wind directions are binned to the nearest maxus direction", "statement": "The azimuth recovered from components proportional to (sin d, cos d) is d modulo 360, in [0,360); with an evenly spaced library of maxus directions starting at north, the direction used in a cell is the library's nearest, within half a step around the circle, and is always found. With a library whose spacing does not divide 360, or a cell without a direction, the step ends with an IndexError.", "quantifier": "all azimuths, all n >= 1", "why_tests_cant": "continuum", "anchors": ["smrf/distribute/wind/winstral.py: simulateWind"]}
{"id": "C33", "title": "Simulated wind is defined and positive except at four exact maxus values", "statement": "In every cell the simulated wind is the flat wind multiplied (negative maxus) or divided (positive) by Winstral's factor of the vegetation-corrected maxus limited to +-32, zero at the four uncovered maxus values and where maxus is missing; measured pixels take the positional speeds; undefined cells take values interpolated by row number; the result is inside the configured limits. A wrong number of speeds is refused. More shelter means less wind inside each of the polynomial's ranges, not across their border.", "quantifier": "all maxus values", "why_tests_cant": "continuum", "anchors": ["smrf/distribute/wind/winstral.py: simulateWind"]}
{"id": "C34", "title": "Station wind adjustment with a peak list uses the previous station's maxus", "statement": "Without a peak list the flat wind at a station is its speed divided or multiplied by the factor of its own maxus in its own wind direction limited to +-35; listed peaks use the least maxus of all directions plus the enhancement; with a peak list a station that is not listed reuses the value left by the station before it (or the step fails if there is none). Otherwise the step completes when every station has a column of speeds and of directions and, without a peak list, the maxus library has the rounded directions; without one of them the step fails. Reducing and re-simulating at the same maxus gives back the speed up to the fixed 5 m scaling.", "quantifier": "all station lists and peak lists", "why_tests_cant": "all lists", "anchors": ["smrf/distribute/wind/winstral.py: stationMaxus"]}
{"id": "C35", "title": "Undercatch adjustment never reduces precipitation except at near-calm wind", "statement": "Each station keeps its place; without wind or temperature its precipitation is unchanged, otherwise it is divided by the catch ratio of its own (else the default) gauge for its wind limited to 6 m/s and its phase (snow below -0.5 C). The ratio is always positive, at least 0.4/0.6732 (shielded snow/rain) or 0.205/0.5073 (unshielded), and at most 1 once the wind reaches 0.3, 0.185, 0.07 or 0.0924 m/s; in calm air it exceeds 1, so that precipitation is reduced. Unknown gauges are refused.", "quantifier": "all wind speeds, temperatures, gauges", "why_tests_cant": "continuum", "anchors": ["smrf/envphys/precip.py: catchment_ratios, adjust_for_undercatch"]}
{"id": "C36", "title": "Wind redistribution of precipitation is bounded and leaves warm cells alone", "statement": "In every cell the redistributed precipitation is precip times a factor between the configured drift limits (drift cells) or scour limits (other cold cells), and exactly precip where the precipitation temperature is at or above 0.5 C; pine cells get the factor 1 (clamped). Cold cells without data get zero. As configured the step never succeeds once any dew point is below 0.5 C: it reads an option under a name no configuration has, and takes the vegetation class from the wrong part of an option's name.", "quantifier": "all grids", "why_tests_cant": "continuum", "anchors": ["smrf/envphys/precip.py: dist_precip_wind"]}
{"id": "C37", "title": "Cloud adjustment of solar radiation conserves the sign and the total", "statement": "Under clouds the global radiation of a cell is the clear-sky value times the cloud factor c; all of it is diffuse for c <= 0.15, the share 1 - 1.38 (c - 0.15)^2 for c up to 0.99, and the clear-sky diffuse part times c above; the diffuse part stays between 0 and the global radiation, and missing data stay missing. The diffuse share is not monotone in cloudiness: it jumps up again above 0.99.", "quantifier": "all radiation values and cloud factors", "why_tests_cant": "continuum", "anchors": ["smrf/envphys/solar/cloud.py: cf_cloud"]}
{"id": "C38", "title": "Vegetation only reduces solar radiation", "statement": "Beam radiation below a canopy is the beam times exp(-k h / mu), with mu = 0.01 where the cell does not face the sun, and the diffuse part is multiplied by the canopy's transmissivity; both stay between 0 and the radiation above, nothing changes without vegetation, and taller vegetation never lets more through. The caller's illumination grid is changed by the call (values <= 0 become 0.01).", "quantifier": "all grids", "why_tests_cant": "continuum", "anchors": ["smrf/envphys/solar/vegetation.py"]}
{"id": "C39", "title": "Albedo follows grain growth and litter and keeps its limits", "statement": "With accepted grain sizes the two albedos of a sunlit cell are those of clean snow whose grain radius grows from the initial to the maximum size with the days since the storm: visible between 1-0.002*sqrt(dirt*max grain) and 1, infrared between 0.23 and 0.95447, both strictly falling with age at fixed illumination. The date method takes off nothing before the start, the class's maximum after the end and maximum*(elapsed/period)^power in between; the litter method is the average of snow and litter albedo by a cover that grows daily from 0. Results are limited to min and max and are zero at night. Refuted: the contamination is checked (any value passes), the albedo is never negative without limits, a zero maximum for a class is usable (it stops the run during the period).", "quantifier": "all grain sizes, contaminations, storm days, illuminations, dates, class tables, limits", "why_tests_cant": "continuum", "anchors": ["smrf/envphys/albedo.py"]}
{"id": "C40", "title": "Clear sky thermal radiation", "statement": "For temperatures above absolute zero the default clear sky radiation is that of sky and terrain at air temperature with Brutsaert's emissivity of the air moved to sea level (at most 1) times relative pressure: above zero and at most a black body at air temperature, exactly a black body without sky, no less with moister air (strictly more up to saturation where sky of emissivity below one is seen), no more with more sky. A dew point above the air temperature counts as saturation. Impossible temperatures end the process, missing data give missing radiation, and the Python version agrees wherever the compiled one returns. The other methods have emissivities in (0.66,1) and [0.65,0.83) or a value above 59.38, strictly increasing with vapour pressure.", "quantifier": "all temperatures, dew points, vapour pressures, elevations and sky views", "why_tests_cant": "ranges and monotonicity hold over continua of inputs", "anchors": ["smrf/envphys/core/topotherm.c: topotherm, brutsaert", "smrf/envphys/thermal/topotherm.py: topotherm", "smrf/envphys/thermal/clear_sky.py: Dilly1998, Prata1996, Angstrom1918"]}
{"id": "C41", "title": "Station pixel lookup finds the nearest grid line", "statement": "find_pixel_location returns a valid index whose coordinate is at minimal distance from the station, and the first such index.", "quantifier": "all coordinate vectors", "why_tests_cant": "all lengths", "anchors": ["smrf/data/input_data.py: find_pixel_location"]}
{"id": "C42", "title": "HRRR cloud factor memory", "statement": "On the first call, if any cell of the loaded cloud factor frame is missing at any time, every cell is handed on as 1 (clear sky), otherwise the last loaded row is handed on; on every later call a cell is handed on as the last number loaded for it, or as its previous value if nothing was loaded; hence no step of any run hands on a missing value.", "quantifier": "all sequences of hourly loads", "why_tests_cant": "unbounded histories", "anchors": ["smrf/data/hrrr_grib.py: check_cloud_factor"]}
{"id": "C43", "title": "Co-location check", "statement": "check_station_colocation reports exactly the groups of two or more stations sharing a pixel, each such group once, and None when there is none.", "quantifier": "all station tables", "why_tests_cant": "all sizes", "anchors": ["smrf/utils/utils.py: check_station_colocation"]}
{"id": "C44", "title": "Missing topo images silently reuse the previous image", "statement": "When an image variable is absent from the topo file, the corresponding topo attribute is assigned the data of the image read just before it; if the first image is absent loading fails.", "quantifier": "all subsets of missing images", "why_tests_cant": "all subsets", "anchors": ["smrf/data/load_topo.py: Topo.readImages"]}
{"id": "C45", "title": "Precipitation is skipped for station data when undercatch adjustment is off", "statement": "With a non-grid distribution, a density model other than marks2017 and undercatch adjustment off, distribute never distributes precipitation: precip, percent snow, density and storm days keep their previous values for every input (apart from wind redistribution, when configured, which is then applied again to the old precipitation); in all other configurations exactly one of the two density pipelines runs.", "quantifier": "all configurations and inputs", "why_tests_cant": "all configurations", "anchors": ["smrf/distribute/precipitation.py: ppt.distribute"]}
{"id": "C46", "title": "Storm-days restart uses the record before the start date, wrapping at the first record", "statement": "If the restart file's time axis contains the start date at index i > 0 the run starts from record i-1; at index 0 it starts from the last record of the file; if the start date is absent it starts from zeros.", "quantifier": "all time axes", "why_tests_cant": "all lengths", "anchors": ["smrf/distribute/precipitation.py: ppt.initialize"]}
{"id": "C47", "title": "Station filtering", "statement": "After loading, each variable's table keeps exactly the columns that are in its module's station list, in the table's own order, and the module's list becomes the intersection; for wind the direction table additionally drops stations missing from the speed table.", "quantifier": "all tables and station lists", "why_tests_cant": "all sizes", "anchors": ["smrf/framework/model_framework.py: loadData"]}
{"id": "C48", "title": "Configured station lists are discarded when a module is created", "statement": "Whatever station list is configured for a variable, the module starts with no station list (sorting returns nothing), so every loaded station is used, and the configured list is sorted in place.", "quantifier": "all station lists", "why_tests_cant": "all lists", "anchors": ["smrf/distribute/image_data.py: getStations"]}
{"id": "C49", "title": "Output variables without a queue are never written in a threaded run", "statement": "In a threaded run exactly the requested output variables that exist and have a queue are written; last_storm_day and soil_temp, flatwind unless the Winstral wind model is used, and thermal_cloud/thermal_veg when their correction is off, never are.", "quantifier": "all requested variable sets", "why_tests_cant": "all sets", "anchors": ["smrf/utils/queue.py: QueueOutput.run", "smrf/framework/model_framework.py: set_queue_variables", "smrf/distribute/soil_temp.py"]}
{"id": "C50", "title": "Storm days put on the queue can be changed before they are read", "statement": "The precipitation thread puts a reference to one storm_days array on the queue at every date and goes on changing that array in place. In every schedule, what the albedo or output thread sees of it for the date with index i is the array of the serial run after some number m > i of whole dates and possibly some of the statements of the next one; with queue capacity k > 0 the date whose statements are visible is at most i + k - 1. With capacity 1 everybody therefore sees exactly the serial value. For every n that fits in the queues there is a schedule in which albedo sees for the first date the array of the n-th one, so with the default capacity 2 the threaded run need not agree with the serial one. Values of all other threads than albedo, solar and output are those of the serial run in any case, and the run never gets stuck.", "quantifier": "all schedules, queue sizes, computations and configurations with every queue filled", "why_tests_cant": "a race; tests see one schedule", "anchors": ["smrf/distribute/precipitation.py: distribute_thread, distribute_for_susong1999, distribute_for_marks2017", "smrf/envphys/storms.py: time_since_storm, time_since_storm_pixel", "smrf/distribute/albedo.py: distribute_thread", "smrf/utils/queue.py: QueueOutput"]}
{"id": "C51", "title": "The dew point solver converges and finds the dew point", "statement": "For any function with a sign change over an interval in [0,1000] the zero finder answers within its own allowance of iterations, inside the interval, with a small value there or a sign change within twice the tolerance; it never reports failure. Each step goes to the zero of the line or inverse parabola through the last values if that is near enough, otherwise to the middle. For every vapour pressure in (0, sea level] the dew point search ends, and its answer to single precision is the dew point within twice the tolerance (everything colder saturates lower, everything warmer higher) or saturates within half the tolerance of the pressure. Refuted: pressures at or below zero give an answer (the search never ends), a missing pressure gives a missing dew point (it gives about -273.16), the dew point of a measured dew point's pressure is that dew point (it is 0.01 lower).", "quantifier": "all functions (continuous or not), intervals, pressures and tolerances in [1e-9,1]", "why_tests_cant": "the convergence bound must hold for every function and interval; tests sample a few pressures", "anchors": ["smrf/envphys/core/dewpt.c: zerobr, dew_pointp, dewpt"]}
{"id": "C52", "title": "Grid interpolation weights", "statement": "grid_interpolate returns at a point inside the triangulation the weighted sum of its three vertices, between their minimum and maximum, and the fill value where any weight is negative; the weights of interp_weights sum to one and reproduce every field that is affine in the coordinates exactly.", "quantifier": "all grids", "why_tests_cant": "all sizes", "anchors": ["smrf/utils/utils.py: grid_interpolate"]}
{"id": "C53", "title": "Gridded precipitation from accumulated totals", "statement": "The WRF precipitation series is the first difference of the accumulated rain with the first row zero, so its running sum equals accumulated minus the first accumulated value.", "quantifier": "all series", "why_tests_cant": "all lengths", "anchors": ["smrf/data/wrf.py"]}
{"id": "C54", "title": "A time-out given to one get becomes permanent", "statement": "A timeout passed to any get call replaces the queue's own time-out for every later get and put of that queue until another get passes a different one; consequently a later blocking put on a full queue can end its thread although the queue was created without time-out. A timeout passed to put is ignored.", "quantifier": "all histories of calls", "why_tests_cant": "needs all histories", "anchors": ["smrf/utils/queue.py: DateQueueThreading.get, put"]}
{"id": "C55", "title": "Turning a solar correction off stalls every threaded run", "statement": "With solar cloud correction or vegetation correction turned off, the threaded run creates queues that nobody fills; under every schedule the cleaner never removes any time step, no module gets past time step queue_max_values + 1 and the run never finishes (without time-outs).", "quantifier": "all schedules, all runs with at least one date, all queue sizes, all dict orders, all module computations", "why_tests_cant": "A hang is only observed for one schedule and one time limit; the claim is about all schedules.", "anchors": ["smrf/distribute/solar.py:Solar.distribute_thread", "smrf/distribute/solar.py:183-209", "smrf/utils/queue.py:QueueCleaner.run", "smrf/framework/model_framework.py:set_queue_variables"]}
{"id": "C56", "title": "Susong storm days mix two units", "statement": "Over any sequence of time steps in which no single step reaches the storm mass threshold at a pixel, the susong1999 run increases that pixel's storm days by one whole day per wet time step (whatever the time step is) and by time_step/1440 days per dry one.", "quantifier": "all sequences of wet and dry steps, all grids, all time steps", "why_tests_cant": "must hold for every precipitation history; unit tests only exercise a handful of tables", "anchors": ["smrf/distribute/precipitation.py: distribute_for_susong1999", "smrf/envphys/storms.py: time_since_storm"]}
{"id": "C57", "title": "The snow models modify their temperature argument, the public entry point does not", "statement": "Calling Marks2017.run directly replaces temperatures below -10 C by -10 in the caller's own array whenever any pixel is wet; Snow.phase_and_density copies its arguments, so for every model the caller's arrays are unchanged, and an unknown model name is rejected.", "quantifier": "all grids, all models", "why_tests_cant": "quantifies over every temperature and precipitation grid; tests sample a few grids", "anchors": ["smrf/envphys/snow.py: phase_and_density", "smrf/envphys/nasde_model/utils.py: check_temperature"]}
{"id": "C58", "title": "The solar ephemeris' day count", "statement": "The day number the solar ephemeris computes from a date counts real days from 1900-01-01 for every date from 1900 to 2100, and is one too large for every date from 2101 to 2200.", "quantifier": "all dates from 1900 to 2200", "why_tests_cant": "109575 dates; the error only shows after a century year that is not a leap year", "anchors": ["smrf/envphys/sunang.py:ephemeris", "smrf/envphys/sunang.py:yearday"]}
{"id": "C59", "title": "An interrupted run can be repeated", "statement": "Whatever point of its output a run is killed at (between two output calls, or between writing the time and the data of a call), repeating the whole run into the same files leaves exactly the records that the uninterrupted run would have left. With numpy 2 this needs output times that the file can represent exactly; with other times repeating a run doubles its records.", "quantifier": "all existing files, all sequences of output calls, all crash points", "why_tests_cant": "the number of crash points grows with the run and the files' earlier content is arbitrary", "anchors": ["smrf/output/output_netcdf.py:OutputNetcdf.output", "smrf/output/output_netcdf.py:OutputNetcdf.__init__"]}
{"id": "C60", "title": "The serial run dies on output variables whose attribute does not exist", "statement": "A serial run raises at the first output step at which a requested variable was never assigned: flatwind with the Winstral or WindNinja model, cloud or vegetation radiation with the correction off and no night so far, thermal_cloud or thermal_veg with the correction off; the variables before it are written for that step and nothing later is.", "quantifier": "all configurations, run lengths, frequencies, sun-up patterns and variable lists", "why_tests_cant": "depends on the history of day and night and on the order of the requested variables", "anchors": ["smrf/framework/model_framework.py:SMRF.output", "smrf/distribute/wind/wind.py:Wind.__init__", "smrf/distribute/solar.py:Solar.distribute", "smrf/distribute/thermal.py:th.distribute"]}
{"id": "C61", "title": "Two reporting stations at the same place end the whole process", "statement": "If two reporting stations have the same distances to all stations (are at the same place), computing kriging weights for any cell ends the process through exit(0): no exception, exit status success, no further output.", "quantifier": "all station counts, layouts, elevations and cells", "why_tests_cant": "all sizes; a process exit cannot be caught by a unit test of the Python code", "anchors": ["smrf/spatial/dk/krige.c: krige", "smrf/spatial/dk/lusolv.c: ludcmp"]}
{"id": "C62", "title": "Detrended kriging is exact at the stations", "statement": "A grid cell at the position and elevation of a reporting station gets exactly that station's value, after any history of calls, whenever weights are returned.", "quantifier": "all station counts, layouts, data, trends and call histories", "why_tests_cant": "all sizes and histories", "anchors": ["smrf/spatial/dk/krige.c: krige", "smrf/spatial/dk/dk.py: DK.calculate"]}
{"id": "C63", "title": "The stations option of a variable selects its stations", "statement": "With a stations list configured for a variable, that variable is distributed from these stations. (False: the list is sorted in place and the variable uses every station of the metadata.)", "quantifier": "all station lists and metadata", "why_tests_cant": "the wrong result is a valid field computed from more stations", "anchors": ["smrf/distribute/image_data.py: image_data.getStations, image_data._initialize"]}
{"id": "C64", "title": "The third-party kriging honours the slope constraint", "statement": "With detrend_slope configured the kriged field uses an elevation trend of that sign only. (False: the trend is never constrained; readings exactly linear in elevation with any slope give that line whatever the option says.)", "quantifier": "all station sets, data, cells and slope settings", "why_tests_cant": "the wrong result is a plausible field", "anchors": ["smrf/spatial/kriging.py: KRIGE.calculate, KRIGE.detrendData"]}
{"id": "C65", "title": "Windowed maxus is the mean over the directions around the wind direction", "statement": "With half the window width a multiple of the direction spacing, the windowed value is the mean over the directions at most that far around the circle, except that direction 0 is left out when reached through 360; with any other width every value is NaN.", "quantifier": "all spacings dividing 360, all widths and directions", "why_tests_cant": "all spacings and widths; the wrong mean is a plausible value", "anchors": ["smrf/utils/wind/model.py: wind_model.windower, wind_model.ismember"]}
{"id": "C66", "title": "Measured precipitation reaches the distribution at every step", "statement": "In gridded runs, with the marks2017 density model, or with undercatch adjustment, each step distributes exactly once, from the series that belongs to the configuration. With station data, another density model and no undercatch adjustment no step of any run changes the precipitation.", "quantifier": "all configurations, models, data and numbers of steps", "why_tests_cant": "all configurations and histories; a run without precipitation looks like a dry one", "anchors": ["smrf/distribute/precipitation.py: ppt.distribute"]}
{"id": "C67", "title": "Measured wind speeds end up in the pixels of their own stations", "statement": "When the speeds come in the order of the station metadata, the pixel of every station holds the (limited) speed measured there; in another column order stations are exchanged.", "quantifier": "all numbers and orders of stations", "why_tests_cant": "all orders of columns; a wrong order gives plausible speeds", "anchors": ["smrf/distribute/wind/winstral.py: WinstralWindModel.simulateWind", "smrf/data/csv.py"]}
{"id": "C68", "title": "Net solar radiation of a cell", "statement": "By day every cell's net radiation is the cloud- and canopy-corrected radiation of the two bands times one minus the band's albedo, limited to the configured interval band by band and in sum; at night there is none. The clear-sky radiation combines sky, terrain reflection and the beam where the horizon does not hide the sun. Because the terrain step already returns the global radiation as its first result, the diffuse part is counted twice and more than (1 - albedo) of the incoming radiation is absorbed.", "quantifier": "all grids, cells, radiation values, albedos, cloud factors, canopies, limits and option settings", "why_tests_cant": "all inputs and settings; a double counted share looks like plausible radiation", "anchors": ["smrf/distribute/solar.py: Solar.distribute, Solar.calc_net, Solar.veg_correct, Solar.cloud_correct", "smrf/envphys/solar/toporad.py: stoporad, toporad"]}
{"id": "C69", "title": "Clear-sky beam and diffuse radiation solve the two-stream equations and grow with elevation", "statement": "For every sun above the horizon, optical depth, single-scattering albedo up to 1, asymmetry and substrate, the beam is the solar irradiance times exp(-t/mu) for the cell's own optical depth t and the diffuse radiation is the downward flux of a solution of the two-stream differential equations with nothing diffuse from above and the given reflectance below; the optical depth equals the configured one at the reference elevation and does not grow with elevation, so a higher cell never gets less beam; the beam is never more than the irradiance, nothing arrives without sun, the ordering check on the coefficients never fails, the coefficients are those of Meador and Weaver's hybrid approximation (for an asymmetry of exactly 1 those of an atmosphere that absorbs nothing, whatever the albedo), above an optically infinite cell the reflectance is that of the solution that dies out with depth, and the backscatter coefficient is the Legendre series up to its first negligible term. In a grid, one optically infinite cell blackens the rows numbered like its row and its column, or ends the run: in particular the documented optical depth 0 fails on grids wider than high.", "quantifier": "all suns, atmospheres, elevations up to 44.3 km and grids", "why_tests_cant": "a continuum of inputs and a differential equation; the grid error needs a rare optical depth", "anchors": ["smrf/envphys/solar/twostream.py: twostream, mwgamma, beta_0", "smrf/envphys/solar/toporad.py: Elevrad.calculate", "smrf/envphys/thermal/topotherm.py: hysat"]}
{"id": "C70", "title": "Cloud factor of gridded runs", "statement": "At every pixel and step the cloud factor is the ratio of modelled to clear-sky radiation when the latter is at least 50 W/m2, linearly interpolated in time over the steps without, kept after the last one, and limited to [0,1]; a run that starts at night has no cloud factor until the first daylight step.", "quantifier": "all series of radiation of any length", "why_tests_cant": "all series and positions of gaps", "anchors": ["smrf/envphys/solar/cloud.py: get_hrrr_cloud"]}
{"id": "C71", "title": "Wind of gridded runs: speed and direction", "statement": "The speed is the length of the wind vector. The direction given to the wind model is in [0,360), but it is the mathematical angle of the vector, 270 - d for a wind coming from compass direction d, so it equals the direction the wind comes from only for d = 135 and d = 315; station data carry the direction the wind comes from.", "quantifier": "all wind vectors", "why_tests_cant": "all directions; agreement at two of them hides the error", "anchors": ["smrf/data/hrrr_grib.py: InputGribHRRR.calculate_wind", "smrf/data/wrf.py"]}
{"id": "C72", "title": "Saturation vapour pressure is the Goff-Gratch formula and increases with temperature", "statement": "The compiled and the Python saturation functions agree on every temperature above absolute zero, compute the Goff-Gratch formulas over ice (to 273.16 K) and water, are strictly increasing up to 1300 K including across freezing, where they jump up, and are 610.71 Pa at freezing and 101324.6 Pa at 373.15 K. At or below absolute zero the compiled one ends the process; the Python one gives NaN below and 0 at zero.", "quantifier": "all temperatures", "why_tests_cant": "monotonicity over a continuum of temperatures cannot be sampled", "anchors": ["smrf/envphys/vapor_pressure.py: satw, sati", "smrf/envphys/core/topotherm.c: sati, satw"]}
{"id": "C73", "title": "Vapour pressure from relative humidity and from dew point", "statement": "Relative humidity times saturation pressure gives the vapour pressure in every cell, read as percent for the whole grid when the first cell is at least 1 and as a fraction otherwise; missing data give missing pressures. Refuted: a grid in percent is always read in percent (a dry or missing first cell makes all others a hundred times too wet).", "quantifier": "all grids", "why_tests_cant": "the unit decision depends on the content of the first cell of any grid", "anchors": ["smrf/envphys/vapor_pressure.py: rh2vp, satvp"]}
{"id": "C74", "title": "Wet bulb temperature solves the psychrometer equation", "statement": "With a tolerance below one degree the wet bulb temperature is what Newton's iteration for the psychrometer equation at the standard pressure of the elevation reaches from the air temperature, in at most ten steps, each but the last falling by more than the tolerance; otherwise the process ends. Ten steps are enough for air from -30 to 50 degrees C, a dew point at most 20 degrees lower and a tolerance of at least 0.01. For air up to 50 degrees and elevations up to 8850 m the answer lies strictly between dew point and air temperature, provided these are at least 0.08 degrees apart when freezing lies between them. Saturated air has its own temperature as wet bulb; missing data give missing results; temperatures at or below absolute zero end the process. Refuted: the result is not below the dew point in every case (a dew point and an air temperature just on both sides of freezing), and it is a wet bulb for every tolerance (from 1 degree up it is the air temperature).", "quantifier": "all air temperatures, dew points, elevations and tolerances", "why_tests_cant": "the iteration must be right for every humidity and elevation", "anchors": ["smrf/envphys/core/iwbt.c: wetbulb, iwbt"]}
{"id": "C75", "title": "Thermal radiation stages: clouds, canopy, limits", "statement": "The distributed thermal radiation is clear sky radiation corrected for clouds, then for canopy higher than 2 m, then limited, and each stage's output is the value before the next. Unsworth's and Crawford's corrections leave a clear sky alone and stay between clear sky and black body, Garen's factor falls from 1.485 to 0.997; with the default clear sky and a mixing correction no stage exceeds a black body. Refuted: Garen's correction leaves a clear sky alone (0.997), Kimball's depends on the clouds, the terrain of the other clear sky methods radiates at its Kelvin temperature (it uses Celsius, so terrain at freezing gives nothing), and the default method works without terrain correction (ValueError).", "quantifier": "all configurations and inputs", "why_tests_cant": "all combinations of methods and values", "anchors": ["smrf/distribute/thermal.py: th.distribute", "smrf/envphys/thermal/cloud.py", "smrf/envphys/thermal/vegetation.py: thermal_correct_canopy"]}
{"id": "C76", "title": "The solar ephemeris is the almanac's", "statement": "At every second of the years 1900 to 2100 (except isolated instants) the ephemeris returns the sun's place by the almanac's series: distance and true anomaly are those of the point of the ellipse whose eccentric anomaly solves Kepler's equation to 1.5e-8, right ascension and declination are those of the point of the ecliptic at the apparent longitude, and the longitude above which the sun stands moves west by the time of day and the equation of time. Declination stays within 23.456 degrees and longitude within 180, so sunpath accepts them. The loop for Kepler's equation ends within four rounds. Dates that do not exist fail an assertion. Refuted: from 2101 to 2200 (position of the next day), at a mean anomaly of exactly zero (ZeroDivisionError), and one perturbation's amplitude is multiplied by pi/180 once too often.", "quantifier": "all seconds from 1900 to 2200; all mean anomalies and eccentricities up to 0.0175", "why_tests_cant": "billions of instants; convergence of a loop without bound", "anchors": ["smrf/envphys/sunang.py: ephemeris, dsign, yearday"]}
{"id": "C77", "title": "Irradiance outside the atmosphere and under a clear sky", "statement": "The irradiance of a band is the spectrum's integral over the squared distance of the sun at noon of the day, whatever the time of day, within 3.6 percent of the solar constant's share; anything but two wavelengths is a ValueError. The clear sky radiation at a point is zero when the rounded cosine of the zenith angle is not positive and otherwise the two-stream transmittance times cosine times irradiance, never negative.", "quantifier": "all dates from 1900 to 2500, all times of day, points, bands and optical depths", "why_tests_cant": "continuum of inputs", "anchors": ["smrf/envphys/solar/irradiance.py: direct_solar_irradiance", "smrf/envphys/solar/model.py: model_solar"]}
{"id": "C78", "title": "The threaded run and the serial run compute the same", "statement": "With the modules' computations arbitrary, every value a thread of the threaded run puts on or takes from a queue for a date is the variable of that name after the serial run's step for that date, whatever the scheduling; and when a threaded run has finished, every module and every output file is in the state in which the serial run over the same dates leaves it. For precipitation rescaled by wind this needs that the rescaling does not distinguish the distributed wind speed from the flat wind: the serial run passes the first, the threaded run the second. Refuted without that assumption.", "quantifier": "all module implementations, configurations, date lists, schedules, capacities and orders of the queues", "why_tests_cant": "a test fixes one schedule and one data set; the claim is about all interleavings and all module implementations", "anchors": ["smrf/framework/model_framework.py: create_distribute_threads, distribute_single_timestep, output", "smrf/distribute/*.py: distribute_thread", "smrf/utils/queue.py: QueueOutput.run"]}
{"id": "C79", "title": "Wind fields from WindNinja files", "statement": "Filling the edges of a WindNinja field succeeds exactly when the gaps lie in the leftmost columns missing in the first row and the bottom rows; the columns continue the line through the first two columns with data, the rows that through the last two rows, so linear fields are continued exactly and nothing is left missing. Speeds are then scaled by the ratio of logarithmic profiles over the vegetation's roughness (height/7.39 within 0.01..1.6 m) and WindNinja's; rougher is slower. Directions are the compass directions in [0,360) of the filled unit vectors; a uniform direction is reproduced. With a fixed offset from UTC every minute has its own file. Refuted: cells with data keep it, filled speeds stay non-negative, a cell with a direction has a speed (equal resolutions leave gaps in the speed), each hour has its own file when clocks are set back.", "quantifier": "all grids, gaps, coordinates, data, roughness, heights, interpolation weights and times", "why_tests_cant": "all gap shapes and continuous data", "anchors": ["smrf/distribute/wind/wind_ninja.py: WindNinjaModel.initialize, wind_ninja_path, convert_wind_ninja, fill_data, interpx", "smrf/utils/utils.py: grid_interpolate"]}
{"id": "C80", "title": "HRRR data loaded one time step at a time", "statement": "With one row per date in the archive, the serial run gives the modules at every date the date's data with the cloud factor filled from the hour before (clear sky if the first hour has gaps). In the threaded run a get for a date returns the date's data as soon as, and only after, it was loaded, at every moment of the loading; its cloud factor is unfilled at the first date and filled anew from the second. The two agree from the first complete hour after the start on, and at the first date if it is complete. Refuted: that they agree in general, that the threaded run has no missing cloud factor, that a missing hour stops both runs, that the number of hours in memory is bounded (all dates stay on the queue).", "quantifier": "all archives, dates, cells, gaps, moments of the loading, timeouts", "why_tests_cant": "histories of gaps and schedules of the loader are unbounded", "anchors": ["smrf/data/hrrr_grib.py: InputGribHRRR.load_timestep, load_timestep_thread, check_cloud_factor", "smrf/data/input_data.py: InputData.set_variables", "smrf/framework/model_framework.py: SMRF.distribute_single_timestep, create_data_queue"]}
{"id": "C81", "title": "The dates of a run", "statement": "A run is set up exactly when the clocks of the time zone show the configured start and end once each; its dates are then the instants start, start + step, ... up to and including the end, (end - start) div step + 1 of them. With a fixed offset from UTC every start and end is accepted. Refuted: distinct wall times when clocks are set back; that every wall time can be a start.", "quantifier": "all time zones (offset functions), starts, ends, steps", "why_tests_cant": "time zones and dates are unbounded", "anchors": ["smrf/framework/model_framework.py: SMRF._setup_date_and_time", "smrf/utils/utils.py: date_range"]}
{"id": "C82", "title": "Data from CSV files", "statement": "What a module is given for a station at a date is the number of the file below the station's name (in capitals) in the line whose time the clocks show at that date, exactly for the dates of the run (both ends included) and the configured stations. Loading fails exactly when the file has a line for a time shown never or twice, or when no line or no column is left. A date without a line stops the run with a KeyError. Refuted: a file with every wall time can drive a run when clocks are set back; configured names in lower case.", "quantifier": "all files, stations, dates and time zones", "why_tests_cant": "all file contents and time zones", "anchors": ["smrf/data/csv.py: InputCSV.load", "smrf/data/input_data.py: InputData.set_variables"]}
{"id": "C83", "title": "Data from gridded files", "statement": "The stations of a netCDF file are its cells inside the box around the model domain, edges included, under distinct names with their own coordinates; the value of a cell at a date is the file's value of that cell in the record whose time, cut to a whole number, is shown at that date, missing if it is the fill value. Loading succeeds exactly when the shapes agree and every time is shown once. WRF records are those of the run if it is in UTC, otherwise loading fails; the cloud factor is 1 exactly under a clear sky and 0 exactly when all is covered. The box contains the domain when north is up; the csv section wins over the gridded one. Refuted: fractional times, mixed dimensions, turned grids.", "quantifier": "all files, coordinates, boxes, times, fill values", "why_tests_cant": "all file contents and projections", "anchors": ["smrf/data/netcdf.py: InputNetcdf.load, metadata_name_from_index", "smrf/data/wrf.py: InputWRF.get_file_times, get_metadata, load", "smrf/data/input_data.py: InputData.model_domain_grid, __determine_data_type, set_variables"]}
{"id": "C84", "title": "Means over hydrologic response units", "statement": "The HRU output appends, for every call, one row to the file of the variable with the mean over each HRU of the numbers in its cells (missing ones do not count, no number gives a missing mean), in the units asked for. The date of a row is the date of the run at the position of the call among the calls for all variables; so with one variable written at every date each row has its own date and the file starts with one header. csv output never fails; PRMS output fails with the first call beyond the number of dates. Refuted: right dates for two variables or for a frequency above 1. A run of the framework with HRU output ends with an exception at its first date without writing anything.", "quantifier": "all HRU maps, data, dates, sequences of calls", "why_tests_cant": "all maps and call sequences", "anchors": ["smrf/output/output_hru.py: output_hru.__init__, output, generate_prms_header", "smrf/framework/model_framework.py: SMRF.initializeOutput, SMRF.output"]}
{"id": "C85", "title": "The model domain", "statement": "Reading the topo file gives the images of the file, vegetation types cut to whole numbers; the numbers of rows and columns; the mean spacing of the coordinates (of a regular grid: its spacing), that of the rows without its sign; and as centre the mean of the coordinates of the cells whose mask is 1, which lies in every box that contains the basin. Reading fails exactly if the file has no UTM zone, no dem, no mask or a centre without latitude and longitude. Refuted: an image the file does not have is absent from the domain (it is the image before it in the list); the spacing of the columns is positive; the centre lies in the basin.", "quantifier": "all topo files: coordinates, sets of images, values and missing values", "why_tests_cant": "all files", "anchors": ["smrf/data/load_topo.py: Topo.readNetCDF, Topo.get_center", "smrf/data/load_topo.py: Topo.IMAGES"]}
{"id": "C86", "title": "Files of upwind slopes and topographic breaks", "statement": "Calculating upwind slopes for directions 0, inc, 2 inc ... below 360 leaves, whenever the run is stopped, a file with one record per direction already done (the slope of C30 and C31 in that direction; for breaks the slope over the separation distance minus the slope over the long distance), empty records for the others, and no other file changed. Distances that are not whole numbers of column spacings raise ValueError before any file is touched. With an instrument above the ground every break is a number of less than 179 degrees; seen from the ground along a row or column a break is never positive unless the ground nearby drops by more than 89 degrees. The windowing of an unfinished file averages over the directions of the window that were done. Refuted: with an instrument above the ground a longer search never sees less than a shorter one.", "quantifier": "all terrains, distances, directions, heights and points at which a run is stopped", "why_tests_cant": "all terrains and all points of interruption", "anchors": ["smrf/utils/wind/model.py: wind_model.maxus, wind_model.tbreak, wind_model.output_init, wind_model.output, wind_model.windower"]}
{"id": "C87", "title": "The backup of the input", "statement": "When a run has loaded its data and the backup is on, as it is by default, the directory input_backup of the output holds exactly the stations and, for the six variables, the run's values (for CSV runs those of the input files for the run's dates and the configured stations), copies of the topography's files, and a configuration that differs from the run's only in naming these files and in not making a backup again. No file outside that directory changes, even if the backup fails; it fails exactly if a variable was not loaded, and then without a new configuration, or if a file of the topography cannot be copied. Refuted: a run from the backup's configuration reads the data of the run (it never gets past loading them: the saved stations have no column primary_id, and the saved times have offsets, which the loader refuses).", "quantifier": "all tables, configurations and file systems", "why_tests_cant": "all configurations, all contents of files", "anchors": ["smrf/utils/utils.py: backup_input", "smrf/data/csv.py: InputCSV.load", "smrf/data/input_data.py: InputData.set_variables, InputData.metadata_pixel_location", "smrf/framework/model_framework.py: SMRF.loadData"]}
{"id": "C88", "title": "The start of a run", "statement": "The command takes the file it is given or the only *.ini of the directory it is given. A run starts exactly if its configuration has no errors, the clocks show its start and its end once each, the dates of the albedo section are given both or not at all, and its dates are not in the future unless the data are gridded. Whatever happens then, the output directory is made and, unless there are errors, the configuration written to it. The stages are run in order up to the first that fails. The exit status is 0 exactly if all were run, the argument does not lead to one configuration file or the configuration has errors. Refuted: a status of 0 means that the run was made; a run leaves the configuration it is given unchanged (one called config.ini in the output directory is written over); the albedo decays from the configured date on (the dates are taken in the local mean time of the zone).", "quantifier": "all arguments, directories, configurations, time zones, and ways a stage can fail", "why_tests_cant": "all configurations, all time zones and all ways to fail", "anchors": ["scripts/run_smrf", "smrf/utils/utils.py: find_configs, handle_run_script_options", "smrf/framework/model_framework.py: SMRF.__init__, run_smrf, SMRF.__exit__"]}
{"id": "C89", "title": "The solar spectrum", "statement": "The spectrum used for the irradiance goes through the rows of the table, has Akima's slopes at them, and no value outside. The irradiance of a band is the solar constant times the integral of the spectrum; bands that meet add up; up to 60 micrometers a wider band has more irradiance. The visible band of the model has 617.8 and its infrared band 671.2 W/m2 at the mean distance of the sun, and on every day of the years 1900 to 2500 a cell gets no more beam radiation than 641 and 696 W/m2. Refuted: all wavelengths together have the solar constant (97.4 percent); the spectrum is never negative (it is beyond 100 micrometers); only wavelengths in order and in a band are accepted.", "quantifier": "all tables, all bands, all days, all cells", "why_tests_cant": "all wavelengths, all days", "anchors": ["smrf/envphys/solar/irradiance.py: solint, solar_data, direct_solar_irradiance", "smrf/envphys/solar/toporad.py: check_wavelengths, stoporad"]}
{"id": "C90", "title": "The grids of the WindNinja files", "statement": "The header of a WindNinja file (six lines with a key and a value, in any order, the last of two lines with the same key counting) puts the numbers of the file in the middles of its cells, row by row from the north; a line without a value, a missing key or a value that is no number is refused. In every time step of a run whose model grid has WindNinja's resolution, a wind speed linear in those coordinates is reproduced, scaled for the vegetation, at every cell inside the file's grid. If all speed files have the same header, each time step gives what it would give alone. Refuted: the no data value of the header is missing data (it is taken for a speed, so that -9999 gives a negative wind); each file is read on its own grid (the grid of the first time step is used for all).", "quantifier": "all headers, grids, data, triangulations with barycentric weights and sequences of time steps", "why_tests_cant": "all headers and histories of files", "anchors": ["smrf/utils/utils.py: get_asc_stats, grid_interpolate", "smrf/distribute/wind/wind_ninja.py: WindNinjaModel.initialize_interp, distribute, convert_wind_ninja"]}
{"id": "C91", "title": "From the stations' readings to the grid of a variable", "statement": "A variable is set up exactly if its distribution method is idw, dk, grid or kriging, or is not given, and the table of stations has coordinates under the new or the old names; it uses the stations of the table. A time step depends only on the readings of these stations, not on the order of the row or on other stations. It fails, and leaves the grid of the step before, if a station has no entry, if no station has a reading or if no method was given; with idw, dk and kriging it succeeds otherwise. Every number of the grid is within the configured limits or NaN. With idw every cell away from the stations that report holds the limited inverse distance mean of their readings; the order of the stations does not matter, and with idw and kriging a station without a reading might as well not be in the table. Refuted: that also holds for gridded data with a trend (one missing value ends the run); local trends work with each of the three grid methods (nearest fails in every step); the old coordinate names work for gridded data with local trends.", "quantifier": "all tables of stations, configurations, topographies, rows of readings and external interpolators", "why_tests_cant": "all sets of stations and patterns of missing readings", "anchors": ["smrf/distribute/image_data.py: image_data._initialize, _distribute", "smrf/distribute/air_temp.py: ta.distribute", "smrf/distribute/cloud_factor.py: cf.distribute", "smrf/spatial/grid.py: GRID.__init__, detrendedInterpolation", "smrf/utils/utils.py: grid_interpolate_deconstructed"]}
{"id": "C92", "title": "Several runs with the same output directory", "statement": "Any number of runs one after another, starting with an empty directory and with topos of one size, end normally as far as the output is concerned. The file of a variable describes the first run that had the variable (start date, time zone, coordinates in single precision, precision, attributes) and has one record per date of all runs, in the order of first output, at the time since the start of that first run, with the data of the last call for the date under the mask of the run that made it. A run that is continued by a second one leaves the same files as one long run, whatever the second one's start date; other variables' files are not touched. Data the library refuses leave a record with a time and no data. Refuted: that times increase in a file, that the moments are right after a second run in another time zone, that data are under their coordinates after a second run elsewhere, that rows keep distinct coordinates.", "quantifier": "all histories of runs, setups, variables, dates (less than 131072 hours from the start) and grids", "why_tests_cant": "all histories of runs into one directory", "anchors": ["smrf/output/output_netcdf.py: OutputNetcdf.__init__, OutputNetcdf.output"]}
{"id": "C93", "title": "The Python forms of the search line and of the horizon scan", "statement": "bresenham returns the cells of the straight line from the start to the end, each within half a cell of the line and a neighbour of the one before, if the first coordinate changes at least as much as the second or both change in the same direction, and no cell at all otherwise. Between cells of the grid less than 500 steps apart these are the cells of the compiled form, unless the line passes midway between two cells and both coordinates change in the same direction. hord ends for every profile with a later point for every point but the last; along a ray, seen from the ground, it is the horizon, and the compiled form returns the slope to it. Refuted: that every line has a path, that both forms always agree, that hord finds the horizon with an instrument height.", "quantifier": "all start and end cells, all profiles", "why_tests_cant": "all lengths, directions and profiles", "anchors": ["smrf/utils/wind/model.py: wind_model.bresenham, wind_model.hord, wind_model._slope"]}
{"id": "C94", "title": "The files a run leaves", "statement": "A run into an empty directory makes one file for each variable that was asked for and exists, and no other. Without threads, each has one record, in increasing time, for each time step whose position is a multiple of the output frequency, holding what the module of the variable had after this step, or zeros if it had nothing. With threads the same holds for the variables that have a queue, and the files are those of the run without threads if the queues hold what the modules had. A variable whose attribute does not exist ends the run at the first step that is written, and the files keep the records up to there. Refuted: that with threads the file of every variable gets records.", "quantifier": "all requests, dates, frequencies, grids, masks and values of the modules", "why_tests_cant": "all runs of all lengths, and where a run is cut short", "anchors": ["smrf/framework/model_framework.py: SMRF.create_output_variable_dict, SMRF.initializeOutput, SMRF.output, SMRF.disttribute_data_serial", "smrf/utils/queue.py: QueueOutput.run", "smrf/output/output_netcdf.py: OutputNetcdf.output"]}
{"id": "C95", "title": "The tables made of HRRR data", "statement": "The tables of air temperature, vapour pressure, wind speed, wind direction, precipitation and cloud factor that are made of the forecast files all have the times and pixels of the air temperature, put into the time zone. The precipitation of a time and a pixel is the file's for them, and NaN if there is none. If the humidities have the same times and pixels, the vapour pressure is that of the temperature and humidity of the same time and pixel. Speed and direction are those of the two components for the same time and pixel, NaN if wind is not loaded. The cloud factor is within 0 and 1, and comes pixel by pixel from the short wave radiation and the modelled radiation of the same times. The data are accepted exactly if every table can be read as numbers and placed in the zone, the four tables needed (six with wind) are there, and labels and sizes fit. Refuted: that the vapour pressure of a time and a pixel is always made of the humidity for them.", "quantifier": "all tables with all labels and entries, with and without wind", "why_tests_cant": "all labels, orders, missing values and sizes of the tables", "anchors": ["smrf/data/hrrr_grib.py: InputGribHRRR.parse_data, InputGribHRRR.calculate_wind", "smrf/envphys/vapor_pressure.py: rh2vp", "smrf/envphys/solar/cloud.py: get_hrrr_cloud"]}
{"id": "C96", "title": "Options for vegetation classes and stations", "statement": "What the albedo does for a vegetation class follows the option with the number of this class, and the default's for the other classes, if only the options of the chosen method are given. The wind model's correction of a class is the option veg_ with its number (the first entry of a list), and the options are accepted exactly if they are numbers. The enhancement of a station is the table's if it has one, else the option named like the station in lower case, else the default. Refuted: that a class has its own option if the options of both methods are given (the later one counts, even the litter rate for the date method), and that a station without an option of its own has the default (a station can be named like another option).", "quantifier": "all sets and orders of options, all classes and station names", "why_tests_cant": "all names, orders and values of options", "anchors": ["smrf/distribute/albedo.py: albedo.__init__", "smrf/distribute/wind/winstral.py: WinstralWindModel.__init__, WinstralWindModel.initialize, WinstralWindModel.simulateWind"]}
{"id": "C97", "title": "The command that makes the files of upwind slopes", "statement": "gen_maxus takes each option's last value, or its default. If it finds the elevations, the directory for the slopes and a search distance of whole grid columns, it leaves the complete file of slopes and the windowed file made from it, and, if breaks are asked for and their names do not clash, the same two files for breaks, and touches nothing else. The name of a windowed file is the name without its extension, the width and window.nc; it is never the name of the source and is shared only by names that differ in the extension. What is refused before anything is written is exactly: a missing file, directory or variable, missing coordinates, a single row or column, and an uneven distance. Problems with the breaks show only after the slopes are done. A run killed at any write leaves a prefix of the directions in the file of slopes and either the old windowed file or one made from the complete file; once it has begun the breaks both files of slopes are complete, and the same holds of the breaks. The wind model of a run takes exactly files of slopes with the shape of its topo. Refuted: that --make_tbreak False makes no breaks, that the slopes and the windowed slopes on the disk always belong together, and that a file of slopes taken by a run was made from its topo.", "quantifier": "all command lines, terrains, contents of the disk, and points at which the command is killed", "why_tests_cant": "all names, options, terrains and kill points", "anchors": ["scripts/gen_maxus: argument_parser, main", "smrf/utils/wind/model.py: wind_model.windower, wind_model.maxus, wind_model.tbreak", "smrf/distribute/wind/winstral.py: WinstralWindModel.__init__"]}
{"id": "C98", "title": "Precipitation over a station run with the marks2017 density model", "statement": "With non-negative station precipitation and marks2017, a time step has precipitation exactly when it lies in a storm of the record and some station measured some; then the grid is interpolated from the stations' values, each raised by what that station measured outside the storms and corrected for its gauge, and limited; the storm's number is that of the one storm the step lies in; density and percent snow come from that grid if some cell is below 2 C and are zero otherwise; all other steps have no precipitation and no snow. The storm total is that of the last storm so far among those that started cold, zero before. Days since the last storm become zero in exactly the cells with enough precipitation, at least half of it snow, at such a step, and grow by one step everywhere else. The run completes every step, unless a storm starts cold and no station has a total for it because each misses one of its wet steps, or a threaded run has no precipitation at all: then it ends right there. Refuted: the total is that of the current storm; the flag storming means that a step is in a storm; a run in which some station reports at every step finishes. Refuted: what a step gives does not depend on what the stations measure later (adding a step to the record changes the precipitation of earlier ones).", "quantifier": "all station records with missing values, thresholds, temperatures, interpolation methods, phase functions, gauge corrections, wind redistributions and run lengths, threaded or not", "why_tests_cant": "all histories of measurements over runs of any length", "anchors": ["smrf/distribute/precipitation.py: ppt.initialize, ppt.distribute, ppt.distribute_for_marks2017, ppt.distribute_thread", "smrf/envphys/storms.py: tracking_by_station, clip_and_correct, time_since_storm_pixel"]}
{"id": "C99", "title": "Precipitation over a run with the storm counters of time_since_storm", "statement": "In a gridded run, or a station run with undercatch adjustment and a density model other than marks2017, with non-negative precipitation, every step completes. A step without any precipitation in the input leaves no precipitation and no snow, adds one time step to the days since the last storm and keeps the storm total. At any other step the grid is interpolated from the adjusted values and limited, and density and percent snow belong to it; without snow anywhere every cell's days grow by 1 and its storm total is 0; otherwise a cell with at least half snow records this step's precipitation as storm total, another one keeps its total, or 0 when its days reach the limit, and the days become 0 exactly where the total reaches the mass threshold and grow by 1 elsewhere. So what a cell recorded in its last snow keeps resetting its days at every later step with precipitation that brings snow anywhere else: rain at the cell for any length of time leaves them at 0. Refuted: the days of a cell are positive when it has not snowed there for long enough. What a step gives does not depend on later input: a longer record begins with the same steps.", "quantifier": "all input records with missing values, temperatures, thresholds, interpolation methods, phase functions, gauge corrections, wind redistributions and run lengths", "why_tests_cant": "all histories of precipitation over runs of any length", "anchors": ["smrf/distribute/precipitation.py: ppt.distribute, ppt.distribute_for_susong1999", "smrf/envphys/storms.py: time_since_storm"]}
