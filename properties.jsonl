{"id": "C01", "title": "Calendar date survives conversion to a Julian day and back", "statement": "For every year (positive, zero or negative), every real month of that year and every real day of that month in the proleptic Gregorian calendar, converting the date to its integer Julian day and converting that day back gives exactly the same year, month and day; the same holds in the proleptic Julian calendar.", "quantifier": "all integer years, months 1..12, days 1..length of month, in each of the two calendars", "why_tests_cant": "The domain is infinite and the arithmetic is a chain of floor divisions whose errors appear only at rare century/400-year/negative-year boundaries.", "anchors": ["skyfield/timelib.py:julian_day", "skyfield/timelib.py:compute_calendar_date"]}
{"id": "C02", "title": "Julian day numbers count civil days", "statement": "The Julian day of the civil day that follows a date (under the ordinary month-length and leap-year rules) is exactly one more than the Julian day of the date, and 2000 January 1 has Julian day 2451545. Hence the number is the true day count for every date, and later dates have larger numbers.", "quantifier": "all valid dates of either proleptic calendar, over all integer years", "why_tests_cant": "Only an induction over the successor rule ties the closed formula to the leap-year rule; samples cannot cover every century.", "anchors": ["skyfield/timelib.py:julian_day"]}
{"id": "C03", "title": "Every Julian day is reached from exactly one calendar date, also with a Julian/Gregorian cutoff", "statement": "For every integer Julian day and every cutoff setting (none, or a cutoff day), computing the calendar date of the day and then the Julian day of that date, under the same cutoff, returns the original day.", "quantifier": "all integer Julian days, all cutoff settings", "why_tests_cant": "The cutoff is user-settable, and the failure region sits next to the cutoff only for certain historical epochs.", "anchors": ["skyfield/timelib.py:julian_day", "skyfield/timelib.py:compute_calendar_date", "skyfield/timelib.py:Timescale.julian_calendar_cutoff"]}
{"id": "C04", "title": "Calendar dates are well formed and advance one civil day at a time across a calendar reform", "statement": "For every integer Julian day, the computed date has a month in 1..12 and a day within the length of that month in the calendar in force; and the date of the next Julian day is the civil successor of the date, except at the cutoff itself, where the last Julian-calendar date is followed by the Gregorian date of the cutoff day.", "quantifier": "all integer Julian days, all cutoff settings", "why_tests_cant": "Needs every century in both calendars and every possible cutoff.", "anchors": ["skyfield/timelib.py:compute_calendar_date"]}
{"id": "C05", "title": "Months beyond 1..12 and days beyond the month overflow arithmetically", "statement": "Giving a month outside 1..12 names the same day as the normalised month of the neighbouring year; adding k to the day number adds exactly k days.", "quantifier": "all integer years, months, days and k (no cutoff)", "why_tests_cant": "Unbounded overflow amounts in both directions.", "anchors": ["skyfield/timelib.py:julian_day"]}
{"id": "C06", "title": "A UTC date and time survives the trip through TAI, including leap seconds", "statement": "For every well-formed leap second table, building a time from a valid UTC year, month, day, hour, minute and second, and asking for its UTC calendar fields, gives back exactly the same fields; on days that end in a leap second this includes second 60, with its fraction.", "quantifier": "all leap tables whose dates are days in increasing order with offsets stepping by one, all valid UTC fields with arbitrary fractional second", "why_tests_cant": "The set of leap tables is open-ended (future announcements), and mistakes only show within one second of a leap second.", "anchors": ["skyfield/timelib.py:Timescale._utc", "skyfield/timelib.py:Time._utc_tuple", "skyfield/timelib.py:Time._utc_seconds"]}
{"id": "C07", "title": "TAI seconds and UTC labels are in bijection", "statement": "For every well-formed leap table, every TAI second has a UTC label with hour in 0..23, minute in 0..59 and second in 0..60; second 60 is shown exactly for the inserted leap seconds; rebuilding a time from the label gives back the same TAI second; later seconds get lexicographically later labels.", "quantifier": "all leap tables, all integer TAI seconds", "why_tests_cant": "A universally quantified bijection and order isomorphism over unbounded time and arbitrary tables.", "anchors": ["skyfield/timelib.py:Time._utc_seconds", "skyfield/timelib.py:Time._utc_tuple", "skyfield/timelib.py:Timescale._utc"]}
{"id": "C08", "title": "UTC arithmetic is exact in binary floating point for whole seconds", "statement": "With IEEE binary64 arithmetic (not just exact arithmetic), a time built from integer UTC fields within a few hundred thousand years of J2000 yields the very same integer fields back, leap seconds included: no rounding happens anywhere on the path.", "quantifier": "all integer UTC fields with |Julian day| < 10^9, all leap tables within the same range, IEEE-754 round-to-nearest-even", "why_tests_cant": "Floating-point exactness must be shown for every representable input, not a sample.", "anchors": ["skyfield/timelib.py:Timescale._utc", "skyfield/timelib.py:Time._utc_seconds", "skyfield/timelib.py:Time._utc_tuple"]}
{"id": "C09", "title": "UTC Julian dates and UTC calendar tuples agree", "statement": "Supplying a UTC instant as a Julian date gives the same time as supplying the calendar fields of that instant, for every instant that is not itself inside a leap second.", "quantifier": "all leap tables, all UTC instants", "why_tests_cant": "Two different interpolation paths through the leap table must agree everywhere.", "anchors": ["skyfield/timelib.py:Timescale._utc_jd", "skyfield/timelib.py:Timescale._utc"]}
{"id": "C10", "title": "Every supported leap-second source yields the same table", "statement": "Whatever the list of leap seconds in a Leap_Second.dat file, a timescale built from the parsed legacy arrays holds the same instants and offsets as one built from the plain list of leap dates and offsets after the first entry.", "quantifier": "all lists of (date, offset) entries with at least two entries", "why_tests_cant": "Off-by-one slices of parallel arrays must be right for every table length.", "anchors": ["skyfield/io_timescale.py:parse_leap_seconds", "skyfield/timelib.py:Timescale.__init__"]}
{"id": "C11", "title": "Rounded UTC text denotes the nearest representable instant", "statement": "Formatting a time to whole seconds or to n decimal places (ISO or JPL style) shows the fields of the representable instant nearest to the time, carrying correctly into minutes, hours, days, years and leap seconds; it never shows second 60 outside a leap second.", "quantifier": "all times, all leap tables, all numbers of decimal places", "why_tests_cant": "Carries at every boundary including before, inside and after leap seconds.", "anchors": ["skyfield/timelib.py:Time.utc_iso", "skyfield/timelib.py:Time.utc_jpl", "skyfield/timelib.py:Time._utc_tuple"]}
{"id": "C12", "title": "Python datetimes round-trip to the microsecond and flag leap seconds", "statement": "Converting a time to a datetime plus leap-second flag and back gives the same instant rounded to the microsecond that the result carries, and the flag is 1 exactly when the rounded instant lies in a leap second, in which case the datetime shows second 59.", "quantifier": "all times, all leap tables", "why_tests_cant": "Boundary carries together with leap-second flagging for all instants.", "anchors": ["skyfield/timelib.py:Time.utc_datetime_and_leap_second", "skyfield/timelib.py:Timescale.from_datetime"]}
{"id": "C13", "title": "Weekday and day of year are correct", "statement": "The weekday used when formatting a time advances by one per civil day modulo seven and is Saturday on 2000 January 1; the day of year is one plus the number of days since January 1 of the same year.", "quantifier": "all days, including days before Julian day zero, all UTC and non-UTC formats", "why_tests_cant": "Requires all days, including negative Julian days and instants just before midnight in floating point.", "anchors": ["skyfield/timelib.py:Timescale._strftime", "skyfield/timelib.py:_strftime"]}
{"id": "C14", "title": "Time addition and subtraction obey the laws of instants and durations", "statement": "(t + d) - t = d, (t + d) + e = t + (d + e), t - u = -(u - t), t < u exactly when u - t is positive, and shifting both times does not change comparisons.", "quantifier": "all pairs of times in exact arithmetic, all durations", "why_tests_cant": "Algebraic laws over all operands.", "anchors": ["skyfield/timelib.py:Time.__add__", "skyfield/timelib.py:Time.__sub__", "skyfield/timelib.py:Time.__lt__"]}
{"id": "C15", "title": "Time comparison is trichotomous in floating point", "statement": "For any two finite scalar times, in IEEE binary64 arithmetic, exactly one of t < u, t == u and u < t holds, and t == u is symmetric.", "quantifier": "all pairs of finite binary64 (whole, fraction) pairs without overflow", "why_tests_cant": "Two different floating-point expressions are compared; agreement is needed for every operand pair.", "anchors": ["skyfield/timelib.py:Time.__eq__", "skyfield/timelib.py:Time.__lt__"]}
{"id": "C16", "title": "Equal times hash alike", "statement": "Whenever two times compare equal, their hashes are equal, so times can be used in sets and as dictionary keys.", "quantifier": "all pairs of binary64 times", "why_tests_cant": "Equality and hash use different roundings; violations are rare pairs that sampled tests do not meet.", "anchors": ["skyfield/timelib.py:Time.__eq__", "skyfield/timelib.py:Time.__hash__"]}
{"id": "C17", "title": "Indexing a time array commutes with reading its attributes", "statement": "For an array of times t and index i, t[i].utc, t[i].tt, t[i].tai etc. equal the i-th entries of t.utc, t.tt, t.tai.", "quantifier": "all time arrays built by any constructor, all indices, all attributes", "why_tests_cant": "Depends on which hidden cached values are carried along; fails only for particular seconds of the day in floating point.", "anchors": ["skyfield/timelib.py:Time.__getitem__", "skyfield/timelib.py:Time._tai_seconds"]}
{"id": "C18", "title": "The time scales keep their defining relations", "statement": "TT - TAI is exactly 32.184 s for every time however constructed; the time scale in which a time was specified returns the specified value; and TDB never differs from TT by more than 1.705 ms plus 10 microseconds per century from J2000.", "quantifier": "all times from all constructors", "why_tests_cant": "Bound over the whole real line; identities over all constructors.", "anchors": ["skyfield/timelib.py:Timescale.tai_jd", "skyfield/timelib.py:Timescale.tt_jd", "skyfield/timelib.py:Timescale.tdb_jd", "skyfield/timelib.py:tdb_minus_tt"]}
{"id": "C19", "title": "UT1 input converges to a consistent time", "statement": "For a time built from a UT1 Julian date, TT - UT1 differs from Delta T evaluated at the resulting TT by at most the square of the Delta T slope times the initial error, for every Delta T curve with bounded slope.", "quantifier": "all Lipschitz Delta T curves, all UT1 dates", "why_tests_cant": "Needs an error bound for arbitrary user-supplied Delta T curves.", "anchors": ["skyfield/timelib.py:Timescale.ut1_jd"]}
{"id": "C20", "title": "Spline segments meet prescribed values and slopes", "statement": "A cubic built from end points and end slopes takes exactly those values and has exactly those derivatives at the ends; the derivative object is the true derivative of the curve at every point.", "quantifier": "all end points with distinct abscissae, all slopes, all coefficient tables of any degree", "why_tests_cant": "Polynomial identities over all coefficients.", "anchors": ["skyfield/curvelib.py:build_spline_given_ends", "skyfield/curvelib.py:Splines"]}
{"id": "C21", "title": "Delta T is one continuous curve", "statement": "The Delta T function assembled from a daily table, a historic spline table and the long-term parabola has no jump at any joint: parabola/left spline, left spline/historic spline, historic spline/daily table, daily table/right spline, right spline/parabola.", "quantifier": "all daily tables (at least two rows), all continuous historic spline tables", "why_tests_cant": "Joint conditions for arbitrary tables; a jump of microseconds at a joint would not be noticed by sample values.", "anchors": ["skyfield/timelib.py:build_delta_t", "skyfield/timelib.py:DeltaT"]}
{"id": "C22", "title": "Delta T extrapolation leaves the table with the slope of its final year", "statement": "The curve that continues Delta T past the end of the daily table starts with the average rate, in seconds per year, of the last year (or less) of the table.", "quantifier": "all daily tables of any length", "why_tests_cant": "Table length is arbitrary; only full-length tables are exercised by tests.", "anchors": ["skyfield/timelib.py:build_delta_t"]}
{"id": "C23", "title": "Leap seconds are reconstructed from earth orientation data", "statement": "From a daily series of UT1-UTC values that steps up by about one second exactly at leap seconds, the reconstructed leap dates are exactly the days on which leap seconds take effect, and TT-UT1 is continuous across them.", "quantifier": "all daily series of any length with bounded daily drift", "why_tests_cant": "Every possible placement of leap seconds in a series of any length.", "anchors": ["skyfield/data/iers.py:build_timescale_arrays"]}
{"id": "C24", "title": "Discrete search reports only real changes, located to within epsilon", "statement": "Every event returned by the discrete search is a time inside the searched range at which the function has the reported value, and there is an earlier time, no more than epsilon before, at which the function had a different value.", "quantifier": "all deterministic functions of time, all ranges, steps, epsilon > 0 and num >= 3", "why_tests_cant": "Holds for arbitrary functions, including ones that change faster than the step.", "anchors": ["skyfield/searchlib.py:find_discrete", "skyfield/searchlib.py:_find_discrete"]}
{"id": "C25", "title": "Discrete search events form an unbroken chain", "statement": "The reported values form a chain: the first differs from the value at the start, each differs from the one before, and the last equals the value at the end of the range; event times are strictly increasing. In particular a true/false function yields alternating events.", "quantifier": "all deterministic functions of time and all search parameters", "why_tests_cant": "A global invariant of the refinement over arbitrary functions.", "anchors": ["skyfield/searchlib.py:_find_discrete"]}
{"id": "C26", "title": "Discrete search misses nothing that is slower than the step", "statement": "If the function changes value at most once between consecutive initial samples, the search returns exactly one event per change, within epsilon of it; and consecutive initial samples are never further apart than the promised step.", "quantifier": "all piecewise-constant functions meeting the hypothesis, all ranges and steps", "why_tests_cant": "Completeness is a statement about absent events.", "anchors": ["skyfield/searchlib.py:find_discrete", "skyfield/searchlib.py:_find_discrete"]}
{"id": "C27", "title": "Discrete search terminates", "statement": "For every function, range, epsilon > 0 and number of samples per round accepted by the API, the refinement loop ends, after a number of rounds logarithmic in the sample spacing over epsilon.", "quantifier": "all functions, all num, epsilon > 0", "why_tests_cant": "Non-termination cannot be observed by a finite test.", "anchors": ["skyfield/searchlib.py:_find_discrete"]}
{"id": "C28", "title": "Maxima are sorted, separated and inside the range", "statement": "The times returned by the maxima search are strictly increasing, more than epsilon apart, and inside the closed search range; each reported value is the function value at a sampled local maximum or at a two-sample plateau.", "quantifier": "all functions, all search parameters", "why_tests_cant": "Invariant of the refinement for arbitrary functions.", "anchors": ["skyfield/searchlib.py:find_maxima", "skyfield/searchlib.py:_identify_maxima"]}
{"id": "C29", "title": "A function with one peak has that peak found to within epsilon", "statement": "If the function rises strictly up to some time and falls strictly afterwards, and that time is inside the range by more than epsilon, the maxima search terminates and returns exactly one time, within epsilon of the peak; if the peak is outside by more than epsilon it returns none. Minima search does the same for valleys.", "quantifier": "all strictly unimodal functions, all ranges, steps, epsilon > 0, num >= 5", "why_tests_cant": "Arbitrary functions; both completeness and accuracy.", "anchors": ["skyfield/searchlib.py:find_maxima", "skyfield/searchlib.py:find_minima", "skyfield/searchlib.py:_choose_brackets"]}
{"id": "C30", "title": "Satellite passes are well-formed event sequences", "statement": "The satellite event search returns events in time order in which, starting from the state at the beginning, a rise occurs only when the satellite is below the threshold, a set only when above, and a culmination only when above.", "quantifier": "all altitude functions, thresholds and ranges", "why_tests_cant": "Interplay of two searches and a merge; ties arise only for special functions.", "anchors": ["skyfield/sgp4lib.py:EarthSatellite.find_events"]}
{"id": "C31", "title": "Hour angle of setting is exact for the sphere", "statement": "Whenever a body of given declination reaches the given altitude from the given latitude, the computed hour angle is one at which its altitude is exactly that altitude; bodies always above get a half turn and bodies always below get zero.", "quantifier": "all latitudes and declinations off the poles, all altitudes", "why_tests_cant": "Trigonometric identity and clipping at every input.", "anchors": ["skyfield/almanac.py:_setting_hour_angle"]}
{"id": "C32", "title": "Parabola step lands on the crossing", "statement": "Given two altitudes on opposite sides of the target and the rate at the first, the interpolated fraction lies in the closed unit interval and is a root of the parabola through both points with that initial rate.", "quantifier": "all real y0, y1, v with a sign change", "why_tests_cant": "Root choice and range for all real inputs.", "anchors": ["skyfield/almanac.py:_intersection", "skyfield/almanac.py:_q"]}
{"id": "C33", "title": "Almanac codes stay in their documented ranges", "statement": "Season, moon-phase, solar-term and opposition/conjunction functions return only the documented integer codes, for every ecliptic longitude the computation can produce, and twilight levels are monotone in solar altitude and change only at the documented thresholds.", "quantifier": "all longitudes (including those arising from rounding), all altitudes", "why_tests_cant": "Range violations occur only for isolated floating-point inputs.", "anchors": ["skyfield/almanac.py:seasons", "skyfield/almanac.py:moon_phases", "skyfield/almanac.py:oppositions_conjunctions", "skyfield/almanac.py:dark_twilight_day", "skyfield/almanac_east_asia.py:solar_terms"]}
{"id": "C34", "title": "Lunar eclipse classification nests", "statement": "Every reported lunar eclipse gets exactly one class; total implies the partial condition and partial implies the penumbral condition hold for the same geometry; candidates outside the penumbra are dropped.", "quantifier": "all distances and shadow radii with the geometric ordering of radii", "why_tests_cant": "All real geometries, including grazing ones.", "anchors": ["skyfield/eclipselib.py:lunar_eclipses"]}
{"id": "C35", "title": "A download never exposes a partial file", "statement": "At every instant, whatever the server sends and wherever the process is killed or the network fails, the destination path holds either its previous content (or absence) or the complete new content, never a partial file.", "quantifier": "all chunkings of the content, all crash points, all failures, backup off", "why_tests_cant": "Quantifies over every crash point and failure.", "anchors": ["skyfield/iokit.py:download"]}
{"id": "C36", "title": "Concurrent downloads of one file do not corrupt each other", "statement": "With any number of processes downloading to the same path in any interleaving, each writes its own temporary file, and the destination always holds the previous content or the complete content of one of the downloads.", "quantifier": "all numbers of processes, all schedules, all crash points", "why_tests_cant": "All interleavings.", "anchors": ["skyfield/iokit.py:download"]}
{"id": "C37", "title": "Backup keeps every earlier version", "statement": "With backups requested, the previous content of the file survives under an old-numbered name in every execution; no existing backup is overwritten.", "quantifier": "all initial directory contents, all crash points, all schedules", "why_tests_cant": "Crash windows and races are not observable in sequential tests.", "anchors": ["skyfield/iokit.py:download", "skyfield/iokit.py:_rename_original"]}
{"id": "C38", "title": "The loader downloads exactly when it should", "statement": "Opening a file downloads if and only if the file is missing or reloading was requested; an unknown name fails without network access; a URL is saved under the last component of its path.", "quantifier": "all directory states, names and flags", "why_tests_cant": "Decision logic over all combinations of state.", "anchors": ["skyfield/iokit.py:Loader.__call__", "skyfield/iokit.py:Loader._assure", "skyfield/iokit.py:Loader.open", "skyfield/iokit.py:_search"]}
{"id": "C39", "title": "Every element set in a TLE file is found exactly once", "statement": "Parsing a TLE file yields one satellite for each pair of consecutive lines that are a line 1 and a line 2, in file order, and nothing else; each is named by the preceding line when that line is not part of another element set; noise lines never merge or hide sets.", "quantifier": "all sequences of lines", "why_tests_cant": "Arbitrary interleavings of noise, names and element lines.", "anchors": ["skyfield/iokit.py:parse_tle_file"]}
{"id": "C40", "title": "Text kernels assign and append as written", "statement": "Loading a text kernel leaves each variable with the values of its last '=' assignment followed by all values appended by later '+=' assignments, in order; other variables are untouched.", "quantifier": "all sequences of assignments, starting from any variable table", "why_tests_cant": "History property over arbitrary assignment sequences.", "anchors": ["skyfield/data/text_pck.py:load", "skyfield/data/text_pck.py:parse"]}
{"id": "C41", "title": "Vector arithmetic is geometrically consistent", "statement": "For vector functions, a + b, a - b and -a have the center and target that geometry demands and their position and velocity at any time are the sum, difference and negation of the operands' positions and velocities; operands that do not connect are refused; nesting and operand order do not matter.", "quantifier": "all vector function expressions of any depth, all times", "why_tests_cant": "Structural induction over arbitrary expressions.", "anchors": ["skyfield/vectorlib.py:VectorFunction.__add__", "skyfield/vectorlib.py:VectorFunction.__sub__", "skyfield/vectorlib.py:VectorSum._at", "skyfield/vectorlib.py:ReversedVector"]}
{"id": "C42", "title": "Kernel lookup returns a connected chain from the Solar System barycenter", "statement": "For every set of segments, looking up a target either fails with a key error or returns a vector from the Solar System barycenter to the target made of connecting segments; the lookup always ends.", "quantifier": "all segment lists, all targets", "why_tests_cant": "Arbitrary graphs of segments, including cyclic ones.", "anchors": ["skyfield/jpllib.py:SpiceKernel.__getitem__", "skyfield/jpllib.py:SpiceKernel.decode"]}
{"id": "C43", "title": "Stacked segments give scalar and array times the same answer", "statement": "For a target covered by several segments, evaluating one time gives the same position as evaluating it within an array of times, namely the position from the last listed segment that covers the time.", "quantifier": "all segment lists with one center, all times covered by some segment, all arrays of times", "why_tests_cant": "Two separately coded precedence rules must agree for every layout of overlapping coverage.", "anchors": ["skyfield/jpllib.py:Stack._at"]}
{"id": "C44", "title": "Light-time correction converges and is self-consistent", "statement": "When observing a body, the returned light time is exactly the returned distance divided by the speed of light, the body's position is taken at a moment within 1e-12 day of the light-emission time, and for every body slower than one hundredth of light speed within a million light-days the iteration converges instead of raising.", "quantifier": "all observer positions and all Lipschitz target trajectories", "why_tests_cant": "Convergence for all trajectories.", "anchors": ["skyfield/vectorlib.py:_correct_for_light_travel_time"]}
{"id": "C45", "title": "Sexagesimal rounding is exact and well formed", "statement": "Splitting an angle into sign, whole units, minutes, seconds and decimal fraction gives fields in range (minutes and seconds below 60, fraction below 10^places), and the fields denote the multiple of the smallest unit nearest to the angle; carries propagate fully.", "quantifier": "all rational angles and all numbers of places", "why_tests_cant": "Carry boundaries at every magnitude.", "anchors": ["skyfield/units.py:_sexagesimalize_to_int", "skyfield/units.py:_sexagesimalize_to_float"]}
{"id": "C46", "title": "Sign of a sexagesimal angle is plus or minus one", "statement": "The signed sexagesimal methods return a sign of +1 or -1 which, multiplied into the fields, restores the angle.", "quantifier": "all angles", "why_tests_cant": "All inputs including zero.", "anchors": ["skyfield/units.py:Angle.signed_dms", "skyfield/units.py:Angle.signed_hms", "skyfield/units.py:_sexagesimalize_to_float"]}
{"id": "C47", "title": "Angles given as a sexagesimal tuple read back unchanged", "statement": "An angle constructed from the tuple of degrees, minutes and seconds produced by another angle equals that angle, including angles between -1 and 0 units.", "quantifier": "all angles", "why_tests_cant": "Sign handling for the zero-units case over all inputs.", "anchors": ["skyfield/units.py:_unsexagesimalize", "skyfield/units.py:Angle.dms"]}
{"id": "C48", "title": "Rotation matrices are rotations and compose as documented", "statement": "The elementary rotations, precession matrix and nutation matrix are orthogonal with determinant +1 for every angle and date, and the precession and nutation matrices equal the documented products of elementary rotations.", "quantifier": "all angles and dates", "why_tests_cant": "Trigonometric identities for all reals.", "anchors": ["skyfield/functions.py:rot_x", "skyfield/functions.py:rot_y", "skyfield/functions.py:rot_z", "skyfield/precessionlib.py:compute_precession", "skyfield/nutationlib.py:build_nutation_matrix"]}
{"id": "C49", "title": "Expressing a vector in a rotating frame is reversible", "statement": "Converting a position and velocity into any rotating reference frame and building a position back from the frame vectors returns the original position and velocity.", "quantifier": "all positions, velocities and all frames with orthogonal rotation and any rotation rate", "why_tests_cant": "All frames and vectors.", "anchors": ["skyfield/positionlib.py:ICRF.frame_xyz_and_velocity", "skyfield/positionlib.py:ICRF.from_time_and_frame_vectors"]}
{"id": "C50", "title": "Spherical coordinates round-trip", "statement": "Converting a nonzero vector to spherical coordinates and back gives the vector; the latitude lies in [-90, 90] degrees and the longitude in [0, 360); lengths and separations are invariant.", "quantifier": "all vectors", "why_tests_cant": "All of three-dimensional space including poles and quadrant boundaries.", "anchors": ["skyfield/functions.py:to_spherical", "skyfield/functions.py:from_spherical", "skyfield/functions.py:length_of"]}
{"id": "C51", "title": "Angle between vectors is the true angle", "statement": "The separation function returns an angle in [0, 180] degrees whose cosine is the normalised dot product; it is symmetric, zero for parallel and 180 degrees for opposite vectors, and unaffected by positive scaling.", "quantifier": "all pairs of nonzero vectors", "why_tests_cant": "A numerically stabilised formula must be algebraically equal to the definition everywhere.", "anchors": ["skyfield/functions.py:angle_between"]}
{"id": "C52", "title": "Sunlit and behind-Earth tests match ray geometry", "statement": "A position is reported sunlit exactly when no point of the ray from it toward the Sun lies in the Earth's sphere, and a target is reported behind the Earth exactly when some point of the open segment from observer to target lies in the sphere.", "quantifier": "all positions", "why_tests_cant": "All geometric configurations, including tangency and missing intersections.", "anchors": ["skyfield/geometry.py:intersect_line_and_sphere", "skyfield/positionlib.py:ICRF.is_sunlit", "skyfield/positionlib.py:ICRF.is_behind_earth"]}
{"id": "C53", "title": "Horizon coordinates are oriented correctly at every site", "statement": "In the horizon frame of a geographic position, the outward ellipsoid normal has altitude 90 degrees, the celestial pole of date has azimuth 0 and altitude equal to the latitude, and the local east direction has azimuth 90 degrees and altitude 0.", "quantifier": "all latitudes and longitudes", "why_tests_cant": "All sites including poles and date line.", "anchors": ["skyfield/toposlib.py:GeographicPosition", "skyfield/toposlib.py:Geoid.latlon"]}
{"id": "C54", "title": "Geodetic positions lie where they claim", "statement": "A geographic position built at zero elevation lies exactly on the reference ellipsoid, elevation displaces it along the ellipsoid normal by exactly that distance, and its true latitude is a fixed point of the iteration used to recover latitude, longitude and height from a position.", "quantifier": "all latitudes, longitudes and elevations", "why_tests_cant": "Ellipsoid identities over all reals.", "anchors": ["skyfield/toposlib.py:Geoid.latlon", "skyfield/toposlib.py:Geoid._compute_latitude"]}
{"id": "C55", "title": "Orbital elements produce a state with those elements", "statement": "The position and velocity computed from orbital elements satisfy the conic equation, the vis-viva equation and the angular momentum implied by the elements, for elliptical, parabolic and hyperbolic orbits.", "quantifier": "all elements with p > 0, e >= 0 and admissible true anomaly", "why_tests_cant": "Identities over all elements.", "anchors": ["skyfield/keplerlib.py:ele_to_vec"]}
{"id": "C56", "title": "Mean anomaly is converted by the right Kepler equation", "statement": "For every eccentricity, the anomaly computed from a mean anomaly solves the Kepler equation for that kind of orbit: elliptical, parabolic (Barker) or hyperbolic.", "quantifier": "all eccentricities >= 0 and all mean anomalies", "why_tests_cant": "All orbits; tests exercise few eccentricities.", "anchors": ["skyfield/keplerlib.py:eccentric_anomaly", "skyfield/keplerlib.py:true_anomaly_parabolic", "skyfield/keplerlib.py:true_anomaly_hyperbolic", "skyfield/keplerlib.py:true_anomaly_closed"]}
{"id": "C57", "title": "Cached time attributes do not depend on the history of reads", "statement": "Whatever sequence of attribute reads has been made on a time object, each attribute has the value it would have had on a fresh object; calling an almanac function on a time does not change its attributes.", "quantifier": "all sequences of attribute reads and almanac calls", "why_tests_cant": "All histories.", "anchors": ["skyfield/descriptorlib.py:reify", "skyfield/timelib.py:Time", "skyfield/almanac.py:seasons"]}
{"id": "C58", "title": "toordinal is the proleptic ordinal of the UTC reading", "statement": "For every time built by the library, toordinal() equals the Gregorian ordinal of the UTC day (day 1 is 0001-01-01) plus the elapsed fraction of that day; during a leap second it repeats the first second of the next day.", "quantifier": "all times and all leap second tables", "why_tests_cant": "All instants and all tables.", "anchors": ["skyfield/timelib.py:Time.toordinal", "skyfield/timelib.py:Time._utc_seconds"]}
{"id": "C59", "title": "A sum of vectors attaches the observer's position relative to the Earth", "statement": "When a vector sum that starts at the Solar System barycenter passes through the Earth's center, the geocentric position it attaches to the result (used for gravitational deflection by the Earth and for the horizon test) is the vector from the Earth's center to the observer.", "quantifier": "all vector sums that start at the barycenter and pass through the Earth, all times", "why_tests_cant": "Chains of every length and order; tests only observe from stations directly on the Earth.", "anchors": ["skyfield/vectorlib.py:VectorSum._at"]}
{"id": "C60", "title": "Printed angles denote the nearest representable value", "statement": "Reading the text printed for an angle in degrees or hours with any number of places gives the multiple of the last printed digit nearest to the angle, with the sign in front applying to all fields.", "quantifier": "all angles, all numbers of places, the three built-in formats", "why_tests_cant": "Carries and padding at every magnitude.", "anchors": ["skyfield/units.py:_sfmt", "skyfield/units.py:Angle.dstr", "skyfield/units.py:Angle.hstr"]}
{"id": "C61", "title": "Velocities in rotating frames are rates of change", "statement": "For an Earth turning uniformly about its axis with no polar motion table loaded, the velocity reported in the Earth-fixed frame and in the horizon frame of a site is the time derivative of the position reported in that frame, and the velocity of a site in inertial axes is the derivative of its position.", "quantifier": "all sites, orientations of the Earth's axis, rates, times, and all differentiable motions of the target", "why_tests_cant": "A sign error in a rate matrix shows only as a small velocity error; tests compare a few sites with loose tolerances.", "anchors": ["skyfield/framelib.py:itrs", "skyfield/toposlib.py:ITRSPosition", "skyfield/toposlib.py:GeographicPosition", "skyfield/positionlib.py:ICRF.frame_xyz_and_velocity"]}
{"id": "C62", "title": "A ray meets an ellipsoid at the first point on it", "statement": "The line and ellipsoid intersection returns the first point of the ray from the start in the given direction that lies on the ellipsoid, for starts inside, on and outside the ellipsoid, and nan exactly when the ray misses it.", "quantifier": "all starts, all nonzero directions, all ellipsoids", "why_tests_cant": "Grazing rays, rays pointing away, and starts on the surface over all of space.", "anchors": ["skyfield/geometry.py:line_and_ellipsoid_intersection"]}
{"id": "C63", "title": "Latitude and height are recovered to sub-centimetre accuracy", "statement": "Three rounds of the latitude iteration suffice: for every geographic position not deeper than 10 km underground, the latitude recovered from its coordinates is within 5e-9 radians and the height within 2e-8 metres of the truth.", "quantifier": "all latitudes, longitudes and elevations above -10 km", "why_tests_cant": "Convergence over the whole of space; tests sample a few sites.", "anchors": ["skyfield/toposlib.py:Geoid._compute_latitude", "skyfield/toposlib.py:Geoid.height_of"]}
{"id": "C64", "title": "Altitude-azimuth and hour angle coordinates determine the direction", "statement": "Building a position from the altitude, azimuth and distance reported for a vector returns the vector, and the hour angle lies in [-12, 12) hours and with the declination and distance determines the vector.", "quantifier": "all sites and all vectors", "why_tests_cant": "All directions including the zenith, the pole and the anti-meridian.", "anchors": ["skyfield/positionlib.py:ICRF.from_altaz", "skyfield/positionlib.py:ICRF.hadec", "skyfield/positionlib.py:_to_altaz"]}
{"id": "C65", "title": "A Kepler orbit follows Newton's law from its state at the epoch", "statement": "The position and velocity returned for a comet, asteroid or other two-body orbit at any date are, up to a stated error, those of the one motion under the attraction of the central mass that passes through the state at the epoch; at the epoch itself the state is returned unchanged; states that are not conical and masses that are not positive are refused.", "quantifier": "all states, masses and dates", "why_tests_cant": "All orbits and all dates; a search with no fixed number of steps.", "anchors": ["skyfield/keplerlib.py:propagate", "skyfield/keplerlib.py:stumpff", "skyfield/keplerlib.py:_KeplerOrbit._at"]}
{"id": "C66", "title": "Osculating elements and states determine each other", "statement": "The osculating elements of the state built from elements are those elements, angles up to whole turns, and the state built from the osculating elements of a state is that state.", "quantifier": "all elements of conical orbits; all conical states", "why_tests_cant": "Identities over all orbits, including circular, equatorial and retrograde ones.", "anchors": ["skyfield/elementslib.py:OsculatingElements", "skyfield/keplerlib.py:ele_to_vec"]}
{"id": "C67", "title": "The time of periapsis solves Kepler's equation", "statement": "The time since periapsis reported for a state is the time that Kepler's equation gives for its true anomaly, for elliptical, parabolic and hyperbolic orbits.", "quantifier": "all elements", "why_tests_cant": "All orbits and all anomalies.", "anchors": ["skyfield/elementslib.py:OsculatingElements.periapsis_time", "skyfield/elementslib.py:time_since_periapsis", "skyfield/elementslib.py:eccentric_anomaly", "skyfield/elementslib.py:mean_anomaly"]}
{"id": "C68", "title": "Anomalies off the branch of a hyperbola are refused", "statement": "A true anomaly whose absolute value exceeds the one of the asymptote of a hyperbolic orbit raises an exception.", "quantifier": "all elements with e > 1", "why_tests_cant": "All anomalies; tests use one.", "anchors": ["skyfield/keplerlib.py:ele_to_vec"]}
{"id": "C69", "title": "An orbit moves under the mass it was built with", "statement": "Every constructor of orbits keeps the epoch and the gravitational parameter it was given, in the units in which the orbit is propagated.", "quantifier": "all arguments of the constructors", "why_tests_cant": "All arguments, in either unit.", "anchors": ["skyfield/keplerlib.py:_KeplerOrbit._from_periapsis", "skyfield/keplerlib.py:_KeplerOrbit._from_true_anomaly", "skyfield/keplerlib.py:_KeplerOrbit._from_mean_anomaly"]}
{"id": "C70", "title": "A comet is at its perihelion distance at its perihelion date", "statement": "A comet built from a row of the Minor Planet Center file is at the listed perihelion distance at the listed perihelion date, is never closer, and has the listed eccentricity; a table of comets uses the same semilatus rectum as a single row.", "quantifier": "all perihelion distances > 0, eccentricities >= 0 and angles", "why_tests_cant": "All orbits and all dates.", "anchors": ["skyfield/data/mpc.py:comet_orbit", "skyfield/data/mpc.py:_comet_orbits"]}
{"id": "C71", "title": "Outside leap seconds the UTC second stays below 60, in floating point", "statement": "In IEEE binary64 arithmetic the second shown by t.utc is at least 0 and below 60 whenever the instant is not inside a leap second, so code that formats or validates it never meets a second 60 without a leap second.", "quantifier": "all finite binary64 times, all leap second tables", "why_tests_cant": "The failing instants lie within one rounding unit below a minute boundary; sampled tests do not meet them.", "anchors": ["skyfield/timelib.py:Time._tai_seconds", "skyfield/timelib.py:Time._utc_seconds", "skyfield/timelib.py:Time._utc_tuple"]}
{"id": "C72", "title": "Comparison of times is transitive in floating point", "statement": "If t == u and u == v then t == v, and if t < u and u < v then t < v, so that sorting times and removing duplicates are meaningful.", "quantifier": "all triples of finite binary64 times", "why_tests_cant": "The comparison rounds; only rare triples with different whole parts break the law.", "anchors": ["skyfield/timelib.py:Time.__eq__", "skyfield/timelib.py:Time.__lt__"]}
{"id": "C73", "title": "Aberration is the Lorentz transformation of the light's direction", "statement": "add_aberration() turns the direction of the light into that seen by an observer who moves with the given velocity, as special relativity prescribes: the distance is kept, the place moves towards the velocity, applying the opposite velocity undoes it, an observer at rest sees none, and rotating the axes commutes with it.", "quantifier": "all nonzero positions, all velocities below that of light, all orthogonal matrices", "why_tests_cant": "Tests compare a few places with another program at one accuracy; they cannot show a formula is exact for every direction and speed.", "anchors": ["skyfield/relativity.py:add_aberration"]}
{"id": "C74", "title": "Deflection pushes the image away from the mass", "statement": "The correction for light deflection is perpendicular to the line of sight, has the size of the general relativity formula, and increases the angle between the image and the deflecting mass; an apparent position exists for every observer and target.", "quantifier": "all positions of observer, target and mass", "why_tests_cant": "Tests sample a few geometries; the sign and size for all geometries, and the degenerate observer at the centre of a deflecting body, are not sampled.", "anchors": ["skyfield/relativity.py:_compute_deflection", "skyfield/relativity.py:add_deflection", "skyfield/positionlib.py:Astrometric.apparent"]}
{"id": "C75", "title": "The limb angle tells whether the Earth blocks the view", "statement": "For an observer above the Earth, compute_limb_angle() returns a negative limb angle, and a nadir angle below 1, exactly when the line of sight passes through the Earth's sphere.", "quantifier": "all observers outside the sphere, all directions", "why_tests_cant": "The equivalence is about every direction including grazing ones.", "anchors": ["skyfield/earthlib.py:compute_limb_angle"]}
{"id": "C76", "title": "The deflecting body is placed where it was when the light passed closest", "statement": "The moment at which a deflecting body is looked up is the one at which the light was closest to the body's position at the time of observation, and never outside the light's journey.", "quantifier": "all positions and moving bodies", "why_tests_cant": "It is a minimum over a continuum of moments.", "anchors": ["skyfield/relativity.py:_compute_deflector_position", "skyfield/relativity.py:light_time_difference"]}
{"id": "C77", "title": "A star starts at its catalogue place and moves at its catalogue rates", "statement": "At its epoch a star is in the direction of its catalogue right ascension and declination at the distance given by its parallax, and its declination, right ascension and distance change at the catalogue rates, up to the Doppler factor and the parallax's own sine.", "quantifier": "all catalogue entries with positive parallax", "why_tests_cant": "It relates a Cartesian velocity to derivatives of angles, for all entries.", "anchors": ["skyfield/starlib.py:Star._compute_vectors"]}
{"id": "C78", "title": "The velocity of an observed star is the rate of change of its vector", "statement": "observer.observe(star).velocity is the time derivative of observer.observe(star).position, as for every other target.", "quantifier": "all stars, all uniformly moving observers", "why_tests_cant": "No test compares the velocity of an observed star with differences of its position.", "anchors": ["skyfield/starlib.py:Star._observe_from_bcrs"]}
{"id": "C79", "title": "Refraction is found for every altitude, and solves its equation", "statement": "refract() stops, and returns an altitude that exceeds the true one by the refraction at the returned altitude, to within the tolerance 0.00003 degrees; for an array each element is what it would be alone.", "quantifier": "all altitudes, temperatures and pressures", "why_tests_cant": "Termination and the accuracy of a fixed point iteration for all inputs cannot be sampled.", "anchors": ["skyfield/earthlib.py:refract", "skyfield/earthlib.py:refraction"]}
{"id": "C80", "title": "A missing parallax is treated alike for one star and for many", "statement": "A parallax that is zero, negative or NaN is replaced by the small positive default, whether the Star holds one number or an array, and a positive one is kept.", "quantifier": "all binary64 parallaxes", "why_tests_cant": "NaN takes different branches for numbers and arrays; tests only use one of them.", "anchors": ["skyfield/starlib.py:Star._compute_vectors"]}
{"id": "C81", "title": "Every transit, rising and setting is reported once, in order, and close to the truth", "statement": "For a target whose hour angle always advances by less than a turn in 0.8 days, find_transits, find_risings and find_settings return exactly one time per event in the interval from start (included) to end (excluded), in order, each within a microsecond or the stated power of the unevenness of the turning rate.", "quantifier": "all start and end times, all turning skies whose rates differ by at most a half", "why_tests_cant": "Needs counting of events over intervals of any length, with the start placed anywhere; a test picks a few dates and never lands on an event.", "anchors": ["skyfield/almanac.py:_find", "skyfield/almanac.py:find_transits", "skyfield/almanac.py:find_risings", "skyfield/almanac.py:find_settings"]}
{"id": "C82", "title": "The hour angles searched for are horizon crossings and culminations", "statement": "When the target can reach the horizon altitude at its declination, a setting (rising) event is exactly a moment at which its altitude equals that altitude in the west (east), and a transit event is exactly a moment of greatest altitude; the horizon is 50 arcminutes down for the Sun, 34 for others, and 34 plus the Moon's radius over its distance for the Moon.", "quantifier": "all hour angles, latitudes and declinations off the poles, all horizon altitudes", "why_tests_cant": "Equivalence over all directions.", "anchors": ["skyfield/almanac.py:_setting_hour_angle", "skyfield/almanac.py:_rising_hour_angle", "skyfield/almanac.py:_transit_ha", "skyfield/almanac.py:build_horizon_function"]}
{"id": "C83", "title": "The flag beside a rising or setting is honest", "statement": "Whenever find_risings or find_settings returns False for a time, the circle of the target's declination does not cross the horizon altitude; whenever it returns True, either it does or the parabola through the last two altitudes meets the horizon near them.", "quantifier": "all latitudes, declinations, horizon altitudes, altitudes and rates", "why_tests_cant": "The flag depends on exact equality of an angle with a multiple of pi, at every latitude and declination.", "anchors": ["skyfield/almanac.py:_find"]}
{"id": "C84", "title": "Rates of spherical coordinates are derivatives", "statement": "frame_latlon_and_rates (and altaz rates built on it) reports, beside latitude, longitude and distance, rates that are exactly the time derivatives of those coordinates along the motion, including the turning of the observer's horizon, wherever the direction is defined; the small constant added against division by zero changes no result.", "quantifier": "all positions, velocities and times; all binary64 values for the added constant", "why_tests_cant": "Derivatives at every point of every motion; tests compare with finite differences at a few points.", "anchors": ["skyfield/functions.py:_to_spherical_and_rates", "skyfield/positionlib.py:frame_latlon_and_rates"]}
{"id": "C85", "title": "A planetary frame's rate matrix is the derivative of its rotation", "statement": "Frame.rotation_and_rate_at returns the same rotation as rotation_at and a matrix that is its derivative per day, whatever the angles and their rates, so that a PlanetTopos has a velocity which is the derivative of its position.", "quantifier": "all angle functions with derivatives, all fixed matrices, latitudes, longitudes and distances", "why_tests_cant": "Derivative identity over all angles and rates.", "anchors": ["skyfield/planetarylib.py:Frame.rotation_and_rate_at", "skyfield/planetarylib.py:PlanetTopos._at"]}
{"id": "C86", "title": "A planetary frame is a rotation, and places on a body sit and look where they should", "statement": "Frame.rotation_at is a rotation whose third axis is the pole at the given right ascension and declination; a PlanetTopos lies at its latitude, longitude and distance, its horizon axes are north, east and up there, and the place itself seen from the centre is straight up; build_latlon_degrees refuses bodies with unequal radii and adds the elevation.", "quantifier": "all angles, places and rotations", "why_tests_cant": "All angles; sign and axis-order errors cancel at the special places tests use.", "anchors": ["skyfield/planetarylib.py:Frame.rotation_at", "skyfield/planetarylib.py:PlanetTopos.from_latlon_distance", "skyfield/planetarylib.py:PlanetTopos.rotation_at", "skyfield/planetarylib.py:PlanetaryConstants.build_latlon_degrees"]}
{"id": "C87", "title": "Velocity measured in a planetary frame is the rate of the coordinates in it", "statement": "frame_xyz_and_velocity with a planetary frame returns a velocity that is the derivative of the returned position.", "quantifier": "all frames, motions and times", "why_tests_cant": "Derivative along every motion.", "anchors": ["skyfield/planetarylib.py:Frame", "skyfield/positionlib.py:frame_xyz_and_velocity"]}
{"id": "C88", "title": "Frames with a fixed offset follow the kernel's convention", "statement": "build_frame builds, for a frame defined by Euler angles or by a matrix relative to another frame, the rotation the text kernel defines: the transpose of the product of axis rotations in the order listed, or the matrix listed column by column, transposed, applied after the other frame's rotation.", "quantifier": "all kernels, all lists of angles and axes, all matrices, all times", "why_tests_cant": "All kernels, with angle lists of any length.", "anchors": ["skyfield/planetarylib.py:PlanetaryConstants.build_frame", "skyfield/planetarylib.py:PlanetaryConstants.build_frame_named"]}
{"id": "C89", "title": "Measurement objects give back what they were given, and looking at them changes nothing", "statement": "A Distance, Velocity or Angle made from a number in some unit gives back exactly that number (bit for bit) in that unit, whatever other units were read, printed or split before; more generally no sequence of reads, str(), hms(), dms(), hstr() or dstr() calls changes what any later call returns.", "quantifier": "all classes, constructors, binary64 values and sequences of calls of any length", "why_tests_cant": "Units are computed on demand and cached in the instance, so the claim is over all interleavings of reads.", "anchors": ["skyfield/units.py:getset", "skyfield/units.py:Distance", "skyfield/units.py:Velocity", "skyfield/units.py:Angle"]}
{"id": "C90", "title": "Unit conversions are right to seven roundings", "statement": "For every way to make a Distance, Velocity or Angle, every unit read from it is within 7/2^53 of the exact conversion, using the exact astronomical unit, day and pi; the same for every angular unit and period of an AngleRate.", "quantifier": "all finite binary64 values between 2^-900 and 2^900 in size, all pairs of units", "why_tests_cant": "Rounding-error bound over all floats.", "anchors": ["skyfield/units.py:getset", "skyfield/units.py:Distance.__init__", "skyfield/units.py:Velocity.__init__", "skyfield/units.py:Angle", "skyfield/units.py:AngleRate", "skyfield/units.py:Rate"]}
{"id": "C91", "title": "Angle(angle=a) is a copy of a", "statement": "An Angle built from another has the same value in radians, degrees and hours, and is shown in the same unit.", "quantifier": "all angles", "why_tests_cant": "All values and histories of the original.", "anchors": ["skyfield/units.py:Angle.__init__"]}
{"id": "C92", "title": "Every Angle can be read, split and printed, and refuses the wrong unit", "statement": "For every Angle that can be constructed, all units can be read, str() works in the preferred unit, and hms()/hstr() or dms()/dstr() raise WrongUnitError exactly when the other unit is preferred and warn is left on.", "quantifier": "all constructor arguments, all values", "why_tests_cant": "All combinations of constructor arguments.", "anchors": ["skyfield/units.py:Angle"]}
{"id": "C93", "title": "Position angle is the bearing of the second position as seen from the first", "statement": "position_angle_of() returns the angle in [0, 360) degrees from north towards east (right ascensions), or from up towards the left (azimuths), at which the second position is seen from the first, finding the latitude by the signed attribute; no other angle has that property unless the positions coincide or are opposite.", "quantifier": "all latitudes of the first position, all of the second but exactly the poles, all longitudes", "why_tests_cant": "A claim of spherical trigonometry over all pairs of positions.", "anchors": ["skyfield/trigonometry.py:position_angle_of"]}
{"id": "C94", "title": "The stereographic plot keeps directions from the centre and small shapes", "statement": "build_stereographic_projection(center) puts the centre at (0, 0), every other position in the direction of its bearing with east to the left at tan(separation/2), no two directions at the same place, and scales neighbouring distances alike in all directions; only the opposite point has no place.", "quantifier": "all centres and positions", "why_tests_cant": "A geometric law over all pairs of directions.", "anchors": ["skyfield/projections.py:build_stereographic_projection"]}
{"id": "C95", "title": "Planetary magnitudes follow the geometry and are unknown exactly as documented", "statement": "planetary_magnitude() uses the angle Sun-planet-observer and the planetocentric latitudes of Sun and observer, follows the inverse square laws, accepts exactly the eight planets and seven barycenters, joins its piecewise formulae without visible steps, and returns nan exactly in the documented cases.", "quantifier": "all positions, targets and dates", "why_tests_cant": "All geometries, including limits between formulae that a test would have to hit.", "anchors": ["skyfield/magnitudelib.py:planetary_magnitude", "skyfield/magnitudelib.py:_saturn_magnitude", "skyfield/magnitudelib.py:_neptune_magnitude", "skyfield/magnitudelib.py:_jupiter_magnitude"]}
{"id": "C96", "title": "Phase angle and illuminated fraction are those of a ball lit by the Sun", "statement": "phase_angle(sun) is the angle at the target between the Sun and the observer; fraction_illuminated(sun), between 0 and 1, is the lit part of every chord of the disc towards the Sun's side, 1 exactly at full and 0 exactly at new phase, more light for smaller angles. The lunar node function is true exactly when the Moon is above the ecliptic.", "quantifier": "all positions of observer, target and Sun", "why_tests_cant": "Geometry of all triangles.", "anchors": ["skyfield/positionlib.py:ICRF.phase_angle", "skyfield/positionlib.py:ICRF.fraction_illuminated", "skyfield/almanac.py:phase_angle", "skyfield/almanac.py:fraction_illuminated", "skyfield/almanac.py:moon_nodes"]}
{"id": "C97", "title": "Subtracting and negating positions gives the vector between their targets", "statement": "a - b is the vector and velocity from b's target to a's target at their time, labelled with that center, target and time and given the class that belongs to the center; it is refused when the two do not start at the same center, and is never something else. -p is the vector back, likewise labelled.", "quantifier": "all positions, single or arrays, of all bodies at all times", "why_tests_cant": "The vectors, the labels, the class and the shapes combine in ways that examples with two planets at one time do not reach.", "anchors": ["skyfield/positionlib.py:ICRF.__sub__", "skyfield/positionlib.py:ICRF.__neg__", "skyfield/positionlib.py:build_position", "skyfield/positionlib.py:ICRF.__init__"]}
{"id": "C98", "title": "One element of an array of positions answers like the array", "statement": "p[i] keeps class, center and target, and its answers (radec, hadec, altaz, separation, apparent, is_sunlit, phase_angle, observe) are element i of the answers of p; an index out of range raises IndexError.", "quantifier": "all array positions, all indices, all methods", "why_tests_cant": "A commutation law between indexing and every method, over all arrays.", "anchors": ["skyfield/positionlib.py:ICRF.__getitem__", "skyfield/positionlib.py:Astrometric.apparent", "skyfield/positionlib.py:ICRF.is_sunlit"]}
{"id": "C99", "title": "Altitude, azimuth and hour angle are those of the observer's place, or are refused", "statement": "Following observe() and apparent() from a place, or subtracting the place's vector, altaz() gives the direction of the vector in the place's horizon frame at the observer's time, hadec() the direction relative to its meridian; where there is no such place a ValueError explains what is missing. from_altaz() is the inverse.", "quantifier": "all positions, centers, times and shapes", "why_tests_cant": "Which observer, rotation and time are used depends on attributes carried through several objects.", "anchors": ["skyfield/positionlib.py:_to_altaz", "skyfield/positionlib.py:ICRF.hadec", "skyfield/positionlib.py:ICRF._altaz_rotation", "skyfield/positionlib.py:ICRF.from_altaz", "skyfield/positionlib.py:Barycentric.observe"]}
{"id": "C100", "title": "Positions built from right ascension and declination give them back, in any epoch", "statement": "position_of_radec(ra, dec, distance, epoch) has that right ascension, declination and distance when asked with the same epoch; the epoch of radec() and cirs_xyz() may be a Time, a float or 'date', with the same meaning, anything else being refused with ValueError.", "quantifier": "all directions, distances, epochs and argument kinds", "why_tests_cant": "All directions and all matrices; an inverse law.", "anchors": ["skyfield/positionlib.py:position_of_radec", "skyfield/positionlib.py:ICRF.radec", "skyfield/positionlib.py:ICRF.cirs_xyz"]}
{"id": "C101", "title": "Sunlight and occultation do not depend on where the satellite is seen from", "statement": "is_sunlit() on a geocentric position and on a position relative to an observer whose geocentric position is known give the same answer: whether the ray from the satellite to the Sun misses the Earth; is_behind_earth() tells whether the segment from observer to target meets it; without the information a ValueError is raised.", "quantifier": "all bodies, observers and times", "why_tests_cant": "Geometry over all configurations together with attributes set elsewhere.", "anchors": ["skyfield/positionlib.py:ICRF.is_sunlit", "skyfield/positionlib.py:ICRF.is_behind_earth"]}
{"id": "C102", "title": "Sidereal time follows the published formulas however the date is split into two floats", "statement": "earth_rotation_angle, gmst and gast are always in [0, 1) turn or [0, 24) hours, equal the IAU 2000 and USNO Circular 179 expressions of UT1 and TDB modulo one turn, and do not depend on how the Julian date is divided between its two parts; gast differs from gmst by the equation of the equinoxes.", "quantifier": "all dates, all splits, all nutation angles", "why_tests_cant": "Reductions modulo one are applied to several pieces; an equality modulo one turn over all real dates and splits.", "anchors": ["skyfield/earthlib.py:earth_rotation_angle", "skyfield/earthlib.py:sidereal_time", "skyfield/timelib.py:Time.gmst", "skyfield/timelib.py:Time.gast", "skyfield/nutationlib.py:mean_obliquity"]}
{"id": "C103", "title": "The equinox and the CIO routes agree, and hour angle is sidereal time less right ascension", "statement": "Going to the terrestrial frame through the CIRS and the Earth rotation angle is the same rotation as through the equinox and sidereal time; hour angle is local sidereal time minus right ascension of date, and local Earth rotation angle minus CIRS right ascension; the zenith stands at right ascension lst_hours_at, to within the displacement of the pole.", "quantifier": "all times, places and directions", "why_tests_cant": "Two independent computation routes must agree as matrices for every time.", "anchors": ["skyfield/timelib.py:Time.C", "skyfield/framelib.py:TIRS.rotation_at", "skyfield/positionlib.py:ICRF.hadec", "skyfield/toposlib.py:GeographicPosition.lst_hours_at"]}
{"id": "C104", "title": "The satellite frame turns at the rate the code says and meets the terrestrial frame", "statement": "theta_GMST1982 is the 1982 sidereal angle in [0, 2 pi) and its second value is its derivative per day; TEME_to_ITRF turns positions by it, and its velocity is the derivative of its position; TEME.rotation_at followed by that turn is the TIRS rotation, so a satellite seen in the ITRS frame and by ITRF_position_velocity_error is at the same place.", "quantifier": "all times, tracks and polar offsets", "why_tests_cant": "Derivatives and identities between rotations at all times.", "anchors": ["skyfield/sgp4lib.py:theta_GMST1982", "skyfield/sgp4lib.py:TEME_to_ITRF", "skyfield/sgp4lib.py:TEME.rotation_at", "skyfield/sgp4lib.py:EarthSatellite._at", "skyfield/sgp4lib.py:EarthSatellite.ITRF_position_velocity_error"]}
{"id": "C105", "title": "Polar motion is interpolated from its table and turns the terrestrial axes; velocities of places are the rates of their positions", "statement": "Between rows the pole is on the straight line, outside it is held; the ITRS axes are the TIRS axes turned by a rotation putting the pole of rotation at (x, -y); the velocity of a place on Earth and the velocity in the ITRS frame are the derivatives of the positions.", "quantifier": "all tables, times, places and motions", "why_tests_cant": "An interpolation law over all tables; derivatives at all times.", "anchors": ["skyfield/timelib.py:Time.polar_motion_angles", "skyfield/timelib.py:Time.polar_motion_matrix", "skyfield/framelib.py:ITRS.rotation_at", "skyfield/toposlib.py:ITRSPosition._at"]}
{"id": "C106", "title": "The deprecated conversions agree with the modern ones", "statement": "terra gives the position and velocity of a geographic position in axes of date; reverse_terra undoes it; ITRF_to_GCRS and ITRF_to_GCRS2 invert the ITRS frame, velocities being derivatives.", "quantifier": "all places, times and vectors", "why_tests_cant": "Inverse laws over all places including the poles, and a difference quotient over all times of day.", "anchors": ["skyfield/earthlib.py:terra", "skyfield/earthlib.py:reverse_terra", "skyfield/positionlib.py:ITRF_to_GCRS", "skyfield/positionlib.py:ITRF_to_GCRS2"]}
{"id": "C107", "title": "Nutation is the published series of its tables, whatever reductions are made on the way", "statement": "For a single date, iau2000a with k polynomial coefficients, l lunisolar and p planetary terms returns exactly the sums of the first l and p table rows with the unreduced Simon et al. (1994) and Souchay et al. (1999) arguments; iau2000b is the 77-term sum with its two constant offsets.", "quantifier": "all dates, tables, term counts and 2 <= k <= 5", "why_tests_cant": "fmod to one circle, Horner evaluation, slicing and three separate dot products must amount to the printed series at every date.", "anchors": ["skyfield/nutationlib.py:iau2000a", "skyfield/nutationlib.py:iau2000b", "skyfield/nutationlib.py:fundamental_arguments"]}
{"id": "C108", "title": "fundamental_arguments(t, terms) gives the five mean elements cut after that many polynomial terms", "statement": "The arguments are those polynomials modulo one turn, in (-2 pi, 2 pi).", "quantifier": "all t, all counts of terms", "why_tests_cant": "Modular equality over all real times and a slice with a negative start.", "anchors": ["skyfield/nutationlib.py:fundamental_arguments"]}
{"id": "C109", "title": "Nutation of an array of dates is the nutation of each date", "statement": "iau2000a of an array returns, in each place, what it returns for that date alone, for every choice of terms.", "quantifier": "all non-empty arrays, tables and term counts", "why_tests_cant": "Broadcasting, outer products and transpositions of matrices of any size.", "anchors": ["skyfield/nutationlib.py:iau2000a", "skyfield/nutationlib.py:fundamental_arguments"]}
{"id": "C110", "title": "Asking for fewer nutation terms costs no more than the omitted coefficients", "statement": "Results with fewer lunisolar or planetary terms differ from those with more by at most the sum of the absolute values of the coefficients left out.", "quantifier": "all dates, tables and term counts", "why_tests_cant": "An error bound over all dates and tables.", "anchors": ["skyfield/nutationlib.py:iau2000a"]}
{"id": "C111", "title": "iau2000b agrees with iau2000a to within a milliarcsecond between 1995 and 2020", "statement": "The documented accuracy of the fast nutation that the almanac routines use, and its effect on apparent sidereal time.", "quantifier": "all dates from 1995 to 2020", "why_tests_cant": "A supremum over a continuum of dates of a difference of 1365 sinusoids.", "anchors": ["skyfield/nutationlib.py:iau2000b", "skyfield/nutationlib.py:iau2000b_radians", "skyfield/timelib.py:Time.gast"]}
{"id": "C112", "title": "Complementary terms, units and earth_tilt are consistent with nutation and sidereal time", "statement": "The complementary terms equal the IERS series with unreduced arguments, which are nutation's own arguments to 2 microarcseconds; with Skyfield's table they stay below 2.75 mas plus 0.87 microarcseconds per century; both ways of setting nutation angles give the same radians; earth_tilt's equation of the equinoxes is gast - gmst and its obliquities differ by the nutation in obliquity.", "quantifier": "all dates, tables, times and angles", "why_tests_cant": "Equality modulo one turn of two separately typed sets of polynomials at all dates.", "anchors": ["skyfield/nutationlib.py:equation_of_the_equinoxes_complimentary_terms", "skyfield/nutationlib.py:iau2000a_radians", "skyfield/nutationlib.py:earth_tilt", "skyfield/timelib.py:Time._nutation_angles"]}
{"id": "C113", "title": "utc_strftime prints the format with every directive replaced by its value for the rounded time", "statement": "Every directive of the format is replaced by what it stands for, '%f' by six digits of microseconds, '%%' by a percent sign; seconds are rounded to nearest when the smallest unit shown is the second, microseconds are truncated, and weekday and day of year fit the date shown.", "quantifier": "all formats, times, leap second tables and calendars", "why_tests_cant": "Formats are arbitrary text; the regular expressions and the '%Z' trick must agree with the C library's reading of every format.", "anchors": ["skyfield/timelib.py:Time.utc_strftime", "skyfield/timelib.py:_strftime", "skyfield/timelib.py:_strftime_offset_seconds"]}
{"id": "C114", "title": "A UTC text whose smallest unit is the minute shows the nearest minute", "statement": "The minute shown begins no further from the time than any other minute does.", "quantifier": "all times and leap second tables", "why_tests_cant": "Minutes of 61 seconds; distances to all other minutes.", "anchors": ["skyfield/timelib.py:Time.utc_strftime", "skyfield/timelib.py:Time._utc_tuple"]}
{"id": "C115", "title": "tai_, tt_, tdb_ and ut1_strftime print the rounded calendar date of their scale", "statement": "The text is the format with its directives replaced by the date and clock nearest to the time in that scale, with the right weekday, day and week of the year.", "quantifier": "all formats, times and calendars", "why_tests_cant": "Fractions of days split into clock fields at every boundary, over all formats.", "anchors": ["skyfield/timelib.py:Timescale._strftime", "skyfield/timelib.py:Time.tt_strftime", "skyfield/timelib.py:Time.tai_strftime"]}
{"id": "C116", "title": "Calendar tuples denote exactly the time they were made from", "statement": "tai_calendar, tt_calendar, tdb_calendar and ut1_calendar return an existing date and a clock within range that denote the time itself, and return the fields a time was built from.", "quantifier": "all times and calendars", "why_tests_cant": "A bijection between real times and clock fields under both calendars.", "anchors": ["skyfield/timelib.py:calendar_tuple", "skyfield/timelib.py:Time.tt_calendar", "skyfield/timelib.py:Timescale._jd"]}
{"id": "C117", "title": "Kernel lookups by name, code and membership agree with one another", "statement": "A name or code is in the kernel exactly if decode() finds it; decode() returns a body the kernel has, under a name of the table whatever its case; names() lists exactly the names of bodies present, each body once; every listed name decodes to its body; a closed kernel holds nothing.", "quantifier": "all name tables, kernels and arguments", "why_tests_cant": "The tables have hundreds of aliases and kernels any set of segments; consistency is a relation among four methods.", "anchors": ["skyfield/jpllib.py:SpiceKernel.decode", "skyfield/jpllib.py:SpiceKernel.names", "skyfield/jpllib.py:SpiceKernel.__contains__", "skyfield/jpllib.py:SpiceKernel.close"]}
{"id": "C118", "title": "Printing a kernel lists every segment under its file and its dates", "statement": "Each segment is printed in order under the line of the file and date range it belongs to, and the dates printed are those of the range.", "quantifier": "all kernels", "why_tests_cant": "Headers are only printed on change; whether every segment reads back under its own range needs all sequences.", "anchors": ["skyfield/jpllib.py:SpiceKernel.__str__", "skyfield/jpllib.py:_format_segment"]}
{"id": "C119", "title": "Asking a segment for a time outside it raises an error with the segment's dates", "statement": "The error raised carries the calendar dates and times of both ends of the segment.", "quantifier": "all segments and calendars", "why_tests_cant": "All dates under both calendars, for each kind of segment.", "anchors": ["skyfield/jpllib.py:ChebyshevPosition._at", "skyfield/jpllib.py:ChebyshevPositionVelocity._at", "skyfield/errors.py:EphemerisRangeError"]}
{"id": "C120", "title": "Packed dates and comet designations of the Minor Planet Center are unpacked to what they stand for", "statement": "A packed epoch gives the Julian date of midnight of its date; unpacking a packed provisional designation gives the written one.", "quantifier": "all dates of the years 0 to 3599, all designations", "why_tests_cant": "Letters code numbers; all combinations of century, year, number and fragment.", "anchors": ["skyfield/data/mpc.py:mpcorb_orbit", "skyfield/data/mpc.py:unpack"]}
{"id": "C121", "title": "Stellarium files of constellations and star names are read back completely", "statement": "Whatever the comments, blank lines and spacing, the parser returns exactly the outlines and names written; an outline with an odd count of stars is an error.", "quantifier": "all files in the documented form", "why_tests_cant": "All spacings, names and lengths.", "anchors": ["skyfield/data/stellarium.py:parse_constellations", "skyfield/data/stellarium.py:parse_star_names"]}
{"id": "C122", "title": "Legacy Delta T tables join data and predictions without overlap, each at its date", "statement": "The table holds all data and exactly the predictions later than the last datum, in order of date; rows are at the midnight their date or decimal year stands for.", "quantifier": "all tables in order of date, all dates", "why_tests_cant": "Where the two files overlap varies with time; all decimal years.", "anchors": ["skyfield/io_timescale.py:_build_legacy_data", "skyfield/io_timescale.py:parse_deltat_data", "skyfield/io_timescale.py:parse_deltat_preds", "skyfield/timelib.py:julian_date"]}
{"id": "C123", "title": "Earth orientation files are read by their columns and dated at midnight UTC", "statement": "Every complete row gives its date, pole and UT1 values exactly, rows without values are skipped, and the installed table has the TT of midnight UTC of each row, in increasing order.", "quantifier": "all rows, leap second tables and calendars", "why_tests_cant": "Columns with all signs and widths; leap seconds between rows.", "anchors": ["skyfield/data/iers.py:parse_x_y_dut1_from_finals_all", "skyfield/data/iers.py:install_polar_motion_table"]}
{"id": "C124", "title": "Satellites of a TLE file are found under their number, name and alias", "statement": "A name 'A (B)' is listed under itself, 'A' and 'B'; lookups find the last satellite of the file that has the key.", "quantifier": "all names and files", "why_tests_cant": "All names with brackets; duplicates in any order.", "anchors": ["skyfield/iokit.py:parse_tle", "skyfield/iokit.py:Loader.tle"]}
{"id": "C125", "title": "Angles mean the same to every constructor in every form they may be given", "statement": "Star, Topos, wgs84.latlon, from_altaz and position_of_radec each give exactly the angle the argument stands for - number, array, list, (units, minutes, seconds) or Angle - or raise.", "quantifier": "all arguments of all kinds", "why_tests_cant": "Every combination of kinds of argument, signs (including minus zero degrees) and lengths of tuples.", "anchors": ["skyfield/units.py:_interpret_angle", "skyfield/units.py:_unsexagesimalize", "skyfield/toposlib.py:Topos.__init__", "skyfield/starlib.py:Star.__init__", "skyfield/positionlib.py:position_of_radec", "skyfield/positionlib.py:Apparent.from_altaz"]}
{"id": "C126", "title": "Text of a latitude or longitude has the value and direction written", "statement": "A number followed by N, S, E or W in either case, with any blanks, gives that number with the sign of its direction; text without a direction is refused.", "quantifier": "all numbers and spacings", "why_tests_cant": "All numbers, letters and blanks.", "anchors": ["skyfield/units.py:_ltude", "skyfield/toposlib.py:Topos.__init__"]}
{"id": "C127", "title": "A star read from a catalogue has the catalogue's values", "statement": "Star.from_dataframe keeps every column it is documented to take; a Hipparcos line gives a star at its right ascension and declination in degrees, with its motions and parallax, at the epoch 1991.25.", "quantifier": "all lines and data frames", "why_tests_cant": "All values of all fields.", "anchors": ["skyfield/starlib.py:Star.from_dataframe", "skyfield/data/hipparcos.py:load_dataframe"]}
{"id": "C128", "title": "Every time of an array is the sum of the Julian date and fraction given for it", "statement": "tt_jd(jd, fraction), tai_jd and ut1_jd, given numbers, sequences or arrays of any number of dimensions, produce at every index the time jd + fraction of that index.", "quantifier": "all arrays, shapes, types of number and indices", "why_tests_cant": "Every combination of number, list and array, of integer and float elements and of shapes.", "anchors": ["skyfield/timelib.py:Timescale.tt_jd", "skyfield/timelib.py:Timescale.tai_jd", "skyfield/timelib.py:Timescale.ut1_jd", "skyfield/timelib.py:_normalize_jd_and_fraction", "skyfield/functions.py:_to_array", "skyfield/functions.py:_reconcile"]}
{"id": "C129", "title": "Building times leaves the caller's arrays alone, and the other way round", "statement": "No constructor changes an array passed to it, and changing the array afterwards does not change the time.", "quantifier": "all arrays and later changes", "why_tests_cant": "Aliasing shows only when some later statement writes to the array.", "anchors": ["skyfield/timelib.py:Timescale.tt_jd", "skyfield/timelib.py:Timescale.tai_jd", "skyfield/timelib.py:Timescale.ut1_jd", "skyfield/timelib.py:Timescale.J", "skyfield/functions.py:_reconcile"]}
{"id": "C130", "title": "Indexing an array of times gives the time at that index", "statement": "t[i] exists exactly for i below len(t); its parts, and so its TT, are those of index i, whatever the number of dimensions.", "quantifier": "all array times and indices", "why_tests_cant": "Every constructor, shape and index.", "anchors": ["skyfield/timelib.py:Time.__getitem__", "skyfield/timelib.py:Time.__len__", "skyfield/timelib.py:Timescale.J"]}
{"id": "C131", "title": "A datetime with a time zone denotes its instant, whatever the zone", "statement": "from_datetime(s), utc(datetime), utc(date) and now() give the TAI instant that the datetime stands for; datetimes that are the same instant in different zones give equal times and later ones give later times; naive datetimes, and those whose UTC lies outside the years 1-9999, are refused.", "quantifier": "all datetimes, zones with any offset, timescales and calendars", "why_tests_cant": "Every instant in every zone, and the two ends of Python's calendar.", "anchors": ["skyfield/timelib.py:Timescale.from_datetime", "skyfield/timelib.py:Timescale.from_datetimes", "skyfield/timelib.py:Timescale.utc", "skyfield/timelib.py:Timescale.now", "skyfield/timelib.py:_datetime_to_utc_tuple"]}
{"id": "C132", "title": "astimezone shows the nearest microsecond of the time in the zone", "statement": "astimezone and astimezone_and_leap_second return the datetime of the zone that stands for the nearest microsecond, with the leap second flagged, and give a datetime that converts back to that instant; they raise exactly when the calendar date is not Python's or the zone's clock leaves the years 1-9999.", "quantifier": "all times, zones whose offset varies with the instant, timescales and calendars", "why_tests_cant": "Every instant, zone and transition.", "anchors": ["skyfield/timelib.py:Time.astimezone", "skyfield/timelib.py:Time.astimezone_and_leap_second", "skyfield/timelib.py:Time.utc_datetime", "skyfield/timelib.py:Time.utc_datetime_and_leap_second"]}
{"id": "C133", "title": "The message of a refused datetime tells what is wrong", "statement": "When a datetime cannot be made, the message about a negative year appears only for negative years, and the message about February 29 only for dates that exist in the Julian but not in the Gregorian calendar.", "quantifier": "all times, timescales and zones", "why_tests_cant": "The message depends on a date far outside those tested.", "anchors": ["skyfield/timelib.py:Time.utc_datetime_and_leap_second", "skyfield/timelib.py:_upgrade_datetime_exception"]}
{"id": "C134", "title": "A satellite's epoch is the UTC moment its elements state", "statement": "The epoch of an EarthSatellite is the TAI instant of the UTC moment stated by its elements, whether built from two lines (two-digit year standing for 1957-2056, fractional day of the year), from a Satrec or from an OMM dictionary; utc, tai and tt accept fractional days in general; the target code tells catalogue numbers apart and clashes with no JPL code.", "quantifier": "all elements since 1957, timescales with any leap seconds, and calendars that are Gregorian since 1957", "why_tests_cant": "Every year, day and fraction of a day, and every leap second table.", "anchors": ["skyfield/sgp4lib.py:EarthSatellite.__init__", "skyfield/sgp4lib.py:EarthSatellite.from_satrec", "skyfield/sgp4lib.py:EarthSatellite.from_omm", "skyfield/sgp4lib.py:EarthSatellite._setup", "skyfield/timelib.py:Timescale.utc", "skyfield/timelib.py:julian_day"]}
{"id": "C135", "title": "SGP4 is given the UTC Julian date of the time asked for", "statement": "The two numbers given to SGP4 add up to the UTC Julian date of the time, so that nothing has elapsed at the epoch, later times are later for SGP4, and the minutes since the epoch are those that have passed.", "quantifier": "all times and satellites, timescales with any leap seconds", "why_tests_cant": "Every time, including those within or across leap seconds.", "anchors": ["skyfield/sgp4lib.py:EarthSatellite._position_and_velocity_TEME_km", "skyfield/timelib.py:Time._leap_seconds"]}
{"id": "C136", "title": "The map of constellations follows the catalogue", "statement": "The constellation map built from Roman's catalogue names, for every position, the constellation of the first row of the catalogue whose lower declination is not above the position and whose right ascensions take it in; every catalogue that spans the sky can be built, and the rule never names two constellations.", "quantifier": "all catalogues in order of declination that span the sky, all positions", "why_tests_cant": "Every position on the sphere and every catalogue; the grid is built by search and overwriting.", "anchors": ["skyfield/constellationlib.py:load_constellation_map", "builders/build_constellations.py:main"]}
{"id": "C137", "title": "Names of constellations are read as written", "statement": "load_constellation_names returns, line by line and in order, the abbreviation before the first blank and the full name after it, even with blanks in the name.", "quantifier": "all files of abbreviation, blank, name", "why_tests_cant": "Every file.", "anchors": ["skyfield/constellationlib.py:load_constellation_names"]}
{"id": "C138", "title": "Minor planets and comets are read by the documented columns", "statement": "load_mpcorb_dataframe and load_comets_dataframe_slow give, row by row and name by name, what stands in the columns that the Minor Planet Center documents for that name, without the blanks around it.", "quantifier": "all files of lines laid out in the documented columns", "why_tests_cant": "Every line and every width of every field; one column too few loses a digit only in long values.", "anchors": ["skyfield/data/mpc.py:load_mpcorb_dataframe", "skyfield/data/mpc.py:load_comets_dataframe_slow"]}
{"id": "C139", "title": "The fast reader of comets gives the fields of an orbit", "statement": "load_comets_dataframe, which rewrites the file by a regular expression, gives for every line the same year, month, day, distance, eccentricity, angles, magnitudes, designation and reference as stand in the documented columns.", "quantifier": "all files of lines laid out in the documented columns", "why_tests_cant": "Every line, including long designations and missing references.", "anchors": ["skyfield/data/mpc.py:load_comets_dataframe"]}
{"id": "C140", "title": "An angle typed to the displayed precision prints as typed, in floating point", "statement": "An angle given as a decimal number, or as a tuple of units, minutes and seconds, that is a whole number of units of the last printed place, is printed by dstr and hstr as exactly that number of units, whatever rounding happens in binary64 between typing and printing; only the sign of the units of the tuple matters.", "quantifier": "all angles up to 2^47 units of the last place and all numbers of places up to 12", "why_tests_cant": "Every value of every field at every precision; rounding errors depend on the bits.", "anchors": ["skyfield/units.py:_sexagesimalize_to_int", "skyfield/units.py:_unsexagesimalize", "skyfield/units.py:_sfmt"]}
{"id": "C141", "title": "The printed fields denote the nearest angle, in floating point", "statement": "As the docstring says, the integers of _sexagesimalize_to_int mean that the float given was closer to that angle than to the angles one unit of the last place away; minutes and seconds are below 60 and the fraction below one second.", "quantifier": "all finite angles below 2^50 units of the last place, of either sign, and all numbers of places up to 12", "why_tests_cant": "Floats next to half a unit are too many to try.", "anchors": ["skyfield/units.py:_sexagesimalize_to_int"]}
{"id": "C142", "title": "A time keeps whole days and the fraction of a day apart", "statement": "The two numbers in which a Time holds its instant are split as the precision documentation says: from a Julian date, and from a UTC date, the first is a whole number of days and the second is within one day (and one second, at a leap second); from a TT or TAI calendar date the first is midnight and the second the part of the day that the clock shows; a fraction given separately is stored as given.", "quantifier": "all Julian dates, all calendar dates and clock readings within a day, with any leap second table and calendar cutoff", "why_tests_cant": "The sum is right even when the two parts are swapped or unbalanced, so that tests of the sum cannot see the lost digits.", "anchors": ["skyfield/timelib.py:tt_jd", "skyfield/timelib.py:tai_jd", "skyfield/timelib.py:_jd", "skyfield/timelib.py:_utc", "skyfield/timelib.py:_utc_jd", "skyfield/timelib.py:_normalize_jd_and_fraction"]}
{"id": "C143", "title": "The built-in inertial frames are the rotations they are defined to be", "statement": "Every matrix of the table of inertial frames is, to all the digits of a float, the product of the rotations by which SPICE defines the frame, and every frame that SPICE defines has its matrix; the galactic frame has its pole at 12h49m, +27.4 degrees of B1950 and the celestial pole at longitude 123 degrees; points of the ecliptic of J2000 have latitude zero.", "quantifier": "all 21 frames; all points of the ecliptic", "why_tests_cant": "A typo in the fifteenth digit of one of 189 numbers, or a wrong angle in a definition used by few, passes tests of tolerance or of other frames.", "anchors": ["skyfield/data/spice.py:inertial_frames", "builders/build_spice.py", "skyfield/framelib.py:InertialFrame"]}
{"id": "C144", "title": "Changing the frame keeps lengths and angles", "statement": "In every reference frame of framelib, at every time, a position keeps its length, two positions keep their scalar product and the transposed matrix takes a vector back, to a relative 1e-13 (4e-15 for the fixed frames); the rest is the frame bias, which is only nearly orthogonal.", "quantifier": "all vectors, all frames, all times", "why_tests_cant": "Defects of orthogonality of size 1e-13 depend on direction and date.", "anchors": ["skyfield/framelib.py:mean_equator_and_equinox_of_date", "skyfield/framelib.py:true_equator_and_equinox_of_date", "skyfield/framelib.py:build_ecliptic_matrix", "skyfield/framelib.py:ICRS", "skyfield/framelib.py:InertialFrame"]}
{"id": "C145", "title": "Latitude and longitude in a frame", "statement": "frame_latlon returns a latitude within a quarter turn, a longitude within one turn and a distance that together give back the vector; of arrays, each item is what the item alone gives; points of the true ecliptic of date have latitude zero and their distance from the equinox as longitude; in the true equator frame they are declination and right ascension of date; the deprecated ecliptic and galactic methods are these frames, with the epoch meaning what radec means by it.", "quantifier": "all positions, times, frames and kinds of epoch argument", "why_tests_cant": "Directions near poles and the many combinations of arguments.", "anchors": ["skyfield/positionlib.py:frame_latlon", "skyfield/positionlib.py:frame_xyz", "skyfield/positionlib.py:ecliptic_xyz", "skyfield/positionlib.py:ecliptic_velocity", "skyfield/positionlib.py:ecliptic_latlon", "skyfield/positionlib.py:galactic_xyz", "skyfield/positionlib.py:galactic_latlon", "skyfield/positionlib.py:_Fake"]}
{"id": "C146", "title": "Timescale.linspace gives evenly spaced times", "statement": "linspace(t0, t1, num) has num times; the one at index i is t0 plus i/(num-1) of the time from t0 to t1 in TT; the first has the two numbers of t0 and the last those of t1; with num = 1 it is t0 alone, with num = 0 it is empty.", "quantifier": "all pairs of times, in either order, however each was built, and every num", "why_tests_cant": "A test looks at one pair and one num; the two numbers that hold a time are spaced separately, and only for all pairs does their sum have to be even.", "anchors": ["skyfield/timelib.py:linspace"]}
{"id": "C147", "title": "Precession agrees with the three-angle expressions of the IAU 2006 theory", "statement": "The precession matrix of every date, which the program computes from four angles, agrees with the product of rotations by the separately published angles zeta, z and theta: to 2e-12 within a century of J2000 and to 2e-8 (4 milliarcseconds) within ten.", "quantifier": "all dates within ten centuries of J2000", "why_tests_cant": "A wrong digit in one coefficient of a polynomial shows only far from J2000 and below the tolerances of tests.", "anchors": ["skyfield/precessionlib.py:compute_precession"]}
{"id": "C148", "title": "The ecliptic frame of date has its pole at the pole of the ecliptic", "statement": "In the ecliptic frame of date the pole of the ecliptic, by the separately published IAU 2006 expressions for its motion, is the third axis to 1e-12 within a century of J2000 and 5e-8 within ten, whatever the nutation; and precession with the mean obliquity takes it there to 4e-13 and 21e-9. So mean obliquity and precession belong together.", "quantifier": "all dates within ten centuries of J2000, all nutation angles", "why_tests_cant": "Mean obliquity and precession are separate polynomials; only together, at all dates, do they put the equinox on the ecliptic.", "anchors": ["skyfield/framelib.py:build_ecliptic_matrix", "skyfield/nutationlib.py:mean_obliquity", "skyfield/nutationlib.py:build_nutation_matrix", "skyfield/precessionlib.py:compute_precession", "skyfield/timelib.py:M"]}
{"id": "C149", "title": "Sidereal time follows the equinox of the precession matrix", "statement": "Greenwich mean sidereal time exceeds the Earth rotation angle by a smooth function of time, whose rate is the rate at which the equinox of the precession matrix moves along the moving equator, but for 3.4 to 4.4 milliarcseconds per century (the mean effect of nutation, which the definition of sidereal time includes).", "quantifier": "all UT1 and TDB dates; the rate for all dates within ten centuries of J2000", "why_tests_cant": "The coefficients of sidereal time and of precession are separate literals; a slip in one accumulates over centuries.", "anchors": ["skyfield/earthlib.py:sidereal_time", "skyfield/earthlib.py:earth_rotation_angle", "skyfield/precessionlib.py:compute_precession"]}
{"id": "C150", "title": "Osculating elements give the size, shape and period of the two-body orbit", "statement": "If a body moves under the attraction of the given GM from the state that was passed in, then: its speed obeys the vis-viva equation with the reported semi-major axis; its least distance is the reported periapsis distance and its greatest the reported apoapsis distance (or the distance has no bound when that is infinite); every place it visits lies on the conic with the reported semi-axes and its focus at the center; the reported period is the shortest time after which position and velocity recur (and no place is visited twice when it is infinite); mean motion times period is one turn.", "quantifier": "all states with angular momentum, all positive GM, all motions, all times", "why_tests_cant": "A test compares elements with a table for a few orbits; the attributes are defined by separate formulas for closed, parabolic and open orbits, and only a proof ties each to what the body does at all times.", "anchors": ["skyfield/elementslib.py:OsculatingElements", "skyfield/elementslib.py:semi_major_axis", "skyfield/elementslib.py:period"]}
{"id": "C151", "title": "Elements stay put along the motion and periapsis time is when the body is at periapsis", "statement": "Along a two-body motion the semi-latus rectum, eccentricity, inclination, node and argument of periapsis do not change; periapsis_time is a time at which the body is at the periapsis distance in the direction given by the angles, moving at right angles to it: the last such time, less than one period ago, for an ellipse, and the only one for an open orbit; the mean anomaly grows uniformly at the mean motion.", "quantifier": "all states with angular momentum, all positive GM, all motions and times", "why_tests_cant": "A test checks the elements at one time; that the element set describes the whole motion is a statement about all times.", "anchors": ["skyfield/elementslib.py:OsculatingElements", "skyfield/elementslib.py:time_since_periapsis", "skyfield/elementslib.py:true_anomaly"]}
{"id": "C152", "title": "Reference frame and GM of osculating_elements_of", "statement": "In another reference frame the size, shape, anomalies and times are the same, and the orbit's pole and line of apsides are turned by the frame's rotation; the GM is the sum for the two bodies, the same with center and target exchanged, that of the whole system about a barycenter, and refused when unknown; the GM of every system is that of its members.", "quantifier": "all states, all rotations, all pairs of bodies", "why_tests_cant": "A test uses one frame and one pair; the angles are recomputed from the turned vectors with case distinctions, and every pair of codes is a different lookup.", "anchors": ["skyfield/elementslib.py:osculating_elements_of", "skyfield/data/gravitational_parameters.py:GM_dict"]}
{"id": "C153", "title": "Elements of an array of states are the elements of each state", "statement": "Every attribute of the elements of an array of states holds at index k what the elements of the k-th state alone hold.", "quantifier": "all arrays of states, all positive GM, every index", "why_tests_cant": "Each attribute is written twice, once with masks and once with if; tests compare a few orbits, and the conditions of the two versions differ.", "anchors": ["skyfield/elementslib.py:OsculatingElements"]}
{"id": "C154", "title": "The layout of a text kernel does not matter", "statement": "The assignments of a text kernel are its tokens in order: comments outside \\begindata and \\begintext are skipped, an assignment may run over any number of lines, tokens may be separated by any spaces and commas or touch where that is unambiguous, and files of another kind are refused.", "quantifier": "all files, all ways of writing the tokens", "why_tests_cant": "Tests read two or three kernels; the tokens are found by one regular expression on each line after strip, and which text it takes apart correctly is not visible from those.", "anchors": ["skyfield/data/text_pck.py:_parse_tokens", "skyfield/data/text_pck.py:_parse_assignments", "skyfield/planetarylib.py:read_text"]}
{"id": "C155", "title": "Variables read from a text kernel have the values written there", "statement": "After read_text, every variable holds the number or text written in its last assignment, followed by what += added since; integers, decimals and powers of ten with E, e or D mean the numbers they are written as; other variables keep their values.", "quantifier": "all kernels, all variables, all numerals and texts", "why_tests_cant": "Tests check a few values of the shipped frames; a digit string, a sign or an exponent in another form is never exercised.", "anchors": ["skyfield/data/text_pck.py:_evaluate", "skyfield/data/text_pck.py:load", "skyfield/planetarylib.py:read_text"]}
{"id": "C156", "title": "Every way of asking for a file agrees on its address, its place on disk and what is done with it", "statement": "For the standard loader, build_url gives exactly the published directory for the names it knows (the five named files, kernels starting with jup, other .bsp kernels) followed by the name; calling the loader, opening the URL and download all request that URL and store it at path_to(name); an existing file is parsed, opened as a kernel or opened as a binary file according to its name, without a request; other names are refused without a request.", "quantifier": "all names, directories and states of the disk", "why_tests_cant": "Tests try a few names with a mocked download; the tables are searched by name, extension and pattern, and agreement between the four methods is not tested.", "anchors": ["skyfield/iokit.py:build_url", "skyfield/iokit.py:Loader.download", "skyfield/iokit.py:Loader.__call__", "skyfield/iokit.py:_search"]}
{"id": "C157", "title": "Which data a timescale is made from", "statement": "load.timescale() makes no request and reads no file; with builtin=False it uses the three files of old versions when all are present, without any request, and otherwise finals2000A.all, which is requested exactly when it is missing; delta_t replaces only Delta T.", "quantifier": "all directories, all sets of files present, all delta_t", "why_tests_cant": "Tests check the cases with a mocked loader one by one; a combination of present files that triggers a surprise download is not visible from them.", "anchors": ["skyfield/iokit.py:timescale"]}
{"id": "C158", "title": "The bundled Earth orientation arrays are the arrays they were made from, to the last bit", "statement": "Unpacking the bundled arrays gives, bit for bit in binary64, the dates and the Delta T values that build_timescale_arrays computed when the file was made.", "quantifier": "all lists of dates from 1030 to 6771 and all Delta T values with seven digits", "why_tests_cant": "The packing subtracts and re-adds the index and multiplies and divides by 1e7, in floating point; that nothing is lost holds for reasons of rounding that a test of the present data cannot show for the next release's data.", "anchors": ["skyfield/iokit.py:timescale", "builders/build_arrays.py:rebuild_iers_npz"]}
{"id": "C159", "title": "Every season, Moon phase and solar term in the interval is found once, in order, with its name", "statement": "For the functions built by seasons, moon_phases and solar_terms, find_discrete(t0, t1, f) returns exactly one event for each multiple of 90 (or 15) degrees that the longitude, or the Moon's elongation, passes after t0 and up to t1, in order, each within a millisecond after the passage and with the label of the season, phase or term that begins there.", "quantifier": "all longitudes as functions of time that advance continuously, at most three quarters of a turn in 90 days (7 days for the Moon; 23/24 of a turn in 14 days for solar terms); all intervals", "why_tests_cant": "Tests list the events of a few years from one ephemeris; that the step, the sampling, the zooming and the codes together miss or double nothing is a statement about all intervals.", "anchors": ["skyfield/almanac.py:seasons", "skyfield/almanac.py:moon_phases", "skyfield/almanac_east_asia.py:solar_terms", "skyfield/searchlib.py:find_discrete"]}
{"id": "C160", "title": "Oppositions, conjunctions and meridian transits are found once each with the documented codes", "statement": "Searching the functions of oppositions_conjunctions and meridian_transits finds one event for each multiple of half a turn that the difference of longitudes (right ascensions) passes, within a millisecond, coded as the documentation says: 0 conjunction and 1 opposition for outer planets, the reverse for the Moon, 0 inferior and 1 superior conjunction for planets that stay near the Sun; 1 meridian and 0 antimeridian transit.", "quantifier": "all continuous motions of the target relative to the Sun or the meridian, all intervals", "why_tests_cant": "Tests check Mars and Moon in one year; whether two events fit between two samples depends on the speed of the target, which changes from month to month.", "anchors": ["skyfield/almanac.py:oppositions_conjunctions", "skyfield/almanac.py:meridian_transits", "skyfield/searchlib.py:find_discrete"]}
{"id": "C161", "title": "Risings, settings, nodes and twilights are found once each with their codes", "statement": "Searching the functions of sunrise_sunset, risings_and_settings and moon_nodes finds one event per crossing of the threshold, in order, within a millisecond after it, coded 1 upwards and 0 downwards, when the crossings are at least step_days apart; dark_twilight_day gives at dawn and at dusk one event for each of the altitudes -18, -12, -6 and -0.8333 degrees that the Sun passes.", "quantifier": "all altitudes and latitudes as functions of time, all intervals", "why_tests_cant": "Tests use a few places and dates; the samples fall at other moments for each interval asked for.", "anchors": ["skyfield/almanac.py:sunrise_sunset", "skyfield/almanac.py:dark_twilight_day", "skyfield/almanac.py:risings_and_settings", "skyfield/almanac.py:moon_nodes", "skyfield/searchlib.py:find_discrete"]}
{"id": "C162", "title": "In floating point, calendar dates and texts of TT and TAI keep the instant, and whole seconds print as entered", "statement": "In IEEE double arithmetic calendar_tuple of any time returns a date of the calendar, an hour, a minute and a second below 60 that together differ from the Julian date by less than 2^-34 s; a date entered with a float second reads back within 2^-33 s; tt_strftime and tai_strftime print the nearest second or minute; a date entered in whole seconds is printed as entered, with its weekday and day of the year; %f prints the microsecond under way; and entered microseconds, weekday and day of year agree with the printed date.", "quantifier": "all dates within a billion days, all float seconds, all calendar cutoffs from AD 200, all floats as parts of a time", "why_tests_cant": "Tests print a few dates; which seconds lose their last bit in the division by 86400 is different for every second of the day, and the source itself asks whether weekday and date can disagree.", "anchors": ["skyfield/timelib.py:Timescale._jd", "skyfield/timelib.py:Timescale._strftime", "skyfield/timelib.py:calendar_tuple", "skyfield/timelib.py:Time.tt_strftime", "skyfield/timelib.py:Time.tai_strftime"]}
{"id": "C163", "title": "A comet is where its listed elements and perihelion date place it", "statement": "The Newtonian motion through the state of a comet's orbit puts the comet, at every time, at the point of the ellipse, parabola or hyperbola with the listed perihelion distance, eccentricity and angles whose anomaly solves Kepler's or Barker's equation for the time since the listed perihelion date, day fraction included; and what at() returns, turned back to the ecliptic of J2000, is within an explicit bound of that point.", "quantifier": "all perihelion distances, eccentricities, angles, dates, calendar cutoffs, masses and times", "why_tests_cant": "Tests compare a few comets with JPL Horizons at a few times to loose tolerances; a wrong branch between the three conic types or in the fractional day shows up only for some rows.", "anchors": ["skyfield/data/mpc.py:comet_orbit", "skyfield/data/mpc.py:_comet_orbits", "skyfield/keplerlib.py:_KeplerOrbit._from_periapsis", "skyfield/keplerlib.py:_KeplerOrbit._at", "skyfield/timelib.py:julian_day"]}
{"id": "C164", "title": "A minor planet is where its listed mean anomaly and elements place it", "statement": "Unless the object is exactly at aphelion at its epoch, the motion through the state of its orbit follows, at every time, the ellipse with the listed semimajor axis, eccentricity and angles, and its mean anomaly grows from the listed value at the epoch (to 5e-14 radian) by Kepler's third law; rows with eccentricity up to 0.85 are never refused.", "quantifier": "all semimajor axes, eccentricities up to 1-1e-13, angles, mean anomalies, epochs, masses and times", "why_tests_cant": "Tests check a handful of asteroids at one date each.", "anchors": ["skyfield/data/mpc.py:mpcorb_orbit", "skyfield/keplerlib.py:_KeplerOrbit._from_mean_anomaly", "skyfield/keplerlib.py:eccentric_anomaly"]}
{"id": "C165", "title": "elements_at_epoch gives back the elements an orbit was built from", "statement": "For orbits of comets and minor planets elements_at_epoch returns the eccentricity and inclination exactly, the semilatus rectum in kilometres, and node and argument of perihelion up to whole turns in [0, 360) degrees; epoch and mass are kept.", "quantifier": "all orbits with eccentricity above 1e-15 and inclination strictly between 0 and 180 degrees", "why_tests_cant": "The round trip passes through two unit conversions and a state vector; tests look at a few fields of a few objects.", "anchors": ["skyfield/keplerlib.py:_KeplerOrbit.elements_at_epoch", "skyfield/elementslib.py:OsculatingElements", "skyfield/data/mpc.py:comet_orbit", "skyfield/data/mpc.py:mpcorb_orbit"]}
{"id": "C166", "title": "Wrapped angles stay within one turn, in floating point", "statement": "A right ascension, azimuth, ecliptic longitude, Moon phase, orbital element or sidereal time is the float nearest to the angle less whole turns, from zero up to but not including one turn; hour angles and geographic longitudes lie between minus half a turn and half a turn.", "quantifier": "all finite float inputs (for sums and differences, inputs of the size the API passes)", "why_tests_cant": "The modulo operator rounds, so the whole turn itself can come back for an angle just below zero; random tests practically never meet such angles.", "anchors": ["skyfield/functions.py:to_spherical", "skyfield/almanac.py:moon_phase", "skyfield/elementslib.py:normpi", "skyfield/earthlib.py:earth_rotation_angle", "skyfield/earthlib.py:sidereal_time", "skyfield/timelib.py:Time.gast", "skyfield/toposlib.py:GeographicPosition.lst_hours_at", "skyfield/toposlib.py:Geoid.latlon_of", "skyfield/positionlib.py:ICRF.hadec"]}
{"id": "C167", "title": "Separations and lengths are accurate to a nanoarcsecond in floating point", "statement": "The binary64 result of angle_between and separation_from is within half a nanoarcsecond of the true angle, for small, right and opposite directions alike; length_of is right to three parts in 2^53; the separation is the same bits in both orders, exactly zero from a position to itself and exactly the float pi to its opposite.", "quantifier": "all vectors of finite floats with lengths between 2^-200 and 2^200 and every arctan2 accurate to 2^-52 (symmetry: all floats)", "why_tests_cant": "The textbook arc cosine loses half of the digits for small angles, and only there; tests sample few directions and compare with tolerances far above the rounding error.", "anchors": ["skyfield/functions.py:length_of", "skyfield/functions.py:angle_between", "skyfield/positionlib.py:ICRF.separation_from"]}
{"id": "C168", "title": "Event searches end, in order and complete, on floating-point times", "statement": "find_discrete with the default epsilon and num, run in binary64, always ends; it reports events in time order, at times where the function really changed within the millisecond before; and it reports each change of a function whose changes are more than step_days apart exactly once.", "quantifier": "all pairs of float Julian dates between 12600 BC and AD 3181, all functions of time, all step_days between 2^-20 and 2^16 days", "why_tests_cant": "Rounding can make samples of a narrow bracket collide, swap or fall outside it; that depends on the last bits of two dates, and the margin of the default epsilon over the spacing of the floats has to hold for every pair.", "anchors": ["skyfield/searchlib.py:find_discrete", "skyfield/searchlib.py:_find_discrete"]}
{"id": "C169", "title": "Event searches with other accuracies and sample counts behave like the default one", "statement": "For every epsilon > 0 and num >= 3 find_discrete ends, reports events in order, and reports each change of a function whose changes are more than step_days apart once, within epsilon.", "quantifier": "all epsilon > 0, num >= 3, float Julian dates and functions of time", "why_tests_cant": "The failures depend on the last bits of the dates, and a search that never ends cannot be observed by a test.", "anchors": ["skyfield/searchlib.py:find_discrete", "skyfield/searchlib.py:_find_discrete"]}
{"id": "C170", "title": "Spherical coordinates are right to half a nanoarcsecond, poles included", "statement": "to_spherical, run in binary64, returns the length, latitude and a longitude of the vector to within 3/2^53 (relative), 2^-50 and 3/2^51 radian, with the longitude in one turn; and a distance, latitude and longitude given to from_spherical come back from to_spherical to within 9/2^53 (relative), 15/2^53 and 19/2^53 radian, up to whole turns of the longitude, even at the latitudes closest to the poles.", "quantifier": "all vectors of floats of length between 2^-200 and 2^200; all float distances between 2^-199 and 2^199, latitudes between the floats -pi/2 and pi/2 and longitudes up to 7 radians; all library arctan2, hypot, sin and cos that are off by at most one unit in the last place", "why_tests_cant": "Near a pole the longitude is recovered from coordinates that are tiny beside z, and the wrap into one turn uses a float tau that is not two pi; a test compares a handful of directions with a loose tolerance.", "anchors": ["skyfield/functions.py:to_spherical", "skyfield/functions.py:from_spherical", "skyfield/positionlib.py:radec", "skyfield/positionlib.py:altaz"]}
{"id": "C171", "title": "The correction for light travel time converges in floats, to nanoseconds", "statement": "For an array of observations of any length, the loop of _correct_for_light_travel_time, run in binary64, stops within its ten rounds; the light time it returns is within 2e-13 day (17 ns) of the exact solution tau of |X(t - tau) - o| = c tau, and the vector it returns is within 1.5e-11 au (2.3 m) of X(t - tau) - o.", "quantifier": "all arrays of sights: all bodies at most 100 light days away and slower than c/100 whose positions are computed to 1e-11 au, all observers at finite coordinates and all time fractions up to 2 days", "why_tests_cant": "The test |delta| < 1e-12 day is made on floats: that rounding noise never keeps a whole array from passing it, whatever the number and mixture of targets, cannot be tested by examples.", "anchors": ["skyfield/vectorlib.py:_correct_for_light_travel_time", "skyfield/positionlib.py:observe"]}
{"id": "C172", "title": "One undefined position does not spoil the other observations of an array", "statement": "When observing an array of times or targets, each entry whose position is defined gets its answer, even if the position at another entry is undefined (NaN coordinates, as of an Earth satellite at a time for which SGP4 reports an error).", "quantifier": "all arrays of sights in which every entry is either defined or undefined", "why_tests_cant": "Tests of undefined satellite positions use at() and single times, not observe() on arrays.", "anchors": ["skyfield/vectorlib.py:_correct_for_light_travel_time", "skyfield/sgp4lib.py:_at"]}
{"id": "C173", "title": "Rotating into a frame in floats is exact to a few roundings per turn, and can be undone", "statement": "A rotation matrix that the code builds in binary64 from n elementary rotations (rot_x, rot_y, rot_z), multiplied by mxm, transposed by T and flipped, in any combination, carries a vector to within 15 n / 2^53 of its length of where the exact rotation carries it; multiplying by the transposed matrix brings it back to within 30 n / 2^53; and the separation of two bodies computed from the rotated vectors is within 110 n / 2^53 radian of their true separation, so it does not depend on the frame.", "quantifier": "all trees of up to a million elementary turns by float angles up to 7 radians, all vectors of floats of length between 2^-200 and 2^200, all library sin, cos and arctan2 that are off by one unit in the last place, all orders of summation in einsum", "why_tests_cant": "Rounded matrices are not exactly orthogonal, and their product drifts; tests compare a few frames at a few dates and cannot say how the error grows with the number of factors or with the summation order of NumPy's einsum.", "anchors": ["skyfield/functions.py:mxv", "skyfield/functions.py:mxm", "skyfield/functions.py:rot_x", "skyfield/toposlib.py:GeographicPosition", "skyfield/planetarylib.py:Frame", "skyfield/positionlib.py:frame_xyz"]}
{"id": "C174", "title": "Altitude and azimuth in floats are those of the exactly rotated vector", "statement": "frame_latlon and altaz, computed in binary64 by rotating the position with a matrix made of n elementary turns and taking spherical coordinates, return a finite distance, latitude and longitude; the distance is right to 19 n / 2^53 of itself, the latitude (altitude) to 56 n / 2^53 radian everywhere, poles included, and the longitude (azimuth), measured along its parallel, to 201 n / 2^53 radian up to whole turns; the longitude lies between 0 and tau.", "quantifier": "all trees of up to a million elementary turns by float angles up to 7 radians, all vectors of floats of length between 2^-199 and 2^199, all library functions that are off by one unit in the last place, all orders of summation", "why_tests_cant": "The error of an azimuth grows without bound towards the zenith and that of an altitude does not; a test at a few stars cannot tell a loss of accuracy near a pole from one everywhere.", "anchors": ["skyfield/positionlib.py:frame_latlon", "skyfield/positionlib.py:_to_altaz", "skyfield/functions.py:to_spherical", "skyfield/functions.py:mxv"]}
{"id": "C175", "title": "From the sky to the horizon in floats", "statement": "The rotations that the code builds in binary64 from the angles of a date - the matrices of nutation and precession written out entry by entry, the frame bias written out to second order, their product by mxmxm, sidereal time, polar motion, and the horizon of a place or the ecliptic of date - take a vector to where the exact rotations take it: to 705 / 2^53 of its length in the axes of the Earth; altitude to 2744 / 2^53 radian (3.1e-13), azimuth along its parallel to 9849 / 2^53 radian, ecliptic latitude to 2296 / 2^53, ecliptic longitude along its parallel to 8241 / 2^53, distances to 931 and 779 / 2^53 of themselves. The written-out bias is within 56 / 2^53 of a rotation in every entry.", "quantifier": "all float angles up to 7 radians for precession, nutation, sidereal time, pole, latitude and longitude; with and without polar motion; all float vectors of length between 2^-199 and 2^199; all library functions off by one unit in the last place, all orders of summation", "why_tests_cant": "A wrong sign in one of the eighteen written-out entries moves a star by an amount that depends on the date and may vanish near J2000, where tests sit; and that rounding stays below any astronomical effect is a statement about all dates and places.", "anchors": ["skyfield/precessionlib.py:compute_precession", "skyfield/nutationlib.py:build_nutation_matrix", "skyfield/framelib.py:build_matrix", "skyfield/framelib.py:itrs", "skyfield/framelib.py:build_ecliptic_matrix", "skyfield/timelib.py:Time.M", "skyfield/timelib.py:polar_motion_matrix", "skyfield/toposlib.py:rotation_at", "skyfield/positionlib.py:_to_altaz"]}
{"id": "C176", "title": "Places on the Earth in floats", "statement": "In binary64 the vector of a place at a latitude, longitude and elevation is within 20 / 2^53 (x and y) and 23 / 2^53 (z) of the exact one, times the radius of the ellipsoid plus the elevation. The latitude, height and longitude of a vector of floats are within 8 / 2^53 radian, 11 / 2^53 of the distance, and 23 / 2^53 radian of the same three rounds in real numbers. And there and back: the latitude comes back within 5e-9 radian, the elevation within 114 / 2^53 of the radius plus the elevation (under a tenth of a micrometre at the surface), and the longitude within (43 / cos(latitude) + 23) / 2^53 radian, between half a turn west and half a turn east. The floats of wgs84 and iers2010 are such ellipsoids, with radius and inverse flattening to the last place.", "quantifier": "all float latitudes from pole to pole, float longitudes up to 7 radians, float elevations from a hundredth of the radius below the ellipsoid to 2^89; all ellipsoids with inverse flattening from 290 to 310; all vectors of floats from a/1.1 to 2^90 from the centre; all library functions off by one unit in the last place", "why_tests_cant": "Near the pole the longitude, and near the equator the height, come out of differences of nearly equal floats; sampled places do not bound what is lost between them, nor exclude a place where the three rounds amplify the rounding of the round before.", "anchors": ["skyfield/toposlib.py:Geoid.__init__", "skyfield/toposlib.py:Geoid.latlon", "skyfield/toposlib.py:Geoid.latlon_of", "skyfield/toposlib.py:Geoid.height_of", "skyfield/toposlib.py:Geoid.geographic_position_of", "skyfield/toposlib.py:Geoid._compute_latitude"]}
{"id": "C177", "title": "Aberration in floats", "statement": "In binary64 the position after aberration is within 7 / 2^53 of the distance, in each coordinate, of the formula in real numbers, for a light time that fits the distance to a part in a thousand and is given to within 6 / 2^53; with the light time of the vector itself it is within 7 / 2^53 of the distance times the direction that the Lorentz transformation gives. An observer at rest gets the position itself, to the last bit. The time since the light passed closest to a body is within 17 / 2^53 of the light time of that body.", "quantifier": "all positions of floats from 2^-80 to 2^80 au, all velocities of floats from 2^-60 to 1 au a day, all light times in that range; for an observer at rest all positions up to 2^400 au; all dot products off by at most four roundings", "why_tests_cant": "The formula divides by a product of magnitudes plus a tiny float and by 1 plus a small number; sampled positions agree to a tolerance and do not bound the rounding in every direction and at every distance, and tests have no exact result to compare with.", "anchors": ["skyfield/relativity.py:add_aberration", "skyfield/relativity.py:light_time_difference", "skyfield/functions.py:dots", "skyfield/functions.py:length_of"]}
{"id": "C178", "title": "Deflection of light in floats", "statement": "In binary64 the deflection of a target by a mass is, in each coordinate, within 141 / 2^53 of strength times distance over openness to the power 3/2, where the strength is 2 G M / (c^2 E) for a mass at the distance E from the observer and the openness is one plus the cosine, at the mass, between target and observer: near the line through the mass the formula loses that much and no more. Outside the limb of the Sun, half an au away or more, that is 2e-14 of the distance, four billionths of an arcsecond. A target in line with the mass, to within the limit the code sets, is not deflected at all, in floats as in real numbers.", "quantifier": "all float positions of target and mass from 2^-50 to 2^50 au from the observer and from each other, all float reciprocal masses from 1 to 2^30, openness of 2^-40 or more, all angles but those within 18 / 2^53 of the cosine 0.99999999999 where the code switches the deflection off", "why_tests_cant": "The formula divides a difference of nearly equal products by one plus a cosine near minus one; tests sample stars far from the Sun and agree to a tolerance, and do not bound what is lost as the ray comes close to the mass.", "anchors": ["skyfield/relativity.py:_compute_deflection", "skyfield/functions.py:dots", "skyfield/functions.py:length_of"]}
{"id": "C179", "title": "Apparent places in floats", "statement": "In binary64 the apparent position, after any number of deflections one upon the other and then aberration, is that of the real formulas to within (7.1 + 1.02 r) / 2^53 of the distance in each coordinate, where every mass first multiplies the error r so far by 1.05 and then adds 2 + 270 strength / openness^(3/2) to it. With up to four masses (the Sun, Jupiter, Saturn and the Earth) and rays no closer to the Sun than its limb that is 1.4e-13 of the distance, 0.03 millionths of an arcsecond.", "quantifier": "all float positions of the target and of the masses at distances of 2^-49 to 2^49 au, any list of masses each of which bends the ray little (strength times 1 + P/Q below openness / 500, three seconds of arc from the line through it), observers at speeds up to 1 au a day, float light times within 6 / 2^53 of a light time that fits the distance to one part in two thousand", "why_tests_cant": "Each step is computed from the rounded result of the one before, close to a mass the formula is steep, and the errors could grow from step to step; tests compare a few apparent places with tables to a tolerance.", "anchors": ["skyfield/positionlib.py:Astrometric.apparent", "skyfield/relativity.py:add_aberration", "skyfield/relativity.py:_compute_deflection"]}
{"id": "C180", "title": "UT1 dates in floats", "statement": "A calendar date given to ts.ut1() reads back from ut1_calendar() within 20.2 microseconds, whole seconds are printed by ut1_strftime() as entered, and the TT of the time built is ahead of its UT1 by Delta T at that TT to one nanosecond beyond the error of the Delta T function. A UT1 date does not read back as closely as TT and TAI dates do, because day and fraction are added into one float.", "quantifier": "all calendar dates with a Julian day number of 1 to 4194302, all times of day, all float seconds, either calendar and any reform date; any Delta T function that follows a real one below 10000 seconds drifting by at most a fiftieth of a second a day", "why_tests_cant": "The loss depends on the date and the second and stays below what tests of UT1 look at; the comment in ut1_jd about a nanosecond rests on a notebook, not on an argument covering all dates.", "anchors": ["skyfield/timelib.py:Timescale.ut1", "skyfield/timelib.py:Timescale.ut1_jd", "skyfield/timelib.py:Time.ut1_calendar", "skyfield/timelib.py:Time.ut1_strftime"]}
{"id": "C181", "title": "Splines in floats", "statement": "In binary64 a Splines curve has the value of the real curve to within rounding: within 4 n^2 / 2^53 of the size of the coefficients for rows of n coefficients, and near the upper end of a row, where the rounded lookup may already pick the next row, within n^2 (4 + (rows + 7) (1 + ratio)) / 2^53 and the step between the rows, where no row is more than ratio times as wide as the next.", "quantifier": "all tables of up to a million rows that follow each other, of any degree up to 999 and widths of 2^-300 or more, coefficients of any size from 2^-900 to 2^900, all float dates from the start of the first row to the end of the last", "why_tests_cant": "The lookup interpolates row numbers in floats and cuts off the fraction, so dates just before a joint get the wrong row; tests look at a few dates per row.", "anchors": ["skyfield/curvelib.py:Splines.__init__", "skyfield/curvelib.py:Splines.__call__"]}
{"id": "C182", "title": "Delta T in floats", "statement": "In binary64 Delta T follows the daily table to within 13 parts in 2^53 of its largest value from its first to its last date. Before and after, it is the long-term curve at a year off by at most 2^-37, with the rounding of C181. A time given by its UT1 a day or more inside the table has a TT ahead by the table's Delta T at that TT, to 1.02 nanoseconds, if the table drifts by at most a fiftieth of a second a day.", "quantifier": "all daily tables with dates in order at least 2^-300 apart and values of any size from 2^-300 to 2^300 (for UT1: up to 10000 s, dates within 4194303 days of zero), all float dates from the first to the last or, outside, up to 8388608 in size and on the curve", "why_tests_cant": "The value passes through rounded slopes and offsets between thousands of daily nodes and is fed back twice by ut1_jd; tests compare a few dates to a tolerance.", "anchors": ["skyfield/timelib.py:DeltaT.__call__", "skyfield/timelib.py:Timescale.ut1_jd"]}
{"id": "C183", "title": "UT1 of a time in floats", "statement": "In binary64 the UT1 fraction of a time is its TT fraction less Delta T to 20 picoseconds, UT1 as one float is good to 20.2 microseconds and a time made from it by ut1_jd is the same to 20.3 microseconds; DUT1 is 32.184 s plus the leap seconds less Delta T to 10 picoseconds; each beyond the error of the Delta T function, itself 20 picoseconds for a daily table. The Julian year is good to 2^-37. The pole's angles follow their table to 13 parts in 2^53.", "quantifier": "all times with a fraction of at most a day within 4194302 days of zero (Julian year: 8388608), all Delta T functions below 10000 s that drift by at most a fiftieth of a second a day over the dates concerned", "why_tests_cant": "The claims bound accumulated rounding for every date; tests compare a few dates to a tolerance.", "anchors": ["skyfield/timelib.py:Time.ut1_fraction", "skyfield/timelib.py:Time.ut1", "skyfield/timelib.py:Time.delta_t", "skyfield/timelib.py:Time.dut1", "skyfield/timelib.py:Time.J", "skyfield/timelib.py:Time.polar_motion_angles"]}
{"id": "C184", "title": "Earth rotation angle and sidereal time in floats", "statement": "In binary64 the Earth rotation angle lies from 0 to 1 turn and, up to whole turns, is the IAU's linear expression to 5/2^(62-k) + 1/2^50 turns for dates within 2^k - 2 days of J2000 (25 nanoseconds of rotation for seven centuries). Greenwich mean sidereal time lies from 0 to 24 hours and, up to whole days, is that of USNO Circular 179 to 7e-12 hours for dates within 262000 days of J2000, although the angle is computed from a Julian date of which only the fraction counts. Local sidereal time, from that, an equation of the equinoxes, a longitude and sprime, is good to 7.1e-12 hours.", "quantifier": "all finite Julian dates in the stated ranges (k from 10 to 22), all UT1 and TDB fractions of at most a day either way", "why_tests_cant": "The claims bound accumulated rounding for every date; tests compare a few dates to a tolerance.", "anchors": ["skyfield/earthlib.py:earth_rotation_angle", "skyfield/earthlib.py:sidereal_time", "skyfield/timelib.py:Time.gast", "skyfield/toposlib.py:GeographicPosition.lst_hours_at"]}
{"id": "C185", "title": "Mean obliquity and the sidereal time of 1982 in floats", "statement": "In binary64 mean_obliquity is the polynomial of Capitaine and others (2003) to 3e-11 arcseconds. theta_GMST1982 returns an angle from 0 to tau that, up to whole turns, is the sidereal time of AIAA 2006-6753 to 6e-12 radians, and a velocity that is the derivative of that sidereal time to 2e-15 radians a day.", "quantifier": "all finite Julian dates within 262000 days of J2000, all UT1 fractions of at most a day either way", "why_tests_cant": "The claims bound accumulated rounding for every date; tests compare a few dates to a tolerance.", "anchors": ["skyfield/nutationlib.py:mean_obliquity", "skyfield/sgp4lib.py:theta_GMST1982"]}
{"id": "C186", "title": "Angles of precession in floats", "statement": "In binary64 the four angles from which compute_precession makes its matrix are the polynomials of Capitaine and others (2003), in radians, to 2e-16, and chi to 2e-18; sprime of polar_motion_angles is -47 microarcseconds a century to 2e-19 arcseconds.", "quantifier": "all finite TDB Julian dates within 262000 days of J2000", "why_tests_cant": "The claims bound accumulated rounding for every date; tests compare a few dates to a tolerance.", "anchors": ["skyfield/precessionlib.py:compute_precession", "skyfield/timelib.py:Time.polar_motion_angles"]}
{"id": "C187", "title": "Fundamental arguments of nutation in floats", "statement": "In binary64 the five fundamental arguments are, up to whole turns, the polynomials of Simon and others to 2.4e-11 radians for every date within eight centuries of J2000, and lie within a turn of zero either way: the billions of arcseconds are reduced without loss.", "quantifier": "all finite floats t of at most eight centuries either way", "why_tests_cant": "The claim bounds accumulated rounding for every date; tests compare a few dates to a tolerance.", "anchors": ["skyfield/nutationlib.py:fundamental_arguments"]}
{"id": "C188", "title": "Arguments of the complementary terms in floats", "statement": "In binary64 the fourteen arguments of the complementary terms of the equation of the equinoxes lie from 0 to tau and are, less whole turns, the mean arguments of the Sun and Moon, the mean longitudes of the planets and the accumulated precession to 2e-11 radians: splitting off whole turns a century before scaling changes no argument.", "quantifier": "all finite floats t of at most eight centuries either way", "why_tests_cant": "The claim bounds accumulated rounding for every date; tests compare a few dates to a tolerance.", "anchors": ["skyfield/nutationlib.py:equation_of_the_equinoxes_complimentary_terms"]}
{"id": "C189", "title": "TDB in floats", "statement": "In binary64, TDB less TT is the series of USNO Circular 179 (equation 2.6) to 15 femtoseconds and at most 1.8 milliseconds, and the fraction of TDB of a time is its fraction of TT with that many seconds added to 1.2e-16 days, whatever sine good to 2^-52 is used.", "quantifier": "all finite floats whole within 262000 days of J2000, fractions from -1 to 1, and sines good to 2^-52 up to 20000 radians", "why_tests_cant": "The claim bounds accumulated rounding for every date; tests compare a few dates to a tolerance.", "anchors": ["skyfield/timelib.py:tdb_minus_tt", "skyfield/timelib.py:Time.tdb_fraction"]}
{"id": "C190", "title": "TDB to TT and back in floats", "statement": "A time built by tdb_jd has the fraction of TT that is the fraction of TDB less the series of USNO Circular 179 to 1.2e-16 days, and TDB computed from that TT is the TDB given to 2.5e-16 days (22 picoseconds): evaluating the series at TT instead of TDB costs nothing.", "quantifier": "all finite floats jd within 262000 days of J2000, fractions from -0.9 to 0.9, and sines good to 2^-52 up to 20000 radians", "why_tests_cant": "Closing of the round trip at every date needs a bound on the rate of the series and on rounding; tests try a few dates.", "anchors": ["skyfield/timelib.py:Timescale.tdb_jd", "skyfield/timelib.py:tdb_minus_tt"]}
{"id": "C191", "title": "Apparent sidereal time in floats", "statement": "In binary64 the apparent sidereal time of a time lies from 0 to 24 hours and is the mean sidereal time of USNO Circular 179 plus the equation of the equinoxes, d_psi cos(obliquity) plus the complementary terms, less whole days, to 7.05e-12 hours (25 nanoseconds); the equation of the equinoxes is good to 6e-19 radians.", "quantifier": "all finite floats whole within 262000 days of J2000, fractions from -1 to 1, nutations and complementary terms of at most 1/1024 radian, obliquities of at most 7 radians, and cosines good to one unit in the last place", "why_tests_cant": "The claim bounds accumulated rounding for every date and nutation; tests compare a few dates to a tolerance.", "anchors": ["skyfield/timelib.py:Time.gast", "skyfield/timelib.py:Time.gmst"]}
