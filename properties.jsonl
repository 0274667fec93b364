{"id": "C01", "title": "Relative times convert to real dates and back without loss", "statement": "For each calendar (StandardTime, ModelTime365, ModelTime360, Yearless) and each accepted start date, val_as_date of any value returns a date that exists in that calendar, and date_as_val of that date returns the original value to the nearest second (exactly, if the value is a whole number of seconds).", "quantifier": "all calendars, all start dates, all values (past and future, any size), all units", "why_tests_cant": "the conversion has while loops and year estimates whose corrections only matter for particular centuries, leap years and negative offsets; tests sample a handful of dates", "anchors": ["pygeode/timeaxis.c: val_as_date_std, val_as_date_365, val_as_date_360, val_as_date_yearless, date_as_val_*", "pygeode/timeaxis.py: CalendarTime.val_as_date, CalendarTime.date_as_val"]}
{"id": "C02", "title": "Dates convert to relative times and back to themselves", "statement": "For every date that exists in a calendar, val_as_date(date_as_val(d)) == d.", "quantifier": "all calendars, start dates, units and valid dates (any year, including years <= 0)", "why_tests_cant": "infinitely many dates; mistakes hide at month, leap-year and century boundaries", "anchors": ["pygeode/timeaxis.c: date_as_val_*, val_as_date_*", "pygeode/timeaxis.py: CalendarTime"]}
{"id": "C03", "title": "The calendars are the textbook calendars", "statement": "The start date has value 0 and advancing the date by one clock tick (with the textbook month lengths and the Gregorian leap rule, 365-day years or 30-day months) adds exactly one second.", "quantifier": "all valid dates of all calendars", "why_tests_cant": "needs an independent definition of the calendar for every date, not a table of samples", "anchors": ["pygeode/timeaxis.c: isleap, ndays, month2doy, date_as_val_*"]}
{"id": "C04", "title": "Chronological order is value order", "statement": "For two dates of a calendar, date_as_val(a) < date_as_val(b) exactly when a is earlier than b field by field.", "quantifier": "all pairs of valid dates, all start dates", "why_tests_cant": "quantifies over pairs of dates", "anchors": ["pygeode/timeaxis.c: date_as_val_*"]}
{"id": "C05", "title": "Time differences are additive and independent of the reference date", "statement": "date_diff(a,b)+date_diff(b,x) == date_diff(a,x), date_diff(a,b) == -date_diff(b,a), and re-expressing an axis relative to another start date (reltime, conform_values) denotes the same dates.", "quantifier": "all calendars, all dates accepted as references, any third date (also non-normalised)", "why_tests_cant": "relates three arbitrary dates", "anchors": ["pygeode/timeutils.py: date_diff, reltime, conform_values", "pygeode/timeaxis.py: CalendarTime.date_as_val"]}
{"id": "C06", "title": "Out-of-range months wrap and other fields carry", "statement": "date_as_val with month m+12k equals month m of year y+k for every integer k (also negative), and extra days, hours, minutes, seconds shift the value linearly.", "quantifier": "all integers m, k, d, h, mi, s and all years", "why_tests_cant": "C division truncates toward zero, so every sign combination matters", "anchors": ["pygeode/timeaxis.c: date_as_val_std, date_as_val_365 (Wrap month), date_as_val_360"]}
{"id": "C07", "title": "wrapdate normalises a date without moving it", "statement": "wrapdate(dt, allfields=True) returns a date existing in the calendar, denoting the same instant as dt; it leaves valid dates unchanged and is idempotent.", "quantifier": "all date dictionaries with integer fields (missing fields take defaults)", "why_tests_cant": "all integers in six fields", "anchors": ["pygeode/timeutils.py: wrapdate"]}
{"id": "C08", "title": "days_in_month is the length of the month", "statement": "days_in_month(y,m) returns the number of days of month m of year y in the calendar.", "quantifier": "all years, all months, three calendars", "why_tests_cant": "leap rule over all years", "anchors": ["pygeode/timeaxis.py: CalendarTime.days_in_month"]}
{"id": "C09", "title": "Day of year", "statement": "The day-of-year that formatvalue prints for $j (and that seasonal axes use) is the number of days from 1 January of that year, plus one.", "quantifier": "all valid dates of all calendars", "why_tests_cant": "depends on leap years; a test written in a leap year or before March passes", "anchors": ["pygeode/timeaxis.py: CalendarTime._getdoy, formatvalue"]}
{"id": "C10", "title": "Seasonal axes put every date in its season", "statement": "On a seasonal axis each date is assigned to DJF/MAM/JJA/SON by its month (December to the next year's DJF), and converting (year, season) to a value and back is the identity.", "quantifier": "all dates, all years and seasons", "why_tests_cant": "only boundary days can fail", "anchors": ["pygeode/timeaxis.py: makeSeasonalAxis, _get_seasons, _get_cdates"]}
{"id": "C11", "title": "Time axis lookup finds exactly the matching records", "statement": "Given sorted records, get_indices returns for each requested record an index holding an equal record if there is one and -1 otherwise, and always terminates.", "quantifier": "all sorted tables, all numbers of fields, all requests", "why_tests_cant": "binary search over arbitrary tables", "anchors": ["pygeode/timeaxis.c: get_index, get_indices"]}
{"id": "C12", "title": "Time.map_to maps to equal dates", "statement": "t.map_to(u) is a list of indices into t, one for each element of u that has a matching date in t, in the order of u, such that t's shared date fields at the index equal u's.", "quantifier": "all pairs of time axes of one class, including unsorted and climatological ones", "why_tests_cant": "depends on how relative values and date fields sort", "anchors": ["pygeode/timeaxis.py: Time.map_to, Time.common_fields"]}
{"id": "C13", "title": "common_map pairs equal dates", "statement": "common_map returns pairs of positions holding equal records, covers every record of either axis that occurs in the other, and stays inside the buffers it was given.", "quantifier": "all sorted inputs with repeats", "why_tests_cant": "repeat handling depends on multiplicities on both sides", "anchors": ["pygeode/timeaxis.c: common_map, cmpval", "pygeode/timeaxis.py: Time.common_map"]}
{"id": "C14", "title": "uniquify keeps each date once, in order", "statement": "The reduced time axis built for climatologies contains every distinct record exactly once, in chronological order.", "quantifier": "all lists of records", "why_tests_cant": "any multiplicities and lengths", "anchors": ["pygeode/timeaxis.c: uniquify", "pygeode/timeutils.py: _uniquify, modify"]}
{"id": "C15", "title": "nearest_lower returns the last record not after the requested one", "statement": "nearest_lower returns the greatest index whose record is <= the requested record and -1 if there is none.", "quantifier": "all sorted tables and requests", "why_tests_cant": "binary search with an asymmetric midpoint", "anchors": ["pygeode/timeaxis.c: nearest_lower"]}
{"id": "C16", "title": "Axis value sort is a stable sort", "statement": "The C sort used by map_to returns a permutation of 0..n-1 that lists the values in non-decreasing order, keeping the order of equal values (except that a reverse-ordered input is simply reversed).", "quantifier": "all arrays of any length", "why_tests_cant": "recursion depth and shortcuts depend on the data", "anchors": ["pygeode/tools.c: msort, sort"]}
{"id": "C17", "title": "Axis.map_to finds the nearest value within tolerance", "statement": "map_to(a,b,rtol) returns for every element of b the index of a closest element of a when its relative distance is within rtol, and drops it otherwise.", "quantifier": "all arrays a, b in any order", "why_tests_cant": "two-pointer sweep over sorted orders", "anchors": ["pygeode/tools.c: map_to", "pygeode/tools.py: map_to", "pygeode/axis.py: Axis.map_to"]}
{"id": "C18", "title": "Slices expand to the indices numpy would select", "statement": "expand(slice, n) lists exactly the indices that slicing an n-element array selects.", "quantifier": "all start/stop/step combinations (negative, missing, out of range) and all n", "why_tests_cant": "combinatorial in sign and range of four integers", "anchors": ["pygeode/view.py: expand"]}
{"id": "C19", "title": "simplify and expand are inverse", "statement": "simplify turns an index list into a slice only if expanding that slice gives the same list back.", "quantifier": "all lists of valid (non-negative) indices", "why_tests_cant": "all lists", "anchors": ["pygeode/view.py: simplify, expand"]}
{"id": "C20", "title": "Non-contiguous views are read in contiguous pieces that cover them exactly", "statement": "The (outsl, start, count) pieces of loop_contiguous are contiguous in the source, write disjoint parts of the output, and together deliver every requested element at its place.", "quantifier": "all index lists on any number of axes", "why_tests_cant": "all lists and dimensions", "anchors": ["pygeode/view.py: contiguate, View.loop_contiguous, View.get"]}
{"id": "C21", "title": "Chunked iteration visits every element once and respects the memory limit", "statement": "loop_mem yields sub-views whose index products partition the view; each holds at most MAX_ARRAY_SIZE elements (when preserved axes fit); preserved axes are never split.", "quantifier": "all view shapes, all memory limits >= 1, all preserve lists", "why_tests_cant": "chunk shapes depend on all axis lengths and the limit", "anchors": ["pygeode/view.py: View.loop_mem, View._loop_mem"]}
{"id": "C22", "title": "Views deliver the requested elements in the requested order", "statement": "View.get returns, for any integer indices (unsorted, repeated), the array numpy fancy indexing of the full data would return, while the variable itself is only asked for sorted unique indices.", "quantifier": "all index lists on all axes, all data", "why_tests_cant": "arbitrary duplicates and orders", "anchors": ["pygeode/view.py: View.get"]}
{"id": "C23", "title": "Lazy slicing composes", "statement": "Slicing a variable and slicing the result again gives the same data as slicing the materialised array twice.", "quantifier": "all nested slices and index lists, all variables", "why_tests_cant": "unbounded nesting", "anchors": ["pygeode/var.py: Var._getitem_asvar, SlicedVar", "pygeode/view.py"]}
{"id": "C24", "title": "Transposing, squeezing, extending and renaming axes move data without changing it", "statement": "transpose(), squeeze(), extend(), replace_axes() return variables whose element at each coordinate is the source element at the corresponding coordinate.", "quantifier": "all axis orders and views", "why_tests_cant": "all permutations of any number of axes", "anchors": ["pygeode/varoperations.py: TransposedVar, SqueezedVar, ExtendedVar, ReplacedAxesVar"]}
{"id": "C25", "title": "Reductions do not depend on how data is split into chunks", "statement": "sum, mean, min, max, variance, stdev, their NaN-aware and their weighted versions return, at every remaining position, the statistic of exactly the elements that are reduced to it, for every MAX_ARRAY_SIZE, for in-memory and lazy inputs; all parts of the result can be read.", "quantifier": "all data, axes, weights, requested parts and memory limits (exact arithmetic)", "why_tests_cant": "chunking depends on the memory limit and shape", "anchors": ["pygeode/reduce.py", "pygeode/tools.py: loopover, npsum, npmin, npmax"]}
{"id": "C26", "title": "argmin/argmax return the position of the extremum along the axis", "statement": "argmax/argmin along an axis return the index, along the whole requested axis, of the first extremal element, for every MAX_ARRAY_SIZE.", "quantifier": "all data and memory limits", "why_tests_cant": "only fails when an axis is split", "anchors": ["pygeode/reduce.py: ArgMax, ArgMin"]}
{"id": "C27", "title": "Climatologies aggregate exactly the times with equal date fields", "statement": "climmean/dailymean/monthlymean/... and the count, standard deviation and trend operators built the same way (grouping by the date fields without the year, by time of day, by day, by month or by year): the new time axis lists every combination of the remaining date fields that occurs, once and in increasing order; every time of the input belongs to exactly one group; each element of the result is the mean (or the mean without NaNs, the count of values, the sample standard deviation, the least-squares line) of exactly the input elements at the times of its group, whatever part of the result is read and however the data are split into chunks; an axis without the fields needed is refused. The seasonal operators are not included.", "quantifier": "all time axes (in any order), calendars, groupings, data, views and memory limits", "why_tests_cant": "grouping depends on all dates; partial sums depend on chunking and on the part that is read", "anchors": ["pygeode/climat.py: TimeOp, loopover, Mean, NANMean, Stdev, NANStdev, Count, Trend", "pygeode/timeutils.py: modify", "pygeode/timeaxis.py: Time.common_map", "pygeode/tools.py: partial_sum, partial_nan_sum", "pygeode/tools.c: partial_sum, partial_nan_sum"]}
{"id": "C28", "title": "Concatenation", "statement": "concat of variables along an axis holds, at every coordinate, the value of the segment that contains it, for any view of the result.", "quantifier": "all segment lists and views", "why_tests_cant": "views can cross any number of segment boundaries", "anchors": ["pygeode/concat.py: ConcatVar", "pygeode/axis.py: Axis.concat"]}
{"id": "C29", "title": "Attributes are merged only when consistent", "statement": "The attributes of a combined variable are exactly those present with equal value in all inputs.", "quantifier": "all dictionaries", "why_tests_cant": "all key sets", "anchors": ["pygeode/tools.py: common_dict"]}
{"id": "C30", "title": "Broadcasting combines axes consistently", "statement": "Binary operations produce a variable with every axis of the inputs exactly once (up to mapping), and each output element combines the input elements at matching coordinates.", "quantifier": "all axis lists", "why_tests_cant": "all combinations of shared and private axes", "anchors": ["pygeode/tools.py: combine_axes, can_map", "pygeode/ufunc.py: UfuncVar.getview"]}
{"id": "C31", "title": "Selection by value", "statement": "var(axis=value), (lo,hi), l_, i_, n_, m_ keyword selections pick exactly the elements described: nearest value, values in the closed range, listed values, indices, complement.", "quantifier": "all axis values and selections", "why_tests_cant": "all floats/orders", "anchors": ["pygeode/axis.py: Axis.get_slice", "pygeode/var.py: Var.__call__, get_slices"]}
{"id": "C32", "title": "Sorting a variable along an axis", "statement": "sorted() returns the same (coordinate, value) pairs, with the coordinates in order; for any view.", "quantifier": "all axes and data", "why_tests_cant": "all permutations", "anchors": ["pygeode/varoperations.py: SortedVar", "pygeode/axis.py: Axis.argsort, sorted"]}
{"id": "C33", "title": "Lagged variables", "statement": "lag(var, time, lags) holds at (t,l) the source value at position t+lags[l], and NaN when that falls off the axis; the lag axis holds the lags as multiples of the first time step.", "quantifier": "all lag lists (also negative), all views", "why_tests_cant": "views clip on both sides", "anchors": ["pygeode/timeutils.py: LagVar"]}
{"id": "C34", "title": "removeleapyears drops exactly the leap days", "statement": "On an axis whose years come in order, removeleapyears removes exactly the times on 29 February and relabels each remaining time with the same date and time of day in the 365-day calendar, its data unchanged; in general (any calendars, any lists of days to omit in leap and other years that make sense for the new calendar) it removes exactly the times on the listed days and relabels each remaining time with the day of the same number when the listed days are not counted. If the years do not come in order, or a day is listed twice, this fails (refuted).", "quantifier": "all variables with one time axis with years, all calendars, all dates and all lists of days to omit", "why_tests_cant": "all years, day-of-year shift", "anchors": ["pygeode/timeutils.py: removeleapyears"]}
{"id": "C35", "title": "Finite differences", "statement": "diff(var, axis, n) holds at i the n-th forward difference of the source values at i..i+n, whatever view of the result is read.", "quantifier": "all lengths, orders and views", "why_tests_cant": "gather indices depend on the view", "anchors": ["pygeode/diff.py"]}
{"id": "C36", "title": "Derivatives are exact on low-degree polynomials at all points incl. boundaries", "statement": "deriv is exact for linear data on every grid and for every choice of stencil, boundary points included, and the centred one for quadratic data at interior points of uniform grids; the second derivative is exact for quadratic data on every grid with at least three points, boundary points included.", "quantifier": "all grids with distinct points, all polynomials, any length", "why_tests_cant": "grid spacing is arbitrary", "anchors": ["pygeode/deriv.py"]}
{"id": "C37", "title": "Cumulative and trapezoidal integration", "statement": "integrate(type='trapz'/'rectr'/'rectl'/'cumsum') accumulates the stated quadrature sums, forward or backward, from the given initial value.", "quantifier": "all data, grids and orders", "why_tests_cant": "all lengths", "anchors": ["pygeode/intgr.py"]}
{"id": "C38", "title": "Smoothing pads by reflection and conserves constants", "statement": "smooth() convolves with the normalised kernel after mirror padding; constants are unchanged.", "quantifier": "all data lengths and kernels", "why_tests_cant": "padding at both ends for every length/kernel combination", "anchors": ["pygeode/smooth.py"]}
{"id": "C39", "title": "Interpolation", "statement": "interpolate(var, inaxis, outaxis, inx, outx, d_below, d_above) hands every row along the axis to the library as its points (value and coordinate finite) in increasing order, for increasing and decreasing coordinates, one-dimensional or fields; with the linear scheme the result is the chord between neighbouring points, so the data at the nodes and linear functions are reproduced; outside the value at the end is continued with the given slopes, by default NaN.", "quantifier": "all variables, coordinate fields, targets and views, provided the coordinates of all rows are monotone in the same direction and each row has two finite neighbours", "why_tests_cant": "grids, missing data and views are arbitrary", "anchors": ["pygeode/interp.c", "pygeode/interp.py"]}
{"id": "C40", "title": "Composites cut the right windows", "statement": "composite() returns for each event the data from event start over the requested window and NaN outside the record or event.", "quantifier": "all event lists, window sizes and views", "why_tests_cant": "clipping at both ends", "anchors": ["pygeode/composite.py"]}
{"id": "C41", "title": "Flattening", "statement": "flatten(var, inner) lists every element of the two axes once in row-major order, at o*n+i the element o, i, where the new axis has the value o*n + inner coordinate (n: length of the inner axis), for any view of consecutive elements; other views are refused.", "quantifier": "all shapes and views", "why_tests_cant": "stride arithmetic over all shapes", "anchors": ["pygeode/composite.py: FlattenVar"]}
{"id": "C42", "title": "Progress bars", "statement": "A progress bar's displayed fraction stays inside the range allotted to it and sub-bars partition their parent's range.", "quantifier": "all nestings", "why_tests_cant": "arbitrary nesting of sub-bars", "anchors": ["pygeode/progress.py"]}
{"id": "C43", "title": "Packed data and fill values", "statement": "Data saved with pack=True are stored in 16 bit integers and read back to within 1/65534 of their range, exactly if the field is constant, and missing values stay missing; what is read from a file is NaN wherever the stored value is the declared fill value and stored*scale_factor+add_offset elsewhere, whatever part is read.", "quantifier": "all data, shapes, views, fill values, scales and offsets", "why_tests_cant": "error bound over all real data and all ranges", "anchors": ["pygeode/formats/__init__.py: PackVar", "pygeode/formats/cfmeta.py: var_newaxes, decode_cf"]}
{"id": "C44", "title": "Names in a dataset", "statement": "Dataset(vars) keeps every variable, in order and with its data, under a name of its own: names given once are kept, repeated ones are numbered, missing ones become 'var'; axes with the same name become one axis if they are equal and get different names if not, so that ds[name] finds every variable and every axis; remove() and add() leave the other variables as they were. With a hundred variables of the same name this fails, and an axis with the name of a variable is not found (refuted).", "quantifier": "all lists of variables, names and axes (fewer than a hundred per name)", "why_tests_cant": "all combinations of clashing names", "anchors": ["pygeode/dataset.py: Dataset.__init__, Dataset.__getitem__, Dataset.remove, Dataset.add, axis_name_clumping", "pygeode/varoperations.py: rename"]}
{"id": "C45", "title": "Linear regression", "statement": "regress(X, Y, axes, N_fac) returns on the axes of X and Y that are not reduced over, at each point, slope and intercept of the only line with the least squared error through the pairs of X and Y at the same coordinates of the shared axes without NaN, the fraction of the variance it explains (between 0 and 1), the standard deviations of residual and slope and the p-value of the latter; NaN where the degrees of freedom N/N_fac-2 are not positive or X is constant. Axes not shared are refused.", "quantifier": "all variables and choices of axes, missing data, blocks of any size", "why_tests_cant": "data, shapes, missing values and memory blocks are arbitrary", "anchors": ["pygeode/stats.py: regress", "pygeode/tools.py: shared_axes, combine_axes, loopover"]}
{"id": "C46", "title": "Correlation", "statement": "correlate(X, Y, axes) returns at each point of the remaining axes the joint deviation of the pairs over the root of the product of the squared deviations, between -1 and 1, NaN where X or Y is constant; its square is the fraction that regress reports. If no axis remains, as for two time series, it should return a number (refuted: it raises).", "quantifier": "all variables and choices of axes, missing data, blocks of any size", "why_tests_cant": "data, shapes, missing values and memory blocks are arbitrary", "anchors": ["pygeode/stats.py: correlate", "pygeode/tools.py: shared_axes, combine_axes, loopover"]}
{"id": "C47", "title": "Tests of means", "statement": "difference(X, Y, axes) returns at each point of the remaining axes the difference of the means of the values that are not NaN, with degrees of freedom, p-value and confidence interval of Welch's test for N/N_fac independent values; paired_difference() the same for the pairs of values at the same coordinates; isnonzero() the mean and its test against zero. Refuted: with a single value the sum is taken for the mean; missing data give mean 0 with p-value 0; a constant is tested as if it were 0; a variable differs from itself with p-value 0; the standard error of paired differences is that of one value fewer; if X and Y have the remaining axes in another order, values that do not belong together are subtracted.", "quantifier": "all variables and choices of axes, missing data, factors, blocks of any size", "why_tests_cant": "data, shapes, missing values and memory blocks are arbitrary", "anchors": ["pygeode/stats.py: difference, paired_difference, isnonzero", "pygeode/tools.py: shared_axes, combine_axes, loopover"]}
{"id": "C48", "title": "Multiple regression", "statement": "multiple_regress(Xs, Y, axes, N_fac) returns on the axes of the variables that are not regressed over, at each point, the coefficients of the regressors that alone give the least sum of squares of Y minus the combination of the regressors at the same coordinates, with the explained fraction, the standard deviation of the residual and the covariances, p-values and standard deviations of the coefficients; it fails exactly if a chosen axis is not shared, none is, or the regressors depend on each other at some point. Refuted: with two or more axes left, p-values and standard deviations cannot be returned, or stand at the wrong positions; with a regressor that lacks the dimension regressed over (such as a constant) the coefficients are not the best ones.", "quantifier": "all numbers of regressors, finite data, choices of axes, blocks of any size", "why_tests_cant": "data, shapes and memory blocks are arbitrary; least squares is a statement about all coefficients", "anchors": ["pygeode/stats.py: multiple_regress", "pygeode/tools.py: shared_axes, combine_axes, loopover, npsum"]}
{"id": "C49", "title": "CF time metadata round trip", "statement": "When a dataset with a time axis is encoded with CF metadata and decoded again, the calendar, the units, the reference date, the instants and the values are those of the original axis; an axis with a full set of fields (or a climatology with all fields but the year, or a yearless axis with all of its fields) comes back as the very same axis; any text '<unit> since <date>' in the usual notation is read as that unit and date; and a second round trip changes nothing.", "quantifier": "all calendars, units, reference dates, sets of fields, lists of dates, attribute dictionaries and all texts of the usual form with numerals of any length", "why_tests_cant": "the text is produced by one function and parsed by regular expressions in another; agreement for every date, every number of digits and every field subset is a statement over infinitely many strings, and the year-0 convention interacts with the contents of the axis.", "anchors": ["pygeode/formats/cfmeta.py: encode_cf, decode_cf", "pygeode/timeutils.py: reltime, modify", "pygeode/timeaxis.py: CalendarTime.__init__, Time.__init__"]}
{"id": "C50", "title": "CF axis classes round trip", "statement": "Encoding a dataset with CF metadata and decoding it again gives back every axis with its name, its coordinates, its class and the arrays that belong to it: latitudes, longitudes, pressure and hybrid levels always, generic X, Y, Z, T axes unless their title or units name another kind, other classes as the nearest class that CF can express.", "quantifier": "all axis classes, names, attribute dictionaries, values and sets of auxiliary arrays, whatever other variables the dataset holds", "why_tests_cant": "the class is inferred from attributes that users may set freely and arrays travel through a blank-separated list of names; which combinations survive is a question about all dictionaries and names.", "anchors": ["pygeode/formats/cfmeta.py: encode_cf, decode_cf", "pygeode/axis.py: Lat, Lon, Pres, Hybrid, XAxis, YAxis, ZAxis, TAxis, NamedAxis"]}
{"id": "C51", "title": "Variable names in files", "statement": "Encoding gives every variable a name of letters, digits and underscores that does not begin with a digit, leaves such names alone, and keeps every permitted character in its place.", "quantifier": "all non-empty names", "why_tests_cant": "names are arbitrary strings.", "anchors": ["pygeode/formats/cfmeta.py: fix_char, fix_name"]}
{"id": "C52", "title": "Variables spread over many files", "statement": "Whatever part of a variable of open_multi is requested, every value returned comes from a file that holds exactly the time in question (and from the same place on the other axes); when every time lies in the last file that does not begin after it and in no other file, every request is answered; a request with a time that no file holds, or whose own file cannot be read, fails rather than returning NaNs.", "quantifier": "all calendars, numbers and sizes of files, orders of the times, requests, and sets of unreadable files", "why_tests_cant": "which files are opened, and in which order they overwrite the result, depends on the request; a test looks at a few requests of a few files.", "anchors": ["pygeode/formats/multifile.py: Multifile_Var.getview", "pygeode/timeutils.py: reltime", "pygeode/timeaxis.py: Time.common_map", "pygeode/view.py: View.replace_axis"]}
{"id": "C53", "title": "The time axis of many files", "statement": "open_multi looks at the first and the last file only; when the files together hold evenly spaced times the time axis it makes up consists of exactly these times, and when the files hold one time each, at the same distance from the dates of the files, of exactly those.", "quantifier": "all calendars, units, start dates, steps, numbers of files and of times in the first and last file", "why_tests_cant": "the number of times is computed by dividing and rounding values that are counted from different start dates.", "anchors": ["pygeode/formats/multifile.py: open_multi", "pygeode/timeutils.py: reltime, delta", "pygeode/axis.py: Axis.withnewvalues", "pygeode/timeaxis.py: Time.__init__, CalendarTime.val_as_date"]}
{"id": "C54", "title": "Ensembles", "statement": "The ensemble of variables with equal axes has a new first axis with one point per member, and whatever part of it is requested, the values at member number k are those of the k-th variable at the same place; datasets are combined name by name, whatever the order of their variables; datasets with different names, or with different axes for one name, are refused.", "quantifier": "all numbers of members, axes, variables, dataset contents and orders, and all requests", "why_tests_cant": "requests are forwarded to the members through views with the first axis removed, for every selection of members and of places.", "anchors": ["pygeode/ensemble.py: ensemble, EnsembleVar, make_ensemble", "pygeode/view.py: View.remove, View.get"]}
{"id": "C55", "title": "Common metadata", "statement": "What is computed from several variables or datasets carries exactly those attributes that all of them have with the same value (in the order of the first), the name and the units if they agree on it, and the plot attributes common to those that are not axes.", "quantifier": "all numbers of arguments and all attribute dictionaries and values", "why_tests_cant": "a statement about all families of dictionaries; the code merges and then deletes while looping.", "anchors": ["pygeode/tools.py: common_dict", "pygeode/var.py: combine_meta", "pygeode/ensemble.py: ensemble", "pygeode/dataset.py: concat, Dataset.add", "pygeode/formats/multifile.py: open_multi"]}
{"id": "C56", "title": "Concatenating datasets", "statement": "The concatenation of datasets has every name of any of them once, in the order they are first met; a variable found in one dataset only is taken as it is, and one found in several is the concatenation of these, in the order of the datasets.", "quantifier": "all numbers of datasets and all sets of names", "why_tests_cant": "a statement about all families of datasets with partly overlapping contents.", "anchors": ["pygeode/dataset.py: concat"]}
{"id": "C57", "title": "Ticks on time axes", "statement": "Between two values of a time axis a tick generator marks, in increasing order and once each, exactly the dates of its kind: 1 January of the years, the first of the months, the midnights, the full hours, minutes or seconds that are multiples of the chosen multiple; the left end is included if it is such a date, the right end is not; nticks is their number; and the choice of the multiple ends with the one whose number of ticks is closest to the target.", "quantifier": "all calendars, start dates, units, intervals (also between seconds), multiples that divide the next larger unit, lists of multiples and previous choices", "why_tests_cant": "the ticks are found with rounding, wrapping of dates across months and years and a loop on values, so that an off-by-one shows only for particular ends.", "anchors": ["pygeode/timeticker.py: TickGenerator.ticks, best_mult, nticks, YearTickGen, MonthTickGen, DayOfMonthTickGen, DayTickGen, HourTickGen, MinuteTickGen, SecondTickGen", "pygeode/timeutils.py: wrapdate, date_diff"]}
{"id": "C58", "title": "Splitting a time axis into years and the rest", "statement": "splittimeaxis replaces the time axis by an axis of the years that occur, in increasing order, and an axis of the combinations of the other fields that occur; every element is found under its year and its day, for any selection of years, days and other indices, and where there is no date for a year and a day there is NaN; every date has exactly one place. A time axis without years, or with nothing but years, is refused.", "quantifier": "all variables with one time axis in any place, all calendars with years, axes in any order and with gaps, all requests", "why_tests_cant": "the combinations, the matching of dates and the reshaping interact with the order and the gaps of the axis and with the requested part; a test sees one axis.", "anchors": ["pygeode/timeutils.py: splittimeaxis, SplitTime, _splittime, _jointime", "pygeode/tools.py: common_map"]}
{"id": "C59", "title": "Joining years and days to a time axis", "statement": "jointimeaxes replaces adjacent axes of years and days by the time axis of all combinations, years outermost, and finds every element at its date for any requested subset of times; joining what was split gives back every element at its own date, and NaN at dates that did not occur.", "quantifier": "all variables with adjacent year and day axes whose combinations all exist in the calendar, in any place, all requests", "why_tests_cant": "the requested times are split, read as a full rectangle and picked out again; whether this is right depends on the whole set of requested times.", "anchors": ["pygeode/timeutils.py: jointimeaxes, JoinTime, _splittime, _jointime", "pygeode/timeaxis.py: map_to"]}
{"id": "C60", "title": "Dates as text", "statement": "A date given as text in one of the documented forms (day month year; hours, minutes and optionally seconds before it; ISO 8601) is read as that date, names of months in any case; any other text is refused; and a value written with formatvalue in a form that can be read is read back as the same date, and as the same value if the form shows all its fields.", "quantifier": "all calendars, texts, dates, values, units and start dates", "why_tests_cant": "the text is matched by searching with a regular expression that may match in the middle of the text and in several ways; which texts it accepts, and how, is a statement about all strings.", "anchors": ["pygeode/timeaxis.py: CalendarTime.parse_patterns, str_as_date, str_as_val, formatvalue, Yearless.parse_patterns"]}
{"id": "C61", "title": "Time axes made from text", "statement": "standardtimerange (and its counterparts in the other calendars) makes an axis with exactly the dates start, start+step, start+2 step, ... before the end, or up to and including the end if asked; standardtimen makes one with exactly n of them; values are counted from the reference date; yearlessn makes one of n days from a given day.", "quantifier": "all start, end and reference dates, steps of a whole number of seconds, units, calendars and lengths", "why_tests_cant": "the number of dates comes from a quotient of differences of dates, rounded up; its boundary cases are what tests miss.", "anchors": ["pygeode/timeaxis.py: standardtimerange, standardtimen, modeltime365range, modeltime365n, modeltime360range, modeltime360n, yearlessn"]}
{"id": "C62", "title": "Datasets found in a collection of files", "statement": "The datasets that a scan of files finds contain only places that some file has; everything in the files is part of one of them, and none is part of another; two pieces that can be put together along an axis are together in one of them, and so is any other rectangle that the pieces fill; the search ends.", "quantifier": "all collections of variables in files, with any axes and any overlap of their values", "why_tests_cant": "the datasets come from repeated grouping, merging of pairs and removal of parts until nothing changes; which combinations are reached depends on the whole collection.", "anchors": ["pygeode/formats/data_scanner.py: _get_domains, _get_prime_domains, _aggregate_along_axis, _merge_domains, _merge_all_domains, _cleanup_subdomains, _get_axis_names"]}
{"id": "C63", "title": "Reading variables of scanned datasets", "statement": "Whatever part of a variable of a scanned dataset is requested, the value at every place is that of the last file that has the place, and NaN where no file has it.", "quantifier": "all numbers of files, axes and overlaps, all requests", "why_tests_cant": "each file is matched with the request by binary search and index lists, for arbitrary overlaps; tests use one arrangement of files.", "anchors": ["pygeode/formats/data_scanner.py: _DataVar.getview, AxisManager._get_axis_intersection, _settify_axis, _unsettify_axis"]}
{"id": "C64", "title": "Rotating longitudes", "statement": "rotatelon(v, origin) moves every longitude by whole turns into [origin, origin + 360), puts them in increasing order and moves the data with them, so that every element is found at its own meridian and none is lost; with duplicate=True the value at the origin is repeated at origin + 360.", "quantifier": "all variables with a longitude axis, all origins, all longitudes", "why_tests_cant": "wrap-around, negative origins and the order of the source interact; tests use one regular axis and origin.", "anchors": ["pygeode/axis.py: rotatelon", "pygeode/varoperations.py: replace_axes, sorted"]}
{"id": "C65", "title": "A dataset saved to a netCDF file comes back unchanged when the file is opened", "statement": "After pyg.save(fn, ds, cfmeta=False) the call pyg.open(fn, cfmeta=False) returns the same variables, in the same order, with the same names, the same axes (names, order, lengths, coordinate values) and the same data whichever part is read; the file has one dimension per axis and one variable per variable and per axis with coordinates. Axes without coordinates (dummy axes) stay such axes.", "quantifier": "every list of variables on named or dummy axes, every data, any sharing of axes between variables, every chunk size used in writing", "why_tests_cant": "Whether every element is written exactly where it is read back depends on how the data is cut into chunks and on how dimensions, variables and axes are matched by name; a test saves a few small datasets.", "anchors": ["pygeode/formats/netcdf4.py:tidy_axes, write_var, save, make_dim, NCVar, make_dataset, dims2axes, open", "pygeode/tools.py:combine_axes, can_map, whichaxis", "pygeode/axis.py:Axis.has_alias", "pygeode/varoperations.py:Replace_axes"]}
{"id": "C66", "title": "Square brackets on a variable index its values as numpy does", "statement": "v[...] returns the array that numpy's indexing of all values would give: slices (any start, stop, step), lists of positions and integers per axis, an Ellipsis for the missing ones; a dimension indexed by an integer is gone from the result. Positions outside the axis, too many entries or two Ellipses are refused.", "quantifier": "all variables of any rank, all tuples of slices, integers, lists and at most one Ellipsis, all single keys", "why_tests_cant": "Lazy slicing by coordinates, filling in the Ellipsis and dropping dimensions interact; tests index one small variable with a few keys.", "anchors": ["pygeode/var.py:Var.__getitem__, Var._getitem_asvar, Var.get", "pygeode/varoperations.py:SlicedVar"]}
{"id": "C67", "title": "Anomalies: data combined with a climatology of the same data", "statement": "x - climatology(x) (and any other element-wise operation of a variable with a mean, monthly mean, yearly mean, standard deviation, ... of itself) applies the operation, at every time, to the datum and to the climatology of the times that share the kept date fields, whichever part is read and whatever the order of the dates; detrend(x) takes from every datum the value, at its time, of the least-squares line through all the data of the same day of the year, and the results add to zero in every such group.", "quantifier": "all variables with one time axis in any place, all data, all orders of dates and gaps, all requested parts, all element-wise operations, every kind of climatology", "why_tests_cant": "Pairing goes through a search of date fields with fields dropped, a broadcast of axes, and a request to a lazily computed climatology for repeated elements; whether it is right depends on which groups the requested times fall in.", "anchors": ["pygeode/climat.py:from_trend, detrend, climtrend, TimeOp", "pygeode/ufunc.py:UfuncVar.getview", "pygeode/view.py:View.get, map_to", "pygeode/timeaxis.py:Time.map_to", "pygeode/tools.py:common_map, combine_axes"]}
{"id": "C68", "title": "Filling and marking missing values, and changing the type, touch only the elements concerned", "statement": "x.fill(c) replaces NaN by c and changes no other element; x.unfill(c) replaces the elements equal to c by NaN and no other; filling and marking again (or marking and filling) with a value that does not occur gives the data back; as_type converts each element, and converting back restores it if no conversion rounds; the axes stay the same. Whichever part is read.", "quantifier": "all variables, all data with any missing values, all fill values, all requested parts, all conversions of elements", "why_tests_cant": "Equality of a fill value with converted data, and NaN, which is unequal to itself, matter for values no test uses.", "anchors": ["pygeode/varoperations.py:FillVar, fill, UnfillVar, unfill, Cast, as_type"]}
{"id": "C69", "title": "Selecting from a dataset restricts every variable that has the axis and keeps shared axes shared", "statement": "ds(name=value, ...), with keywords without m and s each of which is about at most one axis of the dataset, gives a dataset of the same variables (same names, same axis names, same order) in which every variable is restricted on each axis to the elements the keywords about that axis select, keywords that concern none of its axes being ignored for it; the elements are those of the original variable. Axes shared between variables remain shared and keep their names, and the result is again a dataset in which different axes have different names. ds.load() is the same dataset with the same axes and data in memory.", "quantifier": "all well-named datasets, variables that can be read, sets of keywords, naming conventions", "why_tests_cant": "the result rebuilds the dataset: sliced axes are new objects for every variable and are only recognised as the same by comparing them; tests use two or three variables of regular axes", "anchors": ["pygeode/dataset.py: Dataset.map, __call__, load, __init__", "pygeode/var.py: Var.__call__", "pygeode/axis.py: Axis.get_slice, Axis.slice, __eq__"]}
{"id": "C70", "title": "Renaming, replacing and keeping variables of a dataset, and renaming its axes, changes nothing else", "statement": "ds.rename_vars(old=new, ...) gives the same variables in the same order on the same axis objects with the same values under the new names, if these are distinct (so two names can be exchanged). ds.replace_vars(name=v, ...) puts the variables given in the places of those named, under their own names. A whitelist of variables (varlist when a file is opened) keeps exactly the listed variables that exist, unchanged, in the order of the list. ds.rename_axes(old=new, ...) renames each axis that a name or alias means, last entry first, in all variables: variables that shared the axis share the renamed one, its values and attributes are unchanged and so are the data.", "quantifier": "all well-named datasets, renamings, lists of names, naming conventions", "why_tests_cant": "each variable makes its own renamed copy of a shared axis, and the dataset decides again which axes are the same and which names to number; tests rename one or two variables", "anchors": ["pygeode/dataset.py: Dataset.rename_vars, replace_vars, map, dataset_method", "pygeode/formats/__init__.py: whitelist, finalize_open", "pygeode/varoperations.py: rename, rename_axes, Replace_axes", "pygeode/axis.py: Axis.rename"]}
{"id": "C71", "title": "openall does not depend on the order of the files", "statement": "openall(files) puts the parts of a variable that the files contain together along the axis in which they differ and sorts them: the coordinates of the result are exactly those of all files, in order; at each of them the result holds, whatever part is read, the data of the file with this coordinate; and coordinates and data are the same in whatever order the files are found.", "quantifier": "all numbers of files, all ways to distribute the coordinates over them (also interleaved and unsorted), all orders of the files, all views", "why_tests_cant": "the order of a glob and the distribution of the coordinates over the files are arbitrary.", "anchors": ["pygeode/formats/multifile.py: openall", "pygeode/concat.py: ConcatVar", "pygeode/varoperations.py: SortedVar"]}
{"id": "C72", "title": "Opening a file with axis types, a list of variables and new names does the three things and nothing else", "statement": "open(file, dimtypes, varlist, namemap) (cfmeta=False) gives exactly the listed variables of the file, in the order of the list (all, if there is no list), under their new names; every axis that is a key of dimtypes is replaced by the axis given, or by the one made from it, other axes are kept, and then axes are renamed by namemap; variables that shared an axis share the new one; the data stay where they are by position. Axes of the wrong length are refused.", "quantifier": "all well-named datasets, dimtypes (axes, classes, functions), lists of variables, maps of names, naming conventions", "why_tests_cant": "the three steps each rebuild the dataset, and keys are matched to axes by alias in every variable separately; tests use one argument at a time on one file", "anchors": ["pygeode/formats/__init__.py: finalize_open, set_axistypes, whitelist", "pygeode/varoperations.py: replace_axes, Replace_axes, rename_axes", "pygeode/dataset.py: rename_vars, map"]}
{"id": "C73", "title": "sorted() sorts the axes asked for, in the order asked for, and leaves the others alone", "statement": "x.sorted(a, b, ..., c=1, d=-1, e=0) is accepted exactly if all names are axes of x and all orders are 1, 0 or -1. The axes asked for are rearranged by a permutation into increasing (1), decreasing (-1) or natural (0, and positional arguments) order of their coordinates, the natural order of an axis being decreasing for those drawn downward (pressure); a later keyword for the same axis, and a keyword rather than a positional argument, decides; without arguments all axes are sorted in natural order; axes not asked for are unchanged. The data go with the coordinates, whichever part is read.", "quantifier": "all variables, lists of axis names and orders, also with several names for one axis, all requested parts", "why_tests_cant": "which order wins depends on the aliases of the axes and the order of the keywords; tests sort by one axis", "anchors": ["pygeode/varoperations.py: sorted, SortedVar", "pygeode/axis.py: Axis.sorted, Axis.argsort"]}
{"id": "C74", "title": "Text and axes without coordinates (stations) survive CF encoding", "statement": "Text is written as rows of single characters, all as long as the longest string, and read back unchanged (ASCII without characters of code 0; at least one non-empty string). When a dataset with a station axis or another axis without coordinates is encoded with CF metadata and decoded again, the axis has the same name and exactly the same arrays (names, numbers, text), it is a Station if it is called 'station' and an axis without coordinates otherwise, and the variables of the dataset are the same, with none of the arrays left over as a variable.", "quantifier": "all names without blanks, sets of arrays, numbers of stations, strings, other variables", "why_tests_cant": "the arrays travel as separate variables that are found again through blank-separated lists of names and suffixes of names; which names collide is a question about all names.", "anchors": ["pygeode/formats/cfmeta.py: encode_cf, decode_cf, encode_string_var, decode_string_var", "pygeode/axis.py: NonCoordinateAxis, Station, auxasvar"]}
{"id": "C75", "title": "The manifest of scanned files never gives outdated information", "statement": "from_files(files, manifest=...) finds of each file what it holds now (names, axes and attributes of its variables), whatever was scanned, saved, changed and deleted before, by this process or earlier ones, and whether or not earlier processes ended before they saved: a file that is known and has not been changed is not read again, one that has been changed since is. A process that dies while saving does not spoil the manifest.", "quantifier": "all histories of writing and deleting files, scanning any lists of files, saving, ending at any point and starting again; all times", "why_tests_cant": "whether a change is noticed depends on the order of the files in the list, on the seconds in which things happened and on where a process died; tests scan once.", "anchors": ["pygeode/formats/data_scanner.py: _Manifest.__init__, scan_files, get_table, save, from_files"]}
{"id": "C76", "title": "Looking for variables finds every match, and the best one", "statement": "find(names, requirement) gives one match for each dataset that meets the requirement and has all the names, in the order of the datasets, and nothing else; have(name) is true exactly if there is one. find_best gives one of these matches, and no other has a better rank (maximize: larger, minimize: smaller, several criteria one after the other); among those of the same rank none is larger (by names and shapes). KeyError exactly if there is no match.", "quantifier": "all collections of datasets, names, requirements and ranking functions", "why_tests_cant": "the choice is made by several stable sorts with reversed and negated keys; ties and several criteria need statements about all lists.", "anchors": ["pygeode/formats/data_scanner.py: DataInterface.find, have, find_best", "pygeode/dataset.py: Dataset.__contains__, __getitem__"]}
