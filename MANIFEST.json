{
 "claims": [
  {
   "property": "C01",
   "status": "proved",
   "theorems": [
    "C01_value_to_date_to_value",
    "C01_with_units",
    "C01_partial_fields"
   ],
   "note": ""
  },
  {
   "property": "C02",
   "status": "proved",
   "theorems": [
    "C02_date_to_value_to_date",
    "C02_with_units"
   ],
   "note": ""
  },
  {
   "property": "C03",
   "status": "proved",
   "theorems": [
    "C03_clock_tick",
    "C03_tick_with_units",
    "C03_tick_total",
    "C03_start_is_zero",
    "C03_leap_rule"
   ],
   "note": ""
  },
  {
   "property": "C04",
   "status": "proved",
   "theorems": [
    "C04_order"
   ],
   "note": ""
  },
  {
   "property": "C05",
   "status": "proved",
   "theorems": [
    "C05_differences_add",
    "C05_antisymmetric",
    "C05_rebase"
   ],
   "note": ""
  },
  {
   "property": "C06",
   "status": "proved",
   "theorems": [
    "C06_month_wrap",
    "C06_fields_carry"
   ],
   "note": ""
  },
  {
   "property": "C07",
   "status": "proved",
   "theorems": [
    "C07_wrapdate",
    "C07_wrapdate_fixes_valid"
   ],
   "note": ""
  },
  {
   "property": "C08",
   "status": "proved",
   "theorems": [
    "C08_days_in_month"
   ],
   "note": ""
  },
  {
   "property": "C09",
   "status": "partial",
   "theorems": [
    "C09_day_of_year_partial",
    "C09_day_of_year_off_by_one",
    "C09_day_of_year_refuted"
   ],
   "note": "Proved for the model calendars and for leap years of the standard calendar; the code violates the property from 1 March on in every non-leap year (C09_day_of_year_off_by_one, C09_day_of_year_refuted): _getdoy removes the year, so year 0 (leap) is assumed."
  },
  {
   "property": "C10",
   "status": "partial",
   "theorems": [
    "C10_season_365",
    "C10_season_standard_partial",
    "C10_season_standard_refuted",
    "C10_season_roundtrip",
    "C10_season_wrap"
   ],
   "note": "Proved on the 365-day calendar; on the standard calendar exactly the days 29 Feb, 31 May, 31 Aug, 30 Nov are put in the wrong season (C10_season_standard_partial is the exact characterisation, C10_season_standard_refuted a witness)."
  },
  {
   "property": "C11",
   "status": "partial",
   "theorems": [
    "C11_get_indices",
    "C11_no_fields_refuted"
   ],
   "note": "Proved whenever the records have at least one field; with zero fields get_index never terminates (C11_no_fields_refuted)."
  },
  {
   "property": "C12",
   "status": "proved",
   "theorems": [
    "C12_axis_map_to",
    "C12_axis_other_fields",
    "C12_map_to",
    "C12_values_exist"
   ],
   "note": "Values are exact rationals (no float rounding in vals/unitfactor). The branch for axes without any date field is outside the statement (some_field)."
  },
  {
   "property": "C13",
   "status": "partial",
   "theorems": [
    "C13_common_map",
    "C13_time_common_map_partial",
    "C13_buffer_overrun_refuted"
   ],
   "note": "Proved for the C routine on all sorted inputs, and for Time.common_map when at least one axis has no repeated record; with repeats on both sides the output buffers overflow (C13_buffer_overrun_refuted)."
  },
  {
   "property": "C14",
   "status": "proved",
   "theorems": [
    "C14_uniquify",
    "C14_axis_fields"
   ],
   "note": ""
  },
  {
   "property": "C15",
   "status": "proved",
   "theorems": [
    "C15_nearest_lower"
   ],
   "note": ""
  },
  {
   "property": "C16",
   "status": "proved",
   "theorems": [
    "C16_sort"
   ],
   "note": "Doubles are exact rationals without NaN."
  },
  {
   "property": "C17",
   "status": "partial",
   "theorems": [
    "C17_map_to_c",
    "C17_map_to_partial",
    "C17_duplicates_refuted"
   ],
   "note": "Proved for axes with distinct values; with repeated values in a the search loop stops at the first copy and misses later values (C17_duplicates_refuted). Exact rational arithmetic."
  },
  {
   "property": "C18",
   "status": "partial",
   "theorems": [
    "C18_expand_partial",
    "C18_clipping_refuted"
   ],
   "note": "proved when the ends need no clipping (start >= -n, stop <= n for positive steps; start <= n-1, stop >= -n-1 for negative); refuted for out-of-range ends, which expand does not clip"
  },
  {
   "property": "C19",
   "status": "proved",
   "theorems": [
    "C19_simplify",
    "C19_negative_refuted"
   ],
   "note": "for valid (non-negative, in-range) indices; negative index lists are outside the stated quantifier and refuted separately"
  },
  {
   "property": "C20",
   "status": "proved",
   "theorems": [
    "C20_loop_contiguous"
   ],
   "note": "non-empty axes (View.get never reaches loop_contiguous with an empty axis)"
  },
  {
   "property": "C21",
   "status": "proved",
   "theorems": [
    "C21_loop_mem"
   ],
   "note": "axes non-empty (a zero-length axis makes loop_mem divide by zero)"
  },
  {
   "property": "C22",
   "status": "partial",
   "theorems": [
    "C22_get",
    "C22_get_all",
    "C22_unique_requests_refuted"
   ],
   "note": "The data part is proved for every list of valid indices on every axis and for all three kinds of data source (C22_get, C22_get_all; empty selections included). The part about requests is refuted: equal repeated indices such as [1,1,1] are passed on unchanged (C22_unique_requests_refuted). The axes of the variable must belong to different dimensions (separate)."
  },
  {
   "property": "C23",
   "status": "partial",
   "theorems": [
    "C23_slice",
    "C23_nested_partial",
    "C23_repeated_refuted"
   ],
   "note": "Proved for any number of slices when only the last one may repeat elements (C23_slice, C23_nested_partial). With repetitions before the last step get() can fail (C23_repeated_refuted). Axes must have distinguishable elements (holds)."
  },
  {
   "property": "C24",
   "status": "proved",
   "theorems": [
    "C24_transpose",
    "C24_squeeze",
    "C24_extend",
    "C24_replace_axes",
    "C24_rename",
    "C24_elementwise"
   ],
   "note": "For variables whose axes belong to different dimensions (separate). squeeze with keyword slices and extend with a negative position are not modelled."
  },
  {
   "property": "C25",
   "status": "partial",
   "theorems": [
    "C25_sum",
    "C25_min",
    "C25_max",
    "C25_nanmin",
    "C25_nanmax",
    "C25_mean",
    "C25_variance",
    "C25_stdev",
    "C25_nansum_partial",
    "C25_nanmean_partial",
    "C25_nanvariance_partial",
    "C25_nanstdev_partial",
    "C25_weighted_sum",
    "C25_weighted_nansum_partial",
    "C25_weighted_mean",
    "C25_weighted_variance",
    "C25_weighted_nanmean_partial",
    "C25_all",
    "C25_repeated_refuted",
    "C25_nansum_refuted"
   ],
   "note": "Proved for any variable that answers increasing requests, any chunk limit: sum, min, max, nanmin, nanmax, mean, variance, stdev, weighted sum/mean/variance, whole-variable reductions; the NaN-skipping sums and statistics only if no two opposite infinities are added (nansum) / data without infinities (nanmean, nanvariance, nanstdev, weighted nanmean). Exact rational arithmetic (no rounding). Refuted: nansum with both infinities depends on the chunk limit; a request that repeats one element of a lazy reduction returns wrong numbers (C25_repeated_refuted). Weights are given explicitly (weights=True looks them up: not modelled)."
  },
  {
   "property": "C26",
   "status": "partial",
   "theorems": [
    "C26_argmax_partial",
    "C26_argmin_partial",
    "C26_argmax_refuted"
   ],
   "note": "Proved (first extreme position, or first NaN) if the axis and the axes after it fit into one chunk; refuted otherwise (C26_argmax_refuted: each chunk overwrites the result with a position counted from its own beginning)."
  },
  {
   "property": "C27",
   "status": "proved",
   "theorems": [
    "C27_mean",
    "C27_nanmean",
    "C27_count",
    "C27_stdev",
    "C27_nanstdev",
    "C27_refused",
    "C27_groups",
    "C27_trend"
   ],
   "note": "Mean, NANMean, Stdev, NANStdev, Count and Trend for the five groupings by date fields; the sorting of records (np.lexsort) and sqrt are parameters, values are exact numbers with inf and nan. The seasonal classes are not modelled; integer data (for which sum /= count raises) are excluded."
  },
  {
   "property": "C28",
   "status": "proved",
   "theorems": [
    "C28_concat",
    "C28_axis",
    "C28_auto",
    "C28_refused",
    "C28_stack",
    "C28_single",
    "C28_overlap_refuted"
   ],
   "note": "For an explicit axis (C28_concat) and for the automatic choice (C28_auto, C28_refused), for any part read; C28_axis: elements of the segments in order; C28_stack: new axis; C28_single. Hypotheses: the other axes of all variables are the same (==), axes are tight (their points are told apart by the tolerances), and the concatenated axis has no repeated element. C28_overlap_refuted: without the last one the result can be unreadable. Not covered: an explicit iaxis with other axes that are not ==."
  },
  {
   "property": "C29",
   "status": "proved",
   "theorems": [
    "C29_common_attributes",
    "C29_common_name"
   ],
   "note": "common_dict over any list of dictionaries (values with a decidable equality that agrees with !=); name and units as in combine_meta. NaN-valued attributes (x != x) are outside the hypothesis."
  },
  {
   "property": "C30",
   "status": "proved",
   "theorems": [
    "C30_elementwise",
    "C30_place",
    "C30_order"
   ],
   "note": "For any number of variables and numbers and any operation: axes pairwise either unrelated or one a (re-ordered) sub-selection of the other (partly overlapping axes raise, see can_map), tolerance at most 1e-5 (the default). C30_order: axis order of the first variable if the others have no axes of their own. Names, attributes and dtypes are not modelled."
  },
  {
   "property": "C31",
   "status": "partial",
   "theorems": [
    "C31_call_means_partial",
    "C31_means_matched",
    "C31_slice",
    "C31_slice_defined",
    "C31_unambiguous",
    "C31_call_partial",
    "C31_matched",
    "C31_overwritten_refuted"
   ],
   "note": "axis.get_slice is fully covered: what every keyword means (nearest value, exact value, closed range, list, index, index range, complement, auxiliary arrays), definedness, and what is left over. For var(...) the slicing, the stripping of m/s and the routing of keywords to axes (C31_call_partial), and the means (weighted by the weights of the sliced axis) and squeezes composed with them (C31_call_means_partial). Missing: string values (str_as_val), weights on several averaged axes at once, an axis both averaged and squeezed, and two keywords that average one axis (the code then averages twice: v(m_lon=..., mn_lon=...)). Finding: var(lon=..., m_lon=...) silently drops the first keyword (C31_overwritten_refuted)."
  },
  {
   "property": "C32",
   "status": "partial",
   "theorems": [
    "C32_computed",
    "C32_sorted",
    "C32_close_coordinates_refuted"
   ],
   "note": "Proved for axes whose coordinates differ by more than numpy's allclose tolerance (holds; C32_computed: the same for variables that are computed when they are read); refuted without (C32_close_coordinates_refuted: sorted coordinates, unsorted data)."
  },
  {
   "property": "C33",
   "status": "proved",
   "theorems": [
    "C33_lag",
    "C33_too_short"
   ],
   "note": "C33_lag: the variable made by lag() and any part of it, with the values of its lag axis (a Yearless time axis, rounded to seconds); C33_too_short. LagVar.getview indexes arrays with lists of indices, which current numpy refuses: the model gives them their old meaning (a tuple). Floating point data are assumed (NaN cannot be stored in integer arrays)."
  },
  {
   "property": "C34",
   "status": "proved",
   "theorems": [
    "C34_days",
    "C34_leap_days",
    "C34_unordered_refuted",
    "C34_twice_refuted"
   ],
   "note": "C34_days (any calendars with years, any sensible lists of days) and C34_leap_days (defaults: Standard to 365-day calendar) hold for axes on which the years come in order; C34_unordered_refuted: otherwise labels and data are permuted against each other; C34_twice_refuted: a day listed twice makes the call fail. Exact arithmetic (no rounding of day numbers)."
  },
  {
   "property": "C35",
   "status": "proved",
   "theorems": [
    "C35_difference",
    "C35_binomial",
    "C35_too_few",
    "C35_zero_refuted"
   ],
   "note": "For every n with 0 < n < length of the axis, any kind of values (binomial closed form over the rationals), any part read. C35_zero_refuted: n = 0 gives a variable without elements. df = 'left' (not reachable through diff(), only labels the result with the last points of the axis) is not modelled."
  },
  {
   "property": "C36",
   "status": "proved",
   "theorems": [
    "C36_formula",
    "C36_linear",
    "C36_quadratic",
    "C36_second_formula",
    "C36_second_quadratic",
    "C36_uneven_refuted",
    "C36_second_two_points_refuted"
   ],
   "note": "Formulas for all data (including NaN and infinities, IEEE rules), exactness over the rationals (no rounding). The coordinate is the axis or a variable on some of the axes of x, including the axis of differentiation; the special replace_axes treatment of a one-dimensional dx with a different axis is not included. C36_uneven_refuted: centred derivative of a quadratic is not exact on an uneven grid; C36_second_two_points_refuted: with two points the second derivative is accepted but cannot be read."
  },
  {
   "property": "C37",
   "status": "proved",
   "theorems": [
    "C37_integral",
    "C37_trapz_linear",
    "C37_constant",
    "C37_cumsum_refuted"
   ],
   "note": "All rules, both directions, any initial value (number, variable without the axis) and coordinate; order of the additions as in the code. Going backwards the widths keep their sign (the result at i is V0 + the integral from i to the end). C37_cumsum_refuted: cumsum is documented to mimic numpy's, but drops the first element."
  },
  {
   "property": "C38",
   "status": "proved",
   "theorems": [
    "C38_smooth",
    "C38_constant",
    "C38_short",
    "C38_long"
   ],
   "note": "smooth.py for a kernel given as a list (np.hanning(n) for an integer argument is not modelled), any number of chunks (MAX_ARRAY_SIZE >= 1), all requests by increasing indices.  scipy.signal's convolve/fftconvolve are represented by the sum of products; when scipy goes through Fourier transforms this is assumed only for finite data and weights.  Numbers are exact rationals with NaN and infinities."
  },
  {
   "property": "C39",
   "status": "proved",
   "theorems": [
    "C39_library",
    "C39_linear",
    "C39_nodes",
    "C39_exact",
    "C39_outside",
    "C39_gap_refuted",
    "C39_directions_refuted",
    "C39_transpose_refuted",
    "C39_repeated_refuted"
   ],
   "note": "For any gsl scheme that accepts increasing coordinates (C39_library), the linear scheme being modelled (C39_linear, C39_nodes, C39_exact). Refuted: coordinates without two finite neighbours in the first row are read beyond the end of the array (C39_gap_refuted); rows with different directions fail (C39_directions_refuted); the flag transpose does the opposite of its documentation (C39_transpose_refuted); omit_nonmonotonic keeps repeated coordinates (C39_repeated_refuted). Not modelled: the other gsl schemes (a parameter), out-of-memory and type checks of interp.c."
  },
  {
   "property": "C40",
   "status": "partial",
   "theorems": [
    "C40_windows",
    "C40_one_window",
    "C40_clipped_refuted",
    "C40_long_refuted"
   ],
   "note": "C40_windows (lengths and offsets for each event) and C40_one_window (one length for all) prove the property when no event's window is cut off at the beginning of the record in a way that the clipping code gets wrong (hypothesis readable); C40_clipped_refuted and C40_long_refuted show that it is false otherwise: the code adds where it should subtract. The keyword selection of composite() itself is not part of the model: events are given by index."
  },
  {
   "property": "C41",
   "status": "partial",
   "theorems": [
    "C41_flatten",
    "C41_all",
    "C41_steps_refuted"
   ],
   "note": "C41_flatten and C41_all prove it for every view of consecutive elements, C41_steps_refuted shows that reading others in decreasing order returns wrong elements (increasing ones are refused). The default inner axis of a composite variable is not modelled."
  },
  {
   "property": "C42",
   "status": "proved",
   "theorems": [
    "C42_range",
    "C42_parts",
    "C42_finish"
   ],
   "note": "Arithmetic of PBar over the rationals, for every nesting of subset/part; the drawing of the bar and time polling are not modelled."
  },
  {
   "property": "C43",
   "status": "partial",
   "theorems": [
    "C43_unpack",
    "C43_pack_partial",
    "C43_nan_refuted",
    "C43_fill",
    "C43_zero_fill_refuted"
   ],
   "note": "Proved: unpacking for every part read, the error bound of one step (1/65534 of the range; exact rational arithmetic, float32 not modelled) for every number, 16-bit codes, exactness for constant data, choice of the fill value. Missing because false in the code: NaN packed by save(pack=True) is read back as a number (C43_nan_refuted, for every machine conversion of NaN), a fill value of zero is ignored (C43_zero_fill_refuted)."
  },
  {
   "property": "C44",
   "status": "partial",
   "theorems": [
    "C44_contents",
    "C44_names",
    "C44_axes",
    "C44_shared",
    "C44_lookup",
    "C44_unchanged",
    "C44_made",
    "C44_remove",
    "C44_add",
    "C44_hundred_refuted",
    "C44_shadow_refuted"
   ],
   "note": "Proved for fewer than 100 variables (axes) per name (C44_names, C44_axes, C44_lookup); beyond that names can coincide (C44_hundred_refuted), and an axis with the name of a variable is hidden by it (C44_shadow_refuted). Contents, order and data of the variables: C44_contents, without any bound; sharing of axes: C44_shared; remove and add: C44_remove, C44_add."
  },
  {
   "property": "C45",
   "status": "proved",
   "theorems": [
    "C45_regress",
    "C45_fraction"
   ],
   "note": "np.sqrt and scipy's t distribution are parameters; data without infinities; exact arithmetic."
  },
  {
   "property": "C46",
   "status": "partial",
   "theorems": [
    "C46_correlate",
    "C46_no_axes_refuted",
    "C46_range"
   ],
   "note": "Proved whenever an axis remains; C46_no_axes_refuted: otherwise stats.py:142-145 assigns into a numpy scalar and raises. C46_range assumes that the root at hand is exact. Data without infinities."
  },
  {
   "property": "C47",
   "status": "partial",
   "theorems": [
    "C47_isnonzero",
    "C47_difference",
    "C47_paired",
    "C47_single_refuted",
    "C47_missing_refuted",
    "C47_constant_refuted",
    "C47_self_refuted",
    "C47_standard_error_refuted",
    "C47_order_refuted"
   ],
   "note": "np.sqrt and scipy's t distribution are parameters; data without infinities; exact arithmetic. C47_difference, C47_paired and C47_isnonzero say exactly what is returned wherever samples have at least two values; missing because false in the code: C47_single_refuted, C47_missing_refuted, C47_constant_refuted, C47_self_refuted, C47_standard_error_refuted, C47_order_refuted. C47_difference requires that X and Y have the remaining axes in the same order, C47_paired that the axes reduced over have the same positions in both."
  },
  {
   "property": "C48",
   "status": "partial",
   "theorems": [
    "C48_coefficients",
    "C48_statistics",
    "C48_uncertainties_partial",
    "C48_transposed_refuted",
    "C48_misplaced_refuted",
    "C48_missing_axis_refuted"
   ],
   "note": "Coefficients, r2, se and covb for all inputs where the regressors have the dimensions regressed over (C48_coefficients, C48_statistics); p and sb only with at most one axis left, because the code transposes them wrongly otherwise (C48_transposed_refuted, C48_misplaced_refuted); a regressor lacking the dimension gives wrong coefficients (C48_missing_axis_refuted). NaN and infinite data are not covered; np.linalg.inv is assumed to invert exactly, np.sqrt and tdist.cdf are arbitrary functions; arithmetic is exact."
  },
  {
   "property": "C49",
   "status": "partial",
   "theorems": [
    "C49_reference_read",
    "C49_calendar_read",
    "C49_reference_written",
    "C49_instants_kept",
    "C49_attributes",
    "C49_six_fields",
    "C49_climatology",
    "C49_yearless",
    "C49_stable",
    "C49_negative_year_refuted",
    "C49_year_zero_refuted",
    "C49_fewer_fields_refuted",
    "C49_foreign_text_refuted",
    "C49_no_number"
   ],
   "note": "C49_reference_read/_calendar_read/_reference_written: texts. C49_instants_kept, C49_attributes: any fields. C49_six_fields, C49_climatology, C49_yearless: exact return. C49_stable: second round trip. Not true of the code, hence partial: negative years (C49_negative_year_refuted), axes inside year 0 (C49_year_zero_refuted), axes with fewer fields (C49_fewer_fields_refuted), time zones / compact dates / calendar names that are pieces of 'none' (C49_foreign_text_refuted)."
  },
  {
   "property": "C50",
   "status": "partial",
   "theorems": [
    "C50_special_axes",
    "C50_generic_axes",
    "C50_named_axes",
    "C50_nearest_class",
    "C50_arrays_lost_refuted",
    "C50_blank_refuted",
    "C50_title_refuted"
   ],
   "note": "C50_special_axes, C50_generic_axes, C50_named_axes, C50_nearest_class. Not true of the code: arrays of named axes are lost (C50_arrays_lost_refuted), names with blanks cannot be read back (C50_blank_refuted), titles override the class (C50_title_refuted). Non-coordinate and station axes are not modelled."
  },
  {
   "property": "C51",
   "status": "partial",
   "theorems": [
    "C51_legal",
    "C51_unchanged",
    "C51_idempotent",
    "C51_characters",
    "C51_distinct_refuted",
    "C51_empty_refuted"
   ],
   "note": "C51_legal, C51_unchanged, C51_idempotent, C51_characters. Distinct names may collide (C51_distinct_refuted); an empty name fails (C51_empty_refuted)."
  },
  {
   "property": "C52",
   "status": "partial",
   "theorems": [
    "C52_right_times",
    "C52_tidy",
    "C52_missing",
    "C52_overlap_refuted",
    "C52_wraparound_refuted"
   ],
   "note": "Proved: values come from a file holding the time; tidy sets of files answer every request (responds); missing times and unreadable own files are refused. Not true in general (refuted): with overlapping files the value of a time depends on what else is requested; a time before the date of the first file makes the last file be opened, so the whole can be read but not its beginning. Integer data (the NaN fill fails) and the squeezing of an axis called time that is no time axis are not modelled."
  },
  {
   "property": "C53",
   "status": "partial",
   "theorems": [
    "C53_even",
    "C53_single",
    "C53_misaligned_refuted"
   ],
   "note": "Proved for evenly spaced times and for one time per file. Refuted: the check that the times of the last file are aligned with those of the first compares a number of steps with a tenth of the step in units of the axis, so with steps of 5 units or more misaligned files are accepted and the times of the last file are not on the axis. Axes that lack fields of their calendar (whose start date gets the year 1) are not covered."
  },
  {
   "property": "C54",
   "status": "proved",
   "theorems": [
    "C54_ensemble",
    "C54_datasets"
   ],
   "note": "C54_ensemble: every request to an ensemble of any members with equal axes; C54_datasets: exactly which families of datasets are accepted and what is made of them. dtypes and the metadata of the members are in C55; two variables given to ensemble() directly are datasets of one variable each."
  },
  {
   "property": "C55",
   "status": "partial",
   "theorems": [
    "C55_common",
    "C55_agreed",
    "C55_combine",
    "C55_no_conflict",
    "C55_idempotent",
    "C55_ensemble_refuted",
    "C55_add_refuted"
   ],
   "note": "Proved for every family of dictionaries and every inequality test (C55_common, C55_agreed, C55_combine, C55_no_conflict, C55_idempotent). Not true of the code everywhere: ensemble() passes a generator, which the first pass uses up, so its global attributes are the union (C55_ensemble_refuted), and Dataset.add keeps its own attributes (C55_add_refuted)."
  },
  {
   "property": "C56",
   "status": "proved",
   "theorems": [
    "C56_datasets",
    "C56_all_there"
   ],
   "note": "For any function joining the variables of one name (concat of concat.py: C28)."
  },
  {
   "property": "C57",
   "status": "partial",
   "theorems": [
    "C57_years",
    "C57_months",
    "C57_clock",
    "C57_days_of_month_partial",
    "C57_days",
    "C57_best_mult",
    "C57_beyond_refuted",
    "C57_day_count_refuted"
   ],
   "note": "Proved for years, months, hours, minutes, seconds and yearless days (all multiples that divide the next unit; any multiple for years and yearless days) and for days of the month with multiple 1: exactly the right dates in [vmin, vmax), increasing, with the right nticks (DayTickGen.nticks is one too many, C57_day_count_refuted), and best_mult ends with the closest multiple. Days of the month with a multiple above 1: false as stated (C57_beyond_refuted: a tick beyond vmax). Values are exact rationals; SeasonTickGen, the matplotlib locator and formats are not modelled."
  },
  {
   "property": "C58",
   "status": "proved",
   "theorems": [
    "C58_split",
    "C58_complete",
    "C58_refused"
   ],
   "note": "C58_split for every variable and request, C58_complete (places and dates correspond), C58_refused. Integer data (for which filling with NaN fails) is not considered; year values within +-99998 (the bound of the axis matching)."
  },
  {
   "property": "C59",
   "status": "partial",
   "theorems": [
    "C59_join",
    "C59_round_trip",
    "C59_apart_refuted"
   ],
   "note": "C59_join and C59_round_trip for adjacent axes all of whose combinations exist in the calendar (with 29 February in a common year the values of the joined axis coincide; that case is left out). False for axes that are not adjacent: C59_apart_refuted (the reshape forgets the axes in between and the data cannot be read)."
  },
  {
   "property": "C60",
   "status": "partial",
   "theorems": [
    "C60_day",
    "C60_clock",
    "C60_accepted",
    "C60_seconds_refuted",
    "C60_iso_refuted",
    "C60_day_round_trip",
    "C60_plain",
    "C60_round_trip",
    "C60_default_refuted",
    "C60_yearless_partial",
    "C60_yearless_refuted"
   ],
   "note": "The forms without seconds are read as the dates they name (C60_day, C60_clock), every accepted text is of a stated form (C60_accepted), and writing and reading agree (C60_day_round_trip, C60_round_trip). The full property is false of the code: the documented form with seconds is read with minutes as hours and seconds as minutes (C60_seconds_refuted), ISO 8601 is refused (C60_iso_refuted), the default output format cannot be read (C60_default_refuted), days above 99 of yearless axes are cut (C60_yearless_refuted). Years below 100 are written with a y and cannot be read."
  },
  {
   "property": "C61",
   "status": "partial",
   "theorems": [
    "C61_range",
    "C61_inclusive_partial",
    "C61_inclusive_refuted",
    "C61_count",
    "C61_float_refuted",
    "C61_yearless"
   ],
   "note": "Proved for the exclusive end (C61_range), for n dates (C61_count, exact arithmetic), for yearlessn (C61_yearless) and for an inclusive end on the grid of steps (C61_inclusive_partial). The full property is false: an inclusive range whose end is not on the grid goes beyond the end (C61_inclusive_refuted), and in binary floating point three steps of 0.1 make four dates (C61_float_refuted)."
  },
  {
   "property": "C62",
   "status": "partial",
   "theorems": [
    "C62_sound",
    "C62_complete",
    "C62_terminates",
    "C62_joins",
    "C62_order_refuted",
    "C62_combinations_refuted"
   ],
   "note": "C62_sound for every collection; C62_complete, C62_joins and C62_terminates for collections in which variables with the same axes have them in the same order. Two parts are false: variables with the same axes in different orders, one of them the time, can eliminate each other (C62_order_refuted), and the search may stop before all combinations are found, because it compares the number of datasets only (C62_combinations_refuted). Axis values, with their auxiliary values, are coded as integers."
  },
  {
   "property": "C63",
   "status": "partial",
   "theorems": [
    "C63_values",
    "C63_answered",
    "C63_falling_refuted",
    "C63_gaps_refuted"
   ],
   "note": "C63_values and C63_answered for requests on rising axes. False on falling axes, where searchsorted is applied to a falling list: nothing is found and everything is NaN (C63_falling_refuted, for any files and request that share two values or more), and files with gaps on two axes cannot be read (C63_gaps_refuted). numpy's searchsorted is modelled with its reuse of the last bounds; that View.get reads by coordinates is C15."
  },
  {
   "property": "C64",
   "status": "partial",
   "theorems": [
    "C64_rotate",
    "C64_duplicate_refuted",
    "C64_no_longitude"
   ],
   "note": "C64_rotate: for every variable, origin and distinguishable longitudes the result exists, its longitudes lie in one turn from the origin and strictly increase, each stands for the meridian of the element moved to it, and the move is a permutation. C64_duplicate_refuted: with duplicate=True the value repeated at the end is that of longitude 0, not that of the origin."
  },
  {
   "property": "C65",
   "status": "partial",
   "theorems": [
    "C65_roundtrip",
    "C65_file",
    "C65_case_refuted",
    "C65_reserved_refuted"
   ],
   "note": "C65_roundtrip: for all variables on named/dummy axes whose names are distinct even if case is ignored (and are not names of axis classes), save and open succeed and return the same variables, axes and data; C65_file: what the file contains. Full statement fails: C65_case_refuted (axes x and X of one variable are mixed up and renamed), C65_reserved_refuted (an axis called 'axis' makes the file unreadable). Not modelled: attributes, fill values, number types, groups, unlimited dimensions, axes of other classes (encode_cf turns them into named axes: C40)."
  },
  {
   "property": "C66",
   "status": "partial",
   "theorems": [
    "C66_getitem",
    "C66_list_refuted",
    "C66_numpy_int_refuted",
    "C66_refused",
    "C66_outside"
   ],
   "note": "C66_getitem: tuples of Python integers, slices, lists and an Ellipsis, and single integers, slices or Ellipsis, give shape and elements by numpy's rule (each list on its own axis); C66_refused, C66_outside: what is refused. Full statement fails: C66_list_refuted (v[[0, 1]] is taken for v[0, 1]), C66_numpy_int_refuted (an integer of numpy's does not drop its dimension)."
  },
  {
   "property": "C67",
   "status": "partial",
   "theorems": [
    "C67_part_partial",
    "C67_loaded",
    "C67_detrend",
    "C67_detrend_sum",
    "C67_part_refuted"
   ],
   "note": "Proved in full for climatologies in memory (C67_loaded), and for detrend, which loads the trend (C67_detrend: the least-squares line through the data of the group; C67_detrend_sum: the residuals of a group add to zero). For lazily computed climatologies proved for parts whose times are of at least two groups, or of one time only (C67_part_partial); other parts are wrong in the code itself, which C67_part_refuted shows with daily data of two years: View.get compares the elements needed with their unique ones by np.all(u == ind), which broadcasts when there is one unique element, so the climatology is asked for the same element repeatedly. Not modelled: from_trend with A and B given separately, with a degenerate year field, return_clim."
  },
  {
   "property": "C68",
   "status": "partial",
   "theorems": [
    "C68_fill",
    "C68_unfill",
    "C68_fill_unfill",
    "C68_unfill_fill",
    "C68_as_type",
    "C68_rounded_refuted"
   ],
   "note": "fill and as_type in full; unfill compares after conversion to the floating point type of the result: two integers that float32 does not tell apart are both marked (C68_rounded_refuted: 16777217 is taken for the fill value 16777216). The rounding of the element type is a parameter. Complex numbers are not modelled."
  },
  {
   "property": "C69",
   "status": "partial",
   "theorems": [
    "C69_select",
    "C69_load",
    "C69_dummy_refuted"
   ],
   "note": "C69_select: for a well-named dataset, ds(**kw) succeeds, is well-named, and each variable is restricted to the selected elements (same names, sliced axes, data by position); C69_load. Missing: keywords with letters m and s (means and squeezes) for datasets, DummyAxis axes (C69_dummy_refuted: two variables that share a DummyAxis get different, renamed axes x01, x02 after ds(i_x=...)), keywords that are about two axes."
  },
  {
   "property": "C70",
   "status": "partial",
   "theorems": [
    "C70_rename_vars",
    "C70_replace_vars",
    "C70_whitelist",
    "C70_rename_axes"
   ],
   "note": "C70_rename_vars, C70_replace_vars, C70_whitelist, C70_rename_axes: each succeeds and gives exactly the expected variables, names, axis objects and data. Missing: global attributes; collisions of new names (then C44's numbering applies); renamed DummyAxis objects (an axis unequal to itself, see C69_dummy_refuted); rename_axes by axis class instead of by name."
  },
  {
   "property": "C71",
   "status": "partial",
   "theorems": [
    "C71_files",
    "C71_order"
   ],
   "note": "For one variable, along an axis with coordinates that can be told apart or along a time axis whose parts all count the same way (same class, calendar, start date, units and fields; start date with exactly those fields). C71_files: contents of the result; C71_order: any permutation of the files gives the same coordinates and data; C32_computed: sorting of computed variables. Missing: time axes with different units or start dates; the other axes must be unsorted or in order already. Opening the files is C42/C45; the dataset level is C56."
  },
  {
   "property": "C72",
   "status": "partial",
   "theorems": [
    "C72_dimtypes",
    "C72_open",
    "C72_keep_name_refuted",
    "C72_refused"
   ],
   "note": "C72_dimtypes: replacement of axes; C72_refused: an axis of the wrong length is refused (the call fails); C72_open: all three arguments together, from a dataset in which each axis object is listed once, with keys that mean exactly the axes of that name, distinct new names and one new name per axis. Missing: CF decoding (cfmeta=True; C49, C50), global attributes, keys that mean axes by class or alias only. C72_keep_name_refuted: keep_old_name=True does not keep the name if an axis object is given."
  },
  {
   "property": "C73",
   "status": "partial",
   "theorems": [
    "C73_accepts",
    "C73_sorted"
   ],
   "note": "C73_accepts and C73_sorted: the arguments of sorted() on top of C32. Missing: axes given by number, class or object instead of by name, and the plotorder itself: the model takes only its sign (an axis is drawn downward or not), while the code uses it as the step of a slice, so a plotorder other than 1 or -1 would lose elements."
  },
  {
   "property": "C74",
   "status": "partial",
   "theorems": [
    "C74_text",
    "C74_text_back",
    "C74_round_trip",
    "C74_piece_refuted",
    "C74_text_refused",
    "C74_two_axes_refuted"
   ],
   "note": "C74_text, C74_text_back, C74_text_refused: text; C74_round_trip: the arrays of one axis without coordinates, of any names without blanks that are not pieces of 'lat lon' (other than lat and lon, which must be numbers), with other variables that carry no lists of names of their own, at least one of them along the axis. C74_piece_refuted: an array called 'at' is lost, since 'auxname in coordinates' looks for a piece of a text. C74_two_axes_refuted: with two such axes, the second one overwrites the lists of a variable that has both, and the arrays of the first are not found again. Missing: text that is not ASCII, the other attributes, and axes called latitude, longitude or air_pressure."
  },
  {
   "property": "C75",
   "status": "partial",
   "theorems": [
    "C75_fresh",
    "C75_history",
    "C75_one_changed",
    "C75_two_changed_refuted",
    "C75_same_second_refuted",
    "C75_torn_refuted",
    "C75_untimed_refuted",
    "C75_failed_refuted",
    "C75_not_read"
   ],
   "note": "C75_fresh: without a manifest always; C75_history: after any history in which time goes on, files are changed in a later second than that of the last scan, successful scans read changed files before any file changed in the same second or later, and no process dies while it saves (ending without saving is allowed at any point); C75_one_changed: the order is right if one file only was changed. The code violates the rest: C75_two_changed_refuted (two files changed: the second one in the list goes unnoticed if it is not newer, because the time of the manifest moves during the scan), C75_same_second_refuted, C75_torn_refuted (dying while writing leaves a manifest with which no later process starts), C75_untimed_refuted (dying before utime), C75_failed_refuted (a file that failed to open is not tried again by the same manifest)."
  },
  {
   "property": "C76",
   "status": "partial",
   "theorems": [
    "C76_find",
    "C76_find_order",
    "C76_have",
    "C76_best",
    "C76_both_refuted"
   ],
   "note": "C76_find, C76_find_order, C76_have: what is found; C76_best: what find_best chooses, with any list of criteria. C76_both_refuted: if both maximize and minimize are given, minimize plays no part. Simplified: ranks are exact numbers, names and shapes are coded as numbers. The ranking functions are given the list of the variables found, as in the code; the documentation (and its examples, dataset.zaxis) says they are given the dataset."
  }
 ]
}