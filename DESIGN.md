# Formal model of pygeode in Rocq (Coq 8.16.1)

The model is in `rocq/theories`. Files come in groups:

* `XModel.v`  – executable Gallina functions mirroring the code (each definition cites file:lines of /repo);
* `XSpec.v`   – small independent vocabulary used in theorem statements;
* `XProofs.v` – lemmas;
* `XProps.v`  – the property theorems only (`exact lemma`, `Print Assumptions`, non-vacuity `Example`s).

`Loop.v` is a generic while-loop combinator (log-depth fuel; running out of fuel is an explicit error that
every theorem excludes).

## Trusted base

* Coq 8.16.1 kernel (and `vm_compute`, used in a few concrete computations).
* Axioms: none. Each property theorem is followed by `Print Assumptions`, which reports "Closed under the global
  context" (any exception is listed in the section of the property concerned).
* Our reading of /repo: the model is hand-written. Nothing is extracted or run.
* Global simplifications: C `int`/`long long` and numpy integers are unbounded `Z` unless a section says
  otherwise; floating-point values are exact integers or rationals (no rounding, no NaN/inf except where a model
  has an explicit NaN value); exceptions are `None`/explicit error values.

## Properties, model and proof
* **C01 Relative times convert to real dates and back without loss** — CalModel.v models the four C conversions branch by branch (with loops) and the Python wrapper with units as rationals. Proof: each calendar has an absolute second count A; val_as_date returns a valid date x with A x = v + A start (loop invariants).
* **C02 Dates convert to relative times and back to themselves** — from C01 plus injectivity of A on valid dates.
* **C03 The calendars are the textbook calendars** — tick relation in CalSpec.v; case analysis.
* **C04 Chronological order is value order** — A is strictly monotone for the lexicographic order.
* **C05 Time differences are additive and independent of the reference date** — date_as_val = A(wrapped x) - A(start).
* **C06 Out-of-range months wrap and other fields carry** — same closed form; truncating division case split.
* **C07 wrapdate normalises a date without moving it** — composition of C01/C02.
* **C08 days_in_month is the length of the month** — tick over the last second of the month.
* **C09 Day of year** — _getdoy model; refuted for standard non-leap years.
* **C10 Seasonal axes put every date in its season** — SeasonModel.v; refuted on the standard calendar at four boundary days.
* **C11 Time axis lookup finds exactly the matching records** — TimeSearchModel.v: get_index (binary search with a `loop`), get_indices. Invariant: records below `lower` are smaller, above `upper` greater than the key.
* **C12 Time.map_to maps to equal dates** — time_map_to on top of get_indices; TimeDateProofs.v shows that sorting by axis value sorts the records of any field subset (missing fields default to year 0, a leap year). np.argsort is any permutation that sorts the values.
* **C13 common_map pairs equal dates** — cm_step loop; invariant relating passed and pending records of both sides, and pair counts. np.lexsort is any sorting permutation.
* **C14 uniquify keeps each date once, in order** — uniquify = repeated get_index in the output built so far.
* **C15 nearest_lower returns the last record not after the requested one** — nl_step loop invariant.
* **C16 Axis value sort is a stable sort** — SortModel.v: merge, msort (recursion on halves with depth fuel), sort with its two flags; pairs (value,index) for the parallel arrays. Merge keeps a lexicographic (value,index) order.
* **C17 Axis.map_to finds the nearest value within tolerance** — advance/match_loop over the sorted arrays; invariant: elements already passed are never nearer to any later b.
* **C18 Slices expand to the indices numpy would select** — IndexModel.v: expand with np.arange as a list; spec `selects` is Python's slice rule (arithmetic progression between clipped ends, no division). Case analysis.
* **C19 simplify and expand are inverse** — simplify on the list of differences; regular lists are arithmetic progressions; both expand and numpy's clipping rule return the list.
* **C20 Non-contiguous views are read in contiguous pieces that cover them exactly** — contiguate + itertools.product; each axis' pieces form a chain of runs, products of uniquely covering families cover uniquely.
* **C21 Chunked iteration visits every element once and respects the memory limit** — loop_mem's two loops over axes with the remaining budget; concat of the pieces of an axis is the axis, Permutation of products of concatenations.
* **C22 Views deliver the requested elements in the requested order** — ArrModel.v (numpy arrays as shape and function), ViewModel.v (View construction, map_to, get with its three data sources, requests without duplicates, transposition and reshaping), AxisModel.v (coordinate, non-coordinate and time axes: equality, map_to, slicing). get_spec in ViewProofs.v is the general statement (any order of axes, missing axes); C22_get instantiates it.
* **C23 Lazy slicing composes** — VarOpsModel.v slice_var; a slice is a wrapper whose view is answered by view.get on the source, so the proof is that the source axis maps every sub-axis of the sliced axis back to the composed indices (sliced_map, derived_mapped), hence 'holds' is preserved and slices compose.
* **C24 Transposing, squeezing, extending and renaming axes move data without changing it** — VarOpsModel.v transpose_var, squeeze_var, extend_var, replace_axes, rename_var, map_var; each preserves 'getable' with rearranged data, by get_derived (ViewProofs.get_spec) and get_raw.
* **C25 Reductions do not depend on how data is split into chunks** — NumModel.v: floats as exact rationals plus +inf, -inf, NaN with numpy's rules. ReduceModel.v: np reductions, indexing assignment, View.clip, tools.loopover, ReducedVar and each getview method. FibreProofs/LoopProofs/ReduceProofs: the chunks partition the elements reduced to each position; the accumulators are folds of a commutative monoid (or, for NaN sums, satisfy an invariant), so the result is the fold over the whole fibre; StatProofs: algebra of mean/variance; WeightProofs: weights fetched by axis mapping, scaled weight sum. Specification: ReduceSpec.v (fibre = positions that agree on the kept axes).
* **C26 argmin/argmax return the position of the extremum along the axis** — ArgProofs.v: the chunk loop does not split an axis that fits; argmax scan invariant.
* **C27 Climatologies aggregate exactly the times with equal date fields** — ClimModel: loopover, the partial sums of tools.c (nested loops over flat arrays with bounds checks), modify, common_map, all getview methods. Proof: partial_sum_spec (loops to filtered sums, ClimSum), modify_spec/common_map_axes (ClimAxis), chunk loop to one sum over all positions (ClimChunk, commutative monoids and permutations), reading of the pieces (ClimView), totals per group (ClimTotal, ClimStat), normal equations and uniqueness of the least-squares line (ClimLine, ClimTrend); theorems in ClimProps over the vocabulary of ClimSpec.
* **C28 Concatenation** — ConcatModel.v models ConcatVar.__init__/getview, concat and Axis.concat for coordinate, non-coordinate and time axes. ConcatProofs/ConcatAxis/ConcatVar show that mapping the requested part of the concatenated axis to every segment gives consecutive chunks whose concatenation is the request, then that the result responds to every request.
* **C29 Attributes are merged only when consistent** — MetaModel.v models common_dict (union of all entries, later ones winning, then deletion of every key missing from or different in one dictionary) and the name/units rule of combine_meta; C29_common_attributes characterises lookup in the result.
* **C30 Broadcasting combines axes consistently** — UfuncModel.v: can_map, combine_axes, UfuncVar (axes, getview), numpy broadcasting. UfuncProofs.v: mapping an axis to one it was taken from (inverse of a selection), can_map picks the smaller one. UfuncView.v: invariant of the merge loop (every axis seen restricts to exactly one axis of the list, the list stays separate), the basis-axes shortcut, the views of the arguments broadcast to the requested shape. Specification: UfuncSpec.v (restricts, compatible, same_place, contributes).
* **C31 Selection by value** — SelectModel.v models Axis.get_slice and Var.__call__ with keys as strings; SelectSpec.v says what a keyword describes (named, concerns, described, chosen) without masks or argmin. Proved by showing that every mask is the characteristic function of the described set (SelectProofs.v), by induction over the keywords and the axes. CallModel.v adds getweights, mean(names) and squeeze(names) as __call__ uses them; CallSpec.v: follows_slices, asked, weights_of, mean_of; CallProofs.v composes slice_total (C21), C25_mean/C25_weighted_mean and squeeze_responds, following the positions of the named axes through the dropped ones (rank, merge).
* **C32 Sorting a variable along an axis** — VarOpsModel.v sort_var with np.argsort as a parameter that only has to return an ordering permutation (env_ok).
* **C33 Lagged variables** — WindowModel.lag_var/lag_view follow timeutils.LagVar line by line (places = np.where, put_pairs = assignment with index arrays, take_checked = fancy read). lag_view_spec by induction over the lags (fold_columns: each loop body writes one column), offset_axis_spec via the calendar lemmas. computes = responds + delivers.
* **C34 removeleapyears drops exactly the leap days** — LeapModel.v models removeleapyears on top of the calendar, slicing, concatenation and replace_axes models. Day numbers are related to (day of the year, second of the day) pairs; the loop over the omitted days, largest first, is shown to shift a day by the number of omitted days before it (strip_spec, stripped); the pieces per year are joined by the concatenation model. LeapSpec.v: complete, in_year_order, sensible, left_out, relabelled.
* **C35 Finite differences** — StencilModel.v: diff.py with the numpy operations it uses (union1d, searchsorted, diff, broadcasting). DiffProofs.v: the requested points are a superset closed under the n+1 shifts, so searchsorted finds runs of consecutive points. StencilProps.v states the result with the recursive n-th difference and its binomial closed form.
* **C36 Derivatives are exact on low-degree polynomials at all points incl. boundaries** — StencilModel.v: deriv.py (both classes), the end-point adjustments as the code makes them; DerivProofs.v: reading data and coordinates at the union of the points (read_stencil), chains of broadcast operations (shows/op2_shows). StencilLemmas.v: exactness by field.
* **C37 Cumulative and trapezoidal integration** — StencilModel.v: intgr.py; IntgrProofs.v: algebra of arrays along one axis (has / may_have): slices, diff, reversal, concatenate, accumulate. StencilLemmas.v: telescoping sums.
* **C38 Smoothing pads by reflection and conserves constants** — SmoothModel.v: the constructor, getview with the mirror padding by numpy slices of both signs, the chunk loop with the axis preserved and the clipped assignment; BlockProofs.v: loopover without reduction (blocks cover the request, preserved axes stay whole); SmoothProofs.v: padding = reflection, convolution of one block; SmoothView.v: the whole view; SmoothProps.v: C38_smooth (convolution with the reflected data), C38_constant, C38_short, C38_long.
* **C39 Interpolation** — InterpModel.v models interp.py and interp.c (Python lists for C arrays, a read outside an array = None), gsl as a record of functions. InterpProofs: the direction found, the points collected, the loop over rows; InterpView: moving the axis to the end, the rows handed over, putting the result together; InterpLinear: chords.
* **C40 Composites cut the right windows** — WindowModel.composite_var/composite_view/clip_event. composite_view_spec: fold_columns over the events; clip_value: arithmetic of the clipping for readable events. Refutations are computed counterexamples on in-memory and computed variables.
* **C41 Flattening** — WindowModel.flatten_view: the three pieces (first partial row, whole rows, last partial row) are shown to be consecutive ranges of the row-major order (part_spec, reshape_merge), concatenated by the has-algebra of IntgrProofs. get_sorted reduces arbitrary choices to increasing ones.
* **C42 Progress bars** — MetaModel.v models PBar.update/subset/part over Q; reachable bars are those obtained from a new one; C42_range, C42_parts, C42_finish by induction over the nesting.
* **C43 Packed data and fill values** — PackModel.v models PackVar (scale/offset from nanmin/nanmax, astype(int16) with an arbitrary machine result for NaN and out-of-range numbers), var_newaxes (mapping of the view to the file's axes, fill value, scale, offset) and the choice of the fill value in decode_cf. C43_pack_partial composes the nanmin/nanmax theorems with exact rational arithmetic; C43_unpack is proved for every variable that answers requests.
* **C44 Names in a dataset** — DatasetModel: axes as objects (identity, name, content), axis_name_clumping, renaming of families of equal axes, replace_axes, numbering of variable names with %02d and x, lookup, remove, add. Strings are Coq strings, the %02d format is proved injective below 100 (DatasetNames). Spec in DatasetSpec; proofs by invariants of the clumping loop (DatasetAxes) and the numbering loop (DatasetNames).
* **C45 Linear regression** — RegressModel.v models shared_axes, the choice of axes, the blocks (tile, NaN masks), the six sums accumulated block by block and the formulas after the loop. The accumulation lemma of the reductions gives the sums over all pairs; the formulas are then proved to give the least-squares line (ClimLine) by algebra over Qc.
* **C46 Correlation** — Same model; the coefficient is compared with a separate definition by deviations from the means, Cauchy-Schwarz from the nonnegativity of the squared error.
* **C47 Tests of means** — MeansModel/Spec/Proofs/Pairs: the sums over blocks (as in C45) for each variable or for the differences, then Welch's formulae at each point (welch_test, paired_result, mean_test in MeansSpec) from the sums by algebra over Qc; refuted parts by concrete variables.
* **C48 Multiple regression** — MultiModel (multi_axes, the sums over blocks as loopover yields them, the fit at one point, the arrays of the outputs with the transpositions of the code), MultiSpec (observations, residual, best fit, dependence, inverse), proved through the normal equations (MultiLeast), the sums (MultiSums, MultiProofs) and the placement of the variables on the combined axes (MultiPlace).
* **C49 CF time metadata round trip** — CfModel.v models encode_cf/decode_cf for one axis: the '%04i-%02i…' text, the regular expressions as greedy scanners, the calendar names (including the substring test), construction of the axis from values, the year-0 rule. CfSpec.v says independently what a decimal numeral and a reference text are. Proof: scanner lemmas (CfText), C02's date->value->date inverse, dictionary lemmas.
* **C50 CF axis classes round trip** — Same model; the class inference of decode_cf with attribute dictionaries as association lists, auxiliary arrays through the blank-separated attribute. Proof: split/join and prefix lemmas, case analysis over the classes (CfAxisProofs).
* **C51 Variable names in files** — fix_char/fix_name on ASCII strings; spec by an explicit alphabet (CfAxisSpec.legal); exhaustive case analysis on characters, induction on strings.
* **C52 Variables spread over many files** — MultiFileModel.v models Multifile_Var.getview: reltime of the requested times, searchsorted into the dates of the files, the loop over the places where the file changes, common_map with the times of each file, replace_axis + get of that part, assignment along the time axis, the flags of the times handled. MultiFileSpec.v says what a file holds (either a variable with a time axis or one for the date of the file). Proof: common_map pairs exactly the same times (C07 lemmas), the rewritten view reads the right part, and induction over the list of files with the invariant 'flagged times hold data of a file with that time'.
* **C53 The time axis of many files** — MultiTimeModel.v models the part of open_multi that makes up the time axis (delta, reltime, rounding, withnewvalues). Proof: evenly spaced dates have values v0 + i d in exact arithmetic, relative to any start date, so the division is exact and val_as_date gives back the dates (calendar lemmas of C01-C04).
* **C54 Ensembles** — EnsembleModel.v models ensemble.py: the axis, getview and the matching by name. EnsembleProps.v: the view with the first axis removed is answered by every member (get_in_place of ConcatVar.v), the stacked blocks are described position by position; sequence of the per-name results for the datasets.
* **C55 Common metadata** — CombineModel.v: dictionaries as lists of entries in insertion order; common_dict as merge and filter, with the inequality test as a parameter; the generator variant; combine_meta; the callers. CombineProps.v: lookup in a merge is lookup in the last dictionary that has the key; filter keeps those found everywhere.
* **C56 Concatenating datasets** — CombineModel.v models dataset.concat with the joining function as a parameter. CombineProps.v: names by induction from the right against nodup, segments dataset by dataset.
* **C57 Ticks on time axes** — TickModel (timeticker.py generators function by function over the calendar model CalModel; three clock generators have the same text and share one definition), TickProofs (a generator whose prior/next walk along an increasing grid of instants yields the grid points in [vmin, vmax)), TickClock, TickMonth (every generator is such a grid), TickProps.
* **C58 Splitting a time axis into years and the rest** — SplitModel.v models _splittime, _jointime and SplitTime.getview; SplitSpec.v says which date belongs to a year and a day; SplitView.v proves what any request gives, SplitProps.v puts the axes together.
* **C59 Joining years and days to a time axis** — SplitModel.v models JoinTime; SplitJoin.v follows a request through splitting of the requested times, the rectangular read, the reshape and the map_to back; SplitProps.v states the join and the round trip with C58.
* **C60 Dates as text** — DateTextModel models re.search for the two patterns as lists of successes (all the matches, in the order in which they are tried), str_as_date, str_as_val, string.Template and formatvalue on ASCII strings. DateTextSpec states numerals, names of months up to case and times of day without reference to the code. Proofs by inversion of membership in the list of matches, and a three-state automaton for the refused texts.
* **C61 Time axes made from text** — timerange, timen and yearlessn in DateTextModel, on exact rationals (np.arange by its length formula). The dates are described by their distance from the start date (date_as_val, which C01-C05 tie to the calendar). Coq's SpecFloat shows the rounding error of the length for binary64.
* **C62 Datasets found in a collection of files** — Domains are lists of axis names with increasing lists of integers (frozensets). All of _get_domains is modelled, with fuel for the two loops (None = still running). Soundness by an invariant (every place of a domain is a place of a piece with no other axes) through grouping, merging and cleaning; completeness by an order on domains (inside) and maximal elements; termination because all domains live in a finite universe, the inner loop adds new elements of it and the outer loop enlarges the covered part of it; joins because the last round of merging adds nothing. A small collection for which a filled rectangle is not found was looked for by random search on a copy of the model and is then proved.
* **C63 Reading variables of scanned datasets** — An axis is a list of integers, the data of a file a function of the coordinates, the result a function from indices to values or NaN. np.searchsorted is modelled as the bisection numpy does, including the reuse of bounds for the next key: on rising lists it is shown to compute ranks for any keys, on falling lists with falling keys to find nothing. The assertion on advanced indexing is a failure; C63_answered says when it cannot occur.
* **C64 Rotating longitudes** — Model: RotateModel.v (axis.py:884-938) on top of replace_axes, sorted, __call__ and concat as already modelled; % is the exact Python modulus on rationals. Spec: RotateSpec.v (same_meridian, in_turn, distinct_meridians). Proof: arithmetic of the modulus, then the statements of replace_axes and sorted for the one axis that changes. The duplicate keyword is refuted by computation.
* **C65 A dataset saved to a netCDF file comes back unchanged when the file is opened** — NcModel.v models tidy_axes, write_var (chunks of loop_mem), save, make_dim, NCVar, make_dataset, dims2axes (with the case-insensitive alias lookup) and open over an abstract file of named dimensions and arrays; NcSpec.v says what storable variables and 'the same variable' are; NcProofs.v shows combine_axes lists every axis once and that chunked writing stores every element; NcOpen.v follows the variables through opening; refutations by computation.
* **C66 Square brackets on a variable index its values as numpy does** — ItemModel.v models Var.__getitem__ (slice lazily, get, then drop the dimensions of integers with a second, numpy, indexing); ItemSpec.v is numpy's rule as an inductive relation between positions; proof from C23 (lazy slices) and the fact that the second indexing meets dimensions of length 1.
* **C67 Anomalies: data combined with a climatology of the same data** — AnomModel models from_trend and detrend of climat.py on top of ClimModel (climatologies), UfuncModel (arithmetic) and AxisModel (Time.map_to). AnomSpec defines the group of a time by its kept date fields, without the code's searches. AnomProofs: the axis of the climatology is coarser than that of the data (every time has one group), map_to finds it (TimeSearch, TimeMap), combine_axes keeps the data's axes, and a request of the climatology through a view picks the right groups; AnomView: loaded and lazy climatologies and the line of from_trend. The mean residual of a best line is zero because moving the line by it would reduce the squared error. The broadcast of the uniqueness test of View.get is modelled as it is, hence the refuted statement.
* **C68 Filling and marking missing values, and changing the type, touch only the elements concerned** — FillModel.v: FillVar, UnfillVar, Cast as element-wise views over view.get, with the rounding of the element type as a parameter; FillProps.v: one lemma for element-wise views (each_computes, from responds_part), NaN-aware equality, round trips by composition, and a concrete float32 rounding for the refuted part.
* **C69 Selecting from a dataset restricts every variable that has the axis and keeps shared axes shared** — DsMapModel (map_vars/ds_map over a function that may create axis objects; slice_objs = the axis object itself if unchanged, else a new one; ds_select, ds_load). Proof by invariant on object identities while the variables are mapped (old, or numbered in the interval of its variable), then: same-named sliced axes have equal contents because the original dataset is well named and the selection of an axis is determined by the keywords, so C44_contents/C44_made apply with all same-named axes agreeing.
* **C70 Renaming, replacing and keeping variables of a dataset, and renaming its axes, changes nothing else** — DsNameModel on top of DatasetModel/DsMapModel: replace_vars, whitelist (lookup of the last variable of a name), rename_axes_obj (new axis object per variable, Replace_axes). map_thread generalises the identity invariant of C69; make_agreeing: a dataset made from variables whose same-named axes have equal contents and equal themselves is well named and keeps names, axes and data.
* **C71 openall does not depend on the order of the files** — OpenAllModel.v open_all composes the concatenation (ConcatModel.v) with sorted (VarOpsModel.v sort_var). OpenAllProofs.v composes C28_concat, C28_times and C28_auto with a version of the sorting theorem for computed variables (SortAny.v), for axes with coordinates and for time axes that count the same way; two strictly sorted permutations of the same coordinates are equal, so the order of the files does not matter.
* **C72 Opening a file with axis types, a list of variables and new names does the three things and nothing else** — FinalModel.v models set_axistypes and finalize_open on top of DsNameModel.v (whitelist, rename_vars, rename_axes). FinalProofs.v shows what the replacements are and that replacing axes by keys equals a function on axis objects; FinalProps.v composes C72_dimtypes with C70_whitelist, C70_rename_vars and C70_rename_axes.
* **C73 sorted() sorts the axes asked for, in the order asked for, and leaves the others alone** — SortCallModel.v models the arguments of sorted() (order dictionary: positional, then keywords, later entries win; orders 1, 0, -1; all axes if none is named) and Axis.sorted's choice of direction, on top of sort_var (VarOpsModel.v, C32). SortCallProps.v proves what the dictionary is (order_of_spec) and composes it with C32_computed.
* **C74 Text and axes without coordinates (stations) survive CF encoding** — StationModel.v models encode_string_var, decode_string_var and the parts of encode_cf and decode_cf about axes without coordinates: arrays become variables, lists of names become attributes, and the decoder finds them by splitting the lists. StationProofs.v: suffixes, words of a joined list, pieces of a text, dictionaries; StationProps.v composes the two directions.
* **C75 The manifest of scanned files never gives outdated information** — ManifestModel.v models scan_files, get_table, save and the loading of a manifest, with files as names to times and contents, and a transition system of writing, deleting, scanning, saving, restarting and dying at two points of save. ManifestProps.v proves an invariant (every entry is right or its file is newer than the manifest, in memory and on disk) by induction over histories.
* **C76 Looking for variables finds every match, and the best one** — FindModel.v models DataInterface.find, have and find_best with a stable insertion sort and the order of lists of numbers; FindProps.v proves that the first element of a stable sort is the first of the least ones, and combines the two sorts.
