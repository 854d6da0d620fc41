{"id": "C01", "title": "Memoised functions are transparent", "statement": "Whatever calls were made before, a call to a function decorated with qopen's cache returns (or raises) what the undecorated function returns (raises) for the same arguments, provided calls with the same printed arguments have the same result; a successful result is computed at most once per printed argument text; a failing call is never remembered.", "quantifier": "all functions, all finite histories of calls, all arguments", "why_tests_cant": "needs every call history, including interleavings of failing and succeeding calls", "anchors": ["qopen/util.py:cache"]}
{"id": "C02", "title": "The cache key never confuses two different calls", "statement": "For arguments made of strings, ints, bools, None, floats and nested tuples, lists and string-keyed dicts, two calls whose positional and keyword arguments differ have different cache keys; in particular two (event id, station) pairs are never confused, whatever quotes, commas or backslashes their names contain.", "quantifier": "all argument tuples and keyword dictionaries over that value grammar, of any depth and length", "why_tests_cant": "injectivity over an infinite set of nested values", "anchors": ["qopen/util.py:cache", "qopen/core.py:invert._get_distance", "qopen/core.py:get_freqs"]}
{"id": "C03", "title": "smooth keeps the documented length", "statement": "smooth(x, n) has len(x) samples for border methods zeros, reflect and clip and len(x)-n+1 without border handling; it raises ValueError exactly when the window is longer than the signal or its name is unknown, and returns the signal unchanged for windows shorter than 3.", "quantifier": "all signals, window lengths, window names, border methods", "why_tests_cant": "every length and parity of signal and window, incl. window as long as the signal", "anchors": ["qopen/util.py:smooth"]}
{"id": "C04", "title": "smooth is an averaging operator", "statement": "With any of the five window types every smoothed sample lies between the minimum and the maximum of the (padded) signal; a constant signal is unchanged for border methods reflect, clip and None; away from the borders all border methods agree with the result without border handling.", "quantifier": "all signals, window lengths, window types", "why_tests_cant": "a universally quantified inequality over real vectors", "anchors": ["qopen/util.py:smooth"]}
{"id": "C05", "title": "smooth_func returns one centred average per time sample", "statement": "smooth_func(f, t, window) on evenly spaced samples returns exactly len(t) values, value j being the window-weighted mean of f over the samples around t[j].", "quantifier": "all functions f, all evenly spaced time vectors, all window lengths", "why_tests_cant": "one window length out of infinitely many (2 samples) breaks it", "anchors": ["qopen/util.py:smooth_func", "qopen/util.py:smooth", "qopen/core.py:Gsmooth"]}
{"id": "C06", "title": "The geometric mean is a mean", "statement": "gmean ignores NaN, infinite and non-positive entries; the result lies between the smallest and largest valid entry, is homogeneous (scaling the data scales the mean), is independent of the order of the data, is unchanged by rescaling the weights, equals the unweighted mean for equal weights, and integer weights act like repetition.", "quantifier": "all data vectors and weight vectors", "why_tests_cant": "algebraic laws over all real vectors with arbitrary missing entries", "anchors": ["qopen/util.py:gmean", "qopen/util.py:gstat", "qopen/util.py:weighted_stat"]}
{"id": "C07", "title": "gmeanlist yields a number exactly where there is data", "statement": "gmeanlist(rows, axis=0) returns one entry per column; the entry is None exactly when the column has no valid value, for plain, robust and weighted means; below the fall-back count the robust mean is the plain mean, and it returns the common value of identical data.", "quantifier": "all tables of any size with arbitrary missing entries", "why_tests_cant": "every pattern of missing values", "anchors": ["qopen/util.py:gmeanlist", "qopen/util.py:robust_stat"]}
{"id": "C08", "title": "Geometric error bars are well formed", "statement": "gerr returns (m, lower, upper) with m-lower > 0, 0 <= lower <= upper and (m-lower)*(m+upper) = m^2; the unbiased error is at least the biased one; with equal weights the weighted error equals the unweighted error; with weights it is one weighted standard deviation of the logarithms.", "quantifier": "all data vectors with at least two valid entries, all weights", "why_tests_cant": "real inequalities for all data", "anchors": ["qopen/util.py:gerr", "qopen/util.py:weighted_stat"]}
{"id": "C09", "title": "Green's functions are causal", "statement": "For scalar arguments G(r,t,c,g0) is 0 for t < r/c, for each of the nine types; an unknown type raises an error instead of returning a number.", "quantifier": "all r, t, c > 0, g0, all type names", "why_tests_cant": "all real arguments", "anchors": ["qopen/rt.py:G"]}
{"id": "C10", "title": "Evaluating G on a time vector agrees with evaluating it time by time", "statement": "For an increasing time vector, entry k of G(r, ts, c, g0) equals the scalar G(r, ts[k], c, g0), except at the one sample carrying the direct wave.", "quantifier": "all increasing time vectors, all r, c, g0, all types", "why_tests_cant": "depends on where the onset falls in the vector; fails when it falls before the first sample", "anchors": ["qopen/rt.py:G"]}
{"id": "C11", "title": "Evaluating G on a distance vector respects causality", "statement": "For an increasing distance vector, entry k of G(rs, t, c, g0) equals the scalar value for rs[k] < c*t and is 0 for rs[k] > c*t, except at the one sample carrying the direct wave, and there is a direct wave sample only if the wave front lies inside the vector's range.", "quantifier": "all increasing distance vectors, all t, c, g0, all types", "why_tests_cant": "depends on the position of the front relative to the vector", "anchors": ["qopen/rt.py:G"]}
{"id": "C12", "title": "2D radiative transfer conserves energy exactly", "statement": "For every time the integral of the 2D coda Green's function over the disc of radius c*t plus the energy of the direct wave equals 1; more precisely the coda energy inside radius rho is 1-exp((sqrt(c^2t^2-rho^2)-ct)g0) - ... as a closed form.", "quantifier": "all t, c, g0 > 0, all radii", "why_tests_cant": "the test integrates numerically for three times with 0.5% tolerance", "anchors": ["qopen/rt.py:rt2d_coda", "qopen/rt.py:rt2d_direct", "qopen/tests/test_rt.py"]}
{"id": "C13", "title": "Green's functions are positive behind the wave front", "statement": "Coda terms of all types and the direct terms are strictly positive for t > r/c >= 0, so the logarithm taken by the inversion is defined.", "quantifier": "all r >= 0, t, c, g0 > 0 with c*t > r", "why_tests_cant": "all real arguments", "anchors": ["qopen/rt.py:rt3d_coda", "qopen/rt.py:rt2d_coda", "qopen/rt.py:rt1d_coda", "qopen/rt.py:diff", "qopen/rt.py:diffapprox"]}
{"id": "C14", "title": "Green's functions obey the similarity law of radiative transfer", "statement": "Stretching distance and time by k and dividing g0 by k divides G by k^dim, for each type; so results do not depend on the choice of length unit.", "quantifier": "all arguments, all k > 0, all types", "why_tests_cant": "functional equation over the reals", "anchors": ["qopen/rt.py:rt3d_coda", "qopen/rt.py:rt2d_coda", "qopen/rt.py:rt1d_coda", "qopen/rt.py:diff", "qopen/rt.py:diffapprox", "qopen/rt.py:rt3d_direct"]}
{"id": "C15", "title": "diff solves the diffusion equation", "statement": "diff(r,t,c,g0,dim) satisfies dG/dt = D (d2G/dr2 + (dim-1)/r dG/dr) with D = c/(dim g0), for dim 1, 2, 3; diffapprox is an upper bound for it.", "quantifier": "all r, t, c, g0 > 0", "why_tests_cant": "a differential equation cannot be tested pointwise", "anchors": ["qopen/rt.py:diff", "qopen/rt.py:diffapprox"]}
{"id": "C16", "title": "Radiative transfer turns into diffusion at late times", "statement": "For fixed distance the ratio of the rt3d coda to 3D diffusion, of the rt2d coda to 2D diffusion, of the rt1d coda to 1D diffusion, and of diff to diffapprox tends to 1 as time grows. In two and three dimensions the distance from diffusion is bounded: with y = (r/(c*t))^2 the ratio lies between exp(-c*t*g0*y^2/2) and 1/sqrt(1-y) in 2D, and between (1-y) exp(-1.5*c*t*g0*y^2) and 1 + 2/(c*t*g0) in 3D up to half the distance of the wave front.", "quantifier": "all r, c, g0 > 0; limit t -> infinity", "why_tests_cant": "a limit", "anchors": ["qopen/rt.py:rt3d_coda_reduced", "qopen/rt.py:diff", "qopen/rt.py:diffapprox", "qopen/rt.py:rt2d_coda"]}
{"id": "C17", "title": "Absorption in the Green's function plots decays with time", "statement": "With an absorption length la the curve drawn by 'qopen rt plot-t' is G(r,t)*exp(-c*t/la) at every plotted time t.", "quantifier": "all plotted time vectors, all la", "why_tests_cant": "plots are only smoke-tested; relation must hold at each sample", "anchors": ["qopen/rt.py:plot_t", "qopen/rt.py:plot_r", "qopen/rt.py:main"]}
{"id": "C18", "title": "Moment magnitude conversion is invertible and monotone", "statement": "moment_magnitude(moment_magnitude(M0), inverse=True) = M0 and conversely; larger moments have larger magnitudes; a factor 10^1.5 in moment is one magnitude unit.", "quantifier": "all M0 > 0, all Mw", "why_tests_cant": "an identity over the reals", "anchors": ["qopen/source.py:moment_magnitude"]}
{"id": "C19", "title": "Source displacement spectrum scaling", "statement": "sds is positive for positive input, scales with v0^(5/2), sqrt(rho*W) and 1/f as documented, and W can be recovered from it.", "quantifier": "all positive W, f, v, rho and scale factors", "why_tests_cant": "functional equations", "anchors": ["qopen/source.py:sds", "qopen/example/conf.json"]}
{"id": "C20", "title": "Source model shape", "statement": "source_model lies strictly between 0 and M0, decreases strictly with frequency, equals M0*2^(-1/gamma) at the corner frequency, tends to M0 at low frequency and falls off like f^-n at high frequency, and is proportional to M0.", "quantifier": "all positive parameters, all frequencies", "why_tests_cant": "real inequalities and limits", "anchors": ["qopen/source.py:source_model"]}
{"id": "C21", "title": "Fitted n and gamma reproduce the fitted curve", "statement": "When both n and gamma are fitted, the returned n and gamma put into source_model give exactly the curve that was fitted (internally parametrised by a and b), at every frequency.", "quantifier": "all frequencies and all fit outcomes a, b > 0", "why_tests_cant": "identity over the reals", "anchors": ["qopen/source.py:fit_sds", "qopen/source.py:_source_model_ab", "qopen/source.py:source_model"]}
{"id": "C22", "title": "fit_sds method mean", "statement": "With method 'mean' M0 is the geometric mean of the spectrum values at frequencies below fc that are present; values at or above fc and missing values have no influence; None is returned when there are none (or fewer than num_points); fc=None raises ValueError.", "quantifier": "all spectra with arbitrary missing entries", "why_tests_cant": "all inputs", "anchors": ["qopen/source.py:fit_sds"]}
{"id": "C23", "title": "fit_sds recovers a noise-free source model and is scale equivariant", "statement": "For fixed corner frequency, n and gamma the least squares M0 minimises the misfit over all M0; on a spectrum generated by source_model the returned M0 is exact and the misfit 0; multiplying the spectrum by k multiplies M0 by k and leaves the misfit of every trial (fc, n, gamma) unchanged.", "quantifier": "all spectra, frequencies, parameters, k > 0", "why_tests_cant": "optimality over a continuum", "anchors": ["qopen/source.py:fit_sds"]}
{"id": "C24", "title": "fit_sds reports exactly the documented quantities", "statement": "The returned dictionary has M0, fit_error and exactly those of fc, n, gamma that were to be determined; if M0 is not determined None is returned.", "quantifier": "all combinations of given/unknown parameters and numbers of valid points", "why_tests_cant": "8 combinations times all numbers of data points; the documented None return fails for one region", "anchors": ["qopen/source.py:fit_sds"]}
{"id": "C25", "title": "Spectra stay aligned with frequencies", "statement": "After inserting source properties the sds list has one entry per frequency, entry i is the spectrum at frequency i, None exactly where W is missing or zero; Mw is present exactly when M0 is and equals moment_magnitude(M0).", "quantifier": "all frequency lists and W lists with missing entries, all methods", "why_tests_cant": "every pattern of missing values", "anchors": ["qopen/source.py:insert_source_properties"]}
{"id": "C26", "title": "Recalculating source properties leaves no stale values", "statement": "After calculate_source_properties every event's sds, M0, fc, n, gamma, fit_error and Mw stem from the new calculation (present only if newly determined), and recalculating again with the same options changes nothing; W, R and error are untouched.", "quantifier": "all result dictionaries, all old values", "why_tests_cant": "depends on the history of previous calculations stored in the file", "anchors": ["qopen/source.py:calculate_source_properties"]}
{"id": "C27", "title": "Merging station sets yields connected components", "statement": "_merge_sets terminates and returns pairwise disjoint non-empty sets covering exactly the input stations; two stations end up in the same set exactly if they are connected by a chain of overlapping input sets.", "quantifier": "all finite lists of non-empty sets", "why_tests_cant": "termination and transitive closure for any number of sets", "anchors": ["qopen/site.py:_merge_sets"]}
{"id": "C28", "title": "Unconnected areas: none lost, none invented", "statement": "For every frequency the areas found partition exactly the stations with a valid site response; no area is lost although areas are stored under the name of an arbitrary member; stations without a valid response or in ignore_stations are in no area.", "quantifier": "all results, any iteration order of Python sets", "why_tests_cant": "set iteration order is arbitrary; all networks of events and stations", "anchors": ["qopen/site.py:_find_unconnected_areas"]}
{"id": "C29", "title": "Alignment preserves the modelled energy", "statement": "Rescaling multiplies an event's site responses by the factor by which its source energy is divided: the product W*R of every surviving event-station-frequency triple is unchanged; values that are None stay None; other frequencies and events are unaffected.", "quantifier": "all results and all positive factors", "why_tests_cant": "invariant over all tables with arbitrary gaps", "anchors": ["qopen/site.py:_rescale_results"]}
{"id": "C30", "title": "Alignment normalises the site responses exactly", "statement": "After alignment with any least squares solution of the assembled system, the geometric mean over the normalisation stations of the per-station geometric mean site response equals the requested response, exactly, whatever the inconsistency of the data.", "quantifier": "all results, all least squares solutions, all response values", "why_tests_cant": "the tests check it on a handful of examples up to 1e-5", "anchors": ["qopen/site.py:align_site_responses"]}
{"id": "C31", "title": "Consistent site responses become identical after alignment", "statement": "If the input site responses differ between events only by one factor per event, then after alignment every station in the largest area has the same response in all events.", "quantifier": "all results consistent up to per-event factors, any connectivity", "why_tests_cant": "all networks; connectivity argument", "anchors": ["qopen/site.py:align_site_responses"]}
{"id": "C32", "title": "Only the largest connected area survives alignment", "statement": "After alignment site responses of stations outside the area with the most stations are None, those inside are present exactly where they were present before, and an event's source energy is None exactly when it was missing or none of its site responses survived.", "quantifier": "all results with arbitrary gaps", "why_tests_cant": "every pattern of connectivity", "anchors": ["qopen/site.py:align_site_responses", "qopen/site.py:_rescale_results"]}
{"id": "C33", "title": "Mean site responses after alignment reflect the aligned events", "statement": "After alignment the result's mean site response of a station is the mean of its aligned event responses, and stations without any aligned response have no mean response.", "quantifier": "all results, all previously stored mean responses", "why_tests_cant": "depends on values left over from the previous run", "anchors": ["qopen/site.py:align_site_responses"]}
{"id": "C34", "title": "Aligning to a station uses that station only", "statement": "With align_sites_station=X the normalisation uses exactly the site responses of station X (of the stations in the list if a list is given).", "quantifier": "all station names", "why_tests_cant": "fails only for station names containing one another", "anchors": ["qopen/site.py:align_site_responses", "qopen/core.py:run"]}
{"id": "C35", "title": "Results are written in a fixed key order without loss", "statement": "sort_dict returns the same key-value pairs ordered by the documented order and raises ValueError exactly when a key is unknown; all dictionaries built by the inversion only have known keys.", "quantifier": "all dictionaries", "why_tests_cant": "all key sets", "anchors": ["qopen/core.py:sort_dict", "qopen/core.py:DUMP_ORDER"]}
{"id": "C36", "title": "Frequency bands follow the configured spacing", "statement": "With max, min, step and width the central frequencies are all numbers max/2^(k*step) not below min, in increasing order, the last being max; each band is centred on its central frequency and spans width octaves; with cfreqs the bands are built around the given values.", "quantifier": "all max >= min > 0, step > 0, width > 0", "why_tests_cant": "all real parameters", "anchors": ["qopen/core.py:get_freqs"]}
{"id": "C37", "title": "Every requested frequency band is inverted", "statement": "With fbands every requested band appears as a band of the inversion under its central frequency.", "quantifier": "all lists of bands", "why_tests_cant": "fails only for bands with a common centre", "anchors": ["qopen/core.py:get_freqs"]}
{"id": "C38", "title": "Observed energy", "statement": "The energy trace is non-negative, has the length of the shortest component, is quadratic in the data, linear in rho, inverse in filter width and free surface factor; it is refused (pair skipped) exactly when component lengths differ by more than the tolerance; with coda normalisation it does not depend on the amplitude of the data.", "quantifier": "all three component streams, all parameters, any Hilbert transform that is linear and length preserving", "why_tests_cant": "all real vectors", "anchors": ["qopen/core.py:observed_energy", "qopen/core.py:energy1c"]}
{"id": "C39", "title": "Station name from SEED id", "statement": "The station name of NET.STA.LOC.CHA is NET.STA, independent of location and channel, and STA for an empty network; different stations have different names; with the network code ignored the names used for results and for data agree.", "quantifier": "all dot-free network, station, location and channel codes", "why_tests_cant": "all strings", "anchors": ["qopen/core.py:get_station", "qopen/core.py:invert"]}
{"id": "C40", "title": "Choice of arrivals", "statement": "Arrivals are those of the preferred origin if it has any, else of the first origin, else of the only other origin with arrivals; if there is none or more than one candidate, no arrivals are used.", "quantifier": "all events with any number of origins", "why_tests_cant": "all combinations of origins", "anchors": ["qopen/core.py:get_arrivals", "qopen/core.py:get_origin"]}
{"id": "C41", "title": "Choice of picks", "statement": "For a station the S (P) onset is the time of the last arrival in the list at that station whose phase is S or Sg (P or Pg), ignoring case; arrivals at other stations and other phases do not matter.", "quantifier": "all arrival lists", "why_tests_cant": "all orderings and duplicates", "anchors": ["qopen/core.py:get_picks"]}
{"id": "C42", "title": "Time expressions mean what they say", "statement": "OT+x s, P+x s, S+x s, xPtt, xStt denote origin time plus x, onset plus x and origin time plus x travel times for every number x, irrespective of case; every other text that is not an SNR expression raises ValueError.", "quantifier": "all numerals x, all traces, all strings", "why_tests_cant": "parser over all strings", "anchors": ["qopen/core.py:time2utc"]}
{"id": "C43", "title": "SNR times end the window at the first weak sample", "statement": "xSNR denotes the time of the first sample at or after the window start whose value is below x times the noise level, or the end of the data if there is none; it is never before the start.", "quantifier": "all traces, all thresholds", "why_tests_cant": "all data vectors", "anchors": ["qopen/core.py:time2utc"]}
{"id": "C44", "title": "Time windows take the latest start and the earliest end", "statement": "A window given by lists of expressions starts at the latest of the start times and ends at the earliest of the end times; SNR ends are searched from the resulting start.", "quantifier": "all windows, all lists of expressions", "why_tests_cant": "all lists", "anchors": ["qopen/core.py:tw2utc"]}
{"id": "C45", "title": "Collected results stay aligned with their events", "statement": "If all events have the collected keys, row j of every collected table belongs to the j-th collected event id; in general the rows of a key are the values of the events which have it, in order; events without result are left out everywhere; with freqi the column freqi is taken.", "quantifier": "all result dictionaries", "why_tests_cant": "every pattern of missing events", "anchors": ["qopen/core.py:collect_results"]}
{"id": "C46", "title": "Completeness check of data windows", "statement": "Data are accepted exactly when they cover the requested window up to the tolerance at both ends.", "quantifier": "all traces, windows and tolerances", "why_tests_cant": "boundary cases of all inequalities", "anchors": ["qopen/core.py:_check_times"]}
{"id": "C47", "title": "Coda is cut at the lowest minimum before the first outstanding maximum", "statement": "With cut_coda the returned time is the position of the lowest local minimum preceding the first local maximum that exceeds it by the ratio; no time is returned when no maximum does.", "quantifier": "all data vectors, all ratios", "why_tests_cant": "all shapes of envelopes", "anchors": ["qopen/core.py:_get_local_minimum"]}
{"id": "C48", "title": "Configuration comments", "statement": "Text after # on a line of the configuration is ignored and all other text is passed to the JSON parser unchanged; in particular quoted strings keep their value.", "quantifier": "all configuration texts", "why_tests_cant": "fails only for values containing #", "anchors": ["qopen/core.py:ConfigJSONDecoder"]}
{"id": "C49", "title": "Loading a plugin leaves the module search path alone", "statement": "After _load_func returns or raises, sys.path is what it was before.", "quantifier": "all plugin strings, all import outcomes", "why_tests_cant": "all failure points", "anchors": ["qopen/core.py:_load_func"]}
{"id": "C50", "title": "Data retrieval errors never abort the run", "statement": "The waveform function returns the data source's result, or None if it raises any error except KeyboardInterrupt and SystemExit, which are passed on.", "quantifier": "all data sources and requests", "why_tests_cant": "all exceptions", "anchors": ["qopen/core.py:init_data"]}
{"id": "C51", "title": "Observations stay attached to their event and station", "statement": "In each frequency band, after any pattern of skipped pairs, the i-th coda data, coda times, bulk value, bulk time and weight belong to the i-th remaining event-station pair, and exactly the pairs passing all configured checks remain, in order.", "quantifier": "all lists of energy traces and all outcomes of the checks", "why_tests_cant": "every pattern of skips", "anchors": ["qopen/core.py:invert_fb"]}
{"id": "C52", "title": "Noise removal leaves positive energies", "statement": "With remove_noise and a positive noise level every remaining energy value is at least noise/100, so its logarithm exists; larger values are reduced by exactly the noise level; pairs without a noise level are skipped.", "quantifier": "all energy traces and noise windows", "why_tests_cant": "all data", "anchors": ["qopen/core.py:invert_fb"]}
{"id": "C53", "title": "The linear system is the physical model", "statement": "For every observation the row of the assembled system applied to a parameter vector equals ln(R_station) + ln(W_event) - b*t for the R, W, b decoded from this vector (go, fixed and source commands), and the geometric mean of the decoded R equals R0. Source terms and site responses that are given or normalised away are not in the result.", "quantifier": "all sets of pairs, all parameter vectors, any number of samples", "why_tests_cant": "index arithmetic for all layouts", "anchors": ["qopen/core.py:invert_fb", "qopen/core.py:invert_fb.lstsq"]}
{"id": "C54", "title": "The inversion recovers the parameters of synthetic data exactly", "statement": "If the observed energies are W_event*R_station*G*exp(-b t) with geometric mean of R equal R0, every weighted least squares solution of the assembled system decodes to exactly these W, R and b (all three commands), provided the pairs form a connected network and, for b, two times differ at one pair; the error is 0.", "quantifier": "all networks of pairs, all true parameters, all positive weights, all least squares solvers", "why_tests_cant": "identifiability for every connected network", "anchors": ["qopen/core.py:invert_fb", "qopen/core.py:invert_fb.lstsq"]}
{"id": "C55", "title": "Accepted results respect the bounds", "statement": "For positive bounds every result returned for a frequency band has g0 and b more than 1% inside their bounds and the error of its fit (not infinity); results on or near the bounds or NaN are discarded. (For negative lower bounds this fails.)", "quantifier": "all optimisation outcomes including NaN and infinities", "why_tests_cant": "all float values", "anchors": ["qopen/core.py:invert_fb"]}
{"id": "C56", "title": "Misfit outside the bounds is infinite", "statement": "During optimisation trial values of g0 outside g0_bounds or leading to b outside b_bounds have misfit infinity, so no minimiser of the misfit with finite value violates the bounds.", "quantifier": "all trial values", "why_tests_cant": "all reals", "anchors": ["qopen/core.py:invert_fb.lstsq"]}
{"id": "C57", "title": "At most the configured number of optimisation steps is recorded", "statement": "For every optimiser the number of recorded fits is at most the configured num (for num >= 1), no trial value is recorded twice, the final fit is among them, and the misfits of all trial values inside the bounds of g0 are recorded in order.", "quantifier": "all sequences of optimiser calls", "why_tests_cant": "all call histories", "anchors": ["qopen/core.py:invert_fb.lstsq"]}
{"id": "C58", "title": "All result lists are aligned with the frequency list", "statement": "In the result of an inversion freq, g0, b, error, nstations, every R[station] and every W[event] have one entry per frequency band in the same order; entries are None exactly for bands or stations or events without result.", "quantifier": "all numbers of bands, stations, events, all patterns of failed bands", "why_tests_cant": "every pattern of failures; fails for duplicate event ids", "anchors": ["qopen/core.py:invert"]}
{"id": "C59", "title": "Selection of pairs", "statement": "The pairs entering the inversion are exactly the event-station pairs whose station is installed, whose distance does not exceed the limit, which have P and S onsets and a complete gap-free three component record with response, ordered by origin time and distance.", "quantifier": "all catalogues and inventories, all outcomes of data retrieval", "why_tests_cant": "every pattern of rejections", "anchors": ["qopen/core.py:invert"]}
{"id": "C60", "title": "Minimum number of pairs", "statement": "With skip num_pairs=x an inversion is skipped exactly when fewer than x pairs are left.", "quantifier": "all x, all numbers of pairs", "why_tests_cant": "boundary case", "anchors": ["qopen/core.py:invert", "qopen/core.py:invert_fb", "qopen/example/conf.json"]}
{"id": "C61", "title": "Results do not depend on the number of cores", "statement": "The per-band results with njobs=1 and with any number of worker processes are the same, whatever the scheduling, and so is the complete result dictionary.", "quantifier": "all numbers of workers and bands, all schedules", "why_tests_cant": "all schedules; fails only for more than 4 bands per worker", "anchors": ["qopen/core.py:invert", "qopen/core.py:invert_fb"]}
{"id": "C62", "title": "Fixed parameters are applied to their own frequency band", "statement": "For the fixed and source commands each band uses the g0, b and site responses stored for its central frequency, whatever the order of frequencies in the input; a different set of frequencies raises ValueError; stations without site response are skipped.", "quantifier": "all inputs and orders of frequencies", "why_tests_cant": "all permutations", "anchors": ["qopen/core.py:invert", "qopen/core.py:invert_fb"]}
{"id": "C63", "title": "Events without picks are skipped individually", "statement": "When picks are used, an event without usable arrivals is skipped and the other events are still inverted.", "quantifier": "all catalogues", "why_tests_cant": "fails only when events are inverted together", "anchors": ["qopen/core.py:invert", "qopen/core.py:get_arrivals"]}
{"id": "C64", "title": "Source-receiver distance", "statement": "The vertical distance is event depth plus sensor elevation with correct_for_elevation in both elevation conventions, and event depth minus sensor depth without; sensors deeper than 10 m are treated as borehole stations and get the borehole free surface factor.", "quantifier": "all coordinates, all option combinations", "why_tests_cant": "fails only when network codes are ignored", "anchors": ["qopen/core.py:invert._get_distance", "qopen/core.py:invert_fb"]}
{"id": "C65", "title": "Events are processed in order of origin time", "statement": "All events with an origin are processed exactly once, ordered by origin time; events without origin are ignored.", "quantifier": "all catalogues", "why_tests_cant": "fails for equal origin times and for catalogues without origins", "anchors": ["qopen/core.py:invert_wrapper"]}
{"id": "C66", "title": "A run without any result ends regularly", "statement": "If no event can be inverted, the run returns None instead of raising, for individual and simultaneous inversion.", "quantifier": "all runs without result", "why_tests_cant": "rare configuration", "anchors": ["qopen/core.py:invert_wrapper", "qopen/core.py:run"]}
{"id": "C67", "title": "Mean results over events", "statement": "For individual inversion the reported g0, b, error and R are per frequency the (plain, robust or weighted) geometric means over the events with a result at this frequency, None if there is none; events without result have no influence.", "quantifier": "all sets of event results with arbitrary gaps", "why_tests_cant": "every pattern of gaps", "anchors": ["qopen/core.py:invert_wrapper", "qopen/util.py:gmeanlist"]}
{"id": "C68", "title": "Arguments override the configuration file", "statement": "Every option passed to run (or on the command line) takes precedence over the configuration file, options not passed come from the file; plots=True/False switches every plot option; the mean option is passed on to plots unless set there.", "quantifier": "all configurations and argument sets", "why_tests_cant": "all combinations", "anchors": ["qopen/core.py:run", "qopen/core.py:run_cmdline"]}
{"id": "C69", "title": "The prefix applies to output files only", "statement": "A prefix is prepended to the output, log and plot file names; output to stdout or no output is not affected by a prefix.", "quantifier": "all prefixes and outputs", "why_tests_cant": "fails for special values", "anchors": ["qopen/core.py:run"]}
{"id": "C70", "title": "Site responses from a separate file", "statement": "With input_sites the site responses (overall and per event) used by source and recalc_source are those of that file, everything else stays as in input.", "quantifier": "all inputs", "why_tests_cant": "depends on per-event contents", "anchors": ["qopen/core.py:run"]}
{"id": "C71", "title": "Selecting an event", "statement": "With eventid only this event is processed and a missing id raises ParseError, for all commands that accept the option.", "quantifier": "all catalogues and ids and commands", "why_tests_cant": "command-dependent", "anchors": ["qopen/core.py:run"]}
{"id": "C72", "title": "Logging configuration is consistent and repeatable", "statement": "configure_logging never changes the default configuration, every handler named by a logger is defined, and a file handler exists exactly when a log file is given and loglevel is not 0.", "quantifier": "all sequences of calls, all arguments", "why_tests_cant": "all call histories", "anchors": ["qopen/core.py:configure_logging", "qopen/util.py:LOGGING_DEFAULT_CONFIG"]}
{"id": "C73", "title": "Plot grids have room for every panel", "statement": "For N panels the grid computed for the site and spectra plots has a cell for every panel and for the colour bar, for every number of columns; panels do not overlap.", "quantifier": "all N, all numbers of columns", "why_tests_cant": "all N; fails for a single column", "anchors": ["qopen/imaging.py:_get_grid", "qopen/imaging.py:plot_all_sds", "qopen/imaging.py:plot_sites"]}
{"id": "C74", "title": "Optimisation plot panels do not overlap", "statement": "The panels of recorded optimisation steps are placed in distinct cells of the grid, outside the main panel, for every num.", "quantifier": "all num, all numbers of records", "why_tests_cant": "fails for even num", "anchors": ["qopen/imaging.py:plot_optimization"]}
{"id": "C75", "title": "Derived attenuation quantities are consistent", "statement": "Qsc, lsc, Qi, li computed from g0 and b satisfy Qsc^-1 * 2 pi f = g0 v0, lsc = 1/g0 in km, Qi^-1 * 2 pi f = b, li = v0/b in km, hence Qsc^-1 * 2 pi f * lsc * 1000 = v0 and likewise for Qi and li. A number as frequency counts for all values.", "quantifier": "all positive values", "why_tests_cant": "identities over the reals", "anchors": ["qopen/imaging.py:calc_dependent"]}
{"id": "C76", "title": "smoothing commutes with time reversal", "statement": "For windows of odd length smoothing the reversed signal gives the reversed smoothed signal, for every border method.", "quantifier": "all signals, odd window lengths, window types, border methods", "why_tests_cant": "universally quantified over real vectors; fails for one border method only", "anchors": ["qopen/util.py:smooth"]}
{"id": "C77", "title": "Site alignment succeeds on complete results", "statement": "align_site_responses returns without exception whenever there is an event with a result, a response value is given for every frequency, and the largest area of every frequency has a station used for the normalisation; ignored stations do not matter.", "quantifier": "all well-formed results, all sets of ignored stations", "why_tests_cant": "depends on arbitrary patterns of gaps over events, stations and frequencies", "anchors": ["qopen/site.py:align_site_responses"]}
{"id": "C78", "title": "Adjusted S onset is at the energy maximum", "statement": "With adjust_sonset the S onset of each trace is moved to the time of the first sample of maximal energy inside the configured window.", "quantifier": "all traces, windows and onsets", "why_tests_cant": "wrong only when the window reaches beyond the start of the data", "anchors": ["qopen/core.py:623-637"]}
{"id": "C79", "title": "Sample times are accurate to half a second", "statement": "The lapse time attributed to each coda or bulk sample differs from the true time of the sample (shifted such that the onset is at distance / v0) by less than half a second, and by at most half a sample if the window starts inside the data.", "quantifier": "all traces, windows, sampling rates", "why_tests_cant": "universally quantified over real numbers and sample positions", "anchors": ["qopen/core.py:_check_times", "qopen/core.py:_get_slice", "qopen/core.py:invert_fb"]}
{"id": "C80", "title": "The configuration of a run is recorded in its result", "statement": "The result has an entry config with every given option that influences the inversion, with its value, and with the used values of mean and invert_events_simultaneously.", "quantifier": "all options and events", "why_tests_cant": "all option sets; an option that is missing in the list of recorded options is dropped silently", "anchors": ["qopen/core.py:invert_wrapper", "qopen/core.py:DUMP_CONFIG"]}
{"id": "C81", "title": "Every accepted command is executed", "statement": "run rejects unknown commands with ValueError and executes every command it accepts.", "quantifier": "all commands, configurations and arguments", "why_tests_cant": "all commands with all option sets; one accepted command has no branch", "anchors": ["qopen/core.py:run"]}
{"id": "C82", "title": "run leaves the arguments of its caller unchanged", "statement": "A call of run does not change the objects passed by the caller, so that a repeated call with the same arguments has the same effect.", "quantifier": "all arguments", "why_tests_cant": "aliasing of nested dictionaries only shows when a call is repeated with the same objects", "anchors": ["qopen/core.py:run"]}
{"id": "C83", "title": "Labels of plot grids", "statement": "Each axis label of a grid of panels is drawn on exactly one existing panel; tick labels are drawn on the panels of the first column and on the lowest panels of each column.", "quantifier": "all numbers of panels and columns", "why_tests_cant": "all grids; the label is missing for particular numbers of panels", "anchors": ["qopen/imaging.py:_set_gridlabels"]}
{"id": "C84", "title": "Frequency axis encloses all frequencies", "statement": "The limits of the frequency axis exist for every list of at least two positive frequencies and enclose all of them with half a step on the logarithmic axis, in increasing and in decreasing order.", "quantifier": "all lists of positive frequencies", "why_tests_cant": "all lists; decreasing or single frequencies", "anchors": ["qopen/imaging.py:freqlim"]}
{"id": "C85", "title": "Plots of an event show the values of this event", "statement": "If an event is chosen, the plots of its results and of its sites show the values stored for this event.", "quantifier": "all result files and events", "why_tests_cant": "overall values look plausible, the difference is only seen with several events", "anchors": ["qopen/core.py:run", "qopen/core.py:_plot", "qopen/imaging.py:plot_eventresult", "qopen/imaging.py:plot_eventsites"]}
{"id": "C86", "title": "The plot of a source spectrum shows its points and its fitted model", "statement": "The plotted points are the values of the spectrum at their frequencies; the model curve is the source model with the parameters fixed by the options or found by the fit and lies below the level of the moment; for the method mean the level is shown.", "quantifier": "all spectra, parameters and options", "why_tests_cant": "all spectra and methods", "anchors": ["qopen/imaging.py:plot_sds"]}
{"id": "C87", "title": "The magnitude plot shows the selected events", "statement": "plot_mags shows one point per selected event that has both magnitudes; the selection has the same meaning in the plots of spectra and of magnitudes.", "quantifier": "all results and selections", "why_tests_cant": "all selections of events", "anchors": ["qopen/imaging.py:plot_mags"]}
{"id": "C88", "title": "Plotting leaves the result unchanged", "statement": "The plots do not change the result which is written to the output file afterwards.", "quantifier": "all results", "why_tests_cant": "needs a comparison of the result before and after for each kind of inversion", "anchors": ["qopen/imaging.py:plot_results"]}
{"id": "C89", "title": "The plot of results of a simultaneous inversion shows its values", "statement": "If events are inverted simultaneously, the plot of the results shows the value of the inversion at each frequency.", "quantifier": "all values and kinds of mean", "why_tests_cant": "all kinds of mean with all numbers of frequencies", "anchors": ["qopen/imaging.py:plot_results", "qopen/util.py:gerr"]}
{"id": "C90", "title": "recalc_source records the settings it used", "statement": "The configuration in the result of recalc_source has the method and the options that were used, so that the recalculation is repeatable and the spectra can be plotted.", "quantifier": "all results and arguments", "why_tests_cant": "all combinations of given and recorded settings", "anchors": ["qopen/core.py:run", "qopen/source.py:calculate_source_properties", "qopen/imaging.py:plot_all_sds"]}
{"id": "C91", "title": "'qopen rt calc' prints the Green's function", "statement": "'qopen rt calc' prints, for every given mean free path l, G(r,t,c,1/l)*exp(-c*t/la); 'calc-direct' prints the energy density of the direct wave (rejecting types without one); calc and plot-rt reject several types.", "quantifier": "all types, distances, times, velocities, lists of mean free paths, absorption lengths", "why_tests_cant": "the command line of rt is only smoke-tested and its output is never compared with G", "anchors": ["qopen/rt.py:main", "qopen/rt.py:rt1d_direct", "qopen/rt.py:rt2d_direct", "qopen/rt.py:rt3d_direct"]}
{"id": "C92", "title": "Green's function plots show the Green's function", "statement": "Every point drawn by plot-t, plot-r and plot-rt (without direct wave) carries the value of G at its coordinates, the sampled range is the documented one (from just before the arrival to t; from 0 to r; the whole mesh), missing r or t get the documented defaults, and one curve is drawn per mean free path and type.", "quantifier": "all types, ranges, sample counts", "why_tests_cant": "plots are only smoke-tested; relation must hold at each sample", "anchors": ["qopen/rt.py:plot_t", "qopen/rt.py:plot_r", "qopen/rt.py:plot_rt", "qopen/rt.py:main"]}
{"id": "C93", "title": "Plots use the right velocity", "statement": "Derived quantities are plotted with the velocity given to the plot; without it with the velocity recorded in the configuration or with the velocities of the results, one per event and in the order of the events if each event has its own inversion. Without any velocity nothing wrong is plotted.", "quantifier": "all results, configurations and given velocities", "why_tests_cant": "all combinations of given, configured and inverted velocities", "anchors": ["qopen/imaging.py:plot_results", "qopen/imaging.py:plot_eventresult", "qopen/core.py:collect_results"]}
{"id": "C94", "title": "Plots drawn by run and the command plot", "statement": "Exactly those plots are drawn which are switched on and for which the result has values, each once, into the given file (with the id of the event filled in) and with the given options. The command plot uses the result of the input file, restricted to the selected event, and the options of the call, without configuration file completed by the options recorded in the result.", "quantifier": "all results, arguments, configurations and events", "why_tests_cant": "all combinations of switches, available quantities and options", "anchors": ["qopen/core.py:_plot", "qopen/core.py:run"]}
{"id": "C95", "title": "Alignment and recalculation use and record the given settings", "statement": "With align_sites the result is aligned with the given method, options, response value and station (several separated by comma), recalc_source recalculates the source parameters with the given method and options; the settings are recorded in the configuration of the returned result and the plots show this result.", "quantifier": "all configurations, arguments and results", "why_tests_cant": "settings come from two places and pass through several dictionaries", "anchors": ["qopen/core.py:run"]}
{"id": "C96", "title": "The result is output as requested", "statement": "The result returned by run is what is printed to stdout or written to the output file; there is no output for none, null, an empty text or no output; with print_mag there is one line for each event, also for events without magnitude.", "quantifier": "all commands, configurations and results", "why_tests_cant": "all results and outputs", "anchors": ["qopen/core.py:run"]}
{"id": "C97", "title": "Missing and unreadable files end a run", "statement": "A configuration, inventory, event or data file that cannot be read ends the run without result, output and exception, a missing input raises ParseError, and the same holds for an input that cannot be read.", "quantifier": "all commands, arguments and surroundings", "why_tests_cant": "all kinds of failures", "anchors": ["qopen/core.py:run", "qopen/core.py:_load_json_results"]}
{"id": "C98", "title": "The command line accepts the documented options and passes them to run", "statement": "After a command exactly the documented options of this command are accepted: written out or as an unambiguous beginning, with their value in the next word or behind =, single letters put together, a switch not together with its opposite. run is called with the command and the values of the last uses; the values of --overwrite-conf go first; what is not given is left to the configuration file; other words never start a run.", "quantifier": "all commands, lists of words and readers of JSON and integers", "why_tests_cant": "unboundedly many words and combinations of options", "anchors": ["qopen/core.py:run_cmdline", "qopen/core.py:_add_bool_argument"]}
{"id": "C99", "title": "Errors of a command line are reported for the command given", "statement": "The command written on the command line is executed, its errors are reported together with its usage, and without a command the usage is shown. A first word with a hyphen is the help, the version or an error.", "quantifier": "all commands, words and surroundings", "why_tests_cant": "all combinations of commands and errors", "anchors": ["qopen/core.py:run_cmdline"]}
{"id": "C100", "title": "1D radiative transfer conserves energy exactly", "statement": "For every time the integral of the 1D coda Green's function over both sides of the source up to the wave front is 1-exp(-g0*c*t/2), so that together with the energy of the two direct waves it is 1.", "quantifier": "all t, c, g0 > 0", "why_tests_cant": "the test integrates numerically at a few times with a tolerance, and the coda is a sum of modified Bessel functions", "anchors": ["qopen/rt.py:rt1d_coda", "qopen/rt.py:rt1d_direct", "qopen/tests/test_rt.py"]}
{"id": "C101", "title": "Energy of the 2D diffusion solution", "statement": "The energy of the 2D diffusion solution inside the distance rho (not beyond the wave front) is 1-exp(-g0*rho^2/(2*c*t)); since nothing is returned beyond the wave front, exactly the energy exp(-g0*c*t/2) is lost, which is more than the energy of the direct wave the solution leaves out.", "quantifier": "all t, c, g0 > 0, all distances up to the wave front", "why_tests_cant": "an identity for all times and distances; there is no test of the diffusion solution's energy", "anchors": ["qopen/rt.py:diff", "qopen/rt.py:G"]}
{"id": "C102", "title": "Filter width", "statement": "The filter width is the integral of the squared response of the Butterworth filter up to the Nyquist frequency, apart from at most one step of frequency (sr/1024); it is positive, at most the Nyquist frequency, tends to the difference of the corner frequencies (up to one step) for steep filters, is not larger for a filter applied twice and scales with the unit of frequency. Corner frequencies out of range are refused. A filter without corners has the Nyquist frequency as width.", "quantifier": "all sampling rates, low-, high- and band-pass filters, corner frequencies, numbers of corners", "why_tests_cant": "continuously many filters, and a limit for the number of corners", "anchors": ["qopen/core.py:filter_width"]}
{"id": "C103", "title": "The optimization plot shows the misfit of the inversion", "statement": "In the panel of the linear least squares problem the distance of each point from the line is the logarithm of observed over modelled energy for its pair, and the misfit found by the inversion is the weighted root mean square of these distances; the line ends at the last sample of the coda windows. A bulk window after the coda windows lies outside of the panel.", "quantifier": "all sets of events and stations, windows, Green's functions, source energies, site responses and bases of the logarithm", "why_tests_cant": "the tests only check that a plot is written, not what it shows", "anchors": ["qopen/imaging.py:plot_lstsq", "qopen/core.py:invert_fb"]}
{"id": "C104", "title": "The fits plot shows observed and modelled energies of the inversion", "statement": "The panels show all samples at their time after the S onset plus the travel time, with the model R*W*G*exp(-b*t) at the same times; the misfit of the inversion is the weighted root mean square of the logarithms of observed over modelled energy as drawn. The axes contain all samples, apart from low values in the coda windows. With fixed sites the fit may be exact although the drawn model differs from the observation by a factor. Without any site response there is no plot.", "quantifier": "all sets of events and stations, traces, windows, Green's functions and results of the inversion", "why_tests_cant": "the tests only check that a plot is written, not what it shows", "anchors": ["qopen/imaging.py:plot_fits", "qopen/core.py:invert_fb"]}
{"id": "C105", "title": "The energies plot shows samples, onsets and windows relative to origin time", "statement": "Each panel shows all samples of the trace, the onsets and the bulk and coda windows of its own pair at their times after the origin time. Without bulk windows the coda windows are not drawn, and with downsample_to given no plot is drawn at all.", "quantifier": "all traces, onsets, windows and values of downsample_to", "why_tests_cant": "the tests only check that a plot is written, and never with downsample_to or without bulk windows", "anchors": ["qopen/imaging.py:plot_energies"]}
{"id": "C106", "title": "The optimization plot marks the trial values of g0", "statement": "The crosses are the trial values inside of the bounds with their misfits, in order; infinite misfits are marked separately. The one marked as the best is the last trial, which need not be the value of the result, and without a trial inside of the bounds the plot fails.", "quantifier": "all optimizers, sets of trial values, bounds and misfits", "why_tests_cant": "the tests only check that a plot is written, with a single optimizer", "anchors": ["qopen/imaging.py:plot_optimization", "qopen/core.py:invert_fb"]}
{"id": "C107", "title": "Joining of unconnected areas is single linkage", "statement": "Joining areas up to a maximum distance unites exactly the areas connected by a chain of areas whose corners are not further apart than this distance; no station is lost or added and the corners of different areas at the end are further apart. It never fails if the stations are in the inventory and every area has a hull. Only corners of the hulls are compared: closer stations inside of a hull do not join areas, and an area of less than three stations is an error.", "quantifier": "all areas, inventories, maximum distances, distance functions and orders of set iteration for pairs of areas", "why_tests_cant": "the function is not called by any test, the order of joins depends on hash values", "anchors": ["qopen/site.py:_join_unconnected_areas"]}
{"id": "C108", "title": "Near stations connect the joined areas", "statement": "Near stations are corners of different areas not further apart than the maximum distance, and each joined area has one. A station keeps a single near station, so the links may fall apart into pieces; stations at the same place may be linked to themselves.", "quantifier": "all areas, inventories, maximum distances, distance functions", "why_tests_cant": "the function is not called by any test", "anchors": ["qopen/site.py:_join_unconnected_areas"]}
{"id": "C109", "title": "Station coordinates are those of the first channel", "statement": "The coordinates collected from an inventory are those of the first channel of the last station of a name; a station without channels is an error and a coordinate 0 is replaced by that of the station.", "quantifier": "all inventories", "why_tests_cant": "the function is not called by any test", "anchors": ["qopen/site.py:_collect_station_coordinates"]}
{"id": "C110", "title": "Synthetic streams give the true results", "statement": "If the energies observed in each frequency band are W R G exp(-b t) for the Green's function of the configuration, the results of the commands go (if the g0 found are the true ones), fixed and source (with true input) are the true attenuation, site responses and source terms with error 0: for exactly the stations and events used in a band with a result, None for all others, each list with one entry per frequency.", "quantifier": "all streams, configurations without coda normalisation, least squares solvers, weights, numbers of bands, events and stations, filters, Green's functions, changes of the streams in place", "why_tests_cant": "tests run a few real data sets with unknown true values; the whole way is checked here for all synthetic data", "anchors": ["qopen/core.py:invert_fb", "qopen/core.py:invert"]}
{"id": "C111", "title": "Synthetic streams give the true moments", "statement": "If moreover the source terms have displacement spectra of the source model with the configured corner frequency, n and gamma, the moments of all events with enough source terms are the true ones, with fit error 0 and magnitude 2/3 log10(M0) - 6.07. The velocity in use is the configured one or else that of the last band with a result.", "quantifier": "all streams, configurations, source parameters, moments, catalogue magnitudes", "why_tests_cant": "tests run a few real data sets with unknown true values", "anchors": ["qopen/core.py:invert", "qopen/source.py:insert_source_properties"]}
{"id": "C112", "title": "Green's functions of the inversion", "statement": "Without smoothing (or with a window of at most one sample) the built-in Green's function of a coda window is 0 at the first sample and the value for a single time at all others; hence the right hand side is infinite at the first sample of each pair and the inversion gives no result, even for exact data. With smoothing each value is the weighted mean around its time, at the first sample without the earliest of the samples, which makes it too small for flat and hamming and is exact for hanning, bartlett and blackman. The bulk value is the mean over the samples: energy of the direct wave per step plus coda behind it.", "quantifier": "all types, distances, times, smoothing lengths, windows, velocities, g0, energies, linear solvers", "why_tests_cant": "tests always smooth and compare the functions at some times only", "anchors": ["qopen/core.py:Gsmooth", "qopen/core.py:invert_fb", "qopen/rt.py:G", "qopen/util.py:smooth_func"]}
{"id": "C113", "title": "Synthetic samples give the true results", "statement": "If every sample of the observed energies after the S onset is W R G(r, t) exp(-b t) at its own lapse time t, plus constant noise that is removed (none if noise is not removed), the observations cut out of them are synthetic at the right times and distances, and the commands go, fixed and source return the true attenuation, site responses and source terms. This holds for coda windows that start at a sample after the onset, cut or not, without bulk window, smoothing and adjustment of the onset, and for Green's functions evaluated at each time.", "quantifier": "all streams, samples, sampling rates, distances, windows, levels of constant noise (up to 100 times the signal), configurations, least squares solvers", "why_tests_cant": "tests run a few real data sets with unknown true values", "anchors": ["qopen/core.py:invert_fb", "qopen/core.py:invert"]}
{"id": "C114", "title": "The plot of results shows all events, their means and errors", "statement": "plot_results of complete results has a panel for each quantity. The dots of a panel are the quantity calculated from the value of each event at each frequency with the velocity of the argument, the configuration or this event; missing values stay missing. The curve is the chosen mean of the dots; for g0, b and error it is the mean stored in the result, and for derived quantities it is the quantity derived from the mean of g0 or b. Error bars span one (weighted) standard deviation of the logarithms and exist where there are two or more valid values (false for weighted means if another event has no result at this frequency). The last panel counts the events with a value. There is no plot with any other quantity.", "quantifier": "all results of separate inversions, frequencies, velocities, kinds of mean, lists of quantities", "why_tests_cant": "tests only check that plotting does not fail on some data sets", "anchors": ["qopen/imaging.py:plot_results", "qopen/util.py:gerr", "qopen/core.py:collect_results", "qopen/core.py:invert_wrapper"]}
{"id": "C115", "title": "The plot of site responses shows all stations, their means and errors", "statement": "plot_sites of complete results of separate inversions has one panel, in a cell of its own, for each station with a value, in alphabetical order, and names the other stations as excluded. A panel has the values of all events with this station as dots, the chosen mean of them at each frequency, error bars of one standard deviation of the logarithms, and colours that are the numbers of observations, with a colour bar if one of them is larger than 1. There is a plot if any station has a value, but not with cmap=None, and with weighted means only if every station with values is in the results of all events.", "quantifier": "all results of separate inversions, frequencies, kinds of mean, numbers of columns", "why_tests_cant": "tests only check that plotting does not fail on some data sets", "anchors": ["qopen/imaging.py:plot_sites", "qopen/imaging.py:_get_grid", "qopen/util.py:gerr", "qopen/core.py:collect_results"]}
{"id": "C116", "title": "The plot of all source spectra shows the selected events", "statement": "plot_all_sds has one panel, in a cell of its own, for each selected event in the order of the results. The panel shows the spectrum of this event with the given or configured method and options and is empty if and only if there is no value. The colours are the numbers of stations of the event on a scale common to all panels, up to the largest number; there is a colour bar unless this is 1. Given colours (one or a dictionary) are used instead, without a colour bar; without colour map or numbers of stations the points are black. The colour bar is taken from the last event, so it is not the one of the points if this event has no value. With the method 'mean' there is no plot.", "quantifier": "all results, frequencies, selections of events, methods, options, numbers of columns", "why_tests_cant": "tests only check that plotting does not fail on some data sets", "anchors": ["qopen/imaging.py:plot_all_sds", "qopen/imaging.py:plot_sds", "qopen/imaging.py:_get_grid"]}
{"id": "C117", "title": "The plot of an inversion shows its results", "statement": "plot_eventresult of a joint inversion has one panel for each quantity in a square grid. A panel shows the quantity calculated from the value at each frequency with the velocity of the argument, the result or the configuration; missing values stay missing. W and the spectrum, with its numbers of stations and its source model, are those of the first event. Without velocity and with the method 'mean' there is no plot (so it is false that g0, b and error are shown without velocity). At the end of the inversion each quantity that was inverted for is plotted once.", "quantifier": "all results, frequencies, velocities, quantities, methods and options", "why_tests_cant": "tests only check that plotting does not fail on some data sets", "anchors": ["qopen/imaging.py:plot_eventresult", "qopen/imaging.py:plot_sds", "qopen/imaging.py:calc_dependent", "qopen/core.py:_plot"]}
{"id": "C118", "title": "The plot of site responses of an inversion shows all stations", "statement": "plot_eventsites has one panel for each station, in the order of the names and in a square grid. It shows the site response of this station at each frequency and is empty if there is no value. The limits of the axes are the smallest and largest of all values and the first and last frequency. If there is no value at all there is no plot.", "quantifier": "all site responses and frequencies", "why_tests_cant": "tests only check that plotting does not fail on some data sets", "anchors": ["qopen/imaging.py:plot_eventsites"]}
{"id": "C119", "title": "Straight line fits and the line in the plot of magnitudes", "statement": "linear_fit with least squares or weights returns slope and intercept of the line with the smallest weighted squared distance from the data (the only one unless all data are at the same place); with a given slope the slope is kept and the intercept is the weighted mean of the differences; each method returns the line of data without errors. A single value of x is used for all data; any other difference in length is an error. plot_mags shows the selected events with both magnitudes and, with more than three points, the fitted line of moment magnitudes over catalogue magnitudes at 100 equally spaced points between the limits of the axis or the smallest and largest catalogue magnitude. The functions of the second axis (moment 10^(1.5 Mw + 9.105) Nm) are increasing and inverse to each other.", "quantifier": "all data, weights, slopes and methods; all events, selections and limits; statsmodels is assumed to minimise (least squares) and to reproduce data without errors (robust)", "why_tests_cant": "tests only check that plotting does not fail; a minimum over all lines cannot be sampled", "anchors": ["qopen/util.py:linear_fit", "qopen/imaging.py:plot_mags", "qopen/imaging.py:_secondary_yaxis_seismic_moment"]}
{"id": "C120", "title": "The annotation of a source spectrum shows the fitted values", "statement": "plot_sds annotates a line for each of M0, fc, n, gamma and fit_error in the result, in this order, with the value of the result, or a text of one's own with its fields replaced; no annotation if it is switched off, if there is none of the quantities or if a field of the text is not in the result; a field without name is an error. The annotation does not change the drawing. Without options the curve and the horizontal line are those of the annotated values (n=2, gamma=1 if not annotated). False: with values fixed in the options the annotated moment can differ from the drawn one; an empty text raises an exception.", "quantifier": "all results, spectra, methods, options and texts", "why_tests_cant": "tests only check that plotting does not fail on some data sets", "anchors": ["qopen/imaging.py:plot_sds"]}
{"id": "C121", "title": "The instrument correction uses the response of each channel and skips pairs without", "statement": "With remove_response='sensitivity' each sample is divided by the sensitivity of its channel, with 'full' each trace is deconvolved with the response of its channel. Streams with a channel without response, or for which the correction fails, are left out with exactly their pairs; all others are kept in order. If plots are requested there is one for each trace, for one event in a file named after event and channel. False: for several events all files have the name of the last event, so plots of a channel overwrite each other.", "quantifier": "all inventories, streams, pairs and options; the deconvolution of obspy is an arbitrary function", "why_tests_cant": "tests use one data set, without missing responses and without these plots", "anchors": ["qopen/core.py:invert", "qopen/core.py:_remove_response"]}
{"id": "C122", "title": "Plots of different bands and events go to different files", "statement": "The default file names of the plots of energies, optimization and fits consist of the kind of the plot, the event (for a single one) and the band with correctly rounded frequencies of two decimals. Names of different kinds, events or bands more than 0.01 Hz apart differ, as do names of dumps; bands at low frequencies may share a file. A given directory is kept (false in simultaneous inversions if it has two underscores in a row). The plots drawn are the configured ones; a plot that fails prevents the following ones, never the result.", "quantifier": "all events, bands, kinds of plots, file name patterns, outcomes of the plots", "why_tests_cant": "tests use one configuration with bands that are far apart and check only that plotting does not fail", "anchors": ["qopen/core.py:invert_fb", "qopen/core.py:fname_and_title"]}
{"id": "C123", "title": "Figures are saved and closed if and only if a file name is given", "statement": "_savefig saves a figure with a file name there and closes it, after its directory has been created; without a file name nothing is saved, closed or created. Title and size are the given ones.", "quantifier": "all titles, file names, resolutions and sizes", "why_tests_cant": "tests call the plots with a few file names only", "anchors": ["qopen/imaging.py:_savefig"]}
{"id": "C124", "title": "The end of an inversion draws the plots of its event and returns the result in any case", "statement": "After the inversion of a single event the plots of its results and of its sites are drawn, each once if it is switched on (and there are site responses), with the given options and file names and with the moment method and options of the inversion. An exception while drawing is logged and the result returned unchanged. A joint inversion has no such plots. Inversions one after another share and change the dictionary of options, but have the same plots as with the options given in the beginning. The two plots are independent of each other.", "quantifier": "all results, events, options and failures of the plots", "why_tests_cant": "tests run one configuration and do not look at options after a call or at failing plots", "anchors": ["qopen/core.py:invert", "qopen/core.py:_plot"]}
{"id": "C125", "title": "Scaled curves of the Green's functions reach one and keep their shape", "statement": "With the option scale the curves of plot_t and plot_r are divided by one positive number, have values between 0 and 1 and reach 1. Without the option they are drawn as they are. Absorption has no effect on a scaled curve over distance and lowers the late values of a scaled curve over time.", "quantifier": "all types, velocities, scattering, distances, times, numbers of samples and absorption lengths", "why_tests_cant": "there are no tests of the plots of the Green's functions", "anchors": ["qopen/rt.py:plot_t", "qopen/rt.py:plot_r"]}
{"id": "C126", "title": "The numbers in the plot of the optimization stand at their crosses", "statement": "In the main panel of plot_optimization the steps which have panels of their own are numbered from 1 on, and the number of a step stands at the value of g0 and the misfit of this step, on a black cross or, for an infinite misfit, on a red one. Only the final value can lack a cross, if the optimization returns a value it has not tried within the bounds.", "quantifier": "all optimizations, options, states and numbers of panels from 3 on", "why_tests_cant": "figures are only drawn by the tests; the texts in them are not looked at", "anchors": ["qopen/imaging.py:plot_optimization"]}
{"id": "C127", "title": "Energy of the diffusion solutions in one, two and three dimensions", "statement": "The energy of the diffusion solution inside a distance up to the wave front is the probability that a normal variable in this dimension has not left it. Over the whole space the energy is 1 at all times; since nothing is returned beyond the wave front energy is lost, at most (1 + sqrt(dim*g0*c*t/pi)) exp(-dim*g0*c*t/4), so that the energy tends to 1 at late times. In one dimension the square of the energy is at most the energy of the coda of radiative transfer.", "quantifier": "all t, c, g0 > 0, all distances up to the wave front, dimensions 1, 2 and 3", "why_tests_cant": "integrals with the error function for all times, a limit, and an integral over an infinite range; there is no test of the energy of the diffusion solutions", "anchors": ["qopen/rt.py:diff", "qopen/rt.py:G"]}
{"id": "C128", "title": "Energy of the approximation of radiative transfer in three dimensions", "statement": "The analytic approximation used for radiative transfer in three dimensions conserves energy at early and at late times: within one mean free time the coda contains at most 4*c*g0*t of the energy and the sum of coda and direct wave differs from 1 by at most that; and for every error there is a number of mean free times after which coda and direct wave sum up to 1 with at most this error, whatever the velocity, the scattering coefficient and the small neighbourhood of the wave front, where the coda is unbounded, that is left out. The energy depends on velocity, coefficient and time through the number of mean free paths alone.", "quantifier": "all c, g0, t > 0 and all distances below the wave front", "why_tests_cant": "an integral with a singular weight at the wave front and a limit; a test evaluates single distances and times", "anchors": ["qopen/rt.py:rt3d_coda_reduced", "qopen/rt.py:rt3d_coda", "qopen/rt.py:rt3d_direct", "qopen/rt.py:G"]}
{"id": "C129", "title": "Mean square of the distance of the energy", "statement": "The energy that the Green's functions of radiative transfer in one and two dimensions describe, coda and direct wave, spreads like a random walk with exponentially distributed steps of mean length 1/g0: the mean square of the distance is 2/g0^2 (g0 c t - 1 + exp(-g0 c t)), less than (c t)^2 and less than the 2 c t / g0 of the solutions of the diffusion equation in one, two and three dimensions, and nearer than 2/g0^2 to the latter. In three dimensions, where the code uses an approximation, the mean square tends to that of diffusion after many mean free times.", "quantifier": "all times, velocities and scattering coefficients; all dimensions", "why_tests_cant": "a test can integrate numerically for single parameters, with an integrand that is singular at the front in two dimensions and, for diffusion, over an infinite range; it cannot show the law for all parameters.", "anchors": ["qopen/rt.py:rt1d_coda", "qopen/rt.py:rt1d_direct", "qopen/rt.py:rt2d_coda", "qopen/rt.py:rt2d_direct", "qopen/rt.py:rt3d_coda", "qopen/rt.py:diff"]}
{"id": "C130", "title": "1D radiative transfer solves its equation", "statement": "The coda of the Green's function in one dimension is the sum of the energies of waves to the right and to the left that satisfy the equations of radiative transfer with isotropic scattering of coefficient g0 everywhere between the wave fronts; the waves start at the wave fronts with the energy which the direct wave loses; the direct wave starts with half of the energy on each side and loses energy by scattering into the opposite direction.", "quantifier": "all places between the wave fronts, times, velocities and scattering coefficients", "why_tests_cant": "a differential equation between all points cannot be tested by samples; differences of the Bessel functions are subject to rounding.", "anchors": ["qopen/rt.py:rt1d_coda", "qopen/rt.py:rt1d_direct"]}
{"id": "C131", "title": "Factors of the energies end up in source terms and site responses", "statement": "If all energies of an event or of a station are multiplied by positive factors, the inversion of a band finds the same scattering coefficient, absorption, error and number of stations; the source terms are multiplied by the factor of the event times the geometric mean of the factors of the stations, and the site responses by the factor of the station divided by this mean; with given site responses the source terms are multiplied by the factors of the events. Bands are skipped in both cases or in none.", "quantifier": "all sets of pairs connected by common events, all positive factors, energies, windows and weights, all Green's functions and optimisers, for the commands go, fixed and source", "why_tests_cant": "a test compares two runs of a few data sets up to the tolerance of the optimiser; it cannot show that the path of an arbitrary optimiser is independent of the factors.", "anchors": ["qopen/core.py:invert_fb"]}
{"id": "C132", "title": "Results do not depend on the order of the pairs", "statement": "If the observations of a frequency band (pairs of event and station with their coda samples, bulk values and weights) are given in another order, g0, b, the error, the number of stations and the source terms and site responses of all events and stations are the same (commands go, fixed and source), or the band is skipped for both orders. The order decides which event is the reference, which column of the matrix belongs to which station or event, and which parameters the geometric mean of the site responses is taken over; none of this may show in the results.", "quantifier": "for all orders of all numbers of pairs, all positive energies, times, weights, Green's functions, bounds and optimiser paths, and all solvers that minimise the weighted squares", "why_tests_cant": "The regression tests run one order of the events and stations and compare with stored numbers; a wrong offset of a column or of the reference event shows only for other orders, and a test can try only a few of them.", "anchors": ["qopen/core.py:invert_fb"]}
{"id": "C133", "title": "Energies which decay faster change the attenuation only", "statement": "If the observed energies of a frequency band are multiplied by exp(-d t), t the time since the origin, then command go (without bounds of b) finds an attenuation b larger by d and the same g0, error, source terms, site responses and number of stations, or skips the band for both; commands fixed and source with a given b larger by d return the same result.", "quantifier": "for all d (of either sign), numbers of events, stations and samples, positive energies, times, weights, Green's functions and optimiser paths, and all solvers that minimise the weighted squares", "why_tests_cant": "The tests compare one data set with stored numbers. That b is the coefficient of exp(-b t) in every equation, including the bulk values and the constant term of the given b, and that it does not leak into the other parameters, is a relation between two runs for all data.", "anchors": ["qopen/core.py:invert_fb"]}
{"id": "C134", "title": "Unit of length", "statement": "If distances and velocity are given in a unit of length smaller by a factor k (all numbers k times as large) and the scattering coefficient, its bounds, its given value and the trial values of the optimiser per this unit (numbers divided by k), then the Green's functions of coda and bulk windows, with direct wave and smoothing, are divided by k to the number of dimensions, and the inversion of a band (commands go, fixed and source) returns the same absorption, error, number of stations and site responses, g0 divided by k and source terms multiplied by k to the number of dimensions, or skips the band in both units. Equivalently no part of the inversion depends on a hidden length scale.", "quantifier": "for all k > 0, distances, velocities, times, scattering coefficients, smoothing windows, the three radiative transfer models, all sets of pairs, energies, weights, bounds and optimiser paths, and all solvers that minimise the weighted squares", "why_tests_cant": "A test can compare two units for one data set; a hidden scale in one of the Green's functions, at the wave front, in the bounds or in one branch of the inversion shows only for other inputs.", "anchors": ["qopen/core.py:invert_fb", "qopen/core.py:Gsmooth", "qopen/rt.py:G", "qopen/rt.py:rt1d_coda", "qopen/rt.py:rt2d_coda", "qopen/rt.py:rt3d_coda"]}
{"id": "C135", "title": "Unit of time", "statement": "If the times of the windows, the length of the smoothing window and the inverse of the velocity are given in a unit of time smaller by a factor k (times k times as large, velocity divided by k) and the absorption, its bounds and its given value per this unit (divided by k), then the Green's functions of coda and bulk windows, with direct wave and smoothing, are unchanged, and the inversion of a band (commands go, fixed and source) returns the same g0, error, number of stations, source terms and site responses, the absorption divided by k and the velocity in the other unit, or skips the band in both units. Smoothed coda windows have to be evenly sampled, because the check of the sampling uses an absolute tolerance of 1e-5.", "quantifier": "for all k > 0, all documented Green's functions, distances, velocities, evenly sampled times, scattering coefficients, smoothing windows, sets of pairs, energies, weights, bounds and optimiser paths, and all solvers that minimise the weighted squares (any solver with given transport parameters)", "why_tests_cant": "A test can compare seconds and minutes for one data set; a hidden time scale in a formula, at the wave front, in the padding of the smoothing window, in the bounds or in one branch of the inversion shows only for other inputs.", "anchors": ["qopen/core.py:invert_fb", "qopen/core.py:Gsmooth", "qopen/util.py:smooth_func", "qopen/rt.py:G"]}
{"id": "C136", "title": "Energies with errors", "statement": "If every observed energy is W R G exp(-b t) up to a factor between exp(-eps) and exp(eps), then the results of the inversion of a band differ from W, R and b by at most explicit multiples of eps: with d = eps sqrt(number of coda samples + bulk weights), the source terms are right up to a factor exp(d) if the site responses are given (command source); up to exp((2n+1) d), and the site responses up to exp(2n d), if any two stations are connected by at most n common events (command fixed); and in the command go, for the Green's functions of the g0 that is returned, the absorption is right up to 2 d / D, where D is a time between two samples of a coda window, and d is replaced by d (1 + 2 T / D) in the other bounds, where T is the last time. The returned error is at most eps sqrt(total weight / degrees of freedom).", "quantifier": "for all eps >= 0, all sets of pairs, times, weights, Green's functions, source terms, site responses with geometric mean R0 and optimiser paths, and all solvers that minimise the weighted squares", "why_tests_cant": "A test with random noise checks one realisation with a tolerance chosen by hand; a wrong weight, a site response of the wrong pair or a wrong normalisation can stay within the tolerance, and whether small errors can be amplified without limit for some network cannot be seen from examples.", "anchors": ["qopen/core.py:invert_fb"]}
{"id": "C137", "title": "Source spectra with errors", "statement": "An error factor between exp(-d) and exp(d) of the source energies W enters the source displacement spectrum with its square root. If every value of a source displacement spectrum is changed by a factor between exp(-d) and exp(d), then fit_sds with method mean, or with method fit and given fc, n and gamma, raises the same exception, or returns no result for both, or returns moments that differ by a factor between exp(-d) and exp(d); the fit error changes by at most d, also when fc, n or gamma are searched by optimisers that find the minimum in the range. The moment magnitudes of two events with such source energies differ by at most d / (3 ln 10).", "quantifier": "for all spectra of any length with missing values, all frequencies, options, error levels d >= 0, and all optimisers (exact ones where a search is involved)", "why_tests_cant": "Tests compare the magnitudes of a few events with loose tolerances; that no error of the spectrum is amplified for any spectrum, any choice of missing values and any options is a statement over all inputs.", "anchors": ["qopen/source.py:sds", "qopen/source.py:fit_sds", "qopen/source.py:moment_magnitude", "qopen/source.py:insert_source_properties"]}
{"id": "C138", "title": "Entries of the event catalogue", "statement": "The origin and the catalogue magnitude of an event are those of the preferred entry, otherwise of the first entry; without any origin the event is ignored, without magnitude the value is missing. The catalogue magnitude stored with an event is its own. An event with an incomplete origin (no latitude, longitude or depth) does not affect the results of the other events.", "quantifier": "for all catalogues, events with any number of origins and magnitudes, preferred or not, complete or not, stations, options, and all results of the inversion of the single events", "why_tests_cant": "Test catalogues contain complete origins; that the loop over the events divides the depth for a log message, and therefore stops with a TypeError and loses all earlier results for an event the simultaneous inversion simply skips, is not visible with them.", "anchors": ["qopen/core.py:get_origin", "qopen/core.py:get_magnitude", "qopen/core.py:get_eventid", "qopen/core.py:invert_wrapper", "qopen/core.py:invert"]}
{"id": "C139", "title": "Mean values of data with errors", "statement": "If all valid data change by factors between exp(-d) and exp(d), the geometric mean with or without weights changes by such a factor (or is missing for both), also column by column for tables; a mean of larger data is larger; the error of the logarithms changes by at most d (d sqrt(n/(n-1)) for the unbiased one). Values that are not finite and positive have no influence.", "quantifier": "for all data of any length with invalid values, all weights that are not negative, all d >= 0; robust means as far as they fall back to the plain mean", "why_tests_cant": "Tests compare means of a few numbers; that no weight, mask or missing value amplifies an error for any data is a statement over all inputs.", "anchors": ["qopen/util.py:gmean", "qopen/util.py:gmeanlist", "qopen/util.py:gstat", "qopen/util.py:weighted_stat"]}
{"id": "C140", "title": "Alignment of site responses with errors", "statement": "If the site responses of all events are products of a factor of the event and a response of the station up to factors between exp(-eps) and exp(eps), the aligned responses of two stations have the ratio of the responses of these stations up to a factor exp(D eps), where D depends only on the number of responses and on the number of common events leading from one station to the other; the same holds for the energies of two events and, for the same D, for the mean site responses in the results. Without errors the alignment is exact.", "quantifier": "for all sets of events and stations with any number of missing values, all pinned stations and requested responses, all least squares solvers, all eps >= 0; for the mean responses all robust estimates between two of the data", "why_tests_cant": "Tests align one or two data sets; that errors of the responses grow at most by a factor known from the geometry, for every network and every pattern of missing values, is a statement over all inputs.", "anchors": ["qopen/site.py:align_site_responses", "qopen/site.py:_rescale_results", "qopen/site.py:_find_unconnected_areas"]}
{"id": "C141", "title": "Factors of the events and the solver do not change the alignment", "statement": "The product of source energy and site response is all an inversion determines for an event. If the site responses of events are multiplied and their energies divided by arbitrary positive factors, one for each event and frequency, the alignment returns the same site responses, energies and mean responses. The result is also the same for every least squares solver, so the option use_sparse has no influence: within the largest area the solution is unique.", "quantifier": "for all sets of events and stations with any number of missing values, all positive factors, pinned stations, requested responses, and all pairs of least squares solvers", "why_tests_cant": "A test compares two settings on one data set; uniqueness of the solution for every pattern of missing values and every network is a statement over all inputs.", "anchors": ["qopen/site.py:align_site_responses", "qopen/site.py:_rescale_results"]}
{"id": "C142", "title": "Aligning aligned results changes nothing", "statement": "The results of an alignment of the site responses can be aligned again with the same options; the second alignment succeeds and leaves the order of the events, all site responses, all energies and the mean site responses as they are, although only the largest area of each frequency is left and the order in which stations are visited and the solver may differ.", "quantifier": "for all sets of events and stations with any number of missing values, all ignored and pinned stations, requested responses, names of the areas and least squares solvers", "why_tests_cant": "A test can align one data set twice; that no pattern of missing values, weight of the normalisation or choice of the area lets the results drift is a statement over all inputs.", "anchors": ["qopen/site.py:align_site_responses", "qopen/site.py:_rescale_results", "qopen/site.py:_find_unconnected_areas"]}
{"id": "C143", "title": "Alignment does not depend on the order of events and stations", "statement": "If the events of a result are given in another order, with the stations of each event in another order, the alignment succeeds as well and returns the same site responses, energies and mean responses in the same order of events, even if several areas share the largest number of stations.", "quantifier": "for all sets of events with different ids, all orders of the events and of the stations of each event, all names of the areas, all least squares solvers, all patterns of missing values, pinned and ignored stations", "why_tests_cant": "The rows of the linear system, the sets of the areas and the sums of the normalisation are built in the order of dictionaries; a test fixes one order, and the number of orders is factorial.", "anchors": ["qopen/site.py:align_site_responses", "qopen/site.py:_find_unconnected_areas", "qopen/site.py:_rescale_results"]}
{"id": "C144", "title": "Rise, peak and decay of the diffusion solutions", "statement": "At a distance r from the source the energy density of a diffusion solution increases from the arrival of the front up to the time r^2 g0/(2c) and decreases afterwards, so it is largest at this time or at the arrival of the front, if this is later, and strictly smaller at every other time. The time does not depend on the dimension, and the largest value depends on distance and dimension only. At a given time the energy density decreases with the distance.", "quantifier": "for all three dimensions, all distances, times, velocities and scattering coefficients", "why_tests_cant": "Monotonicity relates every pair of times and distances of a continuum; samples on a grid cannot exclude a second maximum or a shift of the peak between the samples.", "anchors": ["qopen/rt.py:diff", "qopen/rt.py:G"]}
{"id": "C145", "title": "Radiative transfer solutions as functions of the distance", "statement": "At a given time the coda of radiative transfer in one dimension decreases with the distance up to the front. In two dimensions it decreases as long as sqrt(c^2 t^2 - r^2) is at least one mean free path 1/g0 and increases from there to the front. In three dimensions the approximation decreases where g0 c t (1 - r^2/(ct)^2)^(3/4) is at least 1/3 and increases to the front where this is at most 1/4.", "quantifier": "for all pairs of distances behind the front, all times, velocities and scattering coefficients", "why_tests_cant": "Monotonicity relates every pair of distances of a continuum for all values of the other three arguments, and its direction changes at a distance which depends on them.", "anchors": ["qopen/rt.py:rt1d_coda", "qopen/rt.py:rt2d_coda", "qopen/rt.py:rt3d_coda", "qopen/rt.py:G"]}
{"id": "C146", "title": "Decay of the coda of radiative transfer with time", "statement": "At a given distance r the coda of radiative transfer in two dimensions decreases strictly with time after r^2 g0/(2c), hence from the arrival of the front on up to two mean free paths from the source. In one dimension it decreases from the arrival of the front on at less than four mean free paths, and otherwise as soon as sqrt(c^2 t^2 - r^2) reaches g0 r^2/2. In three dimensions it decreases after 5/8 r^2 g0/c, as soon as the front is at least at twice the distance.", "quantifier": "for all distances, all pairs of times after these times, all velocities and scattering coefficients", "why_tests_cant": "Monotonicity relates every pair of times of a continuum for all values of the other arguments; samples on a grid cannot exclude an increase in between.", "anchors": ["qopen/rt.py:rt1d_coda", "qopen/rt.py:rt2d_coda", "qopen/rt.py:rt3d_coda", "qopen/rt.py:rt3d_coda_reduced", "qopen/rt.py:G"]}
{"id": "C147", "title": "Windows move with the clock and ignore the unit of energy", "statement": "If samples, origin time and onsets of a trace are later by d, every time window and the time at which the coda is cut are later by d as well, or fail with the same error, and the check for completeness gives the same answer. If energies, smoothed energies and noise level are multiplied by a positive factor, windows and cut do not change.", "quantifier": "for all time expressions and lists of them, all traces, shifts of time, positive factors, and all results of the conversion of numerals", "why_tests_cant": "The windows mix absolute times, differences of times, sample indices and thresholds; a missing reference shows only in expressions and traces chosen for it, whereas the theorems relate every trace to all its shifted and scaled copies.", "anchors": ["qopen/core.py:time2utc", "qopen/core.py:tw2utc", "qopen/core.py:_get_local_minimum", "qopen/core.py:_check_times"]}
{"id": "C148", "title": "Smoothing is linear and does not enlarge errors", "statement": "Smoothing a superposition of two signals gives the superposition of the smoothed signals for every window and every handling of the borders, or all fail with the same error. Smoothing keeps the order of signals and does not enlarge the largest difference of two signals. The same holds for the smoothing of functions.", "quantifier": "for all pairs of signals of equal length, all coefficients, windows, window lengths and border methods, all pairs of functions and vectors of times", "why_tests_cant": "Linearity relates infinitely many triples of signals; a nonlinear border or a normalisation by the data shows only for particular signals.", "anchors": ["qopen/util.py:smooth", "qopen/util.py:smooth_func"]}
{"id": "C149", "title": "Frequency bands in another unit and order", "statement": "If all frequencies of the configuration are given in another unit, the frequency bands are the same bands in this unit and in the same order, or there is the same error. Explicitly given bands may be listed in any order.", "quantifier": "for all positive factors and all configurations by maximum, minimum, step and width, by central frequencies or by bands; for all orders of given bands", "why_tests_cant": "The number of bands is a truncated logarithm and the bands are sorted and keyed by their centres; tests fix a unit and an order.", "anchors": ["qopen/core.py:get_freqs"]}
{"id": "C150", "title": "Straight line fits of the same data in another form", "statement": "The result of linear_fit by least squares, with or without weights, is the line for which the weighted residuals sum up to zero and are uncorrelated with the places, and only this. It does not depend on the order of the data or a common factor of the weights. In other units of values and places, from other origins and with a line added to the values it is the same line in this form. The fit of a superposition of values is the superposition of the fits. Errors of the values change the line at the mean place, and the intercept for a given slope, by no more than the largest error.", "quantifier": "all data at two or more places, positive weights, orders, factors, shifts and added lines; statsmodels is assumed to minimise", "why_tests_cant": "The claims relate the results for infinitely many forms of the same data; tests do not check the values of a fit.", "anchors": ["qopen/util.py:linear_fit"]}
{"id": "C151", "title": "The source model as a function of its parameters", "statement": "The modelled source spectrum increases strictly with the corner frequency and with the sharpness gamma of the corner. With the fall-off n it increases below the corner frequency and decreases above. It lies below M0 and below the asymptote M0 (fc/f)^n, by no more than the factor 2^(1/gamma) below the smaller of both. It does not depend on the unit of frequency.", "quantifier": "all positive frequencies and parameters", "why_tests_cant": "Monotonicity and bounds over continuously many parameters; the monotonicity in gamma is an inequality between norms.", "anchors": ["qopen/source.py:source_model"]}
