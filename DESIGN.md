# Design

Subject: `trichter/qopen` (Python) at the pinned commit in `/repo`, read as text.
The model is written in Rocq/Coq 8.16.1 under `rocq/theories`.

## Layout

Per area `X` there are up to four files:

* `XModel.v` - Gallina mirror of the Python functions. Every definition cites file and
  lines in `/repo` and states its simplifications.
* `XSpec.v` - small specification vocabulary that does not use the model's helpers.
* `XProof.v` - lemmas.
* `XProps.v` - only the property theorems (`exact lemma`), one `Example` per theorem
  with a concrete instance meeting its hypotheses, and `Print Assumptions`.

`Base.v` holds Python primitives (exceptions as values, insertion-ordered dictionaries,
string functions, rounding).

## Conventions

* Exceptions are values: `res A := Ok a | Err e`.
* Real-valued computations are modelled over the reals of the standard library. Floating
  point rounding is not modelled. Where NaN/infinity steer control flow, floats are the
  inductive type `pyf` (NaN, +inf, -inf, number).
* Times are integers in nanoseconds (as in obspy's UTCDateTime).
* External code (obspy, scipy optimisers, statsmodels solvers, Hilbert transform, imports,
  file system, process pool) is an explicit function argument (oracle). Hypotheses on an
  oracle are stated in the theorem: e.g. a least squares solver returns any minimiser of
  the weighted squared error.
* A property false of the faithful model is stated as `..._refuted : exists x, ...` with a
  concrete witness, and a guarded version ending in `_partial` (or a full theorem for the
  part which holds) is proved next to it.

## Trusted base

* Coq's kernel (checked with `coqchk` as well).
* The axioms printed by `Print Assumptions` under every theorem. The structural theorems
  are closed under the global context. Theorems about reals use only the standard library's
  `ClassicalDedekindReals.sig_not_dec`, `ClassicalDedekindReals.sig_forall_dec`,
  `FunctionalExtensionality.functional_extensionality_dep` and, where `Rpower`/Coquelicot is
  involved, `Classical_Prop.classic`. No axiom is added. The list per theorem is in
  `ASSUMPTIONS.md`.
* The faithfulness of the hand-written model to the Python text (cited line by line), and
  of the modelled numpy/obspy primitives.

## Modelled / not modelled

Modelled: `util.py` (all but `linear_fit`'s solvers), `rt.py` (Green's functions, `G`, data of
the plots), `source.py` (all, optimisers as oracles), `site.py` (all live code; the least squares
solver as oracle; the dead code `_join_unconnected_areas` is left out), `core.py` (helpers, `invert_fb`,
`invert`, `invert_wrapper`, `run` on the level of data selection, alignment, linear system,
decoding, result dictionaries, configuration precedence, command line), `imaging.py` (grids, derived quantities).

Not modelled: drawing, file formats, obspy internals (filtering, response removal, travel time
computation), convergence of the optimisers, the robust estimator's numerical values, floating
point rounding, log texts, help texts of argparse.

## Properties

* **C01 Memoised functions are transparent** - `Cache`: state machine (dict key->value, call counter) over an arbitrary `f : arg -> res val` and arbitrary `key`. Induction over call histories; invariant: every stored value is `f` of some argument with that key.
* **C02 The cache key never confuses two different calls** - `Repr`: inductive Python values, `repr` by code points (string escapes for quote choice, backslash, controls; printability is a parameter), `str(args)+str(kwargs)`. Proof: a parser inverse to `repr` with remainder (unique decodability). Float repr is an abstract injective text without separators (section hypothesis of the oracle, not an axiom).
* **C03 smooth keeps the documented length** - `Smooth`: mirrors `smooth` branch by branch over R, windows as in numpy. Length lemmas by induction on lists, Python slices modelled.
* **C04 smooth is an averaging operator** - `Smooth`: convex combination lemma (nonnegative weights with sum 1 after division).
* **C05 smooth_func returns one centred average per time sample** - `Smooth`: `smooth_func` over R; refuted for a window of 2 samples, proved otherwise.
* **C06 The geometric mean is a mean** - `Stat`: masked arrays as lists of option R, `pyf` floats (NaN, inf) as inductive. Algebra of weighted means.
* **C07 gmeanlist yields a number exactly where there is data** - `Stat`: RLM as an oracle function; the theorem on identical data never reaches it (ptp = 0 branch).
* **C08 Geometric error bars are well formed** - `Stat`: Cauchy-Schwarz (V2 < V1^2), exp convexity.
* **C09 Green's functions are causal** - `Rt`: scalar branch of `G` over R, type names as strings; NotImplementedError not raised in the source is modelled as `UnboundLocalError` value.
* **C10 Evaluating G on a time vector agrees with evaluating it time by time** - `Rt`: array branch with `np.searchsorted`-like index; refuted for onset before first sample, partial with the exact guard.
* **C11 Evaluating G on a distance vector respects causality** - as C10 for distance arrays.
* **C12 2D radiative transfer conserves energy exactly** - `Rt`: Coquelicot `is_RInt` with explicit antiderivative; improper at the front handled as limit.
* **C13 Green's functions are positive behind the wave front** - `Rt`: positivity of each factor.
* **C14 Green's functions obey the similarity law of radiative transfer** - `Rt`: field identities + exp/sqrt/Rpower homogeneity.
* **C15 diff solves the diffusion equation** - `Rt`: Coquelicot `is_derive`.
* **C16 Radiative transfer turns into diffusion at late times** - `Rt`: Coquelicot `is_lim`; in 1D the Bessel series are turned into integrals (`BesselProof.v`) and compared with the Gaussian integral (`BesselProof2.v`); explicit distances from the kernels (`Rt3Proof2.v`).
* **C17 Absorption in the Green's function plots decays with time** - `Rt`: plot data (not drawing) as list of samples; refuted for `plot_t` (scalar end time used), proved for `plot_r`.
* **C18 Moment magnitude conversion is invertible and monotone** - `Source`: ln/Rpower identities.
* **C19 Source displacement spectrum scaling** - `Source`: sqrt identities.
* **C20 Source model shape** - `Source`: Rpower monotonicity; limits by Coquelicot.
* **C21 Fitted n and gamma reproduce the fitted curve** - `Source`: Rpower identity.
* **C22 fit_sds method mean** - `Source`: list filtering, geometric mean by an independent definition (n-th root of product).
* **C23 fit_sds recovers a noise-free source model and is scale equivariant** - `Source`: OLS with a constant regressor = arithmetic mean of logs, shown to be the unique minimiser; RLM is an oracle.
* **C24 fit_sds reports exactly the documented quantities** - `Source`: `fit_sds` dictionary logic; refuted ({} returned), exact characterisation proved.
* **C25 Spectra stay aligned with frequencies** - `Source`: list induction.
* **C26 Recalculating source properties leaves no stale values** - `Source`: dictionary model; stale Mw refuted, remaining keys proved.
* **C27 Merging station sets yields connected components** - `Site`: `_merge_sets` with fuel = number of sets, fuel shown sufficient; reflexive-transitive closure as spec.
* **C28 Unconnected areas: none lost, none invented** - `Site`: `set.pop`/iteration order as an oracle choosing any member.
* **C29 Alignment preserves the modelled energy** - `Site`: result tables as functions/association lists; list induction.
* **C30 Alignment normalises the site responses exactly** - `Site`: the assembled rows as a list of linear forms; any minimiser fulfils the normalisation row exactly because a common shift is free for all other rows.
* **C31 Consistent site responses become identical after alignment** - `Site`: zero-misfit solution exists, so a minimiser has zero misfit; connectivity propagates factors.
* **C32 Only the largest connected area survives alignment** - `Site`: list induction on the rescaling loop.
* **C33 Mean site responses after alignment reflect the aligned events** - `Site`: refuted (stale mean response), guarded partial.
* **C34 Aligning to a station uses that station only** - `Site`: `in` on str is substring; refuted for str, proved for lists.
* **C35 Results are written in a fixed key order without loss** - `Keys`: insertion-ordered association lists; stable sort by index in the fixed order; permutation/sortedness.
* **C36 Frequency bands follow the configured spacing** - `Freqs`: over R; `int()` truncation by `up`.
* **C37 Every requested frequency band is inverted** - `Freqs`: refuted, partial for distinct centres.
* **C38 Observed energy** - `Energy`: Hilbert transform is a linear length-preserving oracle.
* **C39 Station name from SEED id** - `Names`: Coq strings, `split`/`join`.
* **C40 Choice of arrivals** - `Picks`: origins as records with arrival lists.
* **C41 Choice of picks** - `Picks`: loop over arrivals, last match.
* **C42 Time expressions mean what they say** - `Times`: Coq strings, numerals via a `float()` parser on decimal strings to Q, times in integer ns.
* **C43 SNR times end the window at the first weak sample** - `Times`: first index below threshold.
* **C44 Time windows take the latest start and the earliest end** - `Times`: max/min of option times.
* **C45 Collected results stay aligned with their events** - `Collect`: polymorphic values.
* **C46 Completeness check of data windows** - `Times`: integer ns inequalities.
* **C47 Coda is cut at the lowest minimum before the first outstanding maximum** - `Times`: discrete local extrema on Q data.
* **C48 Configuration comments** - `Conf`: line-wise comment stripping on strings.
* **C49 Loading a plugin leaves the module search path alone** - `Conf`: sys.path as list state, import outcome as oracle.
* **C50 Data retrieval errors never abort the run** - `Conf`: data source as oracle returning a value or an exception.
* **C51 Observations stay attached to their event and station** - `Fb`: loops of `invert_fb` as list transformers over abstract per-pair outcomes.
* **C52 Noise removal leaves positive energies** - `Fb`: values over R.
* **C53 The linear system is the physical model** - `Lsqfb`: matrix rows as association of column -> coefficient over R, decoding as in the source.
* **C54 The inversion recovers the parameters of synthetic data exactly** - `Lsqfb`: identifiability by connectivity of the bipartite graph; LSQ solver = any minimiser of the weighted squared error.
* **C55 Accepted results respect the bounds** - `Lsqfb`: Python float inductive with NaN comparison semantics.
* **C56 Misfit outside the bounds is infinite** - `Lsqfb`.
* **C57 At most the configured number of optimisation steps is recorded** - `Lsqfb`: state machine over sequences of trial values.
* **C58 All result lists are aligned with the frequency list** - `Inv`: re-sorting of per-band results, polymorphic; refuted for duplicate event ids.
* **C59 Selection of pairs** - `Pairs`: filter pipeline over abstract outcomes of retrieval/response removal.
* **C60 Minimum number of pairs** - `Pairs`: refuted for `invert` (<=), proved for the per-band check.
* **C61 Results do not depend on the number of cores** - `Inv`: worker model with chunking and shared in-place mutated streams; refuted, proved for at most 4 bands per worker.
* **C62 Fixed parameters are applied to their own frequency band** - `Inv`: finite maps keyed by frequency.
* **C63 Events without picks are skipped individually** - `Pairs`, `Wrap`: refuted for joint inversion, proved for separate inversion.
* **C64 Source-receiver distance** - `Pairs`: rational arithmetic; borehole refuted when network codes are ignored.
* **C65 Events are processed in order of origin time** - `Wrap`: sort with comparison falling through to events (TypeError as value).
* **C66 A run without any result ends regularly** - `Wrap`: refuted for joint inversion.
* **C67 Mean results over events** - `Wrap`: on top of `Stat`.
* **C68 Arguments override the configuration file** - `Run`: JSON-like values, dictionary updates.
* **C69 The prefix applies to output files only** - `Run`: refuted for special outputs.
* **C70 Site responses from a separate file** - `Run`: refuted (whole event dict assigned), overall part proved.
* **C71 Selecting an event** - `Run`: refuted for recalc_source.
* **C72 Logging configuration is consistent and repeatable** - `Log`: nested dictionary model.
* **C73 Plot grids have room for every panel** - `Grid`: integer arithmetic; refuted for one column.
* **C74 Optimisation plot panels do not overlap** - `Grid`: integer arithmetic; refuted for even num.
* **C75 Derived attenuation quantities are consistent** - `Dep`: field identities.
* **C76 Smoothing commutes with time reversal** - `Smooth`: palindromic windows; refuted for one border method, proved for the others.
* **C77 Site alignment succeeds on complete results** - `Site`: success of every step of the model; refuted if a frequency has responses of ignored stations only.
* **C78 Adjusted S onset is at the energy maximum** - `Fb`: proved for windows inside the data, refuted otherwise.
* **C79 Sample times are accurate to half a second** - `Fb`: real arithmetic over the window and slice bounds.
* **C80 The configuration of a run is recorded in its result** - `Wrap`: finite maps; refuted for the name of the Green's function plugin.
* **C81 Every accepted command is executed** - `Run`: unknown commands proved, refuted for rt.
* **C82 run leaves the arguments of its caller unchanged** - `Run`: refuted, the prefix is added in place.
* **C83 Labels of plot grids** - `Grid`: integer arithmetic; refuted for the x label if there are more columns than panels.
* **C84 Frequency axis encloses all frequencies** - `Dep`: real arithmetic, branch by branch.
* **C85 Plots of an event show the values of this event** - `Show`: JSON-like values; refuted for the sites and for results without source energies.
* **C86 The plot of a source spectrum shows its points and its fitted model** - `Dep`: source model over R, NaN as constructor; refuted for the method mean.
* **C87 The magnitude plot shows the selected events** - `Dep`: filters over events; refuted for the empty selection.
* **C88 Plotting leaves the result unchanged** - `Show`: the result is returned by the model of the plot; refuted for simultaneous inversions (the velocity is removed).
* **C89 The plot of results of a simultaneous inversion shows its values** - `Show`: on top of `Stat`; refuted if the mean is not robust.
* **C90 recalc_source records the settings it used** - `Show`: on top of `Run`; proved for given settings, refuted for recorded settings.
* **C91 'qopen rt calc' prints the Green's function** - `Cmd`: printed values as a list over R, on top of `Rt`.
* **C92 Green's function plots show the Green's function** - `Cmd`: curves as lists of samples, on top of `Rt`.
* **C93 Plots use the right velocity** - `Show`: choice of the velocity as a function of JSON-like values.
* **C94 Plots drawn by run and the command plot** - `Run`: effects as a list; the set of plots is characterised by an inductive predicate.
* **C95 Alignment and recalculation use and record the given settings** - `Run`: the calls of the oracles with their keywords, finite maps.
* **C96 The result is output as requested** - `Run`: list of effects.
* **C97 Missing and unreadable files end a run** - `Run`: exceptions as values; refuted for an input file that cannot be read.
* **C98 The command line accepts the documented options and passes them to run** - `Cli`: tables of options, words as an inductive relation between texts and used options, the rules of argparse (Python 3.11) as a function; soundness and completeness of the parser for this relation.
* **C99 Errors of a command line are reported for the command given** - `Cli`: on top of `Run`; refuted for the usage, for the option --overwrite-conf and for a missing command.
* **C100 1D radiative transfer conserves energy exactly** - `Rt`: power series of the Bessel functions, partial sums integrated exactly, remainder bounded (Coquelicot).
* **C101 Energy of the 2D diffusion solution** - `Rt`: explicit antiderivative (Coquelicot).
* **C102 Filter width** - `Width`: closed form of the response in place of scipy's filter coefficients; Riemann sum of a function with one maximum, counting of samples, limits (Coquelicot).
* **C103 The optimization plot shows the misfit of the inversion** - `Curve`: curves as lists of points; on top of `Lsqfb`; refuted for late bulk windows.
* **C104 The fits plot shows observed and modelled energies of the inversion** - `Curve`: on top of `Lsqfb`; refuted for the lower limit and for fixed sites.
* **C105 The energies plot shows samples, onsets and windows relative to origin time** - `Curve`: refuted without bulk windows.
* **C106 The optimization plot marks the trial values of g0** - `Curve`: on top of the trials of `Lsqfb`; refuted for the best value and without trials inside of the bounds.
* **C107 Joining of unconnected areas is single linkage** - `Join`: loop invariant (groups of areas, smallest distances between groups) against the closure of a relation; convex hull and distance as oracles, the order of frozenset iteration as an oracle; refuted for stations inside of a hull. The code is not reachable at present (join_unconnected = None).
* **C108 Near stations connect the joined areas** - `Join`: same invariant; refuted for chains of areas and for stations at the same place.
* **C109 Station coordinates are those of the first channel** - `Join`: refuted for a channel at the equator.
* **C110 Synthetic streams give the true results** - `Chain`: the models of one band (`Fb`, `Lsqfb`) run for all bands and are arranged as in `Inv`; the recovery theorems of a band are carried to the lists of the result dictionary.
* **C111 Synthetic streams give the true moments** - `Chain`: C110 with the recovery of source parameters (`Source`) and the velocity handed over by `Inv`.
* **C112 Green's functions of the inversion** - `Green`: `Gsmooth` with the built-in `G` on time vectors (`Rt`, `Smooth`), the mean over the bulk window, and what the zero at the first sample does to the right hand side and the result of a band (`Lsqfb`).  The solver is only assumed to be linear in the right hand side.
* **C113 Synthetic samples give the true results** - `Chain`: from synthetic samples of the energy traces through removal of noise, windows and times of the coda (`Fb`) to the hypotheses of C110; slices of traces are only assumed to consist of consecutive samples.
* **C114 The plot of results shows all events, their means and errors** - `Panel`: dots and means of each panel from the collected results (`Collect`, `Dep`, `Stat`, `Wrap`); geometric means commute with the derivation of quantities; weights that are nan spoil the error bars of weighted means.
* **C115 The plot of site responses shows all stations, their means and errors** - `Panel`: tables of the stations from the collected results, sorted by name, means and error bars as in C114, cells from `Grid`; weights have the shape of all events, so tables of stations with fewer events are refused.
* **C116 The plot of all source spectra shows the selected events** - `Spectra`: drawings of `Dep` (C86) for the selected events, cells of `Grid` (C73), given or configured options, colours (given or numbers of stations) and colour bar; the colour bar of the last event is lost if its spectrum is empty.
* **C117 The plot of an inversion shows its results** - `Single`: derived quantities of `Dep` (C83), spectrum of `Dep` (C86), cells of `Grid` (C73); values of the first event merged into the result; no velocity and method 'mean' refuted.
* **C118 The plot of site responses of an inversion shows all stations** - `Single`: sorted stations, cells of `Grid` (C73), limits from all values; a result without values refuted.
* **C119 Straight line fits and the line in the plot of magnitudes** - `Line`: linear_fit with the models of statsmodels as an oracle (minimal weighted squares; robust fit exact for data without errors), uniqueness of the minimum, points of `Dep` (C87), magnitudes of `Source` (C18); a fit by the normal equations meets the assumptions.
* **C120 The annotation of a source spectrum shows the fitted values** - `Label`: format strings as lists of parts, drawing of `Dep` (C86); curve reconstructed from the annotated values; options and empty text refuted.
* **C121 The instrument correction uses the response of each channel and skips pairs without** - `Response`: loop over the streams with removal from lists, inventory and deconvolution as oracles, names of plots; names for several events refuted (stale loop variable).
* **C122 Plots of different bands and events go to different files** - `Name`: rounding to hundredths and decimal digits, format strings as lists of parts, `replace('__', '_')`, plots in order with exceptions as values; names are cut at characters that do not occur in numbers.
* **C123 Figures are saved and closed if and only if a file name is given** - `Name`: `_savefig` as a list of actions, `os.path.dirname` on texts.
* **C124 The end of an inversion draws the plots of its event and returns the result in any case** - `Finish`: end of `invert` on top of the plots of `Run`, plots drawn until the first exception, options threaded through the inversions; independence of the two plots refuted.
* **C125 Scaled curves of the Green's functions reach one and keep their shape** - `Scale`: `np.max` as a fold and the division of floats on top of the curves of `Rt`; positivity of the Green's functions from C09-C16; the effect of absorption on curves over time refuted (factor of the end time).
* **C126 The numbers in the plot of the optimization stand at their crosses** - `Step`: numbers of the main panel on top of `Grid` (panels), `Curve` (crosses) and the records of `Lsqfb`.
* **C127 Energy of the diffusion solutions in one, two and three dimensions** - `Diffu`: Gaussian integral (`GaussProof.v`, differentiation under the integral with Coquelicot), substitution for each dimension, bounds of the error function from the same identity.
* **C128 Energy of the approximation of radiative transfer in three dimensions** - `Rt3`: with z the fourth root of 1 - r^2/t^2 the reduced solution is compared from both sides with the diffusion kernel of C127 near the source, and with r/z, which has a primitive, near the wave front.
* **C129 Mean square of the distance of the energy** - `Spread`: in one dimension integration by parts with the Bessel equation and the separate integrals of both Bessel functions, in two dimensions a primitive, for diffusion integration by parts on top of C127, in three dimensions the bounds of C128.
* **C130 1D radiative transfer solves its equation** - `Beam`: explicit energies of the waves in both directions by power series, derivatives of power series from Coquelicot, Bessel equation by comparison of coefficients.
* **C131 Factors of the energies end up in source terms and site responses** - `Gain`: two runs of `Lsqfb` (C53-C57); the right hand sides differ by the equations applied to the logarithms of the factors, minimisers of weighted squares have the same residuals (midpoint), the identification of C54 gives the parameters, induction over the tree of the optimiser.
* **C132 order** - `Shuffle`: the observations as one list of data (sample, Green's function, weight) that is permuted; the weighted squares of any parameters are the same for both orders, both solvers return minimisers and the equations determine the unknowns, so both fits have the same parameters; induction over the optimiser. `C132_builtin`: the conditions on the Green's functions hold for the built-in ones (C112: smoothed values behind the front, bulk mean with the direct wave).
* **C133 damping** - `Damp`: the energies times exp(-d t) shift the right hand side by -d t, which is the image of a parameter vector with only b = d; `lsq_shift` and the uniqueness of the unknowns give the shifted fit, induction over the optimiser the same g0. With a given b the right hand sides are equal.
* **C134 unit of length** - `Unit`: each radiative transfer formula (coda and direct, arrays with the sample of the front, smoothing, mean over the bulk window) scales exactly; the run in the other unit equals, up to the unit of g0, the run with all energies times k^dim in the old one (an equation for all inputs, without conditions on the solver), and C131 gives the results of that one.
* **C135 unit of time** - `Clock`: every formula depends on the product of velocity and time only (exact, all documented types), the padding of the smoothing window and the index of the front are the same; with given parameters the two runs have the same right hand sides and matrices (no condition on the solver); in the command go the column of b is scaled, and the minimisers of the two determined problems correspond.
* **C136 energies with errors** - `Noise`: the minimiser is at most d from the truth in the weighted norm (the residuals of both are bounded by those of the truth, projection), a sample of weight 1 gives a bound for one row; differences of rows of one event move along the network, the mean of the site responses fixes the constant, two samples of one window give b.
* **C137 source spectra with errors** - `Jitter`: the moment and the fit error are means and standard
  deviations of logarithms, which are 1-Lipschitz in the maximum norm; a searched fit is a minimum of such
  functions over the same range.  The method robust_fit is left out: its M-estimator is an arbitrary function here.
* **C138 entries of the event catalogue** - `Entry`: origins with missing coordinates; the loop of invert_wrapper with the log message, and the selection by distance, equal those of `Wrap` and `Pairs` for complete origins. Refuted: an event without depth stops the separate inversion of all events (`o.depth / 1000` in a log message), while the simultaneous inversion leaves out its pairs only.
* **C139 mean values of data with errors** - `Mean`: masks depend on validity only, so both means use the same entries and weights; weighted means of logarithms are monotone and 1-Lipschitz.  Reuses the lemmas on root mean squares of `Jitter`.
* **C140 alignment of site responses with errors** - `Drift`: the true factors leave residuals of at most 2 eps in every row, so the sum of squares of the solution is bounded and with it (Cauchy-Schwarz) the sum of all residuals; levels of one station telescope through the rows, those of two stations through common events.  The means follow for every estimate between two of the data.
* **C141 factors of the events and the solver** - `Gauge`: two minima of a sum of squares have the same residuals; the rows connect all observations of an area, the normalisation row excludes a common shift; factors move the unknowns by their logarithms.
* **C142 aligning twice** - `Twice`: the observations of the second run are those of the first times exp(x); the station counts agree inside the area; hence zero unknowns are a minimum and by `minima_equal` (C141) the only one for observed events.
* **C143 order of events and stations** - `Order`: events are sorted by id first; observations of different stations can be exchanged (the row of a station depends only on its last observation), so the sum of squares is the same function and its minimum is unique (C141). Merging keeps the order of the sets whatever the order inside of them, so the area chosen is the same even with ties.
* **C144 peak of the diffusion solutions** - `Peak`: the logarithm of the solution is -n/2 ln t - a/t with a = n g0 r^2/(4c); ln u < u - 1 compares two times on the same side of a/(n/2) = r^2 g0/(2c). The Heaviside factor of `G` cuts the rise at the front, hence the maximum of both times. The height follows by substitution.
* **C145 radiative transfer by distance** - `Slope`: 1D: power series with positive coefficients in c^2 t^2 - r^2. 2D: exp(g0 w)/w with w = sqrt(c^2 t^2 - r^2), turning at g0 w = 1. 3D: the logarithm is y + ln(y + 2.026)/2 - ln(y)/3 up to a constant, y = g0 c t (1 - r^2/(ct)^2)^(3/4), which turns between 1/4 and 1/3. Logarithms are compared by (z-y)/z < ln z - ln y < (z-y)/y.
* **C146 decay of the coda** - `Fade`: mean value theorem. 2D: the logarithmic derivative is negative as g0 r^2 w < x (x + w) with x = c t, w = sqrt(x^2 - r^2). 1D: with the Bessel equation the derivative is negative where g0^2 r^2/8 B2 < B1 for the power series B1, B2 of I1, I2; B2 <= B1/2 and sqrt(u) B2 < B1 hold term by term. 3D: with b the fourth root of 1 - r^2/(c t)^2 the logarithmic derivative is a rational function of b, bounded for b >= 0.93.
* **C147 clock and unit of energy of the windows** - `Later`: each branch of `time2utc` adds to one of the times of the trace a difference or a number of samples, so the shift passes through maximum and minimum of the lists. Comparisons with signal-to-noise ratios and ratios of extrema are homogeneous. Times are whole nanoseconds; rounding of floats is not modelled.
* **C148 linearity of smoothing** - `Mix`: a relation of three lists (third = a first + b second) is kept by padding, reversed slices and convolution. Order and errors follow from the bounds of C04 for the difference of the signals.
* **C149 unit and order of the frequency bands** - `Pitch`: only ratios of frequencies enter the number of bands; multiplication by a positive factor keeps order and equality of keys. The order of bands is total and antisymmetric, so sorting is independent of the given order.
* **C150 other forms of data of a line fit** - `Tilt`: C119 characterises the result as the only minimum of the misfit, and the misfits of both forms are proportional. The expansion of the misfit in steps of slope and intercept gives the normal equations, which are linear in the values (superposition, errors at the mean place). The robust fit is not covered (its weights are those of statsmodels).
* **C151 parameters of the source model** - `Corner`: monotonicity of powers; for gamma the comparison of norms 1 + u^s < (1 + u)^s for s > 1. The envelope uses the symmetry of the model under exchange of f and fc.
