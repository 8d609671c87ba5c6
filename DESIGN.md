# Design of the formal model of geocat-comp

Source under study: `/repo` (NCAR/geocat-comp, pinned commit), package `geocat/comp`.
Properties: `properties.jsonl`. Status per property: `MANIFEST.json`. Mutation log: `seeded/LOG.jsonl`.

## 1. Modelling style

* Shallow, executable Gallina functions mirroring the Python functions branch by branch.
  A raised exception is a value (`Err kind`), a warning an element of a returned list.
* Numbers. Model functions are written once over a class `Num` of floating-point operations.
  * For theorems the class is instantiated with `fl = Fin r | PInf | NInf | NaN` over Coq's real
    numbers: IEEE special-value behaviour (NaN propagates, comparisons with NaN are false, x/0 is
    +-inf, 0/0 is NaN, log 0 = -inf, log of a negative is NaN, arccos outside [-1,1] is NaN)
    without rounding, overflow or signed zeros.
  * C95 and later are about the same definitions instantiated with IEEE binary64 numbers (`NumB`, Flocq's
    `binary_float 53 1024`, round to nearest even); the C library's exp, log, sin, ... are arbitrary functions there.
  * For checking the model against /repo's test vectors the same definitions were run on IEEE doubles (section 8). Tests are
    not proofs and are not counted as such.
* Arrays are index functions with a shape: `arr T = {shp : list nat; get : list nat -> T}`. numpy
  broadcasting, transpose, ravel/reshape, slices with Python negative-index rules are index maps.
  Only in-bounds entries are meaningful; all theorems quantify over in-bounds indices.
* A DataArray is an array plus dimension names, coordinates, attributes and name.
* dask is modelled by an explicit partition of each axis into chunks; a chunked computation is the
  assembly of the blockwise results.
* Dates are (year, month, day, second of day) in one of the CF calendars; period arithmetic is
  integer arithmetic on them.

## 2. Layers (files under rocq/theories)

Model files (definitions only; each cites the lines of /repo it models):

| file | contents | source |
|---|---|---|
| Num.v | class `Num`, derived numpy operations, instance `fl` | numpy scalars |
| NumB64.v | the binary64 instance of `Num` | numpy float64 |
| PyBase.v, Arr.v, StrFn.v | exceptions as values, Python index/slice rules, n-d and labelled arrays, ASCII string methods | Python, numpy, xarray |
| DeltaP.v | delta_pressure, dpres_plev | meteorology.py |
| Meteo.v, RelhumMix.v, DaylightPrec.v | dewtemp, heat_index, relhum*, max_daylight, psychrometric_constant, saturation_vapor_pressure* | meteorology.py |
| Psi.v, GcUtil.v | zonal_meridional_psi, zonal_mpsi; _find_var, _find_optional_var | meteorology.py, gc_util.py |
| Hybrid.v | pressure_at_hybrid_levels, delta_pressure_hybrid | interpolation.py |
| Interp1d.v, InterpHyb.v, InterpSigma.v, InterpSigmaFull.v, InterpMulti.v | interp_hybrid_to_pressure, interp_sigma_to_hybrid, interp_multidim | interpolation.py |
| Gradient.v | gradient and the WGS84 series | gradient.py |
| Spherical.v | decomposition, recomposition, scale_voronoi | spherical.py |
| Fourier.v | fourier_filter and the four shorthands | fourier_filters.py |
| Nmse.v, Pearson.v, Eof.v | nmse; pearson_r; eofunc_eofs, eofunc_pcs, eofunc, eofunc_ts | stats.py |
| Calendar.v, Climat.v | CF calendars; calendar_average, climatology_average, climate_anomaly, month_to_season | climatologies.py |
| Deprecated.v | the nine stubs | deprecated.py |

`Spec*.v` hold the small specification vocabulary used in theorem statements, independent of the model's helpers.
`*Facts.v`, `*Api.v`, `*Props.v`, `*More.v`, ... hold proofs. `Properties*.v` hold the published theorems (statement, `exact`
or a one-line proof, `Print Assumptions`) and the examples showing that the hypotheses can be met.

## 3. Plan per property

C01-C06 (delta_pressure): model `_delta_pressure1D` on lists with Python indexing (negative index
wraps, out of range is IndexError). Prove a closed form for the thickness list by list induction and
derive conservation (telescoping), NaN set, sign, reversal. C06 is refuted: with a single level above
ground the bottom assignment reads index -1. C04: ravel/reshape index law for all ranks.

C07-C11 (hybrid pressure): n-d broadcast model, by name for DataArrays and by position for numpy.
C09's rank-3 case is a refutation of the unrestricted formula.

C12-C17 (interp_hybrid_to_pressure): metpy's `interpolate_1d` is outside the repo; it is modelled
from its documented algorithm (sort, searchsorted, gather, linear formula, fill) and listed in the
trusted base. Theorems are about that model composed with the repo's code; chunk independence is
proved by index computation for every chunk partition.

C18-C20: formulas as written; theorems by real analysis (field/lra/nra).

C21: decision table over an abstract argument description.

C22-C25: stack/unstack and xarray.interp modelled as index maps plus the bilinear kernel; xarray's
`interp` is in the trusted base.

C26-C37: scalar formulas over `fl`; real analysis (monotonicity, derivative, trigonometric bound).

C38-C42: `_find_var` over an abstract dataset (ordered association list, attribute maps) and a set
iteration order given as an arbitrary permutation; `zonal_mean` of uxarray is an oracle.

C43-C47: DFT over complex pairs of reals, hand-proved orthogonality and inversion; masks through the
Python slice rules.

C48-C50: numpy.gradient stencils, polynomials with the printed coefficients; interval bounds for C50
by monotone term-wise estimates.

C51-C52: enumeration lemma; harmonics are an oracle (Section variable) and quadrature exactness an
explicit hypothesis.

C53-C57: weighted sums over finite index lists; the eofs solver and xskillscore kernels are oracles.

C58-C65: calendars, period keys, resample/groupby as partition of the sample list; pandas/xarray
`infer_freq` is a boolean oracle.

C66: trivial functions.

C67 and later were added while the model grew:
C67 (level coordinate listed second), C68 (dead shape checks), C69 (labels by position), C70 (name of the pressure
coordinate): refutations by computing the model on an arbitrary input of the region. C71: certified bounds between the printed
series and the ellipsoid formulas, by exact integer fixed-point arithmetic on the coefficients plus Taylor bounds of cos.
C72: leading axis. C73-C76: lowest harmonic, missing values, coefficient count, Voronoi weights. C77: filters on labelled arrays.
C78-C79: pearson_r values and weight vectors. C80-C83: labels and attributes of the EOF functions with meta=True.
C84-C85: nmse on 2-D coordinates and on Datasets. C86-C89: early years, permanently missing elements, argument checks of the
climatology functions. C90: method "nearest" of interp_multidim returns the value of a nearest grid point (on the circle of
longitudes when cyclic). C91: surface pressure covering too few columns in interp_sigma_to_hybrid.
C92-C93: keep_attrs; a small separate model of attributes (ClimAttrs.v) with xarray's defaults as parameters.

C94: the model of eofunc_eofs with a labelled array, coordinates and the DataArray constructor's checks; case analysis.

C95-C96: delta_pressure and the hybrid pressures in binary64. The model is the same; the numbers are Flocq's. A closed form of
the layers that holds for any `Num` (DeltaPGen.v), rounding-error lemmas (B64Facts.v), then error bounds by telescoping.

C97: interp_hybrid_to_pressure in binary64. The sort and search lemmas hold for any number type whose comparisons are those of real
values (Interp1dGen.v); the rounded blend is analysed in B64Blend.v. C12 (exact at model levels) is false in binary64 and refuted by
a concrete call; C12 itself is about exact arithmetic.

C98: relhum in binary64 (B64Relhum.v). Inside the clipped range the difference from 173.16 is exact (both are multiples of 2^-45), so
the truncated index is the exact floor and at most 202; the two weights are exact differences too, so the error of the interpolated
entry comes from the rounding of the node 173.16 + k and of the table entries. Neighbouring entries differ by at most a quarter, which
turns the 2^-45 uncertainty of the clip limits into a relative one. The rest is a chain of relative errors (near_mul, near_div).
Monotonicity in mixing ratio and pressure is monotonicity of rounding. The order in temperature is refuted by evaluating the model at
two neighbouring doubles.

C99: relhum with any mixture of argument kinds (RelhumMix.v). Arithmetic between kinds is one operation `arith2`; an invariant says that
every intermediate result stays on the grid of the DataArray arguments and that its cells are the operation applied cell by cell.

C100, C101: what interp_sigma_to_hybrid stores and how it labels it (InterpSigmaFull.v), on top of the column routine of C22. The
conversion to the data's storage type is a parameter of the model; C100 instantiates it with truncation and the identity.

C102: gradient on a Dataset (Gradient.v, gradient_ds), by comparing it step by step with the call on a variable.

C103, C104: max_daylight with the float32 conversion of its arguments and the precision of each step (DaylightPrec.v). Binary32 comes
from Flocq, its numbers are held as binary64 numbers; conversion is proved exact upwards, correctly rounded downwards and idempotent.
With both precisions equal the function is the one of C33 and C34 (prec_exact).

C105: interp_multidim's treatment of other coordinates, attributes and name (interp_aux in InterpMulti.v, InterpCoords.v).

C106: ranks other than two in the spherical functions (Spherical.v, SphRank.v).

C107: order of the heat index in temperature and humidity (HeatOrder.v): mean value form of the regression polynomial, the two
adjustments bounded separately; the jumps at 40 F and at the threshold are the `_refuted` theorems.

C108: order of the dew point (HeatOrder.v): the closed form of C31 composed of increasing functions.

C109, C110: order and labels of the model levels in interp_hybrid_to_pressure (LevelOrder.v): the value of a column is a function
of the set of (pressure, value) pairs (C12's specification determines it), and the labels are only copied or dropped.

C111: gradient under reversal of an axis, shift of the longitudes and reflection at the equator (GradOrient.v), from the closed
form of C45; the seam is the `_refuted` theorem.

C112: rows and columns of interp_multidim in another order (MultiOrient.v): sorting distinct keys has one result; the padding of
cyclic=True copies by position, which is the `_refuted` theorem.
C113: order, monotonicity and sign of relhum_ice and relhum_water (RelhumOrder.v): the exponents of the two Magnus formulas differ
by a quadratic whose roots are 273.15 K and 154.483 K; humidity is an affine function of pressure over vapour pressure.
C114: locality of the vertical interpolations (ColumnLocal.v, MultiLocal.v): for an arbitrary `Num` the output is written as a
function of one column, then compared between two calls. C115: the same for interp_multidim (MultiLocal.v).
C116: nmse in binary64 (B64Nmse.v, B64Cos.v): signs of Flocq's operations; a correctly rounded cosine (a hypothesis on the library,
shown satisfiable) of a latitude between the poles is not negative because the double pi/2 lies below pi/2.
C117: attributes and grid of the meteorology results (MeteoAttrs.v), by cases on the arguments; relhum_ice/relhum_water are the
`_refuted` theorem. C118: leap days in climatologies (ClimLeap.v): the first and last key decide whether the labels can be parsed;
labels are attached by position, which the record of the `_refuted` theorem exploits.
C119: outcomes of interp_multidim (MultiOutcome.v), by cases on rank, shape and the cyclic flag, for an arbitrary `Num`.
C120: the unit of pressure (UnitScale.v): every operation commutes with multiplication by c > 0, ratios and comparisons do not
change, logarithms shift; carried through alignment, sorting, chunking and extrapolation as equations between whole calls.
C121: the unit of the interpolated field (AffineInterp.v): the same technique for x -> a x + b on the values; weights are differences
and ratios of pressures, so they are untouched. Integer storage breaks it (`_refuted`).
C122: the unit of the data of climatologies (ClimAffine.v, spec SpecClimUnits.v): means and day-weighted sums commute with x -> a x + b as the
weights add up to 1 (no weight when no value: the season climatology of a season without a complete month is 0 in every unit, hence the condition
and C122_seasons_refuted); anomalies are differences, so b drops out except where a group is paired with a fill value (C122_century_refuted).
C123: records cut at a period boundary (ClimSplit.v, spec SpecSplit.v): resampling of the concatenation is the concatenation with the periods
between, empty; months without data are dropped, the labels are consecutive midpoints. Generic in the arithmetic, no axioms.
C124: length of day (MeteoDay.v): from the hour angle equation of C33 and monotonicity of cos on [0, pi] and tan on (-pi/2, pi/2); the polar
regions from the domain of arccos.
C125: Fourier filters as projections (FourierEnergy.v): the masked inverse transform as a convolution with a symmetric kernel, hence self-adjoint; idempotent
(C45), so Pythagoras; rolling and reversal keep circular distances.
C126: gradient in binary64 (SpecRel.v, B64Grad.v): a relation between two fields that differences and quotients respect carries over to the results, broadcasting included.
C127: nmse and pearson_r (NmseCorr.v): moments of the weighted fields, from the values of C53 and C78.
C128: superposition, order and distance of interpolated fields (Superpose.v): the column formula of C17 and C22 and the cell formula of C23, with one bracket and weight for all fields.
C129: level arrays of any rank (DeltaPRank.v): the rank-1 case reduces to DeltaP.v, the other ranks are followed to the line that raises.
C130: gradient against the derivative (GradAccuracy.v): the quotient of C48 with the mean value theorem, and its value on quadratics.
C131: interp_sigma_to_hybrid in binary64 (SpecB64Sigma.v, B64Sigma.v): the generic reduction to one column (C22) and the binary64 column of C97.
C132: dewtemp in binary64 (SpecB64Dew.v, B64Dew.v): a chain of relative errors as in C98; the denominator is a sum of two non-negative terms, so nothing cancels; monotonicity of rounding gives the order and the upper bound.
C133: columns of the stream function (PsiColumn.v): the sum of C38 level by level; the thicknesses telescope (air_sum).
C134: stacks of fields and columns of coefficients (SphStack.v): numpy broadcasting of (K, a, b) against (H, a, b) and of (H, 1, 1, K) against (H, a, b).
C135: spellings in the variable lookup (SpecCase.v, CaseFacts.v): letter case specified character by character; the model's lower/upper/capitalize/split/join/replace are shown to meet it, then C41.
C136: infinite values in decomposition (SphInf.v): complex products and sums of non-finite numbers; xarray's sum skips entries with a NaN part.
C137: families of records with the same dates and gaps (ClimSuper.v): every step of the climatology functions preserves a relation between their values that averages preserve; instances for sums, order, distance and one element (ClimSuperApi.v).
C138: anomalies twice (ClimIdem.v): the first result keeps the gaps, so the second call takes the same path (C137), and what it subtracts is zero (months_zero, C62_zero).
C139: climatologies in binary64 (SpecClimB64.v, ClimRel.v, B64Clim.v): every step preserves a relation between two runs, possibly on different number types, that means and day-weighted sums preserve; instances for the error against real numbers and for order.
C140: averaging in two steps (SpecClimTwo.v, ClimSteps.v): the periods kept by a first average form a range whose labels lie in their own periods; means of single values, selections from ranges with the same members, and sums over a partition give the rest.
C141: order of the dates (ClimOrder.v, SpecClimOrder.v, ClimOrderFacts.v): the functions of Climat.v with the order check of resampling in front; equal to them on sorted dates, ValueError otherwise; groupby means are invariant under permutations of the samples.
C142: calls of the Fourier filters that fail (SpecFourierErr.v, FourierErr.v): case analysis of filter_arr over shape, axis number, rate and cutoffs; math.floor/ceil raise ValueError on NaN and OverflowError on infinities.
C143: data that do not fit the grid (GradRank1.v): the part of gradient before the data factored out (gradient_grid), then one case per rank.
C144: whole cycles of the calendar (SpecClimShift.v, ClimShift.v): every calendar function commutes with the shift, exactly; then every step of Climat.v does; the rounding of the median year to even gives the exception for odd shifts.
C145: signals of any content in the Fourier filters (SpecFourierNan.v, FourierNan.v): value of filter_arr at every position as transform, masks, inverse of the series through it; masks characterised by kall_iff; how NaN spreads inside a series is not claimed (np.fft is modelled as a plain sum, pocketfft combines differently).
C146: month_to_season against calendar_average by season (SpecClimPair.v, ClimPair.v, ClimPairApi.v): on whole years of monthly data both reduce, by C59 and C64, to means over the samples around the middle month; the distance of the two means by a vertex argument over weights between 28 and 31 days.
C147: relhum_ice, relhum_water, psychrometric_constant and the saturation vapour pressures in binary64 (SpecB64Met.v, B64Met.v): relhum_iw cell by cell for any numbers; the monotonicity of two rounded operations, with the cases of infinite, zero and NaN saturation mixing ratios excluded by the answer being a positive number, so nothing is assumed of exp; the sign of the rounded Celsius temperature is exact (32 + 2^-47 is the next double above 32); the argument of exp above freezing lies in 0..18.
C148: heat_index in binary64 (B64Heat.v): heat_index cell by cell for any numbers; a computed number with an error bound and a magnitude bound (`ap`) is carried through sums, products, quotients and the square root (whose argument is exact up to relative errors, by Sterbenz's lemma), operation by operation with explicit constants; comparisons of inputs with 40, 80, 87, 112, 13 and 85 are exact, the one with the threshold is where the average is not too close to it. The counterexample at the threshold evaluates the comparison on one double.
C149: max_daylight in binary64 (SpecB64Day.v, B64Day.v): sin, tan and arccos of numpy are arbitrary functions with stated conditions (ranges, order, value at 0; tan at most 0.436 up to 0.41 and 2.28 up to 1.156); 24/pi*pi = 24 and 24/pi*(pi/2) = 12 in doubles are evaluated, the rest is monotonicity of rounding and bounds of each intermediate number. Conditions are shown consistent by one library that meets them; that numpy's meets them is assumed.

Nothing in the list is judged inexpressible. Not expressible and therefore not listed: run time/memory, dask scheduling,
docstring rendering.

## 4. What is modelled and what is not

Modelled: every public function of `geocat.comp` (the names exported by `geocat/comp/__init__.py`) and the private helpers they
call. Each definition's comment cites the lines and states its simplifications. The main ones:

* Unless binary64 is named, numbers are real numbers with the IEEE special values; rounding, overflow, signed zeros and float32 conversion are not
  modelled there. Equalities proved are therefore equalities up to rounding in the code. C95-C98, C116, C126, C131, C132 and C139 are about binary64. Binary64 sums
  are taken from left to right; numpy's pairwise order is not modelled. Theorems that quantify over an arbitrary
  `Num` instance (chunk independence C16, argument checks, labelling, EOF plumbing, dates) hold for binary64 as well.
* Warnings are booleans or lists of names; exception messages are not modelled, exception classes are.
* pint quantities and `keep_attrs` contexts are not modelled; attributes are where the code sets or copies them.
* interp_multidim: the two documented methods, 'linear' and 'nearest'.
* spherical decomposition with weights of rank above two, and of labelled data of rank above two that is not rejected before the sum (leading sizes equal to those of the grid); plain data of any rank is modelled;
  recomposition of labelled coefficients of rank above one: outside the model.
* nmse: coordinates and name of the result are not modelled. climatologies: a DataArray/Dataset is a list of time stamped frames;
  attributes are in a separate small model (ClimAttrs.v, C92-C93), non-time coordinates are not modelled.
* dask: only where the code itself branches on it (interp_hybrid_to_pressure); chunking of the other functions is xarray's.
* Not modelled at all: run time, memory, dask scheduling, docstrings, plotting of warnings.

## 5. Findings (the code deviates from what a user would rely on)

Each is proved about the model; the theorem gives the exact behaviour.

1. delta_pressure with a single level above ground returns a non-positive thickness: index -1 wraps to the last level (C06).
2. delta_pressure_hybrid drops only the first listed coordinate; a labelled level coordinate listed later makes every
   thickness zero on nlev-2 levels (C67). numpy hybrid pressures of rank-3 surface fields pair time with level (C09).
3. interp_hybrid_to_pressure attaches values of unsorted new_levels to the wrong labels (C17).
4. Shape checks of dewtemp and relhum never fire: `all(...)` is given a generator expression's negation (C68).
5. heat_index adjusts simple-average values too (C29); its range check misses arrays containing NaN (C27).
6. relhum_ice/relhum_water put the temperature's labels on values laid out like the mixing ratio (C69).
   relhum_water returns an ndarray for list input, relhum_ice a list (C32).
7. zonal_meridional_psi takes the cosine of degrees (C39) and only works for a pressure coordinate called plev (C70).
8. _find_var's answer among several candidate names depends on set iteration order (C42).
9. fourier_filter derives the bin width from axis 0 instead of the filtered axis (C47); on labelled arrays it fails unless the
   two axes have equal length (C77); low+high pass between bins loses a frequency (C46).
10. gradient on rank-3 data differentiates the wrong axes (C72); it returns (axis 0, axis 1), the docstring says the opposite (C49).
11. recomposition accepts a single coefficient for any max_harm (C75); NaN cells of a DataArray bias decomposition (C74).
12. pearson_r with a weight vector returns None or a wrong value (C79); Datasets fail (C55).
13. EOF functions: negative time_dim rejected (C57), wrong time labels (C81), meta=True failures (C80), time_dim not ignored for
    DataArrays (C82), the caller's attributes overwritten (C83).
14. nmse: uneven spacing of 2-D coordinates unnoticed (C84), masks mixed between Dataset variables (C85), several latitudes give
    KeyError because the documented ValueError branch is dead (C54).
15. climatology_average fails on daily data containing a date its label year lacks (C61) and on early years (C86); it returns zeros
    when one element is always missing (C87), calendar_average raises IndexError (C88).
16. climate_anomaly('year') mixes years a century apart (C63). month_to_season drops a February that may be complete (C64).
17. interp_sigma_to_hybrid leaves columns without surface pressure uninterpolated and raises nothing (C91).
18. climate_anomaly drops the attributes of a Dataset's variables even with keep_attrs=True (C93).
19. eofunc_eofs with meta=True raises ValueError when the data has an auxiliary coordinate along time (C94).
20. relhum is not ordered by temperature in the last bits: in double precision 255.15999999999997 K gives a smaller humidity than
    255.16 K, the same moisture and pressure given (C98).
21. interp_hybrid_to_pressure in double precision does not return the model level's value exactly at a model level (C97).
22. interp_sigma_to_hybrid cuts interpolated values of integer data off towards zero (C100); an auxiliary coordinate along one
    dimension comes back spread over all dimensions but the level (C101).
23. gradient lists xarray.Dataset as a supported type but raises TypeError on every one (C102).
24. max_daylight rounds everything but ndarrays to single precision: the labels of a DataArray result differ from the caller's
    coordinates (C103), and results and warnings depend on the container (C104).
25. interp_multidim drops the attributes and the name when missing_val is given, and with cyclic=True every other coordinate too;
    missing_val is not applied to coordinates, which are interpolated with the marker value in them (C105).
26. decomposition accepts weights of shape (nlat, 1) or (1, nlon) and returns coefficients too large by the length of the other
    axis; recomposition at a list of points returns an array of shape (1, n) (C106).
27. heat_index falls when the temperature crosses 40 F (from the temperature itself to 33.7 + 0.047 h), at every humidity, and
    in moist air where the regression takes over (by more than 1.3 F; 4.9 F with the alternate coefficients) (C107).
28. interp_hybrid_to_pressure with extrapolate=True takes the last listed level as the lowest when the coefficients carry no
    labels: a column listed from the bottom up is filled with the model top's value (C109).
29. interp_hybrid_to_pressure matches coefficients to data by position and ignores the data's level labels (C110).
30. gradient across a jump of 360 degrees in the longitudes has the wrong sign and is too small by the factor w / (360 - w) (C111).
31. interp_multidim with cyclic=True and longitudes listed from east to west repeats the easternmost column across the seam (C112).
32. relhum_ice and relhum_water return a negative humidity where 0.378 times the saturation vapour pressure exceeds the pressure
    (270 K at 1 hPa); relhum clamps at 0.0001 instead (C113).
33. Below 154.48 K relhum_ice is smaller than relhum_water, although saturation over ice is below saturation over water (C113).
34. In double precision nmse of a constant observed field need not be infinite: the rounded mean differs from the constant and
    the score is a finite number above 10^30 (C116).
35. relhum_ice and relhum_water put the temperature's attributes on the humidity, including its units (C117).
36. A daily climatology of 2 March 2019 to 29 February 2020 labels the average of 29 February as 1 March 2019 (C118).
37. A season climatology with an offset unit: a season without a complete month gives 0 in kelvin and 0 in Celsius (C122).
38. max_daylight is NaN in the polar day, and not even a warning is given if one latitude of the array is moderate (C124).
39. interp_sigma_to_hybrid: a hybrid level that is the first sigma level can come out NaN, since hyam*p0/ps may be rounded to just below it (C131).
40. dewtemp can exceed the air temperature by a rounding error at 100 % humidity, e.g. at 210 K (C132).
41. decomposition of a plain stack of as many fields as harmonics returns coefficient k of field k; recomposition of a column of coefficients returns one sheet per harmonic, each times the sum of all coefficients (C134).
42. The variable lookup is not case insensitive: only five (long names: eight) spellings of a key are tried, so e.g. northward_WIND is not found (C135).
43. decomposition of labelled data silently drops infinite values from every harmonic with m = 0, the mean included (C136).
44. climatologies of a sum are not the sums of the climatologies when gaps differ, since missing values are left out of each mean (C137).
45. the mean of equal double precision values need not be that value: three samples 0.1 in one day average to 0.10000000000000002 (C139).
46. averages of averages differ from averages of the data when periods hold different numbers of values: calendar_average by day then by month gives 1/3 where by month directly gives 1/4 (C140).
47. unsorted dates: calendar_average, yearly and seasonal anomalies and season climatologies raise ValueError, while hour, day and month climatologies of dates in decreasing order with a frequency succeed (C141).
48. gradient of one-dimensional data on a two-dimensional grid returns two full grids computed from the first three values (C143).
49. month_to_season weights the months of a season equally, calendar_average by their lengths: on the same monthly record the two give different seasonal means, up to 3/118 of the range of the months (C146).
50. heat_index jumps at its threshold (the average of Steadman's formula and the temperature reaching 79): the regression there is up to 1.66 F away from the average, and rounding alone can decide between the two, e.g. at the double 76.909090909090907 F and 100 %.

## 6. Trusted base

* Coq 8.16.1's kernel (and coqchk). No plugin, no vm/native trust beyond the kernel's conversion; no axioms are declared.
* `Print Assumptions` of the published theorems lists only standard-library axioms:
  `ClassicalDedekindReals.sig_forall_dec`, `ClassicalDedekindReals.sig_not_dec` (the real numbers),
  `FunctionalExtensionality.functional_extensionality_dep`, `Classical_Prop.classic`. Each
  theorem uses none, some or all of these four; the real numbers bring in the first three, Coquelicot's analysis and Flocq the last.
  Every `Properties*.v` prints them. coqchk also lists the parameters of the standard library's
  sealed modules (`Rdefinitions.RbaseSymbolsImpl`, `RinvImpl`, `ssrunder.Under_rel`), which their implementations define.
* For C95 and later: Flocq's definition of binary64 numbers and of their operations as what numpy's float64 does (Flocq proves
  them to be the correctly rounded results; it declares no axioms).
* The faithfulness of the model to /repo, which was read as text and not run.
* The semantics of the dependencies, as far as the code relies on them:
  * numpy: broadcasting, indexing, nan-reductions, `np.gradient`, `np.meshgrid`, `np.roll`, `np.diff`, `np.pad`; `np.fft` as its
    defining sums; `np.swapaxes` of a DataArray swaps the data under the old dimension names.
  * xarray: inner join of index labels and broadcasting by name in arithmetic; exact join in `where`; constructor checks of
    `xr.DataArray`; `weighted().mean()`; `resample`/`groupby` reductions skipping NaN, empty bins NaN; `resample` refuses unsorted dates with ValueError; `dropna(how='any')`;
    `.min()` skipping NaN; `assign_coords` of a wrong length is a ValueError; `interp` sorts its coordinate and calls scipy's
    interp1d. `xr.infer_freq` is a boolean oracle and a ValueError below three dates.
  * metpy `interpolate_1d`/`log_interpolate_1d` as transcribed in Interp1d.v; dask `map_blocks` as block assembly.
  * cf_xarray name recognition, uxarray `zonal_mean`, scipy `sph_harm_y` and `SphericalVoronoi`, the `eofs` solver and xskillscore
    on labelled arrays are oracles (arbitrary parameters); xskillscore's numpy kernel `_pearson_r` is transcribed in Pearson.v.
  * pandas/cftime calendars as in Calendar.v ("standard" treated as proleptic Gregorian); a year needs four digits to be parsed.

## 7. Mutation testing

`seeded/LOG.jsonl` has one line per wrong program tried: a single definition of the model was edited in a scratch copy and
everything rebuilt. Lemmas that no longer prove were replaced by admitted ones (in the scratch copy) until the build went through;
a published theorem counts as failed if it depends on one of them. For the edits made by a script (the
lines with `first_lemma_failed`) the build was stopped at the first lemma that failed, and the theorems listed are those that depend
on it: this is derived from the dependencies, the theorems themselves were not tried one by one. Edits that broke nothing are listed with
the theorem that was added or tightened, or with the reason no claim is affected; these reasons (equivalent, not reachable) come from
reading and are not proved. Edits that did not type-check are left out. `not rebuilt after the tightening` marks those whose tightened theorem
was not tried against the edit again.

## 8. Running the model on the repository's test vectors

The model was extracted to OCaml once, `Num` instantiated with doubles, and its results compared with the values expected by
`/repo/test`. No proof depends on this. The drivers are not part of this tree, which holds no OCaml files, so the comparison
cannot be repeated from here; the results below are a report, not something a build checks.
All comparisons agree within the tolerances of the tests (most to 1e-4 relative): the meteorology
functions including the NCL output files, delta_pressure, pressure_at_hybrid_levels and delta_pressure_hybrid, gradient,
pearson_r, nmse against the CUPiD reference, the Fourier filters, spherical decomposition/recomposition, calendar and
climatology averages, anomalies and seasons in five calendars, and variable lookup. Two things this showed about the tests:
test_gradient.py compares values of size 1e-7 to three decimals, so it accepts any small result, and the file named
"longitude" holds the derivative along axis 0 (latitude), which is what the function returns first.
Not compared, because their inputs are downloaded by the tests: interp_hybrid_to_pressure and interp_sigma_to_hybrid against NCL,
interp_multidim on the larger data sets, eofunc time series.

One disagreement, with a docstring: for the example of interp_multidim (missing_val=99, cyclic) the documented output is
[[1, 2, 99], [2, 4, 99]], the model gives [[99, 2, 99], [99, 4, 99]]. The wrap column at longitude -10 is missing, and scipy's
interp1d computes the value at a node from the node and its lower neighbour, so longitude 0 becomes missing. The model follows
interp1d as read from its source; if the installed xarray uses another interpolator for this call, the model is wrong at
nodes whose lower neighbour is missing (and only there).
