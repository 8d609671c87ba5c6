{"id": "C01", "title": "delta_pressure conserves column mass", "statement": "For pressure levels that are strictly monotone (ascending or descending), a pressure_top with 0 <= pressure_top <= min(levels) and a surface pressure that lies below at least one layer interface, the non-NaN thicknesses returned by delta_pressure for that column sum exactly to surface_pressure - pressure_top.", "quantifier": "every list of >= 2 strictly monotone levels of any length and orientation, every surface pressure, every admissible top", "why_tests_cant": "A test checks four levels and two surface pressures; conservation must hold for every number of levels, every orientation and every place the surface can cut the column.", "anchors": ["geocat/comp/meteorology.py:_delta_pressure1D", "geocat/comp/meteorology.py:delta_pressure"]}
{"id": "C02", "title": "delta_pressure marks exactly the underground levels and every thickness is positive", "statement": "In each column the thickness of a level is NaN exactly when the interface above that level (midpoint to the next level up; nothing for the topmost level) is at or below the surface pressure; every other thickness is a finite, non-negative number.", "quantifier": "every strictly monotone level list, every surface pressure", "why_tests_cant": "The boundary (interface equal to surface pressure) and all cut positions form an infinite family.", "anchors": ["geocat/comp/meteorology.py:_delta_pressure1D"]}
{"id": "C03", "title": "delta_pressure follows the caller's level order", "statement": "Reversing pressure_lev reverses the thicknesses along the level axis and changes nothing else; thickness k always describes pressure_lev[k].", "quantifier": "every strictly monotone level list, every surface pressure", "why_tests_cant": "Must hold for every list, not only for the one descending list in the test-suite.", "anchors": ["geocat/comp/meteorology.py:_delta_pressure1D"]}
{"id": "C04", "title": "delta_pressure treats every surface cell independently", "statement": "For an n-dimensional surface pressure the result has shape surface_pressure.shape + (nlev,), its value at (i1..in,k) is the k-th thickness of the scalar call on that cell, for arrays of any rank including empty ones; the call fails iff some scalar call fails; for a DataArray the result keeps its dimensions (adding 'lev' last) and coordinates, adds the levels as coordinate 'lev', and carries the attributes of the level DataArray (of the surface pressure when levels are not a DataArray) with only 'long name' replaced.", "quantifier": "every rank, every shape, every multi-index", "why_tests_cant": "Ravel/reshape index bookkeeping has to be right for every rank and shape.", "anchors": ["geocat/comp/meteorology.py:delta_pressure"]}
{"id": "C05", "title": "delta_pressure rejects inconsistent pressures and defaults the top", "statement": "delta_pressure raises ValueError when pressure_top > min(levels), when pressure_top < 0 or when pressure_top > surface_pressure of some cell; with pressure_top omitted the minimum level is used; dpres_plev returns the same value or error as delta_pressure on every input.", "quantifier": "every input", "why_tests_cant": "Error behaviour must hold for every input combination, including ones where several checks fail at once.", "anchors": ["geocat/comp/meteorology.py:delta_pressure", "geocat/comp/meteorology.py:_delta_pressure1D", "geocat/comp/meteorology.py:dpres_plev"]}
{"id": "C06", "title": "delta_pressure is meaningful when only one level is above ground", "statement": "Users expect the conservation claim to extend to surface pressures that leave a single level above ground (0 < surface pressure <= midpoint of the two topmost levels). The code violates this: the one finite thickness it returns is surface_pressure - (first + last level)/2, which is never positive.", "quantifier": "every strictly monotone level list, every surface pressure >= pressure_top", "why_tests_cant": "The failing region is a thin slice of inputs no test visits; the property is violated there (negative thickness) and the theorem pins the exact wrong value.", "anchors": ["geocat/comp/meteorology.py:_delta_pressure1D"]}
{"id": "C07", "title": "pressure_at_hybrid_levels computes a(k)*p0 + b(k)*ps in every cell", "statement": "For DataArrays the value of the result at level k and horizontal cell c is hya[k]*p0 + hyb[k]*psfc[c], with dimensions combined by name, for any number and order of horizontal/time dimensions; when hya and hyb name their level dimension differently hya's name wins.", "quantifier": "every rank and shape of psfc, every number of levels, every p0", "why_tests_cant": "Broadcasting must be right for every rank/shape combination.", "anchors": ["geocat/comp/interpolation.py:pressure_at_hybrid_levels"]}
{"id": "C08", "title": "pressure_at_hybrid_levels validates its inputs", "statement": "TypeError is raised iff some input is neither ndarray nor DataArray or the three are of mixed kinds; otherwise ValueError whenever hya.shape != hyb.shape or (numpy) hya has more than one dimension; no exception other than these two kinds is ever raised.", "quantifier": "every combination of argument kinds and shapes", "why_tests_cant": "The decision table has to be right for all shapes.", "anchors": ["geocat/comp/interpolation.py:pressure_at_hybrid_levels"]}
{"id": "C09", "title": "numpy hybrid pressures need a surface field of rank at most two", "statement": "For numpy inputs with psfc of rank <= 2 the result is (nlev, lat, lon) with value hya[k]*p0+hyb[k]*psfc; for psfc of rank 3 (time, lat, lon) the result is NOT indexed by level: it either fails to broadcast or, when ntime equals nlev (or is 1), pairs time step k with level k.", "quantifier": "every shape of psfc", "why_tests_cant": "Depends on coincidences between axis lengths that a test with one shape cannot expose.", "anchors": ["geocat/comp/interpolation.py:pressure_at_hybrid_levels", "geocat/comp/interpolation.py:delta_pressure_hybrid"]}
{"id": "C10", "title": "delta_pressure_hybrid is the distance between consecutive hybrid pressures", "statement": "delta_pressure_hybrid has nlev-1 levels, its value at (k, cell) is |p(k+1,cell)-p(k,cell)| with p the hybrid pressure, hence non-negative, and for a monotone column the thicknesses add up to |p(last)-p(first)|; output kind equals the kind of ps, and a DataArray result keeps the coordinates of ps, is named \"dph\" and is described as \"pressure layer thickness\" in \"Pa\".", "quantifier": "every shape, coefficient list and surface pressure", "why_tests_cant": "Telescoping and non-negativity are claims over all column lengths and values.", "anchors": ["geocat/comp/interpolation.py:delta_pressure_hybrid"]}
{"id": "C11", "title": "delta_pressure_hybrid validates its inputs", "statement": "TypeError iff an input is neither exactly ndarray nor exactly DataArray, p0 is not int/float, or hya and hyb differ in kind; otherwise ValueError whenever shapes differ or hya has more than one dimension.", "quantifier": "every combination of argument kinds and shapes", "why_tests_cant": "Decision table over unbounded shapes.", "anchors": ["geocat/comp/interpolation.py:delta_pressure_hybrid"]}
{"id": "C12", "title": "interp_hybrid_to_pressure reproduces the data on the model's own levels", "statement": "If a requested level equals the pressure of model level k in a column (pressures strictly monotone in that column) the output there equals the data at level k, for both methods.", "quantifier": "every column length, data, surface pressure, coefficients, requested levels, linear and log", "why_tests_cant": "Must hold at every level of every column.", "anchors": ["geocat/comp/interpolation.py:interp_hybrid_to_pressure", "geocat/comp/interpolation.py:_vertical_remap"]}
{"id": "C13", "title": "interp_hybrid_to_pressure never overshoots", "statement": "Every finite interpolated value lies between the data values at the two model levels that bracket the requested pressure.", "quantifier": "every column with strictly monotone pressures, every requested level in range, linear and log", "why_tests_cant": "A bound over a continuum of pressures and data.", "anchors": ["geocat/comp/interpolation.py:interp_hybrid_to_pressure"]}
{"id": "C14", "title": "interp_hybrid_to_pressure returns NaN outside the column's pressure range when not extrapolating", "statement": "Without extrapolation the output at a requested level is NaN exactly when that level is outside [min,max] of the column's model-level pressures (data finite).", "quantifier": "every column, every requested level", "why_tests_cant": "The range differs in every column.", "anchors": ["geocat/comp/interpolation.py:interp_hybrid_to_pressure"]}
{"id": "C15", "title": "interp_hybrid_to_pressure is exact for profiles linear in p (or ln p)", "statement": "If data = a + b*p on the model levels (method linear) or a + b*ln p (method log), the interpolated value at any in-range level is a + b*lev, respectively a + b*ln lev.", "quantifier": "every column, all a and b, all levels", "why_tests_cant": "Exactness is a universally quantified algebraic law.", "anchors": ["geocat/comp/interpolation.py:interp_hybrid_to_pressure", "geocat/comp/interpolation.py:_func_interpolate"]}
{"id": "C16", "title": "interp_hybrid_to_pressure does not depend on chunking", "statement": "The output value is the same for an in-memory array and for any dask chunking of data along any dimension, including chunking along the level dimension.", "quantifier": "every partition of every axis into chunks", "why_tests_cant": "The number of chunkings is exponential in the array size.", "anchors": ["geocat/comp/interpolation.py:interp_hybrid_to_pressure", "geocat/comp/interpolation.py:_interpolate_mb", "geocat/comp/interpolation.py:_vertical_remap"]}
{"id": "C17", "title": "interp_hybrid_to_pressure: each output level depends only on its own requested pressure", "statement": "For new_levels sorted ascending or descending, the output at index j is the one obtained by requesting new_levels[j] alone. For a new_levels that is neither, the returned values are attached to the wrong plev labels.", "quantifier": "every sorted list of levels; a counterexample for unsorted ones", "why_tests_cant": "All permutations of all level lists.", "anchors": ["geocat/comp/interpolation.py:interp_hybrid_to_pressure"]}
{"id": "C18", "title": "Extrapolation only touches points below the lowest model level", "statement": "With extrapolate=True, output points whose plev <= pressure of the lowest model level are unchanged, and all deeper points are replaced by the formula of the chosen variable; for variable 'other' they equal the data at the lowest model level; in no case does a NaN remain below ground when the inputs are finite.", "quantifier": "every column, every level, every variable kind", "why_tests_cant": "Piecewise behaviour in every column.", "anchors": ["geocat/comp/interpolation.py:_vertical_remap_extrap", "geocat/comp/interpolation.py:interp_hybrid_to_pressure"]}
{"id": "C19", "title": "Below-ground temperature follows the ECMWF cubic", "statement": "Temperature extrapolation equals T*(1 + y + y^2/2 + y^3/6) with T* = t_bot(1 + alpha(ps/p_lowest - 1)) and y = alpha_eff ln(lev/ps), where alpha_eff is the standard lapse constant for terrain below 2000 m, is derived from the plateau temperature (linear blend 2000-2500 m, capped at 298 K) above, and is zero when the plateau temperature is below T*; at lev = ps it returns T*.", "quantifier": "every t_bot, lev, ps, p_lowest > 0, phi_sfc > 0", "why_tests_cant": "Three terrain regimes times a continuum of values; regime boundaries at 2000 and 2500 m.", "anchors": ["geocat/comp/interpolation.py:_temp_extrapolate"]}
{"id": "C20", "title": "Below-ground geopotential height follows the ECMWF formula", "statement": "Geopotential extrapolation equals z_s - (R_d/g) T ln(lev/ps) (1 + y/2 + y^2/6) with the documented adjustments of T* at 255 K and 290.5 K; it returns z_s at lev = ps and lies below z_s for lev > ps.", "quantifier": "every t_bot, lev, ps, p_lowest, phi_sfc > 0", "why_tests_cant": "Case analysis over a continuum.", "anchors": ["geocat/comp/interpolation.py:_geo_height_extrapolate"]}
{"id": "C21", "title": "interp_hybrid_to_pressure checks arguments before computing", "statement": "TypeError iff data, ps, hyam, hybm are not all DataArrays of one type; otherwise ValueError iff extrapolate without variable, or variable in {temperature, geopotential} without t_bot/phi_sfc, or unknown variable, or no level dimension can be determined, or unknown method - in that order, whatever the data.", "quantifier": "every combination of argument states", "why_tests_cant": "Full decision table.", "anchors": ["geocat/comp/interpolation.py:interp_hybrid_to_pressure", "geocat/comp/interpolation.py:_func_interpolate"]}
{"id": "C22", "title": "interp_sigma_to_hybrid interpolates every column at its own sigma values", "statement": "In each column the output at hybrid level k is the interpolation of that column's data on sig_coords at hya[k]*p0/ps + hyb[k]; for data of any rank the horizontal position of every column is preserved and the hlev coordinate holds the first column's sigma values.", "quantifier": "every rank/shape, every column", "why_tests_cant": "stack/unstack index bookkeeping for every shape.", "anchors": ["geocat/comp/interpolation.py:interp_sigma_to_hybrid", "geocat/comp/interpolation.py:_sigma_from_hybrid"]}
{"id": "C23", "title": "interp_multidim reproduces grid nodes and stays within the cell's corner values", "statement": "At an output point that coincides with an input grid node the (linear) result is the node's value; elsewhere it lies between the smallest and largest of the four surrounding values; fields of the form a+b*lat+c*lon+d*lat*lon are reproduced exactly.", "quantifier": "every strictly monotone grid, all finite data, every in-range target", "why_tests_cant": "Continuum of targets and data.", "anchors": ["geocat/comp/interpolation.py:interp_multidim"]}
{"id": "C24", "title": "interp_multidim's missing value is a faithful stand-in for NaN", "statement": "With missing_val=m, cells equal to m act as missing, every output that would be NaN is m, and the result equals the one obtained by passing NaN in place of m and replacing NaN by m in the output; no NaN is ever returned.", "quantifier": "every grid, field, missing value", "why_tests_cant": "Universally quantified equivalence.", "anchors": ["geocat/comp/interpolation.py:_pre_interp_multidim", "geocat/comp/interpolation.py:_post_interp_multidim", "geocat/comp/interpolation.py:interp_multidim"]}
{"id": "C25", "title": "interp_multidim wraps correctly around the globe when cyclic", "statement": "With cyclic=True targets between the last longitude and the first+360 (and between last-360 and the first) are interpolated between the last and first columns; targets inside the original range give the same result as cyclic=False; a target and the target shifted by 360 agree on the overlap.", "quantifier": "every ascending longitude list spanning less than 360 degrees, every target", "why_tests_cant": "Seam behaviour over a continuum of targets.", "anchors": ["geocat/comp/interpolation.py:_pre_interp_multidim", "geocat/comp/interpolation.py:interp_multidim"]}
{"id": "C26", "title": "dewtemp never exceeds the air temperature", "statement": "For temperature in the physically valid range and 0 < rh <= 100 the dew point is <= the temperature, with equality exactly at rh = 100, and it is strictly increasing in rh; rh=0 or negative gives the documented IEEE result rather than an exception.", "quantifier": "every temperature in (0, 1320) K and rh in (0,100]", "why_tests_cant": "Monotonicity over a continuum.", "anchors": ["geocat/comp/meteorology.py:dewtemp", "geocat/comp/meteorology.py:_dewtemp"]}
{"id": "C27", "title": "heat_index input checking", "statement": "heat_index raises TypeError when the inputs' container kinds differ and ValueError when shapes differ. For DataArrays it raises ValueError exactly when some non-NaN humidity is < 0 or > 100; for other containers the same holds only if no humidity is NaN (one NaN switches the check off, so the unconditional claim is refuted). Otherwise it returns a value of the same container kind (int becomes float) and shape, and warns exactly when every humidity is <= 1.", "quantifier": "every input", "why_tests_cant": "Decision table over all arrays.", "anchors": ["geocat/comp/meteorology.py:heat_index"]}
{"id": "C28", "title": "heat_index selects the documented formula in every cell", "statement": "Below 40 F the result is the temperature itself; below the critical value of the simple average the simple average; otherwise the 9-term regression, plus the low/high humidity adjustments in their temperature windows; cells never influence each other.", "quantifier": "every temperature and humidity, both coefficient sets", "why_tests_cant": "Branch structure over a continuum.", "anchors": ["geocat/comp/meteorology.py:heat_index", "geocat/comp/meteorology.py:_nws_eqn"]}
{"id": "C29", "title": "heat_index adjusts only regression values", "statement": "The NWS procedure applies the humidity adjustments only where the full regression is used. The code applies them also where the simple average is returned.", "quantifier": "existence of a violating (T, RH) and characterisation of all of them", "why_tests_cant": "The defect shows only in a small window of inputs; the theorem gives the exact deviation.", "anchors": ["geocat/comp/meteorology.py:heat_index"]}
{"id": "C30", "title": "relhum's table lookup is total, continuous and monotone", "statement": "For every finite temperature both looked-up entries lie inside the table, the interpolated saturation vapour pressure is positive, continuous across table nodes and non-decreasing in temperature, and equals the table at its nodes.", "quantifier": "every temperature", "why_tests_cant": "Index safety for every real temperature including the clipped ends.", "anchors": ["geocat/comp/meteorology.py:relhum"]}
{"id": "C31", "title": "relhum output is at least 0.0001 and follows humidity and pressure", "statement": "relhum returns at least 0.0001; it is non-decreasing in mixing ratio (>= 0) and in pressure, and non-increasing in temperature; temperatures outside [173.16, 375.16] K are treated as the nearest end.", "quantifier": "every temperature, mixing ratio >= 0, pressure", "why_tests_cant": "Monotonicity over a continuum with a 204-entry table.", "anchors": ["geocat/comp/meteorology.py:relhum"]}
{"id": "C32", "title": "relhum_ice and relhum_water are proportional to the mixing ratio and consistent", "statement": "Both return 100*w/q_sat with q_sat computed from the Magnus formula, hence are exactly linear in mixing ratio, equal 100 when w = q_sat, increase with pressure, and coincide at 273.15 K; types and shapes are checked first.", "quantifier": "every temperature above the pole of the formula, every w, every p above 0.378 es", "why_tests_cant": "Continuum; equality at 0 C between two different formulas.", "anchors": ["geocat/comp/meteorology.py:relhum_ice", "geocat/comp/meteorology.py:relhum_water", "geocat/comp/meteorology.py:_relhum_ice", "geocat/comp/meteorology.py:_relhum_water"]}
{"id": "C33", "title": "max_daylight is defined and physical up to 66 degrees", "statement": "For |lat| <= 66 and every day number the result is a real number strictly between 0 and 24; it is 12 at the equator; days at lat and -lat add to 24 hours; the array has shape (njday, nlat) with entry (i,j) depending only on jday[i] and lat[j].", "quantifier": "every latitude in [-66,66], every real day number, every array length", "why_tests_cant": "Needs |tan(lat) tan(decl)| < 1 for all days, a trigonometric inequality over a continuum.", "anchors": ["geocat/comp/meteorology.py:max_daylight"]}
{"id": "C34", "title": "max_daylight's polar warnings and rank check", "statement": "ValueError when an input has more than one dimension or when day is a DataArray and one input is a scalar array; the limited-validity warning is raised iff all latitudes satisfy 55 < |lat| <= 66 (vacuously for an empty list) and the stronger one iff all (at least one) satisfy |lat| > 66; arrays mixing both (or one safe latitude) trigger no warning.", "quantifier": "every latitude array", "why_tests_cant": "All/any quantification over arrays of every length.", "anchors": ["geocat/comp/meteorology.py:max_daylight"]}
{"id": "C35", "title": "Saturation vapour pressure is positive, increasing and filled at or below freezing", "statement": "For temperatures above 32 F the result is > 0.6108 kPa and strictly increasing, at or below 32 F it is exactly tfill, and NaN temperature yields tfill; actual_saturation_vapor_pressure returns the same numbers.", "quantifier": "every temperature, every fill value", "why_tests_cant": "Continuum plus the boundary at 32 F.", "anchors": ["geocat/comp/meteorology.py:saturation_vapor_pressure", "geocat/comp/meteorology.py:actual_saturation_vapor_pressure"]}
{"id": "C36", "title": "saturation_vapor_pressure_slope is the derivative of saturation_vapor_pressure", "statement": "Above freezing the slope equals the derivative (per degree C) of the saturation vapour pressure up to the constant factor 4096/(17.27*237.3), i.e. it is within 0.06 percent of the exact derivative; fill rule identical.", "quantifier": "every temperature above 32 F", "why_tests_cant": "A calculus statement.", "anchors": ["geocat/comp/meteorology.py:saturation_vapor_pressure_slope"]}
{"id": "C37", "title": "psychrometric_constant is linear", "statement": "psychrometric_constant scales linearly with pressure for every container kind and keeps shape.", "quantifier": "every pressure array", "why_tests_cant": "Universally quantified law.", "anchors": ["geocat/comp/meteorology.py:psychrometric_constant"]}
{"id": "C38", "title": "zonal_meridional_psi integrates from the top for either level order", "statement": "The stream function at level k and latitude is the scaled sum of v*dp over all levels at or above k (NaN products counted as zero), independent of whether plev is stored ascending or descending. The result carries the documented long_name, units (kg/s) and info attributes.", "quantifier": "every number of levels, every v, dp and orientation", "why_tests_cant": "Orientation independence for all columns.", "anchors": ["geocat/comp/meteorology.py:zonal_meridional_psi", "geocat/comp/meteorology.py:zonal_mpsi"]}
{"id": "C39", "title": "zonal_meridional_psi scales by cos(latitude)", "statement": "The stream function must vanish at the poles and use the cosine of the latitude angle. The code feeds degrees to a radian cosine; the property is violated and the scaling even changes sign.", "quantifier": "exists a latitude with wrong sign; exact factor for every latitude", "why_tests_cant": "A unit error consistent with the test's own expected value cannot be seen by that test.", "anchors": ["geocat/comp/meteorology.py:zonal_meridional_psi"]}
{"id": "C40", "title": "zonal_meridional_psi guards and variable selection", "statement": "The pressure-level path is taken iff the pressure coordinate is a dimension of the wind variable, else hybrid interpolation iff both coefficients are found, else AttributeError; NaN zonal surface pressure or non-positive surface pressure raise ValueError; explicit names override detection.", "quantifier": "every dataset", "why_tests_cant": "Decision table over all datasets.", "anchors": ["geocat/comp/meteorology.py:zonal_meridional_psi", "geocat/comp/gc_util.py:_find_var", "geocat/comp/gc_util.py:_find_optional_var"]}
{"id": "C41", "title": "Variable lookup honours its documented priority", "statement": "_find_var returns a variable of the dataset that matches the standard name (first in dataset order) if any does, else one matching the long name, else one of the possible names in the dataset; KeyError iff nothing matches; _find_optional_var returns None in exactly that case.", "quantifier": "every dataset, every combination of search keys", "why_tests_cant": "All datasets and all attribute contents.", "anchors": ["geocat/comp/gc_util.py:_find_var", "geocat/comp/gc_util.py:_find_optional_var"]}
{"id": "C42", "title": "Variable lookup by possible names is deterministic", "statement": "When several candidate names are present the choice depends on the iteration order of a set, so two conforming interpreters can return different variables.", "quantifier": "every iteration order of the candidate set", "why_tests_cant": "Hash randomisation makes a test pass or fail by chance.", "anchors": ["geocat/comp/gc_util.py:_find_var"]}
{"id": "C43", "title": "Fourier filters keep or remove whole conjugate pairs", "statement": "Whatever flags and non-negative cutoffs are given, each column of a filtered real array has a spectrum that equals the input spectrum on a set of kept bins and is zero elsewhere, and bin k is kept iff bin n-k is kept; so taking the real part of the inverse transform loses nothing. The kept set and the input determine the output values.", "quantifier": "every signal length, sample frequency, cutoffs", "why_tests_cant": "Negative-index slice arithmetic must be right for every n and cutoff, including floor/ceil corner cases.", "anchors": ["geocat/comp/fourier_filters.py:fourier_filter"]}
{"id": "C44", "title": "Fourier filter keeps exactly the advertised frequencies", "statement": "With c the number of cycles of a bin (min(k, n-k)) and w = frequency/len(axis 0) the bin width: low_pass keeps exactly c with (c+1)w <= cutoff, high_pass exactly c with c*w >= cutoff, band_pass exactly c with (c+1)w > low and c*w < high, band_block exactly the others (high cutoff within Nyquist; the exact set is also given beyond it). Several flags keep the intersection. In particular the bin just below a cutoff that is not a whole number of bins is removed by low_pass.", "quantifier": "every signal length and cutoff", "why_tests_cant": "Exact set of retained bins for every n.", "anchors": ["geocat/comp/fourier_filters.py:fourier_filter", "geocat/comp/fourier_filters.py:fourier_low_pass", "geocat/comp/fourier_filters.py:fourier_high_pass", "geocat/comp/fourier_filters.py:fourier_band_pass", "geocat/comp/fourier_filters.py:fourier_band_block"]}
{"id": "C45", "title": "Fourier filters are linear idempotent projections", "statement": "filter(a x + b y) = a filter(x) + b filter(y) and filter(filter(x)) = filter(x) for real signals; a pure sinusoid on a kept bin passes unchanged, one on a removed bin becomes zero.", "quantifier": "every length, signal, filter kind, cutoff pair", "why_tests_cant": "Needs the inversion theorem of the discrete Fourier transform.", "anchors": ["geocat/comp/fourier_filters.py:fourier_filter"]}
{"id": "C46", "title": "Complementary Fourier filters add back to the signal", "statement": "low_pass(x,c) + high_pass(x,c) = x when c is a whole number of frequency bins; for a cutoff strictly between m and m+1 bins exactly the frequency of m cycles is lost from the sum; band_pass + band_block = x when the high cutoff is within the Nyquist range.", "quantifier": "every length, signal, cutoff", "why_tests_cant": "Depends on every alignment of cutoff and bin.", "anchors": ["geocat/comp/fourier_filters.py:fourier_filter"]}
{"id": "C47", "title": "Fourier filter bin width uses the filtered axis", "statement": "The bin width is frequency/len(axis 0) whatever time_axis is: filtering along axis ax equals filtering the array with that axis moved to the front with cutoffs multiplied by len(axis 0)/len(axis ax). So the same samples in another layout are cut at another frequency unless the lengths agree.", "quantifier": "every array shape and axis", "why_tests_cant": "Square or 1-D arrays hide the defect.", "anchors": ["geocat/comp/fourier_filters.py:fourier_filter"]}
{"id": "C48", "title": "gradient is linear, kills constants and is exact in arc length", "statement": "gradient is linear in the data, zero for constant data, and where data is an affine function of the arc-length position along an axis the gradient along that axis is the slope, at interior and edge points alike; no point depends on more than its axis neighbours.", "quantifier": "every grid size >= 2 per axis, every data", "why_tests_cant": "Stencils at edges and interiors for every grid.", "anchors": ["geocat/comp/gradient.py:gradient"]}
{"id": "C49", "title": "gradient's coordinate handling", "statement": "1-D lat/lon are expanded so that point (i,j) uses lat[i], lon[j]; 1-D and equivalent 2-D coordinates give equal results; mixed ranks raise ValueError; the first returned array is the derivative along axis 0 (latitude), the second along axis 1 (longitude). A DataArray gives two DataArrays on dimensions x and y labelled with the longitude and latitude of every point; anything else gives plain arrays.", "quantifier": "every grid", "why_tests_cant": "Index law for all shapes.", "anchors": ["geocat/comp/gradient.py:gradient"]}
{"id": "C50", "title": "WGS84 arc lengths are odd/even and consistent with the radius", "statement": "_arc_lat_wgs84 is odd, _rad_lat_wgs84 even, and the derivative of the meridian arc with respect to latitude in degrees equals the radius times pi/180 to within the truncation of the printed coefficients; _arc_lon_wgs84 is linear in longitude and zero on the Greenwich meridian.", "quantifier": "every latitude in [-90,90]", "why_tests_cant": "A relation between two 25-term series at every latitude.", "anchors": ["geocat/comp/gradient.py:_arc_lat_wgs84", "geocat/comp/gradient.py:_rad_lat_wgs84", "geocat/comp/gradient.py:_arc_lon_wgs84"]}
{"id": "C51", "title": "Spherical harmonic ordering", "statement": "decomposition and recomposition enumerate exactly the pairs (n,m), 0<=m<=n<=max_harm, each once, in the same order, (max_harm+1)(max_harm+2)/2 of them, with entry n(n+1)/2+m describing (n,m).", "quantifier": "every max_harm", "why_tests_cant": "Indexing law for all truncations.", "anchors": ["geocat/comp/spherical.py:decomposition", "geocat/comp/spherical.py:recomposition"]}
{"id": "C52", "title": "decomposition followed by recomposition is the identity on band-limited fields", "statement": "If the quadrature given by scale is exact for products of the harmonics used, recomposition(decomposition(f)) = f for every field f spanned by the harmonics up to max_harm; decomposition is linear and invariant under a common rescaling of scale.", "quantifier": "every grid, truncation and band-limited field", "why_tests_cant": "All fields in a vector space.", "anchors": ["geocat/comp/spherical.py:decomposition", "geocat/comp/spherical.py:recomposition"]}
{"id": "C53", "title": "nmse is a normalised, mask-aware error", "statement": "nmse is >= 0 where defined, zero iff modeled equals observed at every valid positively weighted point, equal to 1 when the model is the weighted mean of the observations, unchanged by a common affine rescaling of both fields, and independent of values at points where either field is NaN.", "quantifier": "every grid, field pair and NaN pattern", "why_tests_cant": "Algebraic laws over all fields and masks.", "anchors": ["geocat/comp/stats.py:nmse"]}
{"id": "C54", "title": "nmse validates its inputs in order", "statement": "TypeError for non-xarray or mixed kinds, KeyError for differing coordinate names, ValueError for undeterminable/multiple lat-lon or uneven spacing.", "quantifier": "every combination", "why_tests_cant": "Decision table.", "anchors": ["geocat/comp/stats.py:nmse"]}
{"id": "C55", "title": "pearson_r dispatch", "statement": "Non-DataArray inputs without axis are flattened (weights too) and correlated as one vector; a ValueError in the kernel is swallowed and None returned; warnings iff both dim and axis are given.", "quantifier": "every input kind and argument combination", "why_tests_cant": "Decision table over all shapes.", "anchors": ["geocat/comp/stats.py:pearson_r"]}
{"id": "C56", "title": "EOF functions see time first", "statement": "For array input with 0 <= time_dim < ndim the data handed to the solver has time first and the remaining axes in order, so entry (t, rest) is the original entry with t inserted at position time_dim; time_dim out of [-ndim, ndim) and non-positive mode counts raise ValueError.", "quantifier": "every rank, shape and time_dim", "why_tests_cant": "Axis permutation law for every rank.", "anchors": ["geocat/comp/stats.py:_generate_eofs_solver", "geocat/comp/stats.py:eofunc_eofs", "geocat/comp/stats.py:eofunc_pcs", "geocat/comp/stats.py:eofunc", "geocat/comp/stats.py:eofunc_ts"]}
{"id": "C57", "title": "Negative time_dim is accepted as documented", "statement": "The documentation allows time_dim=-1 and the bound check admits -ndim <= time_dim < 0, but every negative time_dim raises ValueError in eofunc_eofs and eofunc_pcs.", "quantifier": "every rank and every negative time_dim", "why_tests_cant": "No test uses a negative axis.", "anchors": ["geocat/comp/stats.py:_generate_eofs_solver"]}
{"id": "C58", "title": "calendar_average means cover each period exactly", "statement": "Each output of calendar_average(hour/day/month) is, element by element, the mean of exactly the present samples whose timestamp falls in that calendar period; a sample's period has exactly one output if every element has a value in it and none otherwise; outputs are in chronological order over adjacent periods and labelled with the midpoint of the period. Without any complete period the call raises IndexError; with an incomplete period between complete ones it raises ValueError. Averages never leave the range of the data.", "quantifier": "every calendar, start date, length and sampling", "why_tests_cant": "Calendars, leap years and period boundaries for unbounded histories.", "anchors": ["geocat/comp/climatologies.py:calendar_average", "geocat/comp/climatologies.py:_calculate_center_of_time_bounds", "geocat/comp/climatologies.py:_infer_calendar_name"]}
{"id": "C59", "title": "Season and year averages are day-weighted averages of month means", "statement": "calendar_average(season/year) equals sum(days_in_month * month mean)/sum(days_in_month) over the complete months of the period (NaN for a period between others that has none); weights are positive and sum to 1, so the result lies between the smallest and largest month mean, and a constant series yields that constant.", "quantifier": "every calendar and series", "why_tests_cant": "Weight normalisation for every calendar and partial period.", "anchors": ["geocat/comp/climatologies.py:calendar_average"]}
{"id": "C60", "title": "climatology_average pools all years of a calendar period", "statement": "climatology_average(hour/day/month) returns for each calendar key, in order and labelled in the rounded median year, the mean of all present samples with that key over all years, provided every date exists in that year; it fails with ValueError if a key without samples lies between keys with samples. For season it returns the day-weighted average of all complete months belonging to the season; custom season lists are validated (ValueError) and returned in the order given.", "quantifier": "every calendar, series, season list", "why_tests_cant": "Grouping law for unbounded histories.", "anchors": ["geocat/comp/climatologies.py:climatology_average"]}
{"id": "C61", "title": "climatology_average can label daily data of any year span", "statement": "Daily/hourly climatology labels are generated for the rounded median year. If the data cover that year and contain a date it lacks (29 February) the number of labels differs from the number of groups and the call fails with ValueError, so daily data of e.g. 2020-2022 cannot be averaged.", "quantifier": "every year span with that property", "why_tests_cant": "Depends on which years the user's data span.", "anchors": ["geocat/comp/climatologies.py:climatology_average", "geocat/comp/climatologies.py:_calculate_center_of_time_bounds"]}
{"id": "C62", "title": "climate_anomaly has zero mean in each group", "statement": "For month/day anomalies anomaly + group mean = data, missing values stay missing, and the anomalies of each group with a value average to zero; season anomalies subtract the days-weighted season average and have days-weighted average zero. They exist whenever the climatology does.", "quantifier": "every series and calendar", "why_tests_cant": "Algebraic law over all series.", "anchors": ["geocat/comp/climatologies.py:climate_anomaly"]}
{"id": "C63", "title": "climate_anomaly('year') pairs each sample with its own year", "statement": "The yearly anomaly should subtract the average of the sample's own year. It does for records shorter than a century. The code keys years by their last two digits and adds up averages with equal keys, so in longer records years 100 apart contaminate each other: constant data r get anomaly -r.", "quantifier": "every series spanning a century or more", "why_tests_cant": "No test spans a century.", "anchors": ["geocat/comp/climatologies.py:climate_anomaly"]}
{"id": "C64", "title": "month_to_season returns one centred mean per complete year", "statement": "For monthly data of whole years starting in January, month_to_season returns for each year the plain mean of the months of the season within the data (e.g. January and February only for the first DJF), stamped with the first day of the middle month. For other records the last in-season sample (DJF) or the first one (NDJ) is dropped before averaging, even if its season is complete.", "quantifier": "every season, every number of years, every calendar", "why_tests_cant": "All lengths and all twelve seasons.", "anchors": ["geocat/comp/climatologies.py:month_to_season"]}
{"id": "C65", "title": "month_to_season rejects unknown seasons and ragged years", "statement": "Lengths not divisible by 12 raise ValueError; an unknown season raises KeyError (the ValueError branch is unreachable).", "quantifier": "every season string", "why_tests_cant": "All strings.", "anchors": ["geocat/comp/climatologies.py:month_to_season"]}
{"id": "C66", "title": "Deprecated entry points are inert", "statement": "Each of the nine deprecated functions returns None and emits exactly one warning naming its geocat-f2py replacement, whatever its arguments.", "quantifier": "every argument list", "why_tests_cant": "All argument lists.", "anchors": ["geocat/comp/deprecated.py:*"]}
{"id": "C67", "title": "delta_pressure_hybrid with a labelled level coordinate that is not listed first", "statement": "Users expect the thickness |p(k+1)-p(k)| on nlev-1 levels whatever extra coordinates hya/hyb carry. The code violates this: it drops only the first listed coordinate, so when the labelled level coordinate is listed second the two shifted slices are aligned by label and the result has nlev-2 levels, every entry being |x-x| (zero for finite pressures).", "quantifier": "every surface field, level count, coefficient values and set of distinct level labels", "why_tests_cant": "Only inputs with a particular coordinate order expose it, and then the result is silently wrong for all values.", "anchors": ["geocat/comp/interpolation.py:delta_pressure_hybrid"]}
{"id": "C68", "title": "dewtemp and relhum do not enforce equal shapes", "statement": "dewtemp and relhum document that all inputs must have the same shape and contain a check for it. The check never fires: a column of temperatures combined with a row of humidities of any lengths is accepted and yields the outer table.", "quantifier": "every pair of lengths", "why_tests_cant": "The claim is that no input ever triggers the check.", "anchors": ["geocat/comp/meteorology.py:dewtemp", "geocat/comp/meteorology.py:relhum"]}
{"id": "C69", "title": "relhum_ice and relhum_water label results by position", "statement": "When mixing ratio is stored with its two (equal-sized) dimensions in the other order than temperature, the returned DataArray carries the dimension names of temperature but the layout of mixing ratio, so the cell labelled (i, j) holds the humidity of cell (j, i): the expectation that labels are respected is refuted for every square grid.", "quantifier": "every square grid and all values", "why_tests_cant": "Shapes agree, so no error is raised and values are plausible.", "anchors": ["geocat/comp/meteorology.py:relhum_ice", "geocat/comp/meteorology.py:relhum_water"]}
{"id": "C70", "title": "zonal_meridional_psi accepts a pressure coordinate of any name", "statement": "Passing plev_coordname naming the wind's pressure dimension should work for every name (pressure_lev and pressure_levels are even searched for). The code can only succeed for the name plev: with any other name the call raises, for every dataset.", "quantifier": "every dataset whose pressure dimension is not called plev", "why_tests_cant": "A failure for all datasets of a kind, not one fixture.", "anchors": ["geocat/comp/meteorology.py:zonal_meridional_psi"]}
{"id": "C71", "title": "WGS84 series agree with the documented ellipsoid formulas", "statement": "For every latitude between the poles the radius used by gradient is within 2e-11 m of sqrt(a^2 cos^2(lat) + b^2 sin^2(lat)) with the WGS84 axes; the meridian arc between two latitudes is the integral of that radius to within 4e-13 m per degree; the longitude arc is within 2e-10 m of lon*cos(lat)*radius.", "quantifier": "every latitude in [-90,90], every longitude in [-360,360]", "why_tests_cant": "A uniform error bound over a continuum of latitudes for two 25-term series.", "anchors": ["geocat/comp/gradient.py:_rad_lat_wgs84", "geocat/comp/gradient.py:_arc_lat_wgs84", "geocat/comp/gradient.py:_arc_lon_wgs84"]}
{"id": "C72", "title": "gradient does not support a leading axis", "statement": "Although documented for n-dimensional data, numpy data of shape (time, lat, lon) is differentiated along its first two axes: data depending on latitude only gets a zero first component and its latitude differences divided by longitude distances as second component; a labelled array of rank 3 raises ValueError.", "quantifier": "every (time, lat, lon) array with at least two points per axis and every strictly monotone grid", "why_tests_cant": "Tests only use 2-D data; the failure is silent for every rank-3 array.", "anchors": ["geocat/comp/gradient.py:gradient"]}
{"id": "C73", "title": "Lowest spherical harmonic carries the weighted mean", "statement": "With max_harm=0, recomposition(decomposition(f)) equals sum(scale*f)/sum(scale) at every grid point, for any weights with a non-zero sum.", "quantifier": "every grid, field and weights", "why_tests_cant": "Holds for all fields and weights, not only for the area weights used in tests.", "anchors": ["geocat/comp/spherical.py:decomposition", "geocat/comp/spherical.py:recomposition"]}
{"id": "C74", "title": "Missing values in spherical decomposition", "statement": "One NaN in an ndarray makes every coefficient NaN; in a DataArray NaN cells are treated as zeros although their weight still counts in the normalisation, so the two kinds of input disagree and the labelled result is biased towards zero.", "quantifier": "every grid, field and NaN pattern", "why_tests_cant": "Tests contain no missing values; the statement ranges over every mask.", "anchors": ["geocat/comp/spherical.py:decomposition"]}
{"id": "C75", "title": "recomposition checks the number of coefficients", "statement": "A coefficient vector whose length is not (max_harm+1)(max_harm+2)/2 should be rejected. It is for labelled input and for arrays, except that an array with a single coefficient is silently applied to every harmonic.", "quantifier": "every length and max_harm", "why_tests_cant": "All pairs of lengths and truncations.", "anchors": ["geocat/comp/spherical.py:recomposition"]}
{"id": "C76", "title": "Voronoi weights belong to their grid points", "statement": "scale_voronoi passes the unit-sphere point of every grid point to the tessellation in row-major order and returns an ndarray of the shape of theta whose entry (i,j) is the area of the cell of point (i,j), also for labelled angles.", "quantifier": "every grid and angles", "why_tests_cant": "Pairing law for every shape.", "anchors": ["geocat/comp/spherical.py:scale_voronoi"]}
{"id": "C77", "title": "Fourier filters on labelled arrays", "statement": "Filtering a DataArray gives the values of the plain array with the dimensions, coordinates, attributes and name of the input if the filtered axis is as long as axis 0; otherwise the call raises ValueError.", "quantifier": "every labelled array, axis, filter combination and cutoffs", "why_tests_cant": "The tests use arrays with all axes equally long, for which the swapped container happens to fit.", "anchors": ["geocat/comp/fourier_filters.py:fourier_filter"]}
{"id": "C78", "title": "pearson_r returns the weighted correlation of the columns", "statement": "For arrays of equal shape, pearson_r(axis) returns at every remaining index the weighted Pearson correlation of the two columns (all values in row-major order without axis); it lies in [-1,1], is symmetric, invariant under increasing changes of units and rescaled weights, NaN exactly for a constant column; with skipna incomplete triples count with weight zero, without it a missing value makes the column NaN.", "quantifier": "every shape, axis, data, weights and NaN pattern", "why_tests_cant": "Algebraic law over all real data, weights and missing-value patterns.", "anchors": ["geocat/comp/stats.py:pearson_r"]}
{"id": "C79", "title": "pearson_r accepts a weight vector along the reduced axis", "statement": "The documentation asks for weights matching the reduced dimension. With arrays of rank two or more such a vector makes the call return None, and when the last remaining axis happens to have the same length the vector is applied along the wrong axis and a wrong correlation is returned.", "quantifier": "every shape, axis and weight vector", "why_tests_cant": "Depends on the relation between axis lengths; tests use one shape.", "anchors": ["geocat/comp/stats.py:pearson_r"]}
{"id": "C80", "title": "eofunc_pcs/eofunc_ts with meta=True return labelled components", "statement": "With meta=True and array input the call succeeds only when time is the leftmost axis (times are then numbered from 0); for any other time axis it fails, so eofunc_ts with meta=True and its default time_dim fails for all data of rank two or more.", "quantifier": "every array, rank, time axis, solver result", "why_tests_cant": "Existing tests only use one rank and no metadata; the failure is for every array.", "anchors": ["geocat/comp/stats.py:eofunc_pcs", "geocat/comp/stats.py:eofunc_ts"]}
{"id": "C81", "title": "eofunc_eofs removes the time label", "statement": "The EOF array must not carry a dimension called time. With meta=True and an array whose time axis is k>0 the first remaining axis is named time although it is axis 0 of the input.", "quantifier": "every array, rank and time axis > 0", "why_tests_cant": "Tests check one layout.", "anchors": ["geocat/comp/stats.py:eofunc_eofs"]}
{"id": "C82", "title": "time_dim is ignored for DataArray input", "statement": "Documented to be ignored for a DataArray. In fact a positive time_dim shifts the names of the leading axes and a time_dim outside [0, ndim) makes the call fail.", "quantifier": "every DataArray, rank and time_dim", "why_tests_cant": "All values of a documented-as-ignored argument.", "anchors": ["geocat/comp/stats.py:eofunc_eofs"]}
{"id": "C83", "title": "eofunc_eofs leaves the caller's data unchanged", "statement": "Without meta the attributes of the input DataArray are untouched; with meta=True the four result attributes are written into the input DataArray itself.", "quantifier": "every DataArray and solver result", "why_tests_cant": "Aliasing effect on the caller's object, not visible in the returned value.", "anchors": ["geocat/comp/stats.py:eofunc_eofs"]}
{"id": "C84", "title": "nmse checks the spacing of two-dimensional coordinates only along the first axis", "statement": "With two-dimensional latitude and longitude an uneven spacing along the second axis is never reported: a longitude that is an arbitrary function of the second dimension is accepted.", "quantifier": "every two-dimensional coordinate varying along its second axis only", "why_tests_cant": "A test shows one accepted grid; the claim is that no longitude values at all trigger the check.", "anchors": ["geocat/comp/stats.py:nmse"]}
{"id": "C85", "title": "nmse on Datasets mixes the masks of the variables", "statement": "For Datasets every variable of the result carries an extra dimension over the variables; only the entry at the variable itself is its normalised mean squared error, the other entries use the other variable's missing-value pattern and count the own missing values as zeros.", "quantifier": "every pair of Datasets on a common grid, every missing-value pattern", "why_tests_cant": "Holds for all variables, masks and values.", "anchors": ["geocat/comp/stats.py:nmse"]}
{"id": "C86", "title": "Monthly, daily and hourly climatologies of data from before year 1000", "statement": "If the rounded median year of the dates is below 1000 (e.g. paleoclimate or model years), climatology_average(hour/day/month) fails with ValueError for every input, because the label is written without padding to four digits.", "quantifier": "every calendar, series with valid dates, custom season list", "why_tests_cant": "Tests only use modern years.", "anchors": ["geocat/comp/climatologies.py:climatology_average"]}
{"id": "C87", "title": "Season climatology with a permanently missing element", "statement": "If one element (grid cell) is missing at every date, climatology_average(season) drops every month and returns 0 for every element of every season instead of the averages of the other elements.", "quantifier": "every calendar, series, season list", "why_tests_cant": "Depends on the pattern of missing values in all grid cells.", "anchors": ["geocat/comp/climatologies.py:climatology_average"]}
{"id": "C88", "title": "calendar_average with a permanently missing element", "statement": "If one element (grid cell, e.g. land in an ocean field) is missing at every date, calendar_average drops every period and raises IndexError at every frequency.", "quantifier": "every calendar, series, frequency", "why_tests_cant": "Depends on the pattern of missing values in all grid cells.", "anchors": ["geocat/comp/climatologies.py:calendar_average"]}
{"id": "C89", "title": "Climatology functions reject bad frequencies, axes and spacing", "statement": "Unknown frequency strings raise ValueError; a missing or undetectable time axis raises KeyError and a non-datetime one ValueError; fewer than three dates, or dates without an inferable frequency where some month of the range does not have exactly one date, raise ValueError.", "quantifier": "every frequency string, axis name, list of dates", "why_tests_cant": "All strings and all date lists.", "anchors": ["geocat/comp/climatologies.py:_get_time_coordinate_info", "geocat/comp/climatologies.py:calendar_average", "geocat/comp/climatologies.py:climatology_average", "geocat/comp/climatologies.py:climate_anomaly", "geocat/comp/climatologies.py:month_to_season"]}
{"id": "C90", "title": "interp_multidim with method nearest returns the value of the nearest grid point", "statement": "With method=\"nearest\", every output value is, untouched, the data value at the grid point whose latitude and longitude are each nearest to the target (the lower coordinate on a tie), whatever the order of the coordinates; missing cells are never spread to other targets and no new values appear. With cyclic=True nearness in longitude is measured around the globe. A target outside the grid gets the fill value.", "quantifier": "every grid shape, order of coordinates, field including NaN cells, list of targets, missing value and fill value", "why_tests_cant": "Ties, unsorted coordinates and the seam are measure-zero situations a sampled test does not hit; the claim is for all targets.", "anchors": ["geocat/comp/interpolation.py:interp_multidim", "geocat/comp/interpolation.py:_pre_interp_multidim"]}
{"id": "C91", "title": "interp_sigma_to_hybrid: surface pressure must cover every column", "statement": "Every column of the result of interp_sigma_to_hybrid is interpolated with that column's surface pressure. The code does not check the number of columns: with a surface pressure that covers fewer columns than the data the call succeeds, the covered columns are right, and every other column holds the uninterpolated sigma-level data under the label hlev (refuted).", "quantifier": "every two-dimensional data, every surface pressure with fewer entries, every method and coefficients", "why_tests_cant": "Silent wrong output on malformed input: only a statement over all sizes shows which columns are affected.", "anchors": ["geocat/comp/interpolation.py:interp_sigma_to_hybrid"]}
{"id": "C92", "title": "keep_attrs of the climatology functions", "statement": "calendar_average, climatology_average, climate_anomaly and month_to_season return the attributes of their input when keep_attrs is True, None or left at its default, and none when it is False; this does not depend on what xarray does with attributes in arithmetic (for seasons and years: the input's attributes are all there, and are the only ones where arithmetic drops attributes).", "quantifier": "every attribute dictionary, every keep_attrs value, every frequency, every xarray default and option", "why_tests_cant": "Tests fix one xarray version and one attribute dictionary; the claim is over all dictionaries and defaults.", "anchors": ["geocat/comp/climatologies.py:calendar_average", "geocat/comp/climatologies.py:climatology_average", "geocat/comp/climatologies.py:climate_anomaly", "geocat/comp/climatologies.py:month_to_season"]}
{"id": "C93", "title": "keep_attrs and the variables of a Dataset", "statement": "keep_attrs=True keeps the attributes of the variables of a Dataset. Refuted: climate_anomaly always drops them, and so do season and year averages and seasonal climatologies where xarray arithmetic drops attributes; hour, day and month averages keep them. Where arithmetic and sums keep attributes and nothing is switched off globally, season and year averages and seasonal climatologies keep them too.", "quantifier": "every Dataset, every keep_attrs value", "why_tests_cant": "The tests only look at the attributes of the object itself.", "anchors": ["geocat/comp/climatologies.py:climate_anomaly", "geocat/comp/climatologies.py:calendar_average", "geocat/comp/climatologies.py:climatology_average"]}
{"id": "C94", "title": "With meta=True the EOFs of labelled data carry its coordinates and attributes, and an auxiliary time coordinate makes the call fail", "statement": "eofunc_eofs with meta=True, given a DataArray whose first dimension is time (time_dim=0), returns the EOFs with the dimensions of the data after time preceded by eof, with exactly the coordinates of the data other than that of the time dimension, and with the attributes of the data. This needs every other coordinate to live on the other dimensions: if any coordinate besides the time coordinate itself lives on the time dimension (a month or day-of-year coordinate), the call raises ValueError for every solver.", "quantifier": "every labelled array of any rank, any coordinates and attributes, any solver, any number of modes and any other argument", "why_tests_cant": "The tests use arrays with a handful of coordinates; which coordinate sets are accepted has to be stated for all of them.", "anchors": ["geocat/comp/stats.py: eofunc_eofs, _generate_eofs_solver"]}
{"id": "C95", "title": "delta_pressure in double precision: which layers exist, their sign and their accuracy", "statement": "With float64 levels, surface pressure and top pressure (levels strictly increasing or strictly decreasing, between 2^-900 and 2^900, at least two of them, top between zero and the smallest level or defaulted, every surface pressure above the rounded midpoint of the first two levels), delta_pressure returns a layer for a level exactly when the float64 midpoint above it is below the surface pressure, and NaN otherwise. Existing layers are finite, positive (the first one at least zero), each within 3 * 2^-53 times the surface pressure of the exact layer thickness, and the exact sum of the stored layers is within 4 * 2^-53 times the surface pressure of surface minus top, however many levels there are.", "quantifier": "all float64 level vectors of any length in either order, surface fields of any shape, and any C math library", "why_tests_cant": "Tests compare a few columns with a tolerance; that rounding never makes a layer negative, never drops or adds one and that errors do not accumulate with the number of levels must hold for every double.", "anchors": ["geocat/comp/meteorology.py: delta_pressure, _delta_pressure1D"]}
{"id": "C96", "title": "Hybrid pressures and layer thicknesses in double precision", "statement": "For float64 coefficients, reference pressure and surface pressure with terms below 2^900: pressure_at_hybrid_levels returns a finite number within 3 * 2^-53 (|a p0| + |b ps|) plus 3 * 2^-1075 of a p0 + b ps; it is exactly the surface pressure where a = 0 and b = 1, does not depend on the surface pressure where b = 0, and never decreases when the surface pressure increases and b >= 0. delta_pressure_hybrid returns non-negative thicknesses, zero exactly when the two rounded interface pressures (the ones pressure_at_hybrid_levels returns) are equal, each within a relative 2^-53 of their distance; in a column with monotone interfaces the thicknesses add up to the distance of the outermost interfaces within a relative 2^-53.", "quantifier": "all float64 inputs in the range, numpy arrays of rank at most two and labelled surface pressure of any rank, any number of levels", "why_tests_cant": "Tests compare a few columns with a tolerance; exactness at the surface, monotonicity and non-negativity under rounding are statements about every double.", "anchors": ["geocat/comp/interpolation.py: pressure_at_hybrid_levels, delta_pressure_hybrid"]}
{"id": "C97", "title": "Interpolation to pressure levels in double precision", "statement": "For float64 inputs, interp_hybrid_to_pressure (linear or log, no extrapolation) returns, at a requested level whose coordinate (pressure, or computed logarithm) lies outside the range of the computed coordinates of the column, NaN; inside, for data below 2^900, a finite number r obtained from two neighbouring model levels with values a (lower coordinate) and b: within 10 * 2^-53 (|a| + |b|) + 2^-1075 of exact interpolation between them; between a and a number within 3 * 2^-53 (|a| + |b|) of b, exactly between a and b when they have one sign and differ by at most a factor of two; equal to a at the lowest level; values between the same two levels keep the order of the requested levels. Exact reproduction of the data at a model level (C12) fails in double precision: with 3 and 0.1 at neighbouring levels the value at the second level is not 0.1.", "quantifier": "all float64 data, surface pressure, coefficients and requested levels in one direction with finite distinct level coordinates, any rank, any chunking, any log function", "why_tests_cant": "A tolerance in a test hides overshoot of the last bits; that a rounded interpolant never leaves the interval, or by how much, concerns every pair of doubles.", "anchors": ["geocat/comp/interpolation.py: interp_hybrid_to_pressure, _func_interpolate, _vertical_remap"]}
{"id": "C98", "title": "Relative humidity from the table in double precision", "statement": "For float64 arrays relhum never fails when no temperature is NaN (infinities included), and fails with IndexError when one is. Where mixing ratio and pressure are below 2^500 in magnitude every result is a finite number not below the double 0.0001; where the mixing ratio is not negative and the pressure is at least the saturation vapour pressure, it is within a factor 1 +- 2^-41 of the humidity computed exactly from the table. At the same temperature a moister or higher-pressure point never gets a smaller number, to the last bit. The order in temperature (C31) fails in the last bits: 255.15999999999997 K gives a smaller humidity than the warmer 255.16 K.", "quantifier": "all float64 temperatures other than NaN, mixing ratios and pressures, as arrays of any shape or DataArrays with equal labels", "why_tests_cant": "Whether the truncated index stays inside the table at the rounded ends, and how far rounding of the two weights moves the interpolated entry, concerns every double in the range; the one place where the order breaks is a pair of neighbouring doubles.", "anchors": ["geocat/comp/meteorology.py: relhum"]}
{"id": "C99", "title": "relhum accepts any mixture of argument kinds and labels the result accordingly", "statement": "For any mixture of DataArrays on one grid, arrays or lists of the grid's shape and single numbers, relhum with finite temperatures never fails; the result has the grid's shape, holds the documented formula at every cell, is a DataArray exactly when at least one argument is, has the dimensions of every DataArray among the arguments, agrees with their labels, and carries exactly the attributes long_name, units and info. One NaN among the temperatures makes the whole call fail, whatever the kinds.", "quantifier": "every grid shape, every assignment of kinds to the three arguments, all finite temperatures, all mixing ratios and pressures", "why_tests_cant": "There are unboundedly many shapes, label sets and combinations of kinds; the tests exercise arguments of the same kind on fixed data only.", "anchors": ["geocat/comp/meteorology.py:relhum"]}
{"id": "C100", "title": "interp_sigma_to_hybrid does not depend on the storage type of the data", "statement": "Intended: whole numbers stored as integers and stored as floating point numbers give the same interpolated values. The interpolated numbers are assigned into a copy of the data, so with integer data every result is cut off towards zero, losing up to one unit; with floating point data nothing is lost. The intended statement is refuted by a two level column (10.5 against 10).", "quantifier": "every data array of any rank with the level on any axis, every surface pressure and hybrid coefficients, both interpolation methods, every cell", "why_tests_cant": "The tests use floating point data only; that every cell of every call loses exactly its fractional part is a statement about all inputs.", "anchors": ["geocat/comp/interpolation.py:interp_sigma_to_hybrid"]}
{"id": "C101", "title": "interp_sigma_to_hybrid labels its result", "statement": "Attributes and name are the data's; every coordinate of the data other than the level's keeps its value at every cell; dimension coordinates are unchanged; coordinates along the level are cut and renamed with it; other auxiliary coordinates become spread over all dimensions but the level; unlabelled dimensions get 0, 1, 2, ...; the level coordinate is replaced by hlev holding the sigma of the hybrid levels at the first column; there are no other coordinates. Data with both a level coordinate and a coordinate called hlev is rejected.", "quantifier": "every data array, every set of coordinates along any of its dimensions, every storage type, every number type", "why_tests_cant": "Coordinates can be attached to any subset of any number of dimensions; the tests look at the values of one fixed data set.", "anchors": ["geocat/comp/interpolation.py:interp_sigma_to_hybrid"]}
{"id": "C102", "title": "gradient accepts a Dataset", "statement": "Intended: gradient works on an xarray.Dataset, which its error message lists as supported. Refuted: on a Dataset it never returns a result, and whenever the same call works on one of the Dataset's variables it raises TypeError on the Dataset.", "quantifier": "every Dataset, every coordinates, every number type", "why_tests_cant": "That no Dataset whatsoever is accepted cannot be shown by examples.", "anchors": ["geocat/comp/gradient.py:gradient"]}
{"id": "C103", "title": "max_daylight labels its result with the caller's days and latitudes", "statement": "Intended: with DataArrays the result carries the given days as 'doy' and the given latitudes as 'lat'. What holds: the labels are the given numbers rounded to single precision (latitudes passed as an ndarray are not rounded). Refuted: a label equals the caller's value exactly when that value is a single precision number, so a result for latitude 40.1 is labelled with another number and no longer aligns with the caller's coordinates.", "quantifier": "every one-dimensional argument of every kind with finite values up to 2^127, any elementary functions", "why_tests_cant": "Tests compare with small tolerances on a few values; which values survive the conversion is a statement about all floating point numbers.", "anchors": ["geocat/comp/meteorology.py:max_daylight"]}
{"id": "C104", "title": "max_daylight gives the same answer for arrays, lists, scalars and DataArrays", "statement": "Intended: the container does not matter. What holds: lists, scalars and DataArrays that agree after rounding to single precision give identical results and warnings, and the warnings are about the rounded latitudes (about the latitudes themselves for ndarrays). Refuted: latitude 66.000001 draws the 'not possible' warning as an array and the 'limited validity' warning as a list, whatever the days.", "quantifier": "every pair of arguments of every kind, any elementary functions", "why_tests_cant": "Each test uses a few latitudes; the threshold behaviour concerns every latitude near it and every container.", "anchors": ["geocat/comp/meteorology.py:max_daylight"]}
{"id": "C105", "title": "interp_multidim carries the other coordinates, the attributes and the name along", "statement": "interp_multidim returns the target latitudes and longitudes as coordinates. Every other coordinate keeps its name and dimensions: it is unchanged if it lies along neither interpolated dimension, otherwise it is interpolated the same way as data (without missing_val). Attributes and name are kept exactly when missing_val is not given. With cyclic=True all other coordinates, the attributes and the name are dropped. A dimension without coordinate counts as 0, 1, ....", "quantifier": "every DataArray with the two dimensions last, any number of other coordinates of any rank, both methods, any targets, missing_val and fill_value", "why_tests_cant": "The tests compare values of one bare field; they never carry other coordinates, and which of them survive depends on every combination of options.", "anchors": ["geocat/comp/interpolation.py:interp_multidim", "geocat/comp/interpolation.py:_pre_interp_multidim", "geocat/comp/interpolation.py:_post_interp_multidim"]}
{"id": "C106", "title": "The spherical functions reject arrays that do not cover the grid", "statement": "Intended: weights, data or angles that are not full two-dimensional grids are rejected. What holds: weights with fewer than two axes raise ValueError, plain weights that would enlarge labelled data raise ValueError, labelled one-dimensional data or angles never give a result, scale_voronoi raises IndexError for angles with fewer than two axes. Plain coefficients evaluated at a list of n points give the expansion at each point in an array of shape (1, n). Refuted: plain two-dimensional weights with one entry per row, per column or in total are accepted and every coefficient is too large by the number of grid points each entry stands for.", "quantifier": "every grid size, max_harm, data, weights and angles, both scipy versions", "why_tests_cant": "The tests use one grid with full weights; the factor depends on every grid shape.", "anchors": ["geocat/comp/spherical.py:decomposition", "geocat/comp/spherical.py:recomposition", "geocat/comp/spherical.py:scale_voronoi"]}
{"id": "C107", "title": "Warmer or moister air never has a lower heat index, except at 40 F and at the regression threshold", "statement": "From 81.2 F (80 F with alternate_coeffs) to 140 F and for every humidity in 0..100 percent, heat_index is strictly larger for a cell that is at least as warm and at least as moist as another and differs from it, adjustments included and in whichever calls the two cells lie. Below 40 F it is strictly increasing in temperature, and from 40 F to 80 F strictly increasing in both while the average of the simple formula and the temperature stays below the threshold (79, or 70). The unrestricted claim is false: crossing 40 F lowers the index at every humidity, and crossing the threshold in moist air lowers it by more than 1.3 F (4.9 F with the alternate coefficients).", "quantifier": "all pairs of input containers of one kind and compatible shapes, all pairs of cells, all finite temperatures and humidities in the stated ranges, both coefficient sets", "why_tests_cant": "monotonicity of a piecewise polynomial of degree four in two variables with two adjustments ranges over all pairs of reals; sample points cannot exclude a dip between them", "anchors": ["geocat/comp/meteorology.py:heat_index", "geocat/comp/meteorology.py:_heat_index", "geocat/comp/meteorology.py:_nws_eqn"]}
{"id": "C108", "title": "The dew point rises with temperature and with humidity", "statement": "dewtemp of a cell at least as warm and at least as moist as another, and different from it, is strictly larger, for temperatures above 0 K and up to 400 K and humidities from 1e-6 to 100 percent, in whichever calls the two cells lie.", "quantifier": "all pairs of compatible inputs, all pairs of cells, all real temperatures and humidities in the stated ranges", "why_tests_cant": "a strict ordering over all pairs of reals through a logarithm and a quotient whose denominator could vanish", "anchors": ["geocat/comp/meteorology.py:dewtemp", "geocat/comp/meteorology.py:_dewtemp"]}
{"id": "C109", "title": "interp_hybrid_to_pressure does not depend on the order of the model levels", "statement": "Listing the levels of the data and of the hybrid coefficients in another order, the same for both, gives the same result: dimensions, shape, coordinates, attributes, name and every value. With extrapolate=True this needs level labels on the coefficients: without them the level listed last counts as the lowest, so a column listed from the bottom up is filled with the value at the model top from the top's pressure on.", "quantifier": "all data, coefficients, surface pressures, requested levels and permutations of the levels, linear and log interpolation, every column whose level pressures are distinct", "why_tests_cant": "a relation between two calls over all permutations of any number of levels", "anchors": ["geocat/comp/interpolation.py:interp_hybrid_to_pressure", "geocat/comp/interpolation.py:_vertical_remap", "geocat/comp/interpolation.py:_vertical_remap_extrap"]}
{"id": "C110", "title": "The level labels of the data have no influence on interp_hybrid_to_pressure", "statement": "Changing the labels of the data's level dimension changes nothing in the result or the error raised: hybrid coefficients are matched to the data by position, never by label. Data and coefficients that carry the same labels in different orders are therefore combined wrongly and silently.", "quantifier": "all calls, successful or failing, in any number format, all relabellings of the level dimension", "why_tests_cant": "independence of an input that ranges over all label arrays", "anchors": ["geocat/comp/interpolation.py:interp_hybrid_to_pressure", "geocat/comp/interpolation.py:pressure_at_hybrid_levels"]}
{"id": "C111", "title": "gradient does not depend on how the grid is listed", "statement": "Rows or columns listed in the opposite order give both components in the opposite order; longitudes counted from another meridian give the same components on rows of constant latitude; the field mirrored at the equator has the opposite northward and the same eastward component. Across a jump of 360 degrees in the longitudes the eastward component has the wrong sign and is too small by the factor w / (360 - w), w the longitude width of the stencil.", "quantifier": "all grid sizes, all finite longitudes and latitudes, all data including missing values", "why_tests_cant": "a relation between two calls over all fields and grids", "anchors": ["geocat/comp/gradient.py:gradient", "geocat/comp/gradient.py:_arc_lon_wgs84", "geocat/comp/gradient.py:_arc_lat_wgs84"]}
{"id": "C112", "title": "interp_multidim does not depend on the order of rows and columns", "statement": "With cyclic=False, listing the rows and the columns of the input in another order, with their coordinates, gives the same result. With cyclic=True it does not: with longitudes listed from east to west, every target from the easternmost longitude e to e + 360 gets the easternmost column's value instead of a value interpolated across the seam.", "quantifier": "all fields, leading dimensions, distinct coordinates, permutations of rows and columns, targets, missing and fill values, both methods; for the cyclic part all strictly decreasing longitudes", "why_tests_cant": "a relation between two calls over all permutations and fields", "anchors": ["geocat/comp/interpolation.py:interp_multidim", "geocat/comp/interpolation.py:_pre_interp_multidim"]}
{"id": "C113", "title": "Relative humidity over ice and over water: which is larger, which way temperature acts, and which sign it has", "statement": "For the same moist air relhum_ice gives a larger value than relhum_water between 154.49 K and the freezing point and a smaller one above it; below 154.48 K the order of the two is reversed again. At a fixed mixing ratio and pressure both fall strictly as the temperature rises. Where 0.378 times the saturation vapour pressure exceeds the pressure (270 K at 1 hPa, for instance) both return a negative humidity for a positive mixing ratio instead of an error or a missing value.", "quantifier": "every accepted combination of argument types, every shape, every cell, every real temperature above the pole of the formula, every positive mixing ratio, every pressure", "why_tests_cant": "a test compares a few values with a reference; the order, the monotonicity and the sign are statements about all temperatures and pressures, and the reversal happens far from the tested range", "anchors": ["geocat/comp/meteorology.py:relhum_ice", "geocat/comp/meteorology.py:relhum_water", "geocat/comp/meteorology.py:_relhum_ice", "geocat/comp/meteorology.py:_relhum_water"]}
{"id": "C114", "title": "Vertical interpolation treats every column by itself", "statement": "Every value returned by interp_hybrid_to_pressure and interp_sigma_to_hybrid is determined by its own column: its data values at all levels, its surface pressure, the hybrid coefficients (and, when extrapolating, the surface temperature and geopotential at that point) and the requested levels. Interpolating a selection of columns or time steps, a transposed array or a differently chunked array returns the same values at the corresponding positions, also where values are missing.", "quantifier": "every pair of accepted calls on datasets of any shapes and dimension orders that share a column, every number type including double precision, with and without extrapolation", "why_tests_cant": "a test interpolates one array; that no value depends on another column, on the array's shape or on its layout is a statement about every pair of arrays", "anchors": ["geocat/comp/interpolation.py:interp_hybrid_to_pressure", "geocat/comp/interpolation.py:interp_sigma_to_hybrid", "geocat/comp/interpolation.py:_vertical_remap", "geocat/comp/interpolation.py:_vertical_remap_extrap"]}
{"id": "C115", "title": "interp_multidim treats every target point and every horizontal slice by itself", "statement": "Every value returned by interp_multidim is determined by the horizontal slice it lies in, the grid's coordinates and its own target latitude and longitude. Asking for fewer targets, for the targets in another order, or for one time step alone returns the same values, for both methods, with or without cyclic, missing_val and fill_value, also where values are missing.", "quantifier": "every pair of accepted calls on DataArrays of any leading dimensions with the same horizontal grid, every pair of target lists, every number type including double precision", "why_tests_cant": "a test evaluates one list of targets; independence from the other targets and slices is a statement about every pair of calls", "anchors": ["geocat/comp/interpolation.py:interp_multidim", "geocat/comp/interpolation.py:_pre_interp_multidim", "geocat/comp/interpolation.py:_post_interp_multidim"]}
{"id": "C116", "title": "nmse in double precision: never negative, exactly zero for identical fields", "statement": "In IEEE double precision, for DataArrays and Datasets of any shape and any values (NaN and infinities included): with latitudes between the poles and a correctly rounded cosine, no value nmse returns is negative; and nmse of an object with itself is exactly zero, or NaN where undefined, whatever the rounding errors. Refuted: a constant observed field gives infinity for a different model - in double precision the rounded mean differs from the constant and the score is a huge finite number (above 1e30 for observations 0.1 and model 0.2 on six points).", "quantifier": "all arguments (DataArray or Dataset), all latitude/longitude recognitions, all double precision values, all mathematical libraries (correctly rounded cosine for the sign)", "why_tests_cant": "Rounding can turn a zero into a small number of either sign for some inputs only; tests use tolerances and a few grids.", "anchors": ["geocat/comp/stats.py: nmse"]}
{"id": "C117", "title": "Descriptions and grid of DataArray results of the meteorology functions", "statement": "Whatever the arguments, a DataArray returned by dewtemp, heat_index, max_daylight, psychrometric_constant, saturation_vapor_pressure, actual_saturation_vapor_pressure or saturation_vapor_pressure_slope carries exactly the documented attributes (long_name, units, url, info, ...) and none of the argument's; the functions of one DataArray keep its dimensions, coordinates and shape, and dewtemp and heat_index of fields on one grid are on that grid. Refuted for relhum_ice and relhum_water: their results carry the temperature's attributes, units included.", "quantifier": "all arguments of any kind, shape, labels and attributes, any number type", "why_tests_cant": "Tests compare values; a wrong unit string or a dropped coordinate shows only on labelled inputs that are not in the test data.", "anchors": ["geocat/comp/meteorology.py: dewtemp, heat_index, max_daylight, psychrometric_constant, saturation_vapor_pressure, actual_saturation_vapor_pressure, saturation_vapor_pressure_slope, relhum_ice, relhum_water"]}
{"id": "C118", "title": "29 February in climatologies labelled with a year that lacks it", "statement": "Hourly and daily climatologies are labelled with the median year. If the first or last date present in calendar order does not exist in that year, climatology_average raises ValueError. Refuted: otherwise every average is labelled with its own date - for daily data from 2 March 2019 to 29 February 2020, whatever the values, the call succeeds and labels the value of 29 February as 1 March 2019, a date the data do not contain.", "quantifier": "all calendars, records, values, frequencies hour and day; all values of the record of the refutation", "why_tests_cant": "It depends on which dates happen to be present and on the median year; tests use whole years.", "anchors": ["geocat/comp/climatologies.py: climatology_average, _calculate_center_of_time_bounds"]}
{"id": "C119", "title": "Which calls of interp_multidim fail, and how", "statement": "For every input, targets, method, missing_val and fill_value, interp_multidim either succeeds or raises a fixed exception. A DataArray with fewer than two dimensions raises IndexError; one whose last two dimensions have no row or no column raises ValueError; one with more than two dimensions raises ValueError with cyclic=True; every other DataArray is interpolated, keeps its dimension names and gets the target sizes on its last two dimensions. A numpy array raises ValueError unless lat_in and lon_in are both given, not empty and as long as its two axes; otherwise the result has dimensions lat, lon and the target sizes.", "quantifier": "all DataArrays and numpy arrays of any rank and shape, all targets, coordinate lists, flags, fill values and methods", "why_tests_cant": "Tests try a few shapes; the claim partitions all shapes and argument combinations and excludes any other outcome.", "anchors": ["geocat/comp/interpolation.py:interp_multidim", "geocat/comp/interpolation.py:_pre_interp_multidim"]}
{"id": "C120", "title": "The pressure functions do not depend on the unit of pressure", "statement": "Giving all pressures in another unit (every pressure times c > 0) gives the same physical result. delta_pressure, pressure_at_hybrid_levels and delta_pressure_hybrid return the same result in the new unit (and fail for the same inputs with the same exception); interp_sigma_to_hybrid returns the identical result; interp_hybrid_to_pressure returns the identical values, whether linear or logarithmic, chunked or not, with or without temperature, height or other extrapolation, only its plev coordinate being in the new unit.", "quantifier": "all c > 0, all inputs of any shape and container, missing and infinite values included, all options", "why_tests_cant": "Tests run one unit; the claim relates every call to the same call in every other unit, and includes the inputs that are rejected.", "anchors": ["geocat/comp/meteorology.py:delta_pressure", "geocat/comp/interpolation.py:pressure_at_hybrid_levels", "geocat/comp/interpolation.py:delta_pressure_hybrid", "geocat/comp/interpolation.py:interp_hybrid_to_pressure", "geocat/comp/interpolation.py:interp_sigma_to_hybrid"]}
{"id": "C121", "title": "Interpolating and changing the unit of the field commute", "statement": "Converting a field to another unit (x becomes a*x+b, a not 0: Celsius to Fahrenheit, Celsius to kelvin, metres to feet, a change of sign) and then interpolating it gives the same outcome as interpolating it and then converting the result: interp_hybrid_to_pressure (without extrapolation, or with extrapolation for a variable other than temperature and geopotential), interp_sigma_to_hybrid (data stored as floating point numbers) and interp_multidim (with the missing value and fill value converted as well) return the same error, or results with the same dimensions, attributes and names whose values are the converted ones, NaN and infinities included. For interp_sigma_to_hybrid and data stored as integers this is false: the result is cut to whole numbers of whichever unit the data are in.", "quantifier": "all a other than 0 and all b, all fields of any rank and shape with any values including NaN and infinities, all pressures, coefficients, levels, target coordinates, methods and options", "why_tests_cant": "A test converts one field by one formula; the claim is about every conversion and every field, including missing and infinite entries, negative factors, masked values equal to the missing value, and failing calls.", "anchors": ["/repo/geocat/comp/interpolation.py: interp_hybrid_to_pressure", "/repo/geocat/comp/interpolation.py: interp_sigma_to_hybrid", "/repo/geocat/comp/interpolation.py: interp_multidim", "/repo/geocat/comp/interpolation.py: _vertical_remap"]}
{"id": "C122", "title": "Climatologies and anomalies follow the unit of the data", "statement": "Converting the data with x -> a*x + b (a <> 0; kelvin to Celsius, metres to feet, Celsius to Fahrenheit) before calling calendar_average, climatology_average or month_to_season gives the same outcome (the same exception, or the same dates or season labels) and exactly the converted averages. For calendar_average, month_to_season and hour, day and month climatologies this needs no condition, missing values included. For season climatologies with an offset it needs a complete month in every season asked for; without an offset no condition. climate_anomaly: multiplied data give anomalies multiplied by the same factor, on any data and for every frequency; an added offset drops out of day and month anomalies where climate_anomaly succeeds, of season anomalies if every season has a complete month, and of year anomalies on records shorter than a century with a complete month in every year. The two conditions cannot be dropped: with an element missing everywhere the season climatology is 0 in either unit, and over a century the year anomalies of constant data depend on the zero of the unit (C63).", "quantifier": "all calendars, inputs, frequencies, season lists, factors and offsets", "why_tests_cant": "A statement about pairs of calls for all data and all conversions; tests compare one call with one stored result.", "anchors": ["geocat/comp/climatologies.py: calendar_average, climatology_average, month_to_season, climate_anomaly"]}
{"id": "C123", "title": "Calendar averages of a record processed in pieces", "statement": "Cut a record in two between two calendar periods of the chosen frequency (for instance one file per year, averages by year). If both pieces and the whole pass the checks of calendar_average, the average of the whole is determined by the averages of the pieces, exactly (bit for bit in floating point): for hours, days and months it is the two results one after the other when these are adjacent and ValueError when a period between them has no complete data; a piece that has no complete period (IndexError) adds nothing; a gap inside a piece (ValueError) is a ValueError of the whole. For seasons and years it is the first result, NaN for every period between the pieces, then the second result; a piece without a complete month adds nothing.", "quantifier": "all number formats, calendars, records, cuts at a period boundary, frequencies", "why_tests_cant": "A statement relating three calls for every way of cutting every record.", "anchors": ["geocat/comp/climatologies.py: calendar_average, _calculate_center_of_time_bounds"]}
{"id": "C124", "title": "Length of day by season and hemisphere, and beyond the polar circles", "statement": "max_daylight for latitudes up to 66 degrees: a day is longer than 12 hours exactly where latitude and solar declination have the same sign and shorter exactly where they differ; on a given day it grows with latitude exactly while the declination is positive and falls exactly while it is negative; at a northern latitude of two days the one with the larger declination is longer (the smaller at a southern one); day n + 365 equals day n and day n + 182.5 has the length of the night of day n. At any latitude short of the poles an entry is NaN exactly when the sun does not rise or does not set (|tan(lat) tan(declination)| > 1) and otherwise between 0 and 24. Refuted: in the polar day the result is neither 24 nor accompanied by a warning when another latitude of the array is moderate (latitudes 0 and 84 on day 172: NaN, no warning).", "quantifier": "all arrays of days and latitudes accepted by max_daylight", "why_tests_cant": "Orderings and equivalences between entries for all real days and latitudes; tests compare a handful of values.", "anchors": ["geocat/comp/meteorology.py: max_daylight"]}
{"id": "C125", "title": "A Fourier filter is a zero-phase orthogonal projection", "statement": "Along the filtered axis, the sum of squares of the data equals the sum of squares of what fourier_filter returns plus the sum of squares of what it removed, so a filter never adds energy; the result is at least as close to the data (least squares) as any array the same filter leaves unchanged; a low pass keeps the mean exactly when its cutoff reaches one bin and a high pass with a positive cutoff returns mean zero; filtering data rolled by d samples gives the rolled result, and filtering data read backwards gives the result read backwards.", "quantifier": "All finite arrays of any shape with non-empty axis 0 and filtered axis, all time axes, all positive sampling rates, all non-negative cutoffs, all combinations of the four filters, all roll distances.", "why_tests_cant": "The identities must hold for every signal, length, axis and cutoff; a test checks chosen signals only.", "anchors": ["geocat/comp/fourier_filters.py:fourier_filter", "geocat/comp/fourier_filters.py:fourier_low_pass", "geocat/comp/fourier_filters.py:fourier_high_pass"]}
{"id": "C126", "title": "gradient in double precision: flat fields and sign changes", "statement": "In binary64 arithmetic, whatever the library's cosine and however the arc lengths are rounded: the gradient of a field that has the same value everywhere is exactly zero (or NaN) in every component and cell, never a small nonzero number; and changing the sign of the data changes the sign of every component exactly, labels and failures staying the same.", "quantifier": "All arrays and DataArrays of any rank and shape, all double values including infinities and NaN, all coordinate arrays, all library cosines.", "why_tests_cant": "Rounding behaves differently for every value and grid; a test samples a few.", "anchors": ["geocat/comp/gradient.py:gradient"]}
{"id": "C127", "title": "nmse and pearson_r agree: error = phase + amplitude + bias", "statement": "For two gridded fields, the value nmse returns equals (1 - r^2) + (s - r)^2 + b^2 / var(obs), where r is what pearson_r returns for the same values flattened, with the cosine of latitude as weights and skipna=True, s is the ratio of the weighted standard deviations and b the weighted mean difference. Hence nmse is never below 1 - r^2.", "quantifier": "All pairs of DataArrays on [..., lat, lon] with evenly spaced coordinates, any missing points, every remaining index, provided both fields vary on the common points.", "why_tests_cant": "It relates two functions on every pair of fields; tests compare chosen fields with stored numbers.", "anchors": ["geocat/comp/stats.py:nmse", "geocat/comp/stats.py:pearson_r"]}
{"id": "C128", "title": "Interpolation superposes, keeps order and does not amplify differences", "statement": "Interpolate three fields A, B and C given on the same grid, to the same targets, with interp_hybrid_to_pressure (linear or log, no extrapolation), interp_sigma_to_hybrid (linear or log) or interp_multidim (linear, target inside the grid). In every target cell whose column (or slice) holds finite values: if C = c1*A + c2*B at the grid points then the result for C is c1 times that for A plus c2 times that for B, or all three are missing; if A <= B at the grid points then the result for A is at most that for B, or both are missing; if A and B differ by at most e at the grid points then so do the results. In particular the set of missing targets does not depend on the (finite) values of the field.", "quantifier": "all triples of fields with finite values, all coefficients c1, c2 and bounds e, all grids, surface pressures, coefficients, level lists, methods, ranks and chunkings", "why_tests_cant": "A test interpolates a few fields; that the operation is linear, monotone and non-expansive is a relation between the results of all fields, for every grid and target.", "anchors": ["geocat/comp/interpolation.py:interp_hybrid_to_pressure", "geocat/comp/interpolation.py:interp_sigma_to_hybrid", "geocat/comp/interpolation.py:interp_multidim", "geocat/comp/interpolation.py:_vertical_remap"]}
{"id": "C129", "title": "delta_pressure returns thicknesses for one-dimensional level arrays only", "statement": "delta_pressure (and dpres_plev) never returns a thickness for levels that are a single number or a table: whatever the level values, the surface pressure and the top, a call with at least one surface cell raises - ValueError for a table with two or more rows, TypeError only for a single level with an array of surface pressures, otherwise ValueError or IndexError. The only calls that succeed with such levels have no surface cell and return an array without cells. With one axis the outcome depends on the level array only through its values, and on its kind and attributes.", "quantifier": "all level arrays of any rank and shape, all surface pressures of any kind, rank and size, all tops, any number type", "why_tests_cant": "The suite passes one-dimensional levels only; that no table of levels slips through (broadcasting, arrays with a single element per row, single rows) is a claim about all shapes.", "anchors": ["geocat/comp/meteorology.py:delta_pressure", "geocat/comp/meteorology.py:_delta_pressure1D", "geocat/comp/meteorology.py:dpres_plev"]}
{"id": "C130", "title": "How far gradient is from the derivative", "statement": "If the data along an axis are samples of a differentiable function f of the distance travelled along that axis, then every value gradient returns there is the derivative of f at some point strictly between the two neighbouring grid points (between the point and its single neighbour at an edge); so gradient never exceeds the extremes of the true slope and has its sign where the slope does not change sign. For quadratic f the value is exactly the derivative plus the curvature coefficient times (left neighbour + right neighbour - 2 * point): exact at inner points of a parallel with equally spaced longitudes, off by one grid distance times that coefficient at the edges, and off on unequally spaced distances - northward distances are not equally spaced even when the latitudes are.", "quantifier": "all finite fields on all one- or two-dimensional grids with at least two rows and columns, all points at which the distance between the neighbours is not zero, all differentiable f and all quadratics", "why_tests_cant": "Tests compare a few cells with stored numbers; an accuracy statement ranges over all functions, grids and points, edges included.", "anchors": ["geocat/comp/gradient.py:gradient", "geocat/comp/gradient.py:_arc_lat_wgs84", "geocat/comp/gradient.py:_arc_lon_wgs84"]}
{"id": "C131", "title": "interp_sigma_to_hybrid in double precision", "statement": "Computed in IEEE double precision, interp_sigma_to_hybrid succeeds for every well-formed call; the value of a hybrid level is NaN exactly when the computed hyam*p0/ps + hybm (or its computed logarithm) lies outside the sigma levels, and otherwise it is a finite number within 10*2^-53*(|a|+|b|) of the exact blend of the data a and b of the two enclosing sigma levels, staying between them up to the rounding of the upper one. A hybrid level that coincides with the first sigma level may nevertheless come out NaN, because hyam*p0/ps can be rounded to just below it.", "quantifier": "all double-precision data of any rank, coefficients, surface pressures with finite sigma, both methods, any math library for the logarithm", "why_tests_cant": "the tests compare a few profiles to a tolerance; whether any combination of coefficients and surface pressure overflows, leaves the range of the two neighbours or falls off the first level needs all of them", "anchors": ["geocat/comp/interpolation.py:interp_sigma_to_hybrid", "geocat/comp/interpolation.py:_sigma_from_hybrid", "geocat/comp/interpolation.py:_func_interpolate"]}
{"id": "C132", "title": "dewtemp in double precision", "statement": "Computed in IEEE double precision, for temperatures between 100 and 500 K and humidities between 2^-900 and 100 percent, every dew point of dewtemp is a finite number within 41*2^-53 (relatively) of the exact dew point; it does not decrease when only the humidity is raised, to the last bit; it exceeds the air temperature by at most 3*2^-53 of it, and it can exceed it: at 210 K and 100 percent it does.", "quantifier": "all double-precision temperatures and humidities in the stated ranges, every container and shape, every math library whose logarithm is within 8*2^-53 (and, for the order, does not decrease)", "why_tests_cant": "rounding errors depend on every bit of the inputs; a test compares a handful of values to a tolerance", "anchors": ["geocat/comp/meteorology.py:dewtemp", "geocat/comp/meteorology.py:_dewtemp"]}
{"id": "C133", "title": "A column of the meridional stream function: layer fluxes, ground, uniform wind, superposition, locality", "statement": "In every column of the result of zonal_meridional_psi the value changes from one level to the next lower one by the scaled flux of that layer, and does not change at all below the ground; a uniform wind gives a value proportional to the pressure between the top level and the lower interface of the layer, at the lowest level the whole column down to the surface. The stream function of a v1 + b v2 is the same combination of the two stream functions, and a value depends on nothing but the surface pressure of its own column and the winds of that column above the ground at and above its level.", "quantifier": "all winds (missing values included), pressure levels in either order, surface pressures, latitudes and times; any uxarray zonal mean", "why_tests_cant": "the tests compare one stored field; conservation and independence from winds below ground or in other columns concern all fields", "anchors": ["geocat/comp/meteorology.py:zonal_meridional_psi", "geocat/comp/meteorology.py:zonal_mpsi"]}
{"id": "C134", "title": "Stacks of fields and columns of coefficients in the spherical functions", "statement": "decomposition of a plain array with a leading axis either decomposes every field of the stack or is rejected, and recomposition of plain coefficients with a second axis likewise. This holds for one field, for max_harm = 0, and for every stack whose length is neither 1 nor the number of harmonics (rejected); it is false for a stack of as many fields as harmonics (coefficient k is taken from field k alone) and for coefficients in a column or in as many columns as there are longitudes (the result is a stack with one sheet per harmonic, each the harmonic times the sum of all coefficients).", "quantifier": "every stack length, every grid, every maximal degree, all finite fields, weights with non-zero total, angles and coefficients, both scipy conventions", "why_tests_cant": "the outcome depends on a coincidence between the stack length (or the number of longitudes) and the number of harmonics, so a test with one stack length sees either an error or one of the accepted cases", "anchors": ["geocat/comp/spherical.py: decomposition", "geocat/comp/spherical.py: recomposition"]}
{"id": "C135", "title": "Spellings accepted when looking up dataset variables", "statement": "When zonal_meridional_psi looks for a variable by standard name, long name or possible names, it finds one exactly when some variable's name or attribute is the key as given, in all lower or all upper case, with a capital at the start of the string or of every underscored word, or (long names) with capitals after blanks or with blanks and underscores exchanged; what it returns is the name of such a variable and equals a key up to letter case (and blank/underscore). Equality up to letter case alone is not enough (refuted).", "quantifier": "every dataset, every key, every set iteration order", "why_tests_cant": "there are unboundedly many keys and spellings; tests try the few names that occur in sample files", "anchors": ["geocat/comp/gc_util.py: _find_var", "geocat/comp/meteorology.py: zonal_meridional_psi"]}
{"id": "C136", "title": "Infinite values are not swallowed by spherical decomposition", "statement": "An infinite value in the data shows in every coefficient. True for plain arrays: one infinite or NaN value makes every coefficient NaN. False for labelled arrays: the product of an infinite value with a harmonic one part of which is zero (every harmonic with m = 0, so also the mean) has a NaN part, is skipped by the NaN-skipping sum and counts as zero; where neither part is zero the coefficient is NaN.", "quantifier": "every grid, all finite angles and weights with non-zero total, any number of NaN and infinite values, every maximal degree, both scipy conventions", "why_tests_cant": "the outcome depends on each harmonic's value at each bad point; a test with one infinite value sees one pattern of NaN and finite coefficients", "anchors": ["geocat/comp/spherical.py: decomposition"]}
{"id": "C137", "title": "Climatologies superpose, keep order, do not amplify differences and treat elements independently", "statement": "Take records with the same dates, the same number of elements and the same gaps. If every value of u is c1 times that of x plus c2 times that of y, then calendar_average (every frequency), climatology_average (every frequency and any custom seasons), month_to_season and climate_anomaly of u carry the same labels and are c1 times the results for x plus c2 times those for y; or all three calls raise the same exception. If no value of x exceeds that of y, no average of x exceeds that of y. If values differ by at most d, averages differ by at most d. Element k of every result, anomalies included, depends only on the data of element k. With different gaps superposition fails: x + y may have a daily mean of 1 where both x and y have 1.", "quantifier": "all records of any length and any number of elements, calendars, frequencies, custom seasons, time dimension names, coefficients, places of gaps", "why_tests_cant": "tests compare single arrays with stored results; superposition, monotonicity and independence relate the results of several calls for every record", "anchors": ["geocat/comp/climatologies.py: calendar_average", "geocat/comp/climatologies.py: climatology_average", "geocat/comp/climatologies.py: month_to_season", "geocat/comp/climatologies.py: climate_anomaly"]}
{"id": "C138", "title": "Anomalies of anomalies are the same anomalies", "statement": "Feeding the result of climate_anomaly back into climate_anomaly with the same frequency succeeds and returns the same numbers: by day and by month whenever the first call succeeds, by season whenever all four seasons have dates, by year in records of less than a century whose first and last years have a complete month. Missing values stay missing.", "quantifier": "all records of any length and number of elements with finite or missing values, calendars, names of the time dimension", "why_tests_cant": "tests compare one call with a stored result; idempotence composes two calls and rests on the group means of the first result being exactly zero for every record and every pattern of gaps", "anchors": ["geocat/comp/climatologies.py: climate_anomaly", "geocat/comp/climatologies.py: climatology_average", "geocat/comp/climatologies.py: calendar_average"]}
{"id": "C139", "title": "Climatologies in double precision stay close to the exact ones and keep order", "statement": "Let a record have at most n samples of size at most M (31(n+1) below 2^52, no overflow of n+1 times 64(M+1)). calendar_average, climatology_average and month_to_season run in IEEE double precision raise the same exception as in exact arithmetic, or return the same dates with gaps in the same places and every value within 2(n+1)M 2^-53 + 2^-1075 of the exact mean (season and year means: within an explicit bound of about (6n+6)M 2^-53). If a second record is nowhere below the first and has the same gaps, no double precision average of the first exceeds that of the second, not even in the last digit. A constant record is not reproduced exactly: three samples 0.1 in a day average to more than 0.1.", "quantifier": "all calendars, frequencies, custom seasons, time dimension arguments, records with any gaps, lengths n and sizes M; all C math libraries", "why_tests_cant": "Rounding errors depend on every digit of every sample and on how many share a period; tests compare a few records within a tolerance and can show neither a bound nor that order survives rounding.", "anchors": ["geocat/comp/climatologies.py: calendar_average, climatology_average, month_to_season, _calculate_center_of_time_bounds"]}
{"id": "C140", "title": "Averaging in two steps", "statement": "Averaging hourly, daily or monthly calendar averages once more by the same frequency returns them unchanged, labels included. Three or more monthly averages are always accepted as data, and their seasonal and yearly averages are those of the original data, exceptions included; their season climatologies, where they exist, are those of the original data. Hourly or daily averages averaged further (days, months, seasons, years) give the averages of the original data if every occupied period holds the same number of present values of each element. Without that condition they need not: eight dates ten hours apart over three days have a monthly average of 1/4 while the monthly average of their daily averages is 1/3.", "quantifier": "all calendars, records of any length and element count with any gaps, infer_freq results, frequencies, custom seasons, time dimension arguments", "why_tests_cant": "Agreement of one-step and two-step averages depends on which dates fall into which period, on gaps and on the calendar; a test fixes one record, and regular test records hold equally many values per period so they never show the difference.", "anchors": ["geocat/comp/climatologies.py: calendar_average, climatology_average, _calculate_center_of_time_bounds"]}
{"id": "C141", "title": "The order of the dates", "statement": "calendar_average, climatology_average, climate_anomaly and month_to_season on dates in increasing order behave as described by the other properties. Dates out of order make calendar_average and yearly anomalies raise ValueError, season climatologies do so when the dates of a requested season are out of order, and month_to_season exactly when the dates it keeps are. Climatologies of hours, days and months are the same for every order of the same dates and data that passes the spacing check, and the daily and monthly anomalies follow their dates.", "quantifier": "all calendars, records (any number of dates, values finite or missing), orders of the dates, frequencies, seasons, and outcomes of xarray.infer_freq", "why_tests_cant": "The number of orders of a record grows as a factorial; tests use sorted time axes only.", "anchors": ["geocat/comp/climatologies.py:calendar_average", "geocat/comp/climatologies.py:climatology_average", "geocat/comp/climatologies.py:climate_anomaly", "geocat/comp/climatologies.py:month_to_season"]}
{"id": "C142", "title": "Which calls of the Fourier filters are answered", "statement": "fourier_filter returns a result exactly when the signal has at least one axis and its first axis is not empty, time_axis names an axis that is not empty, the sampling rate is neither zero nor NaN and both cutoffs are finite - whatever the signal holds, whatever the signs of rate and cutoffs, and even when the filters asked for use neither cutoff. Otherwise it raises: TypeError for a scalar signal, ZeroDivisionError for an empty first axis or a zero rate, ValueError for an axis that does not exist or is empty and for NaN, OverflowError for an infinite cutoff at a finite rate. Labelled signals fail the same way, and the shorthands need exactly the cutoffs they take.", "quantifier": "every signal of every shape and content, every rate and pair of cutoffs (finite, infinite or NaN), every axis number, every combination of filters", "why_tests_cant": "the set of answered calls is described for every shape, axis number and value at once, together with the exception of every other call; tests sample a few", "anchors": ["geocat/comp/fourier_filters.py:fourier_filter", "geocat/comp/fourier_filters.py:fourier_low_pass", "geocat/comp/fourier_filters.py:fourier_high_pass", "geocat/comp/fourier_filters.py:fourier_band_pass", "geocat/comp/fourier_filters.py:fourier_band_block"]}
{"id": "C143", "title": "gradient rejects data that do not fit the grid", "statement": "Intended: data whose shape is not that of the grid are rejected. A scalar raises IndexError and two-dimensional data of another shape ValueError. Refuted for one-dimensional data of three or more values, plain or labelled: the call returns two full grids, the northward component made from the first two values, the eastward one from the first and third; all other values are ignored.", "quantifier": "every grid of at least two rows and columns, every data of rank 0, 1 or 2, every number type for the rejections", "why_tests_cant": "the claim covers every combination of data shape and grid shape; the offending rank happens to be one no test passes", "anchors": ["geocat/comp/gradient.py:gradient"]}
{"id": "C144", "title": "Averages repeat with the calendar", "statement": "Moving a record by whole cycles of its calendar (400 years Gregorian, 4 years Julian, any number of years where all years are alike) moves the labels of calendar_average and month_to_season by the same number of years and changes no value, in any arithmetic; failures stay the same failures. Anomalies move with their record. Climatologies have the same values; their labels move by the same number of years if it is even, and by at most one year more or less if it is odd (halves of the median year go to the even year).", "quantifier": "every calendar, every record, every number of cycles forwards or backwards, every frequency, season and time name, every number type", "why_tests_cant": "the claim compares two runs for every record and every shift, including the calendar arithmetic of every label; tests use fixed years", "anchors": ["geocat/comp/climatologies.py:calendar_average", "geocat/comp/climatologies.py:climatology_average", "geocat/comp/climatologies.py:climate_anomaly", "geocat/comp/climatologies.py:month_to_season", "geocat/comp/climatologies.py:_calculate_center_of_time_bounds"]}
{"id": "C145", "title": "Series do not mix in the Fourier filters, and a filter that keeps nothing hides missing data", "statement": "In a multi-dimensional signal each filtered series depends only on the same series of the input: whatever other series hold, missing and infinite values included, leaves it unchanged. When the filters asked for keep no frequency - a low pass with a cutoff below rate/length, a high pass with a cutoff above the highest frequency of the record - the result is zero everywhere for every signal, so missing data come back as numbers without a failure.", "quantifier": "every signal of every rank and content, every positive rate, every non-negative cutoffs, every combination of the four filters, every time axis", "why_tests_cant": "the tests filter clean one-dimensional tide records; interference between series, missing values and degenerate cutoffs range over unboundedly many arrays", "anchors": ["geocat/comp/fourier_filters.py:fourier_filter", "geocat/comp/fourier_filters.py:fourier_low_pass", "geocat/comp/fourier_filters.py:fourier_high_pass"]}
{"id": "C146", "title": "month_to_season and calendar_average by season", "statement": "Intended: on the same monthly record the two functions give the same seasonal means. For DJF, MAM, JJA and SON they average the same samples, month_to_season with equal weights and calendar_average in proportion to the lengths of the months. They agree exactly on 360-day calendars, and on any calendar they differ by at most 3/118 of the range of the months averaged. Refuted in general: on every other calendar the spring means are equal only when April is midway between March and May.", "quantifier": "every monthly record of whole years without gaps, every number of elements, every calendar, every standard season, every year", "why_tests_cant": "the tests check each function against stored results of its own; agreement of two functions, and the bound on their difference, ranges over all records and calendars", "anchors": ["geocat/comp/climatologies.py:month_to_season", "geocat/comp/climatologies.py:calendar_average"]}
{"id": "C147", "title": "Single-formula meteorology functions in double precision", "statement": "In double precision: (a) relhum_ice and relhum_water never rate drier air as more humid: at the same temperature and pressure, where the humidity for a mixing ratio is a positive number, any smaller non-negative mixing ratio gives a number between zero and it, to the last bit, and a mixing ratio of zero gives zero; (b) psychrometric_constant is within three half units in the last place of 0.00066474 times the pressure and never decreases with pressure; (c) saturation_vapor_pressure, actual_saturation_vapor_pressure and saturation_vapor_pressure_slope return the fill value for every number up to 32 degrees Fahrenheit and for missing temperatures; (d) above 32, however close, the two pressures are numbers no lower than the double nearest 0.6108 kPa.", "quantifier": "every temperature, pressure and mixing ratio array, list, scalar or DataArray (temperatures and pressures up to 2^900 in b, c, d), every exponential function (in d one that maps 0..20 into 1..2^40)", "why_tests_cant": "They hold for all doubles including the neighbours of 32 and results near overflow, and for every maths library.", "anchors": ["geocat/comp/meteorology.py: relhum_ice", "geocat/comp/meteorology.py: relhum_water", "geocat/comp/meteorology.py: psychrometric_constant", "geocat/comp/meteorology.py: saturation_vapor_pressure", "geocat/comp/meteorology.py: actual_saturation_vapor_pressure", "geocat/comp/meteorology.py: saturation_vapor_pressure_slope"]}
{"id": "C148", "title": "heat_index in double precision", "statement": "For temperatures of -200 to 200 F and humidities of 0 to 100 %, with either set of coefficients, the heat index computed in double precision is within 10^-9 F of the exact formula, adjustments included, except where the average of Steadman's formula and the temperature lies within 10^-12 of the threshold (79 or 70) at which the regression takes over. Temperatures below 40 F are returned unchanged to the last bit, whatever the humidity. The exception is needed: at the threshold rounding can select the other formula and move the answer by more than 1.6 F.", "quantifier": "every pair of arrays, lists, scalars or identically labelled DataArrays of doubles that heat_index answers, every cell with values in the ranges, both coefficient sets", "why_tests_cant": "The error bound must hold for all doubles of a two-dimensional range and every branch; tests compare a few values.", "anchors": ["geocat/comp/meteorology.py: heat_index", "geocat/comp/meteorology.py: _nws_eqn"]}
{"id": "C149", "title": "max_daylight in double precision stays within 0 to 24 hours, is exactly 12 at the equator and orders latitudes", "statement": "Computed in double precision, every day length returned by max_daylight is NaN or a number from 0 to 24 to the last bit. For ndarrays it is never NaN at latitudes up to 66 degrees, is exactly 12.0 at latitude 0 on every day, and on any one day the lengths over latitudes from -66 to 66 are ordered in one direction, rounding notwithstanding. Conditions on numpy's sin, tan and arccos: sin within [-1,1]; tan of 0 is 0, tan is nondecreasing and suitably bounded up to 1.2; arccos is within [0, the double pi], nonincreasing, the double pi/2 at 0 and NaN outside [-1,1].", "quantifier": "all one-dimensional days and latitudes of finite numbers below 2^127 (an ndarray among the two for the range, both for the rest), all libraries of elementary functions meeting the conditions", "why_tests_cant": "tests compare a few day lengths with stored numbers to a tolerance; a last-bit excess over 24 or a broken order would occur at some unknown double", "anchors": ["geocat/comp/meteorology.py:max_daylight"]}
