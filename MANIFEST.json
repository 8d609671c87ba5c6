{
 "claims": [
  {
   "property": "C01",
   "status": "proved",
   "theorems": [
    "C01_delta_pressure_conserves_mass"
   ],
   "note": ""
  },
  {
   "property": "C02",
   "status": "proved",
   "theorems": [
    "C02_delta_pressure_nan_set_and_sign"
   ],
   "note": ""
  },
  {
   "property": "C03",
   "status": "proved",
   "theorems": [
    "C03_delta_pressure_follows_level_order"
   ],
   "note": ""
  },
  {
   "property": "C04",
   "status": "proved",
   "theorems": [
    "C04_delta_pressure_cells_independent",
    "C04_delta_pressure_fails_iff_a_cell_fails",
    "C04_delta_pressure_labels"
   ],
   "note": ""
  },
  {
   "property": "C05",
   "status": "proved",
   "theorems": [
    "C05_top_above_lowest_level_rejected",
    "C05_negative_top_rejected",
    "C05_surface_above_top_rejected",
    "C05_surface_above_top_rejected_scalar",
    "C05_default_top_is_lowest_level",
    "C05_dpres_plev_is_delta_pressure"
   ],
   "note": "For an n-d surface with a cell above the top the theorem shows that the call raises; the exception class is proved for the scalar call."
  },
  {
   "property": "C06",
   "status": "proved",
   "theorems": [
    "C06_single_level_thickness_wrong",
    "C06_conservation_refuted"
   ],
   "note": "The code violates the user expectation; the exact wrong value is proved for all inputs of the region and a counterexample to conservation is exhibited."
  },
  {
   "property": "C07",
   "status": "proved",
   "theorems": [
    "C07_hybrid_pressure_formula"
   ],
   "note": "Conflicting level labels between hya and hyb (xarray intersects them) are excluded by hypothesis."
  },
  {
   "property": "C08",
   "status": "proved",
   "theorems": [
    "C08_hybrid_pressure_type_error",
    "C08_hybrid_pressure_value_error",
    "C08_hybrid_pressure_no_other_error"
   ],
   "note": ""
  },
  {
   "property": "C09",
   "status": "proved",
   "theorems": [
    "C09_numpy_hybrid_pressure_rank2",
    "C09_numpy_hybrid_pressure_rank3_mispaired"
   ],
   "note": "The rank-3 theorem is a finding: time step k is silently paired with level k."
  },
  {
   "property": "C10",
   "status": "proved",
   "theorems": [
    "C10_numpy_layer_thickness",
    "C10_labelled_layer_thickness",
    "C10_column_telescopes"
   ],
   "note": "hya/hyb carry at most one coordinate; see C67 for what happens otherwise."
  },
  {
   "property": "C100",
   "status": "proved",
   "theorems": [
    "C100_integer_data",
    "C100_float_data",
    "C100_storage_refuted"
   ],
   "note": "The intended independence of the storage type is refuted; the exact behaviour is proved for integer and floating point storage."
  },
  {
   "property": "C101",
   "status": "proved",
   "theorems": [
    "C101_labels",
    "C101_label_sizes"
   ],
   "note": "Holds for every number type and every storage conversion."
  },
  {
   "property": "C102",
   "status": "proved",
   "theorems": [
    "C102_dataset_refuted",
    "C102_dataset_ranks"
   ],
   "note": "The intended statement is refuted; the theorem gives the exact outcome."
  },
  {
   "property": "C103",
   "status": "proved",
   "theorems": [
    "C103_labels",
    "C103_labels_refuted"
   ],
   "note": "The intended statement is refuted; C103_labels is what holds."
  },
  {
   "property": "C104",
   "status": "proved",
   "theorems": [
    "C104_single_precision",
    "C104_warnings",
    "C104_container_refuted",
    "C104_precision",
    "C104_ranks"
   ],
   "note": "Container independence is refuted; the other theorems say what holds."
  },
  {
   "property": "C105",
   "status": "proved",
   "theorems": [
    "C105_other_coordinates",
    "C105_cyclic_drops"
   ],
   "note": "xarray's interp on coordinates is modelled for numeric coordinates; 'along' in InterpCoords.v states the interpolated values."
  },
  {
   "property": "C106",
   "status": "proved",
   "theorems": [
    "C106_weights_need_two_axes",
    "C106_enlarging_weights_rejected",
    "C106_spread_weights_refuted",
    "C106_labelled_points_rejected",
    "C106_recomposition_points",
    "C106_voronoi_needs_two_axes",
    "C106_labelled_weights_rejected"
   ],
   "note": "Labelled one-dimensional data: scipy 1.15 or newer. Arrays of rank above two are outside the model."
  },
  {
   "property": "C107",
   "status": "proved",
   "theorems": [
    "C107_hot_air_ordered",
    "C107_mild_air_ordered",
    "C107_forty_degrees_refuted",
    "C107_threshold_refuted"
   ],
   "note": "the ordering proved on the stated domain; the two _refuted theorems show the claim cannot be extended over 40 F or over the threshold"
  },
  {
   "property": "C108",
   "status": "proved",
   "theorems": [
    "C108_dewtemp_ordered"
   ],
   "note": ""
  },
  {
   "property": "C109",
   "status": "proved",
   "theorems": [
    "C109_level_order_irrelevant",
    "C109_level_order_irrelevant_extrapolating",
    "C109_last_level_counts_as_lowest",
    "C109_unlabelled_order_refuted"
   ],
   "note": "Holds; with extrapolation it needs labelled coefficients, the case without labels is refuted (DESIGN 5, finding 28)."
  },
  {
   "property": "C11",
   "status": "proved",
   "theorems": [
    "C11_layer_thickness_type_error",
    "C11_layer_thickness_value_error"
   ],
   "note": ""
  },
  {
   "property": "C110",
   "status": "proved",
   "theorems": [
    "C110_level_labels_ignored",
    "C110_matching_by_label_refuted"
   ],
   "note": "Independence of the labels proved for every Num instance; the matching by label a user of xarray expects is refuted (DESIGN 5, finding 29)."
  },
  {
   "property": "C111",
   "status": "proved",
   "theorems": [
    "C111_row_order",
    "C111_column_order",
    "C111_longitude_origin",
    "C111_hemispheres",
    "C111_seam_refuted"
   ],
   "note": "Refuted at the seam of the longitudes (DESIGN 5, finding 30)."
  },
  {
   "property": "C112",
   "status": "proved",
   "theorems": [
    "C112_grid_order_irrelevant",
    "C112_cyclic_east_to_west",
    "C112_cyclic_order_refuted"
   ],
   "note": "Proved for cyclic=False; refuted for cyclic=True with longitudes from east to west (DESIGN 5, finding 31)."
  },
  {
   "property": "C113",
   "status": "proved",
   "theorems": [
    "C113_ice_and_water_ordered",
    "C113_falls_with_temperature",
    "C113_never_negative_refuted"
   ],
   "note": "never-negative is refuted: the value is negative above 0.378 e > p"
  },
  {
   "property": "C114",
   "status": "proved",
   "theorems": [
    "C114_columns_independent",
    "C114_sigma_columns_independent"
   ],
   "note": ""
  },
  {
   "property": "C115",
   "status": "proved",
   "theorems": [
    "C115_targets_and_slices_independent"
   ],
   "note": ""
  },
  {
   "property": "C116",
   "status": "proved",
   "theorems": [
    "C116_never_negative",
    "C116_identical_fields",
    "C116_constant_observation_refuted"
   ],
   "note": "Sums are modelled left to right; the arguments for sign and zero do not depend on the order. The cosine is a parameter assumed correctly rounded (shown to exist)."
  },
  {
   "property": "C117",
   "status": "proved",
   "theorems": [
    "C117_descriptions",
    "C117_one_argument",
    "C117_two_arguments",
    "C117_relhum_iw_units_refuted"
   ],
   "note": "xarray arithmetic is modelled with attributes dropped (its keep_attrs default of the pinned era)."
  },
  {
   "property": "C118",
   "status": "proved",
   "theorems": [
    "C118_edge_date",
    "C118_labels_refuted"
   ],
   "note": "infer_freq is a parameter; the record is assumed accepted by it."
  },
  {
   "property": "C119",
   "status": "proved",
   "theorems": [
    "C119_labelled_outcomes",
    "C119_numpy_outcomes"
   ],
   "note": "Full. For any number type. Ragged lists and other array-likes are outside (VOther)."
  },
  {
   "property": "C12",
   "status": "proved",
   "theorems": [
    "C12_interp_reproduces_model_levels"
   ],
   "note": "Finite column data; levels listed in one direction (see C17)."
  },
  {
   "property": "C120",
   "status": "proved",
   "theorems": [
    "C120_delta_pressure",
    "C120_pressure_at_hybrid_levels",
    "C120_delta_pressure_hybrid",
    "C120_interp_sigma_to_hybrid",
    "C120_interp_hybrid_to_pressure"
   ],
   "note": "Full, in real arithmetic with IEEE special values. For interp_hybrid_to_pressure the data must not have an unrelated coordinate called plev, nor the surface fields a dimension plev."
  },
  {
   "property": "C121",
   "status": "proved",
   "theorems": [
    "C121_interp_hybrid_to_pressure",
    "C121_interp_sigma_to_hybrid",
    "C121_interp_multidim",
    "C121_integer_refuted"
   ],
   "note": "Real arithmetic with NaN and infinities. The integer case is refuted (C121_integer_refuted)."
  },
  {
   "property": "C122",
   "status": "proved",
   "theorems": [
    "C122_calendar_average",
    "C122_climatology_average",
    "C122_month_to_season",
    "C122_seasons",
    "C122_seasons_scaled",
    "C122_anomalies_scaled",
    "C122_anomalies",
    "C122_season_anomalies",
    "C122_year_anomalies",
    "C122_seasons_refuted",
    "C122_century_refuted"
   ],
   "note": "Exact arithmetic with NaN. The refuted theorems show that the conditions of C122_seasons and C122_year_anomalies are needed."
  },
  {
   "property": "C123",
   "status": "proved",
   "theorems": [
    "C123_hours_days_months",
    "C123_seasons_years"
   ],
   "note": "Stated for any arithmetic whose NaN is recognised by isnan; C123_reals and C123_doubles show that the two arithmetics of the model qualify."
  },
  {
   "property": "C124",
   "status": "proved",
   "theorems": [
    "C124_seasons",
    "C124_polar",
    "C124_polar_day_refuted"
   ],
   "note": "Exact arithmetic; the declination is that of FAO-56, as in the code."
  },
  {
   "property": "C125",
   "status": "proved",
   "theorems": [
    "C125_energy",
    "C125_closest",
    "C125_mean_low",
    "C125_mean_high",
    "C125_delay",
    "C125_reversal"
   ],
   "note": "Exact real arithmetic of the theorem instance; the FFT is modelled by the defining sums."
  },
  {
   "property": "C126",
   "status": "proved",
   "theorems": [
    "C126_flat_field",
    "C126_sign_change"
   ],
   "note": "numpy.gradient with unit spacing is modelled by its documented differences; the polynomials' rounding does not matter for these claims."
  },
  {
   "property": "C127",
   "status": "proved",
   "theorems": [
    "C127_error_and_correlation"
   ],
   "note": "Exact arithmetic."
  },
  {
   "property": "C128",
   "status": "proved",
   "theorems": [
    "C128_interp_hybrid_to_pressure",
    "C128_interp_sigma_to_hybrid",
    "C128_interp_multidim"
   ],
   "note": "Exact reals. Extrapolation is excluded: below-ground temperature is not linear in the temperature, and outside the grid interp_multidim keeps sums but not order."
  },
  {
   "property": "C129",
   "status": "proved",
   "theorems": [
    "C129_one_axis",
    "C129_never_other_ranks",
    "C129_exception"
   ],
   "note": "Closed under the global context (any Num instance)."
  },
  {
   "property": "C13",
   "status": "proved",
   "theorems": [
    "C13_interp_between_neighbours"
   ],
   "note": "Bracketing levels are adjacent in pressure; needs only their two values finite."
  },
  {
   "property": "C130",
   "status": "proved",
   "theorems": [
    "C130_mean_slope",
    "C130_quadratic"
   ],
   "note": "Exact reals."
  },
  {
   "property": "C131",
   "status": "proved",
   "theorems": [
    "C131_binary64_sigma",
    "C131_binary64_linear",
    "C131_top_level_refuted"
   ],
   "note": "C131_top_level_refuted: hyam = 0.000011, hybm = 0, ps = p0 = 100000 gives NaN at the sigma level 0.000011."
  },
  {
   "property": "C132",
   "status": "proved",
   "theorems": [
    "C132_binary64_dewtemp",
    "C132_binary64_monotone",
    "C132_exceeds_temperature_refuted"
   ],
   "note": "The assumption on the logarithm is a hypothesis of the theorems (ln_close, ln_mono in SpecB64Dew.v), shown satisfiable by the correctly rounded logarithm."
  },
  {
   "property": "C133",
   "status": "proved",
   "theorems": [
    "C133_psi_column",
    "C133_psi_superposition",
    "C133_psi_locality"
   ],
   "note": "Above ground is meant as in C02: the upper interface of the layer is above the surface."
  },
  {
   "property": "C134",
   "status": "proved",
   "theorems": [
    "C134_stack_rejected",
    "C134_labelled_stack_rejected",
    "C134_labelled_stack_never",
    "C134_stack_of_one",
    "C134_stack_constant",
    "C134_stack_refuted",
    "C134_double_stack_rejected",
    "C134_double_stack_refuted",
    "C134_columns_rejected",
    "C134_columns_refuted"
   ],
   "note": "The claim is false when the stack has as many fields as harmonics and for coefficients given as a column; both refutations are general theorems. Labelled stacks are rejected (two theorems); labelled cubes for old scipy and weights of more than two axes are outside the model."
  },
  {
   "property": "C135",
   "status": "proved",
   "theorems": [
    "C135_lookup_spellings",
    "C135_found_up_to_case",
    "C135_any_case_refuted"
   ],
   "note": "Letter case is specified character by character (SpecCase.v), independently of the model's string functions; non-ASCII letters are not modelled."
  },
  {
   "property": "C136",
   "status": "proved",
   "theorems": [
    "C136_infinite_value_plain",
    "C136_infinite_value_refuted",
    "C136_infinite_value_labelled"
   ],
   "note": "The claim is refuted for labelled arrays; C136_infinite_value_labelled says exactly which coefficients become NaN and which silently treat infinities as zeros."
  },
  {
   "property": "C137",
   "status": "proved",
   "theorems": [
    "C137_superposition",
    "C137_order",
    "C137_distance",
    "C137_elements",
    "C137_gaps_refuted"
   ],
   "note": "gaps at the same places in all records; C137_gaps_refuted shows that this is needed"
  },
  {
   "property": "C138",
   "status": "proved",
   "theorems": [
    "C138_day_month",
    "C138_season",
    "C138_year"
   ],
   "note": "real arithmetic; records of a century or more are excluded for years because of C63_century_refuted"
  },
  {
   "property": "C139",
   "status": "proved",
   "theorems": [
    "C139_error",
    "C139_order",
    "C139_constant_refuted"
   ],
   "note": "Sums run from left to right in the model; numpy adds in pairs and xarray may call bottleneck, whose order of addition is not modelled. climate_anomaly is not covered. _refuted: exact reproduction of constants fails, finding 45."
  },
  {
   "property": "C14",
   "status": "proved",
   "theorems": [
    "C14_interp_nan_iff_out_of_range"
   ],
   "note": ""
  },
  {
   "property": "C140",
   "status": "proved",
   "theorems": [
    "C140_again",
    "C140_months_accepted",
    "C140_months_then_seasons",
    "C140_months_then_climatology",
    "C140_even",
    "C140_uneven_refuted"
   ],
   "note": "Exact arithmetic with gaps; C140_uneven_refuted shows that the condition of C140_even is needed. Elements counted must be at least one."
  },
  {
   "property": "C141",
   "status": "proved",
   "theorems": [
    "C141_in_order",
    "C141_results",
    "C141_calendar_average",
    "C141_month_to_season",
    "C141_seasons",
    "C141_climatology",
    "C141_anomaly",
    "C141_uniform"
   ],
   "note": "The check of the order is xarray's and is part of the trusted base."
  },
  {
   "property": "C142",
   "status": "proved",
   "theorems": [
    "C142_failures",
    "C142_answered",
    "C142_labelled",
    "C142_shorthands"
   ],
   "note": "Rate and cutoffs are Python numbers; with numpy scalars a zero rate gives an infinity instead of ZeroDivisionError. A labelled signal can fail in one more way, C77."
  },
  {
   "property": "C143",
   "status": "proved",
   "theorems": [
    "C143_rank0",
    "C143_rank2",
    "C143_row_refuted"
   ],
   "note": "Rank 3 is C72."
  },
  {
   "property": "C144",
   "status": "proved",
   "theorems": [
    "C144_calendar_average",
    "C144_month_to_season",
    "C144_climatology",
    "C144_anomaly"
   ],
   "note": "Needs xr.infer_freq to give the same answer for the moved dates, and years of four digits for climatologies (the label is parsed from text)."
  },
  {
   "property": "C145",
   "status": "proved",
   "theorems": [
    "C145_series",
    "C145_nothing_kept",
    "C145_low_pass",
    "C145_high_pass"
   ],
   "note": "numpy's transform is modelled as the plain sum; how a missing value spreads within its own series depends on numpy's algorithm and is not claimed"
  },
  {
   "property": "C146",
   "status": "proved",
   "theorems": [
    "C146_means",
    "C146_equal_months",
    "C146_close",
    "C146_agree_refuted"
   ],
   "note": "the full claim (the same means) is refuted by C146_agree_refuted; what holds is proved by the other three"
  },
  {
   "property": "C147",
   "status": "proved",
   "theorems": [
    "C147_relhum",
    "C147_psychrometric",
    "C147_freezing",
    "C147_missing",
    "C147_warm"
   ],
   "note": "Binary64 arithmetic from Flocq, an arbitrary maths library. Examples C147_example, C147_example_positive."
  },
  {
   "property": "C148",
   "status": "proved",
   "theorems": [
    "C148_value",
    "C148_cold",
    "C148_threshold_refuted"
   ],
   "note": "Binary64 arithmetic from Flocq; no assumption on the maths library (sqrt is correctly rounded). Example C148_example."
  },
  {
   "property": "C149",
   "status": "proved",
   "theorems": [
    "C149_range",
    "C149_inside",
    "C149_equator",
    "C149_latitude"
   ],
   "note": "the range for two non-ndarray arguments (computed in single precision) is not part of this property"
  },
  {
   "property": "C15",
   "status": "proved",
   "theorems": [
    "C15_interp_exact_on_linear_profiles"
   ],
   "note": "Real arithmetic: exact up to rounding in the code."
  },
  {
   "property": "C16",
   "status": "proved",
   "theorems": [
    "C16_interp_chunk_independent"
   ],
   "note": "Any number type; includes the error outcome and the extrapolated result."
  },
  {
   "property": "C17",
   "status": "proved",
   "theorems": [
    "C17_interp_levels_independent",
    "C17_interp_serves_levels_sorted",
    "C17_interp_unsorted_levels_refuted"
   ],
   "note": "Sorted requests proved; for unsorted ones the exact behaviour and a counterexample to the expected one."
  },
  {
   "property": "C18",
   "status": "proved",
   "theorems": [
    "C18_extrapolation_only_below_lowest_level"
   ],
   "note": "The lowest level is the one with the largest level label of hyam (last level without labels), as in the code."
  },
  {
   "property": "C19",
   "status": "proved",
   "theorems": [
    "C19_temperature_extrapolation",
    "C19_temperature_at_the_surface"
   ],
   "note": ""
  },
  {
   "property": "C20",
   "status": "proved",
   "theorems": [
    "C20_geopotential_extrapolation",
    "C20_geopotential_at_and_below_the_surface"
   ],
   "note": ""
  },
  {
   "property": "C21",
   "status": "proved",
   "theorems": [
    "C21_interp_type_error",
    "C21_interp_value_error",
    "C21_interp_accepts_the_rest"
   ],
   "note": ""
  },
  {
   "property": "C22",
   "status": "proved",
   "theorems": [
    "C22_sigma_to_hybrid_columns",
    "C22_sigma_to_hybrid_needs_enough_levels"
   ],
   "note": "Order of the wanted sigma values is preserved when they are monotone in the column (metpy sorts them); more hybrid than sigma levels is proved to be an error."
  },
  {
   "property": "C23",
   "status": "proved",
   "theorems": [
    "C23_multidim_bilinear"
   ],
   "note": "Linear method; xarray/scipy interpolation is transcribed in InterpMulti.v (trusted base). Any grid with distinct coordinates, sorted or not."
  },
  {
   "property": "C24",
   "status": "proved",
   "theorems": [
    "C24_multidim_missing_is_nan",
    "C24_multidim_no_nan",
    "C24_multidim_missing_corners"
   ],
   "note": "The cell used at a node is the one below it, so a missing lower neighbour makes a node missing (code_bracket)."
  },
  {
   "property": "C25",
   "status": "proved",
   "theorems": [
    "C25_multidim_seam",
    "C25_multidim_inside"
   ],
   "note": "At exactly the first longitude, equality with cyclic=False needs finite data: the padded cell west of it is used."
  },
  {
   "property": "C26",
   "status": "proved",
   "theorems": [
    "C26_dewtemp_bounds",
    "C26_dewtemp_increasing",
    "C26_dewtemp_types"
   ],
   "note": "real arithmetic"
  },
  {
   "property": "C27",
   "status": "proved",
   "theorems": [
    "C27_heat_index_types",
    "C27_heat_index_shapes",
    "C27_heat_index_checks",
    "C27_heat_index_range_check_refuted"
   ],
   "note": "exact characterisation; the unconditional range check is refuted for non-DataArrays containing NaN"
  },
  {
   "property": "C28",
   "status": "proved",
   "theorems": [
    "C28_heat_index_formula"
   ],
   "note": ""
  },
  {
   "property": "C29",
   "status": "proved",
   "theorems": [
    "C29_adjusts_only_regression_refuted",
    "C29_adjusted_simple_average"
   ],
   "note": "the user expectation is refuted; the deviation is characterised exactly"
  },
  {
   "property": "C30",
   "status": "proved",
   "theorems": [
    "C30_relhum_table",
    "C30_relhum_nan"
   ],
   "note": ""
  },
  {
   "property": "C31",
   "status": "proved",
   "theorems": [
    "C31_relhum_monotone",
    "C31_relhum_clipped"
   ],
   "note": ""
  },
  {
   "property": "C32",
   "status": "proved",
   "theorems": [
    "C32_relhum_iw_types",
    "C32_relhum_iw_shapes",
    "C32_relhum_iw_formula",
    "C32_relhum_iw_laws",
    "C32_relhum_iw_freezing"
   ],
   "note": ""
  },
  {
   "property": "C33",
   "status": "proved",
   "theorems": [
    "C33_daylight_physical"
   ],
   "note": "float32 rounding of the inputs not modelled"
  },
  {
   "property": "C34",
   "status": "proved",
   "theorems": [
    "C34_daylight_rank",
    "C34_daylight_warnings"
   ],
   "note": ""
  },
  {
   "property": "C35",
   "status": "proved",
   "theorems": [
    "C35_saturation_vapor_pressure"
   ],
   "note": ""
  },
  {
   "property": "C36",
   "status": "proved",
   "theorems": [
    "C36_slope_is_derivative"
   ],
   "note": ""
  },
  {
   "property": "C37",
   "status": "proved",
   "theorems": [
    "C37_psychrometric_linear"
   ],
   "note": ""
  },
  {
   "property": "C38",
   "status": "proved",
   "theorems": [
    "C38_psi_is_scaled_mass_flux",
    "C38_psi_level_order_irrelevant",
    "C38_psi_attributes"
   ],
   "note": "for every zonal-mean operator (oracle) meeting psi_input; coordinates assumed as uxarray returns them"
  },
  {
   "property": "C39",
   "status": "proved",
   "theorems": [
    "C39_psi_pole_scaling_refuted",
    "C38_psi_is_scaled_mass_flux"
   ],
   "note": "the expected property is false of the code; refutation for every dataset with latitude 90, exact factor in the C38 theorem"
  },
  {
   "property": "C40",
   "status": "proved",
   "theorems": [
    "C40_psi_needs_uxarray",
    "C40_psi_variable_not_found",
    "C40_psi_detection_is_naming",
    "C40_psi_explicit_names_override",
    "C40_psi_hybrid_path",
    "C40_psi_no_vertical_coordinate",
    "C40_psi_bad_surface_pressure"
   ],
   "note": ""
  },
  {
   "property": "C41",
   "status": "proved",
   "theorems": [
    "C41_find_var_priority",
    "C41_find_optional_var"
   ],
   "note": "ASCII names"
  },
  {
   "property": "C42",
   "status": "proved",
   "theorems": [
    "C42_possible_name_choice_refuted",
    "C42_any_candidate_can_be_chosen",
    "C42_unique_candidate_is_chosen"
   ],
   "note": "determinism is false of the code; exact set of possible answers proved"
  },
  {
   "property": "C43",
   "status": "proved",
   "theorems": [
    "C43_bins_kept_or_removed_in_pairs",
    "C43_spectrum_determines",
    "C43_filtered_values_determined"
   ],
   "note": "exact real arithmetic; np.fft by its defining sums"
  },
  {
   "property": "C44",
   "status": "proved",
   "theorems": [
    "C44_low_pass_keeps",
    "C44_high_pass_keeps",
    "C44_band_pass_keeps",
    "C44_band_block_keeps",
    "C44_band_block_beyond_nyquist",
    "C44_flags_combine"
   ],
   "note": ""
  },
  {
   "property": "C45",
   "status": "proved",
   "theorems": [
    "C45_linear",
    "C45_idempotent",
    "C45_low_pass_waves",
    "C45_high_pass_waves",
    "C45_band_pass_waves",
    "C45_band_block_waves"
   ],
   "note": ""
  },
  {
   "property": "C46",
   "status": "proved",
   "theorems": [
    "C46_low_plus_high",
    "C46_between_bins_loses_a_frequency",
    "C46_pass_plus_block"
   ],
   "note": ""
  },
  {
   "property": "C47",
   "status": "proved",
   "theorems": [
    "C47_effective_cutoff",
    "C47_axis_independence_refuted"
   ],
   "note": "the expected axis independence is refuted; the exact effective cutoff is proved"
  },
  {
   "property": "C48",
   "status": "proved",
   "theorems": [
    "C48_gradient_is_difference_quotient",
    "C48_distances_nonzero",
    "C48_linear",
    "C48_constant_has_zero_gradient",
    "C48_affine_exact",
    "C48_local"
   ],
   "note": "Exact real arithmetic; distances are nonzero on every strictly monotone latitude/longitude grid."
  },
  {
   "property": "C49",
   "status": "proved",
   "theorems": [
    "C49_1d_and_2d_coordinates_agree",
    "C49_mixed_ranks_rejected",
    "C49_coordinates_from_data",
    "C49_missing_coordinates",
    "C49_axis_too_small",
    "C49_longitude_origin_irrelevant",
    "C49_result_labels"
   ],
   "note": "The first returned array is the axis-0 (latitude) derivative; the docstring announces the opposite order."
  },
  {
   "property": "C50",
   "status": "proved",
   "theorems": [
    "C50_series_parity",
    "C50_arc_derivative_is_radius",
    "C50_arc_lon_linear"
   ],
   "note": "Derivative relation with true pi/180, error at most 2e-18."
  },
  {
   "property": "C51",
   "status": "proved",
   "theorems": [
    "C51_positions_unique",
    "C51_positions_inside",
    "C51_decomposition_entries",
    "C51_recomposition_values"
   ],
   "note": "sph_harm_y is an oracle constrained by sph_oracle"
  },
  {
   "property": "C52",
   "status": "proved",
   "theorems": [
    "C52_roundtrip_band_limited",
    "C52_decomposition_linear",
    "C52_weights_scale_free"
   ],
   "note": "exactness of the quadrature is a hypothesis, met by the octahedron example"
  },
  {
   "property": "C53",
   "status": "proved",
   "theorems": [
    "C53_value",
    "C53_laws",
    "C53_rescale",
    "C53_hidden",
    "C53_general_grid"
   ],
   "note": "Full statement; weights are cos(latitude), real arithmetic."
  },
  {
   "property": "C54",
   "status": "proved",
   "theorems": [
    "C54_types",
    "C54_coordinate_names",
    "C54_unrecognised",
    "C54_several_latitudes",
    "C54_uneven",
    "C54_mismatch"
   ],
   "note": "Decision table in the order of the checks. Several latitudes raise KeyError instead of the documented ValueError (the branch is dead)."
  },
  {
   "property": "C55",
   "status": "proved",
   "theorems": [
    "C55_flattening",
    "C55_labelled_arrays",
    "C55_no_value_error",
    "C55_warning",
    "C55_datasets_fail",
    "C55_lists_need_no_axis",
    "C55_sizes_differ"
   ],
   "note": "Decision table of pearson_r; xskillscore.pearson_r on labelled arrays is an oracle."
  },
  {
   "property": "C56",
   "status": "proved",
   "theorems": [
    "C56_time_first",
    "C56_eofs_labels",
    "C56_pcs",
    "C56_eofs_time_dim_range",
    "C56_pcs_time_dim_range",
    "C56_eofs_count",
    "C56_pcs_count",
    "C56_eofunc_time_last",
    "C56_eofunc_ts_time_last"
   ],
   "note": "Solver (eofs.xarray.Eof) is an arbitrary oracle; hypotheses on the shape of its result are in the statements."
  },
  {
   "property": "C57",
   "status": "proved",
   "theorems": [
    "C57_negative_time_dim_refuted"
   ],
   "note": "The documented expectation is false of the code; the failure is proved for every negative time_dim."
  },
  {
   "property": "C58",
   "status": "proved",
   "theorems": [
    "C58_hours_days_months",
    "C58_outcome",
    "C58_uniform",
    "C58_range"
   ],
   "note": "mean, coverage, order, labels, outcome; trusted: resample/dropna/calendar semantics"
  },
  {
   "property": "C59",
   "status": "proved",
   "theorems": [
    "C59_seasons_years",
    "C59_outcome",
    "C59_constant",
    "C59_between",
    "C59_months_unique",
    "C58_range"
   ],
   "note": ""
  },
  {
   "property": "C60",
   "status": "proved",
   "theorems": [
    "C60_keys",
    "C60_outcome",
    "C60_seasons"
   ],
   "note": "labels when all dates exist in the label year; see C61 otherwise"
  },
  {
   "property": "C61",
   "status": "proved",
   "theorems": [
    "C61_leap_refuted"
   ],
   "note": "the user expectation (any year span works) is refuted"
  },
  {
   "property": "C62",
   "status": "proved",
   "theorems": [
    "C62_anomaly",
    "C62_total",
    "C62_zero",
    "C62_season",
    "C62_season_zero"
   ],
   "note": ""
  },
  {
   "property": "C63",
   "status": "proved",
   "theorems": [
    "C63_year",
    "C63_short",
    "C63_century_refuted"
   ],
   "note": "holds under a century (C63_short), refuted beyond (C63_century_refuted)"
  },
  {
   "property": "C64",
   "status": "proved",
   "theorems": [
    "C64_whole_years",
    "C64_any_dates",
    "C64_dropped_refuted"
   ],
   "note": "whole years; exact description for any dates; dropping refuted as a general law"
  },
  {
   "property": "C65",
   "status": "proved",
   "theorems": [
    "C65_errors"
   ],
   "note": ""
  },
  {
   "property": "C66",
   "status": "proved",
   "theorems": [
    "C66_inert",
    "C66_names"
   ],
   "note": ""
  },
  {
   "property": "C67",
   "status": "proved",
   "theorems": [
    "C67_level_coordinate_not_first_refuted"
   ],
   "note": "The expectation is refuted; the theorem gives the exact wrong result."
  },
  {
   "property": "C68",
   "status": "proved",
   "theorems": [
    "C68_dewtemp_shape_check_refuted",
    "C68_relhum_shape_check_refuted"
   ],
   "note": "the documented check never fires"
  },
  {
   "property": "C69",
   "status": "proved",
   "theorems": [
    "C69_relhum_iw_labels_refuted"
   ],
   "note": "label-respecting expectation refuted"
  },
  {
   "property": "C70",
   "status": "proved",
   "theorems": [
    "C70_psi_other_pressure_name_fails"
   ],
   "note": "expected property is false of the code; proved to fail for every dataset"
  },
  {
   "property": "C71",
   "status": "proved",
   "theorems": [
    "C71_radius_matches_documentation",
    "C71_meridian_arc_is_integral",
    "C71_longitude_arc_matches_documentation"
   ],
   "note": "Certified error bounds by exact integer (fixed-point) computation plus Taylor bounds of cos; RInt is Coquelicot's integral."
  },
  {
   "property": "C72",
   "status": "proved",
   "theorems": [
    "C72_leading_axis_refuted",
    "C72_leading_axis_labelled"
   ],
   "note": "The documented n-dimensional support fails; the theorems state what the code does instead."
  },
  {
   "property": "C73",
   "status": "proved",
   "theorems": [
    "C73_lowest_harmonic_is_weighted_mean"
   ],
   "note": ""
  },
  {
   "property": "C74",
   "status": "proved",
   "theorems": [
    "C74_missing_value_plain",
    "C74_missing_value_labelled"
   ],
   "note": "exact behaviour of both kinds of input"
  },
  {
   "property": "C75",
   "status": "proved",
   "theorems": [
    "C75_wrong_count_rejected_plain",
    "C75_single_coefficient_refuted",
    "C75_wrong_count_rejected_labelled"
   ],
   "note": "refuted for a single coefficient; exact characterisation otherwise"
  },
  {
   "property": "C76",
   "status": "proved",
   "theorems": [
    "C76_voronoi_weights",
    "C76_voronoi_always_plain"
   ],
   "note": "tessellation areas are an oracle"
  },
  {
   "property": "C77",
   "status": "proved",
   "theorems": [
    "C77_labelled_signal"
   ],
   "note": ""
  },
  {
   "property": "C78",
   "status": "proved",
   "theorems": [
    "C78_value_along_axis",
    "C78_value_overall",
    "C78_missing_value",
    "C78_range",
    "C78_symmetric",
    "C78_affine",
    "C78_affine_decreasing",
    "C78_self",
    "C78_weights_scale",
    "C78_constant_iff"
   ],
   "note": "Kernel xskillscore _pearson_r modelled after its source; real arithmetic."
  },
  {
   "property": "C79",
   "status": "proved",
   "theorems": [
    "C79_weight_vector_gives_none",
    "C79_square_wrong_refuted"
   ],
   "note": "The expectation is false of the code; exact failing condition and a wrong value are proved."
  },
  {
   "property": "C80",
   "status": "proved",
   "theorems": [
    "C80_pcs_meta_fails",
    "C80_eofunc_ts_meta_fails",
    "C80_pcs_meta_leftmost"
   ],
   "note": "Failure and success conditions."
  },
  {
   "property": "C81",
   "status": "proved",
   "theorems": [
    "C81_meta_time_label_refuted"
   ],
   "note": "Refutation of the expectation, for all arrays."
  },
  {
   "property": "C82",
   "status": "proved",
   "theorems": [
    "C82_labelled_time_dim_refuted",
    "C82_labelled_time_dim_out_of_range"
   ],
   "note": "Refutation of the documented claim, for all DataArrays."
  },
  {
   "property": "C83",
   "status": "proved",
   "theorems": [
    "C83_attributes_kept",
    "C83_attributes_changed_refuted"
   ],
   "note": "Aliasing of the attribute dictionary."
  },
  {
   "property": "C84",
   "status": "proved",
   "theorems": [
    "C84_uneven_longitude_refuted",
    "C84_any_spacing_along_second_axis"
   ],
   "note": "Refutes the expectation that uneven spacing is always reported."
  },
  {
   "property": "C85",
   "status": "proved",
   "theorems": [
    "C85_dataset",
    "C85_own_entry",
    "C85_variable_names",
    "C85_other_entries_refuted"
   ],
   "note": "Exact value of every entry; entries off the own variable refute the natural reading."
  },
  {
   "property": "C86",
   "status": "proved",
   "theorems": [
    "C86_early_years_refuted",
    "C60_outcome"
   ],
   "note": "failure for every such input"
  },
  {
   "property": "C87",
   "status": "proved",
   "theorems": [
    "C87_dead_seasons",
    "C60_seasons"
   ],
   "note": "failure for every such input"
  },
  {
   "property": "C88",
   "status": "proved",
   "theorems": [
    "C88_dead"
   ],
   "note": "failure for every such input"
  },
  {
   "property": "C89",
   "status": "proved",
   "theorems": [
    "C89_frequency",
    "C89_axis",
    "C89_spacing"
   ],
   "note": ""
  },
  {
   "property": "C90",
   "status": "proved",
   "theorems": [
    "C90_multidim_nearest",
    "C90_multidim_nearest_cyclic"
   ],
   "note": "scipy interp1d nearest transcribed (trusted base)"
  },
  {
   "property": "C91",
   "status": "proved",
   "theorems": [
    "C91_uncovered_columns_refuted",
    "C91_covered_columns"
   ],
   "note": "the check a user relies on is missing: refuted for every two-dimensional call"
  },
  {
   "property": "C92",
   "status": "proved",
   "theorems": [
    "C92_keep_attrs",
    "C92_keep_attrs_calendar_season",
    "C92_keep_attrs_climatology_season",
    "C92_keep_attrs_anomaly"
   ],
   "note": "attributes of coordinates are not modelled"
  },
  {
   "property": "C93",
   "status": "proved",
   "theorems": [
    "C93_anomaly_variables_refuted",
    "C93_season_variables_refuted",
    "C93_season_variables_kept"
   ],
   "note": "refuted where arithmetic drops attributes and for anomalies; kept otherwise (C93_season_variables_kept, C92_keep_attrs)"
  },
  {
   "property": "C94",
   "status": "proved",
   "theorems": [
    "C94_labelled_meta",
    "C94_auxiliary_time_coordinate_refuted"
   ],
   "note": "The second theorem is a negative result about the code: auxiliary coordinates along time are kept although time is gone, so xr.DataArray rejects them. The solver class is arbitrary."
  },
  {
   "property": "C95",
   "status": "proved",
   "theorems": [
    "C95_binary64_layers"
   ],
   "note": "Same model as C01-C06 over Flocq binary64. Midpoints, halving and differences are rounded as in the code. Surface pressures at or below the first midpoint are excluded (C06)."
  },
  {
   "property": "C96",
   "status": "proved",
   "theorems": [
    "C96_labelled_pressures",
    "C96_numpy_pressures",
    "C96_labelled_thickness",
    "C96_numpy_thickness"
   ],
   "note": "Same model as C07-C11 over Flocq binary64; predicates good_pressure and good_column in SpecB64.v."
  },
  {
   "property": "C97",
   "status": "proved",
   "theorems": [
    "C97_binary64_interpolation",
    "C97_binary64_linear",
    "C97_binary64_monotone",
    "C97_exact_model_levels_refuted"
   ],
   "note": "Exactness at model levels is refuted in binary64 by C97_exact_model_levels_refuted; the bound that replaces it is in good_value (SpecB64.v)."
  },
  {
   "property": "C98",
   "status": "proved",
   "theorems": [
    "C98_binary64_humidity",
    "C98_binary64_monotone",
    "C98_binary64_nan",
    "C98_temperature_order_refuted"
   ],
   "note": "binary64 instance of the model of relhum; the _refuted theorem records that the order in temperature of C31 fails at one pair of neighbouring doubles"
  },
  {
   "property": "C99",
   "status": "proved",
   "theorems": [
    "C99_any_kinds",
    "C99_any_kinds_nan"
   ],
   "note": "Model RelhumMix.v; relhum_np and relhum_xr are special cases (relhum_nd, relhum_da), and the other relhum theorems (C30, C31, C98) cover mixtures through the constructor call_mix of relhum_call."
  }
 ]
}