{
 "claims": [
  {
   "property": "C01",
   "status": "proved",
   "theorems": [
    "C01_planck_inversion"
   ],
   "note": "Over the extended reals, for every positive h*nu/k and every positive temperature / radiance."
  },
  {
   "property": "C02",
   "status": "proved",
   "theorems": [
    "C02_monotone"
   ],
   "note": "Strict monotonicity of both directions, and zero radiance maps to 0 K."
  },
  {
   "property": "C03",
   "status": "proved",
   "theorems": [
    "C03_tau_profile"
   ],
   "note": "Every profile length, both viewing directions."
  },
  {
   "property": "C04",
   "status": "proved",
   "theorems": [
    "C04_isothermal_ground"
   ],
   "note": "0 < total opacity < 125; transparent case is C14, opaque case C13."
  },
  {
   "property": "C05",
   "status": "proved",
   "theorems": [
    "C05_isothermal_satellite"
   ],
   "note": "Unit emissivity."
  },
  {
   "property": "C06",
   "status": "proved",
   "theorems": [
    "C06_ground_bounds"
   ],
   "note": "Upper bound for every opacity; lower bound below the opaque cut-off (above it the mode drops the background and only the upper bound holds)."
  },
  {
   "property": "C07",
   "status": "proved",
   "theorems": [
    "C07_satellite_bounds"
   ],
   "note": "Emissivity in [0,1]; lower bound for unit emissivity below the cut-off."
  },
  {
   "property": "C08",
   "status": "proved",
   "theorems": [
    "C08_tmr_bounds"
   ],
   "note": "0 < total opacity < 125."
  },
  {
   "property": "C09",
   "status": "proved",
   "theorems": [
    "C09_reversal"
   ],
   "note": "For every arithmetic, so also for binary64 results bit for bit."
  },
  {
   "property": "C10",
   "status": "proved",
   "theorems": [
    "C10_ground_ignores_emissivity",
    "C10_satellite_affine"
   ],
   "note": ""
  },
  {
   "property": "C100",
   "status": "proved",
   "theorems": [
    "C100_scaled",
    "C100_value",
    "C100_missing"
   ],
   "note": ""
  },
  {
   "property": "C101",
   "status": "proved",
   "theorems": [
    "C101_metadata",
    "C101_century_refuted"
   ],
   "note": "Proved for years 1969-2068; REFUTED for 1869-1968, which come out a century late."
  },
  {
   "property": "C102",
   "status": "proved",
   "theorems": [
    "C102_rows"
   ],
   "note": "For every arithmetic."
  },
  {
   "property": "C103",
   "status": "proved",
   "theorems": [
    "C103_unit_refuted"
   ],
   "note": "REFUTED: the column is labelled per cent and holds fractions."
  },
  {
   "property": "C104",
   "status": "proved",
   "theorems": [
    "C104_rising",
    "C104_humidity_refuted"
   ],
   "note": "Rising heights proved; REFUTED for the value: specific humidity is used as mixing ratio, so heights of moist air are always too low."
  },
  {
   "property": "C105",
   "status": "proved",
   "theorems": [
    "C105_formula",
    "C105_formula_refuted"
   ],
   "note": "Identifiers 0-30; REFUTED for 31 (CCl3F), whose mass is that of formic acid."
  },
  {
   "property": "C106",
   "status": "proved",
   "theorems": [
    "C106_mass_ratio",
    "C106_unknown_gas",
    "C106_vapour_pressure"
   ],
   "note": "Partial pressure to one part in 10^9 (the two roundings of the mass ratio differ)."
  },
  {
   "property": "C107",
   "status": "proved",
   "theorems": [
    "C107_moist_air"
   ],
   "note": "Within 7e-5 q of the ideal-gas density; exact for dry air."
  },
  {
   "property": "C108",
   "status": "proved",
   "theorems": [
    "C108_number_density",
    "C108_two_routes"
   ],
   "note": "Within 7e-6 of p/(kT); the two routes agree within 1 % (the mass unit of the table is the proton mass)."
  },
  {
   "property": "C109",
   "status": "proved",
   "theorems": [
    "C109_selection",
    "C109_reference_points",
    "C109_monotone",
    "C109_monotone_refuted"
   ],
   "note": "Increasing exactly when ice is not above water at the conversion temperature; REFUTED at 273.15 K."
  },
  {
   "property": "C11",
   "status": "proved",
   "theorems": [
    "C11_reflected_downwelling_refuted"
   ],
   "note": "REFUTED: the documented law is false of the code: for every emissivity below 1 and every non-opaque profile the background is strictly smaller than documented."
  },
  {
   "property": "C110",
   "status": "proved",
   "theorems": [
    "C110_plane_parallel",
    "C110_ray_traced",
    "C110_columns"
   ],
   "note": "Numbers of the specification are reals; the theorem applies to runs whose absorptions are finite (C111 shows when)."
  },
  {
   "property": "C111",
   "status": "proved",
   "theorems": [
    "C111_run",
    "C111_from_constructor",
    "C111_bounds",
    "C111_columns",
    "C111_ray_traced",
    "C111_ray_traced_from_constructor"
   ],
   "note": "Plane-parallel for every elevation in (0,180); with ray tracing for elevations 21 to 91 degrees and heights up to 100 km. Models R03, R16, R17, R18, R19, R20 without limits; R19SD, R20SD and R24 for temperatures 100 to 385 K and pressures up to 1100 hPa (R24 below 1199 GHz, where its continuum table ends). R98 oxygen can be negative (C55)."
  },
  {
   "property": "C112",
   "status": "proved",
   "theorems": [
    "C112_black_surface",
    "C112_options",
    "C112_clear_columns"
   ],
   "note": "Every arithmetic."
  },
  {
   "property": "C113",
   "status": "proved",
   "theorems": [
    "C113_level",
    "C113_ozone",
    "C113_run"
   ],
   "note": ""
  },
  {
   "property": "C114",
   "status": "proved",
   "theorems": [
    "C114_water_shape",
    "C114_water_within",
    "C114_oxygen_shape"
   ],
   "note": ""
  },
  {
   "property": "C115",
   "status": "proved",
   "theorems": [
    "C115_curves",
    "C115_bands",
    "C115_ground_refused",
    "C115_incomplete_groups"
   ],
   "note": "Numbers handed to matplotlib; drawing itself is not modelled."
  },
  {
   "property": "C116",
   "status": "proved",
   "theorems": [
    "C116_water",
    "C116_oxygen",
    "C116_ozone",
    "C116_oxygen_234_refuted"
   ],
   "note": "REFUTED for one oxygen line: at 233.9461 GHz R16 to R20SD have four times the strength of R22 to R24, and R16 a width 1.7 times that of the others; proved for all other lines."
  },
  {
   "property": "C117",
   "status": "proved",
   "theorems": [
    "C117_water",
    "C117_continuum",
    "C117_oxygen",
    "C117_ozone"
   ],
   "note": "Statements about the whole tables, decided by computation on the tables transcribed into LineData."
  },
  {
   "property": "C118",
   "status": "proved",
   "theorems": [
    "C118_water_lines",
    "C118_water_lines_sd",
    "C118_continuum",
    "C118_shipped"
   ],
   "note": "Continuum of MWL24 not covered. With speed-dependent shapes the resonance carries a factor between 0.88 and 1.12."
  },
  {
   "property": "C119",
   "status": "proved",
   "theorems": [
    "C119_oxygen"
   ],
   "note": ""
  },
  {
   "property": "C12",
   "status": "proved",
   "theorems": [
    "C12_satellite_refuted",
    "C12_ground"
   ],
   "note": "Ground-based part proved; the satellite part is REFUTED: the column is 0 K in every row."
  },
  {
   "property": "C120",
   "status": "proved",
   "theorems": [
    "C120_R24",
    "C120_R23",
    "C120_shipped"
   ],
   "note": ""
  },
  {
   "property": "C121",
   "status": "proved",
   "theorems": [
    "C121_ozone",
    "C121_ozone_voigt",
    "C121_shipped"
   ],
   "note": "Nothing is claimed about the Voigt profile more than one half-width from the centre."
  },
  {
   "property": "C122",
   "status": "proved",
   "theorems": [
    "C122_rayleigh"
   ],
   "note": "The permittivity of the later models (dilec12) is shown to have a positive loss, its formula is not compared."
  },
  {
   "property": "C123",
   "status": "proved",
   "theorems": [
    "C123_covtb",
    "C123_value",
    "C123_shape",
    "C123_refuted"
   ],
   "note": "REFUTED: for each matrix a Jacobian row (derivatives 2, 4 and 1 K per GHz/bar with respect to six oxygen line widths) has a negative variance, more than a tenth of the uncorrelated one, so that the result is NaN: the stored matrices are not positive semidefinite. C123_value gives the result for every Jacobian."
  },
  {
   "property": "C124",
   "status": "proved",
   "theorems": [
    "C124_water",
    "C124_water_sigma",
    "C124_mixing",
    "C124_pair"
   ],
   "note": ""
  },
  {
   "property": "C125",
   "status": "proved",
   "theorems": [
    "C125_bound",
    "C125_symmetric",
    "C125_exact_symmetry_refuted"
   ],
   "note": "REFUTED in the exact form: the stored matrices are symmetric only up to 4e-7."
  },
  {
   "property": "C126",
   "status": "proved",
   "theorems": [
    "C126_split",
    "C126_oxygen",
    "C126_sigma"
   ],
   "note": ""
  },
  {
   "property": "C127",
   "status": "proved",
   "theorems": [
    "C127_warming",
    "C127_strict"
   ],
   "note": ""
  },
  {
   "property": "C128",
   "status": "proved",
   "theorems": [
    "C128_ground",
    "C128_satellite",
    "C128_cloudy_run",
    "C128_inversion_refuted"
   ],
   "note": "The hypothesis on temperatures is needed: C128_inversion_refuted. From the ground the added opacity must not carry a profile over the cut-off of 125, where the code drops the cosmic background."
  },
  {
   "property": "C129",
   "status": "proved",
   "theorems": [
    "C129_level",
    "C129_shipped",
    "C129_ozone_refuted"
   ],
   "note": "REFUTED for ozone outside the Voigt models: lines enter and leave the sum at 1 GHz from the frequency (C129_ozone_refuted). Without ozone: water-vapour models with Lorentz shapes, oxygen models R98 to R22, all nitrogen models. Speed-dependent shapes (which change to Lorentz shapes at ten half-widths; the step is bounded by C114) and the tabulated continuum of R23SD and R24 are not covered."
  },
  {
   "property": "C13",
   "status": "proved",
   "theorems": [
    "C13_opaque_cutoff"
   ],
   "note": ""
  },
  {
   "property": "C130",
   "status": "proved",
   "theorems": [
    "C130_run",
    "C130_from_constructor"
   ],
   "note": "Oxygen R98 (negative absorption, C55) is left out. Ozone models R18 and R23. Speed-dependent water-vapour shapes: 100 to 385 K, up to 1100 hPa; R23SD, R24 and MWL24 below 1199 GHz."
  },
  {
   "property": "C131",
   "status": "proved",
   "theorems": [
    "C131_arrays",
    "C131_spectrum"
   ],
   "note": "Models as in C130; plane-parallel, angles in (0,180). Lower bounds for total opacities below 125."
  },
  {
   "property": "C132",
   "status": "proved",
   "theorems": [
    "C132_level",
    "C132_header",
    "C132_tables"
   ],
   "note": "np.round is any function; a level that has only a relative humidity is left out with the empty ones."
  },
  {
   "property": "C133",
   "status": "proved",
   "theorems": [
    "C133_exact",
    "C133_row",
    "C133_table",
    "C133_humidity_refuted",
    "C133_wind_refuted",
    "C133_refuted"
   ],
   "note": "REFUTED: the page is split at blanks, so that at levels without humidity the wind direction is returned as dew point, the wind speed as relative humidity and the potential temperature as mixing ratio. True when no value follows a blank column (C133_table)."
  },
  {
   "property": "C134",
   "status": "proved",
   "theorems": [
    "C134_stations"
   ],
   "note": ""
  },
  {
   "property": "C135",
   "status": "proved",
   "theorems": [
    "C135_request",
    "C135_kept",
    "C135_refuted"
   ],
   "note": "REFUTED for two places at one time: the place is not part of the file name, the second request replaces the file of the first (C135_refuted). True for different times (C135_kept)."
  },
  {
   "property": "C136",
   "status": "proved",
   "theorems": [
    "C136_rounding",
    "C136_double"
   ],
   "note": "Overflow and underflow are left out, and total opacities within 1 of the cut-off 125, where the two runs may take different branches. For satellites the exact brightness temperature must be at least 2.728 K."
  },
  {
   "property": "C137",
   "status": "proved",
   "theorems": [
    "C137_sensitivity",
    "C137_relative",
    "C137_upward"
   ],
   "note": "Total opacities below 125 before and after the change."
  },
  {
   "property": "C138",
   "status": "proved",
   "theorems": [
    "C138_absorbed"
   ],
   "note": "Overflow and underflow are left out. The absorption coefficients and the path lengths are taken as exact inputs."
  },
  {
   "property": "C139",
   "status": "proved",
   "theorems": [
    "C139_accuracy",
    "C139_sign"
   ],
   "note": "Total opacities below 125. The integral is the Riemann integral of Coquelicot."
  },
  {
   "property": "C14",
   "status": "proved",
   "theorems": [
    "C14_transparent"
   ],
   "note": "Also shows that the mean radiating temperature is NaN."
  },
  {
   "property": "C140",
   "status": "proved",
   "theorems": [
    "C140_ground",
    "C140_satellite",
    "C140_merge"
   ],
   "note": "Total opacities below 125."
  },
  {
   "property": "C141",
   "status": "proved",
   "theorems": [
    "C141_opacities",
    "C141_setters"
   ],
   "note": "Stated for two runs that both return."
  },
  {
   "property": "C142",
   "status": "proved",
   "theorems": [
    "C142_temperature"
   ],
   "note": "Layer opacities are unchanged: the dependence of absorption on temperature is not included."
  },
  {
   "property": "C143",
   "status": "proved",
   "theorems": [
    "C143_rayleigh_jeans"
   ],
   "note": "Total opacities below 125 (beyond, the code leaves out the background)."
  },
  {
   "property": "C144",
   "status": "proved",
   "theorems": [
    "C144_limb",
    "C144_from_constructor"
   ],
   "note": "Total opacities below 125; without ray tracing (plane-parallel paths)."
  },
  {
   "property": "C145",
   "status": "proved",
   "theorems": [
    "C145_arrays",
    "C145_sonde",
    "C145_wyoming",
    "C145_igra"
   ],
   "note": "Data frames are lists of cells; the download is not modelled."
  },
  {
   "property": "C146",
   "status": "proved",
   "theorems": [
    "C146_table",
    "C146_density",
    "C146_era",
    "C146_clear"
   ],
   "note": "The file format, plotting and import_lineshape (whose list execute replaces) are not modelled."
  },
  {
   "property": "C147",
   "status": "proved",
   "theorems": [
    "C147_program",
    "C147_fresh",
    "C147_no_effect",
    "C147_solver",
    "C147_selects_refuted"
   ],
   "note": "REFUTED: once a solver has called init_absmdl the attributes of the gas classes shadow that of the base class, and the assignment has no effect or makes set_ll and the formulas disagree (C147_selects_refuted, C147_no_effect). True in a fresh process (C147_fresh, C147_program)."
  },
  {
   "property": "C148",
   "status": "proved",
   "theorems": [
    "C148_quotients",
    "C148_columns",
    "C148_units",
    "C148_response"
   ],
   "note": "The solver is any function of the values of the parameter dictionary (C89 shows that the absorption reads nothing else); plots and the final statistics (C123) are not part of it."
  },
  {
   "property": "C149",
   "status": "proved",
   "theorems": [
    "C149_sigma",
    "C149_steps",
    "C149_widths",
    "C149_steps_refuted"
   ],
   "note": "REFUTED for the steps of 13 parameters (C149_steps_refuted): the tutorial gives the widths of the oxygen lines shifted by one line (C149_widths), so that e.g. the 118 GHz width is stepped by 3.6 standard deviations; the steps of the continuum coefficients, of the width (R17_112) and of the shift (R17_111) of the 22 GHz line differ as well. All other steps agree (C149_steps) and sigma is computed as stated (C149_sigma). The steps cancel in the quotients for a linear response."
  },
  {
   "property": "C15",
   "status": "proved",
   "theorems": [
    "C15_layer_bounds"
   ],
   "note": ""
  },
  {
   "property": "C150",
   "status": "proved",
   "theorems": [
    "C150_level",
    "C150_shipped",
    "C150_drying"
   ],
   "note": "Ozone and the models with speed-dependent shapes are not included (C129 shows the jump of the ozone line window)."
  },
  {
   "property": "C151",
   "status": "proved",
   "theorems": [
    "C151_positive",
    "C151_moist",
    "C151_dry_top_refuted"
   ],
   "note": "REFUTED for a level dried completely (C151_dry_top_refuted): exponential_integration takes the arithmetic mean when one end is exactly zero and the logarithmic mean, which tends to zero, otherwise, so that the opacity of the top layer jumps up by half of what the level below would give. True while all humidities stay positive, up to 2e-9 Np per km of path, the threshold of the code (C151_moist, C151_positive)."
  },
  {
   "property": "C152",
   "status": "proved",
   "theorems": [
    "C152_nearby"
   ],
   "note": "Opacities below 125 (above, the code drops the background); heights and elevation are unchanged; without clouds, ozone and ray tracing; models R03, R16, R17, R18, R19, R20 for all gases. Without the assumption of positive humidities the claim fails for the opacity (C151)."
  },
  {
   "property": "C153",
   "status": "proved",
   "theorems": [
    "C153_gas",
    "C153_level",
    "C153_column",
    "C153_run"
   ],
   "note": "For model R98, the only one without pressure shift. In the other models the shift moves a line through its cut-off at 750 GHz, where its contribution can fall with the vapour; they are not covered. The tolerance is the threshold 1e-9 Np/km of the integration over the layers; a level with exactly zero humidity is excluded because of C151."
  },
  {
   "property": "C154",
   "status": "proved",
   "theorems": [
    "C154_moister",
    "C154_scaled"
   ],
   "note": "Plane-parallel paths; the wet refractivity is not linear in the vapour pressure, so that the wet delay is shown to grow but not to scale. A level with exactly zero humidity is excluded because of C151."
  },
  {
   "property": "C155",
   "status": "proved",
   "theorems": [
    "C155_linear",
    "C155_additive"
   ],
   "note": "Public static method, clouds given by their level numbers."
  },
  {
   "property": "C156",
   "status": "proved",
   "theorems": [
    "C156_divided_exact",
    "C156_divided_cloud_refuted"
   ],
   "note": "REFUTED: each cloud loses its uppermost layer (C20), so that a division loses the water of the layer below the level of division; the loss is given exactly."
  },
  {
   "property": "C157",
   "status": "proved",
   "theorems": [
    "C157_separate",
    "C157_rows",
    "C157_run"
   ],
   "note": "Public static method with bounds 1 and the number of levels, as called by execute for the layer opacities, every row of a clear-sky run with positive absorption, and humid soundings, for which the absorption is shown to be positive. A level with zero absorption is excluded."
  },
  {
   "property": "C158",
   "status": "proved",
   "theorems": [
    "C158_boundaries"
   ],
   "note": "For every arithmetic, also binary64; both runs are supposed to succeed, as C48 shows they do for models with a liquid formula."
  },
  {
   "property": "C159",
   "status": "proved",
   "theorems": [
    "C159_further_clouds_refuted"
   ],
   "note": "REFUTED: line 376 of tb_spectrum.py passes the levels of the first cloud only; data frames of runs whose lists of clouds start with the same cloud are equal, for every arithmetic."
  },
  {
   "property": "C16",
   "status": "proved",
   "theorems": [
    "C16_sum_of_layers",
    "C16_additive",
    "C16_linear_in_path",
    "C16_length_error"
   ],
   "note": ""
  },
  {
   "property": "C17",
   "status": "proved",
   "theorems": [
    "C17_exact_for_exponentials",
    "C17_grid_independent"
   ],
   "note": ""
  },
  {
   "property": "C18",
   "status": "proved",
   "theorems": [
    "C18_abort",
    "C18_scaled_sum_refuted"
   ],
   "note": "The abort behaviour is proved; the scaled-sum reading of the documentation is false of the code and refuted."
  },
  {
   "property": "C19",
   "status": "proved",
   "theorems": [
    "C19_wraparound_layer_ignored"
   ],
   "note": ""
  },
  {
   "property": "C20",
   "status": "proved",
   "theorems": [
    "C20_exact",
    "C20_uniform_exact",
    "C20_uniform_cloud_refuted"
   ],
   "note": "C20_exact is what the loop really computes; the claim as stated is false of the code and refuted."
  },
  {
   "property": "C21",
   "status": "proved",
   "theorems": [
    "C21_cloud_tmr_bounds",
    "C21_zero_thickness"
   ],
   "note": ""
  },
  {
   "property": "C22",
   "status": "proved",
   "theorems": [
    "C22_levels_found",
    "C22_unmatched_refuted"
   ],
   "note": "Heights equal to profile levels are found; the reporting part is REFUTED: an unmatched height silently becomes level 0."
  },
  {
   "property": "C23",
   "status": "proved",
   "theorems": [
    "C23_no_water"
   ],
   "note": "Two successful runs of a new solver are compared; that they succeed is C48. Finite path elements are assumed and proved for plane-parallel paths (flat_finite)."
  },
  {
   "property": "C24",
   "status": "proved",
   "theorems": [
    "C24_liquid_names",
    "C24_liquid_positive",
    "C24_no_liquid",
    "C24_liquid_nonnegative",
    "C24_liquid_linear",
    "C24_level"
   ],
   "note": "Positivity of liquid absorption for 208.15 K <= t <= 396 K (below it the formula for the dielectric constant loses its range)."
  },
  {
   "property": "C25",
   "status": "proved",
   "theorems": [
    "C25_refractivity"
   ],
   "note": "Physical inputs: 160-350 K, up to 1100 hPa."
  },
  {
   "property": "C26",
   "status": "proved",
   "theorems": [
    "C26_index_below_one",
    "C26_near_zenith",
    "C26_slant_path",
    "C26_bent_path"
   ],
   "note": "C26_bent_path: between 21 and 89 degrees, with heights up to 100 km and indices up to 1.001, every element is finite and equals the chord seen under the change of the angle at the centre, times arc over chord. In exact arithmetic with explicit non-finite results: every finite path element is at least the layer thickness in absolute value."
  },
  {
   "property": "C27",
   "status": "proved",
   "theorems": [
    "C27_cosecant",
    "C27_cosecant_columns",
    "C27_supplement"
   ],
   "note": ""
  },
  {
   "property": "C28",
   "status": "proved",
   "theorems": [
    "C28_vapour"
   ],
   "note": ""
  },
  {
   "property": "C29",
   "status": "proved",
   "theorems": [
    "C29_ice_option_refuted"
   ],
   "note": "REFUTED: the option raises TypeError for every input."
  },
  {
   "property": "C30",
   "status": "proved",
   "theorems": [
    "C30_saturation_pressure_monotone"
   ],
   "note": ""
  },
  {
   "property": "C31",
   "status": "proved",
   "theorems": [
    "C31_e_mr_inverse",
    "C31_rho_mr_inverse",
    "C31_ideal_gas"
   ],
   "note": ""
  },
  {
   "property": "C32",
   "status": "proved",
   "theorems": [
    "C32_saturated",
    "C32_solver_consistency"
   ],
   "note": ""
  },
  {
   "property": "C33",
   "status": "proved",
   "theorems": [
    "C33_two_routes_refuted"
   ],
   "note": "REFUTED for every positive input."
  },
  {
   "property": "C34",
   "status": "proved",
   "theorems": [
    "C34_inverse"
   ],
   "note": ""
  },
  {
   "property": "C35",
   "status": "proved",
   "theorems": [
    "C35_lapse_rate_refuted",
    "C35_code_is_growing_temperature"
   ],
   "note": "REFUTED: the code uses the formula of an atmosphere that warms with height."
  },
  {
   "property": "C36",
   "status": "proved",
   "theorems": [
    "C36_inverse",
    "C36_zero_celsius_refuted"
   ],
   "note": "The round trip is proved; the 0 C = 273.15 K part is refuted (the code uses 273.25)."
  },
  {
   "property": "C37",
   "status": "proved",
   "theorems": [
    "C37_dewpoint"
   ],
   "note": ""
  },
  {
   "property": "C38",
   "status": "proved",
   "theorems": [
    "C38_virtual_temperature"
   ],
   "note": ""
  },
  {
   "property": "C39",
   "status": "proved",
   "theorems": [
    "C39_hypsometric",
    "C39_consequences"
   ],
   "note": ""
  },
  {
   "property": "C40",
   "status": "proved",
   "theorems": [
    "C40_constants",
    "constants_entries"
   ],
   "note": ""
  },
  {
   "property": "C41",
   "status": "proved",
   "theorems": [
    "C41_gas_mass",
    "C41_climatology_refuted"
   ],
   "note": "The exact domain of gas_mass is proved; the claim that it covers the climatology is REFUTED for gases 32-43."
  },
  {
   "property": "C42",
   "status": "proved",
   "theorems": [
    "C42_frequency_tables"
   ],
   "note": ""
  },
  {
   "property": "C43",
   "status": "proved",
   "theorems": [
    "C43_symmetric_blocks",
    "C43_mws_pair_refuted"
   ],
   "note": "All blocks but one MWS pair are symmetric; that pair is REFUTED."
  },
  {
   "property": "C44",
   "status": "proved",
   "theorems": [
    "C44_exact",
    "C44_profile_order_refuted"
   ],
   "note": "REFUTED: only repeated heights are detected; the exact acceptance condition is proved."
  },
  {
   "property": "C45",
   "status": "proved",
   "theorems": [
    "C45_inputs_mutated_refuted",
    "C45_other_arrays_unchanged"
   ],
   "note": "REFUTED for the height array; the other arrays are proved untouched."
  },
  {
   "property": "C46",
   "status": "proved",
   "theorems": [
    "C46_satellite",
    "C46_emissivity",
    "C46_emissivity_frame",
    "C46_weighting"
   ],
   "note": ""
  },
  {
   "property": "C47",
   "status": "proved",
   "theorems": [
    "C47_constructor_model_refuted",
    "C47_attribute_error"
   ],
   "note": "REFUTED: a constructor given a model name raises AttributeError."
  },
  {
   "property": "C48",
   "status": "proved",
   "theorems": [
    "C48_shipped_registered",
    "C48_clear_sky",
    "C48_cloudy",
    "C48_cloudy_without_formula"
   ],
   "note": "Below 4*299.79 GHz and without ray tracing."
  },
  {
   "property": "C49",
   "status": "proved",
   "theorems": [
    "C49_other_solver_refuted",
    "C49_other_selection_breaks_run_refuted",
    "C49_shared_selection_refuted"
   ],
   "note": "REFUTED: the selection is shared by all solvers."
  },
  {
   "property": "C50",
   "status": "proved",
   "theorems": [
    "C50_reproducible",
    "C50_ozone_override_persists"
   ],
   "note": "Proved for every history in which the arrays of the solver are not written; needs the ozone list to be reloaded when ozone is used, because an ozone override persists."
  },
  {
   "property": "C51",
   "status": "proved",
   "theorems": [
    "C51_stale_table",
    "C51_clear_after_cloudy_refuted"
   ],
   "note": "REFUTED: the clear run after a cloudy one repeats the cloudy table."
  },
  {
   "property": "C52",
   "status": "proved",
   "theorems": [
    "C52_rows_independent"
   ],
   "note": ""
  },
  {
   "property": "C53",
   "status": "proved",
   "theorems": [
    "C53_h2o_units",
    "C53_o2_units",
    "C53_level",
    "C53_ozone_absent",
    "C53_ozone_present",
    "C53_profile"
   ],
   "note": ""
  },
  {
   "property": "C54",
   "status": "proved",
   "theorems": [
    "C54_names",
    "C54_nonnegative",
    "C54_pressure_squared",
    "C54_falls_with_temperature"
   ],
   "note": "MWL24 monotonicity for 0..1000 GHz and t <= 400 K."
  },
  {
   "property": "C55",
   "status": "proved",
   "theorems": [
    "C55_o2_nonnegative",
    "C55_shipped_nonnegative",
    "C55_R98_lines_refuted",
    "C55_R98_total_refuted"
   ],
   "note": "Proved for every model but R98; REFUTED for R98 with the shipped list, for the lines alone and for the total."
  },
  {
   "property": "C56",
   "status": "proved",
   "theorems": [
    "C56_window",
    "C56_nonnegative",
    "C56_no_ozone",
    "C56_shipped_lists",
    "C56_voigt_nonnegative",
    "C56_shipped_voigt",
    "C56_voigt_zero_pressure_refuted"
   ],
   "note": "Non-negativity of the Voigt models (R22, R22SD) needs pressure broadening of 1/40 of the Doppler width (shipped list: 0.02 hPa, 150-350 K); without it REFUTED."
  },
  {
   "property": "C57",
   "status": "proved",
   "theorems": [
    "C57_h2o_nonnegative",
    "C57_no_vapour",
    "C57_shipped_lists",
    "C57_shipped_nonnegative",
    "C57_tabulated_continuum",
    "C57_sd_lines",
    "C57_sd_shipped"
   ],
   "note": "Models with speed-dependent shapes: T 100-385 K, total pressure up to 1100 hPa; continua of R23SD, R24 and MWL24 below 1199 GHz."
  },
  {
   "property": "C58",
   "status": "proved",
   "theorems": [
    "C58_value",
    "C58_nodes",
    "C58_out_of_range",
    "C58_continuous",
    "C58_positive"
   ],
   "note": ""
  },
  {
   "property": "C59",
   "status": "proved",
   "theorems": [
    "C59_frame",
    "C59_new_models",
    "C59_old_models",
    "C59_unperturbed",
    "C59_refuted",
    "h2o_override_idempotent",
    "o2_override_idempotent",
    "o3_override_idempotent"
   ],
   "note": "REFUTED for models up to R19: after perturbing Y300_NL (or O2_V_NL) a run overwrites lines 34-48 of the entry Y300 (O2_V) of the caller; proved for later models and for unperturbed mixing entries."
  },
  {
   "property": "C60",
   "status": "proved",
   "theorems": [
    "C60_exact",
    "C60_defaults_kept",
    "C60_non",
    "C60_unknown_name",
    "C60_unknown_mode",
    "C60_unset",
    "C60_index_error",
    "C60_mode_check_refuted",
    "C60_shared_refuted"
   ],
   "note": "Exact for entries that share no array; REFUTED for O2gamma/O2gamma_NL (one array in the default table) and for the mode check with an empty dictionary."
  },
  {
   "property": "C61",
   "status": "proved",
   "theorems": [
    "C61_first_order",
    "C61_unknown_name",
    "C61_power_refuted",
    "C61_zero_factor_refuted"
   ],
   "note": "REFUTED: non-negativity for A^a with negative A, and a NaN for products with a zero factor."
  },
  {
   "property": "C62",
   "status": "proved",
   "theorems": [
    "C62_water",
    "C62_oxygen",
    "C62_ozone",
    "C62_refuted",
    "C62_stale_refuted"
   ],
   "note": "REFUTED for water R98, MWL24 and oxygen models listed in C62_refuted; after another load a mixed table is returned."
  },
  {
   "property": "C63",
   "status": "proved",
   "theorems": [
    "C63_frequencies_independent",
    "C63_weights",
    "C63_layers_nonneg",
    "C63_transmittance",
    "C63_weighting_functions",
    "C63_defined"
   ],
   "note": "Definedness for physical profiles and shipped line lists in C63_defined."
  },
  {
   "property": "C64",
   "status": "proved",
   "theorems": [
    "C64_block_means",
    "C64_one_channel",
    "C64_bounds",
    "C64_total"
   ],
   "note": ""
  },
  {
   "property": "C65",
   "status": "proved",
   "theorems": [
    "C65_refuted",
    "C65_after_single_bands_partial"
   ],
   "note": "REFUTED: once a channel is preceded by more rows than channels its label is strictly too low for increasing frequencies; correct when all earlier channels have one band."
  },
  {
   "property": "C66",
   "status": "proved",
   "theorems": [
    "C66_one_call",
    "C66_extrapolation"
   ],
   "note": "For objects of any history; heights also reach exactly 100 km."
  },
  {
   "property": "C67",
   "status": "proved",
   "theorems": [
    "C67_tall_refuted"
   ],
   "note": "REFUTED: every such profile raises UnboundLocalError."
  },
  {
   "property": "C68",
   "status": "proved",
   "theorems": [
    "C68_same_heights",
    "C68_leftover",
    "C68_refuted"
   ],
   "note": "REFUTED: levels of an earlier profile turn up in a later extension; proved for repeated calls with the same heights."
  },
  {
   "property": "C69",
   "status": "proved",
   "theorems": [
    "C69_one_of_three",
    "C69_north",
    "C69_south",
    "C69_tropics"
   ],
   "note": ""
  },
  {
   "property": "C70",
   "status": "proved",
   "theorems": [
    "C70_pressure_falls",
    "C70_pressure_decreases",
    "C70_pressure_in_layer",
    "C70_temperature",
    "C70_seams_refuted",
    "C70_gap_refuted"
   ],
   "note": "Positive pressures and temperatures proved; decrease proved for heights a metre apart or in one layer and outside the gap; REFUTED just above six layer boundaries and in the gap below 86 km."
  },
  {
   "property": "C71",
   "status": "proved",
   "theorems": [
    "C71_refuted",
    "C71_surface_refuted"
   ],
   "note": "REFUTED: the surface arguments are never read."
  },
  {
   "property": "C72",
   "status": "proved",
   "theorems": [
    "C72_selection",
    "C72_others_raise"
   ],
   "note": "Every constant of the class selects its own table; every other integer raises UnboundLocalError."
  },
  {
   "property": "C73",
   "status": "proved",
   "theorems": [
    "C73_minor",
    "C73_trace",
    "C73_raises",
    "C73_wrap_refuted"
   ],
   "note": "Proved for the gases of each table and for identifiers far off; REFUTED for identifiers just below the table, which return the profile of an unrelated gas."
  },
  {
   "property": "C74",
   "status": "proved",
   "theorems": [
    "C74_selection",
    "C74_dates_fit"
   ],
   "note": "Files given as lists of header and data lines."
  },
  {
   "property": "C75",
   "status": "proved",
   "theorems": [
    "C75_exact",
    "C75_lost_refuted",
    "C75_mixed_refuted"
   ],
   "note": "REFUTED: a later sounding placed before the range makes the selection fail; one placed inside it is returned, header included, among the data lines. C75_exact says what is returned for files of any order."
  },
  {
   "property": "C76",
   "status": "proved",
   "theorems": [
    "C76_elapsed",
    "C76_release_exact",
    "C76_release_refuted"
   ],
   "note": "Elapsed times (MMMSS) proved; REFUTED for release times, which always come out too early."
  },
  {
   "property": "C77",
   "status": "proved",
   "theorems": [
    "C77_degrees",
    "C77_value",
    "C77_short_refuted",
    "C77_refuted"
   ],
   "note": "Proved for fields of four or more digits; REFUTED for shorter fields, which come out at least a hundred times too large or raise."
  },
  {
   "property": "C78",
   "status": "proved",
   "theorems": [
    "C78_vector",
    "C78_main",
    "C78_faithful"
   ],
   "note": "Over ideal reals."
  },
  {
   "property": "C79",
   "status": "proved",
   "theorems": [
    "C79_data",
    "C79_derived_refuted"
   ],
   "note": "Sounding data proved; REFUTED for derived parameters: a file that is not in the archive is asked for."
  },
  {
   "property": "C80",
   "status": "proved",
   "theorems": [
    "C80_joined",
    "C80_absolute_refuted",
    "C80_callers",
    "C80_region",
    "C80_status",
    "C80_errors",
    "C80_wyoming_pages"
   ],
   "note": "Proved for paths that do not start with a slash; REFUTED for those that do: the base is dropped."
  },
  {
   "property": "C81",
   "status": "proved",
   "theorems": [
    "C81_injective",
    "C81_hour_only"
   ],
   "note": ""
  },
  {
   "property": "C82",
   "status": "proved",
   "theorems": [
    "C82_diagonal",
    "C82_rectangular_refuted",
    "C82_refuted"
   ],
   "note": "REFUTED: only points on the diagonal of the grid are considered, and grids that are not square raise. C82_diagonal: the nearest point of the diagonal is found."
  },
  {
   "property": "C83",
   "status": "proved",
   "theorems": [
    "C83_conjugation",
    "C83_lower_half_plane_refuted"
   ],
   "note": "Conjugation symmetry is proved; the lower half plane continuation is REFUTED (missing conjugate)."
  },
  {
   "property": "C84",
   "status": "proved",
   "theorems": [
    "C84_discretised_transfer"
   ],
   "note": ""
  },
  {
   "property": "C85",
   "status": "proved",
   "theorems": [
    "C85_straight_ray_refuted"
   ],
   "note": "REFUTED: the claim is false of the code: at low elevation the traced path in a homogeneous medium is strictly longer than the straight line."
  },
  {
   "property": "C86",
   "status": "proved",
   "theorems": [
    "C86_self_continuum_factor",
    "C86_power_law_refuted"
   ],
   "note": "REFUTED for R23SD and R24: the exponent enters as a factor."
  },
  {
   "property": "C87",
   "status": "proved",
   "theorems": [
    "C87_real_part",
    "C87_real_part_refuted"
   ],
   "note": "Proved for imaginary part >= 1/40; REFUTED on the real axis."
  },
  {
   "property": "C88",
   "status": "proved",
   "theorems": [
    "C88_oxygen",
    "C88_ozone",
    "C88_water",
    "C88_absorption",
    "C88_defaults",
    "C88_refuted"
   ],
   "note": "REFUTED for water models R16 and R17."
  },
  {
   "property": "C89",
   "status": "proved",
   "theorems": [
    "C89_values_only",
    "C89_water_applied",
    "C89_water_kept",
    "C89_water_continuum",
    "C89_oxygen_applied",
    "C89_ozone_applied",
    "C89_run",
    "C89_oxygen_inert_refuted",
    "C89_water_inert_refuted"
   ],
   "note": "REFUTED: several listed entries are inert; proved that only values enter and, entry by entry, what the others replace."
  },
  {
   "property": "C90",
   "status": "proved",
   "theorems": [
    "C90_ground",
    "C90_satellite_extra_layer",
    "C90_satellite_refuted"
   ],
   "note": "Proved for ground sensors; REFUTED for satellites: the transmittance also includes the layer beneath the level."
  },
  {
   "property": "C91",
   "status": "proved",
   "theorems": [
    "C91_history_independent",
    "C91_oxygen_always_newest"
   ],
   "note": ""
  },
  {
   "property": "C92",
   "status": "proved",
   "theorems": [
    "C92_without_bands_partial",
    "C92_bands_overwrite",
    "C92_refuted"
   ],
   "note": "REFUTED with pass bands: plotting overwrites the frequencies; proved without pass bands."
  },
  {
   "property": "C93",
   "status": "proved",
   "theorems": [
    "C93_ground",
    "C93_satellite_heights_refuted",
    "C93_many_channels_refuted",
    "C93_ground_normalised_refuted",
    "C93_satellite_normalised_refuted",
    "C93_satellite_normalised"
   ],
   "note": "Ground heights proved; REFUTED for satellite heights, for more channels than levels and for normalised curves."
  },
  {
   "property": "C94",
   "status": "proved",
   "theorems": [
    "C94_constructor",
    "C94_interpolation",
    "C94_bounds",
    "C94_nodes",
    "C94_elevated_refuted"
   ],
   "note": "REFUTED for stations above sea level: the grid starts at 0 km, so the first levels share the surface pressure; everything else proved."
  },
  {
   "property": "C95",
   "status": "proved",
   "theorems": [
    "C95_percent",
    "C95_refuted"
   ],
   "note": "REFUTED: added levels are in per cent."
  },
  {
   "property": "C96",
   "status": "proved",
   "theorems": [
    "C96_pressure_falls",
    "C96_temperature",
    "C96_vapour",
    "C96_winter_refuted",
    "C96_seasons"
   ],
   "note": "Proved; strict decrease is REFUTED within a micrometre above 72 km in winter at middle and high latitudes."
  },
  {
   "property": "C97",
   "status": "proved",
   "theorems": [
    "C97_added_fall",
    "C97_refuted"
   ],
   "note": "The added levels among themselves fall (fresh object); REFUTED across the junction."
  },
  {
   "property": "C98",
   "status": "proved",
   "theorems": [
    "C98_physical",
    "C98_accepted"
   ],
   "note": "Finite data (six tables), decided by computation and lifted to the reals."
  },
  {
   "property": "C99",
   "status": "proved",
   "theorems": [
    "C99_documented_refuted"
   ],
   "note": "REFUTED: option k of the documentation is the atmosphere k+1; option 6 raises."
  }
 ]
}