{"id": "C01", "title": "Planck inversion", "statement": "Converting a temperature to the modified Planck radiance and back with the brightness-temperature routine returns the same temperature, and converting a positive radiance to brightness temperature and back returns the same radiance; no NaN or infinity appears.", "quantifier": "all hv/k > 0, all temperatures > 0, all radiances > 0", "why_tests_cant": "Ranges over a continuum of real inputs; tests sample a handful of points.", "anchors": ["pyrtlib/utils.py:tk2b_mod", "pyrtlib/rt_equation.py:RTEquation.bright"]}
{"id": "C02", "title": "Planck radiance and brightness temperature are strictly increasing", "statement": "A warmer body has a strictly larger radiance and a larger radiance has a strictly larger brightness temperature; a zero radiance maps to 0 K.", "quantifier": "all hv/k > 0 and all pairs of temperatures/radiances", "why_tests_cant": "Ranges over a continuum of real inputs; tests sample a handful of points.", "anchors": ["pyrtlib/utils.py:tk2b_mod", "pyrtlib/rt_equation.py:RTEquation.bright"]}
{"id": "C03", "title": "Opacity profile is the running sum of layer opacities", "statement": "The opacity profile returned with the radiances starts at 0 at the antenna, never decreases away from it, and its far-end value is the sum of all layer opacities; ground-based and satellite modes report the same total.", "quantifier": "every profile length >= 1, every list of non-negative layer opacities, both viewing modes", "why_tests_cant": "Profiles of every length are allowed; a test fixes one length.", "anchors": ["pyrtlib/rt_equation.py:RTEquation.planck"]}
{"id": "C04", "title": "Isothermal downwelling closed form", "statement": "In an isothermal atmosphere at T the ground-based mean radiating temperature is T and the total radiance is B(T)(1-exp(-tau)) + B(2.728 K)exp(-tau).", "quantifier": "every profile length, every non-negative layer opacities with total in (0,125), every T > 0, every frequency > 0", "why_tests_cant": "Profiles of every length are allowed; a test fixes one length.", "anchors": ["pyrtlib/rt_equation.py:RTEquation.planck"]}
{"id": "C05", "title": "Isothermal upwelling over a black surface", "statement": "Seen from a satellite, an isothermal atmosphere over a surface of emissivity 1 has brightness temperature exactly T at every frequency.", "quantifier": "every profile length, layer opacities >= 0 with total < 125, T > 0, frequency > 0", "why_tests_cant": "Profiles of every length are allowed; a test fixes one length.", "anchors": ["pyrtlib/rt_equation.py:RTEquation.planck", "pyrtlib/rt_equation.py:RTEquation.bright"]}
{"id": "C06", "title": "Ground-based brightness temperature is bounded", "statement": "The downwelling brightness temperature lies between the smallest and largest of the level temperatures and the cosmic background.", "quantifier": "every profile with temperatures > 0, layer opacities >= 0 with total < 125, frequency > 0", "why_tests_cant": "Profiles of every length are allowed; a test fixes one length. The extrema may occur at any level.", "anchors": ["pyrtlib/rt_equation.py:RTEquation.planck", "pyrtlib/tb_spectrum.py:TbCloudRTE.execute"]}
{"id": "C07", "title": "Satellite brightness temperature is bounded", "statement": "The upwelling brightness temperature never exceeds the warmest level, and with emissivity 1 is not below the coldest level.", "quantifier": "every profile, every emissivity in [0,1], total opacity < 125", "why_tests_cant": "Profiles of every length are allowed; a test fixes one length.", "anchors": ["pyrtlib/rt_equation.py:RTEquation.planck", "pyrtlib/tb_spectrum.py:TbCloudRTE.execute"]}
{"id": "C08", "title": "Mean radiating temperature is bounded", "statement": "The mean radiating temperature lies between the coldest and the warmest level temperature whenever the total opacity is in (0,125).", "quantifier": "every profile, both viewing modes", "why_tests_cant": "Profiles of every length are allowed; a test fixes one length.", "anchors": ["pyrtlib/rt_equation.py:RTEquation.planck"]}
{"id": "C09", "title": "Upwelling is downwelling through the reversed profile", "statement": "The atmospheric emission seen by a satellite equals the atmospheric emission seen from the ground through the vertically reversed atmosphere.", "quantifier": "every profile and every list of layer opacities", "why_tests_cant": "Profiles of every length are allowed; a test fixes one length.", "anchors": ["pyrtlib/rt_equation.py:RTEquation.planck"]}
{"id": "C10", "title": "Emissivity enters affinely and only for satellites", "statement": "The satellite radiance is an affine, non-decreasing function of the surface emissivity, and the ground-based result does not depend on it at all.", "quantifier": "every profile, opacities, frequency and pair of emissivities", "why_tests_cant": "Ranges over a continuum of real inputs; tests sample a handful of points.", "anchors": ["pyrtlib/rt_equation.py:RTEquation.planck", "pyrtlib/tb_spectrum.py:TbCloudRTE.emissivity"]}
{"id": "C11", "title": "Satellite background contains reflected downwelling", "statement": "The satellite background is surface emission plus (1-emissivity) times the downwelling radiance at the surface, as the routine documents.", "quantifier": "every profile and emissivity in [0,1)", "why_tests_cant": "Existing tests only use emissivity values for which the number is recorded, not the law.", "anchors": ["pyrtlib/rt_equation.py:RTEquation.planck"]}
{"id": "C12", "title": "Atmospheric brightness temperature column", "statement": "The 'tbatm' output column is the brightness temperature of the atmospheric emission alone, in both viewing modes.", "quantifier": "every profile and both viewing modes", "why_tests_cant": "The column is never compared with an independent value for satellites.", "anchors": ["pyrtlib/tb_spectrum.py:TbCloudRTE.execute", "pyrtlib/rt_equation.py:RTEquation.planck"]}
{"id": "C13", "title": "Opaque cut-off", "statement": "When the total opacity reaches 125 the background term is dropped; the radiance then differs from the untruncated law by less than B(background)*exp(-125), and below the threshold the background is included.", "quantifier": "every profile and opacity list", "why_tests_cant": "The switch happens at one real threshold for arbitrary profiles.", "anchors": ["pyrtlib/rt_equation.py:RTEquation.planck"]}
{"id": "C14", "title": "Transparent atmosphere", "statement": "With zero opacity everywhere the brightness temperature is the background (2.728 K from the ground, the surface for an emissivity-1 satellite view) and the mean radiating temperature is undefined (NaN), not a number.", "quantifier": "every profile length and temperatures > 0", "why_tests_cant": "Profiles of every length are allowed; a test fixes one length.", "anchors": ["pyrtlib/rt_equation.py:RTEquation.planck", "pyrtlib/rt_equation.py:RTEquation.bright"]}
{"id": "C15", "title": "Layer integral lies between its end values", "statement": "Each layer integral of the exponential-profile integration lies between path*min and path*max of the two end values, for either zero-handling flag it is non-negative, and never exceeds the trapezoid value when the log-mean branch is taken.", "quantifier": "all non-negative samples, all path lengths >= 0, all layers", "why_tests_cant": "Ranges over a continuum of real inputs; tests sample a handful of points.", "anchors": ["pyrtlib/rt_equation.py:RTEquation.exponential_integration"]}
{"id": "C16", "title": "Integral is the scaled sum of layers, additive and linear in the path", "statement": "For non-negative samples the integral equals factor times the sum of the returned layer values, integrating two adjacent index ranges adds up to the whole range, and scaling all path lengths scales every layer and the integral.", "quantifier": "every profile length, index range, factor and scale", "why_tests_cant": "Profiles of every length are allowed; a test fixes one length.", "anchors": ["pyrtlib/rt_equation.py:RTEquation.exponential_integration"]}
{"id": "C17", "title": "Exact for exponential profiles", "statement": "For a quantity that varies exponentially with path the integration returns the exact analytic integral, so refining the grid does not change the result.", "quantifier": "all scale heights, layer thicknesses and any number of sub-layers (each changing by at least 1e-9)", "why_tests_cant": "Ranges over a continuum of real inputs; tests sample a handful of points.", "anchors": ["pyrtlib/rt_equation.py:RTEquation.exponential_integration"]}
{"id": "C18", "title": "Negative sample aborts the integration", "statement": "As soon as one end of a layer is negative the integration stops; the layers processed so far keep their values, the rest are 0, and the returned integral is the scaled sum of the processed layers.", "quantifier": "every position of the first negative sample", "why_tests_cant": "The abort point is any index of any profile.", "anchors": ["pyrtlib/rt_equation.py:RTEquation.exponential_integration"]}
{"id": "C19", "title": "Integration from the first level ignores the wrap-around layer", "statement": "Columns computed from the first level (whose layer pairs the last and first samples) equal the column computed from the second level because the first path element is 0.", "quantifier": "every non-negative profile and path with first element 0", "why_tests_cant": "Profiles of every length are allowed; a test fixes one length.", "anchors": ["pyrtlib/rt_equation.py:RTEquation.exponential_integration", "pyrtlib/tb_spectrum.py:TbCloudRTE.execute"]}
{"id": "C20", "title": "Integrated cloud density of a uniform cloud", "statement": "The integrated density of a cloud of uniform density rho between two levels is 0.1*rho times the path between base and top.", "quantifier": "every cloud base/top level pair and every path", "why_tests_cant": "One off-by-one in the level range escapes a recorded number.", "anchors": ["pyrtlib/rt_equation.py:RTEquation.cloud_integrated_density"]}
{"id": "C21", "title": "Cloud mean radiating temperature is bounded", "statement": "The cloud mean radiating temperature lies between the coldest and warmest cloud level when the cloud opacity is positive and below 125, in both viewing modes; for a cloud of zero thickness (base = top) it is not a number.", "quantifier": "every profile and base/top pair", "why_tests_cant": "Profiles of every length are allowed; a test fixes one length.", "anchors": ["pyrtlib/rt_equation.py:RTEquation.cloud_radiating_temperature"]}
{"id": "C22", "title": "Cloud level lookup", "statement": "Cloud base and top indices are the levels whose height equals the given heights; a height that matches no level is reported.", "quantifier": "every height grid and every list of cloud base/top heights", "why_tests_cant": "Any mismatch between user heights and grid must be noticed.", "anchors": ["pyrtlib/tb_spectrum.py:TbCloudRTE.init_cloudy"]}
{"id": "C23", "title": "A cloud without water changes nothing", "statement": "Running with the cloudy switch on and zero liquid and ice densities gives the clear-sky opacities and brightness temperatures.", "quantifier": "every profile, base/top list and frequency", "why_tests_cant": "Profiles of every length are allowed; a test fixes one length.", "anchors": ["pyrtlib/rt_equation.py:RTEquation.cloudy_absorption", "pyrtlib/tb_spectrum.py:TbCloudRTE.execute"]}
{"id": "C24", "title": "Liquid and ice absorption are linear in density and non-negative", "statement": "Liquid absorption is proportional to the liquid density and non-negative (0 for densities <= 0); ice absorption is proportional to ice density.", "quantifier": "all densities, frequencies >= 0 and temperatures in the stated physical range", "why_tests_cant": "Ranges over a continuum of real inputs; tests sample a handful of points.", "anchors": ["pyrtlib/absorption_model.py:LiqAbsModel.liquid_water_absorption", "pyrtlib/rt_equation.py:RTEquation.cloudy_absorption", "pyrtlib/utils.py:dilec12"]}
{"id": "C25", "title": "Refractivity", "statement": "Refractivity is computed level by level; the refractive index is 1 + 1e-6*(dry+wet), the wet part vanishes for dry air and the index exceeds 1 for physical inputs.", "quantifier": "every profile length and physical p,t,e", "why_tests_cant": "Profiles of every length are allowed; a test fixes one length.", "anchors": ["pyrtlib/rt_equation.py:RTEquation.refractivity"]}
{"id": "C26", "title": "Ray tracing path lengths", "statement": "Near the zenith the path equals the height differences; a refractive index below 1 yields no result; otherwise each slant path element is at least the layer thickness; ducting leaves the remaining path elements 0; for slanted rays in air every element is finite and equals the chord under the traced angle at the centre, lengthened to the arc of the bent ray.", "quantifier": "every profile, elevation angle, station height", "why_tests_cant": "Profiles of every length are allowed; a test fixes one length.", "anchors": ["pyrtlib/rt_equation.py:RTEquation.ray_tracing"]}
{"id": "C27", "title": "Plane-parallel opacity scales with the cosecant of elevation", "statement": "Without ray tracing every opacity reported at elevation angle a is the zenith opacity divided by sin(a); angles a and 180-a give the same result.", "quantifier": "every profile, absorber, angle in (0,180)", "why_tests_cant": "Ranges over a continuum of real inputs; tests sample a handful of points.", "anchors": ["pyrtlib/tb_spectrum.py:TbCloudRTE.execute", "pyrtlib/rt_equation.py:RTEquation.exponential_integration"]}
{"id": "C28", "title": "Vapour pressure and density from relative humidity", "statement": "Vapour pressure is proportional to relative humidity, equals the saturation value of the utility routine at 100 %, and satisfies the ideal gas law with the returned density.", "quantifier": "every profile of t > 0 and rh", "why_tests_cant": "Ranges over a continuum of real inputs; tests sample a handful of points.", "anchors": ["pyrtlib/rt_equation.py:RTEquation.vapor", "pyrtlib/utils.py:eswat_goffgratch"]}
{"id": "C29", "title": "Vapour over ice option", "statement": "Requesting saturation over ice returns vapour pressures that use the ice formula below 263.16 K.", "quantifier": "every profile", "why_tests_cant": "The option is never exercised.", "anchors": ["pyrtlib/rt_equation.py:RTEquation.vapor"]}
{"id": "C30", "title": "Saturation vapour pressure increases with temperature", "statement": "Saturation vapour pressure over water and over ice are positive and strictly increasing in temperature.", "quantifier": "all temperatures in the stated range", "why_tests_cant": "Ranges over a continuum of real inputs; tests sample a handful of points.", "anchors": ["pyrtlib/utils.py:eswat_goffgratch", "pyrtlib/utils.py:esice_goffgratch", "pyrtlib/utils.py:satvap"]}
{"id": "C31", "title": "Mixing ratio, vapour pressure and density conversions are inverse", "statement": "mr2e/e2mr and mr2rho/rho2mr undo each other exactly (ideal arithmetic) on their whole domain, and both agree with each other through the ideal gas law.", "quantifier": "all pressures, temperatures, mixing ratios on the domain", "why_tests_cant": "Ranges over a continuum of real inputs; tests sample a handful of points.", "anchors": ["pyrtlib/utils.py:mr2e", "pyrtlib/utils.py:e2mr", "pyrtlib/utils.py:mr2rho", "pyrtlib/utils.py:rho2mr"]}
{"id": "C32", "title": "Relative humidity of saturated air and consistency with the solver", "statement": "Air at the saturation mixing ratio has 100 % relative humidity in both definitions; the humidity derived from a mixing ratio, passed to the solver, gives back the vapour pressure of that mixing ratio.", "quantifier": "all p, t, mixing ratios on the domain", "why_tests_cant": "Ranges over a continuum of real inputs; tests sample a handful of points.", "anchors": ["pyrtlib/utils.py:mr2rh", "pyrtlib/utils.py:satmix", "pyrtlib/rt_equation.py:RTEquation.vapor"]}
{"id": "C33", "title": "Two routes to relative humidity agree", "statement": "Converting a mixing ratio to vapour density and then to relative humidity gives the relative humidity of the mixing ratio.", "quantifier": "all p, t, mixing ratios on the domain", "why_tests_cant": "Ranges over a continuum of real inputs; tests sample a handful of points.", "anchors": ["pyrtlib/utils.py:rho2rh", "pyrtlib/utils.py:mr2rho", "pyrtlib/utils.py:mr2rh"]}
{"id": "C34", "title": "Pressure and height conversions are inverse and monotone", "statement": "height_to_pressure and pressure_to_height undo each other and height decreases as pressure grows.", "quantifier": "all pressures > 0 and all heights on the domain", "why_tests_cant": "Ranges over a continuum of real inputs; tests sample a handful of points.", "anchors": ["pyrtlib/utils.py:pressure_to_height", "pyrtlib/utils.py:height_to_pressure"]}
{"id": "C35", "title": "Standard-atmosphere lapse rate", "statement": "pressure_to_height is the documented standard-atmosphere formula, in which temperature falls by 6.5 K per km.", "quantifier": "all pressures", "why_tests_cant": "The recorded test value freezes the computed number.", "anchors": ["pyrtlib/utils.py:pressure_to_height", "pyrtlib/utils.py:height_to_pressure"]}
{"id": "C36", "title": "Kelvin and Celsius", "statement": "to_kelvin and to_celsius undo each other, and 0 degrees Celsius is 273.15 K.", "quantifier": "all temperatures", "why_tests_cant": "The test freezes the computed offset.", "anchors": ["pyrtlib/utils.py:to_kelvin", "pyrtlib/utils.py:to_celsius"]}
{"id": "C37", "title": "Relative humidity from dew point", "statement": "The relative humidity is 1 exactly when dew point equals temperature, positive, strictly increasing in dew point and below 1 for dew points below the temperature, for each formula and for the ice option.", "quantifier": "all temperatures and dew points above the formula's pole", "why_tests_cant": "Ranges over a continuum of real inputs; tests sample a handful of points.", "anchors": ["pyrtlib/utils.py:dewpoint2rh"]}
{"id": "C38", "title": "Virtual temperature", "statement": "Virtual temperature is at least the temperature for non-negative mixing ratio, equal only for dry air, increasing in the mixing ratio and below T/epsilon.", "quantifier": "all T > 0, mixing ratio >= 0", "why_tests_cant": "Ranges over a continuum of real inputs; tests sample a handful of points.", "anchors": ["pyrtlib/utils.py:virtual_temperature"]}
{"id": "C39", "title": "Hypsometric thickness", "statement": "Heights computed from pressure and temperature start at 0, increase strictly when pressure decreases, obey the hypsometric formula for isothermal dry air and add up over sub-columns.", "quantifier": "every profile length", "why_tests_cant": "Profiles of every length are allowed; a test fixes one length.", "anchors": ["pyrtlib/utils.py:atmospheric_tickness", "pyrtlib/utils.py:_thickness_hydrostatic"]}
{"id": "C40", "title": "Physical constant lookup", "statement": "A known constant name returns its value and unit, an unknown name raises ValueError, no name returns the list of names.", "quantifier": "all strings", "why_tests_cant": "The set of names is infinite.", "anchors": ["pyrtlib/utils.py:constants"]}
{"id": "C41", "title": "Gas masses cover the gases of the climatology", "statement": "gas_mass returns a positive mass for every gas identifier defined by the climatology, and raises for every other identifier.", "quantifier": "all integers", "why_tests_cant": "Tests loop over the identifiers that work.", "anchors": ["pyrtlib/utils.py:gas_mass", "pyrtlib/climatology/atmospheric_profiles.py:AtmosphericProfiles"]}
{"id": "C42", "title": "Instrument frequency tables", "statement": "Instrument names are matched case-insensitively, unknown names raise ValueError, and all frequencies are positive.", "quantifier": "all strings", "why_tests_cant": "The set of names is infinite.", "anchors": ["pyrtlib/utils.py:get_frequencies", "pyrtlib/utils.py:get_frequencies_sat"]}
{"id": "C43", "title": "Double-sideband channels are symmetric", "statement": "Every double-sideband pair in the satellite instrument tables is symmetric about its centre frequency.", "quantifier": "all instruments and channels", "why_tests_cant": "Only one instrument is compared in tests.", "anchors": ["pyrtlib/utils.py:get_frequencies_sat"]}
{"id": "C44", "title": "Profile order check", "statement": "The solver accepts exactly profiles with strictly increasing heights, reverses strictly decreasing ones and rejects the rest.", "quantifier": "all height arrays of every length", "why_tests_cant": "Any height array is possible input.", "anchors": ["pyrtlib/tb_spectrum.py:TbCloudRTE.__init__"]}
{"id": "C45", "title": "Constructing a solver leaves the inputs alone", "statement": "Creating a solver does not modify the caller's arrays, so creating a second solver from the same arrays gives the same solver.", "quantifier": "all profiles and station heights", "why_tests_cant": "Aliasing effects appear only on reuse.", "anchors": ["pyrtlib/tb_spectrum.py:TbCloudRTE.__init__"]}
{"id": "C46", "title": "Property validation", "statement": "The satellite switch accepts exactly booleans and the emissivity accepts exactly floats (spread over all frequencies) or arrays; anything else raises ValueError and leaves the object unchanged; the same for satellite switch and frequencies of the weighting functions.", "quantifier": "all values of any type and any object state", "why_tests_cant": "Any value may be assigned at any time.", "anchors": ["pyrtlib/tb_spectrum.py:TbCloudRTE.satellite", "pyrtlib/tb_spectrum.py:TbCloudRTE.emissivity"]}
{"id": "C47", "title": "Model name given to the constructor", "statement": "Passing an absorption model name to the constructor selects that model.", "quantifier": "all model names", "why_tests_cant": "Never exercised.", "anchors": ["pyrtlib/tb_spectrum.py:TbCloudRTE.__init__", "pyrtlib/tb_spectrum.py:TbCloudRTE.init_absmdl"]}
{"id": "C48", "title": "Which model names run", "statement": "After selecting one model name for all species, a clear-sky run succeeds for exactly the names available for water vapour and oxygen (and nitrogen), and fails with a model error otherwise; a cloudy run additionally needs a liquid-water formula.", "quantifier": "all strings", "why_tests_cant": "The set of names is infinite.", "anchors": ["pyrtlib/tb_spectrum.py:TbCloudRTE.init_absmdl", "pyrtlib/tb_spectrum.py:TbCloudRTE._init_linelist", "pyrtlib/absorption_model.py:AbsModel"]}
{"id": "C49", "title": "Solvers do not share model selection", "statement": "Selecting a model on one solver does not affect another solver.", "quantifier": "every interleaving of operations on two solvers", "why_tests_cant": "Interference needs interleaved histories.", "anchors": ["pyrtlib/tb_spectrum.py:TbCloudRTE.init_absmdl", "pyrtlib/absorption_model.py:AbsModel.model"]}
{"id": "C50", "title": "Runs are reproducible whatever happened before", "statement": "With the models selected immediately before, the result of a run depends only on the solver's inputs and settings, not on earlier runs, other solvers, earlier viewing modes, emissivities or perturbed spectroscopic parameters.", "quantifier": "every sequence of operations before the run", "why_tests_cant": "Histories are unbounded.", "anchors": ["pyrtlib/tb_spectrum.py:TbCloudRTE.execute", "pyrtlib/utils.py:import_lineshape"]}
{"id": "C51", "title": "Clear-sky run after a cloudy run", "statement": "Turning the cloudy switch off makes the next run a clear-sky run.", "quantifier": "every history", "why_tests_cant": "Needs a particular history.", "anchors": ["pyrtlib/tb_spectrum.py:TbCloudRTE.execute", "pyrtlib/tb_spectrum.py:TbCloudRTE.cloudy"]}
{"id": "C52", "title": "Rows are independent and ordered", "statement": "The result table has one row per angle and frequency, angle-major; each row equals the row obtained by running that frequency and angle alone.", "quantifier": "every list of frequencies and angles", "why_tests_cant": "Lists of all lengths.", "anchors": ["pyrtlib/tb_spectrum.py:TbCloudRTE.execute"]}
{"id": "C53", "title": "Absorption coefficients in Np/km", "statement": "Wet absorption is the water-vapour coefficient and dry absorption the sum of oxygen, nitrogen and ozone coefficients with all unit factors cancelling; ozone is included exactly when a profile and an ozone model are set.", "quantifier": "every profile length, frequency > 0", "why_tests_cant": "Ranges over a continuum of real inputs; tests sample a handful of points.", "anchors": ["pyrtlib/rt_equation.py:RTEquation.clearsky_absorption"]}
{"id": "C54", "title": "Nitrogen absorption", "statement": "Nitrogen absorption is non-negative, proportional to pressure squared, falls with temperature, and unknown models raise ValueError.", "quantifier": "all p, t > 0, f and all model names", "why_tests_cant": "Ranges over a continuum of real inputs; tests sample a handful of points.", "anchors": ["pyrtlib/absorption_model.py:N2AbsModel.n2_absorption"]}
{"id": "C55", "title": "Oxygen absorption is non-negative", "statement": "Oxygen absorption is never negative.", "quantifier": "all models, line lists, p, t, vapour densities and frequencies", "why_tests_cant": "Ranges over a continuum of real inputs; tests sample a handful of points.", "anchors": ["pyrtlib/absorption_model.py:O2AbsModel.o2_absorption"]}
{"id": "C56", "title": "Ozone line window", "statement": "For a line list sorted by frequency the ozone absorption is the sum over exactly the lines within 1 GHz of the frequency, and is non-negative; 0 without ozone.", "quantifier": "all sorted line lists of every length and frequencies", "why_tests_cant": "Line lists of all lengths.", "anchors": ["pyrtlib/absorption_model.py:O3AbsModel.o3_absorption"]}
{"id": "C57", "title": "Water-vapour lines and continuum are non-negative", "statement": "The line and continuum absorption of water vapour is non-negative and is 0 for zero vapour density; the line cut-off at 750 GHz never makes a contribution negative. For models with speed-dependent shapes this holds with the shipped lists at 100 K to 385 K and up to 1100 hPa.", "quantifier": "all line lists with non-negative strengths and widths, p, t, rho, f", "why_tests_cant": "Ranges over a continuum of real inputs; tests sample a handful of points.", "anchors": ["pyrtlib/absorption_model.py:H2OAbsModel.h2o_absorption"]}
{"id": "C58", "title": "Self-continuum interpolation", "statement": "The tabulated self-continuum is interpolated continuously, reproduces the table at its nodes and is defined for frequencies below 1199 GHz; at higher frequencies it fails.", "quantifier": "all frequencies and temperatures", "why_tests_cant": "Ranges over a continuum of real inputs; tests sample a handful of points.", "anchors": ["pyrtlib/absorption_model.py:H2OAbsModel.h2o_continuum"]}
{"id": "C59", "title": "Perturbed parameter dictionaries are not modified by a run", "statement": "Running the solver with a dictionary of perturbed spectroscopic parameters leaves the dictionary unchanged.", "quantifier": "every dictionary and model", "why_tests_cant": "Aliased arrays are invisible in the result.", "anchors": ["pyrtlib/absorption_model.py:O2AbsModel.o2_absorption", "pyrtlib/tb_spectrum.py:TbCloudRTE.set_amu"]}
{"id": "C60", "title": "Perturbation changes only the selected entries", "statement": "parameters_perturbation adds (or subtracts, or leaves) the uncertainty on exactly the selected parameter entries and leaves everything else, including the stored defaults, unchanged; unknown modes and names raise.", "quantifier": "every dictionary, list of names, mode and index", "why_tests_cant": "Dictionaries and aliasing structures are unbounded.", "anchors": ["pyrtlib/uncertainty/absmod_uncertainty.py:AbsModUncertainty.parameters_perturbation"]}
{"id": "C61", "title": "Uncertainty propagation formulas", "statement": "Each propagated uncertainty is the first-order formula, is a non-negative real when |cov| <= sA*sB, and unknown function names raise ValueError.", "quantifier": "all A,B,a,b,sA,sB,cov and all strings", "why_tests_cant": "Ranges over a continuum of real inputs; tests sample a handful of points.", "anchors": ["pyrtlib/uncertainty/absmod_uncertainty.py:AbsModUncertainty.uncertainty_propagation"]}
{"id": "C62", "title": "Default parameters exist for every implemented model", "statement": "The default spectroscopic parameter tables can be built for every implemented water-vapour and oxygen model.", "quantifier": "all implemented model names and histories of model loads", "why_tests_cant": "Depends on what was loaded earlier.", "anchors": ["pyrtlib/uncertainty/absmod_uncertainty.py:SpectroscopicParameter.water_parameters", "pyrtlib/uncertainty/absmod_uncertainty.py:SpectroscopicParameter.oxygen_parameters", "pyrtlib/_lineshape/h2oll.py", "pyrtlib/_lineshape/o2ll.py"]}
{"id": "C63", "title": "Weighting functions", "statement": "Transmittance lies in (0,1], is monotone toward the sensor, weighting functions are non-negative for non-negative absorption, and each frequency is processed independently of the others.", "quantifier": "every number of levels and frequencies", "why_tests_cant": "Profiles of every length are allowed; a test fixes one length.", "anchors": ["pyrtlib/weighting_functions.py:WeightingFunctions.generate_wf"]}
{"id": "C64", "title": "Channel averaging", "statement": "The channel mean of pass bands averages exactly the rows of its own consecutive block, every row belongs to one channel, and stays within the bounds of its rows.", "quantifier": "every list of pass-band counts", "why_tests_cant": "Lists of all lengths.", "anchors": ["pyrtlib/weighting_functions.py:WeightingFunctions._mean_channel"]}
{"id": "C65", "title": "Channel labels", "statement": "The frequency shown for a channel is the mean frequency of the rows averaged for that channel.", "quantifier": "every list of pass-band counts and frequencies", "why_tests_cant": "Figures are not compared.", "anchors": ["pyrtlib/weighting_functions.py:WeightingFunctions.plot_wf"]}
{"id": "C66", "title": "Extrapolation keeps the measured levels", "statement": "Extending a profile keeps the measured heights, pressures, temperatures and humidities as an unchanged prefix, all returned arrays have the same length and heights remain strictly increasing.", "quantifier": "every strictly increasing profile with top below 50 km", "why_tests_cant": "Profiles of every length are allowed; a test fixes one length.", "anchors": ["pyrtlib/climatology/extrapolation.py:ProfileExtrapolation.profile_extrapolation"]}
{"id": "C67", "title": "Extrapolation of tall profiles", "statement": "Profiles that reach 50 km or more are extended (or returned) without error.", "quantifier": "every profile with top >= 50 km", "why_tests_cant": "Not exercised.", "anchors": ["pyrtlib/climatology/extrapolation.py:ProfileExtrapolation.profile_extrapolation"]}
{"id": "C68", "title": "Extrapolation does not depend on earlier calls", "statement": "Calling the extension on an object that was used before gives the same result as on a fresh object.", "quantifier": "every sequence of calls", "why_tests_cant": "Histories are unbounded.", "anchors": ["pyrtlib/climatology/extrapolation.py:ProfileExtrapolation.profile_extrapolation"]}
{"id": "C69", "title": "Season selection", "statement": "Every latitude and month yields exactly one of the three season labels; southern-hemisphere months behave as northern months six months later; tropical latitudes are standard.", "quantifier": "all latitudes, all months", "why_tests_cant": "Ranges over a continuum of real inputs; tests sample a handful of points.", "anchors": ["pyrtlib/climatology/extrapolation.py:ProfileExtrapolation._get_season"]}
{"id": "C70", "title": "Reference standard atmosphere", "statement": "The reference pressure is positive and strictly decreasing and the temperature is positive on 0-100 km.", "quantifier": "all heights 0-100 km", "why_tests_cant": "Ranges over a continuum of real inputs; tests sample a handful of points.", "anchors": ["pyrtlib/climatology/extrapolation.py:ProfileExtrapolation.standard_pressure", "pyrtlib/climatology/extrapolation.py:ProfileExtrapolation.standard_temperature"]}
{"id": "C71", "title": "Surface values of the reference atmosphere", "statement": "The surface temperature and pressure arguments of the reference atmosphere determine the returned profile.", "quantifier": "all heights and surface values", "why_tests_cant": "Tests freeze one value.", "anchors": ["pyrtlib/climatology/extrapolation.py:ProfileExtrapolation.standard_pressure", "pyrtlib/climatology/extrapolation.py:ProfileExtrapolation.standard_temperature"]}
{"id": "C72", "title": "Climatology profile selection", "statement": "The six built-in atmospheres are selected by number; any other number raises.", "quantifier": "all integers", "why_tests_cant": "Infinite domain.", "anchors": ["pyrtlib/climatology/atmospheric_profiles.py:AtmosphericProfiles.gl_atm"]}
{"id": "C73", "title": "Minor and trace gas selection", "statement": "Asking for a minor or trace gas returns the column of that gas or raises when the gas is not in the table.", "quantifier": "all integers", "why_tests_cant": "Infinite domain; negative indices wrap.", "anchors": ["pyrtlib/climatology/atmospheric_profiles.py:AtmosphericProfiles.gl_atm_minor", "pyrtlib/climatology/atmospheric_profiles.py:AtmosphericProfiles.gl_atm_trace"]}
{"id": "C74", "title": "IGRA2 date selection", "statement": "For a station file sorted by date whose headers announce the right number of levels, the selection returns exactly the data lines and headers of the soundings in the date range, in order, with one timestamp per data line.", "quantifier": "every file (any number of soundings and levels) and every date range", "why_tests_cant": "Files of all lengths.", "anchors": ["pyrtlib/apiwebservices/igra2.py:IGRAUpperAir._select_date_range"]}
{"id": "C75", "title": "IGRA2 date selection without order", "statement": "The selection returns exactly the soundings in the date range whatever the order of the soundings in the file.", "quantifier": "every file and date range", "why_tests_cant": "Files of all lengths.", "anchors": ["pyrtlib/apiwebservices/igra2.py:IGRAUpperAir._select_date_range"]}
{"id": "C76", "title": "IGRA2 release time", "statement": "A release time field HHMM is converted to HH hours and MM minutes.", "quantifier": "every valid HHMM", "why_tests_cant": "Tests do not look at the column.", "anchors": ["pyrtlib/apiwebservices/igra2.py:IGRAUpperAir._ctime"]}
{"id": "C77", "title": "IGRA2 coordinates", "statement": "A coordinate field counted in 1e-4 degrees is converted to degrees.", "quantifier": "every integer field", "why_tests_cant": "Ranges over a continuum of real inputs; tests sample a handful of points.", "anchors": ["pyrtlib/apiwebservices/igra2.py:IGRAUpperAir._clatlon"]}
{"id": "C78", "title": "Wind components", "statement": "Wind components have the wind speed as norm and the meteorological sign convention.", "quantifier": "all speeds and directions", "why_tests_cant": "Ranges over a continuum of real inputs; tests sample a handful of points.", "anchors": ["pyrtlib/apiwebservices/igra2.py:IGRAUpperAir.get_wind_components"]}
{"id": "C79", "title": "IGRA2 derived products", "statement": "Asking for derived parameters downloads and parses the derived product.", "quantifier": "every station and both flags", "why_tests_cant": "Needs the remote service.", "anchors": ["pyrtlib/apiwebservices/igra2.py:IGRAUpperAir.request_data", "pyrtlib/apiwebservices/igra2.py:IGRAUpperAir._get_fwf_params"]}
{"id": "C80", "title": "URL construction and HTTP status", "statement": "The request URL is the base joined with the path by exactly one slash and any status other than 200 raises an error.", "quantifier": "all paths and statuses", "why_tests_cant": "Infinite domain.", "anchors": ["pyrtlib/apiwebservices/webservices.py:HTTPEndPoint"]}
{"id": "C81", "title": "Wyoming request is unambiguous", "statement": "Different sounding times (to the hour) or stations give different request URLs.", "quantifier": "all dates and stations", "why_tests_cant": "Infinite domain.", "anchors": ["pyrtlib/apiwebservices/wyomingupperair.py:WyomingUpperAir._get_data_raw"]}
{"id": "C82", "title": "ERA5 nearest grid point", "statement": "The profile read from a reanalysis file is that of the grid point nearest to the requested location.", "quantifier": "every grid and location", "why_tests_cant": "Grids of all sizes.", "anchors": ["pyrtlib/apiwebservices/erafive.py:ERA5Reanalysis._find_nearest", "pyrtlib/apiwebservices/erafive.py:ERA5Reanalysis.read_data"]}
{"id": "C83", "title": "Complex error function approximation", "statement": "The complex error function approximation satisfies the conjugation symmetry of the exact function and its lower half-plane continuation.", "quantifier": "all complex arguments", "why_tests_cant": "Ranges over a continuum of real inputs; tests sample a handful of points.", "anchors": ["pyrtlib/utils.py:_dcerror"]}
{"id": "C84", "title": "Complete radiative transfer result", "statement": "For every profile and both viewing directions the radiances, opacity profile, emission profile, background term and mean radiating radiance are those of the documented discretised transfer equation, with the documented opaque cut-off.", "quantifier": "all profiles of any length with positive temperatures, all real opacities, all emissivities and frequencies", "why_tests_cant": "Closed form over all profiles.", "anchors": ["pyrtlib/rt_equation.py:RTEquation.planck"]}
{"id": "C85", "title": "Rays in a homogeneous medium are straight", "statement": "When the refractive index does not change with height the traced path through a layer is the straight-line distance between the two spheres.", "quantifier": "all elevation angles, layer heights and indices", "why_tests_cant": "Continuum of inputs; tests compare one profile.", "anchors": ["pyrtlib/rt_equation.py:RTEquation.ray_tracing"]}
{"id": "C86", "title": "Self-continuum power law", "statement": "When a positive self-continuum coefficient is given, the self-continuum of every water-vapour model scales with the stated power of the reduced temperature, cs * (T0/T) ** xcs.", "quantifier": "all models, coefficients, exponents and temperatures", "why_tests_cant": "Ranges over a continuum of real inputs; tests sample a handful of points.", "anchors": ["pyrtlib/absorption_model.py:H2OAbsModel.h2o_absorption"]}
{"id": "C87", "title": "Real part of the complex error function", "statement": "The real part of the complex error function approximation, which is a line shape, is non-negative in the upper half plane.", "quantifier": "all complex arguments with non-negative imaginary part", "why_tests_cant": "Ranges over a continuum of real inputs; tests sample a handful of points.", "anchors": ["pyrtlib/utils.py:_dcerror"]}
{"id": "C88", "title": "Unperturbed parameters change nothing", "statement": "Running with the unperturbed default parameter tables of the selected models gives the same absorption as running without any table.", "quantifier": "all model pairs, profiles and frequencies", "why_tests_cant": "Tests compare one profile with factors set by hand.", "anchors": ["pyrtlib/absorption_model.py:H2OAbsModel.h2o_absorption", "pyrtlib/absorption_model.py:O2AbsModel.o2_absorption", "pyrtlib/uncertainty/absmod_uncertainty.py:SpectroscopicParameter.water_parameters", "pyrtlib/uncertainty/absmod_uncertainty.py:SpectroscopicParameter.oxygen_parameters"]}
{"id": "C89", "title": "Every listed parameter takes part", "statement": "Every entry of the default parameter tables takes part in the computation, and nothing but the entry values does.", "quantifier": "all dictionaries, models and profiles", "why_tests_cant": "Requires comparing all pairs of dictionaries.", "anchors": ["pyrtlib/absorption_model.py:H2OAbsModel.h2o_absorption", "pyrtlib/absorption_model.py:O2AbsModel.o2_absorption"]}
{"id": "C90", "title": "Weight of a level", "statement": "The weighting function of a level is its absorption times the transmittance of the air between that level and the sensor.", "quantifier": "every profile, frequency, angle and viewing direction", "why_tests_cant": "Closed form over all profiles; the layer next to the level is easily counted on the wrong side.", "anchors": ["pyrtlib/weighting_functions.py:WeightingFunctions.generate_wf"]}
{"id": "C91", "title": "Models used by weighting functions", "statement": "Weighting functions are computed with the model of the object for every gas except oxygen, which always uses the newest oxygen model, and do not depend on models selected before.", "quantifier": "every sequence of earlier selections", "why_tests_cant": "Histories are unbounded.", "anchors": ["pyrtlib/weighting_functions.py:WeightingFunctions.generate_wf", "pyrtlib/weighting_functions.py:WeightingFunctions._perform_calculation"]}
{"id": "C92", "title": "Plotting leaves the object unchanged", "statement": "Plotting weighting functions does not change the object, so that plotting twice shows the same curves and labels.", "quantifier": "every object and matrix of weights", "why_tests_cant": "Figures are not compared.", "anchors": ["pyrtlib/weighting_functions.py:WeightingFunctions.plot_wf"]}
{"id": "C93", "title": "Plotted curves", "statement": "In the plot every weight is drawn at the height of its own level, for any number of channels, and normalised curves reach exactly 1.", "quantifier": "every matrix of weights, any number of channels, both viewing directions", "why_tests_cant": "Figures are not compared.", "anchors": ["pyrtlib/weighting_functions.py:WeightingFunctions.plot_wf"]}
{"id": "C94", "title": "Height grid of the weighting functions", "statement": "The constructor replaces the profile by its linear interpolation on an equidistant grid from the lowest level to the first grid height not below the top; measured values are kept at measured heights and values stay within the range of the profile.", "quantifier": "every profile with increasing heights, every step", "why_tests_cant": "Profiles of all lengths.", "anchors": ["pyrtlib/weighting_functions.py:WeightingFunctions.__init__"]}
{"id": "C95", "title": "Humidity of added levels", "statement": "The relative humidity of the levels added to a profile is a fraction, like that of the measured levels.", "quantifier": "every profile with top below 50 km, every latitude and month", "why_tests_cant": "Ranges over a continuum of real inputs; tests sample a handful of points.", "anchors": ["pyrtlib/climatology/extrapolation.py:ProfileExtrapolation.profile_extrapolation", "pyrtlib/utils.py:rho2rh"]}
{"id": "C96", "title": "Seasonal reference atmospheres", "statement": "For every latitude and season the reference pressure is positive and strictly decreasing, the temperature stays within 170-301 K and the water-vapour density is non-negative and at most 20 g/m3 on 0-100 km.", "quantifier": "all latitudes, both seasons, all heights 0-100 km", "why_tests_cant": "Ranges over a continuum of real inputs; tests sample a handful of points.", "anchors": ["pyrtlib/climatology/extrapolation.py:ProfileExtrapolation.pressure", "pyrtlib/climatology/extrapolation.py:ProfileExtrapolation.temperature", "pyrtlib/climatology/extrapolation.py:ProfileExtrapolation.water_vapour_density"]}
{"id": "C97", "title": "Pressure of an extended profile", "statement": "When the measured pressures fall strictly with height, so do the pressures of the extended profile.", "quantifier": "every profile with top below 50 km, every latitude and month", "why_tests_cant": "Profiles of every length are allowed; a test fixes one length.", "anchors": ["pyrtlib/climatology/extrapolation.py:ProfileExtrapolation.profile_extrapolation"]}
{"id": "C98", "title": "Built-in atmospheres are physical profiles", "statement": "Every built-in atmosphere has 50 levels with heights rising strictly from 0 to 120 km, strictly falling positive pressures and densities, temperatures between 160 and 381 K, positive gas amounts, and pressure, density and temperature related by the ideal gas law within 2 %; the solver accepts each of them unchanged.", "quantifier": "all six atmospheres, all levels", "why_tests_cant": "Tests look at a few values.", "anchors": ["pyrtlib/climatology/atmospheric_profiles.py:AtmosphericProfiles.gl_atm", "pyrtlib/tb_spectrum.py:TbCloudRTE.__init__"]}
{"id": "C99", "title": "Numbers of the built-in atmospheres", "statement": "Calling gl_atm with the option number of its documentation returns the documented atmosphere.", "quantifier": "all documented options", "why_tests_cant": "Tests use the class constants only.", "anchors": ["pyrtlib/climatology/atmospheric_profiles.py:AtmosphericProfiles.gl_atm"]}
{"id": "C100", "title": "IGRA2 scaled fields", "statement": "A field counted in a power of ten of its unit is converted to the unit, and the codes for missing and removed values are returned as missing.", "quantifier": "every integer field and power", "why_tests_cant": "Infinite domain of texts.", "anchors": ["pyrtlib/apiwebservices/igra2.py:IGRAUpperAir._cdec"]}
{"id": "C101", "title": "Wyoming sounding metadata", "statement": "Station name, number, time, latitude, longitude and elevation printed in the metadata block of a sounding are the ones returned.", "quantifier": "every metadata block, with or without station name, of years 1869-2068", "why_tests_cant": "Infinite domain of texts.", "anchors": ["pyrtlib/apiwebservices/wyomingupperair.py:WyomingUpperAir._get_data"]}
{"id": "C102", "title": "ERA5 profile rows", "statement": "In the profile read from a reanalysis file all columns of a row belong to the same pressure level and grid point, levels are in reverse order of the file, relative humidity is a fraction, and every row carries the time of the file; a file with several times raises.", "quantifier": "every file, any number of levels, times and grid points", "why_tests_cant": "Files of all shapes.", "anchors": ["pyrtlib/apiwebservices/erafive.py:ERA5Reanalysis.read_data"]}
{"id": "C103", "title": "ERA5 humidity unit", "statement": "The relative humidity column is in the unit attached to it.", "quantifier": "every file and location", "why_tests_cant": "Units are not compared.", "anchors": ["pyrtlib/apiwebservices/erafive.py:ERA5Reanalysis.read_data"]}
{"id": "C104", "title": "ERA5 heights", "statement": "Heights start at zero, rise strictly when pressures fall, and are the hypsometric heights for the virtual temperature of the profile.", "quantifier": "every file with positive temperatures and pressures and any specific humidity", "why_tests_cant": "Profiles of every length are allowed; a test fixes one length.", "anchors": ["pyrtlib/apiwebservices/erafive.py:ERA5Reanalysis.read_data", "pyrtlib/utils.py:atmospheric_tickness"]}
{"id": "C105", "title": "Molecular masses", "statement": "The mass of every gas identifier of the climatology is the sum of the mass numbers of the atoms of its formula in units of 1.6726485e-27 kg.", "quantifier": "all 32 gas identifiers", "why_tests_cant": "Tests use water vapour only; a wrong entry changes one gas.", "anchors": ["pyrtlib/utils.py:gas_mass", "pyrtlib/climatology/atmospheric_profiles.py:AtmosphericProfiles"]}
{"id": "C106", "title": "Volume mixing ratio to mass mixing ratio", "statement": "ppmv2gkg multiplies the molecule fraction by the ratio of the molecular masses, and converting the result to vapour pressure gives the partial pressure of the volume mixing ratio; unknown gases raise.", "quantifier": "all mixing ratios, pressures and gas identifiers", "why_tests_cant": "Ranges over a continuum of real inputs; tests sample a handful of points.", "anchors": ["pyrtlib/utils.py:ppmv2gkg", "pyrtlib/utils.py:mr2e"]}
{"id": "C107", "title": "Density of moist air", "statement": "The factor kgkg_to_kgm3 is the ideal-gas density of air at the virtual temperature of the same air, is largest for dry air and positive.", "quantifier": "all humidities, pressures and temperatures", "why_tests_cant": "Ranges over a continuum of real inputs; tests sample a handful of points.", "anchors": ["pyrtlib/utils.py:kgkg_to_kgm3", "pyrtlib/utils.py:virtual_temperature"]}
{"id": "C108", "title": "Number density of a trace gas", "statement": "ppmv_to_moleculesm3 is the ideal-gas number density times the mixing ratio, and mass densities computed through number density and through mass mixing ratio agree.", "quantifier": "all mixing ratios, pressures, temperatures and gases", "why_tests_cant": "Ranges over a continuum of real inputs; tests sample a handful of points.", "anchors": ["pyrtlib/utils.py:ppmv_to_moleculesm3", "pyrtlib/utils.py:ppmv2gkg", "pyrtlib/utils.py:kgkg_to_kgm3"]}
{"id": "C109", "title": "Ice saturation below the conversion temperature", "statement": "With a conversion temperature the saturation pressure is that over ice at and below it and that over water above it, takes the Goff-Gratch reference values at the steam and ice points, and increases with temperature.", "quantifier": "all temperatures and conversion temperatures", "why_tests_cant": "Ranges over a continuum of real inputs; tests sample a handful of points.", "anchors": ["pyrtlib/utils.py:satvap", "pyrtlib/utils.py:eswat_goffgratch", "pyrtlib/utils.py:esice_goffgratch"]}
{"id": "C110", "title": "Rows of the result table", "statement": "Each row of the data frame is the discretised radiative-transfer solution for its own (angle, frequency) pair: layer opacities are the exponential layer means of the wet, dry, ice and liquid absorption times the slant path, the four opacity columns are their sums, and the density and delay columns are 0.1 times the slant column of density, wet and dry refractivity.", "quantifier": "all profiles, angles, frequencies, with and without clouds and ray tracing", "why_tests_cant": "Ranges over a continuum of real inputs; tests sample a handful of points.", "anchors": ["pyrtlib/tb_spectrum.py:TbCloudRTE.execute", "pyrtlib/rt_equation.py:RTEquation.exponential_integration", "pyrtlib/rt_equation.py:RTEquation.planck"]}
{"id": "C111", "title": "Runs with the shipped line lists end to end", "statement": "Constructing a solver on a physical sounding, selecting a model and calling execute returns, without NaN or infinity, brightness temperatures that solve the discretised transfer equation for the non-negative ideal absorption of that model and stay between the cosmic background and the warmest level.", "quantifier": "all soundings with positive temperatures and humidity, all frequencies and angles, nine models, with and without clouds and ozone", "why_tests_cant": "Ranges over a continuum of real inputs; tests sample a handful of points.", "anchors": ["pyrtlib/tb_spectrum.py:TbCloudRTE.execute", "pyrtlib/tb_spectrum.py:TbCloudRTE.__init__", "pyrtlib/rt_equation.py:RTEquation.clearsky_absorption"]}
{"id": "C112", "title": "A new solver before any setter", "statement": "A newly constructed solver sees a black surface, options passed to the constructor act like the corresponding setters, and a clear-sky run reports zero in all cloud columns.", "quantifier": "all profiles, options and models", "why_tests_cant": "Profiles of every length are allowed; a test fixes one length.", "anchors": ["pyrtlib/tb_spectrum.py:TbCloudRTE.__init__", "pyrtlib/tb_spectrum.py:TbCloudRTE.set_amu", "pyrtlib/tb_spectrum.py:TbCloudRTE.satellite", "pyrtlib/tb_spectrum.py:TbCloudRTE.emissivity"]}
{"id": "C113", "title": "Missing selections", "statement": "Absorption of humid air is returned only when water-vapour, oxygen and nitrogen models and both line lists were selected; a run without selection raises the model error; an ozone profile is ignored silently for every ozone model name outside the supported list.", "quantifier": "all class states, profiles and names", "why_tests_cant": "Ranges over a continuum of real inputs; tests sample a handful of points.", "anchors": ["pyrtlib/rt_equation.py:RTEquation.clearsky_absorption", "pyrtlib/absorption_model.py:AbsModel.set_ll", "pyrtlib/tb_spectrum.py:TbCloudRTE._init_linelist"]}
{"id": "C114", "title": "Speed-dependent shapes are corrections", "statement": "Within ten half-widths of a line the speed-dependent water-vapour shape differs from the Lorentz shape by at most 0.6 times the ratio of its two widths and stays within 12 percent of it; the speed-dependent oxygen shape stays within 4.56 percent of the line-mixed Lorentz shape.", "quantifier": "all widths, shifts, mixing coefficients and offsets within the region where the code uses the shape", "why_tests_cant": "Ranges over a continuum of real inputs; tests sample a handful of points.", "anchors": ["pyrtlib/absorption_model.py:H2OAbsModel.h2o_absorption", "pyrtlib/absorption_model.py:O2AbsModel.o2_absorption", "pyrtlib/utils.py:dcerror"]}
{"id": "C115", "title": "Grouped plot of weighting functions", "statement": "The grouped plot is available for satellites only, draws every channel with its own weights moved by 0.4 per preceding group, so that groups of weights below 0.4 do not touch, labels each group once, and fails when the groups do not cover all frequencies.", "quantifier": "all weight matrices, groups, labels and axis limits", "why_tests_cant": "Figures are not compared.", "anchors": ["pyrtlib/weighting_functions.py:WeightingFunctions.plot_wf_grouped"]}
{"id": "C116", "title": "Releases agree on the lines they share", "statement": "Where the line lists of two selectable models contain the same line, strength, temperature coefficient, widths and line mixing agree within a few percent (widths within 24 percent), so that changing the model refines the spectrum rather than changing it.", "quantifier": "all pairs of models and all pairs of lines", "why_tests_cant": "Thousands of pairs of lines in binary files that no test reads line by line.", "anchors": ["pyrtlib/_lineshape/h2o_lineshape.nc", "pyrtlib/_lineshape/o2_lineshape.nc", "pyrtlib/_lineshape/o3_lineshape.nc", "pyrtlib/_lineshape/h2oll.py", "pyrtlib/_lineshape/o2ll.py", "pyrtlib/_lineshape/o3ll.py"]}
{"id": "C117", "title": "Physical ranges of the line lists", "statement": "Every line of every model has a frequency in range, positive strength, a half-width of 1 to 3.3 MHz per hPa (self-broadened 4 to 11 times as wide), exponents below one and line mixing below one per bar; lines are sorted (water vapour, ozone) or at least 70 MHz apart (oxygen); the 22.235, 183.31 and 118.75 GHz lines are present; the self continuum coefficient is 23 to 26 times the foreign one.", "quantifier": "all models and lines", "why_tests_cant": "Units and columns of binary files; a width left in MHz passes many tests of shape.", "anchors": ["pyrtlib/_lineshape/h2oll.py", "pyrtlib/_lineshape/o2ll.py", "pyrtlib/_lineshape/o3ll.py"]}
{"id": "C118", "title": "Water vapour: number density times cross section", "statement": "In Np/km the line part of water-vapour absorption is the number density of vapour (kinetic gas theory) times a sum over the line list of strengths at the given temperature and Van Vleck-Weisskopf shapes with the collision width and pressure shift of the model, within 0.25 percent; the continuum is a foreign and a self term, quadratic in frequency, with the coefficients of the model.", "quantifier": "all pressures, temperatures, humidities, frequencies and line lists (shipped lists for speed-dependent shapes)", "why_tests_cant": "Numbers can be compared with a reference run only at sampled points; a wrong prefactor of a percent hides in the spread between models.", "anchors": ["pyrtlib/absorption_model.py:H2OAbsModel.h2o_absorption", "pyrtlib/absorption_model.py:H2OAbsModel.h2o_continuum"]}
{"id": "C119", "title": "Oxygen: number density times cross section", "statement": "For the models R98 to R22 oxygen absorption in Np/km is the number density of oxygen times the sum of line-mixed resonances and the non-resonant term, within half a percent; first-order or second-order mixing and the place of the non-resonant term follow the model.", "quantifier": "all pressures, temperatures, humidities, frequencies and line lists", "why_tests_cant": "Numbers can be compared with a reference run only at sampled points; a wrong prefactor of a percent hides in the spread between models.", "anchors": ["pyrtlib/absorption_model.py:O2AbsModel.o2_absorption"]}
{"id": "C120", "title": "Oxygen R23 and R24: sum rules of line mixing", "statement": "In R24 the first-order mixing coefficients are shifted in proportion to 1/f so that far from the band the absorption of all resonances and the non-resonant term cancel as the sum rule demands; in R23 and R24 the second-order intensity corrections of the 60-GHz band have zero weighted sum; absorption is the number density of oxygen times these shapes within 0.03 percent.", "quantifier": "all pressures, temperatures, humidities, frequencies; lists with the 118-GHz line, 37 band lines and further lines", "why_tests_cant": "The sum rules are properties of intermediate arrays that no caller sees.", "anchors": ["pyrtlib/absorption_model.py:O2AbsModel.o2_absorption"]}
{"id": "C121", "title": "Ozone: number density times cross section", "statement": "Ozone absorption is the number density times the fraction in the ground state times strengths and shapes of the lines within 1 GHz: Lorentz shapes of the joint collision and Doppler width (R18 and others) or Voigt profiles (R22) which, up to one half-width from a line broadened mainly by collisions, are the Lorentz shape within 8 percent (1 percent from ten Doppler widths on).", "quantifier": "all temperatures, pressures, frequencies, densities and sorted line lists", "why_tests_cant": "Numbers can be compared with a reference run only at sampled points; a wrong prefactor of a percent hides in the spread between models.", "anchors": ["pyrtlib/absorption_model.py:O3AbsModel.o3_absorption", "pyrtlib/utils.py:dcerror"]}
{"id": "C122", "title": "Cloud water: Rayleigh extinction", "statement": "Absorption of cloud liquid is the Rayleigh extinction of small droplets of a medium with positive loss, (6 pi / wavelength) times the imaginary part of (eps-1)/(eps+2) times the volume fraction, within 0.03 percent; for R98 and R03 the permittivity is a sum of two Debye relaxations.", "quantifier": "all water contents, frequencies and temperatures between 208 K and 396 K", "why_tests_cant": "Numbers can be compared with a reference run only at sampled points; a wrong prefactor of a percent hides in the spread between models.", "anchors": ["pyrtlib/absorption_model.py:LiqAbsModel.liquid_water_absorption", "pyrtlib/utils.py:dilec12"]}
{"id": "C123", "title": "Standard deviation from the parameter covariances", "statement": "The documented computation sqrt(diag(Kp Cov Kp^T)) with any of the shipped covariance matrices returns one real standard deviation per row of the Jacobian; a Jacobian with a wrong number of columns raises.", "quantifier": "all three matrices, all Jacobians with any number of rows", "why_tests_cant": "A test compares two of the matrices with each other; whether a quadratic form in 111 variables is ever negative cannot be found by trying vectors.", "anchors": ["pyrtlib/uncertainty/covariance_matrix/__init__.py:R17_111", "pyrtlib/uncertainty/covariance_matrix/__init__.py:R17_112", "pyrtlib/uncertainty/covariance_matrix/__init__.py:R19", "docs/script_examples/uncertainty_tutorial.py"]}
{"id": "C124", "title": "Parameter groups with sound covariances", "statement": "The variance due to water-vapour parameters is at least a twentieth of its value without correlations, hence its root is positive; that due to any two parameters is not negative; those due to line intensity with line mixing, and to the temperature dependences of oxygen, are not negative up to a millionth of the uncorrelated value.", "quantifier": "all three matrices, all derivatives with respect to the parameters of a group", "why_tests_cant": "A test compares two of the matrices with each other; whether a quadratic form in 111 variables is ever negative cannot be found by trying vectors.", "anchors": ["pyrtlib/uncertainty/covariance_matrix/__init__.py:R17_111", "pyrtlib/uncertainty/covariance_matrix/__init__.py:R17_112", "pyrtlib/uncertainty/covariance_matrix/__init__.py:R19"]}
{"id": "C125", "title": "Bounds and symmetry of propagated covariances", "statement": "Every parameter has a positive variance, no propagated covariance exceeds the product of the standard deviations for aligned parameters, and the covariance of two channels does not depend on their order beyond 4e-7 of that product.", "quantifier": "all three matrices, all pairs of Jacobian rows", "why_tests_cant": "A test compares two of the matrices with each other; whether a quadratic form in 111 variables is ever negative cannot be found by trying vectors.", "anchors": ["pyrtlib/uncertainty/covariance_matrix/__init__.py:R17_111", "pyrtlib/uncertainty/covariance_matrix/__init__.py:R17_112", "pyrtlib/uncertainty/covariance_matrix/__init__.py:R19"]}
{"id": "C126", "title": "Oxygen part of the covariance matrices", "statement": "The three matrices contain the same oxygen covariances and none between oxygen and water-vapour parameters: the variance is the sum of the two parts and the oxygen part does not depend on the matrix chosen.", "quantifier": "all pairs of the three matrices, all Jacobian rows", "why_tests_cant": "The test compares two matrices entry by entry with a tolerance and does not look at the third or at the blocks between the gases.", "anchors": ["pyrtlib/uncertainty/covariance_matrix/__init__.py:R17_111", "pyrtlib/uncertainty/covariance_matrix/__init__.py:R17_112", "pyrtlib/uncertainty/covariance_matrix/__init__.py:R19", "pyrtlib/tests/test_uncertainty.py:test_cov_p"]}
{"id": "C127", "title": "Warmer air is seen as warmer", "statement": "Raising the temperature of levels at unchanged opacities never lowers the brightness temperature or the mean radiating temperature, from the ground or from a satellite, and raises the brightness temperature strictly when a level with opacity in an adjacent layer is warmed.", "quantifier": "all profiles, opacities, frequencies and emissivities", "why_tests_cant": "Ranges over a continuum of real inputs; tests sample a handful of points.", "anchors": ["pyrtlib/rt_equation.py:RTEquation.planck", "pyrtlib/rt_equation.py:RTEquation.bright"]}
{"id": "C128", "title": "More absorption: warmer from below, colder from above", "statement": "Where temperature does not rise with height, adding opacity to any layers (or clouds to a profile) never lowers the brightness temperature seen from the ground and never raises that seen by a satellite above a black surface.", "quantifier": "all profiles whose temperature does not rise with height, all added opacities, frequencies; runs with and without clouds", "why_tests_cant": "Ranges over a continuum of real inputs; tests sample a handful of points.", "anchors": ["pyrtlib/rt_equation.py:RTEquation.planck", "pyrtlib/tb_spectrum.py:TbCloudRTE.execute"]}
{"id": "C129", "title": "Spectra without jumps", "statement": "At every level the wet and dry absorption are functions of frequency without jumps, so that neighbouring channels have neighbouring absorption.", "quantifier": "all pressures, temperatures, humidities, frequencies, models with Lorentz shapes, line lists", "why_tests_cant": "Ranges over a continuum of real inputs; tests sample a handful of points.", "anchors": ["pyrtlib/absorption_model.py:H2OAbsModel.h2o_absorption", "pyrtlib/absorption_model.py:O2AbsModel.o2_absorption", "pyrtlib/absorption_model.py:N2AbsModel.n2_absorption", "pyrtlib/absorption_model.py:O3AbsModel.o3_absorption", "pyrtlib/rt_equation.py:RTEquation.clearsky_absorption"]}
{"id": "C130", "title": "Different models for different gases", "statement": "A run with any combination of a water-vapour, an oxygen and a nitrogen model, as in the examples of the documentation (init_absmdl('R20') followed by H2OAbsModel.model = 'R21SD'), with or without ozone and clouds, returns for every angle and frequency the discretised transfer of the absorption of exactly these models with finite, bounded brightness temperatures.", "quantifier": "14 water-vapour, 11 oxygen and 16 nitrogen models; all physical soundings, frequencies and angles", "why_tests_cant": "Ranges over a continuum of real inputs; tests sample a handful of points.", "anchors": ["pyrtlib/tb_spectrum.py:TbCloudRTE.execute", "pyrtlib/tb_spectrum.py:TbCloudRTE._init_linelist", "pyrtlib/absorption_model.py:AbsModel.set_ll"]}
{"id": "C131", "title": "From the built-in atmospheres to spectra", "statement": "The documented sequence gl_atm, ppmv2gkg, mr2rh(...)[0]/100, ppmv_to_moleculesm3, TbCloudRTE, execute works for each of the six atmospheres: the arrays form a physical sounding whose vapour pressure is the partial pressure of the volume mixing ratio to one part in 10^9, the run returns for every choice of models, and every brightness temperature is finite and between the cosmic background (coldest level from a satellite) and the warmest level.", "quantifier": "six atmospheres, with and without ozone, all combinations of models, frequencies and angles", "why_tests_cant": "Ranges over a continuum of real inputs; tests sample a handful of points.", "anchors": ["pyrtlib/climatology/atmospheric_profiles.py:AtmosphericProfiles.gl_atm", "pyrtlib/utils.py:ppmv2gkg", "pyrtlib/utils.py:mr2rh", "pyrtlib/utils.py:ppmv_to_moleculesm3", "pyrtlib/tb_spectrum.py:TbCloudRTE.execute", "README.md", "docs/script_examples/plot_brightness_temperature_wO3.py"]}
{"id": "C132", "title": "IGRA2 tables", "statement": "From a station file the request returns, in the order of the file, every level of the soundings in the requested range with its date, pressure in hPa, temperature, humidity and wind in their units, dew point and wind components, missing codes as missing values; levels without temperature, dew-point depression and wind are left out; the header table has one row per sounding; a range without soundings raises ValueError.", "quantifier": "all station files of well-formed soundings sorted by time, all ranges", "why_tests_cant": "The tests need the network and look at the number of rows.", "anchors": ["pyrtlib/apiwebservices/igra2.py:IGRAUpperAir._get_data", "pyrtlib/apiwebservices/igra2.py:IGRAUpperAir._get_fwf_params", "pyrtlib/apiwebservices/igra2.py:IGRAUpperAir._clean_body_df"]}
{"id": "C133", "title": "Wyoming levels", "statement": "The table of a Wyoming sounding holds every value under the name of its column.", "quantifier": "all pages with five header lines and lines of eleven right-justified columns, any of which may be blank", "why_tests_cant": "Blank columns occur only at some levels of some soundings; the tests need the network.", "anchors": ["pyrtlib/apiwebservices/wyomingupperair.py:WyomingUpperAir._get_data"]}
{"id": "C134", "title": "Wyoming stations", "statement": "The list of stations contains every station of the map once, with the name given by its last title, and nothing else.", "quantifier": "all sequences of map areas with and without titles", "why_tests_cant": "The tests need the network.", "anchors": ["pyrtlib/apiwebservices/wyomingupperair.py:WyomingUpperAir.get_stations"]}
{"id": "C135", "title": "ERA5 requests and files", "statement": "A request asks for all the variables that read_data reads, on increasing pressure levels up to 1000 hPa, at the requested time, in an area that contains the point; the file whose path is returned keeps the answer until the next request for the same time and place.", "quantifier": "all times, places, offsets and sequences of requests", "why_tests_cant": "The client needs an account and a network; two requests in a row are not tested.", "anchors": ["pyrtlib/apiwebservices/erafive.py:ERA5Reanalysis.request_data", "pyrtlib/apiwebservices/erafive.py:ERA5Reanalysis.read_data"]}
{"id": "C136", "title": "Rounding of the radiative transfer solution", "statement": "Floating-point rounding in planck and bright moves a brightness temperature by less than 1e-4 K (2e-5 K with 53-bit significands) from the exact solution of the discretised equation, whatever the library's exp and log as long as each operation is accurate to u = 2^-50.", "quantifier": "all profiles of up to 1000 levels between 2.728 and 400 K, frequencies of 1 to 200 GHz, opacities up to 700 Np, both directions, all machines with relative error at most 2^-50 per operation", "why_tests_cant": "A run has no exact solution to compare with; the loss of digits depends on the profile and the frequency.", "anchors": ["pyrtlib/rt_equation.py:RTEquation.planck", "pyrtlib/rt_equation.py:RTEquation.bright", "pyrtlib/utils.py:tk2b_mod"]}
{"id": "C137", "title": "Sensitivity of brightness temperatures to absorption", "statement": "A relative error del of all layer opacities plus absolute errors adding up to sig changes the brightness temperature by at most (0.82 del + 2.4 sig) exp(h nu / k Tl) times the temperature variation along the path plus the step to the background; for an atmosphere cooling with height and seen from the ground the contrast to the cosmic background replaces the variation.", "quantifier": "all profiles, both directions, frequencies, emissivities, relative errors up to a tenth", "why_tests_cant": "Ranges over a continuum of real inputs; tests sample a handful of points.", "anchors": ["pyrtlib/rt_equation.py:RTEquation.planck", "pyrtlib/rt_equation.py:RTEquation.bright"]}
{"id": "C138", "title": "Rounding from absorption to brightness temperature", "statement": "Floating-point rounding in everything that follows the absorption coefficients (exponential integration over the layers, sum of the four constituents, transfer, conversion to temperature) moves the brightness temperature by at most 8.8e10 u + ((8e9 X + 30) u + 1.1e-8 path) exp(h nu / k Tl) (variation + far step), below 1e-4 K in double precision for ordinary profiles, although exponential integration switches formulas near equal absorption.", "quantifier": "all absorption profiles up to X = 50 Np/km and paths up to 1e6 km, up to 1000 levels, 1 to 200 GHz, total opacity up to 123, all machines with relative error u <= 2^-50", "why_tests_cant": "A run has no exact solution to compare with; cancellation occurs only when neighbouring absorption values are nearly equal.", "anchors": ["pyrtlib/rt_equation.py:RTEquation.exponential_integration", "pyrtlib/tb_spectrum.py:TbCloudRTE.execute", "pyrtlib/rt_equation.py:RTEquation.planck"]}
{"id": "C139", "title": "Accuracy of the layer sums", "statement": "The brightness temperature differs from that of the radiative transfer integral, with a Planck function linear in opacity between the levels, by at most D^2/6 exp(h nu / k Tl) times the temperature variation, D being the largest layer opacity: the scheme is of second order. Where temperature falls with height the ground-based value is never too cold and the value seen from a satellite never too warm.", "quantifier": "all profiles from 2.728 to 400 K, layer opacities, frequencies and emissivities, both directions", "why_tests_cant": "Ranges over a continuum of real inputs; tests sample a handful of points.", "anchors": ["pyrtlib/rt_equation.py:RTEquation.planck"]}
{"id": "C140", "title": "Splitting a sounding", "statement": "The radiance of a sounding is the emission of the part next to the observer plus, attenuated by that part, the radiance the observer would receive at the level of the split; a level added inside an isothermal layer changes nothing however the opacity is divided.", "quantifier": "all profiles, split levels, frequencies, emissivities, both directions", "why_tests_cant": "Ranges over a continuum of real inputs; tests sample a handful of points.", "anchors": ["pyrtlib/rt_equation.py:RTEquation.planck", "pyrtlib/rt_equation.py:RTEquation.bright"]}
{"id": "C141", "title": "Opacities do not depend on the view", "statement": "Opacities, columns, delays and absorption profiles are the same for a run seen from the ground and from a satellite and for every surface emissivity: switching satellite or emissivity changes only the radiative transfer outputs.", "quantifier": "all solvers, data bases, models, soundings and switches; any arithmetic", "why_tests_cant": "Ranges over a continuum of real inputs; tests sample a handful of points.", "anchors": ["pyrtlib/tb_spectrum.py:TbCloudRTE.execute", "pyrtlib/tb_spectrum.py:TbCloudRTE.satellite", "pyrtlib/tb_spectrum.py:TbCloudRTE.emissivity"]}
{"id": "C142", "title": "Errors of temperature are not amplified", "statement": "Temperatures known to within d kelvin (levels and surface alike) give, at unchanged opacities, brightness temperatures and mean radiating temperatures within d kelvin: the conversion to Planck radiances and back never amplifies an error, although neither is linear.", "quantifier": "all pairs of profiles with the same opacities, any total opacity, frequencies, emissivities in [0,1], both directions", "why_tests_cant": "Ranges over a continuum of real inputs; tests sample a handful of points.", "anchors": ["pyrtlib/rt_equation.py:RTEquation.planck", "pyrtlib/rt_equation.py:RTEquation.bright"]}
{"id": "C143", "title": "Distance to the Rayleigh-Jeans solution", "statement": "The brightness temperature is never below the solution of the same discretised equation with temperatures instead of Planck radiances and at most h nu / 2 k (0.024 K per GHz) above it, so that the Rayleigh-Jeans approximation can be used with a known one-sided error.", "quantifier": "all profiles, opacities with total below 125, frequencies, emissivities in [0,1], both directions", "why_tests_cant": "Ranges over a continuum of real inputs; tests sample a handful of points.", "anchors": ["pyrtlib/rt_equation.py:RTEquation.planck", "pyrtlib/rt_equation.py:RTEquation.bright", "pyrtlib/utils.py:tk2b_mod"]}
{"id": "C144", "title": "Limb brightening and darkening", "statement": "Where the temperature does not rise with height, lowering the line of sight never lowers the opacity of any constituent; it never lowers the brightness temperature seen from the ground and never raises that seen from a satellite above a black surface. Elevations above 90 degrees behave as their mirror images.", "quantifier": "all soundings cooling with height, combinations of models, clouds, frequencies and pairs of elevations between 0 and 180 degrees, total opacities below 125", "why_tests_cant": "Ranges over a continuum of real inputs; tests sample a handful of points.", "anchors": ["pyrtlib/tb_spectrum.py:TbCloudRTE.execute", "pyrtlib/rt_equation.py:RTEquation.ray_tracing", "pyrtlib/rt_equation.py:RTEquation.exponential_integration", "pyrtlib/rt_equation.py:RTEquation.planck"]}
{"id": "C145", "title": "From a radiosonde archive to a spectrum", "statement": "The documented programs that read a Wyoming page or an IGRA2 station file, keep the complete levels, convert height, temperature and dew point and hand the arrays to TbCloudRTE return, for every angle and frequency, the discretised transfer for exactly the levels of the archive, with finite positive brightness temperatures not above the warmest level; the temperatures handed over are those of the archive plus 273.25 (to_kelvin), a tenth of a degree too warm.", "quantifier": "all Wyoming pages and IGRA2 files whose complete levels form a physical sounding, 14 water-vapour, 10 oxygen and 16 nitrogen models, frequencies and angles", "why_tests_cant": "The example scripts need the network; the tests of the parts do not connect them.", "anchors": ["pyrtlib/apiwebservices/wyomingupperair.py:WyomingUpperAir._get_data", "pyrtlib/apiwebservices/igra2.py:IGRAUpperAir._get_data", "pyrtlib/utils.py:to_kelvin", "pyrtlib/utils.py:dewpoint2rh", "pyrtlib/tb_spectrum.py:TbCloudRTE.execute", "docs/script_examples/plot_bt_wyoming.py", "docs/script_examples/plot_bt_igra2.py"]}
{"id": "C146", "title": "From an ERA5 file to clear and cloudy spectra", "statement": "The documented program that reads an ERA5 file, converts mass fractions of cloud water and ice by kgkg_to_kgm3 and runs the same solver first without and then with clouds returns both tables: every row is the discretised transfer for exactly the levels of the file at the nearest grid point, with finite positive brightness temperatures not above the warmest level; cloud densities are the mass fraction times the density of air for which the partial pressures of dry air and vapour add up to the pressure; the cloud reaches from the lowest to the highest level.", "quantifier": "all files with a physical profile at the nearest grid point, 14 water-vapour models, models with oxygen, nitrogen and liquid-water formulas, emissivities in (0,1], frequencies and angles", "why_tests_cant": "The example needs a downloaded file; tests of the parts do not connect them and never run the same solver clear and then cloudy.", "anchors": ["pyrtlib/apiwebservices/erafive.py:ERA5Reanalysis.read_data", "pyrtlib/utils.py:kgkg_to_kgm3", "pyrtlib/utils.py:atmospheric_tickness", "pyrtlib/tb_spectrum.py:TbCloudRTE.init_cloudy", "pyrtlib/tb_spectrum.py:TbCloudRTE.execute", "docs/script_examples/plot_bt_era5_cloudy_profile.py", "docs/script_examples/plot_bt_era5.py"]}
{"id": "C147", "title": "Choosing the model on the base class", "statement": "Assigning AbsModel.model = m, as the water-vapour example of the documentation does, puts model m in force for all gases: the absorption profiles that follow are those of model m.", "quantifier": "all model names, all states of the class attributes, all levels and frequencies", "why_tests_cant": "A test runs in one process state; whether the gas classes already hold their own attribute depends on what ran before.", "anchors": ["pyrtlib/absorption_model.py:AbsModel.model", "pyrtlib/absorption_model.py:AbsModel.set_ll", "pyrtlib/tb_spectrum.py:TbCloudRTE.init_absmdl", "docs/script_examples/plot_water_vapour_profile.py"]}
{"id": "C148", "title": "Jacobian of the uncertainty tutorial", "statement": "The loop of the tutorial returns 112 distinct columns in the order of the covariance matrix (111 without con_Xs). Each column is the difference quotient of the solver's response to exactly one parameter of the shipped R18/R17 tables (with the entry that shares its array), raised by its stated uncertainty and divided by the same step in the units of the covariance matrix; no perturbation remains in a later run, and no divisor is zero. The oxygen intensity is changed for the first line only.", "quantifier": "all solvers (any function of the parameter values), any arithmetic; the divisors over the reals", "why_tests_cant": "The parameters are shared objects changed in place and converted inside the loop; the tests run one perturbation and never the loop.", "anchors": ["docs/script_examples/uncertainty_tutorial.py", "pyrtlib/uncertainty/absmod_uncertainty.py:AbsModUncertainty.parameters_perturbation", "pyrtlib/uncertainty/absmod_uncertainty.py:SpectroscopicParameter.oxygen_parameters", "pyrtlib/uncertainty/absmod_uncertainty.py:SpectroscopicParameter.water_parameters"]}
{"id": "C149", "title": "Standard deviations of the tutorial", "statement": "The tutorial's Jacobian fits the matrices R17_111 (without con_Xs) and R17_112 row by row: for every solver it returns one standard deviation per frequency and matrix, the root of the variance of the difference quotients. Every parameter is perturbed by its standard deviation in the matrix, in the same order and units.", "quantifier": "all solvers returning at least one finite brightness temperature per run; all parameters of both matrices", "why_tests_cant": "The numbers of the tutorial and those of the netCDF files are never compared; a shift by one line leaves all shapes intact.", "anchors": ["docs/script_examples/uncertainty_tutorial.py", "pyrtlib/uncertainty/covariance_matrix/__init__.py:R17_111", "pyrtlib/uncertainty/covariance_matrix/__init__.py:R17_112"]}
{"id": "C150", "title": "Nearby states of the air have nearby absorption", "statement": "At every level the wet and dry absorption are jointly continuous functions of frequency, pressure, temperature and vapour pressure, down to dry air, where the wet absorption tends to zero: small errors of a sounding give small errors of absorption.", "quantifier": "all states with positive frequency and temperature and vapour pressure below total pressure; models with Lorentz shapes, all their line lists", "why_tests_cant": "Ranges over a continuum of real inputs; tests sample a handful of points.", "anchors": ["pyrtlib/absorption_model.py:H2OAbsModel.h2o_absorption", "pyrtlib/absorption_model.py:O2AbsModel.o2_absorption", "pyrtlib/absorption_model.py:N2AbsModel.n2_absorption", "pyrtlib/rt_equation.py:RTEquation.clearsky_absorption"]}
{"id": "C151", "title": "Drying a level", "statement": "Taking the humidity of a level to zero takes the wet opacity of a run continuously to that of the run with a dry level: humidities that differ little give opacities that differ little.", "quantifier": "all soundings, models with Lorentz shapes, frequencies and elevations", "why_tests_cant": "Ranges over a continuum of real inputs; tests sample a handful of points.", "anchors": ["pyrtlib/rt_equation.py:RTEquation.exponential_integration", "pyrtlib/absorption_model.py:H2OAbsModel.h2o_absorption", "pyrtlib/tb_spectrum.py:TbCloudRTE.execute"]}
{"id": "C152", "title": "Nearby soundings have nearby brightness temperatures", "statement": "A run is stable against small errors of its input: soundings whose pressures, temperatures and (positive) humidities differ little, seen at frequencies that differ little, give brightness temperatures that differ little, up to 1e-8 per km of path times exp(h nu / k Tl) times the temperature variation along the path, which the switch of formulas at 1e-9 Np/km in the integration over the layers can cause.", "quantifier": "all moist soundings, models with Lorentz shapes, frequencies, elevations, from the ground and from a satellite", "why_tests_cant": "Ranges over a continuum of real inputs; tests sample a handful of points.", "anchors": ["pyrtlib/tb_spectrum.py:TbCloudRTE.execute", "pyrtlib/rt_equation.py:RTEquation.vapor", "pyrtlib/rt_equation.py:RTEquation.clearsky_absorption", "pyrtlib/rt_equation.py:RTEquation.exponential_integration", "pyrtlib/rt_equation.py:RTEquation.planck"]}
{"id": "C153", "title": "Moister air absorbs more", "statement": "At given pressure, temperature and frequency the absorption by water vapour grows strictly with the vapour pressure, by lines and by continuum, although vapour broadens the lines and lowers their peaks; a sounding that is nowhere drier than another one has no smaller wet opacity, up to 2e-9 Np per km of path.", "quantifier": "model R98 for water vapour with any oxygen and nitrogen models; pressures up to 1100 hPa, temperatures of 150 to 600 K, all frequencies, elevations and pairs of soundings with positive humidity", "why_tests_cant": "Ranges over a continuum of real inputs; tests sample a handful of points.", "anchors": ["pyrtlib/absorption_model.py:H2OAbsModel.h2o_absorption", "pyrtlib/rt_equation.py:RTEquation.clearsky_absorption", "pyrtlib/rt_equation.py:RTEquation.exponential_integration", "pyrtlib/tb_spectrum.py:TbCloudRTE.execute"]}
{"id": "C154", "title": "Columns of scaled and moister soundings", "statement": "A sounding that is nowhere drier than another one has no less precipitable water and no smaller wet delay; multiplying all humidities by a factor multiplies the precipitable water by that factor; both up to the threshold of the integration over the layers (2e-10 and (1 + factor) 1e-10 per km of path).", "quantifier": "all pairs of soundings with positive humidity at 152 K or more, factors, elevations, frequencies, models with Lorentz shapes, both views", "why_tests_cant": "Ranges over a continuum of real inputs; tests sample a handful of points.", "anchors": ["pyrtlib/rt_equation.py:RTEquation.vapor", "pyrtlib/rt_equation.py:RTEquation.refractivity", "pyrtlib/rt_equation.py:RTEquation.exponential_integration", "pyrtlib/tb_spectrum.py:TbCloudRTE.execute"]}
{"id": "C155", "title": "Cloud columns are linear and additive", "statement": "The integrated cloud density of a mixture of two distributions of cloud water is the mixture of their integrated densities, and the clouds of two lists together hold the sum of what each list holds, whatever the number, order and overlap of the clouds.", "quantifier": "all density profiles, paths, lists of cloud bases and tops, factors", "why_tests_cant": "Ranges over a continuum of real inputs; tests sample a handful of points.", "anchors": ["pyrtlib/rt_equation.py:RTEquation.cloud_integrated_density"]}
{"id": "C156", "title": "Dividing a cloud", "statement": "Describing a cloud as two clouds that meet at an inner level leaves the integrated density unchanged.", "quantifier": "all density profiles, paths, cloud bases, tops and levels of division", "why_tests_cant": "Ranges over a continuum of real inputs; tests sample a handful of points.", "anchors": ["pyrtlib/rt_equation.py:RTEquation.cloud_integrated_density"]}
{"id": "C157", "title": "Constituents integrated separately", "statement": "Integrating the absorption of two constituents along a path separately, as a run does, gives together no more than the integral of the summed absorption, and that is no more than the trapezoidal integrals, up to the threshold of the integration (3e-9 and 1e-9 per km).", "quantifier": "all positive absorption profiles, all paths, any number of levels, both settings of the zero flag", "why_tests_cant": "Ranges over a continuum of real inputs; tests sample a handful of points.", "anchors": ["pyrtlib/rt_equation.py:RTEquation.exponential_integration", "pyrtlib/tb_spectrum.py:TbCloudRTE.execute"]}
{"id": "C158", "title": "What cloud boundaries enter", "statement": "Calling init_cloudy with the same liquid and ice densities and other cloud boundaries changes only the integrated cloud densities and the radiating temperature of the cloud: brightness temperatures, opacities, absorption profiles, vapour columns and delays stay the same at every angle and frequency, so that water outside the boundaries absorbs as well.", "quantifier": "all solvers, clouds of any number and heights, densities, models, views, successful runs, any arithmetic", "why_tests_cant": "Ranges over a continuum of real inputs; tests sample a handful of points.", "anchors": ["pyrtlib/tb_spectrum.py:TbCloudRTE.init_cloudy", "pyrtlib/tb_spectrum.py:TbCloudRTE.execute"]}
{"id": "C159", "title": "Radiating temperature of several clouds", "statement": "With several clouds the reported mean radiating temperature of the clouds (tmrcld) takes all of them into account: further clouds given to init_cloudy enter the data frame.", "quantifier": "all solvers, lists of clouds, densities, models, views", "why_tests_cant": "Ranges over a continuum of real inputs; tests sample a handful of points.", "anchors": ["pyrtlib/tb_spectrum.py:TbCloudRTE.init_cloudy", "pyrtlib/tb_spectrum.py:TbCloudRTE.execute", "pyrtlib/rt_equation.py:RTEquation.cloud_radiating_temperature"]}
