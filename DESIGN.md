# Formal model of pyrtlib: design

## 1. Approach

The repository is numerical Python.  Every modelled function is written **once** as a total Gallina
function that is generic in a record of arithmetic operations (`Arith` in `theories/Arith.v`: `+ - * /`,
`exp ln log10 pow sqrt sin cos tan asin atan2`, comparisons, decimal literals).  The record has three instances:

* `RA` - ideal real arithmetic (Coq's `R`), used for the analytic theorems;
* `XA` - real numbers extended with `NaN`, `+inf`, `-inf` and IEEE-754 special-value rules (`0/0 = NaN`,
  `x/0 = +-inf`, comparisons with `NaN` are false; one unsigned zero).  Theorems over `XA` say that a result *is a finite
  number*, so they cannot be true because of Coq's convention `x/0 = 0`;
* `FA` - binary64 (Coq primitive floats, with series for the transcendental functions), used only to *run* the model
  on inputs taken from the repository's own tests (section 4).  No theorem of the MANIFEST rests on it.

Theorems about order of evaluation, branches, state, aliasing or table layout are proved **for every `Arith`**,
hence also for real binary64 arithmetic.

Python exceptions are values (`result A := Ok a | Err exn`); class attributes and module globals are an explicit
state record (`globals`); NumPy arrays and parameter objects that can be aliased live in an explicit heap.

Every definition of a model file carries a comment with file and lines of /repo, and says where it simplifies.

## 2. Files (`rocq/theories`)

| Model file | Code |
|---|---|
| `Arith`, `PyBase`, `PyStr` | arithmetic interface; Python exceptions, indexing, slices; Python text |
| `Utils` | `utils.py` |
| `RTE` | `rt_equation.py` except the absorption drivers |
| `Absorption`, `LineData`, `Lineshape`, `Registry` | `absorption_model.py`, the three line-list modules and the contents of their netCDF files |
| `Clear` | `rt_equation.py:clearsky_absorption`, `cloudy_absorption` and the class attributes they read |
| `Spectrum` | `tb_spectrum.py` (`TbCloudRTE`) |
| `Uncertainty` | `uncertainty/absmod_uncertainty.py`, `amu` blocks of `absorption_model.py` |
| `Covariance`, `CovData` | `uncertainty/covariance_matrix/__init__.py`, contents of its netCDF files, and their use in `docs/script_examples/uncertainty_tutorial.py` |
| `BaseClass` | assignment of `AbsModel.model` on the base class, `docs/script_examples/plot_water_vapour_profile.py` |
| `Tutorial` | the Jacobian loop of `docs/script_examples/uncertainty_tutorial.py` |
| `Weighting`, `PlotGroups` | `weighting_functions.py` (numbers handed to matplotlib, single and grouped plots) |
| `Extrapolation` | `climatology/extrapolation.py` |
| `ProfileData`, `Profiles` | `climatology/*.dat`, `climatology/atmospheric_profiles.py` |
| `Igra`, `Web`, `Era` | `apiwebservices/*.py` |

`Spec.v` holds specifications in plain real analysis and imports no model file; other specifications stand at the head of the
`Props*` file that uses them.  `Props*.v` hold the theorems `Cxx_...`, one group per claim, each followed by an `Example` (or a
`..._example` theorem) showing a non-trivial case that meets the hypotheses.  `RealAux`, `ListAux`, `StrAux`, `ExpQ`, `Integral`, `Planck*`,
`SolverGen`, `SolverRun`, `WeightingGen` hold lemmas.  `Float*.v` execute the model (section 4).

Properties that the faithful model violates are stated in full, refuted by a theorem `..._refuted`, and accompanied by
theorems giving the exact behaviour.  The manifest note of these claims starts with `REFUTED:`.  Theorems covering only part of a
claim carry the suffix `_partial`.

## 3. Trusted base

* Coq 8.16.1 kernel (with `vm_compute`), no plugins, no axioms of our own.
* Standard-library axioms, by the letter used in sections 5 and 6 (`Print Assumptions` was run for every theorem of the manifest):
  * `D` `ClassicalDedekindReals.sig_not_dec`, `S` `ClassicalDedekindReals.sig_forall_dec`,
    `F` `FunctionalExtensionality.functional_extensionality_dep`: the construction of the real numbers;
  * `C` `Classical_Prop.classic`: real analysis of the standard library and Coquelicot.
  * The files `Float*.v` use the primitive floats and integers of `Coq.Floats` / `Coq.Numbers`; nothing in the manifest does.
* The reading of the Python source, and of the binary line-list files (transcribed into `LineData.v`), covariance files (`CovData.v`) and text profiles (`ProfileData.v`).
* The operations of `RA`/`XA` as a description of the arithmetic: rounding, overflow, underflow and signed zero are not modelled
  there.  `MA m` (Machine.v) adds a bounded relative error to every operation and is used in C136 to bound the effect of rounding on the
  radiative transfer solution.
  Theorems for every `Arith` do not depend on this.

Not modelled: matplotlib, warnings, `eps_sandbox.py`, reading the netCDF files of `uncertainty/covariance_matrix` (their contents are in CovData.v), HTTP sessions, the HTML parser,
zip archives, pandas data frames beyond rows of values and type inference of columns (`np.round` is an arbitrary function), netCDF decoding,
the CDS client (an arbitrary function of the request), dtype promotion, the wall-clock time.

## 4. Checks of the model itself

* **Against the expected values of the repository.**  `FloatSat.v`, `FloatMain.v` and `FloatRest.v` run the model in binary64 on the inputs of
  `pyrtlib/tests` (14 satellite models, 6 atmospheres, 5 ground models, ray tracing, cloudy, ozone, uncertainty, absorption, ITU
  atmospheres, weighting-function peaks) and compare with the stored expectations.  They are tests of the transcription, not proofs.
* **Against wrong programs.**  `seeded/LOG.jsonl` lists edits made to definitions in a scratch copy, the claim each edit breaks, the theorems that
  stopped proving, and the theorems that were tightened because they did not.

## 5. Per property

Status, theorems and caveats are in `MANIFEST.json`; statements in `properties.jsonl`.  "Axioms" is the set that `Print Assumptions` lists
(see section 3): `-` = closed under the global context.

| Property | What is modelled (theorem file) | How it is proved | Axioms |
|---|---|---|---|
| C01 Planck inversion | utils.py:tk2b_mod, rt_equation.py:RTEquation.bright (PropsPlanck) | algebra with exp/ln over XA, results shown finite | CDFS |
| C02 Planck radiance and brightness temperature are strictly increasing | utils.py:tk2b_mod, rt_equation.py:RTEquation.bright (PropsPlanck) | strict monotonicity of exp, ln | CDFS |
| C03 Opacity profile is the running sum of layer opacities | rt_equation.py:RTEquation.planck (PropsPlanck) | induction over the levels, both modes | CDFS |
| C04 Isothermal downwelling closed form | rt_equation.py:RTEquation.planck (PropsPlanck) | planck = specification sum (PlanckMaster), then telescoping of exp(-tau) weights | CDFS |
| C05 Isothermal upwelling over a black surface | rt_equation.py:RTEquation.planck, rt_equation.py:RTEquation.bright (PropsPlanck) | as C04, then C01 | CDFS |
| C06 Ground-based brightness temperature is bounded | rt_equation.py:RTEquation.planck, tb_spectrum.py:TbCloudRTE.execute (PropsPlanck) | convex combination of layer and background radiances, then C02 | CDFS |
| C07 Satellite brightness temperature is bounded | rt_equation.py:RTEquation.planck, tb_spectrum.py:TbCloudRTE.execute (PropsPlanck) | as C06 | CDFS |
| C08 Mean radiating temperature is bounded | rt_equation.py:RTEquation.planck (PropsPlanck) | weighted mean of layer radiances | CDFS |
| C09 Upwelling is downwelling through the reversed profile | rt_equation.py:RTEquation.planck (PropsPlanck) | reindexing of the specification sum | - |
| C10 Emissivity enters affinely and only for satellites | rt_equation.py:RTEquation.planck, tb_spectrum.py:TbCloudRTE.emissivity (PropsPlanck) | affine in emissivity; ground mode independent of it for every Arith | CDFS |
| C11 **refuted** Satellite background contains reflected downwelling | rt_equation.py:RTEquation.planck (PropsPlanck) | the faithful background has emissivity*surface + (1-emissivity)*cosmic only; counterexample, exact law proved | CDFS |
| C12 Atmospheric brightness temperature column | tb_spectrum.py:TbCloudRTE.execute, rt_equation.py:RTEquation.planck (PropsSolverX) | row of the run unfolded; cosmic background subtracted after the opaque test | CDFS |
| C13 Opaque cut-off | rt_equation.py:RTEquation.planck (PropsPlanck) | branch analysis for every Arith | CDFS |
| C14 Transparent atmosphere | rt_equation.py:RTEquation.planck, rt_equation.py:RTEquation.bright (PropsPlanck) | zero layers, induction | CDFS |
| C15 Layer integral lies between its end values | rt_equation.py:RTEquation.exponential_integration (PropsIntegral) | logarithmic mean lies between its arguments (derivative argument) | CDFS |
| C16 Integral is the scaled sum of layers, additive and linear in the path | rt_equation.py:RTEquation.exponential_integration (PropsIntegral) | induction over the index range | CDFS |
| C17 Exact for exponential profiles | rt_equation.py:RTEquation.exponential_integration (PropsIntegral) | integral of exp computed with Coquelicot's RInt | CDFS |
| C18 Negative sample aborts the integration | rt_equation.py:RTEquation.exponential_integration (PropsIntegral) | induction; early exit for every Arith | CDFS |
| C19 Integration from the first level ignores the wrap-around layer | rt_equation.py:RTEquation.exponential_integration, tb_spectrum.py:TbCloudRTE.execute (PropsIntegral) | the wrap-around sample is multiplied by a zero path or skipped | CDFS |
| C20 Integrated cloud density of a uniform cloud | rt_equation.py:RTEquation.cloud_integrated_density (PropsCloud) | counterexample (off by one); exact sum proved | CDFS |
| C21 Cloud mean radiating temperature is bounded | rt_equation.py:RTEquation.cloud_radiating_temperature (PropsCloud) | weighted mean, finite over XA | CDFS |
| C22 Cloud level lookup | tb_spectrum.py:TbCloudRTE.init_cloudy (PropsSolverX) | induction over levels; relative heights | CDFS |
| C23 A cloud without water changes nothing | rt_equation.py:RTEquation.cloudy_absorption, tb_spectrum.py:TbCloudRTE.execute (PropsSolverX) | zero densities give zero absorption, added termwise | CDFS |
| C24 Liquid and ice absorption are linear in density and non-negative | absorption_model.py:LiqAbsModel.liquid_water_absorption, rt_equation.py:RTEquation.cloudy_absorption, utils.py:dilec12 (PropsLiq) | sign of the imaginary part of (eps-1)/(eps+2) in each dielectric model; linearity | CDFS |
| C25 Refractivity | rt_equation.py:RTEquation.refractivity (PropsRay) | algebra over XA | CDFS |
| C26 Ray tracing path lengths | rt_equation.py:RTEquation.ray_tracing (PropsBent; PropsRay) | induction over levels; bounds on sine, cosine and arcsine show no guard is taken on slanted rays (PropsBent); Snell triangle inequalities; division guards shown reached only with non-zero divisors | CDFS |
| C27 Plane-parallel opacity scales with the cosecant of elevation | tb_spectrum.py:TbCloudRTE.execute, rt_equation.py:RTEquation.exponential_integration (PropsSolverX) | linearity (C16) applied to a whole run | CDFS |
| C28 Vapour pressure and density from relative humidity | rt_equation.py:RTEquation.vapor, utils.py:eswat_goffgratch (PropsUtils) | algebra; RH linear | CDFS |
| C29 **refuted** Vapour over ice option | rt_equation.py:RTEquation.vapor (PropsUtils) | counterexample; what the option really does | - |
| C30 Saturation vapour pressure increases with temperature | utils.py:eswat_goffgratch, utils.py:esice_goffgratch, utils.py:satvap (PropsUtils) | derivative sign of the Goff-Gratch exponents | CDFS |
| C31 Mixing ratio, vapour pressure and density conversions are inverse | utils.py:mr2e, utils.py:e2mr, utils.py:mr2rho, utils.py:rho2mr (PropsUtils) | field | CDFS |
| C32 Relative humidity of saturated air and consistency with the solver | utils.py:mr2rh, utils.py:satmix, rt_equation.py:RTEquation.vapor (PropsUtils) | field after C30 positivity | CDFS |
| C33 **refuted** Two routes to relative humidity agree | utils.py:rho2rh, utils.py:mr2rho, utils.py:mr2rh (PropsUtils) | counterexample with explicit numbers; exact ratio | CDFS |
| C34 Pressure and height conversions are inverse and monotone | utils.py:pressure_to_height, utils.py:height_to_pressure (PropsUtils2) | Rpower inverse, monotone | CDFS |
| C35 **refuted** Standard-atmosphere lapse rate | utils.py:pressure_to_height, utils.py:height_to_pressure (PropsUtils2) | closed form of the exponent | CDFS |
| C36 Kelvin and Celsius | utils.py:to_kelvin, utils.py:to_celsius (PropsUtils2) | ring | CDFS |
| C37 Relative humidity from dew point | utils.py:dewpoint2rh (PropsUtils2) | closed form; equality and monotonicity | CDFS |
| C38 Virtual temperature | utils.py:virtual_temperature (PropsUtils2) | field, inequalities | CDFS |
| C39 Hypsometric thickness | utils.py:atmospheric_tickness, utils.py:_thickness_hydrostatic (PropsUtils2) | induction over levels, equality with the hypsometric sum | CDFS |
| C40 Physical constant lookup | utils.py:constants (PropsUtils2) | case analysis over all strings | CDFS |
| C41 Gas masses cover the gases of the climatology | utils.py:gas_mass, climatology/atmospheric_profiles.py:AtmosphericProfiles (PropsUtils2) | case analysis over all strings/integers | CDFS |
| C42 Instrument frequency tables | utils.py:get_frequencies, utils.py:get_frequencies_sat (PropsUtils2) | case analysis over all strings | CDFS |
| C43 Double-sideband channels are symmetric | utils.py:get_frequencies_sat (PropsUtils2) | symmetric pairs by computation on the complete tables (finite domain) | CDFS |
| C44 **refuted** Profile order check | tb_spectrum.py:TbCloudRTE.__init__ (PropsObject) | boolean scan against order specification; every Arith | CDFS |
| C45 **refuted** Constructing a solver leaves the inputs alone | tb_spectrum.py:TbCloudRTE.__init__ (PropsObject) | frame lemma for the heap; only the documented shift | CDFS |
| C46 Property validation | tb_spectrum.py:TbCloudRTE.satellite, tb_spectrum.py:TbCloudRTE.emissivity (PropsObject; PropsPlot) | all Python value kinds | - |
| C47 **refuted** Model name given to the constructor | tb_spectrum.py:TbCloudRTE.__init__, tb_spectrum.py:TbCloudRTE.init_absmdl (PropsObject) | constructor state machine | CDFS |
| C48 Which model names run | tb_spectrum.py:TbCloudRTE.init_absmdl, tb_spectrum.py:TbCloudRTE._init_linelist, absorption_model.py:AbsModel (PropsModels; PropsO2Data) | case analysis over all names and any line data base | - |
| C49 **refuted** Solvers do not share model selection | tb_spectrum.py:TbCloudRTE.init_absmdl, absorption_model.py:AbsModel.model (PropsHistory; PropsModels) | counterexample with two solvers; what is shared | - |
| C50 Runs are reproducible whatever happened before | tb_spectrum.py:TbCloudRTE.execute, utils.py:import_lineshape (PropsHistory) | equality of runs from any two global states; every Arith | - |
| C51 **refuted** Clear-sky run after a cloudy run | tb_spectrum.py:TbCloudRTE.execute, tb_spectrum.py:TbCloudRTE.cloudy (PropsHistory) | counterexample; exact dependence on the previous run | - |
| C52 Rows are independent and ordered | tb_spectrum.py:TbCloudRTE.execute (PropsRun) | mapM lemmas; every Arith | - |
| C53 Absorption coefficients in Np/km | rt_equation.py:RTEquation.clearsky_absorption (PropsClear) | unit algebra; sum of the four gases | CDFS |
| C54 Nitrogen absorption | absorption_model.py:N2AbsModel.n2_absorption (PropsAbsN2) | power law in pressure and temperature, closed form | CDFS |
| C55 Oxygen absorption is non-negative | absorption_model.py:O2AbsModel.o2_absorption (PropsO2Data; PropsO2H2O) | clipping; continuum sign on shipped and arbitrary line lists | CDFS |
| C56 Ozone line window | absorption_model.py:O3AbsModel.o3_absorption (PropsO3; PropsVoigt) | induction over the line list sorted by frequency | CDFS |
| C57 Water-vapour lines and continuum are non-negative | absorption_model.py:H2OAbsModel.h2o_absorption (PropsH2O; PropsSDWater; PropsSelfCont) | Lorentz minus pedestal sign; induction over lines; shipped tables by computation; speed-dependent lines through C114 and interval bounds on the shipped widths | CDFS |
| C58 Self-continuum interpolation | absorption_model.py:H2OAbsModel.h2o_continuum (PropsSelfCont) | interpolation weights, range, agreement at nodes, derivative bounds | CDFS |
| C59 **refuted** Perturbed parameter dictionaries are not modified by a run | absorption_model.py:O2AbsModel.o2_absorption, tb_spectrum.py:TbCloudRTE.set_amu (PropsAmu; PropsAmuRun) | frame lemmas on the store | CDFS |
| C60 Perturbation changes only the selected entries | uncertainty/absmod_uncertainty.py:AbsModUncertainty.parameters_perturbation (PropsAmuRun; PropsUnc) | deepcopy disjointness; induction over selected indices | CDFS |
| C61 **refuted** Uncertainty propagation formulas | uncertainty/absmod_uncertainty.py:AbsModUncertainty.uncertainty_propagation (PropsUncProp) | matrix product against textbook sums | CDFS |
| C62 **refuted** Default parameters exist for every implemented model | uncertainty/absmod_uncertainty.py:SpectroscopicParameter.water_parameters, uncertainty/absmod_uncertainty.py:SpectroscopicParameter.oxygen_parameters, _lineshape/h2oll.py, _lineshape/o2ll.py (PropsTables) | all registered names | - |
| C63 Weighting functions | weighting_functions.py:WeightingFunctions.generate_wf (PropsWeightRun; PropsWeighting) | induction over levels; non-negativity and telescoping | CDFS |
| C64 Channel averaging | weighting_functions.py:WeightingFunctions._mean_channel (PropsChannels) | induction over the blocks | CDFS |
| C65 **refuted** Channel labels | weighting_functions.py:WeightingFunctions.plot_wf (PropsChannels) | counterexample; single bands proved (_partial) | CDFS |
| C66 Extrapolation keeps the measured levels | climatology/extrapolation.py:ProfileExtrapolation.profile_extrapolation (PropsExtrap) | list prefix lemmas | CDFS |
| C67 **refuted** Extrapolation of tall profiles | climatology/extrapolation.py:ProfileExtrapolation.profile_extrapolation (PropsExtrap) | branch analysis | CDFS |
| C68 **refuted** Extrapolation does not depend on earlier calls | climatology/extrapolation.py:ProfileExtrapolation.profile_extrapolation (PropsExtrap) | state machine over arbitrary call sequences | CDFS |
| C69 Season selection | climatology/extrapolation.py:ProfileExtrapolation._get_season (PropsExtrap) | all integers | CDFS |
| C70 Reference standard atmosphere | climatology/extrapolation.py:ProfileExtrapolation.standard_pressure, climatology/extrapolation.py:ProfileExtrapolation.standard_temperature (PropsItu) | layer-by-layer analysis with rational enclosures of exp/ln | CDFS |
| C71 **refuted** Surface values of the reference atmosphere | climatology/extrapolation.py:ProfileExtrapolation.standard_pressure, climatology/extrapolation.py:ProfileExtrapolation.standard_temperature (PropsItu) | evaluation at height zero | CDFS |
| C72 Climatology profile selection | climatology/atmospheric_profiles.py:AtmosphericProfiles.gl_atm (PropsProfiles) | all integers | - |
| C73 Minor and trace gas selection | climatology/atmospheric_profiles.py:AtmosphericProfiles.gl_atm_minor, climatology/atmospheric_profiles.py:AtmosphericProfiles.gl_atm_trace (PropsProfiles) | all integers incl. negative wrap-around | - |
| C74 IGRA2 date selection | apiwebservices/igra2.py:IGRAUpperAir._select_date_range (PropsIgra) | induction over the soundings of a file | - |
| C75 **refuted** IGRA2 date selection without order | apiwebservices/igra2.py:IGRAUpperAir._select_date_range (PropsIgra) | as C74 without order | - |
| C76 IGRA2 release time | apiwebservices/igra2.py:IGRAUpperAir._ctime (PropsIgra2) | digit arithmetic | - |
| C77 IGRA2 coordinates | apiwebservices/igra2.py:IGRAUpperAir._clatlon (PropsIgra2) | digit arithmetic | CDFS |
| C78 Wind components | apiwebservices/igra2.py:IGRAUpperAir.get_wind_components (PropsIgra2) | sin/cos identities | CDFS |
| C79 IGRA2 derived products | apiwebservices/igra2.py:IGRAUpperAir.request_data, apiwebservices/igra2.py:IGRAUpperAir._get_fwf_params (PropsIgra2) | branch analysis | - |
| C80 URL construction and HTTP status | apiwebservices/webservices.py:HTTPEndPoint (PropsWeb) | string lemmas, arbitrary server | - |
| C81 Wyoming request is unambiguous | apiwebservices/wyomingupperair.py:WyomingUpperAir._get_data_raw (PropsWeb) | injectivity of the printed fields | - |
| C82 **refuted** ERA5 nearest grid point | apiwebservices/erafive.py:ERA5Reanalysis._find_nearest, apiwebservices/erafive.py:ERA5Reanalysis.read_data (PropsEra) | argmin lemma; geometric counterexample | CDFS |
| C83 Complex error function approximation | utils.py:_dcerror (PropsErf) | complex algebra, symmetry | CDFS |
| C84 Complete radiative transfer result | rt_equation.py:RTEquation.planck (PropsPlanck) | planck equals an independent specification of the complete record | CDFS |
| C85 **refuted** Rays in a homogeneous medium are straight | rt_equation.py:RTEquation.ray_tracing (PropsRay) | counterexample to exactness; straight-line law | CDFS |
| C86 **refuted** Self-continuum power law | absorption_model.py:H2OAbsModel.h2o_absorption (PropsSelfCont) | counterexample; what is computed | CDFS |
| C87 Real part of the complex error function | utils.py:_dcerror (PropsVoigt) | polynomial with positive coefficients | CDFS |
| C88 **refuted** Unperturbed parameters change nothing | absorption_model.py:H2OAbsModel.h2o_absorption, absorption_model.py:O2AbsModel.o2_absorption, uncertainty/absmod_uncertainty.py:SpectroscopicParameter.water_parameters, uncertainty/absmod_uncertainty.py:SpectroscopicParameter.oxygen_parameters (PropsAmu) | refuted for two models, proved for the others | CDFS |
| C89 **refuted** Every listed parameter takes part | absorption_model.py:H2OAbsModel.h2o_absorption, absorption_model.py:O2AbsModel.o2_absorption (PropsAmu; PropsApplied) | counterexamples per parameter; for the entries that act, the line list a run works with is computed entry by entry (PropsApplied) | - |
| C90 Weight of a level | weighting_functions.py:WeightingFunctions.generate_wf (PropsWeightRun) | transmittance times absorption, from C16 | CDFS |
| C91 Models used by weighting functions | weighting_functions.py:WeightingFunctions.generate_wf, weighting_functions.py:WeightingFunctions._perform_calculation (PropsWeighting) | state machine | - |
| C92 **refuted** Plotting leaves the object unchanged | weighting_functions.py:WeightingFunctions.plot_wf (PropsChannels) | counterexample; without bands proved (_partial) | CDFS |
| C93 Plotted curves | weighting_functions.py:WeightingFunctions.plot_wf (PropsChannels; PropsPlot) | list lemmas | CDFS |
| C94 **refuted** Height grid of the weighting functions | weighting_functions.py:WeightingFunctions.__init__ (PropsWfGrid) | grid lemmas, interpolation bounds | CDFS |
| C95 **refuted** Humidity of added levels | climatology/extrapolation.py:ProfileExtrapolation.profile_extrapolation, utils.py:rho2rh (PropsItuSeason) | counterexample; bounds | CDFS |
| C96 Seasonal reference atmospheres | climatology/extrapolation.py:ProfileExtrapolation.pressure, climatology/extrapolation.py:ProfileExtrapolation.temperature, climatology/extrapolation.py:ProfileExtrapolation.water_vapour_density (PropsItuSeason) | layer-by-layer real analysis | CDFS |
| C97 Pressure of an extended profile | climatology/extrapolation.py:ProfileExtrapolation.profile_extrapolation (PropsItuJoin) | counterexample at the junction; monotone elsewhere | CDFS |
| C98 Built-in atmospheres are physical profiles | climatology/atmospheric_profiles.py:AtmosphericProfiles.gl_atm, tb_spectrum.py:TbCloudRTE.__init__ (PropsProfiles) | computation over the complete tables (finite), then C44 | CDFS |
| C99 **refuted** Numbers of the built-in atmospheres | climatology/atmospheric_profiles.py:AtmosphericProfiles.gl_atm (PropsProfiles) | counterexample (header value) | - |
| C100 IGRA2 scaled fields | apiwebservices/igra2.py:IGRAUpperAir._cdec (PropsIgra2) | digit arithmetic | CDFS |
| C101 Wyoming sounding metadata | apiwebservices/wyomingupperair.py:WyomingUpperAir._get_data (PropsWeb) | string lemmas | - |
| C102 ERA5 profile rows | apiwebservices/erafive.py:ERA5Reanalysis.read_data (PropsEra) | mapM lemmas | - |
| C103 **refuted** ERA5 humidity unit | apiwebservices/erafive.py:ERA5Reanalysis.read_data (PropsEra) | counterexample; factor | CDFS |
| C104 ERA5 heights | apiwebservices/erafive.py:ERA5Reanalysis.read_data, utils.py:atmospheric_tickness (PropsEra) | C39 applied per level | CDFS |
| C105 Molecular masses | utils.py:gas_mass, climatology/atmospheric_profiles.py:AtmosphericProfiles (PropsUtils3) | 31 cases against an independent table of formulas; counterexample for the last identifier | CDFS |
| C106 Volume mixing ratio to mass mixing ratio | utils.py:ppmv2gkg, utils.py:mr2e (PropsUtils3) | closed forms; difference of two rational functions bounded | CDFS |
| C107 Density of moist air | utils.py:kgkg_to_kgm3, utils.py:virtual_temperature (PropsUtils3) | closed form of both densities; monotonicity | CDFS |
| C108 Number density of a trace gas | utils.py:ppmv_to_moleculesm3, utils.py:ppmv2gkg, utils.py:kgkg_to_kgm3 (PropsUtils3) | closed form; ratio of constants bounded by computation | CDFS |
| C109 Ice saturation below the conversion temperature | utils.py:satvap, utils.py:eswat_goffgratch, utils.py:esice_goffgratch (PropsUtils3) | case analysis; monotonicity of both Goff-Gratch branches and continuity of the water branch; rational enclosures of logarithms | CDFS |
| C110 Rows of the result table | tb_spectrum.py:TbCloudRTE.execute, rt_equation.py:RTEquation.exponential_integration, rt_equation.py:RTEquation.planck (PropsRow) | inversion of a successful run; transfer lemmas from ext to reals; the integral theorems for every row | CDFS |
| C111 Runs with the shipped line lists end to end | tb_spectrum.py:TbCloudRTE.execute, tb_spectrum.py:TbCloudRTE.__init__, rt_equation.py:RTEquation.clearsky_absorption (PropsBentRun; PropsEnd) | transfer of every step of a run from ext to reals (FinTransfer, FinGas, FinSD, FinClear, FinCloud) and C110; path lengths by C26_bent_path (PropsBentRun) | CDFS |
| C112 A new solver before any setter | tb_spectrum.py:TbCloudRTE.__init__, tb_spectrum.py:TbCloudRTE.set_amu, tb_spectrum.py:TbCloudRTE.satellite, tb_spectrum.py:TbCloudRTE.emissivity (PropsCtor) | rewriting with the constructor; a run depends on dereferenced inputs only | - |
| C113 Missing selections | rt_equation.py:RTEquation.clearsky_absorption, absorption_model.py:AbsModel.set_ll, tb_spectrum.py:TbCloudRTE._init_linelist (PropsSelect) | inversion of a successful call; case analysis on the class state | CDFS |
| C114 Speed-dependent shapes are corrections | absorption_model.py:H2OAbsModel.h2o_absorption, absorption_model.py:O2AbsModel.o2_absorption, utils.py:dcerror (PropsSD) | rational bound on the ratio of the two polynomials of the complex error function; complex square root; triangle inequalities | CDFS |
| C115 Grouped plot of weighting functions | weighting_functions.py:WeightingFunctions.plot_wf_grouped (PropsPlot) | induction over the group sizes; extreme entries of lists by induction | CDFS |
| C116 **refuted** Releases agree on the lines they share | _lineshape/h2o_lineshape.nc, _lineshape/o2_lineshape.nc, _lineshape/o3_lineshape.nc, _lineshape/h2oll.py, _lineshape/o2ll.py, _lineshape/o3ll.py (PropsData) | decision procedure on rationals proved sound for reals, run by the kernel on all pairs of rows (PropsData) | CDFS |
| C117 Physical ranges of the line lists | _lineshape/h2oll.py, _lineshape/o2ll.py, _lineshape/o3ll.py (PropsData) | the same; monotony from neighbouring rows by induction (PropsData) | CDFS |
| C118 Water vapour: number density times cross section | absorption_model.py:H2OAbsModel.h2o_absorption, absorption_model.py:H2OAbsModel.h2o_continuum (PropsCross; PropsCrossMore) | sums over the line list by induction; constants compared by linear arithmetic with proved bounds of pi; C114 for the speed-dependent shapes (PropsCross, PropsCrossMore) | CDFS |
| C119 Oxygen: number density times cross section | absorption_model.py:O2AbsModel.o2_absorption (PropsCrossO2) | the same for oxygen; shape algebra by field (PropsCrossO2) | CDFS |
| C120 Oxygen R23 and R24: sum rules of line mixing | absorption_model.py:O2AbsModel.o2_absorption (PropsCrossO2) | the fold over indices is split into the three groups of lines, each sum rule is the definition of the shift solved backwards (PropsCrossO2) | CDFS |
| C121 Ozone: number density times cross section | absorption_model.py:O3AbsModel.o3_absorption, utils.py:dcerror (PropsCrossMore) | C56 for the window; remainder of the rational approximation of the complex error function bounded in the sector |x| <= y (PropsCrossMore) | CDFS |
| C122 Cloud water: Rayleigh extinction | absorption_model.py:LiqAbsModel.liquid_water_absorption, utils.py:dilec12 (PropsCrossMore) | complex algebra; passivity of the permittivities from C24 (PropsCrossMore) | CDFS |
| C123 **refuted** Standard deviation from the parameter covariances | uncertainty/covariance_matrix/__init__.py:R17_111, uncertainty/covariance_matrix/__init__.py:R17_112, uncertainty/covariance_matrix/__init__.py:R19, docs/script_examples/uncertainty_tutorial.py (CovForm; PropsCov) | matrices as stored (binary64, read from the files) in CovData.v; matrix products of extended reals are sums of products (CovForm); the refuting row is evaluated in integers (PropsCov) | CDFS |
| C124 Parameter groups with sound covariances | uncertainty/covariance_matrix/__init__.py:R17_111, uncertainty/covariance_matrix/__init__.py:R17_112, uncertainty/covariance_matrix/__init__.py:R19 (PropsCov) | sum of squares plus a form with a dominant diagonal, certificate (CovCert) found outside and checked in integers by conversion, soundness of the check proved (CovForm, PropsCov) | CDFS |
| C125 **refuted** Bounds and symmetry of propagated covariances | uncertainty/covariance_matrix/__init__.py:R17_111, uncertainty/covariance_matrix/__init__.py:R17_112, uncertainty/covariance_matrix/__init__.py:R19 (PropsCov) | Cauchy-Schwarz for every pair of entries checked in integers, summed over all indices (PropsCov) | DFS |
| C126 Oxygen part of the covariance matrices | uncertainty/covariance_matrix/__init__.py:R17_111, uncertainty/covariance_matrix/__init__.py:R17_112, uncertainty/covariance_matrix/__init__.py:R19, tests/test_uncertainty.py:test_cov_p (PropsCov) | entries compared in integers, sums split (PropsCov) | CDFS |
| C127 Warmer air is seen as warmer | rt_equation.py:RTEquation.planck, rt_equation.py:RTEquation.bright (PropsMono) | emission weights of C02/C03 (PlanckMaster) summed by Abel summation; planckB and planckT monotone (PropsMono) | CDFS |
| C128 More absorption: warmer from below, colder from above | rt_equation.py:RTEquation.planck, tb_spectrum.py:TbCloudRTE.execute (PropsMono; PropsMonoRun) | derivative-free comparison of the recurrences of emission along the path for two sets of opacities (PropsMono); opacities of a cloudy run as those of the clear run plus a non-negative part (PropsMonoRun) | CDFS |
| C129 **refuted** Spectra without jumps | absorption_model.py:H2OAbsModel.h2o_absorption, absorption_model.py:O2AbsModel.o2_absorption, absorption_model.py:N2AbsModel.n2_absorption, absorption_model.py:O3AbsModel.o3_absorption, rt_equation.py:RTEquation.clearsky_absorption (PropsSmooth) | epsilon-delta continuity of every factor, window of the water lines continuous because of the subtracted base; ozone refuted at the edge of the window of the lowest line (PropsSmooth) | CDFS |
| C130 Different models for different gases | tb_spectrum.py:TbCloudRTE.execute, tb_spectrum.py:TbCloudRTE._init_linelist, absorption_model.py:AbsModel.set_ll (PropsMixed) | generalisation of C111 to one model per gas: FinClear proves every combination finite and non-negative (PropsMixed) | CDFS |
| C131 From the built-in atmospheres to spectra | climatology/atmospheric_profiles.py:AtmosphericProfiles.gl_atm, utils.py:ppmv2gkg, utils.py:mr2rh, utils.py:ppmv_to_moleculesm3, tb_spectrum.py:TbCloudRTE.execute, README.md, docs/script_examples/plot_brightness_temperature_wO3.py (PropsClimate) | rows of the tables (C98) carried through the unit conversions (C106, C32) over extended numbers, then C130 (PropsClimate) | CDFS |
| C132 IGRA2 tables | apiwebservices/igra2.py:IGRAUpperAir._get_data, apiwebservices/igra2.py:IGRAUpperAir._get_fwf_params, apiwebservices/igra2.py:IGRAUpperAir._clean_body_df (PropsIgraTable) | text of a file as concatenated fixed-width fields; the columns of read_fwf cut exactly these fields; selection from C74 (PropsIgraTable) | CDFS |
| C133 **refuted** Wyoming levels | apiwebservices/wyomingupperair.py:WyomingUpperAir._get_data (PropsWyoTable) | lines as columns of given width; splitting at blanks returns the values present in order, whatever their column (PropsWyoTable) | - |
| C134 Wyoming stations | apiwebservices/wyomingupperair.py:WyomingUpperAir.get_stations (PropsWyoTable) | invariant of the dictionary over the list of titles (PropsWyoTable) | - |
| C135 **refuted** ERA5 requests and files | apiwebservices/erafive.py:ERA5Reanalysis.request_data, apiwebservices/erafive.py:ERA5Reanalysis.read_data (PropsEraRequest) | the store is an arbitrary function of the request, the disk a map from names; injectivity of the file name in the time (PropsEraRequest) | CDFS |
| C136 Rounding of the radiative transfer solution | rt_equation.py:RTEquation.planck, rt_equation.py:RTEquation.bright, utils.py:tk2b_mod (PropsRound) | instance MA of the arithmetic with relative errors; calculus of factors exp(c v); induction over the loop with a bound on the accumulated error; machine double53 from Flocq as instance (Machine, RoundPlanck, PropsRound) | CDFS |
| C137 Sensitivity of brightness temperatures to absorption | rt_equation.py:RTEquation.planck, rt_equation.py:RTEquation.bright (PropsCondition) | summation by parts turns the layer sum into differences of Planck radiances times transmissions, whose dependence on opacity is bounded by derivatives; Lipschitz constants of the Planck function and its inverse (PropsCondition) | CDFS |
| C138 Rounding from absorption to brightness temperature | rt_equation.py:RTEquation.exponential_integration, tb_spectrum.py:TbCloudRTE.execute, rt_equation.py:RTEquation.planck (PropsAbsorbed) | exponential_integration and the sum of constituents over any arithmetic as lists of layer values; both branches compared with the exact value under relative errors; C136 and C137 for the rest (PropsAbsorbed) | CDFS |
| C139 Accuracy of the layer sums | rt_equation.py:RTEquation.planck (PropsExact) | the exact weight of the far end of a layer minus that of the code lies between 0 and d^2/6; Chasles relation over the layers with Coquelicot's Riemann integral (PropsExact) | CDFS |
| C140 Splitting a sounding | rt_equation.py:RTEquation.planck, rt_equation.py:RTEquation.bright (PropsStack) | emission along a path splits at any index; both viewing directions; isothermal emission in closed form (PropsStack) | CDFS |
| C141 Opacities do not depend on the view | tb_spectrum.py:TbCloudRTE.execute, tb_spectrum.py:TbCloudRTE.satellite, tb_spectrum.py:TbCloudRTE.emissivity (PropsView) | inversion of two runs of execute on inputs that differ in the emissivities and the direction; the cells agree on all but the transfer outputs, in any arithmetic (PropsView) | - |
| C142 Errors of temperature are not amplified | rt_equation.py:RTEquation.planck, rt_equation.py:RTEquation.bright (PropsJensen) | the radiance is an average of Planck radiances; tangents of the Planck function have a logarithmic slope that does not grow with temperature, so that the brightness temperature of a raised profile stays below the raised brightness temperature (PropsJensen) | CDFS |
| C143 Distance to the Rayleigh-Jeans solution | rt_equation.py:RTEquation.planck, rt_equation.py:RTEquation.bright, utils.py:tk2b_mod (PropsJensen) | convexity of the Planck function (Jensen) for the lower bound; the line through -h nu / 2 k for the upper one (PropsJensen) | CDFS |
| C144 Limb brightening and darkening | tb_spectrum.py:TbCloudRTE.execute, rt_equation.py:RTEquation.ray_tracing, rt_equation.py:RTEquation.exponential_integration, rt_equation.py:RTEquation.planck (PropsLimb) | slant paths grow as the elevation falls; layer integrals are linear in the path; C127 for the transfer (PropsLimb) | CDFS |
| C145 From a radiosonde archive to a spectrum | apiwebservices/wyomingupperair.py:WyomingUpperAir._get_data, apiwebservices/igra2.py:IGRAUpperAir._get_data, utils.py:to_kelvin, utils.py:dewpoint2rh, tb_spectrum.py:TbCloudRTE.execute, docs/script_examples/plot_bt_wyoming.py, docs/script_examples/plot_bt_igra2.py (PropsSonde) | the arrays of the programs are finite and equal those of the ideal arithmetic; C132/C133 for the tables, C130 for the run (PropsSonde) | CDFS |
| C146 From an ERA5 file to clear and cloudy spectra | apiwebservices/erafive.py:ERA5Reanalysis.read_data, utils.py:kgkg_to_kgm3, utils.py:atmospheric_tickness, tb_spectrum.py:TbCloudRTE.init_cloudy, tb_spectrum.py:TbCloudRTE.execute, docs/script_examples/plot_bt_era5_cloudy_profile.py, docs/script_examples/plot_bt_era5.py (PropsEraRun) | C102 for the table; heights and densities are finite and equal those of the ideal arithmetic; one lemma for a pass of the loop, applied twice (PropsEraRun) | CDFS |
| C147 **refuted** Choosing the model on the base class | absorption_model.py:AbsModel.model, absorption_model.py:AbsModel.set_ll, tb_spectrum.py:TbCloudRTE.init_absmdl, docs/script_examples/plot_water_vapour_profile.py (PropsBase) | the attribute look-up of Python classes as a two-level record; the run of the example is reduced to C130's facts on line lists (PropsBase) | CDFS |
| C148 Jacobian of the uncertainty tutorial | docs/script_examples/uncertainty_tutorial.py, uncertainty/absmod_uncertainty.py:AbsModUncertainty.parameters_perturbation, uncertainty/absmod_uncertainty.py:SpectroscopicParameter.oxygen_parameters, uncertainty/absmod_uncertainty.py:SpectroscopicParameter.water_parameters (PropsTutorial) | the requests of the loop are computed for an abstract arithmetic (one conversion in the kernel's virtual machine), the rest by induction over the list of parameters (PropsTutorial) | CDFS |
| C149 **refuted** Standard deviations of the tutorial | docs/script_examples/uncertainty_tutorial.py, uncertainty/covariance_matrix/__init__.py:R17_111, uncertainty/covariance_matrix/__init__.py:R17_112 (PropsSigma) | C148 for the columns, their values over the extended numbers, C123 for the roots; the steps are compared with the stored variances by integer arithmetic (PropsSigma) | CDFS |
| C150 Nearby states of the air have nearby absorption | absorption_model.py:H2OAbsModel.h2o_absorption, absorption_model.py:O2AbsModel.o2_absorption, absorption_model.py:N2AbsModel.n2_absorption, rt_equation.py:RTEquation.clearsky_absorption (PropsState) | epsilon-delta continuity in four variables, composed formula by formula; sums over line lists by induction (PropsState) | CDFS |
| C151 **refuted** Drying a level | rt_equation.py:RTEquation.exponential_integration, absorption_model.py:H2OAbsModel.h2o_absorption, tb_spectrum.py:TbCloudRTE.execute (PropsDryTop) | C150 for the levels, the logarithmic mean between the ends, induction over the layers; the jump from the two means at a dry end (PropsDryTop) | CDFS |
| C152 Nearby soundings have nearby brightness temperatures | tb_spectrum.py:TbCloudRTE.execute, rt_equation.py:RTEquation.vapor, rt_equation.py:RTEquation.clearsky_absorption, rt_equation.py:RTEquation.exponential_integration, rt_equation.py:RTEquation.planck (PropsNearby) | C150 for the levels, C151's bound for each layer, C137 for the opacities, C142 for the temperatures, continuity of the Planck functions in the frequency (PropsNearby) | CDFS |
| C153 Moister air absorbs more | absorption_model.py:H2OAbsModel.h2o_absorption, rt_equation.py:RTEquation.clearsky_absorption, rt_equation.py:RTEquation.exponential_integration, tb_spectrum.py:TbCloudRTE.execute (PropsMoist) | the part of a resonance above its value at the cut-off, times the vapour, grows with the vapour because self-broadened widths exceed foreign ones and stay far below 750 GHz; the shipped list meets the bounds; the logarithmic mean grows with both ends; runs through C130 (PropsMoist) | CDFS |
| C154 Columns of scaled and moister soundings | rt_equation.py:RTEquation.vapor, rt_equation.py:RTEquation.refractivity, rt_equation.py:RTEquation.exponential_integration, tb_spectrum.py:TbCloudRTE.execute (PropsScale) | the columns are integrals of the vapour density and of the wet refractivity (C111); both grow with the vapour pressure, the first is proportional to it; the logarithmic mean grows and is homogeneous (PropsScale) | CDFS |
| C155 Cloud columns are linear and additive | rt_equation.py:RTEquation.cloud_integrated_density (PropsCloudSum) | from the exact sum of C20, by induction over the layers and over the clouds (PropsCloudSum) | CDFS |
| C156 **refuted** Dividing a cloud | rt_equation.py:RTEquation.cloud_integrated_density (PropsCloudSum) | counterexample with the exact loss: the sum of C20 split at the level of division (PropsCloudSum) | CDFS |
| C157 Constituents integrated separately | rt_equation.py:RTEquation.exponential_integration, tb_spectrum.py:TbCloudRTE.execute (PropsSeparate) | the logarithmic mean is the integral of weighted geometric means, which are superadditive because exp is convex; induction over the layers; for humid soundings vapour and nitrogen absorb at every level (PropsSeparate) | CDFS |
| C158 What cloud boundaries enter | tb_spectrum.py:TbCloudRTE.init_cloudy, tb_spectrum.py:TbCloudRTE.execute (PropsCloudHeights) | simulation: the two runs agree step by step in everything but the cloud attributes; induction over frequencies and angles (PropsCloudHeights) | - |
| C159 **refuted** Radiating temperature of several clouds | tb_spectrum.py:TbCloudRTE.init_cloudy, tb_spectrum.py:TbCloudRTE.execute, rt_equation.py:RTEquation.cloud_radiating_temperature (PropsCloudHeights) | counterexample, in fact for all lists of clouds: simulation with equality of all rows (PropsCloudHeights) | - |

## 6. Axioms per theorem

* `-`: `C09_reversal`, `C10_ground_ignores_emissivity`, `C100_scaled`, `C100_missing`, `C101_metadata`, `C101_century_refuted`, `C102_rows`, `C106_unknown_gas`, `C112_black_surface`, `C112_options`, `C112_clear_columns`, `C113_run`, `C115_ground_refused`, `C115_incomplete_groups`, `C123_shape`, `C133_exact`, `C133_row`, `C133_table`, `C133_humidity_refuted`, `C133_wind_refuted`, `C133_refuted`, `C134_stations`, `C141_opacities`, `C141_setters`, `C147_no_effect`, `C148_quotients`, `C148_columns`, `C158_boundaries`, `C159_further_clouds_refuted`, `C24_liquid_names`, `C24_no_liquid`, `C29_ice_option_refuted`, `constants_entries`, `C45_other_arrays_unchanged`, `C46_satellite`, `C46_emissivity`, `C46_emissivity_frame`, `C46_weighting`, `C47_constructor_model_refuted`, `C48_shipped_registered`, `C48_clear_sky`, `C48_cloudy`, `C48_cloudy_without_formula`, `C49_other_solver_refuted`, `C49_other_selection_breaks_run_refuted`, `C49_shared_selection_refuted`, `C50_reproducible`, `C50_ozone_override_persists`, `C51_stale_table`, `C51_clear_after_cloudy_refuted`, `C52_rows_independent`, `C53_ozone_absent`, `C53_ozone_present`, `C53_profile`, `C54_names`, `C59_frame`, `C59_new_models`, `C59_old_models`, `C59_unperturbed`, `h2o_override_idempotent`, `o2_override_idempotent`, `o3_override_idempotent`, `C60_exact`, `C60_defaults_kept`, `C60_non`, `C60_unknown_name`, `C60_unknown_mode`, `C60_unset`, `C60_index_error`, `C60_mode_check_refuted`, `C62_water`, `C62_oxygen`, `C62_ozone`, `C62_refuted`, `C62_stale_refuted`, `C63_frequencies_independent`, `C64_one_channel`, `C71_refuted`, `C72_selection`, `C72_others_raise`, `C73_minor`, `C73_trace`, `C73_raises`, `C73_wrap_refuted`, `C74_selection`, `C74_dates_fit`, `C75_exact`, `C75_lost_refuted`, `C75_mixed_refuted`, `C76_elapsed`, `C76_release_exact`, `C76_release_refuted`, `C77_degrees`, `C77_short_refuted`, `C79_data`, `C79_derived_refuted`, `C80_joined`, `C80_absolute_refuted`, `C80_callers`, `C80_region`, `C80_status`, `C80_errors`, `C80_wyoming_pages`, `C81_injective`, `C81_hour_only`, `C82_rectangular_refuted`, `C88_oxygen`, `C88_ozone`, `C89_values_only`, `C89_water_applied`, `C89_water_kept`, `C89_water_continuum`, `C89_oxygen_applied`, `C89_ozone_applied`, `C89_run`, `C89_oxygen_inert_refuted`, `C89_water_inert_refuted`, `C91_history_independent`, `C91_oxygen_always_newest`, `C92_without_bands_partial`, `C92_bands_overwrite`, `C93_ground`, `C93_satellite_heights_refuted`, `C93_many_channels_refuted`, `C93_ground_normalised_refuted`, `C96_seasons`, `C99_documented_refuted`

* `CDFS`: `C01_planck_inversion`, `C02_monotone`, `C03_tau_profile`, `C04_isothermal_ground`, `C05_isothermal_satellite`, `C06_ground_bounds`, `C07_satellite_bounds`, `C08_tmr_bounds`, `C10_satellite_affine`, `C100_value`, `C103_unit_refuted`, `C104_rising`, `C104_humidity_refuted`, `C105_formula`, `C105_formula_refuted`, `C106_mass_ratio`, `C106_vapour_pressure`, `C107_moist_air`, `C108_number_density`, `C108_two_routes`, `C109_selection`, `C109_reference_points`, `C109_monotone`, `C109_monotone_refuted`, `C11_reflected_downwelling_refuted`, `C110_plane_parallel`, `C110_ray_traced`, `C110_columns`, `C111_run`, `C111_from_constructor`, `C111_bounds`, `C111_columns`, `C111_ray_traced`, `C111_ray_traced_from_constructor`, `C113_level`, `C113_ozone`, `C114_water_shape`, `C114_water_within`, `C114_oxygen_shape`, `C115_curves`, `C115_bands`, `C116_water`, `C116_oxygen`, `C116_ozone`, `C116_oxygen_234_refuted`, `C117_water`, `C117_continuum`, `C117_oxygen`, `C117_ozone`, `C118_water_lines`, `C118_water_lines_sd`, `C118_continuum`, `C118_shipped`, `C119_oxygen`, `C12_satellite_refuted`, `C12_ground`, `C120_R24`, `C120_R23`, `C120_shipped`, `C121_ozone`, `C121_ozone_voigt`, `C121_shipped`, `C122_rayleigh`, `C123_covtb`, `C123_value`, `C123_refuted`, `C124_water_sigma`, `C126_sigma`, `C127_warming`, `C127_strict`, `C128_ground`, `C128_satellite`, `C128_cloudy_run`, `C128_inversion_refuted`, `C129_level`, `C129_shipped`, `C129_ozone_refuted`, `C13_opaque_cutoff`, `C130_run`, `C130_from_constructor`, `C131_arrays`, `C131_spectrum`, `C132_level`, `C132_header`, `C132_tables`, `C135_request`, `C135_kept`, `C135_refuted`, `C136_rounding`, `C136_double`, `C137_sensitivity`, `C137_relative`, `C137_upward`, `C138_absorbed`, `C139_accuracy`, `C139_sign`, `C14_transparent`, `C140_ground`, `C140_satellite`, `C140_merge`, `C142_temperature`, `C143_rayleigh_jeans`, `C144_limb`, `C144_from_constructor`, `C145_arrays`, `C145_sonde`, `C145_wyoming`, `C145_igra`, `C146_table`, `C146_density`, `C146_era`, `C146_clear`, `C147_program`, `C147_fresh`, `C147_solver`, `C147_selects_refuted`, `C148_units`, `C148_response`, `C149_sigma`, `C149_steps`, `C149_widths`, `C149_steps_refuted`, `C15_layer_bounds`, `C150_level`, `C150_shipped`, `C150_drying`, `C151_positive`, `C151_moist`, `C151_dry_top_refuted`, `C152_nearby`, `C153_gas`, `C153_level`, `C153_column`, `C153_run`, `C154_moister`, `C154_scaled`, `C155_linear`, `C155_additive`, `C156_divided_exact`, `C156_divided_cloud_refuted`, `C157_separate`, `C157_rows`, `C157_run`, `C16_sum_of_layers`, `C16_additive`, `C16_linear_in_path`, `C16_length_error`, `C17_exact_for_exponentials`, `C17_grid_independent`, `C18_abort`, `C18_scaled_sum_refuted`, `C19_wraparound_layer_ignored`, `C20_exact`, `C20_uniform_exact`, `C20_uniform_cloud_refuted`, `C21_cloud_tmr_bounds`, `C21_zero_thickness`, `C22_levels_found`, `C22_unmatched_refuted`, `C23_no_water`, `C24_liquid_positive`, `C24_liquid_nonnegative`, `C24_liquid_linear`, `C24_level`, `C25_refractivity`, `C26_index_below_one`, `C26_near_zenith`, `C26_slant_path`, `C26_bent_path`, `C27_cosecant`, `C27_cosecant_columns`, `C27_supplement`, `C28_vapour`, `C30_saturation_pressure_monotone`, `C31_e_mr_inverse`, `C31_rho_mr_inverse`, `C31_ideal_gas`, `C32_saturated`, `C32_solver_consistency`, `C33_two_routes_refuted`, `C34_inverse`, `C35_lapse_rate_refuted`, `C35_code_is_growing_temperature`, `C36_inverse`, `C36_zero_celsius_refuted`, `C37_dewpoint`, `C38_virtual_temperature`, `C39_hypsometric`, `C39_consequences`, `C40_constants`, `C41_gas_mass`, `C41_climatology_refuted`, `C42_frequency_tables`, `C43_symmetric_blocks`, `C43_mws_pair_refuted`, `C44_exact`, `C44_profile_order_refuted`, `C45_inputs_mutated_refuted`, `C47_attribute_error`, `C53_h2o_units`, `C53_o2_units`, `C53_level`, `C54_nonnegative`, `C54_pressure_squared`, `C54_falls_with_temperature`, `C55_o2_nonnegative`, `C55_shipped_nonnegative`, `C55_R98_lines_refuted`, `C55_R98_total_refuted`, `C56_window`, `C56_nonnegative`, `C56_no_ozone`, `C56_shipped_lists`, `C56_voigt_nonnegative`, `C56_shipped_voigt`, `C56_voigt_zero_pressure_refuted`, `C57_h2o_nonnegative`, `C57_no_vapour`, `C57_shipped_lists`, `C57_shipped_nonnegative`, `C57_tabulated_continuum`, `C57_sd_lines`, `C57_sd_shipped`, `C58_value`, `C58_nodes`, `C58_out_of_range`, `C58_continuous`, `C58_positive`, `C59_refuted`, `C60_shared_refuted`, `C61_first_order`, `C61_unknown_name`, `C61_power_refuted`, `C61_zero_factor_refuted`, `C63_weights`, `C63_layers_nonneg`, `C63_transmittance`, `C63_weighting_functions`, `C63_defined`, `C64_block_means`, `C64_bounds`, `C64_total`, `C65_refuted`, `C65_after_single_bands_partial`, `C66_one_call`, `C66_extrapolation`, `C67_tall_refuted`, `C68_same_heights`, `C68_leftover`, `C68_refuted`, `C69_one_of_three`, `C69_north`, `C69_south`, `C69_tropics`, `C70_pressure_falls`, `C70_pressure_decreases`, `C70_pressure_in_layer`, `C70_temperature`, `C70_seams_refuted`, `C70_gap_refuted`, `C71_surface_refuted`, `C77_value`, `C77_refuted`, `C78_vector`, `C78_main`, `C78_faithful`, `C82_diagonal`, `C82_refuted`, `C83_conjugation`, `C83_lower_half_plane_refuted`, `C84_discretised_transfer`, `C85_straight_ray_refuted`, `C86_self_continuum_factor`, `C86_power_law_refuted`, `C87_real_part`, `C87_real_part_refuted`, `C88_water`, `C88_absorption`, `C88_defaults`, `C88_refuted`, `C90_ground`, `C90_satellite_extra_layer`, `C90_satellite_refuted`, `C92_refuted`, `C93_satellite_normalised_refuted`, `C93_satellite_normalised`, `C94_constructor`, `C94_interpolation`, `C94_elevated_refuted`, `C95_percent`, `C95_refuted`, `C96_pressure_falls`, `C96_temperature`, `C96_vapour`, `C96_winter_refuted`, `C97_added_fall`, `C97_refuted`, `C98_physical`, `C98_accepted`

* `DFS`: `C124_pair`, `C125_bound`, `C125_symmetric`

* `FS`: `C124_water`, `C124_mixing`, `C125_exact_symmetry_refuted`, `C126_split`, `C126_oxygen`, `C94_bounds`, `C94_nodes`

