(** Execution of the model on the inputs of /repo/pyrtlib/tests/test_utils.py, test_absorption_model.py, test_extrapolation.py,
    test_uncertainty.py and test_wf.py, compared with the
    values those tests expect (/repo/pyrtlib/tests/data).  These are tests of the model on literals, not theorems about it: they
    check that the definitions compute what the code computes.  The relative tolerance is the one of
    numpy.testing.assert_allclose, 1e-7. *)

From Coq Require Import ZArith List Bool String.
Import ListNotations.
From Verif Require Import Arith FloatArith PyBase Utils RTE Absorption Clear Spectrum Lineshape Profiles Extrapolation Weighting Uncertainty FloatSat FloatMain.
Local Open Scope string_scope.

(** Comparison up to a given number of decimals (assert_almost_equal) or an absolute term (assert_allclose with atol). *)
Definition near1 (tol : dec) (x : car FA) (y : dec) : bool :=
  leb (absv (sub x (lit y))) (add (lit tol) (mul (lit 1e-7) (absv (lit y)))).
Definition near (tol : dec) (l : list (car FA)) (expected : list dec) : bool :=
  Nat.eqb (List.length l) (List.length expected) && forallb (fun '(x, y) => near1 tol x y) (combine l expected).
Definition nearr (tol : dec) (r : result (list (car FA))) (expected : list dec) : bool :=
  match r with Ok l => near tol l expected | Err _ => false end.
Arguments near tol%dec. Arguments nearr tol%dec.

Example test_gas_mass : nearr 0 (mapM (gas_mass (A:=FA)) (map Z.of_nat (seq 0 32)))
    [3.0107673e-26; 7.359653399999999e-26; 8.0287128e-26; 7.359653399999999e-26; 4.6834158e-26; 2.6762376e-26; 5.3524752e-26; 5.0179454999999996e-26; 1.07049504e-25; 7.6941831e-26; 2.84350245e-26; 1.053768555e-25; 2.84350245e-26; 3.345297e-26; 6.0215346e-26; 1.354845285e-25; 2.14099008e-25; 8.53050735e-26; 1.0035890999999999e-25; 5.0179454999999996e-26; 8.6977722e-26; 4.6834158e-26; 4.51615095e-26; 8.3632425e-26; 5.6870049e-26; 4.3488861e-26; 5.0179454999999996e-26; 5.6870049e-26; 1.10394801e-25; 2.4420668099999997e-25; 5.6870049e-26; 7.6941831e-26]%dec = true.
Proof. vm_compute. reflexivity. Qed.

(** Pressure, temperature and mixing ratio of the tropical atmosphere. *)
Definition tropical : result (list (car FA * (car FA * car FA))) :=
  do a <- gl_atm (A:=FA) 0;
  let '(z, p, d, t, md) := a in
  do h2o <- column md 0;
  do gkg <- mapM (fun x => ppmv2gkg x 0) h2o;
  Ok (combine p (combine t gkg)).
Definition on_tropical (f : car FA -> car FA -> car FA -> car FA) : result (list (car FA)) :=
  do l <- tropical; Ok (map (fun '(p, (t, w)) => f p t w) l).

Example test_mr2rh : nearr 0.001 (on_tropical (fun p t w => div (fst (mr2rh p t w None)) (lit 100)))
    [7.37904947e-01; 7.15135305e-01; 7.35076661e-01; 4.79160577e-01; 3.48167127e-01; 3.76644483e-01; 3.48042202e-01; 3.20269720e-01; 2.95282900e-01; 2.54125093e-01; 1.95488576e-01; 1.31680781e-01; 9.25731286e-02; 5.87840339e-02; 7.40605521e-02; 9.93775545e-02; 1.69111933e-01; 1.94814864e-01; 8.37051182e-02; 3.76010914e-02; 1.81872123e-02; 9.21185036e-03; 5.02984723e-03; 3.31147808e-03; 2.40076896e-03; 1.61089247e-03; 6.48478175e-04; 2.82194238e-04; 1.22168272e-04; 5.45535815e-05; 2.50874197e-05; 1.17670685e-05; 5.71681338e-06; 2.78356544e-06; 1.45692733e-06; 1.04299888e-06; 9.37799033e-07; 1.14946062e-06; 2.58322551e-06; 6.76562179e-06; 2.12214737e-05; 9.12535389e-05; 1.01732056e-04; 2.65502994e-05; 1.60922893e-06; 1.62038182e-07; 2.70297183e-09; 4.12976939e-11; 2.49011743e-13; 3.49656489e-15]%dec = true.
Proof. vm_compute. reflexivity. Qed.

Example test_mr2rh_wmo : nearr 1e-8 (on_tropical (fun p t w => div (snd (mr2rh p t w None)) (lit 100)))
    [7.31108823e-01; 7.09583292e-01; 7.31012737e-01; 4.74681358e-01; 3.45272337e-01; 3.74558736e-01; 3.46672438e-01; 3.19393547e-01; 2.94744708e-01; 2.53819434e-01; 1.95334753e-01; 1.31617341e-01; 9.25467678e-02; 5.87747158e-02; 7.40547927e-02; 9.93739520e-02; 1.69109441e-01; 1.94812529e-01; 8.37025984e-02; 3.75985892e-02; 1.81846596e-02; 9.20922477e-03; 5.02706131e-03; 3.30858768e-03; 2.39757664e-03; 1.60764771e-03; 6.44880510e-04; 2.78195367e-04; 1.17868797e-04; 4.99538324e-05; 2.01875426e-05; 6.56712965e-06; 2.16844820e-07; -2.91641869e-06; -4.44306407e-06; -4.95699486e-06; -5.06219534e-06; -4.85053248e-06; -2.81676054e-06; 2.26565223e-06; 1.79215437e-05; 8.91537306e-05; 1.00432188e-04; 2.57003220e-05; 1.06922980e-06; -2.37961753e-07; -3.37297027e-07; -2.79958702e-07; -2.39999751e-07; -1.99999997e-07]%dec = true.
Proof. vm_compute. reflexivity. Qed.

Example test_mr2rh_tconvert : nearr 1e-8 (on_tropical (fun p t w => div (fst (mr2rh p t w (Some (lit 260.34)))) (lit 100)))
    [7.37904947e-01; 7.15135305e-01; 7.35076661e-01; 4.79160577e-01; 3.48167127e-01; 3.76644483e-01; 3.48042202e-01; 3.74603898e-01; 3.68724951e-01; 3.38673305e-01; 2.77582467e-01; 1.99521318e-01; 1.48801738e-01; 1.00005189e-01; 1.32778646e-01; 1.86164431e-01; 3.27255611e-01; 3.79636463e-01; 1.60817687e-01; 7.08443570e-02; 3.34363366e-02; 1.64668584e-02; 8.72544907e-03; 5.63358740e-03; 4.00957546e-03; 2.63992748e-03; 1.01096122e-03; 4.18900993e-04; 1.72317582e-04; 7.30560487e-05; 3.18812231e-05; 1.41726958e-05; 6.53171065e-06; 2.78356544e-06; 1.45692733e-06; 1.04299888e-06; 9.37799033e-07; 1.39667333e-06; 3.70309156e-06; 1.13282178e-05; 4.01810903e-05; 1.77270971e-04; 1.85461357e-04; 4.83376984e-05; 3.11946208e-06; 3.17856184e-07; 4.78490896e-09; 5.61107246e-11; 2.49011743e-13; 3.49656489e-15]%dec = true.
Proof. vm_compute. reflexivity. Qed.

Example test_mr2rho : nearr 1e-7 (on_tropical (fun p t w => mr2rho w t p))
    [1.85104494e+01; 1.27497840e+01; 9.15966006e+00; 4.65624332e+00; 2.18922176e+00; 1.49434354e+00; 8.47898228e-01; 4.68871213e-01; 2.49707548e-01; 1.19873202e-01; 4.99841165e-02; 1.69917359e-02; 5.99585055e-03; 1.79908641e-03; 9.99729444e-04; 5.61630430e-04; 3.66257206e-04; 3.02243417e-04; 2.36483910e-04; 1.85098191e-04; 1.53988988e-04; 1.30806974e-04; 1.15627166e-04; 1.01347846e-04; 9.48940031e-05; 8.17423145e-05; 6.05810598e-05; 4.55174946e-05; 3.33953866e-05; 2.45998013e-05; 1.82006388e-05; 1.35293422e-05; 1.01070051e-05; 7.41585104e-06; 5.50043485e-06; 4.10894800e-06; 2.25064600e-06; 1.22761977e-06; 5.99893638e-07; 2.58346312e-07; 9.21242928e-08; 2.70843598e-08; 6.99820044e-09; 1.78971225e-09; 4.36783378e-10; 1.31345876e-10; 4.51747476e-11; 1.62470581e-11; 6.24649461e-12; 2.56589160e-12]%dec = true.
Proof. vm_compute. reflexivity. Qed.

Example test_mr2e : nearr 1e-7 (on_tropical (fun p t w => mr2e p w))
    [2.56031990e+01; 1.72821313e+01; 1.21621329e+01; 6.09656950e+00; 2.79872387e+00; 1.86417647e+00; 1.03152477e+00; 5.56131147e-01; 2.88458304e-01; 1.34768972e-01; 5.46727466e-02; 1.80445017e-02; 6.18747025e-03; 1.80178216e-03; 9.70313965e-04; 5.27997888e-04; 3.32999001e-04; 2.71729212e-04; 2.16974403e-04; 1.73159550e-04; 1.46899618e-04; 1.27199663e-04; 1.14519679e-04; 1.01499706e-04; 9.59996928e-05; 8.35247285e-05; 6.34677715e-05; 4.87998048e-05; 3.66358425e-05; 2.75998730e-05; 2.08738977e-05; 1.58599175e-05; 1.20999335e-05; 9.06294834e-06; 6.84395962e-06; 5.12396926e-06; 2.73598358e-06; 1.43399140e-06; 6.53396472e-07; 2.60998826e-07; 8.57997169e-08; 2.30999515e-08; 5.71999256e-09; 1.46199876e-09; 3.71519799e-10; 1.15599954e-10; 4.41999850e-11; 1.81159949e-11; 8.63999793e-12; 4.49999910e-12]%dec = true.
Proof. vm_compute. reflexivity. Qed.

Example test_ppmv2gkg : nearr 1e-7 (on_tropical (fun p t w => w))
    [1.61276973e+01; 1.21222067e+01; 9.54102877e+00; 5.34894703e+00; 2.76217137e+00; 2.08111358e+00; 1.30676020e+00; 8.01720084e-01; 4.74998936e-01; 2.54883546e-01; 1.18920776e-01; 4.54411709e-02; 1.80682455e-02; 6.15750879e-03; 3.86865704e-03; 2.48788234e-03; 1.86591175e-03; 1.80371470e-03; 1.71041911e-03; 1.61712352e-03; 1.61712352e-03; 1.64822205e-03; 1.74151764e-03; 1.80371470e-03; 1.99030587e-03; 2.02140440e-03; 2.23909411e-03; 2.48788234e-03; 2.67447352e-03; 2.86106469e-03; 3.04765587e-03; 3.23424704e-03; 3.42083822e-03; 3.54523233e-03; 3.66962645e-03; 3.73182351e-03; 3.73182351e-03; 3.73182351e-03; 3.35864116e-03; 2.79886763e-03; 2.05250293e-03; 1.30613823e-03; 8.08561760e-04; 5.28674997e-04; 3.35864116e-04; 2.48788234e-04; 2.11469999e-04; 1.74151764e-04; 1.49272940e-04; 1.24394117e-04]%dec = true.
Proof. vm_compute. reflexivity. Qed.

Example test_rho2mr : near 1e-9 [rho2mr (A:=FA) (lit 9.48940031e-05) (lit 275.34) (lit 985)] [7.61434e-05]%dec = true.
Proof. vm_compute. reflexivity. Qed.

Example test_pressure_to_height : near 0.01 [pressure_to_height (A:=FA) (lit 850)] [1506.02]%dec = true.
Proof. vm_compute. reflexivity. Qed.

Example test_height_to_pressure : near 0.01 [height_to_pressure (A:=FA) (lit 5000)] [577.63]%dec = true.
Proof. vm_compute. reflexivity. Qed.

Example test_to_kelvin : near 0 [to_kelvin (A:=FA) (lit 25)] [298.25]%dec = true.
Proof. vm_compute. reflexivity. Qed.

Example test_to_celsius : near 0 [to_celsius (A:=FA) (lit 298.25)] [25]%dec = true.
Proof. vm_compute. reflexivity. Qed.

Example test_get_frequencies_sat : nearr 1e-4 (get_frequencies_sat (A:=FA) "MWI")
    [18.7; 23.8; 31.4; 50.3; 52.61; 53.24; 53.75; 89; 115.5503; 116.6503; 117.3503; 117.5503; 119.9503; 120.1503; 120.8503; 121.9503; 164.775; 166.225; 174.91; 177.21; 178.41; 179.91; 181.31; 185.31; 186.71; 188.21; 189.41; 191.71]%dec = true.
Proof. vm_compute. reflexivity. Qed.

Example test_get_frequencies : nearr 1e-4 (get_frequencies (A:=FA) "ARM")
    [22.235; 23.035; 23.835; 26.235; 30.000; 51.250; 52.280; 53.850; 54.940; 56.660; 57.290; 58.800]%dec = true.
Proof. vm_compute. reflexivity. Qed.

Example test_eswat : near 1e-10 [eswat_goffgratch (A:=FA) (lit 273.25)] [6.147856307200233]%dec = true.
Proof. vm_compute. reflexivity. Qed.

Example test_satvap : near 1e-10 (map (fun t => satvap (A:=FA) (lit t) (Some (lit 270))) [273.25; 271.35; 269.05]%dec) [6.1478563072; 5.3497964239; 4.3345083087]%dec = true.
Proof. vm_compute. reflexivity. Qed.

Example test_satvap_water : near 1e-5 (map (fun t => satvap (A:=FA) (lit t) None) [273.25; 280.5]%dec) [6.14785631; 10.24931596]%dec = true.
Proof. vm_compute. reflexivity. Qed.

Example test_satmix : near 1e-10 [satmix (A:=FA) (lit 1000) (lit 273.25) None] [3.8474392877771995]%dec = true.
Proof. vm_compute. reflexivity. Qed.

Example test_satmix_ice : near 1e-5 (map (fun '(p, t) => satmix (A:=FA) (lit p) (lit t) (Some (lit 260))) [(1000, 273.25); (950, 260.34); (850, 258.36)]%dec)
    [3.84743929; 1.4993625; 1.23459]%dec = true.
Proof. vm_compute. reflexivity. Qed.

Example test_tickness : near 1e-5 (atmospheric_tickness (A:=FA) (map lit [1000; 500]%dec) (map lit [280; 244]%dec) None) [0; 5.31569228]%dec = true.
Proof. vm_compute. reflexivity. Qed.

(** Absorption by nitrogen, liquid water and the water-vapour continua. *)
Example test_absn2 : nearr 0 (do x <- n2_absorption (A:=FA) "R22SD" (lit 267) (lit 800) (lit 55.0034); Ok [x]) [0.000278315910216229]%dec = true.
Proof. vm_compute. reflexivity. Qed.

Example test_absliq : nearr 0 (do x <- liquid_water_absorption (A:=FA) "R22SD" (lit 0.05) (lit 183.0034) (lit 270); Ok [x]) [0.09822164244021624]%dec = true.
Proof. vm_compute. reflexivity. Qed.

Example test_continuum : nearr 0 (do x <- h2o_continuum (A:=FA) (lit 183) (lit 1.09); Ok [x]) [3.724996e-08]%dec = true.
Proof. vm_compute. reflexivity. Qed.

Example test_continuum_mwl24 : near 0 [h2o_continuum_mwl24 (A:=FA) (lit 22) (lit 1.09)] [4.370745e-05]%dec = true.
Proof. vm_compute. reflexivity. Qed.

(** Reference atmospheres. *)
Example test_standard_temp : near 0 [itu_standard_temperature (A:=FA) (lit 12) (lit 280)] [216.65]%dec = true.
Proof. vm_compute. reflexivity. Qed.

Example test_standard_pres : near 0 [itu_standard_pressure (A:=FA) (lit 12) (lit 280) (lit 1013)] [193.99616049]%dec = true.
Proof. vm_compute. reflexivity. Qed.

Example test_standard_wv : near 0 [itu_standard_wvp (A:=FA) (lit 12) (lit 2) (lit 7.5)] [0.018586351836920856]%dec = true.
Proof. vm_compute. reflexivity. Qed.

Example test_standard_wvd : near 0 [itu_standard_wvd (A:=FA) (lit 12) (lit 1) (lit 7.5)] [4.608159264996157e-05]%dec = true.
Proof. vm_compute. reflexivity. Qed.

Example test_pressure_winter : nearr 0 (itu_pressure (A:=FA) (lit 38) (map lit [1; 2; 5]%dec) "winter") [899.398 ; 789.5947; 518.1532]%dec = true.
Proof. vm_compute. reflexivity. Qed.

Example test_pressure_summer : nearr 0 (itu_pressure (A:=FA) (lit 38) (map lit [1; 2; 5]%dec) "summer") [905.1263; 805.1632; 551.6491]%dec = true.
Proof. vm_compute. reflexivity. Qed.

Example test_temperature_winter : nearr 0 (itu_temperature (A:=FA) (lit 38) (map lit [1; 2; 5]%dec) "winter") [268.9265; 264.7771; 250.2181]%dec = true.
Proof. vm_compute. reflexivity. Qed.

Example test_temperature_summer : nearr 0 (itu_temperature (A:=FA) (lit 38) (map lit [1; 2; 5]%dec) "summer") [289.69681; 284.26764; 267.12705]%dec = true.
Proof. vm_compute. reflexivity. Qed.

(** Height of the largest weight (test_wf.py): the position in the weights, which are on the interpolated grid, is used by the
    tests as a position in the height array of the atmosphere. *)
Definition wf_peak (f : dec) : result (list (car FA)) :=
  do a <- profile 0;
  let '(z, p, t, rh, _) := a in
  let '(h, w) := wf_init [map lit [f]] z p t rh (lit 1) in
  do w <- w;
  do w <- wf_set_frequencies h w (VArr 0%nat);
  let '(h, r) := generate_wf shipped g0 h w in
  do r <- r;
  let '(m, _) := r in
  do k <- np_argmax (List.concat m);
  do zk <- py_get z (Z.of_nat k);
  Ok [zk].
Example test_f_89_0 : nearr 0 (wf_peak 89.0%dec) [0]%dec = true.
Proof. vm_compute. reflexivity. Qed.

Example test_f_57_290344 : nearr 0 (wf_peak 57.290344%dec) [18]%dec = true.
Proof. vm_compute. reflexivity. Qed.

Example test_f_57_660544 : nearr 0 (wf_peak 57.660544%dec) [27.5]%dec = true.
Proof. vm_compute. reflexivity. Qed.

(** Uncertainty: the parameter [gamma_a] of the second line lowered by its uncertainty (0 in the default table). *)
Definition db : lldb FA := shipped.
Definition u0 : ustate FA := mkU [] [] [] (mkStore [] []).
Definition gamma_run (frq : list dec) : result (list (car FA)) :=
  do a <- profile 0;
  let '(z, p, t, rh, _) := a in
  let '(w, u) := water_parameters db "R17" u0 in
  let '(x, u) := oxygen_parameters db "R18" u in
  do w <- w;
  do x <- x;
  do ds <- parameters_perturbation (Some (w ++ x)%list) ["gamma_a"] "min" (Some 1%Z) (u_store u);
  let '(d, s) := ds in
  let '(h, o) := tb_init [z; p; t; rh] 0%nat 1%nat 2%nat 3%nat (map lit frq) [lit 90] None (Some (amu_of s d)) "" false true false in
  do o <- o;
  do r <- execute db (o2_model "R18" (no_n2 (model "R17"))) h o;
  let '(rows, _, _, _) := r in
  Ok (map r_tbtotal rows).
Example uncertainty_gamma_a : close (gamma_run [20; 57; 118; 183]%dec)
    [298.113443998271; 228.54895385339807; 231.82072537218758; 245.3448034021012]%dec = true.
Proof. vm_compute. reflexivity. Qed.

(** Propagation of uncertainties. *)
Definition pair_of (r : result (car FA * car FA)) : result (list (car FA)) := do x <- r; Ok [fst x; snd x].
Example propagation_quot : nearr 0 (pair_of (uncertainty_propagation (A:=FA) "A/B" (lit (-0.033)) (lit 2.699) (lit 0.005) (lit 0.022) (lit 1) (lit 1) (lit 0)))
    [-0.0122267506483882929; 0.0018552168412088639]%dec = true.
Proof. vm_compute. reflexivity. Qed.

Example propagation_scale : nearr 0 (pair_of (uncertainty_propagation (A:=FA) "aA" (lit (-0.033)) (lit 2.699) (lit 0.005) (lit 0.022) (lit 1) (lit 1) (lit 0)))
    [-0.033; 0.005]%dec = true.
Proof. vm_compute. reflexivity. Qed.

Example propagation_sum : nearr 0 (pair_of (uncertainty_propagation (A:=FA) "aA+bB" (lit (-0.033)) (lit 2.699) (lit 0.005) (lit 0.022) (lit 1) (lit 1) (lit 0)))
    [2.666; 0.02256102834535695]%dec = true.
Proof. vm_compute. reflexivity. Qed.

