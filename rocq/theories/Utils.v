(** Model of /repo/pyrtlib/utils.py. *)

From Coq Require Import ZArith List Bool String Ascii.
Import ListNotations.
From Verif Require Import Arith PyBase.
Local Open Scope string_scope.
Local Open Scope arith_scope.

Section Utils.
Context {A : Arith}.
Notation num := (car A).

(** utils.py:100-112, the dictionary of constants (value, unit). *)
Definition constants_dict : list (string * (num * string)) :=
  [ ("avogadro", (#6.022140857e+23, "[mol-1]"));
    ("boltzmann", (#1.3806579999999998e-23, "[J K-1]"));
    ("EarthRadius", (#6370.949, "[km]"));
    ("gravity", (#9.80665, "[m s-2]"));
    ("light", (#299792458.0, "[m s-1]"));
    ("Np2dB", (#4.342944819032518, "[dB/Np]"));
    ("planck", (#6.626075499999999e-34, "[J Hz-1]"));
    ("Rdry", (#287.04, "[J kg-1 K-1]"));
    ("Rwatvap", (#461.52, "[J kg-1 K-1]"));
    ("Tcosmicbkg", (#2.728, "[K]"));
    ("R", (#8.31446261815324, "[J mol-1 K-1]")) ].

(** Result of [constants]: a value with its unit, or the list of names. *)
Inductive const_result := CVal (v : num) (unit : string) | CNames (l : list string).

(** utils.py:51-124 [constants(name)].  [None] is the default argument; the
    empty string is falsy as well (line 114). *)
Definition constants (name : option string) : result const_result :=
  match name with
  | None | Some "" => Ok (CNames (map fst constants_dict))
  | Some n =>
      match assoc n constants_dict with
      | Some (v, u) => Ok (CVal v u)
      | None => Err ValueError
      end
  end.

(** [constants(n)[0]] for the literal names used in the source; each is the
    entry of [constants_dict] (checked by [constants_entries] in PropsUtils2). *)
Definition k_avogadro : num := #6.022140857e+23.
Definition k_boltzmann : num := #1.3806579999999998e-23.
Definition k_EarthRadius : num := #6370.949.
Definition k_light : num := #299792458.0.
Definition k_planck : num := #6.626075499999999e-34.
Definition k_Rdry : num := #287.04.
Definition k_Rwatvap : num := #461.52.
Definition k_Tcosmicbkg : num := #2.728.
Definition k_R : num := #8.31446261815324.

(** utils.py:138-203: the local variable [amus] after the chain of
    independent [if]s; [None] means it was never assigned. *)
Definition gas_amus (gasid : Z) : option num :=
  match gasid with
  | 0%Z => Some (#2 * #1 + #16)
  | 1%Z => Some (#12 + #2 * #16)
  | 2%Z => Some (#3 * #16)
  | 3%Z => Some (#2 * #14 + #16)
  | 4%Z => Some (#12 + #16)
  | 5%Z => Some (#12 + #4 * #1)
  | 6%Z => Some (#2 * #16)
  | 7%Z => Some (#14 + #16)
  | 8%Z => Some (#32 + #2 * #16)
  | 9%Z => Some (#14 + #2 * #16)
  | 10%Z => Some (#14 + #3 * #1)
  | 11%Z => Some (#1 + #14 + #3 * #16)
  | 12%Z => Some (#16 + #1)
  | 13%Z => Some (#1 + #19)
  | 14%Z => Some (#1 + #35)
  | 15%Z => Some (#1 + #80)
  | 16%Z => Some (#1 + #127)
  | 17%Z => Some (#35 + #16)
  | 18%Z => Some (#16 + #12 + #32)
  | 19%Z => Some (#2 * #1 + #12 + #16)
  | 20%Z => Some (#1 + #16 + #35)
  | 21%Z => Some (#2 * #14)
  | 22%Z => Some (#1 + #12 + #14)
  | 23%Z => Some (#12 + #3 * #1 + #35)
  | 24%Z => Some (#2 * #1 + #2 * #16)
  | 25%Z => Some (#2 * #12 + #2 * #1)
  | 26%Z => Some (#2 * #12 + #6 * #1)
  | 27%Z => Some (#31 + #3 * #1)
  | 28%Z => Some (#12 + #16 + #2 * #19)
  | 29%Z => Some (#32 + #6 * #19)
  | 30%Z => Some (#2 * #1 + #32)
  | 31%Z => Some (#1 + #12 + #2 * #16 + #1)
  | 99%Z => Some (#28.9402753669)
  | _ => None
  end.

(** utils.py:127-208 [gas_mass]. *)
Definition gas_mass (gasid : Z) : result num :=
  match gas_amus gasid with
  | Some amus => Ok (#1.6726485e-27 * amus)
  | None => Err UnboundLocalError
  end.

(** utils.py:211-232 [ppmv2gkg], one element. *)
Definition ppmv2gkg (ppmv : num) (gasid : Z) : result num :=
  let ppv := ppmv / #1000000.0 in
  do m <- gas_mass gasid;
  do m99 <- gas_mass 99;
  Ok (ppv * m / m99 * #1000).

Definition eps_ : num := #0.621970585.

(** utils.py:448-484 [eswat_goffgratch]. *)
Definition eswat_goffgratch (t : num) : num :=
  let t_ratio := #373.16 / t in
  let rt_ratio := #1.0 / t_ratio in
  let tmp := (- #1.0 * #7.90298 * (t_ratio - #1.0))
             + (#5.02808 * log10f t_ratio)
             - (#1.3816e-07 * (#10.0 ** (#11.344 * (#1.0 - rt_ratio)) - #1.0))
             + (#0.0081328 * (#10.0 ** (- #1.0 * #3.49149 * (t_ratio - #1.0)) - #1.0))
             + log10f #1013.246 in
  #10.0 ** tmp.

(** utils.py:487-515 [esice_goffgratch]. *)
Definition esice_goffgratch (t : num) : num :=
  let ratio := #273.15 / t in
  let tmp := (- #9.09718 * (ratio - #1.0)) - (#3.56654 * log10f ratio)
             + (#0.876793 * (#1.0 - (#1.0 / ratio))) + log10f #6.1071 in
  #10.0 ** tmp.

(** Python truthiness of the optional number [Tconvert] (utils.py:263,411,440):
    None and 0 are false. *)
Definition tconv_active (tc : option num) : option num :=
  match tc with
  | Some x => if x =? #0 then None else Some x
  | None => None
  end.

(** utils.py:420-445 [satvap], one element of the array [t] ([t] must be an array
    when [Tconvert] is given; the indexed assignment is elementwise). *)
Definition satvap (t : num) (tc : option num) : num :=
  match tconv_active tc with
  | Some c => if t <=? c then esice_goffgratch t else eswat_goffgratch t
  | None => eswat_goffgratch t
  end.

(** utils.py:369-385 [e2mr]. *)
Definition e2mr (p e : num) : num := (#1000.0 * eps_) * e / (p - e).

(** utils.py:306-324 [mr2e]. *)
Definition mr2e (p mr : num) : num := (p * mr) / (#1000.0 * eps_ + mr).

(** utils.py:388-417 [satmix]. *)
Definition satmix (p t : num) (tc : option num) : num := e2mr p (satvap t tc).

(** utils.py:235-274 [mr2rh]: (rh1, rh2). *)
Definition mr2rh (p t w : num) (tc : option num) : num * num :=
  let esat := satvap t tc in
  let wsat := satmix p t tc in
  let e := mr2e p w in
  (#100.0 * e / esat, #100 * w / wsat).

(** utils.py:277-303 [mr2rho] (the first assignment, line 292, is dead). *)
Definition mr2rho (mr t p : num) : num :=
  let rvap := k_Rwatvap * #1e-05 in
  (mr * p * #1.0) / ((#1000.0 * eps_ + mr) * rvap) / t.

(** utils.py:327-344 [rho2rh]. *)
Definition rho2rh (rho t p : num) : num * num :=
  let e := (rho * t) / #216.7 in
  let mr := e2mr p e in
  mr2rh p t mr None.

(** utils.py:347-366 [rho2mr] (line 360 is dead). *)
Definition rho2mr (rho t p : num) : num :=
  let rvap := k_Rwatvap * #1e-5 in
  rho * (#1e3 * eps_ * rvap) / (p / t - rvap * rho).

(** utils.py:518-533 [tk2b_mod]. *)
Definition tk2b_mod (hvk t : num) : num := #1.0 / (expf (hvk / t) - #1.0).

(** utils.py:536-589 [dilec12]. *)
Definition dilec12 (f t : num) : cpx A :=
  let tc := t - #273.15 in
  let z := mkC #0.0 f in
  let theta := #300.0 / t in
  let kappa := - #43.7527 * theta ** #0.05 + #299.504 * theta ** #1.47
               - #399.364 * theta ** #2.11 + #221.327 * theta ** #2.31 in
  let delta := #80.69715 * expf (- tc / #226.45) in
  let sd := #1164.023 * expf (- #651.4728 / (tc + #133.07)) in
  let kappa := c_sub (c_of kappa) (c_div (c_scale delta z) (c_add (c_of sd) z)) in
  let delta := #4.008724 * expf (- tc / #103.05) in
  let hdelta := delta / #2.0 in
  let f1 := #10.46012 + (#0.1454962 * tc) + (#0.063267156 * powi tc 2)
            + (#0.00093786645 * powi tc 3) in
  let z1 := c_scale f1 (mkC (- #0.75) #1.0) in
  let z2 := mkC (- #4500.0) #2000.0 in
  let cnorm := c_ln (c_div z2 z1) in
  let chip := c_div (c_scale hdelta (c_ln (c_div (c_sub z z2) (c_sub z z1)))) cnorm in
  let chij := c_div (c_scale hdelta
                (c_ln (c_div (c_sub z (c_conj z2)) (c_sub z (c_conj z1))))) (c_conj cnorm) in
  let dchi := c_sub (c_add chip chij) (c_of delta) in
  c_add kappa dchi.

(** Horner evaluation of the two polynomials of utils.py:632-636. *)
Definition dcerr_a : list num :=
  [ #122.607931777104326; #214.382388694706425; #181.928533092181549;
    #93.155580458138441; #30.180142196210589; #5.912626209773153;
    #0.564189583562615 ].
Definition dcerr_b : list num :=
  [ #122.607931773875350; #352.730625110963558; #457.334478783897737;
    #348.703917719495792; #170.354001821091472; #53.992906912940207;
    #10.479857114260399 ].

(** [((lead * zh + c_n) * zh + ...) * zh + c_0] for [cs = c_0 :: ... :: c_n]. *)
Fixpoint horner (lead : cpx A) (cs : list num) (zh : cpx A) : cpx A :=
  match cs with
  | [] => lead
  | c :: cs' => c_add (c_mul (horner lead cs' zh) zh) (c_of c)
  end.

(** utils.py:631-637: the rational approximation [w] computed from [zh]. *)
Definition dcerr_w (x y : num) : cpx A :=
  let zh := mkC (absv y) (- x) in
  let asum := horner (c_of #0.564189583562615) (firstn 6 dcerr_a) zh in
  let bsum := horner (c_of #1) dcerr_b zh in
  c_div asum bsum.

(** utils.py:592-644 [_dcerror].  Line 642 is [2.0 * exp(-complex(x,y)**2) - w];
    in Python [-z ** 2] is [-(z ** 2)]. *)
Definition dcerror (x y : num) : cpx A :=
  let w := dcerr_w x y in
  if #0 <=? y then w
  else
    let z := mkC x y in
    c_sub (c_scale #2.0 (c_exp (c_opp (c_mul z z)))) w.

Definition us_gamma : num := - #0.0065.
Definition us_Rd : num := #8.314462618 / #28.96546e-3.

(** utils.py:647-667 [pressure_to_height]. *)
Definition pressure_to_height (pressure : num) : num :=
  (#288.0 / us_gamma)
  * (#1 - (pressure / #1013.25) ** (us_Rd * us_gamma / #9.80665)).

(** utils.py:670-691 [height_to_pressure]. *)
Definition height_to_pressure (height : num) : num :=
  #1013.25 * expf ((#9.80665 / (us_Rd * us_gamma))
                   * lnf (#1 - ((height * us_gamma) / #288.0))).

(** utils.py:694-720 [virtual_temperature]. *)
Definition virtual_temperature (t mr : num) : num :=
  let mwr := k_Rdry / k_Rwatvap in
  t * ((mr + mwr) / (mwr * (#1 + mr))).

(** numpy.trapz(y, x): sum of (x[i+1]-x[i]) * (y[i+1]+y[i]) / 2. *)
Fixpoint trapz (ys xs : list num) : num :=
  match ys, xs with
  | y0 :: ((y1 :: _) as ys'), x0 :: ((x1 :: _) as xs') =>
      (x1 - x0) * (y1 + y0) / #2.0 + trapz ys' xs'
  | _, _ => #0
  end.

(** utils.py:723-740 [_thickness_hydrostatic]. *)
Definition thickness_hydrostatic (p t : list num) (mr : option (list num)) : num :=
  let tv := match mr with
            | None => t
            | Some m => map (fun '(a, b) => virtual_temperature a b) (combine t m)
            end in
  (- us_Rd / #9.80665) * trapz tv (map lnf p).

(** utils.py:743-773 [atmospheric_tickness] (arrays of equal length). *)
Definition atmospheric_tickness (p t : list num) (mr : option (list num)) : list num :=
  map (fun i =>
         match i with
         | O => #0
         | _ => thickness_hydrostatic (firstn (S i) p) (firstn (S i) t)
                  (option_map (firstn (S i)) mr) / #1e3
         end) (seq 0 (List.length p)).

(** utils.py:776-821 [dewpoint2rh]. *)
Definition dewpoint2rh (td t : num) (ice : bool) (method : string) : num :=
  if String.eqb method "arm" then
    let a := #17.625 in
    let b := #243.04 in
    expf ((a * td) / (b + td)) / expf ((a * t) / (b + t))
  else
    let '(a, b) := if ice then (#9.5, #265.5) else (#7.5, #237.3) in
    let ed := #6.1078 * #10 ** ((td * a) / (td + b)) in
    let es := #6.1078 * #10 ** ((t * a) / (t + b)) in
    ed / es.

(** utils.py:824-862 [kgkg_to_kgm3]. *)
Definition kgkg_to_kgm3 (q p t : num) : num :=
  let rmoist := k_Rdry * (#1 + ((#1 - eps_) / eps_) * q) in
  (#1e2 * p) / (rmoist * t).

(** utils.py:865-882 [ppmv_to_moleculesm3]. *)
Definition ppmv_to_moleculesm3 (mr p t : num) : num :=
  let n_air := (k_avogadro * p) / (k_R * t) in
  n_air * mr * #1e-6.

(** utils.py:920-945. *)
Definition to_kelvin (t : num) : num := t + #273.25.
Definition to_celsius (t : num) : num := t - #273.25.

(** Python [str.lower] / [str.upper] on ASCII letters (non-ASCII letters are not modelled). *)
Definition lower_ascii (c : ascii) : ascii :=
  let n := N_of_ascii c in
  if (65 <=? n)%N && (n <=? 90)%N then ascii_of_N (n + 32) else c.
Definition upper_ascii (c : ascii) : ascii :=
  let n := N_of_ascii c in
  if (97 <=? n)%N && (n <=? 122)%N then ascii_of_N (n - 32) else c.
Fixpoint str_map (f : ascii -> ascii) (s : string) : string :=
  match s with
  | EmptyString => EmptyString
  | String c s' => String (f c) (str_map f s')
  end.
Definition lower := str_map lower_ascii.
Definition upper := str_map upper_ascii.

(** utils.py:894-911. *)
Definition ground_frequencies : list (string * list num) :=
  [ ("hat", [ #22.2400; #23.0400; #23.8400; #25.4400; #26.2400; #27.8400; #31.4000;
              #51.2600; #52.2800; #53.8600; #54.9400; #56.6600; #57.3000; #58.0000 ]);
    ("mp3", [ #22.234; #22.500; #23.034; #23.834; #25.000; #26.234; #28.000; #30.000;
              #51.248; #51.760; #52.280; #52.804; #53.336; #53.848; #54.400; #54.940;
              #55.500; #56.020; #56.660; #57.288; #57.964; #58.800 ]);
    ("arm", [ #22.235; #23.035; #23.835; #26.235; #30.000; #51.250; #52.280; #53.850;
              #54.940; #56.660; #57.290; #58.800 ]);
    ("tem", [ #51.25; #51.75; #52.25; #52.85; #53.35; #53.85; #54.40; #54.90; #55.40;
              #56.00; #56.50; #57.00 ]);
    ("k2w", [ #23.8400; #31.4000; #72.5000; #82.5000; #90.0000; #150.000 ]) ].

(** utils.py:885-917 [get_frequencies]. *)
Definition get_frequencies (instrument : string) : result (list num) :=
  match assoc (lower instrument) ground_frequencies with
  | Some l => Ok l
  | None => Err ValueError
  end.

(** utils.py:966-1012: the satellite tables. *)
Definition sat_frequencies : list (string * list num) :=
  let cf := #183.31 in
  let cf2 := #243.20 in
  let cf3 := #325.15 in
  let cf4 := #448.00 in
  let cf6 := #664.00 in
  let cf118 := #118.7503 in
  let cf165 := #165.5 in
  let cf57 := #57.290344 in
  [ ("SAPHIR", [ cf - #11; cf - #6.8; cf - #4.2; cf - #2.8; cf - #1.1; cf - #0.2;
                 cf + #0.2; cf + #1.1; cf + #2.8; cf + #4.2; cf + #6.8; cf + #11 ]);
    ("AMSU", [ #89.0; #150.0; cf - #7.0; cf - #3.0; cf - #1.0; cf + #1.0; cf + #3.0; cf + #7.0 ]);
    ("ATMS", [ #88.2; #165.5; cf - #7.0; cf - #4.5; cf - #3.0; cf - #1.8; cf - #1.0;
               cf + #1.0; cf + #1.80; cf + #3.0; cf + #4.5; cf + #7.0 ]);
    ("MWI", [ #18.7; #23.8; #31.4; #50.3; #52.61; #53.24; #53.75; #89;
              cf118 - #3.2; cf118 - #2.1; cf118 - #1.4; cf118 - #1.2;
              cf118 + #1.2; cf118 + #1.4; cf118 + #2.1; cf118 + #3.2;
              cf165 - #0.725; cf165 + #0.725;
              cf - #8.4; cf - #6.1; cf - #4.9; cf - #3.4; cf - #2.0;
              cf + #2.0; cf + #3.4; cf + #4.9; cf + #6.1; cf + #8.4 ]);
    ("MWS", [ #23.8; #31.4; #50.3; #52.8;
              #53.246 - #0.08; #53.246 + #0.08; #53.596 - #0.115; #53.596 + #0.115;
              #53.948 - #0.081; #53.948 + #0.081;
              #54.4; #54.94; #55.5; cf57;
              cf57 - #0.217; cf57 - #0.217;
              cf57 - #0.3222 - #0.048; cf57 - #0.3222 + #0.048;
              cf57 + #0.3222 - #0.048; cf57 + #0.3222 + #0.048;
              cf57 - #0.3222 - #0.022; cf57 - #0.3222 + #0.022;
              cf57 + #0.3222 - #0.022; cf57 + #0.3222 + #0.022;
              cf57 - #0.3222 - #0.010; cf57 - #0.3222 + #0.010;
              cf57 + #0.3222 - #0.010; cf57 + #0.3222 + #0.010;
              cf57 - #0.3222 - #0.045; cf57 - #0.3222 + #0.045;
              cf57 + #0.3222 - #0.045; cf57 + #0.3222 + #0.045;
              #89;
              cf165 - #0.725; cf165 + #0.725;
              cf - #7.0; cf - #4.5; cf - #3.0; cf - #1.8; cf - #1.0;
              cf + #1.0; cf + #1.8; cf + #3.0; cf + #4.5; cf + #7.0;
              #229 ]);
    ("ICI", [ cf - #7.0; cf - #3.4; cf - #2.0; cf - #0.2; cf + #0.2; cf + #2.0; cf + #3.4; cf + #7.0;
              cf2 - #2.5; cf2 + #2.5;
              cf3 - #9.5; cf3 - #3.5; cf3 - #1.5; cf3 + #1.5; cf3 + #3.5; cf3 + #9.5;
              cf4 - #7.2; cf4 - #3.0; cf4 - #1.4; cf4 + #1.4; cf4 + #3.0; cf4 + #7.2;
              cf6 - #4.2; cf6 + #4.2 ]) ].

(** utils.py:948-1016 [get_frequencies_sat] (the if/elif chain as a lookup). *)
Definition get_frequencies_sat (instrument : string) : result (list num) :=
  match assoc (upper instrument) sat_frequencies with
  | Some l => Ok l
  | None => Err ValueError
  end.

End Utils.
