(** Model of pyrtlib/climatology/extrapolation.py: ITU-R P.835-6 reference atmospheres and extension of measured profiles. *)

From Coq Require Import ZArith String List Bool.
Import ListNotations.
From Verif Require Import Arith PyBase Utils Weighting.
(* [np_max], [ceilz] and [of_nat] are shared with the model of the weighting functions. *)
Local Open Scope string_scope.

Section Extrapolation.
Context {A : Arith}.
Local Notation num := (car A).
Local Open Scope arith_scope.

(** [np.nan] *)
Definition nanv : num := #0 / #0.

(** [np.logical_and(a <= x, x <= b)] and the like are written [andb]. *)
Local Infix "&&" := andb.

(** ** Class [_ITU835_6], one height at a time (numpy evaluates every branch of [np.where]; only the selected one is modelled) *)

(** lines 368 and 399, geopotential height *)
Definition geopot (h : num) : num := #6356.766 * h / (#6356.766 + h).

(** lines 364-392 [standard_temperature]; the parameter [T_0] is never read. *)
Definition itu_standard_temperature (h T_0 : num) : num :=
  let h_p := geopot h in
  if h_p <=? #11 then #288.15 - #6.5 * h_p
  else if (#11 <? h_p) && (h_p <=? #20) then #216.65
  else if (#20 <? h_p) && (h_p <=? #32) then #216.65 + (h_p - #20)
  else if (#32 <? h_p) && (h_p <=? #47) then #228.65 + #2.8 * (h_p - #32)
  else if (#47 <? h_p) && (h_p <=? #51) then #270.65
  else if (#51 <? h_p) && (h_p <=? #71) then #270.65 - #2.8 * (h_p - #51)
  else if (#71 <? h_p) && (h_p <=? #84.852) then #214.65 - #2.0 * (h_p - #71)
  else if (#86 <=? h) && (h <=? #91) then #186.8673
  else if (#91 <? h) && (h <=? #100) then #263.1905 - #76.3232 * sqrtf (#1 - powi ((h - #91) / #19.9429) 2)
  else #195.08134.

(** lines 395-429 [standard_pressure]; the parameters [T_0] and [P_0] are never read. *)
Definition itu_standard_pressure (h T_0 P_0 : num) : num :=
  let h_p := geopot h in
  if h_p <=? #11 then #1013.25 * (#288.15 / (#288.15 - #6.5 * h_p)) ** (- #34.1632 / #6.5)
  else if (#11 <? h_p) && (h_p <=? #20) then #226.3226 * expf (- #34.1632 * (h_p - #11) / #216.65)
  else if (#20 <? h_p) && (h_p <=? #32) then #54.74980 * (#216.65 / (#216.65 + (h_p - #20))) ** #34.1632
  else if (#32 <? h_p) && (h_p <=? #47) then #8.680422 * (#228.65 / (#228.65 + #2.8 * (h_p - #32))) ** (#34.1632 / #2.8)
  else if (#47 <? h_p) && (h_p <=? #51) then #1.109106 * expf (- #34.1632 * (h_p - #47) / #270.65)
  else if (#51 <? h_p) && (h_p <=? #71) then #0.6694167 * (#270.65 / (#270.65 - #2.8 * (h_p - #51))) ** (- #34.1632 / #2.8)
  else if (#71 <? h_p) && (h_p <=? #84.852) then #0.03956649 * (#214.65 / (#214.65 - #2.0 * (h_p - #71))) ** (- #34.1632 / #2.0)
  else if (#86 <=? h) && (h <=? #100) then
    expf (#95.571899 - #4.011801 * h + #6.424731e-2 * powi h 2 - #4.789660e-4 * powi h 3 + #1.340543e-6 * powi h 4)
  else #1e-62.

(** lines 432-436 [standard_water_vapour_density] *)
Definition itu_standard_wvd (h h_0 rho_0 : num) : num := rho_0 * expf (- h / h_0).

(** lines 438-444 [standard_water_vapour_pressure]; the temperature is that for the default surface value. *)
Definition itu_standard_wvp (h h_0 rho_0 : num) : num :=
  let rho_h := itu_standard_wvd h h_0 rho_0 in
  let T_h := itu_standard_temperature h #288.15 in
  rho_h * T_h / #216.7.

(** lines 448-457 *)
Definition low_temperature (h : num) : num :=
  if (#0 <=? h) && (h <? #17) then #300.4222 - #6.3533 * h + #0.005886 * powi h 2
  else if (#17 <=? h) && (h <? #47) then #194 + (h - #17) * #2.533
  else if (#47 <=? h) && (h <? #52) then #270
  else if (#52 <=? h) && (h <? #80) then #270 - (h - #52) * #3.0714
  else if (#80 <=? h) && (h <=? #100) then #184 else #184.

(** The shape common to the five pressure functions: a parabola up to 10 km, then two exponentials, NaN elsewhere. *)
Definition pressure_fit (a b c P10 r1 P72 r2 h : num) : num :=
  if (#0 <=? h) && (h <=? #10) then a - b * h + c * powi h 2
  else if (#10 <? h) && (h <=? #72) then P10 * expf (- r1 * (h - #10))
  else if (#72 <? h) && (h <=? #100) then P72 * expf (- r2 * (h - #72))
  else nanv.

(** lines 459-468 *)
Definition low_pressure : num -> num := pressure_fit #1012.0306 #109.0338 #3.6316 #284.8526 #0.147 #0.0313660 #0.165.
(** lines 471-475 *)
Definition low_water_vapour (h : num) : num :=
  if (#0 <=? h) && (h <=? #15) then #19.6542 * expf (- #0.2313 * h - #0.1122 * powi h 2 + #0.01351 * powi h 3 - #0.0005923 * powi h 4) else #0.
(** lines 479-491 *)
Definition mid_temperature_summer (h : num) : num :=
  if (#0 <=? h) && (h <? #13) then #294.9838 - #5.2159 * h - #0.07109 * powi h 2
  else if (#13 <=? h) && (h <? #17) then #215.15
  else if (#17 <=? h) && (h <? #47) then #215.15 * expf ((h - #17) * #0.008128)
  else if (#47 <=? h) && (h <? #53) then #275
  else if (#53 <=? h) && (h <? #80) then #275 + #20 * (#1 - expf ((h - #53) * #0.06))
  else if (#80 <=? h) && (h <=? #100) then #175 else nanv.
(** lines 493-505 *)
Definition mid_pressure_summer : num -> num := pressure_fit #1012.8186 #111.5569 #3.8646 #283.7096 #0.147 #0.03124022 #0.165.
(** lines 508-512 *)
Definition mid_water_vapour_summer (h : num) : num :=
  if (#0 <=? h) && (h <=? #15) then #14.3542 * expf (- #0.4174 * h - #0.02290 * powi h 2 + #0.001007 * powi h 3) else #0.
(** lines 515-526 *)
Definition mid_temperature_winter (h : num) : num :=
  if (#0 <=? h) && (h <? #10) then #272.7241 - #3.6217 * h - #0.1759 * powi h 2
  else if (#10 <=? h) && (h <? #33) then #218
  else if (#33 <=? h) && (h <? #47) then #218 + (h - #33) * #3.3571
  else if (#47 <=? h) && (h <? #53) then #265
  else if (#53 <=? h) && (h <? #80) then #265 - (h - #53) * #2.0370
  else if (#80 <=? h) && (h <=? #100) then #210 else nanv.
(** lines 528-537 *)
Definition mid_pressure_winter : num -> num := pressure_fit #1018.8627 #124.2954 #4.8307 #258.9787 #0.147 #0.02851702 #0.155.
(** lines 540-544 *)
Definition mid_water_vapour_winter (h : num) : num :=
  if (#0 <=? h) && (h <=? #10) then #3.4742 * expf (- #0.2697 * h - #0.03604 * powi h 2 + #0.0004489 * powi h 3) else #0.
(** lines 548-559 *)
Definition high_temperature_summer (h : num) : num :=
  if (#0 <=? h) && (h <? #10) then #286.8374 - #4.7805 * h - #0.1402 * powi h 2
  else if (#10 <=? h) && (h <? #23) then #225
  else if (#23 <=? h) && (h <? #48) then #225 * expf ((h - #23) * #0.008317)
  else if (#48 <=? h) && (h <? #53) then #277
  else if (#53 <=? h) && (h <? #79) then #277 - (h - #53) * #4.0769
  else if (#79 <=? h) && (h <=? #100) then #171 else nanv.
(** lines 561-570 *)
Definition high_pressure_summer : num -> num := pressure_fit #1008.0278 #113.2494 #3.9408 #269.6138 #0.140 #0.04582115 #0.165.
(** lines 573-577 *)
Definition high_water_vapour_summer (h : num) : num :=
  if (#0 <=? h) && (h <=? #15) then #8.988 * expf (- #0.3614 * h - #0.005402 * powi h 2 - #0.001955 * powi h 3) else #0.
(** lines 580-590 *)
Definition high_temperature_winter (h : num) : num :=
  if (#0 <=? h) && (h <? #8.5) then #257.4345 + #2.3474 * h - #1.5479 * powi h 2 + #0.08473 * powi h 3
  else if (#8.5 <=? h) && (h <? #30) then #217.5
  else if (#30 <=? h) && (h <? #50) then #217.5 + (h - #30) * #2.125
  else if (#50 <=? h) && (h <? #54) then #260
  else if (#54 <=? h) && (h <=? #100) then #260 - (h - #54) * #1.667 else nanv.
(** lines 592-601 *)
Definition high_pressure_winter : num -> num := pressure_fit #1010.8828 #122.2411 #4.554 #243.8718 #0.147 #0.02685355 #0.150.
(** lines 604-608 *)
Definition high_water_vapour_winter (h : num) : num :=
  if (#0 <=? h) && (h <=? #10) then #1.2319 * expf (#0.07481 * h - #0.0981 * powi h 2 + #0.00281 * powi h 3) else #0.

(** lines 610-662, the three selectors: [low], [mid] or [high] by absolute latitude, summer or winter by name. *)
Definition by_latitude (lat : num) (low mid high : num -> num) (h : num) : num :=
  if absv lat <? #22 then low h else if absv lat <? #45 then mid h else high h.
Definition by_season (season : string) (summer winter : num -> num) (h : list num) : result (list num) :=
  if String.eqb season "summer" then Ok (map summer h)
  else if String.eqb season "winter" then Ok (map winter h) else Err ValueError.
Definition itu_temperature (lat : num) (h : list num) (season : string) : result (list num) :=
  by_season season (by_latitude lat low_temperature mid_temperature_summer high_temperature_summer)
    (by_latitude lat low_temperature mid_temperature_winter high_temperature_winter) h.
Definition itu_pressure (lat : num) (h : list num) (season : string) : result (list num) :=
  by_season season (by_latitude lat low_pressure mid_pressure_summer high_pressure_summer)
    (by_latitude lat low_pressure mid_pressure_winter high_pressure_winter) h.
Definition itu_wvd (lat : num) (h : list num) (season : string) : result (list num) :=
  by_season season (by_latitude lat low_water_vapour mid_water_vapour_summer high_water_vapour_summer)
    (by_latitude lat low_water_vapour mid_water_vapour_winter high_water_vapour_winter) h.

(** ** Class [ProfileExtrapolation] *)

(** [np.linspace(a, b, n)]: equidistant values, the last one is [b] itself. *)
Definition linspace (a b : num) (n : nat) : list num :=
  map (fun i => if Nat.eqb i (n - 1) then b else a + of_nat i * ((b - a) / of_nat (n - 1))) (seq 0 n).

(** The state of an object: its height vector. (The returned height array is the object's own; changes made to it by the caller are not modelled.) *)
Record pex := mkPex { ex_height : list num }.

(** lines 17-37, constructor *)
Definition ex_init (mode : string) : result pex :=
  if String.eqb mode "ITU-Annex1"
  then Ok (mkPex (linspace #0 #25 26 ++ linspace #27.5 #50 10 ++ linspace #55 #100 10)%list)
  else Err ValueError.

(** lines 45-50, setter of [height]; anything that is not an array is refused. *)
Definition ex_set_height (o : pex) (v : option (list num)) : result pex :=
  match v with Some h => Ok (mkPex h) | None => Err ValueError end.

(** lines 149-276: the public wrappers. *)
Definition ex_standard_temperature (h : list num) (T_0 : num) : list num := map (fun x => itu_standard_temperature x T_0) h.
Definition ex_standard_pressure (h : list num) (T_0 P_0 : num) : list num := map (fun x => itu_standard_pressure x T_0 P_0) h.
Definition ex_standard_wvd (h : list num) (h_0 rho_0 : num) : list num := map (fun x => itu_standard_wvd x h_0 rho_0) h.
Definition ex_standard_wvp (h : list num) (h_0 rho_0 : num) : list num := map (fun x => itu_standard_wvp x h_0 rho_0) h.

(** lines 278-295 *)
Definition in_months (m : Z) (l : list Z) : bool := existsb (Z.eqb m) l.
Definition get_season (lat : num) (month : Z) : string :=
  if ((#20 <? lat) && in_months month [6; 7; 8]%Z) || ((lat <? - #20) && in_months month [1; 2; 12]%Z) then "summer"
  else if ((#20 <? lat) && in_months month [1; 2; 12]%Z) || ((lat <? - #20) && in_months month [6; 7; 8]%Z) then "winter"
  else "standard".

(** [np.arange(start, stop, step)]: ceil((stop-start)/step) values, none when that is not positive. *)
Definition arange (start stop step : num) : result (list num) :=
  match ceilz ((stop - start) / step) with
  | Some n => Ok (map (fun k => start + of_nat k * step) (seq 0 (Z.to_nat n)))
  | None => Err ValueError
  end.

(** [x[np.where(h > m)]] *)
Definition where_above (m : num) (h x : list num) : list num := map snd (filter (fun hx => m <? fst hx) (combine h x)).

(** [rho2rh] on arrays; arrays of different lengths cannot be combined (an array with one element is simplified: numpy would repeat it). *)
Definition rho2rh_arr (rho t p : list num) : result (list num) :=
  if (Nat.eqb (length rho) (length t) && Nat.eqb (length rho) (length p))%bool
  then Ok (map (fun x => fst (rho2rh (fst x) (fst (snd x)) (snd (snd x)))) (combine rho (combine t p)))
  else Err ValueError.

(** lines 326-334, reference atmosphere at the heights [h] *)
Definition reference (lat : num) (season : string) (h : list num) : result (list num * list num * list num) :=
  if negb (String.eqb season "standard") then
    do ta <- itu_temperature lat h season;
    do pp <- itu_pressure lat h season;
    do wvd <- itu_wvd lat h season;
    Ok (ta, pp, wvd)
  else Ok (map (fun x => itu_standard_temperature x #288.15) h, map (fun x => itu_standard_pressure x #0 #0) h,
           map (fun x => itu_standard_wvd x #2 #7.5) h).

(** lines 297-341. The new height vector is stored before anything that can fail afterwards; with a profile that reaches
    50 km the local variable [idx] is read before it is assigned. *)
Definition profile_extrapolation (o : pex) (lat : num) (month : Z) (z p t rh : list num) : pex * result (list num * list num * list num * list num) :=
  match np_max z with
  | Err e => (o, Err e)
  | Ok mz =>
      if mz <? #50 then
        match arange (mz + #3.2) #50 #3.2 with
        | Err e => (o, Err e)
        | Ok ar =>
            let h_km := (z ++ ar)%list in
            match np_max h_km with
            | Err e => (o, Err e)
            | Ok mh =>
                let h := (h_km ++ where_above mh (ex_height o) (ex_height o))%list in
                (mkPex h,
                 do r <- reference lat (get_season lat month) h;
                 let '(ta, pp, wvd) := r in
                 let pres := (p ++ where_above mz h pp)%list in
                 let temp := (t ++ where_above mz h ta)%list in
                 do rr <- rho2rh_arr wvd temp pres;
                 Ok (h, pres, temp, (rh ++ where_above mz h rr)%list))
            end
        end
      else (o, Err UnboundLocalError)
  end.
End Extrapolation.

Arguments pex : clear implicits.
