(** Model of /repo/pyrtlib/apiwebservices/erafive.py: reading a profile from a reanalysis file.  A file is given by its
    arrays; the netCDF library, the download and the data frame class are not modelled. *)

From Coq Require Import ZArith List Bool String.
Import ListNotations.
From Verif Require Import Arith PyBase Utils Spectrum Weighting.

Section Era.
Context {A : Arith}.
Notation num := (car A).
Local Open Scope arith_scope.

(** A variable of the file: [time][level][latitude][longitude]. *)
Definition cube := list (list (list (list num))).
Record ncfile := Nc {
  nc_lat : list num; nc_lon : list num; nc_level : list num; nc_time : list num;
  nc_t : cube; nc_r : cube; nc_clwc : cube; nc_ciwc : cube; nc_crwc : cube; nc_cswc : cube; nc_o3 : cube; nc_q : cube }.

(** [np.radians] *)
Definition radians (x : num) : num := x * (pif / #180).

(** Reduced haversine distance of two points (latitude, longitude) in radians, by which scikit-learn's ball tree
    compares; the distance itself is twice the arc sine of its root. *)
Definition hav (a b : num * num) : num :=
  let s0 := sinf (#0.5 * (fst a - fst b)) in
  let s1 := sinf (#0.5 * (snd a - snd b)) in
  s0 * s0 + cosf (fst a) * cosf (fst b) * s1 * s1.

(** lines 120-150 [_find_nearest]: latitudes and longitudes are paired position by position; the nearest pair.
    Simplified: of several nearest pairs the first is returned, the ball tree may return another. *)
Definition find_nearest (lons lats : list num) (lonlat : num * num) : result nat :=
  if negb (Nat.eqb (List.length lats) (List.length lons)) then Err ValueError
  else
    let pt := (radians (snd lonlat), radians (fst lonlat)) in
    np_argmin (map (fun '(la, lo) => hav pt (radians la, radians lo)) (combine lats lons)).

(** [v[:, :, i, j]] *)
Definition at_point (v : cube) (i j : nat) : result (list (list num)) :=
  mapM (fun levels => mapM (fun lats => do row <- py_get lats (Z.of_nat i); py_get row (Z.of_nat j)) levels) v.

(** [v[0]] *)
Definition first_time (v : list (list num)) : result (list num) := py_get v 0.

(** The table returned; the times are those of the file, repeated. *)
Record era_df := EraDf {
  e_p : list num; e_z : list num; e_t : list num; e_rh : list num; e_clwc : list num; e_ciwc : list num;
  e_crwc : list num; e_cswc : list num; e_o3 : list num; e_q : list num; e_time : list num }.

(** lines 107-116: the units attached to the table *)
Definition era_units : list (string * string) :=
  [("p", "hPa"); ("z", "km"); ("t", "K"); ("rh", "%"); ("clwc", "kg kg-1"); ("ciwc", "kg kg-1"); ("crwc", "kg kg-1");
   ("cswc", "kg kg-1"); ("o3", "kg kg-1"); ("q", "kg kg-1")]%string.

(** lines 34-118 [read_data].  A data frame whose columns differ in length raises. *)
Definition read_data (nc : ncfile) (lonlat : num * num) : result era_df :=
  do idx <- find_nearest (nc_lon nc) (nc_lat nc) lonlat;
  let pres := nc_level nc in
  do temp <- at_point (nc_t nc) idx idx;
  do r <- at_point (nc_r nc) idx idx;
  let rh := map (map (fun x => x / #100)) r in
  do clwc <- at_point (nc_clwc nc) idx idx;
  do ciwc <- at_point (nc_ciwc nc) idx idx;
  do crwc <- at_point (nc_crwc nc) idx idx;
  do cswc <- at_point (nc_cswc nc) idx idx;
  do ozone <- at_point (nc_o3 nc) idx idx;
  do q <- at_point (nc_q nc) idx idx;
  do temp0 <- first_time temp;
  do q0 <- first_time q;
  let z := atmospheric_tickness (rev pres) (rev temp0) (Some (rev q0)) in
  do rh0 <- first_time rh;
  do clwc0 <- first_time clwc;
  do ciwc0 <- first_time ciwc;
  do crwc0 <- first_time crwc;
  do cswc0 <- first_time cswc;
  do ozone0 <- first_time ozone;
  let time := flat_map (fun d => repeat d (List.length pres)) (nc_time nc) in
  let n := List.length pres in
  if forallb (fun c => Nat.eqb (List.length c) n) [temp0; rh0; clwc0; ciwc0; crwc0; cswc0; ozone0; q0; time]
  then Ok (EraDf (rev pres) z (rev temp0) (rev rh0) (rev clwc0) (rev ciwc0) (rev crwc0) (rev cswc0) (rev ozone0) (rev q0) time)
  else Err ValueError.
End Era.
