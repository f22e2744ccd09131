(** Model of [request_data] in /repo/pyrtlib/apiwebservices/erafive.py, lines 152-196.  The answer of the climate data store
    is an arbitrary function of the request; the client library is not modelled beyond writing the answer to the file. *)

From Coq Require Import ZArith List Bool Ascii String.
Import ListNotations.
From Verif Require Import Arith PyBase PyStr Igra Web.
Local Open Scope Z_scope.

(** [datetime.isoformat()] of a time without microseconds and time zone *)
Definition fmt4 (z : Z) : str := [dg (z / 1000 mod 10); dg (z / 100 mod 10); dg (z / 10 mod 10); dg (z mod 10)].
Definition isoformat (t : datetime) : str :=
  fmt4 (yr t) ++ tx "-" ++ fmt2 (mo t) ++ tx "-" ++ fmt2 (dy t) ++ tx "T" ++ fmt2 (hr t) ++ tx ":" ++ fmt2 (mi t) ++ tx ":" ++ fmt2 (se t).
(** ['{}:00'.format(time.hour)] *)
Definition hour_text (h : Z) : str := (if h <? 10 then [dg h] else fmt2 h) ++ tx ":00".

Section Request.
Context {A : Arith}.
Notation num := (car A).
Local Open Scope arith_scope.

(** lines 175-194: the request; [q_area] is north, west, south, east *)
Record request := Req { q_variables : list string; q_levels : list Z; q_year : Z; q_month : Z; q_day : Z; q_time : str; q_area : num * num * num * num; q_grid : num * num }.
(** lines 172-173 *)
Definition era_variables : list string :=
  ["relative_humidity"; "specific_cloud_ice_water_content"; "specific_cloud_liquid_water_content"; "specific_humidity"; "specific_rain_water_content";
   "specific_snow_water_content"; "ozone_mass_mixing_ratio"; "temperature"]%string.
(** lines 180-185, as numbers *)
Definition era_levels : list Z :=
  [1; 2; 3; 5; 7; 10; 20; 30; 50; 70; 100; 125; 150; 175; 200; 225; 250; 300; 350; 400; 450; 500; 550; 600; 650; 700; 750; 775; 800; 825; 850; 875; 900; 925; 950; 975; 1000]%Z.
(** lines 167-168 *)
Definition extent (lonlat : num * num) (offset : num) : num * num * num * num :=
  (snd lonlat + offset, fst lonlat - offset, snd lonlat - offset, fst lonlat + offset).
(** lines 169-170 *)
Definition era_file (path : str) (time : datetime) : str := posix_join path (tx "era5_reanalysis-" ++ isoformat time ++ tx ".nc").
Definition era_request (time : datetime) (lonlat : num * num) (resolution offset : num) : request :=
  Req era_variables era_levels (yr time) (mo time) (dy time) (hour_text (hr time)) (extent lonlat offset) (resolution, resolution).

(** Files by name. *)
Definition disk (C : Type) := str -> option C.
Definition write {C} (d : disk C) (name : str) (c : C) : disk C := fun n => if str_eqb n name then Some c else d n.
(** lines 152-196 [request_data]: the answer [cds] to the request is written to a file whose name is returned *)
Definition request_data {C} (cds : request -> C) (d : disk C) (path : str) (time : datetime) (lonlat : num * num) (resolution offset : num) : disk C * str :=
  let nc_file := era_file path time in
  (write d nc_file (cds (era_request time lonlat resolution offset)), nc_file).
(** line 153: default values *)
Definition default_resolution : num := lit (Dec 25 100).
Definition default_offset : num := lit (Dec 4 10).
End Request.
Arguments request : clear implicits.

Example era_file_example : era_file (tx "/tmp") (DT 2020 2 22 12 0 0) = tx "/tmp/era5_reanalysis-2020-02-22T12:00:00.nc".
Proof. reflexivity. Qed.
