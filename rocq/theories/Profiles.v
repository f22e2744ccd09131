(** Model of pyrtlib/climatology/atmospheric_profiles.py: the built-in atmospheres. *)

From Coq Require Import ZArith List String Bool.
Import ListNotations.
From Verif Require Import Arith PyBase ProfileData.
Local Open Scope Z_scope.

(** lines 48-101: the identifiers of atmospheres and gases *)
Definition TROPICAL := 0. Definition MIDLATITUDE_SUMMER := 1. Definition MIDLATITUDE_WINTER := 2.
Definition SUBARCTIC_SUMMER := 3. Definition SUBARCTIC_WINTER := 4. Definition US_STANDARD := 5.
Definition gas_names : list (string * Z) :=
  [("H2O", 0); ("CO2", 1); ("O3", 2); ("N2O", 3); ("CO", 4); ("CH4", 5); ("O2", 6);
   ("NO", 7); ("SO2", 8); ("NO2", 9); ("NH3", 10); ("HNO3", 11); ("OH", 12); ("HF", 13); ("HCL", 14); ("HBR", 15); ("HI", 16);
   ("CLO", 17); ("OCS", 18); ("H2CO", 19); ("HOCL", 20); ("N2", 21); ("HCN", 22); ("CH3CL", 23); ("H2O2", 24); ("C2H2", 25);
   ("C2H6", 26); ("PH3", 27);
   ("COF2", 28); ("SF6", 29); ("H2S", 30); ("CCL3F", 31); ("CCL2F2", 32); ("CCLF3", 33); ("CF4", 34); ("CHCl2F", 35);
   ("CHCLF2", 36); ("C2CL3F3", 37); ("C2CL2F4", 38); ("C2CLF5", 39); ("CCL4", 40); ("CLONO2", 41); ("N2O5", 42); ("HNO4", 43);
   ("AIR", 99)]%string.

(** lines 103-115 *)
Definition atm_profiles : list (Z * string) :=
  [(TROPICAL, "Tropical"); (MIDLATITUDE_SUMMER, "Midlatitude Summer"); (MIDLATITUDE_WINTER, "Midlatitude Winter");
   (SUBARCTIC_SUMMER, "Subarctic Summer"); (SUBARCTIC_WINTER, "Subarctic Winter"); (US_STANDARD, "US Standard")]%string.

Section Profiles.
Context {A : Arith}.
Notation num := (car A).

(** [np.loadtxt]: the numbers of the file, row by row *)
Definition loadtxt (d : list (list dec)) : list (list num) := map (map lit) d.

(** [mtx[:, k]] of a matrix with rows of equal length: negative positions count from the last column *)
Definition column (mtx : list (list num)) (k : Z) : result (list num) := mapM (fun row => py_get row k) mtx.

(** [np.column_stack] of columns of equal length *)
Fixpoint column_stack (cols : list (list num)) (n : nat) : list (list num) :=
  match n with
  | O => []
  | S n' => map (fun c => hd (lit 0) c) cols :: column_stack (map (@tl _) cols) n'
  end.

(** lines 168-209: the table of the option; any other number leaves the local variable [mtx] unassigned *)
Definition gl_table (atm : Z) : result (list (list num)) :=
  let option := atm + 1 in
  if option =? 1 then Ok (loadtxt dat_tropical)
  else if option =? 2 then Ok (loadtxt dat_midlatitude_summer)
  else if option =? 3 then Ok (loadtxt dat_midlatitude_winter)
  else if option =? 4 then Ok (loadtxt dat_subarctic_summer)
  else if option =? 5 then Ok (loadtxt dat_subarctic_winter)
  else if option =? 6 then Ok (loadtxt dat_us_standard)
  else Err UnboundLocalError.

(** lines 117-237 [gl_atm]: altitude, pressure, total density, temperature, molecular densities. Simplified: integer arguments only. *)
Definition gl_atm (atm : Z) : result (list num * list num * list num * list num * list (list num)) :=
  do mtx <- gl_table atm;
  do a <- column mtx 0;
  do p <- column mtx 1;
  do t <- column mtx 3;
  do d <- column mtx 2;
  do g1 <- column mtx 4;
  do g2 <- column mtx 5;
  do g3 <- column mtx 6;
  do g4 <- column mtx 7;
  do g5 <- column mtx 8;
  do g6 <- column mtx 9;
  do g7 <- column mtx 10;
  Ok (a, p, d, t, column_stack [g1; g2; g3; g4; g5; g6; g7] (List.length a)).

(** lines 239-272 [gl_atm_minor] *)
Definition gl_atm_minor (gas_minor : Z) : result (list num) := column (loadtxt dat_gas_minor) (gas_minor - 7).
(** lines 274-340 [gl_atm_trace] *)
Definition gl_atm_trace (gas_trace : Z) : result (list num) := column (loadtxt dat_gas_trace) (gas_trace - 28).
End Profiles.
