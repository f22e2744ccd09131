(** Execution of the model on the inputs of /repo/pyrtlib/tests/test_main_sat.py and test_main_ground.py, compared with the
    values those tests expect (/repo/pyrtlib/tests/data).  These are tests of the model on literals, not theorems about it: they
    check that the definitions compute what the code computes.  The relative tolerance is the one of
    numpy.testing.assert_allclose, 1e-7.  Two or three of the frequencies of each test are kept (coqchk evaluates them slowly);
    all of them were evaluated once in this way. *)

From Coq Require Import ZArith List Bool String.
Import ListNotations.
From Verif Require Import Arith FloatArith PyBase Utils RTE Absorption Clear Spectrum Lineshape Profiles FloatSat.
Local Open Scope string_scope.

(** Six built-in atmospheres. *)
Example atm_tropical : close (run 0 true [57; 183]%dec [90]%dec false (model "R19SD"))
    [228.54896702733978; 245.09372456044468]%dec = true.
Proof. vm_compute. reflexivity. Qed.

Example atm_midlatitude_summer : close (run 1 true [57; 183]%dec [90]%dec false (model "R19SD"))
    [232.86996706173298; 243.31876892546063]%dec = true.
Proof. vm_compute. reflexivity. Qed.

Example atm_midlatitude_winter : close (run 2 true [57; 183]%dec [90]%dec false (model "R19SD"))
    [218.71298030661887; 241.99781982739643]%dec = true.
Proof. vm_compute. reflexivity. Qed.

Example atm_subarctic_summer : close (run 3 true [57; 183]%dec [90]%dec false (model "R19SD"))
    [235.47892196599287; 242.65195555877105]%dec = true.
Proof. vm_compute. reflexivity. Qed.

Example atm_subarctic_winter : close (run 4 true [57; 183]%dec [90]%dec false (model "R19SD"))
    [215.63845803012478; 238.401759485934]%dec = true.
Proof. vm_compute. reflexivity. Qed.

Example atm_us_standard : close (run 5 true [57; 183]%dec [90]%dec false (model "R19SD"))
    [226.34966040760773; 238.5309109329748]%dec = true.
Proof. vm_compute. reflexivity. Qed.

(** Looking up from the ground. *)
Example ground_R19SD : close (run 0 false [22; 118; 183]%dec [90]%dec false (model "R19SD"))
    [70.73732614793848; 279.33362120100725; 299.69996924280247]%dec = true.
Proof. vm_compute. reflexivity. Qed.

Example ground_R23SD : close (run 0 false [22; 118; 183]%dec [90]%dec false (o2_model "R23" (model "R23SD")))
    [72.17111993127645; 279.49166874915977; 299.69996856640734]%dec = true.
Proof. vm_compute. reflexivity. Qed.

Example ground_R24 : close (run 0 false [22; 118; 183]%dec [90]%dec false (model "R24"))
    [72.16757718273517; 279.48373686712; 299.6999685694132]%dec = true.
Proof. vm_compute. reflexivity. Qed.

Example ground_MWL24 : close (run 0 false [22; 118; 183]%dec [90]%dec false (o2_model "R22" (model "MWL24")))
    [75.30710146527646; 280.60747578607703; 299.6999705486753]%dec = true.
Proof. vm_compute. reflexivity. Qed.

Example ground_R03 : close (run 0 false [22; 118; 183]%dec [90]%dec false (no_n2 (model "R03")))
    [68.61423261213501; 279.8108846350936; 299.699977269635]%dec = true.
Proof. vm_compute. reflexivity. Qed.

(** Two angles with ray tracing. *)
Example rays : close (run 0 true [22; 118; 183]%dec [90; 37]%dec true (model "R19SD"))
    [296.1896063528624; 231.8014416623589; 245.09372456044468; 294.1140349470342; 219.60444153176704; 240.14038180497064]%dec = true.
Proof. vm_compute. reflexivity. Qed.

(** A cloudy atmosphere: liquid in the levels 1 to 3, ice in the levels 29 to 31. *)
Definition cloudy_run (frq : list dec) : result (list (car FA)) :=
  do a <- profile 0;
  let '(z, p, t, rh, _) := a in
  let fill (lo hi : nat) (x : car FA) := map (fun k => if Nat.leb lo k && Nat.leb k hi then x else lit 0) (seq 0 (List.length z)) in
  let at_ k := nth k z (lit 0) in
  let '(h, o) := tb_init [z; p; t; rh; fill 29 31 (lit 0.1); fill 1 3 (lit 10)]%nat 0%nat 1%nat 2%nat 3%nat (map lit frq) [lit 90] None None ""
                   false true false in
  do o <- o;
  let o := init_cloudy h (with_cloudy o true) [(at_ 1, at_ 3); (at_ 29, at_ 31)]%nat 4%nat 5%nat in
  do r <- execute shipped (no_n2 (model "R98")) h o;
  let '(rows, _, _, _) := r in
  Ok (map r_tbtotal rows).
Example cloudy_R98 : close (cloudy_run [22; 118; 183]%dec)
    [288.0848418716177; 230.67451116784028; 245.0949874938325]%dec = true.
Proof. vm_compute. reflexivity. Qed.

(** Ozone of the US standard atmosphere. *)
Definition ozone_run (frq : list dec) : result (list (car FA)) :=
  do a <- profile 5;
  let '(z, p, t, rh, md) := a in
  do ppmv <- column md 2;
  let o3n := map (fun '(x, (p, t)) => ppmv_to_moleculesm3 x (mul p (lit 100.0)) t) (combine ppmv (combine p t)) in
  let '(h, o) := tb_init [z; p; t; rh; o3n] 0%nat 1%nat 2%nat 3%nat (map lit frq) [lit 90] (Some 4%nat) None "" false true false in
  do o <- o;
  do g <- set_ll_o3 shipped (o3_model "R18" (h2o_model "R21SD" (model "R20")));
  do r <- execute shipped g h o;
  let '(rows, _, _, _) := r in
  Ok (map r_tbtotal rows).
Example ozone_R21SD : close (ozone_run [22; 118; 183; 101]%dec)
    [286.31654595343286; 230.65328613177235; 238.6844320672792; 285.27653489268835]%dec = true.
Proof. vm_compute. reflexivity. Qed.

