(** Execution of the model on the inputs of /repo/pyrtlib/tests/test_main_sat.py, compared with the
    values those tests expect (/repo/pyrtlib/tests/data).  These are tests of the model on literals, not theorems about it: they
    check that the definitions compute what the code computes.  The relative tolerance is the one of
    numpy.testing.assert_allclose, 1e-7.  Two or three of the frequencies of each test are kept (coqchk evaluates them slowly);
    all of them were evaluated once in this way. *)

From Coq Require Import ZArith List Bool String.
Import ListNotations.
From Verif Require Import Arith FloatArith PyBase Utils RTE Absorption Clear Spectrum Lineshape Profiles.
Local Open Scope string_scope.

(** Class state before anything is set. *)
Definition g0 : globals FA := mkGlobals None None None None None None None None true (lit 1).

(** [abs(x - y) <= 1e-7 * abs(y)] *)
Definition close1 (x y : car FA) : bool := leb (absv (sub x y)) (mul (lit 1e-7) (absv y)).
Definition close (r : result (list (car FA))) (expected : list dec) : bool :=
  match r with
  | Ok l => Nat.eqb (List.length l) (List.length expected)
            && forallb (fun '(x, y) => close1 x (lit y)) (combine l expected)
  | Err _ => false
  end.

(** Profile of a built-in atmosphere as every test prepares it: height, pressure, temperature, relative humidity and
    molecular densities. *)
Definition profile (atm : Z) : result (list (car FA) * list (car FA) * list (car FA) * list (car FA) * list (list (car FA))) :=
  do a <- gl_atm (A:=FA) atm;
  let '(z, p, d, t, md) := a in
  do h2o <- column md 0;
  do gkg <- mapM (fun x => ppmv2gkg x 0) h2o;
  Ok (z, p, t, map (fun '(p, (t, w)) => div (fst (mr2rh p t w None)) (lit 100)) (combine p (combine t gkg)), md).

(** Choices of the absorption models. *)
Definition model (m : string) : globals FA := init_absmdl g0 m.
(** [N2AbsModel.model = None]: falsy, like the empty name. *)
Definition no_n2 (g : globals FA) : globals FA :=
  mkGlobals (g_h2o g) (g_o2 g) (Some "") (g_liq g) (g_o3 g) (g_h2oll g) (g_o2ll g) (g_o3ll g) (g_from_sat g) (g_es g).
Definition o2_model (m : string) (g : globals FA) : globals FA :=
  mkGlobals (g_h2o g) (Some m) (g_n2 g) (g_liq g) (g_o3 g) (g_h2oll g) (g_o2ll g) (g_o3ll g) (g_from_sat g) (g_es g).
Definition h2o_model (m : string) (g : globals FA) : globals FA :=
  mkGlobals (Some m) (g_o2 g) (g_n2 g) (g_liq g) (g_o3 g) (g_h2oll g) (g_o2ll g) (g_o3ll g) (g_from_sat g) (g_es g).
Definition o3_model (m : string) (g : globals FA) : globals FA :=
  mkGlobals (g_h2o g) (g_o2 g) (g_n2 g) (g_liq g) (Some m) (g_h2oll g) (g_o2ll g) (g_o3ll g) (g_from_sat g) (g_es g).

(** Construct the solver, choose the direction, execute: the column [tbtotal]. *)
Definition run (atm : Z) (sat : bool) (frq angles : list dec) (ray : bool) (g : globals FA) : result (list (car FA)) :=
  do a <- profile atm;
  let '(z, p, t, rh, _) := a in
  let '(h, o) := tb_init [z; p; t; rh] 0%nat 1%nat 2%nat 3%nat (map lit frq) (map lit angles) None None "" ray true false in
  do o <- o;
  do o <- set_satellite o (VBool sat);
  do r <- execute shipped g h o;
  let '(rows, _, _, _) := r in
  Ok (map r_tbtotal rows).

Example sat_R19SD : close (run 0 true [22; 118; 183]%dec [90]%dec false (model "R19SD"))
    [296.1896063528624; 231.8014416623589; 245.09372456044468]%dec = true.
Proof. vm_compute. reflexivity. Qed.

Example sat_R19 : close (run 0 true [22; 118; 183]%dec [90]%dec false (model "R19"))
    [296.1477730200307; 231.80057521291468; 245.0387847665502]%dec = true.
Proof. vm_compute. reflexivity. Qed.

Example sat_R16 : close (run 0 true [22; 118; 183]%dec [90]%dec false (no_n2 (model "R16")))
    [296.16045948541205; 231.73812867334925; 245.37630577325143]%dec = true.
Proof. vm_compute. reflexivity. Qed.

Example sat_R03 : close (run 0 true [22; 118; 183]%dec [90]%dec false (no_n2 (model "R03")))
    [296.3022420334699; 231.3238438213814; 245.11752377762787]%dec = true.
Proof. vm_compute. reflexivity. Qed.

Example sat_R17 : close (run 0 true [22; 118; 183]%dec [90]%dec false (no_n2 (model "R17")))
    [296.15868486379213; 231.8324541936229; 245.34940393162017]%dec = true.
Proof. vm_compute. reflexivity. Qed.

Example sat_R20 : close (run 0 true [22; 118; 183]%dec [90]%dec false (model "R20"))
    [296.1462910585942; 231.85574394874303; 245.1716253164525]%dec = true.
Proof. vm_compute. reflexivity. Qed.

Example sat_R20SD : close (run 0 true [22; 118; 183]%dec [90]%dec false (model "R20SD"))
    [296.1164102100876; 231.85660102479167; 245.23999100657457]%dec = true.
Proof. vm_compute. reflexivity. Qed.

Example sat_R21SD : close (run 0 true [22; 118; 183]%dec [90]%dec false (h2o_model "R21SD" (model "R20")))
    [296.11645701569813; 231.8567553117679; 245.22569208683808]%dec = true.
Proof. vm_compute. reflexivity. Qed.

Example sat_R18 : close (run 0 true [22; 118; 183]%dec [90]%dec false (no_n2 (model "R18")))
    [296.1549430850043; 231.83209668307933; 245.4573345295332]%dec = true.
Proof. vm_compute. reflexivity. Qed.

Example sat_R98 : close (run 0 true [22; 118; 183]%dec [90]%dec false (no_n2 (model "R98")))
    [296.3032161484785; 231.2861052636127; 245.07595627098493]%dec = true.
Proof. vm_compute. reflexivity. Qed.

Example sat_R22SD : close (run 0 true [22; 118; 183]%dec [90]%dec false (o2_model "R22" (model "R22SD")))
    [296.1195749614966; 231.85677017530324; 245.22932863812866]%dec = true.
Proof. vm_compute. reflexivity. Qed.

Example sat_R23SD : close (run 0 true [22; 118; 183]%dec [90]%dec false (o2_model "R23" (model "R23SD")))
    [296.12224608280604; 231.69614544801897; 245.2283618178892]%dec = true.
Proof. vm_compute. reflexivity. Qed.

Example sat_R24 : close (run 0 true [22; 118; 183]%dec [90]%dec false (model "R24"))
    [296.1209039163052; 231.67724528551224; 245.23207508299552]%dec = true.
Proof. vm_compute. reflexivity. Qed.

Example sat_MWL24 : close (run 0 true [22; 118; 183]%dec [90]%dec false (o2_model "R22" (model "MWL24")))
    [296.01977881239577; 231.81103238124786; 245.2080640555912]%dec = true.
Proof. vm_compute. reflexivity. Qed.

