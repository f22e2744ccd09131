(** Model of the base-class attribute [AbsModel.model] and of the documented program that uses it:
    /repo/docs/script_examples/plot_water_vapour_profile.py:21-41. *)

From Coq Require Import ZArith List Bool String.
Import ListNotations.
From Verif Require Import Arith PyBase Utils RTE Absorption Clear Spectrum Profiles PropsClimate.
Local Open Scope string_scope.
Local Open Scope arith_scope.

Section BaseClass.
Context {A : Arith}.
Notation num := (car A).

(** absorption_model.py:33-52: [model] is a property of the class [AbsModel].  Assigning [AbsModel.model] on the class replaces the
    property by the string; the five gas classes (N2, H2O, LiqWater, O2, O3) inherit it until they are assigned themselves.
    [c_own]: the attributes stored in the gas classes (Clear.v). *)
Record classes := mkClasses { c_base : option string; c_own : globals A }.

(** Attribute lookup along the inheritance chain. *)
Definition inherit (base own : option string) : option string := match own with Some m => Some m | None => base end.

(** What the absorption code reads. *)
Definition seen (c : classes) : globals A :=
  let g := c_own c in let b := inherit (c_base c) in
  mkGlobals (b (g_h2o g)) (b (g_o2 g)) (b (g_n2 g)) (b (g_liq g)) (b (g_o3 g))
    (g_h2oll g) (g_o2ll g) (g_o3ll g) (g_from_sat g) (g_es g).

(** plot_water_vapour_profile.py:33, [AbsModel.model = mdl]. *)
Definition set_base (c : classes) (m : string) : classes := mkClasses (Some m) (c_own c).

(** utils.py:16-49 [import_lineshape] with h2oll.py:52-57 and o2ll.py: the module is executed again and looks the model up in the groups
    of the netCDF file; a name without a group, or a model that was never assigned, is a KeyError.  The check of [set_ll] is not made.
    plot_water_vapour_profile.py:34-35: the module is bound to the class of the gas. *)
Definition import_h2o (db : lldb A) (c : classes) : result classes :=
  match g_h2o (seen c) with
  | Some m => match db_h2o db m with
              | Some ll => Ok (mkClasses (c_base c) (with_h2oll (c_own c) (Some ll))) | None => Err KeyError end
  | None => Err KeyError
  end.
Definition import_o2 (db : lldb A) (c : classes) : result classes :=
  match g_o2 (seen c) with
  | Some m => match db_o2 db m with
              | Some ll => Ok (mkClasses (c_base c) (with_o2ll (c_own c) (Some ll))) | None => Err KeyError end
  | None => Err KeyError
  end.

(** plot_water_vapour_profile.py:23-41: profile [k], model [m], frequencies [frq]; the rows of [awet] and [adry] in the order of the frequencies.
    The conversion of humidity is that of Profiles/PropsClimate ([climate_arrays], whose ozone column the program does not use). *)
Definition wv_program (db : lldb A) (c : classes) (k : Z) (m : string) (frq : list num)
  : result (list (list num) * list (list num) * classes) :=
  do r <- climate_arrays k;
  let '(z, p, t, rh, _) := r in
  do v <- vapor t rh false;
  do c1 <- import_h2o db (set_base c m);
  do c2 <- import_o2 db c1;
  do rows <- mapM (fun f => clearsky_absorption (seen c2) None p t (fst v) f None) frq;
  Ok (map fst rows, map snd rows, c2).

End BaseClass.
Arguments classes A : clear implicits.
