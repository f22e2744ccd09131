(** Model of the two absorption drivers of /repo/pyrtlib/rt_equation.py:465-567
    together with the class attributes they read. *)

From Coq Require Import ZArith List Bool String.
Import ListNotations.
From Verif Require Import Arith PyBase Utils RTE Absorption.
Local Open Scope string_scope.
Local Open Scope arith_scope.

Section Clear.
Context {A : Arith}.
Notation num := (car A).

(** Process-wide state: the class attributes [XAbsModel.model], the line-list
    modules bound to [XAbsModel.xxll], and [RTEquation._from_sat] /
    [RTEquation._emissivity] (rt_equation.py:23-24).  A model attribute is [None]
    until it is assigned (it is then the inherited property object, which is truthy and
    equal to no string); a line list is [None] until [set_ll] ran.
    Not modelled: assigning [AbsModel.model] on the base class. *)
Record globals := mkGlobals {
  g_h2o : option string; g_o2 : option string; g_n2 : option string;
  g_liq : option string; g_o3 : option string;
  g_h2oll : option (h2o_ll A); g_o2ll : option (o2_ll A); g_o3ll : option (o3_ll A);
  g_from_sat : bool; g_es : num }.

(** The name seen by comparisons with string lists: an unset attribute matches none. *)
Definition mname (m : option string) : string := match m with Some s => s | None => "" end.

(** Overrides performed by a non-empty [amu] dictionary on the loaded line lists
    (absorption_model.py:455-479, 767-795, 1054-1060); the concrete overrides are in
    Uncertainty.v. *)
Record amu_over := mkAmu {
  amu_h2o : string -> h2o_ll A -> h2o_ll A;
  amu_o2 : string -> o2_ll A -> o2_ll A;
  amu_o3 : o3_ll A -> o3_ll A }.

Definition over {T} (f : amu_over -> T -> T) (amu : option amu_over) (x : T) : T :=
  match amu with Some a => f a x | None => x end.

(** One call of [H2OAbsModel().h2o_absorption] from the driver: reading an attribute of a
    line list that was never loaded, or [startswith] on an unset model, is an AttributeError
    (reached only when rho is not zero). *)
Definition h2o_call (g : globals) (amu : option amu_over) (pdrykpa vx ekpa frq : num)
  : result (num * num) :=
  match g_h2o g, g_h2oll g with
  | Some m, Some ll => h2o_absorption m (over (fun a => amu_h2o a m) amu ll) pdrykpa vx ekpa frq
  | _, _ =>
      match amu with
      | Some _ => Err AttributeError
      | None => if e_rho (h2o_env_of (mname (g_h2o g)) pdrykpa vx ekpa) =? #0
                then Ok (#0, #0) else Err AttributeError
      end
  end.

Definition o2_call (g : globals) (amu : option amu_over) (pdrykpa vx ekpa frq : num)
  : result (num * num) :=
  match g_o2ll g with
  | Some ll => let m := mname (g_o2 g) in
               Ok (o2_absorption m (over (fun a => amu_o2 a m) amu ll) pdrykpa vx ekpa frq)
  | None => Err AttributeError
  end.

(** rt_equation.py:557-559; an empty model name is falsy. *)
Definition n2_call (g : globals) (t p frq : num) : result num :=
  match g_n2 g with
  | None => Err ValueError
  | Some "" => Ok #0
  | Some m => n2_absorption m t p frq
  end.

Definition o3_models := ["R18"; "R21"; "R21SD"; "R22"; "R22SD"; "R23"; "R23SD"; "R24"].

(** rt_equation.py:561-563. *)
Definition o3_call (g : globals) (amu : option amu_over) (t p frq : num) (o3n : option num)
  : result num :=
  match o3n with
  | None => Ok #0
  | Some n =>
      if str_in (mname (g_o3 g)) o3_models then
        match g_o3ll g with
        | Some ll => Ok (o3_absorption (mname (g_o3 g)) (over amu_o3 amu ll) t p frq n)
        | None => match amu with
                  | Some _ => Err AttributeError
                  | None => if n =? #0 then Ok #0 else Err AttributeError
                  end
        end
      else Ok #0
  end.

(** Body of the loop, rt_equation.py:545-565: (awet, adry) of one level. *)
Definition clearsky_level (g : globals) (amu : option amu_over) (frq p t e : num)
  (o3n : option num) : result (num * num) :=
  let factor := #0.182 * frq in
  let v := #300.0 / t in
  let ekpa := e / #10.0 in
  let pdrykpa := p / #10.0 - ekpa in
  do w <- h2o_call g amu pdrykpa v ekpa frq;
  let awet := factor * (fst w + snd w) * db2np in
  do o <- o2_call g amu pdrykpa v ekpa frq;
  let ao2 := factor * (fst o + snd o) * db2np in
  do an2 <- n2_call g t (pdrykpa * #10) frq;
  do ao3 <- o3_call g amu t p frq o3n;
  Ok (awet, ao2 + an2 + ao3).

(** Levels of the profile with their ozone value, when an ozone array was given. *)
Definition with_o3 (n : nat) (o3n : option (list num)) : list (option num) :=
  match o3n with
  | Some l => map Some l
  | None => repeat None n
  end.

(** rt_equation.py:511-567 [clearsky_absorption]; arrays of equal length. *)
Definition clearsky_absorption (g : globals) (amu : option amu_over) (p t e : list num) (frq : num)
  (o3n : option (list num)) : result (list num * list num) :=
  do r <- mapM (fun '(p, (t, (e, o))) => clearsky_level g amu frq p t e o)
               (combine p (combine t (combine e (with_o3 (List.length p) o3n))));
  Ok (map fst r, map snd r).

(** Class state left behind by a call with [amu]: the overrides are written into the
    shared line-list modules (a no-op without levels). *)
Definition clearsky_effect (g : globals) (amu : option amu_over) : globals :=
  mkGlobals (g_h2o g) (g_o2 g) (g_n2 g) (g_liq g) (g_o3 g)
    (option_map (over (fun a => amu_h2o a (mname (g_h2o g))) amu) (g_h2oll g))
    (option_map (over (fun a => amu_o2 a (mname (g_o2 g))) amu) (g_o2ll g))
    (if str_in (mname (g_o3 g)) o3_models
     then option_map (over amu_o3 amu) (g_o3ll g) else g_o3ll g)
    (g_from_sat g) (g_es g).

(** rt_equation.py:490-506, one level: (aliq, aice). *)
Definition cloudy_level (mliq : option string) (frq t denl deni : num) : result (num * num) :=
  let c := k_light * #100 in
  let wave := c / (frq * #1e9) in
  do aliq <- (if #0 <? denl then liquid_water_absorption (mname mliq) denl frq t else Ok #0);
  let aice := if #0 <? deni then #8.18645 / wave * deni * #0.000959553 * db2np else #0 in
  Ok (aliq, aice).

(** rt_equation.py:466-508 [cloudy_absorption]; arrays of equal length. *)
Definition cloudy_absorption (mliq : option string) (t denl deni : list num) (frq : num)
  : result (list num * list num) :=
  do r <- mapM (fun '(t, (l, i)) => cloudy_level mliq frq t l i) (combine t (combine denl deni));
  Ok (map fst r, map snd r).

End Clear.
Arguments globals A : clear implicits.
Arguments amu_over A : clear implicits.
