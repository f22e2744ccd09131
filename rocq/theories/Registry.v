(** Names of the groups in the line-list files /repo/pyrtlib/_lineshape/{h2o,o2,o3}_lineshape.nc, which is what
    [AbsModel.implemented_models] (absorption_model.py:71-118) returns and what the three [set_ll] accept.
    The files are binary; the names were read from them as text. *)

From Coq Require Import List String.
Import ListNotations.
From Verif Require Import Arith PyBase Absorption Clear Spectrum.
Local Open Scope string_scope.

Definition h2o_names := ["R98"; "R03"; "R16"; "R17"; "R18"; "R19"; "R19SD"; "R20"; "R20SD"; "R21SD"; "R22SD"; "R23SD"; "R24"; "MWL24"].
Definition o2_names := ["R98"; "R03"; "R16"; "R17"; "R18"; "R19"; "R19SD"; "R20"; "R20SD"; "R22"; "R23"; "R24"].
Definition o3_names := ["R18"; "R22"; "R23"].

(** A data base with exactly these groups (whatever their contents). *)
Definition registered {A : Arith} (db : lldb A) : Prop :=
  forall m, (db_h2o db m <> None <-> In m h2o_names) /\
            (db_o2 db m <> None <-> In m o2_names) /\
            (db_o3 db m <> None <-> In m o3_names).
