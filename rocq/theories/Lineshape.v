(** Model of the three line-list modules /repo/pyrtlib/_lineshape/{h2oll,o2ll,o3ll}.py: how the arrays used by
    absorption_model.py are cut out of the tables of LineData.v, and the data base they make up.
    Simplifications: module import and file handling (utils.py:16-50, h2oll.py:48-59, ...) are not modelled; array
    attributes that a module does not define for a model are filled with 0 here (no branch of absorption_model.py that runs
    for that model reads them). *)

From Coq Require Import ZArith List Bool String.
Import ListNotations.
From Verif Require Import Arith PyBase Utils Absorption Clear Spectrum LineData.
Local Open Scope string_scope.
Local Open Scope arith_scope.

Section Lineshape.
Context {A : Arith}.
Notation num := (car A).

(** [mtx[:, i]] of one row. *)
Definition col (r : list dec) (i : nat) : num := lit (nth i r 0%dec).

(** h2oll.py:61-93, one row. *)
Definition h2o_row (m : string) (r : list dec) : h2o_line A :=
  let c := col r in
  let mil i := c i / #1000.0 in
  let sel (ms : list string) (x : num) := if str_in m ms then x else #0 in
  let old := str_in m ["R03"; "R16"; "R17"] in
  let nosh := str_in m ["R98"; "R03"; "R16"; "R17"] in
  let self := ["R19"; "R19SD"; "R20"; "R20SD"; "R21SD"; "R22SD"; "R23"; "R23SD"; "R24"; "MWL24"] in
  let sd := ["R19SD"; "R20SD"; "R21SD"; "R22SD"; "R23"; "R23SD"; "R24"; "MWL24"] in
  let sd2 := ["R21SD"; "R22SD"; "R23"; "R23SD"; "R24"; "MWL24"] in
  mkH2OLine (c 1%nat) (c 2%nat) (c 3%nat) (mil 4%nat) (c 5%nat)
    (if old then mil 7%nat else mil 6%nat) (if old then c 8%nat else c 7%nat)
    (if old then c 6%nat else #0)
    (if nosh then #0 else mil 8%nat) (if nosh then #0 else c 9%nat)
    (if nosh then #0 else mil 10%nat) (if nosh then #0 else c 11%nat)
    (sel self (c 12%nat)) (sel self (c 13%nat))
    (sel sd (mil 14%nat))
    (if str_in m sd2 then mil 16%nat else sel sd (mil 15%nat))
    (sel sd2 (c 15%nat)) (sel sd2 (c 17%nat)) (sel sd2 (mil 18%nat)) (sel sd2 (mil 19%nat)).

(** h2oll.py:56-103. *)
Definition h2o_load (m : string) (mtx : list (list dec)) (ctr : list dec) (reftline d2air d2self : dec) : h2o_ll A :=
  let k := col ctr in
  mkH2OLL (k 0%nat) (lit reftline) (k 1%nat) (k 2%nat) (k 3%nat) (k 4%nat) (lit d2air) (lit d2self) (map (h2o_row m) mtx).

(** The groups of h2o_lineshape.nc; d2air and d2self exist for R20SD only. *)
Definition shipped_h2o (m : string) : option (h2o_ll A) :=
  let z := 0%dec in
  if String.eqb m "R98" then Some (h2o_load m h2o_mtx_R98 h2o_ctr_R98 h2o_reftline_R98 z z)
  else if String.eqb m "R03" then Some (h2o_load m h2o_mtx_R03 h2o_ctr_R03 h2o_reftline_R03 z z)
  else if String.eqb m "R16" then Some (h2o_load m h2o_mtx_R16 h2o_ctr_R16 h2o_reftline_R16 z z)
  else if String.eqb m "R17" then Some (h2o_load m h2o_mtx_R17 h2o_ctr_R17 h2o_reftline_R17 z z)
  else if String.eqb m "R18" then Some (h2o_load m h2o_mtx_R18 h2o_ctr_R18 h2o_reftline_R18 z z)
  else if String.eqb m "R19" then Some (h2o_load m h2o_mtx_R19 h2o_ctr_R19 h2o_reftline_R19 z z)
  else if String.eqb m "R19SD" then Some (h2o_load m h2o_mtx_R19SD h2o_ctr_R19SD h2o_reftline_R19SD z z)
  else if String.eqb m "R20" then Some (h2o_load m h2o_mtx_R20 h2o_ctr_R20 h2o_reftline_R20 z z)
  else if String.eqb m "R20SD" then Some (h2o_load m h2o_mtx_R20SD h2o_ctr_R20SD h2o_reftline_R20SD h2o_d2air_R20SD h2o_d2self_R20SD)
  else if String.eqb m "R21SD" then Some (h2o_load m h2o_mtx_R21SD h2o_ctr_R21SD h2o_reftline_R21SD z z)
  else if String.eqb m "R22SD" then Some (h2o_load m h2o_mtx_R22SD h2o_ctr_R22SD h2o_reftline_R22SD z z)
  else if String.eqb m "R23SD" then Some (h2o_load m h2o_mtx_R23SD h2o_ctr_R23SD h2o_reftline_R23SD z z)
  else if String.eqb m "R24" then Some (h2o_load m h2o_mtx_R24 h2o_ctr_R24 h2o_reftline_R24 z z)
  else if String.eqb m "MWL24" then Some (h2o_load m h2o_mtx_MWL24 h2o_ctr_MWL24 h2o_reftline_MWL24 z z)
  else None.

(** o2ll.py:38-55: the arrays are zipped into one record per line (they have equal lengths in the file). *)
Definition o2_first (f s300 be w300 y300 v : list dec) (i : nat) : o2_line A :=
  mkO2Line (col f i) (col s300 i) (col be i) (col w300 i) (col y300 i) (col v i) #0 #0 #0 #0 #0 #0.
Definition o2_second (f s300 be w300 y0 y1 g0 g1 dnu0 dnu1 : list dec) (i : nat) : o2_line A :=
  mkO2Line (col f i) (col s300 i) (col be i) (col w300 i) #0 #0 (col y0 i) (col y1 i) (col g0 i) (col g1 i) (col dnu0 i) (col dnu1 i).
Definition o2_third (f s300 be w300 y300 y1 g0 g1 dnu0 dnu1 : list dec) (i : nat) : o2_line A :=
  mkO2Line (col f i) (col s300 i) (col be i) (col w300 i) (col y300 i) #0 #0 (col y1 i) (col g0 i) (col g1 i) (col dnu0 i) (col dnu1 i).
Definition o2_load (x wb300 : dec) (f : list dec) (line : nat -> o2_line A) : o2_ll A :=
  mkO2LL (lit x) (lit wb300) (map line (seq 0 (List.length f))).

(** The groups of o2_lineshape.nc with the variables read for each of them (o2ll.py:44-55). *)
Definition shipped_o2 (m : string) : option (o2_ll A) :=
  if String.eqb m "R98" then Some (o2_load o2_x_R98 o2_wb300_R98 o2_f_R98 (o2_first o2_f_R98 o2_s300_R98 o2_be_R98 o2_w300_R98 o2_y300_R98 o2_v_R98))
  else if String.eqb m "R03" then Some (o2_load o2_x_R03 o2_wb300_R03 o2_f_R03 (o2_first o2_f_R03 o2_s300_R03 o2_be_R03 o2_w300_R03 o2_y300_R03 o2_v_R03))
  else if String.eqb m "R16" then Some (o2_load o2_x_R16 o2_wb300_R16 o2_f_R16 (o2_second o2_f_R16 o2_s300_R16 o2_be_R16 o2_w300_R16 o2_y0_R16 o2_y1_R16 o2_g0_R16 o2_g1_R16 o2_dnu0_R16 o2_dnu1_R16))
  else if String.eqb m "R17" then Some (o2_load o2_x_R17 o2_wb300_R17 o2_f_R17 (o2_first o2_f_R17 o2_s300_R17 o2_be_R17 o2_w300_R17 o2_y300_R17 o2_v_R17))
  else if String.eqb m "R18" then Some (o2_load o2_x_R18 o2_wb300_R18 o2_f_R18 (o2_first o2_f_R18 o2_s300_R18 o2_be_R18 o2_w300_R18 o2_y300_R18 o2_v_R18))
  else if String.eqb m "R19" then Some (o2_load o2_x_R19 o2_wb300_R19 o2_f_R19 (o2_first o2_f_R19 o2_s300_R19 o2_be_R19 o2_w300_R19 o2_y300_R19 o2_v_R19))
  else if String.eqb m "R19SD" then Some (o2_load o2_x_R19SD o2_wb300_R19SD o2_f_R19SD (o2_first o2_f_R19SD o2_s300_R19SD o2_be_R19SD o2_w300_R19SD o2_y300_R19SD o2_v_R19SD))
  else if String.eqb m "R20" then Some (o2_load o2_x_R20 o2_wb300_R20 o2_f_R20 (o2_second o2_f_R20 o2_s300_R20 o2_be_R20 o2_w300_R20 o2_y0_R20 o2_y1_R20 o2_g0_R20 o2_g1_R20 o2_dnu0_R20 o2_dnu1_R20))
  else if String.eqb m "R20SD" then Some (o2_load o2_x_R20SD o2_wb300_R20SD o2_f_R20SD (o2_second o2_f_R20SD o2_s300_R20SD o2_be_R20SD o2_w300_R20SD o2_y0_R20SD o2_y1_R20SD o2_g0_R20SD o2_g1_R20SD o2_dnu0_R20SD o2_dnu1_R20SD))
  else if String.eqb m "R22" then Some (o2_load o2_x_R22 o2_wb300_R22 o2_f_R22 (o2_second o2_f_R22 o2_s300_R22 o2_be_R22 o2_w300_R22 o2_y0_R22 o2_y1_R22 o2_g0_R22 o2_g1_R22 o2_dnu0_R22 o2_dnu1_R22))
  else if String.eqb m "R23" then Some (o2_load o2_x_R23 o2_wb300_R23 o2_f_R23 (o2_third o2_f_R23 o2_s300_R23 o2_be_R23 o2_w300_R23 o2_y300_R23 o2_y1_R23 o2_g0_R23 o2_g1_R23 o2_dnu0_R23 o2_dnu1_R23))
  else if String.eqb m "R24" then Some (o2_load o2_x_R24 o2_wb300_R24 o2_f_R24 (o2_third o2_f_R24 o2_s300_R24 o2_be_R24 o2_w300_R24 o2_y300_R24 o2_y1_R24 o2_g0_R24 o2_g1_R24 o2_dnu0_R24 o2_dnu1_R24))
  else None.

(** o3ll.py:33-38, one row ([sr] is never read). *)
Definition o3_row (r : list dec) : o3_line A :=
  mkO3Line (col r 1) (col r 2) (col r 3) (col r 4 / #1000.0) (col r 5).
Definition o3_load (mtx : list (list dec)) (reftline : dec) : o3_ll A := mkO3LL (lit reftline) (map o3_row mtx).

Definition shipped_o3 (m : string) : option (o3_ll A) :=
  if String.eqb m "R18" then Some (o3_load o3_mtx_R18 o3_reftline_R18)
  else if String.eqb m "R22" then Some (o3_load o3_mtx_R22 o3_reftline_R22)
  else if String.eqb m "R23" then Some (o3_load o3_mtx_R23 o3_reftline_R23)
  else None.

Definition shipped : lldb A := mkDB shipped_h2o shipped_o2 shipped_o3.

End Lineshape.
