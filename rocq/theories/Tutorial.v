(** Model of the Jacobian of /repo/docs/script_examples/uncertainty_tutorial.py:35-174: the table of parameters, the uncertainties,
    the loop that perturbs one parameter at a time, and the standard deviations.

    The solver is a parameter [exec] that maps the values of a parameter dictionary to the column [tbtotal]; claim C89 shows that the
    absorption depends on the dictionary through these values only, claim C59 that the run of a copy leaves the stored dictionary alone.
    The process starts without loaded line lists. *)

From Coq Require Import ZArith List Bool String PeanoNat DecimalString.
Import ListNotations.
From Verif Require Import Arith PyBase Utils Absorption Clear Spectrum Registry LineData Lineshape Uncertainty Covariance.
Local Open Scope string_scope.
Local Open Scope arith_scope.

Section Tutorial.
Context {A : Arith}.
Notation num := (car A).
Notation store := (store A).

(** lines 35-52: parameters and indices in the order of the dictionaries. *)
Definition range (n : nat) : list (option nat) := map Some (seq 0 n).
Definition O2_parameters : list (string * list (option nat)) :=
  [ ("O2S", range 1); ("X05", [None]); ("WB300", [None]); ("O2gamma", range 34); ("Y300", range 34); ("O2_V", range 34) ].
Definition H2O_parameters : list (string * list (option nat)) :=
  [ ("con_Cf_factr", [None]); ("con_Cs_factr", [None]); ("gamma_a", range 1); ("S", range 1); ("con_Xf", [None]); ("SR", range 1); ("con_Xs", [None]) ].
(** line 133: the two nested loops over [O2_parameters | HO2_parameters]. *)
Definition plan : list (string * option nat) :=
  flat_map (fun '(k, v) => map (fun i => (k, i)) v) (O2_parameters ++ H2O_parameters)%list.

(** lines 55-56: [{**oxygen_parameters('R18'), **water_parameters('R17')}]; the names of the two tables are distinct. *)
Definition tables : result (pdict * store) :=
  let '(r1, u1) := oxygen_parameters (@shipped A) "R18" (mkU [] [] [] (mkStore [] [])) in
  let '(r2, u2) := water_parameters (@shipped A) "R17" u1 in
  do d1 <- r1; do d2 <- r2; Ok ((d1 ++ d2)%list, u_store u2).

Definition obj (d : pdict) (k : string) : nat := match assoc k d with Some o => o | None => 0%nat end.
Definition uncer_of (s : store) (d : pdict) (k : string) : pval A :=
  match nth_error (st_objs s) (obj d k) with Some p => sp_uncer p | None => PInt 0 end.
Definition value_at (s : store) (d : pdict) (k : string) : pval A :=
  match nth_error (st_objs s) (obj d k) with Some p => sp_value p | None => PInt 0 end.
(** [parameters[k].uncer = x] *)
Definition give (d : pdict) (k : string) (x : num) (s : store) : store := set_uncer s (obj d k) (PFloat x).
(** [parameters[k].uncer[0:n] = xs] *)
Definition give_first (d : pdict) (k : string) (xs : list num) (s : store) : store :=
  match uncer_of s d k with
  | PArr l => set_arr s l (xs ++ skipn (List.length xs) (nth l (st_arrs s) []))%list
  | _ => s
  end.
(** [parameters[k].uncer = f(parameters[k].value, parameters[k].uncer)], arrays of equal length. *)
Definition give_array (d : pdict) (k : string) (f : num -> num -> num) (s : store) : store :=
  match value_at s d k, uncer_of s d k with
  | PArr v, PArr u =>
      let '(s, l) := new_arr s (map (fun '(x, y) => f x y) (combine (nth v (st_arrs s) []) (nth u (st_arrs s) []))) in
      set_uncer s (obj d k) (PArr l)
  | _, _ => s
  end.

(** lines 63-69, 70-76, 77-83. *)
Definition gamma_uncer : list num :=
  [ #0.05; #0.0138964; #0.0138964; #0.0138964; #0.0138964; #0.0138964; #0.0138964; #0.0138964; #0.0138964; #0.0138964;
    #0.0138964; #0.0138964; #0.0138964; #0.0138964; #0.0138964; #0.0138964; #0.0138964; #0.0138964; #0.0138964; #0.0138964;
    #0.0138964; #0.01131274; #0.01131274; #0.01453087; #0.01453087; #0.01789881; #0.01789881; #0.02116733; #0.02134575; #0.02476584;
    #0.02476584; #0.02839177; #0.02839177; #0.03203582 ].
Definition y_uncer : list num :=
  [ #0.01; #0.00404133; #0.00502581; #0.00786035; #0.00820458; #0.00935381; #0.00809901; #0.0078214; #0.00544132; #0.00460658;
    #0.00225117; #0.00209907; #0.0039399; #0.00484963; #0.00799499; #0.00878031; #0.01202685; #0.01261821; #0.01577055; #0.01615187;
    #0.01907464; #0.01926978; #0.0218633; #0.02188287; #0.02416567; #0.02401716; #0.02604178; #0.02575469; #0.02762271; #0.02720018;
    #0.02897909; #0.02843003; #0.03019027; #0.02951218 ].
Definition v_uncer : list num :=
  [ #0.00288243; #0.04655306; #0.03914166; #0.06110402; #0.0494057; #0.05728709; #0.06444876; #0.07279906; #0.06385863; #0.07007177;
    #0.05963384; #0.06373721; #0.11789158; #0.12307213; #0.10151855; #0.10427449; #0.08328802; #0.08486523; #0.10130857; #0.10244286;
    #0.15750036; #0.15814743; #0.24421784; #0.24343211; #0.3084326; #0.30576201; #0.34568212; #0.34107696; #0.36123446; #0.35507902;
    #0.37305309; #0.36544166; #0.38490936; #0.37583782 ].

(** lines 60-91, in this order; line 60 assigns [value / 100]. *)
Definition with_uncertainties (d : pdict) (s : store) : store :=
  give d "con_Xs" #0.6 (give_first d "SR" [#0.0014] (give d "con_Xf" #0.8
    (give_first d "S" [#0.043 * #1e-25 * k_light * #100] (give_first d "gamma_a" [#0.039]
      (give_first d "O2_V" v_uncer (give_first d "Y300" y_uncer (give_first d "O2gamma" gamma_uncer
        (give d "WB300" #0.05 (give d "X05" #0.05 (give_array d "O2S" (fun v _ => v / #100) s)))))))))).

(** The values a run reads. *)
Definition readout (s : store) (d : pdict) : list (string * pcon A) :=
  map (fun '(k, o) => (k, match nth_error (st_objs s) o with Some p => content s (sp_value p) | None => CInt 0 end)) d.

(** line 142: ['p_{}{}'.format(k, '_' + str(i) if i else '')]. *)
Definition field_name (k : string) (i : option nat) : string :=
  "p_" ++ k ++ match i with Some (S n) => "_" ++ NilEmpty.string_of_uint (Nat.to_uint (S n)) | _ => "" end.

(** lines 138-141: the uncertainties converted to the units of the covariance matrix. *)
Definition convert (d : pdict) (k : string) (s : store) : store :=
  if String.eqb k "O2S" then give_array d k (fun v u => u / v * #100) s
  else if String.eqb k "con_Cf_factr" then
    match value_at s d "con_Cf", uncer_of s d k with PFloat v, PFloat u => give d k (v * u) s | _, _ => s end
  else if String.eqb k "con_Cs_factr" then
    match value_at s d "con_Cs", uncer_of s d k with PFloat v, PFloat u => give d k (v * u) s | _, _ => s end
  else s.

(** lines 144-147: the divisor. *)
Definition divisor (d : pdict) (k : string) (i : option nat) (s : store) : result num :=
  match i, uncer_of s d k with
  | Some i, PArr l => py_get (nth l (st_arrs s) []) (Z.of_nat i)
  | None, PFloat x => Ok x
  | _, _ => Err TypeError
  end.

(** lines 133-149: name and values of every column; [tb0] is the unperturbed column. *)
Fixpoint columns (exec : list (string * pcon A) -> result (list num)) (tb0 : list num) (d : pdict) (todo : list (string * option nat)) (s : store)
  : result (list (string * list num)) :=
  match todo with
  | [] => Ok []
  | (k, i) :: rest =>
      do r <- parameters_perturbation (Some d) [k] "max" (option_map Z.of_nat i) s;
      do tb <- exec (readout (snd r) (fst r));
      let s2 := convert d k (snd r) in
      do w <- divisor d k i s2;
      do cols <- columns exec tb0 d rest s2;
      Ok ((field_name k i, map (fun '(x, y) => (x - y) / w) (combine tb tb0)) :: cols)
  end.

(** lines 55-149. *)
Definition jacobian (exec : list (string * pcon A) -> result (list num)) : result (list (string * list num)) :=
  do t <- tables;
  let s := with_uncertainties (fst t) (snd t) in
  do tb0 <- exec (readout s (fst t));
  columns exec tb0 (fst t) plan s.

(** lines 160, 169: the columns used with the matrix R17_111. *)
Definition without (name : string) (cols : list (string * list num)) : list (string * list num) :=
  filter (fun c => negb (String.eqb (fst c) name)) cols.

(** lines 163, 172: [.values]: one row per frequency. *)
Definition values (cols : list (string * list num)) : list (list num) :=
  map (fun j => map (fun c => nth j (snd c) #0) cols) (seq 0 (List.length (snd (hd ("", []) cols)))).

(** lines 35-174: the two columns of standard deviations. *)
Definition sigmas (exec : list (string * pcon A) -> result (list num)) : result (list num * list num) :=
  do cols <- jacobian exec;
  do s1 <- sigma_tb (values (without "p_con_Xs" cols)) R17_111;
  do s2 <- sigma_tb (values cols) R17_112;
  Ok (s1, s2).
End Tutorial.
