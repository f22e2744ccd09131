(** Model of /repo/pyrtlib/uncertainty/absmod_uncertainty.py and of the [amu] blocks of
    /repo/pyrtlib/absorption_model.py (455-479, 767-795, 1054-1060).

    numpy arrays and [SpectroscopicParameter] objects live in an explicit store, so that sharing between the dictionary of
    the caller, the line-list modules and the copies made by [deepcopy] is visible.
    Simplifications: arrays are one-dimensional and hold floats; arrays that overlap without being the same object (views)
    are not modelled; texts of the entries (units, reference, name) are kept by copies and are empty in the tables here. *)

From Coq Require Import ZArith List Bool String PeanoNat.
Import ListNotations.
From Verif Require Import Arith PyBase Utils Absorption Clear Spectrum Registry.
Local Open Scope string_scope.
Local Open Scope arith_scope.

Section Uncertainty.
Context {A : Arith}.
Notation num := (car A).

(** ** Values, objects, store *)

(** A value of an entry: Python float, Python int, or (the address of) an array. *)
Inductive pval := PFloat (x : num) | PInt (z : Z) | PArr (l : nat).

(** absmod_uncertainty.py:31-77, the dataclass. *)
Record sparam := mkSP { sp_value : pval; sp_uncer : pval; sp_text : string * string * string }.

Record store := mkStore { st_objs : list sparam; st_arrs : list (list num) }.

(** A Python dictionary from names to objects (keys are unique in every theorem that needs it). *)
Definition pdict := list (string * nat).

(** The number seen in an int or float. *)
Definition of_int (z : Z) : num := lit (Dec z 1).

Definition set_arr (s : store) (l : nat) (v : list num) : store :=
  mkStore (st_objs s) (upd (st_arrs s) l v).
Definition set_value (s : store) (o : nat) (v : pval) : store :=
  match nth_error (st_objs s) o with
  | Some p => mkStore (upd (st_objs s) o (mkSP v (sp_uncer p) (sp_text p))) (st_arrs s)
  | None => s
  end.
(** [parameters[k].uncer = v], the assignment by which users give an uncertainty (tests/test_uncertainty.py, docs). *)
Definition set_uncer (s : store) (o : nat) (v : pval) : store :=
  match nth_error (st_objs s) o with
  | Some p => mkStore (upd (st_objs s) o (mkSP (sp_value p) v (sp_text p))) (st_arrs s)
  | None => s
  end.
(** A new array. *)
Definition new_arr (s : store) (v : list num) : store * nat :=
  (mkStore (st_objs s) (st_arrs s ++ [v])%list, List.length (st_arrs s)).

(** ** Line-list modules as namespaces

    [import_lineshape] (utils.py:16-48) reloads the module, which executes its body in the existing namespace: names that the
    new model does not define keep the value of the model loaded before. *)

Inductive attr := AScal (x : num) | AArr (l : list num).
Definition namespace := list (string * pval).

(** h2oll.py:56-103: the names defined when model [m] is loaded, with their contents. *)
Definition h2o_module (m : string) (ll : h2o_ll A) : list (string * attr) :=
  let c f := AArr (map f (h_lines ll)) in
  let on (ms : list string) (l : list (string * attr)) := if str_in m ms then l else [] in
  [ ("reftline", AScal (h_reftline ll));
    ("fl", c h_fl); ("s1", c h_s1); ("b2", c h_b2); ("w0", c h_w0); ("x", c h_x); ("w0s", c h_w0s); ("xs", c h_xs) ]
  ++ on ["R03"; "R16"; "R17"] [ ("sr", c h_sr) ]
  ++ (if str_in m ["R98"; "R03"; "R16"; "R17"] then []
      else [ ("sh", c h_sh); ("xh", c h_xh); ("shs", c h_shs); ("xhs", c h_xhs) ])
  ++ on ["R19"; "R19SD"; "R20"; "R20SD"; "R21SD"; "R22SD"; "R23"; "R23SD"; "R24"; "MWL24"]
       [ ("aair", c h_aair); ("aself", c h_aself) ]
  ++ on ["R19SD"; "R20SD"; "R21SD"; "R22SD"; "R23"; "R23SD"; "R24"; "MWL24"] [ ("w2", c h_w2); ("w2s", c h_w2s) ]
  ++ on ["R21SD"; "R22SD"; "R23"; "R23SD"; "R24"; "MWL24"]
       [ ("xw2", c h_xw2); ("xw2s", c h_xw2s); ("d2", c h_d2); ("d2s", c h_d2s) ]
  ++ on ["R20SD"] [ ("d2air", AScal (h_d2air ll)); ("d2self", AScal (h_d2self ll)) ]
  ++ [ ("reftcon", AScal (h_reftcon ll)); ("cf", AScal (h_cf ll)); ("xcf", AScal (h_xcf ll));
       ("cs", AScal (h_cs ll)); ("xcs", AScal (h_xcs ll)) ].

(** o2ll.py:36-55. *)
Definition o2_module (m : string) (ll : o2_ll A) : list (string * attr) :=
  let c f := AArr (map f (o_lines ll)) in
  let first := ["R98"; "R03"; "R17"; "R18"; "R19"; "R19SD"] in
  [ ("f", c o_f); ("s300", c o_s300); ("be", c o_be); ("wb300", AScal (o_wb300 ll)); ("x", AScal (o_x ll)); ("w300", c o_w300) ]
  ++ (if str_in m first then [ ("v", c o_v) ] else [])
  ++ (if str_in m (first ++ ["R23"; "R24"]) then [ ("y300", c o_y300) ] else [ ("y0", c o_y0) ])
  ++ (if str_in m ["R16"; "R20"; "R20SD"; "R21"; "R22"; "R23"; "R24"]
      then [ ("y1", c o_y1); ("g0", c o_g0); ("g1", c o_g1); ("dnu0", c o_dnu0); ("dnu1", c o_dnu1) ] else []).

(** o3ll.py:30-38; [sr] is column 6 of the table, not kept by the ozone model (it is never read there), so its contents are
    a parameter here. *)
Definition o3_module (sr : list num) (ll : o3_ll A) : list (string * attr) :=
  let c f := AArr (map f (z_lines ll)) in
  [ ("reftline", AScal (z_reftline ll)); ("fl", c z_fl); ("s1", c z_s1); ("b", c z_b); ("w", c z_w); ("x", c z_x);
    ("sr", AArr sr) ].

(** Execution of the module body: every array is new; the names shadow those of earlier loads. *)
Fixpoint bind_attrs (l : list (string * attr)) (next : nat) : namespace * list (list num) :=
  match l with
  | [] => ([], [])
  | (k, AScal x) :: l' => let '(n, v) := bind_attrs l' next in ((k, PFloat x) :: n, v)
  | (k, AArr a) :: l' => let '(n, v) := bind_attrs l' (S next) in ((k, PArr next) :: n, a :: v)
  end.

Definition load_module (l : list (string * attr)) (ns : namespace) (s : store) : namespace * store :=
  let '(n, v) := bind_attrs l (List.length (st_arrs s)) in
  ((n ++ ns)%list, mkStore (st_objs s) (st_arrs s ++ v)%list).

(** [ll.name] *)
Definition getattr (ns : namespace) (k : string) : result pval :=
  match assoc k ns with Some v => Ok v | None => Err AttributeError end.

(** [len(ll.fl)]: TypeError on a float. *)
Definition arr_of (s : store) (v : pval) : result (list num) :=
  match v with
  | PArr l => match nth_error (st_arrs s) l with Some a => Ok a | None => Err AttributeError end
  | _ => Err TypeError
  end.

(** Allocation of the entries of a table, in order: the value is an existing value or a new array, the uncertainty is a
    number or a new array. *)
Inductive slot := Keep (v : pval) | Fresh (a : list num).

Fixpoint bind_table (l : list (string * (slot * slot))) (nexto nexta : nat)
  : pdict * list sparam * list (list num) :=
  match l with
  | [] => ([], [], [])
  | (k, (v, u)) :: l' =>
      let '(pv, av, na) := match v with Keep p => (p, [], nexta) | Fresh a => (PArr nexta, [a], S nexta) end in
      let '(pu, au, na) := match u with Keep p => (p, [], na) | Fresh a => (PArr na, [a], S na) end in
      let '(d, os, ars) := bind_table l' (S nexto) na in
      ((k, nexto) :: d, mkSP pv pu ("", "", "") :: os, (av ++ au ++ ars)%list)
  end.

Definition make_table (l : list (string * (slot * slot))) (s : store) : pdict * store :=
  let '(d, os, ars) := bind_table l (List.length (st_objs s)) (List.length (st_arrs s)) in
  (d, mkStore (st_objs s ++ os)%list (st_arrs s ++ ars)%list).

(** Process state: the modules and the store. *)
Record ustate := mkU { u_h2o : namespace; u_o2 : namespace; u_o3 : namespace; u_store : store }.

Definition zeros (n : nat) : slot := Fresh (repeat #0 n).
Definition zero : slot := Keep (PFloat #0).
Definition times1000 (l : list num) : slot := Fresh (map (fun x => x * #1e3) l).

(** absmod_uncertainty.py:84-150 [water_parameters]: [None] from the data base is a model that [set_ll] refuses
    (absorption_model.py:308-312).  The state is returned also when an attribute is missing. *)
Definition water_parameters (db : lldb A) (m : string) (u : ustate) : result pdict * ustate :=
  match db_h2o db m with
  | None => (Err AbsModelError, u)
  | Some ll =>
      let '(ns, s) := load_module (h2o_module m ll) (u_h2o u) (u_store u) in
      let u' := mkU ns (u_o2 u) (u_o3 u) s in
      let table :=
        do cf <- getattr ns "cf"; do cs <- getattr ns "cs"; do xcf <- getattr ns "xcf"; do xcs <- getattr ns "xcs";
        do fl <- getattr ns "fl"; do s1 <- getattr ns "s1"; do b2 <- getattr ns "b2";
        do w0 <- getattr ns "w0"; do w0s <- getattr ns "w0s"; do x <- getattr ns "x"; do xs <- getattr ns "xs";
        do flv <- arr_of s fl; do w0v <- arr_of s w0; do w0sv <- arr_of s w0s;
        let z := zeros (List.length flv) in
        let base :=
          [ ("con_Cf", (Keep cf, zero)); ("con_Cs", (Keep cs, zero)); ("con_Xf", (Keep xcf, zero)); ("con_Xs", (Keep xcs, zero));
            ("FL", (Keep fl, z)); ("S", (Keep s1, z)); ("B2", (Keep b2, zero));
            ("gamma_a", (times1000 w0v, z)); ("gamma_w", (times1000 w0sv, z)); ("n_a", (Keep x, z)); ("n_w", (Keep xs, z));
            ("wv_nS", (zero, zero)) ] in
        if str_gtb m "R17" then
          do xh <- getattr ns "xh"; do xhs <- getattr ns "xhs"; do sh <- getattr ns "sh"; do shs <- getattr ns "shs";
          do shv <- arr_of s sh; do shsv <- arr_of s shs;
          Ok (base ++ [ ("con_Cf_factr", (Keep (PInt 1), zero)); ("con_Cs_factr", (Keep (PInt 1), zero));
                        ("n_da", (Keep xh, z)); ("n_dw", (Keep xhs, z));
                        ("delta_a", (times1000 shv, z)); ("delta_w", (times1000 shsv, z)) ])%list
        else
          do sr <- getattr ns "sr";
          Ok (base ++ [ ("SR", (Keep sr, z));
                        ("con_Cf_factr", (Keep (PFloat #1.11), Keep (PFloat (sqrtf (powi #0.098 2 + powi #0.03 2)))));
                        ("con_Cs_factr", (Keep (PFloat #0.79), Keep (PFloat (sqrtf (powi #0.17 2 + powi #0.06 2))))) ])%list in
      match table with
      | Err e => (Err e, u')
      | Ok l => let '(d, s') := make_table l s in (Ok d, mkU ns (u_o2 u) (u_o3 u) s')
      end
  end.

(** absmod_uncertainty.py:152-193 [oxygen_parameters]. *)
Definition oxygen_parameters (db : lldb A) (m : string) (u : ustate) : result pdict * ustate :=
  match db_o2 db m with
  | None => (Err AbsModelError, u)
  | Some ll =>
      let '(ns, s) := load_module (o2_module m ll) (u_o2 u) (u_store u) in
      let u' := mkU (u_h2o u) ns (u_o3 u) s in
      let table :=
        do f <- getattr ns "f"; do s300 <- getattr ns "s300"; do be <- getattr ns "be"; do w300 <- getattr ns "w300";
        do wb300 <- getattr ns "wb300"; do x <- getattr ns "x"; do fv <- arr_of s f;
        let z := zeros (List.length fv) in
        let base :=
          [ ("O2FL", (Keep f, zero)); ("O2S", (Keep s300, z)); ("O2BE", (Keep be, zero));
            ("O2gamma", (Keep w300, z)); ("O2gamma_NL", (Keep w300, zero)); ("Snr", (Keep (PFloat #1.6e-17), zero));
            ("WB300", (Keep wb300, zero)); ("X11", (Keep (PFloat #0.785), zero)); ("X16", (Keep (PFloat #0.765), zero));
            ("X05", (Keep x, zero)); ("O2_nS", (Keep (PFloat #2.0), zero)); ("w2a", (Keep (PFloat #1.2), zero)) ] in
        if str_gtb m "R19" then
          do y0 <- getattr ns "y0"; do y1 <- getattr ns "y1"; do dnu0 <- getattr ns "dnu0"; do dnu1 <- getattr ns "dnu1";
          Ok (base ++ [ ("y0", (Keep y0, zero)); ("y1", (Keep y1, zero)); ("dnu0", (Keep dnu0, zero)); ("dnu1", (Keep dnu1, zero)) ])%list
        else
          do v <- getattr ns "v"; do y300 <- getattr ns "y300";
          Ok (base ++ [ ("O2_V", (Keep v, z)); ("O2_V_NL", (Keep v, zero)); ("Y300", (Keep y300, z)); ("Y300_NL", (Keep y300, zero)) ])%list in
      match table with
      | Err e => (Err e, u')
      | Ok l => let '(d, s') := make_table l s in (Ok d, mkU (u_h2o u) ns (u_o3 u) s')
      end
  end.

(** absmod_uncertainty.py:195-217 [ozono_parameters]. *)
Definition ozono_parameters (db : lldb A) (sr : list num) (m : string) (u : ustate) : result pdict * ustate :=
  match db_o3 db m with
  | None => (Err AbsModelError, u)
  | Some ll =>
      let '(ns, s) := load_module (o3_module sr ll) (u_o3 u) (u_store u) in
      let u' := mkU (u_h2o u) (u_o2 u) ns s in
      let table :=
        do fl <- getattr ns "fl"; do s1 <- getattr ns "s1"; do b <- getattr ns "b"; do w <- getattr ns "w";
        do x <- getattr ns "x"; do srv <- getattr ns "sr"; do flv <- arr_of s fl;
        let z := zeros (List.length flv) in
        Ok [ ("O3_FL", (Keep fl, z)); ("O3_S1", (Keep s1, z)); ("O3_B", (Keep b, z)); ("O3_W", (Keep w, z));
             ("O3_X", (Keep x, z)); ("O3_SR", (Keep srv, z)) ] in
      match table with
      | Err e => (Err e, u')
      | Ok l => let '(d, s') := make_table l s in (Ok d, mkU (u_h2o u) (u_o2 u) ns s')
      end
  end.

(** ** deepcopy

    [copy.deepcopy] keeps a memo from the identity of every object and array already copied to its copy, so sharing inside
    the dictionary is preserved; numbers are not copied. *)

Definition memo := list (nat * nat).
Fixpoint mlookup (l : nat) (m : memo) : option nat :=
  match m with [] => None | (a, b) :: m' => if Nat.eqb l a then Some b else mlookup l m' end.

Definition copy_val (s : store) (ma : memo) (v : pval) : pval * store * memo :=
  match v with
  | PArr l =>
      match mlookup l ma with
      | Some l' => (PArr l', s, ma)
      | None => let '(s, l') := new_arr s (nth l (st_arrs s) []) in (PArr l', s, (l, l') :: ma)
      end
  | v => (v, s, ma)
  end.

Definition copy_obj (s : store) (mo ma : memo) (o : nat) : nat * store * memo * memo :=
  match mlookup o mo with
  | Some o' => (o', s, mo, ma)
  | None =>
      match nth_error (st_objs s) o with
      | None => (o, s, mo, ma)                           (* no such object: does not occur *)
      | Some p =>
          let '(v, s, ma) := copy_val s ma (sp_value p) in
          let '(u, s, ma) := copy_val s ma (sp_uncer p) in
          let o' := List.length (st_objs s) in
          (o', mkStore (st_objs s ++ [mkSP v u (sp_text p)])%list (st_arrs s), (o, o') :: mo, ma)
      end
  end.

Fixpoint copy_entries (s : store) (mo ma : memo) (d : pdict) : pdict * store :=
  match d with
  | [] => ([], s)
  | (k, o) :: d' =>
      let '(o', s, mo, ma) := copy_obj s mo ma o in
      let '(d'', s) := copy_entries s mo ma d' in
      ((k, o') :: d'', s)
  end.

Definition deepcopy (s : store) (d : pdict) : pdict * store := copy_entries s [] [] d.

(** ** Perturbation *)

Inductive pmode := PMax | PMin.

Definition bump (md : pmode) (x y : num) : num := match md with PMax => x + y | PMin => x - y end.

(** [new_value + uncer] (or [-]) when one of them is a float; a new array when one of them is an array. *)
Definition bump_whole (md : pmode) (s : store) (v u : pval) : result (store * pval) :=
  match v, u with
  | PFloat x, PFloat y => Ok (s, PFloat (bump md x y))
  | PFloat x, PInt y => Ok (s, PFloat (bump md x (of_int y)))
  | PInt x, PFloat y => Ok (s, PFloat (bump md (of_int x) y))
  | PFloat x, PArr l => let '(s, l') := new_arr s (map (fun y => bump md x y) (nth l (st_arrs s) [])) in Ok (s, PArr l')
  | PArr l, PFloat y => let '(s, l') := new_arr s (map (fun x => bump md x y) (nth l (st_arrs s) [])) in Ok (s, PArr l')
  | _, _ => Err TypeError                                (* not reached: one of them is a float *)
  end.

(** [value[index] = value[index] + uncer[index]]; the index None selects the whole array, with numpy broadcasting of a
    one-element uncertainty. *)
Definition bump_at (md : pmode) (idx : option Z) (v u : list num) : result (list num) :=
  match idx with
  | Some i => do x <- py_get v i; do y <- py_get u i; py_set v i (bump md x y)
  | None =>
      if Nat.eqb (List.length v) (List.length u) then Ok (map (fun '(x, y) => bump md x y) (combine v u))
      else match u with
           | [y] => Ok (map (fun x => bump md x y) v)
           | _ => Err ValueError
           end
  end.

(** Body of the loop for the modes 'max' and 'min' (lines 352-368): [isinstance(x, float)] holds for np.float64 too. *)
Definition perturb_entry (md : pmode) (idx : option Z) (s : store) (o : nat) : result store :=
  match nth_error (st_objs s) o with
  | None => Err AttributeError                           (* no such object: does not occur *)
  | Some p =>
      match sp_value p, sp_uncer p with
      | PFloat _, _ | _, PFloat _ =>
          do r <- bump_whole md s (sp_value p) (sp_uncer p);
          Ok (set_value (fst r) o (snd r))
      | PArr l, PArr k =>
          do a <- bump_at md idx (nth l (st_arrs s) []) (nth k (st_arrs s) []);
          Ok (set_arr s l a)
      | _, _ => Err TypeError                            (* 'int' object is not subscriptable *)
      end
  end.

Definition perturb_step (mode : string) (idx : option Z) (d : pdict) (s : store) (name : string) : result store :=
  match assoc name d with
  | None => Err KeyError
  | Some o =>
      if String.eqb mode "max" then perturb_entry PMax idx s o
      else if String.eqb mode "min" then perturb_entry PMin idx s o
      else if String.eqb mode "non" then Ok s
      else if String.eqb mode "ran" then Err NotImplementedError
      else Err ValueError
  end.

Fixpoint perturb_loop (mode : string) (idx : option Z) (d : pdict) (s : store) (names : list string) : result store :=
  match names with
  | [] => Ok s
  | n :: ns => do s' <- perturb_step mode idx d s n; perturb_loop mode idx d s' ns
  end.

(** lines 320-383 [parameters_perturbation]; [sp] is [SpectroscopicParameter.SP], unset until [set_parameters] ran
    (lines 219-233).  Simplification: the store left behind by a call that raises is not returned (it differs from the one
    before only by unreachable copies). *)
Definition parameters_perturbation (sp : option pdict) (what : list string) (mode : string) (idx : option Z) (s : store)
  : result (pdict * store) :=
  match sp with
  | None => Err AttributeError
  | Some d =>
      let '(d', s') := deepcopy s d in
      let names := match what with [] => map fst d' | _ => what end in
      do s'' <- perturb_loop mode idx d' s' names;
      Ok (d', s'')
  end.

(** ** The [amu] blocks of the absorption models *)

(** What a value contains. *)
Inductive pcon := CFloat (x : num) | CInt (z : Z) | CArr (l : list num).

Definition content (s : store) (v : pval) : pcon :=
  match v with PFloat x => CFloat x | PInt z => CInt z | PArr l => CArr (nth l (st_arrs s) []) end.

Definition entry (s : store) (d : pdict) (k : string) : option (pcon * pcon) :=
  match assoc k d with
  | None => None
  | Some o => match nth_error (st_objs s) o with
              | None => None
              | Some p => Some (content s (sp_value p), content s (sp_uncer p))
              end
  end.

(** [amu[k].value] *)
Definition amu_value (s : store) (d : pdict) (k : string) : result pcon :=
  match entry s d k with Some (v, _) => Ok v | None => Err KeyError end.
Definition amu_num (s : store) (d : pdict) (k : string) : result num :=
  do c <- amu_value s d k;
  match c with CFloat x => Ok x | CInt z => Ok (of_int z) | CArr _ => Err TypeError end.
Definition amu_arr (s : store) (d : pdict) (k : string) : result (list num) :=
  do c <- amu_value s d k;
  match c with CArr l => Ok l | _ => Err TypeError end.

(** An attribute that is read once per line: the array must have one element per line.
    Simplification: numpy raises later (IndexError or a broadcasting error) or, for longer arrays, ignores the rest. *)
Definition per_line {T} (f : T -> num -> T) (lines : list T) (a : list num) : result (list T) :=
  if Nat.eqb (List.length a) (List.length lines) then Ok (map (fun '(l, x) => f l x) (combine lines a))
  else Err ValueError.

Definition with_s1 (k : h2o_line A) (x : num) : h2o_line A :=
  mkH2OLine (h_fl k) x (h_b2 k) (h_w0 k) (h_x k) (h_w0s k) (h_xs k) (h_sr k) (h_sh k) (h_xh k) (h_shs k) (h_xhs k)
    (h_aair k) (h_aself k) (h_w2 k) (h_w2s k) (h_xw2 k) (h_xw2s k) (h_d2 k) (h_d2s k).
Definition with_b2 (k : h2o_line A) (x : num) : h2o_line A :=
  mkH2OLine (h_fl k) (h_s1 k) x (h_w0 k) (h_x k) (h_w0s k) (h_xs k) (h_sr k) (h_sh k) (h_xh k) (h_shs k) (h_xhs k)
    (h_aair k) (h_aself k) (h_w2 k) (h_w2s k) (h_xw2 k) (h_xw2s k) (h_d2 k) (h_d2s k).
Definition with_w0 (k : h2o_line A) (x : num) : h2o_line A :=
  mkH2OLine (h_fl k) (h_s1 k) (h_b2 k) x (h_x k) (h_w0s k) (h_xs k) (h_sr k) (h_sh k) (h_xh k) (h_shs k) (h_xhs k)
    (h_aair k) (h_aself k) (h_w2 k) (h_w2s k) (h_xw2 k) (h_xw2s k) (h_d2 k) (h_d2s k).
Definition with_x (k : h2o_line A) (x : num) : h2o_line A :=
  mkH2OLine (h_fl k) (h_s1 k) (h_b2 k) (h_w0 k) x (h_w0s k) (h_xs k) (h_sr k) (h_sh k) (h_xh k) (h_shs k) (h_xhs k)
    (h_aair k) (h_aself k) (h_w2 k) (h_w2s k) (h_xw2 k) (h_xw2s k) (h_d2 k) (h_d2s k).
Definition with_w0s (k : h2o_line A) (x : num) : h2o_line A :=
  mkH2OLine (h_fl k) (h_s1 k) (h_b2 k) (h_w0 k) (h_x k) x (h_xs k) (h_sr k) (h_sh k) (h_xh k) (h_shs k) (h_xhs k)
    (h_aair k) (h_aself k) (h_w2 k) (h_w2s k) (h_xw2 k) (h_xw2s k) (h_d2 k) (h_d2s k).
Definition with_xs (k : h2o_line A) (x : num) : h2o_line A :=
  mkH2OLine (h_fl k) (h_s1 k) (h_b2 k) (h_w0 k) (h_x k) (h_w0s k) x (h_sr k) (h_sh k) (h_xh k) (h_shs k) (h_xhs k)
    (h_aair k) (h_aself k) (h_w2 k) (h_w2s k) (h_xw2 k) (h_xw2s k) (h_d2 k) (h_d2s k).
Definition with_sr (k : h2o_line A) (x : num) : h2o_line A :=
  mkH2OLine (h_fl k) (h_s1 k) (h_b2 k) (h_w0 k) (h_x k) (h_w0s k) (h_xs k) x (h_sh k) (h_xh k) (h_shs k) (h_xhs k)
    (h_aair k) (h_aself k) (h_w2 k) (h_w2s k) (h_xw2 k) (h_xw2s k) (h_d2 k) (h_d2s k).
Definition with_sh (k : h2o_line A) (x : num) : h2o_line A :=
  mkH2OLine (h_fl k) (h_s1 k) (h_b2 k) (h_w0 k) (h_x k) (h_w0s k) (h_xs k) (h_sr k) x (h_xh k) (h_shs k) (h_xhs k)
    (h_aair k) (h_aself k) (h_w2 k) (h_w2s k) (h_xw2 k) (h_xw2s k) (h_d2 k) (h_d2s k).
Definition with_xh (k : h2o_line A) (x : num) : h2o_line A :=
  mkH2OLine (h_fl k) (h_s1 k) (h_b2 k) (h_w0 k) (h_x k) (h_w0s k) (h_xs k) (h_sr k) (h_sh k) x (h_shs k) (h_xhs k)
    (h_aair k) (h_aself k) (h_w2 k) (h_w2s k) (h_xw2 k) (h_xw2s k) (h_d2 k) (h_d2s k).
Definition with_shs (k : h2o_line A) (x : num) : h2o_line A :=
  mkH2OLine (h_fl k) (h_s1 k) (h_b2 k) (h_w0 k) (h_x k) (h_w0s k) (h_xs k) (h_sr k) (h_sh k) (h_xh k) x (h_xhs k)
    (h_aair k) (h_aself k) (h_w2 k) (h_w2s k) (h_xw2 k) (h_xw2s k) (h_d2 k) (h_d2s k).
Definition with_xhs (k : h2o_line A) (x : num) : h2o_line A :=
  mkH2OLine (h_fl k) (h_s1 k) (h_b2 k) (h_w0 k) (h_x k) (h_w0s k) (h_xs k) (h_sr k) (h_sh k) (h_xh k) (h_shs k) x
    (h_aair k) (h_aself k) (h_w2 k) (h_w2s k) (h_xw2 k) (h_xw2s k) (h_d2 k) (h_d2s k).
Definition with_fl (k : h2o_line A) (x : num) : h2o_line A :=
  mkH2OLine x (h_s1 k) (h_b2 k) (h_w0 k) (h_x k) (h_w0s k) (h_xs k) (h_sr k) (h_sh k) (h_xh k) (h_shs k) (h_xhs k)
    (h_aair k) (h_aself k) (h_w2 k) (h_w2s k) (h_xw2 k) (h_xw2s k) (h_d2 k) (h_d2s k).

Definition mil (l : list num) : list num := map (fun x => x / #1000.0) l.

(** absorption_model.py:455-479. *)
Definition h2o_override (s : store) (d : pdict) (m : string) (ll : h2o_ll A) : result (h2o_ll A) :=
  do cf0 <- amu_num s d "con_Cf"; do cs0 <- amu_num s d "con_Cs";
  do c <- (if str_gtb m "R17" then Ok (cf0, cs0)
           else do ff <- amu_num s d "con_Cf_factr"; do fs <- amu_num s d "con_Cs_factr"; Ok (cf0 * ff, cs0 * fs));
  do xcf <- amu_num s d "con_Xf"; do xcs <- amu_num s d "con_Xs";
  do a <- amu_arr s d "S"; do ls <- per_line with_s1 (h_lines ll) a;
  do a <- amu_arr s d "B2"; do ls <- per_line with_b2 ls a;
  do a <- amu_arr s d "gamma_a"; do ls <- per_line with_w0 ls (mil a);
  do a <- amu_arr s d "gamma_w"; do ls <- per_line with_w0s ls (mil a);
  do a <- amu_arr s d "n_a"; do ls <- per_line with_x ls a;
  do a <- amu_arr s d "n_w"; do ls <- per_line with_xs ls a;
  do ls <- (if str_gtb m "R17" then
              do a <- amu_arr s d "delta_a"; do ls <- per_line with_sh ls (mil a);
              do a <- amu_arr s d "delta_w"; do ls <- per_line with_shs ls (mil a);
              do a <- amu_arr s d "n_da"; do ls <- per_line with_xh ls a;
              do a <- amu_arr s d "n_dw"; per_line with_xhs ls a
            else do a <- amu_arr s d "SR"; per_line with_sr ls a);
  do a <- amu_arr s d "FL"; do ls <- per_line with_fl ls a;
  Ok (mkH2OLL (h_reftcon ll) (h_reftline ll) (fst c) xcf (snd c) xcs (h_d2air ll) (h_d2self ll) ls).

Definition with_f (k : o2_line A) (x : num) : o2_line A :=
  mkO2Line x (o_s300 k) (o_be k) (o_w300 k) (o_y300 k) (o_v k) (o_y0 k) (o_y1 k) (o_g0 k) (o_g1 k) (o_dnu0 k) (o_dnu1 k).
Definition with_s300 (k : o2_line A) (x : num) : o2_line A :=
  mkO2Line (o_f k) x (o_be k) (o_w300 k) (o_y300 k) (o_v k) (o_y0 k) (o_y1 k) (o_g0 k) (o_g1 k) (o_dnu0 k) (o_dnu1 k).
Definition with_be (k : o2_line A) (x : num) : o2_line A :=
  mkO2Line (o_f k) (o_s300 k) x (o_w300 k) (o_y300 k) (o_v k) (o_y0 k) (o_y1 k) (o_g0 k) (o_g1 k) (o_dnu0 k) (o_dnu1 k).
Definition with_w300 (k : o2_line A) (x : num) : o2_line A :=
  mkO2Line (o_f k) (o_s300 k) (o_be k) x (o_y300 k) (o_v k) (o_y0 k) (o_y1 k) (o_g0 k) (o_g1 k) (o_dnu0 k) (o_dnu1 k).
Definition with_y300 (k : o2_line A) (x : num) : o2_line A :=
  mkO2Line (o_f k) (o_s300 k) (o_be k) (o_w300 k) x (o_v k) (o_y0 k) (o_y1 k) (o_g0 k) (o_g1 k) (o_dnu0 k) (o_dnu1 k).
Definition with_v (k : o2_line A) (x : num) : o2_line A :=
  mkO2Line (o_f k) (o_s300 k) (o_be k) (o_w300 k) (o_y300 k) x (o_y0 k) (o_y1 k) (o_g0 k) (o_g1 k) (o_dnu0 k) (o_dnu1 k).
Definition with_y0 (k : o2_line A) (x : num) : o2_line A :=
  mkO2Line (o_f k) (o_s300 k) (o_be k) (o_w300 k) (o_y300 k) (o_v k) x (o_y1 k) (o_g0 k) (o_g1 k) (o_dnu0 k) (o_dnu1 k).
Definition with_y1 (k : o2_line A) (x : num) : o2_line A :=
  mkO2Line (o_f k) (o_s300 k) (o_be k) (o_w300 k) (o_y300 k) (o_v k) (o_y0 k) x (o_g0 k) (o_g1 k) (o_dnu0 k) (o_dnu1 k).
Definition with_dnu0 (k : o2_line A) (x : num) : o2_line A :=
  mkO2Line (o_f k) (o_s300 k) (o_be k) (o_w300 k) (o_y300 k) (o_v k) (o_y0 k) (o_y1 k) (o_g0 k) (o_g1 k) x (o_dnu1 k).
Definition with_dnu1 (k : o2_line A) (x : num) : o2_line A :=
  mkO2Line (o_f k) (o_s300 k) (o_be k) (o_w300 k) (o_y300 k) (o_v k) (o_y0 k) (o_y1 k) (o_g0 k) (o_g1 k) (o_dnu0 k) x.

(** [dst[a:b] = src[a:b]]: ValueError when the two slices differ in length (and the source slice has not length one). *)
Definition slice_assign (a b : nat) (dst src : list num) : result (list num) :=
  let n := List.length (slice a b dst) in
  let v := slice a b src in
  if Nat.eqb (List.length v) n then Ok (firstn a dst ++ v ++ skipn (a + n) dst)%list
  else match v with
       | [x] => Ok (firstn a dst ++ repeat x n ++ skipn (a + n) dst)%list
       | _ => Err ValueError
       end.

(** absorption_model.py:767-795, effect on the line list.  The attributes w2a, x11, x16, x05, snr and ns are also assigned
    but never read by the code, so they are looked up (KeyError) and dropped. *)
Definition o2_override (s : store) (d : pdict) (m : string) (ll : o2_ll A) : result (o2_ll A) :=
  do _1 <- amu_value s d "w2a";
  do g <- amu_arr s d "O2gamma"; do w <- slice_assign 0 38 (map o_w300 (o_lines ll)) g;
  do gn <- amu_arr s d "O2gamma_NL"; do w <- slice_assign 34 49 w gn;
  do wb <- amu_num s d "WB300";
  do f <- amu_arr s d "O2FL"; do s3 <- amu_arr s d "O2S"; do be <- amu_arr s d "O2BE";
  do _2 <- amu_value s d "X11"; do _3 <- amu_value s d "X16"; do x <- amu_num s d "X05";
  do _4 <- amu_value s d "Snr"; do _5 <- amu_value s d "O2_nS";
  do ls <- per_line with_w300 (o_lines ll) w;
  do ls <- per_line with_f ls f; do ls <- per_line with_s300 ls s3; do ls <- per_line with_be ls be;
  do ls <- (if str_gtb m "R19" then
              do a <- amu_arr s d "y0"; do ls <- per_line with_y0 ls a;
              do a <- amu_arr s d "y1"; do ls <- per_line with_y1 ls a;
              do a <- amu_arr s d "dnu0"; do ls <- per_line with_dnu0 ls a;
              do a <- amu_arr s d "dnu1"; per_line with_dnu1 ls a
            else
              do y <- amu_arr s d "Y300"; do yn <- amu_arr s d "Y300_NL"; do y <- slice_assign 34 49 y yn;
              do ls <- per_line with_y300 ls y;
              do v <- amu_arr s d "O2_V"; do vn <- amu_arr s d "O2_V_NL"; do v <- slice_assign 34 49 v vn;
              per_line with_v ls v);
  Ok (mkO2LL x wb ls).

(** The same block, effect on the arrays: [w300] is the address of the array of the module, written in place; the arrays of
    the entries Y300 and O2_V are bound to the module and then written in place. *)
Definition write_slice (a b : nat) (s : store) (dst : nat) (src : list num) : result store :=
  match nth_error (st_arrs s) dst with
  | None => Err AttributeError                            (* no such array: does not occur *)
  | Some v => do v' <- slice_assign a b v src; Ok (set_arr s dst v')
  end.

Definition amu_loc (s : store) (d : pdict) (k : string) : result nat :=
  match assoc k d with
  | None => Err KeyError
  | Some o => match nth_error (st_objs s) o with
              | None => Err AttributeError
              | Some p => match sp_value p with PArr l => Ok l | _ => Err TypeError end
              end
  end.

Definition o2_amu_effect (s : store) (d : pdict) (m : string) (w300 : nat) : result store :=
  do g <- amu_arr s d "O2gamma"; do s <- write_slice 0 38 s w300 g;
  do gn <- amu_arr s d "O2gamma_NL"; do s <- write_slice 34 49 s w300 gn;
  if str_gtb m "R19" then Ok s
  else
    do y <- amu_loc s d "Y300"; do yn <- amu_arr s d "Y300_NL"; do s <- write_slice 34 49 s y yn;
    do v <- amu_loc s d "O2_V"; do vn <- amu_arr s d "O2_V_NL"; write_slice 34 49 s v vn.

(** absorption_model.py:1054-1060 ([sr] is never read afterwards). *)
Definition o3_override (s : store) (d : pdict) (ll : o3_ll A) : result (o3_ll A) :=
  do fl <- amu_arr s d "O3_FL"; do s1 <- amu_arr s d "O3_S1"; do b <- amu_arr s d "O3_B";
  do w <- amu_arr s d "O3_W"; do x <- amu_arr s d "O3_X"; do _1 <- amu_value s d "O3_SR";
  do ls <- per_line (fun k v => mkO3Line v (z_s1 k) (z_b k) (z_w k) (z_x k)) (z_lines ll) fl;
  do ls <- per_line (fun k v => mkO3Line (z_fl k) v (z_b k) (z_w k) (z_x k)) ls s1;
  do ls <- per_line (fun k v => mkO3Line (z_fl k) (z_s1 k) v (z_w k) (z_x k)) ls b;
  do ls <- per_line (fun k v => mkO3Line (z_fl k) (z_s1 k) (z_b k) v (z_x k)) ls w;
  do ls <- per_line (fun k v => mkO3Line (z_fl k) (z_s1 k) (z_b k) (z_w k) v) ls x;
  Ok (mkO3LL (z_reftline ll) ls).

(** The overrides as the record read by Clear.v.  Simplification: a dictionary for which an override raises is mapped to the
    override that changes nothing, so theorems about runs must establish that the override succeeds. *)
Definition amu_of (s : store) (d : pdict) : amu_over A :=
  mkAmu (fun m ll => match h2o_override s d m ll with Ok l => l | Err _ => ll end)
        (fun m ll => match o2_override s d m ll with Ok l => l | Err _ => ll end)
        (fun ll => match o3_override s d ll with Ok l => l | Err _ => ll end).

(** ** lines 253-318 [uncertainty_propagation], one element of the arrays *)
Definition uncertainty_propagation (fn : string) (x y sx sy a b sxy : num) : result (num * num) :=
  if String.eqb fn "aA" then Ok (a * x, absv a * sx)
  else if String.eqb fn "aA+bB" then
    Ok (a * x + b * y, sqrtf (powi a 2 * powi sx 2 + powi b 2 * powi sy 2 + #2 * a * b * sxy))
  else if String.eqb fn "aA-bB" then
    Ok (a * x - b * y, sqrtf (powi a 2 * powi sx 2 + powi b 2 * powi sy 2 - #2 * a * b * sxy))
  else if String.eqb fn "A*B" then
    Ok (x * y, absv (x * y) * sqrtf (powi (sx / x) 2 + powi (sy / y) 2 + #2 * sxy / (x * y)))
  else if String.eqb fn "A/B" then
    Ok (x / y, absv (x / y) * sqrtf (powi (sx / x) 2 + powi (sy / y) 2 - #2 * sxy / (x * y)))
  else if String.eqb fn "A^a" then Ok (x ** a, absv a * x ** (a - #1) * sx)
  else Err ValueError.

End Uncertainty.
Arguments pval A : clear implicits.
Arguments pcon A : clear implicits.
Arguments sparam A : clear implicits.
Arguments store A : clear implicits.
Arguments ustate A : clear implicits.
Arguments namespace A : clear implicits.
