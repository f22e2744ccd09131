(** Model of /repo/pyrtlib/tb_spectrum.py: the class [TbCloudRTE].

    numpy arrays that can be shared between the caller and the object live in an explicit
    heap and are referred to by address; the class attributes of the absorption models are the
    record [globals] of Clear.v. *)

From Coq Require Import ZArith List Bool String.
Import ListNotations.
From Verif Require Import Arith PyBase Utils RTE Absorption Clear.
Local Open Scope string_scope.
Local Open Scope arith_scope.

Section Spectrum.
Context {A : Arith}.
Notation num := (car A).

(** ** Heap of one-dimensional float arrays *)

Definition addr := nat.
Definition heap := list (list num).
Definition hget (h : heap) (a : addr) : list num := nth a h [].
Definition hset (h : heap) (a : addr) (v : list num) : heap := upd h a v.
Definition halloc (h : heap) (v : list num) : heap * addr := (h ++ [v], List.length h)%list.

(** ** Line-list files: contents of the netCDF groups (absorption_model.py:106-118, _lineshape/*.py) *)
Record lldb := mkDB {
  db_h2o : string -> option (h2o_ll A);
  db_o2 : string -> option (o2_ll A);
  db_o3 : string -> option (o3_ll A) }.

(** ** The object *)

(** Output cell of one (frequency, angle) pair that survives from an earlier run when the
    object is not cloudy (tb_spectrum.py:108-122, 350-372). *)
Record cell := mkCell { c_sptauliq : num; c_ptauliq : list num;
                        c_sptauice : num; c_ptauice : list num; c_tmrcld : num }.

(** Cloud attributes, present only after [init_cloudy] on a cloudy object. *)
Record cloud := mkCloud { cl_beg : list Z; cl_end : list Z; cl_denice : addr; cl_denliq : addr }.

Record tbobj := mkObj {
  o_z : addr; o_p : addr; o_tk : addr; o_rh : addr;
  o_frq : list num; o_angles : list num; o_o3n : option addr; o_amu : option (amu_over A);
  o_ray : bool; o_sat : bool; o_cloudy : bool; o_unc : bool; o_ice : bool;
  o_nl : nat; o_es : addr; o_z0 : num;
  o_levels : option (list Z * list Z);     (* beglev, endlev *)
  o_dens : option (addr * addr);           (* denice, denliq *)
  o_cells : list (list cell);              (* indexed by angle, then frequency *)
  o_sliq : list num; o_sice : list num }.  (* indexed by angle *)

(** tb_spectrum.py:68: [all(dz)] is true iff no difference is zero (NaN is truthy). *)
Definition all_truthy (l : list num) : bool := forallb (fun d => negb (d =? #0)) l.

(** [all(dz) > 0] and [all(dz) < 0] compare a Python bool with 0. *)
Definition bool_gt0 (b : bool) : bool := b.
Definition bool_lt0 (b : bool) : bool := false.

Definition zero_cell (nl : nat) : cell := mkCell #0 (repeat #0 nl) #0 (repeat #0 nl) #0.

(** tb_spectrum.py:24-127, constructor.  [absmdl] non-empty calls the misspelt method
    [init_absmdll] (AttributeError).  The warning of lines 81-85 is not modelled.  The
    second branch (lines 71-76) makes reversed views of the arrays; it is unreachable and
    modelled as fresh reversed copies. *)
Definition tb_init (h : heap) (z p t rh : addr) (frq angles : list num) (o3n : option addr)
  (amu : option (amu_over A)) (absmdl : string) (ray from_sat cloudy : bool)
  : heap * result tbobj :=
  let dz := diffs (hget h z) in
  let flip (h : heap) a := halloc h (rev (hget h a)) in
  let sel :=
    if bool_gt0 (all_truthy dz) then Some (h, (z, p, t, rh))
    else if bool_lt0 (all_truthy dz) then
      let '(h, z') := flip h z in let '(h, p') := flip h p in
      let '(h, t') := flip h t in let '(h, rh') := flip h rh in
      Some (h, (z', p', t', rh'))
    else None in
  match sel with
  | None => (h, Err SystemExit)
  | Some (h, (z, p, t, rh)) =>
      match hget h z with
      | [] => (h, Err IndexError)
      | z0 :: _ =>
          let nl := List.length (hget h z) in
          let '(h, es) := halloc h (repeat #1.0 (List.length frq)) in
          let h := hset h z (map (fun x => x - z0) (hget h z)) in
          if String.eqb absmdl "" then
            (h, Ok (mkObj z p t rh frq angles o3n amu ray from_sat cloudy
                      (match amu with Some _ => true | None => false end) false nl es z0
                      None None
                      (repeat (repeat (zero_cell nl) (List.length frq)) (List.length angles))
                      (repeat #0 (List.length angles)) (repeat #0 (List.length angles))))
          else (h, Err AttributeError)
      end
  end.

(** Values a caller can pass to the [satellite] and [emissivity] setters. *)
Inductive pyval := VBool (b : bool) | VFloat (x : num) | VInt (n : Z) | VArr (a : addr) | VOther.

(** lines 138-142 *)
Definition set_satellite (o : tbobj) (v : pyval) : result tbobj :=
  match v with
  | VBool b => Ok (mkObj (o_z o) (o_p o) (o_tk o) (o_rh o) (o_frq o) (o_angles o) (o_o3n o)
                     (o_amu o) (o_ray o) b (o_cloudy o) (o_unc o) (o_ice o) (o_nl o) (o_es o)
                     (o_z0 o) (o_levels o) (o_dens o) (o_cells o) (o_sliq o) (o_sice o))
  | _ => Err ValueError
  end.

Definition with_es (o : tbobj) (a : addr) : tbobj :=
  mkObj (o_z o) (o_p o) (o_tk o) (o_rh o) (o_frq o) (o_angles o) (o_o3n o)
    (o_amu o) (o_ray o) (o_sat o) (o_cloudy o) (o_unc o) (o_ice o) (o_nl o) a
    (o_z0 o) (o_levels o) (o_dens o) (o_cells o) (o_sliq o) (o_sice o).

(** lines 150-166; [isinstance(x, float)] is false for int and bool. *)
Definition set_emissivity (h : heap) (o : tbobj) (v : pyval) : heap * result tbobj :=
  match v with
  | VFloat x => let '(h, a) := halloc h (repeat x (List.length (o_frq o))) in (h, Ok (with_es o a))
  | VArr a => (h, Ok (with_es o a))
  | _ => (h, Err ValueError)
  end.

Definition with_cloudy (o : tbobj) (b : bool) : tbobj :=
  mkObj (o_z o) (o_p o) (o_tk o) (o_rh o) (o_frq o) (o_angles o) (o_o3n o)
    (o_amu o) (o_ray o) (o_sat o) b (o_unc o) (o_ice o) (o_nl o) (o_es o)
    (o_z0 o) (o_levels o) (o_dens o) (o_cells o) (o_sliq o) (o_sice o).

Definition with_ice (o : tbobj) (b : bool) : tbobj :=
  mkObj (o_z o) (o_p o) (o_tk o) (o_rh o) (o_frq o) (o_angles o) (o_o3n o)
    (o_amu o) (o_ray o) (o_sat o) (o_cloudy o) (o_unc o) b (o_nl o) (o_es o)
    (o_z0 o) (o_levels o) (o_dens o) (o_cells o) (o_sliq o) (o_sice o).

(** lines 168-178 [set_amu]. *)
Definition set_amu (o : tbobj) (amu : option (amu_over A)) : tbobj :=
  mkObj (o_z o) (o_p o) (o_tk o) (o_rh o) (o_frq o) (o_angles o) (o_o3n o)
    amu (o_ray o) (o_sat o) (o_cloudy o) true (o_ice o) (o_nl o) (o_es o)
    (o_z0 o) (o_levels o) (o_dens o) (o_cells o) (o_sliq o) (o_sice o).

(** lines 180-190 [init_absmdl]: writes the class attributes of four of the five gases. *)
Definition init_absmdl (g : globals A) (m : string) : globals A :=
  mkGlobals (Some m) (Some m) (Some m) (Some m) (g_o3 g)
    (g_h2oll g) (g_o2ll g) (g_o3ll g) (g_from_sat g) (g_es g).

Definition with_h2oll (g : globals A) ll :=
  mkGlobals (g_h2o g) (g_o2 g) (g_n2 g) (g_liq g) (g_o3 g) ll (g_o2ll g) (g_o3ll g)
    (g_from_sat g) (g_es g).
Definition with_o2ll (g : globals A) ll :=
  mkGlobals (g_h2o g) (g_o2 g) (g_n2 g) (g_liq g) (g_o3 g) (g_h2oll g) ll (g_o3ll g)
    (g_from_sat g) (g_es g).
Definition with_o3ll (g : globals A) ll :=
  mkGlobals (g_h2o g) (g_o2 g) (g_n2 g) (g_liq g) (g_o3 g) (g_h2oll g) (g_o2ll g) ll
    (g_from_sat g) (g_es g).
Definition with_sat (g : globals A) b :=
  mkGlobals (g_h2o g) (g_o2 g) (g_n2 g) (g_liq g) (g_o3 g) (g_h2oll g) (g_o2ll g) (g_o3ll g)
    b (g_es g).
Definition with_ges (g : globals A) x :=
  mkGlobals (g_h2o g) (g_o2 g) (g_n2 g) (g_liq g) (g_o3 g) (g_h2oll g) (g_o2ll g) (g_o3ll g)
    (g_from_sat g) x.

(** absorption_model.py:308-312, 707-712, 1033-1037 [set_ll]: a model without a group in the
    file is refused before anything is changed. *)
Definition set_ll_h2o (db : lldb) (g : globals A) : result (globals A) :=
  match g_h2o g with
  | Some m => match db_h2o db m with
              | Some ll => Ok (with_h2oll g (Some ll)) | None => Err AbsModelError end
  | None => Err AbsModelError
  end.
Definition set_ll_o2 (db : lldb) (g : globals A) : result (globals A) :=
  match g_o2 g with
  | Some m => match db_o2 db m with
              | Some ll => Ok (with_o2ll g (Some ll)) | None => Err AbsModelError end
  | None => Err AbsModelError
  end.
Definition set_ll_o3 (db : lldb) (g : globals A) : result (globals A) :=
  match g_o3 g with
  | Some m => match db_o3 db m with
              | Some ll => Ok (with_o3ll g (Some ll)) | None => Err AbsModelError end
  | None => Err AbsModelError
  end.

(** lines 192-194 [_init_linelist]. *)
Definition init_linelist (db : lldb) (g : globals A) : result (globals A) :=
  do g1 <- set_ll_h2o db g; set_ll_o2 db g1.

(** lines 209-215: last level whose height equals [zc], 0 when there is none. *)
Fixpoint level_lookup (z : list num) (zc : num) (i : Z) (acc : Z) : Z :=
  match z with
  | [] => acc
  | x :: z' => level_lookup z' zc (i + 1) (if x =? zc then i else acc)
  end.

(** lines 196-223 [init_cloudy]; [cldh] is the list of (base, top) heights. *)
Definition init_cloudy (h : heap) (o : tbobj) (cldh : list (num * num)) (denice denliq : addr)
  : tbobj :=
  let zs := hget h (o_z o) in
  let rel := map (fun '(b, t) => (b - o_z0 o, t - o_z0 o)) cldh in
  if o_cloudy o then
    mkObj (o_z o) (o_p o) (o_tk o) (o_rh o) (o_frq o) (o_angles o) (o_o3n o)
      (o_amu o) (o_ray o) (o_sat o) (o_cloudy o) (o_unc o) (o_ice o) (o_nl o) (o_es o) (o_z0 o)
      (Some (map (fun '(b, _) => level_lookup zs b 0 0) rel,
             map (fun '(_, t) => level_lookup zs t 0 0) rel))
      (Some (denice, denliq)) (o_cells o) (o_sliq o) (o_sice o)
  else
    mkObj (o_z o) (o_p o) (o_tk o) (o_rh o) (o_frq o) (o_angles o) (o_o3n o)
      (o_amu o) (o_ray o) (o_sat o) (o_cloudy o) (o_unc o) (o_ice o) (o_nl o) (o_es o) (o_z0 o)
      (Some (map (fun _ => 0%Z) rel, map (fun _ => 0%Z) rel))
      (o_dens o) (o_cells o) (o_sliq o) (o_sice o).

(** ** execute *)

(** One row of the returned data frame (lines 379-391). *)
Record row := mkRow { r_tbtotal : num; r_tbatm : num; r_tmr : num; r_tmrcld : num;
  r_tauwet : num; r_taudry : num; r_tauliq : num; r_tauice : num; r_angle : num }.

(** Additional per-cell output of [only_bt=False]. *)
Record row_full := mkFull { f_row : row; f_ptauwet : list num; f_ptaudry : list num;
  f_ptauliq : list num; f_ptauice : list num; f_awet : list num; f_adry : list num }.

(** Everything [execute] reads about the profile, after dereferencing. *)
Record inputs := mkIn { i_z : list num; i_p : list num; i_tk : list num; i_rh : list num;
  i_o3n : option (list num); i_es : list num; i_z0 : num; i_nl : nat;
  i_ray : bool; i_cloudy : bool; i_ice : bool; i_amu : option (amu_over A);
  i_levels : option (list Z * list Z); i_dens : option (list num * list num) }.

Definition inputs_of (h : heap) (o : tbobj) : inputs :=
  mkIn (hget h (o_z o)) (hget h (o_p o)) (hget h (o_tk o)) (hget h (o_rh o))
    (option_map (hget h) (o_o3n o)) (hget h (o_es o)) (o_z0 o) (o_nl o)
    (o_ray o) (o_cloudy o) (o_ice o) (if o_unc o then o_amu o else None)
    (o_levels o) (option_map (fun '(i, l) => (hget h i, hget h l)) (o_dens o)).

(** Path lengths of one angle, lines 317-322; a [None] from the ray tracer makes
    [exponential_integration] fail on [ds.shape]. *)
Definition path_ds (i : inputs) (refindx : list num) (angle : num) : result (list num) :=
  if i_ray i then
    do r <- ray_tracing (i_z i) refindx angle (i_z0 i);
    match r with Some ds => Ok ds | None => Err AttributeError end
  else
    let amass := #1 / sinf (angle * pif / #180) in
    Ok (#0 :: map (fun d => d * amass) (diffs (i_z i))).

Fixpoint add4 (a b c d : list num) : list num :=
  match a, b, c, d with
  | x :: a', y :: b', u :: c', v :: d' => (x + y + u + v) :: add4 a' b' c' d'
  | _, _, _, _ => []
  end.

(** Attribute access on the cloud attributes; they do not exist before [init_cloudy]. *)
Definition need {T} (x : option T) : result T :=
  match x with Some v => Ok v | None => Err AttributeError end.

(** Value stored when [None] is assigned to an element of a float array (line 367). *)
Definition nan_ : num := #0 / #0.

(** Body of the frequency loop, lines 341-376, for frequency [frq] with emissivity [es],
    given the cell left by the previous run. *)
Definition run_cell (g : globals A) (i : inputs) (e ds : list num) (angle frq es : num) (old : cell)
  : result (row_full * cell) :=
  let nl := Z.of_nat (i_nl i) in
  do a <- clearsky_absorption g (i_amu i) (i_p i) (i_tk i) e frq (i_o3n i);
  let '(awet, adry) := a in
  do w <- exponential_integration true awet ds 1 nl #1;
  do d <- exponential_integration true adry ds 1 nl #1;
  do c1 <- (if i_cloudy i then
              do dens <- need (i_dens i);
              do la <- cloudy_absorption (g_liq g) (i_tk i) (snd dens) (fst dens) frq;
              do l <- exponential_integration false (fst la) ds 1 nl #1;
              do ic <- exponential_integration false (snd la) ds 1 nl #1;
              Ok (mkCell (fst l) (snd l) (fst ic) (snd ic) (c_tmrcld old))
            else Ok old);
  let ptaulay := add4 (snd w) (snd d) (c_ptauice c1) (c_ptauliq c1) in
  do pl <- planck (g_from_sat g) es frq (i_tk i) ptaulay;
  do c2 <- (if i_cloudy i then
              do lv <- need (i_levels i);
              do b0 <- py_get (fst lv) 0;
              do t0 <- py_get (snd lv) 0;
              do tm <- cloud_radiating_temperature b0 t0 (p_hvk pl) (p_tauprof pl) (p_boftatm pl);
              let v := match tm with Some v => v | None => nan_ end in
              Ok (mkCell (c_sptauliq c1) (c_ptauliq c1) (c_sptauice c1) (c_ptauice c1) v)
            else Ok c1);
  do atm_last <- py_get (p_boftatm pl) (nl - 1);
  let r := mkRow (bright (p_hvk pl) (p_boftotl pl)) (bright (p_hvk pl) atm_last)
             (bright (p_hvk pl) (p_boftmr pl)) (c_tmrcld c2)
             (fst w) (fst d) (c_sptauliq c2) (c_sptauice c2) angle in
  Ok (mkFull r (snd w) (snd d) (c_ptauliq c2) (c_ptauice c2) awet adry, c2).

(** The frequency loop: reads [self._es[j]] for j = 0, 1, ... *)
Fixpoint run_freqs (g : globals A) (i : inputs) (e ds : list num) (angle : num)
  (frqs : list num) (cells : list cell) (j : Z) : result (list (row_full * cell)) :=
  match frqs, cells with
  | f :: frqs', c :: cells' =>
      do es <- py_get (i_es i) j;
      do x <- run_cell g i e ds angle f es c;
      do xs <- run_freqs g i e ds angle frqs' cells' (j + 1);
      Ok (x :: xs)
  | _, _ => Ok []
  end.

(** Per-angle integrals, lines 326-336. *)
Record angle_full := mkAngle { an_srho : num; an_swet : num; an_sdry : num;
                               an_sliq : num; an_sice : num; an_rows : list row_full }.

(** Body of the angle loop, lines 315-376; also the cells to keep. *)
Definition run_angle (g : globals A) (i : inputs) (frqs : list num) (e rho dryn wetn refindx : list num)
  (angle : num) (old : list cell * (num * num)) : result (angle_full * (list cell * (num * num))) :=
  let nl := Z.of_nat (i_nl i) in
  let '(cells, (sl, si)) := old in
  do ds <- path_ds i refindx angle;
  do sr <- exponential_integration true rho ds 0 nl #0.1;
  do sw <- exponential_integration true wetn ds 0 nl #0.1;
  do sd <- exponential_integration true dryn ds 0 nl #0.1;
  do cl <- (if i_cloudy i then
              do dens <- need (i_dens i);
              do lv <- need (i_levels i);
              do a <- cloud_integrated_density (snd dens) ds (fst lv) (snd lv);
              do b <- cloud_integrated_density (fst dens) ds (fst lv) (snd lv);
              Ok (a, b)
            else Ok (sl, si));
  do xs <- run_freqs g i e ds angle frqs cells 0;
  Ok (mkAngle (fst sr) (fst sw) (fst sd) (fst cl) (snd cl) (map fst xs), (map snd xs, cl)).

(** Everything [execute] computes for the angles [angles]; [olds] is the state kept per angle. *)
Definition run_all (g : globals A) (i : inputs) (frqs angles : list num)
  (olds : list (list cell * (num * num)))
  : result (list (angle_full * (list cell * (num * num)))) :=
  do v <- vapor (i_tk i) (i_rh i) (i_ice i);
  let '(e, rho) := v in
  let '(dryn, wetn, refindx) := refractivity (i_p i) (i_tk i) e in
  mapM (fun '(a, old) => run_angle g i frqs e rho dryn wetn refindx a old) (combine angles olds).

Definition olds_of (o : tbobj) : list (list cell * (num * num)) :=
  combine (o_cells o) (combine (o_sliq o) (o_sice o)).

Definition with_run (o : tbobj) (r : list (angle_full * (list cell * (num * num)))) : tbobj :=
  mkObj (o_z o) (o_p o) (o_tk o) (o_rh o) (o_frq o) (o_angles o) (o_o3n o)
    (o_amu o) (o_ray o) (o_sat o) (o_cloudy o) (o_unc o) (o_ice o) (o_nl o) (o_es o)
    (o_z0 o) (o_levels o) (o_dens o)
    (map (fun x => fst (snd x)) r) (map (fun x => fst (snd (snd x))) r)
    (map (fun x => snd (snd (snd x))) r).

(** The data frame: per angle a block of one row per frequency (lines 378-392). *)
Definition frame (r : list (angle_full * (list cell * (num * num)))) : list row :=
  List.concat (map (fun x => map f_row (an_rows (fst x))) r).

(** Class state after a successful run (lines 300-309, 342): line lists reloaded, direction and
    last emissivity stored, overrides of [amu] written into the line lists. *)
Definition run_effect (g : globals A) (o : tbobj) (i : inputs) : globals A :=
  let g := with_ges g (last (firstn (List.length (o_frq o)) (i_es i)) (g_es g)) in
  if Nat.eqb (List.length (o_frq o) * List.length (o_angles o) * i_nl i) 0 then g
  else clearsky_effect g (i_amu i).

(** tb_spectrum.py:225-405 [execute]: the returned frame (and full output), the updated object and
    class state.  Warnings and printing are not modelled; the partial updates of the object's arrays
    by a run that raises are not modelled. *)
Definition execute (db : lldb) (g : globals A) (h : heap) (o : tbobj)
  : result (list row * list angle_full * tbobj * globals A) :=
  do g1 <- init_linelist db g;
  let g2 := with_sat g1 (o_sat o) in
  let i := inputs_of h o in
  do r <- run_all g2 i (o_frq o) (o_angles o) (olds_of o);
  Ok (frame r, map fst r, with_run o r, run_effect g2 o i).

End Spectrum.
Arguments heap A : clear implicits.
Arguments lldb A : clear implicits.
Arguments cell A : clear implicits.
Arguments tbobj A : clear implicits.
Arguments pyval A : clear implicits.
Arguments row A : clear implicits.
Arguments row_full A : clear implicits.
Arguments inputs A : clear implicits.
Arguments angle_full A : clear implicits.
