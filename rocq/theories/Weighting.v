(** Model of pyrtlib/weighting_functions.py.  Drawing itself (matplotlib) is not modelled; the numbers handed to it are:
    the averaged rows, the label frequencies, the normalisation, the heights and the group offsets. *)

From Coq Require Import ZArith String List Bool.
Import ListNotations.
From Verif Require Import Arith PyBase Utils RTE Absorption Clear Spectrum.
Local Open Scope arith_scope.

Section Weighting.
Context {A : Arith}.
Notation num := (car A).

(** ** numpy pieces *)

(** The float of an index. *)
Definition of_nat (k : nat) : num := lit (Dec (Z.of_nat k) 1).

(** math.ceil: [None] when [int] raises. *)
Definition ceilz (x : num) : option Z :=
  match trunc x with
  | Some t => Some (if lit (Dec t 1) <? x then Z.add t 1 else t)
  | None => None
  end.

(** [np.arange(0, stop, step)]: ceil(stop/step) values 0, step, 2 step, ...; refused when that is not a number. *)
Definition arange0 (stop step : num) : result (list num) :=
  match ceilz (stop / step) with
  | Some n => Ok (map (fun k => of_nat k * step) (seq 0 (Z.to_nat n)))
  | None => Err ValueError
  end.

(** [np.max(a)] of a one-dimensional array; a NaN entry is simplified (numpy returns NaN). *)
Definition np_max (l : list num) : result num :=
  match l with [] => Err ValueError | x :: l' => Ok (fold_left maxv l' x) end.

(** First position of the largest / smallest entry. *)
Fixpoint arg_loop (better : num -> num -> bool) (l : list num) (i best : nat) (v : num) : nat :=
  match l with
  | [] => best
  | x :: l' => if better x v then arg_loop better l' (S i) i x else arg_loop better l' (S i) best v
  end.
Definition np_arg (better : num -> num -> bool) (l : list num) : result nat :=
  match l with [] => Err ValueError | x :: l' => Ok (arg_loop better l' 1 0 x) end.
Definition np_argmin := np_arg ltb.
Definition np_argmax := np_arg gtb.

(** [np.interp(x, xp, fp)] at one abscissa between the current node [(a, fa)] and the rest; beyond the last node the last
    value is kept.  numpy finds the interval by bisection; for increasing nodes it is the one found by this scan. *)
Fixpoint interp_scan (x a fa : num) (nodes : list (num * num)) : num :=
  match nodes with
  | [] => fa
  | (b, fb) :: nodes' =>
      if x <? b then (if a =? x then fa else (fb - fa) / (b - a) * (x - a) + fa)
      else interp_scan x b fb nodes'
  end.
Definition interp1 (xp fp : list num) (x : num) : result num :=
  match combine xp fp with
  | [] => Err ValueError
  | (a, fa) :: nodes => Ok (if x <? a then fa else interp_scan x a fa nodes)
  end.
Definition np_interp (xs xp fp : list num) : result (list num) :=
  if Nat.eqb (List.length xp) (List.length fp) then
    match xp with [] => Err ValueError | _ => mapM (interp1 xp fp) xs end
  else Err ValueError.

(** [np.cumsum] of one row. *)
Fixpoint cumsum_from (acc : num) (l : list num) : list num :=
  match l with [] => [] | x :: l' => (acc + x) :: cumsum_from (acc + x) l' end.
Definition cumsum (l : list num) : list num :=
  match l with [] => [] | x :: l' => x :: cumsum_from x l' end.

(** Two-dimensional arrays as lists of rows. *)
Definition matrix := list (list num).
Definition ncols (m : matrix) : nat := match m with r :: _ => List.length r | [] => 0 end.
Definition fliplr (m : matrix) : matrix := map (@rev num) m.
Definition col (j : nat) (m : matrix) : list num := map (fun r => nth j r #0) m.
Definition transpose (m : matrix) : matrix := map (fun i => col i m) (seq 0 (ncols m)).

Fixpoint map2 (f : num -> num -> num) (a b : list num) : list num :=
  match a, b with x :: a', y :: b' => f x y :: map2 f a' b' | _, _ => [] end.

(** [np.mean(rows, axis=0)] for rows of [n] columns: sum divided by the number of rows (0/0 for none). *)
Definition mean_rows (n : nat) (rows : matrix) : list num :=
  map (fun c => sum_from #0 (col c rows) / of_nat (List.length rows)) (seq 0 n).
(** [np.mean] of a one-dimensional array. *)
Definition mean1 (l : list num) : num := sum_from #0 l / of_nat (List.length l).

(** ** The class *)

(** The attributes of a [WeightingFunctions] object; arrays by address where they are handed to the solver. *)
Record wfobj := mkWfo { w_z : addr; w_p : addr; w_t : addr; w_rh : addr;
  w_frq : option (list num); w_sat : bool; w_es : pyval A; w_model : string; w_angle : num;
  w_band : option (list Z) }.

(** lines 30-66, constructor: profiles interpolated to an equidistant height grid. *)
Definition wf_init (h : heap A) (z p t rh : list num) (step : num) : heap A * result wfobj :=
  let r :=
    do m <- np_max z;
    do zi <- arange0 (m + step) step;
    do pi <- np_interp zi z p;
    do ti <- np_interp zi z t;
    do ri <- np_interp zi z rh;
    Ok (zi, pi, ti, ri) in
  match r with
  | Err e => (h, Err e)
  | Ok (zi, pi, ti, ri) =>
      let '(h, az) := halloc h zi in let '(h, ap) := halloc h pi in
      let '(h, at_) := halloc h ti in let '(h, ar) := halloc h ri in
      (h, Ok (mkWfo az ap at_ ar None true (VFloat #1) "R24" #90 None))
  end.

(** lines 76-94, setter of [satellite]. *)
Definition wf_set_satellite (w : wfobj) (v : pyval A) : result wfobj :=
  match v with
  | VBool b => Ok (mkWfo (w_z w) (w_p w) (w_t w) (w_rh w) (w_frq w) b (w_es w) (w_model w) (w_angle w) (w_band w))
  | _ => Err ValueError
  end.

(** lines 105-122, setter of [frequencies]; the array is copied here, its later modification by the caller is not modelled. *)
Definition wf_set_frequencies (h : heap A) (w : wfobj) (v : pyval A) : result wfobj :=
  match v with
  | VArr a => Ok (mkWfo (w_z w) (w_p w) (w_t w) (w_rh w) (Some (hget h a)) (w_sat w) (w_es w) (w_model w) (w_angle w) (w_band w))
  | _ => Err ValueError
  end.

(** The last implemented oxygen model, absorption_model.py [implemented_models]. *)
Definition last_oxygen : string := "R24".

(** Class state with the oxygen model replaced. *)
Definition with_o2 (g : globals A) (m : string) : globals A :=
  mkGlobals (g_h2o g) (Some m) (g_n2 g) (g_liq g) (g_o3 g) (g_h2oll g) (g_o2ll g) (g_o3ll g) (g_from_sat g) (g_es g).

(** lines 124-140 [_perform_calculation].  Without frequencies the solver constructor fails on [len(None)].
    The heap and class state are returned also when it fails only as far as the constructor and the emissivity went. *)
Definition perform (db : lldb A) (g : globals A) (h : heap A) (w : wfobj)
  : heap A * result (list (angle_full A) * globals A) :=
  match w_frq w with
  | None => (h, Err TypeError)
  | Some frq =>
      match tb_init h (w_z w) (w_p w) (w_t w) (w_rh w) frq [w_angle w] None None "" true true false with
      | (h, Err e) => (h, Err e)
      | (h, Ok o) =>
          match set_satellite o (VBool (w_sat w)) with
          | Err e => (h, Err e)
          | Ok o =>
              let g1 := init_absmdl g (w_model w) in
              match set_emissivity h o (w_es w) with
              | (h, Err e) => (h, Err e)
              | (h, Ok o) =>
                  (h, do g2 <- set_ll_o2 db (with_o2 g1 last_oxygen);
                      do x <- execute db g2 h o;
                      let '(_, full, _, g3) := x in Ok (full, g3))
              end
          end
      end
  end.

(** Row of [other['taulaywet'] + other['taulaydry'] + other['taulayliq'] + other['taulayice']], line 179. *)
Definition tau_row (r : row_full A) : list num :=
  map2 add (map2 add (map2 add (f_ptauwet r) (f_ptaudry r)) (f_ptauliq r)) (f_ptauice r).
(** Row of [other['awet'] + other['adry']], line 181. *)
Definition abs_row (r : row_full A) : list num := map2 add (f_awet r) (f_adry r).

(** lines 183-201: weights from the layer opacities and absorptions of the single angle. *)
Definition weights (sat : bool) (l0 : nat) (tau abs : matrix) : matrix :=
  let ao := if sat then fliplr (map (firstn (l0 + 1)) tau) else map (skipn l0) tau in
  let abss := if sat then map (firstn (l0 + 1)) abs else map (skipn l0) abs in
  let cumao := if sat then fliplr (rev (map cumsum (rev ao))) else map cumsum ao in
  let trans := map (map (fun x => expf (- x))) cumao in
  transpose (map (fun j => map2 mul (col j trans) (col j abss)) (seq 0 (ncols trans))).

(** lines 162-201 [generate_wf]. *)
Definition generate_wf (db : lldb A) (g : globals A) (h : heap A) (w : wfobj)
  : heap A * result (matrix * globals A) :=
  match perform db g h w with
  | (h, Err e) => (h, Err e)
  | (h, Ok (full, g')) =>
      (h, do z0 <- py_get (hget h (w_z w)) (if w_sat w then -1 else 0)%Z;
          do l0 <- np_argmin (map (fun x => absv (x - z0)) (hget h (w_z w)));
          do af <- py_get full 0;
          Ok (weights (w_sat w) l0 (map tau_row (an_rows af)) (map abs_row (an_rows af)), g'))
  end.

(** lines 142-160 [_mean_channel]; counts are non-negative integers. *)
Fixpoint mean_loop (a : matrix) (n : nat) (cnt : nat) (band : list nat) : matrix :=
  match band with
  | [] => []
  | b :: band' => mean_rows n (slice cnt (b + cnt) a) :: mean_loop a n (cnt + b) band'
  end.
Definition mean_channel (a : matrix) (band : list nat) : matrix := mean_loop a (ncols a) 0 band.

(** lines 236-237: the label frequencies, [self.frequencies[i:i+j]] for position [i] and count [j]. *)
Definition label_freqs (frq : list num) (band : list nat) : list num :=
  map (fun '(i, j) => mean1 (slice i (i + j) frq)) (combine (seq 0 (List.length band)) band).

(** lines 249-250: the divisors of the curves. *)
Definition normalizers (normalized : bool) (wgt : matrix) : result (list num) :=
  if normalized then mapM np_max wgt else Ok (repeat #1 (ncols wgt)).

(** What one curve of the figure consists of: abscissae, heights, label frequency and height of the maximum. *)
Record curve := mkCurve { c_x : list num; c_y : list num; c_frq : num; c_peak : option num }.

(** lines 254-262: the curves; [wgt[i]], [normalize[i]] raise when there are fewer rows. *)
Definition plot_curve (sat : bool) (zi : list num) (wgt : matrix) (norm : list num) (fi : num * nat) : result curve :=
  let '(f, i) := fi in
  do r <- py_get wgt (Z.of_nat i);
  if sat then
    do k <- np_argmax (tl r);
    do pk <- py_get (removelast zi) (Z.of_nat k);
    do n <- py_get norm (Z.of_nat i);
    Ok (mkCurve (map (fun x => x / n) (tl r)) (removelast zi) f (Some pk))
  else Ok (mkCurve r zi f None).

(** lines 203-262, numeric part of [plot_wf]: the object (its frequencies are overwritten) and the curves. *)
Definition plot_wf (h : heap A) (w : wfobj) (wgt : matrix) (normalized : bool) : result (wfobj * list curve) :=
  match w_frq w with
  | None => Err TypeError
  | Some frq =>
      let '(wgt, frq) := match w_band w with
                         | Some b => let b := map Z.to_nat b in (mean_channel wgt b, label_freqs frq b)
                         | None => (wgt, frq) end in
      do norm <- normalizers normalized wgt;
      do cs <- mapM (plot_curve (w_sat w) (hget h (w_z w)) wgt norm) (combine frq (seq 0 (List.length frq)));
      Ok (mkWfo (w_z w) (w_p w) (w_t w) (w_rh w) (Some frq) (w_sat w) (w_es w) (w_model w) (w_angle w) (w_band w), cs)
  end.

(** lines 329-334: the shift of every row of [plot_wf_grouped], 0.40 per group. *)
Fixpoint group_shifts (cnt : num) (groups : list nat) : list num :=
  match groups with [] => [] | n :: groups' => repeat cnt n ++ group_shifts (cnt + #0.40) groups' end.

End Weighting.
Arguments wfobj A : clear implicits.
Arguments matrix A : clear implicits.
Arguments curve A : clear implicits.
