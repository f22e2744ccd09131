(** Model of [plot_wf_grouped], pyrtlib/weighting_functions.py:290-376; as in Weighting.v only the numbers handed to matplotlib. *)

From Coq Require Import ZArith String List Bool.
Import ListNotations.
From Verif Require Import Arith PyBase Utils RTE Absorption Clear Spectrum Weighting.
Local Open Scope arith_scope.

Section PlotGroups.
Context {A : Arith}.
Notation num := (car A).

(** [np.min] of a one-dimensional array; NaN entries simplified as in [np_max]. *)
Definition minv (x y : num) : num := if y <? x then y else x.
Definition np_min (l : list num) : result num :=
  match l with [] => Err ValueError | x :: l' => Ok (fold_left minv l' x) end.

(** lines 343-347: one curve.  [wgt[i]], the height of the maximum and [max_increment[i]] raise when missing. *)
Definition grouped_curve (zi : list num) (wgt : matrix A) (shifts : list num) (i : nat) : result (list num * list num) :=
  do r <- py_get wgt (Z.of_nat i);
  do k <- np_argmax (tl r);
  do pk <- py_get (removelast zi) (Z.of_nat k);
  do s <- py_get shifts (Z.of_nat i);
  Ok (map (fun x => x + s) (tl r), removelast zi).

(** lines 350-351: last row of group [i], the running total of the sizes minus one; -1 (the last row of all) when all groups so far are empty. *)
Definition last_row (groups : list nat) (i : nat) : Z := (Z.of_nat (fold_right Nat.add 0%nat (firstn (S i) groups)) - 1)%Z.

(** lines 349-357: position and text of the label of group [i]. *)
Definition group_label (zi : list num) (wgt : matrix A) (shifts : list num) (groups : list nat) (labels : list string) (ylim : option (num * num)) (i : nat)
  : result (num * num * string) :=
  do height <- match ylim with Some (_, hi) => Ok (hi - #1) | None => do m <- np_max (removelast zi); Ok (m - #1) end;
  do r <- py_get wgt (last_row groups i);
  do m <- np_min (tl r);
  do s <- py_get shifts (last_row groups i);
  do l <- py_get labels (Z.of_nat i);
  Ok (#0.02 + (m + s), height - height / #15, l).

(** lines 309-357.  [grouped_frequencies] holds non-negative counts; the line style is not modelled, the pressure axis neither. *)
Definition plot_grouped (h : heap A) (w : wfobj A) (wgt : matrix A) (groups : list nat) (labels : list string) (ylim : option (num * num))
  : result (list (list num * list num) * list (num * num * string)) :=
  if w_sat w then
    let zi := hget h (w_z w) in
    let shifts := group_shifts #0 groups in
    do _ <- mapM (fun i => py_get labels (Z.of_nat i)) (seq 0 (List.length groups));
    match w_frq w with
    | None => Err TypeError
    | Some frq =>
        do cs <- mapM (grouped_curve zi wgt shifts) (seq 0 (List.length frq));
        do ls <- mapM (group_label zi wgt shifts groups labels ylim) (seq 0 (List.length groups));
        Ok (cs, ls)
    end
  else Err ValueError.

End PlotGroups.
