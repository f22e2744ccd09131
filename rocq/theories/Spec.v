(** Specifications in plain real analysis, independent of the model's definitions
    (this file does not import any model file). *)

From Coq Require Import Reals List Lra Lia.
Import ListNotations.
Open Scope R_scope.

(** [rsum n f = f 0 + f 1 + ... + f (n-1)]. *)
Fixpoint rsum (n : nat) (f : nat -> R) : R :=
  match n with O => 0 | S m => rsum m f + f m end.

(** Modified Planck radiance of a body at [T] for [hvk] = h*nu/k. *)
Definition planckB (hvk T : R) : R := / (exp (hvk / T) - 1).

(** Temperature of a body of modified Planck radiance [B]. *)
Definition planckT (hvk B : R) : R := hvk / ln (1 + / B).

(** Radiance of one layer of opacity [d] between radiances [bn] (observer side) and [bf]
    (linear-in-opacity weighting used by Schroeder and Westwater). *)
Definition layer_emit (bn bf d : R) : R := (bn + bf * exp (- d)) / (1 + exp (- d)).

(** Opacity between the observer (level 0) and level [k]; [d i] is the opacity of the layer
    between levels [i-1] and [i]. *)
Definition path_tau (d : nat -> R) (k : nat) : R := rsum k (fun i => d (S i)).

(** Emission of the first [k] layers, each seen through the opacity in front of it. *)
Definition path_atm (B d : nat -> R) (k : nat) : R :=
  rsum k (fun i => layer_emit (B i) (B (S i)) (d (S i))
                   * (exp (- path_tau d i) - exp (- path_tau d (S i)))).

(** [x] lies in [lo, hi]. *)
Definition between (lo x hi : R) : Prop := lo <= x <= hi.

(** ** Viewing geometry

    A profile is given bottom-up: level temperatures [t], and [tau] whose [i]-th entry is the opacity
    of the layer between levels [i-1] and [i] (entry 0 is not used).  Seen by an observer below the
    atmosphere the levels come in this order, seen from above in the opposite order. *)
Definition view_T (sat : bool) (t : list R) (i : nat) : R :=
  if sat then nth (length t - 1 - i) t 0 else nth i t 0.
Definition view_D (sat : bool) (tau : list R) (i : nat) : R :=
  if sat then nth (length tau - i) tau 0 else nth i tau 0.

(** Opacity between the observer and profile level [k]. *)
Definition spec_tau (sat : bool) (tau : list R) (k : nat) : R :=
  path_tau (view_D sat tau) (if sat then length tau - 1 - k else k).
(** Emission of the atmosphere between the observer and profile level [k]. *)
Definition spec_atm (sat : bool) (h : R) (t tau : list R) (k : nat) : R :=
  path_atm (fun i => planckB h (view_T sat t i)) (view_D sat tau) (if sat then length t - 1 - k else k).
(** Total opacity and total emission. *)
Definition total_tau (tau : list R) : R := fold_right Rplus 0 (tl tau).
Definition total_atm (sat : bool) (h : R) (t tau : list R) : R :=
  path_atm (fun i => planckB h (view_T sat t i)) (view_D sat tau) (length t - 1).
(** h*nu/k for a frequency in GHz with the package's constants. *)
Definition spec_hvk (f : R) : R := f * 1e9 * 6.626075499999999e-34 / 1.3806579999999998e-23.
(** Radiance entering the far end of the path: the surface (bottom level, emissivity [es]) seen from a
    satellite, the 2.728 K cosmic background seen from the ground. *)
Definition background (sat : bool) (es h : R) (t : list R) : R :=
  if sat then es * planckB h (nth 0 t 0) else planckB h 2.728.
