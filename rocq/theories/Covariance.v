(** Model of /repo/pyrtlib/uncertainty/covariance_matrix/__init__.py (the three covariance matrices of the spectroscopic
    parameters) and of their documented use, /repo/docs/script_examples/uncertainty_tutorial.py:163-174: the standard
    deviation of the brightness temperatures from a Jacobian matrix. *)

From Coq Require Import ZArith List Bool PeanoNat.
Import ListNotations.
From Verif Require Import Arith PyBase CovData.
Local Open Scope arith_scope.

Section Covariance.
Context {A : Arith}.
Notation num := (car A).

(** covariance_matrix/__init__.py:33, 38, 92: [np.asarray(nc.variables['Cov_p'][:])], the stored binary64 numbers as an
    array.  Reading the file is not modelled: the contents are in CovData.v. *)
Definition as_array (m : list (list (Z * Z))) : list (list num) :=
  map (map (fun p => lit (Dec (fst p) (Z.to_pos (2 ^ snd p))))) m.
Definition R17_111 : list (list num) := as_array cov_R17_111.
Definition R17_112 : list (list num) := as_array cov_R17_112.
Definition R19 : list (list num) := as_array cov_R19.

(** uncertainty_tutorial.py:164: [Kp.T].  A two-dimensional array is the list of its rows; simplification: at least one row. *)
Definition transpose (m : list (list num)) : list (list num) :=
  map (fun j => map (fun r => nth j r (lit (Dec 0 1))) m) (seq 0 (List.length (hd [] m))).

Fixpoint dot (x y : list num) : num :=
  match x, y with
  | a :: x', b :: y' => a * b + dot x' y'
  | _, _ => lit (Dec 0 1)
  end.

(** uncertainty_tutorial.py:164, 173: [np.matmul] of two-dimensional arrays; unequal inner dimensions raise ValueError.
    Simplification: the order of the additions inside a product (left to the BLAS library) is fixed. *)
Definition matmul (x y : list (list num)) : result (list (list num)) :=
  if forallb (fun r => Nat.eqb (List.length r) (List.length y)) x
  then Ok (map (fun r => map (dot r) (transpose y)) x)
  else Err ValueError.

(** uncertainty_tutorial.py:165: [np.diag] of a square array. *)
Definition diag (m : list (list num)) : list num :=
  map (fun i => nth i (nth i m []) (lit (Dec 0 1))) (seq 0 (List.length m)).

(** uncertainty_tutorial.py:164, 173: [covtb = np.matmul(np.matmul(Kp, covariance_matrix.X), Kp.T)]. *)
Definition covtb (kp cov : list (list num)) : result (list (list num)) :=
  do a <- matmul kp cov; matmul a (transpose kp).

(** uncertainty_tutorial.py:165, 174: [sigma_tb = np.sqrt(np.diag(covtb))]. *)
Definition sigma_tb (kp cov : list (list num)) : result (list num) :=
  do c <- covtb kp cov; Ok (map sqrtf (diag c)).

End Covariance.
