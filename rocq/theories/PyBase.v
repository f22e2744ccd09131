(** Python notions used by the models: exceptions as values, list indexing with
    negative indices, slices, functional array update. *)

From Coq Require Import ZArith List Bool String Ascii Lia.
Import ListNotations.
Local Open Scope Z_scope.

(** Exceptions raised by the modelled code. *)
Inductive exn :=
| ValueError | IndexError | KeyError | TypeError | AttributeError
| UnboundLocalError | NotImplementedError | AbsModelError | SystemExit
| HTTPError | ZeroDivisionError.

Inductive result (T : Type) := Ok (x : T) | Err (e : exn).
Arguments Ok {T} x. Arguments Err {T} e.

Definition bind {T U : Type} (m : result T) (k : T -> result U) : result U :=
  match m with Ok x => k x | Err e => Err e end.

Declare Scope py_scope.
Delimit Scope py_scope with py.
Notation "'do' x <- m ; k" := (bind m (fun x => k))
  (at level 200, x pattern, m at level 100, k at level 200, right associativity) : py_scope.
Open Scope py_scope.

Definition is_ok {T} (m : result T) : bool :=
  match m with Ok _ => true | Err _ => false end.

Definition rmap {T U} (f : T -> U) (m : result T) : result U :=
  match m with Ok x => Ok (f x) | Err e => Err e end.

(** [mapM f l]: run [f] on every element, stop at the first exception. *)
Fixpoint mapM {T U} (f : T -> result U) (l : list T) : result (list U) :=
  match l with
  | [] => Ok []
  | x :: l' => do y <- f x; do ys <- mapM f l'; Ok (y :: ys)
  end.

(** Position denoted by the Python index [i] in a sequence of length [n]. *)
Definition py_pos (n : nat) (i : Z) : option nat :=
  if (0 <=? i) && (i <? Z.of_nat n) then Some (Z.to_nat i)
  else if (- Z.of_nat n <=? i) && (i <? 0) then Some (Z.to_nat (Z.of_nat n + i))
  else None.

(** [l[i]] *)
Definition py_get {T} (l : list T) (i : Z) : result T :=
  match py_pos (List.length l) i with
  | Some k => match nth_error l k with Some x => Ok x | None => Err IndexError end
  | None => Err IndexError
  end.

(** Functional update of position [k]. *)
Fixpoint upd {T} (l : list T) (k : nat) (x : T) : list T :=
  match l, k with
  | [], _ => []
  | _ :: l', O => x :: l'
  | y :: l', S k' => y :: upd l' k' x
  end.

(** [l[i] = x] *)
Definition py_set {T} (l : list T) (i : Z) (x : T) : result (list T) :=
  match py_pos (List.length l) i with
  | Some k => Ok (upd l k x)
  | None => Err IndexError
  end.

(** [range(a, b)] *)
Definition zrange (a b : Z) : list Z :=
  List.map (fun k => a + Z.of_nat k) (seq 0 (Z.to_nat (b - a))).

(** [l[a:b]] with non-negative bounds [a], [b] (slices never raise). *)
Definition slice {T} (a b : nat) (l : list T) : list T :=
  firstn (b - a) (skipn a l).

(** Clamp a Python slice bound into [0, n]. *)
Definition slice_bound (n : nat) (i : Z) : nat :=
  let n' := Z.of_nat n in
  let j := if i <? 0 then Z.max 0 (n' + i) else Z.min i n' in
  Z.to_nat j.

(** [l[a:b]] with arbitrary integer bounds. *)
Definition py_slice {T} (l : list T) (a b : Z) : list T :=
  let n := List.length l in slice (slice_bound n a) (slice_bound n b) l.

(** Lexicographic order on strings by code point: Python's [a < b] on str. *)
Fixpoint str_ltb (a b : string) : bool :=
  match a, b with
  | EmptyString, EmptyString => false
  | EmptyString, String _ _ => true
  | String _ _, EmptyString => false
  | String x a', String y b' =>
      let nx := N_of_ascii x in let ny := N_of_ascii y in
      if (nx <? ny)%N then true
      else if (ny <? nx)%N then false
      else str_ltb a' b'
  end.

Definition str_gtb (a b : string) : bool := str_ltb b a.

(** [s in l] *)
Definition str_in (s : string) (l : list string) : bool :=
  existsb (String.eqb s) l.

(** Association-list dictionary lookup. *)
Fixpoint assoc {T} (k : string) (d : list (string * T)) : option T :=
  match d with
  | [] => None
  | (k', v) :: d' => if String.eqb k k' then Some v else assoc k d'
  end.
