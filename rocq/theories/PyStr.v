(** Python text: strings of ASCII characters as lists, with the string methods and conversions used by the readers of soundings. *)

From Coq Require Import ZArith List Bool Ascii String.
Import ListNotations.
From Verif Require Import Arith PyBase.
Local Open Scope Z_scope.

Definition str := list ascii.
(** A literal of the source. *)
Definition tx (s : string) : str := list_ascii_of_string s.

Definition chr_eqb (a b : ascii) : bool := Ascii.eqb a b.
Definition code (c : ascii) : Z := Z.of_N (N_of_ascii c).

(** [str.isspace] on ASCII *)
Definition is_space (c : ascii) : bool := (9 <=? code c) && (code c <=? 13) || (28 <=? code c) && (code c <=? 32).
Definition is_digit (c : ascii) : bool := (48 <=? code c) && (code c <=? 57).
Definition digit (c : ascii) : Z := code c - 48.

(** [s[a:b]] *)
Definition str_slice (s : str) (a b : Z) : str := py_slice s a b.

Fixpoint lstrip (s : str) : str := match s with c :: s' => if is_space c then lstrip s' else s | [] => [] end.
(** [str.strip] *)
Definition strip (s : str) : str := rev (lstrip (rev (lstrip s))).

(** [str.split] without argument: the maximal runs of non-blank characters *)
Fixpoint split_from (acc s : str) : list str :=
  match s with
  | [] => match acc with [] => [] | _ => [rev acc] end
  | c :: s' => if is_space c then match acc with [] => split_from [] s' | _ => rev acc :: split_from [] s' end
               else split_from (c :: acc) s'
  end.
Definition split (s : str) : list str := split_from [] s.

(** [str.zfill]: zeros are put after a leading sign *)
Definition zfill (w : nat) (s : str) : str :=
  let pad := repeat "0"%char (w - List.length s) in
  match s with
  | c :: s' => if chr_eqb c "+" || chr_eqb c "-" then c :: pad ++ s' else pad ++ s
  | [] => pad
  end.

(** A non-empty run of digits as a number *)
Fixpoint digits_val (acc : Z) (s : str) : option Z :=
  match s with
  | [] => Some acc
  | c :: s' => if is_digit c then digits_val (10 * acc + digit c) s' else None
  end.

(** An optional sign *)
Definition signed (s : str) : Z * str :=
  match s with
  | c :: s' => if chr_eqb c "-" then (-1, s') else if chr_eqb c "+" then (1, s') else (1, s)
  | [] => (1, [])
  end.

(** [int(s)] of a text. Simplified: underscores between digits, which Python allows, are refused. *)
Definition py_int (s : str) : result Z :=
  let '(sg, d) := signed (strip s) in
  match d with
  | [] => Err ValueError
  | _ => match digits_val 0 d with Some v => Ok (sg * v) | None => Err ValueError end
  end.

(** The text before and after the first point *)
Fixpoint cut_point (s : str) : str * option str :=
  match s with
  | [] => ([], None)
  | c :: s' => if chr_eqb c "." then ([], Some s') else let '(a, b) := cut_point s' in (c :: a, b)
  end.

(** [float(s)] of a text, as the decimal fraction written; its value is [lit]. Simplified: only
    [sign digits . digits] with at least one digit; texts with exponents, underscores, nan and inf are refused. *)
Definition py_float (s : str) : result dec :=
  let '(sg, d) := signed (strip s) in
  let '(a, b) := cut_point d in
  let frac := match b with Some x => x | None => [] end in
  match a ++ frac with
  | [] => Err ValueError
  | _ => match digits_val 0 (a ++ frac) with
         | Some v => Ok (Dec (sg * v) (Z.to_pos (10 ^ Z.of_nat (List.length frac))))
         | None => Err ValueError
         end
  end.

(** [s == t] and [s in list] *)
Fixpoint str_eqb (a b : str) : bool :=
  match a, b with
  | [], [] => true
  | x :: a', y :: b' => chr_eqb x y && str_eqb a' b'
  | _, _ => false
  end.
