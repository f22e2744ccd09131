(** Arithmetic interface shared by all numerical definitions.

    Every numerical function of /repo is modelled once, generically in an
    [Arith], and then used at three instances: [RA] (ideal real arithmetic),
    [XA] (reals with NaN and infinities) and, in FloatArith.v, [FA] (binary64).
    Simplification: [RA] and [XA] are exact, i.e. floating-point rounding,
    overflow and the sign of zero are not modelled. *)

From Coq Require Import ZArith QArith Reals Lra Bool List.
Import ListNotations.

(** ** Decimal literals *)

(** A decimal literal of the Python source, as numerator over a power of ten. *)
Inductive dec := Dec (num : Z) (den : positive).

Declare Scope dec_scope.
Delimit Scope dec_scope with dec.

Definition dec_of_decimal (d : Decimal.decimal) : dec :=
  let '(i, f, e) :=
    match d with
    | Decimal.Decimal i f => (i, f, Decimal.Pos Decimal.Nil)
    | Decimal.DecimalExp i f e => (i, f, e)
    end in
  let num := Z.of_int (Decimal.app_int i f) in
  let ex := (Z.of_int e - Z.of_nat (Decimal.nb_digits f))%Z in
  match ex with
  | Zneg p => Dec num (Pos.pow 10 p)
  | _ => Dec (num * Z.pow 10 ex) 1
  end.

Definition dec_of_number (n : Number.number) : option dec :=
  match n with
  | Number.Decimal d => Some (dec_of_decimal d)
  | Number.Hexadecimal _ => None
  end.

(** Used for printing only; [None] makes Coq print the constructor. *)
Definition dec_to_number (d : dec) : option Number.number := None.

Number Notation dec dec_of_number dec_to_number : dec_scope.

(** ** The interface *)

Record Arith := mkArith {
  car : Type;
  lit : dec -> car;
  add : car -> car -> car;
  sub : car -> car -> car;
  mul : car -> car -> car;
  div : car -> car -> car;
  opp : car -> car;
  absv : car -> car;
  expf : car -> car;
  lnf : car -> car;
  log10f : car -> car;
  sqrtf : car -> car;
  sinf : car -> car;
  cosf : car -> car;
  tanf : car -> car;
  asinf : car -> car;
  atan2f : car -> car -> car;
  powf : car -> car -> car;
  pif : car;
  ltb : car -> car -> bool;
  leb : car -> car -> bool;
  eqb : car -> car -> bool;
  trunc : car -> option Z          (* Python int(x); None when it raises *)
}.

Arguments lit {a} d%dec.
Arguments add {a}. Arguments sub {a}. Arguments mul {a}. Arguments div {a}.
Arguments opp {a}. Arguments absv {a}. Arguments expf {a}. Arguments lnf {a}.
Arguments log10f {a}. Arguments sqrtf {a}. Arguments sinf {a}.
Arguments cosf {a}. Arguments tanf {a}. Arguments asinf {a}.
Arguments atan2f {a}. Arguments powf {a}. Arguments pif {a}.
Arguments ltb {a}. Arguments leb {a}. Arguments eqb {a}. Arguments trunc {a}.

Declare Scope arith_scope.
Delimit Scope arith_scope with A.
Infix "+" := add : arith_scope.
Infix "-" := sub : arith_scope.
Infix "*" := mul : arith_scope.
Infix "/" := div : arith_scope.
Notation "- x" := (opp x) : arith_scope.
Infix "<?" := ltb : arith_scope.
Infix "<=?" := leb : arith_scope.
Infix "=?" := eqb : arith_scope.
Infix "**" := powf (at level 30, right associativity) : arith_scope.
Notation "'#' d" := (lit d%dec) (at level 1, format "'#' d") : arith_scope.

(** Integer power [x ** n] for a literal non-negative integer [n]. *)
Fixpoint powi {A : Arith} (x : car A) (n : nat) : car A :=
  match n with
  | O => lit 1
  | S O => x
  | S m => mul x (powi x m)
  end.

(** Python's [x > y] and [x >= y]. *)
Definition gtb {A : Arith} (x y : car A) : bool := ltb y x.
Definition geb {A : Arith} (x y : car A) : bool := leb y x.

(** [max(x, y)] as used on scalars in the source (np.maximum). *)
Definition maxv {A : Arith} (x y : car A) : car A := if ltb x y then y else x.

(** Left-to-right sum starting from a given accumulator. *)
Definition sum_from {A : Arith} (a : car A) (l : list (car A)) : car A :=
  fold_left add l a.

(** ** Ideal reals *)

Open Scope R_scope.

Definition litR (d : dec) : R := match d with Dec n p => IZR n / IZR (Zpos p) end.

Definition Rltb (x y : R) : bool := if Rlt_dec x y then true else false.
Definition Rleb (x y : R) : bool := if Rle_dec x y then true else false.
Definition Reqb (x y : R) : bool := if Req_EM_T x y then true else false.

(** Truncation toward zero, as Python's [int]. *)
Definition Rtrunc (x : R) : Z :=
  if Rle_dec 0 x then Int_part x else (- Int_part (- x))%Z.

(** [x ** y] on floats: positive base through exp/ln; zero base; negative
    base only with an integral exponent (otherwise NaN in Python; here 0,
    guarded by [XA]). *)
Definition Rpowf (x y : R) : R :=
  if Rlt_dec 0 x then Rpower x y
  else if Req_EM_T x 0 then (if Req_EM_T y 0 then 1 else 0)
  else if Req_EM_T y (IZR (Rtrunc y)) then powerRZ x (Rtrunc y) else 0.

(** [atan2(y, x)] with values in (-PI, PI]. *)
Definition Ratan2 (y x : R) : R :=
  if Rlt_dec 0 x then atan (y / x)
  else if Rlt_dec x 0 then (if Rle_dec 0 y then atan (y / x) + PI else atan (y / x) - PI)
  else if Rlt_dec 0 y then PI / 2
  else if Rlt_dec y 0 then - (PI / 2) else 0.

Definition RA : Arith := {|
  car := R;
  lit := litR;
  add := Rplus; sub := Rminus; mul := Rmult; div := Rdiv; opp := Ropp;
  absv := Rabs; expf := exp; lnf := ln;
  log10f := fun x => ln x / ln 10;
  sqrtf := R_sqrt.sqrt; sinf := sin; cosf := cos; tanf := tan; asinf := asin;
  atan2f := Ratan2; powf := Rpowf; pif := PI;
  ltb := Rltb; leb := Rleb; eqb := Reqb;
  trunc := fun x => Some (Rtrunc x)
|}.

(** ** Reals with NaN and infinities

    The rules are those of IEEE 754 for special values, with a single
    (unsigned, positive) zero; finite results are exact. *)

Inductive ext := Fin (r : R) | PInf | NInf | NaN.

Definition xopp (x : ext) : ext :=
  match x with Fin r => Fin (- r) | PInf => NInf | NInf => PInf | NaN => NaN end.

Definition xadd (x y : ext) : ext :=
  match x, y with
  | Fin a, Fin b => Fin (a + b)
  | NaN, _ | _, NaN => NaN
  | PInf, NInf | NInf, PInf => NaN
  | PInf, _ | _, PInf => PInf
  | NInf, _ | _, NInf => NInf
  end.

(** Infinity of the sign of [r], NaN for 0. *)
Definition xsgn_inf (r : R) : ext :=
  if Rlt_dec 0 r then PInf else if Rlt_dec r 0 then NInf else NaN.

Definition xmul (x y : ext) : ext :=
  match x, y with
  | Fin a, Fin b => Fin (a * b)
  | NaN, _ | _, NaN => NaN
  | PInf, PInf | NInf, NInf => PInf
  | PInf, NInf | NInf, PInf => NInf
  | PInf, Fin b => xsgn_inf b
  | Fin a, PInf => xsgn_inf a
  | NInf, Fin b => xsgn_inf (- b)
  | Fin a, NInf => xsgn_inf (- a)
  end.

Definition xdiv (x y : ext) : ext :=
  match x, y with
  | Fin a, Fin b => if Req_EM_T b 0 then xsgn_inf a else Fin (a / b)
  | NaN, _ | _, NaN => NaN
  | Fin _, _ => Fin 0
  | PInf, Fin b => if Rle_dec 0 b then PInf else NInf
  | NInf, Fin b => if Rle_dec 0 b then NInf else PInf
  | _, _ => NaN
  end.

Definition xexp (x : ext) : ext :=
  match x with Fin r => Fin (exp r) | PInf => PInf | NInf => Fin 0 | NaN => NaN end.

Definition xln (x : ext) : ext :=
  match x with
  | Fin r => if Rlt_dec 0 r then Fin (ln r) else if Req_EM_T r 0 then NInf else NaN
  | PInf => PInf
  | _ => NaN
  end.

Definition xlog10 (x : ext) : ext :=
  match xln x with Fin r => Fin (r / ln 10) | y => y end.

Definition xsqrt (x : ext) : ext :=
  match x with
  | Fin r => if Rle_dec 0 r then Fin (R_sqrt.sqrt r) else NaN
  | PInf => PInf
  | _ => NaN
  end.

Definition xfin1 (f : R -> R) (x : ext) : ext :=
  match x with Fin r => Fin (f r) | _ => NaN end.

Definition xabs (x : ext) : ext :=
  match x with Fin r => Fin (Rabs r) | NaN => NaN | _ => PInf end.

Definition xasin (x : ext) : ext :=
  match x with
  | Fin r => if Rle_dec (Rabs r) 1 then Fin (asin r) else NaN
  | _ => NaN
  end.

(** Simplification: infinite arguments give NaN. *)
Definition xatan2 (y x : ext) : ext :=
  match y, x with Fin a, Fin b => Fin (Ratan2 a b) | _, _ => NaN end.

(** Simplification: infinite arguments give NaN. *)
Definition xpow (x y : ext) : ext :=
  match x, y with
  | Fin a, Fin b =>
      if Rlt_dec 0 a then Fin (Rpower a b)
      else if Req_EM_T a 0 then
        (if Req_EM_T b 0 then Fin 1 else if Rlt_dec 0 b then Fin 0 else PInf)
      else if Req_EM_T b (IZR (Rtrunc b)) then Fin (powerRZ a (Rtrunc b)) else NaN
  | _, _ => NaN
  end.

Definition xltb (x y : ext) : bool :=
  match x, y with
  | Fin a, Fin b => Rltb a b
  | NInf, Fin _ | NInf, PInf | Fin _, PInf => true
  | _, _ => false
  end.

Definition xeqb (x y : ext) : bool :=
  match x, y with
  | Fin a, Fin b => Reqb a b
  | NInf, NInf | PInf, PInf => true
  | _, _ => false
  end.

Definition xleb (x y : ext) : bool := orb (xltb x y) (xeqb x y).

Definition XA : Arith := {|
  car := ext;
  lit := fun d => Fin (litR d);
  add := xadd; sub := fun x y => xadd x (xopp y); mul := xmul; div := xdiv;
  opp := xopp; absv := xabs; expf := xexp; lnf := xln; log10f := xlog10;
  sqrtf := xsqrt; sinf := xfin1 sin; cosf := xfin1 cos;
  tanf := fun x => xdiv (xfin1 sin x) (xfin1 cos x);
  asinf := xasin; atan2f := xatan2; powf := xpow; pif := Fin PI;
  ltb := xltb; leb := xleb; eqb := xeqb;
  trunc := fun x => match x with Fin r => Some (Rtrunc r) | _ => None end
|}.

(** ** Complex numbers over an [Arith]

    Python [complex] / numpy complex128 operations written out in components
    (numpy's scaled division and hypot-style modulus are simplified to the
    textbook formulas). *)

Section Complex.
  Context {A : Arith}.
  Local Open Scope arith_scope.

  Record cpx := mkC { re : car A; im : car A }.

  Definition c_of (x : car A) : cpx := mkC x (lit 0).
  Definition c_add (x y : cpx) := mkC (re x + re y) (im x + im y).
  Definition c_sub (x y : cpx) := mkC (re x - re y) (im x - im y).
  Definition c_opp (x : cpx) := mkC (- re x) (- im x).
  Definition c_mul (x y : cpx) :=
    mkC (re x * re y - im x * im y) (re x * im y + im x * re y).
  Definition c_norm2 (x : cpx) : car A := re x * re x + im x * im x.
  Definition c_div (x y : cpx) :=
    mkC ((re x * re y + im x * im y) / c_norm2 y)
        ((im x * re y - re x * im y) / c_norm2 y).
  Definition c_conj (x : cpx) := mkC (re x) (- im x).
  Definition c_abs (x : cpx) : car A := sqrtf (c_norm2 x).
  Definition c_scale (k : car A) (x : cpx) := mkC (k * re x) (k * im x).
  Definition c_exp (x : cpx) :=
    mkC (expf (re x) * cosf (im x)) (expf (re x) * sinf (im x)).
  Definition c_ln (x : cpx) := mkC (lnf (c_abs x)) (atan2f (im x) (re x)).
  (** principal square root *)
  Definition c_sqrt (x : cpx) :=
    let r := c_abs x in
    let a := sqrtf ((r + re x) / lit 2) in
    let b := sqrtf ((r - re x) / lit 2) in
    mkC a (if im x <? lit 0 then - b else b).
End Complex.
Arguments cpx A : clear implicits.
