(** The instance [FA] of the arithmetic interface: IEEE binary64 (Coq's primitive floats).

    It serves only to execute the model, see FloatSat.v, FloatMain.v, FloatRest.v; no property is stated over it.  The four operations, the
    square root, the comparisons and the conversion of literals round as Python does.  The elementary functions are
    not those of the C library: they are written here by argument reduction and truncated series and agree with
    them up to a few units in the last place. *)

From Verif Require Import Arith.
From Coq Require Import ZArith List Bool Uint63 Floats.
Import ListNotations.
Local Open Scope float_scope.

(** Correctly rounded quotient of two integers: a decimal literal of the source.  Both integers are exact below 2^53, so
    that the machine division rounds once; larger ones are divided by the specification of the float operations. *)
Definition quotF (n p : positive) : float :=
  if (Zpos n <? 9007199254740992)%Z && (Zpos p <? 9007199254740992)%Z
  then of_uint63 (of_pos n) / of_uint63 (of_pos p)
  else SF2Prim (SFdiv prec emax (S754_finite false n 0) (S754_finite false p 0)).
Definition litF (d : dec) : float :=
  match d with
  | Dec Z0 _ => 0
  | Dec (Zpos n) p => quotF n p
  | Dec (Zneg n) p => - quotF n p
  end.

(** Nearest integer of a small float. *)
Definition rintF (x : float) : float := (x + 6755399441055744) - 6755399441055744.

(** The magnitude of an integral float below 2^53, as a machine integer. *)
Definition to_int (x : float) : int :=
  let '(m, e) := frshiftexp (abs x) in
  (normfr_mantissa m >> (53 + 2101 - e))%uint63.

(** [x * 2^k] for an integral float [k]. *)
Definition scaleF (x k : float) : float :=
  if ltb k 0 then ldshiftexp x (2101 - to_int k)%uint63 else ldshiftexp x (2101 + to_int k)%uint63.

Fixpoint horner (l : list float) (x : float) : float :=
  match l with [] => 0 | c :: l' => c + x * horner l' x end.

(** Coefficients 1/0!, 1/1!, ... *)
Fixpoint inv_fact (n : nat) (k c : float) : list float :=
  match n with O => [] | S m => c :: inv_fact m (k + 1) (c / (k + 1)) end.
Definition exp_coeffs : list float := Eval vm_compute in inv_fact 18 0 1.

Definition ln2_hi : float := 0x1.62e42feep-1.
Definition ln2_lo : float := 0x1.a39ef35793c76p-33.

Definition expF (x : float) : float :=
  if negb (eqb x x) then x
  else if ltb 709.75 x then infinity
  else if ltb x (-740) then 0
  else let k := rintF (x / 0x1.62e42fefa39efp-1) in
       let r := (x - k * ln2_hi) - k * ln2_lo in
       scaleF (horner exp_coeffs r) k.

(** 1, 1/3, 1/5, ... *)
Fixpoint odd_inv (n : nat) (k : float) : list float :=
  match n with O => [] | S m => 1 / k :: odd_inv m (k + 2) end.
Definition atanh_coeffs : list float := Eval vm_compute in odd_inv 14 1.

Definition lnF (x : float) : float :=
  if negb (eqb x x) then x
  else if ltb x 0 then nan
  else if eqb x 0 then neg_infinity
  else if eqb x infinity then infinity
  else
    let '(m, e) := frshiftexp x in
    let ex := if Uint63.ltb e 2101 then - of_uint63 (2101 - e)%uint63 else of_uint63 (e - 2101)%uint63 in
    let '(m, ex) := if ltb m 0x1.6a09e667f3bcdp-1 then (m * 2, ex - 1) else (m, ex) in
    let s := (m - 1) / (m + 1) in
    ex * ln2_hi + (2 * s * horner atanh_coeffs (s * s) + ex * ln2_lo).

Definition piF : float := 0x1.921fb54442d18p+1.
Definition pio2_hi : float := 0x1.921fb544p+0.
Definition pio2_lo : float := 0x1.0b4611a626331p-34.

(** Alternating series of sine and cosine. *)
Fixpoint sin_series (n : nat) (k c : float) : list float :=
  match n with O => [] | S m => c :: sin_series m (k + 2) (- c / ((k + 1) * (k + 2))) end.
Definition sin_coeffs : list float := Eval vm_compute in sin_series 12 1 1.
Definition cos_coeffs : list float := Eval vm_compute in sin_series 12 0 1.

(** Quadrant and remainder; only for moderate arguments. *)
Definition reduceF (x : float) : float * Z :=
  let k := rintF (x / 0x1.921fb54442d18p+0) in
  let q := Uint63.to_Z (to_int k) in
  ((x - k * pio2_hi) - k * pio2_lo, Z.modulo (if ltb k 0 then - q else q) 4).

Definition sinF (x : float) : float :=
  let '(r, q) := reduceF x in
  let s := r * horner sin_coeffs (r * r) in
  let c := horner cos_coeffs (r * r) in
  match q with 0%Z => s | 1%Z => c | 2%Z => - s | _ => - c end.

Definition cosF (x : float) : float :=
  let '(r, q) := reduceF x in
  let s := r * horner sin_coeffs (r * r) in
  let c := horner cos_coeffs (r * r) in
  match q with 0%Z => c | 1%Z => - s | 2%Z => - c | _ => s end.

Fixpoint atan_inv (n : nat) (k s : float) : list float :=
  match n with O => [] | S m => s / k :: atan_inv m (k + 2) (- s) end.
Definition atan_coeffs : list float := Eval vm_compute in atan_inv 14 1 1.

(** Arctangent: the reciprocal above 1, then the half-angle formula twice. *)
Definition atan01 (x : float) : float :=
  let h y := y / (1 + sqrt (1 + y * y)) in
  let y := h (h x) in
  4 * (y * horner atan_coeffs (y * y)).
Definition atanF (x : float) : float :=
  if ltb 1 x then piF / 2 - atan01 (1 / x)
  else if ltb x (-1) then - (piF / 2 - atan01 (1 / - x))
  else atan01 x.

Definition asinF (x : float) : float :=
  if ltb 1 (abs x) then nan else atanF (x / sqrt (1 - x * x)).

Definition atan2F (y x : float) : float :=
  if ltb 0 x then atanF (y / x)
  else if ltb x 0 then (if leb 0 y then atanF (y / x) + piF else atanF (y / x) - piF)
  else if ltb 0 y then piF / 2 else if ltb y 0 then - (piF / 2) else 0.

Definition truncF (x : float) : option Z :=
  match Prim2SF x with
  | S754_zero _ => Some 0%Z
  | S754_finite s m e => let v := Z.shiftl (Zpos m) e in Some (if s then - v else v)%Z
  | _ => None
  end.

Definition powF (x y : float) : float :=
  if ltb 0 x then expF (y * lnF x)
  else if eqb x 0 then (if eqb y 0 then 1 else if ltb 0 y then 0 else infinity)
  else match truncF y with
       | Some n => if eqb y (if ltb y 0 then - of_uint63 (to_int y) else of_uint63 (to_int y))
                   then let v := expF (y * lnF (- x)) in if Z.odd n then - v else v
                   else nan
       | None => nan
       end.

Definition FA : Arith := {|
  Arith.car := float;
  Arith.lit := litF;
  Arith.add := PrimFloat.add; Arith.sub := PrimFloat.sub; Arith.mul := PrimFloat.mul; Arith.div := PrimFloat.div; Arith.opp := PrimFloat.opp;
  Arith.absv := PrimFloat.abs; Arith.expf := expF; Arith.lnf := lnF;
  Arith.log10f := fun x => lnF x / 0x1.26bb1bbb55516p+1;
  Arith.sqrtf := PrimFloat.sqrt; Arith.sinf := sinF; Arith.cosf := cosF; Arith.tanf := fun x => sinF x / cosF x; Arith.asinf := asinF;
  Arith.atan2f := atan2F; Arith.powf := powF; Arith.pif := piF;
  Arith.ltb := PrimFloat.ltb; Arith.leb := PrimFloat.leb; Arith.eqb := PrimFloat.eqb;
  Arith.trunc := truncF
|}.
