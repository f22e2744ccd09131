(** Claim C61: propagation of uncertainty, over the reals with NaN and infinities. *)

From Coq Require Import ZArith Reals Lra Lia Psatz String List Bool.
From Coquelicot Require Import Coquelicot.
Import ListNotations.
From Verif Require Import Arith PyBase RealAux Uncertainty.
Local Open Scope string_scope.
Open Scope R_scope.

(** Specification: the function meant by each name, and first-order (delta method) variance of a function of two variables
    with standard deviations [sx], [sy] and covariance [c], through its partial derivatives. *)
Definition named (fn : string) (a b : R) : option (R -> R -> R) :=
  if String.eqb fn "aA" then Some (fun x y => a * x)
  else if String.eqb fn "aA+bB" then Some (fun x y => a * x + b * y)
  else if String.eqb fn "aA-bB" then Some (fun x y => a * x - b * y)
  else if String.eqb fn "A*B" then Some (fun x y => x * y)
  else if String.eqb fn "A/B" then Some (fun x y => x / y)
  else if String.eqb fn "A^a" then Some (fun x y => Rpower x a)
  else None.

Definition first_order (f : R -> R -> R) (x y sx sy c var : R) : Prop :=
  exists fx fy, is_derive (fun u => f u y) x fx /\ is_derive (fun v => f x v) y fy /\
    var = fx * fx * (sx * sx) + fy * fy * (sy * sy) + 2 * fx * fy * c.

(** Where the function is smooth and the code's relative form makes sense. *)
Definition regular (fn : string) (x y : R) : Prop :=
  (fn = "A*B" \/ fn = "A/B" -> x <> 0 /\ y <> 0) /\ (fn = "A^a" -> 0 < x).

Lemma radicand u v c sx sy : 0 <= sx -> 0 <= sy -> Rabs c <= sx * sy ->
  0 <= u * u * (sx * sx) + v * v * (sy * sy) + 2 * u * v * c.
Proof.
  intros Hx Hy Hc. apply Rabs_le_between in Hc. destruct Hc as [H1 H2].
  destruct (Rle_dec 0 (u * v)) as [Hs|Hs].
  - assert (0 <= (u * sx - v * sy) * (u * sx - v * sy)) by apply Rle_0_sqr.
    assert (u * v * (- (sx * sy)) <= u * v * c) by (apply Rmult_le_compat_l; lra). nra.
  - assert (0 <= (u * sx + v * sy) * (u * sx + v * sy)) by apply Rle_0_sqr.
    assert (- (u * v) * c <= - (u * v) * (sx * sy)) by (apply Rmult_le_compat_l; lra). nra.
Qed.

Lemma xsqrt_fin r : 0 <= r -> xsqrt (Fin r) = Fin (sqrt r).
Proof. intros H. unfold xsqrt. destruct (Rle_dec 0 r); [reflexivity|contradiction]. Qed.

Lemma xdiv_fin u v : v <> 0 -> xdiv (Fin u) (Fin v) = Fin (u / v).
Proof. intros H. unfold xdiv. destruct (Req_EM_T v 0); [contradiction|reflexivity]. Qed.

Lemma trunc_nn x j : IZR j <= x < IZR j + 1 -> 0 <= x -> Rtrunc x = j.
Proof.
  intros H Hx. unfold Rtrunc. destruct (Rle_dec 0 x); [|contradiction]. destruct (base_Int_part x) as [B1 B2].
  set (i := Int_part x) in *. clearbody i. assert (IZR i < IZR (j + 1)) by (rewrite plus_IZR; lra). assert (IZR j < IZR (i + 1)) by (rewrite plus_IZR; lra).
  apply lt_IZR in H0, H1. lia.
Qed.

Ltac pick := cbn [String.eqb Ascii.eqb Bool.eqb].

(** Claim C61: for every function name the code knows, the returned value is the function and the returned uncertainty is a
    non-negative real whose square is the first-order variance. *)
Theorem C61_first_order : forall fn f x y sx sy a b c,
  named fn a b = Some f -> regular fn x y -> 0 <= sx -> 0 <= sy -> Rabs c <= sx * sy ->
  exists s, uncertainty_propagation (A:=XA) fn (Fin x) (Fin y) (Fin sx) (Fin sy) (Fin a) (Fin b) (Fin c)
              = Ok (Fin (f x y), Fin s) /\ 0 <= s /\ first_order f x y sx sy c (s * s).
Proof.
  intros fn f x y sx sy a b c Hn [Hr Hp] Hx Hy Hc. unfold named in Hn. unfold uncertainty_propagation.
  destruct (String.eqb fn "aA") eqn:E1.
  { injection Hn as <-. exists (Rabs a * sx). split; [reflexivity|]. split; [apply Rmult_le_pos; [apply Rabs_pos|auto]|].
    exists a, 0. split; [auto_derive; auto; ring|]. split; [auto_derive; auto; ring|].
    replace (Rabs a * sx * (Rabs a * sx)) with (Rabs a * Rabs a * (sx * sx)) by ring. rewrite <- Rabs_mult, Rabs_pos_eq by (apply Rle_0_sqr). ring. }
  destruct (String.eqb fn "aA+bB") eqn:E2.
  { injection Hn as <-. pose proof (radicand a b c sx sy Hx Hy Hc) as HR.
    exists (sqrt (a * a * (sx * sx) + b * b * (sy * sy) + 2 * a * b * c)). split.
    { do 2 f_equal. unfold powi. xa. rewrite xsqrt_fin; [do 2 f_equal; lra|]. replace (2 / 1) with 2 by lra. exact HR. }
    split; [apply sqrt_pos|]. exists a, b. split; [auto_derive; auto; ring|]. split; [auto_derive; auto; ring|].
    rewrite sqrt_sqrt by auto. ring. }
  destruct (String.eqb fn "aA-bB") eqn:E3.
  { injection Hn as <-. pose proof (radicand a (- b) c sx sy Hx Hy Hc) as HR.
    exists (sqrt (a * a * (sx * sx) + - b * - b * (sy * sy) + 2 * a * - b * c)). split.
    { do 2 f_equal. unfold powi. xa. rewrite xsqrt_fin; [do 2 f_equal; field|]. match goal with |- 0 <= ?t => replace t with (a * a * (sx * sx) + - b * - b * (sy * sy) + 2 * a * - b * c) by field end. exact HR. }
    split; [apply sqrt_pos|]. exists a, (- b). split; [auto_derive; auto; ring|]. split; [auto_derive; auto; ring|].
    rewrite sqrt_sqrt by auto. ring. }
  destruct (String.eqb fn "A*B") eqn:E4.
  { injection Hn as <-. apply String.eqb_eq in E4. destruct (Hr (or_introl E4)) as [Nx Ny].
    pose proof (radicand (/ x) (/ y) c sx sy Hx Hy Hc) as HR. set (r := / x * / x * (sx * sx) + / y * / y * (sy * sy) + 2 * / x * / y * c) in *.
    assert (Nxy : x * y <> 0) by (apply Rmult_integral_contrapositive; auto).
    exists (Rabs (x * y) * sqrt r). split.
    { do 2 f_equal. unfold powi. xa. rewrite !xdiv_fin by auto. xa.
      match goal with |- context [xsqrt (Fin ?t)] => replace t with r by (unfold r; field; auto) end.
      rewrite xsqrt_fin by auto. reflexivity. }
    split; [apply Rmult_le_pos; [apply Rabs_pos|apply sqrt_pos]|].
    exists y, x. split; [auto_derive; auto; ring|]. split; [auto_derive; auto; ring|].
    replace (Rabs (x * y) * sqrt r * (Rabs (x * y) * sqrt r)) with (Rabs (x * y) * Rabs (x * y) * (sqrt r * sqrt r)) by ring.
    rewrite sqrt_sqrt by auto. rewrite <- Rabs_mult, Rabs_pos_eq by apply Rle_0_sqr. unfold r. field. auto. }
  destruct (String.eqb fn "A/B") eqn:E5.
  { injection Hn as <-. apply String.eqb_eq in E5. destruct (Hr (or_intror E5)) as [Nx Ny].
    pose proof (radicand (/ x) (- / y) c sx sy Hx Hy Hc) as HR. set (r := / x * / x * (sx * sx) + - / y * - / y * (sy * sy) + 2 * / x * - / y * c) in *.
    assert (Nxy : x * y <> 0) by (apply Rmult_integral_contrapositive; auto).
    exists (Rabs (x / y) * sqrt r). split.
    { do 2 f_equal; unfold powi; xa; rewrite ?xdiv_fin by auto; [reflexivity|]. xa.
      match goal with |- context [xsqrt (Fin ?t)] => replace t with r by (unfold r; field; auto) end.
      rewrite xsqrt_fin by auto. reflexivity. }
    split; [apply Rmult_le_pos; [apply Rabs_pos|apply sqrt_pos]|].
    exists (/ y), (- x / (y * y)). split; [auto_derive; auto; field; auto|]. split; [auto_derive; auto; field; auto|].
    replace (Rabs (x / y) * sqrt r * (Rabs (x / y) * sqrt r)) with (Rabs (x / y) * Rabs (x / y) * (sqrt r * sqrt r)) by ring.
    rewrite sqrt_sqrt by auto. rewrite <- Rabs_mult, Rabs_pos_eq by apply Rle_0_sqr. unfold r. field. auto. }
  destruct (String.eqb fn "A^a") eqn:E6; [|discriminate].
  injection Hn as <-. apply String.eqb_eq in E6. specialize (Hp E6). pose proof (exp_pos ((a - 1) * ln x)) as HE.
  exists (Rabs a * Rpower x (a - 1) * sx). split.
  { do 2 f_equal; xa; unfold xpow; (destruct (Rlt_dec 0 x); [|contradiction]); [reflexivity|]. xa. replace (a + - (1 / 1)) with (a - 1) by field. reflexivity. }
  split. { apply Rmult_le_pos; auto. apply Rmult_le_pos; [apply Rabs_pos|]. unfold Rpower. lra. }
  exists (a * Rpower x (a - 1)), 0. split.
  { replace (a * Rpower x (a - 1)) with (a * / x * exp (a * ln x)).
    - unfold Rpower. auto_derive; auto. ring.
    - unfold Rpower. replace (a * ln x) with ((a - 1) * ln x + ln x) by ring. rewrite exp_plus, exp_ln by auto. field. lra. }
  split; [auto_derive; auto|].
  set (q := Rpower x (a - 1)). replace (Rabs a * q * sx * (Rabs a * q * sx)) with (Rabs a * Rabs a * (q * sx * (q * sx))) by ring.
  rewrite <- Rabs_mult, Rabs_pos_eq by apply Rle_0_sqr. ring.
Qed.

(** Claim C61: any other name raises, whatever the arithmetic. *)
Theorem C61_unknown_name : forall (A : Arith) fn (x y sx sy a b c : car A),
  named fn 0 0 = None -> uncertainty_propagation fn x y sx sy a b c = Err ValueError.
Proof.
  intros A fn x y sx sy a b c H. unfold named in H. unfold uncertainty_propagation.
  repeat (match goal with |- context [String.eqb fn ?s] => destruct (String.eqb fn s); [discriminate|] end). reflexivity.
Qed.

(** The claim fails for powers of negative quantities: the uncertainty of A^2 at A = -2 is negative. *)
Theorem C61_power_refuted : exists fn x y sx sy a b c, fn = "A^a" /\ 0 <= sx /\ 0 <= sy /\ Rabs c <= sx * sy /\
  exists v s, uncertainty_propagation (A:=XA) fn (Fin x) (Fin y) (Fin sx) (Fin sy) (Fin a) (Fin b) (Fin c) = Ok (Fin v, Fin s) /\ s < 0.
Proof.
  exists "A^a", (-2), 1, 1, 0, 2, 1, 0. split; [reflexivity|]. split; [lra|]. split; [lra|]. split; [rewrite Rabs_R0; lra|].
  exists 4, (-4). split; [|lra]. unfold uncertainty_propagation. pick. xa. unfold xpow.
  destruct (Rlt_dec 0 (-2)); [lra|]. destruct (Req_EM_T (-2) 0); [lra|].
  assert (T2 : Rtrunc 2 = 2%Z) by (apply trunc_nn; lra).
  assert (T1 : Rtrunc (2 - 1 / 1) = 1%Z) by (apply trunc_nn; lra).
  xa. unfold Rminus in T1. rewrite T1, T2.
  destruct (Req_EM_T 2 2); [|lra]. match goal with |- context [Req_EM_T ?u 1] => destruct (Req_EM_T u 1); [|lra] end.
  cbn [powerRZ Pos.to_nat Pos.iter_op Nat.add pow]. xa. rewrite (Rabs_pos_eq 2) by lra. 
  change (Pos.to_nat 2) with 2%nat; change (Pos.to_nat 1) with 1%nat; cbn [pow].  match goal with |- Ok (Fin ?a, Fin ?b) = _ => replace a with 4 by lra; replace b with (-4) by lra end. reflexivity.
Qed.

(** ... and for products with a zero factor the uncertainty is NaN although the first-order variance is defined. *)
Theorem C61_zero_factor_refuted : exists x y sx sy c var, 0 <= sx /\ 0 <= sy /\ Rabs c <= sx * sy /\
  first_order (fun u v => u * v) x y sx sy c var /\ 0 < var /\
  uncertainty_propagation (A:=XA) "A*B" (Fin x) (Fin y) (Fin sx) (Fin sy) (Fin 1) (Fin 1) (Fin c) = Ok (Fin (x * y), NaN).
Proof.
  exists 0, 1, 1, 0, 0, 1. split; [lra|]. split; [lra|]. split; [rewrite Rabs_R0; lra|]. split.
  { exists 1, 0. split; [auto_derive; auto; ring|]. split; [auto_derive; auto; ring|]. ring. }
  split; [lra|]. unfold uncertainty_propagation. pick. do 2 f_equal. unfold powi. xa. rewrite (xdiv_fin 0 1) by lra.
  replace (xdiv (Fin 1) (Fin 0)) with PInf by (unfold xdiv, xsgn_inf; destruct (Req_EM_T 0 0); [|lra]; destruct (Rlt_dec 0 1); [reflexivity|lra]).
  replace (xdiv (Fin (2 / 1 * 0)) (Fin (0 * 1))) with NaN.
  2:{ unfold xdiv, xsgn_inf. destruct (Req_EM_T (0 * 1) 0); [|lra]. destruct (Rlt_dec 0 (2 / 1 * 0)); [lra|]. destruct (Rlt_dec (2 / 1 * 0) 0); [lra|reflexivity]. }
  xa. unfold xsqrt. reflexivity.
Qed.

Example C61_example : named "A/B" 1 1 <> None /\ regular "A/B" 3 (-2) /\ Rabs (1/2) <= 1 * (3/4) /\ named "a A" 1 1 = None.
Proof. repeat split; try discriminate; try lra; try reflexivity. rewrite Rabs_pos_eq; lra. Qed.
