(** Machine arithmetic: every operation returns the exact result times [1 + d] with [|d| <= u].

    This is the "standard model" of floating-point arithmetic that Python's floats obey as long as nothing
    overflows or underflows.  The record [machine] holds a rounding function for the basic operations and the
    literals, and the exponential and the logarithm of the mathematical library; the other elementary functions
    are the rounded exact ones.  Simplification: overflow, underflow, the sign of zero and NaN are left out,
    and negation, absolute value and comparisons are exact (as they are in binary64). *)

From Coq Require Import ZArith Reals Lra Lia List Bool.
Import ListNotations.
From Verif Require Import Arith RealAux.
Open Scope R_scope.

Record machine := mkMachine {
  m_u : R;             (* bound on the relative error of one operation *)
  m_rnd : R -> R;      (* rounding *)
  m_exp : R -> R;      (* the library's exp *)
  m_ln : R -> R        (* the library's log *)
}.

Lemma Rabs_def2_le x a : Rabs x <= a -> - a <= x <= a.
Proof. intros H. unfold Rabs in H. destruct (Rcase_abs x); lra. Qed.

Record machine_ok (m : machine) : Prop := mkMachineOk {
  ok_u : 0 <= m_u m <= / 2 ^ 50;
  ok_rnd : forall x, Rabs (m_rnd m x - x) <= m_u m * Rabs x;
  ok_one : m_rnd m 1 = 1;
  ok_exp : forall x, Rabs (m_exp m x - exp x) <= m_u m * exp x;
  ok_exp1 : forall x, x <= 0 -> m_exp m x <= 1;
  ok_ln : forall x, 0 < x -> Rabs (m_ln m x - ln x) <= m_u m * Rabs (ln x)
}.

(** The instance: the same operations as [RA], each followed by a rounding. *)
Definition MA (m : machine) : Arith := {|
  car := R;
  lit := fun d => m_rnd m (litR d);
  add := fun x y => m_rnd m (x + y); sub := fun x y => m_rnd m (x - y);
  mul := fun x y => m_rnd m (x * y); div := fun x y => m_rnd m (x / y);
  opp := Ropp; absv := Rabs; expf := m_exp m; lnf := m_ln m;
  log10f := fun x => m_rnd m (ln x / ln 10);
  sqrtf := fun x => m_rnd m (R_sqrt.sqrt x); sinf := fun x => m_rnd m (sin x);
  cosf := fun x => m_rnd m (cos x); tanf := fun x => m_rnd m (tan x);
  asinf := fun x => m_rnd m (asin x);
  atan2f := fun x y => m_rnd m (Ratan2 x y); powf := fun x y => m_rnd m (Rpowf x y);
  pif := m_rnd m PI;
  ltb := Rltb; leb := Rleb; eqb := Reqb;
  trunc := fun x => Some (Rtrunc x)
|}.

(** ** Relative closeness

    [near v c x' x]: the two non-negative numbers differ by a factor of at most [exp (c v)]. *)

Definition near (v c x' x : R) : Prop := x <= exp (c * v) * x' /\ x' <= exp (c * v) * x.

(** [apx v c s x' x]: the same up to an absolute error [s]. *)
Definition apx (v c s x' x : R) : Prop := x - s <= exp (c * v) * x' /\ x' <= exp (c * v) * (x + s).

Section Calculus.
Context (v : R) (Hv : 0 <= v).

Lemma expc_ge1 c : 0 <= c -> 1 <= exp (c * v).
Proof. intros. rewrite <- exp_0. apply exp_le. nra. Qed.

Lemma near_refl c x : 0 <= c -> 0 <= x -> near v c x x.
Proof. intros. assert (H1 := expc_ge1 c H). split; nra. Qed.

Lemma near_mono c d x' x : c <= d -> 0 <= x -> 0 <= x' -> near v c x' x -> near v d x' x.
Proof.
  intros Hcd Hx Hx' [H1 H2]. assert (exp (c * v) <= exp (d * v)) by (apply exp_le; nra). split; nra.
Qed.

Lemma near_trans c d x'' x' x : near v c x'' x' -> near v d x' x -> near v (c + d) x'' x.
Proof.
  intros [H1 H2] [H3 H4]. unfold near. rewrite Rmult_plus_distr_r, exp_plus.
  assert (0 < exp (c * v)) by apply exp_pos. assert (0 < exp (d * v)) by apply exp_pos. split.
  - eapply Rle_trans; [exact H3|]. rewrite (Rmult_comm (exp (c * v))), Rmult_assoc. apply Rmult_le_compat_l; lra.
  - eapply Rle_trans; [exact H2|]. rewrite Rmult_assoc. apply Rmult_le_compat_l; lra.
Qed.

Lemma near_mul c d x' x y' y : 0 <= x -> 0 <= x' -> 0 <= y -> 0 <= y' ->
  near v c x' x -> near v d y' y -> near v (c + d) (x' * y') (x * y).
Proof.
  intros ? ? ? ? [H1 H2] [H3 H4]. unfold near. rewrite Rmult_plus_distr_r, exp_plus.
  split.
  - replace (exp (c * v) * exp (d * v) * (x' * y')) with ((exp (c * v) * x') * (exp (d * v) * y')) by ring.
    apply Rmult_le_compat; auto.
  - replace (exp (c * v) * exp (d * v) * (x * y)) with ((exp (c * v) * x) * (exp (d * v) * y)) by ring.
    apply Rmult_le_compat; auto.
Qed.

Lemma near_inv c x' x : 0 < x -> 0 < x' -> near v c x' x -> near v c (/ x') (/ x).
Proof.
  intros Hx Hx' [H1 H2]. assert (He : 0 < exp (c * v)) by apply exp_pos. split.
  - apply Rmult_le_reg_r with x; auto. rewrite Rinv_l by lra.
    apply Rmult_le_reg_r with x'; auto.
    replace (exp (c * v) * / x' * x * x') with (exp (c * v) * x) by (field; lra). lra.
  - apply Rmult_le_reg_r with x'; auto. rewrite Rinv_l by lra.
    apply Rmult_le_reg_r with x; auto.
    replace (exp (c * v) * / x * x' * x) with (exp (c * v) * x') by (field; lra). lra.
Qed.

Lemma near_div c d x' x y' y : 0 <= x -> 0 <= x' -> 0 < y -> 0 < y' ->
  near v c x' x -> near v d y' y -> near v (c + d) (x' / y') (x / y).
Proof.
  intros. unfold Rdiv. apply near_mul; auto.
  - left; apply Rinv_0_lt_compat; auto.
  - left; apply Rinv_0_lt_compat; auto.
  - apply near_inv; auto.
Qed.

Lemma near_add c x' x y' y : near v c x' x -> near v c y' y -> near v c (x' + y') (x + y).
Proof. intros [] []. split; nra. Qed.

Lemma near_pos c x' x : 0 < x -> near v c x' x -> 0 < x'.
Proof.
  intros Hx [H1 H2]. assert (He : 0 < exp (c * v)) by apply exp_pos.
  destruct (Rlt_le_dec 0 x'); auto. nra.
Qed.

(** The exponential of a negative number known up to a relative error. *)
Lemma exp_m1_le y : 0 <= y -> exp y - 1 <= y * exp y.
Proof.
  intros. assert (1 + - y <= exp (- y)) by (apply exp_ineq1_le).
  assert (exp y * exp (- y) = 1) by (rewrite <- exp_plus, Rplus_opp_r; apply exp_0).
  assert (0 < exp y) by apply exp_pos. nra.
Qed.

Lemma exp_m1_2 y : 0 <= y -> y <= / 2 -> exp y - 1 <= 2 * y.
Proof.
  intros H0 H1. assert (H := exp_m1_le y H0).
  assert (exp y <= 2).
  { apply Rle_trans with (exp (/2)); [apply exp_le; lra|].
    assert (H' := exp_m1_le (/2) ltac:(lra)). lra. }
  assert (y * exp y <= y * 2) by (apply Rmult_le_compat_l; auto). lra.
Qed.

Lemma near_exp c x' x L : 0 <= c -> c * v <= / 2 -> 0 <= x <= L -> near v c x' x ->
  near v (2 * c * L) (exp x') (exp x) /\ near v (2 * c * L) (exp (- x')) (exp (- x)).
Proof.
  intros Hc Hcv [Hx HL] [H1 H2].
  replace (2 * c * L) with (2 * L * c) by ring. unfold near. rewrite !(Rmult_assoc (2 * L) c v).
  set (y := c * v) in *. assert (Hy0 : 0 <= y) by (apply Rmult_le_pos; auto).
  assert (He : exp y - 1 <= 2 * y) by (apply exp_m1_2; auto).
  assert (HyL : x * y <= L * y) by (apply Rmult_le_compat_r; auto).
  assert (Hup : x' - x <= 2 * L * y).
  { assert (x * (exp y - 1) <= x * (2 * y)) by (apply Rmult_le_compat_l; auto). lra. }
  assert (Hlo : x - x' <= 2 * L * y).
  { assert (1 + - y <= exp (- y)) by apply exp_ineq1_le.
    assert (E : exp (- y) * exp y = 1) by (rewrite <- exp_plus, Rplus_opp_l; apply exp_0).
    assert (Hp : 0 < exp (- y)) by apply exp_pos.
    assert (exp (- y) * x <= x').
    { apply Rle_trans with (exp (- y) * (exp y * x')); [apply Rmult_le_compat_l; lra|].
      rewrite <- Rmult_assoc, E. lra. }
    assert ((1 + - y) * x <= exp (- y) * x) by (apply Rmult_le_compat_r; auto). lra. }
  split; split; rewrite <- exp_plus; apply exp_le; lra.
Qed.

(** ** Closeness up to an absolute error *)

Lemma near_apx c x' x : near v c x' x -> apx v c 0 x' x.
Proof. intros []. split; lra. Qed.

Lemma apx_mono c d s r x' x : c <= d -> s <= r -> 0 <= x + s -> 0 <= x' -> apx v c s x' x -> apx v d r x' x.
Proof.
  intros Hcd Hsr Hx Hx' [H1 H2]. assert (Hle : exp (c * v) <= exp (d * v)) by (apply exp_le; nra).
  assert (0 < exp (c * v)) by apply exp_pos. split; [nra|].
  eapply Rle_trans; [exact H2|]. apply Rmult_le_compat; lra.
Qed.

Lemma apx_add c s r x' x y' y : apx v c s x' x -> apx v c r y' y -> apx v c (s + r) (x' + y') (x + y).
Proof. intros [] []. split; nra. Qed.

(** Product with a factor known up to a relative error. *)
Lemma apx_mul c d s x' x y' y : 0 <= x -> 0 <= x' -> 0 <= y' -> 0 <= s -> 0 <= y -> 0 <= c -> 0 <= d ->
  near v c x' x -> apx v d s y' y -> apx v (c + d) (x * s) (x' * y') (x * y).
Proof.
  intros Hx Hx' Hy' Hs Hy Hc Hd [H1 H2] [H3 H4]. unfold apx. rewrite Rmult_plus_distr_r, exp_plus.
  assert (0 < exp (c * v)) by apply exp_pos. assert (0 < exp (d * v)) by apply exp_pos. split.
  - replace (exp (c * v) * exp (d * v) * (x' * y')) with ((exp (c * v) * x') * (exp (d * v) * y')) by ring.
    replace (x * y - x * s) with (x * (y - s)) by ring.
    destruct (Rle_lt_dec 0 (y - s)).
    + apply Rmult_le_compat; auto.
    + apply Rle_trans with 0; [nra|]. apply Rmult_le_pos; apply Rmult_le_pos; lra.
  - replace (exp (c * v) * exp (d * v) * (x * y + x * s)) with ((exp (c * v) * x) * (exp (d * v) * (y + s))) by ring.
    apply Rmult_le_compat; auto.
Qed.

Lemma near_apx_trans c d s x'' x' x : near v c x'' x' -> apx v d s x' x -> apx v (c + d) s x'' x.
Proof.
  intros [H1 H2] [H3 H4]. unfold apx. rewrite Rmult_plus_distr_r, exp_plus.
  assert (0 < exp (c * v)) by apply exp_pos. assert (0 < exp (d * v)) by apply exp_pos. split.
  - eapply Rle_trans; [exact H3|]. rewrite (Rmult_comm (exp (c * v))), Rmult_assoc. apply Rmult_le_compat_l; lra.
  - eapply Rle_trans; [exact H2|]. rewrite Rmult_assoc. apply Rmult_le_compat_l; lra.
Qed.

(** An absolute error small against the value is a relative one. *)
Lemma apx_near c k x' x s : 0 < x -> 0 <= s -> s <= k * v * x -> 0 <= k -> k * v <= / 2 ->
  apx v c s x' x -> near v (c + 2 * k) x' x.
Proof.
  intros Hx Hs Hk Hk0 Hkv [H1 H2]. unfold near. rewrite Rmult_plus_distr_r, exp_plus.
  assert (He : 0 < exp (c * v)) by apply exp_pos. set (y := k * v) in *.
  replace (2 * k * v) with (2 * y) by (unfold y; ring).
  assert (Hy0 : 0 <= y) by (unfold y; nra).
  assert (G1 : 1 + 2 * y <= exp (2 * y)) by apply exp_ineq1_le.
  assert (G2 : 1 <= (1 - y) * exp (2 * y)).
  { assert (1 + 2 * y <= exp (2 * y)) by lra. nra. }
  split.
  - assert (x * (1 - y) <= exp (c * v) * x') by nra.
    assert (0 < exp (2 * y)) by apply exp_pos.
    apply Rle_trans with (x * (1 - y) * exp (2 * y)); [nra|].
    replace (exp (c * v) * exp (2 * y) * x') with (exp (c * v) * x' * exp (2 * y)) by ring.
    apply Rmult_le_compat_r; lra.
  - eapply Rle_trans; [exact H2|]. rewrite Rmult_assoc. apply Rmult_le_compat_l; [lra|]. nra.
Qed.

(** From relative closeness to a bound on the difference. *)
Lemma near_diff c x' x : 0 <= c -> c * v <= / 2 -> 0 <= x -> near v c x' x -> Rabs (x' - x) <= 2 * (c * v) * x.
Proof.
  intros Hc Hcv Hx [H1 H2]. set (y := c * v) in *. assert (Hy0 : 0 <= y) by (apply Rmult_le_pos; auto).
  assert (He : exp y - 1 <= 2 * y) by (apply exp_m1_2; auto).
  assert (1 + - y <= exp (- y)) by apply exp_ineq1_le.
  assert (E : exp (- y) * exp y = 1) by (rewrite <- exp_plus, Rplus_opp_l; apply exp_0).
  assert (Hp : 0 < exp (- y)) by apply exp_pos.
  assert (exp (- y) * x <= x').
  { apply Rle_trans with (exp (- y) * (exp y * x')); [apply Rmult_le_compat_l; lra|].
    rewrite <- Rmult_assoc, E. lra. }
  assert ((1 + - y) * x <= exp (- y) * x) by (apply Rmult_le_compat_r; auto).
  assert (x * (exp y - 1) <= x * (2 * y)) by (apply Rmult_le_compat_l; auto).
  assert (0 <= y * x) by (apply Rmult_le_pos; auto).
  apply Rabs_le. split; lra.
Qed.

End Calculus.

(** ** One operation of a machine *)

Section Ops.
Context (m : machine) (Hm : machine_ok m).

Definition vof (m : machine) : R := - ln (1 - m_u m).
Notation v := (vof m).

Lemma u_small : 0 <= m_u m <= / 2 ^ 50 /\ / 2 ^ 50 <= / 1024.
Proof. split; [apply ok_u; auto|]. apply Rinv_le_contravar; simpl; lra. Qed.

Lemma exp_v : exp (- v) = 1 - m_u m.
Proof. unfold vof. rewrite Ropp_involutive. apply exp_ln. assert (H := u_small). lra. Qed.

Lemma v_u : m_u m <= v <= 2 * m_u m.
Proof.
  assert (H := u_small). assert (E := exp_v). split.
  - assert (1 + - v <= exp (- v)) by apply exp_ineq1_le. lra.
  - unfold vof. assert (Hl : - (2 * m_u m) <= ln (1 - m_u m)); [|lra].
    rewrite <- (ln_exp (- (2 * m_u m))). destruct (Req_dec (m_u m) 0) as [Z|Z].
    { rewrite Z, Rmult_0_r, Ropp_0, exp_0, Rminus_0_r. lra. }
    apply ln_le; [apply exp_pos|].
    assert (1 + 2 * m_u m <= exp (2 * m_u m)) by apply exp_ineq1_le.
    assert (E2 : exp (- (2 * m_u m)) * exp (2 * m_u m) = 1) by (rewrite <- exp_plus, Rplus_opp_l; apply exp_0).
    assert (0 < exp (- (2 * m_u m))) by apply exp_pos. nra.
Qed.

Lemma v_nonneg : 0 <= v.
Proof. assert (H := v_u). assert (H' := u_small). lra. Qed.

Lemma v_tiny : v <= 2 * / 2 ^ 50.
Proof. assert (H := v_u). assert (H' := u_small). lra. Qed.

Lemma rel_near x' x : 0 <= x -> Rabs (x' - x) <= m_u m * x -> near v 1 x' x.
Proof.
  intros Hx H. assert (Hu := u_small). assert (E := exp_v).
  apply Rabs_def2_le in H. unfold near. rewrite Rmult_1_l.
  assert (Ei : exp v * (1 - m_u m) = 1) by (rewrite <- E, <- exp_plus, Rplus_opp_r; apply exp_0).
  assert (Hp := exp_pos v). split; [nra|].
  assert (1 + m_u m <= exp v) by nra. nra.
Qed.

Lemma rnd_near x : 0 <= x -> near v 1 (m_rnd m x) x.
Proof. intros Hx. apply rel_near; auto. assert (H := ok_rnd m Hm x). rewrite (Rabs_pos_eq x) in H; auto. Qed.

Lemma rnd_nonneg x : 0 <= x -> 0 <= m_rnd m x.
Proof.
  intros Hx. assert (H := ok_rnd m Hm x). rewrite (Rabs_pos_eq x) in H by auto. assert (Hu := u_small).
  apply Rabs_def2_le in H. nra.
Qed.

Lemma rnd_pos x : 0 < x -> 0 < m_rnd m x.
Proof.
  intros Hx. assert (H := ok_rnd m Hm x). rewrite (Rabs_pos_eq x) in H by lra. assert (Hu := u_small).
  apply Rabs_def2_le in H. nra.
Qed.

Lemma rnd_0 : m_rnd m 0 = 0.
Proof. assert (H := ok_rnd m Hm 0). rewrite Rabs_R0, Rmult_0_r, Rminus_0_r in H.
  assert (H' := Rabs_pos (m_rnd m 0)). destruct (Req_dec (m_rnd m 0) 0) as [|N]; auto.
  apply Rabs_pos_lt in N. lra.
Qed.

Lemma exp_near x : near v 1 (m_exp m x) (exp x).
Proof. apply rel_near; [left; apply exp_pos|apply ok_exp; auto]. Qed.

Lemma mexp_pos x : 0 < m_exp m x.
Proof. apply (near_pos v 1 (m_exp m x) (exp x)); [apply exp_pos|apply exp_near]. Qed.

(** Rounding after a computation. *)
Lemma near_rnd c x' x : 0 <= x' -> near v c x' x -> near v (1 + c) (m_rnd m x') x.
Proof. intros. apply near_trans with x'; auto. apply rnd_near; auto. Qed.

Lemma apx_rnd c s x' x : 0 <= x' -> apx v c s x' x -> apx v (1 + c) s (m_rnd m x') x.
Proof. intros. apply near_apx_trans with x'; auto. apply rnd_near; auto. Qed.

End Ops.
