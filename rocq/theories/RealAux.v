(** Reasoning helpers for the instances [RA] and [XA]. *)

From Coq Require Import ZArith Reals Lra Lia List Bool.
Import ListNotations.
From Verif Require Import Arith PyBase Spec.
Open Scope R_scope.

(** Expose the real operations. *)
Ltac ra := cbn [car lit add sub mul div opp absv expf lnf log10f sqrtf sinf cosf tanf asinf atan2f
                powf pif ltb leb eqb trunc RA litR] in *.
Ltac xa := cbn [car lit add sub mul div opp absv expf lnf log10f sqrtf sinf cosf tanf asinf atan2f
                powf pif ltb leb eqb trunc XA litR xopp xadd xmul xexp xabs xfin1] in *.

Lemma Rltb_true x y : x < y -> Rltb x y = true.
Proof. unfold Rltb; destruct (Rlt_dec x y); auto; contradiction. Qed.
Lemma Rltb_false x y : y <= x -> Rltb x y = false.
Proof. unfold Rltb; destruct (Rlt_dec x y); auto; lra. Qed.
Lemma Rleb_true x y : x <= y -> Rleb x y = true.
Proof. unfold Rleb; destruct (Rle_dec x y); auto; contradiction. Qed.
Lemma Rleb_false x y : y < x -> Rleb x y = false.
Proof. unfold Rleb; destruct (Rle_dec x y); auto; lra. Qed.
Lemma Reqb_true x y : x = y -> Reqb x y = true.
Proof. unfold Reqb; destruct (Req_EM_T x y); auto; contradiction. Qed.
Lemma Reqb_false x y : x <> y -> Reqb x y = false.
Proof. unfold Reqb; destruct (Req_EM_T x y); auto; contradiction. Qed.
Lemma Rltb_spec x y : reflect (x < y) (Rltb x y).
Proof. unfold Rltb; destruct (Rlt_dec x y); constructor; auto. Qed.
Lemma Rleb_spec x y : reflect (x <= y) (Rleb x y).
Proof. unfold Rleb; destruct (Rle_dec x y); constructor; auto. Qed.
Lemma Reqb_spec x y : reflect (x = y) (Reqb x y).
Proof. unfold Reqb; destruct (Req_EM_T x y); constructor; auto. Qed.

Lemma xdiv_fin a b : b <> 0 -> xdiv (Fin a) (Fin b) = Fin (a / b).
Proof. intros H. unfold xdiv. destruct (Req_EM_T b 0); [contradiction|reflexivity]. Qed.
Lemma xln_fin a : 0 < a -> xln (Fin a) = Fin (ln a).
Proof. intros H. unfold xln. destruct (Rlt_dec 0 a); [reflexivity|contradiction]. Qed.
Lemma xpow_fin a b : 0 < a -> xpow (Fin a) (Fin b) = Fin (Rpower a b).
Proof. intros H. unfold xpow. destruct (Rlt_dec 0 a); [reflexivity|contradiction]. Qed.
Lemma xsqrt_fin a : 0 <= a -> xsqrt (Fin a) = Fin (sqrt a).
Proof. intros H. unfold xsqrt. destruct (Rle_dec 0 a); [reflexivity|contradiction]. Qed.
Lemma xsub_fin a b : xadd (Fin a) (xopp (Fin b)) = Fin (a - b).
Proof. reflexivity. Qed.
Lemma Rpowf_pos a b : 0 < a -> Rpowf a b = Rpower a b.
Proof. intros H. unfold Rpowf. destruct (Rlt_dec 0 a); [reflexivity|contradiction]. Qed.

(** ** Finite sums *)

Lemma rsum_ext n f g : (forall i, (i < n)%nat -> f i = g i) -> rsum n f = rsum n g.
Proof. induction n; intros H; simpl; auto. rewrite IHn, H; auto. Qed.

Lemma rsum_add n f g : rsum n (fun i => f i + g i) = rsum n f + rsum n g.
Proof. induction n; simpl; [lra|]. rewrite IHn. lra. Qed.

Lemma rsum_scal n c f : rsum n (fun i => c * f i) = c * rsum n f.
Proof. induction n; simpl; [lra|]. rewrite IHn. lra. Qed.

Lemma rsum_le n f g : (forall i, (i < n)%nat -> f i <= g i) -> rsum n f <= rsum n g.
Proof.
  induction n; intros H; simpl; [lra|].
  assert (H1 := H n ltac:(lia)). assert (rsum n f <= rsum n g) by (apply IHn; intros; apply H; lia). lra.
Qed.

Lemma rsum_nonneg n f : (forall i, (i < n)%nat -> 0 <= f i) -> 0 <= rsum n f.
Proof.
  induction n; intros H; simpl; [lra|].
  assert (H1 := H n ltac:(lia)). assert (0 <= rsum n f) by (apply IHn; intros; apply H; lia). lra.
Qed.

Lemma rsum_telescope n (f : nat -> R) : rsum n (fun i => f i - f (S i)) = f O - f n.
Proof. induction n; simpl; [lra|]. rewrite IHn. lra. Qed.

Lemma rsum_split n m f : rsum (n + m) f = rsum n f + rsum m (fun i => f (n + i)%nat).
Proof.
  induction m; simpl.
  - rewrite Nat.add_0_r. lra.
  - rewrite Nat.add_succ_r. simpl. rewrite IHm. lra.
Qed.

Lemma rsum_zero n f : (forall i, (i < n)%nat -> f i = 0) -> rsum n f = 0.
Proof.
  intros H. rewrite (rsum_ext n f (fun i => 0 * 0)).
  - rewrite rsum_scal. lra.
  - intros i Hi. rewrite H by auto. lra.
Qed.

Lemma rsum_rev n f : rsum n f = rsum n (fun i => f (n - 1 - i)%nat).
Proof.
  induction n; [reflexivity|].
  assert (E : rsum (S n) (fun i => f (S n - 1 - i)%nat)
              = f n + rsum n (fun i => f (n - 1 - i)%nat)).
  { rewrite (rsum_split 1 n). simpl. rewrite Nat.sub_0_r, Nat.sub_0_r. rewrite Rplus_0_l. f_equal.
    apply rsum_ext. intros i Hi. f_equal. lia. }
  rewrite E. simpl. rewrite IHn. lra.
Qed.

(** ** Exponentials *)

Lemma exp_le x y : x <= y -> exp x <= exp y.
Proof. intros [H|H]; [left; apply exp_increasing; auto | right; congruence]. Qed.

Lemma exp_gt1 x : 0 < x -> 1 < exp x.
Proof. intros. rewrite <- exp_0. apply exp_increasing; auto. Qed.

Lemma exp_neg_le1 x : 0 <= x -> exp (- x) <= 1.
Proof. intros. rewrite <- exp_0. apply exp_le. lra. Qed.

Lemma exp_neg_lt1 x : 0 < x -> exp (- x) < 1.
Proof. intros. rewrite <- exp_0. apply exp_increasing. lra. Qed.

Lemma ln_gt0 x : 1 < x -> 0 < ln x.
Proof. intros. rewrite <- ln_1. apply ln_increasing; lra. Qed.

Lemma ln_le_sub1 x : 0 < x -> ln x <= x - 1.
Proof.
  intros H. apply Rnot_lt_le. intros H1.
  apply exp_increasing in H1. rewrite exp_ln in H1 by auto.
  assert (x - 1 + 1 <= exp (x - 1)).
  { destruct (Req_dec (x - 1) 0) as [E|E].
    - rewrite E, exp_0. lra.
    - assert (Hx := exp_ineq1 (x - 1) E). lra. }
  lra.
Qed.

Lemma ln_le x y : 0 < x -> x <= y -> ln x <= ln y.
Proof. intros H [H1|H1]; [left; apply ln_increasing; auto | right; congruence]. Qed.

Lemma ln_ge_1_sub_inv x : 0 < x -> 1 - / x <= ln x.
Proof.
  intros H. assert (Hi : 0 < / x) by (apply Rinv_0_lt_compat; auto).
  assert (Hl := ln_le_sub1 (/ x) Hi). rewrite ln_Rinv in Hl by auto. lra.
Qed.

Lemma exp_ge_1_add x : 1 + x <= exp x.
Proof.
  destruct (Req_dec x 0) as [->|E]; [rewrite exp_0; lra|].
  assert (Hx := exp_ineq1 x E). lra.
Qed.
