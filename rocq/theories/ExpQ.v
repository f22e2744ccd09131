(** Rational enclosures of [exp], [ln] and [Rpower], computed by the kernel and proved correct. *)

From Coq Require Import ZArith Reals Lra Lia.
From Verif Require Import RealAux.
Local Open Scope R_scope.

(** ** Lower bound in fixed point with 160 binary digits: ((1 + y/2^k)^2)^2... rounded down at every step. *)

Definition scaleZ : Z := (2 ^ 160)%Z.
Lemma scaleZ_pos : (0 < scaleZ)%Z. Proof. reflexivity. Qed.
Definition scale : R := IZR scaleZ.
Lemma scale_pos : 0 < scale. Proof. apply (IZR_lt 0), scaleZ_pos. Qed.
Definition steps : nat := 64.
Definition stepsZ : Z := (2 ^ 64)%Z.
Lemma stepsZ_pos : (0 < stepsZ)%Z. Proof. reflexivity. Qed.
Lemma stepsZ_R : IZR stepsZ = 2 ^ steps.
Proof. unfold stepsZ, steps. rewrite pow_IZR. f_equal. Qed.

Fixpoint sq_iter (k : nat) (n : Z) : Z := match k with O => n | S k' => sq_iter k' ((n * n) / scaleZ)%Z end.
Definition exp_lo (a : Z) (b : positive) : Z := sq_iter steps (scaleZ + (a * scaleZ) / (Zpos b * stepsZ))%Z.

Lemma sq_iter_ok k : forall n z, (0 <= n)%Z -> IZR n / scale <= exp z -> (0 <= sq_iter k n)%Z /\ IZR (sq_iter k n) / scale <= exp (2 ^ k * z).
Proof.
  assert (Hs := scale_pos). induction k as [|k IH]; intros n z Hn H; cbn [sq_iter].
  - split; [auto|]. replace (2 ^ 0 * z) with z by (cbn; ring). auto.
  - assert (D : ((n * n) / scaleZ * scaleZ <= n * n)%Z) by (rewrite Z.mul_comm; apply Z.mul_div_le, scaleZ_pos).
    assert (P : (0 <= (n * n) / scaleZ)%Z) by (apply Z.div_pos; [nia|apply scaleZ_pos]).
    apply IZR_le in D. rewrite !mult_IZR in D. fold scale in D. assert (Hn' := IZR_le _ _ Hn).
    replace (2 ^ S k * z) with (2 ^ k * (2 * z)) by (cbn; ring). apply IH; [auto|].
    replace (2 * z) with (z + z) by ring. rewrite exp_plus.
    assert (E0 : 0 <= IZR n / scale) by (apply Rmult_le_pos; [lra|left; apply Rinv_0_lt_compat; auto]).
    apply Rle_trans with ((IZR n / scale) * (IZR n / scale)); [|apply Rmult_le_compat; auto].
    apply Rmult_le_reg_r with (scale * scale); [nra|].
    replace (IZR (n * n / scaleZ) / scale * (scale * scale)) with (IZR (n * n / scaleZ) * scale) by (field; lra).
    replace (IZR n / scale * (IZR n / scale) * (scale * scale)) with (IZR n * IZR n) by (field; lra). auto.
Qed.

Lemma exp_lo_ok a b : (- (Zpos b * stepsZ) <= a)%Z -> IZR (exp_lo a b) / scale <= exp (IZR a / IZR (Zpos b)).
Proof.
  intros Ha. unfold exp_lo. set (B := (Zpos b * stepsZ)%Z). fold B in Ha.
  assert (HB : (0 < B)%Z) by (unfold B; apply Z.mul_pos_pos; [reflexivity|apply stepsZ_pos]). assert (HB' := IZR_lt _ _ HB). assert (Hs := scale_pos).
  set (q := (a * scaleZ / B)%Z).
  assert (Q1 : (B * q <= a * scaleZ)%Z) by (apply Z.mul_div_le; auto).
  assert (Q0 : (- scaleZ <= q)%Z).
  { unfold q. apply Z.div_le_lower_bound; [auto|]. assert (Hz := scaleZ_pos). nia. }
  assert (HP : 0 < IZR (Zpos b)) by (apply (IZR_lt 0); reflexivity). assert (HS := IZR_lt _ _ stepsZ_pos).
  replace (IZR a / IZR (Zpos b)) with (2 ^ steps * (IZR a / IZR B)) by (unfold B; rewrite mult_IZR, <- stepsZ_R; field; lra).
  apply sq_iter_ok; [lia|].
  apply Rle_trans with (1 + IZR a / IZR B); [|apply exp_ge_1_add].
  rewrite plus_IZR. fold scale. apply IZR_le in Q1. rewrite !mult_IZR in Q1. fold scale in Q1.
  apply Rmult_le_reg_r with (scale * IZR B); [nra|].
  replace ((scale + IZR q) / scale * (scale * IZR B)) with (scale * IZR B + IZR B * IZR q) by (field; lra).
  replace ((1 + IZR a / IZR B) * (scale * IZR B)) with (scale * IZR B + IZR a * scale) by (field; lra). lra.
Qed.

(** ** Checks on fractions *)

(** [c/d <= exp (a/b)] and [exp (a/b) <= c/d]. *)
Definition exp_ge_check (a : Z) (b : positive) (c : Z) (d : positive) : bool :=
  ((- (Zpos b * stepsZ) <=? a) && (c * scaleZ <=? Zpos d * exp_lo a b))%Z%bool.
Definition exp_le_check (a : Z) (b : positive) (c : Z) (d : positive) : bool :=
  ((- (Zpos b * stepsZ) <=? - a) && (0 <? c) && (Zpos d * scaleZ <=? c * exp_lo (- a) b))%Z%bool.

Lemma exp_ge a b c d : exp_ge_check a b c d = true -> IZR c / IZR (Zpos d) <= exp (IZR a / IZR (Zpos b)).
Proof.
  intros H. apply andb_prop in H. destruct H as [H1 H2]. apply Z.leb_le in H1, H2.
  apply Rle_trans with (IZR (exp_lo a b) / scale); [|apply exp_lo_ok; auto]. generalize dependent (exp_lo a b). intros E H2.
  apply IZR_le in H2. rewrite !mult_IZR in H2. fold scale in H2. assert (Hs := scale_pos). assert (Hd : 0 < IZR (Zpos d)) by (apply (IZR_lt 0); reflexivity).
  apply Rmult_le_reg_r with (IZR (Zpos d) * scale); [nra|].
  replace (IZR c / IZR (Zpos d) * (IZR (Zpos d) * scale)) with (IZR c * scale) by (field; lra).
  replace (IZR E / scale * (IZR (Zpos d) * scale)) with (IZR (Zpos d) * IZR E) by (field; lra). auto.
Qed.
Lemma exp_le_frac a b c d : exp_le_check a b c d = true -> exp (IZR a / IZR (Zpos b)) <= IZR c / IZR (Zpos d).
Proof.
  intros H. apply andb_prop in H. destruct H as [H H2]. apply andb_prop in H. destruct H as [H1 H0].
  apply Z.leb_le in H1, H2. apply Z.ltb_lt in H0. assert (H0' := IZR_lt _ _ H0).
  assert (L := exp_lo_ok (- a) b H1). generalize dependent (exp_lo (- a) b). intros m H2 L. apply IZR_le in H2. rewrite !mult_IZR in H2. fold scale in H2.
  assert (Hs := scale_pos). assert (Hd : 0 < IZR (Zpos d)) by (apply (IZR_lt 0); reflexivity). assert (Hb : 0 < IZR (Zpos b)) by (apply (IZR_lt 0); reflexivity).
  rewrite opp_IZR in L. replace (- IZR a / IZR (Zpos b)) with (- (IZR a / IZR (Zpos b))) in L by (field; lra). rewrite exp_Ropp in L.
  assert (E := exp_pos (IZR a / IZR (Zpos b))). set (e := exp (IZR a / IZR (Zpos b))) in *. clearbody e.
  assert (L2 : IZR m * e <= scale).
  { apply Rmult_le_reg_r with (/ scale * / e); [apply Rmult_lt_0_compat; apply Rinv_0_lt_compat; auto|].
    replace (IZR m * e * (/ scale * / e)) with (IZR m / scale) by (field; lra).
    replace (scale * (/ scale * / e)) with (/ e) by (field; lra). auto. }
  apply Rmult_le_reg_r with (IZR (Zpos d)); [auto|]. replace (IZR c / IZR (Zpos d) * IZR (Zpos d)) with (IZR c) by (field; lra).
  apply Rmult_le_reg_r with scale; [auto|]. nra.
Qed.

(** ** Logarithms: [l <= ln x] when [exp l <= x]. *)
Lemma ln_ge_of x l : 0 < x -> exp l <= x -> l <= ln x.
Proof. intros Hx H. rewrite <- (ln_exp l). apply ln_le; [apply exp_pos|auto]. Qed.
Lemma ln_le_of x l : 0 < x -> x <= exp l -> ln x <= l.
Proof. intros Hx H. rewrite <- (ln_exp l). apply ln_le; auto. Qed.

Example exp_example : 2.718281828459 <= exp 1 <= 2.71828182846.
Proof.
  split.
  - replace 1 with (1 / 1) by lra. apply (exp_ge 1 1 2718281828459 1000000000000). vm_compute. reflexivity.
  - replace 1 with (1 / 1) by lra. apply (exp_le_frac 1 1 271828182846 100000000000). vm_compute. reflexivity.
Qed.

(** [a/b <= ln (c/d) <= a'/b], checked as [exp (a/b) <= c/d <= exp (a'/b)]. *)
Lemma ln_frac a a' b c d : exp_le_check a b c d = true -> exp_ge_check a' b c d = true -> (0 < c)%Z ->
  IZR a / IZR (Zpos b) <= ln (IZR c / IZR (Zpos d)) <= IZR a' / IZR (Zpos b).
Proof.
  intros H1 H2 Hc. apply exp_le_frac in H1. apply exp_ge in H2.
  assert (P : 0 < IZR c / IZR (Zpos d)).
  { apply Rmult_lt_0_compat; [apply (IZR_lt 0); auto|]. apply Rinv_0_lt_compat. apply (IZR_lt 0). reflexivity. }
  split; [apply ln_ge_of; auto|apply ln_le_of; auto].
Qed.
