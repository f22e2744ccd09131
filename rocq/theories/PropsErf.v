(** Claim C83: the rational approximation of the complex error function. *)

From Coq Require Import ZArith Reals Lra Lia List Bool.
Import ListNotations.
From Verif Require Import Arith PyBase Utils Spec RealAux.
Open Scope R_scope.

(** ** C83 *)

(** The symmetry w(-x + iy) = conj (w(x + iy)) of the Faddeeva function holds for the approximation. *)
Lemma cpx_eq (x y : cpx RA) : re x = re y -> im x = im y -> x = y.
Proof. destruct x, y. cbn. intros -> ->. reflexivity. Qed.
Lemma conj_add x y : c_conj (c_add x y) = c_add (A:=RA) (c_conj x) (c_conj y).
Proof. apply cpx_eq; cbn; ra; lra. Qed.
Lemma conj_sub x y : c_conj (c_sub x y) = c_sub (A:=RA) (c_conj x) (c_conj y).
Proof. apply cpx_eq; cbn; ra; lra. Qed.
Lemma conj_mul x y : c_conj (c_mul x y) = c_mul (A:=RA) (c_conj x) (c_conj y).
Proof. apply cpx_eq; cbn; ra; ring. Qed.
Lemma conj_of (r : R) : c_conj (A:=RA) (c_of (A:=RA) r) = c_of (A:=RA) r.
Proof. apply cpx_eq; cbn; ra; lra. Qed.
Lemma conj_div x y : c_conj (c_div x y) = c_div (A:=RA) (c_conj x) (c_conj y).
Proof.
  apply cpx_eq; unfold c_div, c_conj; cbn; ra.
  - f_equal; [ring|]. unfold c_norm2. cbn. ra. ring.
  - unfold c_norm2. cbn. ra. replace (- im y * - im y) with (im y * im y) by ring. unfold Rdiv. ring.
Qed.
Lemma conj_scale (k : R) x : c_conj (A:=RA) (c_scale (A:=RA) k x) = c_scale (A:=RA) k (c_conj x).
Proof. apply cpx_eq; cbn; ra; lra. Qed.
Lemma conj_horner l cs z : c_conj (horner (A:=RA) l cs z) = horner (A:=RA) (c_conj l) cs (c_conj z).
Proof.
  induction cs as [|c cs IH]; [reflexivity|]. cbn [horner]. rewrite conj_add, conj_mul, IH, conj_of. reflexivity.
Qed.

Lemma dcerr_w_conj (x y : R) : dcerr_w (A:=RA) (- x) y = c_conj (dcerr_w (A:=RA) x y).
Proof.
  unfold dcerr_w. rewrite conj_div, !conj_horner, !conj_of. f_equal; f_equal; apply cpx_eq; cbn; ra; lra.
Qed.

(** The function approximated is w(z) = exp(-z^2) erfc(-iz), with w(-conj z) = conj (w z) and
    w(z) + w(-z) = 2 exp(-z^2). *)
Definition z2neg (x y : R) : cpx RA := mkC (A:=RA) (y * y - x * x) (- (2 * x * y)).   (* - (x+iy)^2 *)
Lemma z2neg_eq x y : c_opp (A:=RA) (c_mul (A:=RA) (mkC (A:=RA) x y) (mkC (A:=RA) x y)) = z2neg x y.
Proof. apply cpx_eq; cbn; ra; ring. Qed.

Theorem C83_conjugation (x y : R) : dcerror (A:=RA) (- x) y = c_conj (dcerror (A:=RA) x y).
Proof.
  unfold dcerror. cbn zeta. rewrite dcerr_w_conj. destruct (leb (a:=RA) _ y); [reflexivity|].
  rewrite conj_sub, conj_scale. f_equal. f_equal. rewrite !z2neg_eq. apply cpx_eq; cbn; ra.
  - f_equal; [f_equal; ring|]. replace (- (2 * - x * y)) with (- - (2 * x * y)) by ring. rewrite cos_neg. reflexivity.
  - replace (- (2 * - x * y)) with (- - (2 * x * y)) by ring. rewrite sin_neg.
    replace (- x * - x) with (x * x) by ring. ring.
Qed.

(** In the lower half plane the result misses a conjugation: the continuation formula holds only where the
    approximation of w(conj z) is real.  The defect is exactly twice its imaginary part. *)
Theorem C83_lower_half_plane_refuted (x y : R) : y < 0 ->
  c_add (A:=RA) (dcerror (A:=RA) x y) (dcerror (A:=RA) (- x) (- y))
  = c_sub (A:=RA) (c_scale (A:=RA) 2 (c_exp (A:=RA) (z2neg x y))) (mkC (A:=RA) 0 (2 * im (dcerror (A:=RA) x (- y)))).
Proof.
  intros Hy. assert (E1 : leb (a:=RA) (lit (a:=RA) 0) y = false) by (ra; apply Rleb_false; lra).
  assert (E2 : leb (a:=RA) (lit (a:=RA) 0) (- y) = true) by (ra; apply Rleb_true; lra).
  unfold dcerror. cbn zeta. rewrite E1, E2, z2neg_eq, dcerr_w_conj.
  assert (Ew : dcerr_w (A:=RA) x y = dcerr_w (A:=RA) x (- y)).
  { unfold dcerr_w. cbn [absv RA]. rewrite Rabs_Ropp. reflexivity. }
  rewrite Ew. generalize (dcerr_w (A:=RA) x (- y)). intros w. apply cpx_eq; cbn; ra; lra.
Qed.

(** The defect is not 0: at z = 1 - i the imaginary part of the approximation of w(1 + i) is positive. *)
Lemma horner_11 (c : R) cs l a b : horner (A:=RA) l cs (mkC (A:=RA) 1 (- (1))) = mkC (A:=RA) a b ->
  horner (A:=RA) l (c :: cs) (mkC (A:=RA) 1 (- (1))) = mkC (A:=RA) (a + b + c) (b - a).
Proof. intros H. cbn [horner]. rewrite H. apply cpx_eq; cbn; ra; lra. Qed.
Lemma horner_11n (c : R) cs l a b a' b' : horner (A:=RA) l cs (mkC (A:=RA) 1 (- (1))) = mkC (A:=RA) a b ->
  a + b + c = a' -> b - a = b' -> horner (A:=RA) l (c :: cs) (mkC (A:=RA) 1 (- (1))) = mkC (A:=RA) a' b'.
Proof. intros H <- <-. apply horner_11. auto. Qed.

Lemma asum_11 : horner (A:=RA) (c_of (A:=RA) (lit (a:=RA) 0.564189583562615)) (firstn 6 (dcerr_a (A:=RA))) (mkC (A:=RA) 1 (- (1)))
  = mkC (A:=RA) (6308085931598901 / 1000000000000000) (- (736386594287752873 / 1000000000000000)).
Proof.
  unfold dcerr_a. cbn [firstn].
  eapply (horner_11n _ _ _ (77510843555280931 / 250000000000000) (- (426343220066629149 / 1000000000000000))); [|ra; lra|ra; lra].
  eapply (horner_11n _ _ _ (32625262849565403 / 125000000000000) (- (6613644690804237 / 40000000000000))); [|ra; lra|ra; lra].
  eapply (horner_11n _ _ _ (611036717436119 / 5000000000000) (- (345070190263057 / 8000000000000))); [|ra; lra|ra; lra].
  eapply (horner_11n _ _ _ (18046384202991871 / 500000000000000) (- (7041005376898383 / 1000000000000000))); [|ra; lra|ra; lra].
  eapply (horner_11n _ _ _ (809601974166971 / 125000000000000) (- (112837916712523 / 200000000000000))); [|ra; lra|ra; lra].
  eapply (horner_11n _ _ _ (112837916712523 / 200000000000000) (0 / 1)); [|ra; lra|ra; lra].
  cbn [horner]. apply cpx_eq; cbn; ra; lra.
Qed.
Lemma bsum_11 : horner (A:=RA) (c_of (A:=RA) (lit (a:=RA) 1)) (dcerr_b (A:=RA)) (mkC (A:=RA) 1 (- (1)))
  = mkC (A:=RA) (- (34733028546571231 / 31250000000000)) (- (414249233387976649 / 250000000000000)).
Proof.
  unfold dcerr_b.
  eapply (horner_11n _ _ _ (211466044143875927 / 1000000000000000) (- (1445530889408030669 / 1000000000000000))); [|ra; lra|ra; lra].
  eapply (horner_11n _ _ _ (652133154220471519 / 1000000000000000) (- (15867954703751183 / 20000000000000))); [|ra; lra|ra; lra].
  eapply (horner_11n _ _ _ (247049102656033233 / 500000000000000) (- (74824882468873171 / 250000000000000))); [|ra; lra|ra; lra].
  eapply (horner_11n _ _ _ (222346908734031679 / 1000000000000000) (- (15390524228292201 / 200000000000000))); [|ra; lra|ra; lra].
  eapply (horner_11n _ _ _ (32236382013600303 / 500000000000000) (- (12479857114260399 / 1000000000000000))); [|ra; lra|ra; lra].
  eapply (horner_11n _ _ _ (11479857114260399 / 1000000000000000) (- (1 / 1))); [|ra; lra|ra; lra].
  eapply (horner_11n _ _ _ (1 / 1) (0 / 1)); [|ra; lra|ra; lra].
  cbn [horner]. apply cpx_eq; cbn; ra; lra.
Qed.

Example C83_example_nonzero : 0 < im (dcerror (A:=RA) 1 (- (-1))).
Proof.
  replace (- (-1)) with 1 by lra.
  assert (E1 : leb (a:=RA) (lit (a:=RA) 0) 1 = true) by (ra; apply Rleb_true; lra).
  unfold dcerror. cbn zeta. rewrite E1. unfold dcerr_w.
  replace (mkC (A:=RA) (absv (a:=RA) 1) (opp (a:=RA) 1)) with (mkC (A:=RA) 1 (- (1))) by (cbn [absv opp RA]; rewrite Rabs_R1; reflexivity).
  rewrite asum_11, bsum_11. unfold c_div, c_norm2. cbn [im re]. ra.
  apply Rdiv_lt_0_compat; lra.
Qed.
