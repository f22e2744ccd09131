(** Analysis of the rational approximation behind the speed-dependent line shapes: on the part of the complex plane the
    absorption models visit, the shape is the inverse of (width + i offset) up to half of the speed-dependent width. *)

From Coq Require Import ZArith Reals Lra Lia Psatz List.
Import ListNotations.
From Coquelicot Require Import Complex.
Open Scope R_scope.

(** ** A polynomial of degree five in the sector [Re x^2 >= -0.131 |x|^2] *)

Definition nr (u v : R) : R :=
  1226/10 + 1354/10 * u + 7735/100 * (u^2 - v^2) + 2624/100 * (u^3 - 3*u*v^2) + 524/100 * (u^4 - 6*u^2*v^2 + v^4)
  + 1/2 * (u^5 - 10*u^3*v^2 + 5*u*v^4).
Definition ni (u v : R) : R :=
  1354/10 * v + 7735/100 * (2*u*v) + 2624/100 * (3*u^2*v - v^3) + 524/100 * (4*u^3*v - 4*u*v^3)
  + 1/2 * (5*u^4*v - 10*u^2*v^3 + v^5).

Definition evn (q t : R) : R :=
  (1226/10)^2 + (1354/10)^2*q + (7735/100)^2*q^2 + (2624/100)^2*q^3 + (524/100)^2*q^4 + (1/2)^2*q^5
  + 2*((1226/10)*(7735/100)*t + (1226/10)*(524/100)*(2*t^2 - q^2) + (1354/10)*(2624/100)*q*t + (1354/10)*(1/2)*q*(2*t^2-q^2)
       + (7735/100)*(524/100)*q^2*t + (2624/100)*(1/2)*q^3*t).
Definition odd (q t : R) : R :=
  2*((1226/10)*(1354/10) + (1354/10)*(7735/100)*q + (7735/100)*(2624/100)*q^2 + (2624/100)*(524/100)*q^3 + (524/100)*(1/2)*q^4
     + (1226/10)*(2624/100)*(2*t-q) + (1354/10)*(524/100)*q*(2*t-q) + (7735/100)*(1/2)*q^2*(2*t-q)
     + (1226/10)*(1/2)*(4*t^2 - 2*q*t - q^2)).

Lemma modulus_split u v : (nr u v)^2 + (ni u v)^2 = evn (u^2 + v^2) (u^2 - v^2) + u * odd (u^2 + v^2) (u^2 - v^2).
Proof. unfold nr, ni, evn, odd. field. Qed.

Definition bound (r : R) : R := 2453/10 + 536/10 * r + 20 * r^2 + 87/100 * r^3 + 304/1000 * r^4.

Lemma evn_low q t : 0 <= q -> - (131/1000) * q <= t -> 15030 + 15840*q + 3750*q^2 + 440*q^3 + 20*q^4 <= evn q t.
Proof.
  intros Hq Ht. unfold evn.
  assert (P2 : 0 <= q^2) by nra. assert (P3 : 0 <= q^3) by (apply pow_le; auto). assert (P4 : 0 <= q^4) by (apply pow_le; auto). assert (P5 : 0 <= q^5) by (apply pow_le; auto).
  assert (T2 : 0 <= t^2) by nra. assert (Q1 : - (131/1000) * q^2 <= q * t) by nra.
  assert (Q2 : - (131/1000) * q^3 <= q^2 * t) by (replace (q^3) with (q^2*q) by ring; nra).
  assert (Q3 : - (131/1000) * q^4 <= q^3 * t) by (replace (q^4) with (q^3*q) by ring; nra).
  assert (QT : 0 <= q * t^2) by (apply Rmult_le_pos; auto).
  replace (q * (2 * t^2 - q^2)) with (2 * (q*t^2) - q^3) by ring.
  lra.
Qed.

Lemma odd_low q t : 0 <= q -> - (131/1000) * q <= t -> 33190 + 12790*q + 2100*q^2 + 170*q^3 <= odd q t.
Proof.
  intros Hq Ht. unfold odd.
  assert (P2 : 0 <= q^2) by nra. assert (P3 : 0 <= q^3) by (apply pow_le; auto). assert (P4 : 0 <= q^4) by (apply pow_le; auto).
  assert (Q1 : - (131/1000) * q^2 <= q * t) by nra.
  assert (Q2 : - (131/1000) * q^3 <= q^2 * t) by (replace (q^3) with (q^2*q) by ring; nra).
  assert (S : - (5/4) * q^2 <= 4 * t^2 - 2*q*t - q^2) by (assert (X := Rle_0_sqr (2*t - q/2)); unfold Rsqr in X; nra).
  replace (q * (2*t - q)) with (2 * (q*t) - q^2) by ring.
  replace (q^2 * (2*t - q)) with (2 * (q^2*t) - q^3) by ring.
  nra.
Qed.

Lemma bound_poly r : 173/100 <= r ->
  (bound r)^2 <= 15030 + 15840*r^2 + 3750*(r^2)^2 + 440*(r^2)^3 + 20*(r^2)^4 + 655/1000 * r * (33190 + 12790*r^2 + 2100*(r^2)^2 + 170*(r^2)^3).
Proof.
  intros H. unfold bound. set (s := r - 173/100). assert (Hs : 0 <= s) by (unfold s; lra). replace r with (173/100 + s) by (unfold s; ring). clearbody s. clear r H.
  assert (P2 : 0 <= s^2) by (apply pow_le; auto). assert (P3 : 0 <= s^3) by (apply pow_le; auto). assert (P4 : 0 <= s^4) by (apply pow_le; auto).
  assert (P5 : 0 <= s^5) by (apply pow_le; auto). assert (P6 : 0 <= s^6) by (apply pow_le; auto). assert (P7 : 0 <= s^7) by (apply pow_le; auto). assert (P8 : 0 <= s^8) by (apply pow_le; auto).
  apply Rminus_le.
  match goal with |- ?x <= 0 => ring_simplify x end. lra.
Qed.

Lemma sector u v r : 0 <= u -> 0 <= r -> r^2 = u^2 + v^2 -> - (131/1000) * r^2 <= u^2 - v^2 -> 3 <= r^2 -> (bound r)^2 <= (nr u v)^2 + (ni u v)^2.
Proof.
  intros Hu Hr E T H3. rewrite modulus_split, <- E. set (t := u^2 - v^2) in *.
  assert (Q0 : 0 <= r^2) by lra.
  assert (L1 := evn_low (r^2) t Q0 T). assert (L2 := odd_low (r^2) t Q0 T).
  assert (R1 : 173/100 <= r) by nra. assert (B := bound_poly r R1).
  assert (U : 655/1000 * r <= u).
  { apply Rsqr_incr_0; [|lra|auto]. unfold Rsqr. assert (X : u^2 = (r^2 + t)/2) by (unfold t; lra). nra. }
  assert (Z : 0 <= 33190 + 12790*r^2 + 2100*(r^2)^2 + 170*(r^2)^3).
  { assert (0 <= (r^2)^2) by nra. assert (0 <= (r^2)^3) by (apply pow_le; auto). lra. }
  set (o := 33190 + 12790*r^2 + 2100*(r^2)^2 + 170*(r^2)^3) in *.
  assert (655/1000 * r * o <= u * odd (r^2) t) by (apply Rmult_le_compat; lra).
  lra.
Qed.

(** ** Polynomials with real coefficients at a complex point *)

Fixpoint pev (cs : list R) (x : C) : C := match cs with [] => RtoC 0 | c :: r => (pev r x * x + RtoC c)%C end.
Fixpoint padd (a b : list R) : list R :=
  match a, b with [], _ => b | _, [] => a | x :: a', y :: b' => (x + y) :: padd a' b' end.
Definition pscale (k : R) (a : list R) : list R := map (Rmult k) a.
Fixpoint rev (cs : list R) (r : R) : R := match cs with [] => 0 | c :: t => rev t r * r + c end.

Lemma pev_add a b x : pev (padd a b) x = (pev a x + pev b x)%C.
Proof.
  revert b. induction a as [|c a IH]; intros [|d b]; cbn [padd pev]; try ring.
  rewrite IH, RtoC_plus. ring.
Qed.
Lemma pev_scale k a x : pev (pscale k a) x = (RtoC k * pev a x)%C.
Proof. induction a as [|c a IH]; cbn [pscale map pev]; [ring|]. unfold pscale in IH. rewrite IH, RtoC_mult. ring. Qed.
Lemma pev_shift a x : pev (0 :: a) x = (pev a x * x)%C.
Proof. cbn [pev]. ring. Qed.

Lemma pev_mod a b x : Forall2 (fun c d => Rabs c <= d) a b -> Cmod (pev a x) <= rev b (Cmod x).
Proof.
  intros H. induction H as [|c d a b Hc _ IH]; cbn [pev rev]; [rewrite Cmod_0; lra|].
  eapply Rle_trans; [apply Cmod_triangle|]. rewrite Cmod_mult, Cmod_R. apply Rplus_le_compat; auto.
  apply Rmult_le_compat_r; auto. apply Cmod_ge_0.
Qed.

(** ** The rational approximation of utils.py:619-637 *)

Definition sp : R := 177245385090551603 / 100000000000000000.
Definition pa : list R :=
  [122607931777104326/1000000000000000; 214382388694706425/1000000000000000; 181928533092181549/1000000000000000;
   93155580458138441/1000000000000000; 30180142196210589/1000000000000000; 5912626209773153/1000000000000000; 564189583562615/1000000000000000].
Definition qb : list R :=
  [12260793177387535/100000000000000; 352730625110963558/1000000000000000; 457334478783897737/1000000000000000;
   348703917719495792/1000000000000000; 170354001821091472/1000000000000000; 53992906912940207/1000000000000000; 10479857114260399/1000000000000000; 1].
Definition nn : list R := padd qb (pscale (- sp) (0 :: pa)).
Definition mm : list R := padd qb (padd (pscale (-3) nn) (pscale (-2) (0 :: 0 :: nn))).
Definition n5 : list R := [1226/10; 1354/10; 7735/100; 2624/100; 524/100; 1/2].

Lemma nn_eq x : pev nn x = (pev qb x - RtoC sp * x * pev pa x)%C.
Proof. unfold nn. rewrite pev_add, pev_scale, pev_shift, RtoC_opp. ring. Qed.
Lemma mm_eq x : pev qb x = ((2 * (x * x) + 3) * pev nn x + pev mm x)%C.
Proof.
  unfold mm. rewrite !pev_add, !pev_scale, !pev_shift.
  replace (RtoC (-3)) with (- RtoC 3)%C by (rewrite <- RtoC_opp; f_equal; lra). replace (RtoC (-2)) with (- RtoC 2)%C by (rewrite <- RtoC_opp; f_equal; lra). ring.
Qed.

Lemma pev_step c r u v a b : pev r (u, v) = (a, b) -> pev (c :: r) (u, v) = (a*u - b*v + c, a*v + b*u).
Proof. intros H. cbn [pev]. rewrite H. unfold Cmult, Cplus, RtoC. cbn [fst snd]. f_equal; ring. Qed.

Lemma n5_eq x : pev n5 x = (nr (fst x) (snd x), ni (fst x) (snd x)).
Proof.
  destruct x as [u v]. cbn [fst snd]. unfold n5. erewrite pev_step; [|apply pev_step; apply pev_step; apply pev_step; apply pev_step; apply pev_step; reflexivity].
  unfold nr, ni. f_equal; field.
Qed.

Ltac coef := repeat (apply Forall2_cons; [apply Rabs_le; lra|]); apply Forall2_nil.

Lemma mm_mod x : Cmod (pev mm x) <= rev [24522/100; 5352/100; 1994/100; 856/1000; 693/10000; 494/100000; 212/1000000; 47/10000000; 4/100000000; 53/1000000000000] (Cmod x).
Proof. apply pev_mod. unfold mm, nn, qb, pa, sp, pscale. cbn [padd map]. coef. Qed.

Lemma nn_mod x : Cmod (pev nn x - pev n5 x)%C <= rev [8/1000; 138/10000; 16/10000; 4/1000; 36/1000000; 24/10000000; 2/100000000; 27/1000000000000] (Cmod x).
Proof.
  replace (pev nn x - pev n5 x)%C with (pev (padd nn (pscale (-1) n5)) x) by (rewrite pev_add, pev_scale; replace (RtoC (-1)) with (- RtoC 1)%C by (rewrite <- RtoC_opp; f_equal; lra); ring).
  apply pev_mod. unfold nn, n5, qb, pa, sp, pscale. cbn [padd map]. coef.
Qed.

Lemma mod_sq (x : C) : (Cmod x)^2 = (fst x)^2 + (snd x)^2.
Proof. unfold Cmod. cbn [pow]. rewrite !Rmult_1_r. apply sqrt_sqrt. nra. Qed.

(** Where the approximation is used: outside the unit disc, inside a disc of radius 20, in a sector slightly wider than a quarter plane. *)
Definition region (x : C) : Prop :=
  0 <= fst x /\ 3 <= (Cmod x)^2 /\ Cmod x <= 20 /\ - (131/1000) * (Cmod x)^2 <= (fst x)^2 - (snd x)^2.

Lemma mm_nn x : region x -> 0 < Cmod (pev nn x) /\ Cmod (pev mm x) <= Cmod (pev nn x).
Proof.
  intros (Hu & H3 & H20 & Ht). assert (H0 := Cmod_ge_0 x). assert (M := mm_mod x). assert (N := nn_mod x).
  assert (B : bound (Cmod x) <= Cmod (pev n5 x)).
  { apply Rsqr_incr_0_var; [|apply Cmod_ge_0]. rewrite !Rsqr_pow2, mod_sq, n5_eq. cbn [fst snd]. apply sector; auto. apply mod_sq. }
  assert (T : Cmod (pev n5 x) <= Cmod (pev nn x) + Cmod (pev nn x - pev n5 x)%C).
  { rewrite <- (Cmod_opp (pev nn x - pev n5 x)%C). replace (pev n5 x) with (pev nn x + - (pev nn x - pev n5 x))%C at 1 by ring. apply Cmod_triangle. }
  assert (M0 := Cmod_ge_0 (pev mm x)). set (r := Cmod x) in *. clearbody r.
  assert (K : rev [24522/100; 5352/100; 1994/100; 856/1000; 693/10000; 494/100000; 212/1000000; 47/10000000; 4/100000000; 53/1000000000000] r
    + rev [8/1000; 138/10000; 16/10000; 4/1000; 36/1000000; 24/10000000; 2/100000000; 27/1000000000000] r + 1/100 <= bound r).
  { unfold bound. cbn [rev].
    assert (P2 : 0 <= r^2) by (apply pow_le; auto). assert (P3 : 0 <= r^3) by (apply pow_le; auto). assert (P4 : 0 <= r^4) by (apply pow_le; auto).
    assert (P5 : 0 <= r^5 <= 20 * r^4) by (split; [apply pow_le; auto|replace (r^5) with (r * r^4) by ring; apply Rmult_le_compat_r; auto]).
    assert (P6 : 0 <= r^6 <= 20 * r^5) by (split; [apply pow_le; auto|replace (r^6) with (r * r^5) by ring; apply Rmult_le_compat_r; tauto]).
    assert (P7 : 0 <= r^7 <= 20 * r^6) by (split; [apply pow_le; auto|replace (r^7) with (r * r^6) by ring; apply Rmult_le_compat_r; tauto]).
    assert (P8 : 0 <= r^8 <= 20 * r^7) by (split; [apply pow_le; auto|replace (r^8) with (r * r^7) by ring; apply Rmult_le_compat_r; tauto]).
    assert (P9 : 0 <= r^9 <= 20 * r^8) by (split; [apply pow_le; auto|replace (r^9) with (r * r^8) by ring; apply Rmult_le_compat_r; tauto]).
    apply Rminus_le. match goal with |- ?x <= 0 => ring_simplify x end. lra. }
  lra.
Qed.

(** ** The shape *)

Lemma quarter : RtoC 2 <> RtoC 0. Proof. intros H. apply (f_equal fst) in H. cbn in H. lra. Qed.
Lemma nz_mod (z : C) : 0 < Cmod z -> z <> RtoC 0.
Proof. intros H E. rewrite E, Cmod_0 in H. lra. Qed.

(** [w] = width2 - i delta2, [x] = the square root taken by the code. *)
Lemma shape_inverse (w x y : C) : region x -> Cmod w <= Cmod y -> 0 < Cmod w -> (w * (x * x + RtoC (3/2)))%C = y ->
  exists z : C, Cmod z <= Cmod w / 2 /\ 0 < Cmod (y + z)%C /\ 0 < Cmod (pev qb x) /\
    (RtoC 2 * (1 - RtoC sp * x * (pev pa x / pev qb x)) / w = 1 / (y + z))%C.
Proof.
  intros Hx Hw W0 Hy. destruct (mm_nn x Hx) as (N0 & MN). assert (NN := nz_mod _ N0). assert (WN := nz_mod _ W0).
  set (z := (w * (pev mm x / (2 * pev nn x)))%C).
  assert (Z : Cmod z <= Cmod w / 2).
  { unfold z. rewrite Cmod_mult, Cmod_div by (apply Cmult_neq_0; [apply quarter|exact NN]). rewrite Cmod_mult, Cmod_R, Rabs_pos_eq by lra.
    unfold Rdiv. apply Rmult_le_compat_l; [lra|]. apply (Rmult_le_reg_r (2 * Cmod (pev nn x))); [lra|]. rewrite Rmult_assoc, Rinv_l by lra. lra. }
  assert (S : 0 < Cmod (y + z)%C).
  { assert (T : Cmod y <= Cmod (y + z)%C + Cmod z). { rewrite <- (Cmod_opp z). replace y with ((y + z) + - z)%C at 1 by ring. apply Cmod_triangle. } lra. }
  assert (SN := nz_mod _ S).
  assert (E : (w * pev qb x = 2 * pev nn x * (y + z))%C).
  { unfold z. rewrite <- Hy. rewrite mm_eq. replace (RtoC (3/2)) with (3 / 2)%C by (rewrite <- RtoC_div by lra; reflexivity).
    field. split; [exact NN|apply quarter]. }
  assert (Q0 : 0 < Cmod (pev qb x)).
  { assert (E2 := f_equal Cmod E). rewrite !Cmod_mult, Cmod_R, Rabs_pos_eq in E2 by lra.
    assert (0 < 2 * Cmod (pev nn x) * Cmod (y + z)%C) by (apply Rmult_lt_0_compat; lra). assert (G := Cmod_ge_0 (pev qb x)). nra. }
  assert (QN := nz_mod _ Q0).
  exists z. repeat (split; [assumption|]).
  replace (1 - RtoC sp * x * (pev pa x / pev qb x))%C with (pev nn x / pev qb x)%C by (rewrite nn_eq; field; exact QN).
  assert (E3 : (pev nn x = w * pev qb x / (2 * (y + z)))%C) by (rewrite E; field; split; [exact SN|apply quarter]).
  rewrite E3. field. repeat split; auto. apply quarter.
Qed.
