
(** Sign of the self continuum of model MWL24 (absorption_model.py:352-410), over the reals. *)

From Coq Require Import ZArith Reals Lra Lia Psatz String List Bool.
Import ListNotations.
From Verif Require Import Arith PyBase Utils Absorption RealAux ExpQ PropsAbsN2.
Open Scope R_scope.

(** ** The second virial coefficient *)

(** The polynomial of lines 383-392, in real numbers. *)
Definition svc (t : R) : R :=
  (-7804242) + 8345651/10^2 * t - 4212794/10^4 * t^2 + 1242946/10^6 * t^3 - 2409822/10^9 * t^4
  + 3017768/10^12 * t^5 - 2518957/10^15 * t^6 + 1350628/10^18 * t^7 - 4134191/10^22 * t^8 + 5530774/10^26 * t^9.

Lemma svc_large t : 100 <= t <= 385 -> 305/10 * t^6 <= - (1000000000000 * svc t).
Proof.
  intros H. set (u := t - 100). set (v := 385 - t). assert (U : 0 <= u) by (unfold u; lra). assert (V : 0 <= v) by (unfold v; lra).
  assert (X : - (1000000000000 * svc t) - 305/10 * t^6 = (4226561588933216/19848318610575178125) * (u^0 * v^9) + (41952419148001624/33080531017625296875) * (u^1 * v^8) + (590196176117531848/165402655088126484375) * (u^2 * v^7) + (5256675685486847606/827013275440632421875) * (u^3 * v^6) + (133085661126747358543/16540265508812648437500) * (u^4 * v^5) + (2501784890437011426661/330805310176252968750000) * (u^5 * v^4) + (1921652000715321357661/367561455751392187500000) * (u^6 * v^3) + (165618669923668430058767/66161062035250593750000000) * (u^7 * v^2) + (3875300899841869787793209/5292884962820047500000000000) * (u^8 * v^1) + (30864358059464809840419881/317573097769202850000000000000) * (u^9 * v^0)).
  { unfold u, v, svc. field. }
  assert (K : forall i j c, 0 <= c -> 0 <= c * (u^i * v^j)).
  { intros i j c C. apply Rmult_le_pos; [exact C|]. apply Rmult_le_pos; apply pow_le; assumption. }
  enough (0 <= - (1000000000000 * svc t) - 305/10 * t^6) by lra. rewrite X. clear X.
  repeat apply Rplus_le_le_0_compat; apply K; lra.
Qed.

Lemma powiR (x : R) n : powi (A:=RA) x n = x^n.
Proof.
  induction n as [|n IH]; [cbn; ra; lra|]. destruct n as [|n]; [cbn; lra|]. change (mul (a:=RA) x (powi (A:=RA) x (S n)) = x ^ S (S n)). rewrite IH. ra. reflexivity.
Qed.

(** The virial coefficient of the code is the polynomial divided by the sixth power of the temperature. *)
Lemma svc_model (t : R) : match b_svc (A:=RA) with c0 :: cs => poly_from (A:=RA) c0 1 cs t | [] => lit (Dec 0 1) end = svc t.
Proof.
  unfold b_svc. cbn [poly_from]. rewrite !powiR. unfold svc. ra. field.
Qed.

Lemma virial_large t : 100 <= t <= 385 -> 305/10 <= svc t * - (100 / t)^6.
Proof.
  intros H. assert (S := svc_large t H). assert (T6 : 0 < t^6) by (apply pow_lt; lra).
  replace (svc t * - (100 / t) ^ 6) with (- (1000000000000 * svc t) / t^6) by (field; lra).
  apply Rmult_le_reg_r with (t^6); [exact T6|]. replace (- (1000000000000 * svc t) / t ^ 6 * t^6) with (- (1000000000000 * svc t)) by (field; lra). exact S.
Qed.

(** ** The equilibrium constant of bound dimers against the dimer spectrum *)

(** [dimer_constant t] is line 397 before the change of units. *)
Definition dimer_constant (t : R) : R := 47856/100000000 * exp (16698/10 / t - 510485/100000000 * t).

Lemma dimer_constant_pos t : 0 < dimer_constant t.
Proof. unfold dimer_constant. apply Rmult_lt_0_compat; [lra|apply exp_pos]. Qed.

Lemma exp_le' x y : x <= y -> exp x <= exp y.
Proof. intros [H| ->]; [left; apply exp_increasing; exact H|lra]. Qed.

Lemma dimer_constant_cold t : 100 <= t -> dimer_constant t <= 5300.
Proof.
  intros H. unfold dimer_constant. assert (A : 16698/10 / t <= 16698/1000).
  { apply Rmult_le_reg_r with t; [lra|]. replace (16698/10 / t * t) with (16698/10) by (field; lra). lra. }
  assert (E : exp (16698/10 / t - 510485/100000000 * t) <= exp (1619/100)) by (apply exp_le'; lra).
  assert (Q2 := exp_le_frac 1619 100 10760000 1 ltac:(vm_compute; reflexivity)). lra.
Qed.

Lemma dimer_constant_warm t : 268 <= t -> dimer_constant t <= 1/10.
Proof.
  intros H. unfold dimer_constant. assert (A : 16698/10 / t <= 624/100).
  { apply Rmult_le_reg_r with t; [lra|]. replace (16698/10 / t * t) with (16698/10) by (field; lra). lra. }
  assert (E : exp (16698/10 / t - 510485/100000000 * t) <= exp (488/100)) by (apply exp_le'; lra).
  assert (Q2 := exp_le_frac 488 100 140 1 ltac:(vm_compute; reflexivity)). lra.
Qed.

Lemma Rpower_mono_both a b x y : 0 < a -> a <= b -> 1 <= b -> 0 <= x -> x <= y -> Rpower a x <= Rpower b y.
Proof.
  intros Ha Hab Hb Hx Hxy. apply Rle_trans with (Rpower b x); [apply Rle_Rpower_l; lra|]. apply Rle_Rpower; lra.
Qed.

(** The contribution of metastable dimers removed with the bound ones stays below the spectrum of the bound dimers. *)
Lemma monomer_small f t : 100 <= t <= 385 -> 0 < f < 1200 ->
  1/10^13 * (406/100 + 712/100000 * f) * (1 / (101325/100)) * Rpower (266 / t) (29/10) * (dimer_constant t / (101325/100)) <= 134/10^16 * Rpower (268 / t) 10.
Proof.
  intros H Hf. assert (P1 := Rpower_pos (266 / t) (29/10)). assert (P2 := Rpower_pos (268 / t) 10). assert (D0 := dimer_constant_pos t).
  set (s := 1/10^13 * (406/100 + 712/100000 * f) * (1 / (101325/100))). assert (S0 : 0 <= s <= 13/10^16) by (unfold s; lra).
  assert (R1 : 266 / t <= 268 / t) by (unfold Rdiv; apply Rmult_le_compat_r; [left; apply Rinv_0_lt_compat|]; lra). assert (R0 : 0 < 266 / t) by (apply div_pos; lra).
  destruct (Rle_or_lt t 268) as [C|C].
  - assert (K := dimer_constant_cold t ltac:(lra)). assert (B1 : 1 <= 268 / t).
    { apply Rmult_le_reg_r with t; [lra|]. replace (268 / t * t) with 268 by (field; lra). lra. }
    assert (M := Rpower_mono_both (266/t) (268/t) (29/10) 10 R0 R1 B1 ltac:(lra) ltac:(lra)).
    set (x := Rpower (266 / t) (29/10)) in *. set (y := Rpower (268/t) 10) in *. set (d := dimer_constant t) in *. clearbody x y d s.
    assert (s * d <= 13/10^16 * 5300) by nra. replace (s * x * (d / (101325/100))) with (s * d * x * (100/101325)) by field. assert (0 <= s * d) by nra. assert (s * d * x <= s * d * y) by nra.
    assert (s * d * y <= 13/10^16 * 5300 * y) by nra. lra.
  - assert (K := dimer_constant_warm t ltac:(lra)). assert (B1 : 266 / t <= 1).
    { apply Rmult_le_reg_r with t; [lra|]. replace (266 / t * t) with 266 by (field; lra). lra. }
    assert (M : Rpower (266 / t) (29/10) <= 1).
    { apply Rle_trans with (Rpower 1 (29/10)); [apply Rle_Rpower_l; lra|]. unfold Rpower. rewrite ln_1, Rmult_0_r, exp_0. lra. }
    assert (Y : 2/100 <= Rpower (268/t) 10).
    { assert (B2 : 69/100 <= 268 / t). { apply Rmult_le_reg_r with t; [lra|]. replace (268 / t * t) with 268 by (field; lra). lra. }
      replace 10 with (INR 10) by (cbn; lra). rewrite Rpower_pow by lra. apply Rle_trans with ((69/100)^10); [lra|]. apply pow_incr. lra. }
    set (x := Rpower (266 / t) (29/10)) in *. set (y := Rpower (268/t) 10) in *. set (d := dimer_constant t) in *. clearbody x y d s.
    assert (0 <= s * d) by nra. assert (s * d <= 13/10^16 * (1/10)) by nra. replace (s * x * (d / (101325/100))) with (s * d * x * (100/101325)) by field. assert (s * d * x <= s * d) by nra. lra.
Qed.

(** ** The self continuum has the sign of an absorption *)
Theorem mwl_self_nonneg f vx : 0 < vx -> 100 <= 300 / vx <= 385 -> 0 < f < 1200 -> 0 <= h2o_continuum_mwl24 (A:=RA) f vx.
Proof.
  intros Hv Ht Hf. unfold h2o_continuum_mwl24. cbv zeta. rewrite svc_model, !powiR. ra. unfold litR.
  set (t := 3000 / 10 / vx). assert (Et : t = 300 / vx) by (unfold t; field; lra). rewrite <- Et in Ht. clearbody t.
  rewrite !Rpowf_pos by (try apply div_pos; lra).
  assert (V := virial_large t Ht). assert (M := monomer_small f t Ht Hf).
  replace (2680 / 10 / t) with (268 / t) by (field; lra). replace (2660 / 10 / t) with (266 / t) by (field; lra). replace (1000 / 10 / t) with (100 / t) by (field; lra).
  replace (100 / 10) with 10 by field. replace (1 / 1) with 1 by field. fold (dimer_constant t).
  assert (D0 := dimer_constant_pos t). assert (P1 := Rpower_pos (266 / t) (29/10)). assert (P2 := Rpower_pos (268 / t) 10).
  assert (P3 := Rpower_pos f (22/10)). assert (P4 := Rpower_pos (2960 / 10 / t) (15/10)).
  assert (A : 0 <= (svc t * - (100 / t) ^ 6 - 305 / 10) / (8205746 / 100000 * t)).
  { apply Rmult_le_pos; [lra|]. left. apply Rinv_0_lt_compat. lra. }
  set (a := (svc t * - (100 / t) ^ 6 - 305 / 10) / (8205746 / 100000 * t)) in *. clearbody a.
  assert (B : 134/10^16 <= 555 / 10000000000 / (4348 / 10 * (4348 / 10) + (f - 2195 / 10) * (f - 2195 / 10)) + (493 / 1000000000000 / (2106 / 100 * (2106 / 100) + f * f) + 134 / 10000000000000000)).
  { assert (0 < 555 / 10000000000 / (4348 / 10 * (4348 / 10) + (f - 2195 / 10) * (f - 2195 / 10))) by (apply div_pos; nra).
    assert (0 < 493 / 1000000000000 / (2106 / 100 * (2106 / 100) + f * f)) by (apply div_pos; nra). lra. }
  set (b := 555 / 10000000000 / _ + _) in *. clearbody b.
  set (x := Rpower (266 / t) (29/10)) in *. set (y := Rpower (268 / t) 10) in *. set (d := dimer_constant t) in *. clearbody x y d.
  apply Rmult_le_pos; [|lra]. apply Rplus_le_le_0_compat; [|apply Rmult_le_pos; [|lra]; apply Rmult_le_pos; lra].
  apply Rmult_le_pos; [|apply pow2_ge_0].
  set (s := 10 / 100000000000000 * (406 / 100 + 712 / 100000 * f) * (1 / (101325 / 100))).
  assert (Es : 1 / 10 ^ 13 * (406 / 100 + 712 / 100000 * f) * (1 / (101325 / 100)) = s) by (unfold s; field). rewrite Es in M. assert (S0 : 0 < s) by (unfold s; lra). clearbody s.
  assert (BY : 134 / 10^16 * y <= b * y) by (apply Rmult_le_compat_r; lra).
  replace (b * y + (s * (1 - 7 / 10) * x + 7 / 10 * (b * y) / (d / (101325 / 100))) * ((a - d) / (101325 / 100)))
    with (3/10 * (b * y - s * x * (d / (101325/100))) + (3/10 * (s * x) * (a / (101325/100)) + 7/10 * (b * y) * (a / d))) by (field; lra).
  assert (0 <= s * x) by (apply Rmult_le_pos; lra). assert (0 <= b * y) by (apply Rmult_le_pos; lra).
  assert (0 <= 3/10 * (s * x) * (a / (101325/100))) by (apply Rmult_le_pos; lra).
  assert (0 <= 7/10 * (b * y) * (a / d)). { apply Rmult_le_pos; [lra|]. apply Rmult_le_pos; [lra|]. left. apply Rinv_0_lt_compat. exact D0. }
  lra.
Qed.
