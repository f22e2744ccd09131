(** Claim C24: cloud liquid and ice absorption, over the reals. *)

From Coq Require Import ZArith Reals Lra Lia Psatz String List Bool.
Import ListNotations.
From Coquelicot Require Import Coquelicot.
From Verif Require Import Arith PyBase Utils Absorption Clear Spec RealAux PropsAbsN2.
Local Open Scope string_scope.
Open Scope R_scope.

(** ** The principal argument and the complex logarithm of a quotient *)

Lemma Ratan2_polar r p : 0 < r -> - PI < p < PI -> Ratan2 (r * sin p) (r * cos p) = p.
Proof.
  intros Hr Hp. assert (HPI := PI_RGT_0). unfold Ratan2.
  assert (Q : forall q, cos q <> 0 -> r * sin q / (r * cos q) = tan q) by (intros q Hq; unfold tan; field; split; lra).
  destruct (Rle_or_lt p (- (PI / 2))) as [L|L]; [destruct L as [L|L]|destruct (Rle_or_lt (PI / 2) p) as [U|U]; [destruct U as [U|U]|]].
  - assert (C : cos p < 0) by (rewrite <- cos_neg; apply cos_lt_0; lra).
    assert (S : sin p < 0) by (apply sin_lt_0_var; lra).
    destruct (Rlt_dec 0 (r * cos p)) as [X|_]; [nra|]. destruct (Rlt_dec (r * cos p) 0) as [_|X]; [|nra].
    destruct (Rle_dec 0 (r * sin p)) as [X|_]; [nra|]. rewrite Q by lra.
    replace (tan p) with (tan (p + PI)) by (unfold tan; rewrite neg_sin, neg_cos; field; lra).
    rewrite atan_tan by lra. lra.
  - subst p. rewrite cos_neg, cos_PI2, sin_neg, sin_PI2. 
    destruct (Rlt_dec 0 (r * 0)) as [X|_]; [lra|]. destruct (Rlt_dec (r * 0) 0) as [X|_]; [lra|].
    destruct (Rlt_dec 0 (r * - (1))) as [X|_]; [lra|]. destruct (Rlt_dec (r * - (1)) 0) as [_|X]; [|lra]. reflexivity.
  - assert (C : cos p < 0) by (apply cos_lt_0; lra). assert (S : 0 < sin p) by (apply sin_gt_0; lra).
    destruct (Rlt_dec 0 (r * cos p)) as [X|_]; [nra|]. destruct (Rlt_dec (r * cos p) 0) as [_|X]; [|nra].
    destruct (Rle_dec 0 (r * sin p)) as [_|X]; [|nra]. rewrite Q by lra.
    replace (tan p) with (tan (p - PI)).
    2:{ unfold tan. replace p with ((p - PI) + PI) at 3 4 by lra. rewrite neg_sin, neg_cos. field.
        replace (cos (p - PI)) with (- cos p) by (replace p with ((p - PI) + PI) at 1 by lra; rewrite neg_cos; lra). lra. }
    rewrite atan_tan by lra. lra.
  - subst p. rewrite cos_PI2, sin_PI2. 
    destruct (Rlt_dec 0 (r * 0)) as [X|_]; [lra|]. destruct (Rlt_dec (r * 0) 0) as [X|_]; [lra|].
    destruct (Rlt_dec 0 (r * 1)) as [_|X]; [|lra]. reflexivity.
  - assert (C : 0 < cos p) by (apply cos_gt_0; lra).
    destruct (Rlt_dec 0 (r * cos p)) as [_|X]; [|nra]. rewrite Q by lra. apply atan_tan. lra.
Qed.

(** polar form of a number with positive real part *)
Lemma polar x y : 0 < x -> let r := R_sqrt.sqrt (x * x + y * y) in
  0 < r /\ r * cos (atan (y / x)) = x /\ r * sin (atan (y / x)) = y.
Proof.
  intros Hx r. assert (Hn : 0 < x * x + y * y) by nra.
  assert (Hr : 0 < r) by (apply sqrt_lt_R0; auto).
  assert (E : R_sqrt.sqrt (1 + (y / x)²) = r / x).
  { unfold r. replace (1 + (y / x)²) with ((x * x + y * y) / (x * x)) by (unfold Rsqr; field; lra).
    rewrite sqrt_div by nra. f_equal. apply sqrt_square. lra. }
  rewrite cos_atan, sin_atan, E. split; auto. split; field; split; lra.
Qed.

Definition lnmod (x y : R) := / 2 * ln (x * x + y * y).

Lemma lnmod_sqrt x y : 0 < x * x + y * y -> lnmod x y = ln (R_sqrt.sqrt (x * x + y * y)).
Proof.
  intros H. unfold lnmod. rewrite <- (sqrt_sqrt (x * x + y * y)) at 1 by lra.
  assert (0 < R_sqrt.sqrt (x * x + y * y)) by (apply sqrt_lt_R0; auto). rewrite ln_mult by auto. lra.
Qed.

(** the model's logarithm of a quotient of numbers with positive real part *)
Lemma cln_div x1 y1 x2 y2 : 0 < x1 -> 0 < x2 ->
  c_ln (A:=RA) (c_div (A:=RA) (mkC (A:=RA) x1 y1) (mkC (A:=RA) x2 y2)) =
  mkC (A:=RA) (lnmod x1 y1 - lnmod x2 y2) (atan (y1 / x1) - atan (y2 / x2)).
Proof.
  intros H1 H2. destruct (polar x1 y1 H1) as (P1 & C1 & S1). destruct (polar x2 y2 H2) as (P2 & C2 & S2).
  set (r1 := R_sqrt.sqrt (x1 * x1 + y1 * y1)) in *. set (r2 := R_sqrt.sqrt (x2 * x2 + y2 * y2)) in *.
  assert (B1 := atan_bound (y1 / x1)). assert (B2 := atan_bound (y2 / x2)).
  assert (N1 : 0 < x1 * x1 + y1 * y1) by nra. assert (N2 : 0 < x2 * x2 + y2 * y2) by nra.
  unfold c_ln, c_div, c_abs, c_norm2. cbn [re im]. ra.
  assert (L1 : lnmod x1 y1 = ln r1) by (apply lnmod_sqrt; auto).
  assert (L2 : lnmod x2 y2 = ln r2) by (apply lnmod_sqrt; auto).
  assert (Q2 : r2 * r2 = x2 * x2 + y2 * y2) by (apply sqrt_sqrt; lra).
  assert (Q1 : r1 * r1 = x1 * x1 + y1 * y1) by (apply sqrt_sqrt; lra).
  set (p1 := atan (y1 / x1)) in *. set (p2 := atan (y2 / x2)) in *.
  f_equal.
  - rewrite L1, L2, <- ln_div by auto. f_equal. rewrite <- (sqrt_square (r1 / r2)) by (left; apply div_pos; auto). f_equal.
    rewrite <- Q2. replace (r1 / r2 * (r1 / r2)) with ((r1 * r1) / (r2 * r2)) by (field; lra). rewrite Q1.
    assert (X : (x1 * x2 + y1 * y2) * (x1 * x2 + y1 * y2) + (y1 * x2 - x1 * y2) * (y1 * x2 - x1 * y2) = (x1 * x1 + y1 * y1) * (r2 * r2)) by (rewrite Q2; ring).
    replace (_ + _) with (((x1 * x2 + y1 * y2) * (x1 * x2 + y1 * y2) + (y1 * x2 - x1 * y2) * (y1 * x2 - x1 * y2)) / ((r2 * r2) * (r2 * r2))) at 1 by (field; lra).
    rewrite X. field. lra.
  - rewrite <- Q2.
    replace ((y1 * x2 - x1 * y2) / (r2 * r2)) with (r1 / r2 * sin (p1 - p2)).
    2:{ rewrite sin_minus. rewrite <- C1, <- S1, <- C2, <- S2. field. lra. }
    replace ((x1 * x2 + y1 * y2) / (r2 * r2)) with (r1 / r2 * cos (p1 - p2)).
    2:{ rewrite cos_minus. rewrite <- C1, <- S1, <- C2, <- S2. field. lra. }
    apply Ratan2_polar; [apply div_pos; auto|lra].
Qed.

(** ** Passivity of the band of relaxations in [dilec12] *)

Lemma sum_sq_pos a y : 0 < a -> 0 < a * a + y * y.
Proof. intros H. assert (K := sq_nonneg y). nra. Qed.

Section Band.
Variables (f r1 psi1 l lam : R).
Let aa s := r1 * exp (l * s) * cos (psi1 - lam * s).
Let bb s := r1 * exp (l * s) * sin (psi1 - lam * s).
Let G s := l * (atan ((f - bb s) / aa s) + atan ((f + bb s) / aa s)) - lam * (lnmod (aa s) (f - bb s) - lnmod (aa s) (f + bb s)).

Lemma band_deriv s : 0 < aa s -> is_derive G s (- (f * aa s * (l * l + lam * lam) * (/ (aa s * aa s + (f - bb s) * (f - bb s)) + / (aa s * aa s + (f + bb s) * (f + bb s))))).
Proof.
  intros Ha. 
  assert (Da : is_derive aa s (l * aa s + lam * bb s)) by (unfold aa, bb; auto_derive; auto; unfold Rminus; ring).
  assert (Db : is_derive bb s (l * bb s - lam * aa s)) by (unfold aa, bb; auto_derive; auto; unfold Rminus; ring).
  assert (D1 : 0 < aa s * aa s + (f - bb s) * (f - bb s)) by (apply sum_sq_pos; auto).
  assert (D2 : 0 < aa s * aa s + (f + bb s) * (f + bb s)) by (apply sum_sq_pos; auto).
  unfold G, lnmod. clearbody aa bb.
  auto_derive.
  - assert (E1 : ex_derive aa s) by (eexists; eassumption). assert (E2 : ex_derive bb s) by (eexists; eassumption).
    repeat split; auto; lra.
  - change (fun x => aa x) with aa. change (fun x => bb x) with bb.
    rewrite (is_derive_unique _ _ _ Da), (is_derive_unique _ _ _ Db).
    clear Da Db. revert Ha D1 D2. generalize (aa s) (bb s). intros a b Ha D1 D2.
    assert (D1' : 0 < a * a + (f + - b) * (f + - b)) by (apply sum_sq_pos; auto).
    field. repeat split; try lra.
Qed.

Lemma band_neg : 0 < f -> l * l + lam * lam <> 0 -> (forall s, 0 <= s <= 1 -> 0 < aa s) -> G 1 < G 0.
Proof.
  intros Hf Hl Ha.
  destruct (MVT_gen G 0 1 (fun s => - (f * aa s * (l * l + lam * lam) * (/ (aa s * aa s + (f - bb s) * (f - bb s)) + / (aa s * aa s + (f + bb s) * (f + bb s)))))) as (c & Hc & E).
  - intros x. rewrite Rmin_left, Rmax_right by lra. intros Hx. apply band_deriv. apply Ha. lra.
  - intros x. rewrite Rmin_left, Rmax_right by lra. intros Hx. apply derivable_continuous_pt.
    eexists. apply is_derive_Reals. apply band_deriv. apply Ha. lra.
  - rewrite Rmin_left, Rmax_right in Hc by lra. specialize (Ha c Hc).
    assert (0 < / (aa c * aa c + (f - bb c) * (f - bb c))) by (apply Rinv_0_lt_compat, sum_sq_pos; auto).
    assert (0 < / (aa c * aa c + (f + bb c) * (f + bb c))) by (apply Rinv_0_lt_compat, sum_sq_pos; auto).
    assert (0 < l * l + lam * lam) by (assert (A := sq_nonneg l); assert (B := sq_nonneg lam); lra).
    assert (0 < f * aa c * (l * l + lam * lam) * (/ (aa c * aa c + (f - bb c) * (f - bb c)) + / (aa c * aa c + (f + bb c) * (f + bb c)))).
    { apply Rmult_lt_0_compat; [|lra]. apply Rmult_lt_0_compat; [|lra]. apply Rmult_lt_0_compat; auto. }
    lra.
Qed.
End Band.

Lemma band_passive f a1 b1 a2 b2 : 0 < f -> 0 < a1 -> 0 < b1 -> 0 < a2 -> 0 < b2 -> b1 / a1 <> b2 / a2 ->
  let l := lnmod a2 b2 - lnmod a1 b1 in let lam := atan (b1 / a1) - atan (b2 / a2) in
  l * ((atan ((f - b2) / a2) - atan ((f - b1) / a1)) + (atan ((f + b2) / a2) - atan ((f + b1) / a1)))
  - lam * ((lnmod a2 (f - b2) - lnmod a1 (f - b1)) - (lnmod a2 (f + b2) - lnmod a1 (f + b1))) < 0.
Proof.
  intros Hf Ha1 Hb1 Ha2 Hb2 Hne l lam.
  destruct (polar a1 b1 Ha1) as (P1 & C1 & S1). destruct (polar a2 b2 Ha2) as (P2 & C2 & S2).
  set (r1 := R_sqrt.sqrt (a1 * a1 + b1 * b1)) in *. set (r2 := R_sqrt.sqrt (a2 * a2 + b2 * b2)) in *.
  set (p1 := atan (b1 / a1)) in *. set (p2 := atan (b2 / a2)) in *.
  assert (Hl : exp l = r2 / r1).
  { unfold l. rewrite !lnmod_sqrt by (apply sum_sq_pos; auto). fold r1 r2. unfold Rminus. rewrite exp_plus, exp_Ropp, !exp_ln by auto. reflexivity. }
  assert (Q1 : 0 < p1) by (unfold p1; rewrite <- atan_0; apply atan_increasing; apply div_pos; auto).
  assert (Q2 : 0 < p2) by (unfold p2; rewrite <- atan_0; apply atan_increasing; apply div_pos; auto).
  assert (B1 := atan_bound (b1 / a1)). fold p1 in B1. assert (B2 := atan_bound (b2 / a2)). fold p2 in B2.
  assert (Hlam : lam <> 0).
  { intros E. apply Hne. rewrite <- (tan_atan (b1 / a1)), <- (tan_atan (b2 / a2)). fold p1 p2. f_equal. unfold lam in E. lra. }
  assert (N := band_neg f r1 p1 l lam Hf). cbv beta zeta in N.
  assert (E0 : exp (l * 0) = 1) by (rewrite Rmult_0_r; apply exp_0).
  replace (l * 1) with l in N by ring. rewrite E0, Hl in N.
  replace (p1 - lam * 0) with p1 in N by ring. replace (p1 - lam * 1) with p2 in N by (unfold lam; ring).
  replace (r1 * (r2 / r1) * cos p2) with a2 in N by (rewrite <- C2; field; lra).
  replace (r1 * (r2 / r1) * sin p2) with b2 in N by (rewrite <- S2; field; lra).
  replace (r1 * 1 * cos p1) with a1 in N by (rewrite <- C1; ring).
  replace (r1 * 1 * sin p1) with b1 in N by (rewrite <- S1; ring).
  assert (H : l * l + lam * lam <> 0).
  { assert (K := sq_nonneg l). assert (0 < lam * lam) by (destruct (Rtotal_order lam 0) as [X|[X|X]]; [nra|lra|nra]). lra. }
  specialize (N H). cut (forall s, 0 <= s <= 1 -> 0 < r1 * exp (l * s) * cos (p1 - lam * s)).
  - intros K. specialize (N K). lra.
  - intros s Hs. apply Rmult_lt_0_compat; [apply Rmult_lt_0_compat; auto; apply exp_pos|].
    assert (p1 - lam * s = p1 * (1 - s) + p2 * s) by (unfold lam; ring).
    apply cos_gt_0; [nra|]. rewrite H0. 
    destruct (Rle_or_lt p1 p2); nra.
Qed.

(** ** The permittivity of [dilec12] has a negative imaginary part *)

Lemma dilec_f1_pos tc : -65 <= tc -> 0 < 10.46012 + 0.1454962 * tc + 0.063267156 * (tc * tc) + 0.00093786645 * (tc * tc * tc).
Proof.
  intros H. assert (K := sq_nonneg tc). 
  assert (0 <= (0.063267156 + 0.00093786645 * tc) * (tc * tc)) by (apply Rmult_le_pos; lra). nra.
Qed.
Local Open Scope arith_scope.
Definition band_chi (hd f f1 : R) : R :=
  let z := mkC (A:=RA) 0 f in let z1 := c_scale (A:=RA) f1 (mkC (A:=RA) (- (3 / 4))%R 1%R) in let z2 := mkC (A:=RA) (-4500)%R 2000%R in
  let cnorm := c_ln (c_div z2 z1) in
  (im (c_div (c_scale (A:=RA) hd (c_ln (c_div (c_sub z z2) (c_sub z z1)))) cnorm)
  + im (c_div (c_scale (A:=RA) hd (c_ln (c_div (c_sub z (c_conj z2)) (c_sub z (c_conj z1))))) (c_conj cnorm)))%R.
Local Close Scope arith_scope.

Lemma band_chi_neg hd f f1 : 0 < hd -> 0 < f -> 0 < f1 -> band_chi hd f f1 < 0.
Proof.
  intros Hh Hf H1. unfold band_chi. cbv zeta.
  set (l := lnmod 4500 2000 - lnmod (3 / 4 * f1) f1). set (lam := atan (f1 / (3 / 4 * f1)) - atan (2000 / 4500)).
  assert (EL : c_ln (A:=RA) (c_div (A:=RA) (mkC (A:=RA) (-4500) 2000) (c_scale (A:=RA) f1 (mkC (A:=RA) (- (3 / 4)) 1))) = mkC (A:=RA) l lam).
  { transitivity (c_ln (A:=RA) (c_div (A:=RA) (mkC (A:=RA) 4500 (-2000)) (mkC (A:=RA) (3 / 4 * f1) (- f1)))).
    - f_equal. unfold c_div, c_scale, c_norm2. cbn [re im]. ra. f_equal; field; nra.
    - rewrite cln_div by lra. unfold l, lam, lnmod. f_equal.
      + replace (-2000 * -2000) with (2000 * 2000) by ring. replace (- f1 * - f1) with (f1 * f1) by ring. reflexivity.
      + replace (-2000 / 4500) with (- (2000 / 4500)) by lra. replace (- f1 / (3 / 4 * f1)) with (- (f1 / (3 / 4 * f1))) by (field; lra).
        rewrite !atan_opp. lra. }
  rewrite EL.
  assert (EA : c_ln (A:=RA) (c_div (A:=RA) (c_sub (A:=RA) (mkC (A:=RA) 0 f) (mkC (A:=RA) (-4500) 2000)) (c_sub (A:=RA) (mkC (A:=RA) 0 f) (c_scale (A:=RA) f1 (mkC (A:=RA) (- (3 / 4)) 1))))
    = mkC (A:=RA) (lnmod 4500 (f - 2000) - lnmod (3 / 4 * f1) (f - f1)) (atan ((f - 2000) / 4500) - atan ((f - f1) / (3 / 4 * f1)))).
  { rewrite <- cln_div by lra. f_equal. f_equal; unfold c_sub, c_scale; cbn [re im]; ra; f_equal; lra. }
  assert (EB : c_ln (A:=RA) (c_div (A:=RA) (c_sub (A:=RA) (mkC (A:=RA) 0 f) (c_conj (A:=RA) (mkC (A:=RA) (-4500) 2000))) (c_sub (A:=RA) (mkC (A:=RA) 0 f) (c_conj (A:=RA) (c_scale (A:=RA) f1 (mkC (A:=RA) (- (3 / 4)) 1)))))
    = mkC (A:=RA) (lnmod 4500 (f + 2000) - lnmod (3 / 4 * f1) (f + f1)) (atan ((f + 2000) / 4500) - atan ((f + f1) / (3 / 4 * f1)))).
  { rewrite <- cln_div by lra. f_equal. f_equal; unfold c_sub, c_scale, c_conj; cbn [re im]; ra; f_equal; lra. }
  rewrite EA, EB.
  assert (N := band_passive f (3 / 4 * f1) f1 4500 2000 Hf ltac:(lra) H1 ltac:(lra) ltac:(lra)). cbv zeta in N. fold l lam in N.
  assert (Q : f1 / (3 / 4 * f1) <> 2000 / 4500) by (replace (f1 / (3 / 4 * f1)) with (4 / 3) by (field; lra); lra).
  specialize (N Q).
  assert (Hlam : 0 < lam).
  { unfold lam. assert (atan (2000 / 4500) < atan (f1 / (3 / 4 * f1))); [|lra]. apply atan_increasing. replace (f1 / (3 / 4 * f1)) with (4 / 3) by (field; lra). lra. }
  set (q := atan ((f - 2000) / 4500) - atan ((f - f1) / (3 / 4 * f1))) in *. set (q' := atan ((f + 2000) / 4500) - atan ((f + f1) / (3 / 4 * f1))) in *.
  set (p := lnmod 4500 (f - 2000) - lnmod (3 / 4 * f1) (f - f1)) in *. set (p' := lnmod 4500 (f + 2000) - lnmod (3 / 4 * f1) (f + f1)) in *.
  clearbody q q' p p' l lam. clear EL EA EB.
  unfold c_div, c_scale, c_conj, c_norm2. cbn [re im]. ra.
  assert (D : 0 < l * l + lam * lam) by (assert (K := sq_nonneg l); nra).
  replace (_ + _) with (hd * (l * (q + q') - lam * (p - p')) / (l * l + lam * lam)).
  2:{ field. lra. }
  apply Ropp_lt_cancel. rewrite Ropp_0. replace (- _) with (hd * (- (l * (q + q') - lam * (p - p'))) / (l * l + lam * lam)) by (field; lra).
  apply div_pos; auto. apply Rmult_lt_0_compat; lra.
Qed.

Lemma dilec12_im f t : exists d sd hd f1, 0 < d /\ 0 < sd /\ 0 < hd /\ (208.15 <= t -> 0 < f1) /\
  im (dilec12 (A:=RA) f t) = - (d * f * sd / (sd * sd + f * f)) + band_chi hd f f1.
Proof.
  unfold dilec12. cbv zeta. rewrite powi2, powi3. cbn [im re c_add c_sub c_of c_scale c_conj]. ra.
  replace (0 / 10) with 0 by lra. replace (- (45000 / 10)) with (-4500) by lra. replace (20000 / 10) with 2000 by lra.
  replace (75 / 100) with (3 / 4) by lra. replace (10 / 10) with 1 by lra. replace (0 / 1) with 0 by lra.
  match goal with |- context [c_scale ?f1 {| re := - (3 / 4); im := 1 |}] => remember f1 as f1v eqn:Ef1 end.
  match goal with |- context [c_scale ?h (c_ln _)] => remember h as hdv eqn:Ehd end.
  match goal with |- context [c_add (c_of ?x) _] => remember x as sdv eqn:Esd end.
  match goal with |- context [c_scale ?x {| re := 0; im := f |}] => remember x as dv eqn:Ed end.
  assert (Hd : 0 < dv) by (rewrite Ed; apply Rmult_lt_0_compat; [lra|apply exp_pos]).
  assert (Hsd : 0 < sdv) by (rewrite Esd; apply Rmult_lt_0_compat; [lra|apply exp_pos]).
  assert (Hhd : 0 < hdv) by (rewrite Ehd; apply div_pos; [apply Rmult_lt_0_compat; [lra|apply exp_pos]|lra]).
  exists dv, sdv, hdv, f1v. split; auto. split; auto. split; auto. split.
  - intros Ht. rewrite Ef1. assert (K := dilec_f1_pos (t - 27315 / 100)). assert (-65 <= t - 27315 / 100) by lra. specialize (K H). lra.
  - clear - Hsd. unfold band_chi. cbv zeta.
    match goal with |- _ - _ + (?a + ?b - 0) = _ + (?c + ?d) => change c with a; change d with b; generalize (a + b) end.
    intros q. unfold c_div, c_scale, c_add, c_of, c_norm2. cbn [re im]. ra. field. nra.
Qed.

Lemma dilec12_passive f t : 0 < f -> 208.15 <= t -> im (dilec12 (A:=RA) f t) < 0.
Proof.
  intros Hf Ht. destruct (dilec12_im f t) as (d & sd & hd & f1 & H1 & H2 & H3 & H4 & ->).
  assert (N := band_chi_neg hd f f1 H3 Hf (H4 Ht)).
  assert (0 < d * f * sd / (sd * sd + f * f)); [|lra]. apply div_pos; [|nra].
  apply Rmult_lt_0_compat; auto. apply Rmult_lt_0_compat; auto.
Qed.

(** ** The double Debye permittivity (R98, R03) *)

Lemma debye_im m f t : exists fp, 0 < fp /\
  im (liq_eps_debye (A:=RA) m f t) =
  (let e0 := 7766 / 100 - 1033 / 10 * (1 - 300 / t) in let e1 := 671 / 10000 * e0 in
   - ((e0 - e1) * (f / fp) / (1 + f / fp * (f / fp)) + (e1 - 352 / 100) * (f / (398 / 10 * fp)) / (1 + f / (398 / 10 * fp) * (f / (398 / 10 * fp))))).
Proof.
  unfold liq_eps_debye. cbv zeta. unfold c_add, c_div, c_of, c_norm2. cbn [re im]. ra.
  replace (3000 / 10) with 300 by lra. replace (10 / 10) with 1 by lra. replace (0 / 1) with 0 by lra.
  replace (3160 / 10) with 316 by lra.
  match goal with |- context [f / (398 / 10 * ?x)] => remember x as fp eqn:Efp end.
  assert (Hfp : 0 < fp).
  { rewrite Efp. destruct (String.eqb m "R03"); [apply Rmult_lt_0_compat; [lra|apply exp_pos]|].
    generalize (1 - 300 / t). intros th. assert (K := sq_nonneg (316 * th + 146.4 / 2)). lra. }
  exists fp. split; auto. clear Efp. generalize (1 - 300 / t). intros th.
  generalize (f / fp) (f / (398 / 10 * fp)). intros u v. field. assert (Ku := sq_nonneg u). assert (Kv := sq_nonneg v). split; lra.
Qed.

Lemma debye_passive m f t : 0 < f -> 0 < t <= 396 -> im (liq_eps_debye (A:=RA) m f t) < 0.
Proof.
  intros Hf Ht. destruct (debye_im m f t) as (fp & Hfp & ->). cbv zeta.
  assert (H300 : 300 / 396 <= 300 / t) by (apply Rmult_le_compat_l; [lra|]; apply Rinv_le_contravar; lra).
  set (e0 := 7766 / 100 - 1033 / 10 * (1 - 300 / t)). assert (E : 52.5 <= e0) by (unfold e0; lra). clearbody e0.
  set (u := f / fp). assert (0 < u) by (apply div_pos; auto). set (v := f / (398 / 10 * fp)). assert (0 < v) by (apply div_pos; lra).
  assert (0 < (e0 - 671 / 10000 * e0) * u / (1 + u * u)) by (apply div_pos; [apply Rmult_lt_0_compat|assert (K := sq_nonneg u)]; lra).
  assert (0 < (671 / 10000 * e0 - 352 / 100) * v / (1 + v * v)) by (apply div_pos; [apply Rmult_lt_0_compat|assert (K := sq_nonneg v)]; lra).
  lra.
Qed.

(** ** C24 *)

Lemma liq_from_eps_pos (e : cpx RA) f w : im e < 0 -> 0 < f -> 0 < w -> 0 < liq_from_eps (A:=RA) e f w.
Proof.
  intros He Hf Hw. unfold liq_from_eps, c_div, c_sub, c_add, c_of, c_norm2. destruct e as [x y]. cbn [re im] in *. ra.
  set (n := (x + 20 / 10) * (x + 20 / 10) + (y + 0 / 1) * (y + 0 / 1)).
  assert (Hn : 0 < n) by (unfold n; assert (K := sq_nonneg (x + 20 / 10)); nra).
  replace ((y - 0 / 1) * (x + 20 / 10) - (x - 10 / 10) * (y + 0 / 1)) with (3 * y) by field.
  replace (- (6286 / 100000) * (3 * y / n) * f * w) with (6286 / 100000 * (3 * (- y) / n) * f * w) by (field; lra).
  apply Rmult_lt_0_compat; auto. apply Rmult_lt_0_compat; auto. apply Rmult_lt_0_compat; [lra|]. apply div_pos; lra.
Qed.

(** the models for which a liquid permittivity is coded *)
Definition liq_models : list string := ["R03"; "R98"; "R16"; "R17"; "R19"; "R19SD"; "R20"; "R22SD"; "R23"; "R23SD"; "R24"].

Theorem C24_liquid_names (A : Arith) m (w f t : car A) :
  (In m liq_models -> exists v, liquid_water_absorption (A:=A) m w f t = Ok v) /\
  (~ In m liq_models -> leb w (lit 0) = false -> liquid_water_absorption (A:=A) m w f t = Err ValueError).
Proof.
  split; intros H.
  - unfold liquid_water_absorption. destruct (leb w _); [eauto|].
    repeat (destruct H as [<-|H]; [eexists; reflexivity|]). destruct H.
  - intros Hw. assert (E : forall s, In s liq_models -> String.eqb m s = false).
    { intros s Hs. apply String.eqb_neq. intros ->. contradiction. }
    unfold liquid_water_absorption, str_in, existsb, liq_debye_models, liq_dilec_models. rewrite Hw. rewrite !E by (simpl; auto 20). reflexivity.
Qed.

Lemma ok_inj {T} (a b : T) : Ok a = Ok b -> a = b.
Proof. congruence. Qed.

(** Positive for positive water content and frequency, zero for no (or negative) water. *)
Theorem C24_liquid_positive m w f t v : 0 < w -> 0 < f -> 208.15 <= t <= 396 ->
  liquid_water_absorption (A:=RA) m w f t = Ok v -> 0 < v.
Proof.
  intros Hw Hf Ht. unfold liquid_water_absorption.
  match goal with |- context [@leb ?A ?a ?b] => replace (@leb A a b) with false by (symmetry; apply (Rleb_false w); ra; lra) end.
  destruct (str_in m liq_debye_models).
  - intros E. apply ok_inj in E; rewrite <- E. apply liq_from_eps_pos; auto. apply debye_passive; lra.
  - destruct (str_in m liq_dilec_models); [|discriminate].
    intros E. apply ok_inj in E; rewrite <- E. apply liq_from_eps_pos; auto. apply dilec12_passive; lra.
Qed.

Theorem C24_no_liquid (A : Arith) m (w f t : car A) : leb w (lit 0) = true -> liquid_water_absorption (A:=A) m w f t = Ok (lit 0).
Proof. intros H. unfold liquid_water_absorption. rewrite H. reflexivity. Qed.

(** Non-negative in the stated range (and 0 at zero frequency). *)
Theorem C24_liquid_nonnegative m w f t v : 0 <= f -> 208.15 <= t <= 396 ->
  liquid_water_absorption (A:=RA) m w f t = Ok v -> 0 <= v.
Proof.
  intros Hf Ht E. destruct (Rle_lt_dec w 0) as [Hw|Hw].
  - rewrite C24_no_liquid in E by (apply Rleb_true; ra; lra). apply ok_inj in E; rewrite <- E. ra. lra.
  - destruct Hf as [Hf| <-]; [left; exact (C24_liquid_positive m w f t v Hw Hf Ht E)|].
    unfold liquid_water_absorption in E.
    match type of E with context [@leb ?A ?a ?b] => replace (@leb A a b) with false in E by (symmetry; apply (Rleb_false w); ra; lra) end.
    assert (Z : forall e : cpx RA, liq_from_eps (A:=RA) e 0 w = 0) by (intros e; unfold liq_from_eps; ra; ring).
    destruct (str_in m liq_debye_models); [|destruct (str_in m liq_dilec_models); [|discriminate]]; apply ok_inj in E; rewrite <- E; rewrite Z; lra.
Qed.

(** Proportional to the water content. *)
Theorem C24_liquid_linear m w k f t v : 0 < k -> 0 < w -> liquid_water_absorption (A:=RA) m w f t = Ok v ->
  liquid_water_absorption (A:=RA) m (k * w) f t = Ok (k * v).
Proof.
  intros Hk Hw. assert (0 < k * w) by nra. unfold liquid_water_absorption.
  match goal with |- context [@leb ?A w ?b] => replace (@leb A w b) with false by (symmetry; apply (Rleb_false w); ra; lra) end.
  match goal with |- context [@leb ?A ?x ?b] => replace (@leb A x b) with false by (symmetry; apply (Rleb_false (k * w)); ra; lra) end.
  assert (Z : forall e : cpx RA, liq_from_eps (A:=RA) e f (k * w) = k * liq_from_eps (A:=RA) e f w) by (intros e; unfold liq_from_eps; ra; ring).
  intros E. destruct (str_in m liq_debye_models); [|destruct (str_in m liq_dilec_models); [|discriminate]]; apply ok_inj in E; rewrite <- E; rewrite Z; reflexivity.
Qed.

(** One level of [cloudy_absorption]: liquid part as above, ice part proportional to ice density and frequency. *)
Theorem C24_level m f t dl di al ai : 0 < f -> 208.15 <= t <= 396 ->
  cloudy_level (A:=RA) m f t dl di = Ok (al, ai) ->
  0 <= al /\ (dl <= 0 -> al = 0) /\
  ai = (8.18645 * 0.000959553 * db2np (A:=RA) / 29979245800 * 1e9) * f * Rmax 0 di.
Proof.
  intros Hf Ht. unfold cloudy_level. cbv zeta. intros E.
  destruct (if ltb (a:=RA) _ dl then _ else _) as [a|e] eqn:E1 in E; [|discriminate E]. cbn [bind] in E. apply ok_inj in E.
  assert (Ei := f_equal snd E). assert (Ea := f_equal fst E). cbn [fst snd] in Ei, Ea. subst a. clear E.
  split; [|split].
  - destruct (Rlt_le_dec 0 dl) as [H|H].
    + match type of E1 with context [@ltb ?A ?a ?b] => replace (@ltb A a b) with true in E1 by (symmetry; apply Rltb_true; ra; lra) end.
      apply (C24_liquid_nonnegative _ _ _ _ _ (Rlt_le _ _ Hf) Ht E1).
    + match type of E1 with context [@ltb ?A ?a ?b] => replace (@ltb A a b) with false in E1 by (symmetry; apply Rltb_false; ra; lra) end.
      apply ok_inj in E1. rewrite <- E1. ra. lra.
  - intros H. match type of E1 with context [@ltb ?A ?a ?b] => replace (@ltb A a b) with false in E1 by (symmetry; apply Rltb_false; ra; lra) end.
    apply ok_inj in E1. rewrite <- E1. ra. lra.
  - rewrite <- Ei. generalize (db2np (A:=RA)). intros q. unfold k_light. ra.
    destruct (Rlt_le_dec 0 di) as [H|H].
    + rewrite Rltb_true by lra. rewrite Rmax_right by lra.
      replace 8.18645 with (818645 / 100000) by lra. replace 0.000959553 with (959553 / 1000000000) by lra. replace 1e9 with 1000000000 by lra. field. lra.
    + rewrite Rltb_false by lra. rewrite Rmax_left by lra. lra.
Qed.

Example C24_example : exists v, liquid_water_absorption (A:=RA) "R17" 0.2 31.4 268 = Ok v /\ 0 < v /\
  liquid_water_absorption (A:=RA) "R17" (2 * 0.2) 31.4 268 = Ok (2 * v) /\ liquid_water_absorption (A:=RA) "R18" 0.2 31.4 268 = Err ValueError.
Proof.
  destruct (proj1 (C24_liquid_names RA "R17" 0.2 31.4 268) ltac:(simpl; auto 20)) as [v E]. exists v. split; [exact E|].
  split; [refine (C24_liquid_positive _ _ _ _ _ _ _ _ E); lra|]. split; [apply C24_liquid_linear; auto; lra|].
  apply (proj2 (C24_liquid_names RA "R18" 0.2 31.4 268)).
  - simpl. intuition discriminate.
  - apply Rleb_false. ra. lra.
Qed.
