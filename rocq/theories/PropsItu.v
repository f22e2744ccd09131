(** Claims C70, C71 and C96: the ITU-R P.835 reference atmospheres. *)

From Coq Require Import ZArith Reals Lra Lia String List Bool Psatz.
Import ListNotations.
From Verif Require Import Arith PyBase Utils Spec ListAux RealAux PropsUtils PropsAbsN2 Weighting Extrapolation ExpQ.
Local Open Scope R_scope.

Lemma le_div a b d : 0 < d -> a * d <= b -> a <= b / d.
Proof. intros Hd H. apply Rmult_le_reg_r with d; [auto|]. replace (b / d * d) with b by (field; lra). auto. Qed.
Lemma div_le a b d : 0 < d -> b <= a * d -> b / d <= a.
Proof. intros Hd H. apply Rmult_le_reg_r with d; [auto|]. replace (b / d * d) with b by (field; lra). auto. Qed.

(** ** Geopotential height *)

Definition G (h : R) : R := 6356.766 * h / (6356.766 + h).
Lemma geopot_R h : geopot (A:=RA) h = G h.
Proof. unfold geopot, G. ra. replace (6356766 / 1000) with 6356.766 by lra. reflexivity. Qed.
Lemma G_diff h1 h2 : 0 <= h1 -> 0 <= h2 -> G h2 - G h1 = 6356.766 * 6356.766 * (h2 - h1) / ((6356.766 + h1) * (6356.766 + h2)).
Proof. intros. unfold G. set (r := 6356.766). assert (0 < r) by (unfold r; lra). clearbody r. field. lra. Qed.
Lemma G_rate h1 h2 : 0 <= h1 <= h2 -> h2 <= 100 -> 0.969 * (h2 - h1) <= G h2 - G h1.
Proof.
  intros H1 H2. rewrite G_diff by lra. set (d := (6356.766 + h1) * (6356.766 + h2)).
  assert (D : 0 < d <= 6456.766 * 6456.766) by (unfold d; nra).
  apply le_div; [lra|]. nra.
Qed.
Lemma G_0 : G 0 = 0. Proof. unfold G. lra. Qed.
Lemma G_lt h1 h2 : 0 <= h1 < h2 -> G h1 < G h2.
Proof.
  intros H. assert (0 < G h2 - G h1); [|lra]. rewrite G_diff by lra. apply Rmult_lt_0_compat; [nra|]. apply Rinv_0_lt_compat. nra.
Qed.
Lemma G_le h1 h2 : 0 <= h1 <= h2 -> G h1 <= G h2.
Proof. intros H. destruct (Req_dec h1 h2) as [->|]; [lra|]. left. apply G_lt. lra. Qed.
Lemma G_nonneg h : 0 <= h -> 0 <= G h.
Proof. intros H. rewrite <- G_0. apply G_le. lra. Qed.
Lemma G_self h : 0 <= h -> G h <= h.
Proof.
  intros H. unfold G. apply div_le; [lra|]. nra.
Qed.

(** ** Logarithm of the standard pressure, layer by layer *)

Definition kg : R := 34.1632.
Definition f1 (x : R) : R := ln 1013.25 + kg / 6.5 * ln ((288.15 - 6.5 * x) / 288.15).
Definition f2 (x : R) : R := ln 226.3226 - kg * (x - 11) / 216.65.
Definition f3 (x : R) : R := ln 54.7498 - kg * ln ((216.65 + (x - 20)) / 216.65).
Definition f4 (x : R) : R := ln 8.680422 - kg / 2.8 * ln ((228.65 + 2.8 * (x - 32)) / 228.65).
Definition f5 (x : R) : R := ln 1.109106 - kg * (x - 47) / 270.65.
Definition f6 (x : R) : R := ln 0.6694167 + kg / 2.8 * ln ((270.65 - 2.8 * (x - 51)) / 270.65).
Definition f7 (x : R) : R := ln 0.03956649 + kg / 2 * ln ((214.65 - 2 * (x - 71)) / 214.65).
Definition f8 (h : R) : R := 95.571899 - 4.011801 * h + 0.06424731 * h ^ 2 - 0.000478966 * h ^ 3 + 0.000001340543 * h ^ 4.

Definition lnP (h : R) : R :=
  if Rle_dec (G h) 11 then f1 (G h) else if Rle_dec (G h) 20 then f2 (G h) else if Rle_dec (G h) 32 then f3 (G h)
  else if Rle_dec (G h) 47 then f4 (G h) else if Rle_dec (G h) 51 then f5 (G h) else if Rle_dec (G h) 71 then f6 (G h)
  else if Rle_dec (G h) 84.852 then f7 (G h) else f8 h.

(** The heights of the tables: all of 0-100 km except a gap of five centimetres below 86 km, where the last geopotential layer has ended
    and the geometric one has not begun. *)
Definition covered (h : R) : Prop := 0 <= h <= 100 /\ (G h <= 84.852 \/ 86 <= h).

Lemma scale_exp (c x : R) : 0 < c -> c * exp x = exp (ln c + x).
Proof. intros H. rewrite exp_plus, exp_ln by auto. reflexivity. Qed.
Lemma ln_inv_frac a b : 0 < a -> 0 < b -> ln (a / b) = - ln (b / a).
Proof. intros Ha Hb. rewrite <- ln_Rinv by (apply Rdiv_lt_0_compat; auto). f_equal. field. lra. Qed.
Lemma scale_pow (c a b e : R) : 0 < c -> 0 < a -> 0 < b -> c * Rpowf (a / b) e = exp (ln c - e * ln (b / a)).
Proof.
  intros Hc Ha Hb. rewrite Rpowf_pos by (apply Rdiv_lt_0_compat; auto). unfold Rpower. rewrite scale_exp by auto. f_equal. rewrite (ln_inv_frac a b) by auto. ring.
Qed.

Lemma std_pressure_R h T0 P0 : covered h -> itu_standard_pressure (A:=RA) h T0 P0 = exp (lnP h).
Proof.
  intros [H0 Hc]. unfold itu_standard_pressure, lnP. rewrite geopot_R. assert (G0 := G_nonneg h ltac:(lra)). ra. unfold Rleb, Rltb.
  destruct (Rle_dec (G h) (11 / 1)), (Rle_dec (G h) 11); try lra.
  { rewrite scale_pow by lra. unfold f1, kg. f_equal.
    match goal with |- ln ?a - _ * ln ?b = ln ?c + _ * ln ?d => replace (ln a) with (ln c) by (f_equal; lra); replace (ln b) with (ln d) by (f_equal; lra) end. lra. }
  destruct (Rlt_dec (11 / 1) (G h)), (Rle_dec (G h) (20 / 1)), (Rle_dec (G h) 20); try lra; cbn [andb].
  { rewrite scale_exp by lra. unfold f2, kg. f_equal.
    match goal with |- ln ?a + _ = ln ?c - _ => replace (ln a) with (ln c) by (f_equal; lra) end. lra. }
  destruct (Rlt_dec (20 / 1) (G h)), (Rle_dec (G h) (32 / 1)), (Rle_dec (G h) 32); try lra; cbn [andb].
  { rewrite scale_pow by lra. unfold f3, kg. f_equal.
    match goal with |- ln ?a - _ * ln ?b = ln ?c - _ * ln ?d => replace (ln a) with (ln c) by (f_equal; lra); replace (ln b) with (ln d) by (f_equal; lra) end. lra. }
  destruct (Rlt_dec (32 / 1) (G h)), (Rle_dec (G h) (47 / 1)), (Rle_dec (G h) 47); try lra; cbn [andb].
  { rewrite scale_pow by lra. unfold f4, kg. f_equal.
    match goal with |- ln ?a - _ * ln ?b = ln ?c - _ * ln ?d => replace (ln a) with (ln c) by (f_equal; lra); replace (ln b) with (ln d) by (f_equal; lra) end. lra. }
  destruct (Rlt_dec (47 / 1) (G h)), (Rle_dec (G h) (51 / 1)), (Rle_dec (G h) 51); try lra; cbn [andb].
  { rewrite scale_exp by lra. unfold f5, kg. f_equal.
    match goal with |- ln ?a + _ = ln ?c - _ => replace (ln a) with (ln c) by (f_equal; lra) end. lra. }
  destruct (Rlt_dec (51 / 1) (G h)), (Rle_dec (G h) (71 / 1)), (Rle_dec (G h) 71); try lra; cbn [andb].
  { rewrite scale_pow by lra. unfold f6, kg. f_equal.
    match goal with |- ln ?a - _ * ln ?b = ln ?c + _ * ln ?d => replace (ln a) with (ln c) by (f_equal; lra); replace (ln b) with (ln d) by (f_equal; lra) end. lra. }
  destruct (Rlt_dec (71 / 1) (G h)), (Rle_dec (G h) (84852 / 1000)), (Rle_dec (G h) 84.852); try lra; cbn [andb].
  { rewrite scale_pow by lra. unfold f7, kg. f_equal.
    match goal with |- ln ?a - _ * ln ?b = ln ?c + _ * ln ?d => replace (ln a) with (ln c) by (f_equal; lra); replace (ln b) with (ln d) by (f_equal; lra) end. lra. }
  destruct (Rle_dec (86 / 1) h), (Rle_dec h (100 / 1)); try lra; cbn [andb]. f_equal. unfold f8, powi. ra. cbn [pow]. lra.
Qed.

(** In the gap the pressure is 1e-62 hPa. *)
Lemma std_pressure_gap h T0 P0 : 84.852 < G h -> h < 86 -> itu_standard_pressure (A:=RA) h T0 P0 = 1 / 10 ^ 62.
Proof.
  intros H1 H2. unfold itu_standard_pressure. rewrite geopot_R. ra. unfold Rleb, Rltb.
  repeat (match goal with |- context [Rle_dec ?a ?b] => destruct (Rle_dec a b); try lra | |- context [Rlt_dec ?a ?b] => destruct (Rlt_dec a b); try lra end; cbn [andb]).
  f_equal. rewrite pow_IZR. f_equal.
Qed.

(** ** Within a layer the pressure falls by at least 11.8 % per kilometre *)

(** Logarithm of a ratio of two temperatures of a layer. *)
Lemma ln_ratio a b t0 : 0 < a -> 0 < b -> 0 < t0 -> ln (a / t0) - ln (b / t0) <= a / b - 1.
Proof.
  intros Ha Hb Ht. unfold Rdiv. rewrite !ln_mult by (auto; apply Rinv_0_lt_compat; auto). 
  assert (Q := ln_le_sub1 (a / b) ltac:(apply Rdiv_lt_0_compat; auto)). unfold Rdiv in Q. rewrite ln_mult, ln_Rinv in Q by (auto; apply Rinv_0_lt_compat; auto). lra.
Qed.

(** A layer with lapse rate [l]: falling temperature [T0 - l s]. *)
Lemma cooling c l T0 t0 x y : 0 < c -> 0 < l -> 0 < t0 -> x <= y -> 0 < T0 - l * y -> T0 - l * x <= 288.15 -> 34.1632 <= c * l ->
  c * ln ((T0 - l * y) / t0) <= c * ln ((T0 - l * x) / t0) - 0.1185 * (y - x).
Proof.
  intros Hc Hl Ht Hxy Hy Hx Hk. assert (Q := ln_ratio (T0 - l * y) (T0 - l * x) t0 Hy ltac:(nra) Ht).
  replace ((T0 - l * y) / (T0 - l * x) - 1) with (- (l * (y - x) / (T0 - l * x))) in Q by (field; nra).
  assert (R1 : 0.1185 * (y - x) <= c * (l * (y - x) / (T0 - l * x))).
  { replace (c * (l * (y - x) / (T0 - l * x))) with ((c * l) * (y - x) / (T0 - l * x)) by (field; nra). apply le_div; [nra|]. nra. }
  assert (c * (ln ((T0 - l * y) / t0) - ln ((T0 - l * x) / t0)) <= c * - (l * (y - x) / (T0 - l * x))) by (apply Rmult_le_compat_l; lra). lra.
Qed.
Lemma warming c l T0 t0 x y : 0 < c -> 0 < l -> 0 < t0 -> x <= y -> 0 < T0 + l * x -> T0 + l * y <= 288.15 -> 34.1632 <= c * l ->
  - c * ln ((T0 + l * y) / t0) <= - c * ln ((T0 + l * x) / t0) - 0.1185 * (y - x).
Proof.
  intros Hc Hl Ht Hxy Hx Hy Hk. assert (Q := ln_ratio (T0 + l * x) (T0 + l * y) t0 Hx ltac:(nra) Ht).
  replace ((T0 + l * x) / (T0 + l * y) - 1) with (- (l * (y - x) / (T0 + l * y))) in Q by (field; nra).
  assert (R1 : 0.1185 * (y - x) <= c * (l * (y - x) / (T0 + l * y))).
  { replace (c * (l * (y - x) / (T0 + l * y))) with ((c * l) * (y - x) / (T0 + l * y)) by (field; nra). apply le_div; [nra|]. nra. }
  assert (c * (ln ((T0 + l * x) / t0) - ln ((T0 + l * y) / t0)) <= c * - (l * (y - x) / (T0 + l * y))) by (apply Rmult_le_compat_l; lra). lra.
Qed.

Lemma d1 x y : 0 <= x <= y -> y <= 11 -> f1 y <= f1 x - 0.1185 * (y - x).
Proof. intros. unfold f1, kg. assert (Q := cooling (34.1632 / 6.5) 6.5 288.15 288.15 x y ltac:(lra) ltac:(lra) ltac:(lra) ltac:(lra) ltac:(lra) ltac:(lra) ltac:(lra)). lra. Qed.
Lemma d2 x y : x <= y -> f2 y <= f2 x - 0.1185 * (y - x).
Proof. intros. unfold f2, kg. lra. Qed.
Lemma d3 x y : 20 <= x <= y -> y <= 32 -> f3 y <= f3 x - 0.1185 * (y - x).
Proof. intros. unfold f3, kg. assert (Q := warming 34.1632 1 216.65 216.65 (x - 20) (y - 20) ltac:(lra) ltac:(lra) ltac:(lra) ltac:(lra) ltac:(lra) ltac:(lra) ltac:(lra)).
  rewrite !Rmult_1_l in Q. lra. Qed.
Lemma d4 x y : 32 <= x <= y -> y <= 47 -> f4 y <= f4 x - 0.1185 * (y - x).
Proof. intros. unfold f4, kg. assert (Q := warming (34.1632 / 2.8) 2.8 228.65 228.65 (x - 32) (y - 32) ltac:(lra) ltac:(lra) ltac:(lra) ltac:(lra) ltac:(lra) ltac:(lra) ltac:(lra)). lra. Qed.
Lemma d5 x y : x <= y -> f5 y <= f5 x - 0.1185 * (y - x).
Proof. intros. unfold f5, kg. lra. Qed.
Lemma d6 x y : 51 <= x <= y -> y <= 71 -> f6 y <= f6 x - 0.1185 * (y - x).
Proof. intros. unfold f6, kg. assert (Q := cooling (34.1632 / 2.8) 2.8 270.65 270.65 (x - 51) (y - 51) ltac:(lra) ltac:(lra) ltac:(lra) ltac:(lra) ltac:(lra) ltac:(lra) ltac:(lra)). lra. Qed.
Lemma d7 x y : 71 <= x <= y -> y <= 84.852 -> f7 y <= f7 x - 0.1185 * (y - x).
Proof. intros. unfold f7, kg. assert (Q := cooling (34.1632 / 2) 2 214.65 214.65 (x - 71) (y - 71) ltac:(lra) ltac:(lra) ltac:(lra) ltac:(lra) ltac:(lra) ltac:(lra) ltac:(lra)). lra. Qed.
Lemma d8 x y : 86 <= x <= y -> y <= 100 -> f8 y <= f8 x - 0.15 * (y - x).
Proof.
  intros H1 H2. unfold f8. set (u := x - 86). set (v := y - 86). replace x with (86 + u) by (unfold u; ring). replace y with (86 + v) by (unfold v; ring).
  assert (Hu : 0 <= u <= v) by (unfold u, v; lra). assert (Hv : v <= 14) by (unfold v; lra). clearbody u v. clear H1 H2 x y.
  assert (B : - 0.177 + 0.00017 * (u + v) + 0.0000014 * (u ^ 3 + u ^ 2 * v + u * v ^ 2 + v ^ 3) <= - 0.15).
  { assert (u * v <= 196) by nra. assert (0 <= u * v) by nra. assert (v ^ 2 <= 196) by nra. assert (u ^ 2 <= 196) by nra.
    assert (u ^ 3 <= 14 * 196) by (replace (u ^ 3) with (u * u ^ 2) by ring; nra). assert (v ^ 3 <= 14 * 196) by (replace (v ^ 3) with (v * v ^ 2) by ring; nra).
    assert (u ^ 2 * v <= 14 * 196) by nra. assert (u * v ^ 2 <= 14 * 196) by nra. lra. }
  assert (P2 : 0 <= u ^ 2 + u * v + v ^ 2) by nra.
  assert (P3 : 0 <= u ^ 3 + u ^ 2 * v + u * v ^ 2 + v ^ 3) by (replace (u ^ 3) with (u * u ^ 2) by ring; replace (v ^ 3) with (v * v ^ 2) by ring; nra).
  match goal with |- ?l <= ?r => assert (E : l - r = (v - u) * ((4 * 0.000001340543 * 86 ^ 3 - 3 * 0.000478966 * 86 ^ 2 + 2 * 0.06424731 * 86 - 4.011801) + 0.15
     + (6 * 0.000001340543 * 86 ^ 2 - 3 * 0.000478966 * 86 + 0.06424731) * (u + v)
     + (4 * 0.000001340543 * 86 - 0.000478966) * (u ^ 2 + u * v + v ^ 2) + 0.000001340543 * (u ^ 3 + u ^ 2 * v + u * v ^ 2 + v ^ 3))) by lra end.
  match type of E with _ = _ * ?b => assert (Hb : b <= 0) by lra; set (w := b) in * end. clearbody w. nra.
Qed.

(** ** At the seams of the layers the tabulated base pressures are too high *)

Lemma ln_div' a b : 0 < a -> 0 < b -> ln a = ln b + ln (a / b).
Proof. intros Ha Hb. rewrite <- ln_mult by (auto; apply Rdiv_lt_0_compat; auto). f_equal. field. lra. Qed.

Lemma j1 : 8e-6 <= f2 11 - f1 11 <= 9e-6.
Proof.
  unfold f1, f2, kg. rewrite (ln_div' 1013.25 226.3226) by lra.
  replace (1013.25 / 226.3226) with (723750 / 161659) by lra.
  replace ((288.15 - 6.5 * 11) / 288.15) with (4333 / 5763) by lra. rewrite (ln_inv_frac 4333 5763) by lra.
  assert (Q := ln_frac 1498956850421 1498956850424 1000000000000 723750 161659 ltac:(vm_compute; reflexivity) ltac:(vm_compute; reflexivity) ltac:(lia)).
  assert (T := ln_frac 285198029695 285198029698 1000000000000 5763 4333 ltac:(vm_compute; reflexivity) ltac:(vm_compute; reflexivity) ltac:(lia)).
  lra.
Qed.
Lemma j2 : 8e-6 <= f3 20 - f2 20 <= 9e-6.
Proof.
  unfold f2, f3, kg. rewrite (ln_div' 226.3226 54.7498) by lra.
  replace (226.3226 / 54.7498) with (161659 / 39107) by lra.
  replace ((216.65 + (20 - 20)) / 216.65) with 1 by lra. rewrite ln_1.
  assert (Q := ln_frac 1419187699362 1419187699365 1000000000000 161659 39107 ltac:(vm_compute; reflexivity) ltac:(vm_compute; reflexivity) ltac:(lia)).
  lra.
Qed.
Lemma j3 : 1e-5 <= f4 32 - f3 32 <= 1.1e-5.
Proof.
  unfold f3, f4, kg. rewrite (ln_div' 54.7498 8.680422) by lra.
  replace (54.7498 / 8.680422) with (27374900 / 4340211) by lra.
  replace ((228.65 + 2.8 * (32 - 32)) / 228.65) with 1 by lra. rewrite ln_1.
  replace ((216.65 + (32 - 20)) / 216.65) with (4573 / 4333) by lra.
  assert (Q := ln_frac 1841703570718 1841703570721 1000000000000 27374900 4340211 ltac:(vm_compute; reflexivity) ltac:(vm_compute; reflexivity) ltac:(lia)).
  assert (T := ln_frac 53909301917 53909301920 1000000000000 4573 4333 ltac:(vm_compute; reflexivity) ltac:(vm_compute; reflexivity) ltac:(lia)).
  lra.
Qed.
Lemma j4 : 1.1e-5 <= f5 47 - f4 47 <= 1.2e-5.
Proof.
  unfold f4, f5, kg. rewrite (ln_div' 8.680422 1.109106) by lra.
  replace (8.680422 / 1.109106) with (1446737 / 184851) by lra.
  replace ((228.65 + 2.8 * (47 - 32)) / 228.65) with (5413 / 4573) by lra.
  assert (Q := ln_frac 2057515859595 2057515859598 1000000000000 1446737 184851 ltac:(vm_compute; reflexivity) ltac:(vm_compute; reflexivity) ltac:(lia)).
  assert (T := ln_frac 168634023137 168634023140 1000000000000 5413 4573 ltac:(vm_compute; reflexivity) ltac:(vm_compute; reflexivity) ltac:(lia)).
  lra.
Qed.
Lemma j5 : 3e-6 <= f6 51 - f5 51 <= 4e-6.
Proof.
  unfold f5, f6, kg. rewrite (ln_div' 1.109106 0.6694167) by lra.
  replace (1.109106 / 0.6694167) with (3697020 / 2231389) by lra.
  replace ((270.65 - 2.8 * (51 - 51)) / 270.65) with 1 by lra. rewrite ln_1.
  assert (Q := ln_frac 504902828206 504902828209 1000000000000 3697020 2231389 ltac:(vm_compute; reflexivity) ltac:(vm_compute; reflexivity) ltac:(lia)).
  lra.
Qed.
Lemma j6 : 1.6e-5 <= f7 71 - f6 71 <= 1.7e-5.
Proof.
  unfold f6, f7, kg. rewrite (ln_div' 0.6694167 0.03956649) by lra.
  replace (0.6694167 / 0.03956649) with (22313890 / 1318883) by lra.
  replace ((214.65 - 2 * (71 - 71)) / 214.65) with 1 by lra. rewrite ln_1.
  replace ((270.65 - 2.8 * (71 - 51)) / 270.65) with (4293 / 5413) by lra. rewrite (ln_inv_frac 4293 5413) by lra.
  assert (Q := ln_frac 2828424188279 2828424188282 1000000000000 22313890 1318883 ltac:(vm_compute; reflexivity) ltac:(vm_compute; reflexivity) ltac:(lia)).
  assert (T := ln_frac 231817678571 231817678574 1000000000000 5413 4293 ltac:(vm_compute; reflexivity) ltac:(vm_compute; reflexivity) ltac:(lia)).
  lra.
Qed.
Lemma j7 : f8 86 <= f7 84.852 - 2e-5.
Proof.
  unfold f7, f8, kg. replace 0.03956649 with (3956649 / 100000000) by lra.
  replace ((214.65 - 2 * (84.852 - 71)) / 214.65) with (93473 / 107325) by lra. rewrite (ln_inv_frac 93473 107325) by lra.
  assert (Q := ln_frac (-3229772731084) (-3229772731081) 1000000000000 3956649 100000000 ltac:(vm_compute; reflexivity) ltac:(vm_compute; reflexivity) ltac:(lia)).
  assert (T := ln_frac 138188989570 138188989573 1000000000000 107325 93473 ltac:(vm_compute; reflexivity) ltac:(vm_compute; reflexivity) ltac:(lia)).
  lra.
Qed.

(** ** C70: the whole atmosphere *)

Definition L7 (x : R) : R :=
  if Rle_dec x 11 then f1 x else if Rle_dec x 20 then f2 x else if Rle_dec x 32 then f3 x
  else if Rle_dec x 47 then f4 x else if Rle_dec x 51 then f5 x else if Rle_dec x 71 then f6 x else f7 x.

Ltac unL7 := unfold L7; repeat match goal with |- context [Rle_dec ?a ?b] => destruct (Rle_dec a b); try lra end.

Lemma e1 x : 0 <= x <= 11 -> f1 11 <= L7 x - 0.1185 * (11 - x).
Proof. intros H. unL7. apply d1; lra. Qed.
Lemma e2 x : 0 <= x <= 20 -> f2 20 <= L7 x - 0.1185 * (20 - x) + 9e-6.
Proof.
  intros H. destruct (Rle_dec x 11).
  - assert (E := e1 x ltac:(lra)). assert (J := j1). assert (D := d2 11 20 ltac:(lra)). lra.
  - unL7. assert (D := d2 x 20 ltac:(lra)). lra.
Qed.
Lemma e3 x : 0 <= x <= 32 -> f3 32 <= L7 x - 0.1185 * (32 - x) + 18e-6.
Proof.
  intros H. destruct (Rle_dec x 20).
  - assert (E := e2 x ltac:(lra)). assert (J := j2). assert (D := d3 20 32 ltac:(lra) ltac:(lra)). lra.
  - unL7. assert (D := d3 x 32 ltac:(lra) ltac:(lra)). lra.
Qed.
Lemma e4 x : 0 <= x <= 47 -> f4 47 <= L7 x - 0.1185 * (47 - x) + 29e-6.
Proof.
  intros H. destruct (Rle_dec x 32).
  - assert (E := e3 x ltac:(lra)). assert (J := j3). assert (D := d4 32 47 ltac:(lra) ltac:(lra)). lra.
  - unL7. assert (D := d4 x 47 ltac:(lra) ltac:(lra)). lra.
Qed.
Lemma e5 x : 0 <= x <= 51 -> f5 51 <= L7 x - 0.1185 * (51 - x) + 41e-6.
Proof.
  intros H. destruct (Rle_dec x 47).
  - assert (E := e4 x ltac:(lra)). assert (J := j4). assert (D := d5 47 51 ltac:(lra)). lra.
  - unL7. assert (D := d5 x 51 ltac:(lra)). lra.
Qed.
Lemma e6 x : 0 <= x <= 71 -> f6 71 <= L7 x - 0.1185 * (71 - x) + 45e-6.
Proof.
  intros H. destruct (Rle_dec x 51).
  - assert (E := e5 x ltac:(lra)). assert (J := j5). assert (D := d6 51 71 ltac:(lra) ltac:(lra)). lra.
  - unL7. assert (D := d6 x 71 ltac:(lra) ltac:(lra)). lra.
Qed.

Lemma L7_falls x y : 0 <= x <= y -> y <= 84.852 -> L7 y <= L7 x - 0.1185 * (y - x) + 62e-6.
Proof.
  intros H1 H2. destruct (Rle_dec y 11).
  { unL7. assert (D := d1 x y ltac:(lra) ltac:(lra)). lra. }
  destruct (Rle_dec y 20).
  { assert (E : L7 y = f2 y) by unL7. rewrite E. destruct (Rle_dec x 11).
    - assert (Q := e1 x ltac:(lra)). assert (J := j1). assert (D := d2 11 y ltac:(lra)). lra.
    - unL7. assert (D := d2 x y ltac:(lra)). lra. }
  destruct (Rle_dec y 32).
  { assert (E : L7 y = f3 y) by unL7. rewrite E. destruct (Rle_dec x 20).
    - assert (Q := e2 x ltac:(lra)). assert (J := j2). assert (D := d3 20 y ltac:(lra) ltac:(lra)). lra.
    - unL7. assert (D := d3 x y ltac:(lra) ltac:(lra)). lra. }
  destruct (Rle_dec y 47).
  { assert (E : L7 y = f4 y) by unL7. rewrite E. destruct (Rle_dec x 32).
    - assert (Q := e3 x ltac:(lra)). assert (J := j3). assert (D := d4 32 y ltac:(lra) ltac:(lra)). lra.
    - unL7. assert (D := d4 x y ltac:(lra) ltac:(lra)). lra. }
  destruct (Rle_dec y 51).
  { assert (E : L7 y = f5 y) by unL7. rewrite E. destruct (Rle_dec x 47).
    - assert (Q := e4 x ltac:(lra)). assert (J := j4). assert (D := d5 47 y ltac:(lra)). lra.
    - unL7. assert (D := d5 x y ltac:(lra)). lra. }
  destruct (Rle_dec y 71).
  { assert (E : L7 y = f6 y) by unL7. rewrite E. destruct (Rle_dec x 51).
    - assert (Q := e5 x ltac:(lra)). assert (J := j5). assert (D := d6 51 y ltac:(lra) ltac:(lra)). lra.
    - unL7. assert (D := d6 x y ltac:(lra) ltac:(lra)). lra. }
  assert (E : L7 y = f7 y) by unL7. rewrite E. destruct (Rle_dec x 71).
  - assert (Q := e6 x ltac:(lra)). assert (J := j6). assert (D := d7 71 y ltac:(lra) ltac:(lra)). lra.
  - unL7. assert (D := d7 x y ltac:(lra) ltac:(lra)). lra.
Qed.

Lemma lnP_low h : G h <= 84.852 -> lnP h = L7 (G h).
Proof. intros H. unfold lnP, L7. repeat match goal with |- context [Rle_dec ?a ?b] => destruct (Rle_dec a b); try lra end. Qed.
Lemma lnP_high h : 84.852 < G h -> lnP h = f8 h.
Proof. intros H. unfold lnP. repeat match goal with |- context [Rle_dec ?a ?b] => destruct (Rle_dec a b); try lra end. Qed.
Lemma G_86 : 84.852 < G 86. Proof. unfold G. lra. Qed.
Lemma G_859999 : G 85.9999 <= 84.852. Proof. unfold G. lra. Qed.

Lemma lnP_falls h1 h2 : covered h1 -> covered h2 -> h1 <= h2 -> lnP h2 <= lnP h1 - 0.114 * (h2 - h1) + 62e-6.
Proof.
  intros [B1 C1] [B2 C2] H. assert (GL := G_le h1 h2 ltac:(lra)). assert (GR := G_rate h1 h2 ltac:(lra) ltac:(lra)). assert (G0 := G_nonneg h1 ltac:(lra)).
  destruct (Rle_dec (G h2) 84.852) as [K2|K2].
  - rewrite !lnP_low by lra. assert (Q := L7_falls (G h1) (G h2) ltac:(lra) ltac:(lra)). lra.
  - assert (86 <= h2) by lra. rewrite (lnP_high h2) by lra. destruct (Rle_dec (G h1) 84.852) as [K1|K1].
    + rewrite lnP_low by lra. assert (D := d8 86 h2 ltac:(lra) ltac:(lra)). assert (J := j7).
      assert (Q := L7_falls (G h1) 84.852 ltac:(lra) ltac:(lra)). assert (E : L7 84.852 = f7 84.852) by unL7. rewrite E in Q.
      assert (W : 0.969 * (85.9999 - h1) <= 84.852 - G h1).
      { destruct (Rle_dec h1 85.9999); [|lra]. assert (W := G_rate h1 85.9999 ltac:(lra) ltac:(lra)). assert (W2 := G_859999). lra. }
      lra.
    + rewrite lnP_high by lra. assert (D := d8 h1 h2 ltac:(lra) ltac:(lra)). lra.
Qed.

(** Wherever the tables apply the pressure is positive and falls by at least 11 % per kilometre, up to jumps of altogether 62 millionths. *)
Theorem C70_pressure_falls (h1 h2 T0 P0 : R) : covered h1 -> covered h2 -> h1 <= h2 ->
  0 < itu_standard_pressure (A:=RA) h2 T0 P0 <= itu_standard_pressure (A:=RA) h1 T0 P0 * exp (0.000062 - 0.114 * (h2 - h1)).
Proof.
  intros C1 C2 H. rewrite !std_pressure_R by auto. split; [apply exp_pos|]. rewrite <- exp_plus. apply exp_le. assert (Q := lnP_falls h1 h2 C1 C2 H). lra.
Qed.

(** In particular it is strictly smaller at any height at least one metre above. *)
Theorem C70_pressure_decreases (h1 h2 T0 P0 : R) : covered h1 -> covered h2 -> h1 + 0.001 <= h2 ->
  0 < itu_standard_pressure (A:=RA) h2 T0 P0 < itu_standard_pressure (A:=RA) h1 T0 P0.
Proof.
  intros C1 C2 H. rewrite !std_pressure_R by auto. split; [apply exp_pos|]. apply exp_increasing. assert (Q := lnP_falls h1 h2 C1 C2 ltac:(lra)). lra.
Qed.

(** Over shorter distances inside a layer as well: the heights at which a layer ends (geopotential kilometres). *)
Definition seams : list R := [11; 20; 32; 47; 51; 71; 84.852].
Theorem C70_pressure_in_layer (h1 h2 T0 P0 : R) : covered h1 -> covered h2 -> h1 < h2 -> (forall s, In s seams -> ~ (G h1 <= s < G h2)) ->
  0 < itu_standard_pressure (A:=RA) h2 T0 P0 < itu_standard_pressure (A:=RA) h1 T0 P0.
Proof.
  intros [B1 C1] [B2 C2] H S. rewrite !std_pressure_R by (split; auto). split; [apply exp_pos|]. apply exp_increasing.
  assert (GL := G_lt h1 h2 ltac:(lra)). assert (G0 := G_nonneg h1 ltac:(lra)).
  assert (S1 := S 11 ltac:(cbn; auto)). assert (S2 := S 20 ltac:(cbn; auto)). assert (S3 := S 32 ltac:(cbn; auto)). assert (S4 := S 47 ltac:(cbn; auto 10)).
  assert (S5 := S 51 ltac:(cbn; auto 10)). assert (S6 := S 71 ltac:(cbn; auto 10)). assert (S7 := S 84.852 ltac:(cbn; auto 10)).
  unfold lnP. 
  destruct (Rle_dec (G h2) 11). { destruct (Rle_dec (G h1) 11); [|lra]. assert (D := d1 (G h1) (G h2) ltac:(lra) ltac:(lra)). lra. }
  destruct (Rle_dec (G h1) 11); [lra|].
  destruct (Rle_dec (G h2) 20). { destruct (Rle_dec (G h1) 20); [|lra]. assert (D := d2 (G h1) (G h2) ltac:(lra)). lra. }
  destruct (Rle_dec (G h1) 20); [lra|].
  destruct (Rle_dec (G h2) 32). { destruct (Rle_dec (G h1) 32); [|lra]. assert (D := d3 (G h1) (G h2) ltac:(lra) ltac:(lra)). lra. }
  destruct (Rle_dec (G h1) 32); [lra|].
  destruct (Rle_dec (G h2) 47). { destruct (Rle_dec (G h1) 47); [|lra]. assert (D := d4 (G h1) (G h2) ltac:(lra) ltac:(lra)). lra. }
  destruct (Rle_dec (G h1) 47); [lra|].
  destruct (Rle_dec (G h2) 51). { destruct (Rle_dec (G h1) 51); [|lra]. assert (D := d5 (G h1) (G h2) ltac:(lra)). lra. }
  destruct (Rle_dec (G h1) 51); [lra|].
  destruct (Rle_dec (G h2) 71). { destruct (Rle_dec (G h1) 71); [|lra]. assert (D := d6 (G h1) (G h2) ltac:(lra) ltac:(lra)). lra. }
  destruct (Rle_dec (G h1) 71); [lra|].
  destruct (Rle_dec (G h2) 84.852). { destruct (Rle_dec (G h1) 84.852); [|lra]. assert (D := d7 (G h1) (G h2) ltac:(lra) ltac:(lra)). lra. }
  destruct (Rle_dec (G h1) 84.852); [lra|]. assert (D := d8 h1 h2 ltac:(lra) ltac:(lra)). lra.
Qed.

Lemma G_onto s : 0 <= s <= 84.852 -> exists h, 0 <= h <= 86 /\ G h = s.
Proof.
  intros H. exists (6356.766 * s / (6356.766 - s)). split; [split|].
  - apply le_div; nra.
  - apply div_le; nra.
  - unfold G. set (r := 6356.766) in *. assert (0 < r - s) by (unfold r; lra). assert (0 < r) by (unfold r; lra). clearbody r. field. nra.
Qed.

(** The fall just above a seam is at most 20 % per kilometre. *)
Lemma slow_cooling c l T0 t0 y : 0 < c -> 0 < l -> 0 < t0 -> 0 <= y -> 180 <= T0 - l * y -> c * l <= 34.1632 ->
  c * ln (T0 / t0) - 0.2 * y <= c * ln ((T0 - l * y) / t0).
Proof.
  intros Hc Hl Ht Hy Hx Hk. assert (Q := ln_ratio T0 (T0 - l * y) t0 ltac:(nra) ltac:(lra) Ht).
  replace (T0 / (T0 - l * y) - 1) with (l * y / (T0 - l * y)) in Q by (field; lra).
  assert (R1 : c * (l * y / (T0 - l * y)) <= 0.2 * y).
  { replace (c * (l * y / (T0 - l * y))) with ((c * l) * y / (T0 - l * y)) by (field; lra). apply div_le; [lra|]. nra. }
  assert (c * (ln (T0 / t0) - ln ((T0 - l * y) / t0)) <= c * (l * y / (T0 - l * y))) by (apply Rmult_le_compat_l; lra). lra.
Qed.
Lemma slow_warming c l T0 t0 y : 0 < c -> 0 < l -> 0 < t0 -> 0 <= y -> 180 <= T0 -> c * l <= 34.1632 ->
  - c * ln (T0 / t0) - 0.2 * y <= - c * ln ((T0 + l * y) / t0).
Proof.
  intros Hc Hl Ht Hy Hx Hk. assert (Q := ln_ratio (T0 + l * y) T0 t0 ltac:(nra) ltac:(lra) Ht).
  replace ((T0 + l * y) / T0 - 1) with (l * y / T0) in Q by (field; lra).
  assert (R1 : c * (l * y / T0) <= 0.2 * y).
  { replace (c * (l * y / T0)) with ((c * l) * y / T0) by (field; lra). apply div_le; [lra|]. nra. }
  assert (c * (ln ((T0 + l * y) / t0) - ln (T0 / t0)) <= c * (l * y / T0)) by (apply Rmult_le_compat_l; lra). lra.
Qed.

Lemma above_seam s e : In s [11; 20; 32; 47; 51; 71] -> 0 < e <= 1e-5 -> L7 s < L7 (s + e).
Proof.
  intros Hs He. cbn [In] in Hs. destruct Hs as [<-|[<-|[<-|[<-|[<-|[<-|[]]]]]]]; unL7.
  - assert (J := j1). unfold f2 in *. unfold kg in *. lra.
  - assert (J := j2). unfold f3 in *. unfold kg in *. assert (Q := slow_warming 34.1632 1 216.65 216.65 e ltac:(lra) ltac:(lra) ltac:(lra) ltac:(lra) ltac:(lra) ltac:(lra)).
    replace (216.65 + (20 + e - 20)) with (216.65 + 1 * e) by lra. replace (216.65 + (20 - 20)) with 216.65 in J by lra. lra.
  - assert (J := j3). unfold f4 in *. unfold kg in *. assert (Q := slow_warming (34.1632 / 2.8) 2.8 228.65 228.65 e ltac:(lra) ltac:(lra) ltac:(lra) ltac:(lra) ltac:(lra) ltac:(lra)).
    replace (228.65 + 2.8 * (32 + e - 32)) with (228.65 + 2.8 * e) by lra. replace (228.65 + 2.8 * (32 - 32)) with 228.65 in J by lra. lra.
  - assert (J := j4). unfold f5 in *. unfold kg in *. lra.
  - assert (J := j5). unfold f6 in *. unfold kg in *. assert (Q := slow_cooling (34.1632 / 2.8) 2.8 270.65 270.65 e ltac:(lra) ltac:(lra) ltac:(lra) ltac:(lra) ltac:(lra) ltac:(lra)).
    replace (270.65 - 2.8 * (51 + e - 51)) with (270.65 - 2.8 * e) by lra. replace (270.65 - 2.8 * (51 - 51)) with 270.65 in J by lra. lra.
  - assert (J := j6). unfold f7 in *. unfold kg in *. assert (Q := slow_cooling (34.1632 / 2) 2 214.65 214.65 e ltac:(lra) ltac:(lra) ltac:(lra) ltac:(lra) ltac:(lra) ltac:(lra)).
    replace (214.65 - 2 * (71 + e - 71)) with (214.65 - 2 * e) by lra. replace (214.65 - 2 * (71 - 71)) with 214.65 in J by lra. lra.
Qed.

(** Strict decrease fails at each of the six inner seams: arbitrarily close above it the pressure is higher than at the seam. *)
Theorem C70_seams_refuted (s d T0 P0 : R) : In s [11; 20; 32; 47; 51; 71] -> 0 < d ->
  exists h h', covered h /\ covered h' /\ G h = s /\ h < h' < h + d /\ itu_standard_pressure (A:=RA) h T0 P0 < itu_standard_pressure (A:=RA) h' T0 P0.
Proof.
  intros Hs Hd. set (e := Rmin 1e-5 (d / 2)).
  assert (He : 0 < e <= 1e-5) by (unfold e; split; [apply Rmin_glb_lt; lra|apply Rmin_l]). assert (He2 : e <= d / 2) by apply Rmin_r. clearbody e.
  assert (Bs : 11 <= s <= 71) by (cbn [In] in Hs; destruct Hs as [<-|[<-|[<-|[<-|[<-|[<-|[]]]]]]]; lra).
  destruct (G_onto s ltac:(lra)) as (h & Bh & Eh). destruct (G_onto (s + e) ltac:(lra)) as (h' & Bh' & Eh').
  assert (Hlt : h < h'). { destruct (Rlt_dec h h'); [auto|]. assert (Q := G_le h' h ltac:(lra)). lra. }
  assert (GR := G_rate h h' ltac:(lra) ltac:(lra)).
  assert (C : covered h) by (split; [lra|left; lra]). assert (C' : covered h') by (split; [lra|left; lra]).
  exists h, h'. repeat (split; [auto; lra|]). rewrite !std_pressure_R by auto. apply exp_increasing. rewrite !lnP_low by lra. rewrite Eh, Eh'. apply above_seam; auto.
Qed.

(** In the gap below 86 km the pressure is practically zero and rises again above it. *)
Theorem C70_gap_refuted (h T0 P0 : R) : 84.852 < G h -> h < 86 ->
  itu_standard_pressure (A:=RA) h T0 P0 = 1 / 10 ^ 62 /\ 0.002 < itu_standard_pressure (A:=RA) 86 T0 P0.
Proof.
  intros H1 H2. split; [apply std_pressure_gap; auto|].
  rewrite std_pressure_R by (split; [lra|right; lra]). rewrite lnP_high by apply G_86.
  assert (Q := exp_ge (-6) 1 2 1000 ltac:(vm_compute; reflexivity)).
  assert (E : -6 / 1 < f8 86) by (unfold f8; lra). apply exp_increasing in E. lra.
Qed.
Example C70_gap_example : 84.852 < G 85.99996 /\ 85.99996 < 86.
Proof. split; [unfold G|]; lra. Qed.
Example C70_falls_example : covered 12 /\ covered 12.5 /\ covered 90.
Proof.
  unfold covered. split; [split; [lra|left; unfold G; lra]|]. split; [split; [lra|left; unfold G; lra]|]. split; [lra|right; lra].
Qed.

(** Temperatures stay between 186 K and 289 K. *)
Theorem C70_temperature (h T0 : R) : 0 <= h <= 100 -> 186 < itu_standard_temperature (A:=RA) h T0 < 289.
Proof.
  intros H. unfold itu_standard_temperature. rewrite geopot_R. assert (G0 := G_nonneg h ltac:(lra)). ra. unfold Rleb, Rltb.
  repeat (match goal with |- context [Rle_dec ?a ?b] => destruct (Rle_dec a b); try lra | |- context [Rlt_dec ?a ?b] => destruct (Rlt_dec a b); try lra end; cbn [andb]; try lra).
  unfold powi. ra. set (q := (h - 91 / 1) / (199429 / 10000)).
  assert (Hq : 0 <= q <= 0.5).
  { unfold q. split; [apply le_div; lra|apply div_le; lra]. }
  assert (S1 : sqrt (1 / 1 - q * q) <= 1) by (replace 1 with (sqrt 1) at 3 by apply sqrt_1; apply sqrt_le_1_alt; nra).
  assert (S0 := sqrt_pos (1 / 1 - q * q)). lra.
Qed.

(** ** C71: the surface values are not used *)
Theorem C71_refuted (A : Arith) (h T0 T0' P0 P0' : car A) :
  itu_standard_temperature h T0 = itu_standard_temperature h T0' /\ itu_standard_pressure h T0 P0 = itu_standard_pressure h T0' P0'.
Proof. split; reflexivity. Qed.

(** At the ground the temperature is 288.15 K and the pressure 1013.25 hPa whatever was asked for. *)
Theorem C71_surface_refuted (T0 P0 : R) : itu_standard_temperature (A:=RA) 0 T0 = 288.15 /\ itu_standard_pressure (A:=RA) 0 T0 P0 = 1013.25.
Proof.
  split.
  - unfold itu_standard_temperature. rewrite geopot_R, G_0. ra. rewrite Rleb_true by lra. lra.
  - rewrite std_pressure_R by (split; [lra|left; rewrite G_0; lra]). rewrite lnP_low by (rewrite G_0; lra). rewrite G_0. unL7. unfold f1.
    replace ((288.15 - 6.5 * 0) / 288.15) with 1 by lra. rewrite ln_1, Rmult_0_r, Rplus_0_r. apply exp_ln. lra.
Qed.
Example C71_example : ex_standard_temperature (A:=RA) [0] 300 = [288.15].
Proof. cbn [ex_standard_temperature map]. f_equal. apply C71_surface_refuted. exact 0. Qed.

