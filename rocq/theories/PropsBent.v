(** Claim C26 continued and C114: the bent path in closed form and Snell's law along it. *)

From Coq Require Import ZArith Reals Lra Lia List Bool.
Import ListNotations.
From Verif Require Import Arith PyBase Utils RTE Spec RealAux Integral ListAux PropsRay.
Open Scope R_scope.

(** ** Elementary bounds *)

Lemma sin_lb3 x : 0 <= x <= 4 -> x - x * x * x / 6 <= sin x.
Proof.
  intros H. destruct (pre_sin_bound x 0 ltac:(lra) ltac:(lra)) as [L _]. unfold sin_approx, sin_term in L.
  cbn [sum_f_R0 Nat.mul Nat.add pow fact INR] in L. cbn in L. lra.
Qed.

Lemma cos_ub4 x : -2 <= x <= 2 -> cos x <= 1 - x * x / 2 + x * x * x * x / 24.
Proof.
  intros H. destruct (pre_cos_bound x 0 ltac:(lra) ltac:(lra)) as [_ L]. unfold cos_approx, cos_term in L.
  cbn in L. lra.
Qed.

Lemma asin_le2 x : 0 <= x <= 1/2 -> 0 <= asin x <= 2 * x.
Proof.
  intros H. assert (B := asin_bound x). assert (P3 := PI2_3_2). unfold PI2 in P3.
  assert (S : sin (asin x) = x) by (apply sin_asin; lra). split.
  - apply Rnot_lt_le. intros C. assert (sin (asin x) < sin 0) by (apply sin_increasing_1; lra). rewrite sin_0 in *. lra.
  - apply Rnot_lt_le. intros C. assert (sin (2 * x) < sin (asin x)) by (apply sin_increasing_1; lra).
    assert (L := sin_lb3 (2 * x) ltac:(lra)). nra.
Qed.

Lemma asin_abs2 x : Rabs x <= 1/2 -> Rabs (asin x) <= 2 * Rabs x.
Proof.
  intros H. destruct (Rle_lt_dec 0 x).
  - rewrite (Rabs_pos_eq x) in * by auto. destruct (asin_le2 x ltac:(lra)). rewrite Rabs_pos_eq; lra.
  - rewrite (Rabs_left x) in * by auto. destruct (asin_le2 (- x) ltac:(lra)). rewrite asin_opp in *.
    rewrite Rabs_left1; lra.
Qed.

Lemma Rabs_def2_le x a : Rabs x <= a -> - a <= x <= a.
Proof. intros H. assert (A := Rle_abs x). assert (B := Rle_abs (- x)). rewrite Rabs_Ropp in B. lra. Qed.

(** ** The elevation of the traced ray *)

(** Sine of half the elevation as the code takes it, and the elevation it derives from it, for a ray leaving radius [rs] with
    elevation [th] in index [n0], at height [z] where the index is [n]. *)
Definition half_sine (rs th n0 z n : R) : R := sqrt ((1 + z / rs - n0 / n * cos th) / 2).
Definition quarter_sine (rs th n0 z n : R) : R :=
  cos th * (z - rs * (n0 / n - 1)) / (rs + z) / 2
  / (2 * (half_sine rs th n0 z n + sin (th / 2)) * cos (asin (half_sine rs th n0 z n) / 2 + th / 4)).
Definition elevation (rs th n0 z n : R) : R := th + 4 * asin (quarter_sine rs th n0 z n).

(** Troposphere and stratosphere seen at moderate elevation. *)
Definition air (z n : R) : Prop := 0 <= z <= 100 /\ 1 <= n <= 1.001.
Definition slanted (th : R) : Prop := 0.35 <= th < PI / 2.

Section Geometry.
Variables (rs th n0 z n : R).
Hypothesis (Hrs : 6300 <= rs) (Hth : slanted th) (Hn0 : 1 <= n0 <= 1.001) (Hzn : air z n).

Lemma geo_cos : 0 < cos th <= 0.95.
Proof.
  destruct Hth as [H1 H2]. split; [apply cos_gt_0; lra|].
  assert (cos th <= cos 0.35) by (apply cos_decr_1; lra). assert (L := cos_ub4 0.35 ltac:(lra)). lra.
Qed.

Lemma geo_ratio : 0.999 <= n0 / n <= 1.001.
Proof.
  destruct Hzn as [_ Hn]. split; apply Rmult_le_reg_r with n; try lra; unfold Rdiv; rewrite Rmult_assoc, Rinv_l by lra; lra.
Qed.

Lemma geo_zrs : 0 <= z / rs <= 0.016.
Proof.
  destruct Hzn as [Hz _]. split; [apply Rmult_le_pos; [lra|apply Rlt_le, Rinv_0_lt_compat; lra]|].
  apply Rmult_le_reg_r with rs; [lra|]. unfold Rdiv. rewrite Rmult_assoc, Rinv_l by lra. lra.
Qed.

Lemma geo_arg : 0.049 <= 1 + z / rs - n0 / n * cos th <= 1.016.
Proof.
  assert (C := geo_cos). assert (N := geo_ratio). assert (Z := geo_zrs). nra.
Qed.

Lemma geo_half : 0.15 <= half_sine rs th n0 z n <= 0.72.
Proof.
  assert (A := geo_arg). unfold half_sine. split.
  - rewrite <- (sqrt_square 0.15) by lra. apply sqrt_le_1_alt. lra.
  - rewrite <- (sqrt_square 0.72) by lra. apply sqrt_le_1_alt. lra.
Qed.

Lemma geo_half_sin : half_sine rs th n0 z n <= sin th.
Proof.
  destruct Hth as [H1 H2]. assert (C := geo_cos). assert (N := geo_ratio). assert (Z := geo_zrs).
  assert (S0 : 0 <= sin th) by (apply sin_ge_0; lra). assert (E := sin2_cos2 th). unfold Rsqr in E.
  unfold half_sine. rewrite <- (sqrt_square (sin th)) by auto. apply sqrt_le_1_alt. nra.
Qed.

Lemma geo_asin : 0 < asin (half_sine rs th n0 z n) <= th /\ asin (half_sine rs th n0 z n) <= PI / 3.
Proof.
  destruct Hth as [H1 H2]. assert (H := geo_half). assert (HS := geo_half_sin). assert (P := PI_RGT_0).
  set (u := half_sine rs th n0 z n) in *. assert (B := asin_bound u).
  assert (S : sin (asin u) = u) by (apply sin_asin; lra). repeat split.
  - apply Rnot_le_lt. intros K. assert (sin (asin u) <= sin 0) by (apply sin_incr_1; lra). rewrite sin_0 in *. lra.
  - apply Rnot_lt_le. intros K. assert (sin th < sin (asin u)) by (apply sin_increasing_1; lra). lra.
  - apply Rnot_lt_le. intros K. assert (sin (PI / 3) < sin (asin u)) by (apply sin_increasing_1; lra).
    rewrite sin_PI3 in *. assert (1.7 <= sqrt 3) by (rewrite <- (sqrt_square 1.7) by lra; apply sqrt_le_1_alt; lra). lra.
Qed.

Definition geo_den : R := 2 * (half_sine rs th n0 z n + sin (th / 2)) * cos (asin (half_sine rs th n0 z n) / 2 + th / 4).

Lemma geo_sin_half : 0.17 <= sin (th / 2).
Proof.
  destruct Hth as [H1 H2]. assert (L := sin_lb3 0.175 ltac:(lra)). assert (P := PI_RGT_0).
  assert (sin 0.175 <= sin (th / 2)) by (apply sin_incr_1; lra). lra.
Qed.

Lemma geo_cos_half : 1/2 <= cos (asin (half_sine rs th n0 z n) / 2 + th / 4).
Proof.
  destruct Hth as [H1 H2]. assert (A := geo_asin). assert (P := PI_RGT_0). rewrite <- cos_PI3. apply cos_decr_1; lra.
Qed.

Lemma geo_den_ge : 0.32 <= geo_den.
Proof. assert (A := geo_sin_half). assert (B := geo_cos_half). assert (C := geo_half). unfold geo_den. nra. Qed.

Lemma geo_num : Rabs ((z - rs * (n0 / n - 1)) / (rs + z)) <= 0.017.
Proof.
  destruct Hzn as [Hz _]. assert (N := geo_ratio). set (x := n0 / n - 1). assert (X : -0.001 <= x <= 0.001) by (unfold x; lra).
  assert (RX : -0.001 * rs <= rs * x <= 0.001 * rs) by nra. apply Rabs_le.
  split; apply Rmult_le_reg_r with (rs + z); try lra; unfold Rdiv; rewrite Rmult_assoc, Rinv_l by lra; lra.
Qed.

Lemma geo_quarter : Rabs (quarter_sine rs th n0 z n) <= 0.027 * cos th.
Proof.
  assert (C := geo_cos). assert (D := geo_den_ge). assert (N := geo_num). unfold quarter_sine. fold geo_den.
  replace (cos th * (z - rs * (n0 / n - 1)) / (rs + z) / 2 / geo_den)
    with (cos th * ((z - rs * (n0 / n - 1)) / (rs + z)) * (/ (2 * geo_den))).
  2:{ destruct Hzn. field. repeat split; lra. }
  rewrite !Rabs_mult. rewrite (Rabs_pos_eq (cos th)) by lra.
  assert (I : 0 < / (2 * geo_den)) by (apply Rinv_0_lt_compat; lra). rewrite (Rabs_pos_eq (/ (2 * geo_den))) by lra.
  assert (J : / (2 * geo_den) <= 1.57).
  { apply Rmult_le_reg_r with (2 * geo_den); [lra|]. rewrite Rinv_l by lra. lra. }
  assert (A0 := Rabs_pos ((z - rs * (n0 / n - 1)) / (rs + z))).
  set (x := Rabs ((z - rs * (n0 / n - 1)) / (rs + z))) in *.
  assert (x * / (2 * geo_den) <= 0.017 * 1.57) by (apply Rmult_le_compat; lra).
  replace (cos th * x * / (2 * geo_den)) with (cos th * (x * / (2 * geo_den))) by ring. nra.
Qed.

Lemma geo_elev : 0.14 <= elevation rs th n0 z n < PI / 2.
Proof.
  destruct Hth as [H1 H2]. assert (C := geo_cos). assert (Q := geo_quarter).
  assert (A := asin_abs2 (quarter_sine rs th n0 z n) ltac:(lra)).
  assert (CT : cos th <= PI / 2 - th).
  { rewrite <- sin_shift. destruct (Req_dec (PI / 2 - th) 0); [lra|]. apply Rlt_le, sin_lt_x. lra. }
  assert (U : Rabs (asin (quarter_sine rs th n0 z n)) <= 0.054 * cos th) by lra.
  apply Rabs_def2_le in U. unfold elevation. lra.
Qed.

End Geometry.

(** ** The path *)

(** Mean index of a layer: the mean of the refractivity under an exponential profile. *)
Definition mean_index (p n : R) : R :=
  if Req_EM_T n p then (n + p) / 2 else if Req_EM_T n 1 then (n + p) / 2 else if Req_EM_T p 1 then (n + p) / 2
  else 1 + (p - n) / ln ((p - 1) / (n - 1)).

Lemma mean_index_ge p n : 1 <= p -> 1 <= n -> 1 <= mean_index p n.
Proof.
  intros Hp Hn. unfold mean_index. destruct (Req_EM_T n p); [lra|]. destruct (Req_EM_T n 1); [lra|]. destruct (Req_EM_T p 1); [lra|].
  assert (0 <= (p - n) / ln ((p - 1) / (n - 1))); [|lra].
  destruct (Rlt_le_dec n p) as [H|H].
  - apply Rlt_le, Rdiv_lt_0_compat; [lra|]. rewrite <- ln_1. apply ln_increasing; [lra|].
    apply Rmult_lt_reg_r with (n - 1); [lra|]. unfold Rdiv. rewrite Rmult_assoc, Rinv_l by lra. lra.
  - replace ((p - n) / ln ((p - 1) / (n - 1))) with ((n - p) / - ln ((p - 1) / (n - 1))).
    2:{ unfold Rdiv. rewrite Rinv_opp. ring. }
    apply Rlt_le, Rdiv_lt_0_compat; [lra|]. assert (ln ((p - 1) / (n - 1)) < 0); [|lra].
    rewrite <- ln_1. apply ln_increasing; [apply Rdiv_lt_0_compat; lra|].
    apply Rmult_lt_reg_r with (n - 1); [lra|]. unfold Rdiv. rewrite Rmult_assoc, Rinv_l by lra. lra.
Qed.

Lemma refbar_X p n : 1 <= p -> 1 <= n -> ray_refbar (A:=XA) (Fin p) (Fin n) = Fin (mean_index p n).
Proof.
  intros Hp Hn. unfold ray_refbar, mean_index. xa. unfold xeqb.
  unfold Reqb. replace (10 / 10) with 1 by lra.
  destruct (Req_EM_T n p); cbn [orb]; [xa; f_equal; lra|].
  destruct (Req_EM_T n 1); cbn [orb]; [xa; f_equal; lra|].
  destruct (Req_EM_T p 1); cbn [orb]; [xa; f_equal; lra|].
  replace (p + - (1)) with (p - 1) by lra. replace (n + - (1)) with (n - 1) by lra. replace (p + - n) with (p - n) by lra.
  rewrite xdiv_fin by lra. unfold xln. destruct (Rlt_dec 0 ((p - 1) / (n - 1))) as [H|H].
  - rewrite xdiv_fin.
    + cbn [xadd]. reflexivity.
    + intros E. assert (K : (p - 1) / (n - 1) = 1) by (apply ln_inv; [exact H|lra|rewrite E, ln_1; reflexivity]).
      apply (f_equal (fun x => x * (n - 1))) in K. unfold Rdiv in K. rewrite Rmult_assoc, Rinv_l in K by lra. lra.
  - exfalso. apply H. apply Rdiv_lt_0_compat; lra.
Qed.

(** Bending of the ray in a layer between elevations [el] and [e], index [p] below and [n] above. *)
Definition bending (el e p n : R) : R := (1 / tan e + 1 / tan el) / 2 * (p - n) / mean_index p n.
(** Length of an element: chord between the radii [rl] and [r] seen under the angle [dphi] from the centre, times arc over chord. *)
Definition element (rl r dphi b : R) : R :=
  sqrt ((r - rl) ^ 2 + 4 * r * rl * sin (dphi / 2) ^ 2) * (if Req_EM_T b 0 then 1 else (Rabs b / 2) / sin (Rabs b / 2)).

Lemma cot_bound e : 0.14 <= e < PI / 2 -> 0 < sin e /\ 0 < cos e /\ 0 < 1 / tan e <= 7.2.
Proof.
  intros H. assert (L := sin_lb3 0.14 ltac:(lra)).
  assert (S : sin 0.14 <= sin e) by (apply sin_incr_1; lra).
  assert (C : 0 < cos e) by (apply cos_gt_0; lra). assert (C1 := COS_bound e).
  assert (S0 : 0.139 <= sin e) by lra. split; [lra|]. split; [lra|].
  replace (1 / tan e) with (cos e / sin e) by (unfold tan; field; lra). split; [apply Rdiv_lt_0_compat; lra|].
  apply Rmult_le_reg_r with (sin e); [lra|]. unfold Rdiv. rewrite Rmult_assoc, Rinv_l by lra. lra.
Qed.

Lemma bending_small el e p n : 0.14 <= el < PI / 2 -> 0.14 <= e < PI / 2 -> 1 <= p <= 1.001 -> 1 <= n <= 1.001 -> Rabs (bending el e p n) <= 0.008.
Proof.
  intros Hl He Hp Hn. destruct (cot_bound _ Hl) as (_ & _ & A). destruct (cot_bound _ He) as (_ & _ & B).
  assert (M := mean_index_ge p n ltac:(lra) ltac:(lra)). unfold bending, Rdiv at 1. rewrite !Rabs_mult.
  assert (I : 0 < / mean_index p n <= 1).
  { split; [apply Rinv_0_lt_compat; lra|]. rewrite <- Rinv_1. apply Rinv_le_contravar; lra. }
  rewrite (Rabs_pos_eq (/ mean_index p n)) by lra. rewrite (Rabs_pos_eq ((1 / tan e + 1 / tan el) / 2)) by lra.
  assert (X : Rabs (p - n) <= 0.001) by (apply Rabs_le; lra). assert (X0 := Rabs_pos (p - n)).
  assert ((1 / tan e + 1 / tan el) / 2 * Rabs (p - n) <= 7.2 * 0.001) by (apply Rmult_le_compat; lra).
  assert (0 <= (1 / tan e + 1 / tan el) / 2 * Rabs (p - n)) by (apply Rmult_le_pos; lra). nra.
Qed.

Definition st (phi tau rl el zp p : R) : ray_state (A:=XA) := mkRay (A:=XA) (Fin phi) (Fin tau) (Fin rl) (Fin (tan el)) (Fin zp) (Fin p).

Lemma step_bent n0 a z0 phi tau el zp p z n : 6300 <= Re + z0 -> slanted (rad a) -> 1 <= n0 <= 1.001 -> air zp p -> air z n ->
  0.14 <= el < PI / 2 ->
  let rs := Re + z0 in let e := elevation rs (rad a) n0 z n in let b := bending el e p n in
  let phi' := (e - rad a) + (tau + b) in
  ray_step (A:=XA) (rc_X 0 n0 a z0) (st phi tau (rs + zp) el zp p) (Fin z) (Fin n) =
  Some (Fin (element (rs + zp) (rs + z) (phi' - phi) b), st phi' (tau + b) (rs + z) e z n).
Proof.
  intros Hrs Hth Hn0 Hzp Hzn Hel rs e b phi'. change (6300 <= rs) in Hrs.
  rewrite rc_X_eq. replace (Re + 0 + z0) with rs by (unfold rs; lra). set (th := rad a) in *.
  assert (Ge := geo_elev rs th n0 z n Hrs Hth Hn0 Hzn). fold e in Ge.
  assert (GA := geo_arg rs th n0 z n Hrs Hth Hn0 Hzn).
  assert (GH := geo_half rs th n0 z n Hrs Hth Hn0 Hzn).
  assert (GS := geo_asin rs th n0 z n Hrs Hth Hn0 Hzn).
  assert (GD := geo_den_ge rs th n0 z n Hrs Hth Hn0 Hzn).
  assert (GQ := geo_quarter rs th n0 z n Hrs Hth Hn0 Hzn). assert (GC := geo_cos th Hth).
  set (hs := half_sine rs th n0 z n) in *.
  destruct Hzn as [Hz Hn]. destruct Hzp as [Hzp Hp].
  unfold ray_step, st. cbn [rc_theta0 rc_rs rc_costh0 rc_sina rc_a0 rc_z0 rc_n0 ry_nprev ry_taul ry_tanthl ry_zprev ry_rl ry_phil].
  change (add (a:=XA) (add (a:=XA) (k_EarthRadius (A:=XA)) (Fin z)) (Fin z0)) with (Fin (6370949 / 1000 + z + z0)).
  replace (6370949 / 1000 + z + z0) with (rs + z) by (unfold rs, Re; lra).
  rewrite refbar_X by lra.
  set (g := z / rs - (n0 / n - 1) * cos th).
  assert (EA : sub (a:=XA) (div (a:=XA) (Fin z) (Fin rs)) (div (a:=XA) (mul (a:=XA) (sub (a:=XA) (Fin n0) (Fin n)) (Fin (cos th))) (Fin n)) = Fin g).
  { xa. rewrite !xdiv_fin by lra. xa. f_equal. unfold g. field. lra. }
  set (q := (1 - cos th + g) / 2).
  assert (Hq : 0.02 <= q <= 0.51) by (unfold q, g; lra).
  assert (EH : div (a:=XA) (mul (a:=XA) (lit (a:=XA) 0.5) (add (a:=XA) (Fin (1 - cos th)) (Fin g))) (Fin (rs + z)) = Fin (q / (rs + z))).
  { xa. rewrite !xdiv_fin by lra. f_equal. unfold q. field. lra. }
  cbv zeta. rewrite EA, EH.
  replace (leb (a:=XA) (Fin (q / (rs + z))) (lit (a:=XA) 0)) with false.
  2:{ symmetry. assert (0 < q / (rs + z)) by (apply Rdiv_lt_0_compat; lra).
      xa. unfold xleb, xltb, xeqb. rewrite Rltb_false by lra. rewrite Reqb_false by lra. reflexivity. }
  assert (ES : sqrtf (a:=XA) (mul (a:=XA) (Fin (rs + z)) (Fin (q / (rs + z)))) = Fin hs).
  { xa. replace ((rs + z) * (q / (rs + z))) with q by (field; lra). rewrite xsqrt_fin by lra. f_equal.
    unfold hs, half_sine, q, g. f_equal. lra. }
  rewrite ES.
  assert (ET : mul (a:=XA) (lit (a:=XA) 2.0) (asinf (a:=XA) (Fin hs)) = Fin (2 * asin hs)).
  { xa. unfold xasin. rewrite Rabs_pos_eq by lra. destruct (Rle_dec _ _); [|lra]. xa. f_equal. lra. }
  rewrite ET.
  replace (leb (a:=XA) (sub (a:=XA) (Fin (2 * asin hs)) (mul (a:=XA) (lit (a:=XA) 2.0) (Fin th))) (lit (a:=XA) 0.0)) with true.
  2:{ symmetry. xa. unfold xleb, xltb, xeqb. apply orb_true_iff. destruct (Rlt_le_dec (2 * asin hs + - (20 / 10 * th)) (0 / 10)).
      - left. apply Rltb_true. auto.
      - right. apply Reqb_true. lra. }
  assert (ED : mul (a:=XA) (mul (a:=XA) (lit (a:=XA) 2.0) (add (a:=XA) (Fin hs) (Fin (sin (th / 2)))))
     (cosf (a:=XA) (mul (a:=XA) (add (a:=XA) (Fin (2 * asin hs)) (Fin th)) (lit (a:=XA) 0.25))) = Fin (geo_den rs th n0 z n)).
  { xa. f_equal. unfold geo_den. fold hs. f_equal; [lra|]. f_equal. lra. }
  rewrite ED.
  assert (EQ : asinf (a:=XA) (div (a:=XA) (sub (a:=XA) (mul (a:=XA) (lit (a:=XA) 0.5) (Fin g)) (mul (a:=XA) (Fin z) (Fin (q / (rs + z))))) (Fin (geo_den rs th n0 z n)))
     = Fin (asin (quarter_sine rs th n0 z n))).
  { xa. rewrite xdiv_fin by lra. match goal with |- xasin (Fin ?x) = _ => replace x with (quarter_sine rs th n0 z n) end.
    - unfold xasin. destruct (Rle_dec _ _); [reflexivity|lra].
    - unfold quarter_sine. fold hs. fold (geo_den rs th n0 z n). f_equal. unfold q, g. field. repeat split; lra. }
  rewrite EQ.
  assert (E4 : mul (a:=XA) (lit (a:=XA) 4.0) (Fin (asin (quarter_sine rs th n0 z n))) = Fin (e - th)).
  { xa. f_equal. unfold e, elevation. lra. }
  rewrite E4.
  assert (E5 : add (a:=XA) (Fin th) (Fin (e - th)) = Fin e) by (xa; f_equal; lra).
  rewrite E5. destruct (cot_bound e Ge) as (Se & Ce & Te). destruct (cot_bound el Hel) as (Sl & Cl & Tl).
  assert (TE : tanf (a:=XA) (Fin e) = Fin (tan e)) by (xa; rewrite xdiv_fin by lra; reflexivity).
  rewrite TE.
  assert (Te0 : tan e <> 0) by (unfold tan; apply Rgt_not_eq, Rdiv_lt_0_compat; lra).
  assert (Tl0 : tan el <> 0) by (unfold tan; apply Rgt_not_eq, Rdiv_lt_0_compat; lra).
  assert (M := mean_index_ge p n ltac:(lra) ltac:(lra)).
  assert (EB : div (a:=XA) (mul (a:=XA) (mul (a:=XA) (add (a:=XA) (div (a:=XA) (lit (a:=XA) 1.0) (Fin (tan e)))
        (div (a:=XA) (lit (a:=XA) 1.0) (Fin (tan el)))) (lit (a:=XA) 0.5)) (sub (a:=XA) (Fin p) (Fin n))) (Fin (mean_index p n)) = Fin b).
  { xa. rewrite (xdiv_fin (10/10) (tan e)), (xdiv_fin (10/10) (tan el)) by auto. xa. rewrite xdiv_fin by lra. f_equal.
    unfold b, bending. field. repeat split; lra. }
  rewrite EB.
  assert (B := bending_small el e p n Hel Ge Hp Hn). fold b in B.
  change (add (a:=XA) (Fin tau) (Fin b)) with (Fin (tau + b)). change (add (a:=XA) (Fin (e - th)) (Fin (tau + b))) with (Fin phi').
  f_equal. f_equal.
  assert (EL : sqrtf (a:=XA) (add (a:=XA) (mul (a:=XA) (sub (a:=XA) (Fin z) (Fin zp)) (sub (a:=XA) (Fin z) (Fin zp)))
     (mul (a:=XA) (mul (a:=XA) (mul (a:=XA) (lit (a:=XA) 4.0) (Fin (rs + z))) (Fin (rs + zp)))
        (mul (a:=XA) (sinf (a:=XA) (mul (a:=XA) (sub (a:=XA) (Fin phi') (Fin phi)) (lit (a:=XA) 0.5)))
             (sinf (a:=XA) (mul (a:=XA) (sub (a:=XA) (Fin phi') (Fin phi)) (lit (a:=XA) 0.5)))))) =
     Fin (sqrt ((rs + z - (rs + zp)) ^ 2 + 4 * (rs + z) * (rs + zp) * sin ((phi' - phi) / 2) ^ 2))).
  { xa. replace ((phi' + - phi) * (5 / 10)) with ((phi' - phi) / 2) by lra. rewrite xsqrt_fin.
    - f_equal. f_equal. cbn [pow]. lra.
    - assert (0 <= sin ((phi' - phi) / 2) * sin ((phi' - phi) / 2)) by apply Rle_0_sqr.
      assert (0 <= (z + - zp) * (z + - zp)) by apply Rle_0_sqr.
      assert (0 <= 40 / 10 * (rs + z) * (rs + zp)) by (apply Rmult_le_pos; lra).
      apply Rplus_le_le_0_compat; [auto|]. apply Rmult_le_pos; auto. }
  rewrite EL. unfold element. destruct (Req_EM_T b 0) as [E0|E0].
  - replace (eqb (a:=XA) (Fin b) (lit (a:=XA) 0.0)) with true by (symmetry; xa; cbn [xeqb]; apply Reqb_true; lra).
    cbn [negb]. f_equal. lra.
  - replace (eqb (a:=XA) (Fin b) (lit (a:=XA) 0.0)) with false by (symmetry; xa; cbn [xeqb]; apply Reqb_false; lra).
    cbn [negb]. xa. cbn [xabs]. replace (tau + b + - tau) with b by lra. xa.
    assert (Pb : 0 < Rabs b) by (apply Rabs_pos_lt; auto).
    assert (Sb : 0 < sin (Rabs b / 2)) by (apply sin_gt_0; [lra|]; assert (H3 := PI2_3_2); unfold PI2 in H3; lra).
    replace (Rabs b * (5 / 10)) with (Rabs b / 2) by lra.
    rewrite xdiv_fin by lra. xa. f_equal. f_equal. field. lra.
Qed.

(** The whole ray: elevation, bending, angle at the centre and length of the element below level [i]. *)
Section Ray.
Variables (z n : list R) (a z0 : R).
Definition level_elevation (i : nat) : R :=
  match i with O => rad a | S _ => elevation (Re + z0) (rad a) (nth 0 n 0) (nth i z 0) (nth i n 0) end.
Definition layer_bending (i : nat) : R :=
  bending (level_elevation (i - 1)) (level_elevation i) (nth (i - 1) n 0) (nth i n 0).
Definition centre_angle (i : nat) : R := level_elevation i - rad a + rsum i (fun j => layer_bending (S j)).
Definition path_element (i : nat) : R :=
  element (Re + z0 + nth (i - 1) z 0) (Re + z0 + nth i z 0) (centre_angle i - centre_angle (i - 1)) (layer_bending i).
End Ray.

Lemma slanted_deg a : 21 <= a < 89 -> slanted (rad a).
Proof. intros H. assert (P := PI2_3_2). unfold PI2 in P. unfold slanted, rad. split; [nra|]. nra. Qed.

Lemma loop_bent (z n : list R) (a z0 : R) : 6300 <= Re + z0 -> slanted (rad a) -> length n = length z ->
  (forall i, (i < length z)%nat -> air (nth i z 0) (nth i n 0)) ->
  forall m k, (k + S m = length z)%nat ->
  ray_loop (A:=XA) (rc_X 0 (nth 0 n 0) a z0)
    (st (centre_angle z n a z0 k) (rsum k (fun j => layer_bending z n a z0 (S j))) (Re + z0 + nth k z 0) (level_elevation z n a z0 k) (nth k z 0) (nth k n 0))
    (combine (map Fin (skipn (S k) z)) (map Fin (skipn (S k) n)))
  = map Fin (map (path_element z n a z0) (seq (S k) m)).
Proof.
  intros Hrs Hth Hl Hair. induction m as [|m IH]; intros k Hk.
  - rewrite (skipn_all2 z) by lia. reflexivity.
  - assert (Sz : skipn (S k) z = nth (S k) z 0 :: skipn (S (S k)) z).
    { clear - Hk. assert (H : (S k < length z)%nat) by lia. clear Hk. revert H. generalize (S k). induction z as [|x l IH]; intros [|j] H; simpl in *; try lia; auto. apply IH. lia. }
    assert (Sn : skipn (S k) n = nth (S k) n 0 :: skipn (S (S k)) n).
    { clear - Hk Hl. assert (H : (S k < length n)%nat) by lia. clear Hk Hl. revert H. generalize (S k). induction n as [|x l IH]; intros [|j] H; simpl in *; try lia; auto. apply IH. lia. }
    rewrite Sz, Sn. cbn [map combine ray_loop seq].
    assert (Ak := Hair k ltac:(lia)). assert (Ak1 := Hair (S k) ltac:(lia)). assert (A0 := Hair 0%nat ltac:(lia)).
    assert (El : 0.14 <= level_elevation z n a z0 k < PI / 2).
    { destruct k; [cbn; destruct Hth; lra|]. apply geo_elev; auto. apply A0. }
    assert (ST := step_bent (nth 0 n 0) a z0 (centre_angle z n a z0 k) (rsum k (fun j => layer_bending z n a z0 (S j)))
       (level_elevation z n a z0 k) (nth k z 0) (nth k n 0) (nth (S k) z 0) (nth (S k) n 0) Hrs Hth (proj2 A0) Ak Ak1 El).
    cbv zeta in ST. rewrite ST. clear ST.
    change (elevation (Re + z0) (rad a) (nth 0 n 0) (nth (S k) z 0) (nth (S k) n 0)) with (level_elevation z n a z0 (S k)).
    replace (bending (level_elevation z n a z0 k) (level_elevation z n a z0 (S k)) (nth k n 0) (nth (S k) n 0))
      with (layer_bending z n a z0 (S k)) by (unfold layer_bending; rewrite Nat.sub_succ, Nat.sub_0_r; reflexivity).
    change (rsum k (fun j => layer_bending z n a z0 (S j)) + layer_bending z n a z0 (S k)) with (rsum (S k) (fun j => layer_bending z n a z0 (S j))).
    fold (centre_angle z n a z0 (S k)). f_equal.
    + unfold path_element. rewrite Nat.sub_succ, Nat.sub_0_r. reflexivity.
    + apply IH. lia.
Qed.

(** Away from zenith and horizon, with heights counted from the station, the path elements are the closed form: the elevation at a
    level depends on that level and the first one only, the bending angles add up, and an element is its chord lengthened by its own
    bending. *)
Theorem C26_bent_path (z n : list R) (a z0 : R) :
  z <> [] -> length n = length z -> nth 0 z 0 = 0 -> 6300 <= Re + z0 -> 21 <= a < 89 ->
  (forall i, (i < length z)%nat -> air (nth i z 0) (nth i n 0)) ->
  Xray z n a z0 = Ok (Some (map Fin (0 :: map (path_element z n a z0) (seq 1 (length z - 1))))).
Proof.
  intros Hne Hl Hz0 Hrs Ha Hair. assert (Hth := slanted_deg a Ha).
  unfold ray_tracing. rewrite no_small.
  2:{ intros x Hx. apply (In_nth _ _ 0) in Hx. destruct Hx as (i & Hi & <-). rewrite Hl in Hi. destruct (Hair i Hi). lra. }
  destruct z as [|zf z]; [congruence|]. destruct n as [|nf n]; [discriminate|]. cbn [nth] in Hz0. subst zf.
  cbn [map combine].
  match goal with |- context [if ?b then _ else _] =>
    replace b with false by (symmetry; apply not_true_iff_false; intros E; apply near_zenith_X in E; unfold near_zenith in E; lra) end.
  fold (rc_X 0 nf a z0). f_equal. f_equal. f_equal; [xa; f_equal; lra|].
  etransitivity; [|apply (loop_bent (0 :: z) (nf :: n) a z0 Hrs Hth Hl Hair (length (0 :: z) - 1) 0)].
  2:{ cbn [length]. lia. }
  cbn [skipn nth]. f_equal. unfold st. f_equal.
  - xa. f_equal. unfold centre_angle. cbn. lra.
  - xa. f_equal. cbn. lra.
  - unfold k_EarthRadius. xa. f_equal. unfold Re. lra.
  - rewrite rc_X_eq. cbn [rc_theta0]. destruct Hth. assert (C : 0 < cos (rad a)) by (apply cos_gt_0; lra).
    xa. rewrite xdiv_fin by lra. reflexivity.
Qed.

Example C26_bent_example : exists d1 d2, Xray [0; 1; 10] [1.0003; 1.00027; 1.0001] 30 0.2 = Ok (Some [Fin 0; Fin d1; Fin d2]) /\
  d1 = path_element [0; 1; 10] [1.0003; 1.00027; 1.0001] 30 0.2 1.
Proof.
  eexists _, _. split; [|reflexivity]. rewrite C26_bent_path; [reflexivity|discriminate|reflexivity|reflexivity|unfold Re; lra|lra|].
  intros i Hi. unfold air. do 3 (destruct i; [simpl; lra|]). simpl in Hi. lia.
Qed.
