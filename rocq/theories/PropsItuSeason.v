(** Claims C95, C96 and C97: the seasonal reference atmospheres, humidity and pressure of the added levels. *)

From Coq Require Import ZArith Reals Lra Lia String List Bool Psatz.
Import ListNotations.
From Verif Require Import Arith PyBase Utils Spec ListAux RealAux SolverGen SolverRun PropsUtils PropsLiq Weighting WeightingGen PropsWeighting PropsChannels PropsWfGrid Extrapolation ExpQ PropsExtrap PropsItu.
Local Open Scope R_scope.

(** ** C96: the seasonal reference atmospheres *)

(** The pressure function of a latitude and season. *)
Definition seasonal_pressure (lat : R) (season : string) (h : R) : R :=
  if String.eqb season "summer" then by_latitude (A:=RA) lat low_pressure mid_pressure_summer high_pressure_summer h
  else by_latitude (A:=RA) lat low_pressure mid_pressure_winter high_pressure_winter h.
Definition seasonal_temperature (lat : R) (season : string) (h : R) : R :=
  if String.eqb season "summer" then by_latitude (A:=RA) lat low_temperature mid_temperature_summer high_temperature_summer h
  else by_latitude (A:=RA) lat low_temperature mid_temperature_winter high_temperature_winter h.
Definition seasonal_wvd (lat : R) (season : string) (h : R) : R :=
  if String.eqb season "summer" then by_latitude (A:=RA) lat low_water_vapour mid_water_vapour_summer high_water_vapour_summer h
  else by_latitude (A:=RA) lat low_water_vapour mid_water_vapour_winter high_water_vapour_winter h.
Lemma seasonal_R lat season (h : list R) : season = "summer"%string \/ season = "winter"%string ->
  itu_pressure (A:=RA) lat h season = Ok (map (seasonal_pressure lat season) h) /\
  itu_temperature (A:=RA) lat h season = Ok (map (seasonal_temperature lat season) h) /\
  itu_wvd (A:=RA) lat h season = Ok (map (seasonal_wvd lat season) h).
Proof. intros [->| ->]; repeat split; reflexivity. Qed.

(** The fit over the reals. *)
Lemma fit_low a b c P10 r1 P72 r2 h : 0 <= h <= 10 -> pressure_fit (A:=RA) a b c P10 r1 P72 r2 h = a - b * h + c * h ^ 2.
Proof. intros H. unfold pressure_fit, powi. ra. rewrite !Rleb_true by lra. cbn [andb pow]. lra. Qed.
Lemma fit_mid a b c P10 r1 P72 r2 h : 10 < h <= 72 -> pressure_fit (A:=RA) a b c P10 r1 P72 r2 h = P10 * exp (- r1 * (h - 10)).
Proof. intros H. unfold pressure_fit. ra. rewrite (Rleb_true (0 / 1) h), (Rleb_false h (10 / 1)), (Rltb_true (10 / 1) h), (Rleb_true h (72 / 1)) by lra. cbn [andb]. do 3 f_equal; lra. Qed.
Lemma fit_high a b c P10 r1 P72 r2 h : 72 < h <= 100 -> pressure_fit (A:=RA) a b c P10 r1 P72 r2 h = P72 * exp (- r2 * (h - 72)).
Proof. intros H. unfold pressure_fit. ra. rewrite (Rleb_true (0 / 1) h), (Rleb_false h (10 / 1)), (Rltb_true (10 / 1) h), (Rleb_false h (72 / 1)), (Rltb_true (72 / 1) h), (Rleb_true h (100 / 1)) by lra. cbn [andb]. do 3 f_equal; lra. Qed.

(** A fit that is continuous at 10 km and jumps up by a factor of at most [exp d] at 72 km falls between heights that are not too close. *)
Lemma fit_falls a b c P10 r1 P72 r2 d h1 h2 : 20 * c < b -> 0 < c -> a - b * 10 + c * 10 ^ 2 = P10 -> 0 < P10 -> 0 < P72 -> 0 < r1 -> 0 < r2 ->
  P72 <= P10 * exp (- r1 * 62 + d) -> d <= r1 * 62 -> 0 <= h1 < h2 -> h2 <= 100 -> (h1 <= 72 < h2 -> 0 <= d /\ d < r1 * (h2 - h1) /\ d < r2 * (h2 - h1)) ->
  0 < pressure_fit (A:=RA) a b c P10 r1 P72 r2 h2 < pressure_fit (A:=RA) a b c P10 r1 P72 r2 h1.
Proof.
  intros Hb Hc HP H10 H72 Hr1 Hr2 HD Hd H1 H2 HJ.
  assert (QF : forall x y, 0 <= x < y -> y <= 10 -> a - b * y + c * y ^ 2 < a - b * x + c * x ^ 2).
  { intros x y Hx Hy. assert (0 < (y - x) * (b - c * (x + y))) by (apply Rmult_lt_0_compat; nra). nra. }
  assert (PF : forall x, 0 <= x <= 10 -> P10 <= a - b * x + c * x ^ 2).
  { intros x Hx. destruct (Req_dec x 10) as [->|]; [lra|]. left. rewrite <- HP. apply QF; lra. }
  assert (E1 : forall x, x < 0 -> exp x < 1) by (intros x Hx; rewrite <- exp_0; apply exp_increasing; auto).
  destruct (Rle_dec h2 10).
  { rewrite !fit_low by lra. assert (Q := QF h1 h2 ltac:(lra) ltac:(lra)). assert (Q2 := PF h2 ltac:(lra)). lra. }
  destruct (Rle_dec h2 72).
  { rewrite (fit_mid _ _ _ _ _ _ _ h2) by lra. split; [apply Rmult_lt_0_compat; [auto|apply exp_pos]|].
    destruct (Rle_dec h1 10).
    - rewrite fit_low by lra. assert (Q := PF h1 ltac:(lra)). assert (Q2 := E1 (- r1 * (h2 - 10)) ltac:(nra)). nra.
    - rewrite fit_mid by lra. apply Rmult_lt_compat_l; [auto|]. apply exp_increasing. nra. }
  rewrite (fit_high _ _ _ _ _ _ _ h2) by lra. split; [apply Rmult_lt_0_compat; [auto|apply exp_pos]|].
  destruct (Rle_dec h1 72).
  - specialize (HJ ltac:(lra)). assert (E3 := exp_pos (- r2 * (h2 - 72))).
    apply Rle_lt_trans with (P10 * exp (- r1 * 62 + d) * exp (- r2 * (h2 - 72))); [apply Rmult_le_compat_r; lra|].
    rewrite Rmult_assoc, <- exp_plus. destruct (Rle_dec h1 10).
    + rewrite fit_low by lra. assert (Q := PF h1 ltac:(lra)). assert (E4 := E1 (- r1 * 62 + d + - r2 * (h2 - 72))).
      assert (- r1 * 62 + d + - r2 * (h2 - 72) < 0); [|specialize (E4 H); nra].
      assert (0 < r2 * (h2 - 72)) by (apply Rmult_lt_0_compat; lra). lra.
    + rewrite fit_mid by lra. apply Rmult_lt_compat_l; [auto|]. apply exp_increasing.
      destruct (Rle_dec r1 r2); [assert (r1 * (h2 - 72) <= r2 * (h2 - 72)) by (apply Rmult_le_compat_r; lra)|assert (r2 * (72 - h1) <= r1 * (72 - h1)) by (apply Rmult_le_compat_r; lra)]; nra.
  - rewrite fit_high by lra. apply Rmult_lt_compat_l; [auto|]. apply exp_increasing. nra.
Qed.

(** The falls of the five fits. *)
Lemma low_falls h1 h2 : 0 <= h1 < h2 -> h2 <= 100 -> 0 < low_pressure (A:=RA) h2 < low_pressure (A:=RA) h1.
Proof.
  intros H1 H2. unfold low_pressure. apply fit_falls with 0; auto; ra; try lra.
  - assert (Q := exp_ge (-9114) 1000 1101133795 10000000000000 ltac:(vm_compute; reflexivity)).
    replace (- (147 / 1000) * 62 + 0) with (-9114 / 1000) by lra. lra.
Qed.
Lemma mid_summer_falls h1 h2 : 0 <= h1 < h2 -> h2 <= 100 -> 0 < mid_pressure_summer (A:=RA) h2 < mid_pressure_summer (A:=RA) h1.
Proof.
  intros H1 H2. unfold mid_pressure_summer. apply fit_falls with 0; auto; ra; try lra.
  - assert (Q := exp_ge (-9114) 1000 1101133795 10000000000000 ltac:(vm_compute; reflexivity)).
    replace (- (147 / 1000) * 62 + 0) with (-9114 / 1000) by lra. lra.
Qed.
Lemma high_summer_falls h1 h2 : 0 <= h1 < h2 -> h2 <= 100 -> 0 < high_pressure_summer (A:=RA) h2 < high_pressure_summer (A:=RA) h1.
Proof.
  intros H1 H2. unfold high_pressure_summer. apply fit_falls with 0; auto; ra; try lra.
  - assert (Q := exp_ge (-8680) 1000 1699510675 10000000000000 ltac:(vm_compute; reflexivity)).
    replace (- (140 / 1000) * 62 + 0) with (-8680 / 1000) by lra. lra.
Qed.
(** The winter fits of middle and high latitudes step up at 72 km; heights a millimetre apart or on the same side are not affected. *)
Definition apart72 (h1 h2 : R) : Prop := h1 <= 72 < h2 -> h1 + 1e-6 <= h2.
Lemma mid_winter_falls h1 h2 : 0 <= h1 < h2 -> h2 <= 100 -> apart72 h1 h2 -> 0 < mid_pressure_winter (A:=RA) h2 < mid_pressure_winter (A:=RA) h1.
Proof.
  intros H1 H2 H. unfold mid_pressure_winter. apply fit_falls with 1e-7; auto; ra; try lra.
  - assert (Q := exp_ge (-91139999) 10000000 1101133895 10000000000000 ltac:(vm_compute; reflexivity)).
    replace (- (147 / 1000) * 62 + 1e-7) with (-91139999 / 10000000) by lra. lra.
  - intros Q. specialize (H Q). lra.
Qed.
Lemma high_winter_falls h1 h2 : 0 <= h1 < h2 -> h2 <= 100 -> apart72 h1 h2 -> 0 < high_pressure_winter (A:=RA) h2 < high_pressure_winter (A:=RA) h1.
Proof.
  intros H1 H2 H. unfold high_pressure_winter. apply fit_falls with 1e-7; auto; ra; try lra.
  - assert (Q := exp_ge (-91139999) 10000000 1101133895 10000000000000 ltac:(vm_compute; reflexivity)).
    replace (- (147 / 1000) * 62 + 1e-7) with (-91139999 / 10000000) by lra. lra.
  - intros Q. specialize (H Q). lra.
Qed.

(** In summer, or within 22 degrees of the equator, the pressure is positive and falls with height from 0 to 100 km. *)
Theorem C96_pressure_falls lat season h1 h2 : 0 <= h1 < h2 -> h2 <= 100 -> (season = "summer"%string \/ Rabs lat < 22 \/ apart72 h1 h2) ->
  0 < seasonal_pressure lat season h2 < seasonal_pressure lat season h1.
Proof.
  intros H1 H2 H. unfold seasonal_pressure, by_latitude. ra. destruct (String.eqb_spec season "summer") as [->|Hs]; unfold Rltb.
  - destruct (Rlt_dec _ _); [apply low_falls; auto|]. destruct (Rlt_dec _ _); [apply mid_summer_falls|apply high_summer_falls]; auto.
  - destruct (Rlt_dec _ _); [apply low_falls; auto|]. assert (H' : apart72 h1 h2) by (destruct H as [|[|]]; [contradiction|lra|auto]).
    destruct (Rlt_dec _ _); [apply mid_winter_falls|apply high_winter_falls]; auto.
Qed.

(** In winter at middle and high latitudes it rises just above 72 km. *)
Theorem C96_winter_refuted lat e : 22 <= Rabs lat -> 0 < e <= 1e-9 -> seasonal_pressure lat "winter" 72 < seasonal_pressure lat "winter" (72 + e).
Proof.
  intros HL He. unfold seasonal_pressure, by_latitude. cbn [String.eqb Ascii.eqb Bool.eqb]. ra. rewrite (Rltb_false (Rabs lat)) by lra.
  assert (Q := exp_le_frac (-9114) 1000 1101133796 10000000000000 ltac:(vm_compute; reflexivity)).
  assert (X : forall r, 0 < r <= 0.2 -> 1 - 1e-9 <= exp (- r * e)).
  { intros r Hr. apply Rle_trans with (1 + - r * e); [nra|]. apply exp_ge_1_add. }
  unfold Rltb. destruct (Rlt_dec _ _).
  - unfold mid_pressure_winter. rewrite fit_mid, fit_high by lra. ra. replace (- (147 / 1000) * (72 - 10)) with (-9114 / 1000) by lra.
    replace (72 + e - 72) with e by lra. assert (X1 := X (155 / 1000) ltac:(lra)). lra.
  - unfold high_pressure_winter. rewrite fit_mid, fit_high by lra. ra. replace (- (147 / 1000) * (72 - 10)) with (-9114 / 1000) by lra.
    replace (72 + e - 72) with e by lra. assert (X1 := X (150 / 1000) ltac:(lra)). lra.
Qed.

(** Temperatures stay between 170 K and 301 K. *)
Ltac pieces := repeat (match goal with |- context [Rle_dec ?a ?b] => destruct (Rle_dec a b); try lra | |- context [Rlt_dec ?a ?b] => destruct (Rlt_dec a b); try lra end; cbn [andb]; try lra).
Theorem C96_temperature lat season h : 0 <= h <= 100 -> 170 < seasonal_temperature lat season h < 301.
Proof.
  intros H.
  assert (TL : 170 < low_temperature (A:=RA) h < 301).
  { unfold low_temperature, powi. ra. unfold Rleb, Rltb. pieces. assert (0 <= h * h <= 17 * h) by (split; nra). lra. }
  assert (TMS : 170 < mid_temperature_summer (A:=RA) h < 301).
  { unfold mid_temperature_summer, powi. ra. unfold Rleb, Rltb. pieces.
    - assert (L : 0 <= (h - 53 / 1) * (6 / 100) <= 162 / 100) by lra.
      assert (Q := exp_le_frac 162 100 6 1 ltac:(vm_compute; reflexivity)). assert (E1 := exp_le _ _ (proj1 L)). assert (E2 := exp_le _ _ (proj2 L)).
      rewrite exp_0 in E1. lra.
    - assert (L : 0 <= (h - 17 / 1) * (8128 / 1000000) <= 24384 / 100000) by lra.
      assert (Q := exp_le_frac 24384 100000 128 100 ltac:(vm_compute; reflexivity)). assert (E1 := exp_le _ _ (proj1 L)). assert (E2 := exp_le _ _ (proj2 L)).
      rewrite exp_0 in E1. lra.
    - assert (0 <= h * h <= 13 * h) by (split; nra). lra. }
  assert (TMW : 170 < mid_temperature_winter (A:=RA) h < 301).
  { unfold mid_temperature_winter, powi. ra. unfold Rleb, Rltb. pieces. assert (0 <= h * h <= 10 * h) by (split; nra). lra. }
  assert (THS : 170 < high_temperature_summer (A:=RA) h < 301).
  { unfold high_temperature_summer, powi. ra. unfold Rleb, Rltb. pieces; [|assert (0 <= h * h <= 10 * h) by (split; nra); lra].
    assert (L : 0 <= (h - 23 / 1) * (8317 / 1000000) <= 207925 / 1000000) by lra.
    assert (Q := exp_le_frac 207925 1000000 124 100 ltac:(vm_compute; reflexivity)). assert (E1 := exp_le _ _ (proj1 L)). assert (E2 := exp_le _ _ (proj2 L)).
    rewrite exp_0 in E1. lra. }
  assert (THW : 170 < high_temperature_winter (A:=RA) h < 301).
  { unfold high_temperature_winter, powi. ra. unfold Rleb, Rltb. pieces. 
    assert (0 <= h * h <= 8.5 * h) by (split; nra). assert (0 <= h * (h * h) <= 8.5 * (h * h)) by (split; nra). split; nra. }
  unfold seasonal_temperature, by_latitude. repeat match goal with |- context [if ?b then _ else _] => destruct b end; assumption.
Qed.

(** Water vapour: positive up to the height where it is cut off, never more than 20 g/m3, and none above 15 km. *)
Theorem C96_vapour lat season h : 0 <= h -> 0 <= seasonal_wvd lat season h <= 20 /\ (15 < h -> seasonal_wvd lat season h = 0) /\ (h <= 10 -> 0 < seasonal_wvd lat season h).
Proof.
  intros H.
  assert (K : forall f : R -> R, forall c top, 0 < c <= 19.66 -> 10 <= top <= 15 -> (h <= top -> f h <= 0.01) -> forall v : R,
    v = (if Rleb 0 h && Rleb h top then c * exp (f h) else 0) -> 0 <= v <= 20 /\ (15 < h -> v = 0) /\ (h <= 10 -> 0 < v)).
  { intros f c top Hc Ht Hf v ->. rewrite (Rleb_true 0 h) by auto. unfold Rleb. destruct (Rle_dec h top) as [L|L]; cbn [andb].
    - assert (E0 := exp_pos (f h)). assert (E1 : exp (f h) <= exp (1 / 100)) by (apply exp_le; specialize (Hf L); lra).
      assert (Q := exp_le_frac 1 100 1011 1000 ltac:(vm_compute; reflexivity)). split; [nra|]. split; [lra|]. intros _. nra.
    - split; [lra|]. split; [auto|lra]. }
  unfold seasonal_wvd, by_latitude.
  set (g := if String.eqb season "summer" then _ else _).
  assert (C : g = low_water_vapour (A:=RA) h \/ g = mid_water_vapour_summer (A:=RA) h \/ g = mid_water_vapour_winter (A:=RA) h \/ g = high_water_vapour_summer (A:=RA) h \/ g = high_water_vapour_winter (A:=RA) h).
  { unfold g. repeat match goal with |- context [if ?b then _ else _] => destruct b end; auto 10. }
  clearbody g. destruct C as [C|[C|[C|[C|C]]]].
  - apply (K (fun h => h * (- 0.2313 - 0.1122 * h + 0.01351 * (h * h) - 0.0005923 * (h * (h * h)))) 19.6542 15); [lra|lra| |].
    + intros L. assert (- 0.2313 - 0.1122 * h + 0.01351 * (h * h) - 0.0005923 * (h * (h * h)) <= 0); [|nra].
      assert (0 <= h * ((h - 11.4) * (h - 11.4))) by (apply Rmult_le_pos; [lra|apply Rle_0_sqr]). nra.
    + rewrite C. unfold low_water_vapour, powi. ra. replace (0 / 1) with 0 by lra. replace (15 / 1) with 15 by lra. destruct (_ && _); [|lra]. apply f_equal2; [lra|]. f_equal. lra.
  - apply (K (fun h => h * (- 0.4174 - 0.0229 * h + 0.001007 * (h * h))) 14.3542 15); [lra|lra| |].
    + intros L. assert (- 0.4174 - 0.0229 * h + 0.001007 * (h * h) <= 0) by nra. nra.
    + rewrite C. unfold mid_water_vapour_summer, powi. ra. replace (0 / 1) with 0 by lra. replace (15 / 1) with 15 by lra. destruct (_ && _); [|lra]. apply f_equal2; [lra|]. f_equal. lra.
  - apply (K (fun h => h * (- 0.2697 - 0.03604 * h + 0.0004489 * (h * h))) 3.4742 10); [lra|lra| |].
    + intros L. assert (- 0.2697 - 0.03604 * h + 0.0004489 * (h * h) <= 0) by nra. nra.
    + rewrite C. unfold mid_water_vapour_winter, powi. ra. replace (0 / 1) with 0 by lra. replace (10 / 1) with 10 by lra. destruct (_ && _); [|lra]. apply f_equal2; [lra|]. f_equal. lra.
  - apply (K (fun h => h * (- 0.3614 - 0.005402 * h - 0.001955 * (h * h))) 8.988 15); [lra|lra| |].
    + intros L. assert (- 0.3614 - 0.005402 * h - 0.001955 * (h * h) <= 0) by nra. nra.
    + rewrite C. unfold high_water_vapour_summer, powi. ra. replace (0 / 1) with 0 by lra. replace (15 / 1) with 15 by lra. destruct (_ && _); [|lra]. apply f_equal2; [lra|]. f_equal. lra.
  - assert (X := K (fun h => h * (0.07481 - 0.0981 * h + 0.00281 * (h * h)) - 0.01) (1.2319 * exp (1/100)) 10).
    assert (Q := exp_le_frac 1 100 1011 1000 ltac:(vm_compute; reflexivity)). assert (Q0 := exp_pos (1/100)). apply X; [lra|lra| |]; clear X.
    + intros L. assert (0 <= h * h * (10 - h)) by (apply Rmult_le_pos; nra). assert (0 <= (h - 0.53436) * (h - 0.53436)) by apply Rle_0_sqr. nra.
    + rewrite C. unfold high_water_vapour_winter, powi. ra. replace (0 / 1) with 0 by lra. replace (10 / 1) with 10 by lra. destruct (_ && _); [|lra].
      rewrite Rmult_assoc, <- exp_plus. apply f_equal2; [lra|]. f_equal. lra.
Qed.

(** ** C95: the humidity of the added levels is in per cent *)

Lemma tiny62 : 0 < 1 / 10 ^ 62 < 1 / 10 ^ 25.
Proof.
  split; [apply Rdiv_lt_0_compat; [lra|apply pow_lt; lra]|]. apply Rmult_lt_compat_l; [lra|]. apply Rinv_lt_contravar; [apply Rmult_lt_0_compat; apply pow_lt; lra|].
  apply Rlt_pow; [lra|lia].
Qed.
Lemma small_e50 : 1 / 10 ^ 25 <= exp (-50).
Proof.
  assert (Q := exp_ge (-50) 1 1 10000000000000000000000000 ltac:(vm_compute; reflexivity)). replace (-50) with (-50 / 1) by (unfold Rdiv; rewrite Rinv_1; ring).
  replace (10 ^ 25) with (IZR 10000000000000000000000000); [exact Q|]. rewrite pow_IZR. reflexivity.
Qed.

(** Vapour pressure of the standard atmosphere stays away from its pressure. *)
Lemma std_moist_bounds h : 0 <= h <= 100 -> let v := itu_standard_wvd (A:=RA) h 2 7.5 * itu_standard_temperature (A:=RA) h 288.15 / 216.7 in
  5 * exp (- h / 2) <= v <= 10.01 * exp (- h / 2).
Proof.
  intros H. assert (HT := C70_temperature h 288.15 H). set (T := itu_standard_temperature (A:=RA) h 288.15) in *. change (car RA) with R in *. clearbody T.
  assert (EW : itu_standard_wvd (A:=RA) h 2 7.5 = 7.5 * exp (- h / 2)) by (unfold itu_standard_wvd; ra; reflexivity).
  cbv zeta. change (car RA) with R in *. rewrite EW. assert (E0 := exp_pos (- h / 2)). set (e := exp (- h / 2)) in *. clearbody e. clear EW. split.
  - apply le_div; [lra|]. assert (e * 186 <= e * T) by (apply Rmult_le_compat_l; lra). lra.
  - apply div_le; [lra|]. assert (e * T <= e * 289) by (apply Rmult_le_compat_l; lra). lra.
Qed.

Lemma std_moist h T0 P0 : 0 <= h <= 100 ->
  itu_standard_pressure (A:=RA) h T0 P0 <> 0 /\ itu_standard_pressure (A:=RA) h T0 P0 <> itu_standard_wvd (A:=RA) h 2 7.5 * itu_standard_temperature (A:=RA) h 288.15 / 216.7.
Proof.
  intros H. assert (VB := std_moist_bounds h H). cbv zeta in VB. set (v := _ / 216.7) in *. clearbody v. change (car RA) with R in *.
  destruct (Rle_dec (G h) 84.852) as [HG|HG].
  2:{ destruct (Rlt_dec h 86) as [H86|H86].
    - rewrite (std_pressure_gap h T0 P0); [|lra|auto].
      assert (E1 : exp (-50) <= exp (- h / 2)) by (apply exp_le; lra). assert (T1 := tiny62). assert (S1 := small_e50).
      set (q := 1 / 10 ^ 25) in *. set (q62 := 1 / 10 ^ 62) in *. clearbody q q62. lra.
    - rewrite std_pressure_R by (split; [lra|right; lra]). assert (E0 := exp_pos (lnP h)). split; [lra|].
      assert (L := lnP_falls h 100 ltac:(split; [lra|right; lra]) ltac:(split; [lra|right; lra]) ltac:(lra)).
      assert (L1 : lnP 100 = f8 100) by (apply lnP_high; unfold G; lra).
      assert (-9 / 1 <= lnP h) by (rewrite L1 in L; unfold f8 in L; lra).
      assert (Q := exp_ge (-9) 1 1 10000 ltac:(vm_compute; reflexivity)). assert (exp (-9 / 1) <= exp (lnP h)) by (apply exp_le; auto).
      assert (Q2 := exp_le_frac (-16) 1 1 1000000 ltac:(vm_compute; reflexivity)). assert (exp (- h / 2) <= exp (-16 / 1)) by (apply exp_le; lra). lra. }
  assert (C0 : covered h) by (split; [lra|left; auto]).
  rewrite std_pressure_R by auto. assert (E0 := exp_pos (lnP h)). split; [lra|].
  assert (GS := G_self h ltac:(lra)).
  assert (Up : forall s : R, 0 <= s <= 84.852 -> G h <= s -> L7 s - 7e-5 <= lnP h).
  { intros s Hs Hg. destruct (G_onto s Hs) as (h2 & B & E).
    assert (h <= h2) by (destruct (Rle_dec h h2); [auto|]; assert (X := G_lt h2 h ltac:(lra)); lra).
    assert (L := lnP_falls h h2 C0 ltac:(split; [lra|left; lra]) ltac:(auto)). rewrite (lnP_low h2), E in L by lra. lra. }
  assert (F : v < exp (lnP h)); [|lra].
  destruct (Rle_dec (G h) 11) as [H11|H11]; [|destruct (Rle_dec (G h) 32) as [H32|H32]].
  - specialize (Up 11 ltac:(lra) H11). assert (X : L7 11 = f1 11) by (unfold L7; repeat destruct (Rle_dec _ _); try lra; reflexivity). rewrite X in Up.
    assert (J := j1). assert (EF : f2 11 = ln 226.3226) by (unfold f2; lra).
    assert (Y : 5 <= ln 226.3226) by (apply ln_ge_of; [lra|]; assert (Q := exp_le_frac 5 1 150 1 ltac:(vm_compute; reflexivity)); replace 5 with (5 / 1) by lra; lra).
    assert (Q := exp_ge 49 10 100 1 ltac:(vm_compute; reflexivity)). assert (exp (49 / 10) <= exp (lnP h)) by (apply exp_le; lra).
    assert (exp (- h / 2) <= exp 0) by (apply exp_le; lra). rewrite exp_0 in *. lra.
  - specialize (Up 32 ltac:(lra) H32). assert (X : L7 32 = f3 32) by (unfold L7; repeat destruct (Rle_dec _ _); try lra; reflexivity). rewrite X in Up.
    assert (J := j3). assert (EF : f4 32 = ln 8.680422) by (unfold f4; replace ((228.65 + 2.8 * (32 - 32)) / 228.65) with 1 by lra; rewrite ln_1; lra).
    assert (Y : 2 <= ln 8.680422) by (apply ln_ge_of; [lra|]; assert (Q := exp_le_frac 2 1 8 1 ltac:(vm_compute; reflexivity)); replace 2 with (2 / 1) by lra; lra).
    assert (Q := exp_ge 19 10 6 1 ltac:(vm_compute; reflexivity)). assert (exp (19 / 10) <= exp (lnP h)) by (apply exp_le; lra).
    assert (Q2 := exp_le_frac (-5) 1 1 10 ltac:(vm_compute; reflexivity)). assert (exp (- h / 2) <= exp (-5 / 1)) by (apply exp_le; lra). lra.
  - specialize (Up 84.852 ltac:(lra) HG). assert (X : L7 84.852 = f7 84.852) by (unfold L7; repeat destruct (Rle_dec _ _); try lra; reflexivity). rewrite X in Up.
    assert (J := j7). assert (Y : -6 <= f8 86) by (unfold f8; lra).
    assert (Q := exp_ge (-7) 1 1 10000 ltac:(vm_compute; reflexivity)). assert (exp (-7 / 1) <= exp (lnP h)) by (apply exp_le; lra).
    assert (Q2 := exp_le_frac (-16) 1 1 1000000 ltac:(vm_compute; reflexivity)). assert (exp (- h / 2) <= exp (-16 / 1)) by (apply exp_le; lra). lra.
Qed.

Lemma seasonal_moist lat season h : 0 <= h <= 100 ->
  seasonal_pressure lat season h <> 0 /\ seasonal_pressure lat season h <> seasonal_wvd lat season h * seasonal_temperature lat season h / 216.7.
Proof.
  intros H. assert (P0 : 0 < seasonal_pressure lat season h).
  { destruct (Req_dec h 0) as [->|].
    - assert (Q := C96_pressure_falls lat season 0 1 ltac:(lra) ltac:(lra) ltac:(right; right; intros ?; lra)). lra.
    - apply (C96_pressure_falls lat season 0 h); [lra|lra|]. right. right. intros ?. lra. }
  split; [lra|]. destruct (C96_vapour lat season h ltac:(lra)) as (W1 & W2 & _). assert (HT := C96_temperature lat season h H).
  destruct (Rlt_dec 15 h) as [L|L]; [rewrite W2 by auto; lra|].
  assert (P1 : 28 < seasonal_pressure lat season h).
  { apply Rlt_le_trans with (seasonal_pressure lat season 15).
    - unfold seasonal_pressure, by_latitude. assert (Q := exp_ge (-735) 1000 1 4 ltac:(vm_compute; reflexivity)).
      assert (Q' : 1 / 4 <= exp (-700 / 1000)) by (apply Rle_trans with (exp (-735 / 1000)); [auto|apply exp_le; lra]).
      assert (E1 : - (147 / 1000) * (15 - 10) = -735 / 1000) by lra. assert (E2 : - (140 / 1000) * (15 - 10) = -700 / 1000) by lra.
      repeat match goal with |- context [if ?b then _ else _] => destruct b end;
      unfold low_pressure, mid_pressure_summer, mid_pressure_winter, high_pressure_summer, high_pressure_winter; rewrite fit_mid by lra; ra; rewrite ?E1, ?E2; lra.
    - destruct (Req_dec h 15) as [->|]; [lra|]. left. apply (C96_pressure_falls lat season h 15); [lra|lra|]. right. right. intros ?. lra. }
  apply Rgt_not_eq. apply Rle_lt_trans with 28; [|auto]. apply div_le; [lra|]. nra.
Qed.

(** The reference atmosphere of a place and month at one height: temperature, pressure and water-vapour density. *)
Definition ref_t lat month x : R := let s := get_season (A:=RA) lat month in if String.eqb s "standard" then itu_standard_temperature (A:=RA) x 288.15 else seasonal_temperature lat s x.
Definition ref_p lat month x : R := let s := get_season (A:=RA) lat month in if String.eqb s "standard" then itu_standard_pressure (A:=RA) x 0 0 else seasonal_pressure lat s x.
Definition ref_w lat month x : R := let s := get_season (A:=RA) lat month in if String.eqb s "standard" then itu_standard_wvd (A:=RA) x 2 7.5 else seasonal_wvd lat s x.

Lemma lit0 : lit (a:=RA) 0 = 0. Proof. ra. lra. Qed.
Lemma lit2 : lit (a:=RA) 2 = 2. Proof. ra. lra. Qed.
Lemma lit75 : lit (a:=RA) 7.5 = 7.5. Proof. ra. lra. Qed.
Lemma lit288 : lit (a:=RA) 288.15 = 288.15. Proof. ra. lra. Qed.
Lemma reference_map lat month (l : list R) :
  reference (A:=RA) lat (get_season (A:=RA) lat month) l = Ok (map (ref_t lat month) l, map (ref_p lat month) l, map (ref_w lat month) l).
Proof.
  unfold reference. destruct (season_cases lat month) as [E|[E|E]].
  - destruct (seasonal_R lat (get_season (A:=RA) lat month) l (or_introl E)) as (E1 & E2 & E3). change (car RA) with R in *. rewrite E1, E2, E3.
    unfold ref_t, ref_p, ref_w. rewrite E. reflexivity.
  - destruct (seasonal_R lat (get_season (A:=RA) lat month) l (or_intror E)) as (E1 & E2 & E3). change (car RA) with R in *. rewrite E1, E2, E3.
    unfold ref_t, ref_p, ref_w. rewrite E. reflexivity.
  - unfold ref_t, ref_p, ref_w. rewrite E. cbn [String.eqb Ascii.eqb Bool.eqb negb]. rewrite lit0, lit2, lit75, lit288. reflexivity.
Qed.
Lemma ref_moist lat month x : 0 <= x <= 100 -> ref_p lat month x <> 0 /\ ref_p lat month x <> ref_w lat month x * ref_t lat month x / 216.7.
Proof.
  intros H. unfold ref_t, ref_p, ref_w. destruct (String.eqb _ "standard"); [apply std_moist|apply seasonal_moist]; auto.
Qed.

(** Saturation ratio of the reference atmosphere at a height. *)
Definition ref_fraction lat month x : R := ref_w lat month x * ref_t lat month x / 216.7 / satvap (A:=RA) (ref_t lat month x) None.

(** The whole answer, level by level: measured levels first, then the reference atmosphere with its humidity times one hundred. *)
Theorem C95_percent (o : pex RA) (lat : R) (month : Z) (z p t rh : list R) : reachable o -> z <> [] -> growing z -> 0 <= last z 0 < 50 ->
  length p = length z -> length t = length z -> length rh = length z ->
  exists o' ext, profile_extrapolation o lat month z p t rh =
    (o', Ok ((z ++ ext)%list, (p ++ map (ref_p lat month) ext)%list, (t ++ map (ref_t lat month) ext)%list, (rh ++ map (fun x => 100 * ref_fraction lat month x) ext)%list)) /\
    ext <> [] /\ forall x, In x ext -> last z 0 < x <= 100.
Proof.
  intros Ro Hne Gz H50 Lp Lt Lr. destruct (growing_max z Hne Gz) as [M1 M2].
  destruct (C66_one_call o lat month z p t rh _ M1 M2 (proj2 H50) Lp Lt Lr) as (n & ext & pe & te & we & Ee & B & _ & E & ER & L1 & L2 & L3 & HX). cbv zeta in E.
  assert (Gd : good (z ++ ext)) by (rewrite Ee; apply good_next; auto; [apply reachable_good; auto|apply growing_sorted; auto|lra]).
  assert (ER' := reference_map lat month ext). change (car RA) with R in *. rewrite ER in ER'. apply ok_inj in ER'. injection ER' as -> -> ->.
  exists (mkPex (A:=RA) (z ++ ext)), ext.
  assert (HB : forall x, In x ext -> last z 0 < x <= 100).
  { intros x Hx. split; [auto|]. apply Gd. apply in_or_app. auto. }
  split; [|split; [|exact HB]].
  - change (car RA) with R in *. rewrite E. do 3 f_equal. f_equal. clear -HB H50. induction ext as [|x l IH]; [reflexivity|]. cbn [map combine fst snd]. f_equal.
    + assert (Hx := HB x (or_introl eq_refl)). destruct (ref_moist lat month x ltac:(lra)) as [Q1 Q2]. rewrite humid_percent by auto. reflexivity.
    + apply IH. intros y Hy. apply HB. right. auto.
  - intros ->. rewrite app_nil_r in Gd. destruct Gd as (_ & I & _). specialize (M2 100 I). lra.
Qed.

(** So an added level never holds the documented fraction, unless the air there is taken to be completely dry. *)
Theorem C95_refuted (o : pex RA) (lat : R) (month : Z) (z p t rh : list R) o' h pres temp hum i : reachable o -> z <> [] -> growing z -> 0 <= last z 0 < 50 ->
  length p = length z -> length t = length z -> length rh = length z ->
  profile_extrapolation o lat month z p t rh = (o', Ok (h, pres, temp, hum)) -> (length z <= i < length h)%nat ->
  ref_w lat month (nth i h 0) <> 0 -> nth i hum 0 <> ref_fraction lat month (nth i h 0).
Proof.
  intros Ro Hne Gz H50 Lp Lt Lr E Hi Hw. destruct (C95_percent o lat month z p t rh Ro Hne Gz H50 Lp Lt Lr) as (o2 & ext & E2 & _ & HB).
  change (car RA) with R in *. rewrite E in E2. injection E2 as <- -> -> -> ->. rewrite app_length in Hi.
  rewrite app_nth2, (app_nth2 z) in * by (rewrite ?Lr; lia). rewrite Lr. set (k := (i - length z)%nat) in *.
  assert (Hk : (k < length ext)%nat) by (unfold k; lia).
  assert (EN := nth_map_d (fun x : R => 100 * ref_fraction lat month x) ext k 0 0 Hk). change (car RA) with R in *. rewrite EN. clear EN.
  assert (Hx := HB _ (nth_In ext 0 Hk)). set (x := nth k ext 0) in *.
  assert (HT : 0 < ref_t lat month x).
  { unfold ref_t. destruct (String.eqb _ "standard"); [assert (Q := C70_temperature x 288.15 ltac:(lra))|assert (Q := C96_temperature lat (get_season (A:=RA) lat month) x ltac:(lra))]; lra. }
  assert (F : ref_fraction lat month x <> 0); [|lra].
  unfold ref_fraction. assert (S := satvap_pos (ref_t lat month x) None). change (car RA) with R in *.
  apply Rmult_integral_contrapositive_currified; [|apply Rinv_neq_0_compat; lra]. apply Rmult_integral_contrapositive_currified; [|lra].
  apply Rmult_integral_contrapositive_currified; [auto|lra].
Qed.
Example C95_example : ref_w 0 1 5 <> 0.
Proof.
  assert (E : ref_w 0 1 5 = 7.5 * exp (- 5 / 2)).
  { unfold ref_w, get_season. ra. rewrite (Rltb_false (20 / 1) 0), (Rltb_false 0 (- (20 / 1))) by lra. cbn [andb orb String.eqb Ascii.eqb Bool.eqb]. unfold itu_standard_wvd. ra. reflexivity. }
  rewrite E. assert (Q := exp_pos (- 5 / 2)). lra.
Qed.
Example C96_example : 22 <= Rabs 60 /\ 0 < 1e-10 <= 1e-9 /\ apart72 70 75.
Proof. split; [rewrite Rabs_right; lra|]. split; [lra|]. intros ?. lra. Qed.

(** Exactly the two season names are accepted, by all three functions and at every latitude; tropical values do not depend on the season. *)
Theorem C96_seasons (A : Arith) (lat : car A) (h : list (car A)) (season : string) :
  (season = "summer"%string \/ season = "winter"%string ->
     exists t p w, itu_temperature lat h season = Ok t /\ itu_pressure lat h season = Ok p /\ itu_wvd lat h season = Ok w /\
       length t = length h /\ length p = length h /\ length w = length h /\
       (ltb (absv lat) (lit 22) = true -> t = map low_temperature h /\ p = map low_pressure h /\ w = map low_water_vapour h)) /\
  (season <> "summer"%string -> season <> "winter"%string ->
     itu_temperature lat h season = Err ValueError /\ itu_pressure lat h season = Err ValueError /\ itu_wvd lat h season = Err ValueError).
Proof.
  unfold itu_temperature, itu_pressure, itu_wvd, by_season. split.
  - intros [->| ->]; cbn [String.eqb Ascii.eqb Bool.eqb]; do 3 eexists; (split; [reflexivity|]); (split; [reflexivity|]); (split; [reflexivity|]);
      rewrite !map_length; (split; [reflexivity|]); (split; [reflexivity|]); (split; [reflexivity|]); intros E; unfold by_latitude; rewrite E; auto.
  - intros N1 N2. destruct (String.eqb_spec season "summer"); [congruence|]. destruct (String.eqb_spec season "winter"); [congruence|]. auto.
Qed.
Example C96_seasons_example : itu_pressure (A:=RA) 50 [1] "autumn" = Err ValueError.
Proof. apply (C96_seasons RA 50 [1] "autumn"); discriminate. Qed.
