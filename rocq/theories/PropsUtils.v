(** Claims C28-C43 and C83: the conversion routines, over the ideal reals. *)

From Coq Require Import ZArith Reals Lra Lia List Bool String Ascii.
Import ListNotations.
From Verif Require Import Arith PyBase Utils RTE Spec RealAux.
Open Scope R_scope.

(** ** Small real-analysis helpers *)

Lemma ln10_gt2 : 2 < ln 10.
Proof.
  apply exp_lt_inv. rewrite exp_ln by lra.
  assert (E := exp_le_3). replace 2 with (1 + 1) by lra. rewrite exp_plus.
  assert (0 < exp 1) by apply exp_pos. nra.
Qed.
Lemma Rpower_pos x y : 0 < Rpower x y.
Proof. apply exp_pos. Qed.
Lemma Rpower_lt10 x y : x < y -> Rpower 10 x < Rpower 10 y.
Proof. intros. apply Rpower_lt; lra. Qed.
Lemma Rpower_le10 x y : x <= y -> Rpower 10 x <= Rpower 10 y.
Proof. intros [H|H]; [left; apply Rpower_lt10; auto|right; congruence]. Qed.

(** Decadic logarithm. *)
Definition log10 (x : R) : R := ln x / ln 10.
Lemma log10_ratio a b : 0 < a -> a < b -> log10 b - log10 a < (b - a) / (2 * a).
Proof.
  intros Ha Hab. unfold log10. assert (L := ln10_gt2).
  assert (H1 : ln b - ln a <= (b - a) / a).
  { replace (ln b - ln a) with (ln (b / a)) by (unfold Rdiv; rewrite ln_mult, ln_Rinv; try lra; apply Rinv_0_lt_compat; lra).
    assert (H := ln_le_sub1 (b / a) ltac:(apply Rdiv_lt_0_compat; lra)).
    replace ((b - a) / a) with (b / a - 1) by (field; lra). lra. }
  assert (H2 : 0 < (b - a) / a) by (apply Rdiv_lt_0_compat; lra).
  assert (I : 0 < / ln 10 < / 2) by (split; [apply Rinv_0_lt_compat; lra|apply Rinv_lt_contravar; lra]).
  replace (ln b / ln 10 - ln a / ln 10) with ((ln b - ln a) * / ln 10) by (unfold Rdiv; ring).
  replace ((b - a) / (2 * a)) with ((b - a) / a * / 2) by (field; lra).
  assert (0 <= ln b - ln a) by (assert (ln a < ln b) by (apply ln_increasing; lra); lra). nra.
Qed.
Lemma log10_incr a b : 0 < a -> a < b -> log10 a < log10 b.
Proof.
  intros. unfold log10. apply Rmult_lt_compat_r; [apply Rinv_0_lt_compat; assert (L := ln10_gt2); lra|].
  apply ln_increasing; auto.
Qed.

(** ** C30: saturation vapour pressure *)

(** The Goff-Gratch formulas, in the usual notation. *)
Definition goff_water (T : R) : R :=
  let y := 373.16 / T in
  Rpower 10 (- 7.90298 * (y - 1) + 5.02808 * log10 y
             - 1.3816e-7 * (Rpower 10 (11.344 * (1 - 1 / y)) - 1)
             + 8.1328e-3 * (Rpower 10 (- 3.49149 * (y - 1)) - 1) + log10 1013.246).
Definition goff_ice (T : R) : R :=
  let y := 273.15 / T in
  Rpower 10 (- 9.09718 * (y - 1) - 3.56654 * log10 y + 0.876793 * (1 - 1 / y) + log10 6.1071).

Lemma eswat_R t : eswat_goffgratch (A:=RA) t = goff_water t.
Proof.
  unfold eswat_goffgratch, goff_water, log10. ra. rewrite !Rpowf_pos by lra. cbn zeta.
  replace (37316 / 100) with 373.16 by lra. replace (1013246 / 1000) with 1013.246 by lra.
  replace (100 / 10) with 10 by lra. replace (10 / 10) with 1 by lra.
  replace (11344 / 1000) with 11.344 by lra.
  replace (- (1) * (349149 / 100000) * (373.16 / t - 1)) with (- 3.49149 * (373.16 / t - 1)) by lra.
  f_equal. lra.
Qed.
Lemma vapor_es_R t : vapor_es (A:=RA) t = goff_water t.
Proof.
  unfold vapor_es, goff_water, log10. ra. rewrite !Rpowf_pos by lra. cbn zeta.
  replace (37316 / 100) with 373.16 by lra. replace (1013246 / 1000) with 1013.246 by lra.
  replace (100 / 10) with 10 by lra. replace (10 / 10) with 1 by lra. replace (10 / 1) with 10 by lra.
  replace (11344 / 1000) with 11.344 by lra.
  replace (- (349149 / 100000) * (373.16 / t - 1)) with (- 3.49149 * (373.16 / t - 1)) by lra.
  f_equal. lra.
Qed.
Lemma esice_R t : esice_goffgratch (A:=RA) t = goff_ice t.
Proof.
  unfold esice_goffgratch, goff_ice, log10. ra. rewrite !Rpowf_pos by lra. cbn zeta.
  replace (27315 / 100) with 273.15 by lra. replace (61071 / 10000) with 6.1071 by lra.
  replace (100 / 10) with 10 by lra. replace (10 / 10) with 1 by lra. f_equal. lra.
Qed.

Theorem C30_saturation_pressure_monotone :
  (forall t, 0 < eswat_goffgratch (A:=RA) t /\ 0 < esice_goffgratch (A:=RA) t) /\
  (forall t1 t2, 0 < t1 -> t1 < t2 -> t2 <= 1000 ->
     eswat_goffgratch (A:=RA) t1 < eswat_goffgratch (A:=RA) t2) /\
  (forall t1 t2, 0 < t1 -> t1 < t2 -> t2 <= 800 ->
     esice_goffgratch (A:=RA) t1 < esice_goffgratch (A:=RA) t2).
Proof.
  split; [|split].
  - intros t. rewrite eswat_R, esice_R. split; apply Rpower_pos.
  - intros t1 t2 H1 H12 H2. rewrite !eswat_R. unfold goff_water. cbn zeta. apply Rpower_lt10.
    set (y1 := 373.16 / t1). set (y2 := 373.16 / t2).
    assert (Y2 : 0.373 <= y2).
    { unfold y2. apply Rmult_le_reg_r with t2; [lra|]. unfold Rdiv. rewrite Rmult_assoc, Rinv_l by lra. lra. }
    assert (Y12 : y2 < y1). { unfold y1, y2, Rdiv. apply Rmult_lt_compat_l; [lra|]. apply Rinv_lt_contravar; nra. }
    assert (L := log10_ratio y2 y1 ltac:(lra) Y12).
    assert (LB : (y1 - y2) / (2 * y2) <= (y1 - y2) * 1.35).
    { apply Rmult_le_compat_l; [lra|]. apply Rmult_le_reg_r with (2 * y2); [lra|]. rewrite Rinv_l by lra. lra. }
    assert (P1 : Rpower 10 (11.344 * (1 - 1 / y2)) <= Rpower 10 (11.344 * (1 - 1 / y1))).
    { apply Rpower_le10. assert (1 / y1 <= 1 / y2) by (unfold Rdiv; apply Rmult_le_compat_l; [lra|]; apply Rinv_le_contravar; lra). lra. }
    assert (P2 : Rpower 10 (- 3.49149 * (y1 - 1)) <= Rpower 10 (- 3.49149 * (y2 - 1))) by (apply Rpower_le10; lra).
    lra.
  - intros t1 t2 H1 H12 H2. rewrite !esice_R. unfold goff_ice. cbn zeta. apply Rpower_lt10.
    set (y1 := 273.15 / t1). set (y2 := 273.15 / t2).
    assert (Y2 : 0.34 <= y2).
    { unfold y2. apply Rmult_le_reg_r with t2; [lra|]. unfold Rdiv. rewrite Rmult_assoc, Rinv_l by lra. lra. }
    assert (Y12 : y2 < y1). { unfold y1, y2, Rdiv. apply Rmult_lt_compat_l; [lra|]. apply Rinv_lt_contravar; nra. }
    assert (L := log10_incr y2 y1 ltac:(lra) Y12).
    assert (Q : 1 / y2 - 1 / y1 <= (y1 - y2) * 9).
    { replace (1 / y2 - 1 / y1) with ((y1 - y2) * / (y1 * y2)) by (field; lra).
      apply Rmult_le_compat_l; [lra|]. apply Rmult_le_reg_r with (y1 * y2); [nra|]. rewrite Rinv_l by nra. nra. }
    lra.
Qed.
Example C30_example : eswat_goffgratch (A:=RA) 273.15 < eswat_goffgratch (A:=RA) 300.
Proof. apply (proj1 (proj2 C30_saturation_pressure_monotone)); lra. Qed.

(** ** C28, C29 *)

Definition Rv : R := 46152 / 100.   (* J kg-1 K-1 *)

(** Units: vapour pressure in hPa = 100 Pa, density in g m-3 = 1e-3 kg m-3. *)
Definition ideal_gas_vapour (e rho T : R) : Prop := 100 * e = (rho / 1000) * Rv * T.

Theorem C28_vapour (t rh : list R) :
  List.length t = List.length rh -> (forall x, In x t -> 0 < x) ->
  exists e rho, vapor (A:=RA) t rh false = Ok (e, rho) /\
    List.length e = List.length t /\ List.length rho = List.length t /\
    forall i, (i < List.length t)%nat ->
      nth i e 0 = nth i rh 0 * eswat_goffgratch (A:=RA) (nth i t 0) /\
      ideal_gas_vapour (nth i e 0) (nth i rho 0) (nth i t 0).
Proof.
  intros Hl Ht. unfold vapor. do 2 eexists. split; [reflexivity|].
  change (car RA) with R. rewrite !map_length, combine_length, Hl, Nat.min_id.
  split; [reflexivity|]. split; [reflexivity|]. intros i Hi. rewrite !map_map.
  assert (Hn : forall g : car RA * car RA -> R, nth i (map g (combine t rh)) 0 = g (nth i t 0, nth i rh 0)).
  { change (car RA) with R. intros g. rewrite nth_indep with (d' := g (0, 0)) by (rewrite map_length, combine_length; lia).
    rewrite (map_nth g). f_equal. apply combine_nth; auto. }
  change (car RA) with R in Hn. rewrite !Hn.
  unfold vapor1. cbn [fst snd]. rewrite eswat_R, vapor_es_R. split; [reflexivity|].
  assert (0 < nth i t 0) by (apply Ht, nth_In; lia).
  unfold ideal_gas_vapour, Rv, k_Rwatvap. ra. field. lra.
Qed.
Example C28_example : exists e rho, vapor (A:=RA) [280; 270] [0.5; 1] false = Ok (e, rho) /\
  nth 1 e 0 = 1 * eswat_goffgratch (A:=RA) 270.
Proof.
  destruct (C28_vapour [280; 270] [0.5; 1]) as (e & rho & H & _ & _ & Hi); auto.
  - simpl. intros x [<-|[<-|[]]]; lra.
  - exists e, rho. split; [exact H|]. apply (Hi 1%nat). simpl. lia.
Qed.

(** With the ice option the routine always fails, for every arithmetic and every profile. *)
Theorem C29_ice_option_refuted (A : Arith) (t rh : list (car A)) : vapor t rh true = Err TypeError.
Proof. reflexivity. Qed.

(** ** C31: mixing ratio (g/kg), vapour pressure (hPa), density (g/m3) *)

Theorem C31_e_mr_inverse (p e mr : R) : p <> 0 ->
  (p <> e -> mr2e (A:=RA) p (e2mr (A:=RA) p e) = e) /\
  (mr + 621.970585 <> 0 -> e2mr (A:=RA) p (mr2e (A:=RA) p mr) = mr).
Proof.
  intros Hp. unfold mr2e, e2mr, eps_. ra. split; intros H; field; repeat split; try lra.
Qed.
Theorem C31_rho_mr_inverse (p t rho mr : R) : p <> 0 -> t <> 0 ->
  (p <> rho * (Rv * 1e-5) * t -> mr2rho (A:=RA) (rho2mr (A:=RA) rho t p) t p = rho) /\
  (mr + 621.970585 <> 0 -> rho2mr (A:=RA) (mr2rho (A:=RA) mr t p) t p = mr).
Proof.
  intros Hp Ht. unfold mr2rho, rho2mr, eps_, k_Rwatvap, Rv. ra. split; intros H; field; repeat split; try lra.
Qed.
Theorem C31_ideal_gas (p t mr : R) : t <> 0 -> mr + 621.970585 <> 0 ->
  ideal_gas_vapour (mr2e (A:=RA) p mr) (mr2rho (A:=RA) mr t p) t.
Proof. intros Ht H. unfold ideal_gas_vapour, mr2e, mr2rho, eps_, k_Rwatvap, Rv. ra. field. lra. Qed.
Example C31_example : mr2e (A:=RA) 1000 (e2mr (A:=RA) 1000 10) = 10 /\
  rho2mr (A:=RA) (mr2rho (A:=RA) 5 280 1000) 280 1000 = 5.
Proof.
  destruct (C31_e_mr_inverse 1000 10 0 ltac:(lra)) as [H1 _]. destruct (C31_rho_mr_inverse 1000 280 0 5 ltac:(lra) ltac:(lra)) as [_ H2].
  split; [apply H1 | apply H2]; lra.
Qed.

(** ** C32 *)

Lemma satvap_pos t tc : 0 < satvap (A:=RA) t tc.
Proof.
  unfold satvap. destruct (proj1 C30_saturation_pressure_monotone t) as (P & Q).
  destruct (tconv_active tc); [destruct (leb _ _); [exact Q|exact P]|exact P].
Qed.

Theorem C32_saturated (p t : R) (tc : option R) : p <> 0 -> p <> satvap (A:=RA) t tc ->
  mr2rh (A:=RA) p t (satmix (A:=RA) p t tc) tc = (100, 100).
Proof.
  intros Hp He. assert (Hs := satvap_pos t tc). unfold mr2rh. cbn zeta. unfold satmix.
  destruct (C31_e_mr_inverse p (satvap (A:=RA) t tc) 0 Hp) as [E _].
  rewrite E by auto. set (s := satvap (A:=RA) t tc) in *.
  assert (W : e2mr (A:=RA) p s <> 0).
  { unfold e2mr, eps_. ra. unfold Rdiv. repeat apply Rmult_integral_contrapositive_currified; try lra; apply Rinv_neq_0_compat; lra. }
  f_equal; ra; field; auto; lra.
Qed.

(** The humidity of a mixing ratio, handed to the solver as a fraction, gives back the vapour
    pressure of that mixing ratio. *)
Theorem C32_solver_consistency (p t w : R) : 0 < t ->
  exists rho, vapor (A:=RA) [t] [fst (mr2rh (A:=RA) p t w None) / 100] false = Ok ([mr2e (A:=RA) p w], [rho]).
Proof.
  intros Ht. eexists. unfold vapor. cbn [combine map]. unfold vapor1 at 1. cbn [fst].
  assert (E : fst (mr2rh (A:=RA) p t w None) / 100 * vapor_es (A:=RA) t = mr2e (A:=RA) p w).
  { unfold mr2rh. cbn zeta. cbn [fst]. unfold satvap. cbn [tconv_active]. rewrite eswat_R, vapor_es_R.
    assert (0 < goff_water t) by apply Rpower_pos. ra. field. lra. }
  ra. rewrite E. reflexivity.
Qed.
Example C32_example : mr2rh (A:=RA) 100000 280 (satmix (A:=RA) 100000 280 None) None = (100, 100).
Proof.
  apply C32_saturated; [lra|]. unfold satvap. cbn [tconv_active]. rewrite eswat_R.
  intros E. assert (H : goff_water 280 < 100000); [|lra].
  unfold goff_water. cbn zeta. replace 100000 with (Rpower 10 5).
  - apply Rpower_lt10.
    assert (Y : 1.3 < 373.16 / 280 < 1.34) by lra. set (y := 373.16 / 280) in *.
    assert (L : log10 y < 0.17).
    { assert (H := log10_ratio 1 y ltac:(lra) ltac:(lra)). unfold log10 in H at 2. rewrite ln_1 in H. lra. }
    assert (L2 : log10 1013.246 < 4).
    { replace 4 with (log10 (10 ^ 4)). apply log10_incr; lra. unfold log10. rewrite <- (Rpower_pow 4 10) by lra.
      unfold Rpower. rewrite ln_exp. simpl. field. assert (H := ln10_gt2). lra. }
    assert (P1 := Rpower_pos 10 (11.344 * (1 - 1 / y))).
    assert (P2 : Rpower 10 (- 3.49149 * (y - 1)) < 1) by (apply Rlt_le_trans with (Rpower 10 0); [apply Rpower_lt10; lra|rewrite Rpower_O; lra]).
    lra.
  - replace 5 with (INR 5) by (simpl; lra). rewrite Rpower_pow by lra. lra.
Qed.

(** ** C33 *)

(** The detour through the vapour density uses another gas constant (216.7 instead of 1e5/461.52), so
    the two humidities differ whenever there is vapour at all. *)
Theorem C33_two_routes_refuted (p t w : R) : 0 < p -> 0 < t -> 0 < w ->
  fst (rho2rh (A:=RA) (mr2rho (A:=RA) w t p) t p) = fst (mr2rh (A:=RA) p t w None) / (216.7 * Rv * 1e-5) /\
  fst (rho2rh (A:=RA) (mr2rho (A:=RA) w t p) t p) < fst (mr2rh (A:=RA) p t w None).
Proof.
  intros Hp Ht Hw. assert (Hs := satvap_pos t None).
  assert (D : 0 < mr2e (A:=RA) p w).
  { unfold mr2e, eps_. ra. apply Rdiv_lt_0_compat; [apply Rmult_lt_0_compat; auto|lra]. }
  assert (E : mr2rho (A:=RA) w t p * t / 216.7 = mr2e (A:=RA) p w / (216.7 * Rv * 1e-5)).
  { unfold mr2rho, mr2e, eps_, k_Rwatvap, Rv. ra. field. lra. }
  assert (Elt : mr2e (A:=RA) p w < p).
  { unfold mr2e, eps_. ra. match goal with |- _ / ?d < _ => set (D1 := d) end.
    assert (w < D1) by (unfold D1; lra). apply Rmult_lt_reg_r with D1; [lra|].
    unfold Rdiv. rewrite Rmult_assoc, Rinv_l by lra. nra. }
  assert (Q : mr2e (A:=RA) p w / (216.7 * Rv * 1e-5) < mr2e (A:=RA) p w).
  { unfold Rv. lra. }
  assert (E1 : fst (rho2rh (A:=RA) (mr2rho (A:=RA) w t p) t p) = 100 * (mr2e (A:=RA) p w / (216.7 * Rv * 1e-5)) / satvap (A:=RA) t None).
  { unfold rho2rh, mr2rh. cbn zeta. cbn [fst].
    change (div (a:=RA) (mul (a:=RA) (mr2rho (A:=RA) w t p) t) (lit (a:=RA) 216.7)) with (mr2rho (A:=RA) w t p * t / (2167 / 10)).
    replace (2167 / 10) with 216.7 by lra. rewrite E.
    destruct (C31_e_mr_inverse p (mr2e (A:=RA) p w / (216.7 * Rv * 1e-5)) 0 ltac:(lra)) as [E2 _].
    rewrite E2 by lra. ra. f_equal. lra. }
  assert (E2 : fst (mr2rh (A:=RA) p t w None) = 100 * mr2e (A:=RA) p w / satvap (A:=RA) t None).
  { unfold mr2rh. cbn zeta. cbn [fst]. ra. f_equal. lra. }
  rewrite E1, E2. split.
  - assert (F : forall x s : R, 0 < s -> 100 * (x / (216.7 * Rv * 1e-5)) / s = 100 * x / s / (216.7 * Rv * 1e-5)).
    { intros. field. split; unfold Rv; lra. }
    apply F; auto.
  - apply Rmult_lt_compat_r; [apply Rinv_0_lt_compat; auto|lra].
Qed.
Example C33_example : fst (rho2rh (A:=RA) (mr2rho (A:=RA) 5 280 1000) 280 1000) < fst (mr2rh (A:=RA) 1000 280 5 None).
Proof. apply C33_two_routes_refuted; lra. Qed.
