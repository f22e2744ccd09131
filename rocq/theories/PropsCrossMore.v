(** Claims C118, C121 and C122: continuum of water vapour, ozone and cloud water against spectroscopy, over the reals. *)

From Coq Require Import ZArith Reals Lra Lia Psatz String List Bool Sorted.
From Coquelicot Require Import Complex.
Import ListNotations.
From Verif Require Import Arith PyBase Utils Absorption Clear Spectrum Spec RealAux SolverGen LineData Lineshape PropsAbsN2 PropsLiq PropsClear PropsO2H2O PropsH2O PropsSelfCont SDShape PropsSD PropsSDWater PropsO3 ExpQ PropsCross.
Local Open Scope string_scope.
Open Scope R_scope.

(** ** Claim C122: cloud water *)

(** Speed of light in m/s. *)
Definition light : R := 299792458.

(** Extinction of droplets much smaller than the wavelength (Rayleigh), Np/km: [w] g/m3 of water occupy the fraction 1e-6 w of the volume, [f] in GHz; permittivity e1 - i e2. *)
Definition rayleigh (e1 e2 f w : R) : R := 6 * PI * (f * 1e9) / light * (3 * e2 / ((e1 + 2) * (e1 + 2) + e2 * e2)) * (w * 1e-6) * 1e3.

(** Relaxation spectrum with two Debye terms. *)
Definition debye_loss (de f fr : R) : R := de * (f / fr) / (1 + (f / fr) * (f / fr)).
Definition debye_stored (de f fr : R) : R := de / (1 + (f / fr) * (f / fr)).

Definition kappa_liq : R := 0.06286 / (6 * PI * 1e9 / light * 1e-6 * 1e3).
Lemma kappa_liq_range : 0.9997 <= kappa_liq <= 0.9998.
Proof.
  assert (P := PI_range). assert (P' := PI_RGT_0). unfold kappa_liq, light. powers.
  match goal with |- _ <= ?a / ?b <= _ => assert (B : 0 < b) by lra; assert (E : a / b * b = a) by (unfold Rdiv; rewrite Rmult_assoc, Rinv_l by lra; lra);
    split; apply (Rmult_le_reg_r b); auto; rewrite E; lra end.
Qed.

Lemma from_eps (e : cpx RA) f w : (im e : R) < 0 -> liq_from_eps (A:=RA) e f w = kappa_liq * rayleigh (re e) (- im e) f w.
Proof.
  intros He. unfold liq_from_eps, c_div, c_sub, c_add, c_of, c_norm2. destruct e as [x y]. cbn [re im] in *. ra.
  assert (P := PI_RGT_0). unfold kappa_liq, rayleigh.
  set (n := (x + 20 / 10) * (x + 20 / 10) + (y + 0 / 1) * (y + 0 / 1)).
  assert (Hn : 0 < n) by (unfold n; assert (K := sq_nonneg (x + 20 / 10)); nra).
  replace ((y - 0 / 1) * (x + 20 / 10) - (x - 10 / 10) * (y + 0 / 1)) with (3 * y) by field.
  replace ((x + 2) * (x + 2) + - y * - y) with n by (unfold n; lra). clearbody n.
  assert (C : 6 * PI * 1e9 / light * 1e-6 * 1e3 <> 0) by (unfold light; powers; lra).
  replace (6286 / 100000) with 0.06286 by lra. set (k := 0.06286) in *. clearbody k. assert (L : light <> 0) by (unfold light; lra).
  generalize dependent 1e9. generalize dependent 1e-6. generalize dependent 1e3. generalize dependent light. intros l L a b c C.
  replace (6 * PI * (f * c) / l * (3 * - y / n) * (w * b) * a) with ((6 * PI * c / l * b * a) * (3 * - y / n * f * w)) by (field; lra).
  set (q := 6 * PI * c / l * b * a) in *. clearbody q. field. lra.
Qed.

(** Every liquid model is the Rayleigh extinction of a permittivity with a positive loss, within 0.03 percent. *)
Theorem C122_rayleigh m w f t v : 0 < w -> 0 < f -> 208.15 <= t <= 396 -> liquid_water_absorption (A:=RA) m w f t = Ok v ->
  exists e1 e2 kappa, 0.9997 <= kappa <= 0.9998 /\ 0 < e2 /\ v = kappa * rayleigh e1 e2 f w /\
  (In m ["R98"; "R03"] -> let th := 1 - 300 / t in let es := 77.66 - 103.3 * th in
     let fr := if String.eqb m "R03" then 20.1 * exp (7.88 * th) else (316 * th + 146.4) * th + 20.2 in
     e1 = debye_stored (es - 0.0671 * es) f fr + debye_stored (0.0671 * es - 3.52) f (39.8 * fr) + 3.52 /\
     e2 = debye_loss (es - 0.0671 * es) f fr + debye_loss (0.0671 * es - 3.52) f (39.8 * fr)).
Proof.
  intros Hw Hf Ht. unfold liquid_water_absorption.
  match goal with |- context [@leb ?A ?a ?b] => replace (@leb A a b) with false by (symmetry; apply (Rleb_false w); ra; lra) end.
  destruct (str_in m liq_debye_models) eqn:E1.
  - intros E. apply ok_inj in E. subst v. assert (N := debye_passive m f t Hf ltac:(lra)).
    exists (re (liq_eps_debye (A:=RA) m f t)), (- im (liq_eps_debye (A:=RA) m f t)), kappa_liq.
    split; [apply kappa_liq_range|]. split; [lra|]. split; [apply from_eps; exact N|]. intros _. cbv zeta.
    clear N E1. unfold liq_eps_debye, debye_stored, debye_loss. cbv zeta. unfold c_add, c_div, c_of, c_norm2. cbn [re im]. ra.
    replace (10 / 10 - 3000 / 10 / t) with (1 - 300 / t) by lra. set (th := 1 - 300 / t). clearbody th.
    replace (7766 / 100 - 1033 / 10 * th) with (77.66 - 103.3 * th) by lra. set (es := 77.66 - 103.3 * th). clearbody es.
    match goal with |- context [f / (398 / 10 * ?x)] => set (fp := x) end.
    assert (FP : fp = if String.eqb m "R03" then 20.1 * exp (7.88 * th) else (316 * th + 146.4) * th + 20.2).
    { unfold fp. destruct (String.eqb m "R03"); [reflexivity|lra]. }
    rewrite <- FP. clear FP. clearbody fp.
    replace (398 / 10 * fp) with (39.8 * fp) by lra. generalize (f / fp) (f / (39.8 * fp)). intros u u'. assert (Ku := sq_nonneg u). assert (Kv := sq_nonneg u').
    replace 0.0671 with (671 / 10000) by lra. replace 3.52 with (352 / 100) by lra. replace (10 / 10) with 1 by lra. replace (0 / 1) with 0 by lra. generalize (671 / 10000) (352 / 100). intros k3 k4. split; field; split; lra.
  - destruct (str_in m liq_dilec_models); [|discriminate]. intros E. apply ok_inj in E. subst v. assert (N := dilec12_passive f t Hf ltac:(lra)).
    exists (re (dilec12 (A:=RA) f t)), (- im (dilec12 (A:=RA) f t)), kappa_liq.
    split; [apply kappa_liq_range|]. split; [lra|]. split; [apply from_eps; exact N|].
    intros [<-|[<-|[]]]; discriminate E1.
Qed.

(** 0.3 g/m3 of supercooled water at 31.4 GHz. *)
Example C122_example : exists v, liquid_water_absorption (A:=RA) "R98" 0.3 31.4 263 = Ok v /\ exists e1 e2 kappa, 0.9997 <= kappa <= 0.9998 /\ 0 < e2 /\ v = kappa * rayleigh e1 e2 31.4 0.3.
Proof.
  destruct (proj1 (C24_liquid_names RA "R98" 0.3 31.4 263)) as (v & Hv); [cbn; tauto|]. exists v. split; [exact Hv|].
  destruct (C122_rayleigh "R98" 0.3 31.4 263 v ltac:(lra) ltac:(lra) ltac:(lra) Hv) as (e1 & e2 & k & H1 & H2 & H3 & _). exists e1, e2, k. tauto.
Qed.

(** ** Claim C121: ozone *)

(** Mass of the molecule, kg. *)
Definition ozone_mass : R := 47.998 * 1.66053907e-27.
(** Square of the Doppler width (1/e of the maximum) of a line at [f0] GHz. *)
Definition doppler2 (f0 T : R) : R := f0 * f0 * (2 * k_B * T / (ozone_mass * light * light)).
(** Half-width of a line broadened by collisions and by the Doppler effect, in terms of the separate half-widths (Olivero and Longbothum). *)
Definition joint_width (wc hd2 : R) : R := 0.5346 * wc + sqrt (0.2166 * (wc * wc) + hd2).
Definition o3_width (l : o3_line RA) (p theta : R) : R := z_w l * p * Rpower theta (z_x l).
(** Fraction of the molecules in the vibrational ground state. *)
Definition ground_state (T : R) : R := 1 - exp (- (1008 / T)).

Definition kappa_o3 : R := 0.3183 * PI.
Lemma kappa_o3_range : 0.9999 <= kappa_o3 <= 1.0001.
Proof. assert (P := PI_range). unfold kappa_o3. lra. Qed.

Lemma mass_light : 0 < 2 * k_B / (ozone_mass * light * light).
Proof. unfold k_B, ozone_mass, light. powers. lra. Qed.

Lemma ln2_range : 0.69314 <= ln 2 <= 0.69315.
Proof.
  assert (H := ln_frac 69314 69315 100000 2 1 ltac:(vm_compute; reflexivity) ltac:(vm_compute; reflexivity) ltac:(lia)).
  replace (2 / 1) with 2 in H by lra. lra.
Qed.

(** Models with Lorentz shapes: number density times strengths times shapes, summed over the lines within 1 GHz. *)
Theorem C121_ozone m (ll : o3_ll RA) T p f n : ~ In m ["R22"; "R22SD"] -> StronglySorted by_freq (z_lines ll) -> Forall (fun l : o3_line RA => 0 < z_fl l /\ 0 <= z_w l) (z_lines ll) ->
  0 < z_reftline ll -> 0 < T -> 0 < p -> 0 < f -> 0 < n ->
  exists kappa kd, 0.9999 <= kappa <= 1.0001 /\ 0.998 <= kd <= 1 /\ let theta := z_reftline ll / T in
  o3_absorption (A:=RA) m ll T p f n = kappa * (per_km * (n * 1e-6) * ground_state T *
    total (fun l : o3_line RA => strength (z_s1 l) (z_b l) 2.5 theta * ((f / z_fl l) * (f / z_fl l) * lorentzian (joint_width (o3_width l p theta) (kd * (ln 2 * doppler2 (z_fl l) T))) (f - z_fl l)))
      (filter (within f) (z_lines ll))).
Proof.
  intros Hm Hs Hg Hr HT Hp Hf Hn. assert (L2 := ln2_range). assert (P := PI_RGT_0).
  pose (kd := 0.6931 * 3.85e-15 / (ln 2 * (2 * k_B / (ozone_mass * light * light)))).
  assert (ML := mass_light).
  exists kappa_o3, kd. split; [apply kappa_o3_range|]. split.
  { unfold kd. unfold k_B, ozone_mass, light. powers. match goal with |- _ <= ?a / (_ * ?b) <= _ => set (x := a); set (y := b) end.
    assert (Y : 0 < y) by (unfold y; lra). assert (LY : 0 < ln 2 * y) by (apply Rmult_lt_0_compat; lra).
    split; apply (Rmult_le_reg_r (ln 2 * y)); auto; unfold Rdiv; rewrite ?Rmult_assoc, Rinv_l, ?Rmult_1_r by lra; rewrite <- ?Rmult_assoc.
    - apply Rle_trans with (0.998 * 0.69315 * y); [apply Rmult_le_compat_r; lra|]. unfold x, y. lra.
    - apply Rle_trans with (0.69314 * y); [unfold x, y; lra|]. rewrite Rmult_1_l. apply Rmult_le_compat_r; lra. }
  cbv zeta. set (theta := z_reftline ll / T). assert (Hth : 0 < theta) by (apply div_pos; lra).
  unfold o3_absorption. match goal with |- context [@eqb ?A ?a ?b] => replace (@eqb A a b) with false by (symmetry; apply Reqb_false; ra; lra) end.
  replace (str_in m ["R22"; "R22SD"]) with false.
  2:{ symmetry. unfold str_in, existsb. rewrite !orb_false_iff. repeat split; apply String.eqb_neq; intros ->; apply Hm; cbn; tauto. }
  cbv zeta. rewrite C56_window by exact Hs. rewrite sum_total.
  set (ls := filter (within f) (z_lines ll)). assert (Hg' : Forall (fun l : o3_line RA => 0 < z_fl l /\ 0 <= z_w l) ls).
  { apply Forall_forall. intros x Hx. apply filter_In in Hx. exact (proj1 (Forall_forall _ _) Hg x (proj1 Hx)). }
  assert (S : total (fun l => o3_term_lorentz (A:=RA) T p f (div (a:=RA) (z_reftline ll) T) l : R) ls * Rpower theta 2.5 =
    PI * total (fun l : o3_line RA => strength (z_s1 l) (z_b l) 2.5 theta * ((f / z_fl l) * (f / z_fl l) * lorentzian (joint_width (o3_width l p theta) (kd * (ln 2 * doppler2 (z_fl l) T))) (f - z_fl l))) ls).
  { clear -Hg' Hth P HT Hp Hr L2 ML. induction Hg' as [|l ls (F1 & F2) _ IH]; cbn [total fold_right]; [lra|].
    rewrite Rmult_plus_distr_l, Rmult_plus_distr_r. unfold total in IH. rewrite IH. f_equal.
    unfold o3_term_lorentz, o3_strength. cbv zeta. rewrite !powi2. ra. fold theta. rewrite Rpowf_pos by exact Hth.
    match goal with |- context [5346 / 10000 * ?w + ?s] => set (W := 5346 / 10000 * w + s) end.
    assert (EW : W = joint_width (o3_width l p theta) (kd * (ln 2 * doppler2 (z_fl l) T))).
    { unfold W, joint_width, o3_width. apply f_equal2; [lra|]. apply (f_equal R_sqrt.sqrt). apply f_equal2; [lra|].
      unfold kd, doppler2. assert (M : 0 < ozone_mass * light * light) by (unfold ozone_mass, light; powers; lra).
      assert (K : 0 < k_B) by (unfold k_B; powers; lra).
      transitivity (0.6931 * 3.85e-15 * (T * (z_fl l * z_fl l))); [powers; lra|]. assert (LN : ln 2 <> 0) by lra. clear - M K LN.
      generalize dependent (ozone_mass * light * light). generalize dependent (ln 2). generalize dependent k_B. generalize (0.6931 * 3.85e-15). intros c k K q Q M HM. field. lra. }
    rewrite <- EW. assert (W0 : 0 < W).
    { unfold W. apply Rplus_le_lt_0_compat; [apply Rmult_le_pos; [lra|]; apply Rmult_le_pos; [nra|unfold Rpower; left; apply exp_pos]|].
      apply R_sqrt.sqrt_lt_R0. match goal with |- 0 < _ * ?a * ?a + _ => set (q := a) end. assert (Q := sq_nonneg q). assert (0 < z_fl l * z_fl l) by nra.
      powers. assert (0 < T * (z_fl l * z_fl l)) by nra. lra. }
    clearbody W. unfold strength, lorentzian. assert (D : 0 < (f - z_fl l) * (f - z_fl l) + W * W) by (assert (K := sq_nonneg (f - z_fl l)); nra).
    replace (10 / 10) with 1 by lra. set (r := f / z_fl l). set (pw := Rpower theta 2.5). set (ex := exp _). clearbody r pw ex. field. lra. }
  set (tot := total (fun l => _ : R) ls) in *.
  ra. fold theta. rewrite Rpowf_pos by exact Hth. replace (25 / 10) with 2.5 by lra.
  replace (- (10080 / 10) / T) with (- (1008 / T)) by (field; lra). replace (10 / 10 - exp (- (1008 / T))) with (ground_state T) by (unfold ground_state; lra).
  unfold kappa_o3, per_km. set (G := ground_state T). set (tot' := total _ ls) in *.
  match goal with |- context [0 / 10 + ?x] => change x with tot end.
  replace (0 / 10 + tot) with tot by lra.
  transitivity (3183 / 1e8 * G * (1e-6 * n) * (tot * Rpower theta 2.5)); [powers; lra|]. rewrite S. powers. lra.
Qed.

(** *** Voigt profiles (R22, R22SD) *)

(** The code's approximation of the plasma dispersion function, as a correction of 1/z. *)
Lemma remainder_small (x : C) : 3 <= fst x -> Rabs (snd x) <= fst x ->
  0 < Cmod (pev qb x) /\ Cmod (pev nn x / pev qb x)%C * Cmod x <= fst x * (2 / 25) /\ (10 <= fst x -> Cmod (pev nn x / pev qb x)%C * Cmod x <= fst x * (1 / 100)).
Proof.
  intros H3 Hs0. assert (Hs : - fst x <= snd x <= fst x) by (revert Hs0; unfold Rabs; destruct (Rcase_abs _); lra). clear Hs0. set (u := fst x) in *. set (r := Cmod x). assert (R2 : r ^ 2 = u ^ 2 + snd x ^ 2) by apply mod_sq.
  assert (R0 : 0 <= r) by apply Cmod_ge_0. assert (UR : u <= r) by nra. assert (RU : r ^ 2 <= 2 * u ^ 2) by nra.
  assert (RU' : r <= 1.41422 * u) by nra.
  destruct (Rle_lt_dec r 20) as [L|L].
  - destruct (mm_nn x) as (N0 & MN).
    { split; [fold u; lra|]. split; [fold r; nra|]. split; [exact L|]. fold u r. nra. }
    assert (K : (2 * r ^ 2 - 4) * Cmod (pev nn x) <= Cmod (pev qb x)).
    { assert (Q := mm_eq x). assert (A : Cmod ((2 * (x * x) + 3) * pev nn x)%C <= Cmod (pev qb x) + Cmod (pev mm x)).
      { rewrite <- (Cmod_opp (pev mm x)). replace ((2 * (x * x) + 3) * pev nn x)%C with (pev qb x + - pev mm x)%C by (rewrite Q; ring). apply Cmod_triangle. }
      assert (B : 2 * r ^ 2 <= Cmod (2 * (x * x) + 3)%C + 3).
      { assert (B' : Cmod (2 * (x * x))%C <= Cmod (2 * (x * x) + 3)%C + Cmod (- (3))%C) by (replace (2 * (x * x))%C with ((2 * (x * x) + 3) + - (3))%C at 1 by ring; apply Cmod_triangle).
        rewrite Cmod_opp, !Cmod_mult, !Cmod_R, !Rabs_pos_eq in B' by lra. fold r in B'. lra. }
      rewrite Cmod_mult in A. set (n := Cmod (pev nn x)) in *. nra. }
    assert (Q0 : 0 < Cmod (pev qb x)) by (assert (14 <= 2 * r ^ 2 - 4) by nra; nra).
    split; [exact Q0|]. rewrite Cmod_div by (apply nz_mod; exact Q0). fold r. set (n := Cmod (pev nn x)) in *. set (q := Cmod (pev qb x)) in *. clearbody n q.
    assert (G : forall k, 0 < k -> 1 <= k * (2 * u ^ 2 - 4) -> n / q * r <= u * k).
    { intros k Hk H. apply (Rmult_le_reg_r q); auto. replace (n / q * r * q) with (n * r) by (field; lra).
      assert (T : r * (2 * u ^ 2 - 4) <= u * (2 * r ^ 2 - 4)) by (assert (0 <= (r - u) * (2 * (r * u) + 4)) by (apply Rmult_le_pos; nra); nra).
      assert (U4 : 0 < 2 * u ^ 2 - 4) by nra.
      apply Rle_trans with (n * (k * (u * (2 * r ^ 2 - 4)))).
      - apply Rmult_le_compat_l; [lra|]. apply Rle_trans with (r * (k * (2 * u ^ 2 - 4))); [nra|]. replace (r * (k * (2 * u ^ 2 - 4))) with (k * (r * (2 * u ^ 2 - 4))) by ring. apply Rmult_le_compat_l; lra.
      - replace (n * (k * (u * (2 * r ^ 2 - 4)))) with (u * k * ((2 * r ^ 2 - 4) * n)) by ring. apply Rmult_le_compat_l; [nra|exact K]. }
    split; [|intros H10]; apply G; nra.
  - assert (N : Cmod (pev nn x) <= rev [12261/100; 13542/100; 7736/100; 2625/100; 524005/100000; 500004/1000000; 2/100000000; 27/1000000000000] r).
    { apply pev_mod. unfold nn, qb, pa, sp, pscale. cbn [padd map]. coef. }
    assert (Q : Cmod x ^ 7 <= Cmod (pev qb x) + rev [1226080/10000; 352731/1000; 457335/1000; 348704/1000; 170355/1000; 53993/1000; 1048/100] r).
    { assert (P7 : Cmod x ^ 7 = Cmod (pev [0;0;0;0;0;0;0;1] x)).
      { cbn [pev]. replace (((((((((0 * x + 1) * x + 0) * x + 0) * x + 0) * x + 0) * x + 0) * x + 0) * x + 0)%C) with (x * (x * (x * (x * (x * (x * x))))))%C by ring. rewrite !Cmod_mult. ring. }
      rewrite P7. set (rest := [12260793177387535/100000000000000; 352730625110963558/1000000000000000; 457334478783897737/1000000000000000;
   348703917719495792/1000000000000000; 170354001821091472/1000000000000000; 53992906912940207/1000000000000000; 10479857114260399/1000000000000000]).
      assert (E : pev [0;0;0;0;0;0;0;1] x = (pev qb x + - pev rest x)%C) by (unfold qb, rest; cbn [pev]; ring).
      rewrite E. eapply Rle_trans; [apply Cmod_triangle|]. apply Rplus_le_compat_l. rewrite Cmod_opp. apply pev_mod. unfold rest. coef. }
    fold r in Q. cbn [rev] in N, Q.
    assert (Er : Cmod x = r) by reflexivity. clearbody r. assert (S : exists s, 0 <= s /\ r = 20 + s) by (exists (r - 20); split; lra). destruct S as (s & S0 & ->).
    assert (P2 : 0 <= s^2) by (apply pow_le; auto). assert (P3 : 0 <= s^3) by (apply pow_le; auto). assert (P4 : 0 <= s^4) by (apply pow_le; auto).
    assert (P5 : 0 <= s^5) by (apply pow_le; auto). assert (P6 : 0 <= s^6) by (apply pow_le; auto). assert (P7 : 0 <= s^7) by (apply pow_le; auto).
    set (n := Cmod (pev nn x)) in *. set (q := Cmod (pev qb x)) in *.
    assert (K : 141.5 * n <= q).
    { apply Rplus_le_reg_r with ((((((((0 * (20 + s) + 1048 / 100) * (20 + s) + 53993 / 1000) * (20 + s) + 170355 / 1000) * (20 + s) + 348704 / 1000) * (20 + s) + 457335 / 1000) * (20 + s) + 352731 / 1000) * (20 + s) + 1226080 / 10000)).
      eapply Rle_trans; [|exact Q]. eapply Rle_trans; [apply Rplus_le_compat_r, Rmult_le_compat_l; [lra|exact N]|]. clear N Q.
      apply Rminus_le. match goal with |- ?x <= 0 => ring_simplify x end. lra. }
    assert (Q0 : 0 < q).
    { apply Rplus_lt_reg_r with ((((((((0 * (20 + s) + 1048 / 100) * (20 + s) + 53993 / 1000) * (20 + s) + 170355 / 1000) * (20 + s) + 348704 / 1000) * (20 + s) + 457335 / 1000) * (20 + s) + 352731 / 1000) * (20 + s) + 1226080 / 10000)).
      eapply Rlt_le_trans; [|exact Q]. clear N Q K. apply Rminus_lt. match goal with |- ?x < 0 => ring_simplify x end. lra. }
    split; [exact Q0|]. assert (N0 : 0 <= Cmod (pev nn x / pev qb x)%C) by apply Cmod_ge_0.
    rewrite Cmod_div in * by (apply nz_mod; fold q; exact Q0). fold n q in N0 |- *.
    assert (B : n / q <= / 141.5).
    { apply (Rmult_le_reg_r q); auto. replace (n / q * q) with n by (field; lra). apply (Rmult_le_reg_l 141.5); [lra|]. rewrite <- Rmult_assoc, Rinv_r by lra. lra. }
    assert (F : n / q * (20 + s) <= u * (1 / 100)).
    { apply Rle_trans with (/ 141.5 * (1.41422 * u)); [apply Rmult_le_compat; lra|]. lra. }
    rewrite ?Er. split; [|intros _]; lra.
Qed.

(** Real part of the approximation: the Lorentz shape y / (x^2 + y^2), within 8 percent for y >= 3 and within 1 percent for y >= 10, up to one half-width from the centre. *)
Lemma dcerror_lorentz (a y : R) : 3 <= y -> Rabs a <= y ->
  Rabs (sp * re (dcerror (A:=RA) a y) - y / (a * a + y * y)) <= 2 / 25 * (y / (a * a + y * y)) /\
  (10 <= y -> Rabs (sp * re (dcerror (A:=RA) a y) - y / (a * a + y * y)) <= 1 / 100 * (y / (a * a + y * y))).
Proof.
  intros Hy Ha. assert (E := dcerror_C (mkC (A:=RA) y (- a)) ltac:(cbn [re]; lra)). cbn [re im] in E.
  replace (opp (a:=RA) (- a)) with a in E by (ra; lra). set (x := toC (mkC (A:=RA) y (- a))) in E.
  assert (X1 : fst x = y) by reflexivity. assert (X2 : snd x = - a) by reflexivity.
  destruct (remainder_small x) as (Q0 & D1 & D2); [lra|rewrite X1, X2, Rabs_Ropp; exact Ha|].
  assert (Q := nz_mod _ Q0). set (dl := (pev nn x / pev qb x)%C) in *.
  assert (M2 : Cmod x ^ 2 = a * a + y * y) by (rewrite mod_sq, X1, X2; ring).
  assert (M0 : 0 < Cmod x) by (assert (G := Cmod_ge_0 x); nra). assert (XN := nz_mod _ M0).
  assert (F : (RtoC sp * (pev pa x / pev qb x) = / x - dl / x)%C).
  { unfold dl. rewrite nn_eq. field. auto. }
  assert (F1 := f_equal fst F).
  assert (L : fst (RtoC sp * (pev pa x / pev qb x))%C = sp * re (dcerror (A:=RA) a y)).
  { rewrite <- E. unfold toC, Cmult, RtoC. cbn [fst snd]. ring. }
  assert (I : fst (/ x)%C = y / (a * a + y * y)).
  { unfold Cinv. cbn [fst]. rewrite X1, X2. f_equal. ring. }
  assert (S : fst (/ x - dl / x)%C = fst (/ x)%C - fst (dl / x)%C) by reflexivity.
  assert (DD : Rabs (sp * re (dcerror (A:=RA) a y) - y / (a * a + y * y)) <= Cmod (dl / x)%C).
  { rewrite <- L, F, S, I. replace (y / (a * a + y * y) - fst (dl / x)%C - y / (a * a + y * y)) with (- fst (dl / x)%C) by ring. rewrite Rabs_Ropp. apply Cmod_re. }
  rewrite Cmod_div in DD by exact XN. rewrite X1 in *. set (d := Cmod dl) in *. rewrite <- M2 in *. set (m := Cmod x) in *. clear Ha. set (z := Rabs _) in *. clearbody z d m.
  assert (G : forall k, d * m <= y * k -> z <= k * (y / m ^ 2)).
  { intros k H. eapply Rle_trans; [exact DD|]. apply (Rmult_le_reg_r (m ^ 2)); [nra|]. replace (d / m * m ^ 2) with (d * m) by (field; lra). replace (k * (y / m ^ 2) * m ^ 2) with (y * k) by (field; lra). exact H. }
  split; [|intros H]; apply G; auto.
Qed.

Definition close_to (e a b : R) : Prop := Rabs (a - b) <= e * b.

Definition kappa_v : R := 0.56419 * PI / sp.
Lemma kappa_v_range : 0.9999 <= kappa_v <= 1.0001.
Proof. assert (P := PI_range). unfold kappa_v, sp. lra. Qed.

(** Models with Voigt profiles: the same sum with a profile that, near the centre of a line broadened mainly by collisions, is the Lorentz shape. *)
Theorem C121_ozone_voigt m (ll : o3_ll RA) T p f n : In m ["R22"; "R22SD"] -> StronglySorted by_freq (z_lines ll) -> Forall (fun l : o3_line RA => 0 < z_fl l /\ 0 <= z_w l) (z_lines ll) ->
  0 < z_reftline ll -> 0 < T -> 0 < p -> 0 < f -> 0 < n ->
  exists (kappa kd : R) (profile : o3_line RA -> R), 0.9999 <= kappa <= 1.0001 /\ 0.999 <= kd <= 1 /\ let theta := z_reftline ll / T in
  o3_absorption (A:=RA) m ll T p f n = kappa * (per_km * (n * 1e-6) * ground_state T *
    total (fun l : o3_line RA => strength (z_s1 l) (z_b l) 2.5 theta * profile l) (filter (within f) (z_lines ll))) /\
  forall l, In l (z_lines ll) -> let w := o3_width l p theta in let d := kd * sqrt (doppler2 (z_fl l) T) in Rabs (f - z_fl l) <= w ->
    (3 * d <= w -> close_to 0.08 (profile l) (lorentzian w (f - z_fl l))) /\ (10 * d <= w -> close_to 0.01 (profile l) (lorentzian w (f - z_fl l))).
Proof.
  intros Hm Hs Hg Hr HT Hp Hf Hn. assert (P := PI_RGT_0).
  pose (q := 2 * k_B / (ozone_mass * light * light)). assert (ML : 0 < q) by apply mass_light. assert (SQ := R_sqrt.sqrt_lt_R0 _ ML).
  pose (kd := 0.62065e-7 / sqrt q). pose (theta := z_reftline ll / T). assert (Hth : 0 < theta) by (apply div_pos; lra).
  pose (beta := fun l : o3_line RA => 0.62065e-7 * z_fl l * sqrt T).
  pose (profile := fun l : o3_line RA => sp * re (dcerror (A:=RA) ((z_fl l - f) / beta l) (o3_width l p theta / beta l)) / (PI * beta l)).
  exists kappa_v, kd, profile. split; [apply kappa_v_range|]. split.
  { unfold kd. assert (S2 : sqrt q * sqrt q = q) by (apply R_sqrt.sqrt_sqrt; lra). set (s := sqrt q) in *. clearbody s.
    assert (B : 3.854e-15 <= s * s <= 3.855e-15) by (rewrite S2; unfold q, k_B, ozone_mass, light; powers; lra). clear S2.
    assert (S : 0.62065e-7 <= s) by (apply Rsqr_incr_0; [|powers; lra|lra]; unfold Rsqr; eapply Rle_trans; [|exact (proj1 B)]; powers; lra).
    assert (S' : s <= 0.6209e-7).
    { apply Rsqr_incr_0; [|lra|powers; lra]; unfold Rsqr; eapply Rle_trans; [exact (proj2 B)|]. powers; lra. }
    split; apply (Rmult_le_reg_r s); auto; (replace (0.62065e-7 / s * s) with 0.62065e-7 by (set (c := 0.62065e-7); clearbody c; field; lra)); clear B; powers; lra. }
  assert (BP : forall l : o3_line RA, 0 < z_fl l -> 0 < beta l).
  { intros l F. assert (ST := R_sqrt.sqrt_lt_R0 _ HT). unfold beta. apply Rmult_lt_0_compat; [|exact ST]. powers. apply Rmult_lt_0_compat; lra. }
  cbv zeta. fold theta. split.
  - unfold o3_absorption. match goal with |- context [@eqb ?A ?a ?b] => replace (@eqb A a b) with false by (symmetry; apply Reqb_false; ra; lra) end.
    replace (str_in m ["R22"; "R22SD"]) with true by (cbn [In] in Hm; destruct Hm as [<-|[<-|[]]]; reflexivity).
    cbv zeta. rewrite C56_window by exact Hs. rewrite sum_total.
    set (ls := filter (within f) (z_lines ll)). assert (Hg' : Forall (fun l : o3_line RA => 0 < z_fl l /\ 0 <= z_w l) ls).
    { apply Forall_forall. intros x Hx. apply filter_In in Hx. exact (proj1 (Forall_forall _ _) Hg x (proj1 Hx)). }
    assert (S : total (fun l => o3_term_voigt (A:=RA) T p f (div (a:=RA) (z_reftline ll) T) l : R) ls * Rpower theta 2.5 =
      (PI / sp) * total (fun l : o3_line RA => strength (z_s1 l) (z_b l) 2.5 theta * profile l) ls).
    { clear -Hg' Hth P HT Hp Hr BP. induction Hg' as [|l ls (F1 & F2) _ IH]; cbn [total fold_right]; [lra|].
      rewrite Rmult_plus_distr_l, Rmult_plus_distr_r. unfold total in IH. rewrite IH. f_equal.
      unfold o3_term_voigt, o3_strength. cbv zeta. ra. fold theta. rewrite Rpowf_pos by exact Hth.
      unfold profile. assert (BB : 62065 / 1000000000000 * z_fl l * R_sqrt.sqrt T = beta l) by (unfold beta; powers; lra).
      rewrite BB. fold (o3_width l p theta). assert (B0 := BP l F1). unfold strength. replace (10 / 10) with 1 by lra.
      set (w := re _). set (pw := Rpower theta 2.5). set (ex := exp _). set (b := beta l) in *. clearbody w pw ex b. assert (SP : 0 < sp) by (unfold sp; lra). revert SP. generalize sp. intros c SP. field. lra. }
    set (tot := total (fun l => _ : R) ls) in *.
    ra. fold theta. rewrite Rpowf_pos by exact Hth. replace (25 / 10) with 2.5 by lra.
    replace (- (10080 / 10) / T) with (- (1008 / T)) by (field; lra). replace (10 / 10 - exp (- (1008 / T))) with (ground_state T) by (unfold ground_state; lra).
    unfold kappa_v, per_km. set (G := ground_state T). set (tot' := total _ ls) in *.
    match goal with |- context [0 / 10 + ?x] => change x with tot end. replace (0 / 10 + tot) with tot by lra.
    transitivity (56419 / 1e9 * G * (1e-6 * n) * (tot * Rpower theta 2.5)); [powers; lra|]. rewrite S. set (z := PI / sp). replace (0.56419 * PI / sp) with (0.56419 * z) by (unfold z, Rdiv; ring). clearbody z. powers. lra.
  - intros l Hl Hw. assert (HL := proj1 (Forall_forall _ _) Hg l Hl). destruct HL as (F1 & F2). assert (B0 := BP l F1).
    assert (DE : kd * sqrt (doppler2 (z_fl l) T) = beta l).
    { unfold doppler2. replace (z_fl l * z_fl l * (2 * k_B * T / (ozone_mass * light * light))) with ((z_fl l * z_fl l) * (T * q)).
      2:{ unfold q. assert (0 < ozone_mass * light * light) by (unfold ozone_mass, light; powers; lra). field. unfold ozone_mass, light; powers; split; lra. }
      rewrite R_sqrt.sqrt_mult by nra. rewrite R_sqrt.sqrt_square by lra. rewrite R_sqrt.sqrt_mult by lra. unfold kd, beta. set (c := 0.62065e-7). clearbody c. field. lra. }
    rewrite DE. set (w := o3_width l p theta) in *. set (b := beta l) in *.
    assert (PE : forall e, Rabs (sp * re (dcerror (A:=RA) ((z_fl l - f) / b) (w / b)) - (w / b) / ((z_fl l - f) / b * ((z_fl l - f) / b) + (w / b) * (w / b))) <= e * ((w / b) / ((z_fl l - f) / b * ((z_fl l - f) / b) + (w / b) * (w / b))) -> 0 < w -> close_to e (profile l) (lorentzian w (f - z_fl l))).
    { intros e H W. unfold close_to, profile, lorentzian. fold w b. assert (D : 0 < (f - z_fl l) * (f - z_fl l) + w * w) by (assert (K := sq_nonneg (f - z_fl l)); nra).
      assert (LE : (w / b) / ((z_fl l - f) / b * ((z_fl l - f) / b) + (w / b) * (w / b)) = b * PI * (w / (PI * ((f - z_fl l) * (f - z_fl l) + w * w)))).
      { field. repeat split; try lra. }
      rewrite LE in H. set (L := w / (PI * _)) in *. match type of H with Rabs (?v - _) <= _ => set (r := v) in * end. clearbody L r.
      apply (Rmult_le_reg_l (b * PI)); [nra|]. assert (BPI : 0 < b * PI) by nra. rewrite <- (Rabs_pos_eq (b * PI)) at 1 by lra. rewrite <- Rabs_mult.
      replace (b * PI * (r / (PI * b) - L)) with (r - b * PI * L) by (field; lra). lra. }
    assert (AW : Rabs ((z_fl l - f) / b) <= w / b).
    { unfold Rdiv. rewrite Rabs_mult, (Rabs_pos_eq (/ b)) by (left; apply Rinv_0_lt_compat; lra). apply Rmult_le_compat_r; [left; apply Rinv_0_lt_compat; lra|]. rewrite Rabs_minus_sym. exact Hw. }
    assert (WD : forall k, k * b <= w -> k <= w / b) by (intros k H; apply (Rmult_le_reg_r b); auto; replace (w / b * b) with w by (field; lra); exact H).
    split; intros H; apply PE; try nra.
    + replace 0.08 with (2 / 25) by lra. apply dcerror_lorentz; auto.
    + replace 0.01 with (1 / 100) by lra. apply dcerror_lorentz; auto. apply WD; lra.
Qed.

(** The shipped lists meet the hypotheses of both theorems. *)
Theorem C121_shipped m ll : db_o3 (@shipped RA) m = Some ll ->
  StronglySorted by_freq (z_lines ll) /\ Forall (fun l : o3_line RA => 0 < z_fl l /\ 0 <= z_w l) (z_lines ll) /\ 0 < z_reftline ll.
Proof.
  intros H. destruct (C56_shipped_lists m ll H) as (S & G & R). split; [exact S|]. split; [|exact R].
  assert (X : forall mtx rl, forallb (fun r => dec_pos (nth 1 r 0%dec)) mtx = true -> Some (o3_load (A:=RA) mtx rl) = Some ll -> Forall (fun l : o3_line RA => 0 < z_fl l) (z_lines ll)).
  { intros mtx rl A E. apply (f_equal (fun o : option (o3_ll RA) => match o with Some l => l | None => ll end)) in E. cbv beta iota in E. rewrite <- E.
    unfold o3_load. cbn [z_lines]. apply Forall_forall. intros x Hx. apply in_map_iff in Hx. destruct Hx as (r & <- & Hr). assert (K := proj1 (forallb_forall _ _) A r Hr). exact (dec_pos_R _ K). }
  assert (F : Forall (fun l : o3_line RA => 0 < z_fl l) (z_lines ll)).
  { change (shipped_o3 (A:=RA) m = Some ll) in H. unfold shipped_o3 in H.
    destruct (String.eqb m "R18"); [refine (X _ _ _ H); vm_compute; reflexivity|].
    destruct (String.eqb m "R22"); [refine (X _ _ _ H); vm_compute; reflexivity|].
    destruct (String.eqb m "R23"); [refine (X _ _ _ H); vm_compute; reflexivity|discriminate]. }
  rewrite Forall_forall in F, G |- *. intros l Hl. split; [apply F; exact Hl|exact (g3_w _ (G l Hl))].
Qed.

Example C121_example : exists ll, db_o3 (@shipped RA) "R18" = Some ll /\ exists kappa kd, 0.9999 <= kappa <= 1.0001 /\ 0.998 <= kd <= 1 /\
  o3_absorption (A:=RA) "R18" ll 220 50 110.836 3e18 = kappa * (per_km * (3e18 * 1e-6) * ground_state 220 *
    total (fun l : o3_line RA => strength (z_s1 l) (z_b l) 2.5 (z_reftline ll / 220) * ((110.836 / z_fl l) * (110.836 / z_fl l) * lorentzian (joint_width (o3_width l 50 (z_reftline ll / 220)) (kd * (ln 2 * doppler2 (z_fl l) 220))) (110.836 - z_fl l)))
      (filter (within 110.836) (z_lines ll))).
Proof.
  destruct (shipped_o3 (A:=RA) "R18") as [ll|] eqn:E; [|discriminate E]. exists ll. split; [exact E|].
  destruct (C121_shipped "R18" ll E) as (S & G & R).
  destruct (C121_ozone "R18" ll 220 50 110.836 3e18) as (k & kd & H); auto; try lra; [cbn; intros [H|[H|[]]]; discriminate H|]. exists k, kd. exact H.
Qed.

(** A line at 100 GHz, 0.1 GHz wide at 50 hPa, at its centre. *)
Example C121_voigt_example : let l := mkO3Line (A:=RA) 100 1 0 (2 / 1000) (3 / 4) in exists kappa profile, 0.9999 <= kappa <= 1.0001 /\
  o3_absorption (A:=RA) "R22" (mkO3LL (A:=RA) 296 [l]) 296 50 100 1e18 = kappa * (per_km * (1e18 * 1e-6) * ground_state 296 * (1 * profile)) /\ close_to 0.01 profile (lorentzian 0.1 0).
Proof.
  intros l. destruct (C121_ozone_voigt "R22" (mkO3LL (A:=RA) 296 [l]) 296 50 100 1e18) as (k & kd & prof & K & KD & E & C); cbn [z_lines z_reftline].
  - cbn; tauto.
  - repeat constructor.
  - repeat constructor; cbn; lra.
  - lra.
  - lra.
  - lra.
  - lra.
  - powers. lra.
  - exists k, (prof l). split; [exact K|]. cbn [z_lines z_reftline] in E, C.
    assert (T1 : 296 / 296 = 1) by lra. rewrite T1 in *. assert (P1 : forall x, Rpower 1 x = 1) by (intros; unfold Rpower; rewrite ln_1, Rmult_0_r; apply exp_0).
    split.
    + rewrite E. f_equal. f_equal. cbn [filter]. replace (within 100 l) with true by (unfold within, l; cbn [z_fl]; destruct (Rle_dec _ _) as [|N]; [reflexivity|exfalso; apply N; rewrite Rminus_diag_eq, Rabs_R0 by reflexivity; lra]).
      cbn [total fold_right]. unfold strength. rewrite P1. cbn [z_s1 z_b l]. replace (0 * (1 - 1)) with 0 by ring. rewrite exp_0. lra.
    + destruct (C l (or_introl eq_refl)) as (_ & C2).
      * unfold o3_width, l. cbn [z_fl z_w z_x]. rewrite P1, Rminus_diag_eq, Rabs_R0 by reflexivity. lra.
      * assert (W : o3_width l 50 1 = 0.1) by (unfold o3_width, l; cbn [z_w z_x]; rewrite P1; lra). rewrite W in C2. replace (100 - z_fl l) with 0 in C2 by (unfold l; cbn [z_fl]; lra).
        apply C2. assert (D : sqrt (doppler2 (z_fl l) 296) <= 1 / 1000).
        { apply Rsqr_incr_0; [|apply R_sqrt.sqrt_pos|lra]. unfold Rsqr. rewrite R_sqrt.sqrt_sqrt; unfold doppler2, k_B, ozone_mass, light, l; cbn [z_fl]; powers; lra. }
        assert (D0 := R_sqrt.sqrt_pos (doppler2 (z_fl l) 296)). nra.
Qed.

(** ** Claim C118: the continuum of water vapour *)

(** Foreign and self continuum of an atmosphere with partial pressures [pd] and [pv] (hPa), Np/km. *)
Definition continuum (cf xf cs xs theta pd pv f : R) : R := (cf * pd * Rpower theta xf + cs * pv * Rpower theta xs) * pv * (f * f).

Theorem C118_continuum m (ll : h2o_ll RA) pd vx ek f n c : In m (std_models ++ sd_models)%list -> m <> "MWL24" -> 0 < h_reftcon ll -> 0 < h_reftline ll -> (In m ["R23SD"; "R24"] -> h_cs ll <= 0) ->
  0 < vx -> 0 < ek -> 0 < f -> h2o_absorption (A:=RA) m ll pd vx ek f = Ok (n, c) ->
  exists pv, 0.9984 * (10 * ek) <= pv <= 1.0001 * (10 * ek) /\
  let T := 300 / vx in let dry := 10 * (pd + ek) - pv in
  (In m ["R98"; "R03"] -> npkm f c = continuum 5.43e-10 3 1.8e-8 7.5 (h_reftcon ll / T) dry pv f) /\
  (In m ["R16"; "R17"; "R18"; "R19"; "R20"; "R19SD"; "R20SD"; "R21SD"; "R22SD"] -> npkm f c = continuum (h_cf ll) (h_xcf ll) (h_cs ll) (h_xcs ll) (h_reftcon ll / T) dry pv f) /\
  (In m ["R23SD"; "R24"] -> exists j, (j <= 3)%nat /\ INR j * node <= f < (INR j + 1) * node /\
     npkm f c = continuum (h_cf ll) (h_xcf ll) (cub (ord (296 / T)) j (f / node - INR j)) 0 (h_reftline ll / T) dry pv f).
Proof.
  intros Hm NM Hc Hr Hcs Hv He Hf H. destruct (env_pressures m pd vx ek Hv ltac:(lra)) as (E1 & E2 & E3 & E4).
  destruct (C53_h2o_units m ll pd vx ek f n c ltac:(lra) H) as [(Z & _)|(_ & s & con & _ & Hs & _ & Hn)]; cbv zeta in *.
  { exfalso. rewrite E4 in Z. assert (0 < ek * 10 / (0.0831451 / 18.01528 * (300 / vx))); [|lra]. apply div_pos; [lra|]. apply Rmult_lt_0_compat; [lra|apply div_pos; lra]. }
  set (e := h2o_env_of (A:=RA) m pd vx ek) in *. exists (e_pvap e). split; [exact E1|].
  replace (10 * (pd + ek) - e_pvap e) with (e_pda e) by lra. set (T := 300 / vx) in *. assert (HT : 0 < T) by (apply div_pos; lra). rewrite Hn. clear Hn.
  assert (C1 : forall th, 0 < th -> h_reftcon ll / T = th -> str_in m ["R23SD"; "R24"] = false -> str_in m ["R03"; "R98"] = false -> con = continuum (h_cf ll) (h_xcf ll) (h_cs ll) (h_xcs ll) th (e_pda e) (e_pvap e) f).
  { intros th Hth Eth M1 M2. unfold h2o_con2 in Hs. rewrite M1 in Hs. apply ok_inj in Hs. rewrite <- Hs. unfold h2o_con1. cbv zeta. rewrite M2.
    destruct (String.eqb_spec m "MWL24") as [->|_]; [exfalso; apply NM; reflexivity|]. rewrite E3. ra. fold T. rewrite Eth. rewrite !Rpowf_pos by exact Hth. unfold continuum. ring. }
  assert (Hth : 0 < h_reftcon ll / T) by (apply div_pos; lra).
  split; [|split].
  - intros Hi. unfold h2o_con2 in Hs. replace (str_in m ["R23SD"; "R24"]) with false in Hs by (destruct Hi as [<-|[<-|[]]]; reflexivity). apply ok_inj in Hs. rewrite <- Hs.
    unfold h2o_con1. cbv zeta. replace (str_in m ["R03"; "R98"]) with true by (destruct Hi as [<-|[<-|[]]]; reflexivity). rewrite E3. ra. fold T. set (th := h_reftcon ll / T) in *.
    rewrite Rpowf_pos by exact Hth. rewrite powi3. unfold continuum. replace (Rpower th 3) with (th * th * th) by (replace 3 with (INR 3) by (cbn; lra); rewrite Rpower_pow by exact Hth; cbn [pow]; ring). replace (75 / 10) with 7.5 by lra. ra. set (z := Rpower th 7.5). clearbody z. powers. lra.
  - intros Hi. apply C1; auto; cbn [In] in Hi; intuition subst; reflexivity.
  - intros Hi. assert (M : str_in m ["R23SD"; "R24"] = true) by (destruct Hi as [<-|[<-|[]]]; reflexivity). unfold h2o_con2 in Hs. rewrite M in Hs. cbv zeta in Hs.
    match type of Hs with context [@ltb ?A ?a ?b] => replace (@ltb A a b) with false in Hs by (symmetry; apply Rltb_false; ra; specialize (Hcs Hi); lra) end.
    apply bind_Ok in Hs. destruct Hs as (cs & Ecs & Hs). apply ok_inj in Hs.
    assert (N : 0 < node) by (unfold node; lra).
    assert (J : exists j, (j <= 3)%nat /\ INR j * node <= f < (INR j + 1) * node).
    { destruct (Rlt_le_dec f (4 * node)) as [L|L]; [|rewrite (C58_out_of_range vx f Hv L) in Ecs; discriminate].
      destruct (Rlt_le_dec f node); [exists 0%nat; split; [lia|cbn [INR]; lra]|]. destruct (Rlt_le_dec f (2 * node)); [exists 1%nat; split; [lia|cbn [INR]; lra]|].
      destruct (Rlt_le_dec f (3 * node)); [exists 2%nat; split; [lia|cbn [INR]; lra]|exists 3%nat; split; [lia|cbn [INR]; lra]]. }
    destruct J as (j & J1 & J2). exists j. split; [exact J1|]. split; [exact J2|]. rewrite (C58_value vx f j Hv J1 J2) in Ecs. apply ok_inj in Ecs. fold T in Ecs. rewrite Ecs. clear Ecs.
    rewrite <- Hs. rewrite powi2, E3. assert (Ht : 0 < h_reftline ll / T) by (apply div_pos; lra). ra. fold T. rewrite Rpowf_pos by exact Ht. unfold continuum. rewrite (Rpower_O _ Ht). ring.
Qed.

(** The shipped lists. *)
Theorem C118_shipped m ll : In m (std_models ++ sd_models)%list -> db_h2o (@shipped RA) m = Some ll -> 0 < h_reftcon ll /\ 0 < h_reftline ll /\ (In m ["R23SD"; "R24"] -> h_cs ll <= 0).
Proof.
  intros Hm H. apply in_app_iff in Hm. destruct Hm as [Hm|Hm].
  - destruct (C57_shipped_lists m ll Hm H) as [_ G1 G2 _ _]. split; [auto|]. split; [auto|]. intros Hi. exfalso. unfold std_models in Hm. cbn [In] in Hm, Hi. intuition subst; discriminate.
  - destruct (sd_lists_good m ll Hm H) as (_ & G1 & G2 & _ & G3). split; [exact G1|]. split; [exact G2|]. intros Hi. replace (str_in m ["R23SD"; "R24"]) with true in G3 by (destruct Hi as [<-|[<-|[]]]; reflexivity). exact G3.
Qed.

(** A humid level of 980 hPa dry air and 10 hPa of vapour at 290 K. *)
Example C118_example : exists ll n c, db_h2o (@shipped RA) "R19" = Some ll /\ h2o_absorption (A:=RA) "R19" ll 98 (300 / 290) 1 183.31 = Ok (n, c) /\ exists pv kappa, 9.984 <= pv <= 10.001 /\ 0.9975 <= kappa <= 1.0005 /\
  npkm 183.31 n = kappa * (per_km * number_density 10 290 * total (fun l : h2o_line RA => strength (h_s1 l) (h_b2 l) 2.5 (h_reftline ll / 290) * vvw (width_of l (990 - pv) pv (h_reftline ll / 290)) (h_fl l) (shift_of "R19" l (990 - pv) pv (h_reftline ll / 290)) 183.31) (h_lines ll)).
Proof.
  destruct (shipped_h2o (A:=RA) "R19") as [ll|] eqn:E; [|discriminate E].
  assert (M : In "R19" std_models) by (cbn; tauto). destruct (C118_shipped "R19" ll ltac:(apply in_app_iff; left; exact M) E) as (_ & R & _).
  assert (X : exists n c, h2o_absorption (A:=RA) "R19" ll 98 (300 / 290) 1 183.31 = Ok (n, c)).
  { unfold h2o_absorption. destruct (@eqb RA _ _); [do 2 eexists; reflexivity|]. do 2 eexists. reflexivity. }
  destruct X as (n & c & X). exists ll, n, c. split; [exact E|]. split; [exact X|].
  destruct (C118_water_lines "R19" ll 98 (300 / 290) 1 183.31 n c M R ltac:(lra) ltac:(lra) ltac:(lra) X) as (pv & k & H1 & H2 & H3). exists pv, k. split; [lra|]. split; [exact H2|].
  cbv zeta in H3. replace (300 / (300 / 290)) with 290 in H3 by lra. replace (10 * 1) with 10 in H3 by lra. replace (10 * (98 + 1) - pv) with (990 - pv) in H3 by lra. exact H3.
Qed.

Example C118_sd_example : exists ll n c, db_h2o (@shipped RA) "R24" = Some ll /\ h2o_absorption (A:=RA) "R24" ll 98 (300 / 290) 1 183.31 = Ok (n, c) /\ exists pv cs kappa, 9.984 <= pv <= 10.001 /\ 0.9999 <= kappa <= 1.0005 /\ Forall correction cs /\
  npkm 183.31 n = kappa * (per_km * number_density 10 290 * total (fun p : R * h2o_line RA => let (c, l) := p in strength (h_s1 l) (h_b2 l) 2.5 (h_reftline ll / 290) * vvw_corrected c (width_of l (990 - pv) pv (h_reftline ll / 290)) (h_fl l) (shift_of "R24" l (990 - pv) pv (h_reftline ll / 290)) 183.31) (combine cs (h_lines ll))).
Proof.
  destruct C57_sd_example as (ll & E & n & c & X & _). exists ll, n, c. split; [exact E|]. split; [exact X|].
  destruct (C118_water_lines_sd "R24" ll 98 (300 / 290) 1 183.31 n c ltac:(cbn; tauto) E ltac:(lra) ltac:(lra) ltac:(lra) ltac:(lra) ltac:(lra) ltac:(lra) X) as (pv & k & cs & H1 & H2 & _ & H4 & H3). exists pv, cs, k.
  split; [lra|]. split; [exact H2|]. split; [exact H4|].
  cbv zeta in H3. replace (300 / (300 / 290)) with 290 in H3 by lra. replace (10 * 1) with 10 in H3 by lra. replace (10 * (98 + 1) - pv) with (990 - pv) in H3 by lra. exact H3.
Qed.
