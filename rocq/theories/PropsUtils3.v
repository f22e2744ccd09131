(** Claims C105-C109: masses of molecules, conversions of trace gases, moist air, and the choice between ice and water. *)

From Coq Require Import ZArith Reals Lra Lia List Bool String.
From Coquelicot Require Import Coquelicot.
Import ListNotations.
From Verif Require Import Arith PyBase Utils RTE Spec RealAux ExpQ PropsUtils PropsUtils2.
Open Scope R_scope.

(** ** C105: mass of a molecule *)

(** Specification: chemical formulas of the gases named in /repo/pyrtlib/climatology/atmospheric_profiles.py:55-100 and mass
    numbers of the elements. *)
Inductive element := eH | eC | eN | eO | eF | eP | eS | eCl | eBr | eI.
Definition mass_number (e : element) : Z :=
  match e with eH => 1 | eC => 12 | eN => 14 | eO => 16 | eF => 19 | eP => 31 | eS => 32 | eCl => 35 | eBr => 80 | eI => 127 end%Z.
Fixpoint formula_mass (f : list (element * Z)) : Z :=
  match f with [] => 0 | (e, k) :: f => mass_number e * k + formula_mass f end%Z.
Definition formulas : list (list (element * Z)) :=
  ( [ [(eH, 2); (eO, 1)]; [(eC, 1); (eO, 2)]; [(eO, 3)]; [(eN, 2); (eO, 1)]; [(eC, 1); (eO, 1)]; [(eC, 1); (eH, 4)]; [(eO, 2)];
    (* minor *)
    [(eN, 1); (eO, 1)]; [(eS, 1); (eO, 2)]; [(eN, 1); (eO, 2)]; [(eN, 1); (eH, 3)]; [(eH, 1); (eN, 1); (eO, 3)]; [(eO, 1); (eH, 1)];
    [(eH, 1); (eF, 1)]; [(eH, 1); (eCl, 1)]; [(eH, 1); (eBr, 1)]; [(eH, 1); (eI, 1)]; [(eCl, 1); (eO, 1)]; [(eO, 1); (eC, 1); (eS, 1)];
    [(eH, 2); (eC, 1); (eO, 1)]; [(eH, 1); (eO, 1); (eCl, 1)]; [(eN, 2)]; [(eH, 1); (eC, 1); (eN, 1)];
    [(eC, 1); (eH, 3); (eCl, 1)]; [(eH, 2); (eO, 2)]; [(eC, 2); (eH, 2)]; [(eC, 2); (eH, 6)]; [(eP, 1); (eH, 3)];
    (* trace *)
    [(eC, 1); (eO, 1); (eF, 2)]; [(eS, 1); (eF, 6)]; [(eH, 2); (eS, 1)]; [(eC, 1); (eCl, 3); (eF, 1)] ] )%Z.

Theorem C105_formula (g : nat) : (g <= 30)%nat ->
  gas_mass (A:=RA) (Z.of_nat g) = Ok (IZR (formula_mass (nth g formulas [])) * 1.6726485e-27).
Proof.
  intros H. unfold gas_mass.
  do 31 (destruct g as [|g]; [cbv [gas_amus Z.of_nat Pos.of_succ_nat Pos.succ nth formulas formula_mass mass_number Z.mul Z.add
    Pos.mul Pos.add]; ra; f_equal; lra|]). lia.
Qed.

(** Identifier 31 of the climatology is CCl3F (137.37 amu, here 136), but the mass returned is that of formic acid. *)
Theorem C105_formula_refuted :
  exists m, gas_mass (A:=RA) 31 = Ok m /\ m = 46 * 1.6726485e-27 /\ m < IZR (formula_mass (nth 31 formulas [])) * 1.6726485e-27.
Proof. 
  exists (46 * 1.6726485e-27). split; [unfold gas_mass; cbv [gas_amus]; ra; f_equal; lra|]. split; [reflexivity|].
  replace (formula_mass (nth 31 formulas [])) with 136%Z by reflexivity. lra.
Qed.

Example C105_example : (2 <= 30)%nat /\ formula_mass (nth 2 formulas []) = 48%Z.
Proof. split; [lia|reflexivity]. Qed.

(** ** C106: volume mixing ratio to mass mixing ratio *)

(** Molecules per molecule of dry air times the ratio of the masses, in g/kg. *)
Theorem C106_mass_ratio (x : R) (g : Z) (m ma : R) :
  gas_mass (A:=RA) g = Ok m -> gas_mass (A:=RA) 99 = Ok ma ->
  ppmv2gkg (A:=RA) x g = Ok (1000 * (x * 1e-6 * m / ma)).
Proof.
  intros Hm Ha. unfold ppmv2gkg. cbn zeta. rewrite Hm, Ha. cbn [bind].
  assert (0 < ma) by (injection Ha as <-; ra; lra). f_equal. ra. field. lra.
Qed.
Theorem C106_unknown_gas (A : Arith) (x : car A) (g : Z) : gas_mass (A:=A) g = Err UnboundLocalError -> ppmv2gkg x g = Err UnboundLocalError.
Proof. intros H. unfold ppmv2gkg. cbn zeta. rewrite H. reflexivity. Qed.

(** The vapour pressure of the converted mixing ratio is the one of the volume mixing ratio [x] (ppmv of dry air), p x / (1 + x),
    to one part in 10^9. *)
Theorem C106_vapour_pressure (x p : R) : 0 <= x -> 0 <= p ->
  exists w, ppmv2gkg (A:=RA) x 0 = Ok w /\
    let v := x / 1000000 in
    Rabs (mr2e (A:=RA) p w - p * v / (1 + v)) <= 1e-9 * (p * v / (1 + v)).
Proof.
  intros Hx Hp. exists (1000 * (x / 1000000) * (18 / 28.9402753669)). split.
  { unfold ppmv2gkg, gas_mass. cbv [gas_amus]. cbn [bind]. ra. f_equal. lra. }
  cbn zeta. set (v := x / 1000000). assert (Hv : 0 <= v) by (unfold v; lra).
  unfold mr2e, eps_. ra. set (r := 18 / 28.9402753669).
  assert (Hr : 0.62 < r < 0.63) by (unfold r; lra).
  assert (Hq : Rabs (r - 0.621970585) <= 6e-10).
  { unfold r. apply Rabs_le. split; lra. }
  replace (621970585 / 1000000000) with 0.621970585 by lra.
  replace (10000 / 10) with 1000 by lra. replace (1000 / 1) with 1000 by lra.
  assert (E : p * (1000 * v * r) / (1000 * 0.621970585 + 1000 * v * r) - p * v / (1 + v)
              = (p * v / (1 + v)) * ((r - 0.621970585) / (0.621970585 + v * r))) by (field; split; nra).
  rewrite E, Rabs_mult.
  assert (P : 0 <= p * v / (1 + v)) by (apply Rmult_le_pos; [nra|left; apply Rinv_0_lt_compat; lra]).
  rewrite (Rabs_pos_eq (p * v / (1 + v)) P). rewrite (Rmult_comm 1e-9). apply Rmult_le_compat_l; [exact P|].
  unfold Rdiv at 1. rewrite Rabs_mult, (Rabs_pos_eq (/ _)) by (left; apply Rinv_0_lt_compat; nra).
  assert (D : 0.62 <= 0.621970585 + v * r) by nra.
  apply Rle_trans with (6e-10 * / 0.62); [|lra].
  apply Rmult_le_compat; [apply Rabs_pos|left; apply Rinv_0_lt_compat; lra|exact Hq|apply Rinv_le_contravar; lra].
Qed.

Example C106_example : exists w, ppmv2gkg (A:=RA) 25900 0 = Ok w /\
  let v := 25900 / 1000000 in Rabs (mr2e (A:=RA) 1013 w - 1013 * v / (1 + v)) <= 1e-9 * (1013 * v / (1 + v)).
Proof. apply C106_vapour_pressure; lra. Qed.

(** ** C107: density of moist air *)

(** Specification: ideal gas law for air at pressure [p] (hPa) with gas constant of dry air, at temperature [tv]. *)
Definition gas_density (p tv : R) : R := 100 * p / (287.04 * tv).

(** The factor returned for the specific humidity q = w / (1 + w) is the density of air at the virtual temperature of the
    mixing ratio w (kg/kg), to 7 parts in 10^5; moist air is lighter than dry air at the same pressure and temperature. *)
Theorem C107_moist_air (w p t : R) : 0 <= w -> 0 < p -> 0 < t ->
  let q := w / (1 + w) in
  let d := kgkg_to_kgm3 (A:=RA) q p t in
  let ref := gas_density p (virtual_temperature (A:=RA) t w) in
  0 < d /\ ref <= d <= ref * (1 + 7e-5 * q) /\ d <= gas_density p t /\ (0 < w -> d < gas_density p t) /\
  kgkg_to_kgm3 (A:=RA) 0 p t = gas_density p t.
Proof.
  intros Hw Hp Ht q d ref.
  assert (Hq : 0 <= q < 1).
  { unfold q. split; [apply Rmult_le_pos; [lra|left; apply Rinv_0_lt_compat; lra]|].
    apply Rmult_lt_reg_r with (1 + w); [lra|]. unfold Rdiv. rewrite Rmult_assoc, Rinv_l by lra. lra. }
  set (a := (1 - 0.621970585) / 0.621970585). assert (Ha : 0.6077 < a < 0.6078) by (unfold a; lra).
  set (b := (1 - 287.04 / 461.52) / (287.04 / 461.52)). assert (Hb : 0 <= b - a <= 7e-5) by (unfold a, b; lra).
  assert (Ed : d = gas_density p (t * (1 + a * q))).
  { unfold d, kgkg_to_kgm3, gas_density, k_Rdry, eps_. ra. replace (621970585 / 1000000000) with 0.621970585 by lra.
    replace (1 / 1) with 1 by lra. replace (28704 / 100) with 287.04 by lra. replace (100 / 1) with 100 by lra. fold a.
    assert (C0 : 287.04 <> 0) by lra. revert C0. generalize 287.04. intros c C0. clearbody a. field. repeat split; nra. }
  assert (Er : ref = gas_density p (t * (1 + b * q))).
  { unfold ref. f_equal. unfold virtual_temperature, k_Rdry, k_Rwatvap, b, q. ra.
    replace (28704 / 100) with 287.04 by lra. replace (46152 / 100) with 461.52 by lra.
    replace (1 / 1) with 1 by lra. assert (C0 : 287.04 / 461.52 <> 0) by lra. revert C0. generalize (287.04 / 461.52). intros c C0.
    field. split; lra. }
  assert (G : forall x y, 0 < x -> x <= y -> gas_density p (t * y) <= gas_density p (t * x)).
  { intros x y Hx Hxy. unfold gas_density, Rdiv. apply Rmult_le_compat_l; [lra|].
    assert (0 < t * x) by (apply Rmult_lt_0_compat; lra). assert (t * x <= t * y) by (apply Rmult_le_compat_l; lra).
    apply Rinv_le_contravar; lra. }
  assert (G' : forall x y, 0 < x -> x < y -> gas_density p (t * y) < gas_density p (t * x)).
  { intros x y Hx Hxy. unfold gas_density, Rdiv. apply Rmult_lt_compat_l; [lra|].
    assert (0 < t * x) by (apply Rmult_lt_0_compat; lra). assert (t * x < t * y) by (apply Rmult_lt_compat_l; lra).
    apply Rinv_lt_contravar; [|lra]. apply Rmult_lt_0_compat; lra. }
  assert (T : gas_density p t = gas_density p (t * 1)) by (f_equal; lra).
  rewrite Ed, Er. split; [|split; [split|split; [|split]]].
  - unfold gas_density. apply Rmult_lt_0_compat; [lra|]. apply Rinv_0_lt_compat. apply Rmult_lt_0_compat; [lra|].
    apply Rmult_lt_0_compat; nra.
  - apply G; nra.
  - assert (X : 0 < 1 + a * q) by nra. assert (Y : 0 < 1 + b * q) by nra.
    replace (gas_density p (t * (1 + a * q))) with (gas_density p (t * (1 + b * q)) * ((1 + b * q) / (1 + a * q)))
      by (unfold gas_density; field; repeat split; lra).
    apply Rmult_le_compat_l.
    { unfold gas_density. apply Rmult_le_pos; [lra|]. left. apply Rinv_0_lt_compat. apply Rmult_lt_0_compat; [lra|]. apply Rmult_lt_0_compat; lra. }
    apply Rmult_le_reg_r with (1 + a * q); [lra|]. unfold Rdiv. rewrite Rmult_assoc, Rinv_l by lra. nra.
  - rewrite T. apply G; nra.
  - intros Hw'. rewrite T. apply G'; [lra|]. assert (0 < q); [|nra].
    unfold q. apply Rmult_lt_0_compat; [lra|]. apply Rinv_0_lt_compat. lra.
  - unfold kgkg_to_kgm3, gas_density, k_Rdry, eps_. ra. replace (28704 / 100) with 287.04 by lra.
    generalize ((1 / 1 - 621970585 / 1000000000) / (621970585 / 1000000000)). intros c. field. lra.
Qed.
Example C107_example : kgkg_to_kgm3 (A:=RA) (1 / 100 / (1 + 1 / 100)) 1000 300 < gas_density 1000 300.
Proof. destruct (C107_moist_air (1/100) 1000 300) as (_ & _ & _ & H & _); [lra|lra|lra|]. apply H. lra. Qed.

(** ** C108: number density of a trace gas *)

(** Specification: number of molecules per volume of an ideal gas with the Boltzmann constant of the package. *)
Lemma avogadro_R : k_avogadro (A:=RA) = 6.022140857e+23. Proof. unfold k_avogadro. ra. lra. Qed.
Lemma gasconst_R : k_R (A:=RA) = 8.31446261815324. Proof. unfold k_R. ra. lra. Qed.
Lemma number_R x p t : ppmv_to_moleculesm3 (A:=RA) x p t = 6.022140857e+23 * p / (8.31446261815324 * t) * x * 1e-6.
Proof.
  unfold ppmv_to_moleculesm3. rewrite avogadro_R, gasconst_R. ra. generalize 6.022140857e+23 8.31446261815324. intros a b.
  replace (1 / 1000000) with 1e-6 by lra. reflexivity.
Qed.
Definition number_density (p t : R) : R := p / (1.3806579999999998e-23 * t).

Theorem C108_number_density (x p t : R) : 0 <= x -> 0 < p -> 0 < t ->
  let n := ppmv_to_moleculesm3 (A:=RA) x p t in
  let ref := number_density p t * (x * 1e-6) in
  ref <= n <= ref * (1 + 7e-6).
Proof.
  intros Hx Hp Ht n ref.
  assert (E : n = ref * (6.022140857e+23 * 1.3806579999999998e-23 / 8.31446261815324)).
  { unfold n, ref, number_density. rewrite number_R. assert (K : 1.3806579999999998e-23 <> 0) by lra. assert (G : 8.31446261815324 <> 0) by lra.
    revert K G. generalize 6.022140857e+23 8.31446261815324 1.3806579999999998e-23 1e-6. change (car RA) with R. intros. field. repeat split; lra. }
  assert (R0 : 0 <= ref).
  { unfold ref, number_density. apply Rmult_le_pos; [|lra]. apply Rmult_le_pos; [lra|]. left. apply Rinv_0_lt_compat. nra. }
  rewrite E. split.
  - rewrite <- (Rmult_1_r ref) at 1. apply Rmult_le_compat_l; [exact R0|]. lra.
  - apply Rmult_le_compat_l; [exact R0|]. lra.
Qed.

(** The mass density of a gas computed from its number density, and from its mass mixing ratio in dry air, differ by less than 1 %. *)
Theorem C108_two_routes (x p t : R) (g : Z) (m w : R) : 0 <= x -> 0 < p -> 0 < t ->
  gas_mass (A:=RA) g = Ok m -> 0 < m -> ppmv2gkg (A:=RA) x g = Ok w ->
  let by_number := ppmv_to_moleculesm3 (A:=RA) x (100 * p) t * m in
  let by_mass := w / 1000 * kgkg_to_kgm3 (A:=RA) 0 p t in
  Rabs (by_mass - by_number) <= 0.01 * by_number.
Proof.
  intros Hx Hp Ht Hm Hpos Hw by_number by_mass.
  assert (Ew : w = 1000 * (x * 1e-6 * m / (28.9402753669 * 1.6726485e-27))).
  { assert (H := C106_mass_ratio x g m (28.9402753669 * 1.6726485e-27) Hm).
    rewrite Hw in H. assert (Q : gas_mass (A:=RA) 99 = Ok (28.9402753669 * 1.6726485e-27)).
    { unfold gas_mass. cbv [gas_amus]. ra. f_equal. lra. }
    specialize (H Q). injection H as H. exact H. }
  set (k := x * 1e-6 * m * (100 * p) / t).
  assert (Hk : 0 <= k).
  { unfold k. apply Rmult_le_pos; [|left; apply Rinv_0_lt_compat; auto]. apply Rmult_le_pos; [|lra]. apply Rmult_le_pos; [|lra]. lra. }
  assert (En : by_number = k * (6.022140857e+23 / 8.31446261815324)).
  { unfold by_number, k. rewrite number_R. assert (G : 8.31446261815324 <> 0) by lra.
    revert G. generalize 6.022140857e+23 8.31446261815324 1e-6. change (car RA) with R. intros. field. repeat split; lra. }
  assert (Em : by_mass = k * (1 / (287.04 * (28.9402753669 * 1.6726485e-27)))).
  { unfold by_mass, k. rewrite Ew. destruct (C107_moist_air 0 p t ltac:(lra) Hp Ht) as (_ & _ & _ & _ & C).
    rewrite C. unfold gas_density. assert (G : 287.04 <> 0) by lra. assert (K : 28.9402753669 * 1.6726485e-27 <> 0) by lra.
    revert G K. generalize 287.04 (28.9402753669 * 1.6726485e-27) 1e-6. change (car RA) with R. intros. field. repeat split; lra. }
  rewrite En, Em. replace (k * (1 / (287.04 * (28.9402753669 * 1.6726485e-27))) - k * (6.022140857e+23 / 8.31446261815324))
    with (k * (1 / (287.04 * (28.9402753669 * 1.6726485e-27)) - 6.022140857e+23 / 8.31446261815324)) by ring.
  rewrite Rabs_mult, (Rabs_pos_eq k Hk). rewrite (Rmult_comm 0.01), Rmult_assoc.
  apply Rmult_le_compat_l; [exact Hk|]. apply Rabs_le. split; lra.
Qed.
Example C108_example : 2.5e18 <= ppmv_to_moleculesm3 (A:=RA) 0.1 101325 293.15 <= 2.51e18.
Proof.
  destruct (C108_number_density 0.1 101325 293.15) as [H1 H2]; try lra. unfold number_density in *.
  revert H1 H2. generalize (ppmv_to_moleculesm3 (A:=RA) 0.1 101325 293.15). intros v H1 H2. lra.
Qed.

(** ** C109: ice below the conversion temperature *)

Theorem C109_selection (t : R) (tc : option R) :
  satvap (A:=RA) t tc =
    match tc with
    | None => goff_water t
    | Some c => if Req_EM_T c 0 then goff_water t else if Rle_dec t c then goff_ice t else goff_water t
    end.
Proof.
  unfold satvap, tconv_active. destruct tc as [c|]; [|apply eswat_R]. ra. unfold Reqb.
  replace (0 / 1) with 0 by lra.
  destruct (Req_EM_T c 0); [apply eswat_R|]. unfold Rleb. destruct (Rle_dec t c); [apply esice_R|apply eswat_R].
Qed.

(** Steam point and ice point of the two formulas. *)
Theorem C109_reference_points : satvap (A:=RA) 373.16 None = 1013.246 /\ satvap (A:=RA) 273.15 (Some 273.15) = 6.1071.
Proof.
  assert (L := ln10_gt2).
  assert (P : forall x, 0 < x -> Rpower 10 (log10 x) = x).
  { intros x Hx. unfold Rpower, log10. replace (ln x / ln 10 * ln 10) with (ln x) by (field; lra). apply exp_ln, Hx. }
  assert (Z : log10 1 = 0) by (unfold log10; rewrite ln_1; field; lra).
  assert (O : Rpower 10 0 = 1) by (apply Rpower_O; lra).
  rewrite !C109_selection. split.
  - unfold goff_water. cbn zeta. replace (373.16 / 373.16) with 1 by lra. rewrite Z.
    replace (11.344 * (1 - 1 / 1)) with 0 by lra. replace (- 3.49149 * (1 - 1)) with 0 by lra. rewrite O.
    replace (- 7.90298 * (1 - 1) + 5.02808 * 0 - 1.3816e-7 * (1 - 1) + 8.1328e-3 * (1 - 1) + log10 1013.246) with (log10 1013.246) by lra.
    apply P. lra.
  - destruct (Req_EM_T 273.15 0); [lra|]. destruct (Rle_dec 273.15 273.15); [|lra].
    unfold goff_ice. cbn zeta. replace (273.15 / 273.15) with 1 by lra. rewrite Z.
    replace (- 9.09718 * (1 - 1) - 3.56654 * 0 + 0.876793 * (1 - 1 / 1) + log10 6.1071) with (log10 6.1071) by lra. apply P. lra.
Qed.

Lemma goff_water_continuous c : 0 < c -> forall eps, 0 < eps -> exists d, 0 < d /\ forall t, c < t < c + d -> Rabs (goff_water t - goff_water c) < eps.
Proof.
  intros Hc eps He.
  assert (D : ex_derive goff_water c).
  { assert (L := ln10_gt2). unfold goff_water, log10, Rpower. cbn zeta. auto_derive. 
    assert (0 < 373.16 / c) by (apply Rdiv_lt_0_compat; lra). repeat split; try lra.
  }
  apply ex_derive_continuous in D. apply continuity_pt_filterlim in D.
  destruct (D eps He) as (d & Hd & H). exists d. split; [exact Hd|]. intros t Ht. apply (H t). split.
  - split; [exact I|lra].
  - unfold R_met. cbn. unfold R_dist. rewrite Rabs_pos_eq; lra.
Qed.

(** With a conversion temperature [c] the saturation pressure increases over the whole range exactly when the formula for water
    is not below the formula for ice at [c]. *)
Theorem C109_monotone (c : R) : 0 < c < 800 ->
  (forall t1 t2, 0 < t1 -> t1 < t2 -> t2 <= 800 -> satvap (A:=RA) t1 (Some c) < satvap (A:=RA) t2 (Some c))
  <-> goff_ice c <= goff_water c.
Proof.
  intros Hc. split.
  - intros H. destruct (Rle_lt_dec (goff_ice c) (goff_water c)) as [Hle|Hlt]; [exact Hle|exfalso].
    destruct (goff_water_continuous c ltac:(lra) (goff_ice c - goff_water c) ltac:(lra)) as (d & Hd & Hcont).
    set (t := Rmin (c + d / 2) 800). assert (Ht : c < t <= 800 /\ t < c + d).
    { unfold t. assert (X := Rmin_r (c + d / 2) 800). assert (Y := Rmin_l (c + d / 2) 800).
      split; [split; [apply Rmin_glb_lt; lra|lra]|lra]. }
    specialize (H c t ltac:(lra) ltac:(lra) ltac:(lra)). rewrite !C109_selection in H.
    destruct (Req_EM_T c 0); [lra|]. destruct (Rle_dec c c); [|lra]. destruct (Rle_dec t c); [lra|].
    specialize (Hcont t ltac:(lra)). apply Rabs_def2 in Hcont. lra.
  - intros Hle t1 t2 H1 H12 H2. rewrite !C109_selection. destruct (Req_EM_T c 0); [lra|].
    destruct C30_saturation_pressure_monotone as (_ & W & I).
    assert (W' : forall a b, 0 < a -> a < b -> b <= 800 -> goff_water a < goff_water b) by (intros; rewrite <- !eswat_R; apply W; lra).
    assert (I' : forall a b, 0 < a -> a < b -> b <= 800 -> goff_ice a < goff_ice b) by (intros; rewrite <- !esice_R; apply I; lra).
    clear W I. destruct (Rle_dec t1 c) as [L1|L1], (Rle_dec t2 c) as [L2|L2]; [apply I'; auto| |lra|apply W'; auto].
    apply Rle_lt_trans with (goff_ice c).
    + destruct L1 as [L1|L1]; [left; apply I'; lra|right; rewrite L1; reflexivity].
    + apply Rle_lt_trans with (goff_water c); [exact Hle|]. apply W'; lra.
Qed.

(** At the melting point, the usual conversion temperature, the pressure drops: 6.1071 hPa over ice, less over water. *)
Lemma drop_at_melting_point : goff_water 273.15 < goff_ice 273.15.
Proof.
  assert (E := proj2 C109_reference_points). rewrite C109_selection in E.
  destruct (Req_EM_T 273.15 0); [lra|]. destruct (Rle_dec 273.15 273.15); [|lra]. rewrite E.
  unfold goff_water. cbn zeta. set (y := 373.16 / 273.15). assert (Y : y = 37316 / 27315) by (unfold y; lra).
  assert (L := ln_frac 2302585092991 2302585092998 1000000000000 10 1 ltac:(vm_compute; reflexivity) ltac:(vm_compute; reflexivity) ltac:(lia)).
  assert (Ly := ln_frac 311986187248 311986187255 1000000000000 37316 27315 ltac:(vm_compute; reflexivity) ltac:(vm_compute; reflexivity) ltac:(lia)).
  assert (Ls := ln_frac 6920914317804 6920914317811 1000000000000 1013246 1000 ltac:(vm_compute; reflexivity) ltac:(vm_compute; reflexivity) ltac:(lia)).
  assert (Li := ln_frac 1809452028755 1809452028762 1000000000000 61071 10000 ltac:(vm_compute; reflexivity) ltac:(vm_compute; reflexivity) ltac:(lia)).
  assert (Lc := ln_frac (-2813410716764) (-2813410716757) 1000000000000 6 100 ltac:(vm_compute; reflexivity) ltac:(vm_compute; reflexivity) ltac:(lia)).
  rewrite <- Y in Ly.
  replace (10 / 1) with 10 in L by lra. replace (1013246 / 1000) with 1013.246 in Ls by lra. replace (61071 / 10000) with 6.1071 in Li by lra.
  assert (E1 : 1 <= Rpower 10 (11.344 * (1 - 1 / y))).
  { rewrite <- (Rpower_O 10) at 1 by lra. apply Rpower_le10. rewrite Y. lra. }
  assert (E2 : Rpower 10 (- 3.49149 * (y - 1)) <= 6 / 100).
  { unfold Rpower. rewrite <- (exp_ln (6 / 100)) by lra. apply exp_le. rewrite Y. nra. }
  replace 6.1071 with (exp (ln 6.1071)) by (apply exp_ln; lra). unfold Rpower at 1. apply exp_increasing.
  set (p1 := Rpower 10 (11.344 * (1 - 1 / y))) in *. set (p2 := Rpower 10 (- 3.49149 * (y - 1))) in *. clearbody p1 p2.
  unfold log10. assert (L0 : ln 10 <> 0) by lra.
  match goal with |- ?a < _ => replace a with ((- 7.90298 * (y - 1) - 1.3816e-7 * (p1 - 1) + 8.1328e-3 * (p2 - 1)) * ln 10 + 5.02808 * ln y + ln 1013.246) end.
  2:{ generalize dependent (ln 10). intros l10. intros. generalize 7.90298 5.02808 1.3816e-7 8.1328e-3. intros. field. exact L0. }
  assert (B : - 7.90298 * (y - 1) - 1.3816e-7 * (p1 - 1) + 8.1328e-3 * (p2 - 1) <= - 7.90298 * (y - 1) - 8.1328e-3 * (94 / 100)) by lra.
  rewrite Y in B |- *. rewrite Y in Ly. nra.
Qed.
Theorem C109_monotone_refuted :
  ~ (forall t1 t2, 0 < t1 -> t1 < t2 -> t2 <= 800 -> satvap (A:=RA) t1 (Some 273.15) < satvap (A:=RA) t2 (Some 273.15)).
Proof. intros H. apply C109_monotone in H; [|lra]. assert (D := drop_at_melting_point). lra. Qed.

(** At 250 K supercooled water has the higher pressure, so that conversion temperature gives an increasing pressure. *)
Example C109_example : goff_ice 250 <= goff_water 250.
Proof.
  unfold goff_ice, goff_water. cbn zeta. apply Rpower_le10.
  set (y := 373.16 / 250). assert (Y : y = 37316 / 25000) by (unfold y; lra).
  set (x := 273.15 / 250). assert (X : x = 27315 / 25000) by (unfold x; lra).
  assert (L := ln_frac 2302585092991 2302585092998 1000000000000 10 1 ltac:(vm_compute; reflexivity) ltac:(vm_compute; reflexivity) ltac:(lia)).
  assert (Ly := ln_frac 400546364227 400546364234 1000000000000 37316 25000 ltac:(vm_compute; reflexivity) ltac:(vm_compute; reflexivity) ltac:(lia)).
  assert (Lx := ln_frac 88560176976 88560176983 1000000000000 27315 25000 ltac:(vm_compute; reflexivity) ltac:(vm_compute; reflexivity) ltac:(lia)).
  assert (Ls := ln_frac 6920914317804 6920914317811 1000000000000 1013246 1000 ltac:(vm_compute; reflexivity) ltac:(vm_compute; reflexivity) ltac:(lia)).
  assert (Li := ln_frac 1809452028755 1809452028762 1000000000000 61071 10000 ltac:(vm_compute; reflexivity) ltac:(vm_compute; reflexivity) ltac:(lia)).
  assert (Lc := ln_frac 8699514748207 8699514748214 1000000000000 6000 1 ltac:(vm_compute; reflexivity) ltac:(vm_compute; reflexivity) ltac:(lia)).
  rewrite <- Y in Ly. rewrite <- X in Lx.
  replace (10 / 1) with 10 in L by lra. replace (1013246 / 1000) with 1013.246 in Ls by lra. replace (61071 / 10000) with 6.1071 in Li by lra.
  assert (E1 : Rpower 10 (11.344 * (1 - 1 / y)) <= 6000 / 1).
  { unfold Rpower. rewrite <- (exp_ln (6000 / 1)) by lra. apply exp_le. rewrite Y. nra. }
  assert (E2 : 0 < Rpower 10 (- 3.49149 * (y - 1))) by apply exp_pos.
  set (p1 := Rpower 10 (11.344 * (1 - 1 / y))) in *. set (p2 := Rpower 10 (- 3.49149 * (y - 1))) in *. clearbody p1 p2.
  unfold log10. assert (L0 : ln 10 <> 0) by lra. apply Rmult_le_reg_r with (ln 10); [lra|].
  match goal with |- ?a <= ?b =>
    replace a with ((- 9.09718 * (x - 1) + 0.876793 * (1 - 1 / x)) * ln 10 - 3.56654 * ln x + ln 6.1071)
      by (generalize dependent (ln 10); intros; generalize dependent (1 / x); intros; generalize 9.09718 3.56654 0.876793; intros; field; auto);
    replace b with ((- 7.90298 * (y - 1) - 1.3816e-7 * (p1 - 1) + 8.1328e-3 * (p2 - 1)) * ln 10 + 5.02808 * ln y + ln 1013.246)
      by (generalize dependent (ln 10); intros; generalize 7.90298 5.02808 1.3816e-7 8.1328e-3; intros; field; auto)
  end.
  set (cw := - 7.90298 * (y - 1) - 1.3816e-7 * (p1 - 1) + 8.1328e-3 * (p2 - 1)).
  assert (B : - 3.91 <= cw) by (unfold cw; rewrite Y; lra).
  set (ci := - 9.09718 * (x - 1) + 0.876793 * (1 - 1 / x)). assert (K : ci <= - 0.767) by (unfold ci; rewrite X; lra).
  clearbody cw ci. assert (cw * ln 10 >= - 3.91 * ln 10) by nra. assert (ci * ln 10 <= - 0.767 * ln 10) by nra. lra.
Qed.
