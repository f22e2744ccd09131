(** Claims C34-C43: heights, humidity, tables. *)

From Coq Require Import ZArith Reals Lra Lia List Bool String Ascii.
Import ListNotations.
From Verif Require Import ListAux Arith PyBase Utils RTE Spec RealAux Integral PropsUtils.
Open Scope R_scope.

(** ** C34, C35: pressure and height *)

(** R/g in units with lapse rate 0.0065 K/m: the (positive) barometric exponent. *)
Definition baro : R := (8.314462618 / 28.96546e-3) * 0.0065 / 9.80665.
Lemma baro_pos : 0 < baro.
Proof. unfold baro. lra. Qed.
Lemma expo_R : us_Rd (A:=RA) * us_gamma (A:=RA) / (980665 / 100000) = - baro.
Proof. unfold us_Rd, us_gamma, baro. ra. lra. Qed.

Lemma div_neg x y : y <> 0 -> x / - y = - (x / y).
Proof. intros. field. auto. Qed.

Lemma p2h_R p : 0 < p -> pressure_to_height (A:=RA) p = 288 / 0.0065 * (exp (- baro * ln (p / 1013.25)) - 1).
Proof.
  intros Hp. unfold pressure_to_height. ra.
  replace (101325 / 100) with 1013.25 by lra.
  rewrite Rpowf_pos by (apply Rdiv_lt_0_compat; lra). unfold Rpower. rewrite expo_R. unfold us_gamma. ra.
  rewrite div_neg by lra. lra.
Qed.
Lemma h2p_R h : height_to_pressure (A:=RA) h = 1013.25 * exp (- ln (1 + h * 0.0065 / 288) / baro).
Proof.
  unfold height_to_pressure. ra.
  assert (B := baro_pos).
  replace (980665 / 100000 / (us_Rd (A:=RA) * us_gamma (A:=RA))) with (- / baro).
  2:{ rewrite <- (Rinv_opp baro), <- expo_R. rewrite Rinv_div. reflexivity. }
  unfold us_gamma. ra. replace (1 / 1 - h * - (65 / 10000) / (2880 / 10)) with (1 + h * 0.0065 / 288) by lra.
  replace (101325 / 100) with 1013.25 by lra. f_equal. f_equal. unfold Rdiv. ring.
Qed.

Theorem C34_inverse :
  (forall p, 0 < p -> height_to_pressure (A:=RA) (pressure_to_height (A:=RA) p) = p) /\
  (forall h, 0 < 288 + 0.0065 * h -> pressure_to_height (A:=RA) (height_to_pressure (A:=RA) h) = h) /\
  (forall p1 p2, 0 < p1 -> p1 < p2 -> pressure_to_height (A:=RA) p2 < pressure_to_height (A:=RA) p1).
Proof.
  assert (B := baro_pos). split; [|split].
  - intros p Hp. rewrite p2h_R by auto. rewrite h2p_R.
    replace (1 + 288 / 0.0065 * (exp (- baro * ln (p / 1013.25)) - 1) * 0.0065 / 288) with (exp (- baro * ln (p / 1013.25))) by lra.
    rewrite ln_exp. replace (- (- baro * ln (p / 1013.25)) / baro) with (ln (p / 1013.25)) by (field; lra).
    rewrite exp_ln by (apply Rdiv_lt_0_compat; lra). lra.
  - intros h Hh. rewrite h2p_R. set (u := - ln (1 + h * 0.0065 / 288) / baro).
    assert (Hpos : 0 < 1013.25 * exp u) by (apply Rmult_lt_0_compat; [lra|apply exp_pos]).
    change (pressure_to_height (A:=RA) (1013.25 * exp u) = h). rewrite p2h_R by auto.
    replace (1013.25 * exp u / 1013.25) with (exp u) by lra. rewrite ln_exp.
    replace (- baro * u) with (ln (1 + h * 0.0065 / 288)) by (unfold u; field; lra). rewrite exp_ln by lra. lra.
  - intros p1 p2 H1 H12. rewrite !p2h_R by lra.
    assert (L : ln (p1 / 1013.25) < ln (p2 / 1013.25)) by (apply ln_increasing; lra).
    assert (E : exp (- baro * ln (p2 / 1013.25)) < exp (- baro * ln (p1 / 1013.25))) by (apply exp_increasing; nra). lra.
Qed.
Example C34_example : height_to_pressure (A:=RA) (pressure_to_height (A:=RA) 850) = 850 /\
  pressure_to_height (A:=RA) (height_to_pressure (A:=RA) 5000) = 5000.
Proof. split; apply C34_inverse; lra. Qed.

(** The standard-atmosphere height: surface 288 K, 1013.25 hPa, temperature falling by 0.0065 K/m.  It is
    the height at which an atmosphere with that temperature profile in hydrostatic balance has pressure
    [p]; [baro] is R*Gamma/g. *)
Definition standard_height (p : R) : R := 288 / 0.0065 * (1 - Rpower (p / 1013.25) baro).

(** The code uses the lapse rate with the other sign (temperature growing with height) and so
    overestimates every height except at the reference pressure. *)
Theorem C35_lapse_rate_refuted (p : R) : 0 < p -> p <> 1013.25 -> standard_height p < pressure_to_height (A:=RA) p.
Proof.
  intros Hp Hne. rewrite p2h_R by auto. unfold standard_height, Rpower.
  set (u := baro * ln (p / 1013.25)). replace (- baro * ln (p / 1013.25)) with (- u) by (unfold u; lra).
  assert (Hu : u <> 0).
  { unfold u. intros E. apply Rmult_integral in E. destruct E as [E|E]; [assert (B := baro_pos); lra|].
    assert (E2 : p / 1013.25 = 1). { apply ln_inv; try lra; rewrite ln_1; auto. } apply Hne. lra. }
  assert (H : 2 < exp u + exp (- u)).
  { rewrite exp_Ropp. assert (0 < exp u) by apply exp_pos.
    assert (exp u <> 1) by (rewrite <- exp_0; intros E; apply Hu, exp_inv; auto).
    assert (exp u * / exp u = 1) by (field; lra). assert (0 < / exp u) by (apply Rinv_0_lt_compat; auto).
    assert (0 < (exp u - 1) * (exp u - 1)) by nra. nra. }
  lra.
Qed.
Example C35_example : standard_height 850 < pressure_to_height (A:=RA) 850.
Proof. apply C35_lapse_rate_refuted; lra. Qed.
(** The temperature that hydrostatic balance attaches to the code's height grows with height. *)
Theorem C35_code_is_growing_temperature (p : R) : 0 < p ->
  let z := pressure_to_height (A:=RA) p in p = 1013.25 * Rpower ((288 + 0.0065 * z) / 288) (- / baro).
Proof.
  intros Hp z. assert (B := baro_pos). unfold z. rewrite p2h_R by auto. unfold Rpower.
  replace ((288 + 0.0065 * (288 / 0.0065 * (exp (- baro * ln (p / 1013.25)) - 1))) / 288) with (exp (- baro * ln (p / 1013.25))) by lra.
  rewrite ln_exp. replace (- / baro * (- baro * ln (p / 1013.25))) with (ln (p / 1013.25)) by (field; lra).
  rewrite exp_ln by lra. lra.
Qed.

(** ** C36 *)
Theorem C36_inverse (t : R) : to_celsius (A:=RA) (to_kelvin (A:=RA) t) = t /\ to_kelvin (A:=RA) (to_celsius (A:=RA) t) = t.
Proof. unfold to_celsius, to_kelvin. ra. lra. Qed.
(** Every conversion is off by 0.1 K from the definition of the Celsius scale. *)
Theorem C36_zero_celsius_refuted (t : R) : to_kelvin (A:=RA) t = (t + 273.15) + 0.1 /\ to_celsius (A:=RA) t = (t - 273.15) - 0.1.
Proof. unfold to_celsius, to_kelvin. ra. lra. Qed.

(** ** C37 *)

(** Denominator offset of the formula: temperatures (Celsius) must stay above [- dp_b]. *)
Definition dp_b (ice : bool) (method : string) : R :=
  if String.eqb method "arm" then 243.04 else if ice then 265.5 else 237.3.

Lemma frac_incr a b x y : 0 < a -> 0 < b -> - b < x -> x < y -> a * x / (b + x) < a * y / (b + y).
Proof.
  intros Ha Hb Hx Hxy. assert (D1 : 0 < b + x) by lra. assert (D2 : 0 < b + y) by lra.
  apply Rmult_lt_reg_r with ((b + x) * (b + y)); [nra|].
  replace (a * x / (b + x) * ((b + x) * (b + y))) with (a * x * (b + y)) by (field; lra).
  replace (a * y / (b + y) * ((b + x) * (b + y))) with (a * y * (b + x)) by (field; lra).
  assert (0 < a * b * (y - x)) by (apply Rmult_lt_0_compat; nra). nra.
Qed.

Definition dp_e (ice : bool) (method : string) (x : R) : R :=
  if String.eqb method "arm" then exp (17.625 * x / (243.04 + x))
  else if ice then Rpower 10 (9.5 * x / (265.5 + x)) else Rpower 10 (7.5 * x / (237.3 + x)).
Lemma dp_e_pos ice m x : 0 < dp_e ice m x.
Proof. unfold dp_e. destruct (String.eqb _ _); [|destruct ice]; apply exp_pos. Qed.
Lemma dp_e_incr ice m x y : - dp_b ice m < x -> x < y -> dp_e ice m x < dp_e ice m y.
Proof.
  unfold dp_e, dp_b. destruct (String.eqb _ _); [|destruct ice]; intros.
  - apply exp_increasing. apply frac_incr; lra.
  - apply Rpower_lt10. apply frac_incr; lra.
  - apply Rpower_lt10. apply frac_incr; lra.
Qed.
Lemma scale_div a x y : a <> 0 -> y <> 0 -> a * x / (a * y) = x / y.
Proof. intros. field. auto. Qed.
Lemma dewpoint_R td t ice m : dewpoint2rh (A:=RA) td t ice m = dp_e ice m td / dp_e ice m t.
Proof.
  unfold dewpoint2rh, dp_e. destruct (String.eqb m "arm").
  - ra. replace (17625 / 1000) with 17.625 by lra. replace (24304 / 100) with 243.04 by lra. reflexivity.
  - destruct ice; ra; rewrite !Rpowf_pos by lra.
    + replace (95 / 10) with 9.5 by lra. replace (2655 / 10) with 265.5 by lra. replace (10 / 1) with 10 by lra.
      rewrite (Rplus_comm td 265.5), (Rmult_comm td 9.5).
      rewrite (Rplus_comm t 265.5), (Rmult_comm t 9.5).
      apply scale_div; [lra|]. assert (0 < Rpower 10 (9.5 * t / (265.5 + t))) by apply Rpower_pos. lra.
    + replace (75 / 10) with 7.5 by lra. replace (2373 / 10) with 237.3 by lra. replace (10 / 1) with 10 by lra.
      rewrite (Rplus_comm td 237.3), (Rmult_comm td 7.5).
      rewrite (Rplus_comm t 237.3), (Rmult_comm t 7.5).
      apply scale_div; [lra|]. assert (0 < Rpower 10 (7.5 * t / (237.3 + t))) by apply Rpower_pos. lra.
Qed.

Theorem C37_dewpoint (ice : bool) (method : string) (td t : R) :
  - dp_b ice method < td -> - dp_b ice method < t ->
  let rh x := dewpoint2rh (A:=RA) x t ice method in
  (rh td = 1 <-> td = t) /\ 0 < rh td /\ (td < t -> rh td < 1) /\ (forall td', td < td' -> rh td < rh td').
Proof.
  intros Htd Ht rh. unfold rh.
  assert (P := dp_e_pos ice method t). assert (Pd := dp_e_pos ice method td).
  assert (I : 0 < / dp_e ice method t) by (apply Rinv_0_lt_compat; auto).
  assert (One : dp_e ice method t / dp_e ice method t = 1) by (field; lra).
  assert (Mono : forall x y, - dp_b ice method < x -> x < y ->
    dewpoint2rh (A:=RA) x t ice method < dewpoint2rh (A:=RA) y t ice method).
  { intros x y Hx Hxy. rewrite !dewpoint_R. apply Rmult_lt_compat_r; auto. apply dp_e_incr; auto. }
  assert (Self : dewpoint2rh (A:=RA) t t ice method = 1) by (rewrite dewpoint_R; exact One).
  split; [|split; [|split]].
  - split; [|intros ->; auto]. intros E. destruct (Rtotal_order td t) as [H|[H|H]]; auto.
    + assert (M := Mono td t Htd H). ra. lra.
    + assert (M := Mono t td Ht H). ra. lra.
  - rewrite dewpoint_R. apply Rmult_lt_0_compat; auto.
  - intros H. assert (M := Mono td t Htd H). ra. lra.
  - intros td' H. apply Mono; auto.
Qed.
Example C37_example : dewpoint2rh (A:=RA) 10 20 false "arm" < 1 /\ dewpoint2rh (A:=RA) (-20) (-20) true "wmo" = 1.
Proof.
  split.
  - apply (C37_dewpoint false "arm" 10 20); unfold dp_b; simpl; lra.
  - apply (C37_dewpoint true "wmo" (-20) (-20)); unfold dp_b; simpl; lra.
Qed.

(** ** C38 *)
Definition epsilon : R := 287.04 / 461.52.
Lemma vt_R t m : 0 < 1 + m -> virtual_temperature (A:=RA) t m = t * (m + epsilon) / (epsilon * (1 + m)).
Proof.
  intros. unfold virtual_temperature, k_Rdry, k_Rwatvap, epsilon. ra.
  replace (28704 / 100 / (46152 / 100)) with (287.04 / 461.52) by lra. replace (1 / 1) with 1 by lra. unfold Rdiv. ring.
Qed.
Theorem C38_virtual_temperature (t m : R) : 0 < t -> 0 <= m ->
  let tv := virtual_temperature (A:=RA) t m in
  t <= tv /\ (tv = t <-> m = 0) /\ tv < t / epsilon /\
  (forall m', m < m' -> tv < virtual_temperature (A:=RA) t m').
Proof.
  intros Ht Hm tv. unfold tv.
  assert (E : 0.6219 < epsilon < 0.622) by (unfold epsilon; lra).
  assert (Form : forall x, 0 <= x -> virtual_temperature (A:=RA) t x = t / epsilon * (1 - (1 - epsilon) * / (1 + x))).
  { intros x Hx. rewrite vt_R by lra. ra. field. lra. }
  assert (Mono : forall x y, 0 <= x -> x < y -> virtual_temperature (A:=RA) t x < virtual_temperature (A:=RA) t y).
  { intros x y Hx Hxy. rewrite !Form by lra. apply Rmult_lt_compat_l; [apply Rdiv_lt_0_compat; lra|].
    assert (/ (1 + y) < / (1 + x)) by (apply Rinv_lt_contravar; nra). nra. }
  assert (Zero : virtual_temperature (A:=RA) t 0 = t) by (rewrite Form by lra; ra; field; lra).
  split; [|split; [|split]].
  - destruct Hm as [H|<-]; [|ra; lra]. assert (M := Mono 0 m ltac:(lra) H). ra. lra.
  - split; [|intros ->; auto]. intros F. destruct Hm as [H|H]; [|auto]. assert (M := Mono 0 m ltac:(lra) H). ra. lra.
  - rewrite Form by auto. assert (0 < / (1 + m)) by (apply Rinv_0_lt_compat; lra).
    assert (HX : 0 < t / epsilon) by (apply Rdiv_lt_0_compat; lra). set (X := t / epsilon) in *. clearbody X.
    assert (0 < X * ((1 - epsilon) * / (1 + m))) by (repeat apply Rmult_lt_0_compat; lra). lra.
  - intros m' H. apply Mono; auto.
Qed.
Example C38_example : 283.2 < virtual_temperature (A:=RA) 283.2 0.012.
Proof.
  destruct (C38_virtual_temperature 283.2 0.012 ltac:(lra) ltac:(lra)) as (H1 & H2 & _).
  destruct H1 as [H|H]; auto. exfalso. assert (0.012 = 0) by (apply H2; auto). lra.
Qed.

(** ** C39: hypsometric heights *)

(** Specific gas constant over gravity, in km/K. *)
Definition RdG : R := (8.314462618 / 28.96546e-3) / 9.80665 / 1000.
Lemma RdG_pos : 0 < RdG.
Proof. unfold RdG. lra. Qed.

(** Level virtual temperatures of a (moist or dry) profile. *)
Definition level_tv (t : list R) (mr : option (list R)) (k : nat) : R :=
  match mr with
  | None => nth k t 0
  | Some m => nth k t 0 * (nth k m 0 + epsilon) / (epsilon * (1 + nth k m 0))
  end.
(** Height (km) of level [i] above level 0: sum over the layers of (R/g) * mean Tv * ln(p_k/p_{k+1}). *)
Definition hypso (p : list R) (tv : nat -> R) (i : nat) : R :=
  rsum i (fun k => RdG * ((tv k + tv (S k)) / 2) * ln (nth k p 0 / nth (S k) p 0)).

Lemma trapz_R (ys xs : list R) i : (i < List.length ys)%nat -> List.length ys = List.length xs ->
  trapz (A:=RA) (firstn (S i) ys) (firstn (S i) xs)
  = rsum i (fun k => (nth (S k) xs 0 - nth k xs 0) * (nth (S k) ys 0 + nth k ys 0) / 2).
Proof.
  revert ys xs. induction i as [|i IH]; intros ys xs Hi Hl.
  - destruct ys as [|y ys]; [simpl in Hi; lia|]. destruct xs as [|x xs]; [discriminate|]. cbn. lra.
  - destruct ys as [|y0 ys]; [simpl in Hi; lia|]. destruct xs as [|x0 xs]; [discriminate|].
    destruct ys as [|y1 ys]; [simpl in Hi; lia|]. destruct xs as [|x1 xs]; [discriminate|].
    assert (E := IH (y1 :: ys) (x1 :: xs) ltac:(simpl in *; lia) ltac:(simpl in *; lia)).
    rewrite (rsum_split 1 i). cbn [rsum Nat.add]. cbn [nth] in *.
    transitivity ((x1 - x0) * (y1 + y0) / 2 + trapz (A:=RA) (firstn (S i) (y1 :: ys)) (firstn (S i) (x1 :: xs))).
    + change (trapz (A:=RA) (firstn (S (S i)) (y0 :: y1 :: ys)) (firstn (S (S i)) (x0 :: x1 :: xs)))
        with ((x1 - x0) * (y1 + y0) / (20 / 10) + trapz (A:=RA) (firstn (S i) (y1 :: ys)) (firstn (S i) (x1 :: xs))).
      lra.
    + rewrite E. lra.
Qed.

Theorem C39_hypsometric (p t : list R) (mr : option (list R)) :
  List.length p = List.length t ->
  match mr with None => True | Some m => List.length m = List.length t /\ forall x, In x m -> 0 <= x end ->
  (forall x, In x p -> 0 < x) ->
  List.length (atmospheric_tickness (A:=RA) p t mr) = List.length p /\
  forall i, (i < List.length p)%nat ->
    nth i (atmospheric_tickness (A:=RA) p t mr) 0 = hypso p (level_tv t mr) i.
Proof.
  intros Hl Hm Hp. unfold atmospheric_tickness. change (car RA) with R.
  split; [rewrite map_length, seq_length; reflexivity|]. intros i Hi.
  match goal with |- nth i (map ?g _) 0 = _ => set (G := g) end.
  rewrite nth_indep with (d' := G O) by (rewrite map_length, seq_length; auto).
  rewrite (map_nth G), seq_nth by auto. cbn [Nat.add]. unfold G.
  destruct i as [|i]; [cbn; lra|]. unfold thickness_hydrostatic. cbn zeta.
  set (tv := match mr with None => t | Some m => map (fun '(a, b) => virtual_temperature (A:=RA) a b) (combine t m) end).
  assert (Ltv : List.length tv = List.length t).
  { unfold tv. destruct mr as [m|]; [|reflexivity]. change (car RA) with R. rewrite map_length, combine_length. destruct Hm. lia. }
  assert (Etv : match option_map (firstn (S (S i))) mr with
     | Some m => map (fun '(a, b) => virtual_temperature (A:=RA) a b) (combine (firstn (S (S i)) t) m)
     | None => firstn (S (S i)) t end = firstn (S (S i)) tv).
  { unfold tv. destruct mr as [m|]; [|reflexivity]. cbn [option_map]. rewrite firstn_map. f_equal. apply eq_sym, combine_firstn. }
  assert (Eln : map (lnf (a:=RA)) (firstn (S (S i)) p) = firstn (S (S i)) (map ln p)) by (rewrite firstn_map; reflexivity).
  assert (L1 : (S i < @List.length R tv)%nat) by (eapply Nat.lt_le_trans; [exact Hi|]; rewrite Hl; apply Nat.eq_le_incl; symmetry; exact Ltv).
  assert (L2 : @List.length R tv = List.length (map ln p)) by (rewrite map_length, Hl; exact Ltv).
  assert (ET := trapz_R tv (map ln p) (S i) L1 L2).
  match goal with |- context [trapz ?a ?b] =>
    assert (EQ : trapz (A:=RA) a b = trapz (A:=RA) (firstn (S (S i)) tv) (firstn (S (S i)) (map ln p)))
      by (apply f_equal2; [exact Etv|exact Eln]);
    assert (EQ2 := eq_trans EQ ET); set (X := trapz (A:=RA) a b) in *; rewrite EQ2; clear EQ2 EQ X ET end.
  assert (Ntv : forall k, (k < List.length t)%nat -> nth k tv 0 = level_tv t mr k).
  { intros k Hk. unfold tv, level_tv. destruct mr as [m|]; [|reflexivity]. destruct Hm as [Hm1 Hm2].
    change (car RA) with R.
    assert (EV := nth_map2 (virtual_temperature (A:=RA)) t m k 0 0 0 (eq_sym Hm1) Hk). refine (eq_trans EV _).
    apply vt_R. assert (0 <= nth k m 0) by (apply Hm2, nth_In; lia). lra. }
  unfold hypso. unfold us_Rd. ra.
  rewrite <- rsum_scal. unfold Rdiv at 1. rewrite Rmult_comm. rewrite <- rsum_scal. apply rsum_ext. intros k Hk.
  rewrite !Ntv by lia.
  assert (Nln : forall j, (j < List.length p)%nat -> nth j (map ln p) 0 = ln (nth j p 0)).
  { intros j Hj. rewrite nth_indep with (d' := ln 0) by (rewrite map_length; auto). apply map_nth. }
  rewrite !Nln by lia.
  assert (P1 : 0 < nth k p 0) by (apply Hp, nth_In; lia). assert (P2 : 0 < nth (S k) p 0) by (apply Hp, nth_In; lia).
  unfold Rdiv at 7. 
  replace (ln (nth k p 0 / nth (S k) p 0)) with (ln (nth k p 0) - ln (nth (S k) p 0)).
  2:{ unfold Rdiv. rewrite ln_mult, ln_Rinv; auto. apply Rinv_0_lt_compat; auto. }
  unfold RdG. lra.
Qed.

Lemma hypso_S p tv i : hypso p tv (S i) = hypso p tv i + RdG * ((tv i + tv (S i)) / 2) * ln (nth i p 0 / nth (S i) p 0).
Proof. reflexivity. Qed.

(** Consequences: start at 0, strict growth, isothermal formula, additivity over sub-columns. *)
Theorem C39_consequences (p t : list R) :
  List.length p = List.length t -> (forall x, In x p -> 0 < x) -> (forall x, In x t -> 0 < x) -> p <> [] ->
  let z i := nth i (atmospheric_tickness (A:=RA) p t None) 0 in
  z 0%nat = 0 /\
  (forall i, (S i < List.length p)%nat -> nth (S i) p 0 < nth i p 0 -> z i < z (S i)) /\
  (forall T i, (forall x, In x t -> x = T) -> (i < List.length p)%nat -> z i = RdG * T * ln (nth 0 p 0 / nth i p 0)) /\
  (forall j k, (j + k < List.length p)%nat ->
     z (j + k)%nat = z j + nth k (atmospheric_tickness (A:=RA) (skipn j p) (skipn j t) None) 0).
Proof.
  intros Hl Hp Ht Hne z. destruct (C39_hypsometric p t None Hl I Hp) as [_ H].
  assert (L0 : (0 < List.length p)%nat) by (destruct p; [congruence|simpl; lia]).
  assert (Hz : forall i, (i < List.length p)%nat -> z i = hypso p (level_tv t None) i) by exact H.
  assert (Lr : forall a b, 0 < a -> 0 < b -> ln (a / b) = ln a - ln b).
  { intros a b Ha Hb. unfold Rdiv. rewrite ln_mult, ln_Rinv; auto. apply Rinv_0_lt_compat; auto. }
  split; [|split; [|split]].
  - rewrite Hz by auto. reflexivity.
  - intros i Hi Hd. rewrite !Hz by lia. rewrite hypso_S. cbn [level_tv].
    assert (0 < nth i t 0) by (apply Ht, nth_In; lia). assert (0 < nth (S i) t 0) by (apply Ht, nth_In; lia).
    assert (0 < nth (S i) p 0) by (apply Hp, nth_In; lia).
    assert (0 < ln (nth i p 0 / nth (S i) p 0)).
    { apply ln_gt0. apply Rmult_lt_reg_r with (nth (S i) p 0); auto. unfold Rdiv. rewrite Rmult_assoc, Rinv_l by lra. lra. }
    assert (R1 := RdG_pos). assert (0 < RdG * ((nth i t 0 + nth (S i) t 0) / 2) * ln (nth i p 0 / nth (S i) p 0)).
    { apply Rmult_lt_0_compat; [apply Rmult_lt_0_compat; lra|lra]. } lra.
  - intros T i HT Hi. rewrite Hz by auto. clear Hz z. induction i as [|i IH].
    + unfold hypso. simpl. assert (0 < nth 0 p 0) by (apply Hp, nth_In; lia). rewrite Lr by auto. lra.
    + rewrite hypso_S, IH by lia. cbn [level_tv].
      rewrite (HT (nth i t 0)) by (apply nth_In; lia). rewrite (HT (nth (S i) t 0)) by (apply nth_In; lia).
      rewrite !Lr by (apply Hp, nth_In; lia). lra.
  - intros j k Hjk. rewrite !Hz by lia.
    assert (Hsp : forall x, In x (skipn j p) -> 0 < x).
    { intros x Hx. apply Hp. rewrite <- (firstn_skipn j p). apply in_or_app. auto. }
    destruct (C39_hypsometric (skipn j p) (skipn j t) None) as [_ H2]; auto.
    { rewrite !skipn_length. lia. }
    rewrite H2 by (rewrite skipn_length; lia).
    unfold hypso. rewrite rsum_split. f_equal. apply rsum_ext. intros i Hi.
    cbn [level_tv]. assert (Nsk : forall (l : list R) a, nth a (skipn j l) 0 = nth (j + a) l 0).
    { clear. intros l. revert j. induction l as [|x l IH]; intros [|j] a; try reflexivity; [destruct a; reflexivity|]. cbn [skipn Nat.add nth]. apply IH. }
    rewrite !Nsk. rewrite <- Nat.add_succ_r. reflexivity.
Qed.
Example C39_example : let z i := nth i (atmospheric_tickness (A:=RA) [1000; 500] [280; 244] None) 0 in
  z 0%nat = 0 /\ z 0%nat < z 1%nat.
Proof.
  destruct (C39_consequences [1000; 500] [280; 244]) as (H1 & H2 & _); auto; try discriminate.
  - simpl. intros x [<-|[<-|[]]]; lra.
  - simpl. intros x [<-|[<-|[]]]; lra.
  - split; [exact H1|]. apply H2; simpl; [lia|lra].
Qed.

(** ** C40 *)
Lemma assoc_none {T} k (d : list (string * T)) : assoc k d = None <-> ~ In k (map fst d).
Proof.
  induction d as [|[k' v] d IH]; simpl; [tauto|]. destruct (String.eqb_spec k k') as [->|Hn].
  - split; [discriminate|]. intros H. exfalso. auto.
  - rewrite IH. intuition congruence.
Qed.
Lemma assoc_some {T} k v (d : list (string * T)) : NoDup (map fst d) -> (assoc k d = Some v <-> In (k, v) d).
Proof.
  induction d as [|[k' v'] d IH]; simpl; intros Hd; [split; [discriminate|tauto]|]. inversion Hd as [|? ? Hni Hd']; subst.
  destruct (String.eqb_spec k k') as [->|Hn].
  - split; [intros E; inversion E; auto|]. intros [E|E]; [inversion E; auto|].
    exfalso. apply Hni. apply in_map_iff. exists (k', v). auto.
  - rewrite IH by auto. intuition congruence.
Qed.

(** The documented table (name, value, unit). *)
Definition documented_constants : list (string * (R * string)) :=
  [ ("avogadro", (6.022140857e23, "[mol-1]")); ("boltzmann", (1.3806579999999998e-23, "[J K-1]"));
    ("EarthRadius", (6370.949, "[km]")); ("gravity", (9.80665, "[m s-2]")); ("light", (299792458, "[m s-1]"));
    ("Np2dB", (4.342944819032518, "[dB/Np]")); ("planck", (6.626075499999999e-34, "[J Hz-1]"));
    ("Rdry", (287.04, "[J kg-1 K-1]")); ("Rwatvap", (461.52, "[J kg-1 K-1]"));
    ("Tcosmicbkg", (2.728, "[K]")); ("R", (8.31446261815324, "[J mol-1 K-1]")) ]%string.

Lemma constants_R : constants_dict (A:=RA) = documented_constants.
Proof.
  unfold constants_dict, documented_constants. ra.
  repeat (apply f_equal2; [apply f_equal2; [reflexivity|apply f_equal2; [lra|reflexivity]]|]). reflexivity.
Qed.

Theorem C40_constants (n : string) : n <> ""%string ->
  (forall v u, constants (A:=RA) (Some n) = Ok (CVal v u) <-> In (n, (v, u)) documented_constants) /\
  (constants (A:=RA) (Some n) = Err ValueError <-> ~ In n (map fst documented_constants)) /\
  constants (A:=RA) None = Ok (CNames (map fst documented_constants)).
Proof.
  intros Hn. rewrite <- constants_R.
  assert (ND : NoDup (map fst (constants_dict (A:=RA)))).
  { cbn. repeat constructor; simpl; intuition discriminate. }
  assert (E : constants (A:=RA) (Some n) = match assoc n constants_dict with Some (v, u) => Ok (CVal v u) | None => Err ValueError end).
  { unfold constants. destruct n; [congruence|reflexivity]. }
  split; [|split].
  - intros v u. rewrite E. rewrite <- (assoc_some n (v, u)) by exact ND.
    destruct (assoc n constants_dict) as [[v' u']|]; split; intros H; inversion H; subst; reflexivity.
  - assert (AN := assoc_none n (constants_dict (A:=RA))). rewrite E. split.
    + intros H. apply AN. destruct (assoc n constants_dict) as [[v' u']|]; [discriminate|reflexivity].
    + intros H. apply AN in H. rewrite H. reflexivity.
  - reflexivity.
Qed.
(** The values used throughout the model are the entries of the dictionary, for every arithmetic. *)
Theorem constants_entries (A : Arith) :
  constants (A:=A) (Some "avogadro"%string) = Ok (CVal k_avogadro "[mol-1]"%string) /\
  constants (A:=A) (Some "boltzmann"%string) = Ok (CVal k_boltzmann "[J K-1]"%string) /\
  constants (A:=A) (Some "EarthRadius"%string) = Ok (CVal k_EarthRadius "[km]"%string) /\
  constants (A:=A) (Some "light"%string) = Ok (CVal k_light "[m s-1]"%string) /\
  constants (A:=A) (Some "planck"%string) = Ok (CVal k_planck "[J Hz-1]"%string) /\
  constants (A:=A) (Some "Rdry"%string) = Ok (CVal k_Rdry "[J kg-1 K-1]"%string) /\
  constants (A:=A) (Some "Rwatvap"%string) = Ok (CVal k_Rwatvap "[J kg-1 K-1]"%string) /\
  constants (A:=A) (Some "Tcosmicbkg"%string) = Ok (CVal k_Tcosmicbkg "[K]"%string) /\
  constants (A:=A) (Some "R"%string) = Ok (CVal k_R "[J mol-1 K-1]"%string).
Proof. repeat split. Qed.
Example C40_example : constants (A:=RA) (Some "Boltzmann"%string) = Err ValueError /\
  In ("light"%string, (299792458, "[m s-1]"%string)) documented_constants.
Proof. split; [reflexivity|]. unfold documented_constants. simpl. intuition. Qed.

(** ** C41 *)
(** Identifiers defined by the climatology class: 0 (H2O) to 43 (HNO4), and 99 (air). *)
Definition climatology_gas (g : Z) : Prop := (0 <= g <= 43 \/ g = 99)%Z.

Lemma small_cases (P : Z -> Prop) (n : nat) : (forall k, (k < n)%nat -> P (Z.of_nat k)) -> forall g, (0 <= g < Z.of_nat n)%Z -> P g.
Proof. intros H g Hg. rewrite <- (Z2Nat.id g) by lia. apply H. lia. Qed.

Theorem C41_gas_mass (g : Z) :
  ((0 <= g <= 31 \/ g = 99)%Z -> exists m, gas_mass (A:=RA) g = Ok m /\ 0 < m) /\
  (~ (0 <= g <= 31 \/ g = 99)%Z -> gas_mass (A:=RA) g = Err UnboundLocalError).
Proof.
  split.
  - intros [Hg| ->].
    + assert (Hg' : (0 <= g < Z.of_nat 32)%Z) by (simpl; lia). revert g Hg' Hg. apply (small_cases (fun g => (0 <= g <= 31)%Z -> exists m : R, gas_mass (A:=RA) g = Ok m /\ 0 < m)).
      intros k Hk _. unfold gas_mass. do 32 (destruct k as [|k]; [cbn; eexists; split; [reflexivity|]; ra; lra|]). lia.
    + cbn. eexists. split; [reflexivity|]. ra. lra.
  - intros H. unfold gas_mass.
    assert (E : gas_amus (A:=RA) g = None); [|rewrite E; reflexivity].
    destruct g as [|q|q]; [lia| |reflexivity].
    destruct (Z_le_gt_dec (Z.pos q) 127) as [Hle|Hgt].
    + assert (HQ : forall g, (0 <= g < Z.of_nat 128)%Z -> ~ (0 <= g <= 31 \/ g = 99)%Z -> gas_amus (A:=RA) g = None).
      { apply (small_cases (fun g => ~ (0 <= g <= 31 \/ g = 99)%Z -> gas_amus (A:=RA) g = None)). intros k Hk Hn.
        do 128 (destruct k as [|k]; [first [reflexivity | exfalso; apply Hn; cbn; lia]|]). lia. }
      apply HQ; auto. simpl. lia.
    + do 7 (destruct q as [q|q|]; try lia; try reflexivity).
Qed.
(** Twelve identifiers of the climatology have no mass. *)
Theorem C41_climatology_refuted (g : Z) : (32 <= g <= 43)%Z ->
  climatology_gas g /\ gas_mass (A:=RA) g = Err UnboundLocalError.
Proof. intros H. split; [unfold climatology_gas; lia|]. apply C41_gas_mass. lia. Qed.
Example C41_example : exists m, gas_mass (A:=RA) 0 = Ok m /\ 0 < m.
Proof. apply C41_gas_mass. lia. Qed.

(** ** C42: names up to letter case *)

(** Two characters are the same letter: equal, or the upper and lower case form of one ASCII letter. *)
Definition same_letter (a b : ascii) : Prop :=
  a = b \/ exists k, (65 <= k <= 90)%N /\
    ((N_of_ascii a = k /\ N_of_ascii b = k + 32) \/ (N_of_ascii b = k /\ N_of_ascii a = k + 32))%N.
Inductive same_name : string -> string -> Prop :=
| sn_nil : same_name "" ""
| sn_cons a b s t : same_letter a b -> same_name s t -> same_name (String a s) (String b t).

Lemma ascii_lt a : (N_of_ascii a < 256)%N.
Proof. apply N_ascii_bounded. Qed.
Lemma N_ascii_inj a b : N_of_ascii a = N_of_ascii b -> a = b.
Proof. intros H. rewrite <- (ascii_N_embedding a), <- (ascii_N_embedding b), H. reflexivity. Qed.
Lemma lower_N a : N_of_ascii (lower_ascii a) = (if ((65 <=? N_of_ascii a) && (N_of_ascii a <=? 90))%N%bool then N_of_ascii a + 32 else N_of_ascii a)%N.
Proof.
  unfold lower_ascii. destruct ((65 <=? N_of_ascii a) && (N_of_ascii a <=? 90))%N%bool eqn:E; [|reflexivity].
  apply andb_true_iff in E. destruct E as [E1 E2]. apply N.leb_le in E1, E2. apply N_ascii_embedding. lia.
Qed.
Lemma upper_N a : N_of_ascii (upper_ascii a) = (if ((97 <=? N_of_ascii a) && (N_of_ascii a <=? 122))%N%bool then N_of_ascii a - 32 else N_of_ascii a)%N.
Proof.
  unfold upper_ascii. destruct ((97 <=? N_of_ascii a) && (N_of_ascii a <=? 122))%N%bool eqn:E; [|reflexivity].
  apply andb_true_iff in E. destruct E as [E1 E2]. apply N.leb_le in E1, E2. apply N_ascii_embedding. lia.
Qed.
Lemma lower_same a b : lower_ascii a = lower_ascii b <-> same_letter a b.
Proof.
  split.
  - intros H. apply (f_equal N_of_ascii) in H. rewrite !lower_N in H. unfold same_letter.
    destruct ((65 <=? N_of_ascii a) && (N_of_ascii a <=? 90))%N%bool eqn:Ea;
    destruct ((65 <=? N_of_ascii b) && (N_of_ascii b <=? 90))%N%bool eqn:Eb;
    rewrite ?andb_true_iff, ?andb_false_iff, ?N.leb_le, ?N.leb_gt in *.
    + left. apply N_ascii_inj. lia.
    + right. exists (N_of_ascii a). lia.
    + right. exists (N_of_ascii b). lia.
    + left. apply N_ascii_inj. auto.
  - intros [->|(k & Hk & H)]; [reflexivity|]. apply N_ascii_inj. rewrite !lower_N.
    destruct ((65 <=? N_of_ascii a) && (N_of_ascii a <=? 90))%N%bool eqn:Ea;
    destruct ((65 <=? N_of_ascii b) && (N_of_ascii b <=? 90))%N%bool eqn:Eb;
    rewrite ?andb_true_iff, ?andb_false_iff, ?N.leb_le, ?N.leb_gt in *; lia.
Qed.
Lemma upper_same a b : upper_ascii a = upper_ascii b <-> same_letter a b.
Proof.
  split.
  - intros H. apply (f_equal N_of_ascii) in H. rewrite !upper_N in H. unfold same_letter.
    destruct ((97 <=? N_of_ascii a) && (N_of_ascii a <=? 122))%N%bool eqn:Ea;
    destruct ((97 <=? N_of_ascii b) && (N_of_ascii b <=? 122))%N%bool eqn:Eb;
    rewrite ?andb_true_iff, ?andb_false_iff, ?N.leb_le, ?N.leb_gt in *.
    + left. apply N_ascii_inj. lia.
    + right. exists (N_of_ascii b). lia.
    + right. exists (N_of_ascii a). lia.
    + left. apply N_ascii_inj. auto.
  - intros [->|(k & Hk & H)]; [reflexivity|]. apply N_ascii_inj. rewrite !upper_N.
    destruct ((97 <=? N_of_ascii a) && (N_of_ascii a <=? 122))%N%bool eqn:Ea;
    destruct ((97 <=? N_of_ascii b) && (N_of_ascii b <=? 122))%N%bool eqn:Eb;
    rewrite ?andb_true_iff, ?andb_false_iff, ?N.leb_le, ?N.leb_gt in *; lia.
Qed.
Lemma str_map_same f (Hf : forall a b, f a = f b <-> same_letter a b) s t : str_map f s = str_map f t <-> same_name s t.
Proof.
  revert t. induction s as [|a s IH]; intros [|b t]; simpl.
  - split; [constructor|reflexivity].
  - split; [discriminate|]. intros H; inversion H.
  - split; [discriminate|]. intros H; inversion H.
  - split; intros H.
    + injection H as H1 H2. constructor; [apply Hf; auto|apply IH; auto].
    + inversion H; subst. f_equal; [apply Hf; auto|apply IH; auto].
Qed.

(** Case-insensitive lookup in a table whose keys are fixed points of the case mapping. *)
Lemma table_lookup {T} f (Hf : forall a b, f a = f b <-> same_letter a b) (d : list (string * T)) s :
  (forall k, In k (map fst d) -> str_map f k = k) ->
  (assoc (str_map f s) d = None <-> forall k, In k (map fst d) -> ~ same_name s k) /\
  (forall s', same_name s s' -> assoc (str_map f s) d = assoc (str_map f s') d).
Proof.
  intros Hk. split.
  - rewrite assoc_none. split.
    + intros H k Hin Hs. apply H. apply (str_map_same f Hf) in Hs. rewrite (Hk k Hin) in Hs. rewrite Hs. auto.
    + intros H Hin. apply (H _ Hin). apply (str_map_same f Hf). symmetry. apply Hk. auto.
  - intros s' H. apply (str_map_same f Hf) in H. rewrite H. reflexivity.
Qed.

Definition ground_names : list string := ["hat"; "mp3"; "arm"; "tem"; "k2w"]%string.
Definition sat_names : list string := ["SAPHIR"; "AMSU"; "ATMS"; "MWI"; "MWS"; "ICI"]%string.

Theorem C42_frequency_tables (s : string) :
  (get_frequencies (A:=RA) s = Err ValueError <-> forall k, In k ground_names -> ~ same_name s k) /\
  (get_frequencies_sat (A:=RA) s = Err ValueError <-> forall k, In k sat_names -> ~ same_name s k) /\
  (forall s', same_name s s' -> get_frequencies (A:=RA) s = get_frequencies (A:=RA) s' /\
                                get_frequencies_sat (A:=RA) s = get_frequencies_sat (A:=RA) s') /\
  (forall l f, get_frequencies (A:=RA) s = Ok l \/ get_frequencies_sat (A:=RA) s = Ok l -> In f l -> 18 <= f <= 700).
Proof.
  assert (K1 : forall k, In k (map fst (ground_frequencies (A:=RA))) -> lower k = k).
  { simpl. intros k H. repeat (destruct H as [<-|H]; [reflexivity|]). contradiction. }
  assert (K2 : forall k, In k (map fst (sat_frequencies (A:=RA))) -> upper k = k).
  { simpl. intros k H. repeat (destruct H as [<-|H]; [reflexivity|]). contradiction. }
  destruct (table_lookup lower_ascii lower_same (ground_frequencies (A:=RA)) s K1) as [A1 A2].
  destruct (table_lookup upper_ascii upper_same (sat_frequencies (A:=RA)) s K2) as [B1 B2].
  unfold get_frequencies, get_frequencies_sat, lower, upper.
  split; [|split; [|split]].
  - change ground_names with (map fst (ground_frequencies (A:=RA))). rewrite <- A1.
    destruct (assoc (str_map lower_ascii s) ground_frequencies); split; intros H; try discriminate; reflexivity.
  - change sat_names with (map fst (sat_frequencies (A:=RA))). rewrite <- B1.
    destruct (assoc (str_map upper_ascii s) sat_frequencies); split; intros H; try discriminate; reflexivity.
  - intros s' Hs. rewrite (A2 s' Hs), (B2 s' Hs). auto.
  - assert (PG : forall k v, assoc k (ground_frequencies (A:=RA)) = Some v -> forall f, In f v -> 18 <= f <= 700).
    { intros k v. unfold ground_frequencies. cbn [assoc].
      repeat (match goal with |- (if ?b then _ else _) = _ -> _ => destruct b end;
        [intros E; injection E as <-; simpl; intros f Hf; repeat (destruct Hf as [<-|Hf]; [lra|]); contradiction|]). discriminate. }
    assert (PS : forall k v, assoc k (sat_frequencies (A:=RA)) = Some v -> forall f, In f v -> 18 <= f <= 700).
    { intros k v. unfold sat_frequencies. cbn zeta. cbn [assoc].
      repeat (match goal with |- (if ?b then _ else _) = _ -> _ => destruct b end;
        [intros E; injection E as <-; simpl; intros f Hf; repeat (destruct Hf as [<-|Hf]; [lra|]); contradiction|]). discriminate. }
    intros l f [H|H] Hin.
    + destruct (assoc (str_map lower_ascii s) ground_frequencies) as [v|] eqn:E; [|discriminate].
      inversion H; subst. eapply PG; eauto.
    + destruct (assoc (str_map upper_ascii s) sat_frequencies) as [v|] eqn:E; [|discriminate].
      inversion H; subst. eapply PS; eauto.
Qed.
Example C42_example : same_name "hAt"%string "hat"%string /\ get_frequencies (A:=RA) "hAt" = get_frequencies (A:=RA) "HAT" /\
  get_frequencies_sat (A:=RA) "foo" = Err ValueError.
Proof.
  split; [|split; reflexivity].
  apply sn_cons; [left; reflexivity|]. apply sn_cons; [right; exists 65%N; split; [lia|simpl; lia]|].
  apply sn_cons; [left; reflexivity|constructor].
Qed.

(** ** C43 *)

(** Entries [start .. start+len-1] of a table are symmetric about [centre]. *)
Definition symmetric_block (l : list R) (start len : nat) (centre : R) : Prop :=
  (start + len <= List.length l)%nat /\
  forall k, (k < len)%nat -> nth (start + k) l 0 + nth (start + len - 1 - k) l 0 = 2 * centre.

Ltac sym_block := split; [simpl; lia|]; intros k Hk;
  repeat (destruct k as [|k]; [simpl; lra|]); exfalso; lia.

Theorem C43_symmetric_blocks : exists saphir amsu atms mwi mws ici,
  get_frequencies_sat (A:=RA) "SAPHIR" = Ok saphir /\ get_frequencies_sat (A:=RA) "AMSU" = Ok amsu /\
  get_frequencies_sat (A:=RA) "ATMS" = Ok atms /\ get_frequencies_sat (A:=RA) "MWI" = Ok mwi /\
  get_frequencies_sat (A:=RA) "MWS" = Ok mws /\ get_frequencies_sat (A:=RA) "ICI" = Ok ici /\
  symmetric_block saphir 0 12 183.31 /\ symmetric_block amsu 2 6 183.31 /\ symmetric_block atms 2 10 183.31 /\
  symmetric_block mwi 8 8 118.7503 /\ symmetric_block mwi 16 2 165.5 /\ symmetric_block mwi 18 10 183.31 /\
  symmetric_block mws 4 2 53.246 /\ symmetric_block mws 6 2 53.596 /\ symmetric_block mws 8 2 53.948 /\
  symmetric_block mws 16 4 57.290344 /\ symmetric_block mws 20 4 57.290344 /\ symmetric_block mws 24 4 57.290344 /\
  symmetric_block mws 28 4 57.290344 /\ symmetric_block mws 33 2 165.5 /\ symmetric_block mws 35 10 183.31 /\
  symmetric_block ici 0 8 183.31 /\ symmetric_block ici 8 2 243.2 /\ symmetric_block ici 10 6 325.15 /\
  symmetric_block ici 16 6 448 /\ symmetric_block ici 22 2 664.
Proof.
  do 6 eexists. do 6 (split; [reflexivity|]).
  repeat (split; [sym_block|]). sym_block.
Qed.
(** The remaining pair of MWS, 57.290344 GHz +- 0.217 GHz (entries 14 and 15), is not symmetric: both
    entries are the lower side band. *)
Theorem C43_mws_pair_refuted : exists mws, get_frequencies_sat (A:=RA) "MWS" = Ok mws /\
  nth 14 mws 0 = 57.290344 - 0.217 /\ nth 15 mws 0 = 57.290344 - 0.217 /\ ~ symmetric_block mws 14 2 57.290344.
Proof.
  eexists. split; [reflexivity|]. split; [simpl; lra|]. split; [simpl; lra|].
  intros [_ H]. specialize (H 0%nat ltac:(lia)). simpl in H. lra.
Qed.
