(** Claim C154: columns of vapour and wet delays of moister and of scaled soundings, over the reals.

    Code: pyrtlib/rt_equation.py:27-81 (vapor), 106-147 (refractivity), 246-290 (exponential_integration), pyrtlib/tb_spectrum.py:225-405 (execute). *)

From Coq Require Import ZArith Reals Lra Lia Psatz String List Bool.
From Coquelicot Require Import Coquelicot.
Import ListNotations.
From Verif Require Import Arith PyBase Utils RTE Absorption Clear Spectrum Spec ListAux RealAux PlanckReal PlanckMaster PropsPlanck Integral
  SolverGen SolverRun Registry PropsRun PropsObject PropsModels PropsSolverX PropsRay PropsLiq LineData Lineshape PropsAbsN2 PropsClear PropsO2H2O PropsH2O PropsO2Data PropsO3
  PropsUtils PropsSelfCont FinTransfer FinGas FinSD PropsUtils3 FinClear PropsRow WeightingGen SolverExamples FinCloud PropsEnd PropsCross PropsSmooth PropsState PropsMixed PropsDryTop PropsNearby PropsMoist.
Local Open Scope string_scope.
Open Scope R_scope.

(** The program: four arrays, the solver for one frequency and one elevation, the model, execution; precipitable water and wet delay. *)
Definition columns_of (g : globals XA) (m : string) (sat : bool) (zs ps ts rhs : list R) (f a : R) : option (ext * ext) :=
  match tb_init (A:=XA) (four zs ps ts rhs) 0%nat 1%nat 2%nat 3%nat [Fin f] [Fin a] None None "" false sat false with
  | (h', Ok o) => match execute (@shipped XA) (init_absmdl g m) h' o with Ok (_, y :: _, _, _) => Some (an_srho y, an_swet y) | _ => None end
  | _ => None
  end.

Lemma mean2_scale c u v : 0 < c -> 0 < u -> 0 < v -> mean2 (c * u) (c * v) = c * mean2 u v.
Proof.
  intros Hc Hu Hv. unfold mean2. destruct (Req_EM_T u v) as [E|N], (Req_EM_T (c * u) (c * v)) as [E'|N'].
  - reflexivity.
  - exfalso. apply N'. congruence.
  - exfalso. apply N. apply Rmult_eq_reg_l with c; lra.
  - unfold logmean. replace (c * v / (c * u)) with (v / u) by (field; lra). unfold Rdiv. ring.
Qed.

Lemma layer_scale gas c u v : 0 < c -> 0 < u -> 0 < v -> Rabs (layer_mean gas (c * u) (c * v) - c * layer_mean gas u v) <= (1 + c) * 1e-9.
Proof.
  intros Hc Hu Hv. assert (A := layer_mean2 gas (c * u) (c * v) ltac:(nra) ltac:(nra)). assert (B := layer_mean2 gas u v Hu Hv). rewrite mean2_scale in A by assumption.
  set (p := layer_mean gas (c * u) (c * v)) in *. set (q := layer_mean gas u v) in *. set (m := mean2 u v) in *. clearbody p q m.
  replace (p - c * q) with ((p - c * m) + - (c * (q - m))) by ring. eapply Rle_trans; [apply Rabs_triang|]. rewrite Rabs_Ropp, Rabs_mult, (Rabs_right c) by lra.
  assert (c * Rabs (q - m) <= c * 1e-9) by (apply Rmult_le_compat_l; lra). lra.
Qed.

Lemma column_scale gas c (x d : list R) : 0 < c -> length d = length x -> (forall v, In v d -> 0 <= v) -> (forall v, In v x -> 0 < v) ->
  Rabs (column gas (map (fun v => c * v) x) d - c * column gas x d) <= (1 + c) * 1e-9 * total_tau d.
Proof.
  intros Hc L Hd Hx. unfold column. rewrite map_length, total_tau_nth, L.
  assert (G : forall n, (n <= length x - 1)%nat -> Rabs (rsum n (fun i => layer_int gas (map (fun v => c * v) x) d (S i)) - c * rsum n (fun i => layer_int gas x d (S i))) <= (1 + c) * 1e-9 * rsum n (fun i => nth (S i) d 0)).
  { induction n as [|n IH]; intros Hn; cbn [rsum]; [rewrite Rmult_0_r, Rminus_0_r, Rabs_R0; lra|]. specialize (IH ltac:(lia)).
    assert (U : 0 < nth n x 0) by (apply Hx, nth_In; lia). assert (V : 0 < nth (S n) x 0) by (apply Hx, nth_In; lia). assert (D : 0 <= nth (S n) d 0) by (apply Hd, nth_In; lia).
    change (layer_int gas x d (S n)) with (layer_mean gas (nth n x 0) (nth (S n) x 0) * nth (S n) d 0).
    change (layer_int gas (map (fun v => c * v) x) d (S n)) with (layer_mean gas (nth n (map (fun v => c * v) x) 0) (nth (S n) (map (fun v => c * v) x) 0) * nth (S n) d 0).
    rewrite !(nth_map_d (fun v => c * v) x _ 0) by lia. assert (A := layer_scale gas c _ _ Hc U V).
    set (p := layer_mean gas (c * nth n x 0) (c * nth (S n) x 0)) in *. set (q := layer_mean gas (nth n x 0) (nth (S n) x 0)) in *. clearbody p q. set (w := nth (S n) d 0) in *.
    match goal with |- Rabs (?a + ?b - c * (?e + ?f)) <= _ => replace (a + b - c * (e + f)) with ((a - c * e) + (p - c * q) * w) by ring; assert (T := Rabs_triang (a - c * e) ((p - c * q) * w)) end.
    rewrite (Rabs_mult (p - c * q)), (Rabs_right w) in T by lra. assert (Rabs (p - c * q) * w <= (1 + c) * 1e-9 * w) by (apply Rmult_le_compat_r; assumption). lra. }
  apply G. lia.
Qed.

(** ** Runs *)

Lemma run_columns g m sat zs ps ts rhs f a : In m whole_models -> sounding zs ps ts rhs -> (forall t, In t ts -> 152 <= t) -> (forall p, In p ps -> p <= 1000000) -> 0 < f -> 0 < a < 180 ->
  columns_of g m sat zs ps ts rhs f a = Some (Fin (0.1 * column true (vap_density ts rhs) (slant_path zs a)), Fin (0.1 * column true (wets ts (vap ts rhs)) (slant_path zs a))).
Proof.
  intros Hm SO Ht Hp Hf Ha.
  destruct (C111_from_constructor g (four zs ps ts rhs) 0%nat 1%nat 2%nat 3%nat m zs ps ts rhs [f] [a] sat) as (h' & o & fr & full & o' & g' & E1 & E2 & E3 & _); try reflexivity; try discriminate; try assumption.
  { left. exact Hm. }
  { intros f' [<-|[]]. split; [exact Hf|]. intros ->. unfold whole_models in Hm. cbn [In] in Hm. repeat (destruct Hm as [Hm|Hm]; [discriminate|]). destruct Hm. }
  { intros a' [<-|[]]. exact Ha. }
  assert (SO' := SO). destruct SO' as [S1 S2 S3 S4 S5 S6 S7 S8]. assert (ND := rising_NoDup zs S5).
  destruct (init_z (four zs ps ts rhs) h' 0%nat 1%nat 2%nat 3%nat (map Fin [f]) (map Fin [a]) None None false sat false o zs eq_refl S1 ND E1) as (_ & _ & _ & Hz').
  assert (F := tb_init_wf (four zs ps ts rhs) h' 0%nat 1%nat 2%nat 3%nat (map Fin [f]) (map Fin [a]) None None "" false sat false o E1). cbv zeta in F.
  change (hget (four zs ps ts rhs) 0%nat) with (map Fin zs) in F. change (hget (four zs ps ts rhs) 1%nat) with (map Fin ps) in F. change (hget (four zs ps ts rhs) 2%nat) with (map Fin ts) in F. change (hget (four zs ps ts rhs) 3%nat) with (map Fin rhs) in F. rewrite !map_length in F.
  destruct (F S2 S3 S4 ltac:(discriminate)) as (W & G1 & G2 & G3 & G4 & G5 & G6 & G7 & G8 & G9 & _ & _ & G12 & G13 & G14 & G15 & G16 & G17 & G18 & _ & G20).
  assert (K := C111_columns (@shipped XA) (init_absmdl g m) h' o fr full o' g' (map (fun x => x - nth 0 zs 0) zs) ps ts rhs W E2 G5).
  rewrite G15, G13, G12, G14 in K. specialize (K Hz'). rewrite !G18 in K by (try discriminate; cbn; lia). specialize (K eq_refl eq_refl eq_refl (sounding_shift _ _ _ _ _ SO) Ht Hp 0%nat a). rewrite G4 in K. specialize (K ltac:(cbn; lia) eq_refl Ha). cbv zeta in K. rewrite slant_shift in K.
  unfold columns_of. cbn [map] in E1. rewrite E1, E2.
  destruct full as [|y full].
  - exfalso. assert (X := proj1 (execute_full XA _ _ _ _ _ _ _ _ W E2)). rewrite G4 in X. discriminate.
  - cbn [nth] in K. destruct K as (K1 & K2 & _). rewrite K1, K2. reflexivity.
Qed.

Lemma density_nth ts rhs i : length rhs = length ts -> (i < length ts)%nat -> nth i (vap_density ts rhs) 0 = nth i rhs 0 * goff_water (nth i ts 0) / (461.52 * 1e-5 * nth i ts 0).
Proof. intros L Hi. unfold vap_density. rewrite (nth_map_d _ _ _ (0, 0)) by (rewrite combine_length; lia). rewrite combine_nth by lia. reflexivity. Qed.
Lemma wets_nth ts rhs i : length rhs = length ts -> (i < length ts)%nat -> nth i (wets ts (vap ts rhs)) 0 = thayer_wet (nth i ts 0) (nth i rhs 0 * goff_water (nth i ts 0)).
Proof.
  intros L Hi. assert (LV : length (vap ts rhs) = length ts) by (unfold vap; rewrite map_length, combine_length; lia).
  unfold wets. rewrite (nth_map_d _ _ _ (0, 0)) by (rewrite combine_length; lia). rewrite combine_nth by lia. cbn [fst snd]. f_equal.
  unfold vap. rewrite (nth_map_d _ _ _ (0, 0)) by (rewrite combine_length; lia). rewrite combine_nth by lia. reflexivity.
Qed.

Lemma wet_refractivity_grows t e e' : 152 <= t -> 0 < e <= e' -> 0 < thayer_wet t e <= thayer_wet t e'.
Proof.
  intros Ht He. unfold thayer_wet.
  assert (P : 0 <= 1 - 0.01317 * (t - 273.16) + 0.000175 * ((t - 273.16) * (t - 273.16)) + 1.44e-6 * ((t - 273.16) * (t - 273.16) * (t - 273.16))).
  { set (c := t - 273.16). assert (C : -121.2 <= c) by (unfold c; lra). clearbody c.
    assert (K := sq_nonneg (c - 70)). assert (K2 := sq_nonneg c).
    destruct (Rle_lt_dec 0 c) as [Hc|Hc].
    - assert (0 <= c * c * c) by (apply Rmult_le_pos; lra). nra.
    - assert (0 <= (0.000175 + 1.44e-6 * c) * (c * c)) by (apply Rmult_le_pos; lra). lra. }
  set (q := 1 - _ + _ + _) in *. clearbody q.
  assert (I1 : 0 < / t) by (apply Rinv_0_lt_compat; lra). assert (I2 : 0 < / (t * t)) by (apply Rinv_0_lt_compat; nra). assert (I3 : 0 < / (t * (t * t))) by (apply Rinv_0_lt_compat; apply Rmult_lt_0_compat; nra).
  unfold Rdiv. set (a := / t) in *. set (b := / (t * t)) in *. set (d := / (t * (t * t))) in *. clearbody a b d.
  assert (A1 : 0 < 64.79 * (e * a) + 377600 * (e * b)) by (assert (0 < e * a) by (apply Rmult_lt_0_compat; lra); assert (0 < e * b) by (apply Rmult_lt_0_compat; lra); lra).
  assert (A2 : 64.79 * (e * a) + 377600 * (e * b) <= 64.79 * (e' * a) + 377600 * (e' * b)) by (assert (e * a <= e' * a) by (apply Rmult_le_compat_r; lra); assert (e * b <= e' * b) by (apply Rmult_le_compat_r; lra); lra).
  assert (B1 : 0 <= 1650 * (e * d) * q) by (apply Rmult_le_pos; [|exact P]; assert (0 < e * d) by (apply Rmult_lt_0_compat; lra); lra).
  assert (B2 : 1650 * (e * d) * q <= 1650 * (e' * d) * q) by (apply Rmult_le_compat_r; [exact P|]; assert (e * d <= e' * d) by (apply Rmult_le_compat_r; lra); lra).
  split; [apply Rmult_lt_0_compat; lra|]. apply Rmult_le_compat; lra.
Qed.

(** A sounding that is nowhere drier has no less precipitable water and no smaller wet delay, up to 2e-10 per km of path. *)
Theorem C154_moister g g' m m' sat sat' zs ps ts rhs rhs' f f' a : In m whole_models -> In m' whole_models -> sounding zs ps ts rhs -> sounding zs ps ts rhs' ->
  (forall t, In t ts -> 152 <= t) -> (forall p, In p ps -> p <= 1000000) -> 0 < f -> 0 < f' -> 0 < a < 180 -> (forall r, In r rhs -> 0 < r) -> (forall i, (i < length zs)%nat -> nth i rhs 0 <= nth i rhs' 0) ->
  exists pw wd pw' wd', columns_of g m sat zs ps ts rhs f a = Some (Fin pw, Fin wd) /\ columns_of g' m' sat' zs ps ts rhs' f' a = Some (Fin pw', Fin wd') /\
  pw <= pw' + 2e-10 * total_tau (slant_path zs a) /\ wd <= wd' + 2e-10 * total_tau (slant_path zs a).
Proof.
  intros Hm Hm' SO SO' Ht Hp Hf Hf' Ha Hr H. do 4 eexists. split; [apply run_columns; eassumption|]. split; [apply run_columns; eassumption|].
  destruct SO as [S1 S2 S3 S4 S5 S6 S7 S8]. destruct SO' as [_ _ _ S4' _ _ _ _].
  assert (LP : length (slant_path zs a) = length zs) by (unfold slant_path; rewrite map_length, seq_length; reflexivity).
  assert (SN := slant_nonneg zs a S5 Ha).
  assert (D : forall i, (i < length zs)%nat -> 0 < nth i ts 0 /\ 152 <= nth i ts 0 /\ 0 < nth i rhs 0 * goff_water (nth i ts 0) <= nth i rhs' 0 * goff_water (nth i ts 0)).
  { intros i Hi. assert (A := Ht (nth i ts 0) ltac:(apply nth_In; lia)). assert (B := Hr (nth i rhs 0) ltac:(apply nth_In; lia)). assert (C := H i Hi). assert (G : 0 < goff_water (nth i ts 0)) by apply Rpower_pos.
    split; [lra|]. split; [lra|]. split; [apply Rmult_lt_0_compat; lra|apply Rmult_le_compat_r; lra]. }
  assert (L1 : forall r, length r = length zs -> length (vap_density ts r) = length zs) by (intros r Lr; unfold vap_density; rewrite map_length, combine_length; lia).
  assert (L2 : forall r, length r = length zs -> length (wets ts (vap ts r)) = length zs) by (intros r Lr; unfold wets, vap; rewrite map_length, combine_length, map_length, combine_length; lia).
  split.
  - assert (Q : column true (vap_density ts rhs) (slant_path zs a) <= column true (vap_density ts rhs') (slant_path zs a) + 2e-9 * total_tau (slant_path zs a)); [|powers; lra].
    apply C153_column; [rewrite !L1 by assumption; reflexivity|rewrite L1 by assumption; exact LP|exact SN| |].
    + intros v Hv. apply (In_nth _ _ 0) in Hv. destruct Hv as (i & Hi & <-). rewrite L1 in Hi by assumption. rewrite density_nth by lia. destruct (D i Hi) as (D1 & _ & D2). apply div_pos; [lra|]. powers. lra.
    + intros i Hi. rewrite L1 in Hi by assumption. rewrite !density_nth by lia. destruct (D i Hi) as (D1 & _ & D2). apply Rmult_le_compat_r; [|lra]. apply Rlt_le, Rinv_0_lt_compat. powers. lra.
  - assert (Q : column true (wets ts (vap ts rhs)) (slant_path zs a) <= column true (wets ts (vap ts rhs')) (slant_path zs a) + 2e-9 * total_tau (slant_path zs a)); [|powers; lra].
    apply C153_column; [rewrite !L2 by assumption; reflexivity|rewrite L2 by assumption; exact LP|exact SN| |].
    + intros v Hv. apply (In_nth _ _ 0) in Hv. destruct Hv as (i & Hi & <-). rewrite L2 in Hi by assumption. rewrite wets_nth by lia. destruct (D i Hi) as (_ & D1 & D2). exact (proj1 (wet_refractivity_grows _ _ _ D1 D2)).
    + intros i Hi. rewrite L2 in Hi by assumption. rewrite !wets_nth by lia. destruct (D i Hi) as (_ & D1 & D2). exact (proj2 (wet_refractivity_grows _ _ _ D1 D2)).
Qed.

(** Humidities scaled by a factor scale the precipitable water by that factor. *)
Theorem C154_scaled g g' m m' sat sat' zs ps ts rhs c f f' a : In m whole_models -> In m' whole_models -> 0 < c -> sounding zs ps ts rhs -> sounding zs ps ts (map (fun r => c * r) rhs) ->
  (forall t, In t ts -> 152 <= t) -> (forall p, In p ps -> p <= 1000000) -> 0 < f -> 0 < f' -> 0 < a < 180 -> (forall r, In r rhs -> 0 < r) ->
  exists pw wd pw' wd', columns_of g m sat zs ps ts rhs f a = Some (Fin pw, Fin wd) /\ columns_of g' m' sat' zs ps ts (map (fun r => c * r) rhs) f' a = Some (Fin pw', Fin wd') /\
  Rabs (pw' - c * pw) <= (1 + c) * 1e-10 * total_tau (slant_path zs a).
Proof.
  intros Hm Hm' Hc SO SO' Ht Hp Hf Hf' Ha Hr. do 4 eexists. split; [apply run_columns; eassumption|]. split; [apply run_columns; eassumption|].
  destruct SO as [S1 S2 S3 S4 S5 S6 S7 S8]. assert (SN := slant_nonneg zs a S5 Ha).
  assert (LP : length (slant_path zs a) = length zs) by (unfold slant_path; rewrite map_length, seq_length; reflexivity).
  assert (L1 : length (vap_density ts rhs) = length zs) by (unfold vap_density; rewrite map_length, combine_length; lia).
  assert (E : vap_density ts (map (fun r => c * r) rhs) = map (fun v => c * v) (vap_density ts rhs)).
  { apply (nth_ext _ _ 0 0); [unfold vap_density; rewrite !map_length, !combine_length, map_length; reflexivity|]. intros i Hi. assert (Hi' : (i < length zs)%nat) by (revert Hi; unfold vap_density; rewrite map_length, combine_length, map_length; lia).
    rewrite density_nth by (rewrite ?map_length; lia). rewrite (nth_map_d (fun v => c * v) _ _ 0) by lia. rewrite (nth_map_d (fun r => c * r) _ _ 0) by lia. rewrite density_nth by lia. unfold Rdiv. ring. }
  rewrite E. assert (Q := column_scale true c (vap_density ts rhs) (slant_path zs a) Hc ltac:(lia) SN).
  assert (PV : forall v, In v (vap_density ts rhs) -> 0 < v).
  { intros v Hv. apply (In_nth _ _ 0) in Hv. destruct Hv as (i & Hi & <-). rewrite density_nth by lia. assert (A := Ht (nth i ts 0) ltac:(apply nth_In; lia)). assert (B := Hr (nth i rhs 0) ltac:(apply nth_In; lia)).
    apply div_pos; [apply Rmult_lt_0_compat; [exact B|apply Rpower_pos]|powers; lra]. }
  specialize (Q PV). set (x := column true (map _ _) _) in *. set (y := column true (vap_density ts rhs) _) in *. clearbody x y.
  replace (0.1 * x - c * (0.1 * y)) with (0.1 * (x - c * y)) by ring. rewrite Rabs_mult, (Rabs_right 0.1) by lra. powers. lra.
Qed.

(** Half the vapour of a sounding of three levels. *)
Example C154_example g sat : exists pw wd pw' wd', columns_of g "R19" sat [1; 2; 4] [900; 800; 600] [290; 280; 260] [0.5; 0.5; 0.2] 22.235 90 = Some (Fin pw, Fin wd) /\
  columns_of g "R20" sat [1; 2; 4] [900; 800; 600] [290; 280; 260] (map (fun r => 0.5 * r) [0.5; 0.5; 0.2]) 60 90 = Some (Fin pw', Fin wd') /\ Rabs (pw' - 0.5 * pw) <= 4.5e-10 /\ wd' <= wd + 6e-10.
Proof.
  assert (S := ex_sounding).
  assert (S' : sounding [1; 2; 4] [900; 800; 600] [290; 280; 260] (map (fun r => 0.5 * r) [0.5; 0.5; 0.2])).
  { destruct S as [S1 S2 S3 S4 S5 S6 S7 S8]. constructor; try assumption; try reflexivity. { intros r [<-|[<-|[<-|[]]]]; lra. }
    intros i Hi. assert (X := S8 i Hi). assert (G1 : 0 < goff_water 290) by apply Rpower_pos. assert (G2 : 0 < goff_water 280) by apply Rpower_pos. assert (G3 : 0 < goff_water 260) by apply Rpower_pos.
    destruct i as [|[|[|i]]]; cbn [map nth length] in *; try lra. }
  assert (T : forall t, In t [290; 280; 260] -> 152 <= t) by (intros t [<-|[<-|[<-|[]]]]; lra). assert (P : forall p, In p [900; 800; 600] -> p <= 1000000) by (intros p [<-|[<-|[<-|[]]]]; lra).
  assert (M1 : In "R19" whole_models) by (cbn; tauto). assert (M2 : In "R20" whole_models) by (cbn; tauto).
  assert (R1 : forall r, In r [0.5; 0.5; 0.2] -> 0 < r) by (intros r [<-|[<-|[<-|[]]]]; lra).
  assert (R2 : forall r, In r (map (fun r => 0.5 * r) [0.5; 0.5; 0.2]) -> 0 < r) by (intros r [<-|[<-|[<-|[]]]]; lra).
  destruct (C154_scaled g g "R19" "R20" sat sat _ _ _ _ 0.5 22.235 60 90 M1 M2 ltac:(lra) S S' T P ltac:(lra) ltac:(lra) ltac:(lra) R1) as (pw & wd & pw' & wd' & E1 & E2 & E3).
  destruct (C154_moister g g "R20" "R19" sat sat _ _ _ _ [0.5; 0.5; 0.2] 60 22.235 90 M2 M1 S' S T P ltac:(lra) ltac:(lra) ltac:(lra) R2) as (pv & wv & pv' & wv' & D1 & D2 & _ & D3).
  { intros [|[|[|i]]] Hi; cbn [map nth length] in *; try lra; lia. }
  rewrite E2 in D1. rewrite E1 in D2. injection D1 as <- <-. injection D2 as <- <-.
  exists pw, wd, pw', wd'. split; [exact E1|]. split; [exact E2|].
  assert (E : total_tau (slant_path [1; 2; 4] 90) = 3).
  { unfold slant_path. cbn [length seq map slant nth]. replace (90 * PI / 180) with (PI / 2) by lra. rewrite sin_PI2. unfold total_tau. cbn. lra. }
  rewrite E in E3, D3. split; [eapply Rle_trans; [exact E3|powers; lra]|powers; lra].
Qed.
