(** Claim C153: moister air absorbs more, over the reals.

    Code: pyrtlib/absorption_model.py:412-684 (h2o_absorption, model R98), pyrtlib/rt_equation.py:246-290 (exponential_integration),
    pyrtlib/tb_spectrum.py:225-405 (execute); docs/script_examples/plot_log_dependance_tb.py:37-50 (runs of a profile whose vapour is scaled). *)

From Coq Require Import ZArith Reals Lra Lia Psatz String List Bool.
From Coquelicot Require Import Coquelicot.
Import ListNotations.
From Verif Require Import Arith PyBase Utils RTE Absorption Clear Spectrum Spec ListAux RealAux PlanckReal PlanckMaster PropsPlanck Integral
  SolverGen SolverRun Registry PropsRun PropsObject PropsModels PropsSolverX PropsRay PropsLiq LineData Lineshape PropsAbsN2 PropsClear PropsO2H2O PropsH2O PropsO2Data PropsO3
  PropsUtils PropsSelfCont FinTransfer FinGas FinSD PropsUtils3 FinClear PropsRow WeightingGen SolverExamples FinCloud PropsEnd PropsCross PropsCrossMore PropsSmooth PropsState PropsMixed PropsDryTop PropsNearby.
Local Open Scope string_scope.
Open Scope R_scope.

(** ** One resonance *)

(** [e] vapour times the part of a resonance above its value at the cut-off, when the width grows with the vapour. *)
Lemma wing_grows (a b e1 e2 D B : R) : 0 < a -> 0 <= b -> 0 <= e1 <= e2 -> 0 <= D <= B -> let w1 := a + b * e1 in let w2 := a + b * e2 in
  w1 * w2 * (w1 + w2) <= a * B -> e1 * (w1 / (D + w1 * w1) - w1 / (B + w1 * w1)) <= e2 * (w2 / (D + w2 * w2) - w2 / (B + w2 * w2)).
Proof.
  intros Ha Hb He HD w1 w2 HB.
  assert (W1 : a <= w1) by (unfold w1; nra). assert (W12 : w1 <= w2) by (unfold w1, w2; nra).
  assert (K : e2 * w1 - e1 * w2 = a * (e2 - e1)) by (unfold w1, w2; ring).
  assert (Q : w2 * w2 - w1 * w1 = b * (e2 - e1) * (w1 + w2)) by (unfold w1, w2; ring).
  assert (BE : b * e1 <= w1) by (unfold w1; lra). clearbody w1 w2.
  assert (X : forall w, 0 < w -> w / (D + w * w) - w / (B + w * w) = w * (B - D) / ((D + w * w) * (B + w * w))) by (intros w Hw; field; split; nra).
  rewrite !X by lra. clear X.
  assert (P1 : 0 < (D + w1 * w1) * (B + w1 * w1)) by (apply Rmult_lt_0_compat; nra). assert (P2 : 0 < (D + w2 * w2) * (B + w2 * w2)) by (apply Rmult_lt_0_compat; nra).
  (* the width alone *)
  assert (M : e1 * w2 * (B + w2 * w2) <= e2 * w1 * (B + w1 * w1)).
  { assert (E : e2 * w1 * (B + w1 * w1) - e1 * w2 * (B + w2 * w2) = (e2 - e1) * (a * (B + w1 * w1) - e1 * w2 * b * (w1 + w2))).
    { replace (e2 * w1 * (B + w1 * w1) - e1 * w2 * (B + w2 * w2)) with ((e2 * w1 - e1 * w2) * (B + w1 * w1) - e1 * w2 * (w2 * w2 - w1 * w1)) by ring. rewrite K, Q. ring. }
    assert (F : e1 * w2 * b * (w1 + w2) <= w1 * w2 * (w1 + w2)).
    { replace (e1 * w2 * b * (w1 + w2)) with (b * e1 * (w2 * (w1 + w2))) by ring. replace (w1 * w2 * (w1 + w2)) with (w1 * (w2 * (w1 + w2))) by ring. apply Rmult_le_compat_r; [apply Rmult_le_pos; lra|exact BE]. }
    assert (0 <= a * (w1 * w1)) by (apply Rmult_le_pos; nra). assert (0 <= (e2 - e1) * (a * (B + w1 * w1) - e1 * w2 * b * (w1 + w2))); [|lra]. apply Rmult_le_pos; lra. }
  assert (NN : w1 * w1 * (D + w2 * w2) <= w2 * w2 * (D + w1 * w1)) by (assert (0 <= D * (w2 * w2 - w1 * w1)) by (apply Rmult_le_pos; nra); lra).
  apply Rmult_le_reg_r with ((D + w1 * w1) * (B + w1 * w1) * ((D + w2 * w2) * (B + w2 * w2))); [apply Rmult_lt_0_compat; assumption|].
  replace (e1 * (w1 * (B - D) / ((D + w1 * w1) * (B + w1 * w1))) * ((D + w1 * w1) * (B + w1 * w1) * ((D + w2 * w2) * (B + w2 * w2)))) with ((B - D) * (e1 * w1 * (B + w2 * w2) * (D + w2 * w2))) by (field; split; nra).
  replace (e2 * (w2 * (B - D) / ((D + w2 * w2) * (B + w2 * w2))) * ((D + w1 * w1) * (B + w1 * w1) * ((D + w2 * w2) * (B + w2 * w2)))) with ((B - D) * (e2 * w2 * (B + w1 * w1) * (D + w1 * w1))) by (field; split; nra).
  apply Rmult_le_compat_l; [lra|].
  apply Rmult_le_reg_r with (w1 * w2); [apply Rmult_lt_0_compat; lra|].
  replace (e1 * w1 * (B + w2 * w2) * (D + w2 * w2) * (w1 * w2)) with ((e1 * w2 * (B + w2 * w2)) * (w1 * w1 * (D + w2 * w2))) by ring.
  replace (e2 * w2 * (B + w1 * w1) * (D + w1 * w1) * (w1 * w2)) with ((e2 * w1 * (B + w1 * w1)) * (w2 * w2 * (D + w1 * w1))) by ring.
  apply Rmult_le_compat; try assumption; repeat apply Rmult_le_pos; nra.
Qed.

Lemma clipped_grows (a b e1 e2 d : R) : 0 < a -> 0 <= b -> 0 <= e1 <= e2 -> let w1 := a + b * e1 in let w2 := a + b * e2 in
  w1 * w2 * (w1 + w2) <= a * 562500 -> e1 * clipped w1 d <= e2 * clipped w2 d.
Proof.
  intros Ha Hb He w1 w2 HB. unfold clipped. destruct (Rlt_dec (Rabs d) 750) as [L|L]; [|lra].
  assert (D : 0 <= d * d <= 562500).
  { split; [nra|]. replace (d * d) with (Rabs d * Rabs d) by (rewrite <- Rabs_mult; apply Rabs_pos_eq; nra). assert (0 <= Rabs d) by apply Rabs_pos. nra. }
  assert (G := wing_grows a b e1 e2 (d * d) 562500 Ha Hb He D HB). fold w1 w2 in G.
  assert (P := PI_RGT_0). assert (W1 : 0 < w1) by (unfold w1; nra). assert (W2 : 0 < w2) by (unfold w2; nra). clearbody w1 w2.
  assert (E : forall w, 0 < w -> lorentzian w d - lorentzian w 750 = / PI * (w / (d * d + w * w) - w / (562500 + w * w))).
  { intros w Hw. unfold lorentzian. replace (750 * 750) with 562500 by lra. field. assert (0 < w * w) by nra. repeat split; lra. }
  rewrite !E by assumption. assert (I := Rinv_0_lt_compat PI P).
  replace (e1 * (/ PI * (w1 / (d * d + w1 * w1) - w1 / (562500 + w1 * w1)))) with (/ PI * (e1 * (w1 / (d * d + w1 * w1) - w1 / (562500 + w1 * w1)))) by ring.
  replace (e2 * (/ PI * (w2 / (d * d + w2 * w2) - w2 / (562500 + w2 * w2)))) with (/ PI * (e2 * (w2 / (d * d + w2 * w2) - w2 / (562500 + w2 * w2)))) by ring.
  apply Rmult_le_compat_l; lra.
Qed.

(** ** One line of the list of R98 *)

(** Widths per hPa, the self width at least four times the foreign one; exponents between 0 and 1. *)
Definition tidy (l : h2o_line RA) : Prop :=
  0 <= h_s1 l /\ 0.0015 <= h_w0 l /\ 4 * h_w0 l <= h_w0s l /\ h_w0s l <= 0.016 /\ 0 <= h_x l <= 1 /\ 0 <= h_xs l <= 1.

Lemma power_range th x : 0.5 <= th <= 2 -> 0 <= x <= 1 -> 0.5 <= Rpower th x <= 2.
Proof.
  intros Ht Hx. destruct (Rle_dec 1 th) as [L|L].
  - assert (A : Rpower th 0 <= Rpower th x) by (apply Rle_Rpower; lra). assert (B : Rpower th x <= Rpower th 1) by (apply Rle_Rpower; lra). rewrite Rpower_O in A by lra. rewrite Rpower_1 in B by lra. lra.
  - assert (E : Rpower th x = / Rpower (/ th) x) by (unfold Rpower; rewrite ln_Rinv by lra; rewrite <- exp_Ropp; f_equal; ring).
    assert (I : 1 <= / th <= 2) by (split; [rewrite <- Rinv_1 at 1; apply Rinv_le_contravar; lra|replace 2 with (/ 0.5) by lra; apply Rinv_le_contravar; lra]).
    assert (A : Rpower (/ th) 0 <= Rpower (/ th) x) by (apply Rle_Rpower; lra). assert (B : Rpower (/ th) x <= Rpower (/ th) 1) by (apply Rle_Rpower; lra). rewrite Rpower_O in A by lra. rewrite Rpower_1 in B by lra.
    rewrite E. split; [replace 0.5 with (/ 2) by lra; apply Rinv_le_contravar; lra|apply Rle_trans with (/ 1); [apply Rinv_le_contravar; lra|lra]].
Qed.

Lemma line_grows l P k e1 e2 th f : tidy l -> 0.5 <= th <= 2 -> 0 < P <= 1100 -> 0 < k <= 1 -> 0 <= e1 <= e2 -> e2 <= P ->
  e1 * vvw (width_of l (P - k * e1) (k * e1) th) (h_fl l) 0 f <= e2 * vvw (width_of l (P - k * e2) (k * e2) th) (h_fl l) 0 f.
Proof.
  intros (_ & T1 & T2 & T3 & T4 & T5) Ht HP Hk He He2.
  set (u := Rpower th (h_x l)). set (v := Rpower th (h_xs l)). assert (U : 0.5 <= u <= 2) by (apply power_range; assumption). assert (V : 0.5 <= v <= 2) by (apply power_range; assumption).
  set (wf := h_w0 l) in *. set (ws := h_w0s l) in *. set (a := wf * P * u). set (b := k * (ws * v - wf * u)).
  assert (EW : forall e, width_of l (P - k * e) (k * e) th = a + b * e) by (intros e; unfold width_of, a, b; fold wf ws u v; ring).
  rewrite !EW. clearbody wf ws u v. 
  assert (Ha : 0 < a) by (unfold a; apply Rmult_lt_0_compat; [apply Rmult_lt_0_compat; lra|lra]).
  assert (Hb0 : 0 <= ws * v - wf * u) by nra. assert (Hb : 0 <= b) by (apply Rmult_le_pos; lra).
  assert (Wb : forall e, 0 <= e <= P -> 0 < a + b * e <= 0.032 * P).
  { intros e E. split; [assert (0 <= b * e) by (apply Rmult_le_pos; lra); lra|].
    assert (B1 : b * e <= (ws * v - wf * u) * P). { unfold b. replace (k * (ws * v - wf * u) * e) with ((ws * v - wf * u) * (k * e)) by ring. apply Rmult_le_compat_l; [exact Hb0|]. nra. }
    assert (B2 : a + b * e <= ws * v * P) by (unfold a; lra). apply Rle_trans with (ws * v * P); [exact B2|]. apply Rmult_le_compat_r; [lra|]. nra. }
  assert (W1 := Wb e1 ltac:(lra)). assert (W2 := Wb e2 ltac:(lra)).
  assert (HB : (a + b * e1) * (a + b * e2) * ((a + b * e1) + (a + b * e2)) <= a * 562500).
  { apply Rle_trans with (0.032 * P * (0.032 * P) * (0.032 * P + 0.032 * P)).
    - apply Rmult_le_compat; [apply Rmult_le_pos; lra|lra|apply Rmult_le_compat; lra|lra].
    - assert (A : 0.00075 * P <= a). { unfold a. replace (wf * P * u) with (wf * u * P) by ring. apply Rmult_le_compat_r; [lra|]. nra. }
      apply Rle_trans with (0.00075 * P * 562500); [|lra]. replace (0.032 * P * (0.032 * P) * (0.032 * P + 0.032 * P)) with (P * (0.000065536 * (P * P))) by lra.
      replace (0.00075 * P * 562500) with (P * 421.875) by lra. apply Rmult_le_compat_l; [lra|]. nra. }
  unfold vvw. assert (F : 0 <= f / h_fl l * (f / h_fl l)) by apply Rle_0_sqr.
  assert (G1 := clipped_grows a b e1 e2 (f - h_fl l - 0) Ha Hb He HB). assert (G2 := clipped_grows a b e1 e2 (f + h_fl l + 0) Ha Hb He HB). cbv zeta in G1, G2.
  set (q := f / h_fl l * (f / h_fl l)) in *. 
  match goal with |- e1 * (q * (?x + ?y)) <= e2 * (q * (?z + ?w)) => replace (e1 * (q * (x + y))) with (q * (e1 * x + e1 * y)) by ring; replace (e2 * (q * (z + w))) with (q * (e2 * z + e2 * w)) by ring end.
  apply Rmult_le_compat_l; lra.
Qed.

(** ** The continuum *)

Lemma continuum_grows th P v1 v2 f : 0.5 <= th <= 2 -> 0 <= v1 < v2 -> v2 <= P -> 0 < f ->
  continuum 5.43e-10 3 1.8e-8 7.5 th (P - v1) v1 f < continuum 5.43e-10 3 1.8e-8 7.5 th (P - v2) v2 f.
Proof.
  intros Ht Hv Hp Hf. unfold continuum. replace 7.5 with (3 + 4.5) by lra. rewrite Rpower_plus. set (c := Rpower th 3). assert (C : 0 < c) by apply Rpower_pos.
  assert (Q : 0.031 <= Rpower th 4.5).
  { apply Rle_trans with (Rpower 0.5 4.5); [|apply Rle_Rpower_l; lra]. apply Rle_trans with (Rpower 0.5 5).
    - replace 5 with (INR 5) by (cbn; lra). rewrite Rpower_pow by lra. cbn [pow]. lra.
    - unfold Rpower. apply Rlt_le, exp_increasing. assert (L : ln 0.5 < 0) by (rewrite <- ln_1; apply ln_increasing; lra). lra. }
  set (q := Rpower th 4.5) in *. clearbody c q. assert (F : 0 < f * f) by nra.
  apply Rmult_lt_compat_r; [exact F|].
  replace ((5.43e-10 * (P - v1) * c + 1.8e-8 * v1 * (c * q)) * v1) with (c * (1e-10 * (5.43 * (P - v1) * v1 + 180 * q * v1 * v1))) by (powers; lra).
  replace ((5.43e-10 * (P - v2) * c + 1.8e-8 * v2 * (c * q)) * v2) with (c * (1e-10 * (5.43 * (P - v2) * v2 + 180 * q * v2 * v2))) by (powers; lra).
  apply Rmult_lt_compat_l; [exact C|]. apply Rmult_lt_compat_l; [powers; lra|].
  assert (E : 5.43 * (P - v2) * v2 + 180 * q * v2 * v2 - (5.43 * (P - v1) * v1 + 180 * q * v1 * v1) = (v2 - v1) * (5.43 * (P - v1 - v2) + 180 * q * (v1 + v2))) by ring.
  assert (0 < (v2 - v1) * (5.43 * (P - v1 - v2) + 180 * q * (v1 + v2))); [|lra]. apply Rmult_lt_0_compat; [lra|].
  assert (5.58 * (v1 + v2) <= 180 * q * (v1 + v2)) by (apply Rmult_le_compat_r; lra). lra.
Qed.

(** ** The gas *)

Lemma tidy_R98 ll : db_h2o (@shipped RA) "R98" = Some ll -> List.Forall tidy (h_lines ll) /\ (h_reftline ll : R) = 300 /\ (h_reftcon ll : R) = 300.
Proof.
  intros H. change (shipped_h2o (A:=RA) "R98" = Some ll) in H. unfold shipped_h2o in H. cbn [String.eqb Ascii.eqb Bool.eqb] in H.
  apply (f_equal (fun o : option (h2o_ll RA) => match o with Some l => l | None => ll end)) in H. cbv beta iota in H. rewrite <- H. unfold h2o_load. cbn [h_lines h_reftline h_reftcon].
  split; [|split; [unfold h2o_reftline_R98|unfold h2o_ctr_R98, col; cbn [nth]]; ra; lra].
  unfold h2o_mtx_R98. cbn [map]. repeat (apply Forall_cons; [unfold tidy; repeat split|]); [..|apply Forall_nil]; unfold h2o_row, col; cbn [nth h_s1 h_w0 h_w0s h_x h_xs str_in existsb String.eqb Ascii.eqb Bool.eqb orb]; ra; powers; lra.
Qed.

Definition kv : R := / (0.0831451 / 18.01528 * 217).
Lemma kv_range : 0 < kv <= 1.
Proof. unfold kv. split; [apply Rinv_0_lt_compat; lra|]. rewrite <- Rinv_1. apply Rinv_le_contravar; lra. Qed.

Lemma env_R98 pd vx ek : 0 < vx -> let e := h2o_env_of (A:=RA) "R98" pd vx ek in
  e_pvap e = kv * (10 * ek) /\ e_pda e = 10 * (pd + ek) - kv * (10 * ek) /\ e_t e = 300 / vx /\ e_rho e = 10 * ek * / (0.0831451 / 18.01528 * (300 / vx)) /\ e_den e = 3.335e16 * e_rho e.
Proof.
  intros Hv e. unfold e, h2o_env_of. cbn [e_pvap e_pda e_t e_rho e_den str_in existsb String.eqb Ascii.eqb Bool.eqb orb]. ra. replace (3000 / 10) with 300 by lra.
  assert (V : 0 < 300 / vx) by (apply div_pos; lra). set (t := 300 / vx) in *. clearbody t.
  assert (C : forall r, r <> 0 -> ek * (100 / 10) / (r * t) * t / (2170 / 10) = / (r * 217) * (10 * ek)) by (intros; field; split; lra).
  assert (C2 : forall r, r <> 0 -> ek * (100 / 10) / (r * t) = 10 * ek * / (r * t)) by (intros; field; split; lra).
  rewrite C by lra. replace (/ (1 / 100 * (831451 / 100000) / (1801528 / 100000) * 217)) with kv by (unfold kv; f_equal; lra).
  split; [reflexivity|]. split; [lra|]. split; [reflexivity|]. split; [rewrite C2 by lra; do 3 f_equal; lra|]. apply f_equal2; [powers; lra|reflexivity].
Qed.

Lemma total_le {X} (g h : X -> R) l : (forall x, In x l -> g x <= h x) -> total g l <= total h l.
Proof.
  induction l as [|x l IH]; intros H; cbn [total fold_right]; [lra|]. fold (total g l) (total h l). assert (A := H x (or_introl eq_refl)). assert (B := IH (fun y Y => H y (or_intror Y))). lra.
Qed.

(** Value of the lines and of the continuum in Np/km. *)
Lemma value_R98 ll pd vx ek f n c : db_h2o (@shipped RA) "R98" = Some ll -> 0 < vx -> 0 <= ek -> 0 < f -> h2o_absorption (A:=RA) "R98" ll pd vx ek f = Ok (n, c) ->
  let P := 10 * (pd + ek) in let pv := kv * (10 * ek) in let T := 300 / vx in let theta := 300 / T in
  npkm f n = 3.1831e-5 * (3.335e16 * / (0.0831451 / 18.01528 * T)) * PI *
    total (fun l : h2o_line RA => strength (h_s1 l) (h_b2 l) 2.5 theta * (10 * ek * vvw (width_of l (P - pv) pv theta) (h_fl l) 0 f)) (h_lines ll) /\
  npkm f c = continuum 5.43e-10 3 1.8e-8 7.5 theta (P - pv) pv f.
Proof.
  intros Hl Hv He Hf H P pv T theta. destruct (tidy_R98 ll Hl) as (_ & R1 & R2). destruct (env_R98 pd vx ek Hv) as (E1 & E2 & E3 & E4 & E5).
  assert (HT : 0 < T) by (apply div_pos; lra). assert (Hth : 0 < theta) by (apply div_pos; lra).
  destruct (C53_h2o_units "R98" ll pd vx ek f n c ltac:(lra) H) as [(Z & -> & ->)|(NZ & s & con & Hs & Hc & Hn & Hcc)]; cbv zeta in *.
  - rewrite E4 in Z. assert (EZ : ek = 0).
    { apply Rmult_integral in Z. destruct Z as [Z|Z]; [lra|]. exfalso. revert Z. apply Rinv_neq_0_compat. apply Rgt_not_eq. apply Rmult_lt_0_compat; [lra|exact HT]. }
    rewrite npkm_0. subst ek. split.
    + rewrite (total_scale _ (fun _ => 0) 0); [lra|]. intros l. lra.
    + unfold continuum, pv. lra.
  - set (e := h2o_env_of (A:=RA) "R98" pd vx ek) in *. fold T in E3. fold P pv in E1, E2. 
    assert (M : In "R98" std_models) by (cbn; tauto).
    split.
    + assert (S : s = PI * total (fun l : h2o_line RA => strength (h_s1 l) (h_b2 l) 2.5 theta * vvw (width_of l (e_pda e) (e_pvap e) theta) (h_fl l) (shift_of "R98" l (e_pda e) (e_pvap e) theta) f) (h_lines ll)).
      { unfold h2o_summ in Hs. destruct (std_cases "R98" M) as (C1 & C2 & _). rewrite C1, C2 in Hs. injection Hs as <-. etransitivity; [apply sum_total|]. rewrite (total_scale _ (fun l : h2o_line RA => strength (h_s1 l) (h_b2 l) 2.5 theta * vvw (width_of l (e_pda e) (e_pvap e) theta) (h_fl l) (shift_of "R98" l (e_pda e) (e_pvap e) theta) f) PI).
        - ra. lra.
        - intros l. rewrite <- (line_std "R98" e f theta l M Hth). assert (TE : h_reftline ll / (3000 / 10 / vx) = theta) by (rewrite R1; unfold theta, T; f_equal; f_equal; lra).
          rewrite TE. rewrite Rpowf_pos by exact Hth. replace (25 / 10) with 2.5 by lra. reflexivity. }
      rewrite Hn. unfold line_npkm. cbn [str_in existsb String.eqb Ascii.eqb Bool.eqb orb]. rewrite S, E5, E4, E1, E2. fold P pv T.
      rewrite (total_scale (fun l : h2o_line RA => strength (h_s1 l) (h_b2 l) 2.5 theta * (10 * ek * vvw (width_of l (P - pv) pv theta) (h_fl l) 0 f))
        (fun l : h2o_line RA => strength (h_s1 l) (h_b2 l) 2.5 theta * vvw (width_of l (P - pv) pv theta) (h_fl l) (shift_of "R98" l (P - pv) pv theta) f) (10 * ek)); [ring|].
      intros l. unfold shift_of. cbn [String.eqb Ascii.eqb Bool.eqb]. ring.
    + rewrite Hcc. unfold h2o_con2 in Hc. cbn [str_in existsb String.eqb Ascii.eqb Bool.eqb orb] in Hc. apply ok_inj in Hc. rewrite <- Hc. unfold h2o_con1. cbv zeta. cbn [str_in existsb String.eqb Ascii.eqb Bool.eqb orb].
      rewrite E1, E2, E3, R2. ra. fold theta. rewrite Rpowf_pos by exact Hth. rewrite powi3. unfold continuum.
      replace (Rpower theta 3) with (theta * theta * theta) by (replace 3 with (INR 3) by (cbn; lra); rewrite Rpower_pow by exact Hth; cbn [pow]; ring).
      replace (75 / 10) with 7.5 by lra. ra. set (z := Rpower theta 7.5). clearbody z. powers. lra.
Qed.

Lemma npkm_le f x y : 0 < f -> npkm f x <= npkm f y -> x <= y.
Proof.
  intros Hf H. unfold npkm in H. apply Rmult_le_reg_l in H; [exact H|]. assert (0 < ln 10) by (rewrite <- ln_1; apply ln_increasing; lra). apply Rmult_lt_0_compat; lra.
Qed.

(** Air of the same pressure and temperature with more vapour: more absorption by the lines and by the continuum. *)
Theorem C153_gas ll pd ek pd' ek' vx f n c n' c' : db_h2o (@shipped RA) "R98" = Some ll -> 150 <= 300 / vx <= 600 -> 0 < vx -> 0 < f ->
  0 <= ek < ek' -> 0 <= pd' -> pd + ek = pd' + ek' -> pd + ek <= 110 ->
  h2o_absorption (A:=RA) "R98" ll pd vx ek f = Ok (n, c) -> h2o_absorption (A:=RA) "R98" ll pd' vx ek' f = Ok (n', c') -> n <= n' /\ npkm f c < npkm f c'.
Proof.
  intros Hl HT Hv Hf He Hd HP HP2 H H'. destruct (tidy_R98 ll Hl) as (TD & _ & _).
  destruct (value_R98 ll pd vx ek f n c Hl Hv ltac:(lra) Hf H) as (A1 & A2). destruct (value_R98 ll pd' vx ek' f n' c' Hl Hv ltac:(lra) Hf H') as (B1 & B2). cbv zeta in *. rewrite <- HP in B1, B2.
  set (P := 10 * (pd + ek)) in *. set (T := 300 / vx) in *. set (th := 300 / T) in *. assert (K := kv_range).
  assert (Hth : 0.5 <= th <= 2).
  { unfold th. split; [apply Rmult_le_reg_r with T|apply Rmult_le_reg_r with T]; try lra; replace (300 / T * T) with 300 by (field; lra); lra. }
  split.
  - apply (npkm_le f); [exact Hf|]. rewrite A1, B1. apply Rmult_le_compat_l.
    + assert (P0 := PI_RGT_0). assert (0 < / (0.0831451 / 18.01528 * T)) by (apply Rinv_0_lt_compat, Rmult_lt_0_compat; lra). apply Rmult_le_pos; [|lra]. apply Rmult_le_pos; [powers; lra|]. apply Rmult_le_pos; [powers; lra|lra].
    + apply total_le. intros l L. assert (Q := proj1 (Forall_forall _ _) TD l L). assert (G := line_grows l P kv (10 * ek) (10 * ek') th f Q Hth ltac:(unfold P; lra) K ltac:(lra) ltac:(unfold P; lra)).
      apply Rmult_le_compat_l; [|exact G]. unfold strength. destruct Q as (Q & _). apply Rmult_le_pos; [apply Rmult_le_pos; [exact Q|apply Rlt_le, Rpower_pos]|apply Rlt_le, exp_pos].
  - rewrite A2, B2. apply continuum_grows; try assumption.
    + split; [apply Rmult_le_pos; lra|apply Rmult_lt_compat_l; lra].
    + apply Rle_trans with (1 * (10 * ek')); [apply Rmult_le_compat_r; lra|unfold P; lra].
Qed.

(** A level of a sounding: same pressure and temperature, more vapour. *)
Theorem C153_level g f p t e e' aw ad aw' ad' : g_h2o g = Some "R98" -> g_h2oll g = db_h2o (@shipped RA) "R98" -> 0 < f -> p <= 1100 -> 150 <= t <= 600 -> 0 <= e < e' -> e' <= p ->
  clearsky_level (A:=RA) g None f p t e None = Ok (aw, ad) -> clearsky_level (A:=RA) g None f p t e' None = Ok (aw', ad') -> aw < aw'.
Proof.
  intros G1 G2 Hf Hp Ht He He2 H H'.
  destruct (C53_level g None f p t e None aw ad H) as (nw & cw & _ & _ & _ & _ & W & _ & _ & _ & -> & _).
  destruct (C53_level g None f p t e' None aw' ad' H') as (nw' & cw' & _ & _ & _ & _ & W' & _ & _ & _ & -> & _).
  unfold h2o_call in W, W'. rewrite G1, G2 in W, W'. destruct (db_h2o (@shipped RA) "R98") as [ll|] eqn:L; [|discriminate L]. cbn [over] in W, W'.
  assert (V : 300 / (300 / t) = t) by (field; lra).
  destruct (C153_gas ll ((p - e) / 10) (e / 10) ((p - e') / 10) (e' / 10) (300 / t) f nw cw nw' cw' L) as (A & B); try assumption; try lra.
  - apply div_pos; lra.
  - assert (LN : 0 < ln 10) by (rewrite <- ln_1; apply ln_increasing; lra). assert (X : npkm f nw <= npkm f nw'); [|lra]. unfold npkm. apply Rmult_le_compat_l; [|exact A]. apply Rmult_le_pos; lra.
Qed.

(** ** The layers *)

Lemma mean2_sym u v : 0 < u -> 0 < v -> mean2 u v = mean2 v u.
Proof.
  intros Hu Hv. unfold mean2. destruct (Req_EM_T u v) as [E|N], (Req_EM_T v u) as [E'|N']; try lra. apply logmean_sym; assumption.
Qed.

(** The logarithmic mean grows with each argument. *)
Lemma mean2_up u v v' : 0 < u -> 0 < v -> v <= v' -> mean2 u v <= mean2 u v'.
Proof.
  intros Hu Hv Hvv. destruct (Req_EM_T v v') as [->|NV]; [lra|]. assert (B := mean2_between u v Hu Hv). assert (B' := mean2_between u v' Hu ltac:(lra)).
  destruct (Rle_dec v u) as [L|L].
  - destruct (Rle_dec u v') as [L'|L']; [rewrite Rmax_left in B by lra; rewrite Rmin_left in B' by lra; lra|].
    (* both below u *)
    unfold mean2. destruct (Req_EM_T u v); [lra|]. destruct (Req_EM_T u v'); [lra|]. unfold logmean.
    assert (P1 : 0 < v' / u) by (apply div_pos; lra). assert (P2 : 0 < v / v') by (apply div_pos; lra).
    assert (E : ln (v / u) = ln (v' / u) + ln (v / v')) by (rewrite <- ln_mult by assumption; f_equal; field; lra).
    assert (LE := ln_le_sub1 (v / v') P2). assert (GE := ln_ge_1_sub_inv (v' / u) P1).
    assert (NEG : ln (v' / u) < 0). { rewrite <- ln_1. apply ln_increasing; [exact P1|]. apply Rmult_lt_reg_r with u; [lra|]. unfold Rdiv. rewrite Rmult_assoc, Rinv_l; lra. }
    assert (NEG2 : ln (v / v') < 0). { rewrite <- ln_1. apply ln_increasing; [exact P2|]. apply Rmult_lt_reg_r with v'; [lra|]. unfold Rdiv. rewrite Rmult_assoc, Rinv_l; lra. }
    replace (/ (v' / u)) with (u / v') in GE by (field; lra). set (l := ln (v' / u)) in *. set (k := ln (v / v')) in *. rewrite E.
    assert (KV : k * v' <= v - v'). { apply Rle_trans with ((v / v' - 1) * v'); [apply Rmult_le_compat_r; lra|]. right. field. lra. }
    assert (LV : v' - u <= l * v'). { apply Rle_trans with ((1 - u / v') * v'); [right; field; lra|]. apply Rmult_le_compat_r; lra. }
    apply Rmult_le_reg_r with ((- (l + k)) * (- l)); [apply Rmult_lt_0_compat; lra|].
    replace ((v - u) / (l + k) * (- (l + k) * - l)) with ((v - u) * l) by (field; lra). replace ((v' - u) / l * (- (l + k) * - l)) with ((v' - u) * (l + k)) by (field; lra).
    (* (v - v') l <= (v' - u) k *)
    assert (X : (v - v') * l <= (v' - u) * k); [|lra].
    apply Rmult_le_reg_r with v'; [lra|]. 
    assert (A1 : (v' - u) * (v - v') <= (v' - u) * (k * v')). { assert (0 <= (u - v') * ((v - v') - k * v')) by (apply Rmult_le_pos; lra). lra. }
    assert (A2 : (v - v') * (l * v') <= (v - v') * (v' - u)). { assert (0 <= (v' - v) * (l * v' - (v' - u))) by (apply Rmult_le_pos; lra). lra. }
    lra.
  - (* both above u *)
    unfold mean2. destruct (Req_EM_T u v); [lra|]. destruct (Req_EM_T u v'); [lra|]. unfold logmean.
    assert (P1 : 0 < v / u) by (apply div_pos; lra). assert (P2 : 0 < v' / v) by (apply div_pos; lra).
    assert (E : ln (v' / u) = ln (v / u) + ln (v' / v)) by (rewrite <- ln_mult by assumption; f_equal; field; lra).
    assert (LE := ln_le_sub1 (v' / v) P2). assert (GE := ln_ge_1_sub_inv (v / u) P1).
    assert (POS : 0 < ln (v / u)). { rewrite <- ln_1. apply ln_increasing; [lra|]. apply Rmult_lt_reg_r with u; [lra|]. unfold Rdiv. rewrite Rmult_assoc, Rinv_l; lra. }
    assert (POS2 : 0 < ln (v' / v)). { rewrite <- ln_1. apply ln_increasing; [lra|]. apply Rmult_lt_reg_r with v; [lra|]. unfold Rdiv. rewrite Rmult_assoc, Rinv_l; lra. }
    replace (/ (v / u)) with (u / v) in GE by (field; lra). set (l := ln (v / u)) in *. set (k := ln (v' / v)) in *. rewrite E.
    assert (KV : k * v <= v' - v). { apply Rle_trans with ((v' / v - 1) * v); [apply Rmult_le_compat_r; lra|]. right. field. lra. }
    assert (LV : v - u <= l * v). { apply Rle_trans with ((1 - u / v) * v); [right; field; lra|]. apply Rmult_le_compat_r; lra. }
    apply Rmult_le_reg_r with ((l + k) * l); [apply Rmult_lt_0_compat; lra|].
    replace ((v - u) / l * ((l + k) * l)) with ((v - u) * (l + k)) by (field; lra). replace ((v' - u) / (l + k) * ((l + k) * l)) with ((v' - u) * l) by (field; lra).
    assert (X : (v - u) * k <= (v' - v) * l); [|lra].
    apply Rmult_le_reg_r with v; [lra|].
    assert (A1 : (v - u) * (k * v) <= (v - u) * (v' - v)) by (apply Rmult_le_compat_l; lra).
    assert (A2 : (v' - v) * (v - u) <= (v' - v) * (l * v)) by (apply Rmult_le_compat_l; lra).
    lra.
Qed.
Lemma mean2_grows u v u' v' : 0 < u -> 0 < v -> u <= u' -> v <= v' -> mean2 u v <= mean2 u' v'.
Proof.
  intros Hu Hv H1 H2. apply Rle_trans with (mean2 u v'); [apply mean2_up; assumption|]. rewrite (mean2_sym u v'), (mean2_sym u' v') by lra. apply mean2_up; lra.
Qed.

(** More absorption at every level: more opacity, up to the threshold 1e-9 of the code. *)
Theorem C153_column gas (x x' d : list R) : length x' = length x -> length d = length x -> (forall v, In v d -> 0 <= v) -> (forall v, In v x -> 0 < v) ->
  (forall i, (i < length x)%nat -> nth i x 0 <= nth i x' 0) -> column gas x d <= column gas x' d + 2e-9 * total_tau d.
Proof.
  intros L1 L2 Hd Hx H. unfold column. rewrite L1, total_tau_nth, L2.
  assert (G : forall n, (n <= length x - 1)%nat -> rsum n (fun i => layer_int gas x d (S i)) <= rsum n (fun i => layer_int gas x' d (S i)) + 2e-9 * rsum n (fun i => nth (S i) d 0)).
  { induction n as [|n IH]; intros Hn; cbn [rsum]; [powers; lra|]. specialize (IH ltac:(lia)).
    assert (U : 0 < nth n x 0) by (apply Hx, nth_In; lia). assert (V : 0 < nth (S n) x 0) by (apply Hx, nth_In; lia). assert (D : 0 <= nth (S n) d 0) by (apply Hd, nth_In; lia).
    assert (U' := H n ltac:(lia)). assert (V' := H (S n) ltac:(lia)).
    change (layer_int gas x d (S n)) with (layer_mean gas (nth n x 0) (nth (S n) x 0) * nth (S n) d 0). change (layer_int gas x' d (S n)) with (layer_mean gas (nth n x' 0) (nth (S n) x' 0) * nth (S n) d 0).
    assert (A := layer_mean2 gas (nth n x 0) (nth (S n) x 0) U V). assert (B := layer_mean2 gas (nth n x' 0) (nth (S n) x' 0) ltac:(lra) ltac:(lra)). assert (M := mean2_grows _ _ _ _ U V U' V').
    set (p := layer_mean gas (nth n x 0) (nth (S n) x 0)) in *. set (q := layer_mean gas (nth n x' 0) (nth (S n) x' 0)) in *. set (r := mean2 (nth n x 0) (nth (S n) x 0)) in *. set (s := mean2 (nth n x' 0) (nth (S n) x' 0)) in *. clearbody p q r s.
    assert (PQ : p <= q + 2e-9).
    { apply Rabs_le_between in A. apply Rabs_le_between in B. powers. lra. }
    assert (E : p * nth (S n) d 0 <= (q + 2e-9) * nth (S n) d 0) by (apply Rmult_le_compat_r; assumption). lra. }
  apply G. lia.
Qed.

(** ** Runs *)

(** The program: four arrays, the solver for one frequency and one elevation, execution with the models chosen in the classes. *)
Definition wet_with (g : globals XA) (sat : bool) (zs ps ts rhs : list R) (f a : R) : option ext :=
  match tb_init (A:=XA) (four zs ps ts rhs) 0%nat 1%nat 2%nat 3%nat [Fin f] [Fin a] None None "" false sat false with
  | (h', Ok o) => match execute (@shipped XA) g h' o with Ok (r :: _, _, _, _) => Some (r_tauwet r) | _ => None end
  | _ => None
  end.

Lemma run_wet g mo mn ml sat zs ps ts rhs f a : chosen g "R98" mo mn ml -> covers "R98" mo mn ps ts -> sounding zs ps ts rhs -> 0 < f -> 0 < a < 180 -> (forall t, In t ts -> 150 <= t <= 600) ->
  exists aw ad, mixed_absorption "R98" mo mn "" ps ts rhs None f aw ad /\ length aw = length zs /\ wet_with g sat zs ps ts rhs f a = Some (Fin (column true aw (slant_path zs a))).
Proof.
  intros Hc Hm SO Hf Ha Ht.
  destruct (C130_from_constructor g (four zs ps ts rhs) 0%nat 1%nat 2%nat 3%nat None "R98" mo mn ml "" zs ps ts rhs None [f] [a] sat 150 600) as (h' & o & fr & full & o' & g' & E1 & E2 & E3 & E4); try reflexivity; try discriminate; try assumption; try lra.
  { intros f' [<-|[]]. split; [exact Hf|]. intros [X|[X|[X|[]]]]; discriminate. }
  { intros a' [<-|[]]. exact Ha. }
  destruct fr as [|r0 fr]; [discriminate|]. destruct (E4 0%nat 0%nat r0 ltac:(cbn; lia) ltac:(cbn; lia)) as (aw & ad & x & T & I1 & (L1 & L2 & _) & I2 & _ & _ & I3 & _). cbn [nth] in I1, I3.
  exists aw, ad. split; [exact I1|]. split; [exact L1|]. unfold wet_with. cbn [map] in E1. rewrite E1, E2. cbn in I2. subst r0. destruct I3 as (_ & J1 & _). rewrite J1. reflexivity.
Qed.

Lemma mixed_level mo mn ps ts rhs f aw ad i : length ts = length ps -> length rhs = length ps -> mixed_absorption "R98" mo mn "" ps ts rhs None f aw ad -> (i < length ps)%nat ->
  clearsky_level (A:=RA) (mixed "R98" mo mn "") None f (nth i ps 0) (nth i ts 0) (nth i rhs 0 * goff_water (nth i ts 0)) None = Ok (nth i aw 0, nth i ad 0).
Proof.
  intros Lt Lr H Hi. unfold mixed_absorption, clearsky_absorption in H. apply bind_Ok in H. destruct H as (r & Hr & H). apply ok_inj in H.
  assert (E1 := f_equal fst H). assert (E2 := f_equal snd H). cbn [fst snd] in E1, E2. clear H.
  assert (LV : length (vap ts rhs) = length ps) by (unfold vap; rewrite map_length, combine_length; lia).
  destruct (combine4 ps ts (vap ts rhs) (with_o3 (A:=RA) (length ps) None) i 0 0 0 None (length ps) eq_refl Lt LV (repeat_length _ _) Hi) as [LL EN].
  assert (K := mapM_nth _ _ r i (0, (0, (0, None))) (0, 0) Hr (eq_ind_r (fun k => (i < k)%nat) Hi LL)).
  replace (nth i (vap ts rhs) 0) with (nth i rhs 0 * goff_water (nth i ts 0)) in EN.
  2: { unfold vap. rewrite (nth_map_d (fun x => snd x * goff_water (fst x)) _ i (0, 0)) by (rewrite combine_length; lia). rewrite combine_nth by lia. reflexivity. }
  replace (nth i (with_o3 (A:=RA) (length ps) None) None) with (@None R) in EN by (cbn [with_o3]; symmetry; apply nth_repeat).
  apply (eq_trans (f_equal (fun '(p, (t, (e, o))) => clearsky_level (A:=RA) (mixed "R98" mo mn "") None f p t e o) (eq_sym EN))) in K.
  assert (LR : (i < length r)%nat) by (apply mapM_length in Hr; exact (eq_ind_r (fun k => (i < k)%nat) Hi (eq_trans Hr LL))).
  rewrite <- E1, <- E2, (nth_map_d fst r i (0, 0)), (nth_map_d snd r i (0, 0)) by exact LR.
  etransitivity; [exact K|]. f_equal. destruct (nth i r (0, 0)); reflexivity.
Qed.

(** A sounding and one with the same heights, pressures and temperatures that is nowhere drier: the wet opacity of the second run is not smaller than that of the first, up to
    2e-9 per km of path. *)
Theorem C153_run g g' mo mn ml mo' mn' ml' sat sat' zs ps ts rhs rhs' f a : chosen g "R98" mo mn ml -> covers "R98" mo mn ps ts -> chosen g' "R98" mo' mn' ml' -> covers "R98" mo' mn' ps ts ->
  sounding zs ps ts rhs -> sounding zs ps ts rhs' -> (forall p, In p ps -> p <= 1100) -> (forall t, In t ts -> 150 <= t <= 600) -> 0 < f -> 0 < a < 180 ->
  (forall r, In r rhs -> 0 < r) -> (forall i, (i < length zs)%nat -> nth i rhs 0 <= nth i rhs' 0) ->
  exists w w', wet_with g sat zs ps ts rhs f a = Some (Fin w) /\ wet_with g' sat' zs ps ts rhs' f a = Some (Fin w') /\ w <= w' + 2e-9 * total_tau (slant_path zs a).
Proof.
  intros Hc Hm Hc' Hm' SO SO' Hp Ht Hf Ha Hr H. 
  destruct (run_wet g mo mn ml sat zs ps ts rhs f a Hc Hm SO Hf Ha Ht) as (aw & ad & A1 & A2 & A3). destruct (run_wet g' mo' mn' ml' sat' zs ps ts rhs' f a Hc' Hm' SO' Hf Ha Ht) as (aw' & ad' & B1 & B2 & B3).
  destruct SO as [S1 S2 S3 S4 S5 S6 S7 S8]. destruct SO' as [_ _ _ S4' _ _ S7' S8'].
  exists (column true aw (slant_path zs a)), (column true aw' (slant_path zs a)). split; [exact A3|]. split; [exact B3|].
  assert (LEV : forall i, (i < length zs)%nat -> 0 < nth i aw 0 <= nth i aw' 0).
  { intros i Hi. assert (V := mixed_level mo mn ps ts rhs f aw ad i ltac:(congruence) ltac:(congruence) A1 ltac:(lia)). assert (V' := mixed_level mo' mn' ps ts rhs' f aw' ad' i ltac:(congruence) ltac:(congruence) B1 ltac:(lia)).
    assert (P : In (nth i ps 0) ps) by (apply nth_In; lia). assert (Q : In (nth i ts 0) ts) by (apply nth_In; lia). assert (RH : In (nth i rhs 0) rhs) by (apply nth_In; lia).
    assert (PP := Hp _ P). assert (QQ := Ht _ Q). assert (RR := Hr _ RH). assert (HH := H i Hi). assert (DD := S8 i Hi). assert (DD' := S8' i Hi).
    set (p := nth i ps 0) in *. set (t := nth i ts 0) in *. set (r := nth i rhs 0) in *. set (r' := nth i rhs' 0) in *. assert (G : 0 < goff_water t) by apply Rpower_pos.
    assert (E0 : 0 < r * goff_water t) by (apply Rmult_lt_0_compat; lra). assert (E1 : r * goff_water t <= r' * goff_water t) by (apply Rmult_le_compat_r; lra).
    (* both levels with the absorption of the first class state: the wet part depends on the water model only *)
    assert (W : forall e e' x y x' y', 0 <= e -> e <= e' -> e' <= p -> clearsky_level (A:=RA) (mixed "R98" mo mn "") None f p t e None = Ok (x, y) -> clearsky_level (A:=RA) (mixed "R98" mo' mn' "") None f p t e' None = Ok (x', y') -> (x <= x') /\ (e < e' -> x < x')).
    { intros e e' x y x' y' K1 K2 K3 K4 K5.
      destruct (C53_level _ None f p t e None x y K4) as (nw & cw & _ & _ & _ & _ & W & _ & _ & _ & -> & _). destruct (C53_level _ None f p t e' None x' y' K5) as (nw' & cw' & _ & _ & _ & _ & W' & _ & _ & _ & -> & _).
      change (h2o_call (A:=RA) (mixed "R98" mo mn "") None ((p - e) / 10) (300 / t) (e / 10) f = Ok (nw, cw)) with (h2o_absorption (A:=RA) "R98" (h2o_load (A:=RA) "R98" h2o_mtx_R98 h2o_ctr_R98 h2o_reftline_R98 0%dec 0%dec) ((p - e) / 10) (300 / t) (e / 10) f = Ok (nw, cw)) in W.
      change (h2o_call (A:=RA) (mixed "R98" mo' mn' "") None ((p - e') / 10) (300 / t) (e' / 10) f = Ok (nw', cw')) with (h2o_absorption (A:=RA) "R98" (h2o_load (A:=RA) "R98" h2o_mtx_R98 h2o_ctr_R98 h2o_reftline_R98 0%dec 0%dec) ((p - e') / 10) (300 / t) (e' / 10) f = Ok (nw', cw')) in W'.
      destruct (Req_EM_T e e') as [<-|N].
      - rewrite W in W'. apply ok_inj in W'. assert (X1 := f_equal fst W'). assert (X2 := f_equal snd W'). cbn [fst snd] in X1, X2. subst. split; [lra|intros; lra].
      - assert (TT : 300 / (300 / t) = t) by (field; lra). assert (TV : 0 < 300 / t) by (apply div_pos; lra).
        destruct (C153_gas (h2o_load (A:=RA) "R98" h2o_mtx_R98 h2o_ctr_R98 h2o_reftline_R98 0%dec 0%dec) ((p - e) / 10) (e / 10) ((p - e') / 10) (e' / 10) (300 / t) f nw cw nw' cw') as (Y1 & Y2); try assumption; try reflexivity; try lra.
        assert (LN : 0 < ln 10) by (rewrite <- ln_1; apply ln_increasing; lra). assert (X : npkm f nw <= npkm f nw') by (unfold npkm; apply Rmult_le_compat_l; [apply Rmult_le_pos; lra|exact Y1]). split; [lra|intros; lra]. }
    split; [|exact (proj1 (W _ _ _ _ _ _ (Rlt_le _ _ E0) E1 ltac:(lra) V V'))].
    (* positive: compare with dry air *)
    destruct (C53_level _ None f p t _ None _ _ V) as (nw & cw & _ & _ & _ & _ & WW & _ & _ & _ & EE & _). rewrite EE.
    change (h2o_call (A:=RA) (mixed "R98" mo mn "") None ((p - r * goff_water t) / 10) (300 / t) (r * goff_water t / 10) f = Ok (nw, cw)) with (h2o_absorption (A:=RA) "R98" (h2o_load (A:=RA) "R98" h2o_mtx_R98 h2o_ctr_R98 h2o_reftline_R98 0%dec 0%dec) ((p - r * goff_water t) / 10) (300 / t) (r * goff_water t / 10) f = Ok (nw, cw)) in WW.
    assert (TT : 300 / (300 / t) = t) by (field; lra). assert (TV : 0 < 300 / t) by (apply div_pos; lra).
    assert (Z := C57_no_vapour "R98" (h2o_load (A:=RA) "R98" h2o_mtx_R98 h2o_ctr_R98 h2o_reftline_R98 0%dec 0%dec) (p / 10) (300 / t) f TV).
    destruct (C153_gas (h2o_load (A:=RA) "R98" h2o_mtx_R98 h2o_ctr_R98 h2o_reftline_R98 0%dec 0%dec) (p / 10) 0 ((p - r * goff_water t) / 10) (r * goff_water t / 10) (300 / t) f (lit (a:=RA) (Dec 0 1)) (lit (a:=RA) (Dec 0 1)) nw cw) as (Y1 & Y2); try assumption; try reflexivity; try lra.
    assert (Z0 : (lit (a:=RA) (Dec 0 1) : R) = 0) by (ra; lra). rewrite Z0 in Y1, Y2. rewrite npkm_0 in Y2.
    assert (LN : 0 < ln 10) by (rewrite <- ln_1; apply ln_increasing; lra). assert (X : 0 <= npkm f nw) by (unfold npkm; apply Rmult_le_pos; [apply Rmult_le_pos; lra|exact Y1]). lra. }
  apply C153_column.
  - congruence.
  - unfold slant_path. rewrite map_length, seq_length. congruence.
  - intros v Hv. exact (slant_nonneg zs a S5 Ha v Hv).
  - intros v Hv. apply (In_nth _ _ 0) in Hv. destruct Hv as (i & Hi & <-). apply LEV. lia.
  - intros i Hi. apply LEV. lia.
Qed.

(** Half the vapour of a sounding of three levels, water-vapour model R98 with the oxygen and nitrogen of R20. *)
Example C153_example sat : let g := mkGlobals (A:=XA) (Some "R98") (Some "R20") (Some "R20") (Some "R20") None None None None false (Fin 1) in
  exists w w', wet_with g sat [1; 2; 4] [900; 800; 600] [290; 280; 260] [0.25; 0.25; 0.1] 22.235 90 = Some (Fin w) /\ wet_with g sat [1; 2; 4] [900; 800; 600] [290; 280; 260] [0.5; 0.5; 0.2] 22.235 90 = Some (Fin w') /\ w <= w' + 6e-9.
Proof.
  intros g. assert (CV : covers "R98" "R20" "R20" [900; 800; 600] [290; 280; 260]) by (constructor; [left; cbn; tauto|split; [cbn; tauto|discriminate]|cbn; tauto]).
  assert (CH : chosen g "R98" "R20" "R20" "R20") by (repeat split).
  assert (S := ex_sounding). 
  assert (S' : sounding [1; 2; 4] [900; 800; 600] [290; 280; 260] [0.25; 0.25; 0.1]).
  { destruct S as [S1 S2 S3 S4 S5 S6 S7 S8]. constructor; try assumption; try reflexivity. { intros r [<-|[<-|[<-|[]]]]; lra. }
    intros i Hi. assert (X := S8 i Hi). assert (G1 : 0 < goff_water 290) by apply Rpower_pos. assert (G2 : 0 < goff_water 280) by apply Rpower_pos. assert (G3 : 0 < goff_water 260) by apply Rpower_pos.
    destruct i as [|[|[|i]]]; cbn [nth length] in *; try lra. }
  destruct (C153_run g g "R20" "R20" "R20" "R20" "R20" "R20" sat sat [1; 2; 4] [900; 800; 600] [290; 280; 260] [0.25; 0.25; 0.1] [0.5; 0.5; 0.2] 22.235 90 CH CV CH CV S' S) as (w & w' & E1 & E2 & E3); try lra.
  { intros p [<-|[<-|[<-|[]]]]; lra. } { intros t [<-|[<-|[<-|[]]]]; lra. } { intros r [<-|[<-|[<-|[]]]]; lra. } { intros [|[|[|i]]] Hi; cbn [nth length] in *; try lra; lia. }
  exists w, w'. split; [exact E1|]. split; [exact E2|]. 
  assert (E : total_tau (slant_path [1; 2; 4] 90) = 3).
  { unfold slant_path. cbn [length seq map slant nth]. replace (90 * PI / 180) with (PI / 2) by lra. rewrite sin_PI2. unfold total_tau. cbn. lra. }
  rewrite E in E3. powers. lra.
Qed.
