(** Claim C157: absorption by several constituents integrated separately and together.

    Code: pyrtlib/rt_equation.py:246-290 (exponential_integration), pyrtlib/tb_spectrum.py:352-368 (separate integration of the constituents). *)

From Coq Require Import ZArith Reals Lra Lia Psatz String List Bool.
From Coquelicot Require Import Coquelicot.
Import ListNotations.
From Verif Require Import Arith PyBase Utils RTE Absorption Clear Spectrum Spec ListAux RealAux PlanckReal PlanckMaster PropsPlanck Integral PropsIntegral PropsWeightRun
  SolverGen SolverRun Registry PropsRun PropsObject PropsModels PropsSolverX PropsRay PropsLiq LineData Lineshape PropsAbsN2 PropsClear PropsO2H2O PropsH2O PropsO2Data PropsO3
  PropsUtils PropsSelfCont FinTransfer FinGas FinSD PropsUtils3 FinClear PropsRow WeightingGen SolverExamples FinCloud PropsEnd PropsCross PropsSmooth PropsState PropsMixed PropsDryTop PropsNearby PropsMoist.
Local Open Scope string_scope.
Open Scope R_scope.

(** The logarithmic mean is the average of the exponential between the two values. *)
Lemma mean2_integral p q : is_RInt (fun t => exp ((1 - t) * p + t * q)) 0 1 (mean2 (exp p) (exp q)).
Proof.
  unfold mean2. destruct (Req_EM_T (exp p) (exp q)) as [E|N].
  - apply exp_inv in E. subst q. apply (is_RInt_ext (fun _ => exp p)); [intros t _; f_equal; ring|].
    assert (H := is_RInt_const (V:=R_NormedModule) 0 1 (exp p)). unfold scal in H. cbn in H. unfold mult in H. cbn in H. rewrite Rminus_0_r, Rmult_1_l in H. exact H.
  - assert (D : q - p <> 0) by (intros D; apply N; f_equal; lra). unfold logmean.
    replace (exp q / exp p) with (exp (q - p)) by (unfold Rminus; rewrite exp_plus, exp_Ropp; reflexivity). rewrite ln_exp.
    assert (H : is_RInt (fun t => exp ((1 - t) * p + t * q)) 0 1 (minus (exp ((1 - 1) * p + 1 * q) / (q - p)) (exp ((1 - 0) * p + 0 * q) / (q - p)))).
    { apply (is_RInt_derive (V:=R_CompleteNormedModule) (fun t => exp ((1 - t) * p + t * q) / (q - p))).
      - intros t _. auto_derive; [exact I|]. replace ((1 + - t) * p + t * q) with ((1 - t) * p + t * q) by ring. set (w := exp ((1 - t) * p + t * q)). field. exact D.
      - intros t _. apply (ex_derive_continuous (fun t => exp ((1 - t) * p + t * q))). auto_derive. exact I. }
    unfold minus, plus, opp in H. cbn in H. replace ((1 - 1) * p + 1 * q) with q in H by ring. replace ((1 - 0) * p + 0 * q) with p in H by ring.
    replace ((exp q - exp p) / (q - p)) with (exp q / (q - p) + - (exp p / (q - p))) by (field; exact D). exact H.
Qed.

Lemma exp_convex t x y : 0 <= t <= 1 -> exp ((1 - t) * x + t * y) <= (1 - t) * exp x + t * exp y.
Proof.
  intros H. set (m := (1 - t) * x + t * y).
  assert (T : forall z, exp m * (1 + (z - m)) <= exp z).
  { intros z. replace (exp z) with (exp m * exp (z - m)) by (rewrite <- exp_plus; f_equal; ring). apply Rmult_le_compat_l; [apply Rlt_le, exp_pos|apply exp_ineq1_le]. }
  assert (A := Rmult_le_compat_l (1 - t) _ _ ltac:(lra) (T x)). assert (B := Rmult_le_compat_l t _ _ ltac:(lra) (T y)).
  replace (exp m) with ((1 - t) * (exp m * (1 + (x - m))) + t * (exp m * (1 + (y - m)))) by (unfold m; ring). lra.
Qed.

(** Weighted geometric means of sums are at least the sums of the weighted geometric means. *)
Lemma geometric_sum t p q p' q' s r : 0 <= t <= 1 -> exp s = exp p + exp p' -> exp r = exp q + exp q' ->
  exp ((1 - t) * p + t * q) + exp ((1 - t) * p' + t * q') <= exp ((1 - t) * s + t * r).
Proof.
  intros H S Q. set (m := (1 - t) * s + t * r).
  assert (A := exp_convex t (p - s) (q - r) H). assert (B := exp_convex t (p' - s) (q' - r) H).
  assert (P : forall a b, exp (a - b) = exp a / exp b) by (intros; unfold Rminus, Rdiv; rewrite exp_plus, exp_Ropp; reflexivity).
  assert (Es := exp_pos s). assert (Er := exp_pos r).
  assert (ONE : exp (p - s) + exp (p' - s) = 1) by (rewrite !P, S; field; lra).
  assert (TWO : exp (q - r) + exp (q' - r) = 1) by (rewrite !P, Q; field; lra).
  replace (exp ((1 - t) * p + t * q)) with (exp m * exp ((1 - t) * (p - s) + t * (q - r))) by (rewrite <- exp_plus; f_equal; unfold m; ring).
  replace (exp ((1 - t) * p' + t * q')) with (exp m * exp ((1 - t) * (p' - s) + t * (q' - r))) by (rewrite <- exp_plus; f_equal; unfold m; ring).
  rewrite <- Rmult_plus_distr_l. rewrite <- (Rmult_1_r (exp m)) at 2. apply Rmult_le_compat_l; [apply Rlt_le, exp_pos|]. 
  assert (F : (1 - t) * (exp (p - s) + exp (p' - s)) + t * (exp (q - r) + exp (q' - r)) = 1) by (rewrite ONE, TWO; ring). lra.
Qed.

Lemma mean2_sum u v u' v' : 0 < u -> 0 < v -> 0 < u' -> 0 < v' -> mean2 u v + mean2 u' v' <= mean2 (u + u') (v + v').
Proof.
  intros H1 H2 H3 H4. rewrite <- (exp_ln u), <- (exp_ln v), <- (exp_ln u'), <- (exp_ln v') by assumption.
  set (p := ln u). set (q := ln v). set (p' := ln u'). set (q' := ln v').
  assert (S : exp (ln (exp p + exp p')) = exp p + exp p') by (apply exp_ln; assert (A := exp_pos p); assert (B := exp_pos p'); lra).
  assert (T : exp (ln (exp q + exp q')) = exp q + exp q') by (apply exp_ln; assert (A := exp_pos q); assert (B := exp_pos q'); lra).
  rewrite <- S, <- T. set (s := ln (exp p + exp p')) in *. set (r := ln (exp q + exp q')) in *.
  apply (is_RInt_le (fun t => plus (exp ((1 - t) * p + t * q)) (exp ((1 - t) * p' + t * q'))) (fun t => exp ((1 - t) * s + t * r)) 0 1); [lra| | |].
  - apply (is_RInt_plus (V:=R_NormedModule)); apply mean2_integral.
  - apply mean2_integral.
  - intros t Ht. apply geometric_sum; [lra|exact S|exact T].
Qed.

Lemma mean2_arithmetic u v : 0 < u -> 0 < v -> mean2 u v <= (u + v) / 2.
Proof. intros H1 H2. unfold mean2. destruct (Req_EM_T u v) as [E|N]; [lra|]. apply logmean_bounds; assumption. Qed.

(** Sum of two profiles level by level; trapezoidal integral. *)
Definition together (x y : list R) : list R := map (fun '(u, v) => u + v) (combine x y).
Definition trapezoidal (x d : list R) : R := rsum (length x - 1) (fun i => (nth i x 0 + nth (S i) x 0) / 2 * nth (S i) d 0).

Lemma together_nth : forall x y i, length x = length y -> nth i (together x y) 0 = nth i x 0 + nth i y 0.
Proof.
  induction x as [|u x IH]; intros [|v y] i H; try discriminate; [destruct i; simpl; lra|].
  destruct i; [reflexivity|]. cbn [together map combine nth]. apply (IH y i). now injection H.
Qed.

(** Two profiles of absorption along the same path: the three integrations succeed; integrating the sum gives no less than the sum of the separate integrals (up to 3e-9 per km)
    and no more than the trapezoidal integrals (up to 1e-9 per km). *)
Theorem C157_separate zf (x y d : list R) : length x = length y -> length d = length x -> x <> [] -> (forall v, In v x -> 0 < v) -> (forall v, In v y -> 0 < v) -> (forall v, In v d -> 0 <= v) ->
  exists a b c la lb lc, Xinteg zf x d 1 (length x) 1 = Ok (Fin a, la) /\ Xinteg zf y d 1 (length x) 1 = Ok (Fin b, lb) /\ Xinteg zf (together x y) d 1 (length x) 1 = Ok (Fin c, lc) /\
  a + b <= c + 3e-9 * total_tau d /\ c <= trapezoidal x d + trapezoidal y d + 1e-9 * total_tau d.
Proof.
  intros L Ld Hne Hx Hy Hd. assert (LT : length (together x y) = length x) by (unfold together; rewrite map_length, combine_length, <- L; apply Nat.min_id).
  assert (N : (0 < length x)%nat) by (destruct x; [congruence|cbn; lia]).
  assert (NT : forall l : list R, length l = length x -> l <> []) by (intros l E ->; cbn in E; lia).
  assert (PT : forall i, (i < length x)%nat -> 0 < nth i x 0 /\ 0 < nth i y 0) by (intros i Hi; split; [apply Hx|apply Hy]; apply nth_In; lia).
  exists (column zf x d), (column zf y d), (column zf (together x y) d). do 3 eexists.
  split; [apply (integ_layers zf x d Ld Hne); intros v Hv; apply Rlt_le, Hx, Hv|].
  split; [rewrite L; apply (integ_layers zf y d); [congruence|apply NT; congruence|intros v Hv; apply Rlt_le, Hy, Hv]|].
  split.
  { rewrite <- LT. apply (integ_layers zf (together x y) d); [congruence|apply NT; exact LT|].
    intros v Hv. destruct (In_nth _ _ 0 Hv) as (i & Hi & <-). rewrite together_nth by exact L. destruct (PT i ltac:(lia)). lra. }
  unfold column, trapezoidal. rewrite LT, <- L, total_tau_nth, Ld.
  assert (G : forall n, (n <= length x - 1)%nat ->
    rsum n (fun i => layer_int zf x d (S i)) + rsum n (fun i => layer_int zf y d (S i)) <= rsum n (fun i => layer_int zf (together x y) d (S i)) + 3e-9 * rsum n (fun i => nth (S i) d 0) /\
    rsum n (fun i => layer_int zf (together x y) d (S i)) <= rsum n (fun i => (nth i x 0 + nth (S i) x 0) / 2 * nth (S i) d 0) + rsum n (fun i => (nth i y 0 + nth (S i) y 0) / 2 * nth (S i) d 0) + 1e-9 * rsum n (fun i => nth (S i) d 0)).
  { induction n as [|n IH]; intros Hn; cbn [rsum]; [lra|]. destruct (IH ltac:(lia)) as [I1 I2]. clear IH.
    destruct (PT n ltac:(lia)) as [X0 Y0]. destruct (PT (S n) ltac:(lia)) as [X1 Y1]. assert (D : 0 <= nth (S n) d 0) by (apply Hd, nth_In; lia).
    change (layer_int zf x d (S n)) with (layer_mean zf (nth n x 0) (nth (S n) x 0) * nth (S n) d 0). change (layer_int zf y d (S n)) with (layer_mean zf (nth n y 0) (nth (S n) y 0) * nth (S n) d 0).
    change (layer_int zf (together x y) d (S n)) with (layer_mean zf (nth n (together x y) 0) (nth (S n) (together x y) 0) * nth (S n) d 0). rewrite !together_nth by exact L.
    set (u := nth n x 0) in *. set (v := nth (S n) x 0) in *. set (u' := nth n y 0) in *. set (v' := nth (S n) y 0) in *. set (w := nth (S n) d 0) in *.
    assert (A := layer_mean2 zf u v X0 X1). assert (B := layer_mean2 zf u' v' Y0 Y1). assert (C := layer_mean2 zf (u + u') (v + v') ltac:(lra) ltac:(lra)).
    assert (M := mean2_sum u v u' v' X0 X1 Y0 Y1). assert (M' := mean2_arithmetic (u + u') (v + v') ltac:(lra) ltac:(lra)).
    apply Rabs_le_between in A. apply Rabs_le_between in B. apply Rabs_le_between in C.
    set (p := layer_mean zf u v) in *. set (q := layer_mean zf u' v') in *. set (r := layer_mean zf (u + u') (v + v')) in *. clearbody p q r.
    assert (E1 : (p + q) * w <= (r + 3e-9) * w) by (apply Rmult_le_compat_r; lra).
    assert (E2 : r * w <= ((u + v) / 2 + (u' + v') / 2 + 1e-9) * w) by (apply Rmult_le_compat_r; lra). split; lra. }
  apply G. lia.
Qed.

(** Every row of a run with any models: the wet and the dry opacity of the row are together no more than the integral of the total absorption along the slant path, and that is
    no more than its trapezoidal integral. *)
Theorem C157_rows (g : globals XA) (h : heap XA) z p t rh a3 mw mo mn ml mz zs ps ts rhs o3 (fs angs : list R) sat : chosen g mw mo mn ml -> covers mw mo mn ps ts ->
  hget h z = map Fin zs -> hget h p = map Fin ps -> hget h t = map Fin ts -> hget h rh = map Fin rhs ->
  z <> p -> z <> t -> z <> rh -> sounding zs ps ts rhs -> ozone_argument g h z (List.length zs) mz a3 o3 ->
  (forall f, In f fs -> covered mw f) -> (forall a, In a angs -> 0 < a < 180) -> (forall t, In t ts -> 2.728 <= t <= 1000) ->
  exists h' o fr full o' g',
    tb_init (A:=XA) h z p t rh (map Fin fs) (map Fin angs) a3 None "" false sat false = (h', Ok o) /\
    execute (@shipped XA) g h' o = Ok (fr, full, o', g') /\
    forall k j dr, (k < List.length angs)%nat -> (j < List.length fs)%nat ->
    let d := slant_path zs (nth k angs 0) in
    exists aw ad, mixed_absorption mw mo mn mz ps ts rhs o3 (nth j fs 0) aw ad /\
    ((forall v, In v aw \/ In v ad -> 0 < v) ->
     exists w y c l, r_tauwet (nth (k * List.length fs + j) fr dr) = Fin w /\ r_taudry (nth (k * List.length fs + j) fr dr) = Fin y /\
       Xinteg true (together aw ad) d 1 (List.length zs) 1 = Ok (Fin c, l) /\
       w + y <= c + 3e-9 * total_tau d /\ c <= trapezoidal aw d + trapezoidal ad d + 1e-9 * total_tau d).
Proof.
  intros Hc Hm Hz Hp Ht Hr N1 N2 N3 SO Hoz Hf Ha Hts.
  destruct (C130_from_constructor g h z p t rh a3 mw mo mn ml mz zs ps ts rhs o3 fs angs sat 2.728 1000) as (h' & o & fr & full & o' & g' & E1 & E2 & E3 & E4); try assumption; try lra.
  exists h', o, fr, full, o', g'. split; [exact E1|]. split; [exact E2|]. intros k j dr Hk Hj d.
  destruct (E4 k j dr Hk Hj) as (aw & ad & x & T & I1 & (L1 & L2 & _) & I2 & _ & _ & I3 & _). exists aw, ad. split; [exact I1|]. intros P.
  destruct I3 as (_ & J1 & J2 & _). destruct SO as [S1 S2 S3 S4 S5 S6 S7 S8].
  assert (LD : List.length d = List.length aw) by (unfold d; unfold slant_path; rewrite map_length, seq_length; congruence).
  destruct (C157_separate true aw ad d) as (u & v & c & la & lb & lc & K1 & K2 & K3 & K4 & K5).
  - congruence.
  - exact LD.
  - intros ->. cbn in L1. destruct zs; [congruence|discriminate].
  - intros v Hv. apply P. auto.
  - intros v Hv. apply P. auto.
  - apply (slant_nonneg zs _ S5), Ha, nth_In, Hk.
  - assert (NE : forall l : list R, List.length l = List.length zs -> l <> []) by (intros l E ->; cbn in E; destruct zs; [congruence|discriminate]).
    assert (Q1 := integ_layers true aw d LD (NE aw L1) ltac:(intros q Hq; apply Rlt_le, P; auto)).
    assert (Q2 := integ_layers true ad d ltac:(congruence) (NE ad L2) ltac:(intros q Hq; apply Rlt_le, P; auto)).
    rewrite L2, <- L1 in Q2. apply (eq_trans (eq_sym K1)) in Q1. apply (eq_trans (eq_sym K2)) in Q2. injection Q1 as Q1 _. injection Q2 as Q2 _.
    exists u, v, c, lc. rewrite I2. split; [rewrite Q1; exact J1|]. split; [rewrite Q2; exact J2|]. split; [rewrite <- L1; exact K3|]. split; [exact K4|exact K5].
Qed.

(** Humid air absorbs at every frequency, by vapour and by its dry constituents. *)
Lemma dry_positive m f p t e aw ad : In m whole_models -> sky f p t e -> clearsky_level (A:=RA) (ideal m "") None f p t e None = Ok (aw, ad) -> 0 < ad.
Proof.
  intros Hm (Hf & Ht & He & Hpe) H. destruct (C53_level _ None f p t e None aw ad H) as (nw & cw & no & co & an & ao & _ & H2 & H3 & H4 & _ & ->).
  assert (M : m <> "R98" /\ m <> "MWL24" /\ m <> "") by (unfold whole_models in Hm; cbn [In] in Hm; repeat (destruct Hm as [<-|Hm]; [repeat split; discriminate|]); destruct Hm).
  destruct M as (M1 & M2 & M3). unfold o3_call in H4. apply ok_inj in H4. unfold o2_call, ideal, over in H2. cbn [g_o2ll g_o2 mname] in H2.
  destruct (db_o2 (@shipped RA) m) as [ll|] eqn:EL; [|discriminate]. apply ok_inj in H2.
  assert (V : 0 < 300 / t) by (apply div_pos; lra).
  destruct (C55_shipped_nonnegative m ll ((p - e) / 10) (300 / t) (e / 10) f no co EL M1 V ltac:(lra) ltac:(lra) Hf H2) as [N1 N2].
  assert (Q1 := npkm_nonneg f no Hf N1). assert (Q2 := npkm_nonneg f co Hf N2).
  assert (H5 : n2_absorption (A:=RA) m t (p - e) f = Ok an).
  { unfold n2_call, ideal in H3. cbn [g_n2] in H3. destruct m; [congruence|exact H3]. }
  assert (IM : In m n2_models).
  { destruct (in_dec String.string_dec m n2_models) as [Y|Y]; [exact Y|]. rewrite (proj2 (C54_names RA m t (p - e) f) Y) in H5. discriminate. }
  destruct (proj1 (C54_names RA m (t + 1) (p - e) f) IM) as [v E]. assert (F := C54_falls_with_temperature m t (t + 1) (p - e) f an v Ht ltac:(lra) ltac:(lra) ltac:(lra) ltac:(congruence) H5 E).
  assert (W := C54_nonnegative m (t + 1) (p - e) f v ltac:(lra) E).
  assert (Z : ao = 0) by (rewrite <- H4; ra; lra). lra.
Qed.

Lemma level_both m ps ts rhs f aw ad i : List.length ts = List.length ps -> List.length rhs = List.length ps -> ideal_absorption m "" ps ts rhs None f aw ad -> (i < List.length ps)%nat ->
  clearsky_level (A:=RA) (ideal m "") None f (nth i ps 0) (nth i ts 0) (nth i rhs 0 * goff_water (nth i ts 0)) None = Ok (nth i aw 0, nth i ad 0).
Proof.
  intros Lt Lr H Hi. unfold ideal_absorption, clearsky_absorption in H. apply bind_Ok in H. destruct H as (r & Hr & H). apply ok_inj in H.
  assert (E1 := f_equal fst H). assert (E2 := f_equal snd H). cbn [fst snd] in E1, E2. clear H.
  assert (LV : List.length (vap ts rhs) = List.length ps) by (unfold vap; rewrite map_length, combine_length; lia).
  destruct (combine4 ps ts (vap ts rhs) (with_o3 (A:=RA) (List.length ps) None) i 0 0 0 None (List.length ps) eq_refl Lt LV (repeat_length _ _) Hi) as [LL EN].
  assert (K := mapM_nth _ _ r i (0, (0, (0, None))) (0, 0) Hr (eq_ind_r (fun k => (i < k)%nat) Hi LL)).
  replace (nth i (vap ts rhs) 0) with (nth i rhs 0 * goff_water (nth i ts 0)) in EN.
  2: { unfold vap. rewrite (nth_map_d (fun x => snd x * goff_water (fst x)) _ i (0, 0)) by (rewrite combine_length; lia). rewrite combine_nth by lia. reflexivity. }
  replace (nth i (with_o3 (A:=RA) (List.length ps) None) None) with (@None R) in EN by (cbn [with_o3]; symmetry; apply nth_repeat).
  apply (eq_trans (f_equal (fun '(p, (t, (e, o))) => clearsky_level (A:=RA) (ideal m "") None f p t e o) (eq_sym EN))) in K.
  assert (LR : (i < List.length r)%nat) by (apply mapM_length in Hr; exact (eq_ind_r (fun k => (i < k)%nat) Hi (eq_trans Hr LL))).
  rewrite <- E1, <- E2, (nth_map_d fst r i (0, 0)), (nth_map_d snd r i (0, 0)) by exact LR.
  etransitivity; [exact K|]. f_equal. destruct (nth i r (0, 0)); reflexivity.
Qed.

(** The program: four arrays, the solver for one frequency and one elevation, the model, execution; wet and dry opacity. *)
Definition wet_and_dry (g : globals XA) (m : string) (sat : bool) (zs ps ts rhs : list R) (f a : R) : option (ext * ext) :=
  match tb_init (A:=XA) (four zs ps ts rhs) 0%nat 1%nat 2%nat 3%nat [Fin f] [Fin a] None None "" false sat false with
  | (h', Ok o) => match execute (@shipped XA) (init_absmdl g m) h' o with Ok (r :: _, _, _, _) => Some (r_tauwet r, r_taudry r) | _ => None end
  | _ => None
  end.

(** Humid soundings: the absorption is positive at every level, and the opacities of the run are related to the integral of the total absorption as above. *)
Theorem C157_run g m sat zs ps ts rhs f a : In m whole_models -> sounding zs ps ts rhs -> airy ps ts rhs -> (forall r, In r rhs -> 0 < r) -> 0 < f -> 0 < a < 180 ->
  let d := slant_path zs a in
  exists aw ad w y c l, ideal_absorption m "" ps ts rhs None f aw ad /\ (forall v, In v aw \/ In v ad -> 0 < v) /\ wet_and_dry g m sat zs ps ts rhs f a = Some (Fin w, Fin y) /\
    Xinteg true (together aw ad) d 1 (List.length zs) 1 = Ok (Fin c, l) /\
    w + y <= c + 3e-9 * total_tau d /\ c <= trapezoidal aw d + trapezoidal ad d + 1e-9 * total_tau d.
Proof.
  intros Hm SO HA HP Hf Ha d. assert (Ms : In m std_models) by (unfold whole_models, std_models in *; cbn [In] in *; tauto).
  destruct (C111_from_constructor g (four zs ps ts rhs) 0%nat 1%nat 2%nat 3%nat m zs ps ts rhs [f] [a] sat) as (h' & o & fr & full & o' & g' & E1 & E2 & E3 & E4); try reflexivity; try discriminate; try assumption.
  { left. exact Hm. }
  { intros f' [<-|[]]. split; [exact Hf|]. intros ->. unfold whole_models in Hm. cbn [In] in Hm. repeat (destruct Hm as [Hm|Hm]; [discriminate|]). destruct Hm. }
  { intros a' [<-|[]]. exact Ha. }
  destruct fr as [|r0 fr]; [discriminate|]. destruct (E4 0%nat 0%nat r0 ltac:(cbn; lia) ltac:(cbn; lia)) as (aw & ad & x & I1 & (L1 & L2 & _) & I2 & _ & _ & I3). cbn [nth] in I1, I3.
  cbn in I2. subst r0. destruct I3 as (_ & J1 & J2 & _). destruct SO as [S1 S2 S3 S4 S5 S6 S7 S8].
  assert (P : forall i, (i < List.length zs)%nat -> 0 < nth i aw 0 /\ 0 < nth i ad 0).
  { intros i Hi. assert (Q := level_both m ps ts rhs f aw ad i ltac:(congruence) ltac:(congruence) I1 ltac:(lia)).
    assert (GP : 0 < goff_water (nth i ts 0)) by apply Rpower_pos. assert (RP : 0 < nth i rhs 0) by (apply HP, nth_In; lia). assert (EP : 0 < nth i rhs 0 * goff_water (nth i ts 0)) by (apply Rmult_lt_0_compat; assumption).
    assert (SK : sky f (nth i ps 0) (nth i ts 0) (nth i rhs 0 * goff_water (nth i ts 0))).
    { split; [exact Hf|]. split; [apply S6, nth_In; lia|]. split; [split; [lra|apply S8; lia]|apply HA; lia]. }
    split; [exact (level_positive m (ideal m "") f _ _ _ _ _ Ms eq_refl eq_refl SK EP Q)|exact (dry_positive m f _ _ _ _ _ Hm SK Q)]. }
  assert (PW : forall v, In v aw -> 0 < v) by (intros v Hv; destruct (In_nth aw v 0 Hv) as (i & Hi & <-); apply P; lia).
  assert (PD : forall v, In v ad -> 0 < v) by (intros v Hv; destruct (In_nth ad v 0 Hv) as (i & Hi & <-); apply P; lia).
  assert (LD : List.length d = List.length aw) by (unfold d; unfold slant_path; rewrite map_length, seq_length; congruence).
  assert (NE : forall l : list R, List.length l = List.length zs -> l <> []) by (intros l E ->; cbn in E; destruct zs; [congruence|discriminate]).
  destruct (C157_separate true aw ad d ltac:(congruence) LD (NE aw L1) PW PD (slant_nonneg zs a S5 Ha)) as (u & v & c & la & lb & lc & K1 & K2 & K3 & K4 & K5).
  assert (Q1 := integ_layers true aw d LD (NE aw L1) ltac:(intros q Hq; apply Rlt_le, PW, Hq)).
  assert (Q2 := integ_layers true ad d ltac:(congruence) (NE ad L2) ltac:(intros q Hq; apply Rlt_le, PD, Hq)).
  rewrite L2, <- L1 in Q2. apply (eq_trans (eq_sym K1)) in Q1. apply (eq_trans (eq_sym K2)) in Q2. injection Q1 as Q1 _. injection Q2 as Q2 _.
  exists aw, ad, u, v, c, lc. split; [exact I1|]. split; [intros q [Hq|Hq]; [apply PW|apply PD]; exact Hq|]. 
  split; [unfold wet_and_dry; cbn [map] in E1; rewrite E1, E2, J1, J2, Q1, Q2; reflexivity|]. split; [rewrite <- L1; exact K3|]. split; [exact K4|exact K5].
Qed.

(** Wet and dry absorption with different scale heights over one layer of 1 km: separately (e - 1) + 1, together no less. *)
Example C157_example : column true [exp 1; 1] [0; 1] = exp 1 - 1 /\ exp 1 - 1 + 1 <= mean2 (exp 1 + 1) (1 + 1).
Proof.
  assert (E : 2 <= exp 1) by (assert (X := exp_ineq1_le 1); lra). split.
  - unfold column. simpl. unfold layer_mean. destruct (Rlt_dec (Rabs (1 - exp 1)) 1e-9) as [Q|_]; [exfalso; rewrite Rabs_left in Q by lra; lra|].
    destruct (Req_EM_T (exp 1) 0); [lra|]. destruct (Req_EM_T 1 0); [lra|]. replace (1 / exp 1) with (exp (- (1))) by (rewrite exp_Ropp; field; lra). rewrite ln_exp. field.
  - assert (M := mean2_sum (exp 1) 1 1 1 ltac:(lra) ltac:(lra) ltac:(lra) ltac:(lra)). assert (O : mean2 1 1 = 1) by (unfold mean2; destruct (Req_EM_T 1 1); lra).
    assert (P : mean2 (exp 1) 1 = exp 1 - 1).
    { unfold mean2. destruct (Req_EM_T (exp 1) 1); [lra|]. unfold logmean. replace (1 / exp 1) with (exp (- (1))) by (rewrite exp_Ropp; field; lra). rewrite ln_exp. field. }
    lra.
Qed.

(** Two humid levels. *)
Example C157_run_example g sat : exists aw ad w y c l, (forall v, In v aw \/ In v ad -> 0 < v) /\ wet_and_dry g "R17" sat [0; 1] [1000; 900] [300; 290] [10 / goff_water 300; 1 / goff_water 290] 22.235 90 = Some (Fin w, Fin y) /\
  Xinteg true (together aw ad) (slant_path [0; 1] 90) 1 2 1 = Ok (Fin c, l) /\ w + y <= c + 3e-9.
Proof.
  assert (G1 : 0 < goff_water 300) by apply Rpower_pos. assert (G2 : 0 < goff_water 290) by apply Rpower_pos. assert (E1 : 10 / goff_water 300 * goff_water 300 = 10) by (field; lra).
  destruct (two_sounding 1 300 ltac:(lra) ltac:(lra) ltac:(lra)) as [S A].
  destruct (C157_run g "R17" sat [0; 1] [1000; 900] [300; 290] [10 / goff_water 300; 1 / goff_water 290] 22.235 90) as (aw & ad & w & y & c & l & _ & P & W & C & H & _); try assumption; try lra.
  { unfold whole_models. cbn [In]. tauto. }
  { intros r [<-|[<-|[]]]; apply div_pos; lra. }
  exists aw, ad, w, y, c, l. split; [exact P|]. split; [exact W|]. split; [exact C|].
  assert (E : total_tau (slant_path [0; 1] 90) = 1).
  { unfold slant_path. cbn [length seq map slant nth]. replace (90 * PI / 180) with (PI / 2) by lra. rewrite sin_PI2. unfold total_tau. cbn. lra. }
  rewrite E in H. lra.
Qed.
