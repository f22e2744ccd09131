(** Claim C152: nearby soundings (pressure, temperature, humidity) seen at nearby frequencies have nearby brightness temperatures, over the reals.

    Code: pyrtlib/tb_spectrum.py:225-405 (execute), pyrtlib/rt_equation.py:246-290 (exponential_integration), pyrtlib/rt_equation.py:369-463 (planck),
    pyrtlib/rt_equation.py:511-567 (clearsky_absorption), pyrtlib/rt_equation.py:27-81 (vapor). *)

From Coq Require Import ZArith Reals Lra Lia Psatz String List Bool.
From Coquelicot Require Import Coquelicot.
Import ListNotations.
From Verif Require Import Arith PyBase Utils RTE Absorption Clear Spectrum Spec ListAux RealAux PlanckReal PlanckMaster PropsPlanck Integral
  SolverGen SolverRun Registry PropsRun PropsObject PropsModels PropsSolverX PropsRay PropsLiq LineData Lineshape PropsAbsN2 PropsClear PropsO2H2O PropsH2O PropsO2Data PropsO3
  PropsUtils PropsSelfCont FinTransfer FinGas FinSD PropsUtils3 FinClear PropsRow WeightingGen SolverExamples FinCloud PropsEnd PropsCross PropsSmooth PropsState PropsDryTop
  PropsMono PropsMonoRun PropsRound PropsCondition PropsJensen PropsAbsorbed.
Local Open Scope string_scope.
Open Scope R_scope.

(** ** Specification *)

(** The program: four arrays, the solver for one frequency and one elevation, the model, execution; the row of the table. *)
Definition outcome (g : globals XA) (m : string) (sat : bool) (zs ps ts rhs : list R) (f a : R) : option (row XA) :=
  match tb_init (A:=XA) (four zs ps ts rhs) 0%nat 1%nat 2%nat 3%nat [Fin f] [Fin a] None None "" false sat false with
  | (h', Ok o) => match execute (@shipped XA) (init_absmdl g m) h' o with Ok (r :: _, _, _, _) => Some r | _ => None end
  | _ => None
  end.

(** A temperature that no brightness temperature of the sounding is below: the coldest level from a satellite, the background from the ground. *)
Definition coldest (sat : bool) (ts : list R) (Tl : R) : Prop := if sat then 0 < Tl /\ forall t, In t ts -> Tl <= t else Tl = 2.728.

(** ** Transfer *)

Lemma radiance_value sat f t tl : 0 < f -> length t = length tl -> t <> [] -> (forall x, In x t -> 0 < x) -> (forall x, In x tl -> 0 <= x) -> total_tau tl < 125 ->
  let b := background sat 1 (spec_hvk f) t * exp (- total_tau tl) + total_atm sat (spec_hvk f) t tl in
  0 < b /\ tb_of (A:=RA) sat 1 f t tl = Ok (planckT (spec_hvk f) b) /\
  exists o, planck (A:=XA) sat (Fin 1) (Fin f) (map Fin t) (map Fin tl) = Ok o /\ bright (A:=XA) (p_hvk o) (p_boftotl o) = Fin (planckT (spec_hvk f) b).
Proof.
  intros Hf Hl Hne Ht Hd HT b. assert (Hh := spec_hvk_pos f Hf). assert (HT0 : 0 < nth 0 t 0) by (apply Ht, nth_In; destruct t; [congruence|cbn; lia]).
  assert (BG : 0 < background sat 1 (spec_hvk f) t).
  { unfold background. destruct sat; [rewrite Rmult_1_l|]; apply planckB_pos; lra. }
  assert (A := proj1 (radiance_nonneg sat (spec_hvk f) t tl 0 Hh Ht Hd Hl Hne ltac:(lra))).
  assert (B : 0 < b) by (assert (X := Rmult_lt_0_compat _ _ BG (exp_pos (- total_tau tl))); unfold b; lra).
  split; [exact B|]. split.
  - destruct (planck_master sat 1 f t tl Hl Hne) as (o & Ho & O1 & _ & _ & _ & O2 & _). destruct (O2 HT) as (_ & E & _). unfold tb_of. rewrite Ho, O1, E. f_equal. apply bright_R. fold b. lra.
  - destruct (planckX_master sat 1 f t tl Hf Ht Hl Hne) as (o & Ho & O1 & _ & _ & _ & O2 & _). destruct (O2 HT) as (_ & E). exists o. split; [exact Ho|]. rewrite O1, E. apply bright_X; assumption.
Qed.

(** Temperatures within [d], opacities of the layers within errors adding up to [sig]. *)
Lemma transfer_nearby sat f t t' tl tl' er d Tl : 0 < f -> length t = length tl -> length t = length tl' -> length t = length er -> t <> [] ->
  (forall x, In x t -> 2.728 <= x <= 400) -> (forall x, In x t' -> 0 < x) -> (forall x, In x tl -> 0 <= x) -> (forall x, In x tl' -> 0 <= x) -> (forall x, In x er -> 0 <= x) ->
  0 <= d -> within d t t' -> (forall i, (1 <= i < length tl)%nat -> Rabs (nth i tl' 0 - nth i tl 0) <= nth i er 0) -> total_tau tl < 125 -> total_tau tl' < 125 -> coldest sat t Tl ->
  Rabs (planckT (spec_hvk f) (background sat 1 (spec_hvk f) t' * exp (- total_tau tl') + total_atm sat (spec_hvk f) t' tl')
      - planckT (spec_hvk f) (background sat 1 (spec_hvk f) t * exp (- total_tau tl) + total_atm sat (spec_hvk f) t tl))
    <= d + 2.4 * total_tau er * exp (spec_hvk f / Tl) * (variation t + far_step sat 1 t).
Proof.
  intros Hf L1 L2 L3 Hne HT HT' Hd Hd' He Pd W Hp HA HA' HC. assert (Ht : forall x, In x t -> 0 < x) by (intros x X; apply HT in X; lra).
  assert (L0 := proj1 W). assert (Hne' : t' <> []) by (intros ->; destruct t; cbn in L0; congruence).
  destruct (radiance_value sat f t tl Hf L1 Hne Ht Hd HA) as (B1 & E1 & _).
  destruct (radiance_value sat f t tl' Hf L2 Hne Ht Hd' HA') as (B2 & E2 & o2 & O2 & Q2).
  destruct (radiance_value sat f t' tl' Hf ltac:(congruence) Hne' HT' Hd' HA') as (B3 & E3 & o3 & O3 & Q3). cbv zeta in *.
  destruct (C142_temperature sat 1 f d t t' tl' Hf ltac:(lra) Pd Ht HT' W L2 Hne Hd') as (o & o' & tb & tb' & tm & tm' & P1 & P2 & P3 & P4 & P5 & _).
  rewrite O2 in P1. rewrite O3 in P2. apply ok_inj in P1. apply ok_inj in P2. subst o o'. rewrite Q2 in P3. rewrite Q3 in P4. injection P3 as <-. injection P4 as <-.
  assert (HTl : if sat then 0 < 1 <= 1 /\ 0 < Tl /\ forall x, In x t -> Tl <= 1 * x else Tl = 2.728).
  { unfold coldest in HC. destruct sat; [|exact HC]. destruct HC as [C1 C2]. repeat split; try lra. intros x X. apply C2 in X. lra. }
  assert (T1 := tb_lower sat 1 f t tl Tl _ Hf L1 Hne HT Hd HA HTl E1). assert (T2 := tb_lower sat 1 f t tl' Tl _ Hf L2 Hne HT Hd' HA' HTl E2).
  assert (PT : 0 < Tl) by (unfold coldest in HC; destruct sat; [apply HC|lra]).
  assert (S := C137_sensitivity sat 1 f t tl tl' er 0 (total_tau er) Tl _ _ Hf L1 L2 L3 Hne Ht Hd Hd' He ltac:(lra) ltac:(lra)
    ltac:(intros i Hi; rewrite Rmult_0_l, Rplus_0_l; apply Hp; exact Hi) HA HA' ltac:(intros; lra) E1 E2 PT T1 T2).
  rewrite Rmult_0_r, Rplus_0_l in S. 
  match goal with |- Rabs (?a - ?b) <= _ => match type of S with Rabs (?c - _) <= _ => replace (a - b) with ((a - c) + (c - b)) by ring; assert (T := Rabs_triang (a - c) (c - b)); rewrite (Rabs_minus_sym c a) in P5 end end. lra.
Qed.

(** The same scene at a nearby frequency. *)
Lemma k_rsum {U : UniformSpace} n (g : U -> nat -> R) x : (forall i, (i < n)%nat -> kc (fun s => g s i) x) -> kc (fun s => rsum n (g s)) x.
Proof.
  induction n as [|n IH]; intros H; cbn [rsum]; [apply k_const|]. apply (k_plus (fun s => rsum n (g s)) (fun s => g s n)); [apply IH; intros; apply H; lia|apply H; lia].
Qed.
Lemma k_planckB T (x : R_UniformSpace) : 0 < T -> 0 < x -> kc (fun f => planckB (spec_hvk f) T) x.
Proof.
  intros HT Hx. assert (Hh := spec_hvk_pos x Hx). unfold planckB.
  assert (K : kc (fun s : R_UniformSpace => spec_hvk s) x) by (assert (KI : kc (fun s : R_UniformSpace => s : R) x) by apply continuous_id; unfold spec_hvk; kont; lra).
  kont; try lra. assert (P := div_pos _ _ Hh HT). assert (E := exp_ineq1 (spec_hvk x / T) ltac:(lra)). lra.
Qed.
Lemma frequency_near sat f t tl : 0 < f -> length t = length tl -> t <> [] -> (forall x, In x t -> 0 < x) -> (forall x, In x tl -> 0 <= x) -> total_tau tl < 125 ->
  forall eps, 0 < eps -> exists d, 0 < d /\ forall f', Rabs (f' - f) < d ->
  Rabs (planckT (spec_hvk f') (background sat 1 (spec_hvk f') t * exp (- total_tau tl) + total_atm sat (spec_hvk f') t tl)
      - planckT (spec_hvk f) (background sat 1 (spec_hvk f) t * exp (- total_tau tl) + total_atm sat (spec_hvk f) t tl)) < eps.
Proof.
  intros Hf Hl Hne Ht Hd HT eps He. destruct (radiance_value sat f t tl Hf Hl Hne Ht Hd HT) as (B & _). cbv zeta in B. assert (Hh := spec_hvk_pos f Hf).
  pose (b := fun f' : R_UniformSpace => background sat 1 (spec_hvk f') t * exp (- total_tau tl) + total_atm sat (spec_hvk f') t tl : R).
  assert (Hn : (1 <= length t)%nat) by (destruct t; [congruence|cbn; lia]).
  assert (KI : kc (fun s : R_UniformSpace => s : R) (f : R_UniformSpace)) by apply continuous_id.
  assert (KB : kc b (f : R_UniformSpace)).
  { unfold b. apply (k_plus (fun f' : R_UniformSpace => background sat 1 (spec_hvk f') t * exp (- total_tau tl)) (fun f' : R_UniformSpace => total_atm sat (spec_hvk f') t tl)).
    - apply (k_mult (fun f' : R_UniformSpace => background sat 1 (spec_hvk f') t) (fun _ => exp (- total_tau tl))); [|apply k_const]. unfold background. destruct sat; [|apply k_planckB; lra].
      apply (k_mult (fun _ => 1) (fun f' : R_UniformSpace => planckB (spec_hvk f') (nth 0 t 0))); [apply k_const|apply k_planckB; [apply Ht, nth_In; lia|exact Hf]].
    - unfold total_atm, path_atm. apply k_rsum. intros i Hi.
      assert (V : forall j, (j < length t)%nat -> 0 < view_T sat t j) by (intros j Hj; unfold view_T; destruct sat; apply Ht, nth_In; lia).
      assert (V0 := k_planckB (view_T sat t i) f (V i ltac:(lia)) Hf). assert (V1 := k_planckB (view_T sat t (S i)) f (V (S i) ltac:(lia)) Hf).
      pose (u := fun f' : R_UniformSpace => planckB (spec_hvk f') (view_T sat t i)). pose (v := fun f' : R_UniformSpace => planckB (spec_hvk f') (view_T sat t (S i))). change (kc u f) in V0. change (kc v f) in V1.
      assert (P := exp_pos (- view_D sat tl (S i))).
      change (kc (fun s => layer_emit (u s) (v s) (view_D sat tl (S i)) * (exp (- path_tau (view_D sat tl) i) - exp (- path_tau (view_D sat tl) (S i)))) f). clearbody u v. unfold layer_emit. kont. }
  assert (K : kc (fun f' : R_UniformSpace => planckT (spec_hvk f') (b f')) (f : R_UniformSpace)).
  { unfold planckT. assert (PB : 0 < / b f) by (apply Rinv_0_lt_compat; exact B). assert (PN : b f <> 0) by (assert (X := B); change (0 < b f) in X; lra). 
    assert (PL : 0 < ln (1 + / b f)) by (rewrite <- ln_1; apply ln_increasing; lra). clearbody b. unfold spec_hvk. kont; try lra; try exact PN. }
  destruct (proj1 (filterlim_locally _ _) K (mkposreal eps He)) as [d H]. exists d. split; [apply cond_pos|]. intros f' A. exact (H f' A).
Qed.

(** ** Levels *)

Lemma k_goff {U : UniformSpace} (t : U -> R) x : 0 < t x -> kc t x -> kc (fun s => goff_water (t s)) x.
Proof.
  intros Ht K. unfold goff_water, log10. cbv zeta. kont; try lra.
  - apply div_pos; lra.
  - assert (0 < 373.16 / t x) by (apply div_pos; lra). lra.
Qed.

(** Vapour pressure of nearby temperature and humidity. *)
Lemma vapour_near t r : 0 < t -> forall eps, 0 < eps -> exists d, 0 < d /\ forall t' r', Rabs (t' - t) < d -> Rabs (r' - r) < d -> Rabs (r' * goff_water t' - r * goff_water t) < eps.
Proof.
  intros Ht eps He. pose (k := fun s : space => s_e s * goff_water (s_t s)). pose (x := (0, (0, (t, r))) : space).
  assert (K : kc k x).
  { apply (k_mult s_e (fun s => goff_water (s_t s))); [apply k_e|]. apply k_goff; [exact Ht|apply k_t]. }
  destruct (proj1 (filterlim_locally k (k x)) K (mkposreal eps He)) as [d H]. exists d. split; [apply cond_pos|]. intros t' r' A B.
  refine (H (0, (0, (t', r'))) (conj _ (conj _ (conj A B)))); apply ball_center.
Qed.

Lemma n2_positive m t p f : In m n2_models -> m <> "MWL24" -> 0 < t -> 0 < p -> 0 < f -> 0 < n2_of m t p f.
Proof.
  intros Hm Hn Ht Hp Hf. unfold n2_of. destruct (String.eqb_spec m "MWL24") as [X|_]; [contradiction|].
  assert (F : 0 < n2_fdep m f).
  { unfold n2_fdep. destruct (String.eqb m "R98"); [lra|]. assert (0 <= f / 450 * (f / 450)) by nra. assert (0 < 0.5 / (1 + f / 450 * (f / 450))) by (apply div_pos; lra). lra. }
  assert (C : let '(l, y, n) := n2_coef m in 0 < l /\ 0 < n).
  { unfold n2_coef. destruct (String.eqb m "R98"); [split; powers; lra|]. destruct (String.eqb m "R03"); [split; powers; lra|]. destruct (str_in m _); split; powers; lra. }
  destruct (n2_coef m) as [[l y] n]. destruct C as [C1 C2]. assert (P := Rpower_pos (300 / t) y). repeat (apply Rmult_lt_0_compat; try assumption).
Qed.

Lemma dry_positive m f p t e aw ad : In m whole_models -> sky f p t e -> clearsky_level (A:=RA) (ideal m "") None f p t e None = Ok (aw, ad) -> 0 < ad.
Proof.
  intros Hm (Hf & Ht & He & Hpe) H. assert (Mo : In m plain_o2_names) by (unfold whole_models, plain_o2_names in *; cbn [In] in *; tauto).
  destruct (shipped_o2_D m Mo) as (_ & xo & lo & _ & O2 & _). 
  destruct (C53_level (ideal m "") None f p t e None aw ad H) as (nw & cw & no & co & an & ao & _ & H2 & H3 & H4 & _ & ->).
  assert (V : 0 < 300 / t) by (apply div_pos; lra).
  assert (NR : m <> "R98") by (intros ->; unfold whole_models in Hm; cbn [In] in Hm; repeat (destruct Hm as [Hm|Hm]; [discriminate|]); destruct Hm).
  assert (NM : m <> "MWL24") by (intros ->; unfold whole_models in Hm; cbn [In] in Hm; repeat (destruct Hm as [Hm|Hm]; [discriminate|]); destruct Hm).
  assert (N2 : In m n2_models) by (unfold whole_models, n2_models in *; cbn [In] in *; tauto).
  unfold o2_call, over in H2. cbn [ideal g_o2 g_o2ll mname] in H2. rewrite O2 in H2. apply ok_inj in H2.
  destruct (C55_shipped_nonnegative m lo ((p - e) / 10) (300 / t) (e / 10) f no co O2 NR V ltac:(lra) ltac:(lra) Hf H2) as [A1 A2].
  unfold n2_call in H3. cbn [ideal g_n2] in H3.
  assert (H3' : n2_absorption (A:=RA) m t (p - e) f = Ok an).
  { destruct m as [|c0 s0]; [exfalso; unfold whole_models in Hm; cbn [In] in Hm; repeat (destruct Hm as [Hm|Hm]; [discriminate|]); destruct Hm|exact H3]. }
  rewrite n2_value in H3' by assumption. apply ok_inj in H3'. subst an.
  assert (PN := n2_positive m t (p - e) f N2 NM Ht ltac:(lra) Hf).
  unfold o3_call in H4. apply ok_inj in H4. assert (Z : ao = 0) by (rewrite <- H4; ra; lra). rewrite Z.
  assert (G : 0 < ln 10) by (rewrite <- ln_1; apply ln_increasing; lra).
  assert (N : forall x, 0 <= x -> 0 <= npkm f x).
  { intros x Hx. unfold npkm. apply Rmult_le_pos; [|exact Hx]. apply Rmult_le_pos; [|lra]. lra. }
  assert (X1 := N no A1). assert (X2 := N co A2). lra.
Qed.

(** Both absorption coefficients of a level of a run. *)
Lemma level_both m ps ts rhs f aw ad i : length ts = length ps -> length rhs = length ps -> ideal_absorption m "" ps ts rhs None f aw ad -> (i < length ps)%nat ->
  clearsky_level (A:=RA) (ideal m "") None f (nth i ps 0) (nth i ts 0) (nth i rhs 0 * goff_water (nth i ts 0)) None = Ok (nth i aw 0, nth i ad 0).
Proof.
  intros Lt Lr H Hi. unfold ideal_absorption, clearsky_absorption in H. apply bind_Ok in H. destruct H as (r & Hr & H). apply ok_inj in H.
  assert (E1 := f_equal fst H). assert (E2 := f_equal snd H). cbn [fst snd] in E1, E2. clear H.
  assert (LV : length (vap ts rhs) = length ps) by (unfold vap; rewrite map_length, combine_length; lia).
  destruct (combine4 ps ts (vap ts rhs) (with_o3 (A:=RA) (length ps) None) i 0 0 0 None (length ps) eq_refl Lt LV (repeat_length _ _) Hi) as [LL EN].
  assert (K := mapM_nth _ _ r i (0, (0, (0, None))) (0, 0) Hr (eq_ind_r (fun k => (i < k)%nat) Hi LL)).
  replace (nth i (vap ts rhs) 0) with (nth i rhs 0 * goff_water (nth i ts 0)) in EN.
  2: { unfold vap. rewrite (nth_map_d (fun x => snd x * goff_water (fst x)) _ i (0, 0)) by (rewrite combine_length; lia). rewrite combine_nth by lia. reflexivity. }
  replace (nth i (with_o3 (A:=RA) (length ps) None) None) with (@None R) in EN by (cbn [with_o3]; symmetry; apply nth_repeat).
  apply (eq_trans (f_equal (fun '(p, (t, (e, o))) => clearsky_level (A:=RA) (ideal m "") None f p t e o) (eq_sym EN))) in K.
  assert (LR : (i < length r)%nat) by (apply mapM_length in Hr; exact (eq_ind_r (fun k => (i < k)%nat) Hi (eq_trans Hr LL))).
  rewrite <- E1, <- E2, (nth_map_d fst r i (0, 0)), (nth_map_d snd r i (0, 0)) by exact LR.
  etransitivity; [exact K|]. f_equal. destruct (nth i r (0, 0)); reflexivity.
Qed.

(** ** Runs *)

Lemma run_row g m sat zs ps ts rhs f a : In m whole_models -> sounding zs ps ts rhs -> 0 < f -> 0 < a < 180 ->
  exists aw ad r, ideal_absorption m "" ps ts rhs None f aw ad /\ length aw = length zs /\ length ad = length zs /\ outcome g m sat zs ps ts rhs f a = Some r /\
    let tl := opacities aw ad (repeat 0 (length zs)) (repeat 0 (length zs)) (slant_path zs a) in
    r_tauwet r = Fin (column true aw (slant_path zs a)) /\ r_taudry r = Fin (column true ad (slant_path zs a)) /\ total_tau tl = column true aw (slant_path zs a) + column true ad (slant_path zs a) /\
    (total_tau tl < 125 -> r_tbtotal r = Fin (planckT (spec_hvk f) (background sat 1 (spec_hvk f) ts * exp (- total_tau tl) + total_atm sat (spec_hvk f) ts tl))).
Proof.
  intros Hm SO Hf Ha.
  destruct (C111_from_constructor g (four zs ps ts rhs) 0%nat 1%nat 2%nat 3%nat m zs ps ts rhs [f] [a] sat) as (h' & o & fr & full & o' & g' & E1 & E2 & E3 & E4); try reflexivity; try discriminate; try assumption.
  { left. exact Hm. }
  { intros f' [<-|[]]. split; [exact Hf|]. intros ->. unfold whole_models in Hm. cbn [In] in Hm. repeat (destruct Hm as [Hm|Hm]; [discriminate|]). destruct Hm. }
  { intros a' [<-|[]]. exact Ha. }
  destruct fr as [|r0 fr]; [discriminate|]. destruct (E4 0%nat 0%nat r0 ltac:(cbn; lia) ltac:(cbn; lia)) as (aw & ad & x & I1 & (L1 & L2 & _) & I2 & _ & _ & I3). cbn [nth] in I1, I3.
  exists aw, ad, r0. split; [exact I1|]. split; [exact L1|]. split; [exact L2|]. split; [unfold outcome; cbn [map] in E1; rewrite E1, E2; reflexivity|]. cbv zeta.
  cbn in I2. subst r0. destruct I3 as (_ & J1 & J2 & _ & _ & J3 & _ & _ & _ & _ & J4 & _).
  destruct (zero_layers (slant_path zs a) (length zs)) as [_ Z]. rewrite Z in J3. repeat split; try assumption. lra.
Qed.

Lemma opacity_at aw ad d n i : length aw = n -> length ad = n -> (S i < n)%nat ->
  nth (S i) (opacities aw ad (repeat 0 n) (repeat 0 n) d) 0 = layer_mean true (nth i aw 0) (nth (S i) aw 0) * nth (S i) d 0 + layer_mean true (nth i ad 0) (nth (S i) ad 0) * nth (S i) d 0.
Proof.
  intros L1 L2 Hi. unfold opacities. rewrite (nth_map_d _ _ _ 0%nat) by (rewrite seq_length; lia). rewrite seq_nth by lia. cbn [Nat.add].
  assert (Z : layer_int false (repeat 0 n) d (S i) = 0).
  { assert (Q := proj1 (zero_layers d n)). unfold layers in Q. rewrite repeat_length in Q.
    assert (Q' := f_equal (fun l => nth (S i) l 0) Q). cbv beta in Q'. rewrite (nth_map_d _ _ _ 0%nat) in Q' by (rewrite seq_length; lia). rewrite seq_nth in Q' by lia.
    cbn [Nat.add] in Q'. rewrite Q'. apply nth_repeat_R. lia. }
  rewrite Z. unfold layer_int. lra.
Qed.

Lemma opacity_nonneg aw ad d n : length aw = n -> length ad = n -> (forall v, In v aw -> 0 < v) -> (forall v, In v ad -> 0 < v) -> (forall v, In v d -> 0 <= v) ->
  forall x, In x (opacities aw ad (repeat 0 n) (repeat 0 n) d) -> 0 <= x.
Proof.
  intros L1 L2 H1 H2 Hd x Hx. unfold opacities in Hx. apply in_map_iff in Hx. destruct Hx as (i & <- & Hi).
  assert (Z : forall v, In v (repeat 0 n) -> 0 <= v) by (intros v V; apply repeat_spec in V; lra).
  assert (A1 := layer_int_nonneg true aw d i ltac:(intros v V; apply Rlt_le, H1, V) Hd). assert (A2 := layer_int_nonneg true ad d i ltac:(intros v V; apply Rlt_le, H2, V) Hd).
  assert (A3 := layer_int_nonneg false (repeat 0 n) d i Z Hd). lra.
Qed.

Theorem C152_nearby g m sat zs ps ts rhs f a Tl : In m whole_models -> sounding zs ps ts rhs -> airy ps ts rhs -> (forall r, In r rhs -> 0 < r) -> 0 < f -> 0 < a < 180 ->
  (forall t, In t ts -> 2.728 <= t <= 400) -> coldest sat ts Tl -> let path := total_tau (slant_path zs a) in
  exists r w d Tb, outcome g m sat zs ps ts rhs f a = Some r /\ r_tauwet r = Fin w /\ r_taudry r = Fin d /\
  (w + d + 4e-9 * path < 125 -> r_tbtotal r = Fin Tb /\
    forall eps, 0 < eps -> exists delta, 0 < delta /\
    forall f' ps' ts' rhs', Rabs (f' - f) < delta -> close delta ps ps' -> close delta ts ts' -> close delta rhs rhs' -> sounding zs ps' ts' rhs' -> airy ps' ts' rhs' -> (forall r, In r rhs' -> 0 < r) ->
    exists r' Tb', outcome g m sat zs ps' ts' rhs' f' a = Some r' /\ r_tbtotal r' = Fin Tb' /\
      Rabs (Tb' - Tb) <= eps + 1e-8 * path * exp (spec_hvk f / Tl) * (variation ts + far_step sat 1 ts)).
Proof.
  intros Hm SO HA HP Hf Ha HT HC path. assert (Ms : In m std_models) by (unfold whole_models, std_models in *; cbn [In] in *; tauto).
  destruct (C150_shipped m (ideal m "") Ms eq_refl eq_refl eq_refl eq_refl eq_refl) as (AW & AD & HV & HJ).
  assert (SK : forall f, 0 < f -> forall p t r, sounding zs p t r -> airy p t r -> forall i, (i < length zs)%nat -> sky f (nth i p 0) (nth i t 0) (nth i r 0 * goff_water (nth i t 0))).
  { intros f' Hf' p t r [T1 T2 T3 T4 T5 T6 T7 T8] T9 i Hi. assert (GP : 0 < goff_water (nth i t 0)) by apply Rpower_pos. assert (0 <= nth i r 0) by (apply T7, nth_In; lia).
    split; [exact Hf'|]. split; [apply T6, nth_In; lia|]. split; [split; [apply Rmult_le_pos; lra|apply T8; lia]|apply T9; lia]. }
  set (dp := slant_path zs a) in *. set (n := length zs) in *.
  assert (RW : forall f, 0 < f -> forall p t r, sounding zs p t r -> airy p t r -> (forall v, In v r -> 0 < v) -> exists aw ad q, length aw = n /\ length ad = n /\ outcome g m sat zs p t r f a = Some q /\
    (forall v, In v aw -> 0 < v) /\ (forall v, In v ad -> 0 < v) /\
    (forall i, (i < n)%nat -> nth i aw 0 = AW f (nth i p 0) (nth i t 0) (nth i r 0 * goff_water (nth i t 0)) /\ nth i ad 0 = AD f (nth i p 0) (nth i t 0) (nth i r 0 * goff_water (nth i t 0))) /\
    let tl := opacities aw ad (repeat 0 n) (repeat 0 n) dp in
    r_tauwet q = Fin (column true aw dp) /\ r_taudry q = Fin (column true ad dp) /\ total_tau tl = column true aw dp + column true ad dp /\
    (total_tau tl < 125 -> r_tbtotal q = Fin (planckT (spec_hvk f) (background sat 1 (spec_hvk f) t * exp (- total_tau tl) + total_atm sat (spec_hvk f) t tl)))).
  { intros f' Hf' p t r T A P. destruct (run_row g m sat zs p t r f' a Hm T Hf' Ha) as (aw & ad & q & I & L1 & L2 & W & Q). assert (T' := T). destruct T' as [T1 T2 T3 T4 T5 T6 T7 T8].
    exists aw, ad, q. split; [exact L1|]. split; [exact L2|]. split; [exact W|].
    assert (E : forall i, (i < n)%nat -> (0 < nth i aw 0 /\ 0 < nth i ad 0) /\ nth i aw 0 = AW f' (nth i p 0) (nth i t 0) (nth i r 0 * goff_water (nth i t 0)) /\ nth i ad 0 = AD f' (nth i p 0) (nth i t 0) (nth i r 0 * goff_water (nth i t 0))).
    { intros i Hi. assert (Y := level_both m p t r f' aw ad i ltac:(lia) ltac:(lia) I ltac:(unfold n in Hi; lia)). assert (S := SK f' Hf' p t r T A i Hi). split; [split|].
      - apply (level_positive m (ideal m "") f' _ _ _ _ _ Ms eq_refl eq_refl S) in Y; [exact Y|]. apply Rmult_lt_0_compat; [apply P, nth_In; unfold n in Hi; lia|apply Rpower_pos].
      - apply (dry_positive m f' _ _ _ _ _ Hm S Y).
      - rewrite (HV _ _ _ _ S) in Y. apply ok_inj in Y. injection Y as Y1 Y2. split; symmetry; assumption. }
    split; [intros v Hv; destruct (In_nth aw v 0 Hv) as (i & Hi & <-); apply E; unfold n; lia|].
    split; [intros v Hv; destruct (In_nth ad v 0 Hv) as (i & Hi & <-); apply E; unfold n; lia|].
    split; [intros i Hi; apply E; exact Hi|exact Q]. }
  destruct (RW f Hf ps ts rhs SO HA HP) as (aw & ad & q & L1 & L2 & W & PA & PD & VA & Q1 & Q2 & Q3 & Q4). set (tl := opacities aw ad (repeat 0 n) (repeat 0 n) dp) in *.
  eexists q, _, _, _. split; [exact W|]. split; [exact Q1|]. split; [exact Q2|]. intros HB. assert (P4 : 0 < 4e-9) by (powers; lra).
  assert (SO' := SO). destruct SO' as [T1 T2 T3 T4 T5 T6 T7 T8]. assert (DN := slant_nonneg zs a T5 Ha). fold dp in DN.
  assert (Ld : length dp = n) by (unfold dp, slant_path; rewrite map_length, seq_length; reflexivity).
  assert (NP : 0 <= path) by (apply total_tau_nonneg; exact DN). assert (NP4 : 0 <= 4e-9 * path) by (apply Rmult_le_pos; lra).
  split; [apply Q4; lra|]. intros eps He.
  assert (Hn : (1 <= n)%nat) by (unfold n; destruct zs; [congruence|cbn; lia]).
  set (K := 2.5 * exp (spec_hvk f / Tl) * (variation ts + far_step sat 1 ts)).
  assert (NK : 0 <= K).
  { apply Rmult_le_pos; [apply Rmult_le_pos; [lra|apply Rlt_le, exp_pos]|]. assert (0 <= variation ts) by (apply rsum_nonneg; intros; apply Rabs_pos). assert (0 <= far_step sat 1 ts); [|lra].
    unfold far_step. destruct sat; [lra|apply Rabs_pos]. }
  set (B := 125 - total_tau tl - 4e-9 * path). assert (PB : 0 < B) by (unfold B; lra).
  set (mn := Rmin (eps / 3 / (K + 1)) B). assert (PM : 0 < mn) by (apply Rmin_pos; [apply div_pos; lra|exact PB]). assert (M1 := Rmin_l (eps / 3 / (K + 1)) B). assert (M2 := Rmin_r (eps / 3 / (K + 1)) B). fold mn in M1, M2.
  assert (NN := pos_INR n). set (eps1 := mn / (2 * (INR n + 1))). assert (PE : 0 < eps1) by (apply div_pos; lra).
  assert (EN : INR (n - 1) * (2 * eps1) < mn).
  { apply Rle_lt_trans with (INR n * (2 * eps1)); [apply Rmult_le_compat_r; [lra|apply le_INR; lia]|]. unfold eps1. apply Rmult_lt_reg_r with (INR n + 1); [lra|].
    replace (INR n * (2 * (mn / (2 * (INR n + 1)))) * (INR n + 1)) with (INR n * mn) by (field; lra). lra. }
  (* the layers *)
  destruct (common_step (n - 1) (fun i d => forall w' w2 d' d2, 0 < w' -> 0 < w2 -> 0 < d' -> 0 < d2 -> Rabs (w' - nth i aw 0) < d -> Rabs (w2 - nth (S i) aw 0) < d -> Rabs (d' - nth i ad 0) < d -> Rabs (d2 - nth (S i) ad 0) < d ->
    Rabs (layer_mean true w' w2 * nth (S i) dp 0 - layer_mean true (nth i aw 0) (nth (S i) aw 0) * nth (S i) dp 0) <= eps1 + 2e-9 * nth (S i) dp 0 /\
    Rabs (layer_mean true d' d2 * nth (S i) dp 0 - layer_mean true (nth i ad 0) (nth (S i) ad 0) * nth (S i) dp 0) <= eps1 + 2e-9 * nth (S i) dp 0)) as (dx & Pdx & Kx).
  { intros i d d' H Hd w1 w2 d1 d2 A1 A2 A3 A4 B1 B2 B3 B4. apply H; try assumption; lra. }
  { intros i Hi. assert (Dn : 0 <= nth (S i) dp 0) by (apply DN, nth_In; lia).
    destruct (layer_near true (nth i aw 0) (nth (S i) aw 0) (nth (S i) dp 0)) with (eps := eps1) as (c1 & C1 & K1); try assumption; try (apply PA, nth_In; lia).
    destruct (layer_near true (nth i ad 0) (nth (S i) ad 0) (nth (S i) dp 0)) with (eps := eps1) as (c2 & C2 & K2); try assumption; try (apply PD, nth_In; lia).
    exists (Rmin c1 c2). assert (N1 := Rmin_l c1 c2). assert (N2 := Rmin_r c1 c2). split; [apply Rmin_pos; assumption|]. intros. split; [apply K1|apply K2]; try assumption; lra. }
  (* the levels *)
  destruct (common_step n (fun i d => forall f' p' t' r', sky f' p' t' (r' * goff_water t') -> Rabs (f' - f) < d -> Rabs (p' - nth i ps 0) < d -> Rabs (t' - nth i ts 0) < d -> Rabs (r' - nth i rhs 0) < d ->
    Rabs (AW f' p' t' (r' * goff_water t') - nth i aw 0) < dx /\ Rabs (AD f' p' t' (r' * goff_water t') - nth i ad 0) < dx)) as (dl & Pdl & Kl).
  { intros i d d' H Hd f' p' t' r' S A0 A1 A2 A3. apply H; try assumption; lra. }
  { intros i Hi. destruct (HJ _ _ _ _ (SK f Hf ps ts rhs SO HA i Hi)) as [J1 J2]. destruct (J1 dx Pdx) as (c1 & C1 & K1). destruct (J2 dx Pdx) as (c2 & C2 & K2).
    assert (Pt : 0 < nth i ts 0) by (apply T6, nth_In; unfold n in Hi; lia).
    assert (N0 : 0 < Rmin c1 c2) by (apply Rmin_pos; assumption). destruct (vapour_near (nth i ts 0) (nth i rhs 0) Pt (Rmin c1 c2) N0) as (c3 & C3 & K3).
    assert (N1 := Rmin_l c1 c2). assert (N2 := Rmin_r c1 c2). exists (Rmin (Rmin c1 c2) c3). assert (N3 := Rmin_l (Rmin c1 c2) c3). assert (N4 := Rmin_r (Rmin c1 c2) c3). split; [apply Rmin_pos; assumption|].
    intros f' p' t' r' S A0 A1 A2 A3. destruct (VA i Hi) as [-> ->]. assert (E := K3 t' r' ltac:(lra) ltac:(lra)).
    split; [apply K1|apply K2]; try exact S; unfold within4; repeat split; lra. }
  (* the frequency *)
  assert (Lt : length ts = length tl) by (unfold tl, opacities; rewrite map_length, seq_length; lia).
  assert (Hne : ts <> []) by (intros ->; cbn in T3; unfold n in Hn; lia).
  assert (ON := opacity_nonneg aw ad dp n L1 L2 PA PD DN). fold tl in ON.
  destruct (frequency_near sat f ts tl Hf Lt Hne T6 ON ltac:(lra) (eps / 3) ltac:(lra)) as (df & Pdf & Kf).
  assert (PT : 0 < Tl) by (unfold coldest in HC; destruct sat; [apply HC|lra]).
  set (c := spec_hvk 1). assert (Pc : 0 < c) by (apply spec_hvk_pos; lra). assert (Hc : forall x, spec_hvk x = c * x) by (intros x; unfold c, spec_hvk; lra).
  set (dg := 0.04 * Tl / c). assert (Pdg : 0 < dg) by (apply div_pos; lra).
  set (delta := Rmin (Rmin (Rmin dl (eps / 3)) (Rmin df dg)) (f / 2)).
  assert (D1 : delta <= dl /\ delta <= eps / 3 /\ delta <= df /\ delta <= dg /\ delta <= f / 2).
  { assert (X1 := Rmin_l (Rmin (Rmin dl (eps / 3)) (Rmin df dg)) (f / 2)). assert (X2 := Rmin_r (Rmin (Rmin dl (eps / 3)) (Rmin df dg)) (f / 2)). fold delta in X1, X2.
    assert (X3 := Rmin_l (Rmin dl (eps / 3)) (Rmin df dg)). assert (X4 := Rmin_r (Rmin dl (eps / 3)) (Rmin df dg)). assert (X5 := Rmin_l dl (eps / 3)). assert (X6 := Rmin_r dl (eps / 3)). assert (X7 := Rmin_l df dg). assert (X8 := Rmin_r df dg). lra. }
  exists delta. split; [unfold delta; repeat apply Rmin_pos; lra|]. clearbody delta. destruct D1 as (D1 & D2 & D3 & D4 & D5).
  intros f' ps' ts' rhs' CF [CP1 CP2] [CT1 CT2] [CR1 CR2] S' A' P'. assert (Hf' : 0 < f') by (apply Rabs_def2 in CF; lra).
  destruct (RW f' Hf' ps' ts' rhs' S' A' P') as (aw' & ad' & q' & L1' & L2' & W' & PA' & PD' & VA' & _ & _ & Q3' & Q4'). set (tl' := opacities aw' ad' (repeat 0 n) (repeat 0 n) dp) in *.
  assert (CL : forall i, (i < n)%nat -> Rabs (nth i aw' 0 - nth i aw 0) < dx /\ Rabs (nth i ad' 0 - nth i ad 0) < dx).
  { intros i Hi. destruct (VA' i Hi) as [-> ->]. apply (Kl i Hi _ _ _ _ (SK f' Hf' ps' ts' rhs' S' A' i Hi)).
    - lra.
    - assert (X := CP2 i ltac:(unfold n in Hi; lia)). lra.
    - assert (X := CT2 i ltac:(unfold n in Hi; lia)). lra.
    - assert (X := CR2 i ltac:(unfold n in Hi; lia)). lra. }
  set (er := map (fun d => 2 * eps1 + 4e-9 * d) dp).
  assert (Ler : length er = n) by (unfold er; rewrite map_length; exact Ld).
  assert (Ner : forall i, (i < n)%nat -> nth i er 0 = 2 * eps1 + 4e-9 * nth i dp 0) by (intros i Hi; unfold er; rewrite (nth_map_d _ _ _ 0) by lia; reflexivity).
  assert (Ll : length tl = n) by (unfold tl, opacities; rewrite map_length, seq_length; exact L1). assert (Ll' : length tl' = n) by (unfold tl', opacities; rewrite map_length, seq_length; exact L1').
  assert (RC : forall k y, rsum k (fun _ => y) = INR k * y) by (intros k y; induction k as [|k IH]; [cbn; lra|]; rewrite S_INR; cbn [rsum]; rewrite IH; ring).
  assert (Ter : total_tau er = INR (n - 1) * (2 * eps1) + 4e-9 * path).
  { unfold path. rewrite !total_tau_nth, Ler, Ld, <- rsum_scal, <- RC, <- rsum_add. apply rsum_ext. intros i Hi. apply Ner. lia. }
  assert (HE : forall i, (1 <= i < n)%nat -> Rabs (nth i tl' 0 - nth i tl 0) <= nth i er 0).
  { intros [|i] Hi; [lia|]. unfold tl, tl'. rewrite !opacity_at, Ner by (assumption || lia).
    destruct (Kx i ltac:(lia) (nth i aw' 0) (nth (S i) aw' 0) (nth i ad' 0) (nth (S i) ad' 0)) as [X1 X2]; try (apply PA', nth_In; lia); try (apply PD', nth_In; lia); try (apply CL; lia).
    match type of X1 with Rabs ?u <= _ => match type of X2 with Rabs ?v <= _ => match goal with |- Rabs ?e <= _ => replace e with (u + v) by ring; assert (Y := Rabs_triang u v) end end end.
    assert (2 * 2e-9 = 4e-9) by (powers; lra). assert (0 <= nth (S i) dp 0) by (apply DN, nth_In; lia). nra. }
  assert (HB' : total_tau tl' < 125).
  { assert (X : total_tau tl' <= total_tau tl + total_tau er).
    { rewrite !total_tau_nth, Ll, Ll', Ler, <- rsum_add. apply rsum_le. intros i Hi. assert (X := HE (S i) ltac:(lia)). assert (Y := Rle_abs (nth (S i) tl' 0 - nth (S i) tl 0)). lra. }
    rewrite Ter in X. unfold B in M2. lra. }
  eexists q', _. split; [exact W'|]. split; [apply Q4'; exact HB'|].
  assert (S'' := S'). destruct S'' as [U1 U2 U3 U4 U5 U6 U7 U8].
  assert (TR := transfer_nearby sat f' ts ts' tl tl' er (eps / 3) Tl Hf' ltac:(unfold n in Ll; lia) ltac:(unfold n in Ll'; lia) ltac:(unfold n in Ler; lia) ltac:(intros ->; cbn in T3; unfold n in Hn; lia) HT U6
    (opacity_nonneg aw ad dp n L1 L2 PA PD DN) (opacity_nonneg aw' ad' dp n L1' L2' PA' PD' DN)).
  specialize (TR ltac:(intros x Hx; unfold er in Hx; apply in_map_iff in Hx; destruct Hx as (y & <- & Hy); apply DN in Hy; assert (0 <= 4e-9 * y) by (apply Rmult_le_pos; lra); lra) ltac:(lra)).
  specialize (TR ltac:(split; [lia|]; intros i Hi; rewrite Rabs_minus_sym; assert (X := CT2 i Hi); lra) ltac:(rewrite Ll; exact HE) ltac:(lra) HB' HC).
  assert (FN := Kf f' ltac:(lra)).
  match type of FN with Rabs (?x - ?y) < _ => match goal with |- Rabs (?u - _) <= _ => replace (u - y) with ((u - x) + (x - y)) by ring; eapply Rle_trans; [apply Rabs_triang|] end end.
  assert (EX : 2.4 * exp (spec_hvk f' / Tl) <= 2.5 * exp (spec_hvk f / Tl)).
  { assert (Y : spec_hvk f' / Tl <= spec_hvk f / Tl + 0.04).
    { apply Rmult_le_reg_r with Tl; [exact PT|]. unfold Rdiv. rewrite Rmult_plus_distr_r, !Rmult_assoc, !Rinv_l, !Rmult_1_r, !Hc by lra. apply Rabs_def2 in CF.
      assert (Y : c * (f' - f) <= c * dg) by (apply Rmult_le_compat_l; lra). replace (c * dg) with (0.04 * Tl) in Y by (unfold dg; field; lra). lra. }
    apply Rle_trans with (2.4 * (exp (spec_hvk f / Tl) * exp 0.04)); [apply Rmult_le_compat_l; [lra|]; rewrite <- exp_plus; apply exp_le; exact Y|].
    assert (Z1 := exp_ineq1 (- 0.04) ltac:(lra)). assert (Z2 : exp 0.04 * exp (- 0.04) = 1) by (rewrite <- exp_plus; replace (0.04 + - 0.04) with 0 by lra; apply exp_0). assert (Z3 := exp_pos 0.04).
    assert (Z4 : exp 0.04 * 0.96 <= 1) by nra. assert (Z5 := exp_pos (spec_hvk f / Tl)). nra. }
  assert (VF : 0 <= variation ts + far_step sat 1 ts).
  { assert (0 <= variation ts) by (apply rsum_nonneg; intros; apply Rabs_pos). assert (0 <= far_step sat 1 ts); [|lra]. unfold far_step. destruct sat; [lra|apply Rabs_pos]. }
  assert (NT : 0 <= total_tau er) by (rewrite Ter; assert (0 <= INR (n - 1) * (2 * eps1)) by (apply Rmult_le_pos; [apply pos_INR|lra]); lra).
  assert (BD : 2.4 * total_tau er * exp (spec_hvk f' / Tl) * (variation ts + far_step sat 1 ts) <= K * total_tau er).
  { replace (2.4 * total_tau er * exp (spec_hvk f' / Tl) * (variation ts + far_step sat 1 ts)) with (total_tau er * (2.4 * exp (spec_hvk f' / Tl) * (variation ts + far_step sat 1 ts))) by ring.
    rewrite (Rmult_comm K). apply Rmult_le_compat_l; [exact NT|]. unfold K. apply Rmult_le_compat_r; assumption. }
  assert (KT : K * total_tau er = K * (INR (n - 1) * (2 * eps1)) + K * (4e-9 * path)) by (rewrite Ter; ring).
  replace (1e-8 * path * exp (spec_hvk f / Tl) * (variation ts + far_step sat 1 ts)) with (K * (4e-9 * path)) by (unfold K; replace 1e-8 with (2.5 * 4e-9) by (powers; lra); ring).
  assert (KE : K * (INR (n - 1) * (2 * eps1)) <= eps / 3).
  { apply Rle_trans with (K * (eps / 3 / (K + 1))); [apply Rmult_le_compat_l; lra|]. apply Rmult_le_reg_r with (K + 1); [lra|]. replace (K * (eps / 3 / (K + 1)) * (K + 1)) with (K * (eps / 3)) by (field; lra). nra. }
  lra.
Qed.

(** R17 at 22.235 GHz in the zenith and from a satellite: moist air at 300 K under moist air at 290 K, the frequency and the temperature at the ground known approximately. *)
Lemma path_two h : total_tau (slant_path [0; h] 90) = h /\ slant_path [0; h] 90 = [0; h].
Proof.
  assert (E : slant_path [0; h] 90 = [0; h]).
  { unfold slant_path. cbn [length seq map slant nth]. replace (90 * PI / 180) with (PI / 2) by lra. rewrite sin_PI2. do 2 f_equal. lra. }
  split; [rewrite E; unfold total_tau; cbn; lra|exact E].
Qed.
Lemma two_sounding h t : 0 < h -> 0 < t -> 10 / goff_water 300 * goff_water t < 900 ->
  sounding [0; h] [1000; 900] [t; 290] [10 / goff_water 300; 1 / goff_water 290] /\ airy [1000; 900] [t; 290] [10 / goff_water 300; 1 / goff_water 290].
Proof.
  intros Hh Ht H. assert (G1 : 0 < goff_water 300) by apply Rpower_pos. assert (G2 : 0 < goff_water 290) by apply Rpower_pos. assert (G3 : 0 < goff_water t) by apply Rpower_pos.
  assert (E : 1 / goff_water 290 * goff_water 290 = 1) by (field; lra).
  split; [constructor; try reflexivity; try discriminate|].
  - intros [|i] Hi; cbn in *; try lia; lra.
  - intros x [<-|[<-|[]]]; lra.
  - intros v [<-|[<-|[]]]; apply Rlt_le, div_pos; lra.
  - intros [|[|i]] Hi; cbn [nth length] in *; [lra|lra|lia].
  - intros [|[|i]] Hi; cbn [nth length] in *; [lra|lra|lia].
Qed.
Example C152_example g sat : exists h, 0 < h /\ exists delta, 0 < delta /\ forall f' t, Rabs (f' - 22.235) < delta -> Rabs (t - 300) < delta ->
  exists r r' Tb Tb', outcome g "R17" sat [0; h] [1000; 900] [300; 290] [10 / goff_water 300; 1 / goff_water 290] 22.235 90 = Some r /\
    outcome g "R17" sat [0; h] [1000; 900] [t; 290] [10 / goff_water 300; 1 / goff_water 290] f' 90 = Some r' /\
    r_tbtotal r = Fin Tb /\ r_tbtotal r' = Fin Tb' /\ Rabs (Tb' - Tb) <= 1e-3.
Proof.
  assert (G1 : 0 < goff_water 300) by apply Rpower_pos. assert (G2 : 0 < goff_water 290) by apply Rpower_pos.
  assert (E1 : 10 / goff_water 300 * goff_water 300 = 10) by (field; lra).
  assert (Hm : In "R17" whole_models) by (unfold whole_models; cbn [In]; tauto).
  set (rh := [10 / goff_water 300; 1 / goff_water 290]).
  assert (HR : forall r, In r rh -> 0 < r) by (intros r [<-|[<-|[]]]; apply div_pos; lra).
  destruct (two_sounding 1 300 ltac:(lra) ltac:(lra) ltac:(lra)) as [S1 A1]. fold rh in S1, A1.
  destruct (run_row g "R17" sat [0; 1] [1000; 900] [300; 290] rh 22.235 90 Hm S1 ltac:(lra) ltac:(lra)) as (aw & ad & r1 & I & L1 & L2 & _).
  set (mw := layer_mean true (nth 0 aw 0) (nth 1 aw 0)). set (md := layer_mean true (nth 0 ad 0) (nth 1 ad 0)).
  set (M := Rabs mw + Rabs md + 1). assert (N1 := Rabs_pos mw). assert (N2 := Rabs_pos md). assert (M1 : 1 <= M) by (unfold M; lra).
  set (h := / M). assert (Hh : 0 < h) by (apply Rinv_0_lt_compat; lra). assert (H1 : h <= 1) by (rewrite <- Rinv_1; apply Rinv_le_contravar; lra).
  exists h. split; [exact Hh|]. destruct (two_sounding h 300 Hh ltac:(lra) ltac:(lra)) as [S2 A2]. fold rh in S2, A2.
  set (Tl := if sat then 290 else 2.728).
  assert (HC : coldest sat [300; 290] Tl) by (unfold coldest, Tl; destruct sat; [split; [lra|intros t [<-|[<-|[]]]; lra]|reflexivity]).
  destruct (C152_nearby g "R17" sat [0; h] [1000; 900] [300; 290] rh 22.235 90 Tl Hm S2 A2 HR ltac:(lra) ltac:(lra) ltac:(intros t [<-|[<-|[]]]; lra) HC) as (r & w & d & Tb & W & Q1 & Q2 & K).
  destruct (path_two h) as [PT PE]. rewrite PT in K.
  destruct (run_row g "R17" sat [0; h] [1000; 900] [300; 290] rh 22.235 90 Hm S2 ltac:(lra) ltac:(lra)) as (aw' & ad' & r' & I' & L1' & L2' & W' & J1 & J2 & _).
  rewrite W in W'. injection W' as <-. unfold ideal_absorption in I, I'. rewrite I in I'. apply ok_inj in I'. injection I' as <- <-.
  rewrite Q1 in J1. rewrite Q2 in J2. injection J1 as ->. injection J2 as ->. rewrite PE in K. unfold column in K. rewrite L1, L2 in K. cbn [length Nat.sub rsum layer_int nth] in K. fold mw md in K.
  assert (B : (0 + mw * h) + (0 + md * h) + 4e-9 * h < 125).
  { assert (X1 := Rle_abs mw). assert (X2 := Rle_abs md). assert (X3 : M * h = 1) by (unfold h; apply Rinv_r; lra). assert (X4 : (mw + md) * h <= M * h) by (apply Rmult_le_compat_r; [lra|unfold M; lra]). powers. nra. }
  destruct (K B) as [Q3 K']. destruct (K' 1e-4 ltac:(powers; lra)) as (delta & Pd & K2).
  destruct (vapour_near 300 (10 / goff_water 300) ltac:(lra) 800 ltac:(lra)) as (d2 & P2 & V).
  exists (Rmin (Rmin delta d2) 1). assert (Z1 := Rmin_l (Rmin delta d2) 1). assert (Z2 := Rmin_r (Rmin delta d2) 1). assert (Z3 := Rmin_l delta d2). assert (Z4 := Rmin_r delta d2). split; [apply Rmin_pos; [apply Rmin_pos; assumption|lra]|].
  intros f' t Hf' Ht. assert (Pt : 0 < t) by (apply Rabs_def2 in Ht; lra).
  assert (VT := V t (10 / goff_water 300) ltac:(lra) ltac:(rewrite Rminus_diag_eq, Rabs_R0 by reflexivity; exact P2)). rewrite E1 in VT. apply Rabs_def2 in VT.
  destruct (two_sounding h t Hh Pt ltac:(lra)) as [S3 A3]. fold rh in S3, A3.
  assert (C0 : forall x, close delta x x) by (intros x; split; [reflexivity|]; intros i Hi; rewrite Rminus_diag_eq, Rabs_R0 by reflexivity; exact Pd).
  destruct (K2 f' [1000; 900] [t; 290] rh ltac:(lra) (C0 _)) as (r2 & Tb' & W2 & Q4 & D); try assumption; try apply C0.
  { split; [reflexivity|]. intros [|[|i]] Hi; cbn [nth length] in *; [lra|rewrite Rminus_diag_eq, Rabs_R0 by reflexivity; exact Pd|lia]. }
  exists r, r2, Tb, Tb'. repeat split; try assumption. eapply Rle_trans; [exact D|].
  assert (EX : exp (spec_hvk 22.235 / Tl) <= 3).
  { eapply Rle_trans; [|exact exp_le_3]. apply exp_le. apply Rmult_le_reg_r with Tl; [unfold Tl; destruct sat; lra|]. unfold Rdiv. rewrite Rmult_assoc, Rinv_l by (unfold Tl; destruct sat; lra). unfold spec_hvk, Tl. destruct sat; lra. }
  assert (VF : 0 <= variation [300; 290] + far_step sat 1 [300; 290] <= 300).
  { unfold variation, far_step. cbn [length Nat.sub rsum nth]. rewrite (Rabs_left1 (290 - 300)) by lra. destruct sat; [lra|]. rewrite Rabs_right by lra. lra. }
  assert (PX := exp_pos (spec_hvk 22.235 / Tl)). set (x := exp (spec_hvk 22.235 / Tl)) in *. set (v := variation [300; 290] + far_step sat 1 [300; 290]) in *. clearbody x v.
  assert (Y1 : x * v <= 3 * 300) by (apply Rmult_le_compat; lra). assert (Y0 : 0 <= x * v) by (apply Rmult_le_pos; lra). assert (Y2 : h * (x * v) <= 1 * (3 * 300)) by (apply Rmult_le_compat; lra).
  replace (1e-8 * h * x * v) with (1e-8 * (h * (x * v))) by ring. powers. lra.
Qed.
