(** Claim C151: what happens to the wet opacity when the humidity of a level is taken to zero, over the reals.

    Code: pyrtlib/rt_equation.py:246-290 (exponential_integration), pyrtlib/absorption_model.py (h2o_absorption),
    pyrtlib/tb_spectrum.py:225-405 (execute). *)

From Coq Require Import ZArith Reals Lra Lia Psatz String List Bool.
From Coquelicot Require Import Coquelicot.
Import ListNotations.
From Verif Require Import Arith PyBase Utils RTE Absorption Clear Spectrum Spec ListAux RealAux PlanckReal PlanckMaster PropsPlanck Integral
  SolverGen SolverRun Registry PropsRun PropsObject PropsModels PropsSolverX PropsRay PropsLiq LineData Lineshape PropsAbsN2 PropsClear PropsO2H2O PropsH2O PropsO2Data PropsO3
  PropsUtils PropsSelfCont FinTransfer FinGas FinSD PropsUtils3 FinClear PropsRow WeightingGen SolverExamples FinCloud PropsEnd PropsCross PropsSmooth PropsState.
Local Open Scope string_scope.
Open Scope R_scope.

(** ** Specification *)

(** The program: four arrays, the solver for one frequency and one elevation, the model, execution; the wet opacity of the table. *)
Definition four (zs ps ts rhs : list R) : heap XA := [map Fin zs; map Fin ps; map Fin ts; map Fin rhs].
Definition wet_opacity (g : globals XA) (m : string) (sat : bool) (zs ps ts rhs : list R) (f a : R) : option ext :=
  match tb_init (A:=XA) (four zs ps ts rhs) 0%nat 1%nat 2%nat 3%nat [Fin f] [Fin a] None None "" false sat false with
  | (h', Ok o) => match execute (@shipped XA) (init_absmdl g m) h' o with Ok (r :: _, _, _, _) => Some (r_tauwet r) | _ => None end
  | _ => None
  end.

(** [x'] differs from [x] by less than [d] at every level. *)
Definition close (d : R) (x x' : list R) : Prop := length x' = length x /\ forall i, (i < length x)%nat -> Rabs (nth i x' 0 - nth i x 0) < d.

(** ** Positive absorption: no jump above the threshold of the code *)

Definition mean2 (u v : R) : R := if Req_EM_T u v then u else logmean u v.
Lemma mean2_between u v : 0 < u -> 0 < v -> Rmin u v <= mean2 u v <= Rmax u v.
Proof.
  intros Hu Hv. unfold mean2. destruct (Req_EM_T u v) as [->|N]; [rewrite Rmin_left, Rmax_left by lra; lra|]. apply logmean_bounds; assumption.
Qed.
Lemma layer_mean2 gas u v : 0 < u -> 0 < v -> Rabs (layer_mean gas u v - mean2 u v) <= 1e-9.
Proof.
  intros Hu Hv. unfold layer_mean. assert (B := mean2_between u v Hu Hv). destruct (Rlt_dec (Rabs (v - u)) 1e-9) as [L|L].
  - assert (M : Rabs (v - mean2 u v) <= Rabs (v - u)); [|lra]. destruct (Rle_dec u v) as [Q|Q]; [rewrite Rmin_left, Rmax_right in B by lra|rewrite Rmin_right, Rmax_left in B by lra];
      (apply Rabs_le; [unfold Rabs; destruct (Rcase_abs (v - u)); lra]) || (unfold Rabs; destruct (Rcase_abs (v - mean2 u v)), (Rcase_abs (v - u)); lra).
  - destruct (Req_EM_T u 0); [lra|]. destruct (Req_EM_T v 0); [lra|]. unfold mean2. destruct (Req_EM_T u v) as [->|N].
    + exfalso. apply L. rewrite Rminus_diag_eq, Rabs_R0 by reflexivity. lra.
    + unfold logmean. replace (_ - _) with 0 by ring. rewrite Rabs_R0. lra.
Qed.

Lemma mean2_near u v : 0 < u -> 0 < v -> forall eps, 0 < eps -> exists d, 0 < d /\ forall u' v', 0 < u' -> 0 < v' -> Rabs (u' - u) < d -> Rabs (v' - v) < d -> Rabs (mean2 u' v' - mean2 u v) < eps.
Proof.
  intros Hu Hv eps He. destruct (Req_EM_T u v) as [->|N].
  - exists eps. split; [exact He|]. intros u' v' Hu' Hv' A B. assert (M := mean2_between u' v' Hu' Hv'). replace (mean2 v v) with v by (unfold mean2; destruct (Req_EM_T v v); congruence).
    apply Rabs_def2 in A. apply Rabs_def2 in B. apply Rabs_def1; destruct (Rle_dec u' v') as [Q|Q]; [rewrite Rmin_left, Rmax_right in M by lra|rewrite Rmin_right, Rmax_left in M by lra|rewrite Rmin_left, Rmax_right in M by lra|rewrite Rmin_right, Rmax_left in M by lra]; lra.
  - set (U := prod_UniformSpace R_UniformSpace R_UniformSpace). pose (k := fun s : U => (snd s - fst s) / ln (snd s / fst s) : R).
    assert (K1 : kc (fun s : U => fst s : R) ((u, v) : U)) by apply (continuous_fst (U:=R_UniformSpace) (V:=R_UniformSpace)).
    assert (K2 : kc (fun s : U => snd s : R) ((u, v) : U)) by apply (continuous_snd (U:=R_UniformSpace) (V:=R_UniformSpace)).
    assert (K : kc k ((u, v) : U)).
    { unfold k. pose (a := fun s : U => fst s : R). pose (b := fun s : U => snd s : R). change (kc (fun s => (b s - a s) / ln (b s / a s)) ((u, v) : U)). change (kc a ((u, v) : U)) in K1. change (kc b ((u, v) : U)) in K2.
      assert (A : a ((u, v) : U) = u) by reflexivity. assert (B : b ((u, v) : U) = v) by reflexivity. clearbody a b. kont; rewrite ?A, ?B; try lra; try (apply div_pos; assumption).
      intros Z. apply N. rewrite <- ln_1 in Z. apply ln_inv in Z; [|apply div_pos; assumption|lra]. apply (Rmult_eq_compat_r u) in Z. unfold Rdiv in Z. rewrite Rmult_assoc, Rinv_l in Z by lra. lra. }
    destruct (proj1 (filterlim_locally k (k (u, v))) K (mkposreal eps He)) as [d H].
    assert (A : 0 < Rabs (u - v)) by (apply Rabs_pos_lt; lra). assert (Pd := cond_pos d).
    exists (Rmin d (Rabs (u - v) / 2)). split; [apply Rmin_pos; lra|]. intros u' v' Hu' Hv' B1 B2. assert (M1 := Rmin_l d (Rabs (u - v) / 2)). assert (M2 := Rmin_r d (Rabs (u - v) / 2)).
    assert (N' : u' <> v').
    { intros ->. assert (T := Rabs_triang (u - v') (v' - v)). replace (u - v' + (v' - v)) with (u - v) in T by ring. rewrite (Rabs_minus_sym u v') in T. lra. }
    unfold mean2. destruct (Req_EM_T u' v'); [contradiction|]. destruct (Req_EM_T u v); [contradiction|].
    refine (H (u', v') (conj _ _)); [change (Rabs (u' - u) < d)|change (Rabs (v' - v) < d)]; lra.
Qed.

Lemma layer_near gas u v w : 0 < u -> 0 < v -> 0 <= w -> forall eps, 0 < eps -> exists d, 0 < d /\ forall u' v', 0 < u' -> 0 < v' -> Rabs (u' - u) < d -> Rabs (v' - v) < d ->
  Rabs (layer_mean gas u' v' * w - layer_mean gas u v * w) <= eps + 2e-9 * w.
Proof.
  intros Hu Hv Hw eps He. destruct (mean2_near u v Hu Hv (eps / (w + 1)) ltac:(apply div_pos; lra)) as (d & Hd & K). exists d. split; [exact Hd|]. intros u' v' Hu' Hv' A B.
  assert (C := K u' v' Hu' Hv' A B). assert (D1 := layer_mean2 gas u v Hu Hv). assert (D2 := layer_mean2 gas u' v' Hu' Hv').
  set (a := layer_mean gas u' v') in *. set (b := layer_mean gas u v) in *. set (a2 := mean2 u' v') in *. set (b2 := mean2 u v) in *. clearbody a b a2 b2.
  replace (a * w - b * w) with ((a - b) * w) by ring. rewrite Rabs_mult, (Rabs_right w) by lra.
  assert (E : Rabs (a - b) <= eps / (w + 1) + 2e-9).
  { replace (a - b) with ((a - a2) + ((a2 - b2) + - (b - b2))) by ring. eapply Rle_trans; [apply Rabs_triang|]. assert (T := Rabs_triang (a2 - b2) (- (b - b2))). rewrite Rabs_Ropp in T. powers. lra. }
  assert (F : eps / (w + 1) * w <= eps).
  { apply Rmult_le_reg_r with (w + 1); [lra|]. replace (eps / (w + 1) * w * (w + 1)) with (eps * w) by (field; lra). nra. }
  apply Rle_trans with ((eps / (w + 1) + 2e-9) * w); [apply Rmult_le_compat_r; assumption|]. lra.
Qed.

(** Where every level absorbs, nearby absorption has nearby opacity, up to the threshold 1e-9 below which the code takes the upper value. *)
Theorem C151_positive gas (x d : list R) : (forall v, In v x -> 0 < v) -> (forall v, In v d -> 0 <= v) -> length d = length x ->
  forall eps, 0 < eps -> exists delta, 0 < delta /\ forall x', close delta x x' -> (forall v, In v x' -> 0 < v) ->
    Rabs (column gas x' d - column gas x d) <= eps + 2e-9 * total_tau d.
Proof.
  intros Hx Hd Hl. 
  assert (G : forall n, (n <= length x - 1)%nat -> forall eps, 0 < eps -> exists delta, 0 < delta /\ forall x', close delta x x' -> (forall v, In v x' -> 0 < v) ->
    Rabs (rsum n (fun i => layer_int gas x' d (S i)) - rsum n (fun i => layer_int gas x d (S i))) <= eps + 2e-9 * rsum n (fun i => nth (S i) d 0)).
  { induction n as [|n IH]; intros Hn eps He.
    - exists 1. split; [lra|]. intros x' _ _. cbn [rsum]. rewrite Rminus_0_r, Rabs_R0. powers. lra.
    - destruct (IH ltac:(lia) (eps / 2) ltac:(lra)) as (d1 & P1 & K1).
      destruct (layer_near gas (nth n x 0) (nth (S n) x 0) (nth (S n) d 0)) with (eps := eps / 2) as (d2 & P2 & K2); try lra.
      { apply Hx, nth_In. lia. } { apply Hx, nth_In. lia. } { apply Hd, nth_In. lia. }
      exists (Rmin d1 d2). split; [apply Rmin_pos; assumption|]. intros x' [L C] Hx'. assert (M1 := Rmin_l d1 d2). assert (M2 := Rmin_r d1 d2).
      assert (A := K1 x' (conj L (fun i Hi => Rlt_le_trans _ _ _ (C i Hi) M1)) Hx').
      assert (B := K2 (nth n x' 0) (nth (S n) x' 0) ltac:(apply Hx', nth_In; lia) ltac:(apply Hx', nth_In; lia) (Rlt_le_trans _ _ _ (C n ltac:(lia)) M2) (Rlt_le_trans _ _ _ (C (S n) ltac:(lia)) M2)).
      cbn [rsum]. change (layer_int gas x' d (S n)) with (layer_mean gas (nth n x' 0) (nth (S n) x' 0) * nth (S n) d 0). change (layer_int gas x d (S n)) with (layer_mean gas (nth n x 0) (nth (S n) x 0) * nth (S n) d 0).
      match goal with |- Rabs (?a + ?b - (?c + ?e)) <= _ => replace (a + b - (c + e)) with ((a - c) + (b - e)) by ring; assert (T := Rabs_triang (a - c) (b - e)) end. lra. }
  intros eps He. destruct (G (length x - 1)%nat ltac:(lia) eps He) as (dl & Hdl & K). exists dl. split; [exact Hdl|]. intros x' C Hx'. unfold column. rewrite (proj1 C), total_tau_nth, Hl. apply K; assumption.
Qed.

(** ** The last vapour *)

Lemma mean_vanishes u : 1e-9 < u -> layer_mean true u 0 = u / 2 /\
  forall eps, 0 < eps -> exists d, 0 < d /\ forall v, 0 < v < d -> 0 <= layer_mean true u v < eps.
Proof.
  intros Hu. assert (P : 0 < 1e-9) by (powers; lra). split.
  - unfold layer_mean. destruct (Rlt_dec _ _) as [L|L]; [exfalso; rewrite Rabs_left1 in L by lra; lra|]. destruct (Req_EM_T u 0); [lra|]. destruct (Req_EM_T 0 0); [lra|congruence].
  - intros eps He. set (q := u * exp (- (2 * u / eps))). assert (Q : 0 < q) by (apply Rmult_lt_0_compat; [lra|apply exp_pos]).
    exists (Rmin (u - 1e-9) q). split; [apply Rmin_pos; lra|]. intros v Hv. assert (M1 := Rmin_l (u - 1e-9) q). assert (M2 := Rmin_r (u - 1e-9) q).
    unfold layer_mean. destruct (Rlt_dec _ _) as [L|L]; [exfalso; rewrite Rabs_left1 in L by lra; lra|]. destruct (Req_EM_T u 0); [lra|]. destruct (Req_EM_T v 0); [lra|].
    assert (R1 : 0 < v / u) by (apply div_pos; lra).
    assert (LN : ln (v / u) < - (2 * u / eps)).
    { rewrite <- (ln_exp (- (2 * u / eps))). apply ln_increasing; [exact R1|]. apply Rmult_lt_reg_r with u; [lra|]. unfold Rdiv at 1. rewrite Rmult_assoc, Rinv_l by lra. assert (VQ : v < q) by lra. unfold q in VQ. lra. }
    assert (W : 0 < 2 * u / eps) by (apply div_pos; lra). set (l := ln (v / u)) in *.
    replace ((v - u) / l) with ((u - v) / - l) by (field; lra). split; [apply Rlt_le, div_pos; lra|].
    apply Rmult_lt_reg_r with (- l); [lra|]. unfold Rdiv. rewrite Rmult_assoc, Rinv_l by lra. 
    assert (E : eps * (2 * u / eps) = 2 * u) by (field; lra). nra.
Qed.

Lemma last_layer x u v d : (1 <= length x)%nat -> nth (length x - 1) x 0 = u ->
  column true (x ++ [v])%list d = rsum (length x - 1) (fun i => layer_int true x d (S i)) + layer_mean true u v * nth (length x) d 0.
Proof.
  intros Hn E. unfold column. rewrite app_length. cbn [length]. replace (length x + 1 - 1)%nat with (S (length x - 1)) by lia. cbn [rsum]. f_equal.
  - apply rsum_ext. intros i Hi. unfold layer_int. rewrite !app_nth1 by lia. reflexivity.
  - replace (S (length x - 1)) with (length x) by lia. destruct (length x) as [|n] eqn:L; [lia|]. unfold layer_int. replace (S n - 1)%nat with n in E by lia.
    rewrite app_nth1, E by lia. rewrite app_nth2, L, Nat.sub_diag by lia. reflexivity.
Qed.

(** Wet absorption of moist air is positive. *)
Lemma shipped_cf m ll : In m std_models -> db_h2o (@shipped RA) m = Some ll -> 0 < (h_cf ll : R).
Proof.
  intros Hm H. change (shipped_h2o (A:=RA) m = Some ll) in H. unfold shipped_h2o in H.
  assert (X : forall mm mtx ctr rl a b, dec_pos (nth 1 ctr 0%dec) = true -> Some (h2o_load (A:=RA) mm mtx ctr rl a b) = Some ll -> 0 < (h_cf ll : R)).
  { intros mm mtx ctr rl a b Q E. apply (f_equal (fun o : option (h2o_ll RA) => match o with Some l => h_cf l | None => 0 end)) in E. cbn [h2o_load h_cf] in E. rewrite <- E. apply dec_pos_R in Q. exact Q. }
  unfold std_models in Hm. cbn [In] in Hm. repeat (destruct Hm as [<-|Hm]; [cbn [String.eqb Ascii.eqb Bool.eqb] in H; refine (X _ _ _ _ _ _ _ H); reflexivity|]). destruct Hm.
Qed.

Lemma pair_nonneg w f0 sh f : 0 <= pair_of w f0 sh f.
Proof.
  unfold pair_of, wing. apply Rmult_le_pos; [apply Rle_0_sqr|]. assert (A := Rmax_r (lorentzian w (f - f0 - sh) - lorentzian w 750) 0). assert (B := Rmax_r (lorentzian w (f + f0 + sh) - lorentzian w 750) 0). lra.
Qed.

Lemma water_least m ll f pd vx ek : In m std_models -> good_h2o ll -> 0 < vx -> 0 <= ek -> 0 <= pd ->
  let e := h2o_env_of (A:=RA) m pd vx ek in con_of m ll (e_pda e) (e_pvap e) (h_reftcon ll / (300 / vx)) f <= water_of m ll f pd vx ek.
Proof.
  intros Hm G Hv He Hp. cbv zeta. destruct (h2o_env_range m pd vx ek Hv Hp He) as (_ & PR & _ & _ & PN). unfold water_of. cbv zeta.
  set (e := h2o_env_of (A:=RA) m pd vx ek) in *. match goal with |- ?c <= ?a + ?c => assert (0 <= a); [|lra] end.
  assert (PP := PI_RGT_0). match goal with |- 0 <= line_npkm _ _ _ ?s => assert (S : 0 <= s) end.
  { apply total_zero. intros l Hl. destruct (proj1 (Forall_forall _ _) (gh_lines _ G) l Hl) as [Hs _ _]. apply Rmult_le_pos; [lra|]. apply Rmult_le_pos; [|apply pair_nonneg].
      unfold strength. apply Rmult_le_pos; [apply Rmult_le_pos; [exact Hs|apply Rlt_le, Rpower_pos]|apply Rlt_le, exp_pos]. }
  set (s := total _ _) in *. clearbody s. unfold line_npkm. destruct (str_in m ["R22SD"; "R23SD"; "R24"]).
  - apply Rmult_le_pos; [apply Rmult_le_pos; [powers; lra|apply div_nonneg; [exact PR|powers; lra]]|apply div_nonneg; lra].
  - apply Rmult_le_pos; [apply Rmult_le_pos; [powers; lra|exact PN]|exact S].
Qed.

Lemma water_positive m ll f pd vx ek : In m std_models -> good_h2o ll -> 0 < h_cf ll -> 0 < f -> 0 < vx -> 0 < ek <= 1000 * pd -> 0 < water_of m ll f pd vx ek.
Proof.
  intros Hm G Hc Hf Hv He. destruct (env_pressures m pd vx ek Hv ltac:(lra)) as (E1 & E2 & _ & _).
  eapply Rlt_le_trans; [|apply water_least; [exact Hm|exact G|lra..]]. cbv zeta.
  set (e := h2o_env_of (A:=RA) m pd vx ek) in *. assert (PV : 0 < e_pvap e) by lra. assert (PD : 0 < e_pda e) by lra.
  assert (TC : 0 < h_reftcon ll / (300 / vx)) by (apply div_pos; [apply G|apply div_pos; lra]). set (tc := h_reftcon ll / (300 / vx)) in *. clearbody tc.
  assert (FF : forall a, 0 < a -> 0 < a * e_pvap e * f * f) by (intros a Ha; apply Rmult_lt_0_compat; [apply Rmult_lt_0_compat; [apply Rmult_lt_0_compat|]|]; assumption).
  unfold con_of. destruct (str_in m ["R03"; "R98"]); apply FF.
  - assert (0 < 5.43e-10 * e_pda e * (tc * tc * tc)) by (apply Rmult_lt_0_compat; [apply Rmult_lt_0_compat; [powers; lra|exact PD]|repeat apply Rmult_lt_0_compat; exact TC]).
    assert (0 < 1.8e-08 * e_pvap e * Rpower tc 7.5) by (apply Rmult_lt_0_compat; [apply Rmult_lt_0_compat; [powers; lra|exact PV]|apply Rpower_pos]). lra.
  - assert (0 < h_cf ll * e_pda e * Rpower tc (h_xcf ll)) by (repeat apply Rmult_lt_0_compat; try assumption; apply Rpower_pos).
    assert (0 <= h_cs ll * e_pvap e * Rpower tc (h_xcs ll)) by (apply Rmult_le_pos; [apply Rmult_le_pos; [apply G|lra]|apply Rlt_le, Rpower_pos]). lra.
Qed.

Lemma level_positive m g f p t e aw ad : In m std_models -> g_h2o g = Some m -> g_h2oll g = db_h2o (@shipped RA) m -> sky f p t e -> 0 < e ->
  clearsky_level (A:=RA) g None f p t e None = Ok (aw, ad) -> 0 < aw.
Proof.
  intros Hm G1 G2 (Hf & Ht & He & Hpe) P H. destruct (shipped_h2o_D m Hm) as (xw & lw & _ & W2 & _ & W4 & _).
  destruct (C53_level g None f p t e None aw ad H) as (nw & cw & no & co & an & ao & H1 & _ & _ & _ & -> & _).
  unfold h2o_call, over in H1. rewrite G1, G2, W2 in H1. assert (V : 0 < 300 / t) by (apply div_pos; lra).
  destruct (water_value m lw ((p - e) / 10) (300 / t) (e / 10) f Hm W4 V ltac:(lra) ltac:(lra) Hf) as (n & c & E & VW). rewrite E in H1. apply ok_inj in H1. injection H1 as <- <-. rewrite VW.
  apply water_positive; try assumption; [exact (shipped_cf m lw Hm W2)|lra].
Qed.

(** ** Runs *)

Lemma run_wet g m sat zs ps ts rhs f a : In m whole_models -> sounding zs ps ts rhs -> 0 < f -> 0 < a < 180 ->
  exists aw ad, ideal_absorption m "" ps ts rhs None f aw ad /\ length aw = length zs /\ wet_opacity g m sat zs ps ts rhs f a = Some (Fin (column true aw (slant_path zs a))).
Proof.
  intros Hm SO Hf Ha.
  destruct (C111_from_constructor g (four zs ps ts rhs) 0%nat 1%nat 2%nat 3%nat m zs ps ts rhs [f] [a] sat) as (h' & o & fr & full & o' & g' & E1 & E2 & E3 & E4); try reflexivity; try discriminate; try assumption.
  { left. exact Hm. }
  { intros f' [<-|[]]. split; [exact Hf|]. intros ->. unfold whole_models in Hm. cbn [In] in Hm. repeat (destruct Hm as [Hm|Hm]; [discriminate|]). destruct Hm. }
  { intros a' [<-|[]]. exact Ha. }
  destruct fr as [|r0 fr]; [discriminate|]. destruct (E4 0%nat 0%nat r0 ltac:(cbn; lia) ltac:(cbn; lia)) as (aw & ad & x & I1 & (L1 & _) & I2 & _ & _ & I3). cbn [nth] in I1, I3.
  exists aw, ad. split; [exact I1|]. split; [exact L1|]. unfold wet_opacity. cbn [map] in E1. rewrite E1, E2. cbn in I2. subst r0. f_equal. apply I3.
Qed.

Lemma combine4 {T1 T2 T3 T4} (l1 : list T1) (l2 : list T2) (l3 : list T3) (l4 : list T4) i d1 d2 d3 d4 n : length l1 = n -> length l2 = n -> length l3 = n -> length l4 = n -> (i < n)%nat ->
  length (combine l1 (combine l2 (combine l3 l4))) = n /\ nth i (combine l1 (combine l2 (combine l3 l4))) (d1, (d2, (d3, d4))) = (nth i l1 d1, (nth i l2 d2, (nth i l3 d3, nth i l4 d4))).
Proof.
  intros H1 H2 H3 H4 Hi. split; [rewrite !combine_length; lia|]. rewrite combine_nth by (rewrite !combine_length; lia). rewrite combine_nth by (rewrite !combine_length; lia). rewrite combine_nth by lia. reflexivity.
Qed.

Lemma level_of m ps ts rhs f aw ad i : length ts = length ps -> length rhs = length ps -> ideal_absorption m "" ps ts rhs None f aw ad -> (i < length ps)%nat ->
  exists adi, clearsky_level (A:=RA) (ideal m "") None f (nth i ps 0) (nth i ts 0) (nth i rhs 0 * goff_water (nth i ts 0)) None = Ok (nth i aw 0, adi).
Proof.
  intros Lt Lr H Hi. unfold ideal_absorption, clearsky_absorption in H. apply bind_Ok in H. destruct H as (r & Hr & H). apply ok_inj in H.
  assert (E1 := f_equal fst H). cbn [fst] in E1. clear H.
  assert (LV : length (vap ts rhs) = length ps) by (unfold vap; rewrite map_length, combine_length; lia).
  destruct (combine4 ps ts (vap ts rhs) (with_o3 (A:=RA) (length ps) None) i 0 0 0 None (length ps) eq_refl Lt LV (repeat_length _ _) Hi) as [LL EN].
  assert (K := mapM_nth _ _ r i (0, (0, (0, None))) (0, 0) Hr (eq_ind_r (fun k => (i < k)%nat) Hi LL)).
  replace (nth i (vap ts rhs) 0) with (nth i rhs 0 * goff_water (nth i ts 0)) in EN.
  2: { unfold vap. rewrite (nth_map_d (fun x => snd x * goff_water (fst x)) _ i (0, 0)) by (rewrite combine_length; lia). rewrite combine_nth by lia. reflexivity. }
  replace (nth i (with_o3 (A:=RA) (length ps) None) None) with (@None R) in EN by (cbn [with_o3]; symmetry; apply nth_repeat).
  apply (eq_trans (f_equal (fun '(p, (t, (e, o))) => clearsky_level (A:=RA) (ideal m "") None f p t e o) (eq_sym EN))) in K.
  exists (snd (nth i r (0, 0))). rewrite <- E1. rewrite (nth_map_d fst r i (0, 0)) by (apply mapM_length in Hr; exact (eq_ind_r (fun k => (i < k)%nat) Hi (eq_trans Hr LL))).
  etransitivity; [exact K|]. f_equal. destruct (nth i r (0, 0)); reflexivity.
Qed.

Lemma split_last (x : list R) n : length x = S n -> x = (firstn n x ++ [nth n x 0])%list.
Proof.
  intros L. apply (List.nth_ext _ _ 0 0); [rewrite app_length, firstn_length; cbn; lia|]. intros i Hi. destruct (Nat.eq_dec i n) as [->|N].
  - rewrite app_nth2 by (rewrite firstn_length; lia). rewrite firstn_length. replace (n - Nat.min n (length x))%nat with 0%nat by lia. reflexivity.
  - rewrite app_nth1 by (rewrite firstn_length; lia). rewrite <- (firstn_skipn n x) at 1. rewrite app_nth1 by (rewrite firstn_length; lia). reflexivity.
Qed.

(** Drying the top level of a sounding: the wet opacity of the run does not go to that of the dry level but stays below it by half the opacity
    that the layer would have with the absorption [u] of its bottom everywhere. *)
Theorem C151_dry_top_refuted g m sat zs ps ts rhs f a : In m whole_models -> sounding zs ps ts (rhs ++ [0])%list -> rhs <> [] -> 0 < f -> 0 < a < 180 ->
  let k := (length rhs - 1)%nat in
  exists u ud, clearsky_level (A:=RA) (ideal m "") None f (nth k ps 0) (nth k ts 0) (nth k rhs 0 * goff_water (nth k ts 0)) None = Ok (u, ud) /\
  (1e-9 < u -> forall eps, 0 < eps -> exists delta, 0 < delta /\ forall r, 0 < r < delta ->
    exists tau tau0, wet_opacity g m sat zs ps ts (rhs ++ [r])%list f a = Some (Fin tau) /\ wet_opacity g m sat zs ps ts (rhs ++ [0])%list f a = Some (Fin tau0) /\
      Rabs (tau0 - tau - u / 2 * slant zs a (length rhs)) < eps).
Proof.
  intros Hm SO Hne Hf Ha k. assert (SO' := SO). destruct SO' as [S1 S2 S3 S4 S5 S6 S7 S8]. assert (Hn : (1 <= length rhs)%nat) by (destruct rhs; [congruence|cbn; lia]).
  rewrite app_length in S4. cbn [length] in S4. set (n := length rhs) in *.
  assert (Ms : In m std_models) by (unfold whole_models, std_models in *; cbn [In] in *; tauto).
  destruct (run_wet g m sat zs ps ts (rhs ++ [0])%list f a Hm SO Hf Ha) as (aw & ad & I & L & W).
  assert (LA : forall r, length (rhs ++ [r])%list = length ps) by (intros; rewrite app_length; cbn [length]; unfold n in *; lia).
  destruct (level_of m ps ts (rhs ++ [0])%list f aw ad k ltac:(lia) (LA 0) I ltac:(unfold k; lia)) as (ud & HU).
  rewrite app_nth1 in HU by (unfold k, n in *; lia). exists (nth k aw 0), ud. split; [exact HU|]. set (u := nth k aw 0) in *. intros Hu eps He.
  set (d := nth n (slant_path zs a) 0).
  assert (ED : d = slant zs a n) by (unfold d, slant_path; rewrite (nth_map_d _ _ _ 0%nat) by (rewrite seq_length; lia); rewrite seq_nth by lia; reflexivity).
  assert (Pd : 0 <= d) by (apply (slant_nonneg zs a S5 Ha), nth_In; unfold slant_path; rewrite map_length, seq_length; lia).
  destruct (mean_vanishes u Hu) as [M0 M1]. destruct (M1 (eps / (d + 1)) ltac:(apply div_pos; lra)) as (d1 & P1 & K1).
  set (pt := nth n ps 0). set (tt := nth n ts 0). assert (Tt : 0 < tt) by (apply S6, nth_In; lia). assert (GP : 0 < goff_water tt) by apply Rpower_pos.
  assert (Pt : 0 < pt).
  { assert (X := S8 n ltac:(lia)). rewrite app_nth2, Nat.sub_diag in X by (unfold n; lia). cbn [nth] in X. fold pt in X. lra. }
  destruct (C150_drying m (ideal m "") f pt tt Ms eq_refl eq_refl eq_refl eq_refl eq_refl Hf Pt Tt d1 P1) as (d2 & P2 & K2).
  assert (D3 : 0 < Rmin d2 (pt / 2)) by (apply Rmin_pos; lra). exists (Rmin d2 (pt / 2) / goff_water tt). split; [apply div_pos; assumption|]. intros r Hr.
  assert (Er : 0 < r * goff_water tt < Rmin d2 (pt / 2)).
  { split; [apply Rmult_lt_0_compat; lra|]. assert (Hr2 := Rmult_lt_compat_r (goff_water tt) _ _ GP (proj2 Hr)). unfold Rdiv at 1 in Hr2. rewrite Rmult_assoc, Rinv_l in Hr2 by lra. lra. }
  assert (M2 := Rmin_l d2 (pt / 2)). assert (M3 := Rmin_r d2 (pt / 2)).
  assert (SR : sounding zs ps ts (rhs ++ [r])%list).
  { constructor; auto; [rewrite app_length; cbn [length]; unfold n in *; lia| |].
    - intros v Hv. apply in_app_iff in Hv. destruct Hv as [Hv|[<-|[]]]; [apply S7, in_app_iff; left; exact Hv|lra].
    - intros i Hi. destruct (Nat.eq_dec i n) as [->|Ni].
      + rewrite app_nth2, Nat.sub_diag by (unfold n; lia). cbn [nth]. fold pt tt. lra.
      + assert (X := S8 i Hi). rewrite app_nth1 in X |- * by (unfold n in *; lia). exact X. }
  destruct (run_wet g m sat zs ps ts (rhs ++ [r])%list f a Hm SR Hf Ha) as (aw' & ad' & I' & L' & W').
  exists (column true aw' (slant_path zs a)), (column true aw (slant_path zs a)). split; [exact W'|]. split; [exact W|].
  assert (SAME : forall i, (i < n)%nat -> nth i aw' 0 = nth i aw 0).
  { intros i Hi. destruct (level_of m ps ts (rhs ++ [0])%list f aw ad i ltac:(lia) (LA 0) I ltac:(lia)) as (b1 & Q1). destruct (level_of m ps ts (rhs ++ [r])%list f aw' ad' i ltac:(lia) (LA r) I' ltac:(lia)) as (b2 & Q2).
    rewrite app_nth1 in Q1, Q2 by (unfold n in *; lia). rewrite Q1 in Q2. apply ok_inj in Q2. injection Q2 as <- _. reflexivity. }
  destruct (level_of m ps ts (rhs ++ [0])%list f aw ad n ltac:(lia) (LA 0) I ltac:(lia)) as (b1 & Q1). destruct (level_of m ps ts (rhs ++ [r])%list f aw' ad' n ltac:(lia) (LA r) I' ltac:(lia)) as (b2 & Q2).
  rewrite app_nth2, Nat.sub_diag in Q1, Q2 by (unfold n; lia). cbn [nth] in Q1, Q2. fold pt tt in Q1, Q2. rewrite Rmult_0_l in Q1.
  assert (Z : nth n aw 0 = 0).
  { destruct (C53_level (ideal m "") None f pt tt 0 None _ _ Q1) as (nw & cw & no & co & an & ao & H1 & _ & _ & _ & E1 & _).
    rewrite E1. destruct (shipped_h2o_D m Ms) as (xw & lw & _ & W2 & _). unfold h2o_call, over in H1. cbn [ideal g_h2o g_h2oll] in H1. rewrite W2 in H1.
    replace (0 / 10) with 0 in H1 by lra. rewrite C57_no_vapour in H1 by (apply div_pos; lra). apply ok_inj in H1. injection H1 as <- <-. unfold npkm. ra. lra. }
  assert (SK : sky f pt tt (r * goff_water tt)) by (repeat split; lra).
  assert (V1 : 0 < nth n aw' 0) by (apply (level_positive m (ideal m "") f pt tt (r * goff_water tt) _ b2 Ms eq_refl eq_refl SK); [lra|exact Q2]).
  assert (V2 : nth n aw' 0 < d1).
  { destruct (K2 (r * goff_water tt) ltac:(lra)) as (x1 & x2 & X1 & X2). rewrite X1 in Q2. apply ok_inj in Q2. injection Q2 as E _. rewrite <- E. apply Rabs_def2 in X2. lra. }
  assert (C := K1 (nth n aw' 0) (conj V1 V2)).
  assert (A1 := split_last aw n ltac:(lia)). assert (A2 := split_last aw' n ltac:(lia)).
  assert (F : firstn n aw' = firstn n aw).
  { apply (List.nth_ext _ _ 0 0); [rewrite !firstn_length; lia|]. intros i Hi. rewrite firstn_length in Hi.
    assert (X : forall y : list R, (n <= length y)%nat -> nth i (firstn n y) 0 = nth i y 0) by (intros y Hy; rewrite <- (firstn_skipn n y) at 2; rewrite app_nth1 by (rewrite firstn_length; lia); reflexivity).
    rewrite !X by lia. apply SAME. lia. }
  rewrite F in A2. rewrite Z in A1. set (x := firstn n aw) in *. assert (Lx : length x = n) by (unfold x; rewrite firstn_length; lia).
  assert (U : nth (length x - 1) x 0 = u).
  { rewrite Lx. unfold u. rewrite A1. rewrite app_nth1 by (unfold k; lia). reflexivity. }
  set (v := nth n aw' 0) in *. clearbody v x. rewrite A1, A2, !(last_layer x u) by (assumption || lia). rewrite Lx. fold d. rewrite <- ED, M0.
  match goal with |- Rabs ?e < _ => replace e with (- (layer_mean true u v * d)) by ring end. rewrite Rabs_Ropp, Rabs_right by (apply Rle_ge, Rmult_le_pos; lra).
  apply Rle_lt_trans with (eps / (d + 1) * d); [apply Rmult_le_compat_r; lra|].
  apply Rmult_lt_reg_r with (d + 1); [lra|]. replace (eps / (d + 1) * d * (d + 1)) with (eps * d) by (field; lra). nra.
Qed.

(** At most 999 parts in 1000 of the pressure are vapour. *)
Definition airy (ps ts rhs : list R) : Prop := forall i, (i < length ps)%nat -> nth i rhs 0 * goff_water (nth i ts 0) <= 1000 * (nth i ps 0 - nth i rhs 0 * goff_water (nth i ts 0)).

(** One step for finitely many levels. *)
Lemma common_step n (P : nat -> R -> Prop) : (forall i d d', P i d -> 0 < d' <= d -> P i d') -> (forall i, (i < n)%nat -> exists d, 0 < d /\ P i d) -> exists d, 0 < d /\ forall i, (i < n)%nat -> P i d.
Proof.
  intros Hm. induction n as [|n IH]; intros H; [exists 1; split; [lra|intros; lia]|].
  destruct IH as (d1 & P1 & K1); [intros; apply H; lia|]. destruct (H n ltac:(lia)) as (d2 & P2 & K2). exists (Rmin d1 d2). assert (M := Rmin_pos d1 d2 P1 P2). assert (M1 := Rmin_l d1 d2). assert (M2 := Rmin_r d1 d2). split; [exact M|].
  intros i Hi. destruct (Nat.eq_dec i n) as [->|N]; [apply (Hm n d2); [exact K2|lra]|apply (Hm i d1); [apply K1; lia|lra]].
Qed.

(** Where every level is moist, nearby humidities give nearby wet opacities of the runs, up to the threshold of the code. *)
Theorem C151_moist g m sat zs ps ts rhs f a : In m whole_models -> sounding zs ps ts rhs -> airy ps ts rhs -> (forall r, In r rhs -> 0 < r) -> 0 < f -> 0 < a < 180 ->
  forall eps, 0 < eps -> exists delta, 0 < delta /\ forall rhs', close delta rhs rhs' -> sounding zs ps ts rhs' -> airy ps ts rhs' -> (forall r, In r rhs' -> 0 < r) ->
    exists tau tau', wet_opacity g m sat zs ps ts rhs f a = Some (Fin tau) /\ wet_opacity g m sat zs ps ts rhs' f a = Some (Fin tau') /\
      Rabs (tau' - tau) <= eps + 2e-9 * total_tau (slant_path zs a).
Proof.
  intros Hm SO HA HP Hf Ha eps He. assert (Ms : In m std_models) by (unfold whole_models, std_models in *; cbn [In] in *; tauto).
  destruct (C150_shipped m (ideal m "") Ms eq_refl eq_refl eq_refl eq_refl eq_refl) as (AW & AD & HV & HJ).
  assert (SK : forall r, sounding zs ps ts r -> airy ps ts r -> forall i, (i < length ps)%nat -> sky f (nth i ps 0) (nth i ts 0) (nth i r 0 * goff_water (nth i ts 0))).
  { intros r [T1 T2 T3 T4 T5 T6 T7 T8] T9 i Hi. assert (GP : 0 < goff_water (nth i ts 0)) by apply Rpower_pos. assert (0 <= nth i r 0) by (apply T7, nth_In; lia).
    split; [exact Hf|]. split; [apply T6, nth_In; lia|]. split; [split; [apply Rmult_le_pos; lra|apply T8; lia]|apply T9; exact Hi]. }
  assert (RW : forall r, sounding zs ps ts r -> airy ps ts r -> (forall v, In v r -> 0 < v) -> exists aw, length aw = length ps /\ wet_opacity g m sat zs ps ts r f a = Some (Fin (column true aw (slant_path zs a))) /\
    (forall v, In v aw -> 0 < v) /\ forall i, (i < length ps)%nat -> nth i aw 0 = AW f (nth i ps 0) (nth i ts 0) (nth i r 0 * goff_water (nth i ts 0))).
  { intros r T A P. destruct (run_wet g m sat zs ps ts r f a Hm T Hf Ha) as (aw & ad & I & L & W). assert (T' := T). destruct T' as [T1 T2 T3 T4 T5 T6 T7 T8].
    exists aw. split; [lia|]. split; [exact W|].
    assert (E : forall i, (i < length ps)%nat -> 0 < nth i aw 0 /\ nth i aw 0 = AW f (nth i ps 0) (nth i ts 0) (nth i r 0 * goff_water (nth i ts 0))).
    { intros i Hi. destruct (level_of m ps ts r f aw ad i ltac:(lia) ltac:(lia) I Hi) as (b & Q). assert (S := SK r T A i Hi). split.
      - apply (level_positive m (ideal m "") f _ _ _ _ b Ms eq_refl eq_refl S); [|exact Q]. apply Rmult_lt_0_compat; [apply P, nth_In; lia|apply Rpower_pos].
      - rewrite (HV _ _ _ _ S) in Q. apply ok_inj in Q. injection Q as Q _. symmetry. exact Q. }
    split; [|intros i Hi; apply E; exact Hi]. intros v Hv. destruct (In_nth aw v 0 Hv) as (i & Hi & <-). apply E. lia. }
  destruct (RW rhs SO HA HP) as (aw & L & W & PA & VA). assert (SO' := SO). destruct SO' as [T1 T2 T3 T4 T5 T6 T7 T8].
  destruct (C151_positive true aw (slant_path zs a) PA (slant_nonneg zs a T5 Ha) ltac:(unfold slant_path; rewrite map_length, seq_length; lia) eps He) as (dx & Pdx & Kx).
  destruct (common_step (length ps) (fun i d => forall r', sky f (nth i ps 0) (nth i ts 0) (r' * goff_water (nth i ts 0)) -> Rabs (r' - nth i rhs 0) < d ->
    Rabs (AW f (nth i ps 0) (nth i ts 0) (r' * goff_water (nth i ts 0)) - AW f (nth i ps 0) (nth i ts 0) (nth i rhs 0 * goff_water (nth i ts 0))) < dx)) as (d & Pd & Kd).
  { intros i d d' H Hd r' S B. apply H; [exact S|lra]. }
  { intros i Hi. destruct (proj1 (HJ _ _ _ _ (SK rhs SO HA i Hi)) dx Pdx) as (d & Pd & K). assert (GP : 0 < goff_water (nth i ts 0)) by apply Rpower_pos.
    exists (d / goff_water (nth i ts 0)). split; [apply div_pos; assumption|]. intros r' S B. apply K; [exact S|]. unfold within4. rewrite !Rminus_diag_eq, !Rabs_R0 by reflexivity. repeat split; try exact Pd.
    rewrite <- Rmult_minus_distr_r, Rabs_mult, (Rabs_right (goff_water _)) by lra. assert (B2 := Rmult_lt_compat_r _ _ _ GP B). unfold Rdiv in B2. rewrite Rmult_assoc, Rinv_l in B2 by lra. lra. }
  exists d. split; [exact Pd|]. intros rhs' [C1 C2] S' A' P'. destruct (RW rhs' S' A' P') as (aw' & L' & W' & PA' & VA').
  exists (column true aw (slant_path zs a)), (column true aw' (slant_path zs a)). split; [exact W|]. split; [exact W'|]. apply Kx; [|exact PA']. split; [lia|]. intros i Hi.
  rewrite VA, VA' by lia. apply Kd; [lia|apply (SK rhs' S' A'); lia|apply C2; lia].
Qed.

(** 22.235 GHz at 300 K over air of 290 K, 10 hPa of vapour at the ground. *)
Lemma example_sounding r : 0 <= r -> r * goff_water 290 < 900 -> sounding [0; 1] [1000; 900] [300; 290] [10 / goff_water 300; r].
Proof.
  intros Hr Hd. assert (GP : 0 < goff_water 300) by apply Rpower_pos. constructor; try reflexivity; try discriminate.
  - intros [|[|i]] Hi; cbn in *; try lia; lra.
  - intros t [<-|[<-|[]]]; lra.
  - intros v [<-|[<-|[]]]; [apply Rlt_le, div_pos; lra|exact Hr].
  - intros [|[|i]] Hi; cbn [nth length] in *; [unfold Rdiv; rewrite Rmult_assoc, Rinv_l by lra; lra|exact Hd|lia].
Qed.

Example C151_example g sat : exists jump, 1e-10 < jump /\ forall eps, 0 < eps -> exists delta, 0 < delta /\ forall r, 0 < r < delta ->
  exists tau tau0, wet_opacity g "R17" sat [0; 1] [1000; 900] [300; 290] [10 / goff_water 300; r] 22.235 90 = Some (Fin tau) /\
    wet_opacity g "R17" sat [0; 1] [1000; 900] [300; 290] [10 / goff_water 300; 0] 22.235 90 = Some (Fin tau0) /\ Rabs (tau0 - tau - jump) < eps.
Proof.
  assert (GP : 0 < goff_water 300) by apply Rpower_pos.
  destruct (C151_dry_top_refuted g "R17" sat [0; 1] [1000; 900] [300; 290] [10 / goff_water 300] 22.235 90) as (u & ud & HU & K); try lra.
  { unfold whole_models. cbn [In]. tauto. } { apply example_sounding; lra. } { discriminate. }
  cbn [length Nat.sub nth] in HU. unfold Rdiv in HU at 1. rewrite Rmult_assoc, Rinv_l, Rmult_1_r in HU by lra.
  assert (U : 1e-9 < u).
  { assert (Ms : In "R17" std_models) by (unfold std_models; cbn [In]; tauto). destruct (shipped_h2o_D "R17" Ms) as (xw & lw & _ & W2 & _ & W4 & _).
    destruct (C53_level (ideal "R17" "") None 22.235 1000 300 10 None u ud HU) as (nw & cw & no & co & an & ao & H1 & _ & _ & _ & -> & _).
    unfold h2o_call, over in H1. cbn [ideal g_h2o g_h2oll] in H1. rewrite W2 in H1.
    destruct (water_value "R17" lw ((1000 - 10) / 10) (300 / 300) (10 / 10) 22.235 Ms W4 ltac:(lra) ltac:(lra) ltac:(lra) ltac:(lra)) as (n & c & E & VW). rewrite E in H1. apply ok_inj in H1. injection H1 as <- <-. rewrite VW.
    eapply Rlt_le_trans; [|apply water_least; [exact Ms|exact W4|lra..]].
    destruct (env_pressures "R17" ((1000 - 10) / 10) (300 / 300) (10 / 10) ltac:(lra) ltac:(lra)) as (E1 & E2 & _ & _).
    set (e := h2o_env_of (A:=RA) "R17" ((1000 - 10) / 10) (300 / 300) (10 / 10)) in *. clearbody e.
    change (shipped_h2o (A:=RA) "R17" = Some lw) in W2. unfold shipped_h2o in W2. cbn [String.eqb Ascii.eqb Bool.eqb] in W2.
    assert (C1 : h_cf lw = lit (a:=RA) 5.96e-10) by (injection W2 as <-; reflexivity). assert (C2 : h_reftcon lw = lit (a:=RA) 300.0) by (injection W2 as <-; reflexivity).
    assert (C3 : 0 <= h_cs lw) by apply W4. clear W2.
    unfold con_of. cbn [str_in String.eqb Ascii.eqb Bool.eqb existsb orb]. rewrite C1, C2. ra. replace (3000 / 10 / (300 / (300 / 300))) with 1 by lra.
    unfold Rpower. rewrite ln_1, !Rmult_0_r, exp_0, !Rmult_1_r.
    assert (PV : 9.9 <= e_pvap e) by lra. assert (PD : 900 <= e_pda e) by lra. set (pv := e_pvap e : R) in *. set (pd := e_pda e : R) in *. clearbody pv pd.
    assert (A1 : 0 <= h_cs lw * pv) by (apply Rmult_le_pos; lra). assert (A2 : 5e-7 <= 596 / 1000000000000 * pd + h_cs lw * pv) by (powers; lra).
    set (q := 596 / 1000000000000 * pd + h_cs lw * pv) in *. clearbody q. assert (4e-6 <= q * pv) by (powers; nra). powers. nra. }
  exists (u / 2 * 1). split; [powers; lra|]. intros eps He. destruct (K U eps He) as (d & Pd & K'). exists d. split; [exact Pd|]. intros r Hr. destruct (K' r Hr) as (tau & tau0 & Q1 & Q2 & Q3).
  exists tau, tau0. split; [exact Q1|]. split; [exact Q2|]. replace (slant [0; 1] 90 (length [10 / goff_water 300])) with 1 in Q3; [exact Q3|].
  unfold slant. cbn [length nth]. replace (90 * PI / 180) with (PI / 2) by lra. rewrite sin_PI2. lra.
Qed.
