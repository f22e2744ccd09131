(** Claim C130: runs with different models for the different gases, as in the examples of the documentation ([init_absmdl("R20")]
    followed by [H2OAbsModel.model = "R21SD"]), with or without an ozone profile, end to end. *)

From Coq Require Import ZArith Reals Lra Lia String List Bool.
Import ListNotations.
From Verif Require Import Arith PyBase Utils RTE Absorption Clear Spectrum Spec ListAux RealAux PlanckReal PlanckMaster PropsPlanck Integral
  SolverGen SolverRun Registry PropsRun PropsObject PropsModels PropsSolverX PropsRay PropsLiq LineData Lineshape PropsAbsN2 PropsClear PropsO2H2O PropsH2O PropsO2Data PropsO3
  PropsUtils PropsSelfCont FinTransfer FinGas FinSD PropsUtils3 FinClear PropsRow WeightingGen SolverExamples FinCloud PropsEnd.
Local Open Scope string_scope.
Open Scope R_scope.

(** ** Specification *)

(** The class attributes: [mw] for water vapour, [mo] for oxygen, [mn] for nitrogen, [ml] for cloud water. *)
Definition chosen (g : globals XA) (mw mo mn ml : string) : Prop := g_h2o g = Some mw /\ g_o2 g = Some mo /\ g_n2 g = Some mn /\ g_liq g = Some ml.

(** Combinations with finite, non-negative absorption: any oxygen model with a line list except R98, any nitrogen model, any
    water-vapour model with a line list; speed-dependent water-vapour shapes between 100 K and 385 K, up to 1100 hPa. *)
Record covers (mw mo mn : string) (ps ts : list R) : Prop := mkCovers {
  cv_water : In mw std_models \/ (In mw sd_fin_models /\ (forall t, In t ts -> 100 <= t <= 385) /\ forall p, In p ps -> p <= 1100);
  cv_oxygen : In mo fin_o2_names /\ mo <> "R98";
  cv_nitrogen : In mn n2_models }.
Definition covered (mw : string) (f : R) : Prop := 0 < f /\ (In mw ["R23SD"; "R24"; "MWL24"] -> f < 4 * node).

Definition mixed (mw mo mn mz : string) : globals RA :=
  mkGlobals (A:=RA) (Some mw) (Some mo) (Some mn) None (Some mz) (db_h2o (@shipped RA) mw) (db_o2 (@shipped RA) mo) (db_o3 (@shipped RA) mz) false 1.
Definition mixed_absorption (mw mo mn mz : string) (ps ts rhs : list R) (o3 : option (list R)) (f : R) (aw ad : list R) : Prop :=
  clearsky_absorption (A:=RA) (mixed mw mo mn mz) None ps ts (vap ts rhs) f o3 = Ok (aw, ad).

(** ** Proofs *)

Definition with_lists (g : globals XA) ll ll2 := with_o2ll (with_h2oll g (Some ll)) (Some ll2).

Lemma covers_names mw (ps ts : list R) : In mw std_models \/ (In mw sd_fin_models /\ (forall t, In t ts -> 100 <= t <= 385) /\ forall p, In p ps -> p <= 1100) ->
  In mw h2o_names.
Proof. intros [H|[H _]]; unfold std_models, sd_fin_models in H; cbn in *; tauto. Qed.

Lemma fin_o2_loaded mo : In mo fin_o2_names -> In mo o2_names /\ True.
Proof. intros H. split; [|exact I]. unfold fin_o2_names, plain_o2_names in H. cbn in *. tauto. Qed.

Lemma lists_found (g : globals XA) mw mo : g_h2o g = Some mw -> g_o2 g = Some mo -> In mw h2o_names -> In mo o2_names ->
  exists ll ll2, db_h2o (@shipped XA) mw = Some ll /\ db_o2 (@shipped XA) mo = Some ll2 /\ init_linelist (@shipped XA) g = Ok (with_lists g ll ll2).
Proof.
  intros Hw Ho Nw No. destruct (C48_shipped_registered XA mw) as (R1 & _). destruct (C48_shipped_registered XA mo) as (_ & R2 & _).
  destruct (db_h2o (@shipped XA) mw) as [ll|] eqn:E1; [|exfalso; apply R1; auto]. destruct (db_o2 (@shipped XA) mo) as [ll2|] eqn:E2; [|exfalso; apply R2; auto].
  exists ll, ll2. split; [reflexivity|]. split; [reflexivity|]. unfold init_linelist, set_ll_h2o. rewrite Hw, E1. cbn [bind].
  unfold set_ll_o2. cbn [with_h2oll g_o2]. rewrite Ho, E2. reflexivity.
Qed.

Lemma covers_range mw (ps ts : list R) f i : In mw std_models \/ (In mw sd_fin_models /\ (forall t, In t ts -> 100 <= t <= 385) /\ forall p, In p ps -> p <= 1100) ->
  covered mw f -> (i < length ts)%nat -> length ps = length ts -> water_range mw f (nth i ps 0) (nth i ts 0).
Proof.
  intros [H|(H & Ht & Hp)] [_ U] Hi L; [left; exact H|]. right. split; [exact H|]. split; [apply Ht, nth_In; lia|]. split; [apply Hp, nth_In; lia|exact U].
Qed.

Lemma mixed_returns mw (ps ts : list R) (ll : h2o_ll XA) p v e f : In mw std_models \/ (In mw sd_fin_models /\ (forall t, In t ts -> 100 <= t <= 385) /\ forall p, In p ps -> p <= 1100) ->
  covered mw f -> exists x, h2o_absorption mw ll p v e (Fin f) = Ok x.
Proof.
  intros Hm [H0 U]. assert (Hm' : In mw (std_models ++ sd_fin_models)%list) by (apply in_or_app; tauto). clear Hm.
  unfold h2o_absorption. destruct (eqb _ _); [eauto|].
  assert (Hs : exists s, h2o_summ mw ll (h2o_env_of mw p v e) (Fin f : car XA) = Some s).
  { unfold h2o_summ. unfold std_models, sd_fin_models in Hm'. cbn [app] in Hm'. repeat (destruct Hm' as [<-|Hm']; [eexists; reflexivity|]). destruct Hm'. }
  destruct Hs as [s ->].
  assert (Hc : exists c, h2o_con2 mw ll (h2o_env_of mw p v e) v (Fin f : car XA) = Ok c).
  { unfold h2o_con2. destruct (str_in mw ["R23SD"; "R24"]) eqn:M; [|eauto]. destruct (ltb _ _); [cbn [bind]; eauto|].
    assert (IM : In mw ["R23SD"; "R24"]) by (unfold str_in in M; apply existsb_exists in M; destruct M as (q & Q1 & Q2); apply String.eqb_eq in Q2; subst q; exact Q1).
    destruct (continuum_ok (A:=XA) (Fin f) v (usable_freq_ok f ltac:(split; [exact H0|apply U; cbn [In] in *; tauto]))) as [c ->]. cbn [bind]. eauto. }
  destruct Hc as [c ->]. cbn [bind]. eauto.
Qed.

Lemma clear_total_mixed (g : globals XA) amu mw mn (ps ts : list R) ll ll2 p t e f o3n :
  In mw std_models \/ (In mw sd_fin_models /\ (forall t, In t ts -> 100 <= t <= 385) /\ forall p, In p ps -> p <= 1100) -> In mn n2_models -> covered mw f ->
  g_h2o g = Some mw -> g_n2 g = Some mn -> g_h2oll g = Some ll -> g_o2ll g = Some ll2 ->
  (o3n = None \/ g_o3ll g <> None) ->
  exists w d, clearsky_absorption g amu p t e (Fin f) o3n = Ok (w, d).
Proof.
  intros Hm Hn U H1 H3 H4 H5 H6. unfold clearsky_absorption.
  match goal with |- context [mapM ?F ?L] => destruct (proj2 (mapM_ok_iff F L)) as [r ->] end.
  2:{ cbn [bind]. eauto. }
  intros (p0 & t0 & e0 & o) Hin.
  assert (Ho : o = None \/ g_o3ll g <> None).
  { destruct H6 as [->|H6]; [|auto]. left. apply in_combine_r in Hin. apply in_combine_r in Hin. apply in_combine_r in Hin.
    eapply repeat_spec; eauto. }
  unfold clearsky_level, h2o_call. rewrite H1, H4.
  match goal with |- context [h2o_absorption mw ?a ?b ?c ?d ?e] => destruct (mixed_returns mw ps ts a b c d f Hm U) as [w ->] end. cbn [bind].
  unfold o2_call. rewrite H5. cbn [bind]. unfold n2_call. rewrite H3.
  match goal with |- context [n2_absorption mn ?a ?b ?c] => destruct (proj1 (C54_names XA mn a b c) Hn) as [an2 En2]; 
    assert (EN : match mn with "" => Ok (lit (a:=XA) 0) | String _ _ => n2_absorption mn a b c end = Ok an2) by (destruct mn; [exfalso; unfold n2_models in Hn; cbn in Hn; repeat destruct Hn as [Hn|Hn]; try discriminate; exact Hn|exact En2]) end.
  rewrite EN. cbn [bind].
  unfold o3_call. destruct o as [n|]; [|cbn [bind]; eauto].
  destruct Ho as [Ho|Ho]; [discriminate|]. destruct (g_o3ll g); [|congruence].
  destruct (str_in _ _); cbn [bind]; eauto.
Qed.

Lemma run_mixed (path : R -> list R) (g : globals XA) (h : heap XA) o mw mo mn ml mz zs ps ts rhs o3 dl di : chosen g mw mo mn ml -> covers mw mo mn ps ts -> wf h o -> cloud_input h o ml ts dl di ->
  o_ice o = false -> o_unc o = false -> ozone_input g h o mz o3 ->
  hget h (o_z o) = map Fin zs -> hget h (o_p o) = map Fin ps -> hget h (o_tk o) = map Fin ts -> hget h (o_rh o) = map Fin rhs -> sounding zs ps ts rhs ->
  (forall x, In x (o_frq o) -> exists f, x = Fin f /\ covered mw f) ->
  (forall x, In x (o_angles o) -> exists a, x = Fin a /\ (forall v, In v (path a) -> 0 <= v) /\
     forall dryn wetn refindx, refractivity (A:=XA) (map Fin ps) (map Fin ts) (map Fin (vap ts rhs)) = (dryn, wetn, refindx) ->
     path_ds (inputs_of h o) refindx x = Ok (map Fin (path a))) ->
  (forall x, In x (hget h (o_es o)) -> exists es, x = Fin es /\ (o_sat o = true -> 0 < es)) ->
  exists fr full o' g', execute (@shipped XA) g h o = Ok (fr, full, o', g') /\ length fr = (length (o_angles o) * length (o_frq o))%nat /\
  forall k j dr, (k < length (o_angles o))%nat -> (j < length (o_frq o))%nat ->
  exists f a es aw ad al ai, nth j (o_frq o) x0 = Fin f /\ nth k (o_angles o) x0 = Fin a /\ nth j (hget h (o_es o)) x0 = Fin es /\
    mixed_absorption mw mo mn mz ps ts rhs o3 f aw ad /\ ideal_clouds ml ts dl di f al ai /\ (length al = length ts /\ length ai = length ts /\ forall v, In v al \/ In v ai -> 0 <= v) /\
    (length aw = length ts /\ length ad = length ts /\ forall v, In v aw \/ In v ad -> 0 <= v) /\
    let x := nth j (an_rows (nth k full angle0)) full0 in
    nth (k * length (o_frq o) + j) fr dr = f_row x /\ f_awet x = map Fin aw /\ f_adry x = map Fin ad /\
    spec_row (o_sat o) f es a ts (path a) aw ad al ai x.
Proof.
  intros Hc0 Hm W Hcl Hi Hu Hoz Hz Hp Ht Hrh SO Hfr Han Hes.
  destruct Hc0 as (Gw & Go & Gn & Gl). destruct Hm as [Mw (M2 & M3) M4].
  destruct (lists_found g mw mo Gw Go (covers_names mw ps ts Mw) (proj1 (fin_o2_loaded mo M2))) as (ll & ll2 & Lw & Lo & Ell).
  assert (Amu : i_amu (inputs_of h o) = None) by (cbn [inputs_of i_amu]; try rewrite Hu; reflexivity).
  destruct (execute_ok (@shipped XA) g _ h o W ltac:(destruct Hcl as [(X & _)|(_ & X & _)]; [intros X'; congruence|exact X]) Hi Ell) as ((((fr & full) & o') & g') & H).
  { intros x e rho dn wn refindx Hx Ev Er _. destruct (Han x Hx) as (a & _ & _ & Hpa). exists (map Fin (path a)). apply (Hpa dn wn refindx).
    rewrite Ht, Hrh in Ev. rewrite (vapor_D ts rhs (so_tpos _ _ _ _ SO)) in Ev. apply ok_inj in Ev.
    assert (Ee : e = map Fin (vap ts rhs)) by exact (eq_sym (f_equal fst Ev)). rewrite Hp, Ht, Ee in Er. exact Er. }
  { intros x e Hx _. destruct (Hfr x Hx) as (f & -> & Hf). eapply (clear_total_mixed _ _ mw mn ps ts ll ll2); eauto; try reflexivity.
    unfold ozone_input in Hoz. destruct o3 as [l|].
    - right. destruct Hoz as (a & _ & _ & _ & Hmz & _ & E). cbn [with_sat with_lists with_o2ll with_h2oll g_o3ll]. rewrite E. destruct (shipped_o3_D mz Hmz) as (_ & _ & xl & _ & -> & _). discriminate.
    - left. cbn [inputs_of i_o3n]. rewrite Hoz. reflexivity. }
  { intros x adi adl Hc Hx Hd. destruct Hcl as [(X & _)|(_ & _ & (ai & al & E1 & E2 & E3) & Hl)]; [congruence|].
    rewrite E1 in Hd. injection Hd as <- <-. destruct (Hfr x Hx) as (f & -> & Hf & _). destruct (wf_dens _ _ W _ _ E1) as [D1 D2].
    assert (Lt := wf_tk _ _ W). rewrite E2 in D1. rewrite E3 in D2. rewrite Ht in Lt. rewrite map_length in D1, D2, Lt.
    destruct (cloud_D ml f ts dl di Hf ltac:(lia) ltac:(lia) Hl) as (cl & ci & C1 & _). cbn [with_lists with_o2ll with_h2oll g_liq]. rewrite Gl, Ht, E2, E3. eauto. }
  exists fr, full, o', g'. split; [exact H|]. destruct (C52_rows_independent _ _ _ _ _ _ _ _ x0 cell0 (f_row full0) W H) as [L _]. split; [exact L|].
  intros k j dr Hk Hj.
  destruct (Hfr (nth j (o_frq o) x0) (nth_In _ _ Hj)) as (f & Ef & Hus). assert (Hf := proj1 Hus). destruct (Han (nth k (o_angles o) x0) (nth_In _ _ Hk)) as (a & Ea & Hnn & Hpa).
  destruct (Hes (nth j (hget h (o_es o)) x0)) as (es & Ees & Hes'); [apply nth_In; assert (X := wf_es _ _ W); lia|].
  destruct SO as [S1 S2 S3 S4 S5 S6 S7 S8].
  destruct (vap_facts ts rhs ltac:(lia) S6 S7) as (V1 & V2 & V3).
  assert (NL : o_nl o = length zs) by (assert (X := wf_z _ _ W); rewrite Hz, map_length in X; auto).
  set (g1 := with_lists g ll ll2) in *.
  destruct (clear_D mw mo mn (with_sat g1 (o_sat o)) (mixed mw mo mn mz) f ps ts (vap ts rhs) o3 (fun i Hi => covers_range mw ps ts f i Mw Hus Hi ltac:(lia)) M2 M3 M4) as (aw & ad & C1 & C2 & C3 & C4 & C5); auto.
  { constructor; cbn [with_sat g1 with_lists with_o2ll with_h2oll g_h2o g_h2oll g_o2 g_o2ll g_n2]; auto. }
  { constructor; reflexivity. }
  { lia. }
  { intros i Hlt. rewrite V3 by exact Hlt. apply S8. lia. }
  { unfold ozone_input in Hoz. destruct o3 as [l|]; [|exact I]. destruct Hoz as (az & E1 & E2 & E3 & E4 & E5 & E6). split.
    - assert (X := wf_o3n _ _ W az E1). rewrite E2, map_length in X. lia.
    - intros x Hx. split; [apply E3, Hx|]. exists mz. cbn [with_sat g1 with_lists with_o2ll with_h2oll g_o3 g_o3ll mixed]. auto. }
  assert (CL : exists al ai, ideal_clouds ml ts dl di f al ai /\ cloud_profiles h g o f al ai /\ length al = length ts /\ length ai = length ts /\ forall v, In v al \/ In v ai -> 0 <= v).
  { destruct Hcl as [(Hc & Hnew & -> & ->)|(Hc & Hrd & (adi & adl & E1 & E2 & E3) & Hl)].
    - exists (repeat 0 (length ts)), (repeat 0 (length ts)). split; [apply no_clouds|]. split; [left; rewrite NL, <- S3; auto|]. rewrite repeat_length.
      split; [reflexivity|]. split; [reflexivity|]. intros v [Hv|Hv]; apply repeat_spec in Hv; lra.
    - destruct (wf_dens _ _ W _ _ E1) as [D1 D2]. rewrite E2, map_length in D1. rewrite E3, map_length in D2.
      destruct (cloud_D ml f ts dl di Hf ltac:(lia) ltac:(lia) Hl) as (cl & ci & K1 & K2 & K3 & K4 & K5). exists cl, ci. split; [exact K2|]. split; [|auto].
      right. split; [exact Hc|]. exists adi, adl. split; [exact E1|]. rewrite Gl, Ht, E2, E3. exact K1. }
  destruct CL as (al & ai & K1 & K2 & K3 & K4 & K5).
  exists f, a, es, aw, ad, al, ai. split; [exact Ef|]. split; [exact Ea|]. split; [exact Ees|]. split; [exact C2|]. split; [exact K1|]. split; [auto|]. split; [auto|]. cbv zeta.
  assert (FF : f_awet (nth j (an_rows (nth k full angle0)) full0) = map Fin aw /\ f_adry (nth j (an_rows (nth k full angle0)) full0) = map Fin ad).
  { destruct (execute_cell XA _ _ _ _ _ _ _ _ W H) as (g1' & e & rho & dryn & wetn & refindx & Eg & Ev & Er & _ & _ & _ & HC).
    destruct (execute_full XA _ _ _ _ _ _ _ _ W H) as [_ Hfl].
    destruct (HC k j x0 cell0 (f_row full0) angle0 Hk Hj) as (ds & es' & x & c & _ & _ & _ & _ & _ & Hcell & _ & Hx & _).
    assert (Hx' : nth j (an_rows (nth k full angle0)) full0 = x).
    { rewrite Hx. apply nth_indep. rewrite (Hfl k angle0 Hk). exact Hj. }
    rewrite Hx'. rewrite Ell in Eg. apply ok_inj in Eg. subst g1'.
    rewrite Ht, Hrh, Hi in Ev. rewrite (vapor_D ts rhs S6) in Ev. apply ok_inj in Ev.
    assert (Ee : e = map Fin (vap ts rhs)) by exact (eq_sym (f_equal fst Ev)).
    apply run_cell_inv in Hcell. destruct Hcell as (aw' & ad' & w & dd & cc & pl & atl & Q & _ & _ & _ & _ & _ & _ & _ & _ & _ & _ & _ & _ & _ & _ & _ & _ & _ & _ & F5 & F6).
    rewrite Amu in Q. cbn [inputs_of i_p i_tk i_o3n] in Q. rewrite Hp, Ht, Ef, Ee in Q.
    assert (O3 : option_map (hget h) (o_o3n o) = option_map (map Fin) o3).
    { unfold ozone_input in Hoz. destruct o3 as [l|]; [|rewrite Hoz; reflexivity]. destruct Hoz as (az & E1 & E2 & _). rewrite E1. cbn. rewrite E2. reflexivity. }
    rewrite O3 in Q. assert (Q' := eq_trans (eq_sym C1) Q). apply ok_inj in Q'. rewrite F5, F6. 
    split; [exact (eq_sym (f_equal fst Q'))|exact (eq_sym (f_equal snd Q'))]. }
  destruct FF as [F1 F2].
  assert (RG : nth (k * length (o_frq o) + j) fr dr = f_row (nth j (an_rows (nth k full angle0)) full0) /\
     spec_row (o_sat o) f es a ts (path a) aw ad al ai (nth j (an_rows (nth k full angle0)) full0)).
  { refine (row_general (@shipped XA) g h o fr full o' g' ts W H Ht S6 k j f a es (path a) aw ad al ai dr Hk Hj
      Ef Hf Ea Ees Hes' _ Hnn F1 F2 K2 _ _ _ _ _); try lia.
    - intros e rho dryn wetn refindx Ev Er. rewrite Ht, Hrh, Hi in Ev. rewrite (vapor_D ts rhs S6) in Ev. apply ok_inj in Ev.
      assert (Ee : e = map Fin (vap ts rhs)) by exact (eq_sym (f_equal fst Ev)). rewrite Hp, Ht, Ee in Er.
      rewrite Ea in Hpa. apply (Hpa dryn wetn refindx Er).
    - intros v [Hv|[Hv|[Hv|Hv]]]; auto. }
  destruct RG as [R1 R2]. auto.
Qed.

(** Every run of a solver that holds a physical profile, for every combination of models. *)
Theorem C130_run (g : globals XA) (h : heap XA) o mw mo mn ml mz zs ps ts rhs o3 dl di : chosen g mw mo mn ml -> covers mw mo mn ps ts -> wf h o -> cloud_input h o ml ts dl di ->
  o_ray o = false -> o_ice o = false -> o_unc o = false -> ozone_input g h o mz o3 ->
  hget h (o_z o) = map Fin zs -> hget h (o_p o) = map Fin ps -> hget h (o_tk o) = map Fin ts -> hget h (o_rh o) = map Fin rhs -> sounding zs ps ts rhs ->
  (forall x, In x (o_frq o) -> exists f, x = Fin f /\ covered mw f) ->
  (forall x, In x (o_angles o) -> exists a, x = Fin a /\ 0 < a < 180) ->
  (forall x, In x (hget h (o_es o)) -> exists es, x = Fin es /\ (o_sat o = true -> 0 < es)) ->
  exists fr full o' g', execute (@shipped XA) g h o = Ok (fr, full, o', g') /\ length fr = (length (o_angles o) * length (o_frq o))%nat /\
  forall k j dr, (k < length (o_angles o))%nat -> (j < length (o_frq o))%nat ->
  exists f a es aw ad al ai, nth j (o_frq o) x0 = Fin f /\ nth k (o_angles o) x0 = Fin a /\ nth j (hget h (o_es o)) x0 = Fin es /\
    mixed_absorption mw mo mn mz ps ts rhs o3 f aw ad /\ ideal_clouds ml ts dl di f al ai /\ (length al = length ts /\ length ai = length ts /\ forall v, In v al \/ In v ai -> 0 <= v) /\
    (length aw = length ts /\ length ad = length ts /\ forall v, In v aw \/ In v ad -> 0 <= v) /\
    let x := nth j (an_rows (nth k full angle0)) full0 in
    nth (k * length (o_frq o) + j) fr dr = f_row x /\ f_awet x = map Fin aw /\ f_adry x = map Fin ad /\
    spec_row (o_sat o) f es a ts (slant_path zs a) aw ad al ai x.
Proof.
  intros Hc0 Hm W Hcl Hr Hi Hu Hoz Hz Hp Ht Hrh SO Hfr Han Hes.
  apply (run_mixed (slant_path zs) g h o mw mo mn ml mz zs ps ts rhs o3 dl di Hc0 Hm W Hcl Hi Hu Hoz Hz Hp Ht Hrh SO Hfr); [|exact Hes].
  intros x Hx. destruct (Han x Hx) as (a & -> & Ha). exists a. split; [reflexivity|]. assert (Sp := sin_deg_pos a Ha). split.
  - apply slant_nonneg; [apply (so_rising _ _ _ _ SO)|exact Ha].
  - intros dryn wetn refindx _. rewrite (path_ds_flat h o refindx a zs Hr Hz ltac:(lra)). rewrite slant_path_diffs; [reflexivity|]. apply (so_ne _ _ _ _ SO).
Qed.

(** An ozone profile handed to the constructor, and the ozone model. *)
Definition ozone_argument (g : globals XA) (h : heap XA) (z : addr) (n : nat) (mz : string) (a3 : option addr) (o3 : option (list R)) : Prop :=
  match a3, o3 with
  | None, None => True
  | Some a, Some l => a <> z /\ hget h a = map Fin l /\ length l = n /\ (forall v, In v l -> 0 <= v) /\ In mz o3_fin_names /\ g_o3 g = Some mz /\ g_o3ll g = db_o3 (@shipped XA) mz
  | _, _ => False
  end.

(** The programs a user writes: constructor, choice of models, execution; and what every row of the table holds. *)
Theorem C130_from_constructor (g : globals XA) (h : heap XA) z p t rh a3 mw mo mn ml mz zs ps ts rhs o3 (fs angs : list R) sat lo hi : chosen g mw mo mn ml -> covers mw mo mn ps ts ->
  hget h z = map Fin zs -> hget h p = map Fin ps -> hget h t = map Fin ts -> hget h rh = map Fin rhs ->
  z <> p -> z <> t -> z <> rh -> sounding zs ps ts rhs -> ozone_argument g h z (length zs) mz a3 o3 ->
  (forall f, In f fs -> covered mw f) -> (forall a, In a angs -> 0 < a < 180) -> 2.728 <= lo -> (forall t, In t ts -> lo <= t <= hi) ->
  exists h' o fr full o' g',
    tb_init (A:=XA) h z p t rh (map Fin fs) (map Fin angs) a3 None "" false sat false = (h', Ok o) /\
    execute (@shipped XA) g h' o = Ok (fr, full, o', g') /\ length fr = (length angs * length fs)%nat /\
    forall k j dr, (k < length angs)%nat -> (j < length fs)%nat ->
    let f := nth j fs 0 in let a := nth k angs 0 in
    exists aw ad x T, mixed_absorption mw mo mn mz ps ts rhs o3 f aw ad /\
      (length aw = length zs /\ length ad = length zs /\ forall v, In v aw \/ In v ad -> 0 <= v) /\
      nth (k * length fs + j) fr dr = f_row x /\ f_awet x = map Fin aw /\ f_adry x = map Fin ad /\
      spec_row sat f 1 a ts (slant_path zs a) aw ad (repeat 0 (length zs)) (repeat 0 (length zs)) x /\
      r_tbtotal (f_row x) = Fin T /\ 0 < T <= hi /\
      (total_tau (opacities aw ad (repeat 0 (length zs)) (repeat 0 (length zs)) (slant_path zs a)) < 125 -> (if sat then lo else 2.728) <= T).
Proof.
  intros Hc0 Hm Hz Hp Ht Hrh N1 N2 N3 SO Hoz Hf Ha Hlo Hts. destruct SO as [S1 S2 S3 S4 S5 S6 S7 S8] eqn:ES.
  assert (ND := rising_NoDup zs S5).
  destruct (C44_exact h z p t rh (map Fin fs) (map Fin angs) a3 None false sat false zs Hz S1) as [HC _].
  destruct (HC (NoDup_no_repeat _ ND)) as (o & HO & _).
  destruct (tb_init (A:=XA) h z p t rh (map Fin fs) (map Fin angs) a3 None "" false sat false) as [h' r] eqn:EI. cbn [snd] in HO. subst r.
  destruct (init_z h h' z p t rh (map Fin fs) (map Fin angs) a3 None false sat false o zs Hz S1 ND EI) as (_ & _ & _ & Hz').
  assert (V : forall b l, hget h b = map Fin l -> length l = length zs -> (b < length h)%nat).
  { intros b l Hb Hl. apply hget_valid. rewrite Hb. destruct l; [destruct zs; [congruence|discriminate]|discriminate]. }
  assert (F := tb_init_wf h h' z p t rh (map Fin fs) (map Fin angs) a3 None "" false sat false o EI). cbv zeta in F. rewrite Hz, Hp, Ht, Hrh, !map_length in F.
  destruct (F S2 S3 S4) as (W & G1 & G2 & G3 & G4 & G5 & G6 & G7 & G8 & G9 & _ & _ & G12 & G13 & G14 & G15 & G16 & G17 & G18 & _ & G20).
  { intros a ->. destruct o3 as [l|]; [|destruct Hoz]. destruct Hoz as (_ & E & L & _). rewrite E, map_length. exact L. }
  destruct (C130_run g h' o mw mo mn ml mz (map (fun x => x - nth 0 zs 0) zs) ps ts rhs o3 (repeat 0 (length ts)) (repeat 0 (length ts)) Hc0 Hm W) as (fr & full & o' & g' & R1 & R2 & R3); auto.
  { left. split; [exact G2|]. split; [intros cs c Hcs Hcc; rewrite G9; apply (G17 cs c Hcs Hcc)|auto]. }
  { unfold ozone_input. destruct a3 as [a|], o3 as [l|]; try (destruct Hoz; fail); [|exact G8]. destruct Hoz as (E1 & E2 & E3 & E4 & E5 & E6 & E7).
    exists a. split; [exact G8|]. rewrite G18 by eauto. auto. }
  { rewrite G15. exact Hz'. }
  { rewrite G13, G18; eauto. }
  { rewrite G12, G18; eauto. }
  { rewrite G14, G18; eauto. }
  { apply sounding_shift, SO. }
  { intros x Hx. rewrite G3 in Hx. apply in_map_iff in Hx. destruct Hx as (v & <- & Hv). eauto. }
  { intros x Hx. rewrite G4 in Hx. apply in_map_iff in Hx. destruct Hx as (v & <- & Hv). eauto. }
  { intros x Hx. rewrite G20 in Hx. apply repeat_spec in Hx. subst x. exists (10 / 10). split; [reflexivity|intros; lra]. }
  exists h', o, fr, full, o', g'. split; [reflexivity|]. split; [exact R1|]. rewrite G3, G4, !map_length in R2. split; [exact R2|].
  intros k j dr Hk Hj f a. rewrite G3, G4, !map_length in R3.
  destruct (R3 k j dr Hk Hj) as (f' & a' & es & aw & ad & al & ai & E1 & E2 & E3 & E4 & E4c & _ & E5 & E6 & E7 & E8 & E9).
  unfold x0 in E1, E2. rewrite (nth_map_d Fin fs _ 0) in E1 by assumption. rewrite (nth_map_d Fin angs _ 0) in E2 by assumption.
  assert (f' = f) by (inversion E1; reflexivity). assert (a' = a) by (inversion E2; reflexivity). subst f' a'.
  assert (es = 1).
  { rewrite G20 in E3. rewrite nth_repeat_lt in E3 by exact Hj.
    change (lit (a:=XA) 1.0) with (Fin (10 / 10)) in E3. inversion E3. lra. }
  assert (Z := no_clouds ml ts f). unfold ideal_clouds in E4c, Z. rewrite Z in E4c. apply ok_inj in E4c.
  assert (al = repeat 0 (length ts)) by exact (eq_sym (f_equal fst E4c)). assert (ai = repeat 0 (length ts)) by exact (eq_sym (f_equal snd E4c)). subst al ai.
  subst es. rewrite S3 in E5. rewrite G6, slant_shift, S3 in E9. destruct E5 as (L1 & L2 & NN).
  assert (Ha0 : 0 < a < 180) by (apply Ha, nth_In, Hk). assert (SN := slant_nonneg zs a S5 Ha0).
  destruct (C111_bounds sat f 1 a ts _ aw ad _ _ _ lo hi E9) as (T & T1 & T2 & T3 & T4 & T5); try lra; auto.
  { apply (Hf f), nth_In, Hj. } { intros ->. destruct zs; [congruence|discriminate]. } { congruence. }
  { intros v Hv. unfold opacities in Hv. apply in_map_iff in Hv. destruct Hv as (i & <- & _).
    assert (A1 := layer_int_nonneg false (repeat 0 (length zs)) (slant_path zs a) i ltac:(intros v Hv; apply repeat_spec in Hv; lra) SN).
    assert (A2 := layer_int_nonneg true aw (slant_path zs a) i ltac:(intros; apply NN; auto) SN).
    assert (A3 := layer_int_nonneg true ad (slant_path zs a) i ltac:(intros; apply NN; auto) SN). lra. }
  assert (HH : 2.728 <= hi) by (destruct ts as [|t0 ts']; [destruct zs; [congruence|discriminate]|assert (X := Hts t0 (or_introl eq_refl)); lra]).
  exists aw, ad, (nth j (an_rows (nth k full angle0)) full0), T.
  split; [exact E4|]. split; [auto|]. split; [exact E6|]. split; [exact E7|]. split; [exact E8|]. split; [exact E9|]. split; [exact T1|]. split.
  - split; [exact T2|]. destruct sat; [apply T4; reflexivity|]. eapply Rle_trans; [apply T3; reflexivity|]. apply Rmax_lub; lra.
  - intros Q. destruct (T5 Q) as [T6 T7]. destruct sat; [apply T7; auto|]. eapply Rle_trans; [|apply T6; reflexivity]. rewrite Rmin_right; lra.
Qed.

(** The combination of the examples of the documentation: R20 with the water-vapour lines of R21SD. *)
Example C130_example sat : exists h' o fr full o' g',
  tb_init (A:=XA) ex_h 0%nat 1%nat 2%nat 3%nat (map Fin [22.235; 60]) (map Fin [90; 30]) None None "" false sat false = (h', Ok o) /\
  execute (@shipped XA) (mkGlobals (A:=XA) (Some "R21SD") (Some "R20") (Some "R20") (Some "R20") None None None None false (Fin 1)) h' o = Ok (fr, full, o', g') /\ length fr = 4%nat /\
  exists x T, nth 3 fr (f_row full0) = f_row x /\ r_tbtotal (f_row x) = Fin T /\ 0 < T <= 290.
Proof.
  set (g := mkGlobals _ _ _ _ _ _ _ _ _ _).
  destruct (C130_from_constructor g ex_h 0%nat 1%nat 2%nat 3%nat None "R21SD" "R20" "R20" "R20" "" [1; 2; 4] [900; 800; 600] [290; 280; 260] [0.5; 0.5; 0.2] None [22.235; 60] [90; 30] sat 260 290)
    as (h' & o & fr & full & o' & g' & H1 & H2 & H3 & H4); try reflexivity; try discriminate; try lra.
  { repeat split. }
  { constructor; [right; split; [cbn; tauto|split; [intros t [<-|[<-|[<-|[]]]]; lra|intros p [<-|[<-|[<-|[]]]]; lra]]|split; [cbn; tauto|discriminate]|cbn; tauto]. }
  { exact ex_sounding. } { intros f [<-|[<-|[]]]; (split; [lra|intros [X|[X|[X|[]]]]; discriminate]). } { intros a [<-|[<-|[]]]; lra. }
  { intros t [<-|[<-|[<-|[]]]]; lra. }
  destruct (H4 1%nat 1%nat (f_row full0) ltac:(cbn; lia) ltac:(cbn; lia)) as (aw & ad & x & T & _ & _ & E & _ & _ & _ & E2 & E3 & _).
  exists h', o, fr, full, o', g'. split; [exact H1|]. split; [exact H2|]. split; [exact H3|]. exists x, T. auto.
Qed.
