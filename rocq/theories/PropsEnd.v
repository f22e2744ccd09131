(** Claim C111: a run with the line lists of the package, end to end.  For every profile of finite, physically meaningful values the run
    returns, and every row of its table is the discretised radiative transfer of the ideal absorption coefficients (claims C53 - C57), the
    vapour pressure of the Goff-Gratch formula and plane-parallel path lengths; no infinity and no NaN occurs. *)

From Coq Require Import ZArith Reals Lra Lia String List Bool.
Import ListNotations.
From Verif Require Import Arith PyBase Utils RTE Absorption Clear Spectrum Spec ListAux RealAux PlanckReal PlanckMaster PropsPlanck Integral
  SolverGen SolverRun Registry PropsRun PropsObject PropsModels PropsSolverX PropsRay PropsLiq LineData Lineshape PropsAbsN2 PropsClear PropsO2H2O PropsH2O PropsO2Data PropsO3
  PropsUtils PropsSelfCont FinTransfer FinGas FinSD PropsUtils3 FinClear PropsRow WeightingGen SolverExamples FinCloud.
Local Open Scope string_scope.
Open Scope R_scope.

(** ** Specification *)

(** Models whose every part is finite and non-negative (R98 is missing because of its oxygen lines, see C55): with Lorentz shapes of the
    water-vapour lines, and with speed-dependent ones. *)
Definition whole_models := ["R03"; "R16"; "R17"; "R18"; "R19"; "R20"].
Definition whole_sd := ["R19SD"; "R20SD"; "R24"].

(** Profiles a model serves: any for Lorentz shapes; temperatures between 100 K and 385 K and at most 1100 hPa for speed-dependent ones. *)
Definition served (m : string) (ps ts : list R) : Prop :=
  In m whole_models \/ (In m whole_sd /\ (forall t, In t ts -> 100 <= t <= 385) /\ forall p, In p ps -> p <= 1100).
(** Frequencies: positive; for R24 below the end of its continuum table (1199 GHz). *)
Definition usable (m : string) (f : R) : Prop := 0 < f /\ (m = "R24" -> f < 4 * node).

(** A physically meaningful profile: heights increasing, temperatures positive, humidities not negative, and everywhere less vapour
    pressure than pressure. *)
Record sounding (zs ps ts rhs : list R) : Prop := mkSounding {
  so_ne : zs <> []; so_p : length ps = length zs; so_t : length ts = length zs; so_rh : length rhs = length zs;
  so_rising : rising zs; so_tpos : forall t, In t ts -> 0 < t; so_rhpos : forall r, In r rhs -> 0 <= r;
  so_dry : forall i, (i < length zs)%nat -> nth i rhs 0 * goff_water (nth i ts 0) < nth i ps 0 }.

(** Ideal absorption coefficients: model [m] for vapour, oxygen and nitrogen, model [mz] for ozone, all with the line lists of the package. *)
Definition ideal (m mz : string) : globals RA :=
  mkGlobals (A:=RA) (Some m) (Some m) (Some m) (Some m) (Some mz) (db_h2o (@shipped RA) m) (db_o2 (@shipped RA) m) (db_o3 (@shipped RA) mz) false 1.
Definition ideal_absorption (m mz : string) (ps ts rhs : list R) (o3 : option (list R)) (f : R) (aw ad : list R) : Prop :=
  clearsky_absorption (A:=RA) (ideal m mz) None ps ts (vap ts rhs) f o3 = Ok (aw, ad).

(** Ozone: none, or a profile on a solver for which the ozone model [mz] and its list were selected. *)
Definition ozone_input (g : globals XA) (h : heap XA) (o : tbobj XA) (mz : string) (o3 : option (list R)) : Prop :=
  match o3 with
  | None => o_o3n o = None
  | Some l => exists a, o_o3n o = Some a /\ hget h a = map Fin l /\ (forall v, In v l -> 0 <= v) /\ In mz o3_fin_names /\
                g_o3 g = Some mz /\ g_o3ll g = db_o3 (@shipped XA) mz
  end.

(** Clouds: none on a solver never run before, or liquid and ice densities on a cloudy solver; where there is liquid water the model must
    have a formula for it and the temperature must be in its range. *)
Definition cloud_input (h : heap XA) (o : tbobj XA) (m : string) (ts dl di : list R) : Prop :=
  (o_cloudy o = false /\ never_run o /\ dl = repeat 0 (length ts) /\ di = repeat 0 (length ts)) \/
  (o_cloudy o = true /\ cloud_ready o /\ (exists ai al, o_dens o = Some (ai, al) /\ hget h ai = map Fin di /\ hget h al = map Fin dl) /\
   forall i, (i < length ts)%nat -> 0 < nth i dl 0 -> In m liq_models /\ 208.15 <= nth i ts 0 <= 396).
Definition ideal_clouds (m : string) (ts dl di : list R) (f : R) (al ai : list R) : Prop :=
  cloudy_absorption (A:=RA) (Some m) ts dl di f = Ok (al, ai).

(** ** Proofs *)

Lemma whole_in m : In m whole_models -> In m std_models /\ In m plain_o2_names /\ m <> "R98" /\ In m n2_models /\ In m runnable /\ m <> "".
Proof.
  intros H. unfold whole_models in H.
  repeat (destruct H as [<-|H]; [repeat split; try discriminate; cbn; tauto|]). destruct H.
Qed.

Lemma served_in m ps ts : served m ps ts -> In m fin_o2_names /\ m <> "R98" /\ In m n2_models /\ In m runnable /\ m <> "".
Proof.
  intros [H|[H _]].
  - destruct (whole_in m H) as (_ & M2 & M3 & M4 & M5 & M6). repeat split; auto. apply in_or_app. auto.
  - unfold whole_sd in H. repeat (destruct H as [<-|H]; [repeat split; try discriminate; cbn; tauto|]). destruct H.
Qed.

Lemma served_range m ps ts f i : served m ps ts -> usable m f -> (i < length ts)%nat -> length ps = length ts -> water_range m f (nth i ps 0) (nth i ts 0).
Proof.
  intros [H|(H & Ht & Hp)] [_ U] Hi L.
  - left. apply (whole_in m H).
  - right. split; [unfold whole_sd in H; cbn in *; tauto|]. split; [apply Ht, nth_In; lia|]. split; [apply Hp, nth_In; lia|].
    intros X. apply U. unfold whole_sd in H. destruct X as [<-|[<-|[<-|[]]]]; [exfalso; cbn in H; repeat destruct H as [H|H]; try discriminate; exact H|reflexivity|exfalso; cbn in H; repeat destruct H as [H|H]; try discriminate; exact H].
Qed.

Lemma usable_freq_ok f : 0 < f < 4 * node -> freq_ok (A:=XA) (Fin f).
Proof.
  intros [H0 H4].
  assert (Q : 0 <= f / node < 4) by (unfold node in *; split; [apply Rmult_le_pos; [lra|apply Rlt_le, Rinv_0_lt_compat; lra]|apply (Rmult_lt_reg_r 299.792458); [lra|]; unfold Rdiv; rewrite Rmult_assoc, Rinv_l; lra]).
  exists (Rtrunc (f / node)). split.
  - transitivity (trunc (a:=XA) (Fin (f / node))); [|reflexivity]. f_equal. transitivity (xdiv (Fin f) (Fin node)); [|cbn; destruct (Req_EM_T node 0) as [Z|_]; [unfold node in Z; lra|reflexivity]]. unfold deltaf. cbn [div XA lit]. f_equal.
  - unfold Rtrunc. destruct (Rle_dec 0 (f / node)); [|lra].
    assert (B := base_Int_part (f / node)). split.
    + apply Z.lt_succ_r. apply lt_IZR. unfold Z.succ. rewrite plus_IZR. lra.
    + apply Z.lt_succ_r. apply lt_IZR. cbn. lra.
Qed.

Lemma runnable_returns (A : Arith) m (ll : h2o_ll A) p v e f : In m runnable -> (m = "R24" -> freq_ok f) -> exists x, h2o_absorption m ll p v e f = Ok x.
Proof.
  intros Hm Hf. destruct (string_dec m "R24") as [E|E]; [apply h2o_ok; auto|].
  unfold h2o_absorption. destruct (eqb _ _); [eauto|].
  assert (Hs : exists s, h2o_summ m ll (h2o_env_of m p v e) f = Some s).
  { unfold h2o_summ. repeat (destruct Hm as [<-|Hm]; [eexists; reflexivity|]). destruct Hm. }
  destruct Hs as [s ->].
  assert (Hc : str_in m ["R23SD"; "R24"] = false) by (repeat (destruct Hm as [<-|Hm]; [first [reflexivity|congruence]|]); destruct Hm).
  unfold h2o_con2. rewrite Hc. cbv zeta. cbn [bind]. eauto.
Qed.

Lemma clear_total (g : globals XA) amu m ps ts ll ll2 p t e f o3n : served m ps ts -> usable m f ->
  g_h2o g = Some m -> g_n2 g = Some m -> g_h2oll g = Some ll -> g_o2ll g = Some ll2 ->
  (o3n = None \/ g_o3ll g <> None) ->
  exists w d, clearsky_absorption g amu p t e (Fin f) o3n = Ok (w, d).
Proof.
  intros Hm [U1 U2] H1 H3 H4 H5 H6. destruct (served_in m ps ts Hm) as (_ & _ & _ & M5 & M6). unfold clearsky_absorption.
  match goal with |- context [mapM ?F ?L] => destruct (proj2 (mapM_ok_iff F L)) as [r ->] end.
  2:{ cbn [bind]. eauto. }
  intros (p0 & t0 & e0 & o) Hin.
  assert (Ho : o = None \/ g_o3ll g <> None).
  { destruct H6 as [->|H6]; [|auto]. left. apply in_combine_r in Hin. apply in_combine_r in Hin. apply in_combine_r in Hin.
    eapply repeat_spec; eauto. }
  unfold clearsky_level, h2o_call. rewrite H1, H4.
  match goal with |- context [h2o_absorption m ?a ?b ?c ?d ?e] => destruct (runnable_returns XA m a b c d e M5 ltac:(intros; apply usable_freq_ok; auto)) as [w ->] end. cbn [bind].
  unfold o2_call. rewrite H5. cbn [bind]. unfold n2_call. rewrite H3.
  destruct (n2_ok m t0 (mul (a:=XA) (sub (a:=XA) (div (a:=XA) p0 (lit 10.0)) (div (a:=XA) e0 (lit 10.0))) (lit 10)) (Fin f) M5) as [an2 En2].
  assert (EN : match m with "" => Ok (lit (a:=XA) 0) | String _ _ => n2_absorption m t0 (mul (a:=XA) (sub (a:=XA) (div (a:=XA) p0 (lit 10.0)) (div (a:=XA) e0 (lit 10.0))) (lit 10)) (Fin f) end = Ok an2).
  { destruct m; [congruence|exact En2]. }
  rewrite EN. cbn [bind].
  unfold o3_call. destruct o as [n|]; [|cbn [bind]; eauto].
  destruct Ho as [Ho|Ho]; [discriminate|]. destruct (g_o3ll g); [|congruence].
  destruct (str_in _ _); cbn [bind]; eauto.
Qed.

Lemma vap_facts ts rhs : length rhs = length ts -> (forall t, In t ts -> 0 < t) -> (forall r, In r rhs -> 0 <= r) ->
  length (vap ts rhs) = length ts /\ (forall e, In e (vap ts rhs) -> 0 <= e) /\ forall i, (i < length ts)%nat -> nth i (vap ts rhs) 0 = nth i rhs 0 * goff_water (nth i ts 0).
Proof.
  intros L Ht Hr. unfold vap. split; [rewrite map_length, combine_length; lia|]. split.
  - intros e He. apply in_map_iff in He. destruct He as ((t & r) & <- & Hin). cbn [fst snd].
    apply Rmult_le_pos; [apply Hr; eapply in_combine_r; exact Hin|]. apply Rlt_le, Rpower_pos.
  - intros i Hi. rewrite (nth_map_d _ _ _ (0, 0)) by (rewrite combine_length; lia). rewrite combine_nth by lia. reflexivity.
Qed.

Lemma slant_shift zs c a : slant_path (map (fun x => x - c) zs) a = slant_path zs a.
Proof.
  unfold slant_path. rewrite map_length. apply map_ext_in. intros i Hi. apply in_seq in Hi. destruct i as [|i]; [reflexivity|]. cbn [slant].
  rewrite !(nth_map_d (fun x => x - c) _ _ 0) by lia. f_equal. lra.
Qed.

Lemma lists_of (A : Arith) db (g : globals A) m ll ll2 gz : init_linelist db (init_absmdl g m) = Ok (mkGlobals (Some m) (Some m) (Some m) (Some m) gz (Some ll) (Some ll2) (g_o3ll g) (g_from_sat g) (g_es g)) ->
  db_h2o db m = Some ll /\ db_o2 db m = Some ll2.
Proof.
  unfold init_linelist, set_ll_h2o. cbn [init_absmdl g_h2o]. destruct (db_h2o db m) as [l|]; [|discriminate]. cbn [bind].
  unfold set_ll_o2. cbn [with_h2oll init_absmdl g_o2]. destruct (db_o2 db m) as [l2|]; [|discriminate]. intros H. apply ok_inj in H.
  assert (H1 := f_equal (@g_h2oll A) H). assert (H2 := f_equal (@g_o2ll A) H). cbn in H1, H2. auto.
Qed.

Lemma no_clouds m ts f : ideal_clouds m ts (repeat 0 (length ts)) (repeat 0 (length ts)) f (repeat 0 (length ts)) (repeat 0 (length ts)).
Proof.
  unfold ideal_clouds, cloudy_absorption.
  assert (L : forall t, cloudy_level (A:=RA) (Some m) f t 0 0 = Ok (0, 0)).
  { intros t. unfold cloudy_level. cbv zeta. replace (ltb (a:=RA) (lit 0) 0) with false by (symmetry; apply Rltb_false; ra; lra). cbn [bind]. repeat f_equal; ra; lra. }
  assert (M : mapM (fun '(t, (l, i)) => cloudy_level (A:=RA) (Some m) f t l i) (combine ts (combine (repeat 0 (length ts)) (repeat 0 (length ts)))) = Ok (repeat (0, 0) (length ts))).
  { induction ts as [|t ts IH]; [reflexivity|]. cbn [length repeat combine mapM]. rewrite L, IH. reflexivity. }
  etransitivity; [apply (f_equal (fun m => bind m _)); exact M|]. cbn [bind]. clear M. 
  assert (Z : forall n, map fst (repeat (0, 0) n) = repeat 0 n /\ map snd (repeat (0, 0) n) = repeat 0 n) by (induction n as [|n [I1 I2]]; [auto|cbn; rewrite I1, I2; auto]).
  destruct (Z (length ts)) as [Z1 Z2]. apply (f_equal Ok). transitivity (map fst (repeat (0, 0) (length ts)), map snd (repeat (0, 0) (length ts))); [reflexivity|]. rewrite Z1, Z2. reflexivity.
Qed.

(** Any way of computing the path lengths. *)
Lemma run_with_path (path : R -> list R) (g : globals XA) (h : heap XA) o m mz zs ps ts rhs o3 dl di : served m ps ts -> wf h o -> cloud_input h o m ts dl di ->
  o_ice o = false -> o_unc o = false -> ozone_input g h o mz o3 ->
  hget h (o_z o) = map Fin zs -> hget h (o_p o) = map Fin ps -> hget h (o_tk o) = map Fin ts -> hget h (o_rh o) = map Fin rhs -> sounding zs ps ts rhs ->
  (forall x, In x (o_frq o) -> exists f, x = Fin f /\ usable m f) ->
  (forall x, In x (o_angles o) -> exists a, x = Fin a /\ (forall v, In v (path a) -> 0 <= v) /\
     forall dryn wetn refindx, refractivity (A:=XA) (map Fin ps) (map Fin ts) (map Fin (vap ts rhs)) = (dryn, wetn, refindx) ->
     path_ds (inputs_of h o) refindx x = Ok (map Fin (path a))) ->
  (forall x, In x (hget h (o_es o)) -> exists es, x = Fin es /\ (o_sat o = true -> 0 < es)) ->
  exists fr full o' g', execute (@shipped XA) (init_absmdl g m) h o = Ok (fr, full, o', g') /\ length fr = (length (o_angles o) * length (o_frq o))%nat /\
  forall k j dr, (k < length (o_angles o))%nat -> (j < length (o_frq o))%nat ->
  exists f a es aw ad al ai, nth j (o_frq o) x0 = Fin f /\ nth k (o_angles o) x0 = Fin a /\ nth j (hget h (o_es o)) x0 = Fin es /\
    ideal_absorption m mz ps ts rhs o3 f aw ad /\ ideal_clouds m ts dl di f al ai /\ (length al = length ts /\ length ai = length ts /\ forall v, In v al \/ In v ai -> 0 <= v) /\
    (length aw = length ts /\ length ad = length ts /\ forall v, In v aw \/ In v ad -> 0 <= v) /\
    let x := nth j (an_rows (nth k full angle0)) full0 in
    nth (k * length (o_frq o) + j) fr dr = f_row x /\ f_awet x = map Fin aw /\ f_adry x = map Fin ad /\
    spec_row (o_sat o) f es a ts (path a) aw ad al ai x.
Proof.
  intros Hm W Hcl Hi Hu Hoz Hz Hp Ht Hrh SO Hfr Han Hes.
  destruct (served_in m ps ts Hm) as (M2 & M3 & M4 & M5 & M6).
  destruct (linelist_ok (@shipped XA) g m (C48_shipped_registered XA) M5) as (ll & ll2 & Ell).
  assert (Amu : i_amu (inputs_of h o) = None) by (cbn [inputs_of i_amu]; try rewrite Hu; reflexivity).
  destruct (execute_ok (@shipped XA) (init_absmdl g m) _ h o W ltac:(destruct Hcl as [(X & _)|(_ & X & _)]; [intros X'; congruence|exact X]) Hi Ell) as ((((fr & full) & o') & g') & H).
  { intros x e rho dn wn refindx Hx Ev Er _. destruct (Han x Hx) as (a & _ & _ & Hpa). exists (map Fin (path a)). apply (Hpa dn wn refindx).
    rewrite Ht, Hrh in Ev. rewrite (vapor_D ts rhs (so_tpos _ _ _ _ SO)) in Ev. apply ok_inj in Ev.
    assert (Ee : e = map Fin (vap ts rhs)) by exact (eq_sym (f_equal fst Ev)). rewrite Hp, Ht, Ee in Er. exact Er. }
  { intros x e Hx _. destruct (Hfr x Hx) as (f & -> & Hf). eapply (clear_total _ _ m ps ts ll ll2); eauto; try reflexivity.
    unfold ozone_input in Hoz. destruct o3 as [l|].
    - right. destruct Hoz as (a & _ & _ & _ & Hmz & _ & E). cbn [with_sat g_o3ll]. rewrite E. destruct (shipped_o3_D mz Hmz) as (_ & _ & xl & _ & -> & _). discriminate.
    - left. cbn [inputs_of i_o3n]. rewrite Hoz. reflexivity. }
  { intros x adi adl Hc Hx Hd. destruct Hcl as [(X & _)|(_ & _ & (ai & al & E1 & E2 & E3) & Hl)]; [congruence|].
    rewrite E1 in Hd. injection Hd as <- <-. destruct (Hfr x Hx) as (f & -> & Hf & _). destruct (wf_dens _ _ W _ _ E1) as [D1 D2].
    assert (Lt := wf_tk _ _ W). rewrite E2 in D1. rewrite E3 in D2. rewrite Ht in Lt. rewrite map_length in D1, D2, Lt.
    destruct (cloud_D m f ts dl di Hf ltac:(lia) ltac:(lia) Hl) as (cl & ci & C1 & _). cbn [g_liq]. rewrite Ht, E2, E3. eauto. }
  exists fr, full, o', g'. split; [exact H|]. destruct (C52_rows_independent _ _ _ _ _ _ _ _ x0 cell0 (f_row full0) W H) as [L _]. split; [exact L|].
  intros k j dr Hk Hj.
  destruct (lists_of XA _ _ _ _ _ _ Ell) as [Lw Lo].
  destruct (Hfr (nth j (o_frq o) x0) (nth_In _ _ Hj)) as (f & Ef & Hus). assert (Hf := proj1 Hus). destruct (Han (nth k (o_angles o) x0) (nth_In _ _ Hk)) as (a & Ea & Hnn & Hpa).
  destruct (Hes (nth j (hget h (o_es o)) x0)) as (es & Ees & Hes'); [apply nth_In; assert (X := wf_es _ _ W); lia|].
  destruct SO as [S1 S2 S3 S4 S5 S6 S7 S8].
  destruct (vap_facts ts rhs ltac:(lia) S6 S7) as (V1 & V2 & V3).
  assert (NL : o_nl o = length zs) by (assert (X := wf_z _ _ W); rewrite Hz, map_length in X; auto).
  set (g1 := mkGlobals (A:=XA) (Some m) (Some m) (Some m) (Some m) (g_o3 g) (Some ll) (Some ll2) (g_o3ll g) (g_from_sat g) (g_es g)) in *.
  destruct (clear_D m m m (with_sat g1 (o_sat o)) (ideal m mz) f ps ts (vap ts rhs) o3 (fun i Hi => served_range m ps ts f i Hm Hus Hi ltac:(lia)) M2 M3 M4) as (aw & ad & C1 & C2 & C3 & C4 & C5); auto.
  { constructor; cbn [with_sat g1 g_h2o g_h2oll g_o2 g_o2ll g_n2]; auto. }
  { constructor; reflexivity. }
  { lia. }
  { intros i Hlt. rewrite V3 by exact Hlt. apply S8. lia. }
  { unfold ozone_input in Hoz. destruct o3 as [l|]; [|exact I]. destruct Hoz as (az & E1 & E2 & E3 & E4 & E5 & E6). split.
    - assert (X := wf_o3n _ _ W az E1). rewrite E2, map_length in X. lia.
    - intros x Hx. split; [apply E3, Hx|]. exists mz. cbn [with_sat g1 g_o3 g_o3ll ideal]. auto. }
  assert (CL : exists al ai, ideal_clouds m ts dl di f al ai /\ cloud_profiles h (init_absmdl g m) o f al ai /\ length al = length ts /\ length ai = length ts /\ forall v, In v al \/ In v ai -> 0 <= v).
  { destruct Hcl as [(Hc & Hnew & -> & ->)|(Hc & Hrd & (adi & adl & E1 & E2 & E3) & Hl)].
    - exists (repeat 0 (length ts)), (repeat 0 (length ts)). split; [apply no_clouds|]. split; [left; rewrite NL, <- S3; auto|]. rewrite repeat_length.
      split; [reflexivity|]. split; [reflexivity|]. intros v [Hv|Hv]; apply repeat_spec in Hv; lra.
    - destruct (wf_dens _ _ W _ _ E1) as [D1 D2]. rewrite E2, map_length in D1. rewrite E3, map_length in D2.
      destruct (cloud_D m f ts dl di Hf ltac:(lia) ltac:(lia) Hl) as (cl & ci & K1 & K2 & K3 & K4 & K5). exists cl, ci. split; [exact K2|]. split; [|auto].
      right. split; [exact Hc|]. exists adi, adl. split; [exact E1|]. cbn [init_absmdl g_liq]. rewrite Ht, E2, E3. exact K1. }
  destruct CL as (al & ai & K1 & K2 & K3 & K4 & K5).
  exists f, a, es, aw, ad, al, ai. split; [exact Ef|]. split; [exact Ea|]. split; [exact Ees|]. split; [exact C2|]. split; [exact K1|]. split; [auto|]. split; [auto|]. cbv zeta.
  assert (FF : f_awet (nth j (an_rows (nth k full angle0)) full0) = map Fin aw /\ f_adry (nth j (an_rows (nth k full angle0)) full0) = map Fin ad).
  { destruct (execute_cell XA _ _ _ _ _ _ _ _ W H) as (g1' & e & rho & dryn & wetn & refindx & Eg & Ev & Er & _ & _ & _ & HC).
    destruct (execute_full XA _ _ _ _ _ _ _ _ W H) as [_ Hfl].
    destruct (HC k j x0 cell0 (f_row full0) angle0 Hk Hj) as (ds & es' & x & c & _ & _ & _ & _ & _ & Hcell & _ & Hx & _).
    assert (Hx' : nth j (an_rows (nth k full angle0)) full0 = x).
    { rewrite Hx. apply nth_indep. rewrite (Hfl k angle0 Hk). exact Hj. }
    rewrite Hx'. rewrite Ell in Eg. apply ok_inj in Eg. subst g1'.
    rewrite Ht, Hrh, Hi in Ev. rewrite (vapor_D ts rhs S6) in Ev. apply ok_inj in Ev.
    assert (Ee : e = map Fin (vap ts rhs)) by exact (eq_sym (f_equal fst Ev)).
    apply run_cell_inv in Hcell. destruct Hcell as (aw' & ad' & w & dd & cc & pl & atl & Q & _ & _ & _ & _ & _ & _ & _ & _ & _ & _ & _ & _ & _ & _ & _ & _ & _ & _ & F5 & F6).
    rewrite Amu in Q. cbn [inputs_of i_p i_tk i_o3n] in Q. rewrite Hp, Ht, Ef, Ee in Q.
    assert (O3 : option_map (hget h) (o_o3n o) = option_map (map Fin) o3).
    { unfold ozone_input in Hoz. destruct o3 as [l|]; [|rewrite Hoz; reflexivity]. destruct Hoz as (az & E1 & E2 & _). rewrite E1. cbn. rewrite E2. reflexivity. }
    rewrite O3 in Q. assert (Q' := eq_trans (eq_sym C1) Q). apply ok_inj in Q'. rewrite F5, F6. 
    split; [exact (eq_sym (f_equal fst Q'))|exact (eq_sym (f_equal snd Q'))]. }
  destruct FF as [F1 F2].
  assert (RG : nth (k * length (o_frq o) + j) fr dr = f_row (nth j (an_rows (nth k full angle0)) full0) /\
     spec_row (o_sat o) f es a ts (path a) aw ad al ai (nth j (an_rows (nth k full angle0)) full0)).
  { refine (row_general (@shipped XA) (init_absmdl g m) h o fr full o' g' ts W H Ht S6 k j f a es (path a) aw ad al ai dr Hk Hj
      Ef Hf Ea Ees Hes' _ Hnn F1 F2 K2 _ _ _ _ _); try lia.
    - intros e rho dryn wetn refindx Ev Er. rewrite Ht, Hrh, Hi in Ev. rewrite (vapor_D ts rhs S6) in Ev. apply ok_inj in Ev.
      assert (Ee : e = map Fin (vap ts rhs)) by exact (eq_sym (f_equal fst Ev)). rewrite Hp, Ht, Ee in Er.
      rewrite Ea in Hpa. apply (Hpa dryn wetn refindx Er).
    - intros v [Hv|[Hv|[Hv|Hv]]]; auto. }
  destruct RG as [R1 R2]. auto.
Qed.

(** Every run of a solver that holds such a profile: it returns, and every row is the ideal one. *)
Theorem C111_run (g : globals XA) (h : heap XA) o m mz zs ps ts rhs o3 dl di : served m ps ts -> wf h o -> cloud_input h o m ts dl di ->
  o_ray o = false -> o_ice o = false -> o_unc o = false -> ozone_input g h o mz o3 ->
  hget h (o_z o) = map Fin zs -> hget h (o_p o) = map Fin ps -> hget h (o_tk o) = map Fin ts -> hget h (o_rh o) = map Fin rhs -> sounding zs ps ts rhs ->
  (forall x, In x (o_frq o) -> exists f, x = Fin f /\ usable m f) ->
  (forall x, In x (o_angles o) -> exists a, x = Fin a /\ 0 < a < 180) ->
  (forall x, In x (hget h (o_es o)) -> exists es, x = Fin es /\ (o_sat o = true -> 0 < es)) ->
  exists fr full o' g', execute (@shipped XA) (init_absmdl g m) h o = Ok (fr, full, o', g') /\ length fr = (length (o_angles o) * length (o_frq o))%nat /\
  forall k j dr, (k < length (o_angles o))%nat -> (j < length (o_frq o))%nat ->
  exists f a es aw ad al ai, nth j (o_frq o) x0 = Fin f /\ nth k (o_angles o) x0 = Fin a /\ nth j (hget h (o_es o)) x0 = Fin es /\
    ideal_absorption m mz ps ts rhs o3 f aw ad /\ ideal_clouds m ts dl di f al ai /\ (length al = length ts /\ length ai = length ts /\ forall v, In v al \/ In v ai -> 0 <= v) /\
    (length aw = length ts /\ length ad = length ts /\ forall v, In v aw \/ In v ad -> 0 <= v) /\
    let x := nth j (an_rows (nth k full angle0)) full0 in
    nth (k * length (o_frq o) + j) fr dr = f_row x /\ f_awet x = map Fin aw /\ f_adry x = map Fin ad /\
    spec_row (o_sat o) f es a ts (slant_path zs a) aw ad al ai x.
Proof.
  intros Hm W Hcl Hr Hi Hu Hoz Hz Hp Ht Hrh SO Hfr Han Hes.
  apply (run_with_path (slant_path zs) g h o m mz zs ps ts rhs o3 dl di Hm W Hcl Hi Hu Hoz Hz Hp Ht Hrh SO Hfr); [|exact Hes].
  intros x Hx. destruct (Han x Hx) as (a & -> & Ha). exists a. split; [reflexivity|]. assert (Sp := sin_deg_pos a Ha). split.
  - apply slant_nonneg; [apply (so_rising _ _ _ _ SO)|exact Ha].
  - intros dryn wetn refindx _. rewrite (path_ds_flat h o refindx a zs Hr Hz ltac:(lra)). rewrite slant_path_diffs; [reflexivity|]. apply (so_ne _ _ _ _ SO).
Qed.

Lemma rising_lt zs : rising zs -> forall i j, (i < j)%nat -> (j < length zs)%nat -> nth i zs 0 < nth j zs 0.
Proof.
  intros H i j Hij. induction Hij as [|j Hij IH]; intros Hj; [apply H; exact Hj|]. eapply Rlt_trans; [apply IH; lia|apply H; exact Hj].
Qed.
Lemma rising_NoDup zs : rising zs -> NoDup zs.
Proof.
  intros H. apply (NoDup_nth zs 0). intros i j Hi Hj E. destruct (Nat.lt_total i j) as [L|[L|L]]; [|exact L|].
  - assert (X := rising_lt zs H i j L Hj). lra.
  - assert (X := rising_lt zs H j i L Hi). lra.
Qed.
Lemma rising_shift zs c : rising zs -> rising (map (fun x => x - c) zs).
Proof. intros H i Hi. rewrite map_length in Hi. rewrite !(nth_map_d (fun x => x - c) _ _ 0) by lia. assert (X := H i Hi). lra. Qed.
Lemma sounding_shift zs ps ts rhs c : sounding zs ps ts rhs -> sounding (map (fun x => x - c) zs) ps ts rhs.
Proof.
  intros [S1 S2 S3 S4 S5 S6 S7 S8]. constructor; rewrite ?map_length; auto using rising_shift. destruct zs; [congruence|discriminate].
Qed.

(** ** The programs a user writes: constructor, choice of the model, execution. *)
Theorem C111_from_constructor (g : globals XA) (h : heap XA) z p t rh m zs ps ts rhs (fs angs : list R) sat : served m ps ts ->
  hget h z = map Fin zs -> hget h p = map Fin ps -> hget h t = map Fin ts -> hget h rh = map Fin rhs ->
  z <> p -> z <> t -> z <> rh -> sounding zs ps ts rhs ->
  (forall f, In f fs -> usable m f) -> (forall a, In a angs -> 0 < a < 180) ->
  exists h' o fr full o' g',
    tb_init (A:=XA) h z p t rh (map Fin fs) (map Fin angs) None None "" false sat false = (h', Ok o) /\
    execute (@shipped XA) (init_absmdl g m) h' o = Ok (fr, full, o', g') /\ length fr = (length angs * length fs)%nat /\
    forall k j dr, (k < length angs)%nat -> (j < length fs)%nat ->
    let f := nth j fs 0 in let a := nth k angs 0 in
    exists aw ad x, ideal_absorption m "" ps ts rhs None f aw ad /\
      (length aw = length zs /\ length ad = length zs /\ forall v, In v aw \/ In v ad -> 0 <= v) /\
      nth (k * length fs + j) fr dr = f_row x /\ f_awet x = map Fin aw /\ f_adry x = map Fin ad /\
      spec_row sat f 1 a ts (slant_path zs a) aw ad (repeat 0 (length zs)) (repeat 0 (length zs)) x.
Proof.
  intros Hm Hz Hp Ht Hrh N1 N2 N3 SO Hf Ha. destruct SO as [S1 S2 S3 S4 S5 S6 S7 S8] eqn:ES.
  assert (ND := rising_NoDup zs S5).
  destruct (C44_exact h z p t rh (map Fin fs) (map Fin angs) None None false sat false zs Hz S1) as [HC _].
  destruct (HC (NoDup_no_repeat _ ND)) as (o & HO & _).
  destruct (tb_init (A:=XA) h z p t rh (map Fin fs) (map Fin angs) None None "" false sat false) as [h' r] eqn:EI. cbn [snd] in HO. subst r.
  destruct (init_z h h' z p t rh (map Fin fs) (map Fin angs) None None false sat false o zs Hz S1 ND EI) as (_ & _ & _ & Hz').
  assert (V : forall b l, hget h b = map Fin l -> length l = length zs -> (b < length h)%nat).
  { intros b l Hb Hl. apply hget_valid. rewrite Hb. destruct l; [destruct zs; [congruence|discriminate]|discriminate]. }
  assert (F := tb_init_wf h h' z p t rh (map Fin fs) (map Fin angs) None None "" false sat false o EI). cbv zeta in F. rewrite Hz, Hp, Ht, Hrh, !map_length in F.
  destruct (F S2 S3 S4 ltac:(discriminate)) as (W & G1 & G2 & G3 & G4 & G5 & G6 & G7 & G8 & G9 & _ & _ & G12 & G13 & G14 & G15 & G16 & G17 & G18 & _ & G20).
  destruct (C111_run g h' o m "" (map (fun x => x - nth 0 zs 0) zs) ps ts rhs None (repeat 0 (length ts)) (repeat 0 (length ts)) Hm W) as (fr & full & o' & g' & R1 & R2 & R3); auto.
  { left. split; [exact G2|]. split; [intros cs c Hcs Hcc; rewrite G9; apply (G17 cs c Hcs Hcc)|auto]. }
  { rewrite G15. exact Hz'. }
  { rewrite G13, G18; eauto. }
  { rewrite G12, G18; eauto. }
  { rewrite G14, G18; eauto. }
  { apply sounding_shift, SO. }
  { intros x Hx. rewrite G3 in Hx. apply in_map_iff in Hx. destruct Hx as (v & <- & Hv). eauto. }
  { intros x Hx. rewrite G4 in Hx. apply in_map_iff in Hx. destruct Hx as (v & <- & Hv). eauto. }
  { intros x Hx. rewrite G20 in Hx. apply repeat_spec in Hx. subst x. exists (10 / 10). split; [reflexivity|intros; lra]. }
  exists h', o, fr, full, o', g'. split; [reflexivity|]. split; [exact R1|]. rewrite G3, G4, !map_length in R2. split; [exact R2|].
  intros k j dr Hk Hj f a. rewrite G3, G4, !map_length in R3.
  destruct (R3 k j dr Hk Hj) as (f' & a' & es & aw & ad & al & ai & E1 & E2 & E3 & E4 & E4c & _ & E5 & E6 & E7 & E8 & E9).
  unfold x0 in E1, E2. rewrite (nth_map_d Fin fs _ 0) in E1 by assumption. rewrite (nth_map_d Fin angs _ 0) in E2 by assumption.
  assert (f' = f) by (inversion E1; reflexivity). assert (a' = a) by (inversion E2; reflexivity). subst f' a'.
  assert (es = 1).
  { rewrite G20 in E3. rewrite nth_repeat_lt in E3 by exact Hj.
    change (lit (a:=XA) 1.0) with (Fin (10 / 10)) in E3. inversion E3. lra. }
  assert (Z := no_clouds m ts f). unfold ideal_clouds in E4c, Z. rewrite Z in E4c. apply ok_inj in E4c.
  assert (al = repeat 0 (length ts)) by exact (eq_sym (f_equal fst E4c)). assert (ai = repeat 0 (length ts)) by exact (eq_sym (f_equal snd E4c)). subst al ai.
  subst es. exists aw, ad, (nth j (an_rows (nth k full angle0)) full0). rewrite S3 in E5. rewrite G6, slant_shift, S3 in E9.
  split; [exact E4|]. split; [exact E5|]. auto.
Qed.

(** ** Consequences for the brightness temperature of a row *)
Theorem C111_bounds (sat : bool) f es a ts d aw ad al ai x lo hi : spec_row sat f es a ts d aw ad al ai x ->
  0 < f -> 0 < lo -> (forall t, In t ts -> lo <= t <= hi) -> ts <> [] -> length aw = length ts -> (forall v, In v (opacities aw ad ai al d) -> 0 <= v) ->
  (sat = true -> 0 < es <= 1) ->
  exists T, r_tbtotal (f_row x) = Fin T /\ 0 < T /\
    (sat = false -> T <= Rmax hi 2.728) /\ (sat = true -> T <= hi) /\
    (total_tau (opacities aw ad ai al d) < 125 -> (sat = false -> Rmin lo 2.728 <= T) /\ (sat = true -> es = 1 -> lo <= T)).
Proof.
  intros S Hf Hlo Ht Hne Lw Hop Hes. unfold spec_row in S. cbv zeta in S.
  set (tl := opacities aw ad ai al d) in *. set (h := spec_hvk f) in *. set (tau := total_tau tl) in *.
  destruct S as (_ & _ & _ & _ & _ & _ & _ & _ & _ & _ & S1 & S2 & _).
  assert (Hh : 0 < h) by apply (spec_hvk_pos f Hf).
  assert (Lt : length ts = length tl) by (unfold tl, opacities; rewrite map_length, seq_length; lia).
  destruct (total_atm_bounds sat h ts tl lo hi Hh Hlo Ht Hop Lt Hne) as [B1 B2]. fold tau in B1, B2.
  assert (T0 : 0 <= tau) by (apply total_tau_nonneg; exact Hop).
  assert (E0 := exp_pos (- tau)).
  assert (E1 : exp (- tau) <= 1) by (rewrite <- exp_0; apply exp_le; lra).
  set (atm := total_atm sat h ts tl) in *.
  assert (Hin : In (nth 0 ts 0) ts) by (apply nth_In; destruct ts; [congruence|cbn; lia]).
  assert (Hhi : lo <= hi) by (destruct (Ht _ Hin); lra).
  assert (Plo := planckB_pos h lo Hh Hlo). assert (Phi := planckB_pos h hi Hh ltac:(lra)).
  assert (Inv : forall T, 0 < T -> planckT h (planckB h T) = T) by (intros; apply planckT_B; auto).
  set (q := exp (- tau)) in *.
  destruct (Rlt_le_dec tau 125) as [HT|HT].
  - set (bg := background sat es h ts) in *. exists (planckT h (bg * q + atm)).
    assert (Bg : 0 < bg) by (unfold bg, background; destruct sat; [apply Rmult_lt_0_compat; [apply Hes; reflexivity|apply planckB_pos; [exact Hh|destruct (Ht _ Hin); lra]]|apply planckB_pos; lra]).
    assert (A0 : 0 <= atm) by (eapply Rle_trans; [|exact B1]; apply Rmult_le_pos; lra).
    assert (P0 : 0 < bg * q + atm) by (assert (0 < bg * q) by (apply Rmult_lt_0_compat; lra); lra).
    split; [apply S1; exact HT|]. split; [apply planckT_pos; auto|]. split; [|split; [|intros _; split]].
    + intros ->. rewrite <- (Inv (Rmax hi 2.728)) by (apply Rlt_le_trans with hi; [lra|apply Rmax_l]). apply planckT_le; auto.
      assert (M1 : planckB h hi <= planckB h (Rmax hi 2.728)) by (apply planckB_le; auto; [lra|apply Rmax_l]).
      assert (M2 : bg <= planckB h (Rmax hi 2.728)) by (unfold bg, background; apply planckB_le; auto; [lra|apply Rmax_r]). nra.
    + intros ->. rewrite <- (Inv hi) by lra. apply planckT_le; auto.
      assert (M2 : bg <= planckB h hi).
      { unfold bg, background. destruct (Hes eq_refl). destruct (Ht _ Hin). assert (planckB h (nth 0 ts 0) <= planckB h hi) by (apply planckB_le; auto; lra).
        assert (0 < planckB h (nth 0 ts 0)) by (apply planckB_pos; auto; lra). nra. }
      nra.
    + intros ->. assert (M0 : 0 < Rmin lo 2.728) by (apply Rmin_glb_lt; lra). rewrite <- (Inv (Rmin lo 2.728)) by exact M0.
      apply planckT_le; auto; [apply planckB_pos; auto|].
      assert (M1 : planckB h (Rmin lo 2.728) <= planckB h lo) by (apply planckB_le; auto; apply Rmin_l).
      assert (M2 : planckB h (Rmin lo 2.728) <= bg) by (unfold bg, background; apply planckB_le; auto; apply Rmin_r). nra.
    + intros -> ->. rewrite <- (Inv lo) by exact Hlo. apply planckT_le; auto.
      assert (M2 : planckB h lo <= bg) by (unfold bg, background; rewrite Rmult_1_l; apply planckB_le; auto; destruct (Ht _ Hin); lra). nra.
  - exists (planckT h atm).
    assert (Q : q < 1) by (unfold q; apply exp_neg_lt1; lra).
    assert (A0 : 0 < atm) by (eapply Rlt_le_trans; [|exact B1]; apply Rmult_lt_0_compat; lra).
    assert (U : planckT h atm <= hi) by (rewrite <- (Inv hi) by lra; apply planckT_le; auto; nra).
    split; [apply S2; exact HT|]. split; [apply planckT_pos; auto|]. split; [|split; [auto|intros; lra]].
    intros _. eapply Rle_trans; [exact U|apply Rmax_l].
Qed.

(** ** A concrete case: three levels, two frequencies, two elevations, the model R19. *)
Lemma goff_small t : 0 < t < 373.16 -> goff_water t < 1013.246.
Proof.
  intros H. assert (E := proj1 C109_reference_points). rewrite C109_selection in E. rewrite <- E, <- !eswat_R.
  apply (proj1 (proj2 C30_saturation_pressure_monotone)); lra.
Qed.

Lemma ex_sounding : sounding [1; 2; 4] [900; 800; 600] [290; 280; 260] [0.5; 0.5; 0.2].
Proof.
  constructor; try reflexivity; try discriminate.
  - intros [|[|i]] Hi; cbn in *; try lra; lia.
  - intros t [<-|[<-|[<-|[]]]]; lra.
  - intros t [<-|[<-|[<-|[]]]]; lra.
  - assert (G1 := goff_small 290 ltac:(lra)). assert (G2 := goff_small 280 ltac:(lra)). assert (G3 := goff_small 260 ltac:(lra)).
    intros [|[|[|i]]] Hi; cbn [nth]; try lra. cbn in Hi. lia.
Qed.

Example C111_example sat : exists h' o fr full o' g' x T,
  tb_init (A:=XA) ex_h 0%nat 1%nat 2%nat 3%nat (map Fin [22.235; 60]) (map Fin [90; 30]) None None "" false sat false = (h', Ok o) /\
  execute (@shipped XA) (init_absmdl ex_g "R19") h' o = Ok (fr, full, o', g') /\ length fr = 4%nat /\ nth 3 fr (f_row full0) = f_row x /\
  r_tbtotal (f_row x) = Fin T /\ 0 < T <= 290.
Proof.
  destruct (C111_from_constructor ex_g ex_h 0%nat 1%nat 2%nat 3%nat "R19" [1; 2; 4] [900; 800; 600] [290; 280; 260] [0.5; 0.5; 0.2] [22.235; 60] [90; 30] sat)
    as (h' & o & fr & full & o' & g' & H1 & H2 & H3 & H4); try reflexivity; try discriminate.
  { left; cbn; tauto. } { exact ex_sounding. } { intros f [<-|[<-|[]]]; (split; [lra|discriminate]). } { intros a [<-|[<-|[]]]; lra. }
  destruct (H4 1%nat 1%nat (f_row full0) ltac:(cbn; lia) ltac:(cbn; lia)) as (aw & ad & x & _ & (L1 & L2 & N) & E & _ & _ & S). cbn [nth] in S.
  destruct (C111_bounds sat 60 1 30 [290; 280; 260] _ aw ad _ _ x 260 290 S) as (T & T1 & T2 & T3 & T4 & _); try lra; try discriminate; auto.
  { intros t [<-|[<-|[<-|[]]]]; lra. }
  { intros v Hv. unfold opacities in Hv. apply in_map_iff in Hv. destruct Hv as (i & <- & _).
    assert (Z : forall b, 0 <= layer_int b (repeat 0 3) (slant_path [1; 2; 4] 30) i).
    { intros b. apply layer_int_nonneg; [intros v Hv; apply repeat_spec in Hv; lra|]. apply slant_nonneg; [apply (so_rising _ _ _ _ ex_sounding)|lra]. }
    assert (A1 := Z false). assert (SN := slant_nonneg [1; 2; 4] 30 (so_rising _ _ _ _ ex_sounding) ltac:(lra)).
    assert (A2 := layer_int_nonneg true aw (slant_path [1; 2; 4] 30) i ltac:(intros; apply N; auto) SN).
    assert (A3 := layer_int_nonneg true ad (slant_path [1; 2; 4] 30) i ltac:(intros; apply N; auto) SN). cbn [length] in *. lra. }
  exists h', o, fr, full, o', g', x, T. split; [exact H1|]. split; [exact H2|]. split; [exact H3|]. split; [exact E|]. split; [exact T1|].
  split; [exact T2|]. destruct sat; [apply T4; reflexivity|]. eapply Rle_trans; [apply T3; reflexivity|]. apply Rmax_lub; lra.
Qed.

(** The same with the model R24: speed-dependent water-vapour and oxygen lines and the tabulated continuum. *)
Example C111_R24_example sat : exists h' o fr full o' g',
  tb_init (A:=XA) ex_h 0%nat 1%nat 2%nat 3%nat (map Fin [22.235; 60]) (map Fin [90; 30]) None None "" false sat false = (h', Ok o) /\
  execute (@shipped XA) (init_absmdl ex_g "R24") h' o = Ok (fr, full, o', g') /\ length fr = 4%nat /\
  exists aw ad x, ideal_absorption "R24" "" [900; 800; 600] [290; 280; 260] [0.5; 0.5; 0.2] None 22.235 aw ad /\ nth 2 fr (f_row full0) = f_row x /\
    spec_row sat 22.235 1 30 [290; 280; 260] (slant_path [1; 2; 4] 30) aw ad (repeat 0 3) (repeat 0 3) x.
Proof.
  destruct (C111_from_constructor ex_g ex_h 0%nat 1%nat 2%nat 3%nat "R24" [1; 2; 4] [900; 800; 600] [290; 280; 260] [0.5; 0.5; 0.2] [22.235; 60] [90; 30] sat)
    as (h' & o & fr & full & o' & g' & H1 & H2 & H3 & H4); try reflexivity; try discriminate.
  { right. split; [cbn; tauto|]. split; [intros t [<-|[<-|[<-|[]]]]; lra|intros p [<-|[<-|[<-|[]]]]; lra]. }
  { exact ex_sounding. } { intros f [<-|[<-|[]]]; (split; [lra|intros _; unfold node; lra]). } { intros a [<-|[<-|[]]]; lra. }
  destruct (H4 1%nat 0%nat (f_row full0) ltac:(cbn; lia) ltac:(cbn; lia)) as (aw & ad & x & I1 & _ & E & _ & _ & S). cbn [nth] in I1, S.
  exists h', o, fr, full, o', g'. split; [exact H1|]. split; [exact H2|]. split; [exact H3|]. exists aw, ad, x. auto.
Qed.

(** With a cloud of liquid water in the whole column: the rows hold its positive opacity. *)
Example C111_cloudy_example sat : exists h o fr full o' g' aw ad al ai,
  ex_init sat true = (h, Ok o) /\
  execute (@shipped XA) (init_absmdl ex_g "R19") h (init_cloudy h o [(Fin 1, Fin 4)] 4%nat 5%nat) = Ok (fr, full, o', g') /\
  ideal_absorption "R19" "" [900; 800; 600] [290; 280; 260] [0.5; 0.5; 0.2] None 60 aw ad /\
  ideal_clouds "R19" [290; 280; 260] [0.1; 0.1; 0.1] [0; 0; 0] 60 al ai /\
  spec_row sat 60 1 30 [290; 280; 260] (slant_path [0; 1; 3] 30) aw ad al ai (nth 1 (an_rows (nth 1 full angle0)) full0).
Proof.
  destruct (ex_init_ok sat true) as (h & o & H). assert (F := ex_init_facts _ _ _ _ H).
  destruct F as (W0 & _ & _ & _ & _ & _ & _ & _ & _ & _ & _ & _ & _ & _ & Hz & Ht & H4 & H5 & Hes).
  destruct (ex_cloudy_facts sat h o 4%nat 5%nat H) as (W & Rd & Hc & Hd & _ & Hf & Ha & Hr & Hi & Hu & Ho3 & Hoz & Hnl & Hs & Htk); auto.
  set (oc := init_cloudy h o [(Fin 1, Fin 4)] 4%nat 5%nat) in *.
  assert (H' := H). unfold ex_init in H'. apply tb_init_wf in H'; try reflexivity; [|discriminate].
  destruct H' as (_ & _ & G2 & _ & _ & _ & _ & _ & _ & _ & _ & _ & G12 & G13 & G14 & G15 & _ & _ & G18 & _ & G20).
  assert (K : o_p oc = 1%nat /\ o_rh oc = 3%nat /\ o_es oc = o_es o) by (unfold oc, init_cloudy; rewrite G2; cbn; auto). destruct K as (K1 & K2 & K3).
  assert (Es : hget h (o_es oc) = [Fin (10 / 10); Fin (10 / 10)]) by (rewrite K3, G20; reflexivity).
  assert (SO : sounding [0; 1; 3] [900; 800; 600] [290; 280; 260] [0.5; 0.5; 0.2]).
  { assert (S := sounding_shift _ _ _ _ 1 ex_sounding). cbn [map] in S. replace (1 - 1) with 0 in S by lra. replace (2 - 1) with 1 in S by lra. replace (4 - 1) with 3 in S by lra. exact S. }
  destruct (C111_run ex_g h oc "R19" "" [0; 1; 3] [900; 800; 600] [290; 280; 260] [0.5; 0.5; 0.2] None [0.1; 0.1; 0.1] [0; 0; 0]) as (fr & full & o' & g' & R1 & R2 & R3); auto.
  { left; cbn; tauto. }
  { right. split; [exact Hc|]. split; [exact Rd|]. split; [exists 4%nat, 5%nat; auto|]. intros i Hlt _. split; [cbn; tauto|]. destruct i as [|[|[|i]]]; cbn in Hlt |- *; try lra; lia. }
  { rewrite Hoz. exact Hz. } { rewrite K1. apply (G18 1%nat); cbn; lia. } { rewrite Htk. exact Ht. } { rewrite K2. apply (G18 3%nat); cbn; lia. }
  { rewrite Hf. intros x [<-|[<-|[]]]; eexists; (split; [reflexivity|split; [lra|discriminate]]). }
  { rewrite Ha. intros x [<-|[<-|[<-|[]]]]; eexists; (split; [reflexivity|lra]). }
  { rewrite Es. intros x [<-|[<-|[]]]; eexists; (split; [reflexivity|intros; lra]). }
  rewrite Hf, Ha in R3. destruct (R3 1%nat 1%nat (f_row full0)) as (f & a & es & aw & ad & al & ai & E1 & E2 & E3 & E4 & E5 & _ & _ & _ & _ & _ & E6); [cbn; lia|cbn; lia|].
  assert (f = 60) by (cbn in E1; inversion E1; reflexivity). assert (a = 30) by (cbn in E2; inversion E2; reflexivity).
  assert (es = 1) by (rewrite Es in E3; cbn in E3; inversion E3; lra). subst f a es. rewrite Hs in E6.
  exists h, o, fr, full, o', g', aw, ad, al, ai. auto.
Qed.

(** ** The integrated columns *)

(** Refractivities of dry air and of vapour at every level (formulas of C25). *)
Definition dries (ps ts es : list R) : list R := map (fun x => thayer_dry (fst x) (fst (snd x)) (snd (snd x))) (combine ps (combine ts es)).
Definition wets (ts es : list R) : list R := map (fun x => thayer_wet (fst x) (snd x)) (combine ts es).

Lemma refr_D (ps ts es : list R) : length ps = length ts -> length es = length ts -> (forall t, In t ts -> 0 < t) ->
  exists idx, refractivity (A:=XA) (map Fin ps) (map Fin ts) (map Fin es) = (map Fin (dries ps ts es), map Fin (wets ts es), idx).
Proof.
  intros L1 L2 Ht. unfold refractivity. eexists. apply f_equal2; [apply f_equal2|reflexivity].
  - rewrite map_map. unfold dries. revert ts es L1 L2 Ht. induction ps as [|p ps IH]; intros [|t ts] [|e es] L1 L2 Ht; cbn [length] in *; try discriminate; [reflexivity|].
    cbn [map combine fst snd]. assert (T : 0 < t) by (apply Ht; left; reflexivity). f_equal.
    + exact (f_equal (fun x => fst (fst x)) (refractivity1_X p t e ltac:(lra))).
    + apply IH; try lia. intros x Hx. apply Ht. right. exact Hx.
  - rewrite map_map. unfold wets. revert ts es L1 L2 Ht. induction ps as [|p ps IH]; intros [|t ts] [|e es] L1 L2 Ht; cbn [length] in *; try discriminate; [reflexivity|].
    cbn [map combine fst snd]. assert (T : 0 < t) by (apply Ht; left; reflexivity). f_equal.
    + exact (f_equal (fun x => snd (fst x)) (refractivity1_X p t e ltac:(lra))).
    + apply IH; try lia. intros x Hx. apply Ht. right. exact Hx.
Qed.

Lemma thayer_dry_nonneg p t e : 0 < t -> 0 <= p - e <= 1000000 -> 0 <= thayer_dry p t e.
Proof.
  intros Ht Hp. unfold thayer_dry. assert (T2 : 0 < t * t) by nra. apply Rmult_le_pos; [apply Rmult_le_pos; [lra|apply Rmult_le_pos; [lra|apply Rlt_le, Rinv_0_lt_compat; lra]]|].
  assert (Q : (t - 273.16) / (t * t) <= 1 / 1092.64).
  { apply (Rmult_le_reg_r (t * t)); [exact T2|]. unfold Rdiv at 1. rewrite Rmult_assoc, Rinv_l, Rmult_1_r by lra.
    assert (K := sq_nonneg (t - 546.32)). lra. }
  assert (Q2 : 0 < 0.52 / t) by (apply Rdiv_lt_0_compat; lra).
  replace (0.00094611 * (t - 273.16) / (t * t)) with (0.00094611 * ((t - 273.16) / (t * t))) by (unfold Rdiv; ring).
  set (q := (t - 273.16) / (t * t)) in *. set (r := 0.52 / t) in *. clearbody q r.
  assert (B : -0.0000009 <= 5.79e-7 * (1 + r) - 0.00094611 * q) by lra.
  set (w := 5.79e-7 * (1 + r) - 0.00094611 * q) in *. clearbody w. set (x := p - e) in *. clearbody x. nra.
Qed.
Lemma thayer_wet_nonneg t e : 152 <= t -> 0 <= e -> 0 <= thayer_wet t e.
Proof.
  intros Ht He. unfold thayer_wet.
  assert (I1 : 0 <= e / t) by (apply Rmult_le_pos; [lra|apply Rlt_le, Rinv_0_lt_compat; lra]).
  assert (I2 : 0 <= e / (t * t)) by (apply Rmult_le_pos; [lra|apply Rlt_le, Rinv_0_lt_compat; nra]).
  assert (I3 : 0 <= e / (t * (t * t))) by (apply Rmult_le_pos; [lra|apply Rlt_le, Rinv_0_lt_compat; apply Rmult_lt_0_compat; nra]).
  assert (P : 0 <= 1 - 0.01317 * (t - 273.16) + 0.000175 * ((t - 273.16) * (t - 273.16)) + 1.44e-6 * ((t - 273.16) * (t - 273.16) * (t - 273.16))).
  { set (c := t - 273.16). assert (C : -121.2 <= c) by (unfold c; lra). clearbody c.
    assert (K := sq_nonneg (c - 70)). assert (K2 := sq_nonneg c).
    destruct (Rle_lt_dec 0 c) as [Hc|Hc].
    - assert (0 <= c * c * c) by (apply Rmult_le_pos; lra). nra.
    - assert (0 <= (0.000175 + 1.44e-6 * c) * (c * c)) by (apply Rmult_le_pos; lra). lra. }
  apply Rmult_le_pos; [lra|]. assert (0 <= 1650 * (e / (t * (t * t))) * (1 - 0.01317 * (t - 273.16) + 0.000175 * ((t - 273.16) * (t - 273.16)) + 1.44e-6 * ((t - 273.16) * (t - 273.16) * (t - 273.16)))); [|lra].
  apply Rmult_le_pos; [lra|exact P].
Qed.

(** Precipitable water, wet delay and dry delay of every elevation: integrals along the slant path. *)
Theorem C111_columns db (g : globals XA) (h : heap XA) o fr full o' g' zs ps ts rhs : wf h o -> execute db g h o = Ok (fr, full, o', g') -> o_ray o = false ->
  hget h (o_z o) = map Fin zs -> hget h (o_p o) = map Fin ps -> hget h (o_tk o) = map Fin ts -> hget h (o_rh o) = map Fin rhs -> sounding zs ps ts rhs ->
  (forall t, In t ts -> 152 <= t) -> (forall p, In p ps -> p <= 1000000) ->
  forall k a, (k < length (o_angles o))%nat -> nth k (o_angles o) x0 = Fin a -> 0 < a < 180 ->
  let y := nth k full angle0 in let path := slant_path zs a in
  an_srho y = Fin (0.1 * column true (vap_density ts rhs) path) /\
  an_swet y = Fin (0.1 * column true (wets ts (vap ts rhs)) path) /\
  an_sdry y = Fin (0.1 * column true (dries ps ts (vap ts rhs)) path).
Proof.
  intros W H Hr Hz Hp Ht Hrh SO T152 P6 k a Hk Ea Ha y path. destruct SO as [S1 S2 S3 S4 S5 S6 S7 S8].
  assert (Hi : o_ice o = false).
  { destruct (execute_cell XA db g h o fr full o' g' W H) as (g1 & e & rho & dn & wn & ri & _ & Ev & _). destruct (o_ice o); [discriminate|reflexivity]. }
  destruct (vap_facts ts rhs ltac:(lia) S6 S7) as (V1 & V2 & V3).
  destruct (refr_D ps ts (vap ts rhs) ltac:(lia) V1 S6) as (idx & Hidx).
  assert (NL : o_nl o = length zs) by (assert (X := wf_z _ _ W); rewrite Hz, map_length in X; auto).
  apply (C110_columns db g h o fr full o' g' zs (vap_density ts rhs) (wets ts (vap ts rhs)) (dries ps ts (vap ts rhs)) W H Hr Hz); auto.
  - intros e ro dr we re Ev Er. rewrite Ht, Hrh, Hi in Ev. rewrite (vapor_D ts rhs S6) in Ev. apply ok_inj in Ev.
    assert (E1 : e = map Fin (vap ts rhs)) by exact (eq_sym (f_equal fst Ev)). assert (E2 : ro = map Fin (vap_density ts rhs)) by exact (eq_sym (f_equal snd Ev)). clear Ev.
    rewrite Hp, Ht, E1 in Er. rewrite Hidx in Er.
    split; [exact E2|]. split; [exact (eq_sym (f_equal (fun x => snd (fst x)) Er))|exact (eq_sym (f_equal (fun x => fst (fst x)) Er))].
  - intros v [Hv|[Hv|Hv]].
    + unfold vap_density in Hv. apply in_map_iff in Hv. destruct Hv as ((t & r) & <- & Hin). cbn [fst snd].
      assert (T := S6 t (in_combine_l _ _ _ _ Hin)). assert (R0 := S7 r (in_combine_r _ _ _ _ Hin)).
      apply Rmult_le_pos; [apply Rmult_le_pos; [exact R0|apply Rlt_le, Rpower_pos]|apply Rlt_le, Rinv_0_lt_compat; lra].
    + unfold wets in Hv. apply in_map_iff in Hv. destruct Hv as ((t & e) & <- & Hin). cbn [fst snd].
      apply thayer_wet_nonneg; [apply T152, (in_combine_l _ _ _ _ Hin)|apply V2, (in_combine_r _ _ _ _ Hin)].
    + unfold dries in Hv. apply in_map_iff in Hv. destruct Hv as ((p & t & e) & <- & Hin). cbn [fst snd].
      apply (In_nth _ _ (0, (0, 0))) in Hin. destruct Hin as (i & Hlt & E). rewrite !combine_length in Hlt.
      rewrite combine_nth in E by (rewrite combine_length; lia). rewrite combine_nth in E by lia. injection E as E1 E2 E3.
      assert (Q1 := S8 i ltac:(lia)). rewrite <- V3 in Q1 by lia. rewrite E1, E3 in Q1. 
      assert (Q2 := V2 e ltac:(rewrite <- E3; apply nth_In; lia)). assert (Q3 := P6 p ltac:(rewrite <- E1; apply nth_In; lia)).
      apply thayer_dry_nonneg; [apply S6; rewrite <- E2; apply nth_In; lia|lra].
  - unfold vap_density. rewrite map_length, combine_length. lia.
  - unfold wets. rewrite map_length, combine_length. lia.
  - unfold dries. rewrite map_length, !combine_length. lia.
Qed.
