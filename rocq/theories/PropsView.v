(** C141: absorption and opacities do not depend on the viewing direction and the surface. *)

From Coq Require Import ZArith Lia List Bool String.
Import ListNotations.
From Verif Require Import Arith PyBase Utils RTE Absorption Clear Spectrum ListAux SolverGen Registry SolverRun.

Section View.
Context {A : Arith}.
Notation num := (car A).

(** The columns and profiles of the output that describe absorption. *)
Definition opacity_columns (r : row A) : num * num * num * num * num :=
  (r_tauwet r, r_taudry r, r_tauliq r, r_tauice r, r_angle r).
Definition absorption_part (r : row_full A) :=
  (opacity_columns (f_row r), (f_ptauwet r, f_ptaudry r, f_ptauliq r, f_ptauice r), (f_awet r, f_adry r)).
Definition angle_part (a : angle_full A) :=
  ((an_srho a, an_swet a, an_sdry a), (an_sliq a, an_sice a), map absorption_part (an_rows a)).

Definition cloud_part (c : cell A) := (c_sptauliq c, c_ptauliq c, c_sptauice c, c_ptauice c).

Lemma cell_view (g : globals A) s s' i e ds angle f es es' old old' x x' :
  run_cell (with_sat g s) i e ds angle f es old = Ok x ->
  run_cell (with_sat g s') i e ds angle f es' old' = Ok x' ->
  cloud_part old = cloud_part old' ->
  absorption_part (fst x) = absorption_part (fst x').
Proof.
  unfold run_cell. intros H H' Hold.
  change (clearsky_absorption (with_sat g s')) with (clearsky_absorption (with_sat g s)) in H'.
  change (g_liq (with_sat g s')) with (g_liq (with_sat g s)) in H'.
  inv_bind H a Ea. rewrite Ea in H'. cbn [bind] in H'. destruct a as [aw ad].
  inv_bind H w Ew. rewrite Ew in H'. cbn [bind] in H'.
  inv_bind H d Ed. rewrite Ed in H'. cbn [bind] in H'.
  inv_bind H c1 Ec. inv_bind H' c1' Ec'.
  assert (C : cloud_part c1 = cloud_part c1').
  { destruct (i_cloudy i).
    - inv_bind Ec dens E1. rewrite E1 in Ec'. cbn [bind] in Ec'. inv_bind Ec la E2. rewrite E2 in Ec'. cbn [bind] in Ec'.
      inv_bind Ec l E3. rewrite E3 in Ec'. cbn [bind] in Ec'. inv_bind Ec ic E4. rewrite E4 in Ec'. cbn [bind] in Ec'.
      inversion Ec; inversion Ec'; subst. reflexivity.
    - inversion Ec; inversion Ec'; subst. exact Hold. }
  inv_bind H pl Ep. inv_bind H' pl' Ep'. inv_bind H c2 E2. inv_bind H' c2' E2'. inv_bind H al E3. inv_bind H' al' E3'.
  assert (C2 : cloud_part c2 = cloud_part c1).
  { destruct (i_cloudy i).
    - inv_bind E2 lv F1. inv_bind E2 b0 F2. inv_bind E2 t0 F3. inv_bind E2 tm F4. inversion E2; subst. reflexivity.
    - inversion E2. reflexivity. }
  assert (C2' : cloud_part c2' = cloud_part c1').
  { destruct (i_cloudy i).
    - inv_bind E2' lv F1. inv_bind E2' b0 F2. inv_bind E2' t0 F3. inv_bind E2' tm F4. inversion E2'; subst. reflexivity.
    - inversion E2'. reflexivity. }
  assert (CC : cloud_part c2 = cloud_part c2') by congruence. unfold cloud_part in CC. inversion CC as [[Q1 Q2 Q3 Q4]].
  inversion H; inversion H'; subst x x'. unfold absorption_part, opacity_columns. cbn [fst f_row f_ptauwet f_ptaudry f_ptauliq f_ptauice f_awet f_adry r_tauwet r_taudry r_tauliq r_tauice r_angle].
  rewrite Q1, Q2, Q3, Q4. reflexivity.
Qed.

Lemma freqs_view (g : globals A) s s' i i' e ds angle frqs : i' = set_es i (i_es i') -> forall cells j xs xs',
  run_freqs (with_sat g s) i e ds angle frqs cells j = Ok xs ->
  run_freqs (with_sat g s') i' e ds angle frqs cells j = Ok xs' ->
  map absorption_part (map fst xs) = map absorption_part (map fst xs').
Proof.
  intros Hi. induction frqs as [|f frqs IH]; intros cells j xs xs' H H'.
  - cbn [run_freqs] in H, H'. inversion H; inversion H'; reflexivity.
  - destruct cells as [|c cells]; cbn [run_freqs] in H, H'; [inversion H; inversion H'; reflexivity|].
    inv_bind H es E1. inv_bind H x E2. inv_bind H ys E3. inv_bind H' es' E1'. inv_bind H' x' E2'. inv_bind H' ys' E3'.
    inversion H; inversion H'; subst xs xs'. cbn [map]. f_equal; [|exact (IH _ _ _ _ E3 E3')].
    rewrite Hi, run_cell_set_es in E2'. exact (cell_view g s s' i e ds angle f es es' c c x x' E2 E2' eq_refl).
Qed.

Lemma angle_view (g : globals A) s s' i i' frqs e rho dryn wetn refindx angle old x x' : i' = set_es i (i_es i') ->
  run_angle (with_sat g s) i frqs e rho dryn wetn refindx angle old = Ok x ->
  run_angle (with_sat g s') i' frqs e rho dryn wetn refindx angle old = Ok x' ->
  angle_part (fst x) = angle_part (fst x').
Proof.
  intros Hi H H'. unfold run_angle in H, H'. destruct old as [cells [sl si]].
  assert (P : path_ds i' refindx angle = path_ds i refindx angle) by (rewrite Hi, path_set_es; reflexivity).
  assert (N : i_nl i' = i_nl i) by (rewrite Hi; reflexivity). assert (C : i_cloudy i' = i_cloudy i) by (rewrite Hi; reflexivity).
  assert (D : i_dens i' = i_dens i) by (rewrite Hi; reflexivity). assert (L : i_levels i' = i_levels i) by (rewrite Hi; reflexivity).
  rewrite P, N, C, D, L in H'. clear P N C D L.
  inv_bind H ds E1. rewrite E1 in H'. cbn [bind] in H'. inv_bind H sr E2. rewrite E2 in H'. cbn [bind] in H'.
  inv_bind H sw E3. rewrite E3 in H'. cbn [bind] in H'. inv_bind H sd E4. rewrite E4 in H'. cbn [bind] in H'.
  inv_bind H cl E5. rewrite E5 in H'. cbn [bind] in H'. inv_bind H xs E6. inv_bind H' xs' E6'.
  inversion H; inversion H'; subst x x'. unfold angle_part. cbn [fst an_srho an_swet an_sdry an_sliq an_sice an_rows].
  rewrite (freqs_view g s s' i i' e ds angle frqs Hi _ _ _ _ E6 E6'). reflexivity.
Qed.

Lemma mapM_agree {T U V} (f f' : T -> result U) (p : U -> V) l : (forall x y y', f x = Ok y -> f' x = Ok y' -> p y = p y') ->
  forall r r', mapM f l = Ok r -> mapM f' l = Ok r' -> map p r = map p r'.
Proof.
  intros Hp. induction l as [|x l IH]; intros r r' H H'; cbn [mapM] in H, H'; [inversion H; inversion H'; reflexivity|].
  inv_bind H y E1. inv_bind H ys E2. inv_bind H' y' E1'. inv_bind H' ys' E2'. inversion H; inversion H'; subst. cbn [map].
  f_equal; [exact (Hp _ _ _ E1 E1')|exact (IH _ _ E2 E2')].
Qed.

(** [o'] differs from [o] at most in direction and emissivities. *)
Definition same_but_view (o o' : tbobj A) : Prop :=
  o' = mkObj (o_z o) (o_p o) (o_tk o) (o_rh o) (o_frq o) (o_angles o) (o_o3n o)
    (o_amu o) (o_ray o) (o_sat o') (o_cloudy o) (o_unc o) (o_ice o) (o_nl o) (o_es o')
    (o_z0 o) (o_levels o) (o_dens o) (o_cells o) (o_sliq o) (o_sice o).

(** The arrays a solver refers to, emissivities apart. *)
Definition refs (o : tbobj A) : list addr :=
  [o_z o; o_p o; o_tk o; o_rh o] ++ match o_o3n o with Some a => [a] | None => [] end
  ++ match o_dens o with Some (a, b) => [a; b] | None => [] end.

(** C141.  Two solvers that differ only in direction and emissivities report the same absorption, opacities, columns and delays: at every
    angle and frequency, for every model, in whatever arithmetic. *)
Theorem C141_opacities db (g : globals A) h h' o o' fr full o1 g1 fr' full' o1' g1' :
  same_but_view o o' -> (forall a, In a (refs o) -> hget h' a = hget h a) ->
  execute db g h o = Ok (fr, full, o1, g1) -> execute db g h' o' = Ok (fr', full', o1', g1') ->
  map opacity_columns fr = map opacity_columns fr' /\ map angle_part full = map angle_part full'.
Proof.
  intros Hs Hr H H'. destruct (execute_inv _ _ _ _ _ _ _ _ H) as (ga & r & Ea & Er & -> & -> & _).
  destruct (execute_inv _ _ _ _ _ _ _ _ H') as (gb & r' & Eb & Er' & -> & -> & _).
  rewrite Ea in Eb. inversion Eb; subst gb.
  assert (Hi : inputs_of h' o' = set_es (inputs_of h o) (i_es (inputs_of h' o'))).
  { unfold same_but_view in Hs. rewrite Hs. unfold inputs_of, set_es.
    cbn [i_z i_p i_tk i_rh i_o3n i_es i_z0 i_nl i_ray i_cloudy i_ice i_amu i_levels i_dens o_z o_p o_tk o_rh o_frq o_angles o_o3n o_amu o_ray o_sat o_cloudy o_unc o_ice o_nl o_es o_z0 o_levels o_dens].
    rewrite (Hr (o_z o)), (Hr (o_p o)), (Hr (o_tk o)), (Hr (o_rh o)) by (unfold refs; cbn; tauto).
    assert (E3 : option_map (hget h') (o_o3n o) = option_map (hget h) (o_o3n o)).
    { destruct (o_o3n o) as [a|] eqn:E; [|reflexivity]. cbn [option_map]. f_equal. apply Hr. unfold refs. rewrite E. cbn. tauto. }
    assert (E4 : option_map (fun '(i, l) => (hget h' i, hget h' l)) (o_dens o) = option_map (fun '(i, l) => (hget h i, hget h l)) (o_dens o)).
    { destruct (o_dens o) as [[a b]|] eqn:E; [|reflexivity]. cbn [option_map].
      rewrite (Hr a), (Hr b); [reflexivity| |]; unfold refs; rewrite E, !in_app_iff; right; right; cbn; tauto. }
    rewrite E3, E4. reflexivity. }
  assert (Ho : o_frq o' = o_frq o /\ o_angles o' = o_angles o /\ olds_of o' = olds_of o) by (rewrite Hs; repeat split).
  destruct Ho as (Ho1 & Ho2 & Ho3). rewrite Ho1, Ho2, Ho3 in Er'.
  destruct (run_all_inv _ _ _ _ _ _ Er) as (e & rho & dn & wn & ri & V & R & M).
  destruct (run_all_inv _ _ _ _ _ _ Er') as (e' & rho' & dn' & wn' & ri' & V' & R' & M').
  assert (V2 : vapor (i_tk (inputs_of h' o')) (i_rh (inputs_of h' o')) (i_ice (inputs_of h' o')) = Ok (e, rho)) by (rewrite Hi; exact V).
  assert (E0 := eq_trans (eq_sym V2) V'). inversion E0; subst e' rho'.
  assert (R2 : refractivity (i_p (inputs_of h' o')) (i_tk (inputs_of h' o')) e = (dn, wn, ri)) by (rewrite Hi; exact R).
  assert (E1 := eq_trans (eq_sym R2) R'). inversion E1; subst dn' wn' ri'.
  assert (P : map (fun x => angle_part (fst x)) r = map (fun x => angle_part (fst x)) r').
  { refine (mapM_agree _ _ (fun x => angle_part (fst x)) _ _ _ _ M M'). intros [a old] y y' Hy Hy'.
    exact (angle_view ga (o_sat o) (o_sat o') _ _ _ _ _ _ _ _ _ _ _ _ Hi Hy Hy'). }
  split; [|rewrite !map_map; exact P].
  unfold frame. rewrite !concat_map, !map_map.
  assert (Q : map (fun x => map opacity_columns (map f_row (an_rows (fst x)))) r = map (fun x => map opacity_columns (map f_row (an_rows (fst x)))) r').
  { assert (K := f_equal (map (fun p : _ * _ * list _ => map (fun q : _ * _ * _ => fst (fst q)) (snd p))) P). rewrite !map_map in K.
    unfold angle_part in K. cbn [snd] in K.
    etransitivity; [|etransitivity; [exact K|]]; apply map_ext; intros x; rewrite !map_map; reflexivity. }
  rewrite Q. reflexivity.
Qed.

(** The same for the setters: assigning [emissivity] (a number or an array) and [satellite] changes none of these results. *)
Theorem C141_setters db (g : globals A) h h' o o1 o2 v b fr full o3 g3 fr' full' o4 g4 :
  (forall a, In a (refs o) -> (a < List.length h)%nat) ->
  set_emissivity h o v = (h', Ok o1) -> set_satellite o1 (VBool b) = Ok o2 ->
  execute db g h o = Ok (fr, full, o3, g3) -> execute db g h' o2 = Ok (fr', full', o4, g4) ->
  map opacity_columns fr = map opacity_columns fr' /\ map angle_part full = map angle_part full'.
Proof.
  intros Hv He Hs H H'.
  apply (C141_opacities db g h h' o o2 fr full o3 g3 fr' full' o4 g4); auto.
  - cbn in Hs. inversion Hs; subst o2. destruct v; cbn in He; inversion He; subst; reflexivity.
  - intros a Ha. specialize (Hv a Ha). destruct v; cbn in He; inversion He; subst; try reflexivity.
    apply (hget_alloc_old h). exact Hv.
Qed.

End View.

From Coq Require Import Reals Lra.
From Verif Require Import Arith PyBase Utils RTE Absorption Clear Spectrum Spec ListAux RealAux PlanckReal PlanckMaster PropsPlanck Integral
  SolverGen SolverRun Registry PropsRun PropsObject PropsModels PropsSolverX PropsRay PropsLiq LineData Lineshape PropsAbsN2 PropsClear PropsO2H2O PropsH2O PropsO2Data PropsO3
  PropsUtils PropsSelfCont FinTransfer FinGas FinSD PropsUtils3 FinClear PropsRow WeightingGen SolverExamples FinCloud PropsEnd.
Local Open Scope string_scope.
Open Scope R_scope.

(** The sounding of C111 run with R19 from the ground and from a satellite. *)
Example C141_example : exists h o o' fr full o1 g1 fr' full' o1' g1',
  execute (@shipped XA) (init_absmdl ex_g "R19") h o = Ok (fr, full, o1, g1) /\ o_sat o = false /\
  execute (@shipped XA) (init_absmdl ex_g "R19") h o' = Ok (fr', full', o1', g1') /\ o_sat o' = true /\
  List.length fr = 4%nat /\ map opacity_columns fr = map opacity_columns fr'.
Proof.
  destruct (C111_example false) as (h & o & fr & full & o1 & g1 & x & T & H1 & H2 & H3 & _).
  destruct (C111_example true) as (h' & o' & fr' & full' & o1' & g1' & x' & T' & H1' & H2' & _).
  assert (E : h' = h /\ same_but_view o o' /\ o_sat o = false /\ o_sat o' = true).
  { unfold tb_init in H1, H1'. cbv zeta in H1, H1'.
    destruct (bool_gt0 (all_truthy (diffs (hget ex_h 0%nat)))).
    - destruct (hget ex_h 0%nat) as [|z0 zz]; [discriminate|]. destruct (halloc _ _) as [hh es].
      cbn [String.eqb] in H1, H1'. injection H1 as E1 E2. injection H1' as E1' E2'. subst. repeat split.
    - destruct (bool_lt0 _); [|discriminate]. destruct (halloc ex_h _) as [ha za]. destruct (halloc ha _) as [hb pb]. destruct (halloc hb _) as [hc tc].
      destruct (halloc hc _) as [hd rd]. destruct (hget hd za); [discriminate|]. destruct (halloc hd _) as [hh es].
      cbn [String.eqb] in H1, H1'. injection H1 as E1 E2. injection H1' as E1' E2'. subst. repeat split. }
  destruct E as (-> & Hs & S1 & S2). exists h, o, o', fr, full, o1, g1, fr', full', o1', g1'.
  split; [exact H2|]. split; [exact S1|]. split; [exact H2'|]. split; [exact S2|]. split; [exact H3|].
  exact (proj1 (C141_opacities _ _ h h o o' _ _ _ _ _ _ _ _ Hs (fun a _ => eq_refl) H2 H2')).
Qed.
