(** C158 and C159: cloud boundaries do not enter opacities and brightness temperatures, and only those of the first cloud enter the cloud temperature.

    Code: pyrtlib/tb_spectrum.py:196-223 (init_cloudy), 225-405 (execute). *)

From Coq Require Import ZArith Lia List Bool String.
Import ListNotations.
From Verif Require Import Arith PyBase Utils RTE Absorption Clear Spectrum ListAux SolverGen Registry SolverRun PropsView.

Section Heights.
Context {A : Arith}.
Notation num := (car A).

(** All of a row but the radiating temperature of the cloud, all of an angle but the two cloud columns. *)
Definition sky_row (r : row A) := (r_tbtotal r, r_tbatm r, r_tmr r, (r_tauwet r, r_taudry r, r_tauliq r, r_tauice r), r_angle r).
Definition sky_full (x : row_full A) := (sky_row (f_row x), (f_ptauwet x, f_ptaudry x, f_ptauliq x, f_ptauice x), (f_awet x, f_adry x)).
Definition sky_angle (a : angle_full A) := ((an_srho a, an_swet a, an_sdry a), map sky_full (an_rows a)).

Definition set_levels (i : inputs A) (l : option (list Z * list Z)) : inputs A :=
  mkIn (i_z i) (i_p i) (i_tk i) (i_rh i) (i_o3n i) (i_es i) (i_z0 i) (i_nl i) (i_ray i) (i_cloudy i) (i_ice i) (i_amu i) l (i_dens i).

Lemma cell_heights (g : globals A) i l e ds angle f es old x x' :
  run_cell g i e ds angle f es old = Ok x -> run_cell g (set_levels i l) e ds angle f es old = Ok x' -> sky_full (fst x) = sky_full (fst x').
Proof.
  unfold run_cell, set_levels. cbn [i_p i_tk i_o3n i_nl i_cloudy i_amu i_levels i_dens]. intros H H'.
  inv_bind H a Ea. rewrite Ea in H'. cbn [bind] in H'. destruct a as [aw ad].
  inv_bind H w Ew. rewrite Ew in H'. cbn [bind] in H'. inv_bind H d Ed. rewrite Ed in H'. cbn [bind] in H'.
  inv_bind H c1 Ec. rewrite Ec in H'. cbn [bind] in H'. inv_bind H pl Ep. rewrite Ep in H'. cbn [bind] in H'.
  inv_bind H c2 E2. inv_bind H' c2' E2'. inv_bind H al E3. rewrite E3 in H'. cbn [bind] in H'.
  assert (C2 : cloud_part c2 = cloud_part c1).
  { destruct (i_cloudy i).
    - inv_bind E2 lv F1. inv_bind E2 b0 F2. inv_bind E2 t0 F3. inv_bind E2 tm F4. inversion E2; subst. reflexivity.
    - inversion E2. reflexivity. }
  assert (C2' : cloud_part c2' = cloud_part c1).
  { destruct (i_cloudy i).
    - inv_bind E2' lv F1. inv_bind E2' b0 F2. inv_bind E2' t0 F3. inv_bind E2' tm F4. inversion E2'; subst. reflexivity.
    - inversion E2'. reflexivity. }
  assert (CC : cloud_part c2 = cloud_part c2') by congruence. unfold cloud_part in CC. inversion CC as [[Q1 Q2 Q3 Q4]].
  inversion H; inversion H'; subst x x'. unfold sky_full, sky_row. cbn [fst f_row f_ptauwet f_ptaudry f_ptauliq f_ptauice f_awet f_adry r_tbtotal r_tbatm r_tmr r_tauwet r_taudry r_tauliq r_tauice r_angle].
  rewrite Q1, Q2, Q3, Q4. reflexivity.
Qed.

Lemma freqs_heights (g : globals A) i l e ds angle frqs : forall cells j xs xs',
  run_freqs g i e ds angle frqs cells j = Ok xs -> run_freqs g (set_levels i l) e ds angle frqs cells j = Ok xs' -> map sky_full (map fst xs) = map sky_full (map fst xs').
Proof.
  induction frqs as [|f frqs IH]; intros cells j xs xs' H H'.
  - cbn [run_freqs] in H, H'. inversion H; inversion H'; reflexivity.
  - destruct cells as [|c cells]; cbn [run_freqs] in H, H'; [inversion H; inversion H'; reflexivity|].
    change (i_es (set_levels i l)) with (i_es i) in H'.
    inv_bind H es E1. rewrite E1 in H'. cbn [bind] in H'. inv_bind H x E2. inv_bind H ys E3. inv_bind H' x' E2'. inv_bind H' ys' E3'.
    inversion H; inversion H'; subst xs xs'. cbn [map]. f_equal; [exact (cell_heights g i l e ds angle f es c x x' E2 E2')|exact (IH _ _ _ _ E3 E3')].
Qed.

Lemma angle_heights (g : globals A) i l frqs e rho dryn wetn refindx angle old x x' :
  run_angle g i frqs e rho dryn wetn refindx angle old = Ok x -> run_angle g (set_levels i l) frqs e rho dryn wetn refindx angle old = Ok x' -> sky_angle (fst x) = sky_angle (fst x').
Proof.
  intros H H'. unfold run_angle in H, H'. destruct old as [cells [sl si]].
  change (path_ds (set_levels i l) refindx angle) with (path_ds i refindx angle) in H'. change (i_nl (set_levels i l)) with (i_nl i) in H'.
  inv_bind H ds E1. rewrite E1 in H'. cbn [bind] in H'. inv_bind H sr E2. rewrite E2 in H'. cbn [bind] in H'.
  inv_bind H sw E3. rewrite E3 in H'. cbn [bind] in H'. inv_bind H sd E4. rewrite E4 in H'. cbn [bind] in H'.
  inv_bind H cl E5. inv_bind H' cl' E5'. inv_bind H xs E6. inv_bind H' xs' E6'.
  inversion H; inversion H'; subst x x'. unfold sky_angle. cbn [fst an_srho an_swet an_sdry an_rows].
  rewrite (freqs_heights g i l e ds angle frqs _ _ _ _ E6 E6'). reflexivity.
Qed.

(** Two calls of [init_cloudy] with the same densities and any cloud boundaries, then a run: if both runs succeed, they agree in every brightness temperature, opacity, profile, column of
    vapour and delay. *)
Theorem C158_boundaries db (g : globals A) h o cl cl' denice denliq fr full o1 g1 fr' full' o1' g1' :
  execute db g h (init_cloudy h o cl denice denliq) = Ok (fr, full, o1, g1) -> execute db g h (init_cloudy h o cl' denice denliq) = Ok (fr', full', o1', g1') ->
  map sky_row fr = map sky_row fr' /\ map sky_angle full = map sky_angle full' /\ g1 = g1'.
Proof.
  intros H H'. set (b := init_cloudy h o cl denice denliq) in *. set (b' := init_cloudy h o cl' denice denliq) in *.
  assert (Hi : inputs_of h b' = set_levels (inputs_of h b) (o_levels b')) by (unfold b, b', init_cloudy, inputs_of, set_levels; destruct (o_cloudy o); reflexivity).
  assert (Ho : o_frq b' = o_frq b /\ o_angles b' = o_angles b /\ olds_of b' = olds_of b /\ o_sat b' = o_sat b) by (unfold b, b', init_cloudy; destruct (o_cloudy o); repeat split).
  destruct Ho as (Ho1 & Ho2 & Ho3 & Ho4).
  destruct (execute_inv _ _ _ _ _ _ _ _ H) as (ga & r & Ea & Er & -> & -> & _ & ->).
  destruct (execute_inv _ _ _ _ _ _ _ _ H') as (gb & r' & Eb & Er' & -> & -> & _ & ->).
  rewrite Ea in Eb. inversion Eb; subst gb. rewrite Ho1, Ho2, Ho3, Ho4, Hi in Er'.
  destruct (run_all_inv _ _ _ _ _ _ Er) as (e & rho & dn & wn & ri & V & R & M).
  destruct (run_all_inv _ _ _ _ _ _ Er') as (e' & rho' & dn' & wn' & ri' & V' & R' & M').
  assert (E0 := eq_trans (eq_sym V) V'). inversion E0; subst e' rho'. assert (E1 := eq_trans (eq_sym R) R'). inversion E1; subst dn' wn' ri'.
  assert (P : map (fun x => sky_angle (fst x)) r = map (fun x => sky_angle (fst x)) r').
  { refine (mapM_agree _ _ (fun x => sky_angle (fst x)) _ _ _ _ M M'). intros [a old] y y' Hy Hy'. exact (angle_heights _ _ _ _ _ _ _ _ _ _ _ _ _ Hy Hy'). }
  split; [|split; [rewrite !map_map; exact P|]].
  - unfold frame. rewrite !concat_map, !map_map.
    assert (Q : map (fun x => map sky_row (map f_row (an_rows (fst x)))) r = map (fun x => map sky_row (map f_row (an_rows (fst x)))) r').
    { assert (K := f_equal (map (fun p : _ * list _ => map (fun q : _ * _ * _ => fst (fst q)) (snd p))) P). rewrite !map_map in K. unfold sky_angle in K. cbn [snd] in K.
      etransitivity; [|etransitivity; [exact K|]]; apply map_ext; intros x; rewrite !map_map; reflexivity. }
    rewrite Q. reflexivity.
  - unfold run_effect. rewrite Ho1, Ho2, Ho4, Hi. reflexivity.
Qed.

(** ** C159: clouds after the first *)

(** The levels of the first cloud. *)
Definition first_cloud (l : option (list Z * list Z)) := option_map (fun v => (py_get (fst v) 0, py_get (snd v) 0)) l.

Lemma cell_first (g : globals A) i l e ds angle f es old : first_cloud l = first_cloud (i_levels i) ->
  run_cell g (set_levels i l) e ds angle f es old = run_cell g i e ds angle f es old.
Proof.
  intros F. unfold run_cell, set_levels. cbn [i_p i_tk i_o3n i_nl i_cloudy i_amu i_levels i_dens].
  destruct (clearsky_absorption _ _ _ _ _ _ _) as [[aw ad]|]; [|reflexivity]. cbn [bind].
  destruct (exponential_integration true aw _ _ _ _) as [w|]; [|reflexivity]. cbn [bind]. destruct (exponential_integration true ad _ _ _ _) as [d|]; [|reflexivity]. cbn [bind].
  match goal with |- bind ?c _ = _ => destruct c as [c1|]; [|reflexivity] end. cbn [bind]. destruct (planck _ _ _ _ _) as [pl|]; [|reflexivity]. cbn [bind].
  destruct (i_cloudy i); [|reflexivity]. unfold first_cloud in F.
  destruct l as [[b t]|], (i_levels i) as [[b' t']|]; try discriminate; [|reflexivity]. cbn [option_map fst snd] in F. injection F as F1 F2. cbn [need bind fst snd]. rewrite F1, F2. reflexivity.
Qed.

Lemma freqs_first (g : globals A) i l e ds angle frqs : first_cloud l = first_cloud (i_levels i) -> forall cells j,
  run_freqs g (set_levels i l) e ds angle frqs cells j = run_freqs g i e ds angle frqs cells j.
Proof.
  intros F. induction frqs as [|f frqs IH]; intros [|c cells] j; cbn [run_freqs]; try reflexivity. change (i_es (set_levels i l)) with (i_es i).
  destruct (py_get (i_es i) j) as [es|]; [|reflexivity]. cbn [bind]. rewrite cell_first by exact F. destruct (run_cell _ _ _ _ _ _ _ _) as [x|]; [|reflexivity]. cbn [bind]. rewrite IH. reflexivity.
Qed.

Lemma angle_first (g : globals A) i l frqs e rho dryn wetn refindx angle old x x' : first_cloud l = first_cloud (i_levels i) ->
  run_angle g i frqs e rho dryn wetn refindx angle old = Ok x -> run_angle g (set_levels i l) frqs e rho dryn wetn refindx angle old = Ok x' -> an_rows (fst x) = an_rows (fst x').
Proof.
  intros F H H'. unfold run_angle in H, H'. destruct old as [cells [sl si]].
  change (path_ds (set_levels i l) refindx angle) with (path_ds i refindx angle) in H'. change (i_nl (set_levels i l)) with (i_nl i) in H'.
  inv_bind H ds E1. rewrite E1 in H'. cbn [bind] in H'. inv_bind H sr E2. rewrite E2 in H'. cbn [bind] in H'.
  inv_bind H sw E3. rewrite E3 in H'. cbn [bind] in H'. inv_bind H sd E4. rewrite E4 in H'. cbn [bind] in H'.
  inv_bind H cl E5. inv_bind H' cl' E5'. rewrite freqs_first in H' by exact F. inv_bind H xs E6. rewrite E6 in H'. cbn [bind] in H'.
  inversion H; inversion H'; subst x x'. reflexivity.
Qed.

(** Two lists of clouds with the same first cloud: the data frames are equal, the radiating temperature of the clouds included. *)
Theorem C159_further_clouds_refuted db (g : globals A) h o c cl cl' denice denliq fr full o1 g1 fr' full' o1' g1' :
  execute db g h (init_cloudy h o (c :: cl) denice denliq) = Ok (fr, full, o1, g1) -> execute db g h (init_cloudy h o (c :: cl') denice denliq) = Ok (fr', full', o1', g1') -> fr = fr'.
Proof.
  intros H H'. set (b := init_cloudy h o (c :: cl) denice denliq) in *. set (b' := init_cloudy h o (c :: cl') denice denliq) in *.
  assert (Hi : inputs_of h b' = set_levels (inputs_of h b) (o_levels b')) by (unfold b, b', init_cloudy, inputs_of, set_levels; destruct (o_cloudy o); reflexivity).
  assert (Ho : o_frq b' = o_frq b /\ o_angles b' = o_angles b /\ olds_of b' = olds_of b /\ o_sat b' = o_sat b) by (unfold b, b', init_cloudy; destruct (o_cloudy o); repeat split).
  assert (F : first_cloud (o_levels b') = first_cloud (i_levels (inputs_of h b))).
  { unfold b, b', init_cloudy, inputs_of, first_cloud. destruct c as [c0 c1]. destruct (o_cloudy o); cbn [i_levels o_levels option_map fst snd map]; unfold py_get, py_pos; cbn [List.length nth_error]; reflexivity. }
  destruct Ho as (Ho1 & Ho2 & Ho3 & Ho4).
  destruct (execute_inv _ _ _ _ _ _ _ _ H) as (ga & r & Ea & Er & -> & -> & _ & ->).
  destruct (execute_inv _ _ _ _ _ _ _ _ H') as (gb & r' & Eb & Er' & -> & -> & _ & ->).
  rewrite Ea in Eb. inversion Eb; subst gb. rewrite Ho1, Ho2, Ho3, Ho4, Hi in Er'.
  destruct (run_all_inv _ _ _ _ _ _ Er) as (e & rho & dn & wn & ri & V & R & M).
  destruct (run_all_inv _ _ _ _ _ _ Er') as (e' & rho' & dn' & wn' & ri' & V' & R' & M').
  assert (E0 := eq_trans (eq_sym V) V'). inversion E0; subst e' rho'. assert (E1 := eq_trans (eq_sym R) R'). inversion E1; subst dn' wn' ri'.
  assert (P : map (fun x => an_rows (fst x)) r = map (fun x => an_rows (fst x)) r').
  { refine (mapM_agree _ _ (fun x => an_rows (fst x)) _ _ _ _ M M'). intros [a old] y y' Hy Hy'. exact (angle_first _ _ _ _ _ _ _ _ _ _ _ _ _ F Hy Hy'). }
  unfold frame. apply (f_equal (map (map f_row))) in P. rewrite !map_map in P. rewrite P. reflexivity.
Qed.

End Heights.

From Coq Require Import Reals Lra.
From Verif Require Import Arith PyBase Utils RTE Absorption Clear Spectrum Spec ListAux RealAux PlanckReal PlanckMaster PropsPlanck Integral
  SolverGen SolverRun Registry PropsRun PropsObject PropsModels PropsSolverX SolverExamples.
Local Open Scope string_scope.
Open Scope R_scope.

(** A solver on which clouds of any heights can be run. *)
Example C158_runs : exists h o, ex_init true true = (h, Ok o) /\ forall cl, cl <> [] -> exists x, execute ex_db (init_absmdl ex_g "R98") h (init_cloudy h o cl 4%nat 5%nat) = Ok x.
Proof.
  destruct (ex_init_ok true true) as (h & o & H). assert (F := ex_init_facts _ _ _ _ H).
  destruct F as (W & _ & Hc & Hf & Ha & Hr & Hs & Hi & Ho3 & Hnl & Hu & Htk & Hz & Hnew & _ & _ & H4 & H5 & _). exists h, o. split; [exact H|].
  intros cl Hcl. destruct (init_cloudy_wf h o cl 4%nat 5%nat W Hcl ltac:(rewrite H4, Hnl; reflexivity) ltac:(rewrite H5, Hnl; reflexivity)) as [W' R'].
    assert (Q : o_cloudy (init_cloudy h o cl 4%nat 5%nat) = true /\ o_frq (init_cloudy h o cl 4%nat 5%nat) = ex_frq /\ o_ray (init_cloudy h o cl 4%nat 5%nat) = false /\ o_ice (init_cloudy h o cl 4%nat 5%nat) = false /\ o_unc (init_cloudy h o cl 4%nat 5%nat) = false /\ o_o3n (init_cloudy h o cl 4%nat 5%nat) = None) by (unfold init_cloudy; rewrite Hc; cbn; repeat split; assumption).
    destruct Q as (Q1 & Q2 & Q3 & Q4 & Q5 & Q6). apply C48_cloudy; auto using ex_db_registered; [rewrite Q2; apply ex_freq_ok|simpl; auto 12|simpl; intuition discriminate].
Qed.

(** One cloud between the first and the last level, and the same cloud divided at the second level. *)
Example C158_example : exists h o fr full o1 g1 fr' full' o1' g1', ex_init true true = (h, Ok o) /\
  execute ex_db (init_absmdl ex_g "R98") h (init_cloudy h o [(Fin 1, Fin 4)] 4%nat 5%nat) = Ok (fr, full, o1, g1) /\
  execute ex_db (init_absmdl ex_g "R98") h (init_cloudy h o [(Fin 1, Fin 2); (Fin 2, Fin 4)] 4%nat 5%nat) = Ok (fr', full', o1', g1') /\
  map r_tbtotal fr = map r_tbtotal fr'.
Proof.
  destruct C158_runs as (h & o & H & RUN).
  destruct (RUN [(Fin 1, Fin 4)] ltac:(discriminate)) as [[[[fr full] o1] g1] E]. destruct (RUN [(Fin 1, Fin 2); (Fin 2, Fin 4)] ltac:(discriminate)) as [[[[fr' full'] o1'] g1'] E'].
  exists h, o, fr, full, o1, g1, fr', full', o1', g1'. split; [exact H|]. split; [exact E|]. split; [exact E'|].
  destruct (C158_boundaries _ _ _ _ _ _ _ _ _ _ _ _ _ _ _ _ E E') as (K & _). apply (f_equal (map (fun p : _ * _ * _ * _ * _ => fst (fst (fst (fst p)))))) in K. rewrite !map_map in K. exact K.
Qed.

(** A second cloud changes no row. *)
Example C159_example : exists h o fr full o1 g1 fr' full' o1' g1', ex_init true true = (h, Ok o) /\
  execute ex_db (init_absmdl ex_g "R98") h (init_cloudy h o [(Fin 1, Fin 2)] 4%nat 5%nat) = Ok (fr, full, o1, g1) /\
  execute ex_db (init_absmdl ex_g "R98") h (init_cloudy h o [(Fin 1, Fin 2); (Fin 2, Fin 4)] 4%nat 5%nat) = Ok (fr', full', o1', g1') /\ fr = fr'.
Proof.
  destruct C158_runs as (h & o & H & RUN).
  destruct (RUN [(Fin 1, Fin 2)] ltac:(discriminate)) as [[[[fr full] o1] g1] E]. destruct (RUN [(Fin 1, Fin 2); (Fin 2, Fin 4)] ltac:(discriminate)) as [[[[fr' full'] o1'] g1'] E'].
  exists h, o, fr, full, o1, g1, fr', full', o1', g1'. split; [exact H|]. split; [exact E|]. split; [exact E'|]. exact (C159_further_clouds_refuted _ _ _ _ _ _ _ _ _ _ _ _ _ _ _ _ _ E E').
Qed.
