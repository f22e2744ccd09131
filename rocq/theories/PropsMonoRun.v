(** Claim C128 for whole runs: what a cloud does to the table of results. *)

From Coq Require Import ZArith Reals Lra Lia String List Bool.
Import ListNotations.
From Verif Require Import Arith PyBase Utils RTE Absorption Clear Spectrum Spec ListAux RealAux PlanckReal PlanckMaster PropsPlanck Integral
  SolverGen SolverRun Registry PropsRun PropsObject PropsModels PropsSolverX PropsRay PropsLiq LineData Lineshape PropsAbsN2 PropsClear PropsO2H2O PropsH2O PropsO2Data PropsO3
  PropsUtils PropsSelfCont FinTransfer FinGas FinSD PropsUtils3 FinClear PropsRow WeightingGen SolverExamples FinCloud PropsEnd PropsMono.
Local Open Scope string_scope.
Open Scope R_scope.

(** Rows of two runs that differ in layer opacities only. *)
Lemma rows_ground f es es' a a' ts d d' aw ad al ai aw' ad' al' ai' x x' :
  spec_row false f es a ts d aw ad al ai x -> spec_row false f es' a' ts d' aw' ad' al' ai' x' ->
  0 < f -> (forall t, In t ts -> 2.728 <= t) -> cooling_upwards ts -> ts <> [] -> length aw = length ts ->
  (forall v, In v (opacities aw ad ai al d) -> 0 <= v) -> more_opaque (opacities aw' ad' ai' al' d') (opacities aw ad ai al d) ->
  total_tau (opacities aw' ad' ai' al' d') < 125 ->
  exists T T', r_tbtotal (f_row x) = Fin T /\ r_tbtotal (f_row x') = Fin T' /\ 0 < T <= T'.
Proof.
  intros S S' Hf Ht Hc Hne L Hn Hm Hcut. unfold spec_row in S, S'. cbv zeta in S, S'.
  destruct S as (_ & _ & _ & _ & _ & _ & _ & _ & _ & _ & R & _). destruct S' as (_ & _ & _ & _ & _ & _ & _ & _ & _ & _ & R' & _).
  set (tau := opacities aw ad ai al d) in *. set (tau' := opacities aw' ad' ai' al' d') in *.
  assert (Hl : length ts = length tau) by (unfold tau, opacities; rewrite map_length, seq_length; auto).
  destruct (C128_ground es es' f ts tau tau' Hf Ht Hc Hl Hne Hn Hm ltac:(auto)) as (o & o' & tb & tb' & P & P' & B & B' & Q).
  assert (Htp : forall t, In t ts -> 0 < t) by (intros t Hin; specialize (Ht t Hin); lra).
  assert (Hh := spec_hvk_pos f Hf).
  assert (Ln := proj1 Hm).
  assert (Tle : total_tau tau < 125).
  { assert (total_tau tau <= total_tau tau'); [|lra]. rewrite !total_tau_nth, Ln. apply rsum_le. intros i Hi. apply Hm. lia. }
  destruct (planckX_master false es f ts tau Hf Htp Hl Hne) as (o1 & Ho & Ek & _ & _ & _ & H5 & _).
  destruct (planckX_master false es' f ts tau' Hf Htp ltac:(congruence) Hne) as (o1' & Ho' & Ek' & _ & _ & _ & H5' & _).
  rewrite Ho in P. inversion P; subst o1. rewrite Ho' in P'. inversion P'; subst o1'.
  destruct (H5 Tle) as (_ & E). destruct (H5' Hcut) as (_ & E').
  exists tb, tb'. split; [|split; [|exact Q]].
  - rewrite (R Tle), <- B, Ek, E. symmetry. apply bright_X; [exact Hh|].
    assert (X := proj1 (radiance_nonneg false (spec_hvk f) ts tau 0 Hh Htp Hn Hl Hne ltac:(lra))).
    assert (P0 := planckB_pos (spec_hvk f) 2.728 Hh ltac:(lra)). assert (E0 := exp_pos (- total_tau tau)). unfold background.
    assert (0 < planckB (spec_hvk f) 2.728 * exp (- total_tau tau)) by (apply Rmult_lt_0_compat; lra). lra.
  - rewrite (R' Hcut), <- B', Ek', E'. symmetry. apply bright_X; [exact Hh|].
    assert (X := proj1 (radiance_nonneg false (spec_hvk f) ts tau' 0 Hh Htp (more_opaque_nonneg _ _ Hm Hn) ltac:(congruence) Hne ltac:(lra))).
    assert (P0 := planckB_pos (spec_hvk f) 2.728 Hh ltac:(lra)). assert (E0 := exp_pos (- total_tau tau')). unfold background.
    assert (0 < planckB (spec_hvk f) 2.728 * exp (- total_tau tau')) by (apply Rmult_lt_0_compat; lra). lra.
Qed.

Lemma rows_satellite f a a' ts d d' aw ad al ai aw' ad' al' ai' x x' :
  spec_row true f 1 a ts d aw ad al ai x -> spec_row true f 1 a' ts d' aw' ad' al' ai' x' ->
  0 < f -> (forall t, In t ts -> 0 < t) -> cooling_upwards ts -> ts <> [] -> length aw = length ts ->
  (forall v, In v (opacities aw ad ai al d) -> 0 <= v) -> more_opaque (opacities aw' ad' ai' al' d') (opacities aw ad ai al d) ->
  total_tau (opacities aw' ad' ai' al' d') < 125 ->
  exists T T', r_tbtotal (f_row x) = Fin T /\ r_tbtotal (f_row x') = Fin T' /\ 0 < T' <= T.
Proof.
  intros S S' Hf Htp Hc Hne L Hn Hm Hcut. unfold spec_row in S, S'. cbv zeta in S, S'.
  destruct S as (_ & _ & _ & _ & _ & _ & _ & _ & _ & _ & R & _). destruct S' as (_ & _ & _ & _ & _ & _ & _ & _ & _ & _ & R' & _).
  set (tau := opacities aw ad ai al d) in *. set (tau' := opacities aw' ad' ai' al' d') in *.
  assert (Hl : length ts = length tau) by (unfold tau, opacities; rewrite map_length, seq_length; auto).
  assert (Ln := proj1 Hm).
  assert (Tle : total_tau tau < 125).
  { assert (total_tau tau <= total_tau tau'); [|lra]. rewrite !total_tau_nth, Ln. apply rsum_le. intros i Hi. apply Hm. lia. }
  destruct (C128_satellite f ts tau tau' Hf Htp Hc Hl Hne Hn Hm Tle) as (o & o' & tb & tb' & P & P' & B & B' & Q).
  assert (Hh := spec_hvk_pos f Hf).
  destruct (planckX_master true 1 f ts tau Hf Htp Hl Hne) as (o1 & Ho & Ek & _ & _ & _ & H5 & _).
  destruct (planckX_master true 1 f ts tau' Hf Htp ltac:(congruence) Hne) as (o1' & Ho' & Ek' & _ & _ & _ & H5' & _).
  rewrite Ho in P. inversion P; subst o1. rewrite Ho' in P'. inversion P'; subst o1'.
  destruct (H5 Tle) as (_ & E). destruct (H5' Hcut) as (_ & E').
  assert (Hn0 : (0 < length ts)%nat) by (destruct ts; [congruence|simpl; lia]).
  assert (P0 := planckB_pos (spec_hvk f) (nth 0 ts 0) Hh (Htp _ (nth_In ts 0 (n:=0%nat) Hn0))).
  assert (K : forall u, (forall v, In v u -> 0 <= v) -> length ts = length u -> 0 < background true 1 (spec_hvk f) ts * exp (- total_tau u) + total_atm true (spec_hvk f) ts u).
  { intros u Hu Lu. assert (X := proj1 (radiance_nonneg true (spec_hvk f) ts u 0 Hh Htp Hu Lu Hne ltac:(lra))).
    assert (E0 := exp_pos (- total_tau u)). unfold background.
    assert (0 < planckB (spec_hvk f) (nth 0 ts 0) * exp (- total_tau u)) by (apply Rmult_lt_0_compat; lra). lra. }
  assert (K1 := K tau Hn Hl). assert (K2 := K tau' (more_opaque_nonneg _ _ Hm Hn) ltac:(congruence)).
  assert (F : tb' = planckT (spec_hvk f) (background true 1 (spec_hvk f) ts * exp (- total_tau tau') + total_atm true (spec_hvk f) ts tau')).
  { assert (Fin tb' = Fin (planckT (spec_hvk f) (background true 1 (spec_hvk f) ts * exp (- total_tau tau') + total_atm true (spec_hvk f) ts tau'))) as Z; [|inversion Z; reflexivity].
    rewrite <- B', Ek', E'. apply bright_X; auto. }
  exists tb, tb'. split; [|split].
  - rewrite (R Tle), <- B, Ek, E. symmetry. apply bright_X; auto.
  - rewrite (R' Hcut), F. reflexivity.
  - split; [|apply Q]. rewrite F. apply planckT_pos; auto.
Qed.

(** A cloud adds opacity to every layer. *)
Lemma cloud_more aw ad al ai d n : length aw = n -> length ad = n -> length al = n -> length ai = n ->
  (forall v, In v al \/ In v ai -> 0 <= v) -> (forall v, In v d -> 0 <= v) ->
  more_opaque (opacities aw ad ai al d) (opacities aw ad (repeat 0 n) (repeat 0 n) d).
Proof.
  intros L1 L2 L3 L4 N D. split; [unfold opacities; rewrite !map_length; reflexivity|].
  unfold opacities. rewrite map_length, seq_length. intros i Hi. rewrite !(nth_map_d _ _ _ 0%nat) by (rewrite seq_length; lia). rewrite !seq_nth by lia. cbn [Nat.add].
  assert (A1 := layer_int_nonneg false ai d i ltac:(auto) D). assert (A2 := layer_int_nonneg false al d i ltac:(auto) D).
  assert (Z : layer_int false (repeat 0 n) d i = 0).
  { assert (Q := proj1 (zero_layers d n)). unfold layers in Q. rewrite repeat_length in Q.
    assert (Q' := f_equal (fun l => nth i l 0) Q). cbv beta in Q'. rewrite (nth_map_d _ _ _ 0%nat) in Q' by (rewrite seq_length; lia). rewrite seq_nth in Q' by lia.
    cbn [Nat.add] in Q'. rewrite Q'. destruct (Nat.lt_ge_cases i n); [apply nth_repeat_R; auto|rewrite nth_overflow by (rewrite repeat_length; lia); reflexivity]. }
  rewrite Z. lra.
Qed.

(** Two solvers on the same profile, one without clouds and never run, one with clouds: what the table of results says. *)
Theorem C128_cloudy_run (g : globals XA) (h : heap XA) o oc m mz zs ps ts rhs o3 dl di : served m ps ts ->
  (* the two solvers *)
  wf h o -> wf h oc -> o_cloudy o = false -> never_run o -> o_cloudy oc = true -> cloud_input h oc m ts dl di ->
  (forall q, q = o \/ q = oc -> o_ray q = false /\ o_ice q = false /\ o_unc q = false /\ ozone_input g h q mz o3 /\
     hget h (o_z q) = map Fin zs /\ hget h (o_p q) = map Fin ps /\ hget h (o_tk q) = map Fin ts /\ hget h (o_rh q) = map Fin rhs /\
     (forall x, In x (hget h (o_es q)) -> x = Fin 1)) ->
  o_frq oc = o_frq o -> o_angles oc = o_angles o -> o_sat oc = o_sat o -> sounding zs ps ts rhs ->
  (forall x, In x (o_frq o) -> exists f, x = Fin f /\ usable m f) -> (forall x, In x (o_angles o) -> exists a, x = Fin a /\ 0 < a < 180) ->
  (* temperatures above that of the cosmic background that do not rise with height *)
  (forall t, In t ts -> 2.728 <= t) -> cooling_upwards ts ->
  exists fr full o1 g1 frc fullc o2 g2, execute (@shipped XA) (init_absmdl g m) h o = Ok (fr, full, o1, g1) /\
    execute (@shipped XA) (init_absmdl g m) h oc = Ok (frc, fullc, o2, g2) /\ length frc = length fr /\ length fr = (length (o_angles o) * length (o_frq o))%nat /\
    forall i dr, (i < length fr)%nat -> exists T Tc w d l c, r_tbtotal (nth i fr dr) = Fin T /\ r_tbtotal (nth i frc dr) = Fin Tc /\
      r_tauwet (nth i frc dr) = Fin w /\ r_taudry (nth i frc dr) = Fin d /\ r_tauliq (nth i frc dr) = Fin l /\ r_tauice (nth i frc dr) = Fin c /\
      r_tauwet (nth i fr dr) = Fin w /\ r_taudry (nth i fr dr) = Fin d /\ r_tauliq (nth i fr dr) = Fin 0 /\ r_tauice (nth i fr dr) = Fin 0 /\ 0 <= l /\ 0 <= c /\
      (w + d + l + c < 125 -> if o_sat o then 0 < Tc <= T else 0 < T <= Tc).
Proof.
  intros Hm W Wc Hcl Hnr Hcc Hin Hq Ef Ea Es SO Hfr Han Ht Hc.
  destruct (Hq o (or_introl eq_refl)) as (A1 & A2 & A3 & A4 & A5 & A6 & A7 & A8 & A9).
  destruct (Hq oc (or_intror eq_refl)) as (B1 & B2 & B3 & B4 & B5 & B6 & B7 & B8 & B9).
  destruct (C111_run g h o m mz zs ps ts rhs o3 (repeat 0 (length ts)) (repeat 0 (length ts)) Hm W ltac:(left; auto) A1 A2 A3 A4 A5 A6 A7 A8 SO Hfr Han
    ltac:(intros x Hx; exists 1; split; [apply A9; exact Hx|intros; lra])) as (fr & full & o1 & g1 & X1 & X2 & X3).
  destruct (C111_run g h oc m mz zs ps ts rhs o3 dl di Hm Wc Hin B1 B2 B3 B4 B5 B6 B7 B8 SO ltac:(rewrite Ef; exact Hfr) ltac:(rewrite Ea; exact Han)
    ltac:(intros x Hx; exists 1; split; [apply B9; exact Hx|intros; lra])) as (frc & fullc & o2 & g2 & Y1 & Y2 & Y3).
  rewrite Ef, Ea in Y2, Y3.
  exists fr, full, o1, g1, frc, fullc, o2, g2. split; [exact X1|]. split; [exact Y1|]. split; [congruence|]. split; [exact X2|].
  intros i dr Hi. rewrite X2 in Hi.
  set (nf := length (o_frq o)) in *.
  assert (Hnf : (0 < nf)%nat) by (destruct (Nat.eq_dec nf 0) as [Z|Z]; [rewrite Z in Hi; lia|lia]).
  assert (Hi' : (i = (i / nf) * nf + i mod nf)%nat) by (rewrite (Nat.div_mod i nf) at 1 by lia; lia).
  assert (Hk : (i / nf < length (o_angles o))%nat) by (apply Nat.div_lt_upper_bound; [lia|rewrite Nat.mul_comm; exact Hi]).
  assert (Hj : (i mod nf < nf)%nat) by (apply Nat.mod_upper_bound; lia).
  destruct (X3 (i / nf)%nat (i mod nf)%nat dr Hk Hj) as (f & a & es & aw & ad & al & ai & E1 & E2 & E3 & E4 & E5 & (E6 & E7 & E8) & (E9 & E10 & E11) & E12 & _ & _ & E13).
  destruct (Y3 (i / nf)%nat (i mod nf)%nat dr Hk Hj) as (f' & a' & es' & aw' & ad' & al' & ai' & F1 & F2 & F3 & F4 & F5 & (F6 & F7 & F8) & (F9 & F10 & F11) & F12 & _ & _ & F13).
  cbv zeta in E12, E13, F12, F13. rewrite <- Hi' in E12, F12.
  rewrite E1 in F1. inversion F1; subst f'. rewrite E2 in F2. inversion F2; subst a'. clear F1 F2.
  unfold ideal_absorption in E4, F4. rewrite E4 in F4. inversion F4; subst aw' ad'. clear F4.
  unfold ideal_clouds in E5. assert (Zc := no_clouds m ts f). unfold ideal_clouds in Zc. rewrite Zc in E5. inversion E5; subst al ai. clear E5 Zc.
  assert (Le : forall q, wf h q -> (length (o_frq q) <= length (hget h (o_es q)))%nat) by (intros q Hw; assert (X := wf_es _ _ Hw); lia).
  assert (J1 : (i mod nf < length (hget h (o_es o)))%nat) by (assert (X := Le o W); fold nf in X; lia).
  assert (J2 : (i mod nf < length (hget h (o_es oc)))%nat) by (assert (X := Le oc Wc); rewrite Ef in X; fold nf in X; lia).
  assert (es = 1). { assert (Q := A9 (nth (i mod nf) (hget h (o_es o)) x0) (nth_In _ _ J1)). rewrite Q in E3. inversion E3. reflexivity. }
  assert (es' = 1). { assert (Q := B9 (nth (i mod nf) (hget h (o_es oc)) x0) (nth_In _ _ J2)). rewrite Q in F3. inversion F3. reflexivity. }
  subst es es'. rewrite Es in F13.
  destruct (Hfr (nth (i mod nf) (o_frq o) x0) (nth_In _ _ Hj)) as (f' & Ef' & Hf' & _). rewrite E1 in Ef'. inversion Ef'; subst f'. clear Ef'.
  destruct (Han (nth (i / nf) (o_angles o) x0) (nth_In _ _ Hk)) as (a' & Ea' & Ha'). rewrite E2 in Ea'. inversion Ea'; subst a'. clear Ea'.
  assert (SN := slant_nonneg zs a (so_rising _ _ _ _ SO) Ha').
  assert (Hne : ts <> []) by (assert (Q := so_ne _ _ _ _ SO); assert (Q' := so_t _ _ _ _ SO); intros ->; destruct zs; [congruence|discriminate]).
  assert (Hm' := cloud_more aw ad al' ai' (slant_path zs a) (length ts) E9 E10 F6 F7 F8 SN).
  set (x := nth (i mod nf) (an_rows (nth (i / nf) full angle0)) full0) in *.
  set (xc := nth (i mod nf) (an_rows (nth (i / nf) fullc angle0)) full0) in *.
  assert (Hop : forall v, In v (opacities aw ad (repeat 0 (length ts)) (repeat 0 (length ts)) (slant_path zs a)) -> 0 <= v).
  { intros v Hv. unfold opacities in Hv. apply in_map_iff in Hv. destruct Hv as (j & <- & _).
    assert (Q1 := layer_int_nonneg true aw (slant_path zs a) j ltac:(auto) SN). assert (Q2 := layer_int_nonneg true ad (slant_path zs a) j ltac:(auto) SN).
    assert (Q3 := layer_int_nonneg false (repeat 0 (length ts)) (slant_path zs a) j ltac:(intros u Hu; apply repeat_spec in Hu; lra) SN). lra. }
  assert (C : total_tau (opacities aw ad ai' al' (slant_path zs a)) < 125 ->
     exists T T', r_tbtotal (f_row x) = Fin T /\ r_tbtotal (f_row xc) = Fin T' /\ if o_sat o then 0 < T' <= T else 0 < T <= T').
  { intros Hcut. destruct (o_sat o).
    - apply (rows_satellite f a a ts _ _ aw ad _ _ aw ad al' ai' x xc E13 F13); auto. apply (so_tpos _ _ _ _ SO).
    - apply (rows_ground f 1 1 a a ts _ _ aw ad _ _ aw ad al' ai' x xc E13 F13); auto. }
  assert (Tt : forall q aa ii y, spec_row q f 1 a ts (slant_path zs a) aw ad aa ii y -> (forall v, In v (opacities aw ad ii aa (slant_path zs a)) -> 0 <= v) ->
     exists T, r_tbtotal (f_row y) = Fin T).
  { intros q aa ii y Sy Ny. destruct (range_exists ts (so_tpos _ _ _ _ SO) Hne) as (lo & hi & Hlo & Hr).
    destruct (C111_bounds q f 1 a ts (slant_path zs a) aw ad aa ii y lo hi Sy Hf' Hlo Hr Hne E9 Ny ltac:(intros; lra)) as (T & HT & _). exists T. exact HT. }
  destruct (Tt _ _ _ _ E13 Hop) as (T & HT). destruct (Tt _ _ _ _ F13 (more_opaque_nonneg _ _ Hm' Hop)) as (Tc & HTc).
  unfold spec_row in E13, F13. cbv zeta in E13, F13.
  destruct E13 as (_ & G1 & G2 & G3 & G4 & _). destruct F13 as (_ & K1 & K2 & K3 & K4 & K5 & _).
  exists T, Tc, (column true aw (slant_path zs a)), (column true ad (slant_path zs a)), (column false al' (slant_path zs a)), (column false ai' (slant_path zs a)).
  rewrite (proj2 (zero_layers _ _)) in G3, G4. rewrite E12, F12.
  split; [exact HT|]. split; [exact HTc|]. do 8 (split; [assumption|]).
  split; [unfold column; apply rsum_nonneg; intros; apply layer_int_nonneg; auto|]. split; [unfold column; apply rsum_nonneg; intros; apply layer_int_nonneg; auto|].
  intros Hs. destruct C as (T1 & T2 & C1 & C2 & C3); [lra|]. rewrite HT in C1. rewrite HTc in C2. inversion C1. inversion C2. subst T1 T2. exact C3.
Qed.
(** A cloud of liquid water in a column that cools upwards, both viewing directions. *)
Example C128_cloudy_example sat : exists h o fr full o1 g1 frc fullc o2 g2, ex_init sat true = (h, Ok o) /\
  execute (@shipped XA) (init_absmdl ex_g "R19") h (with_cloudy o false) = Ok (fr, full, o1, g1) /\
  execute (@shipped XA) (init_absmdl ex_g "R19") h (init_cloudy h o [(Fin 1, Fin 4)] 4%nat 5%nat) = Ok (frc, fullc, o2, g2) /\
  length frc = length fr /\ length fr <> 0%nat /\
  forall i dr, (i < length fr)%nat -> exists T Tc w d l c, r_tbtotal (nth i fr dr) = Fin T /\ r_tbtotal (nth i frc dr) = Fin Tc /\
    r_tauwet (nth i frc dr) = Fin w /\ r_taudry (nth i frc dr) = Fin d /\ r_tauliq (nth i frc dr) = Fin l /\ r_tauice (nth i frc dr) = Fin c /\
    (w + d + l + c < 125 -> if sat then 0 < Tc <= T else 0 < T <= Tc).
Proof.
  destruct (ex_init_ok sat true) as (h & o & H). assert (F := ex_init_facts _ _ _ _ H).
  destruct F as (W0 & _ & _ & Fo & Ao & Ro & So & Io & O3 & No & Uo & To & Zo & Nr & Hz & Ht & H4 & H5 & Hes).
  destruct (ex_cloudy_facts sat h o 4%nat 5%nat H) as (W & Rd & Hc & Hd & _ & Hf & Ha & Hr & Hi & Hu & Ho3 & Hoz & Hnl & Hs & Htk); auto.
  set (oc := init_cloudy h o [(Fin 1, Fin 4)] 4%nat 5%nat) in *.
  assert (H' := H). unfold ex_init in H'. apply tb_init_wf in H'; try reflexivity; [|discriminate].
  destruct H' as (_ & _ & G2 & _ & _ & _ & _ & _ & _ & _ & _ & _ & G12 & G13 & G14 & G15 & _ & _ & G18 & _ & G20).
  assert (K : o_p oc = 1%nat /\ o_rh oc = 3%nat /\ o_es oc = o_es o) by (unfold oc, init_cloudy; rewrite G2; cbn; auto). destruct K as (K1 & K2 & K3).
  assert (Es : hget h (o_es o) = [Fin (10 / 10); Fin (10 / 10)]) by (rewrite G20; reflexivity).
  assert (E1 : forall x, In x (hget h (o_es o)) -> x = Fin 1) by (rewrite Es; intros x [<-|[<-|[]]]; f_equal; lra).
  assert (SO : sounding [0; 1; 3] [900; 800; 600] [290; 280; 260] [0.5; 0.5; 0.2]).
  { assert (S := sounding_shift _ _ _ _ 1 ex_sounding). cbn [map] in S. replace (1 - 1) with 0 in S by lra. replace (2 - 1) with 1 in S by lra. replace (4 - 1) with 3 in S by lra. exact S. }
  assert (W1 : wf h (with_cloudy o false)) by (destruct W0; constructor; assumption).
  assert (P1 : hget h 1%nat = map Fin [900; 800; 600]) by (apply (G18 1%nat); cbn; lia).
  assert (P3 : hget h 3%nat = map Fin [0.5; 0.5; 0.2]) by (apply (G18 3%nat); cbn; lia).
  destruct (C128_cloudy_run ex_g h (with_cloudy o false) oc "R19" "" [0; 1; 3] [900; 800; 600] [290; 280; 260] [0.5; 0.5; 0.2] None [0.1; 0.1; 0.1] [0; 0; 0])
    as (fr & full & o1 & g1 & frc & fullc & o2 & g2 & R1 & R2 & R3 & R4 & R5); auto.
  { left; cbn; tauto. }
  { right. split; [exact Hc|]. split; [exact Rd|]. split; [exists 4%nat, 5%nat; auto|]. intros i Hlt _. split; [cbn; tauto|]. destruct i as [|[|[|i]]]; cbn in Hlt |- *; try lra; lia. }
  { intros q [->| ->].
    - cbn [with_cloudy o_ray o_ice o_unc o_o3n ozone_input o_z o_p o_tk o_rh o_es]. rewrite Zo, To. replace (o_p o) with 1%nat by (symmetry; assumption). replace (o_rh o) with 3%nat by (symmetry; assumption).
      repeat (split; [assumption|]). assumption.
    - unfold ozone_input. rewrite Hoz, Htk, K1, K2, K3. repeat (split; [assumption|]). assumption. }
  { cbn [with_cloudy o_frq]. congruence. } { cbn [with_cloudy o_angles]. congruence. } { cbn [with_cloudy o_sat]. congruence. }
  { cbn [with_cloudy o_frq]. rewrite Fo. intros x [<-|[<-|[]]]; eexists; (split; [reflexivity|split; [lra|discriminate]]). }
  { cbn [with_cloudy o_angles]. rewrite Ao. intros x [<-|[<-|[<-|[]]]]; eexists; (split; [reflexivity|lra]). }
  { intros t [<-|[<-|[<-|[]]]]; lra. }
  { intros i Hi'. do 2 (destruct i as [|i]; [cbn; lra|]). cbn in Hi'. lia. }
  exists h, o, fr, full, o1, g1, frc, fullc, o2, g2. split; [exact H|]. split; [exact R1|]. split; [exact R2|]. split; [exact R3|].
  split; [rewrite R4; cbn [with_cloudy o_frq o_angles]; rewrite Fo, Ao; discriminate|].
  intros i dr Hl. destruct (R5 i dr Hl) as (T & Tc & w & d & l & c & Q1 & Q2 & Q3 & Q4 & Q5 & Q6 & _ & _ & _ & _ & _ & _ & Q7).
  exists T, Tc, w, d, l, c. cbn [with_cloudy o_sat] in Q7. rewrite So in Q7. auto 10.
Qed.
