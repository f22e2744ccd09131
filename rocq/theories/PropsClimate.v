(** Claim C131: the documented use of the built-in atmospheres, end to end: profile, conversion of units, solver, spectrum. *)

From Coq Require Import ZArith Reals Lra Lia String List Bool.
Import ListNotations.
From Verif Require Import Arith PyBase Utils RTE Absorption Clear Spectrum Spec ListAux RealAux PlanckReal PlanckMaster PropsPlanck Integral
  SolverGen SolverRun Registry PropsRun PropsObject PropsModels PropsSolverX PropsRay PropsLiq LineData Lineshape PropsAbsN2 PropsClear PropsO2H2O PropsH2O PropsO2Data PropsO3
  PropsUtils PropsSelfCont FinTransfer FinGas FinSD PropsUtils3 FinClear PropsRow WeightingGen SolverExamples FinCloud PropsEnd PropsMixed ProfileData Profiles PropsProfiles.
Local Open Scope string_scope.
Open Scope R_scope.

(** README.md:57-73 and docs/script_examples/plot_brightness_temperature_wO3.py:32-41: the arrays handed to the solver.
      z, p, _, t, md = atmp.gl_atm(k)
      o3n[i] = ppmv_to_moleculesm3(md[i, atmp.O3], p[i] * 100.0, t[i])
      gkg = ppmv2gkg(md[:, atmp.H2O], atmp.H2O)
      rh = mr2rh(p, t, gkg)[0] / 100
    Array expressions are modelled element by element. *)
Definition climate_arrays {A : Arith} (k : Z) : result (list (car A) * list (car A) * list (car A) * list (car A) * list (car A)) :=
  do r <- gl_atm (A:=A) k;
  let '(z, p, _, t, md) := r in
  do w <- column md 0;
  do o <- column md 2;
  do gkg <- mapM (fun x => ppmv2gkg (A:=A) x 0) w;
  let rh := map (fun '(p, (t, w)) => div (fst (mr2rh (A:=A) p t w None)) (lit 100)) (combine p (combine t gkg)) in
  let o3n := map (fun '(o, (p, t)) => ppmv_to_moleculesm3 (A:=A) o (mul p (lit 100.0)) t) (combine o (combine p t)) in
  Ok (z, p, t, rh, o3n).

(** ** Specification *)

(** Partial pressure of a gas with [x] molecules in a million molecules of dry air, at total pressure [p]. *)
Definition partial_pressure (x p : R) : R := p * (x / 1000000) / (1 + x / 1000000).

(** ** Proofs *)

Definition gkg_row {A : Arith} (r : list dec) : car A := match ppmv2gkg (A:=A) (lit (nth 4 r 0%dec)) 0 with Ok v => v | Err _ => lit 0 end.
Definition rh_row {A : Arith} (r : list dec) : car A := div (fst (mr2rh (A:=A) (lit (nth 1 r 0%dec)) (lit (nth 3 r 0%dec)) (gkg_row r) None)) (lit 100).
Definition o3_row {A : Arith} (r : list dec) : car A := ppmv_to_moleculesm3 (A:=A) (lit (nth 6 r 0%dec)) (mul (lit (nth 1 r 0%dec)) (lit 100.0)) (lit (nth 3 r 0%dec)).

Lemma ppmv_row {A : Arith} (r : list dec) : ppmv2gkg (A:=A) (lit (nth 4 r 0%dec)) 0 = Ok (gkg_row r).
Proof. reflexivity. Qed.

Lemma column_list {A : Arith} (rows : list (list dec)) k n : (k < n)%nat -> Forall (fun r => length (firstn 7 (skipn 4 r)) = n) rows ->
  column (A:=A) (map (fun r => map lit (firstn 7 (skipn 4 r))) rows) (Z.of_nat k) = Ok (map (fun r => lit (nth k (firstn 7 (skipn 4 r)) 0%dec)) rows).
Proof.
  intros Hk W. unfold column. induction W as [|r rows Hr W IH]; [reflexivity|]. cbn [map mapM]. rewrite py_get_lit by lia. rewrite IH. reflexivity.
Qed.

Lemma nth_gas (r : list dec) k : (k < 7)%nat -> length r = 11%nat -> nth k (firstn 7 (skipn 4 r)) 0%dec = nth (4 + k) r 0%dec.
Proof.
  intros Hk L. do 12 (destruct r as [|? r]; try discriminate L). do 7 (destruct k as [|k]; [reflexivity|]). lia.
Qed.

Definition rows_of (k : nat) : list (list dec) := snd (nth k atmospheres ("", [])).

Lemma rows_wide k : (k < 6)%nat -> Forall (fun r => length r = 11%nat) (rows_of k).
Proof. intros Hk. apply (proj1 (Forall_nth _ _) all_wide k). exact Hk. Qed.

Lemma climate_rows {A : Arith} (k : nat) : (k < 6)%nat ->
  climate_arrays (A:=A) (Z.of_nat k) = Ok (map (fun r => lit (nth 0 r 0%dec)) (rows_of k), map (fun r => lit (nth 1 r 0%dec)) (rows_of k), map (fun r => lit (nth 3 r 0%dec)) (rows_of k),
    map rh_row (rows_of k), map o3_row (rows_of k)).
Proof.
  intros Hk. unfold climate_arrays. rewrite (proj2 (C72_selection A k Hk)). fold (rows_of k). unfold of_rows. cbn [bind].
  assert (W := rows_wide k Hk). set (rows := rows_of k) in *. clearbody rows. clear Hk k.
  assert (W7 : Forall (fun r => length (firstn 7 (skipn 4 r)) = 7%nat) rows).
  { eapply Forall_impl; [|exact W]. intros r Hr. cbv beta in Hr. rewrite firstn_length, skipn_length, Hr. reflexivity. }
  rewrite (column_list rows 0 7 ltac:(lia) W7). cbn [bind]. rewrite (column_list rows 2 7 ltac:(lia) W7). cbn [bind].
  assert (M : mapM (fun x => ppmv2gkg (A:=A) x 0) (map (fun r => lit (nth 0 (firstn 7 (skipn 4 r)) 0%dec)) rows) = Ok (map gkg_row rows)).
  { clear W7. induction W as [|r rows Hr W IH]; [reflexivity|]. cbn [map mapM]. rewrite nth_gas by (auto; lia). cbn [Nat.add].
    rewrite ppmv_row. cbn [bind]. rewrite IH. reflexivity. }
  rewrite M. cbn [bind]. apply f_equal. apply f_equal2; [apply f_equal2; [reflexivity|]|].
  - clear. induction rows as [|r rows IH]; [reflexivity|]. cbn [map combine]. apply f_equal2; [reflexivity|exact IH].
  - clear M W7. induction W as [|r rows Hr W IH]; [reflexivity|]. cbn [map combine]. apply f_equal2; [|exact IH]. rewrite nth_gas by (auto; lia). reflexivity.
Qed.

Lemma gkg_real (r : list dec) : (gkg_row (A:=RA) r : R) = 1000 * (litR (nth 4 r 0%dec) / 1000000) * (18 / 28.9402753669).
Proof. unfold gkg_row, ppmv2gkg, gas_mass. cbv [gas_amus]. cbn [bind]. ra. lra. Qed.

Lemma eswat_D (xt : car XA) t : D xt t -> 0 < t -> D (eswat_goffgratch (A:=XA) xt) (eswat_goffgratch (A:=RA) t).
Proof.
  intros Ht Pt. unfold eswat_goffgratch. cbv zeta. assert (Nt : (t : R) <> 0) by lra.
  assert (Y : D (div (a:=XA) (lit (Dec 37316 100)) xt) (div (a:=RA) (lit (Dec 37316 100)) t)) by dfin.
  assert (YP : 0 < (div (a:=RA) (lit (Dec 37316 100)) t : R)) by (ra; apply div_pos; lra).
  match type of Y with D ?x ?y => revert Y YP; generalize x y end. intros xy y Y YP.
  assert (NY : (y : R) <> 0) by lra.
  assert (P2 : 0 < (lit (a:=RA) (Dec 100 10) : R)) by (ra; lra).
  assert (P3 : 0 < (lit (a:=RA) (Dec 1013246 1000) : R)) by (ra; lra).
  dfin.
Qed.

(** The humidity of a row makes the vapour pressure of its mixing ratio. *)
Lemma rh_vapour (r : list dec) : 0 < litR (nth 3 r 0%dec) -> (rh_row (A:=RA) r : R) * goff_water (litR (nth 3 r 0%dec)) = mr2e (A:=RA) (litR (nth 1 r 0%dec)) (gkg_row (A:=RA) r).
Proof.
  intros Ht. unfold rh_row, mr2rh. cbv zeta. cbn [fst]. unfold satvap. cbn [tconv_active]. rewrite eswat_R. change (@lit RA) with litR.
  assert (G : 0 < goff_water (litR (nth 3 r 0%dec))) by apply Rpower_pos. generalize dependent (goff_water (litR (nth 3 r 0%dec))). intros s Hs. 
  generalize (mr2e (A:=RA) (litR (nth 1 r 0%dec)) (gkg_row (A:=RA) r)). intros e. change (car RA) with R in e. ra. field. lra.
Qed.

Lemma rh_D (r : list dec) : 0 < litR (nth 3 r 0%dec) -> 0 < litR (nth 4 r 0%dec) -> D (rh_row (A:=XA) r) (rh_row (A:=RA) r).
Proof.
  intros Ht Hw. assert (G := gkg_real r). assert (DG : D (gkg_row (A:=XA) r) (gkg_row (A:=RA) r)).
  { unfold gkg_row, ppmv2gkg, gas_mass. cbv [gas_amus]. cbn [bind]. dfin; ra; lra. }
  assert (S := eswat_D (lit (nth 3 r 0%dec)) _ (D_lit (nth 3 r 0%dec)) Ht).
  unfold rh_row, mr2rh, satvap. cbn [tconv_active]. cbv zeta. cbn [fst]. unfold mr2e, eps_.
  assert (N1 : (eswat_goffgratch (A:=RA) (litR (nth 3 r 0%dec)) : R) <> 0) by (rewrite eswat_R; apply Rgt_not_eq, Rpower_pos).
  dfin; change (@lit RA) with litR; try assumption; ra; try lra. 
Qed.

Lemma o3_D (r : list dec) : 0 < litR (nth 3 r 0%dec) -> D (o3_row (A:=XA) r) (o3_row (A:=RA) r).
Proof.
  intros Ht. unfold o3_row, ppmv_to_moleculesm3, k_avogadro, k_R. dfin. change (@lit RA) with litR. ra. nra.
Qed.

Lemma o3_pos (r : list dec) : 0 < litR (nth 1 r 0%dec) -> 0 < litR (nth 3 r 0%dec) -> 0 < litR (nth 6 r 0%dec) -> 0 <= (o3_row (A:=RA) r : R).
Proof.
  intros Hp Ht Ho. unfold o3_row, ppmv_to_moleculesm3, k_avogadro, k_R. change (@lit RA) with litR. cbv zeta. 
  ra. repeat first [apply div_nonneg | apply Rmult_le_pos | apply Rmult_lt_0_compat]; try lra; apply Rlt_le, Rinv_0_lt_compat; lra.
Qed.

Lemma atm_pressure (k : nat) : (k < 6)%nat -> forall r, In r (rows_of k) -> litR (nth 1 r 0%dec) <= 1020.
Proof.
  intros Hk r Hr. assert (C : forallb (fun a => forallb (fun r => dec_le (nth 1 r 0%dec) 1020%dec) (snd a)) atmospheres = true) by (vm_compute; reflexivity).
  rewrite forallb_forall in C. assert (Q := C (nth k atmospheres ("", [])) ltac:(apply nth_In; exact Hk)). rewrite forallb_forall in Q.
  assert (Q' := Q r Hr). apply dec_le_R in Q'. replace (litR 1020%dec) with 1020 in Q' by (cbn; lra). exact Q'.
Qed.

(** The arrays of the example, for each of the six atmospheres: a physical sounding of 50 levels up to 120 km whose vapour pressure is
    the partial pressure of the volume mixing ratio of water vapour to one part in 10^9; no NaN or infinity. *)
Theorem C131_arrays (k : nat) (a p d t : list R) (g : list (list R)) : (k < 6)%nat -> gl_atm (A:=RA) (Z.of_nat k) = Ok (a, p, d, t, g) ->
  exists rh o3, climate_arrays (A:=RA) (Z.of_nat k) = Ok (a, p, t, rh, o3) /\
    climate_arrays (A:=XA) (Z.of_nat k) = Ok (map Fin a, map Fin p, map Fin t, map Fin rh, map Fin o3) /\
    sounding a p t rh /\ length o3 = length a /\ (forall v, In v o3 -> 0 <= v) /\ (forall x, In x t -> 160 <= x <= 381) /\ (forall x, In x p -> x <= 1020) /\
    forall i, (i < 50)%nat -> let e := partial_pressure (nth 0 (nth i g []) 0) (nth i p 0) in
      Rabs (nth i rh 0 * goff_water (nth i t 0) - e) <= 1e-9 * e.
Proof.
  intros Hk H. change (car RA) with R in *. destruct (C98_physical k a p d t g Hk H) as [(La & Lp & Ld & Lt & Lg) (E0 & E49) Up Down Pos Gas _].
  rewrite (proj2 (C72_selection RA k Hk)) in H. apply ok_inj in H. fold (rows_of k) in H. 
  assert (AP := atm_pressure k Hk). assert (CR := climate_rows (A:=RA) k Hk). assert (CX := climate_rows (A:=XA) k Hk).
  assert (W := rows_wide k Hk). set (rows := rows_of k) in *. clearbody rows.
  unfold of_rows in H. change (@lit RA) with litR in H, CR. change (car RA) with R in H, CR.
  assert (Ea : map (fun r => litR (nth 0 r 0%dec)) rows = a) by congruence.
  assert (Ep : map (fun r => litR (nth 1 r 0%dec)) rows = p) by congruence.
  assert (Et : map (fun r => litR (nth 3 r 0%dec)) rows = t) by congruence.
  assert (Eg : map (fun r => map litR (firstn 7 (skipn 4 r))) rows = g) by congruence. clear H.
  assert (L : length rows = 50%nat) by (rewrite <- La, <- Ea, map_length; reflexivity).
  assert (RF : forall i, (i < 50)%nat -> nth i a 0 = litR (nth 0 (nth i rows []) 0%dec) /\ nth i p 0 = litR (nth 1 (nth i rows []) 0%dec) /\ nth i t 0 = litR (nth 3 (nth i rows []) 0%dec) /\
     forall j, (j < 7)%nat -> nth j (nth i g []) 0 = litR (nth (4 + j) (nth i rows []) 0%dec)).
  { intros i Hi. rewrite <- Ea, <- Ep, <- Et, <- Eg. rewrite !col_nth by lia. split; [reflexivity|]. split; [reflexivity|]. split; [reflexivity|]. intros j Hj.
    rewrite (nth_map_d _ rows _ []) by lia. rewrite (nth_map_d litR _ _ 0%dec).
    - rewrite nth_gas; auto. apply (proj1 (Forall_nth _ _) W). lia.
    - rewrite firstn_length, skipn_length, (proj1 (Forall_nth _ _) W) by lia. lia. }
  assert (RP : forall r, In r rows -> 0 < litR (nth 1 r 0%dec) /\ 160 < litR (nth 3 r 0%dec) < 381 /\ 0 < litR (nth 4 r 0%dec) /\ 0 < litR (nth 6 r 0%dec)).
  { intros r Hr. destruct (In_nth _ _ [] Hr) as (i & Hi & <-). destruct (RF i ltac:(lia)) as (_ & R1 & R3 & R4). destruct (Pos i ltac:(lia)) as (P1 & _ & P3).
    rewrite <- R1, <- R3. split; [exact P1|]. split; [exact P3|]. assert (Q0 := Gas i 0%nat ltac:(lia) ltac:(lia)). assert (Q2 := Gas i 2%nat ltac:(lia) ltac:(lia)).
    rewrite R4 in Q0, Q2 by lia. auto. }
  assert (CR0 : climate_arrays (A:=RA) (Z.of_nat k) = Ok (a, p, t, map (rh_row (A:=RA)) rows, map (o3_row (A:=RA)) rows)) by (rewrite CR, Ea, Ep, Et; reflexivity).
  exists (map (rh_row (A:=RA)) rows), (map (o3_row (A:=RA)) rows).
  assert (VP : forall r, In r rows -> let e := partial_pressure (litR (nth 4 r 0%dec)) (litR (nth 1 r 0%dec)) in
     Rabs (rh_row (A:=RA) r * goff_water (litR (nth 3 r 0%dec)) - e) <= 1e-9 * e /\ 0 <= (rh_row (A:=RA) r : R) /\ rh_row (A:=RA) r * goff_water (litR (nth 3 r 0%dec)) < litR (nth 1 r 0%dec)).
  { intros r Hr. destruct (RP r Hr) as (P1 & P3 & P4 & _). cbv zeta. rewrite rh_vapour by lra. split.
    - destruct (C106_vapour_pressure (litR (nth 4 r 0%dec)) (litR (nth 1 r 0%dec)) ltac:(lra) ltac:(lra)) as (w & Ew & Hw).
      assert (X : w = gkg_row (A:=RA) r) by (unfold gkg_row; change (@lit RA) with litR; rewrite Ew; reflexivity). rewrite X in Hw. exact Hw.
    - assert (G := gkg_real r). assert (G0 : 0 < (gkg_row (A:=RA) r : R)) by (rewrite G; apply Rmult_lt_0_compat; lra).
      assert (E : (mr2e (A:=RA) (litR (nth 1 r 0%dec)) (gkg_row (A:=RA) r) : R) = litR (nth 1 r 0%dec) * gkg_row (A:=RA) r / (621.970585 + gkg_row (A:=RA) r)).
      { unfold mr2e, eps_. ra. f_equal. f_equal. lra. }
      assert (EV := rh_vapour r ltac:(lra)). assert (GP : 0 < goff_water (litR (nth 3 r 0%dec))) by apply Rpower_pos. rewrite E in *.
      set (w := gkg_row (A:=RA) r) in *. set (pp := litR (nth 1 r 0%dec)) in *. change (car RA) with R in w. clearbody w pp.
      assert (E1 : 0 < pp * w / (621.970585 + w)) by (apply Rdiv_lt_0_compat; nra). split.
      + apply Rnot_lt_le. intros C. nra.
      + apply (Rmult_lt_reg_r (621.970585 + w)); [lra|]. unfold Rdiv. rewrite Rmult_assoc, Rinv_l by lra. nra. }
  split; [exact CR0|]. split; [|split; [|split; [|split; [|split; [|split]]]]].
  - rewrite CX. clear - RP Ea Ep Et. subst a p t. apply f_equal. repeat apply f_equal2; rewrite map_map; try reflexivity; apply map_ext_in; intros r Hr; destruct (RP r Hr) as (P1 & P3 & P4 & P6).
    + apply (rh_D r); lra.
    + apply (o3_D r); lra.
  - assert (N : forall i, (i < length a)%nat -> In (nth i rows []) rows) by (intros i Hi; apply nth_In; rewrite L, <- La; exact Hi). constructor; rewrite ?map_length; try lia.
    + intros ->. discriminate La.
    + intros i Hi. apply Up. lia.
    + intros x Hx. destruct (In_nth _ _ 0 Hx) as (i & Hi & <-). destruct (Pos i ltac:(lia)) as (_ & _ & P). lra.
    + intros x Hx. apply in_map_iff in Hx. destruct Hx as (r & <- & Hr). apply (VP r Hr).
    + intros i Hi. destruct (RF i ltac:(lia)) as (_ & R1 & R3 & _). rewrite R1, R3. rewrite (nth_map_d _ rows _ []) by lia. apply (VP _ (N i Hi)).
  - rewrite map_length. lia.
  - intros x Hx. apply in_map_iff in Hx. destruct Hx as (r & <- & Hr). destruct (RP r Hr) as (P1 & P3 & P4 & P6). apply o3_pos; lra.
  - intros x Hx. destruct (In_nth _ _ 0 Hx) as (i & Hi & <-). destruct (Pos i ltac:(lia)) as (_ & _ & P). lra.
  - intros x Hx. rewrite <- Ep in Hx. apply in_map_iff in Hx. destruct Hx as (r & <- & Hr). apply AP, Hr.
  - intros i Hi. cbv zeta. destruct (RF i Hi) as (_ & R1 & R3 & R4). rewrite R1, R3, (R4 0%nat) by lia. rewrite (nth_map_d _ rows _ []) by lia. apply (VP (nth i rows [])). apply nth_In. lia.
Qed.

(** Which models serve the built-in atmospheres: all combinations of claim C130, without a limit on temperature or pressure. *)
Definition serves (mw mo mn : string) : Prop := (In mw std_models \/ In mw sd_fin_models) /\ (In mo fin_o2_names /\ mo <> "R98") /\ In mn n2_models.

(** The example from the profile to the spectrum, without or with the ozone of the profile: the arrays are stored at [z], [p], [t], [rh] (and [z3]). *)
Theorem C131_spectrum (k : nat) (g : globals XA) (h : heap XA) z p t rh z3 zs ps ts rhs o3 mw mo mn ml mz (ozone : bool) (fs angs : list R) sat : (k < 6)%nat ->
  climate_arrays (A:=XA) (Z.of_nat k) = Ok (zs, ps, ts, rhs, o3) ->
  hget h z = zs -> hget h p = ps -> hget h t = ts -> hget h rh = rhs -> hget h z3 = o3 -> z <> p -> z <> t -> z <> rh -> z3 <> z ->
  chosen g mw mo mn ml -> serves mw mo mn ->
  (ozone = true -> In mz o3_fin_names /\ g_o3 g = Some mz /\ g_o3ll g = db_o3 (@shipped XA) mz) ->
  (forall f, In f fs -> covered mw f) -> (forall a, In a angs -> 0 < a < 180) ->
  exists h' o fr full o' g',
    tb_init (A:=XA) h z p t rh (map Fin fs) (map Fin angs) (if ozone then Some z3 else None) None "" false sat false = (h', Ok o) /\
    execute (@shipped XA) g h' o = Ok (fr, full, o', g') /\ length fr = (length angs * length fs)%nat /\
    forall i j dr, (i < length angs)%nat -> (j < length fs)%nat ->
    let f := nth j fs 0 in let a := nth i angs 0 in
    exists aw ad x T al pr de te ga rh oz, gl_atm (A:=RA) (Z.of_nat k) = Ok (al, pr, de, te, ga) /\ climate_arrays (A:=RA) (Z.of_nat k) = Ok (al, pr, te, rh, oz) /\
      mixed_absorption mw mo mn mz pr te rh (if ozone then Some oz else None) f aw ad /\
      nth (i * length fs + j) fr dr = f_row x /\
      spec_row sat f 1 a te (slant_path al a) aw ad (repeat 0 50) (repeat 0 50) x /\
      r_tbtotal (f_row x) = Fin T /\ 0 < T <= 381 /\
      (total_tau (opacities aw ad (repeat 0 50) (repeat 0 50) (slant_path al a)) < 125 -> (if sat then 160 else 2.728) <= T).
Proof.
  intros Hk HA Ez Ep Et Erh E3 N1 N2 N3 N4 Hc (Sw & So & Sn) Hoz Hf Ha.
  destruct (gl_atm (A:=RA) (Z.of_nat k)) as [[[[[al pr] de] te] ga]|e] eqn:EG; [|rewrite (proj2 (C72_selection RA k Hk)) in EG; discriminate].
  destruct (C131_arrays k al pr de te ga Hk EG) as (rh' & oz & CR & CX & SO & L3 & P3 & BT & BP & _).
  rewrite HA in CX. apply ok_inj in CX.
  assert (Q1 : zs = map Fin al) by congruence. assert (Q2 : ps = map Fin pr) by congruence. assert (Q3 : ts = map Fin te) by congruence.
  assert (Q4 : rhs = map Fin rh') by congruence. assert (Q5 : o3 = map Fin oz) by congruence. rewrite Q1 in Ez. rewrite Q2 in Ep. rewrite Q3 in Et. rewrite Q4 in Erh. rewrite Q5 in E3.
  destruct (C98_physical k _ _ _ _ _ Hk EG) as [(La & _) _ _ _ _ _ _].
  destruct (C130_from_constructor g h z p t rh (if ozone then Some z3 else None) mw mo mn ml mz al pr te rh' (if ozone then Some oz else None) fs angs sat 160 381 Hc)
    as (h' & o & fr & full & o' & g' & R1 & R2 & R3 & R4); try assumption; try lra.
  { constructor; [|exact So|exact Sn]. destruct Sw as [Sw|Sw]; [left; exact Sw|right]. split; [exact Sw|]. split; [intros x Hx; assert (X := BT x Hx); lra|intros x Hx; assert (X := BP x Hx); lra]. }
  { destruct ozone; [|exact I]. destruct (Hoz eq_refl) as (O1 & O2 & O3). cbn [ozone_argument]. rewrite E3. auto 10. }
  exists h', o, fr, full, o', g'. split; [exact R1|]. split; [exact R2|]. split; [exact R3|]. intros i j dr Hi Hj f a.
  destruct (R4 i j dr Hi Hj) as (aw & ad & x & T & X1 & _ & X3 & _ & _ & X6 & X7 & X8 & X9). rewrite La in X6, X9.
  exists aw, ad, x, T, al, pr, de, te, ga, rh', oz. auto 10.
Qed.

(** The US standard atmosphere with ozone, R20 with the water vapour of R21SD, as in the example of the documentation. *)
Example C131_example sat : exists zs ps ts rhs o3 h' o fr full o' g',
  climate_arrays (A:=XA) 5 = Ok (zs, ps, ts, rhs, o3) /\
  tb_init (A:=XA) [zs; ps; ts; rhs; o3] 0%nat 1%nat 2%nat 3%nat (map Fin [20; 183.31]) (map Fin [90]) (Some 4%nat) None "" false sat false = (h', Ok o) /\
  execute (@shipped XA) (mkGlobals (A:=XA) (Some "R21SD") (Some "R20") (Some "R20") (Some "R20") (Some "R18") None None (db_o3 (@shipped XA) "R18") false (Fin 1)) h' o = Ok (fr, full, o', g') /\
  length fr = 2%nat /\ exists x T, nth 1 fr (f_row full0) = f_row x /\ r_tbtotal (f_row x) = Fin T /\ 0 < T <= 381.
Proof.
  destruct (climate_arrays (A:=XA) 5) as [[[[[zs ps] ts] rhs] o3]|e] eqn:E; [|rewrite (climate_rows (A:=XA) 5 ltac:(lia) : climate_arrays 5 = _) in E; discriminate].
  exists zs, ps, ts, rhs, o3. set (g := mkGlobals _ _ _ _ _ _ _ _ _ _).
  destruct (C131_spectrum 5 g [zs; ps; ts; rhs; o3] 0%nat 1%nat 2%nat 3%nat 4%nat zs ps ts rhs o3 "R21SD" "R20" "R20" "R20" "R18" true [20; 183.31] [90] sat ltac:(lia) E)
    as (h' & o & fr & full & o' & g' & H1 & H2 & H3 & H4); [reflexivity|reflexivity|reflexivity|reflexivity|reflexivity|discriminate|discriminate|discriminate|discriminate| | | | | |].
  { repeat split. }
  { split; [right; cbn; tauto|]. split; [split; [cbn; tauto|discriminate]|cbn; tauto]. }
  { intros _. split; [cbn; tauto|split; reflexivity]. }
  { intros f [<-|[<-|[]]]; (split; [lra|intros [X|[X|[X|[]]]]; discriminate]). } { intros a [<-|[]]; lra. }
  destruct (H4 0%nat 1%nat (f_row full0) ltac:(cbn; lia) ltac:(cbn; lia)) as (aw & ad & x & T & al & pr & de & te & ga & rh & oz & _ & _ & _ & X1 & _ & X2 & X3 & _).
  exists h', o, fr, full, o', g'. split; [reflexivity|]. split; [exact H1|]. split; [exact H2|]. split; [exact H3|]. exists x, T. auto.
Qed.
