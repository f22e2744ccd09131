(** Claim C111 with ray tracing: a run with the line lists of the package along bent rays, end to end.  The path lengths are those of claim
    C26 ([path_element], or the height differences within one degree of the zenith), with the refractive index of claim C25. *)

From Coq Require Import ZArith Reals Lra Lia String List Bool.
Import ListNotations.
From Verif Require Import Arith PyBase Utils RTE Absorption Clear Spectrum Spec ListAux RealAux PlanckReal PlanckMaster PropsPlanck Integral
  SolverGen SolverRun Registry PropsRun PropsObject PropsModels PropsSolverX PropsRay PropsLiq LineData Lineshape PropsAbsN2 PropsClear PropsO2H2O PropsH2O PropsO2Data PropsO3
  PropsUtils PropsSelfCont FinTransfer FinGas FinSD PropsUtils3 FinClear PropsRow WeightingGen SolverExamples FinCloud PropsEnd PropsBent.
Local Open Scope string_scope.
Open Scope R_scope.

(** ** Specification *)

(** Air of a temperature, pressure and vapour pressure met in the atmosphere of the Earth (at 300 K up to 1100 hPa and 108 hPa of vapour). *)
Definition thin (p t e : R) : Prop := phys p t e /\ p <= 5 * t /\ e <= 0.0012 * (t * t).

(** Refractive index at every level. *)
Definition indices (ps ts es : list R) : list R :=
  map (fun x => 1 + (thayer_dry (fst x) (fst (snd x)) (snd (snd x)) + thayer_wet (fst (snd x)) (snd (snd x))) * 1e-6) (combine ps (combine ts es)).

(** Path through the layers for a ray of elevation [a] degrees: height differences near the zenith, otherwise the bent ray. *)
Definition traced (zs ns : list R) (z0 a : R) : list R :=
  if Rlt_dec a 89 then 0 :: map (path_element zs ns a z0) (seq 1 (length zs - 1)) else 0 :: diffs (A:=RA) zs.

(** ** Proofs *)

Lemma thin_bounds p t e : thin p t e -> 0 <= thayer_dry p t e + thayer_wet t e <= 1000.
Proof.
  intros (Hph & Hp5 & He2). assert (P0 := thayer_pos p t e Hph). destruct Hph as (Ht & He & Hp). split; [lra|].
  assert (It : 0 < / t <= / 160) by (split; [apply Rinv_0_lt_compat; lra|apply Rinv_le_contravar; lra]).
  assert (X1 : 0 <= (p - e) / t <= 5).
  { split; [apply Rmult_le_pos; lra|]. apply (Rmult_le_reg_r t); [lra|]. unfold Rdiv. rewrite Rmult_assoc, Rinv_l by lra. lra. }
  assert (T2 : 0 < t * t) by nra.
  assert (Q : -0.005 <= (t - 273.16) / (t * t)).
  { apply (Rmult_le_reg_r (t * t)); [exact T2|]. unfold Rdiv. rewrite Rmult_assoc, Rinv_l by lra. nra. }
  assert (D : thayer_dry p t e <= 392).
  { unfold thayer_dry. replace (0.00094611 * (t - 273.16) / (t * t)) with (0.00094611 * ((t - 273.16) / (t * t))) by (unfold Rdiv; ring).
    assert (0.52 / t <= 0.00325) by (unfold Rdiv; nra).
    set (q := (t - 273.16) / (t * t)) in *. set (r := 0.52 / t) in *. clearbody q r.
    assert (W : 5.79e-7 * (1 + r) - 0.00094611 * q <= 0.0000054) by lra.
    set (w := 5.79e-7 * (1 + r) - 0.00094611 * q) in *. clearbody w.
    assert (K : (p - e) * w <= 0.006) by nra. nra. }
  assert (W : thayer_wet t e <= 520).
  { unfold thayer_wet.
    assert (Y1 : e / (t * t) <= 0.0012).
    { apply (Rmult_le_reg_r (t * t)); [exact T2|]. unfold Rdiv. rewrite Rmult_assoc, Rinv_l by lra. lra. }
    assert (Y0 : 0 <= e / (t * t)) by (apply Rmult_le_pos; [lra|apply Rlt_le, Rinv_0_lt_compat; lra]).
    replace (e / t) with (e / (t * t) * t) by (field; lra).
    replace (e / (t * (t * t))) with (e / (t * t) * / t) by (field; lra). set (y := e / (t * t)) in *. clearbody y.
    set (c := t - 273.16) in *. assert (Hc : -113.2 <= c <= 77) by (unfold c; lra).
    assert (P : 1 - 0.01317 * c + 0.000175 * (c * c) + 1.44e-06 * (c * c * c) <= 5.8).
    { assert (c * c <= 12815) by nra. destruct (Rle_lt_dec 0 c); [assert (c * c <= 5929) by nra; assert (c * c * c <= 456533) by nra; lra|].
      assert (0 <= - (c * c * c)) by nra. lra. }
    assert (Pp : 0 <= 1 - 0.01317 * c + 0.000175 * (c * c) + 1.44e-06 * (c * c * c)).
    { destruct (Rle_lt_dec 0 c).
      - assert (0 <= c * c * c) by (apply Rmult_le_pos; nra). nra.
      - assert (0 <= c * c * (0.000175 + 1.44e-06 * c)) by (apply Rmult_le_pos; nra). nra. }
    set (P3 := 1 - 0.01317 * c + 0.000175 * (c * c) + 1.44e-06 * (c * c * c)) in *. clearbody P3.
    assert (F : 1650 * (y * / t) * P3 <= 0.073).
    { assert (y * / t <= 0.0000075) by nra. assert (0 <= y * / t) by (apply Rmult_le_pos; lra). nra. }
    assert (G : 64.79 * (y * t) + 377600 * y <= 481) by nra.
    assert (G0 : 0 <= 64.79 * (y * t) + 377600 * y) by nra. nra. }
  lra.
Qed.

Lemma refr_idx (ps ts es : list R) : length ps = length ts -> length es = length ts -> (forall t, In t ts -> 0 < t) ->
  snd (refractivity (A:=XA) (map Fin ps) (map Fin ts) (map Fin es)) = map Fin (indices ps ts es).
Proof.
  intros L1 L2 Ht. unfold refractivity. cbn [snd]. rewrite map_map. unfold indices.
  revert ts es L1 L2 Ht. induction ps as [|p ps IH]; intros [|t ts] [|e es] L1 L2 Ht; cbn [length] in *; try discriminate; [reflexivity|].
  cbn [map combine fst snd]. assert (T : 0 < t) by (apply Ht; left; reflexivity). f_equal.
  - exact (f_equal snd (refractivity1_X p t e ltac:(lra))).
  - apply IH; try lia. intros x Hx. apply Ht. right. exact Hx.
Qed.

Lemma indices_nth ps ts es i : length ps = length ts -> length es = length ts -> (i < length ts)%nat ->
  nth i (indices ps ts es) 0 = 1 + (thayer_dry (nth i ps 0) (nth i ts 0) (nth i es 0) + thayer_wet (nth i ts 0) (nth i es 0)) * 1e-6.
Proof.
  intros L1 L2 Hi. unfold indices. rewrite (nth_map_d _ _ _ (0, (0, 0))) by (rewrite !combine_length; lia).
  rewrite combine_nth by (rewrite combine_length; lia). rewrite combine_nth by lia. reflexivity.
Qed.

Lemma element_nonneg rl r dphi b : Rabs b <= 0.008 -> 0 <= element rl r dphi b.
Proof.
  intros B. unfold element. apply Rmult_le_pos; [apply sqrt_pos|]. destruct (Req_EM_T b 0) as [|N]; [lra|].
  assert (Pb : 0 < Rabs b) by (apply Rabs_pos_lt; auto).
  assert (Sb : 0 < sin (Rabs b / 2)) by (apply sin_gt_0; [lra|]; assert (H3 := PI2_3_2); unfold PI2 in H3; lra).
  apply Rlt_le, Rdiv_lt_0_compat; lra.
Qed.

Lemma level_elevation_range z n a z0 i : 6300 <= Re + z0 -> slanted (rad a) -> (0 < length z)%nat ->
  (forall i, (i < length z)%nat -> air (nth i z 0) (nth i n 0)) -> (i < length z)%nat -> 0.14 <= level_elevation z n a z0 i < PI / 2.
Proof.
  intros Hrs Hth Hne Hair Hi. destruct i as [|i]; cbn [level_elevation]; [destruct Hth; lra|].
  apply geo_elev; auto. apply (Hair 0%nat Hne).
Qed.

(** Every element of a traced path is non-negative. *)
Lemma traced_nonneg zs ns z0 a : rising zs -> (0 < length zs)%nat -> 6300 <= Re + z0 -> 21 <= a ->
  (forall i, (i < length zs)%nat -> air (nth i zs 0) (nth i ns 0)) -> forall v, In v (traced zs ns z0 a) -> 0 <= v.
Proof.
  intros Hr Hne Hrs Ha Hair v Hv. unfold traced in Hv. destruct (Rlt_dec a 89) as [L|L]; destruct Hv as [<-|Hv]; try lra.
  - apply in_map_iff in Hv. destruct Hv as (i & <- & Hi). apply in_seq in Hi. unfold path_element. apply element_nonneg. unfold layer_bending.
    assert (Hth := slanted_deg a (conj Ha L)).
    apply bending_small; try (apply level_elevation_range; auto; lia); apply Hair; lia.
  - change (In v (diffs (A:=RA) zs)) in Hv. apply (In_nth _ _ 0) in Hv. destruct Hv as (i & Hi & <-). assert (LD := @diffs_length RA zs). change (car RA) with R in *.
    rewrite LD in Hi. rewrite diffs_nth by lia. assert (X := Hr i ltac:(lia)). lra.
Qed.

Lemma traced_ok zs ns z0 a : rising zs -> (0 < length zs)%nat -> length ns = length zs -> nth 0 zs 0 = 0 -> 6300 <= Re + z0 -> 21 <= a <= 91 ->
  (forall i, (i < length zs)%nat -> air (nth i zs 0) (nth i ns 0)) ->
  ray_tracing (A:=XA) (map Fin zs) (map Fin ns) (Fin a) (Fin z0) = Ok (Some (map Fin (traced zs ns z0 a))).
Proof.
  intros Hr Hne Hl H0 Hrs Ha Hair. unfold traced. assert (Hne' : zs <> []) by (destruct zs; [cbn in Hne; lia|discriminate]).
  destruct (Rlt_dec a 89) as [L|L].
  - apply C26_bent_path; auto; lra.
  - destruct (C26_near_zenith zs ns a z0) as (ds & E & E1 & E2 & E3); auto.
    + intros x Hx. apply (In_nth _ _ 0) in Hx. destruct Hx as (i & Hi & <-). rewrite Hl in Hi. destruct (Hair i Hi). lra.
    + left. lra.
    + rewrite E. do 3 f_equal. assert (LD := @diffs_length RA zs). change (car RA) with R in *. apply (nth_ext _ _ 0 0).
      * cbn [length]. change (length (diffs (A:=RA) zs)) with (@length R (diffs (A:=RA) zs)). rewrite LD. lia.
      * intros i Hi. destruct i as [|i]; [exact E2|]. rewrite E3 by lia. cbn [nth]. rewrite diffs_nth by lia. rewrite Nat.sub_succ, Nat.sub_0_r. reflexivity.
Qed.

(** Every run with ray tracing of a solver that holds such a profile. *)
Theorem C111_ray_traced (g : globals XA) (h : heap XA) o m mz z0 zs ps ts rhs o3 dl di : served m ps ts -> wf h o -> cloud_input h o m ts dl di ->
  o_ray o = true -> o_ice o = false -> o_unc o = false -> ozone_input g h o mz o3 -> o_z0 o = Fin z0 -> 6300 <= Re + z0 ->
  hget h (o_z o) = map Fin zs -> hget h (o_p o) = map Fin ps -> hget h (o_tk o) = map Fin ts -> hget h (o_rh o) = map Fin rhs -> sounding zs ps ts rhs ->
  nth 0 zs 0 = 0 -> (forall z, In z zs -> z <= 100) ->
  (forall i, (i < length zs)%nat -> thin (nth i ps 0) (nth i ts 0) (nth i (vap ts rhs) 0)) ->
  (forall x, In x (o_frq o) -> exists f, x = Fin f /\ usable m f) ->
  (forall x, In x (o_angles o) -> exists a, x = Fin a /\ 21 <= a <= 91) ->
  (forall x, In x (hget h (o_es o)) -> exists es, x = Fin es /\ (o_sat o = true -> 0 < es)) ->
  exists fr full o' g', execute (@shipped XA) (init_absmdl g m) h o = Ok (fr, full, o', g') /\ length fr = (length (o_angles o) * length (o_frq o))%nat /\
  forall k j dr, (k < length (o_angles o))%nat -> (j < length (o_frq o))%nat ->
  exists f a es aw ad al ai, nth j (o_frq o) x0 = Fin f /\ nth k (o_angles o) x0 = Fin a /\ nth j (hget h (o_es o)) x0 = Fin es /\
    ideal_absorption m mz ps ts rhs o3 f aw ad /\ ideal_clouds m ts dl di f al ai /\ (length al = length ts /\ length ai = length ts /\ forall v, In v al \/ In v ai -> 0 <= v) /\
    (length aw = length ts /\ length ad = length ts /\ forall v, In v aw \/ In v ad -> 0 <= v) /\
    let x := nth j (an_rows (nth k full angle0)) full0 in
    nth (k * length (o_frq o) + j) fr dr = f_row x /\ f_awet x = map Fin aw /\ f_adry x = map Fin ad /\
    spec_row (o_sat o) f es a ts (traced zs (indices ps ts (vap ts rhs)) z0 a) aw ad al ai x.
Proof.
  intros Hm W Hcl Hr Hi Hu Hoz Hz0 Hrs Hz Hp Ht Hrh SO H0 Hz100 Hthin Hfr Han Hes.
  apply (run_with_path (traced zs (indices ps ts (vap ts rhs)) z0) g h o m mz zs ps ts rhs o3 dl di Hm W Hcl Hi Hu Hoz Hz Hp Ht Hrh SO Hfr); [|exact Hes].
  assert (SO' := SO). destruct SO' as [S1 S2 S3 S4 S5 S6 S7 S8].
  destruct (vap_facts ts rhs ltac:(lia) S6 S7) as (V1 & V2 & V3).
  assert (Hne : (0 < length zs)%nat) by (destruct zs; [congruence|cbn; lia]).
  assert (LN : length (indices ps ts (vap ts rhs)) = length zs) by (unfold indices; rewrite map_length, !combine_length; lia).
  assert (Hair : forall i, (i < length zs)%nat -> air (nth i zs 0) (nth i (indices ps ts (vap ts rhs)) 0)).
  { intros i Hlt. split.
    - split; [|apply Hz100, nth_In, Hlt]. destruct i as [|i]; [lra|]. assert (X := rising_lt zs S5 0%nat (S i) ltac:(lia) Hlt). lra.
    - rewrite indices_nth by lia. assert (X := thin_bounds _ _ _ (Hthin i Hlt)). lra. }
  intros x Hx. destruct (Han x Hx) as (a & -> & Ha). exists a. split; [reflexivity|]. split.
  - apply traced_nonneg; auto; lra.
  - intros dryn wetn refindx Er. assert (Ei := refr_idx ps ts (vap ts rhs) ltac:(lia) V1 S6). rewrite Er in Ei. cbn [snd] in Ei. subst refindx.
    unfold path_ds. cbn [inputs_of i_ray i_z i_z0]. rewrite Hr, Hz0, Hz.
    assert (T := traced_ok zs (indices ps ts (vap ts rhs)) z0 a S5 Hne LN H0 Hrs Ha Hair).
    etransitivity; [apply (f_equal (fun r => bind r _)); exact T|]. reflexivity.
Qed.

(** From the constructor: heights above sea level, the first at most 70 km below it (any station). *)
Theorem C111_ray_traced_from_constructor (g : globals XA) (h : heap XA) z p t rh m zs ps ts rhs (fs angs : list R) sat : served m ps ts ->
  hget h z = map Fin zs -> hget h p = map Fin ps -> hget h t = map Fin ts -> hget h rh = map Fin rhs ->
  z <> p -> z <> t -> z <> rh -> sounding zs ps ts rhs -> 6300 <= Re + nth 0 zs 0 -> (forall x, In x zs -> x <= nth 0 zs 0 + 100) ->
  (forall i, (i < length zs)%nat -> thin (nth i ps 0) (nth i ts 0) (nth i rhs 0 * goff_water (nth i ts 0))) ->
  (forall f, In f fs -> usable m f) -> (forall a, In a angs -> 21 <= a <= 91) ->
  let zr := map (fun x => x - nth 0 zs 0) zs in
  exists h' o fr full o' g',
    tb_init (A:=XA) h z p t rh (map Fin fs) (map Fin angs) None None "" true sat false = (h', Ok o) /\
    execute (@shipped XA) (init_absmdl g m) h' o = Ok (fr, full, o', g') /\ length fr = (length angs * length fs)%nat /\
    forall k j dr, (k < length angs)%nat -> (j < length fs)%nat ->
    let f := nth j fs 0 in let a := nth k angs 0 in
    exists aw ad x, ideal_absorption m "" ps ts rhs None f aw ad /\
      (length aw = length zs /\ length ad = length zs /\ forall v, In v aw \/ In v ad -> 0 <= v) /\
      nth (k * length fs + j) fr dr = f_row x /\ f_awet x = map Fin aw /\ f_adry x = map Fin ad /\
      spec_row sat f 1 a ts (traced zr (indices ps ts (vap ts rhs)) (nth 0 zs 0) a) aw ad (repeat 0 (length zs)) (repeat 0 (length zs)) x.
Proof.
  intros Hm Hz Hp Ht Hrh N1 N2 N3 SO Hrs H100 Hthin Hf Ha zr. destruct SO as [S1 S2 S3 S4 S5 S6 S7 S8] eqn:ES.
  assert (ND := rising_NoDup zs S5).
  destruct (C44_exact h z p t rh (map Fin fs) (map Fin angs) None None true sat false zs Hz S1) as [HC _].
  destruct (HC (NoDup_no_repeat _ ND)) as (o & HO & _).
  destruct (tb_init (A:=XA) h z p t rh (map Fin fs) (map Fin angs) None None "" true sat false) as [h' r] eqn:EI. cbn [snd] in HO. subst r.
  destruct (init_z h h' z p t rh (map Fin fs) (map Fin angs) None None true sat false o zs Hz S1 ND EI) as (_ & Hz0 & _ & Hz').
  assert (V : forall b l, hget h b = map Fin l -> length l = length zs -> (b < length h)%nat).
  { intros b l Hb Hl. apply hget_valid. rewrite Hb. destruct l; [destruct zs; [congruence|discriminate]|discriminate]. }
  assert (F := tb_init_wf h h' z p t rh (map Fin fs) (map Fin angs) None None "" true sat false o EI). cbv zeta in F. rewrite Hz, Hp, Ht, Hrh, !map_length in F.
  destruct (F S2 S3 S4 ltac:(discriminate)) as (W & G1 & G2 & G3 & G4 & G5 & G6 & G7 & G8 & G9 & _ & _ & G12 & G13 & G14 & G15 & G16 & G17 & G18 & _ & G20).
  assert (Lz : length zr = length zs) by apply map_length.
  destruct (C111_ray_traced g h' o m "" (nth 0 zs 0) zr ps ts rhs None (repeat 0 (length ts)) (repeat 0 (length ts)) Hm W) as (fr & full & o' & g' & R1 & R2 & R3); auto.
  { left. split; [exact G2|]. split; [intros cs c Hcs Hcc; rewrite G9; apply (G17 cs c Hcs Hcc)|auto]. }
  { rewrite G15. exact Hz'. }
  { rewrite G13, G18; eauto. }
  { rewrite G12, G18; eauto. }
  { rewrite G14, G18; eauto. }
  { apply sounding_shift, SO. }
  { unfold zr. destruct zs as [|z1 zs]; [congruence|]. cbn [map nth]. lra. }
  { intros x Hx. unfold zr in Hx. apply in_map_iff in Hx. destruct Hx as (v & <- & Hv). specialize (H100 v Hv). lra. }
  { intros i Hi. destruct (vap_facts ts rhs ltac:(lia) S6 S7) as (V1 & V2 & V3). rewrite V3 by lia. apply Hthin. lia. }
  { intros x Hx. rewrite G3 in Hx. apply in_map_iff in Hx. destruct Hx as (v & <- & Hv). eauto. }
  { intros x Hx. rewrite G4 in Hx. apply in_map_iff in Hx. destruct Hx as (v & <- & Hv). eauto. }
  { intros x Hx. rewrite G20 in Hx. apply repeat_spec in Hx. subst x. exists (10 / 10). split; [reflexivity|intros; lra]. }
  exists h', o, fr, full, o', g'. split; [reflexivity|]. split; [exact R1|]. rewrite G3, G4, !map_length in R2. split; [exact R2|].
  intros k j dr Hk Hj f a. rewrite G3, G4, !map_length in R3.
  destruct (R3 k j dr Hk Hj) as (f' & a' & es & aw & ad & al & ai & E1 & E2 & E3 & E4 & E4c & _ & E5 & E6 & E7 & E8 & E9).
  unfold x0 in E1, E2. rewrite (nth_map_d Fin fs _ 0) in E1 by assumption. rewrite (nth_map_d Fin angs _ 0) in E2 by assumption.
  assert (f' = f) by (inversion E1; reflexivity). assert (a' = a) by (inversion E2; reflexivity). subst f' a'.
  assert (es = 1).
  { rewrite G20 in E3. rewrite nth_repeat_lt in E3 by exact Hj.
    change (lit (a:=XA) 1.0) with (Fin (10 / 10)) in E3. inversion E3. lra. }
  assert (Z := no_clouds m ts f). unfold ideal_clouds in E4c, Z. rewrite Z in E4c. apply ok_inj in E4c.
  assert (al = repeat 0 (length ts)) by exact (eq_sym (f_equal fst E4c)). assert (ai = repeat 0 (length ts)) by exact (eq_sym (f_equal snd E4c)). subst al ai.
  subst es. exists aw, ad, (nth j (an_rows (nth k full angle0)) full0). rewrite S3 in E5. rewrite G6, S3 in E9.
  split; [exact E4|]. split; [exact E5|]. auto.
Qed.

(** A concrete case: three levels seen under 30 and 90 degrees. *)
Definition exb_h : heap XA := [map Fin [1; 2; 4]; map Fin [900; 800; 600]; map Fin [290; 280; 260]; map Fin [0.05; 0.05; 0.02]].

Example C111_ray_traced_example sat : exists h' o fr full o' g' x T,
  tb_init (A:=XA) exb_h 0%nat 1%nat 2%nat 3%nat (map Fin [22.235; 60]) (map Fin [90; 30]) None None "" true sat false = (h', Ok o) /\
  execute (@shipped XA) (init_absmdl ex_g "R19") h' o = Ok (fr, full, o', g') /\ length fr = 4%nat /\ nth 3 fr (f_row full0) = f_row x /\
  r_tbtotal (f_row x) = Fin T /\ 0 < T <= 290.
Proof.
  assert (G1 := goff_small 290 ltac:(lra)). assert (G2 := goff_small 280 ltac:(lra)). assert (G3 := goff_small 260 ltac:(lra)).
  assert (P : forall t, 0 < goff_water t) by (intros; apply Rpower_pos). assert (P1 := P 290). assert (P2 := P 280). assert (P3 := P 260).
  assert (SO : sounding [1; 2; 4] [900; 800; 600] [290; 280; 260] [0.05; 0.05; 0.02]).
  { constructor; try reflexivity; try discriminate.
    - intros [|[|i]] Hi; cbn in *; try lra; lia.
    - intros t [<-|[<-|[<-|[]]]]; lra.
    - intros t [<-|[<-|[<-|[]]]]; lra.
    - intros [|[|[|i]]] Hi; cbn [nth]; try lra. cbn in Hi. lia. }
  destruct (C111_ray_traced_from_constructor ex_g exb_h 0%nat 1%nat 2%nat 3%nat "R19" [1; 2; 4] [900; 800; 600] [290; 280; 260] [0.05; 0.05; 0.02] [22.235; 60] [90; 30] sat)
    as (h' & o & fr & full & o' & g' & H1 & H2 & H3 & H4); try reflexivity; try discriminate; auto.
  { left; cbn; tauto. } { unfold Re. cbn. lra. } { intros x [<-|[<-|[<-|[]]]]; cbn; lra. }
  { intros [|[|[|i]]] Hi; cbn [nth]; try (unfold thin, phys; lra). cbn in Hi. lia. }
  { intros f [<-|[<-|[]]]; (split; [lra|discriminate]). } { intros a [<-|[<-|[]]]; lra. }
  destruct (H4 1%nat 1%nat (f_row full0) ltac:(cbn; lia) ltac:(cbn; lia)) as (aw & ad & x & _ & (L1 & L2 & N) & E & _ & _ & S). cbn [nth] in S.
  destruct (vap_facts [290; 280; 260] [0.05; 0.05; 0.02] eq_refl ltac:(apply (so_tpos _ _ _ _ SO)) ltac:(apply (so_rhpos _ _ _ _ SO))) as (V1 & V2 & V3).
  assert (TN : forall v, In v (traced (map (fun x => x - 1) [1; 2; 4]) (indices [900; 800; 600] [290; 280; 260] (vap [290; 280; 260] [0.05; 0.05; 0.02])) 1 30) -> 0 <= v).
  { apply traced_nonneg.
    - apply rising_shift, (so_rising _ _ _ _ SO).
    - cbn; lia.
    - unfold Re; lra.
    - lra.
    - intros i Hi. cbn [map length] in Hi. split; [destruct i as [|[|[|i]]]; cbn; try lra; lia|].
      rewrite indices_nth by (rewrite ?V1; cbn; lia). rewrite V3 by (cbn; lia).
      assert (TB := thin_bounds (nth i [900; 800; 600] 0) (nth i [290; 280; 260] 0) (nth i [0.05; 0.05; 0.02] 0 * goff_water (nth i [290; 280; 260] 0))
        ltac:(destruct i as [|[|[|i]]]; cbn [nth]; try (unfold thin, phys; lra); lia)). lra. }
  destruct (C111_bounds sat 60 1 30 [290; 280; 260] _ aw ad _ _ x 260 290 S) as (T & T1 & T2 & T3 & T4 & _); try lra; try discriminate; auto.
  { intros t [<-|[<-|[<-|[]]]]; lra. }
  { intros v Hv. unfold opacities in Hv. apply in_map_iff in Hv. destruct Hv as (i & <- & _).
    match goal with |- context [layer_int true aw ?d _] => set (dd := d) in * end.
    assert (Z : forall b, 0 <= layer_int b (repeat 0 3) dd i).
    { intros b. apply layer_int_nonneg; [intros v Hv; apply repeat_spec in Hv; lra|exact TN]. }
    assert (A1 := Z false).
    assert (A2 := layer_int_nonneg true aw dd i ltac:(intros; apply N; auto) TN).
    assert (A3 := layer_int_nonneg true ad dd i ltac:(intros; apply N; auto) TN). cbn [length] in *. lra. }
  exists h', o, fr, full, o', g', x, T. split; [exact H1|]. split; [exact H2|]. split; [exact H3|]. split; [exact E|]. split; [exact T1|].
  split; [exact T2|]. destruct sat; [apply T4; reflexivity|]. eapply Rle_trans; [apply T3; reflexivity|]. apply Rmax_lub; lra.
Qed.
