(** Concrete non-trivial cases for the solver claims C12, C23, C27, C48 - C52: a three-level profile, two elevations,
    a line data base with the registered names and empty line lists, clear and with clouds. *)

From Coq Require Import ZArith Reals Lra Lia String List Bool.
Import ListNotations.
From Verif Require Import Arith PyBase Utils RTE Absorption Clear Spectrum Spec ListAux RealAux PlanckReal PlanckMaster PropsPlanck Integral
  SolverGen SolverRun Registry PropsRun PropsObject PropsModels PropsHistory PropsSolverX.
Open Scope R_scope.

Definition n0 : car XA := Fin 0.
Definition n1 : car XA := Fin 1.

Definition ex_db : lldb XA :=
  mkDB (A:=XA) (fun m => if str_in m h2o_names then Some (mkH2OLL n1 n1 n0 n0 n0 n0 n0 n0 []) else None)
               (fun m => if str_in m o2_names then Some (mkO2LL n1 n1 []) else None)
               (fun m => if str_in m o3_names then Some (mkO3LL n1 []) else None).

Lemma str_in_spec m l : str_in m l = true <-> In m l.
Proof.
  unfold str_in. rewrite existsb_exists. split.
  - intros (x & H & E). apply String.eqb_eq in E. subst. exact H.
  - intros H. exists m. split; [exact H|apply String.eqb_refl].
Qed.

Lemma ex_db_registered : registered ex_db.
Proof.
  intros m. unfold ex_db. cbn [db_h2o db_o2 db_o3]. rewrite <- !str_in_spec.
  repeat split; intros H; destruct (str_in m _); congruence.
Qed.

Definition ex_g : globals XA := mkGlobals (A:=XA) None None None None None None None None false n1.

(** heights, pressures, temperatures, humidities, no water, constant ice, constant liquid *)
Definition ex_h : heap XA :=
  [map Fin [1; 2; 4]; map Fin [900; 800; 600]; map Fin [290; 280; 260]; map Fin [0.5; 0.5; 0.2];
   map Fin [0; 0; 0]; map Fin [0.1; 0.1; 0.1]].

Definition ex_frq : list (car XA) := [Fin 50; Fin 60].
Definition ex_ang : list (car XA) := [Fin 90; Fin 30; Fin 150].

Definition ex_init sat cl := tb_init (A:=XA) ex_h 0%nat 1%nat 2%nat 3%nat ex_frq ex_ang None None "" false sat cl.

Lemma ex_nodup : NoDup [1; 2; 4].
Proof. repeat constructor; simpl; intuition lra. Qed.

Lemma ex_init_ok sat cl : exists h o, ex_init sat cl = (h, Ok o).
Proof.
  destruct (C44_exact ex_h 0%nat 1%nat 2%nat 3%nat ex_frq ex_ang None None false sat cl [1; 2; 4] eq_refl ltac:(discriminate)) as [H _].
  destruct (H (NoDup_no_repeat _ ex_nodup)) as (o & H1 & _). unfold ex_init. eexists _, o. rewrite <- H1. apply surjective_pairing.
Qed.

Lemma ex_init_facts sat cl h o : ex_init sat cl = (h, Ok o) ->
  wf h o /\ (o_es o < length h)%nat /\ o_cloudy o = cl /\ o_frq o = ex_frq /\ o_angles o = ex_ang /\ o_ray o = false /\ o_sat o = sat /\
  o_ice o = false /\ o_o3n o = None /\ o_nl o = 3%nat /\ o_unc o = false /\ o_tk o = 2%nat /\ o_z o = 0%nat /\
  never_run o /\ hget h 0%nat = map Fin [0; 1; 3] /\ hget h 2%nat = map Fin [290; 280; 260] /\ hget h 4%nat = map Fin [0; 0; 0] /\ hget h 5%nat = map Fin [0.1; 0.1; 0.1] /\
  hget h (o_es o) = repeat (lit (a:=XA) 1.0) 2.
Proof.
  intros H. unfold ex_init in H.
  destruct (init_z ex_h h 0%nat 1%nat 2%nat 3%nat ex_frq ex_ang None None false sat cl o [1; 2; 4] eq_refl ltac:(discriminate) ex_nodup H) as (_ & _ & _ & Hz).
  apply tb_init_wf in H; try reflexivity; [|discriminate].
  destruct H as (W & H2 & H3 & H4 & H5 & H6 & H7 & H8 & H9 & H10 & _ & _ & H13 & _ & _ & H16 & H17 & H18 & H19 & _ & H21).
  repeat (split; [first [assumption | idtac]|]); auto.
  - intros cs c Hcs Hc. rewrite H10. apply (H18 cs c Hcs Hc).
  - rewrite Hz. cbn [map nth]. repeat f_equal; lra.
  - apply (H19 2%nat); simpl; lia.
  - apply (H19 4%nat); simpl; lia.
  - apply (H19 5%nat); simpl; lia.
Qed.

Lemma Rtrunc_zero x : 0 <= x < 1 -> Rtrunc x = 0%Z.
Proof.
  intros H. unfold Rtrunc. destruct (Rle_dec 0 x); [|lra]. unfold Int_part. 
  assert (E : (1 = up x)%Z) by (apply tech_up; lra). lia.
Qed.

Lemma ex_freq_ok f : In f ex_frq -> freq_ok (A:=XA) f.
Proof.
  intros H. assert (E : exists r, f = Fin r /\ 0 <= r <= 60) by (destruct H as [<-|[<-|[]]]; eexists; split; try reflexivity; lra).
  destruct E as (r & -> & Hr). exists 0%Z. split; [|lia]. unfold deltaf. xa. cbn [xmul xdiv]. 
  repeat match goal with |- context [Req_EM_T ?a ?b] => destruct (Req_EM_T a b); [lra|] end. cbn [xdiv].
  f_equal. apply Rtrunc_zero. split.
  - apply Rmult_le_pos; [lra|]. apply Rlt_le, Rinv_0_lt_compat. lra.
  - apply (Rmult_lt_reg_r (299792458 / 1000000)); [lra|]. unfold Rdiv at 1. rewrite Rmult_assoc, Rinv_l by lra. lra.
Qed.

(** C48: a runnable and a non-runnable name. *)
Lemma ex_clear_runs sat m : In m runnable -> exists h o x, ex_init sat false = (h, Ok o) /\ execute ex_db (init_absmdl ex_g m) h o = Ok x.
Proof.
  intros Hm. destruct (ex_init_ok sat false) as (h & o & H). exists h, o. assert (F := ex_init_facts _ _ _ _ H).
  destruct F as (W & _ & Hc & Hf & _ & Hr & _ & Hi & Ho3 & _ & Hu & _).
  destruct (C48_clear_sky ex_db ex_g h o m ex_db_registered W Hc Hr Hi Hu (or_introl Ho3)) as [E _].
  - rewrite Hf. apply ex_freq_ok.
  - destruct (E Hm) as [x Hx]. eauto.
Qed.

Example C48_example : exists h o x, ex_init true false = (h, Ok o) /\
  execute ex_db (init_absmdl ex_g "R19SD") h o = Ok x /\ execute ex_db (init_absmdl ex_g "R22SD") h o = Err AbsModelError.
Proof.
  destruct (ex_init_ok true false) as (h & o & H). assert (F := ex_init_facts _ _ _ _ H).
  destruct F as (W & _ & Hc & Hf & _ & Hr & _ & Hi & Ho3 & _ & Hu & _).
  assert (G : forall f, In f (o_frq o) -> freq_ok (A:=XA) f) by (rewrite Hf; apply ex_freq_ok).
  destruct (proj1 (C48_clear_sky ex_db ex_g h o "R19SD" ex_db_registered W Hc Hr Hi Hu (or_introl Ho3) G)) as [x Hx]; [simpl; auto 12|].
  exists h, o, x. split; [exact H|]. split; [exact Hx|].
  apply (C48_clear_sky ex_db ex_g h o "R22SD" ex_db_registered W Hc Hr Hi Hu (or_introl Ho3) G). simpl. intuition discriminate.
Qed.

(** The same solver with clouds between the first and the last level. *)
Lemma ex_cloudy_facts sat h o di dl : ex_init sat true = (h, Ok o) -> (di = 4%nat \/ di = 5%nat) -> (dl = 4%nat \/ dl = 5%nat) ->
  let oc := init_cloudy h o [(Fin 1, Fin 4)] di dl in
  wf h oc /\ cloud_ready oc /\ o_cloudy oc = true /\ o_dens oc = Some (di, dl) /\ never_run oc /\ o_frq oc = ex_frq /\ o_angles oc = ex_ang /\
  o_ray oc = false /\ o_ice oc = false /\ o_unc oc = false /\ o_o3n oc = None /\ o_z oc = 0%nat /\ o_nl oc = 3%nat /\ o_sat oc = sat /\ o_tk oc = 2%nat.
Proof.
  intros H Hdi Hdl. assert (F := ex_init_facts _ _ _ _ H).
  destruct F as (W & _ & Hc & Hf & Ha & Hr & Hs & Hi & Ho3 & Hnl & Hu & Htk & Hz & Hnew & _ & _ & H4 & H5 & _).
  assert (L : forall a, a = 4%nat \/ a = 5%nat -> length (hget h a) = o_nl o) by (intros a [->| ->]; rewrite ?H4, ?H5, Hnl; reflexivity).
  destruct (init_cloudy_wf h o [(Fin 1, Fin 4)] di dl W ltac:(discriminate) (L _ Hdi) (L _ Hdl)) as [W' R'].
  cbv zeta. split; [exact W'|]. split; [exact R'|]. unfold init_cloudy. rewrite Hc. cbn. repeat (split; [assumption || reflexivity|]). assumption.
Qed.

Lemma ex_cloudy_runs sat h o di dl m : ex_init sat true = (h, Ok o) -> (di = 4%nat \/ di = 5%nat) -> (dl = 4%nat \/ dl = 5%nat) ->
  In m runnable -> ~ In m no_liquid -> exists x, execute ex_db (init_absmdl ex_g m) h (init_cloudy h o [(Fin 1, Fin 4)] di dl) = Ok x.
Proof.
  intros H Hdi Hdl Hm Hn. destruct (ex_cloudy_facts sat h o di dl H Hdi Hdl) as (W & R & Hc & _ & _ & Hf & _ & Hr & Hi & Hu & Ho3 & _).
  apply C48_cloudy; auto using ex_db_registered. rewrite Hf. apply ex_freq_ok.
Qed.

Example C48_cloudy_example : exists h o x, ex_init true true = (h, Ok o) /\
  execute ex_db (init_absmdl ex_g "R98") h (init_cloudy h o [(Fin 1, Fin 4)] 4%nat 5%nat) = Ok x /\
  execute ex_db (init_absmdl ex_g "R18") h (init_cloudy h o [(Fin 1, Fin 4)] 4%nat 5%nat) = Err ValueError.
Proof.
  destruct (ex_init_ok true true) as (h & o & H).
  destruct (ex_cloudy_runs true h o 4%nat 5%nat "R98" H) as [x Hx]; auto; [simpl; auto 12|simpl; intuition discriminate|].
  exists h, o, x. split; [exact H|]. split; [exact Hx|].
  destruct (ex_cloudy_facts true h o 4%nat 5%nat H) as (W & R & Hc & Hd & _ & Hf & Ha & Hr & Hi & Hu & Ho3 & _ & Hnl & _); auto.
  assert (F := ex_init_facts _ _ _ _ H). destruct F as (_ & _ & _ & _ & _ & _ & _ & _ & _ & _ & _ & _ & _ & _ & _ & _ & _ & H5 & _).
  apply (C48_cloudy_without_formula ex_db ex_g h _ "R18" 4%nat 5%nat 0%nat (lit (a:=XA) 0)); auto using ex_db_registered.
  - rewrite Hf. apply ex_freq_ok.
  - simpl; auto.
  - rewrite Hnl. lia.
  - rewrite H5. cbn [map nth]. rewrite lit0_X. apply Rltb_true. lra.
  - rewrite H5. cbn [map nth]. rewrite lit0_X. change (orb (Rltb 0.1 0) (Reqb 0.1 0) = false). rewrite Rltb_false, Reqb_false by lra. reflexivity.
  - rewrite Hf. discriminate.
  - rewrite Ha. discriminate.
Qed.

Example C49_example : exists h o x, ex_init true false = (h, Ok o) /\
  execute ex_db (init_absmdl ex_g "R98") h o = Ok x /\
  execute ex_db (init_absmdl (init_absmdl ex_g "R98") "R23SD") h o = Err AbsModelError.
Proof.
  destruct (ex_init_ok true false) as (h & o & H). assert (F := ex_init_facts _ _ _ _ H).
  destruct F as (W & _ & Hc & Hf & _ & Hr & _ & Hi & Ho3 & _ & Hu & _).
  destruct (C49_other_solver_refuted ex_db ex_g h o "R98" "R23SD" ex_db_registered W Hc Hr Hi Hu Ho3) as [[x Hx] Hy].
  - rewrite Hf. apply ex_freq_ok.
  - simpl; auto.
  - simpl. intuition discriminate.
  - eauto 7.
Qed.

(** C12: a satellite run reports 0 K in every row. *)
Example C12_example : exists h o fr full o' g', ex_init true false = (h, Ok o) /\
  execute ex_db (init_absmdl ex_g "R98") h o = Ok (fr, full, o', g') /\ length fr = 6%nat /\ forall x, In x fr -> r_tbatm x = Fin 0.
Proof.
  destruct (ex_clear_runs true "R98") as (h & o & [[[fr full] o'] g'] & H & Hx); [simpl; auto|].
  assert (F := ex_init_facts _ _ _ _ H). destruct F as (W & _ & Hc & Hf & Ha & Hr & Hs & _).
  exists h, o, fr, full, o', g'. split; [exact H|]. split; [exact Hx|]. split.
  - destruct (C52_rows_independent ex_db (init_absmdl ex_g "R98") h o fr full o' g' x0 cell0
        (mkRow n0 n0 n0 n0 n0 n0 n0 n0 n0) W Hx) as [L _]. rewrite Hf, Ha in L. exact L.
  - exact (C12_satellite_refuted ex_db _ h o fr full o' g' W Hs Hx).
Qed.

(** C27: the rows of elevation 30 are twice, those of 150 equal to those of 30. *)
Example C27_example : exists h o fr full o' g', ex_init false false = (h, Ok o) /\
  execute ex_db (init_absmdl ex_g "R98") h o = Ok (fr, full, o', g') /\
  forall dr, r_tauwet (nth 2 fr dr) = xmul (r_tauwet (nth 0 fr dr)) (Fin 2) /\ r_tbtotal (nth 2 fr dr) = r_tbtotal (nth 4 fr dr).
Proof.
  destruct (ex_clear_runs false "R98") as (h & o & [[[fr full] o'] g'] & H & Hx); [simpl; auto|].
  assert (F := ex_init_facts _ _ _ _ H). destruct F as (W & _ & Hc & Hf & Ha & Hr & _ & _ & _ & _ & _ & _ & Hz & Hnew & Hzs & _).
  exists h, o, fr, full, o', g'. split; [exact H|]. split; [exact Hx|]. intros dr.
  rewrite <- Hz in Hzs. 
  assert (S30 : 1 / sin (30 * PI / 180) = 2). { replace (30 * PI / 180) with (PI / 6) by field. rewrite sin_PI6. field. }
  split.
  - destruct (C27_cosecant ex_db _ h o fr full o' g' [0; 1; 3] W Hx Hr Hzs 1%nat 0%nat 0%nat 30 dr) as [E _]; rewrite ?Ha, ?Hf; cbn; try lia; try lra; auto.
    rewrite S30 in E. rewrite Hf in E. exact E.
  - assert (E := C27_supplement ex_db _ h o fr full o' g' [0; 1; 3] W Hx Hr Hzs 1%nat 2%nat 0%nat 30 dr).
    rewrite Ha, Hf in E. cbn [length ex_frq ex_ang] in E. specialize (E ltac:(lia) ltac:(lia) ltac:(lia) eq_refl ltac:(lra)).
    cbv zeta in E. cbn [Nat.mul Nat.add] in E. rewrite E; [reflexivity| |].
    + cbn. f_equal. lra.
    + right. assert (LC := wf_cells _ _ W). rewrite Ha in LC. cbn [length ex_ang] in LC.
      assert (C : forall k, (k < 3)%nat -> nth 0 (nth k (o_cells o) []) cell0 = zero_cell (A:=XA) (o_nl o)).
      { intros k Hk. assert (I1 : In (nth k (o_cells o) []) (o_cells o)) by (apply nth_In; lia). apply (Hnew (nth k (o_cells o) [])); auto.
        apply nth_In. rewrite (wf_rows _ _ W _ I1), Hf. simpl. lia. }
      rewrite !C by lia. reflexivity.
Qed.

(** C23: a cloud with zero densities. *)
Example C23_example : exists h o fr full o' g' fr0 full0 o0' g0', ex_init true true = (h, Ok o) /\
  let oc := init_cloudy h o [(Fin 1, Fin 4)] 4%nat 4%nat in
  execute ex_db (init_absmdl ex_g "R98") h oc = Ok (fr, full, o', g') /\
  execute ex_db (init_absmdl ex_g "R98") h (with_cloudy oc false) = Ok (fr0, full0, o0', g0') /\
  forall dr, r_tbtotal (nth 3 fr dr) = r_tbtotal (nth 3 fr0 dr) /\ r_tauliq (nth 3 fr dr) = Fin 0.
Proof.
  destruct (ex_init_ok true true) as (h & o & H).
  destruct (ex_cloudy_runs true h o 4%nat 4%nat "R98" H) as [[[[fr full] o'] g'] Hx]; auto; [simpl; auto 12|simpl; intuition discriminate|].
  destruct (ex_cloudy_facts true h o 4%nat 4%nat H) as (W & R & Hc & Hd & Hnew & Hf & Ha & Hr & Hi & Hu & Ho3 & Hz & Hnl & _); auto.
  exists h, o. remember (init_cloudy h o [(Fin 1, Fin 4)] 4%nat 4%nat) as oc eqn:Eoc. clear Eoc.
  assert (W0 : wf h (with_cloudy oc false)) by (destruct W; constructor; auto).
  destruct (C48_clear_sky ex_db ex_g h (with_cloudy oc false) "R98" ex_db_registered W0 eq_refl Hr Hi Hu (or_introl Ho3)) as [E _].
  { change (o_frq (with_cloudy oc false)) with (o_frq oc). rewrite Hf. apply ex_freq_ok. }
  destruct (E ltac:(simpl; auto)) as [[[[fr0 full0] o0'] g0'] H0]. clear E.
  assert (F := ex_init_facts _ _ _ _ H). destruct F as (_ & _ & _ & _ & _ & _ & _ & _ & _ & _ & _ & _ & _ & _ & Hzs & _ & H4 & H5 & _).
  exists fr, full, o', g', fr0, full0, o0', g0'. split; [exact H|]. cbv zeta. split; [exact Hx|]. split; [exact H0|]. intros dr.
  assert (Hzero : forall v, In v (hget h 4%nat) -> exists d, v = Fin d /\ d <= 0).
  { rewrite H4. intros v Hv. simpl in Hv. exists 0. split; [intuition|lra]. }
  rewrite <- Hz in Hzs.
  assert (Hfin : finite_paths h oc).
  { apply (flat_finite h oc [0; 1; 3]); auto. rewrite Ha. intros a Hin. simpl in Hin.
    destruct Hin as [<-|[<-|[<-|[]]]]; eexists; (split; [reflexivity|lra]). }
  destruct (C23_no_water ex_db _ h oc 4%nat 4%nat fr full o' g' fr0 full0 o0' g0' W Hnew Hc Hd Hzero Hzero Hfin Hx H0 1%nat 1%nat dr)
    as (E1 & _ & _ & _ & _ & E2 & _); [rewrite Ha; simpl; lia|rewrite Hf; simpl; lia|].
  rewrite Hf in E1, E2. auto.
Qed.

(** C51: a homogeneous ice cloud has a positive opacity, so clearing the switch leaves it in the table. *)
Lemma ice_level f d : 0 < d -> 0 < f -> exists a, 0 < a /\ forall t, cloudy_level (A:=XA) (Some "R98"%string) (Fin f) t (Fin 0) (Fin d) = Ok (Fin 0, Fin a).
Proof.
  intros Hd Hf. unfold cloudy_level. rewrite lit0_X.
  change (ltb (a:=XA) (Fin 0) (Fin 0)) with (Rltb 0 0). change (ltb (a:=XA) (Fin 0) (Fin d)) with (Rltb 0 d).
  rewrite Rltb_false by lra. rewrite Rltb_true by lra. cbn [bind].
  assert (Ek : mul (a:=XA) k_light (lit (a:=XA) 100) = Fin (2997924580 / 10 * 100)) by (unfold k_light; xa; cbn [xmul litR]; f_equal; lra).
  assert (Ef : mul (a:=XA) (Fin f) (lit (a:=XA) 1e9) = Fin (f * 1000000000)) by (xa; cbn [xmul litR]; f_equal; lra).
  rewrite Ek, Ef. clear Ek Ef.
  assert (Ew : div (a:=XA) (Fin (2997924580 / 10 * 100)) (Fin (f * 1000000000)) = Fin (2997924580 / 10 * 100 / (f * 1000000000))).
  { xa. cbn [xdiv]. destruct (Req_EM_T (f * 1000000000) 0); [nra|reflexivity]. }
  rewrite Ew. clear Ew. set (w := 2997924580 / 10 * 100 / (f * 1000000000)).
  assert (Hw : 0 < w) by (apply Rdiv_lt_0_compat; lra).
  assert (Eb : exists b, 0 < b /\ db2np (A:=XA) = Fin b).
  { exists (ln 10 * 0.1). split; [assert (0 < ln 10) by (rewrite <- ln_1; apply ln_increasing; lra); lra|].
    unfold db2np. xa. cbn [litR xln]. destruct (Rlt_dec 0 (100 / 10)); [|lra]. cbn [xmul]. replace (100 / 10) with 10 by lra. reflexivity. }
  destruct Eb as (b & Hb & ->).
  exists (818645 / 100000 / w * d * (959553 / 1000000000) * b). split.
  - repeat apply Rmult_lt_0_compat; try lra. apply Rinv_0_lt_compat. lra.
  - intros _. do 2 f_equal. xa. cbn [litR xdiv]. destruct (Req_EM_T w 0); [lra|]. reflexivity.
Qed.

Lemma rsum_pos n f : n <> 0%nat -> (forall i, (i < n)%nat -> 0 < f i) -> 0 < rsum n f.
Proof.
  destruct n as [|n]; [lia|]. intros _ H. cbn [rsum]. assert (0 <= rsum n f) by (apply rsum_nonneg; intros; apply Rlt_le, H; lia).
  assert (0 < f n) by (apply H; lia). lra.
Qed.

Lemma uniform_opacity (a : R) D n : 0 < a -> (2 <= n)%nat -> length D = n -> (forall i, (1 <= i < n)%nat -> 0 < nth i D 0) ->
  exists s out, 0 < s /\ exponential_integration (A:=XA) false (map Fin (repeat a n)) (map Fin D) 1 (Z.of_nat n) (lit (a:=XA) 1) = Ok (Fin s, map Fin out).
Proof.
  intros Ha Hn L HD.
  assert (X : forall i, (i < n)%nat -> nth i (repeat a n) 0 = a).
  { intros i Hi. rewrite (nth_indep _ 0 a) by (rewrite repeat_length; auto). apply nth_repeat. }
  assert (P : forall i, (1 <= i < n)%nat -> prevx (repeat a n) i = a).
  { intros i Hi. unfold prevx. destruct (Nat.eqb_spec i 0); [lia|]. apply X. lia. }
  assert (V : forall i, (1 <= i < n)%nat -> layV false (repeat a n) D i = a * nth i D 0).
  { intros i Hi. unfold layV. rewrite P, X by lia. unfold layR. replace (a - a) with 0 by lra. rewrite Rabs_R0. destruct (Rlt_dec 0 1e-9); lra. }
  destruct (exp_complete false (repeat a n) D 1 (1 / 1)) as (out & Lo & Ho & E).
  - rewrite repeat_length. lia.
  - lia.
  - intros i Hi. unfold layer_ok. rewrite P, X by lia. lra.
  - rewrite L in E. rewrite lit1_X. change 1%Z with (Z.of_nat 1). eexists _, out. split; [|exact E].
    apply Rmult_lt_0_compat; [lra|]. apply rsum_pos; [lia|]. intros i Hi. rewrite V by lia. apply Rmult_lt_0_compat; auto. apply HD. lia.
Qed.

Example C51_example : exists h o fr full o' g' fr2 full2 o2 g2 fr3 full3 o3 g3, ex_init true true = (h, Ok o) /\
  let oc := init_cloudy h o [(Fin 1, Fin 4)] 5%nat 4%nat in let g := init_absmdl ex_g "R98" in
  execute ex_db g h oc = Ok (fr, full, o', g') /\
  execute ex_db g h (with_cloudy o' false) = Ok (fr2, full2, o2, g2) /\
  execute ex_db g h (with_cloudy oc false) = Ok (fr3, full3, o3, g3) /\ fr2 <> fr3.
Proof.
  destruct (ex_init_ok true true) as (h & o & H).
  destruct (ex_cloudy_runs true h o 5%nat 4%nat "R98" H) as [[[[fr full] o'] g'] Hx]; auto; [simpl; auto 12|simpl; intuition discriminate|].
  destruct (ex_cloudy_facts true h o 5%nat 4%nat H) as (W & R & Hc & Hd & Hnew & Hf & Ha & Hr & Hi & Hu & Ho3 & Hz & Hnl & _ & Htk); auto.
  exists h, o. remember (init_cloudy h o [(Fin 1, Fin 4)] 5%nat 4%nat) as oc eqn:Eoc. clear Eoc.
  assert (W0 : wf h (with_cloudy oc false)) by (destruct W; constructor; auto).
  destruct (C48_clear_sky ex_db ex_g h (with_cloudy oc false) "R98" ex_db_registered W0 eq_refl Hr Hi Hu (or_introl Ho3)) as [E _].
  { change (o_frq (with_cloudy oc false)) with (o_frq oc). rewrite Hf. apply ex_freq_ok. }
  destruct (E ltac:(simpl; auto)) as [[[[fr0 full0] o0'] g0'] H0]. clear E.
  assert (F := ex_init_facts _ _ _ _ H). destruct F as (_ & _ & _ & _ & _ & _ & _ & _ & _ & _ & _ & _ & _ & _ & Hzs & Htv & H4 & H5 & _).
  assert (Hcl : clean oc). { intros cs c C1 C2. rewrite (Hnew cs c C1 C2). auto. }
  destruct (C52_rows_independent ex_db _ h oc fr full o' g' x0 cell0 (mkRow n0 n0 n0 n0 n0 n0 n0 n0 n0) W Hx) as [Lfr _].
  rewrite Ha, Hf in Lfr. cbn [length ex_ang ex_frq] in Lfr.
  pose (dr := mkRow n0 n0 n0 n0 n0 n0 n0 n0 n0).
  assert (Hin : In (nth 0 fr dr) fr) by (apply nth_In; lia).
  assert (Hice : r_tauice (nth 0 fr dr) <> lit (a:=XA) 0).
  { destruct (execute_cell XA ex_db _ h oc fr full o' g' W Hx) as (g1 & e & rho & dryn & wetn & refindx & Eg & Ev & Er & _ & _ & _ & HC).
    destruct (HC 0%nat 0%nat x0 cell0 dr angle0) as (ds & es & x & c & Eds & Lds & Ees & Hin1 & Hin2 & Hcell & Hrow & _);
      [rewrite Ha; simpl; lia|rewrite Hf; simpl; lia|]. clear HC. rewrite Hf in Hrow. cbn [Nat.mul Nat.add] in Hrow.
    rewrite <- Hz in Hzs. rewrite Ha in Eds. cbn [nth ex_ang] in Eds. 
    rewrite (path_ds_flat h oc refindx 90 [0; 1; 3] Hr Hzs) in Eds by (rewrite sin_deg_90; lra). rewrite flat_90 in Eds. injection Eds as <-.
    apply run_cell_inv in Hcell. destruct Hcell as (aw & ad & w & d & cc & pl & al & _ & _ & _ & _ & Hcl2 & _ & _ & _ & _ & _ & _ & _ & _ & R4 & _).
    destruct (Hcl2 Hc) as (dens & la & l & ic & D1 & D2 & _ & D4 & _ & _ & D7 & _).
    cbn [inputs_of i_dens] in D1. rewrite Hd in D1. injection D1 as <-. cbn [fst snd] in D2.
    assert (EL : g_liq (with_sat g1 (o_sat oc)) = Some "R98"%string).
    { unfold init_linelist, set_ll_h2o, set_ll_o2 in Eg. cbn in Eg. injection Eg as <-. reflexivity. }
    rewrite EL in D2. change (i_tk (inputs_of h oc)) with (hget h (o_tk oc)) in D2. rewrite Htk, Htv, H4, H5 in D2.
    rewrite Hf in D2. cbn [nth ex_frq] in D2.
    destruct (ice_level 50 0.1 ltac:(lra) ltac:(lra)) as (a & Pa & Ia').
    unfold cloudy_absorption in D2. cbn [map combine mapM] in D2. rewrite !Ia' in D2. cbn [bind] in D2. injection D2 as <-. cbn [map fst snd] in D4.
    change (i_nl (inputs_of h oc)) with (o_nl oc) in D4. rewrite Hnl in D4.
    destruct (uniform_opacity a (0 :: diffs (A:=RA) [0; 1; 3]) 3 Pa) as (s & out & Ps & Es); [lia|reflexivity| |].
    { intros i Hi2. destruct i as [|[|[|i]]]; try lia; cbn; ra; lra. }
    assert (E2 : Ok ic = Ok (Fin s, map Fin out)) by (rewrite <- D4, <- Es; reflexivity). injection E2 as ->.
    rewrite <- Hrow, R4, D7. cbn [fst]. rewrite lit0_X. intros E3. injection E3 as E3. lra. }
  destruct (C51_clear_after_cloudy_refuted ex_db _ h oc fr full o' g' (nth 0 fr dr) W Hcl Hc Hx Hin (or_intror Hice)) as (fr2 & full2 & o2 & g2 & E2 & Hne).
  exists fr, full, o', g', fr2, full2, o2, g2, fr0, full0, o0', g0'. split; [exact H|]. cbv zeta. split; [exact Hx|]. split; [exact E2|].
  split; [exact H0|]. exact (Hne _ _ _ _ H0).
Qed.

(** C50: selecting another model, running another solver and running the solver itself in between. *)
Example C50_example : exists h o fr full o' g', ex_init true false = (h, Ok o) /\
  execute ex_db (init_absmdl ex_g "R98") h o = Ok (fr, full, o', g') /\
  returned (select_and_run ex_db (init_absmdl g' "R17") h o' "R98" None) = returned (select_and_run ex_db ex_g h o "R98" None).
Proof.
  destruct (ex_clear_runs true "R98") as (h & o & [[[fr full] o'] g'] & H & Hx); [simpl; auto|].
  assert (F := ex_init_facts _ _ _ _ H). destruct F as (W & Hes & Hc & Hf & Ha & Hr & Hs & _ & Ho3 & _).
  exists h, o, fr, full, o', g'. split; [exact H|]. split; [exact Hx|].
  assert (S : Relation_Operators.clos_refl_trans _ (step ex_db 0) (ex_g, h, [o]) (init_absmdl g' "R17", h, [o'])).
  { eapply Relation_Operators.rt_trans; [apply (op_select ex_db 0 ex_g h [o] "R98")|].
    eapply Relation_Operators.rt_trans; [|apply (op_select ex_db 0 g' h [o'] "R17")].
    apply Relation_Operators.rt_step. exact (st_run ex_db 0 _ h [o] o fr full o' g' eq_refl Hx). }
  destruct (C50_reproducible ex_db 0 ex_g h [o] o _ h [o'] "R98" None eq_refl W Hes (or_introl Ho3) S) as (o1 & E1 & E2).
  cbn in E1. injection E1 as <-. exact E2.
Qed.

(** C52: row 3 (elevation 30, 60 GHz) is the whole result of a run with only that elevation and frequency. *)
Example C52_example : exists h o fr full o' g', ex_init true false = (h, Ok o) /\
  execute ex_db (init_absmdl ex_g "R98") h o = Ok (fr, full, o', g') /\
  forall dr, exists full1 o1 g1, execute ex_db (init_absmdl ex_g "R98") (fst (single x0 cell0 h o 1 1)) (snd (single x0 cell0 h o 1 1))
    = Ok ([nth 3 fr dr], full1, o1, g1) /\ o_frq (snd (single x0 cell0 h o 1 1)) = [Fin 60] /\ o_angles (snd (single x0 cell0 h o 1 1)) = [Fin 30].
Proof.
  destruct (ex_clear_runs true "R98") as (h & o & [[[fr full] o'] g'] & H & Hx); [simpl; auto|].
  assert (F := ex_init_facts _ _ _ _ H). destruct F as (W & Hes & Hc & Hf & Ha & Hr & Hs & _ & Ho3 & _).
  exists h, o, fr, full, o', g'. split; [exact H|]. split; [exact Hx|]. intros dr.
  destruct (C52_rows_independent ex_db _ h o fr full o' g' x0 cell0 dr W Hx) as [_ HR].
  destruct (HR 1%nat 1%nat) as (_ & full1 & o1 & g1 & E); [rewrite Ha; simpl; lia|rewrite Hf; simpl; lia|].
  exists full1, o1, g1. rewrite Hf in E. split; [exact E|]. unfold single. cbn. rewrite Hf, Ha. split; reflexivity.
Qed.
