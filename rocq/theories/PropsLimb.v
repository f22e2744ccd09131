(** Claim C144: what lowering the line of sight does to the table of results (limb brightening from the ground, limb darkening from
    space) in plane-parallel layers whose temperature does not rise with height.

    Code: pyrtlib/tb_spectrum.py:310-397 (the loops over angles and frequencies), pyrtlib/rt_equation.py:369-463 (planck),
    :246-290 (exponential_integration). *)

From Coq Require Import ZArith Reals Lra Lia String List Bool.
Import ListNotations.
From Verif Require Import Arith PyBase Utils RTE Absorption Clear Spectrum Spec ListAux RealAux PlanckReal PlanckMaster PropsPlanck Integral
  SolverGen SolverRun Registry PropsRun PropsObject PropsModels PropsSolverX PropsRay PropsLiq LineData Lineshape PropsAbsN2 PropsClear PropsO2H2O PropsH2O PropsO2Data PropsO3
  PropsUtils PropsSelfCont FinTransfer FinGas FinSD PropsUtils3 FinClear PropsRow WeightingGen SolverExamples FinCloud PropsEnd PropsMono PropsMonoRun PropsMixed.
Local Open Scope string_scope.
Open Scope R_scope.

(** ** Specification *)

(** The direction of elevation [b] (degrees) is at least as far from the zenith as that of elevation [a]. *)
Definition no_higher (b a : R) : Prop := Rabs (a - 90) <= Rabs (b - 90).

(** Two rows of a table: the opacities of the four constituents do not decrease from [hi] to [lo]; below the cut-off of the
    transfer solution (a total opacity of 125) the brightness temperature seen from the ground does not decrease and that seen
    from space does not increase. *)
Definition limb (sat : bool) (hi lo : row XA) : Prop :=
  exists w d l c w' d' l' c',
    r_tauwet hi = Fin w /\ r_taudry hi = Fin d /\ r_tauliq hi = Fin l /\ r_tauice hi = Fin c /\
    r_tauwet lo = Fin w' /\ r_taudry lo = Fin d' /\ r_tauliq lo = Fin l' /\ r_tauice lo = Fin c' /\
    0 <= w <= w' /\ 0 <= d <= d' /\ 0 <= l <= l' /\ 0 <= c <= c' /\
    (w' + d' + l' + c' < 125 -> exists T T', r_tbtotal hi = Fin T /\ r_tbtotal lo = Fin T' /\ if sat then 0 < T' <= T else 0 < T <= T').

(** ** Proofs *)

Lemma sin_deg_abs a : sin (a * PI / 180) = cos (Rabs (a - 90) * PI / 180).
Proof.
  assert (S : sin (a * PI / 180) = cos ((a - 90) * PI / 180)).
  { rewrite <- cos_shift. rewrite <- cos_neg. f_equal. lra. }
  rewrite S. unfold Rabs. destruct (Rcase_abs (a - 90)) as [N|N]; [|reflexivity].
  rewrite <- cos_neg. f_equal. lra.
Qed.

Lemma no_higher_sin a b : 0 < a < 180 -> 0 < b < 180 -> no_higher b a -> sin (b * PI / 180) <= sin (a * PI / 180).
Proof.
  intros Ha Hb H. unfold no_higher in H. rewrite !sin_deg_abs. assert (P := PI_RGT_0).
  assert (0 <= Rabs (a - 90)) by apply Rabs_pos. assert (Rabs (b - 90) < 90) by (apply Rabs_def1; lra).
  apply cos_decr_1; nra.
Qed.

Lemma slant_le zs a b i : rising zs -> (i < length zs)%nat -> 0 < sin (b * PI / 180) <= sin (a * PI / 180) -> nth i (slant_path zs a) 0 <= nth i (slant_path zs b) 0.
Proof.
  intros Hz Hi Hs. unfold slant_path. rewrite !nth_map_seq_d by assumption. destruct i as [|i]; [cbn; lra|]. cbn [slant].
  assert (Z := Hz i ltac:(lia)). unfold Rdiv. apply Rmult_le_compat_l; [lra|]. apply Rinv_le_contravar; lra.
Qed.

Lemma layer_int_path gas (x d d' : list R) i : (forall v, In v x -> 0 <= v) -> nth i d 0 <= nth i d' 0 -> layer_int gas x d i <= layer_int gas x d' i.
Proof.
  intros Hx Hd. destruct i as [|i]; [cbn; lra|]. cbn [layer_int]. apply Rmult_le_compat_l; [|exact Hd].
  assert (Q := layer_int_nonneg gas x (repeat 1 (S (S i))) (S i) Hx ltac:(intros v Hv; apply repeat_spec in Hv; lra)).
  cbn [layer_int] in Q. rewrite nth_repeat_lt in Q by lia. lra.
Qed.

Lemma column_path gas (x d d' : list R) : (forall v, In v x -> 0 <= v) -> (forall i, (i < length x)%nat -> nth i d 0 <= nth i d' 0) -> column gas x d <= column gas x d'.
Proof. intros Hx Hd. unfold column. apply rsum_le. intros i Hi. apply layer_int_path; [exact Hx|apply Hd; lia]. Qed.

Lemma rows_limb sat f es a b zs ts aw ad al ai x y :
  spec_row sat f es a ts (slant_path zs a) aw ad al ai x -> spec_row sat f es b ts (slant_path zs b) aw ad al ai y ->
  0 < f -> (sat = true -> es = 1) -> 0 < a < 180 -> 0 < b < 180 -> no_higher b a -> rising zs -> zs <> [] -> length ts = length zs ->
  length aw = length ts -> length ad = length ts -> length al = length ts -> length ai = length ts ->
  (forall v, In v aw \/ In v ad -> 0 <= v) -> (forall v, In v al \/ In v ai -> 0 <= v) ->
  (forall t, In t ts -> 2.728 <= t) -> cooling_upwards ts ->
  limb sat (f_row x) (f_row y).
Proof.
  intros E13 F13 Hf0 Hes Ha Hb Hab Hz0 Hzne Lz E9 E10 E6 E7 E11 E8 Htc Hco.
  assert (SN := slant_nonneg zs a Hz0 Ha).
  assert (Sab := no_higher_sin a b Ha Hb Hab). assert (Sb := sin_deg_pos b Hb).
  assert (PL : forall i, (i < length ts)%nat -> nth i (slant_path zs a) 0 <= nth i (slant_path zs b) 0).
  { intros i Hi0. apply slant_le; [exact Hz0|lia|split; assumption]. }
  assert (Hne : ts <> []) by (intros ->; destruct zs; [congruence|discriminate]).
  assert (Nw : forall v, In v aw -> 0 <= v) by auto. assert (Nd : forall v, In v ad -> 0 <= v) by auto.
  assert (Nl : forall v, In v al -> 0 <= v) by auto. assert (Ni : forall v, In v ai -> 0 <= v) by auto.
  assert (Hop : forall v, In v (opacities aw ad ai al (slant_path zs a)) -> 0 <= v).
  { intros v Hv. unfold opacities in Hv. apply in_map_iff in Hv. destruct Hv as (i & <- & _).
    assert (P1 := layer_int_nonneg true aw (slant_path zs a) i Nw SN). assert (P2 := layer_int_nonneg true ad (slant_path zs a) i Nd SN).
    assert (P3 := layer_int_nonneg false ai (slant_path zs a) i Ni SN). assert (P4 := layer_int_nonneg false al (slant_path zs a) i Nl SN). lra. }
  assert (Hmo : more_opaque (opacities aw ad ai al (slant_path zs b)) (opacities aw ad ai al (slant_path zs a))).
  { unfold more_opaque, opacities. rewrite !map_length, !seq_length. split; [reflexivity|]. intros i Hi0. rewrite !nth_map_seq_d by assumption. rewrite E9 in Hi0. specialize (PL i Hi0).
    assert (P1 := layer_int_path true aw _ _ i Nw PL). assert (P2 := layer_int_path true ad _ _ i Nd PL).
    assert (P3 := layer_int_path false ai _ _ i Ni PL). assert (P4 := layer_int_path false al _ _ i Nl PL). lra. }
  assert (HC : forall gas q, (forall v, In v q -> 0 <= v) -> length q = length ts -> 0 <= column gas q (slant_path zs a) <= column gas q (slant_path zs b)).
  { intros gas q Hx Lx. split; [|apply column_path; [exact Hx|rewrite Lx; exact PL]]. unfold column. apply rsum_nonneg. intros i _. apply layer_int_nonneg; assumption. }
  assert (HCw := HC true aw Nw E9). assert (HCd := HC true ad Nd E10). assert (HCl := HC false al Nl E6). assert (HCi := HC false ai Ni E7).
  assert (Sx := E13). assert (Sy := F13). unfold spec_row in Sx, Sy. cbv zeta in Sx, Sy.
  destruct Sx as (_ & X1 & X2 & X3 & X4 & _). destruct Sy as (_ & Y1 & Y2 & Y3 & Y4 & Y5 & _).
  unfold limb. exists (column true aw (slant_path zs a)), (column true ad (slant_path zs a)), (column false al (slant_path zs a)), (column false ai (slant_path zs a)).
  exists (column true aw (slant_path zs b)), (column true ad (slant_path zs b)), (column false al (slant_path zs b)), (column false ai (slant_path zs b)).
  do 8 (split; [assumption|]). do 4 (split; [assumption|]). intros Hcut.
  assert (Cut : total_tau (opacities aw ad ai al (slant_path zs b)) < 125) by (rewrite Y5; lra).
  destruct sat.
  - rewrite (Hes eq_refl) in E13, F13. eapply rows_satellite; [exact E13|exact F13|exact Hf0| |exact Hco|exact Hne|exact E9|exact Hop|exact Hmo|exact Cut].
    intros t Hin. specialize (Htc t Hin). lra.
  - eapply rows_ground; [exact E13|exact F13|exact Hf0|exact Htc|exact Hco|exact Hne|exact E9|exact Hop|exact Hmo|exact Cut].
Qed.

(** Two rows of one run at the same frequency, the second no higher above the horizon than the first. *)
Theorem C144_limb (g : globals XA) (h : heap XA) o mw mo mn ml mz zs ps ts rhs o3 dl di : chosen g mw mo mn ml -> covers mw mo mn ps ts -> wf h o -> cloud_input h o ml ts dl di ->
  o_ray o = false -> o_ice o = false -> o_unc o = false -> ozone_input g h o mz o3 ->
  hget h (o_z o) = map Fin zs -> hget h (o_p o) = map Fin ps -> hget h (o_tk o) = map Fin ts -> hget h (o_rh o) = map Fin rhs -> sounding zs ps ts rhs ->
  (forall x, In x (o_frq o) -> exists f, x = Fin f /\ covered mw f) ->
  (forall x, In x (o_angles o) -> exists a, x = Fin a /\ 0 < a < 180) ->
  (forall x, In x (hget h (o_es o)) -> exists es, x = Fin es /\ (o_sat o = true -> es = 1)) ->
  (* temperatures above that of the cosmic background that do not rise with height *)
  (forall t, In t ts -> 2.728 <= t) -> cooling_upwards ts ->
  exists fr full o' g', execute (@shipped XA) g h o = Ok (fr, full, o', g') /\ length fr = (length (o_angles o) * length (o_frq o))%nat /\
  forall k k' j dr a b, (k < length (o_angles o))%nat -> (k' < length (o_angles o))%nat -> (j < length (o_frq o))%nat ->
  nth k (o_angles o) x0 = Fin a -> nth k' (o_angles o) x0 = Fin b -> no_higher b a ->
  limb (o_sat o) (nth (k * length (o_frq o) + j) fr dr) (nth (k' * length (o_frq o) + j) fr dr).
Proof.
  intros Hc0 Hm W Hcl Hr Hi Hu Hoz Hz Hp Ht Hrh SO Hfr Han Hes Htc Hco.
  destruct (C130_run g h o mw mo mn ml mz zs ps ts rhs o3 dl di Hc0 Hm W Hcl Hr Hi Hu Hoz Hz Hp Ht Hrh SO Hfr Han) as (fr & full & o' & g' & R1 & R2 & R3).
  { intros x Hx. destruct (Hes x Hx) as (es & E1 & E2). exists es. split; [exact E1|]. intros Q. rewrite (E2 Q). lra. }
  exists fr, full, o', g'. split; [exact R1|]. split; [exact R2|]. intros k k' j dr a b Hk Hk' Hj Ea Eb Hab.
  destruct (R3 k j dr Hk Hj) as (f & a1 & es & aw & ad & al & ai & E1 & E2 & E3 & E4 & E5 & (E6 & E7 & E8) & (E9 & E10 & E11) & E12 & _ & _ & E13).
  destruct (R3 k' j dr Hk' Hj) as (f' & a' & es' & aw' & ad' & al' & ai' & F1 & F2 & F3 & F4 & F5 & _ & _ & F12 & _ & _ & F13).
  cbv zeta in E12, E13, F12, F13.
  rewrite E1 in F1. assert (f' = f) by congruence. subst f'. assert (a1 = a) by congruence. assert (a' = b) by congruence. subst a1 a'.
  rewrite E3 in F3. assert (es' = es) by congruence. subst es'.
  unfold mixed_absorption in E4, F4. rewrite E4 in F4. apply ok_inj in F4. assert (aw' = aw) by exact (eq_sym (f_equal fst F4)). assert (ad' = ad) by exact (eq_sym (f_equal snd F4)). subst aw' ad'.
  unfold ideal_clouds in E5, F5. rewrite E5 in F5. apply ok_inj in F5. assert (al' = al) by exact (eq_sym (f_equal fst F5)). assert (ai' = ai) by exact (eq_sym (f_equal snd F5)). subst al' ai'.
  clear F1 F2 F3 F4 F5.
  destruct (Han (nth k (o_angles o) x0) (nth_In _ _ Hk)) as (a1 & Q1 & Ha). rewrite Ea in Q1. assert (a1 = a) by congruence. subst a1.
  destruct (Han (nth k' (o_angles o) x0) (nth_In _ _ Hk')) as (b1 & Q2 & Hb). rewrite Eb in Q2. assert (b1 = b) by congruence. subst b1.
  destruct (Hfr (nth j (o_frq o) x0) (nth_In _ _ Hj)) as (f1 & Q3 & Hf). rewrite E1 in Q3. assert (f1 = f) by congruence. subst f1.
  assert (es0 : o_sat o = true -> es = 1).
  { assert (J : (j < length (hget h (o_es o)))%nat) by (assert (X := wf_es _ _ W); lia).
    destruct (Hes _ (nth_In _ x0 J)) as (e & G1 & G2). rewrite E3 in G1. assert (e = es) by congruence. subst e. auto. }
  rewrite E12, F12. eapply (rows_limb (o_sat o) f es a b zs ts aw ad al ai); try eassumption; [apply Hf|apply (so_rising _ _ _ _ SO)|apply (so_ne _ _ _ _ SO)|apply (so_t _ _ _ _ SO)].
Qed.

(** The same for the programs a user writes. *)
Theorem C144_from_constructor (g : globals XA) (h : heap XA) z p t rh a3 mw mo mn ml mz zs ps ts rhs o3 (fs angs : list R) sat : chosen g mw mo mn ml -> covers mw mo mn ps ts ->
  hget h z = map Fin zs -> hget h p = map Fin ps -> hget h t = map Fin ts -> hget h rh = map Fin rhs ->
  z <> p -> z <> t -> z <> rh -> sounding zs ps ts rhs -> ozone_argument g h z (length zs) mz a3 o3 ->
  (forall f, In f fs -> covered mw f) -> (forall a, In a angs -> 0 < a < 180) -> (forall t, In t ts -> 2.728 <= t) -> cooling_upwards ts ->
  exists h' o fr full o' g',
    tb_init (A:=XA) h z p t rh (map Fin fs) (map Fin angs) a3 None "" false sat false = (h', Ok o) /\
    execute (@shipped XA) g h' o = Ok (fr, full, o', g') /\ length fr = (length angs * length fs)%nat /\
    forall k k' j dr, (k < length angs)%nat -> (k' < length angs)%nat -> (j < length fs)%nat -> no_higher (nth k' angs 0) (nth k angs 0) ->
    limb sat (nth (k * length fs + j) fr dr) (nth (k' * length fs + j) fr dr).
Proof.
  intros Hc0 Hm Hz Hp Ht Hrh N1 N2 N3 SO Hoz Hf Ha Htc Hco.
  set (hi := fold_right Rmax 3 ts).
  assert (Hhi : forall t, In t ts -> 2.728 <= t <= hi).
  { intros u Hu. split; [apply Htc, Hu|]. unfold hi. clear - Hu. induction ts as [|v l IH]; [destruct Hu|]. cbn [fold_right]. destruct Hu as [->|Hu]; [apply Rmax_l|].
    eapply Rle_trans; [apply IH, Hu|apply Rmax_r]. }
  destruct (C130_from_constructor g h z p t rh a3 mw mo mn ml mz zs ps ts rhs o3 fs angs sat 2.728 hi Hc0 Hm Hz Hp Ht Hrh N1 N2 N3 SO Hoz Hf Ha (Rle_refl _) Hhi)
    as (h' & o & fr & full & o' & g' & R1 & R2 & R3 & R4).
  exists h', o, fr, full, o', g'. split; [exact R1|]. split; [exact R2|]. split; [exact R3|]. intros k k' j dr Hk Hk' Hj Hn.
  destruct (R4 k j dr Hk Hj) as (aw & ad & x & T & E1 & (E2 & E3 & E4) & E5 & _ & _ & E6 & _).
  destruct (R4 k' j dr Hk' Hj) as (aw' & ad' & x' & T' & F1 & _ & F5 & _ & _ & F6 & _).
  unfold mixed_absorption in E1, F1. rewrite E1 in F1. apply ok_inj in F1. assert (aw' = aw) by exact (eq_sym (f_equal fst F1)). assert (ad' = ad) by exact (eq_sym (f_equal snd F1)). subst aw' ad'.
  rewrite E5, F5. assert (Lt := so_t _ _ _ _ SO).
  eapply (rows_limb sat (nth j fs 0) 1 (nth k angs 0) (nth k' angs 0) zs ts aw ad); try eassumption; try exact (so_rising _ _ _ _ SO); try exact (so_ne _ _ _ _ SO); try reflexivity; rewrite ?repeat_length; try congruence.
  - apply (Hf (nth j fs 0)), nth_In, Hj.
  - apply Ha, nth_In, Hk.
  - apply Ha, nth_In, Hk'.
  - intros v [Hv|Hv]; apply repeat_spec in Hv; lra.
Qed.

(** A two-level atmosphere, thin enough for its opacity to stay below the cut-off; elevations of 90 and 30 degrees. *)
Definition ex_thin (e : R) : heap XA := [map Fin [0; e]; map Fin [900; 899]; map Fin [290; 289]; map Fin [0.5; 0.5]].
Definition ex_glob : globals XA := mkGlobals (A:=XA) (Some "R19") (Some "R19") (Some "R19") (Some "R19") None None None None false (Fin 1).

Lemma ex_thin_sounding e : 0 < e -> sounding [0; e] [900; 899] [290; 289] [0.5; 0.5].
Proof.
  intros He. constructor; try reflexivity; try discriminate.
  - intros [|i] Hi; cbn in *; try lra; lia.
  - intros t [<-|[<-|[]]]; lra.
  - intros t [<-|[<-|[]]]; lra.
  - assert (G1 := goff_small 290 ltac:(lra)). assert (G2 := goff_small 289 ltac:(lra)).
    intros [|[|i]] Hi; cbn [nth]; try lra. cbn in Hi. lia.
Qed.

Example C144_example sat : exists e h' o fr full o' g' T T', 0 < e /\
  tb_init (A:=XA) (ex_thin e) 0%nat 1%nat 2%nat 3%nat (map Fin [60]) (map Fin [90; 30]) None None "" false sat false = (h', Ok o) /\
  execute (@shipped XA) ex_glob h' o = Ok (fr, full, o', g') /\ length fr = 2%nat /\
  r_tbtotal (nth 0 fr (f_row full0)) = Fin T /\ r_tbtotal (nth 1 fr (f_row full0)) = Fin T' /\ if sat then 0 < T' <= T else 0 < T <= T'.
Proof.
  assert (Hcv : covers "R19" "R19" "R19" [900; 899] [290; 289]).
  { constructor; [left; cbn; tauto|split; [cbn; tauto|discriminate]|cbn; tauto]. }
  assert (Hcf : forall f, In f [60] -> covered "R19" f).
  { intros f [<-|[]]. split; [lra|]. intros [X|[X|[X|[]]]]; discriminate. }
  assert (Hca : forall a, In a [90; 30] -> 0 < a < 180) by (intros a [<-|[<-|[]]]; lra).
  assert (Run : forall e, 0 < e -> exists h' o fr full o' g',
    tb_init (A:=XA) (ex_thin e) 0%nat 1%nat 2%nat 3%nat (map Fin [60]) (map Fin [90; 30]) None None "" false sat false = (h', Ok o) /\
    execute (@shipped XA) ex_glob h' o = Ok (fr, full, o', g') /\ exists aw ad x, mixed_absorption "R19" "R19" "R19" "" [900; 899] [290; 289] [0.5; 0.5] None 60 aw ad /\
      (length aw = 2%nat /\ length ad = 2%nat) /\ nth 1 fr (f_row full0) = f_row x /\ spec_row sat 60 1 30 [290; 289] (slant_path [0; e] 30) aw ad [0; 0] [0; 0] x).
  { intros e He.
    destruct (C130_from_constructor ex_glob (ex_thin e) 0%nat 1%nat 2%nat 3%nat None "R19" "R19" "R19" "R19" "" [0; e] [900; 899] [290; 289] [0.5; 0.5] None [60] [90; 30] sat 289 290)
      as (h' & o & fr & full & o' & g' & H1 & H2 & H3 & H4); try reflexivity; try discriminate; try lra; auto.
    { repeat split. } { apply ex_thin_sounding, He. } { intros t [<-|[<-|[]]]; lra. }
    destruct (H4 1%nat 0%nat (f_row full0) ltac:(cbn; lia) ltac:(cbn; lia)) as (aw & ad & x & T & K1 & (K2 & K3 & _) & K4 & _ & _ & K5 & _).
    exists h', o, fr, full, o', g'. split; [exact H1|]. split; [exact H2|]. exists aw, ad, x. auto. }
  destruct (Run 1 ltac:(lra)) as (_ & _ & _ & _ & _ & _ & _ & _ & aw & ad & _ & Kab & _).
  set (m := layer_mean true (nth 0 aw 0) (nth 1 aw 0) + layer_mean true (nth 0 ad 0) (nth 1 ad 0)).
  set (e := sin (30 * PI / 180) / (1 + Rabs m)).
  assert (Sp := sin_deg_pos 30 ltac:(lra)). assert (Ab := Rabs_pos m).
  assert (He : 0 < e) by (apply Rdiv_lt_0_compat; lra).
  destruct (Run e He) as (h1 & o1 & fr1 & full1 & o1' & g1' & I1 & I2 & aw' & ad' & x & Kab' & (L1 & L2) & Ex & Sx).
  unfold mixed_absorption in Kab, Kab'. rewrite Kab in Kab'. apply ok_inj in Kab'. assert (aw' = aw) by exact (eq_sym (f_equal fst Kab')). assert (ad' = ad) by exact (eq_sym (f_equal snd Kab')). subst aw' ad'.
  destruct (C144_from_constructor ex_glob (ex_thin e) 0%nat 1%nat 2%nat 3%nat None "R19" "R19" "R19" "R19" "" [0; e] [900; 899] [290; 289] [0.5; 0.5] None [60] [90; 30] sat)
    as (h' & o & fr & full & o' & g' & H1 & H2 & H3 & H4); try reflexivity; try discriminate; try lra; auto.
  { repeat split. } { apply ex_thin_sounding, He. } { intros t [<-|[<-|[]]]; lra. }
  { intros [|i] Hi; cbn in *; [lra|lia]. }
  assert (Hn : no_higher (nth 1 [90; 30] 0) (nth 0 [90; 30] 0)).
  { unfold no_higher. cbn [nth]. replace (90 - 90) with 0 by lra. rewrite Rabs_R0. apply Rabs_pos. }
  specialize (H4 0%nat 1%nat 0%nat (f_row full0) ltac:(cbn; lia) ltac:(cbn; lia) ltac:(cbn; lia) Hn). cbn [length Nat.mul Nat.add] in H4.
  rewrite H1 in I1. assert (h1 = h') by congruence. assert (o1 = o) by congruence. subst h1 o1. rewrite H2 in I2. apply ok_inj in I2.
  assert (fr1 = fr) by congruence. subst fr1.
  unfold limb in H4. destruct H4 as (w & d & l & c & w' & d' & l' & c' & _ & _ & _ & _ & T1 & T2 & T3 & T4 & _ & _ & _ & _ & Q).
  rewrite Ex in T1, T2, T3, T4. unfold spec_row in Sx. cbv zeta in Sx. destruct Sx as (_ & S1 & S2 & S3 & S4 & _).
  rewrite S1 in T1. rewrite S2 in T2. rewrite S3 in T3. rewrite S4 in T4.
  assert (E1 : column true aw (slant_path [0; e] 30) = w') by congruence. assert (E2 : column true ad (slant_path [0; e] 30) = d') by congruence.
  assert (E3 : column false [0; 0] (slant_path [0; e] 30) = l') by congruence. assert (E4 : column false [0; 0] (slant_path [0; e] 30) = c') by congruence.
  assert (Z0 : layer_mean false 0 0 = 0).
  { unfold layer_mean. destruct (Rlt_dec _ _) as [_|N]; [reflexivity|]. destruct (Req_EM_T 0 0); [reflexivity|lra]. }
  unfold column in E1, E2, E3, E4. rewrite L1 in E1. rewrite L2 in E2. cbn [length Nat.sub rsum layer_int slant_path map seq nth slant] in E1, E2, E3, E4. rewrite Z0 in E3, E4.
  destruct Q as (T & T' & Q1 & Q2 & Q3).
  { rewrite <- E1, <- E2, <- E3, <- E4. set (s := sin (30 * PI / 180)) in *.
    assert (Es : (e - 0) / s = / (1 + Rabs m)) by (unfold e; field; lra).
    rewrite Es. assert (m * / (1 + Rabs m) < 2); [|unfold m in H; unfold m; lra].
    assert (m <= Rabs m) by apply Rle_abs. apply (Rmult_lt_reg_r (1 + Rabs m)); [lra|]. rewrite Rmult_assoc, Rinv_l by lra. lra. }
  exists e, h', o, fr, full, o', g', T, T'. auto 10.
Qed.
