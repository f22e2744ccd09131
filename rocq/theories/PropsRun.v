(** Claims C48-C52: runs of the solver - which succeed, what they depend on, what they leave behind.
    All theorems hold for every arithmetic, hence also bit for bit for binary64. *)

From Coq Require Import ZArith Lia String List Bool.
Import ListNotations.
From Verif Require Import Arith PyBase Utils RTE Absorption Clear Spectrum ListAux SolverGen SolverRun Registry.
Local Open Scope nat_scope.
Local Open Scope string_scope.

Section Run.
Context {A : Arith}.
Notation num := (car A).

(** ** C52: one row per (angle, frequency), each the row of that pair alone *)

(** The solver [o] restricted to angle number [k] and frequency number [j], with its own one-element emissivity array. *)
Definition single (d0 : num) (c0 : cell A) (h : heap A) (o : tbobj A) (k j : nat) : heap A * tbobj A :=
  (h ++ [[nth j (hget h (o_es o)) d0]],
   mkObj (o_z o) (o_p o) (o_tk o) (o_rh o) [nth j (o_frq o) d0] [nth k (o_angles o) d0] (o_o3n o) (o_amu o)
     (o_ray o) (o_sat o) (o_cloudy o) (o_unc o) (o_ice o) (o_nl o) (length h) (o_z0 o) (o_levels o) (o_dens o)
     [[nth j (nth k (o_cells o) []) c0]] [nth k (o_sliq o) d0] [nth k (o_sice o) d0])%list.

Lemma inputs_single d0 c0 h (o : tbobj A) k j : wf h o ->
  inputs_of (fst (single d0 c0 h o k j)) (snd (single d0 c0 h o k j)) = set_es (inputs_of h o) [nth j (hget h (o_es o)) d0].
Proof.
  intros W. set (v := [nth j (hget h (o_es o)) d0]).
  assert (HV : forall a, length (hget h a) = o_nl o -> hget (h ++ [v])%list a = hget h a).
  { intros a Ha. apply hget_app_old. apply hget_valid. intros E. rewrite E in Ha. apply (wf_nl _ _ W). auto. }
  unfold single, inputs_of, set_es. cbn [fst snd o_z o_p o_tk o_rh o_o3n o_es o_z0 o_nl o_ray o_cloudy o_ice o_unc o_amu o_levels o_dens
      i_z i_p i_tk i_rh i_o3n i_es i_z0 i_nl i_ray i_cloudy i_ice i_amu i_levels i_dens].
  fold v. rewrite !HV by (apply W). f_equal.
  - destruct (o_o3n o) as [a|] eqn:E; [|reflexivity]. cbn. rewrite HV by (apply (wf_o3n _ _ W); auto). reflexivity.
  - apply (hget_alloc_new h v).
  - destruct (o_dens o) as [[a b]|] eqn:E; [|reflexivity]. destruct (wf_dens _ _ W a b E). cbn. rewrite !HV by auto. reflexivity.
Qed.

Lemma olds_nth h (o : tbobj A) k d0 : wf h o -> k < length (o_angles o) ->
  nth k (olds_of o) ([], (d0, d0)) = (nth k (o_cells o) [], (nth k (o_sliq o) d0, nth k (o_sice o) d0)).
Proof.
  intros W Hk. unfold olds_of. rewrite combine_nth.
  - rewrite combine_nth; [reflexivity|]. rewrite (wf_sliq _ _ W), (wf_sice _ _ W). reflexivity.
  - rewrite combine_length, (wf_sliq _ _ W), (wf_sice _ _ W), (wf_cells _ _ W). lia.
Qed.

Theorem C52_rows_independent db (g : globals A) h o fr full o' g' d0 c0 dr : wf h o ->
  execute db g h o = Ok (fr, full, o', g') ->
  let nf := length (o_frq o) in
  length fr = length (o_angles o) * nf /\
  forall k j, k < length (o_angles o) -> j < nf ->
    r_angle (nth (k * nf + j) fr dr) = nth k (o_angles o) d0 /\
    exists full1 o1 g1,
      execute db g (fst (single d0 c0 h o k j)) (snd (single d0 c0 h o k j)) = Ok ([nth (k * nf + j) fr dr], full1, o1, g1).
Proof.
  intros W H nf. apply execute_inv in H. destruct H as (g1 & r & Hg1 & Hr & -> & -> & -> & ->).
  destruct (run_shape _ _ h o r W Hr) as [Lr Hrows].
  split; [apply (frame_length nf); auto|]. intros k j Hk Hj.
  assert (Hr0 := Hr). apply run_all_inv in Hr0. destruct Hr0 as (e & rho & dryn & wetn & refindx & Ev & Er & Hm).
  set (i := inputs_of h o) in *. set (g2 := with_sat g1 (o_sat o)) in *.
  assert (Lo := olds_length h o W).
  pose (dx := (mkAngle d0 d0 d0 d0 d0 [], ([], (d0, d0))) : angle_full A * (list (cell A) * (num * num))).
  assert (Hkr := mapM_nth _ _ r k (d0, ([], (d0, d0))) dx Hm).
  rewrite combine_nth in Hkr by auto. rewrite (olds_nth h o k d0 W Hk) in Hkr.
  assert (Lc : k < length (combine (o_angles o) (olds_of o))) by (rewrite combine_length; lia).
  specialize (Hkr Lc). cbn [fst snd] in Hkr.
  assert (Lcells : length (nth k (o_cells o) []) = nf).
  { apply (wf_rows _ _ W). apply nth_In. rewrite (wf_cells _ _ W). auto. }
  pose (drf := mkFull dr [] [] [] [] [] [] : row_full A).
  assert (Efr : nth (k * nf + j) (frame r) dr = f_row (nth j (an_rows (fst (nth k r dx))) drf)).
  { apply frame_nth; auto. lia. }
  assert (Hes : py_get (i_es i) (Z.of_nat j) = Ok (nth j (hget h (o_es o)) d0)).
  { apply py_get_ok. assert (E := wf_es _ _ W). unfold i. cbn. unfold nf in Hj. lia. }
  destruct (run_angle_single g2 i (o_frq o) e rho dryn wetn refindx (nth k (o_angles o) d0) (nth k (o_cells o) [])
              (nth k (o_sliq o) d0) (nth k (o_sice o) d0) _ j d0 c0 drf _ Hkr Lcells Hj Hes) as (af & cs & Haf & Hrow & _).
  split.
  - rewrite Efr. destruct (nth k r dx) as [af0 [cs0 cl0]] eqn:Ek.
    apply run_angle_inv in Hkr. destruct Hkr as (ds & xs & _ & Hxs & Erows & _). cbn [fst] in *.
    apply run_freqs_inv in Hxs; auto. destruct Hxs as [Lx Hx].
    destruct (Hx j d0 c0 (drf, c0) Hj) as (es & _ & Hcell).
    rewrite Erows. rewrite (nth_map_d _ _ _ (drf, c0)) by (rewrite Lx; auto).
    destruct (nth j xs (drf, c0)) as [f c]. unfold run_cell in Hcell.
    inv_bind Hcell a Ea. destruct a. inv_bind Hcell w Ew. inv_bind Hcell d Ed. inv_bind Hcell c1 Ec1.
    inv_bind Hcell pl Epl. inv_bind Hcell c2 Ec2. inv_bind Hcell al Eal. inversion Hcell. reflexivity.
  - unfold execute. rewrite Hg1. cbn [bind]. rewrite inputs_single by auto.
    cbn [snd single o_sat o_frq o_angles]. fold g2. fold i.
    assert (Eold : olds_of (snd (single d0 c0 h o k j)) = [([nth j (nth k (o_cells o) []) c0], (nth k (o_sliq o) d0, nth k (o_sice o) d0))]) by reflexivity.
    cbn [single snd] in Eold. rewrite Eold.
    rewrite (run_all_intro g2 (set_es i [nth j (hget h (o_es o)) d0]) _ _ _ e rho dryn wetn refindx Ev Er).
    cbn [combine mapM]. rewrite Haf. cbn [bind]. rewrite Efr.
    unfold frame. cbn [map concat fst app]. rewrite Hrow. cbn. eauto.
Qed.

(** ** C50: what a run depends on *)

(** Without clouds a run leaves the object as it was; with clouds its result does not depend on the arrays left by earlier runs. *)
Lemma run_cell_clear_keeps (g : globals A) i e ds angle frq es old f c : i_cloudy i = false ->
  run_cell g i e ds angle frq es old = Ok (f, c) -> c = old.
Proof.
  intros Hc H. unfold run_cell in H. rewrite Hc in H.
  inv_bind H a Ea. destruct a. inv_bind H w Ew. inv_bind H d Ed. cbn [bind] in H. inv_bind H pl Epl. inv_bind H al Eal.
  inversion H. reflexivity.
Qed.

Lemma run_cell_cloudy_indep (g : globals A) i e ds angle frq es old1 old2 : i_cloudy i = true ->
  run_cell g i e ds angle frq es old1 = run_cell g i e ds angle frq es old2.
Proof.
  intros Hc. unfold run_cell. rewrite Hc.
  destruct (clearsky_absorption g (i_amu i) (i_p i) (i_tk i) e frq (i_o3n i)) as [[aw ad]|]; [|reflexivity]. cbn [bind].
  destruct (exponential_integration true aw ds 1 _ _) as [w|]; [|reflexivity]. cbn [bind].
  destruct (exponential_integration true ad ds 1 _ _) as [d|]; [|reflexivity]. cbn [bind].
  destruct (need (i_dens i)) as [dens|]; [|reflexivity]. cbn [bind].
  destruct (cloudy_absorption _ _ _ _ _) as [la|]; [|reflexivity]. cbn [bind].
  destruct (exponential_integration false (fst la) ds 1 _ _) as [l|]; [|reflexivity]. cbn [bind].
  destruct (exponential_integration false (snd la) ds 1 _ _) as [ic|]; [|reflexivity]. cbn [bind].
  reflexivity.
Qed.

Lemma run_freqs_clear_keeps (g : globals A) i e ds angle frqs : i_cloudy i = false -> forall cells j xs,
  length cells = length frqs -> run_freqs g i e ds angle frqs cells j = Ok xs -> map snd xs = cells.
Proof.
  intros Hc. induction frqs as [|f frqs IH]; intros [|c cells] j xs Hl H; try discriminate; [inversion H; reflexivity|].
  cbn [run_freqs] in H. inv_bind H es He. inv_bind H x Hx. inv_bind H xs' Hxs. inversion H; subst. cbn [map]. f_equal.
  - destruct x as [f0 c0]. apply run_cell_clear_keeps in Hx; auto.
  - eapply IH; eauto.
Qed.

Lemma run_freqs_cloudy_indep (g : globals A) i e ds angle frqs : i_cloudy i = true -> forall c1 c2 j,
  length c1 = length c2 -> run_freqs g i e ds angle frqs c1 j = run_freqs g i e ds angle frqs c2 j.
Proof.
  intros Hc. induction frqs as [|f frqs IH]; intros [|a c1] [|b c2] j Hl; try discriminate; try reflexivity.
  cbn [run_freqs]. destruct (py_get (i_es i) j) as [es|]; [|reflexivity]. cbn [bind].
  rewrite (run_cell_cloudy_indep g i e ds angle f es a b Hc).
  destruct (run_cell g i e ds angle f es b); [|reflexivity]. cbn [bind].
  rewrite (IH c1 c2) by (simpl in Hl; lia). reflexivity.
Qed.

Lemma run_angle_clear_keeps (g : globals A) i frqs e rho dryn wetn refindx a old r : i_cloudy i = false ->
  length (fst old) = length frqs -> run_angle g i frqs e rho dryn wetn refindx a old = Ok r -> snd r = old.
Proof.
  intros Hc Hl H. destruct old as [cells [sl si]]. unfold run_angle in H. rewrite Hc in H.
  inv_bind H ds Eds. inv_bind H sr Esr. inv_bind H sw Esw. inv_bind H sd Esd. cbn [bind] in H. inv_bind H xs Exs.
  inversion H; subst. cbn [snd]. f_equal. eapply run_freqs_clear_keeps; eauto.
Qed.

Lemma run_angle_cloudy_indep (g : globals A) i frqs e rho dryn wetn refindx a old1 old2 : i_cloudy i = true ->
  length (fst old1) = length (fst old2) ->
  run_angle g i frqs e rho dryn wetn refindx a old1 = run_angle g i frqs e rho dryn wetn refindx a old2.
Proof.
  intros Hc Hl. destruct old1 as [c1 [s1 t1]], old2 as [c2 [s2 t2]]. unfold run_angle. rewrite Hc.
  destruct (path_ds i refindx a) as [ds|]; [|reflexivity]. cbn [bind].
  destruct (exponential_integration true rho ds 0 _ _); [|reflexivity]. cbn [bind].
  destruct (exponential_integration true wetn ds 0 _ _); [|reflexivity]. cbn [bind].
  destruct (exponential_integration true dryn ds 0 _ _); [|reflexivity]. cbn [bind].
  destruct (need (i_dens i)) as [dens|]; [|reflexivity]. cbn [bind].
  destruct (need (i_levels i)) as [lv|]; [|reflexivity]. cbn [bind].
  destruct (cloud_integrated_density (snd dens) ds (fst lv) (snd lv)); [|reflexivity]. cbn [bind].
  destruct (cloud_integrated_density (fst dens) ds (fst lv) (snd lv)); [|reflexivity]. cbn [bind].
  cbn [fst] in Hl. rewrite (run_freqs_cloudy_indep g i e ds a frqs Hc c1 c2 0 Hl). reflexivity.
Qed.

Lemma run_all_cloudy_indep (g : globals A) i frqs angles olds1 olds2 : i_cloudy i = true ->
  length olds1 = length olds2 -> (forall x, In x olds1 -> length (fst x) = length frqs) ->
  (forall x, In x olds2 -> length (fst x) = length frqs) ->
  run_all g i frqs angles olds1 = run_all g i frqs angles olds2.
Proof.
  intros Hc Hl H1 H2. unfold run_all. destruct (vapor _ _ _) as [[e rho]|]; [|reflexivity]. cbn [bind].
  destruct (refractivity _ _ _) as [[dryn wetn] refindx].
  revert olds1 olds2 Hl H1 H2. induction angles as [|a angles IH]; intros [|o1 olds1] [|o2 olds2] Hl H1 H2; try discriminate; try reflexivity.
  cbn [combine mapM]. rewrite (run_angle_cloudy_indep g i frqs e rho dryn wetn refindx a o1 o2 Hc).
  - destruct (run_angle g i frqs e rho dryn wetn refindx a o2); [|reflexivity]. cbn [bind].
    rewrite (IH olds1 olds2); auto. intros; apply H1; right; auto. intros; apply H2; right; auto.
  - rewrite H1, H2 by (left; auto). reflexivity.
Qed.

Lemma obj_eta (o : tbobj A) : mkObj (o_z o) (o_p o) (o_tk o) (o_rh o) (o_frq o) (o_angles o) (o_o3n o)
    (o_amu o) (o_ray o) (o_sat o) (o_cloudy o) (o_unc o) (o_ice o) (o_nl o) (o_es o)
    (o_z0 o) (o_levels o) (o_dens o) (o_cells o) (o_sliq o) (o_sice o) = o.
Proof. destruct o; reflexivity. Qed.

Lemma run_clear_keeps (g : globals A) h o r : wf h o -> o_cloudy o = false ->
  run_all g (inputs_of h o) (o_frq o) (o_angles o) (olds_of o) = Ok r -> with_run o r = o.
Proof.
  intros W Hc H. assert (HL := olds_length h o W).
  assert (HI : forall x, In x (olds_of o) -> length (fst x) = length (o_frq o)).
  { intros [cs s] Hx. destruct (olds_in h o cs s W Hx). auto. }
  apply run_all_inv in H. destruct H as (e & rho & dryn & wetn & refindx & _ & _ & Hm).
  assert (E : map snd r = olds_of o).
  { revert Hm HL HI. generalize (o_angles o) as angles, (olds_of o) as olds. clear W. intros angles. revert r.
    induction angles as [|a angles IH]; intros r olds Hm HL HI.
    - destruct olds; [|discriminate]. inversion Hm. reflexivity.
    - destruct olds as [|old olds]; [discriminate|]. cbn [combine] in Hm. apply mapM_cons_inv in Hm.
      destruct Hm as (y & ys & -> & Hy & Hm). cbn [map]. f_equal.
      + eapply run_angle_clear_keeps; [| |exact Hy]; [exact Hc|]. apply HI. left; auto.
      + apply IH; auto. intros; apply HI; right; auto. }
  unfold with_run.
  assert (E1 : map (fun x : angle_full A * (list (cell A) * (num * num)) => fst (snd x)) r = o_cells o).
  { rewrite <- (map_map snd fst), E. unfold olds_of. clear - W.
    assert (L : length (o_cells o) = length (combine (o_sliq o) (o_sice o))).
    { rewrite combine_length, (wf_cells _ _ W), (wf_sliq _ _ W), (wf_sice _ _ W). lia. }
    revert L. generalize (combine (o_sliq o) (o_sice o)). induction (o_cells o) as [|c cs IH]; intros [|s ss] L; try discriminate; auto.
    cbn. f_equal. apply IH. simpl in L. lia. }
  assert (E2 : map (fun x : angle_full A * (list (cell A) * (num * num)) => snd (snd x)) r = combine (o_sliq o) (o_sice o)).
  { rewrite <- (map_map snd snd), E. unfold olds_of. clear - W.
    assert (L : length (o_cells o) = length (combine (o_sliq o) (o_sice o))).
    { rewrite combine_length, (wf_cells _ _ W), (wf_sliq _ _ W), (wf_sice _ _ W). lia. }
    revert L. generalize (combine (o_sliq o) (o_sice o)). induction (o_cells o) as [|c cs IH]; intros [|s ss] L; try discriminate; auto.
    cbn. f_equal. apply IH. simpl in L. lia. }
  rewrite E1.
  assert (L2 : length (o_sliq o) = length (o_sice o)) by (rewrite (wf_sliq _ _ W), (wf_sice _ _ W); auto).
  assert (E3 : map (fun x : angle_full A * (list (cell A) * (num * num)) => fst (snd (snd x))) r = o_sliq o).
  { rewrite <- (map_map (fun x => snd (snd x)) fst), E2. clear - L2.
    revert L2. generalize (o_sice o). induction (o_sliq o) as [|c cs IH]; intros [|s ss] L; try discriminate; auto.
    cbn. f_equal. apply IH. simpl in L. lia. }
  assert (E4 : map (fun x : angle_full A * (list (cell A) * (num * num)) => snd (snd (snd x))) r = o_sice o).
  { rewrite <- (map_map (fun x => snd (snd x)) snd), E2. clear - L2.
    revert L2. generalize (o_sice o). induction (o_sliq o) as [|c cs IH]; intros [|s ss] L; try discriminate; auto.
    cbn. f_equal. apply IH. simpl in L. lia. }
  rewrite E3, E4. apply obj_eta.
Qed.

End Run.
