(** When a run succeeds, and what it computes. *)

From Coq Require Import ZArith String List Bool Lia.
Import ListNotations.
From Verif Require Import Arith PyBase Utils RTE Absorption Clear Spectrum ListAux SolverGen Registry.
Local Open Scope nat_scope.

Ltac inv_bind H x E := apply bind_Ok in H; destruct H as (x & E & H).

Section Run.
Context {A : Arith}.
Notation num := (car A).

Lemma clearsky_lengths (g : globals A) amu p t e frq o3n aw ad :
  clearsky_absorption g amu p t e frq o3n = Ok (aw, ad) ->
  length p = length t -> length t = length e -> (forall l, o3n = Some l -> length l = length t) ->
  length aw = length t /\ length ad = length t.
Proof.
  intros H H1 H2 H3. unfold clearsky_absorption in H. inv_bind H r E. inversion H; subst. clear H.
  apply mapM_length in E. rewrite !combine_length in E.
  assert (HL : length (with_o3 (length p) o3n) = length t).
  { unfold with_o3. destruct o3n as [l|]; [rewrite map_length; auto|rewrite repeat_length; auto]. }
  rewrite HL in E. rewrite !map_length. lia.
Qed.

Lemma cloudy_lengths mliq (t l i : list num) frq a b :
  cloudy_absorption mliq t l i frq = Ok (a, b) -> length l = length t -> length i = length t ->
  length a = length t /\ length b = length t.
Proof.
  intros H H1 H2. unfold cloudy_absorption in H. inv_bind H r E. inversion H; subst.
  apply mapM_length in E. rewrite !combine_length in E. rewrite !map_length. lia.
Qed.

(** Conditions on the inputs of one cell. *)
Record in_ok (i : inputs A) (e ds : list num) : Prop := mkInOk {
  ik_nl : i_nl i <> 0;
  ik_p : length (i_p i) = i_nl i;
  ik_tk : length (i_tk i) = i_nl i;
  ik_e : length e = i_nl i;
  ik_ds : length ds = i_nl i;
  ik_o3n : forall l, i_o3n i = Some l -> length l = i_nl i;
  ik_dens : forall a b, i_dens i = Some (a, b) -> length a = i_nl i /\ length b = i_nl i;
  ik_levels : forall b t, i_levels i = Some (b, t) -> b <> [] /\ length b = length t /\
                (forall x, In x b -> (0 <= x < Z.of_nat (i_nl i))%Z) /\ (forall x, In x t -> (0 <= x < Z.of_nat (i_nl i))%Z)
}.

Definition cell_ok (i : inputs A) (c : cell A) : Prop :=
  length (c_ptauliq c) = i_nl i /\ length (c_ptauice c) = i_nl i.

Lemma exp_int_ok1 zf (x ds : list num) n factor : n <> 0 -> length ds = n -> length x = n ->
  exists s out, exponential_integration zf x ds 1 (Z.of_nat n) factor = Ok (s, out) /\ length out = n.
Proof.
  intros Hn Hd Hx. destruct (exp_int_ok zf x ds 1 factor) as (s & out & E & Ho); try lia.
  rewrite Hd in *. exists s, out. split; auto.
Qed.

(** A cell succeeds exactly when its absorption coefficients can be computed. *)
Lemma run_cell_ok (g : globals A) i e ds angle frq es old : in_ok i e ds -> cell_ok i old ->
  (exists w d, clearsky_absorption g (i_amu i) (i_p i) (i_tk i) e frq (i_o3n i) = Ok (w, d)) ->
  (i_cloudy i = true -> exists dens lv la, i_dens i = Some dens /\ i_levels i = Some lv /\
     cloudy_absorption (g_liq g) (i_tk i) (snd dens) (fst dens) frq = Ok la) ->
  exists r, run_cell g i e ds angle frq es old = Ok r.
Proof.
  intros K Hc (w & d & Hclr) Hcl. unfold run_cell. rewrite Hclr. cbn [bind].
  destruct (clearsky_lengths _ _ _ _ _ _ _ _ _ Hclr) as [Lw Ld];
    try (rewrite ?(ik_p _ _ _ K), ?(ik_tk _ _ _ K), ?(ik_e _ _ _ K); auto; fail).
  { intros l Hl. rewrite (ik_o3n _ _ _ K l Hl), (ik_tk _ _ _ K). auto. }
  rewrite (ik_tk _ _ _ K) in Lw, Ld.
  destruct (exp_int_ok1 true w ds (i_nl i) (lit 1) (ik_nl _ _ _ K) (ik_ds _ _ _ K) Lw) as (sw & ow & Ew & Low).
  destruct (exp_int_ok1 true d ds (i_nl i) (lit 1) (ik_nl _ _ _ K) (ik_ds _ _ _ K) Ld) as (sd & od & Ed & Lod).
  rewrite Ew. cbn [bind]. rewrite Ed. cbn [bind].
  assert (HC : exists c1, (if i_cloudy i then
              do dens <- need (i_dens i);
              do la <- cloudy_absorption (g_liq g) (i_tk i) (snd dens) (fst dens) frq;
              do l <- exponential_integration false (fst la) ds 1 (Z.of_nat (i_nl i)) (lit 1);
              do ic <- exponential_integration false (snd la) ds 1 (Z.of_nat (i_nl i)) (lit 1);
              Ok (mkCell (fst l) (snd l) (fst ic) (snd ic) (c_tmrcld old))
            else Ok old) = Ok c1 /\ cell_ok i c1).
  { destruct (i_cloudy i); [|eauto]. destruct (Hcl eq_refl) as ([di dl] & lv & [la lb] & Hd & Hlv & Hla).
    rewrite Hd. cbn [need bind fst snd] in *. rewrite Hla. cbn [bind fst snd].
    destruct (ik_dens _ _ _ K _ _ Hd) as [Ldi Ldl].
    destruct (cloudy_lengths _ _ _ _ _ _ _ Hla) as [L1 L2]; rewrite ?(ik_tk _ _ _ K); auto.
    rewrite (ik_tk _ _ _ K) in L1, L2.
    destruct (exp_int_ok1 false la ds (i_nl i) (lit 1) (ik_nl _ _ _ K) (ik_ds _ _ _ K) L1) as (s1 & o1 & E1 & Lo1).
    destruct (exp_int_ok1 false lb ds (i_nl i) (lit 1) (ik_nl _ _ _ K) (ik_ds _ _ _ K) L2) as (s2 & o2 & E2 & Lo2).
    rewrite E1. cbn [bind]. rewrite E2. cbn [bind]. eexists. split; [reflexivity|]. split; cbn; auto. }
  destruct HC as (c1 & -> & Hc1 & Hc2). cbn [bind fst snd].
  destruct (planck_ok (g_from_sat g) es frq (i_tk i) (add4 ow od (c_ptauice c1) (c_ptauliq c1))) as (pl & Epl & La & Lt).
  { rewrite (ik_tk _ _ _ K). symmetry. apply add4_length; auto. }
  { intros E. apply (ik_nl _ _ _ K). rewrite <- (ik_tk _ _ _ K), E. reflexivity. }
  rewrite Epl. cbn [bind]. rewrite (ik_tk _ _ _ K) in La, Lt.
  assert (HC2 : exists c2, (if i_cloudy i then
              do lv <- need (i_levels i);
              do b0 <- py_get (fst lv) 0;
              do t0 <- py_get (snd lv) 0;
              do tm <- cloud_radiating_temperature b0 t0 (p_hvk pl) (p_tauprof pl) (p_boftatm pl);
              Ok (mkCell (c_sptauliq c1) (c_ptauliq c1) (c_sptauice c1) (c_ptauice c1)
                    match tm with Some v => v | None => nan_ end)
            else Ok c1) = Ok c2).
  { destruct (i_cloudy i); [|eauto]. destruct (Hcl eq_refl) as (dens & [b t] & la & Hd & Hlv & Hla).
    rewrite Hlv. cbn [need bind fst snd]. destruct (ik_levels _ _ _ K _ _ Hlv) as (Hb & Hbt & Rb & Rt).
    destruct b as [|b0 b]; [congruence|]. destruct t as [|t0 t]; [discriminate|].
    cbn [py_get]. change (py_get (b0 :: b) 0) with (@Ok Z b0). change (py_get (t0 :: t) 0) with (@Ok Z t0). cbn [bind].
    assert (R0 := Rb b0 (or_introl eq_refl)). assert (R1 := Rt t0 (or_introl eq_refl)).
    unfold cloud_radiating_temperature.
    destruct (py_get_inrange (p_tauprof pl) b0) as [x0 ->]; [rewrite Lt; lia|].
    destruct (py_get_inrange (p_boftatm pl) t0) as [x1 ->]; [rewrite La; lia|].
    destruct (py_get_inrange (p_boftatm pl) b0) as [x2 ->]; [rewrite La; lia|].
    destruct (py_get_inrange (p_tauprof pl) t0) as [x3 ->]; [rewrite Lt; lia|].
    cbn [bind]. destruct (ltb expmax x0); cbn [bind]; eauto. }
  destruct HC2 as (c2 & ->). cbn [bind].
  destruct (py_get_inrange (p_boftatm pl) (Z.of_nat (i_nl i) - 1)) as [x ->].
  { rewrite La. assert (Hn := ik_nl _ _ _ K). lia. }
  cbn [bind]. eauto.
Qed.

Lemma run_freqs_ok (g : globals A) i e ds angle frqs : forall cells j,
  length cells = length frqs -> (forall k f c, nth_error frqs k = Some f -> nth_error cells k = Some c ->
     exists es r, py_get (i_es i) (j + Z.of_nat k) = Ok es /\ run_cell g i e ds angle f es c = Ok r) ->
  exists r, run_freqs g i e ds angle frqs cells j = Ok r.
Proof.
  induction frqs as [|f frqs IH]; intros [|c cells] j Hl H; try discriminate; [simpl; eauto|].
  simpl. destruct (H 0 f c eq_refl eq_refl) as (es & r & He & Hr). rewrite Z.add_0_r in He.
  rewrite He. cbn [bind]. rewrite Hr. cbn [bind].
  destruct (IH cells (j + 1)%Z) as [rs Hrs]; [simpl in Hl; lia| |rewrite Hrs; cbn [bind]; eauto].
  intros k f' c' Hf Hc. destruct (H (S k) f' c' Hf Hc) as (es' & r' & H1 & H2).
  exists es', r'. split; auto. rewrite <- H1. f_equal. lia.
Qed.

(** Success of the parts, from success of the whole. *)
Lemma run_freqs_inv (g : globals A) i e ds angle frqs : forall cells j r,
  run_freqs g i e ds angle frqs cells j = Ok r -> length cells = length frqs ->
  length r = length frqs /\
  forall k df dc dr, k < length frqs -> exists es,
    py_get (i_es i) (j + Z.of_nat k) = Ok es /\ run_cell g i e ds angle (nth k frqs df) es (nth k cells dc) = Ok (nth k r dr).
Proof.
  induction frqs as [|f frqs IH]; intros [|c cells] j r H Hl; try discriminate.
  - inversion H. split; [reflexivity|]. simpl. intros; lia.
  - cbn [run_freqs] in H. inv_bind H es He. inv_bind H x Hx. inv_bind H xs Hxs. inversion H; subst. clear H.
    apply IH in Hxs; [|simpl in Hl; lia]. destruct Hxs as [L Hk]. split; [simpl; lia|].
    intros [|k] df dc dr Hk1.
    + exists es. rewrite Z.add_0_r. auto.
    + destruct (Hk k df dc dr) as (es' & H1 & H2); [simpl in Hk1; lia|]. exists es'. split; auto.
      rewrite <- H1. f_equal. lia.
Qed.

Lemma path_length (i : inputs A) refindx angle ds : path_ds i refindx angle = Ok ds ->
  length (i_z i) = i_nl i -> length refindx = i_nl i -> i_nl i <> 0 -> length ds = i_nl i.
Proof.
  intros H Hz Hr Hn. unfold path_ds in H. destruct (i_ray i).
  - inv_bind H r Er. destruct r as [d|]; [|discriminate]. inversion H; subst d. clear H.
    unfold ray_tracing in Er. destruct (existsb _ _); [discriminate|].
    destruct (combine (i_z i) refindx) as [|[zf nf] rest] eqn:E; [discriminate|].
    assert (L := combine_length (i_z i) refindx). rewrite E in L. simpl in L.
    destruct (orb _ _); inversion Er; subst; simpl.
    + rewrite diffs_length. lia.
    + rewrite ray_loop_length. lia.
  - inversion H. simpl. rewrite map_length, diffs_length. lia.
Qed.

(** The inputs with another emissivity array. *)
Definition set_es (i : inputs A) (l : list num) : inputs A :=
  mkIn (i_z i) (i_p i) (i_tk i) (i_rh i) (i_o3n i) l (i_z0 i) (i_nl i) (i_ray i) (i_cloudy i) (i_ice i)
    (i_amu i) (i_levels i) (i_dens i).

Lemma run_cell_set_es (g : globals A) i l : run_cell g (set_es i l) = run_cell g i.
Proof. reflexivity. Qed.
Lemma path_set_es (i : inputs A) l : path_ds (set_es i l) = path_ds i.
Proof. reflexivity. Qed.

Lemma run_angle_inv (g : globals A) i frqs e rho dryn wetn refindx angle old af cs cl :
  run_angle g i frqs e rho dryn wetn refindx angle old = Ok (af, (cs, cl)) ->
  exists ds xs, path_ds i refindx angle = Ok ds /\
    run_freqs g i e ds angle frqs (fst old) 0 = Ok xs /\
    an_rows af = map fst xs /\ cs = map snd xs.
Proof.
  destruct old as [cells [sl si]]. unfold run_angle. intros H.
  inv_bind H ds Eds. inv_bind H sr Esr. inv_bind H sw Esw. inv_bind H sd Esd. inv_bind H c Ec. inv_bind H xs Exs.
  inversion H; subst. exists ds, xs. auto.
Qed.

(** Running one frequency alone at an angle that succeeded. *)
Lemma run_angle_single (g : globals A) i frqs e rho dryn wetn refindx angle cells sl si res j df dc d es :
  run_angle g i frqs e rho dryn wetn refindx angle (cells, (sl, si)) = Ok res ->
  length cells = length frqs -> j < length frqs -> py_get (i_es i) (Z.of_nat j) = Ok es ->
  exists af cs, run_angle g (set_es i [es]) [nth j frqs df] e rho dryn wetn refindx angle ([nth j cells dc], (sl, si)) = Ok (af, cs) /\
    an_rows af = [nth j (an_rows (fst res)) d] /\
    (an_srho af, an_swet af, an_sdry af, an_sliq af, an_sice af) =
    (an_srho (fst res), an_swet (fst res), an_sdry (fst res), an_sliq (fst res), an_sice (fst res)).
Proof.
  intros H Hl Hj He. unfold run_angle in H |- *. rewrite path_set_es.
  inv_bind H ds Eds. inv_bind H sr Esr. inv_bind H sw Esw. inv_bind H sd Esd. inv_bind H c Ec. inv_bind H xs Exs.
  rewrite Eds. cbn [bind]. change (i_nl (set_es i [es])) with (i_nl i).
  change (i_cloudy (set_es i [es])) with (i_cloudy i). change (i_dens (set_es i [es])) with (i_dens i).
  change (i_levels (set_es i [es])) with (i_levels i).
  rewrite Esr. cbn [bind]. rewrite Esw. cbn [bind]. rewrite Esd. cbn [bind]. rewrite Ec. cbn [bind].
  apply run_freqs_inv in Exs; auto. destruct Exs as [Lx Hx].
  destruct (Hx j df dc (d, dc) Hj) as (es' & He' & Hr). rewrite Z.add_0_l in He'.
  assert (es' = es) by congruence. subst es'.
  cbn [run_freqs]. change (py_get (i_es (set_es i [es])) 0) with (@Ok num es). cbn [bind].
  rewrite run_cell_set_es, Hr. cbn [bind].
  eexists. eexists. split; [reflexivity|]. inversion H; subst. cbn [fst an_rows an_srho an_swet an_sdry an_sliq an_sice map].
  split; [|reflexivity]. f_equal. rewrite (nth_map_d _ _ _ (d, dc)) by lia. reflexivity.
Qed.

(** [execute], unfolded. *)
Lemma execute_inv db (g : globals A) h o fr full o' g' : execute db g h o = Ok (fr, full, o', g') ->
  exists g1 r, init_linelist db g = Ok g1 /\
    run_all (with_sat g1 (o_sat o)) (inputs_of h o) (o_frq o) (o_angles o) (olds_of o) = Ok r /\
    fr = frame r /\ full = map fst r /\ o' = with_run o r /\ g' = run_effect (with_sat g1 (o_sat o)) o (inputs_of h o).
Proof.
  unfold execute. intros H. inv_bind H g1 E1. inv_bind H r Er. inversion H; subst. exists g1, r. auto 10.
Qed.

Lemma run_all_inv (g : globals A) i frqs angles olds r : run_all g i frqs angles olds = Ok r ->
  exists e rho dryn wetn refindx, vapor (i_tk i) (i_rh i) (i_ice i) = Ok (e, rho) /\
    refractivity (i_p i) (i_tk i) e = (dryn, wetn, refindx) /\
    mapM (fun '(a, old) => run_angle g i frqs e rho dryn wetn refindx a old) (combine angles olds) = Ok r.
Proof.
  unfold run_all. intros H. inv_bind H v Ev. destruct v as [e rho].
  destruct (refractivity (i_p i) (i_tk i) e) as [[dryn wetn] refindx] eqn:Er. exists e, rho, dryn, wetn, refindx. auto.
Qed.

Lemma run_all_intro (g : globals A) i frqs angles olds e rho dryn wetn refindx :
  vapor (i_tk i) (i_rh i) (i_ice i) = Ok (e, rho) -> refractivity (i_p i) (i_tk i) e = (dryn, wetn, refindx) ->
  run_all g i frqs angles olds =
  mapM (fun '(a, old) => run_angle g i frqs e rho dryn wetn refindx a old) (combine angles olds).
Proof. intros H1 H2. unfold run_all. rewrite H1. cbn [bind]. rewrite H2. reflexivity. Qed.

Lemma olds_length h (o : tbobj A) : wf h o -> length (olds_of o) = length (o_angles o).
Proof.
  intros W. unfold olds_of. rewrite !combine_length, (wf_cells _ _ W), (wf_sliq _ _ W), (wf_sice _ _ W). lia.
Qed.

Lemma olds_in h (o : tbobj A) cs s : wf h o -> In (cs, s) (olds_of o) ->
  In cs (o_cells o) /\ length cs = length (o_frq o).
Proof.
  intros W H. apply in_combine_l in H. split; auto. apply (wf_rows _ _ W). auto.
Qed.

Lemma run_rows_length (g : globals A) i frqs e rho dryn wetn refindx a old r :
  run_angle g i frqs e rho dryn wetn refindx a old = Ok r -> length (fst old) = length frqs ->
  length (an_rows (fst r)) = length frqs /\ length (fst (snd r)) = length frqs.
Proof.
  destruct r as [af [cs cl]]. intros H Hl. apply run_angle_inv in H. destruct H as (ds & xs & _ & Hx & E1 & ->).
  apply run_freqs_inv in Hx; auto. destruct Hx as [Lx _]. cbn [fst snd]. rewrite E1, !map_length. auto.
Qed.

(** Shape of the result table. *)
Lemma run_shape (g : globals A) i h o r : wf h o ->
  run_all g i (o_frq o) (o_angles o) (olds_of o) = Ok r ->
  length r = length (o_angles o) /\
  (forall x, In x r -> length (an_rows (fst x)) = length (o_frq o) /\ length (fst (snd x)) = length (o_frq o)).
Proof.
  intros W H. apply run_all_inv in H. destruct H as (e & rho & dryn & wetn & refindx & _ & _ & H).
  assert (L := mapM_length _ _ _ H). rewrite combine_length, (olds_length h o W) in L.
  split; [lia|]. intros x Hx. apply mapM_Forall2 in H. 
  assert (HF : Forall (fun y => length (an_rows (fst y)) = length (o_frq o) /\ length (fst (snd y)) = length (o_frq o)) r).
  { apply Forall_forall. clear x Hx L. 
    assert (HI : forall x, In x (combine (o_angles o) (olds_of o)) -> length (fst (snd x)) = length (o_frq o)).
    { intros [a [cs s]] Hx. apply in_combine_r in Hx. destruct (olds_in h o cs s W Hx). auto. }
    revert HI. induction H as [|[a old] y l l' Hy H IH]; intros HI z [].
    - subst. apply (run_rows_length _ _ _ _ _ _ _ _ _ _ _ Hy). apply (HI (a, old)). left; auto.
    - apply IH; auto. intros; apply HI; right; auto. }
  rewrite Forall_forall in HF. auto.
Qed.

Lemma frame_length (n m : nat) (r : list (angle_full A * (list (cell A) * (num * num)))) :
  length r = m -> (forall x, In x r -> length (an_rows (fst x)) = n /\ length (fst (snd x)) = n) -> length (frame r) = m * n.
Proof.
  intros H1 H2. unfold frame. rewrite (length_concat _ n).
  - rewrite map_length. congruence.
  - intros l Hl. apply in_map_iff in Hl. destruct Hl as (x & <- & Hx). rewrite map_length. apply H2; auto.
Qed.

Lemma frame_nth (n : nat) (r : list (angle_full A * (list (cell A) * (num * num)))) k j d dr dx :
  (forall x, In x r -> length (an_rows (fst x)) = n /\ length (fst (snd x)) = n) -> k < length r -> j < n ->
  nth (k * n + j) (frame r) d = f_row (nth j (an_rows (fst (nth k r dx))) dr).
Proof.
  intros H Hk Hj. unfold frame. rewrite (nth_concat _ n).
  - rewrite (nth_map_d _ _ _ dx) by auto. assert (Hin := H _ (nth_In r dx Hk)).
    rewrite (nth_map_d _ _ _ dr) by (destruct Hin as [-> _]; auto). reflexivity.
  - intros l Hl. apply in_map_iff in Hl. destruct Hl as (x & <- & Hx). rewrite map_length. apply H; auto.
  - rewrite map_length. auto.
  - auto.
Qed.


(** ** Success of a whole run *)

Lemma cloud_loop_ok (den ds : list num) js : forall s,
  (forall j, In j js -> (1 <= j < Z.of_nat (length ds))%Z /\ (j < Z.of_nat (length den))%Z) ->
  exists r, cloud_loop den ds js s = Ok r.
Proof.
  induction js as [|j js IH]; intros s H; [simpl; eauto|]. simpl.
  destruct (H j (or_introl eq_refl)) as [H1 H2].
  destruct (py_get_inrange ds j) as [d ->]; [lia|]. destruct (py_get_inrange den j) as [x ->]; [lia|].
  destruct (py_get_inrange den (j - 1)) as [y ->]; [lia|]. cbn [bind]. apply IH. intros; apply H; right; auto.
Qed.

Lemma clouds_loop_ok (den ds : list num) lv : forall s, length den = length ds ->
  (forall b t, In (b, t) lv -> (0 <= b)%Z /\ (t <= Z.of_nat (length ds))%Z) ->
  exists r, clouds_loop den ds lv s = Ok r.
Proof.
  induction lv as [|[b t] lv IH]; intros s Hl H; [simpl; eauto|]. simpl.
  destruct (H b t (or_introl eq_refl)) as [H1 H2].
  destruct (cloud_loop_ok den ds (zrange (b + 1) t) s) as [r Hr].
  { intros j Hj. unfold zrange in Hj. apply in_map_iff in Hj. destruct Hj as (k & <- & Hk). apply in_seq in Hk. lia. }
  rewrite Hr. cbn [bind]. apply IH; auto. intros; apply H; right; auto.
Qed.

Lemma cloud_density_ok (den ds : list num) lb lt : length den = length ds -> 
  (forall x, In x lb -> (0 <= x)%Z) -> (forall x, In x lt -> (x <= Z.of_nat (length ds))%Z) ->
  exists r, cloud_integrated_density den ds lb lt = Ok r.
Proof.
  intros H1 H2 H3. unfold cloud_integrated_density.
  destruct (clouds_loop_ok den ds (combine lb lt) (lit 0.0) H1) as [r Hr].
  { intros b t Hbt. split; [apply H2; apply in_combine_l in Hbt; auto|apply H3; apply in_combine_r in Hbt; auto]. }
  rewrite Hr. cbn [bind]. eauto.
Qed.

Lemma path_plane (i : inputs A) refindx angle : i_ray i = false ->
  path_ds i refindx angle = Ok (lit 0 :: map (fun d => mul d (div (lit 1) (sinf (div (mul angle pif) (lit 180))))) (diffs (i_z i))).
Proof. intros H. unfold path_ds. rewrite H. reflexivity. Qed.

Lemma wf_in_ok h (o : tbobj A) e ds : wf h o -> length e = o_nl o -> length ds = o_nl o -> in_ok (inputs_of h o) e ds.
Proof.
  intros W He Hd. constructor; cbn [inputs_of i_nl i_p i_tk i_o3n i_dens i_levels]; auto; try apply W.
  - intros l Hl. destruct (o_o3n o) as [a|] eqn:E; [|discriminate]. inversion Hl. apply (wf_o3n _ _ W a); auto.
  - intros a b Hab. destruct (o_dens o) as [[x y]|] eqn:E; [|discriminate]. inversion Hab. apply (wf_dens _ _ W); auto.
Qed.

Lemma nth_error_In2 {T} (l : list T) k x : nth_error l k = Some x -> In x l /\ k < length l.
Proof. intros H. split; [eapply nth_error_In; eauto|]. apply nth_error_Some. congruence. Qed.

Lemma execute_ok db (g g1 : globals A) h o : wf h o -> cloud_ready o -> o_ice o = false ->
  init_linelist db g = Ok g1 ->
  (* every path length can be computed (always true without ray tracing) *)
  (forall a e rho dryn wetn refindx, In a (o_angles o) -> vapor (hget h (o_tk o)) (hget h (o_rh o)) false = Ok (e, rho) ->
     refractivity (hget h (o_p o)) (hget h (o_tk o)) e = (dryn, wetn, refindx) -> length refindx = o_nl o ->
     exists ds, path_ds (inputs_of h o) refindx a = Ok ds) ->
  (forall f e, In f (o_frq o) -> length e = o_nl o ->
     exists w d, clearsky_absorption (with_sat g1 (o_sat o)) (i_amu (inputs_of h o)) (hget h (o_p o)) (hget h (o_tk o)) e f
                   (i_o3n (inputs_of h o)) = Ok (w, d)) ->
  (forall f di dl, o_cloudy o = true -> In f (o_frq o) -> o_dens o = Some (di, dl) ->
     exists la, cloudy_absorption (g_liq g1) (hget h (o_tk o)) (hget h dl) (hget h di) f = Ok la) ->
  exists x, execute db g h o = Ok x.
Proof.
  intros W Hcr Hice Hll Hpath Hclear Hcloud. unfold execute. rewrite Hll. cbn [bind].
  set (g2 := with_sat g1 (o_sat o)). set (i := inputs_of h o).
  destruct (vapor (i_tk i) (i_rh i) (i_ice i)) as [[e rho]|x] eqn:Ev.
  2:{ unfold i in Ev. cbn [inputs_of i_ice] in Ev. rewrite Hice in Ev. discriminate. }
  destruct (vapor_length (i_tk i) (i_rh i) e rho) as [Le Lrho].
  { rewrite <- Ev. unfold i. cbn [inputs_of i_ice]. rewrite Hice. reflexivity. }
  { unfold i. cbn. rewrite (wf_tk _ _ W), (wf_rh _ _ W). reflexivity. }
  assert (LT : length (i_tk i) = o_nl o) by apply W.
  assert (LP : length (i_p i) = o_nl o) by apply W.
  assert (LZ : length (i_z i) = o_nl o) by apply W.
  rewrite LT in Le, Lrho.
  destruct (refractivity (i_p i) (i_tk i) e) as [[dryn wetn] refindx] eqn:Er.
  assert (HR := refr_length (i_p i) (i_tk i) e). rewrite Er in HR.
  destruct HR as (Ld & Lw & Ln); [lia|lia|]. rewrite LT in Ld, Lw, Ln.
  rewrite (run_all_intro g2 i _ _ _ _ _ _ _ _ Ev Er).
  destruct (proj2 (mapM_ok_iff (fun '(a, old) => run_angle g2 i (o_frq o) e rho dryn wetn refindx a old)
                     (combine (o_angles o) (olds_of o)))) as [r Hr].
  2:{ rewrite Hr. cbn [bind]. eauto. }
  intros [a [cells [sl si]]] Hin.
  assert (Ha := in_combine_l _ _ _ _ Hin). assert (Ho := in_combine_r _ _ _ _ Hin).
  destruct (olds_in h o cells (sl, si) W Ho) as [Hcells Lcells].
  assert (Ev' : vapor (hget h (o_tk o)) (hget h (o_rh o)) false = Ok (e, rho)).
  { rewrite <- Ev. unfold i. cbn [inputs_of i_tk i_rh i_ice]. rewrite Hice. reflexivity. }
  destruct (Hpath a e rho dryn wetn refindx Ha Ev' Er Ln) as [ds Eds]. fold i in Eds.
  assert (Lds : length ds = o_nl o).
  { apply (path_length i refindx a ds Eds); auto. apply W. }
  assert (K := wf_in_ok h o e ds W Le Lds). fold i in K.
  assert (HI : forall zf (x : list num) factor, length x = o_nl o -> exists s out,
    exponential_integration zf x ds 0 (Z.of_nat (i_nl i)) factor = Ok (s, out)).
  { intros zf x factor Hx. destruct (exp_int_ok zf x ds 0 factor) as (s & out & E & _); try lia.
    exists s, out. rewrite Lds in E. exact E. }
  unfold run_angle. rewrite Eds. cbn [bind].
  destruct (HI true rho (lit 0.1) Lrho) as (s1 & o1 & ->). cbn [bind].
  destruct (HI true wetn (lit 0.1) Lw) as (s2 & o2 & ->). cbn [bind].
  destruct (HI true dryn (lit 0.1) Ld) as (s3 & o3 & ->). cbn [bind].
  assert (HCl : exists cl, (if i_cloudy i then
              do dens <- need (i_dens i);
              do lv <- need (i_levels i);
              do a0 <- cloud_integrated_density (snd dens) ds (fst lv) (snd lv);
              do b <- cloud_integrated_density (fst dens) ds (fst lv) (snd lv);
              Ok (a0, b)
            else Ok (sl, si)) = Ok cl).
  { destruct (i_cloudy i) eqn:Ec; [|eauto]. destruct (Hcr Ec) as [(di & dl & Hd) (b & t & Hlv)].
    unfold i. cbn [inputs_of i_dens i_levels]. rewrite Hd, Hlv. cbn [option_map need bind fst snd].
    destruct (wf_dens _ _ W _ _ Hd) as [L1 L2]. destruct (wf_levels _ _ W _ _ Hlv) as (Hb & Lbt & Rb & Rt).
    destruct (cloud_density_ok (hget h dl) ds b t) as [r1 ->]; [lia| | |].
    { intros x Hx. apply Rb in Hx. lia. } { intros x Hx. apply Rt in Hx. lia. }
    cbn [bind]. destruct (cloud_density_ok (hget h di) ds b t) as [r2 ->]; [lia| | |].
    { intros x Hx. apply Rb in Hx. lia. } { intros x Hx. apply Rt in Hx. lia. }
    cbn [bind]. eauto. }
  destruct HCl as [cl ->]. cbn [bind].
  destruct (run_freqs_ok g2 i e ds a (o_frq o) cells 0 Lcells) as [xs Hxs].
  { intros k f c Hf Hc. destruct (nth_error_In2 _ _ _ Hf) as [Hfi Hk]. destruct (nth_error_In2 _ _ _ Hc) as [Hci _].
    destruct (py_get_inrange (i_es i) (0 + Z.of_nat k)) as [es Hes].
    { assert (H := wf_es _ _ W). unfold i. cbn [inputs_of i_es]. lia. }
    destruct (run_cell_ok g2 i e ds a f es c K) as [x Hx].
    - apply (wf_cell _ _ W cells); auto.
    - apply Hclear; auto.
    - intros Ec. destruct (Hcr Ec) as [(di & dl & Hd) (b & t & Hlv)].
      destruct (Hcloud f di dl Ec Hfi Hd) as [la Hla].
      exists (hget h di, hget h dl), (b, t), la. unfold i. cbn [inputs_of i_dens i_levels fst snd]. rewrite Hd, Hlv.
      cbn [option_map]. auto.
    - exists es, x. auto. }
  rewrite Hxs. cbn [bind]. eauto.
Qed.

(** ** Object invariants *)

Lemma run_cell_lengths (g : globals A) i e ds angle frq es old f c : in_ok i e ds -> cell_ok i old ->
  run_cell g i e ds angle frq es old = Ok (f, c) -> cell_ok i c.
Proof.
  intros K Hc H. unfold run_cell in H. inv_bind H a Ea. destruct a as [aw ad]. inv_bind H w Ew. inv_bind H d Ed.
  inv_bind H c1 Ec1. inv_bind H pl Epl. inv_bind H c2 Ec2. inv_bind H al Eal. inversion H; subst. clear H.
  assert (H1 : cell_ok i c1).
  { destruct (i_cloudy i); [|inversion Ec1; subst; auto]. inv_bind Ec1 dens Edens. inv_bind Ec1 la Ela.
    inv_bind Ec1 l El. inv_bind Ec1 ic Eic. inversion Ec1; subst. destruct l as [l1 l2]. destruct ic as [i1 i2].
    apply exp_int_length in El. apply exp_int_length in Eic. split; cbn; rewrite ?El, ?Eic; apply K. }
  destruct (i_cloudy i); [|inversion Ec2; subst; auto]. inv_bind Ec2 lv Elv. inv_bind Ec2 b0 Eb. inv_bind Ec2 t0 Et.
  inv_bind Ec2 tm Etm. inversion Ec2; subst. exact H1.
Qed.

Lemma in_nth {T} (l : list T) x d : In x l -> exists k, k < length l /\ nth k l d = x.
Proof. intros H. apply In_nth with (d := d) in H. destruct H as (k & H1 & H2). eauto. Qed.

(** A run keeps the object well-formed. *)
Lemma execute_wf db (g : globals A) h o fr full o' g' : wf h o -> execute db g h o = Ok (fr, full, o', g') -> wf h o'.
Proof.
  intros W H. apply execute_inv in H. destruct H as (g1 & r & _ & Hr & _ & _ & -> & _).
  destruct (run_shape _ _ h o r W Hr) as [Lr Hrows].
  constructor; unfold with_run; cbn; try apply W; rewrite ?map_length; auto.
  - intros cs Hcs. apply in_map_iff in Hcs. destruct Hcs as (x & <- & Hx). apply Hrows; auto.
  - intros cs c Hcs Hc. apply in_map_iff in Hcs. destruct Hcs as ([af [cs' cl]] & <- & Hx). cbn in Hc.
    apply run_all_inv in Hr. destruct Hr as (e & rho & dryn & wetn & refindx & Ev & Er & Hm).
    apply mapM_Forall2 in Hm.
    assert (HEx : exists a old, In (a, old) (combine (o_angles o) (olds_of o)) /\
       run_angle (with_sat g1 (o_sat o)) (inputs_of h o) (o_frq o) e rho dryn wetn refindx a old = Ok (af, (cs', cl))).
    { clear - Hm Hx. induction Hm as [|[a old] y l l' Hy Hm IH]; [destruct Hx|]. destruct Hx as [->|Hx].
      - exists a, old. split; [left; auto|auto].
      - destruct (IH Hx) as (a' & old' & H1 & H2). exists a', old'. split; [right; auto|auto]. }
    destruct HEx as (a & [cells s] & Hin & Hrun).
    destruct (olds_in h o cells s W (in_combine_r _ _ _ _ Hin)) as [Hcells Lcells].
    apply run_angle_inv in Hrun. destruct Hrun as (ds & xs & Eds & Hxs & _ & ->).
    apply in_map_iff in Hc. destruct Hc as ([f c'] & <- & Hfc). cbn [fst] in Hxs.
    apply run_freqs_inv in Hxs; auto. destruct Hxs as [Lx Hk].
    destruct (in_nth xs (f, c') (f, c') Hfc) as (k & Hk1 & Hk2). rewrite Lx in Hk1.
    destruct (Hk k (lit 0) c' (f, c') Hk1) as (es & _ & Hc'). rewrite Hk2 in Hc'.
    cbn [inputs_of i_ice i_tk i_rh i_p] in Ev, Er.
    assert (Hice : o_ice o = false). { destruct (o_ice o); [discriminate|reflexivity]. }
    rewrite Hice in Ev. destruct (vapor_length _ _ _ _ Ev) as [Le _]; [rewrite (wf_tk _ _ W), (wf_rh _ _ W); auto|].
    rewrite (wf_tk _ _ W) in Le.
    assert (HR := refr_length (hget h (o_p o)) (hget h (o_tk o)) e). rewrite Er in HR.
    destruct HR as (_ & _ & Ln); [rewrite (wf_p _ _ W), (wf_tk _ _ W); auto|rewrite (wf_tk _ _ W); auto|].
    rewrite (wf_tk _ _ W) in Ln.
    assert (Lds : length ds = o_nl o) by (apply (path_length _ _ _ _ Eds); auto; apply W).
    apply (run_cell_lengths _ _ _ _ _ _ _ _ _ _ (wf_in_ok h o e ds W Le Lds)) in Hc'; [exact Hc'|].
    apply (wf_cell _ _ W cells); auto. apply nth_In. lia.
Qed.

End Run.
