(** Claims C49-C51: what a run depends on and what it leaves behind.  Every theorem holds for every arithmetic. *)

From Coq Require Import ZArith Lia String List Bool Relations.
Import ListNotations.
From Verif Require Import Arith PyBase Utils RTE Absorption Clear Spectrum ListAux SolverGen SolverRun PropsRun.
Local Open Scope nat_scope.
Local Open Scope string_scope.

Section History.
Context {A : Arith}.
Notation num := (car A).

(** ** A run reads only part of the class state *)

(** Two class states that a run over profile inputs [i] cannot tell apart. *)
Definition agree (ozone : bool) (g1 g2 : globals A) : Prop :=
  g_h2o g1 = g_h2o g2 /\ g_o2 g1 = g_o2 g2 /\ g_n2 g1 = g_n2 g2 /\ g_liq g1 = g_liq g2 /\
  g_h2oll g1 = g_h2oll g2 /\ g_o2ll g1 = g_o2ll g2 /\ g_from_sat g1 = g_from_sat g2 /\
  (ozone = true -> g_o3 g1 = g_o3 g2 /\ g_o3ll g1 = g_o3ll g2).

Definition is_some {T} (x : option T) : bool := match x with Some _ => true | None => false end.

Lemma with_o3_none (T : Type) n (o : option num) : In o (with_o3 n (@None (list num))) -> o = None.
Proof. cbn. apply repeat_spec. Qed.

Lemma clearsky_agree g1 g2 amu p t e f o3n : agree (is_some o3n) g1 g2 ->
  clearsky_absorption g1 amu p t e f o3n = clearsky_absorption g2 amu p t e f o3n.
Proof.
  intros (H1 & H2 & H3 & H4 & H5 & H6 & H7 & H8). unfold clearsky_absorption.
  assert (E : mapM (fun '(p, (t, (e, o))) => clearsky_level g1 amu f p t e o) (combine p (combine t (combine e (with_o3 (length p) o3n)))) =
              mapM (fun '(p, (t, (e, o))) => clearsky_level g2 amu f p t e o) (combine p (combine t (combine e (with_o3 (length p) o3n))))).
  { apply mapM_ext_in. intros (p0 & t0 & e0 & o) Hin.
    assert (Ho : is_some o3n = true \/ o = None).
    { destruct o3n as [l|]; [left; reflexivity|right]. apply in_combine_r in Hin. apply in_combine_r in Hin. apply in_combine_r in Hin.
      eapply repeat_spec; eauto. }
    unfold clearsky_level, h2o_call, o2_call, n2_call, o3_call. rewrite H1, H2, H3, H5, H6.
    destruct Ho as [Ho| ->]; [|reflexivity]. destruct (H8 Ho) as [-> ->]. reflexivity. }
  rewrite E. reflexivity.
Qed.

Lemma run_cell_agree g1 g2 i e ds angle f es old : agree (is_some (i_o3n i)) g1 g2 ->
  run_cell g1 i e ds angle f es old = run_cell g2 i e ds angle f es old.
Proof.
  intros H. unfold run_cell. rewrite (clearsky_agree g1 g2 _ _ _ _ _ _ H).
  destruct H as (H1 & H2 & H3 & H4 & H5 & H6 & H7 & H8). rewrite H4, H7. reflexivity.
Qed.

Lemma run_freqs_agree g1 g2 i e ds angle frqs : agree (is_some (i_o3n i)) g1 g2 -> forall cells j,
  run_freqs g1 i e ds angle frqs cells j = run_freqs g2 i e ds angle frqs cells j.
Proof.
  intros H. induction frqs as [|f frqs IH]; intros [|c cells] j; try reflexivity. cbn [run_freqs].
  destruct (py_get (i_es i) j); [|reflexivity]. cbn [bind]. rewrite (run_cell_agree g1 g2) by auto.
  destruct (run_cell g2 i e ds angle f x c); [|reflexivity]. cbn [bind]. rewrite IH. reflexivity.
Qed.

Lemma run_all_agree g1 g2 i frqs angles olds : agree (is_some (i_o3n i)) g1 g2 ->
  run_all g1 i frqs angles olds = run_all g2 i frqs angles olds.
Proof.
  intros H. unfold run_all. destruct (vapor _ _ _) as [[e rho]|]; [|reflexivity]. cbn [bind].
  destruct (refractivity _ _ _) as [[dryn wetn] refindx]. apply mapM_ext_in. intros [a [cells [sl si]]] _.
  unfold run_angle. destruct (path_ds _ _ _) as [ds|]; [|reflexivity]. cbn [bind].
  rewrite (run_freqs_agree g1 g2) by auto. reflexivity.
Qed.

(** ** C50 *)

(** What the caller gets back: the table and the full output. *)
Definition returned (r : result (list (row A) * list (angle_full A) * tbobj A * globals A)) : result (list (row A) * list (angle_full A)) :=
  do x <- r; Ok (fst (fst x)).

(** [O3AbsModel.model = m; O3AbsModel.set_ll()], the only way an ozone line list gets loaded. *)
Definition select_o3 (db : lldb A) (g : globals A) (m : string) : result (globals A) :=
  set_ll_o3 db (mkGlobals (g_h2o g) (g_o2 g) (g_n2 g) (g_liq g) (Some m) (g_h2oll g) (g_o2ll g) (g_o3ll g) (g_from_sat g) (g_es g)).

(** Select model [m], optionally an ozone model, and run. *)
Definition select_and_run (db : lldb A) (g : globals A) (h : heap A) (o : tbobj A) (m : string) (m3 : option string) :=
  do g' <- (match m3 with Some m' => select_o3 db (init_absmdl g m) m' | None => Ok (init_absmdl g m) end);
  execute db g' h o.

(** Same constructor arguments and settings; the output arrays may differ. *)
Definition same_settings (o o' : tbobj A) : Prop :=
  o' = mkObj (o_z o) (o_p o) (o_tk o) (o_rh o) (o_frq o) (o_angles o) (o_o3n o)
    (o_amu o) (o_ray o) (o_sat o) (o_cloudy o) (o_unc o) (o_ice o) (o_nl o) (o_es o)
    (o_z0 o) (o_levels o) (o_dens o) (o_cells o') (o_sliq o') (o_sice o').

Definition arrays_of (o : tbobj A) : list addr :=
  ([o_z o; o_p o; o_tk o; o_rh o; o_es o] ++ match o_o3n o with Some a => [a] | None => [] end
   ++ match o_dens o with Some (a, b) => [a; b] | None => [] end)%list.

Definition world := (globals A * heap A * list (tbobj A))%type.

(** Everything that can happen to the process while solver number [k] is only run, in one over-approximating relation. *)
Inductive step (db : lldb A) (k : nat) : world -> world -> Prop :=
  (* any change of the class attributes: model selections, loading or perturbing line lists, runs of other solvers *)
| st_class g g' h os : step db k (g, h, os) (g', h, os)
  (* new arrays, and writing arrays that do not belong to solver k *)
| st_alloc g h os v : step db k (g, h, os) (g, (h ++ [v])%list, os)
| st_write g h os a v o : nth_error os k = Some o -> ~ In a (arrays_of o) -> step db k (g, h, os) (g, hset h a v, os)
  (* creating solvers, and any change of another solver *)
| st_new g h os o' : step db k (g, h, os) (g, h, (os ++ [o'])%list)
| st_other g h os j o' : j <> k -> step db k (g, h, os) (g, h, upd os j o')
  (* a completed run of solver k *)
| st_run g h os o fr full o' g' : nth_error os k = Some o -> execute db g h o = Ok (fr, full, o', g') ->
    step db k (g, h, os) (g', h, upd os k o')
  (* a run of solver k that raises part way: a cloudy one may leave any values in its output arrays *)
| st_fail g g' h os o o' : nth_error os k = Some o -> o_cloudy o = true -> same_settings o o' -> wf h o' ->
    step db k (g, h, os) (g', h, upd os k o').

Lemma same_refl o : same_settings o o.
Proof. unfold same_settings. symmetry. apply obj_eta. Qed.

Lemma same_trans o1 o2 o3 : same_settings o1 o2 -> same_settings o2 o3 -> same_settings o1 o3.
Proof. unfold same_settings. intros H1 H2. rewrite H1 in H2. exact H2. Qed.

(** What stays true of solver k. *)
Record kept (h0 : heap A) (o0 : tbobj A) (h : heap A) (o : tbobj A) : Prop := mkKept {
  k_wf : wf h o;
  k_same : same_settings o0 o;
  k_es : o_es o < length h;
  k_inputs : inputs_of h o = inputs_of h0 o0;
  k_clear : o_cloudy o0 = false -> o = o0 }.

Lemma kept_heap h0 o0 h h' o : kept h0 o0 h o ->
  (forall a, In a (arrays_of o) -> hget h a <> [] -> hget h' a = hget h a) ->
  (hget h (o_es o) = [] -> hget h' (o_es o) = []) -> length h <= length h' -> kept h0 o0 h' o.
Proof.
  intros [W S V I C] HH HE HL.
  assert (N : forall a, length (hget h a) = o_nl o -> hget h a <> []).
  { intros a Ha E. rewrite E in Ha. apply (wf_nl _ _ W). auto. }
  assert (Ez : hget h' (o_z o) = hget h (o_z o)) by (apply HH; [unfold arrays_of; simpl; auto|apply N, W]).
  assert (Ep : hget h' (o_p o) = hget h (o_p o)) by (apply HH; [unfold arrays_of; simpl; auto|apply N, W]).
  assert (Et : hget h' (o_tk o) = hget h (o_tk o)) by (apply HH; [unfold arrays_of; simpl; auto|apply N, W]).
  assert (Er : hget h' (o_rh o) = hget h (o_rh o)) by (apply HH; [unfold arrays_of; simpl; auto|apply N, W]).
  assert (Ee : hget h' (o_es o) = hget h (o_es o)).
  { destruct (hget h (o_es o)) eqn:E; [apply HE; auto|]. rewrite <- E. apply HH; [unfold arrays_of; simpl; auto 10|congruence]. }
  assert (Eo : forall a, o_o3n o = Some a -> hget h' a = hget h a).
  { intros a Ha. apply HH; [unfold arrays_of; rewrite Ha; simpl; auto 10|]. apply N. apply (wf_o3n _ _ W); auto. }
  assert (Ed : forall a b, o_dens o = Some (a, b) -> hget h' a = hget h a /\ hget h' b = hget h b).
  { intros a b Hab. destruct (wf_dens _ _ W _ _ Hab). split; (apply HH; [|apply N; auto]);
    unfold arrays_of; rewrite Hab; rewrite !in_app_iff; simpl; auto 10. }
  constructor; auto; [|lia|].
  - destruct W; constructor; rewrite ?Ez, ?Ep, ?Et, ?Er, ?Ee; auto.
    + intros a Ha. rewrite (Eo a Ha). auto.
    + intros a b Hab. destruct (Ed a b Hab) as [-> ->]. auto.
  - rewrite <- I. unfold inputs_of. rewrite Ez, Ep, Et, Er, Ee. f_equal.
    + destruct (o_o3n o) as [a|] eqn:E; [|reflexivity]. cbn. rewrite (Eo a); auto.
    + destruct (o_dens o) as [[a b]|] eqn:E; [|reflexivity]. cbn. destruct (Ed a b eq_refl) as [-> ->]. reflexivity.
Qed.

Lemma nth_error_upd_eq {T} (l : list T) : forall k v x, nth_error l k = Some x -> nth_error (upd l k v) k = Some v.
Proof. induction l; intros [|k] v x H; simpl in *; try discriminate; eauto. Qed.
Lemma nth_error_upd_ne {T} (l : list T) : forall k i v, i <> k -> nth_error (upd l k v) i = nth_error l i.
Proof. induction l; intros [|k] [|i] v H; simpl; auto; try lia. Qed.

Lemma step_kept db k h0 o0 w w' : step db k w w' ->
  (exists o, nth_error (snd w) k = Some o /\ kept h0 o0 (snd (fst w)) o) ->
  exists o, nth_error (snd w') k = Some o /\ kept h0 o0 (snd (fst w')) o.
Proof.
  intros S (o & Ho & K). destruct S as [g g' h os|g h os v|g h os a v o1 Ho1 Ha|g h os o1|g h os j o1 Hj|g h os o1 fr full o' g' Ho1 He|g g' h os o1 o' Ho1 Hc Hs Hw];
    cbn [fst snd] in *.
  - eauto.
  - exists o. split; auto. apply (kept_heap h0 o0 h); auto.
    + intros a _ Hn. apply hget_app_old. apply hget_valid; auto.
    + intros E. unfold hget in *. rewrite app_nth1; auto. apply K.
    + rewrite app_length. lia.
  - assert (o1 = o) by congruence. subst. exists o. split; auto. apply (kept_heap h0 o0 h); auto.
    + intros b Hb _. apply hget_set_ne. intros ->. auto.
    + intros E. rewrite hget_set_ne; auto. intros E2. apply Ha. unfold arrays_of. rewrite <- E2. simpl. auto 10.
    + unfold hset. rewrite length_upd. lia.
  - exists o. split; auto. rewrite nth_error_app1; auto. apply nth_error_Some. congruence.
  - exists o. split; auto. rewrite nth_error_upd_ne; auto.
  - assert (o1 = o) by congruence. subst. exists o'. split; [eapply nth_error_upd_eq; eauto|].
    assert (W' := execute_wf db g h o fr full o' g' (k_wf _ _ _ _ K) He).
    apply execute_inv in He. destruct He as (g1 & r & _ & Hr & _ & _ & -> & _).
    constructor; auto.
    + apply (same_trans o0 o); [apply K|]. reflexivity.
    + apply K.
    + rewrite <- (k_inputs _ _ _ _ K). reflexivity.
    + intros Hc. assert (Eo := k_clear _ _ _ _ K Hc). subst o. apply (run_clear_keeps _ h o0 r) in Hr; auto. apply K.
  - assert (o1 = o) by congruence. subst. exists o'. split; [eapply nth_error_upd_eq; eauto|].
    constructor; auto.
    + apply (same_trans o0 o); [apply K|auto].
    + rewrite Hs. apply K.
    + rewrite <- (k_inputs _ _ _ _ K), Hs. reflexivity.
    + intros Hc0. assert (Eo := k_clear _ _ _ _ K Hc0). subst. congruence.
Qed.

Lemma run_all_kept (g : globals A) h0 o0 h o : wf h0 o0 -> kept h0 o0 h o ->
  run_all g (inputs_of h o) (o_frq o) (o_angles o) (olds_of o) = run_all g (inputs_of h0 o0) (o_frq o0) (o_angles o0) (olds_of o0).
Proof.
  intros W0 K. destruct (o_cloudy o0) eqn:Hc.
  - rewrite (k_inputs _ _ _ _ K).
    assert (Ef : o_frq o = o_frq o0) by (rewrite (k_same _ _ _ _ K); reflexivity).
    assert (Ea : o_angles o = o_angles o0) by (rewrite (k_same _ _ _ _ K); reflexivity).
    rewrite Ef, Ea. apply run_all_cloudy_indep; auto.
    + rewrite (olds_length h o (k_wf _ _ _ _ K)), (olds_length h0 o0 W0), Ea. reflexivity.
    + intros [cs s] Hx. destruct (olds_in h o cs s (k_wf _ _ _ _ K) Hx). cbn. congruence.
    + intros [cs s] Hx. destruct (olds_in h0 o0 cs s W0 Hx). auto.
  - rewrite (k_inputs _ _ _ _ K). rewrite (k_clear _ _ _ _ K Hc). reflexivity.
Qed.

(** Whatever happened before - any number of steps of any kind - selecting the models and running solver [k] returns the
    table and output (or raises the error) that it would have returned at the start.  With an ozone profile the ozone model has to be
    selected and loaded as well. *)
Theorem C50_reproducible db k g0 h0 os0 o0 g h os m m3 :
  nth_error os0 k = Some o0 -> wf h0 o0 -> o_es o0 < length h0 ->
  (o_o3n o0 = None \/ m3 <> None) ->
  clos_refl_trans world (step db k) (g0, h0, os0) (g, h, os) ->
  exists o, nth_error os k = Some o /\
    returned (select_and_run db g h o m m3) = returned (select_and_run db g0 h0 o0 m m3).
Proof.
  intros Ho W Hes H3 S.
  assert (K : exists o, nth_error os k = Some o /\ kept h0 o0 h o).
  { assert (G : forall w w', clos_refl_trans world (step db k) w w' ->
      (exists o, nth_error (snd w) k = Some o /\ kept h0 o0 (snd (fst w)) o) ->
      exists o, nth_error (snd w') k = Some o /\ kept h0 o0 (snd (fst w')) o).
    { clear. intros w w' S. induction S; auto. intros. eapply step_kept; eauto. }
    apply (G _ _ S). exists o0. split; [exact Ho|]. constructor; auto using same_refl. }
  destruct K as (o & Hok & K). exists o. split; [exact Hok|].
  assert (Es : o_sat o = o_sat o0) by (rewrite (k_same _ _ _ _ K); reflexivity).
  assert (Eo : is_some (i_o3n (inputs_of h0 o0)) = is_some (o_o3n o0)) by (cbn; destruct (o_o3n o0); reflexivity).
  assert (X : forall ga gb, (g_h2o ga = g_h2o gb /\ g_o2 ga = g_o2 gb /\ g_n2 ga = g_n2 gb /\ g_liq ga = g_liq gb) ->
     (is_some (o_o3n o0) = true -> g_o3 ga = g_o3 gb /\ g_o3ll ga = g_o3ll gb) ->
     returned (execute db ga h o) = returned (execute db gb h0 o0)).
  { intros ga gb (H1 & H2 & H4 & H5) HO. unfold execute, init_linelist, set_ll_h2o. rewrite H1.
    destruct (g_h2o gb) as [mh|] eqn:Eh; [|reflexivity]. destruct (db_h2o db mh) as [ll|]; [|reflexivity]. cbn [bind].
    unfold set_ll_o2, with_h2oll. cbn [g_o2]. rewrite H2. destruct (g_o2 gb) as [mo|] eqn:Eg; [|reflexivity].
    destruct (db_o2 db mo) as [llo|]; [|reflexivity]. cbn [bind]. rewrite Es.
    set (g2 := with_sat (with_o2ll _ _) _). set (g3 := with_sat (with_o2ll _ _) _).
    rewrite (run_all_kept g2 h0 o0 h o W K).
    rewrite (run_all_agree g2 g3).
    - destruct (run_all g3 _ _ _ _); [|reflexivity]. reflexivity.
    - rewrite Eo. unfold g2, g3, agree. cbn. rewrite ?H1, ?H2, ?H4, ?H5. repeat (split; [congruence|]). exact HO. }
  unfold select_and_run. destruct m3 as [m3|].
  - unfold select_o3, set_ll_o3. cbn [g_o3]. destruct (db_o3 db m3) as [ll|]; [|reflexivity]. cbn [bind]. apply X; cbn; auto.
  - cbn [bind]. apply X; [cbn; auto|]. intros E. destruct H3 as [H3|H3]; [|congruence]. rewrite H3 in E. discriminate.
Qed.

(** The operations of the API are such steps. *)
Notation steps db k := (clos_refl_trans world (step db k)).

Lemma op_select db k g h os m : steps db k (g, h, os) (init_absmdl g m, h, os).
Proof. apply rt_step, st_class. Qed.

Lemma op_run_other db k g h os j o fr full o' g' : j <> k -> nth_error os j = Some o -> execute db g h o = Ok (fr, full, o', g') ->
  steps db k (g, h, os) (g', h, upd os j o').
Proof. intros Hj _ _. eapply rt_trans; [apply rt_step, st_class|apply rt_step, st_other; auto]. Qed.

Lemma op_emissivity_other db k g h os j o v o' h' : j <> k -> nth_error os j = Some o -> set_emissivity h o v = (h', Ok o') ->
  steps db k (g, h, os) (g, h', upd os j o').
Proof.
  intros Hj _ H. destruct v; cbn in H; inversion H; subst.
  - eapply rt_trans; [apply rt_step, st_alloc|apply rt_step, st_other; auto].
  - apply rt_step, st_other; auto.
Qed.

Lemma op_satellite_other db k g h os j o v o' : j <> k -> nth_error os j = Some o -> set_satellite o v = Ok o' ->
  steps db k (g, h, os) (g, h, upd os j o').
Proof. intros Hj _ _. apply rt_step, st_other; auto. Qed.

(** Constructing a solver writes into the height array it is given; that array must not belong to solver [k]. *)
Lemma op_new db k g h os o z p t rh frq angles o3n amu ray sat cl h' o' : nth_error os k = Some o -> ~ In z (arrays_of o) ->
  tb_init h z p t rh frq angles o3n amu "" ray sat cl = (h', Ok o') ->
  steps db k (g, h, os) (g, h', (os ++ [o'])%list).
Proof.
  intros Ho Hz H. unfold tb_init in H. unfold bool_gt0, bool_lt0 in H. destruct (all_truthy _); [|discriminate].
  destruct (hget h z) as [|z0 zs]; [discriminate|]. cbn [halloc] in H. inversion H; subst.
  eapply rt_trans; [apply rt_step, st_alloc|].
  eapply rt_trans; [apply rt_step; eapply (st_write db k g _ os z _ o); eauto|]. apply rt_step, st_new.
Qed.

(** The ozone line list is the exception: no run reloads it, so the values written by a run with perturbed parameters are
    those the next run of any solver uses, whatever models are selected by [init_absmdl]. *)
Theorem C50_ozone_override_persists db (g : globals A) h o a m3 fr full o' g' m g2 :
  execute db g h o = Ok (fr, full, o', g') -> o_amu o = Some a -> o_unc o = true ->
  o_frq o <> [] -> o_angles o <> [] -> o_nl o <> 0 -> g_o3 g = Some m3 -> str_in m3 o3_models = true ->
  init_linelist db (init_absmdl g' m) = Ok g2 ->
  g_o3 g2 = Some m3 /\ g_o3ll g2 = option_map (amu_o3 a) (g_o3ll g).
Proof.
  intros H Ha Hu Hf Hang Hnl H3 Hin H2. apply execute_inv in H. destruct H as (g1 & r & Hll & _ & _ & _ & _ & ->).
  assert (E1 : g_o3 g1 = g_o3 g /\ g_o3ll g1 = g_o3ll g).
  { unfold init_linelist, set_ll_h2o, set_ll_o2 in Hll. destruct (g_h2o g); [|discriminate]. destruct (db_h2o db s); [|discriminate].
    cbn [bind with_h2oll g_o2] in Hll. destruct (g_o2 g); [|discriminate]. destruct (db_o2 db s0); [|discriminate].
    inversion Hll. split; reflexivity. }
  destruct E1 as [E1 E2].
  assert (E3 : g_o3 g2 = g_o3 (run_effect (with_sat g1 (o_sat o)) o (inputs_of h o)) /\
               g_o3ll g2 = g_o3ll (run_effect (with_sat g1 (o_sat o)) o (inputs_of h o))).
  { unfold init_linelist, set_ll_h2o, set_ll_o2 in H2. cbn [init_absmdl g_h2o] in H2. destruct (db_h2o db m); [|discriminate].
    cbn [bind with_h2oll g_o2 init_absmdl] in H2. destruct (db_o2 db m); [|discriminate]. inversion H2. split; reflexivity. }
  destruct E3 as [-> ->]. unfold run_effect.
  destruct (Nat.eqb_spec (length (o_frq o) * length (o_angles o) * i_nl (inputs_of h o)) 0) as [E|_].
  { exfalso. cbn [inputs_of i_nl] in E. destruct (o_frq o), (o_angles o), (o_nl o); simpl in E; try congruence; lia. }
  unfold clearsky_effect. cbn [with_ges with_sat g_o3 g_o3ll]. rewrite E1, E2, H3. cbn [mname]. rewrite Hin. split; [reflexivity|].
  cbn [inputs_of i_amu]. rewrite Hu, Ha. reflexivity.
Qed.

(** ** C51: the cloudy switch *)

(** After a cloudy run, switching the clouds off and running again returns the very table of the cloudy run. *)
Lemma run_cell_stale (g : globals A) i i' e ds angle f es old x c : i_cloudy i = true ->
  i' = mkIn (i_z i) (i_p i) (i_tk i) (i_rh i) (i_o3n i) (i_es i) (i_z0 i) (i_nl i) (i_ray i) false (i_ice i) (i_amu i) (i_levels i) (i_dens i) ->
  run_cell g i e ds angle f es old = Ok (x, c) -> run_cell g i' e ds angle f es c = Ok (x, c).
Proof.
  intros Hc -> H. unfold run_cell in *. cbn [i_nl i_amu i_p i_tk i_o3n i_cloudy]. rewrite Hc in H.
  inv_bind H a Ea. destruct a as [aw ad]. inv_bind H w Ew. inv_bind H d Ed. inv_bind H c1 Ec1. inv_bind H pl Epl.
  inv_bind H c2 Ec2. inv_bind H al Eal. inversion H; subst. rewrite Ea. cbn [bind]. rewrite Ew. cbn [bind]. rewrite Ed. cbn [bind].
  inv_bind Ec2 lv Elv. inv_bind Ec2 b0 Eb. inv_bind Ec2 t0 Et. inv_bind Ec2 tm Etm. inversion Ec2; subst.
  cbn [c_ptauice c_ptauliq c_sptauliq c_sptauice c_tmrcld]. rewrite Epl. cbn [bind]. rewrite Eal. cbn [bind]. reflexivity.
Qed.

Lemma run_freqs_stale (g : globals A) i i' e ds angle frqs : i_cloudy i = true ->
  i' = mkIn (i_z i) (i_p i) (i_tk i) (i_rh i) (i_o3n i) (i_es i) (i_z0 i) (i_nl i) (i_ray i) false (i_ice i) (i_amu i) (i_levels i) (i_dens i) ->
  forall cells j xs, run_freqs g i e ds angle frqs cells j = Ok xs -> run_freqs g i' e ds angle frqs (map snd xs) j = Ok xs.
Proof.
  intros Hc Hi. induction frqs as [|f frqs IH]; intros [|c cells] j xs H; try (inversion H; reflexivity).
  cbn [run_freqs] in H. inv_bind H es He. inv_bind H x Hx. inv_bind H xs' Hxs. inversion H; subst xs. cbn [map run_freqs].
  assert (E : i_es i' = i_es i) by (rewrite Hi; reflexivity). rewrite E, He. cbn [bind].
  destruct x as [x0 c0]. cbn [snd]. rewrite (run_cell_stale g i i' e ds angle f es c x0 c0 Hc Hi Hx). cbn [bind].
  rewrite (IH cells _ xs' Hxs). reflexivity.
Qed.

Lemma run_angle_stale (g : globals A) i i' frqs e rho dryn wetn refindx angle old r : i_cloudy i = true ->
  i' = mkIn (i_z i) (i_p i) (i_tk i) (i_rh i) (i_o3n i) (i_es i) (i_z0 i) (i_nl i) (i_ray i) false (i_ice i) (i_amu i) (i_levels i) (i_dens i) ->
  run_angle g i frqs e rho dryn wetn refindx angle old = Ok r -> run_angle g i' frqs e rho dryn wetn refindx angle (snd r) = Ok r.
Proof.
  intros Hc Hi H. destruct old as [cells [sl si]]. unfold run_angle in H. inv_bind H ds Eds. inv_bind H sr Esr. inv_bind H sw Esw.
  inv_bind H sd Esd. inv_bind H cl Ecl. inv_bind H xs Exs. inversion H; subst r. cbn [snd]. destruct cl as [c1 c2].
  assert (P : path_ds i' refindx angle = path_ds i refindx angle) by (rewrite Hi; reflexivity).
  assert (N : i_nl i' = i_nl i) by (rewrite Hi; reflexivity). assert (C : i_cloudy i' = false) by (rewrite Hi; reflexivity).
  unfold run_angle. rewrite P, N, C, Eds. cbn [bind]. rewrite Esr. cbn [bind]. rewrite Esw. cbn [bind]. rewrite Esd. cbn [bind].
  rewrite (run_freqs_stale g i i' e ds angle frqs Hc Hi _ _ _ Exs). reflexivity.
Qed.

Theorem C51_stale_table db (g : globals A) h o fr full o' g' : o_cloudy o = true -> wf h o ->
  execute db g h o = Ok (fr, full, o', g') ->
  exists o2 g2, execute db g h (with_cloudy o' false) = Ok (fr, full, o2, g2).
Proof.
  intros Hc W H. apply execute_inv in H. destruct H as (g1 & r & Hll & Hr & -> & -> & -> & _).
  destruct (run_shape _ _ h o r W Hr) as [Lr _].
  unfold execute. rewrite Hll. cbn [bind].
  change (o_sat (with_cloudy (with_run o r) false)) with (o_sat o).
  change (o_frq (with_cloudy (with_run o r) false)) with (o_frq o).
  change (o_angles (with_cloudy (with_run o r) false)) with (o_angles o).
  set (i := inputs_of h o) in *. set (i' := inputs_of h _).
  assert (Hi : i' = mkIn (i_z i) (i_p i) (i_tk i) (i_rh i) (i_o3n i) (i_es i) (i_z0 i) (i_nl i) (i_ray i) false (i_ice i) (i_amu i) (i_levels i) (i_dens i)) by reflexivity.
  set (g2 := with_sat g1 (o_sat o)) in *.
  assert (E : olds_of (with_cloudy (with_run o r) false) = map snd r).
  { unfold olds_of, with_cloudy, with_run. cbn. clear. induction r as [|[a [b [c d]]] r IH]; [reflexivity|]. cbn. f_equal. exact IH. }
  rewrite E. clear E.
  apply run_all_inv in Hr. destruct Hr as (e & rho & dryn & wetn & refindx & Ev & Er & Hm).
  assert (E2 : run_all g2 i' (o_frq o) (o_angles o) (map snd r) = Ok r).
  { rewrite (run_all_intro g2 i' _ _ _ e rho dryn wetn refindx); [|rewrite Hi; exact Ev|rewrite Hi; exact Er].
    assert (HL := olds_length h o W). revert Hm HL. generalize (olds_of o) as olds. generalize (o_angles o) as angles. clear Lr.
    clearbody i'. induction r as [|x r IH]; intros angles olds Hm HL.
    - destruct angles as [|a angles]; [reflexivity|]. destruct olds as [|o0 olds]; [discriminate|]. cbn [combine] in Hm.
      apply mapM_cons_inv in Hm. destruct Hm as (y & ys & ? & _). discriminate.
    - destruct angles as [|a angles]; [inversion Hm|]. destruct olds as [|o0 olds]; [discriminate|]. cbn [combine] in Hm.
      apply mapM_cons_inv in Hm. destruct Hm as (y & ys & Heq & Hy & Hm). inversion Heq; subst y ys.
      cbn [map combine mapM]. rewrite (run_angle_stale g2 i i' _ _ _ _ _ _ _ _ _ Hc Hi Hy). cbn [bind].
      rewrite (IH angles olds Hm); [reflexivity|]. simpl in HL. lia. }
  rewrite E2. cbn [bind]. eauto.
Qed.

(** A clear-sky run of a newly constructed solver reports exactly 0 for both cloud opacities. *)
Definition clean (o : tbobj A) : Prop :=
  forall cs c, In cs (o_cells o) -> In c cs -> c_sptauliq c = lit 0 /\ c_sptauice c = lit 0.

Lemma clear_rows_zero db (g : globals A) h o fr full o' g' x : wf h o -> clean o -> o_cloudy o = false ->
  execute db g h o = Ok (fr, full, o', g') -> In x fr -> r_tauliq x = lit 0 /\ r_tauice x = lit 0.
Proof.
  intros W Hcl Hc H Hx. apply execute_inv in H. destruct H as (g1 & r & Hll & Hr & -> & -> & -> & _).
  apply run_all_inv in Hr. destruct Hr as (e & rho & dryn & wetn & refindx & Ev & Er & Hm).
  unfold frame in Hx. apply in_concat in Hx. destruct Hx as (rows & Hrows & Hx).
  apply in_map_iff in Hrows. destruct Hrows as (y & <- & Hy). apply in_map_iff in Hx. destruct Hx as (f & <- & Hf).
  apply mapM_Forall2 in Hm.
  assert (HEx : exists a old, In (a, old) (combine (o_angles o) (olds_of o)) /\
     run_angle (with_sat g1 (o_sat o)) (inputs_of h o) (o_frq o) e rho dryn wetn refindx a old = Ok y).
  { clear - Hm Hy. induction Hm as [|[a old] z l l' Hz Hm IH]; [destruct Hy|]. destruct Hy as [->|Hy].
    - exists a, old. split; [left; auto|auto].
    - destruct (IH Hy) as (a' & old' & H1 & H2). exists a', old'. split; [right; auto|auto]. }
  destruct HEx as (a & [cells s] & Hin & Hrun).
  destruct (olds_in h o cells s W (in_combine_r _ _ _ _ Hin)) as [Hcells Lcells].
  destruct y as [af [cs' cl]].
  apply run_angle_inv in Hrun. destruct Hrun as (ds & xs & Eds & Hxs & Erows & _). cbn [fst] in Hf, Hxs.
  rewrite Erows in Hf. apply in_map_iff in Hf. destruct Hf as ([f0 c'] & Ef & Hfc). cbn [fst] in Ef. subst f0.
  apply run_freqs_inv in Hxs; auto. destruct Hxs as [Lx Hk].
  destruct (in_nth xs (f, c') (f, c') Hfc) as (k & Hk1 & Hk2). rewrite Lx in Hk1.
  destruct (Hk k (lit 0) c' (f, c') Hk1) as (es & _ & Hc'). rewrite Hk2 in Hc'.
  
  assert (Hold : In (nth k cells c') cells) by (apply nth_In; lia).
  destruct (Hcl cells _ Hcells Hold) as [Z1 Z2].
  unfold run_cell in Hc'. assert (HcI : i_cloudy (inputs_of h o) = false) by exact Hc. rewrite HcI in Hc'.
  inv_bind Hc' a1 Ea. destruct a1. inv_bind Hc' w Ew. inv_bind Hc' d Ed. cbn [bind] in Hc'.
  inv_bind Hc' pl Epl. inv_bind Hc' al Eal. injection Hc' as E1 E2. rewrite <- E1. cbn. split; assumption.
Qed.

(** Hence, whenever a cloudy run reported any cloud opacity, the run made after switching the clouds off is not the clear-sky run
    of the same solver: the table of [with_cloudy o false] (nothing run before) differs. *)
Theorem C51_clear_after_cloudy_refuted db (g : globals A) h o fr full o' g' x :
  wf h o -> clean o -> o_cloudy o = true ->
  execute db g h o = Ok (fr, full, o', g') -> In x fr -> (r_tauliq x <> lit 0 \/ r_tauice x <> lit 0) ->
  exists fr2 full2 o2 g2, execute db g h (with_cloudy o' false) = Ok (fr2, full2, o2, g2) /\
    forall fr3 full3 o3 g3, execute db g h (with_cloudy o false) = Ok (fr3, full3, o3, g3) -> fr2 <> fr3.
Proof.
  intros W Hcl Hc H Hx Hz. destruct (C51_stale_table db g h o fr full o' g' Hc W H) as (o2 & g2 & H2).
  exists fr, full, o2, g2. split; [exact H2|]. intros fr3 full3 o3 g3 H3 E. subst fr3.
  assert (W' : wf h (with_cloudy o false)) by (destruct W; constructor; auto).
  destruct (clear_rows_zero db g h (with_cloudy o false) fr full3 o3 g3 x W' Hcl eq_refl H3 Hx) as [Z1 Z2].
  destruct Hz; congruence.
Qed.

(** ** C49: the selected model belongs to the class, not to the solver *)

(** Selecting on one solver replaces the selection made on another. *)
Theorem C49_shared_selection_refuted db (g : globals A) h o m1 m2 :
  returned (execute db (init_absmdl (init_absmdl g m1) m2) h o) = returned (execute db (init_absmdl g m2) h o).
Proof. reflexivity. Qed.

(** In particular a name without line list selected anywhere makes the next run of every solver fail. *)
Theorem C49_other_selection_breaks_run_refuted db (g : globals A) h o m1 m2 : db_h2o db m2 = None \/ db_o2 db m2 = None ->
  execute db (init_absmdl (init_absmdl g m1) m2) h o = Err AbsModelError.
Proof.
  intros H. unfold execute, init_linelist, set_ll_h2o. cbn [init_absmdl g_h2o]. destruct (db_h2o db m2) as [ll|]; [|reflexivity].
  destruct H as [H|H]; [discriminate|]. cbn [bind]. unfold set_ll_o2. cbn [with_h2oll init_absmdl g_o2]. rewrite H. reflexivity.
Qed.

End History.
