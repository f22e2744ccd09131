(** Claim C112: what a freshly constructed solver does before any setter is called. *)

From Coq Require Import ZArith Reals Lra Lia String List Bool.
Import ListNotations.
From Verif Require Import Arith PyBase Utils RTE Absorption Clear Spectrum ListAux RealAux SolverGen SolverRun Registry
  PropsModels PropsObject PropsRun PropsHistory PropsSolverX SolverExamples.
Local Open Scope nat_scope.

(** What the caller of a run can see: the table, the full output and the class attributes of the models. *)
Definition seen {A : Arith} (r : result (list (row A) * list (angle_full A) * tbobj A * globals A)) :
  result (list (row A) * list (angle_full A) * globals A) :=
  match r with Ok (fr, full, _, g) => Ok (fr, full, g) | Err e => Err e end.

(** A step on the object applied to the outcome of a constructor call. *)
Definition after {A : Arith} (c : heap A * result (tbobj A)) (f : tbobj A -> result (tbobj A)) : heap A * result (tbobj A) :=
  (fst c, bind (snd c) f).

Lemma seen_inputs (A : Arith) db (g : globals A) h o h2 o2 :
  inputs_of h2 o2 = inputs_of h o -> o_frq o2 = o_frq o -> o_angles o2 = o_angles o -> o_sat o2 = o_sat o -> olds_of o2 = olds_of o ->
  seen (execute db g h2 o2) = seen (execute db g h o).
Proof.
  intros E1 E2 E3 E4 E5. unfold execute. destruct (init_linelist db g) as [g1|]; [|reflexivity]. cbn [bind].
  rewrite E1, E2, E3, E4, E5. destruct (run_all _ _ _ _ _) as [r|]; [|reflexivity]. cbn [bind seen].
  unfold run_effect. rewrite E2, E3. reflexivity.
Qed.

Section Ctor.
Context {A : Arith}.
Variables (h : heap A) (z p t rh : addr) (frq angles : list (car A)) (o3n : option addr).

(** A new solver sees a black surface: setting the emissivity to 1.0 changes nothing in what a run gives. *)
Theorem C112_black_surface amu m ray sat cl h' o :
  tb_init h z p t rh frq angles o3n amu m ray sat cl = (h', Ok o) ->
  length (hget h p) = length (hget h z) -> length (hget h t) = length (hget h z) -> length (hget h rh) = length (hget h z) ->
  (forall a, o3n = Some a -> length (hget h a) = length (hget h z)) ->
  exists h2 o2, set_emissivity h' o (VFloat (lit 1.0)) = (h2, Ok o2) /\
    forall db g, seen (execute db g h2 o2) = seen (execute db g h' o).
Proof.
  intros H Hp Ht Hrh Ho3.
  destruct (tb_init_wf h h' z p t rh frq angles o3n amu m ray sat cl o H Hp Ht Hrh Ho3)
    as (W & Hes & Hcl & Hf & Ha & _ & _ & _ & _ & _ & Hd & _ & _ & _ & _ & _ & _ & _ & _ & _ & Ees).
  eexists _, _. split; [reflexivity|]. intros db g.
  destruct (C46_emissivity_frame A h' o (VFloat (lit 1.0)) (with_es o (length h')) W eq_refl) as (E & E1 & E2 & E3 & E4).
  apply seen_inputs; auto. etransitivity; [exact E|].
  assert (X : hget (fst (set_emissivity h' o (VFloat (lit 1.0)))) (length h') = hget h' (o_es o)).
  { rewrite Ees. cbn [set_emissivity halloc fst]. rewrite Hf. apply (hget_alloc_new h'). }
  cbn [with_es o_es]. rewrite X. unfold set_es, inputs_of. reflexivity.
Qed.

(** Options of the constructor and the same options set afterwards give the same solver. *)
Theorem C112_options amu m ray sat cl :
  let ctor := tb_init h z p t rh frq angles o3n in
  (forall a, ctor (Some a) m ray sat cl = after (ctor amu m ray sat cl) (fun o => Ok (set_amu o (Some a)))) /\
  (forall b, ctor amu m ray b cl = after (ctor amu m ray sat cl) (fun o => set_satellite o (VBool b))) /\
  (forall b, ctor amu m ray sat b = after (ctor amu m ray sat cl) (fun o => Ok (with_cloudy o b))).
Proof.
  intros ctor. unfold ctor, tb_init, after. destruct (bool_gt0 _); [|repeat split].
  destruct (hget h z) as [|z0 zs]; [repeat split|]. cbn [halloc]. destruct (String.eqb m ""); repeat split.
Qed.

(** A clear-sky run of a new solver reports zero in every cloud column. *)
Theorem C112_clear_columns amu m ray sat h' o db g fr full o' g' :
  tb_init h z p t rh frq angles o3n amu m ray sat false = (h', Ok o) ->
  length (hget h p) = length (hget h z) -> length (hget h t) = length (hget h z) -> length (hget h rh) = length (hget h z) ->
  (forall a, o3n = Some a -> length (hget h a) = length (hget h z)) ->
  execute db g h' o = Ok (fr, full, o', g') ->
  (forall k dr, k < length angles * length frq ->
     let r := nth k fr dr in
     r_tmrcld r = lit 0 /\ r_tauliq r = lit 0 /\ r_tauice r = lit 0) /\
  (forall k da, k < length angles -> an_sliq (nth k full da) = lit 0 /\ an_sice (nth k full da) = lit 0).
Proof.
  intros H Hp Ht Hrh Ho3 Hx.
  destruct (tb_init_wf h h' z p t rh frq angles o3n amu m ray sat false o H Hp Ht Hrh Ho3)
    as (W & _ & Hcl & Hf & Ha & _ & _ & _ & _ & _ & _ & _ & _ & _ & _ & _ & _ & Hz & _).
  assert (Hsl : forall k, k < length angles -> nth k (olds_of o) ([], (lit 0, lit 0)) = (nth k (o_cells o) [], (lit 0, lit 0))).
  { intros k Hk. rewrite (olds_nth h' o k (lit 0) W) by (rewrite Ha; auto). f_equal.
    unfold tb_init, bool_gt0 in H. destruct (all_truthy _); [|discriminate].
    destruct (hget h z) as [|z0 zs]; [discriminate|]. cbn [halloc] in H.
    destruct (String.eqb m ""); inversion H. cbn [o_sliq o_sice]. rewrite !nth_repeat. reflexivity. }
  assert (HR := Hx). apply execute_inv in HR. destruct HR as (g1 & r & _ & Hr & _ & Hfull & _ & _).
  destruct (run_shape _ _ h' o r W Hr) as [Lr _]. split.
  - intros k dr Hk. cbv zeta.
    assert (Hn : length frq <> 0) by (intros E; rewrite E in Hk; lia).
    destruct (execute_cell A db g h' o fr full o' g' W Hx) as (g2 & e & rho & dryn & wetn & refindx & _ & _ & _ & _ & _ & _ & C).
    specialize (C (k / length frq) (k mod length frq) (lit 0) (zero_cell 0) dr (mkAngle (lit 0) (lit 0) (lit 0) (lit 0) (lit 0) [])).
    rewrite Ha, Hf in C.
    destruct C as (ds & es & x & c & _ & _ & _ & I1 & I2 & Hc & Ex & _).
    { apply Nat.div_lt_upper_bound; auto. lia. }
    { apply Nat.mod_upper_bound; auto. }
    replace (k / length frq * length frq + k mod length frq) with k in Ex by (rewrite (Nat.div_mod k (length frq)) at 1; auto; lia).
    rewrite (Hz _ _ I1 I2) in Hc. rewrite <- Ex. clear - Hc Hcl.
    unfold run_cell in Hc. cbn [inputs_of i_cloudy] in Hc. rewrite Hcl in Hc.
    destruct (clearsky_absorption _ _ _ _ _ _ _) as [[awet adry]|]; [|discriminate]. cbn [bind] in Hc.
    destruct (exponential_integration true awet _ _ _ _) as [w|]; [|discriminate]. cbn [bind] in Hc.
    destruct (exponential_integration true adry _ _ _ _) as [d|]; [|discriminate]. cbn [bind] in Hc.
    destruct (planck _ _ _ _ _) as [pl|]; [|discriminate]. cbn [bind] in Hc.
    destruct (py_get _ _) as [al|]; [|discriminate]. cbn [bind] in Hc. inversion Hc. repeat split.
  - intros k da Hk. rewrite Hfull.
    apply run_all_inv in Hr. destruct Hr as (e & rho & dryn & wetn & refindx & _ & _ & Hm).
    pose (dx := (da, ([], (lit 0, lit 0))) : angle_full A * (list (cell A) * (car A * car A))).
    assert (Hkr := mapM_nth _ _ r k (lit 0, ([], (lit 0, lit 0))) dx Hm).
    assert (Lo := olds_length h' o W). rewrite combine_nth in Hkr by auto. rewrite Hsl in Hkr by auto.
    assert (Lc : k < length (combine (o_angles o) (olds_of o))) by (rewrite combine_length, Ha in *; lia).
    specialize (Hkr Lc). cbn [fst snd] in Hkr.
    rewrite (nth_map_d fst _ _ dx) by (rewrite Lr, Ha; auto). revert Hkr. generalize (nth k r dx). clear - Hcl. intros y Hy.
    unfold run_angle in Hy. cbn [inputs_of i_cloudy] in Hy. rewrite Hcl in Hy.
    destruct (path_ds _ _ _) as [ds|]; [|discriminate]. cbn [bind] in Hy.
    destruct (exponential_integration true rho _ _ _ _) as [w|]; [|discriminate]. cbn [bind] in Hy.
    destruct (exponential_integration true wetn _ _ _ _) as [w2|]; [|discriminate]. cbn [bind] in Hy.
    destruct (exponential_integration true dryn _ _ _ _) as [w3|]; [|discriminate]. cbn [bind] in Hy.
    destruct (run_freqs _ _ _ _ _ _ _ _) as [xs|]; [|discriminate]. cbn [bind] in Hy. inversion Hy. split; reflexivity.
Qed.
End Ctor.

(** A solver to which the theorems apply: three levels, two frequencies, three angles. *)
Example C112_example sat : exists h o, ex_init sat false = (h, Ok o) /\
  exists h2 o2, set_emissivity h o (VFloat (lit 1.0)) = (h2, Ok o2) /\
    forall db g, seen (execute db g h2 o2) = seen (execute db g h o).
Proof.
  destruct (ex_init_ok sat false) as (h & o & H). exists h, o. split; [exact H|].
  apply (C112_black_surface _ _ _ _ _ _ _ _ _ _ _ _ _ _ _ H); try reflexivity. discriminate.
Qed.
