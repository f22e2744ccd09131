(** Claim C113: what happens when a model or a line list was not selected. *)

From Coq Require Import ZArith Reals Lra Lia String List Bool.
Import ListNotations.
From Verif Require Import Arith PyBase Utils RTE Absorption Clear Spectrum ListAux RealAux SolverGen SolverRun Registry
  PropsModels PropsSolverX PropsRun SolverExamples.
Local Open Scope string_scope.

(** The names for which an ozone profile is used. *)
Definition ozone_names := ["R18"; "R21"; "R21SD"; "R22"; "R22SD"; "R23"; "R23SD"; "R24"].

(** A level result with humid air exists only if the water-vapour, oxygen and nitrogen models were all selected and both line lists loaded. *)
Theorem C113_level g amu f p t e o3 x : e <> 0%R -> t <> 0%R ->
  clearsky_level (A:=RA) g amu f p t e o3 = Ok x ->
  g_h2o g <> None /\ g_h2oll g <> None /\ g_o2ll g <> None /\ g_n2 g <> None.
Proof.
  intros He Ht H. unfold clearsky_level in H. cbv zeta in H.
  apply bind_Ok in H. destruct H as (w & Hw & H). apply bind_Ok in H. destruct H as (o & Ho & H).
  apply bind_Ok in H. destruct H as (n & Hn & _).
  assert (S3 : g_o2ll g <> None) by (unfold o2_call in Ho; destruct (g_o2ll g); [discriminate|discriminate Ho]).
  assert (S4 : g_n2 g <> None) by (unfold n2_call in Hn; destruct (g_n2 g); [discriminate|discriminate Hn]).
  assert (S12 : g_h2o g <> None /\ g_h2oll g <> None); [|repeat split; auto; apply S12].
  unfold h2o_call in Hw.
  assert (Z : eqb (a:=RA) (e_rho (h2o_env_of (A:=RA) (mname (g_h2o g))
     (sub (a:=RA) (div (a:=RA) p (lit 10.0)) (div (a:=RA) e (lit 10.0))) (div (a:=RA) (lit 300.0) t) (div (a:=RA) e (lit 10.0)))) (lit 0) = false).
  { apply Reqb_false. cbn [h2o_env_of e_rho]. ra. intros E.
    assert (P : (e / (100 / 10) * (100 / 10) <> 0)%R) by (intros P; apply He; lra).
    apply P.
    assert (Q : ((1 / 100 * (831451 / 100000) / (1801528 / 100000) * (3000 / 10 / (3000 / 10 / t))) <> 0)%R).
    { replace (3000 / 10 / (3000 / 10 / t))%R with t by (field; auto). intros Q. apply Ht. nra. }
    replace (e / (100 / 10) * (100 / 10))%R with (e / (100 / 10) * (100 / 10) /
      (1 / 100 * (831451 / 100000) / (1801528 / 100000) * (3000 / 10 / (3000 / 10 / t))) *
      (1 / 100 * (831451 / 100000) / (1801528 / 100000) * (3000 / 10 / (3000 / 10 / t))))%R by (field; auto).
    rewrite E. lra. }
  destruct (g_h2o g) as [m|], (g_h2oll g) as [ll|]; try (split; discriminate).
  all: exfalso; destruct amu; [discriminate Hw|]; cbv beta iota in Hw.
  all: match type of Hw with (if ?b then _ else _) = _ => replace b with false in Hw by (symmetry; exact Z) end; discriminate Hw.
Qed.

(** Ozone: with a profile but without line list the call raises for the names that use it and is silently zero for all others. *)
Theorem C113_ozone g t p f n : n <> 0%R -> g_o3ll g = None ->
  (In (mname (g_o3 g)) ozone_names -> o3_call (A:=RA) g None t p f (Some n) = Err AttributeError) /\
  (~ In (mname (g_o3 g)) ozone_names -> o3_call (A:=RA) g None t p f (Some n) = Ok 0%R).
Proof.
  intros Hn Hll. unfold o3_call. rewrite Hll. split; intros H.
  - replace (str_in (mname (g_o3 g)) o3_models) with true.
    + match goal with |- context [@eqb ?A ?a ?b] => replace (@eqb A a b) with false by (symmetry; apply Reqb_false; ra; lra) end. reflexivity.
    + symmetry. apply existsb_exists. exists (mname (g_o3 g)). split; [exact H|apply String.eqb_refl].
  - replace (str_in (mname (g_o3 g)) o3_models) with false.
    + f_equal. ra. lra.
    + symmetry. destruct (str_in _ _) eqn:E; auto. exfalso. apply H. apply existsb_exists in E. destruct E as (y & Hy & E).
      apply String.eqb_eq in E. rewrite E. exact Hy.
Qed.

(** A run without selection: the water-vapour and oxygen models are asked for first, the nitrogen model at the first level. *)
Theorem C113_run (A : Arith) db (g : globals A) h o : wf h o ->
  (g_h2o g = None \/ g_o2 g = None -> execute db g h o = Err AbsModelError) /\
  (g_n2 g = None -> o_frq o <> [] -> o_angles o <> [] -> forall x, execute db g h o <> Ok x).
Proof.
  intros W. split.
  - intros H. unfold execute, init_linelist, set_ll_h2o. destruct (g_h2o g) as [m|] eqn:E1; [|reflexivity].
    destruct H as [H|H]; [discriminate|]. destruct (db_h2o db m) as [ll|]; [|reflexivity]. cbn [bind]. unfold set_ll_o2. cbn [with_h2oll g_o2].
    rewrite H. reflexivity.
  - intros Hn Hf Ha [[[fr full] o'] g'] H.
    destruct (execute_cell A db g h o fr full o' g' W H) as (g1 & e & rho & dryn & wetn & refindx & Hg & _ & _ & Le & _ & _ & C).
    assert (d0 := lit (a:=A) 0).
    destruct (C 0%nat 0%nat d0 (zero_cell 0) (mkRow d0 d0 d0 d0 d0 d0 d0 d0 d0) (mkAngle d0 d0 d0 d0 d0 []))
      as (ds & es & x & c & _ & _ & _ & _ & _ & Hc & _).
    { destruct (o_angles o); [congruence|simpl; lia]. }
    { destruct (o_frq o); [congruence|simpl; lia]. }
    assert (N1 : g_n2 (with_sat g1 (o_sat o)) = None).
    { unfold init_linelist, set_ll_h2o in Hg. destruct (g_h2o g); [|discriminate]. destruct (db_h2o db s); [|discriminate]. cbn [bind] in Hg.
      unfold set_ll_o2 in Hg. destruct (g_o2 _); [|discriminate]. destruct (db_o2 db s0); [|discriminate]. inversion Hg. exact Hn. }
    unfold run_cell in Hc. apply bind_Ok in Hc. destruct Hc as (a & Hc & _). unfold clearsky_absorption in Hc.
    apply bind_Ok in Hc. destruct Hc as (r & Hr & _).
    assert (Hl := wf_nl _ _ W). cbn [inputs_of i_p i_tk i_o3n] in Hr.
    assert (L1 := wf_p _ _ W). assert (L2 := wf_tk _ _ W).
    assert (L4 : length (with_o3 (length (hget h (o_p o))) (option_map (hget h) (o_o3n o))) = o_nl o).
    { unfold with_o3. destruct (o_o3n o) as [ad|] eqn:Eo; cbn [option_map]; [rewrite map_length; apply (wf_o3n _ _ W); auto|rewrite repeat_length; auto]. }
    destruct (hget h (o_p o)) as [|p0 ps]; [simpl in L1; congruence|].
    destruct (hget h (o_tk o)) as [|t0 ts]; [simpl in L2; congruence|].
    destruct e as [|e0 es0]; [simpl in Le; congruence|].
    destruct (with_o3 _ _) as [|o0 os]; [simpl in L4; congruence|].
    cbn [combine mapM] in Hr. apply bind_Ok in Hr. destruct Hr as (y & Hy & _).
    unfold clearsky_level in Hy. cbv zeta in Hy. apply bind_Ok in Hy. destruct Hy as (w & _ & Hy).
    apply bind_Ok in Hy. destruct Hy as (o2 & _ & Hy). apply bind_Ok in Hy. destruct Hy as (an & Hy & _).
    unfold n2_call in Hy. rewrite N1 in Hy. discriminate.
Qed.

(** A solver that never had a model selected. *)
Example C113_example (db : lldb XA) (g : globals XA) : g_h2o g = None -> exists h o, ex_init true false = (h, Ok o) /\
  execute db g h o = Err AbsModelError.
Proof.
  intros Hg. destruct (ex_init_ok true false) as (h & o & H). exists h, o. split; [exact H|].
  apply (C113_run XA db g h o); [|left; exact Hg]. apply (ex_init_facts _ _ _ _ H).
Qed.
