(** Claims C63, C90 and C91: weighting functions. *)

From Coq Require Import ZArith Reals Lra Lia String List Bool.
Import ListNotations.
From Verif Require Import Arith PyBase Utils RTE Absorption Clear Spectrum Spec ListAux RealAux SolverGen SolverRun Registry PropsRun PropsHistory PropsObject
  PropsModels PropsSolverX Integral PropsRay Weighting WeightingGen.
Local Open Scope nat_scope.
Local Open Scope string_scope.

(** ** Every arithmetic: rows do not depend on the other frequencies, nor on the models selected before *)

Section Generic.
Context {A : Arith}.
Notation num := (car A).

Lemma tau_row_length n (r : row_full A) : full_row n r -> length (tau_row r) = n.
Proof.
  intros [H1 H2 H3 H4 _ _]. unfold tau_row.
  assert (L1 : length (map2 add (f_ptauwet r) (f_ptaudry r)) = n) by (rewrite map2_length; congruence).
  assert (L2 : length (map2 add (map2 add (f_ptauwet r) (f_ptaudry r)) (f_ptauliq r)) = n).
  { rewrite map2_length; [auto|]. rewrite L1, H3, repeat_length. reflexivity. }
  rewrite map2_length; [auto|]. rewrite L2, H4, repeat_length. reflexivity.
Qed.
Lemma abs_row_length n (r : row_full A) : full_row n r -> length (abs_row r) = n.
Proof. intros [_ _ _ _ H1 H2]. unfold abs_row. rewrite map2_length; congruence. Qed.

Lemma arg_loop_range (better : num -> num -> bool) (l : list num) : forall i best v, best < i -> arg_loop better l i best v < i + length l.
Proof.
  induction l as [|x l IH]; intros i best v H; simpl; [lia|].
  destruct (better x v); [assert (G := IH (S i) i x)|assert (G := IH (S i) best v)]; lia.
Qed.
Lemma np_arg_range (better : num -> num -> bool) (l : list num) k : np_arg better l = Ok k -> k < length l.
Proof.
  destruct l as [|x l]; intros H; inversion H. simpl. apply (arg_loop_range better l 1 0 x). lia.
Qed.

(** What [generate_wf] returns, in terms of the full output of its run. *)
Lemma generate_inv db (g : globals A) h w frq ev h' wgt g' : wfo h w -> w_frq w = Some frq -> w_es w = VFloat ev -> frq <> [] ->
  generate_wf db g h w = (h', Ok (wgt, g')) ->
  exists af l0 z0, perform db g h w = (h', Ok ([af], g')) /\ length (an_rows af) = length frq /\
    (forall r, In r (an_rows af) -> full_row (length (hget h (w_z w))) r) /\
    length (hget h' (w_z w)) = length (hget h (w_z w)) /\
    py_get (hget h' (w_z w)) (if w_sat w then -1 else 0)%Z = Ok z0 /\
    np_argmin (map (fun x => absv (sub x z0)) (hget h' (w_z w))) = Ok l0 /\
    wgt = map (fun r => row_weights (w_sat w) l0 (tau_row r) (abs_row r)) (an_rows af).
Proof.
  intros K Hf He Hne H. unfold generate_wf in H. destruct (perform db g h w) as [h1 [[full g1]|e]] eqn:E; [|inversion H].
  injection H as -> H. destruct (perform_rows db g h w frq ev h' full g1 K Hf He E) as (af & -> & L & Hr & z0' & zs & Ez & Eh).
  inv_bind H z0 Ez0. inv_bind H l0 El. cbn in H. inversion H. subst g1. clear H.
  assert (Lz : length (hget h' (w_z w)) = length (hget h (w_z w))).
  { subst h'. rewrite wheap_get by (apply hget_valid; rewrite Ez; discriminate). apply hget_len_set. apply map_length. }
  exists af, l0, z0. repeat (split; [assumption || reflexivity|]).
  assert (Hl0 := np_arg_range _ _ _ El). rewrite map_length, Lz in Hl0.
  rewrite (weights_rows (w_sat w) l0 (length (hget h (w_z w)))).
  - rewrite <- (map_map (fun r => (tau_row r, abs_row r)) (fun '(t, a) => row_weights (w_sat w) l0 t a)). f_equal.
    clear. induction (an_rows af) as [|x l IH]; [reflexivity|]. simpl. f_equal. apply IH.
  - intros r Hin. apply in_map_iff in Hin. destruct Hin as (x & <- & Hx). apply tau_row_length; auto.
  - intros r Hin. apply in_map_iff in Hin. destruct Hin as (x & <- & Hx). apply abs_row_length; auto.
  - rewrite !map_length. reflexivity.
  - destruct (an_rows af); [|discriminate]. destruct frq; [congruence|discriminate].
  - unfold cut. destruct (w_sat w); lia.
Qed.

(** Each frequency is processed independently of the others: row [j] is the row obtained with that frequency alone. *)
Theorem C63_frequencies_independent db (g : globals A) h w frq ev h' wgt g' d : wfo h w -> w_frq w = Some frq -> w_es w = VFloat ev ->
  frq <> [] -> generate_wf db g h w = (h', Ok (wgt, g')) ->
  length wgt = length frq /\
  forall j, j < length frq -> exists h1 g1, generate_wf db g h (one_freq w (nth j frq d)) = (h1, Ok ([nth j wgt []], g1)).
Proof.
  intros K Hf He Hne H. destruct (generate_inv _ _ _ _ _ _ _ _ _ K Hf He Hne H) as (af & l0 & z0 & Hp & L & Hr & Lz & Ez0 & El & ->).
  split; [rewrite map_length; auto|]. intros j Hj.
  pose (dr := mkFull (mkRow (lit 0) (lit 0) (lit 0) (lit 0) (lit 0) (lit 0) (lit 0) (lit 0) (lit 0)) [] [] [] [] [] [] : row_full A).
  destruct (perform_single db g h w frq ev h' af g' j d dr K Hf He Hp Hj) as (h1 & af1 & g1 & Hp1 & Hrows & Hz).
  exists h1, g1. unfold generate_wf. rewrite Hp1. cbn [one_freq w_z w_sat]. rewrite Hz, Ez0. cbn [bind]. rewrite El. cbn [bind].
  change (py_get [af1] 0) with (@Ok (angle_full A) af1). cbn [bind]. rewrite Hrows.
  assert (Hin : In (nth j (an_rows af) dr) (an_rows af)) by (apply nth_In; lia).
  assert (Hl0 := np_arg_range _ _ _ El). rewrite map_length, Lz in Hl0.
  rewrite (weights_rows (w_sat w) l0 (length (hget h (w_z w)))); cbn [map combine length]; auto.
  - rewrite (nth_map_d _ _ _ dr) by lia. reflexivity.
  - intros r [<-|[]]. apply tau_row_length; auto.
  - intros r [<-|[]]. apply abs_row_length; auto.
  - discriminate.
  - unfold cut. destruct (w_sat w); lia.
Qed.

(** ** C91 *)

(** Same returned array; the class state is not compared. *)
Definition wf_returned (r : result (matrix A * globals A)) : result (matrix A) := do x <- r; Ok (fst x).

(** The result does not depend on any model selection, line list or view direction left by earlier calls. *)
Theorem C91_history_independent db (g1 g2 : globals A) h w :
  fst (generate_wf db g1 h w) = fst (generate_wf db g2 h w) /\
  wf_returned (snd (generate_wf db g1 h w)) = wf_returned (snd (generate_wf db g2 h w)).
Proof.
  unfold generate_wf, perform. destruct (w_frq w) as [frq|]; [|split; reflexivity].
  destruct (tb_init h (w_z w) (w_p w) (w_t w) (w_rh w) frq [w_angle w] None None "" true true false) as [h1 [o|e]] eqn:Ei; [|split; reflexivity].
  cbn [set_satellite].
  set (o1 := mkObj _ _ _ _ _ _ _ _ _ _ _ _ _ _ _ _ _ _ _ _ _).
  assert (Ho3 : o_o3n o1 = None).
  { unfold o1. cbn. unfold tb_init, bool_gt0, bool_lt0 in Ei. destruct (all_truthy _); [|discriminate].
    destruct (hget h (w_z w)); [discriminate|]. cbn [halloc] in Ei. change (String.eqb "" "") with true in Ei. inversion Ei. reflexivity. }
  destruct (set_emissivity h1 o1 (w_es w)) as [h2 [o2|e]] eqn:Ee; [|split; reflexivity].
  assert (Ho3' : o_o3n o2 = None).
  { unfold set_emissivity in Ee. destruct (w_es w); inversion Ee; subst; exact Ho3. }
  unfold set_ll_o2. cbn [with_o2 g_o2]. destruct (db_o2 db last_oxygen) as [ll|] eqn:Eo2; [|split; reflexivity]. cbn [bind].
  assert (X : forall g, wf_returned (do x <- (do x <- execute db (with_o2ll (with_o2 (init_absmdl g (w_model w)) last_oxygen) (Some ll)) h2 o2; (let '(_, full, _, g3) := x in Ok (full, g3)));
     (let '(full, g') := x in
      do z0 <- py_get (hget h2 (w_z w)) (if w_sat w then -1 else 0)%Z;
      do l0 <- np_argmin (map (fun x => absv (sub x z0)) (hget h2 (w_z w)));
      do af <- py_get full 0;
      Ok (weights (w_sat w) l0 (map tau_row (an_rows af)) (map abs_row (an_rows af)), g'))) =
    (do x <- match db_h2o db (w_model w) with
             | Some ll2 => run_all (mkGlobals (Some (w_model w)) (Some last_oxygen) (Some (w_model w)) (Some (w_model w)) None (Some ll2) (Some ll) None (o_sat o2) (lit 0))
                            (inputs_of h2 o2) (o_frq o2) (o_angles o2) (olds_of o2)
             | None => Err AbsModelError end;
      do z0 <- py_get (hget h2 (w_z w)) (if w_sat w then -1 else 0)%Z;
      do l0 <- np_argmin (map (fun x => absv (sub x z0)) (hget h2 (w_z w)));
      do af <- py_get (map fst x) 0;
      Ok (weights (w_sat w) l0 (map tau_row (an_rows af)) (map abs_row (an_rows af))))).
  { intros g. unfold execute, init_linelist, set_ll_h2o. cbn [with_o2ll with_o2 init_absmdl g_h2o].
    destruct (db_h2o db (w_model w)) as [ll2|]; [|reflexivity]. cbn [bind]. unfold set_ll_o2. cbn [with_h2oll with_o2ll with_o2 init_absmdl g_o2].
    rewrite Eo2. cbn [bind].
    match goal with |- context [run_all (with_sat ?G _)] => set (gg := G) end.
    rewrite (run_all_agree (with_sat gg (o_sat o2)) (mkGlobals (Some (w_model w)) (Some last_oxygen) (Some (w_model w)) (Some (w_model w)) None (Some ll2) (Some ll) None (o_sat o2) (lit 0))).
    - destruct (run_all _ (inputs_of h2 o2) _ _ _) as [r|]; [|reflexivity]. cbn [bind].
      destruct (py_get (hget h2 (w_z w)) _); [|reflexivity]. cbn [bind]. destruct (np_argmin _); [|reflexivity]. cbn [bind].
      destruct (py_get (map fst r) 0); reflexivity.
    - unfold inputs_of. cbn [i_o3n]. rewrite Ho3'. cbn. unfold gg. cbn. repeat split; try reflexivity; discriminate. }
  match type of X with forall _, _ = ?R => set (rhs := R) in X end.
  assert (Y : forall g, wf_returned (snd (match (h2, do x <- execute db (with_o2ll (with_o2 (init_absmdl g (w_model w)) last_oxygen) (Some ll)) h2 o2; (let '(_, full, _, g3) := x in Ok (full, g3))) with
      | (h', Ok (full, g')) => (h', 
          do z0 <- py_get (hget h' (w_z w)) (if w_sat w then -1 else 0)%Z;
          do l0 <- np_argmin (map (fun x => absv (sub x z0)) (hget h' (w_z w)));
          do af <- py_get full 0;
          Ok (weights (w_sat w) l0 (map tau_row (an_rows af)) (map abs_row (an_rows af)), g'))
      | (h', Err e) => (h', Err e) end)) = rhs) by (intros g; rewrite <- (X g); destruct (execute db _ h2 o2) as [[[[? ?] ?] ?]|]; reflexivity).
  split.
  - destruct (execute db (with_o2ll (with_o2 (init_absmdl g1 _) _) _) h2 o2) as [[[[? ?] ?] ?]|]; destruct (execute db (with_o2ll (with_o2 (init_absmdl g2 _) _) _) h2 o2) as [[[[? ?] ?] ?]|]; reflexivity.
  - etransitivity; [apply Y|symmetry; apply Y].
Qed.

(** The oxygen model used, and left selected in the shared class, is the newest one whatever [model] says; the other gases follow [model]. *)
Theorem C91_oxygen_always_newest db (g : globals A) h w h' wgt g' : generate_wf db g h w = (h', Ok (wgt, g')) ->
  g_o2 g' = Some (last o2_names "") /\ db_o2 db (last o2_names "") <> None /\
  g_h2o g' = Some (w_model w) /\ g_n2 g' = Some (w_model w) /\ g_liq g' = Some (w_model w) /\ g_o3 g' = g_o3 g.
Proof.
  unfold generate_wf. destruct (perform db g h w) as [h1 [[full g1]|e]] eqn:E; [|discriminate].
  intros H. injection H as _ H. inv_bind H z0 Ez0. inv_bind H l0 El. inv_bind H af Eaf. inversion H; subst. clear H.
  unfold perform in E. destruct (w_frq w); [|discriminate].
  destruct (tb_init _ _ _ _ _ _ _ _ _ _ _ _ _) as [h2 [o|]]; [|discriminate]. cbn [set_satellite] in E.
  destruct (set_emissivity _ _ _) as [h3 [o2|]]; [|discriminate]. injection E as _ E. inv_bind E g2 Eg. inv_bind E x Ex.
  destruct x as [[[fr fu] o'] g3]. inversion E; subst. clear E.
  unfold set_ll_o2 in Eg. cbn [with_o2 g_o2] in Eg. destruct (db_o2 db last_oxygen) as [ll|] eqn:Eo2; [|discriminate]. inversion Eg; subst. clear Eg.
  apply execute_inv in Ex. destruct Ex as (g1 & r & Hll & _ & _ & _ & _ & ->).
  unfold init_linelist, set_ll_h2o, set_ll_o2 in Hll. cbn [with_o2ll with_o2 init_absmdl g_h2o] in Hll. destruct (db_h2o db (w_model w)); [|discriminate].
  cbn [bind with_h2oll with_o2ll with_o2 init_absmdl g_o2] in Hll. rewrite Eo2 in Hll. inversion Hll; subst. clear Hll.
  change (last o2_names "") with last_oxygen. rewrite Eo2.
  assert (G : forall gg : globals A, g_o2 gg = Some last_oxygen -> g_h2o gg = Some (w_model w) -> g_n2 gg = Some (w_model w) -> g_liq gg = Some (w_model w) ->
    g_o3 gg = g_o3 g ->
    let ge := run_effect gg o2 (inputs_of h3 o2) in
    g_o2 ge = Some last_oxygen /\ g_h2o ge = Some (w_model w) /\ g_n2 ge = Some (w_model w) /\ g_liq ge = Some (w_model w) /\ g_o3 ge = g_o3 g).
  { intros gg H1 H2 H3 H4 H5. cbv zeta. unfold run_effect. destruct (Nat.eqb _ 0); [cbn; auto|].
    unfold clearsky_effect. destruct (i_amu _); cbn; auto. }
  destruct (G (with_sat (with_o2ll (with_h2oll (with_o2ll (with_o2 (init_absmdl g (w_model w)) last_oxygen) (Some ll)) (Some h0)) (Some ll)) (o_sat o2)) eq_refl eq_refl eq_refl eq_refl eq_refl)
    as (E1 & E2 & E3 & E4 & E5). repeat split; try assumption. discriminate.
Qed.

End Generic.

(** ** Ideal reals *)

Open Scope R_scope.

Definition growing (z : list R) : Prop := forall i, (S i < length z)%nat -> nth i z 0 < nth (S i) z 0.

Lemma growing_lt z : growing z -> forall i j, (i < j < length z)%nat -> nth i z 0 < nth j z 0.
Proof.
  intros H i j. induction j as [|j IH]; intros [H1 H2]; [lia|].
  destruct (Nat.eq_dec i j) as [->|N]; [apply H; auto|].
  apply Rlt_trans with (nth j z 0); [apply IH; lia|apply H; auto].
Qed.

Lemma growing_shift z c : growing z -> growing (map (fun x => x - c) z).
Proof.
  intros H i Hi. rewrite map_length in Hi. rewrite !(nth_map_d (fun x => x - c) _ _ 0) by lia. assert (G := H i Hi). lra.
Qed.

Lemma arg_loop_min (l : list R) : forall pre i best v, i = length pre -> (best < i)%nat -> nth best pre 0 = v -> (forall x, In x pre -> v <= x) ->
  forall x, In x (pre ++ l) -> nth (arg_loop (A:=RA) Rltb l i best v) (pre ++ l) 0 <= x.
Proof.
  induction l as [|y l IH]; intros pre i best v Hi Hb Hv Hmin x Hx.
  - simpl. rewrite app_nil_r in Hx |- *. rewrite Hv. auto.
  - simpl. replace (pre ++ y :: l)%list with ((pre ++ [y]) ++ l)%list in * by (rewrite <- app_assoc; reflexivity).
    destruct (Rltb_spec y v).
    + apply IH; auto.
      * rewrite app_length. simpl. lia.
      * rewrite app_nth2 by lia. subst i. rewrite Nat.sub_diag. reflexivity.
      * intros u Hu. apply in_app_or in Hu. destruct Hu as [Hu|[<-|[]]]; [apply Hmin in Hu; lra|lra].
    + apply IH; auto.
      * rewrite app_length. simpl. lia.
      * rewrite app_nth1 by lia. auto.
      * intros u Hu. apply in_app_or in Hu. destruct Hu as [Hu|[<-|[]]]; [auto|lra].
Qed.

Lemma argmin_min (l : list R) k : np_argmin (A:=RA) l = Ok k -> forall x, In x l -> nth k l 0 <= x.
Proof.
  destruct l as [|y l]; intros H; [discriminate|]. injection H as <-.
  intros x Hx. apply (arg_loop_min l [y] 1 0 y); auto. intros u [<-|[]]; lra.
Qed.

(** The level nearest to level [m] of a strictly increasing grid is level [m]. *)
Lemma argmin_self (z : list R) m k : growing z -> (m < length z)%nat ->
  np_argmin (A:=RA) (map (fun x => Rabs (x - nth m z 0)) z) = Ok k -> k = m.
Proof.
  intros G Hm H. assert (Hk := np_arg_range _ _ _ H). rewrite map_length in Hk.
  assert (M := argmin_min _ _ H). specialize (M 0).
  assert (I : In 0 (map (fun x => Rabs (x - nth m z 0)) z)).
  { apply in_map_iff. exists (nth m z 0). split; [|apply nth_In; auto]. rewrite Rminus_diag_eq by auto. apply Rabs_R0. }
  specialize (M I). rewrite (nth_map_d _ _ _ 0) in M by auto.
  destruct (Nat.lt_trichotomy k m) as [L|[L|L]]; auto.
  - assert (Q := growing_lt z G k m ltac:(lia)). rewrite Rabs_left in M; lra.
  - assert (Q := growing_lt z G m k ltac:(lia)). rewrite Rabs_right in M; lra.
Qed.

Lemma cumsum_from_nth (l : list R) : forall acc k, (k < length l)%nat ->
  nth k (cumsum_from (A:=RA) acc l) 0 = acc + rsum (S k) (fun i => nth i l 0).
Proof.
  induction l as [|x l IH]; intros acc k Hk; [simpl in Hk; lia|]. destruct k as [|k].
  - simpl. lra.
  - cbn [cumsum_from nth]. rewrite IH by (simpl in Hk; lia). ra.
    change (S (S k)) with (1 + S k)%nat. rewrite (rsum_split 1 (S k)). cbn [rsum nth Nat.add]. lra.
Qed.

Lemma cumsum_nth (l : list R) k : (k < length l)%nat -> nth k (cumsum (A:=RA) l) 0 = rsum (S k) (fun i => nth i l 0).
Proof.
  destruct l as [|x l]; intros H; [simpl in H; lia|]. destruct k as [|k]; [simpl; lra|].
  cbn [cumsum nth]. rewrite cumsum_from_nth by (simpl in H; lia).
  change (S (S k)) with (1 + S k)%nat. rewrite (rsum_split 1 (S k)). cbn [rsum nth Nat.add]. lra.
Qed.

(** Opacity accumulated by the code between the sensor and level [k] of [n], from the layer opacities [t] (layer [i] lies below level [i]). *)
Definition seen_from (sat : bool) (n : nat) (t : nat -> R) (k : nat) : R :=
  if sat then rsum (n - k) (fun i => t (k + i)%nat) else rsum (S k) t.

(** The row computed by the code when the reference level is the sensor's. *)
Lemma row_weights_nth (sat : bool) (t a : list R) k : length t = length a -> (k < length t)%nat ->
  let l0 := if sat then (length t - 1)%nat else 0%nat in
  nth k (row_weights (A:=RA) sat l0 t a) 0 = exp (- seen_from sat (length t) (fun i => nth i t 0) k) * nth k a 0.
Proof.
  intros L Hk l0. unfold row_weights.
  assert (Hl : (if sat then @firstn (car RA) (l0 + 1) a else @skipn (car RA) l0 a) = a).
  { unfold l0. destruct sat; [|reflexivity]. apply firstn_all2. change (car RA) with R. lia. }
  rewrite Hl. rewrite (map2_nth (A:=RA) Rmult _ 0 0).
  2:{ rewrite row_trans_length. unfold cut, l0. change (car RA) with R. destruct sat; lia. }
  2:{ rewrite row_trans_length. unfold cut, l0. change (car RA) with R. destruct sat; lia. }
  f_equal. unfold row_trans. change (car RA) with R.
  rewrite (nth_map_d (fun x : car RA => expf (opp x)) _ k 0 0).
  2:{ assert (Q := row_trans_length (A:=RA) sat l0 t). unfold row_trans in Q. rewrite map_length in Q. unfold cut in Q.
      change (car RA) with R in *. rewrite Q. unfold l0. destruct sat; lia. }
  ra. f_equal. f_equal. unfold seen_from, l0. destruct sat.
  - replace (length t - 1 + 1)%nat with (length t) by lia. change (car RA) with R. rewrite firstn_all.
    assert (E := rev_nth (cumsum (A:=RA) (rev t)) 0 (n:=k)). rewrite cumsum_length in E. change (car RA) with R in E. rewrite rev_length in E.
    rewrite E by auto. clear E. rewrite cumsum_nth by (rewrite rev_length; lia).
    replace (S (length t - S k)) with (length t - k)%nat by lia.
    rewrite rsum_rev. apply rsum_ext. intros i Hi. rewrite rev_nth by lia. f_equal. lia.
  - cbn [skipn]. apply cumsum_nth; auto.
Qed.

Definition layer (r : row_full RA) (i : nat) : R := nth i (tau_row r) 0.
Definition absorp (r : row_full RA) (i : nat) : R := nth i (abs_row r) 0.

Lemma layer_sum n (r : row_full RA) i : full_row n r -> (i < n)%nat -> layer r i = nth i (f_ptauwet r) 0 + nth i (f_ptaudry r) 0.
Proof.
  intros F Hi. unfold layer, tau_row.
  assert (H1 := fr_wet _ _ F). assert (H2 := fr_dry _ _ F). assert (H3 := fr_liq _ _ F). assert (H4 := fr_ice _ _ F).
  assert (L1 : length (map2 (A:=RA) add (f_ptauwet r) (f_ptaudry r)) = n) by (rewrite map2_length; congruence).
  rewrite H3, H4.
  assert (L2 : length (map2 (A:=RA) add (map2 add (f_ptauwet r) (f_ptaudry r)) (repeat (lit 0) n)) = n).
  { rewrite map2_length; [auto|]. rewrite L1, repeat_length. reflexivity. }
  rewrite (map2_nth (A:=RA) add _ 0 0) by (rewrite ?L2, ?repeat_length; auto).
  rewrite (map2_nth (A:=RA) add _ 0 0) by (rewrite ?L1, ?repeat_length; auto).
  rewrite (map2_nth (A:=RA) add _ 0 0) by (rewrite ?H1, ?H2; auto).
  rewrite (nth_repeat_lt (lit (a:=RA) 0) 0 n) by auto. ra. lra.
Qed.

(** The weights of a run, entry by entry: transmittance times absorption of that level, where the transmittance is the exponential
    of minus the accumulated opacity of the layers of the same frequency. *)
Theorem C63_weights db (g : globals RA) h (w : wfobj RA) frq ev h' wgt g' : wfo h w -> growing (hget h (w_z w)) ->
  w_frq w = Some frq -> w_es w = VFloat ev -> frq <> [] -> generate_wf db g h w = (h', Ok (wgt, g')) ->
  let n := length (hget h (w_z w)) in
  exists rows, (exists af, perform db g h w = (h', Ok ([af], g')) /\ an_rows af = rows) /\
    length rows = length frq /\ length wgt = length frq /\
    forall j r, nth_error rows j = Some r -> length (nth j wgt []) = n /\
      forall k, (k < n)%nat -> nth k (nth j wgt []) 0 = exp (- seen_from (w_sat w) n (layer r) k) * absorp r k.
Proof.
  intros K G Hf He Hne H n. destruct (generate_inv _ _ _ _ _ _ _ _ _ K Hf He Hne H) as (af & l0 & z0 & Hp & L & Hr & Lz & Ez0 & El & ->).
  exists (an_rows af). split; [eauto|]. split; [auto|]. split; [rewrite map_length; auto|].
  destruct (perform_rows db g h w frq ev h' [af] g' K Hf He Hp) as (_ & _ & _ & _ & z1 & zs & Ez & Eh).
  assert (V : (w_z w < length h)%nat) by (apply hget_valid; rewrite Ez; discriminate).
  assert (Ez' : hget h' (w_z w) = map (fun x => x - z1) (hget h (w_z w))).
  { subst h'. rewrite wheap_get by auto. apply hget_set_eq; auto. }
  assert (G' : growing (hget h' (w_z w))) by (rewrite Ez'; apply growing_shift; auto).
  assert (Hn : (0 < n)%nat) by (unfold n; rewrite Ez; simpl; lia).
  assert (E0 : z0 = nth (if w_sat w then n - 1 else 0)%nat (hget h' (w_z w)) 0 /\ l0 = (if w_sat w then n - 1 else 0)%nat).
  { assert (E : z0 = nth (if w_sat w then n - 1 else 0)%nat (hget h' (w_z w)) 0).
    { unfold py_get, py_pos in Ez0. rewrite Lz in Ez0. fold n in Ez0. destruct (w_sat w).
      - replace (andb (0 <=? -1)%Z (-1 <? Z.of_nat n)%Z) with false in Ez0 by (symmetry; apply andb_false_intro1; reflexivity).
        replace (andb (- Z.of_nat n <=? -1)%Z (-1 <? 0)%Z) with true in Ez0 by (symmetry; apply andb_true_intro; split; [apply Z.leb_le; lia|reflexivity]).
        replace (Z.to_nat (Z.of_nat n + -1)) with (n - 1)%nat in Ez0 by lia.
        destruct (nth_error _ _) eqn:Q; inversion Ez0. subst. symmetry. apply nth_error_nth; auto.
      - replace (andb (0 <=? 0)%Z (0 <? Z.of_nat n)%Z) with true in Ez0 by (symmetry; apply andb_true_intro; split; [reflexivity|apply Z.ltb_lt; lia]).
        destruct (nth_error _ _) eqn:Q; inversion Ez0. subst. symmetry. apply nth_error_nth; auto. }
    split; [exact E|]. apply (argmin_self (hget h' (w_z w))); auto.
    - change (car RA) with R in Lz. rewrite Lz. change (length (hget (A:=RA) h (w_z w))) with n. destruct (w_sat w); lia.
    - rewrite E in El. exact El. }
  destruct E0 as [_ ->].
  intros j r Hj. assert (Hin := nth_error_In _ _ Hj). assert (Fr := Hr r Hin).
  assert (T := tau_row_length _ _ Fr). assert (U := abs_row_length _ _ Fr). fold n in T, U.
  assert (Hj' : (j < length (an_rows af))%nat) by (apply nth_error_Some; congruence).
  rewrite (nth_map_d _ _ _ r) by auto. rewrite (nth_error_nth _ _ _ Hj).
  split.
  - rewrite row_weights_length by congruence. rewrite T. unfold cut. destruct (w_sat w); lia.
  - intros k Hk. assert (Q := row_weights_nth (w_sat w) (tau_row r) (abs_row r) k ltac:(change (car RA) with R in *; congruence) ltac:(change (car RA) with R in *; lia)).
    cbv zeta in Q. change (car RA) with R in *. rewrite T in Q. exact Q.
Qed.

(** ** The layer opacities of a run are never negative *)

Lemma exp_layer_nonneg zf a b : 0 <= a -> 0 <= b -> 0 <= exp_layer (A:=RA) zf a b.
Proof.
  intros Ha Hb. assert (Q := layR_nonneg zf a b Ha Hb). unfold layR in Q. unfold exp_layer. ra. unfold Rltb, Reqb.
  replace (1 / 1000000000) with 1e-9 by lra. replace (0 / 10) with 0 by lra.
  destruct (Rlt_dec (Rabs (b - a)) 1e-9); [exact Q|]. 
  destruct (Req_EM_T a 0); [destruct zf; simpl; lra|]. destruct (Req_EM_T b 0); [destruct zf; simpl; lra|]. exact Q.
Qed.

Lemma py_get_In {T} (l : list T) i x : py_get l i = Ok x -> In x l.
Proof.
  unfold py_get. destruct (py_pos (length l) i); [|discriminate]. destruct (nth_error l n) eqn:E; [|discriminate].
  intros H. inversion H. subst. eapply nth_error_In; eauto.
Qed.
Lemma In_upd {T} (l : list T) : forall k v x, In x (upd l k v) -> x = v \/ In x l.
Proof. induction l; intros [|k] v x H; simpl in *; intuition auto. apply IHl in H0. intuition. Qed.
Lemma In_py_set {T} (l : list T) i v l' x : py_set l i v = Ok l' -> In x l' -> x = v \/ In x l.
Proof. unfold py_set. destruct (py_pos _ _); [|discriminate]. intros H. inversion H. apply In_upd. Qed.

Lemma exp_loop_nonneg zf (x ds : list R) : (forall d, In d ds -> 0 <= d) -> forall is s xds c s' out,
  (forall v, In v xds -> 0 <= v) -> exp_loop (A:=RA) zf x ds is s xds = Ok (c, s', out) -> forall v, In v out -> 0 <= v.
Proof.
  intros Hd. induction is as [|i is IH]; intros s xds c s' out Hx H; [inversion H; subst; auto|].
  cbn [exp_loop] in H. inv_bind H xp Exp. inv_bind H xi Exi.
  destruct (ltb (a:=RA) xp (lit 0.0)) eqn:E1; [inversion H; subst; auto|]. destruct (ltb (a:=RA) xi (lit 0.0)) eqn:E2; [inversion H; subst; auto|].
  cbn [orb] in H. inv_bind H d Ed. inv_bind H xds' Es. refine (IH _ _ _ _ _ _ H).
  intros v Hv. apply (In_py_set _ _ _ _ _ Es) in Hv. destruct Hv as [->|Hv]; [|auto].
  apply Rmult_le_pos; [|apply Hd; eapply py_get_In; eauto].
  ra. unfold Rltb in E1, E2. replace (0 / 10) with 0 in E1, E2 by lra.
  destruct (Rlt_dec xp 0); [discriminate|]. destruct (Rlt_dec xi 0); [discriminate|].
  apply exp_layer_nonneg; lra.
Qed.

Lemma exp_int_nonneg zf (x ds : list R) b e f s out : (forall d, In d ds -> 0 <= d) ->
  exponential_integration (A:=RA) zf x ds b e f = Ok (s, out) -> forall v, In v out -> 0 <= v.
Proof.
  intros Hd H. unfold exponential_integration in H. inv_bind H r Er. destruct r as [[c s'] o].
  assert (G : forall v, In v o -> 0 <= v).
  { apply (exp_loop_nonneg zf x ds Hd _ _ _ _ _ _) with (2 := Er).
    intros v Hv. apply in_map_iff in Hv. destruct Hv as (y & <- & _). ra. lra. }
  destruct c; [destruct (Z.eqb _ _); [|discriminate]|]; inversion H; subst; auto.
Qed.

Lemma diffs_pos (z : list R) : growing z -> forall d, In d (diffs (A:=RA) z) -> 0 <= d.
Proof.
  induction z as [|a z IH]; intros G d Hd; [destruct Hd|]. destruct z as [|b z]; [destruct Hd|].
  destruct Hd as [<-|Hd].
  - ra. assert (Q := G 0%nat ltac:(simpl; lia)). simpl in Q. lra.
  - apply IH; auto. intros i Hi. apply (G (S i)). simpl in *. lia.
Qed.

(** Layers and path of a run at an elevation within one degree of the zenith. *)
Theorem C63_layers_nonneg db (g : globals RA) h (w : wfobj RA) frq ev h' af g' : wfo h w -> growing (hget h (w_z w)) ->
  near_zenith (w_angle w) -> w_frq w = Some frq -> w_es w = VFloat ev -> perform db g h w = (h', Ok ([af], g')) ->
  forall r, In r (an_rows af) -> forall i, (i < length (hget h (w_z w)))%nat -> 0 <= layer r i.
Proof.
  intros K G Hz Hf He H r Hr i Hi.
  destruct (perform_rows db g h w frq ev h' _ g' K Hf He H) as (af' & Eaf & L & Hfr & z0 & zs & Ez & Eh). injection Eaf as <-.
  rewrite (layer_sum _ _ _ (Hfr r Hr) Hi).
  rewrite (perform_eq db g h w frq ev z0 zs Hf He Ez) in H. destruct (all_truthy _); [|discriminate]. injection H as _ H.
  inv_bind H g2 Eg. inv_bind H x Ex. destruct x as [[[fr fu] o'] g3]. inversion H; subst fu g3. clear H.
  assert (W := wobj_wf h w z0 frq ev K).
  destruct (execute_cell RA db g2 _ _ _ _ _ _ W Ex) as (g1 & e & rho & dn & wn & rx & _ & _ & _ & Le & _ & Lfull & Hcell).
  destruct (in_nth (an_rows af) r r Hr) as (j & Hj & Ej). rewrite L in Hj.
  destruct (Hcell 0%nat j 0 (zero_cell 0) (f_row r) af) as (ds & es & x & c & Eds & Lds & _ & Hc1 & Hc2 & Hrun & _ & Exr & _); [simpl; lia|exact Hj|].
  cbn [nth wobj o_cells] in Exr, Hc2, Hrun. assert (x = r) as ->.
  { rewrite Exr. rewrite <- Ej. apply nth_indep. lia. }
  assert (Hds : forall d, In d ds -> 0 <= d).
  { unfold path_ds in Eds. cbn [inputs_of i_ray wobj o_ray nth o_angles i_z o_z i_z0 o_z0] in Eds. inv_bind Eds rr Ert.
    destruct rr as [ds'|]; [|discriminate]. inversion Eds; subst ds'. clear Eds.
    unfold ray_tracing in Ert. destruct (existsb _ _); [discriminate|].
    destruct (combine _ _) as [|[zf nf] rest]; [discriminate|].
    assert (B : (leb (a:=RA) (lit 89) (w_angle w) && leb (a:=RA) (w_angle w) (lit 91)
      || leb (a:=RA) (opp (lit 91)) (w_angle w) && leb (a:=RA) (w_angle w) (opp (lit 89)))%bool = true).
    { ra. apply orb_true_iff. destruct Hz as [Hz|Hz]; [left|right]; apply andb_true_iff; split; apply Rleb_true; lra. }
    rewrite B in Ert. inversion Ert. intros d [<-|Hd]; [ra; lra|]. revert d Hd. apply diffs_pos.
    assert (V : (w_z w < length h)%nat) by (apply hget_valid; rewrite Ez; discriminate).
    rewrite wheap_get by auto. rewrite hget_set_eq by auto. apply growing_shift; auto. }
  apply run_cell_inv in Hrun. destruct Hrun as (aw & ad & ww & dd & c1 & pl & al & _ & Ew & Ed & _ & _ & _ & _ & _ & _ & _ & _ & _ & _ & _ & _ & Fw & Fd & _).
  destruct ww as [ws wl]. destruct dd as [dd1 dl]. cbn [snd] in Fw, Fd. rewrite Fw, Fd.
  assert (Nw := exp_int_nonneg _ _ _ _ _ _ _ _ Hds Ew). assert (Nd := exp_int_nonneg _ _ _ _ _ _ _ _ Hds Ed).
  assert (Lw := fr_wet _ _ (Hfr r Hr)). assert (Ld := fr_dry _ _ (Hfr r Hr)). rewrite Fw in Lw. rewrite Fd in Ld.
  assert (Q1 := Nw (nth i wl 0) ltac:(apply nth_In; change (car RA) with R in *; lia)).
  assert (Q2 := Nd (nth i dl 0) ltac:(apply nth_In; change (car RA) with R in *; lia)).
  lra.
Qed.

Lemma rsum_mono n m f : (n <= m)%nat -> (forall i, (i < m)%nat -> 0 <= f i) -> rsum n f <= rsum m f.
Proof.
  intros H Hf. replace m with (n + (m - n))%nat by lia. rewrite rsum_split.
  assert (0 <= rsum (m - n) (fun i => f (n + i)%nat)) by (apply rsum_nonneg; intros; apply Hf; lia). lra.
Qed.

(** Transmittance toward the sensor: in (0, 1] and growing toward it. *)
Theorem C63_transmittance sat n (t : nat -> R) : (forall i, (i < n)%nat -> 0 <= t i) ->
  forall k, (k < n)%nat -> 0 < exp (- seen_from sat n t k) <= 1 /\
  forall k', (k <= k' < n)%nat ->
    (sat = true -> exp (- seen_from sat n t k) <= exp (- seen_from sat n t k')) /\
    (sat = false -> exp (- seen_from sat n t k') <= exp (- seen_from sat n t k)).
Proof.
  intros Ht k Hk.
  assert (E : forall a b, a <= b -> exp a <= exp b).
  { intros a b [H| ->]; [left; apply exp_increasing; auto|lra]. }
  assert (P : 0 <= seen_from sat n t k) by (unfold seen_from; destruct sat; apply rsum_nonneg; intros; apply Ht; lia).
  split.
  - split; [apply exp_pos|]. rewrite <- exp_0. apply E. lra.
  - intros k' Hk'. split; intros ->; apply E; apply Ropp_le_contravar; unfold seen_from.
    + replace (n - k)%nat with ((k' - k) + (n - k'))%nat by lia. rewrite rsum_split.
      assert (0 <= rsum (k' - k) (fun i => t (k + i)%nat)) by (apply rsum_nonneg; intros; apply Ht; lia).
      rewrite (rsum_ext (n - k') (fun i => t (k + (k' - k + i))%nat) (fun i => t (k' + i)%nat)); [lra|]. intros i Hi. f_equal. lia.
    + apply rsum_mono; [lia|]. intros; apply Ht; lia.
Qed.

(** Whole statement for a call at the default elevation: entries are transmittance times absorption, the transmittance lies in (0, 1] and grows
    toward the sensor, and the weights are non-negative wherever the absorption is. *)
Theorem C63_weighting_functions db (g : globals RA) h (w : wfobj RA) frq ev h' wgt g' : wfo h w -> growing (hget h (w_z w)) ->
  near_zenith (w_angle w) -> w_frq w = Some frq -> w_es w = VFloat ev -> frq <> [] -> generate_wf db g h w = (h', Ok (wgt, g')) ->
  let n := length (hget h (w_z w)) in
  exists rows trans, (exists af, perform db g h w = (h', Ok ([af], g')) /\ an_rows af = rows) /\ length rows = length frq /\ length wgt = length frq /\
    forall j r, nth_error rows j = Some r -> length (nth j wgt []) = n /\
      forall k, (k < n)%nat ->
        nth k (nth j wgt []) 0 = trans j k * absorp r k /\
        0 < trans j k <= 1 /\
        (forall k', (k <= k' < n)%nat -> if w_sat w then trans j k <= trans j k' else trans j k' <= trans j k) /\
        (0 <= nth k (f_awet r) 0 -> 0 <= nth k (f_adry r) 0 -> 0 <= nth k (nth j wgt []) 0).
Proof.
  intros K G Hz Hf He Hne H n.
  destruct (C63_weights db g h w frq ev h' wgt g' K G Hf He Hne H) as (rows & (af & Hp & Er) & L1 & L2 & Hw).
  destruct rows as [|dr rs] eqn:Erows; [destruct frq; [congruence|cbn in L1; discriminate]|]. rewrite <- Erows in *.
  exists rows, (fun j k => exp (- seen_from (w_sat w) n (layer (nth j rows dr)) k)). split; [eauto|]. split; [auto|]. split; [auto|].
  intros j r Hj. assert (Ej := nth_error_nth _ _ dr Hj). destruct (Hw j r Hj) as [Ln Hk]. split; [exact Ln|]. intros k Hkn. rewrite Ej.
  assert (Hin : In r (an_rows af)) by (rewrite Er; eapply nth_error_In; eauto).
  assert (Hpos := C63_layers_nonneg db g h w frq ev h' af g' K G Hz Hf He Hp r Hin).
  destruct (C63_transmittance (w_sat w) n (layer r) Hpos k Hkn) as [T1 T2].
  split; [apply Hk; auto|]. split; [exact T1|]. split.
  - intros k' Hk'. destruct (T2 k' Hk') as [A B]. destruct (w_sat w); auto.
  - intros H1 H2. rewrite Hk by auto. apply Rmult_le_pos; [left; apply exp_pos|].
    destruct (perform_rows db g h w frq ev h' _ g' K Hf He Hp) as (af' & Eaf & _ & Hfr & _). injection Eaf as <-.
    assert (F := Hfr r Hin). unfold absorp, abs_row. rewrite (map2_nth (A:=RA) add _ 0 0).
    + ra. lra.
    + rewrite (fr_awet _ _ F), (fr_adry _ _ F). reflexivity.
    + rewrite (fr_awet _ _ F). exact Hkn.
Qed.
