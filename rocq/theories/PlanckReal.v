(** Analysis of [tk2b_mod], [bright] and [planck] over the reals and the extended reals. *)

From Coq Require Import ZArith Reals Lra Lia List Bool.
Import ListNotations.
From Verif Require Import Arith PyBase Utils RTE Spec RealAux PlanckGen.
Open Scope R_scope.

(** ** Planck function *)

Lemma planckB_pos h T : 0 < h -> 0 < T -> 0 < planckB h T.
Proof.
  intros. unfold planckB. apply Rinv_0_lt_compat.
  assert (1 < exp (h / T)) by (apply exp_gt1; apply Rdiv_lt_0_compat; auto). lra.
Qed.

Lemma planckB_denom h T : 0 < h -> 0 < T -> exp (h / T) - 1 > 0.
Proof. intros. assert (1 < exp (h / T)) by (apply exp_gt1; apply Rdiv_lt_0_compat; auto). lra. Qed.

Lemma planckB_incr h T1 T2 : 0 < h -> 0 < T1 -> T1 < T2 -> planckB h T1 < planckB h T2.
Proof.
  intros Hh H1 H12. unfold planckB. apply Rinv_lt_contravar.
  - assert (A1 := planckB_denom h T1 Hh H1). assert (A2 := planckB_denom h T2 Hh ltac:(lra)). nra.
  - apply Rplus_lt_compat_r. apply exp_increasing. unfold Rdiv. apply Rmult_lt_compat_l; auto.
    apply Rinv_lt_contravar; nra.
Qed.

Lemma planckB_le h T1 T2 : 0 < h -> 0 < T1 -> T1 <= T2 -> planckB h T1 <= planckB h T2.
Proof. intros ? ? [?| ->]; [left; apply planckB_incr; auto | right; auto]. Qed.

Lemma planckT_B h T : 0 < h -> 0 < T -> planckT h (planckB h T) = T.
Proof.
  intros Hh HT. unfold planckT, planckB. rewrite Rinv_inv.
  replace (1 + (exp (h / T) - 1)) with (exp (h / T)) by lra. rewrite ln_exp. field. lra.
Qed.

Lemma planckT_denom h B : 0 < h -> 0 < B -> 0 < ln (1 + / B).
Proof. intros. apply ln_gt0. assert (0 < / B) by (apply Rinv_0_lt_compat; auto). lra. Qed.

Lemma planckB_T h B : 0 < h -> 0 < B -> planckB h (planckT h B) = B.
Proof.
  intros Hh HB. assert (HL := planckT_denom h B Hh HB). unfold planckT, planckB.
  replace (h / (h / ln (1 + / B))) with (ln (1 + / B)) by (field; lra).
  rewrite exp_ln. 2:{ assert (0 < / B) by (apply Rinv_0_lt_compat; auto). lra. }
  replace (1 + / B - 1) with (/ B) by lra. apply Rinv_inv.
Qed.

Lemma planckT_pos h B : 0 < h -> 0 < B -> 0 < planckT h B.
Proof. intros. unfold planckT. apply Rdiv_lt_0_compat; auto. apply planckT_denom with h; auto. Qed.

Lemma planckT_incr h B1 B2 : 0 < h -> 0 < B1 -> B1 < B2 -> planckT h B1 < planckT h B2.
Proof.
  intros Hh H1 H12. destruct (Rlt_le_dec (planckT h B1) (planckT h B2)) as [|Hle]; auto.
  exfalso. assert (planckB h (planckT h B2) <= planckB h (planckT h B1)).
  { apply planckB_le; auto. apply planckT_pos; lra. }
  rewrite !planckB_T in H by lra. lra.
Qed.

Lemma planckT_le h B1 B2 : 0 < h -> 0 < B1 -> B1 <= B2 -> planckT h B1 <= planckT h B2.
Proof. intros ? ? [?| ->]; [left; apply planckT_incr; auto | right; auto]. Qed.

(** ** The model's scalar routines *)

Lemma tk2b_R (h T : R) : tk2b_mod (A:=RA) h T = planckB h T.
Proof. unfold tk2b_mod, planckB. ra. change (1 / 1) with (1/1). replace (10 / 10) with 1 by lra. lra. Qed.

Lemma bright_R (h B : R) : B <> 0 -> bright (A:=RA) h B = planckT h B.
Proof.
  intros H. unfold bright, planckT. ra. rewrite Reqb_false by lra. cbn [negb].
  replace (10 / 10) with 1 by lra. unfold Rdiv at 2. rewrite Rmult_1_l. reflexivity.
Qed.

Lemma bright_R0 (h : R) : bright (A:=RA) h 0 = 0.
Proof. unfold bright. ra. rewrite Reqb_true by lra. cbn. lra. Qed.

Lemma tk2b_X (h T : R) : 0 < h -> 0 < T -> tk2b_mod (A:=XA) (Fin h) (Fin T) = Fin (planckB h T).
Proof.
  intros Hh HT. rewrite <- tk2b_R. unfold tk2b_mod. xa. ra. rewrite (xdiv_fin h T) by lra. cbn [xexp xadd].
  rewrite xdiv_fin. { f_equal. } replace (10/10) with 1 by lra.
  assert (HD := planckB_denom h T Hh HT). lra.
Qed.

Lemma bright_X (h B : R) : 0 < h -> 0 < B -> bright (A:=XA) (Fin h) (Fin B) = Fin (planckT h B).
Proof.
  intros Hh HB. rewrite <- bright_R by lra. unfold bright. xa. ra. cbn [xeqb].
  rewrite !Reqb_false by lra. cbn [negb]. rewrite xdiv_fin by lra. cbn [xadd].
  assert (0 < / B) by (apply Rinv_0_lt_compat; auto).
  rewrite xln_fin. 2:{ unfold Rdiv. nra. }
  rewrite xdiv_fin. { f_equal. }
  replace (10/10) with 1 by lra. unfold Rdiv. rewrite Rmult_1_l.
  assert (HL := planckT_denom h B Hh HB). lra.
Qed.

Lemma bright_X0 (h : R) : bright (A:=XA) (Fin h) (Fin 0) = Fin 0.
Proof. unfold bright. xa. cbn [xeqb]. rewrite Reqb_true by lra. cbn. f_equal. lra. Qed.

(** ** Levels *)

Definition rT (lv : list (R * R)) (i : nat) : R := fst (nth i lv (0, 0)).
Definition rD (lv : list (R * R)) (i : nat) : R := snd (nth i lv (0, 0)).

Lemma lay_batm_R (bn bf d t : R) :
  lay_batm (A:=RA) bn bf d t = layer_emit bn bf d * (exp (- t) - exp (- (t + d))).
Proof.
  unfold lay_batm, lay_boft, layer_emit. ra. replace (10/10) with 1 by lra.
  replace (- (t + d)) with (- t + - d) by lra. rewrite exp_plus. lra.
Qed.

Lemma scan_R h lv : forall k s pre,
  length pre = S k ->
  s = (planckB h (rT (pre ++ lv) k), path_atm (fun i => planckB h (rT (pre ++ lv) i)) (rD (pre ++ lv)) k,
       path_tau (rD (pre ++ lv)) k) ->
  scan (A:=RA) h s lv =
  map (fun k => (planckB h (rT (pre ++ lv) k),
                 path_atm (fun i => planckB h (rT (pre ++ lv) i)) (rD (pre ++ lv)) k,
                 path_tau (rD (pre ++ lv)) k)) (seq (S k) (length lv)).
Proof.
  induction lv as [|[t d] lv IH]; intros k s pre Hp Hs; [reflexivity|].
  cbn [scan length seq map].
  assert (Hn : nth (S k) (pre ++ (t, d) :: lv) (0, 0) = (t, d)).
  { rewrite app_nth2 by lia. rewrite Hp, Nat.sub_diag. reflexivity. }
  assert (E : dn_step (A:=RA) h s (t, d) =
     (planckB h (rT (pre ++ (t, d) :: lv) (S k)),
      path_atm (fun i => planckB h (rT (pre ++ (t, d) :: lv) i)) (rD (pre ++ (t, d) :: lv)) (S k),
      path_tau (rD (pre ++ (t, d) :: lv)) (S k))).
  { rewrite Hs. unfold dn_step. cbn [fst snd]. rewrite tk2b_R, lay_batm_R.
    change (path_atm (fun i => planckB h (rT (pre ++ (t, d) :: lv) i)) (rD (pre ++ (t, d) :: lv)) (S k))
      with (path_atm (fun i => planckB h (rT (pre ++ (t, d) :: lv) i)) (rD (pre ++ (t, d) :: lv)) k
       + layer_emit (planckB h (rT (pre ++ (t, d) :: lv) k)) (planckB h (rT (pre ++ (t, d) :: lv) (S k)))
           (rD (pre ++ (t, d) :: lv) (S k))
         * (exp (- path_tau (rD (pre ++ (t, d) :: lv)) k) - exp (- path_tau (rD (pre ++ (t, d) :: lv)) (S k)))).
    change (path_tau (rD (pre ++ (t, d) :: lv)) (S k))
      with (path_tau (rD (pre ++ (t, d) :: lv)) k + rD (pre ++ (t, d) :: lv) (S k)).
    assert (HT : rT (pre ++ (t, d) :: lv) (S k) = t) by (unfold rT; rewrite Hn; reflexivity).
    assert (HD : rD (pre ++ (t, d) :: lv) (S k) = d) by (unfold rD; rewrite Hn; reflexivity).
    rewrite HT, HD. ra. reflexivity. }
  rewrite E. f_equal.
  specialize (IH (S k) (dn_step (A:=RA) h s (t, d)) (pre ++ [(t, d)])).
  rewrite <- app_assoc in IH. cbn [app] in IH. rewrite <- E. apply IH; auto.
  rewrite app_length. simpl. lia.
Qed.

(** The level profile of the ground branch is the specification, level by level. *)
Lemma levs_dn_R (h : R) (lv : list (R * R)) :
  levs_dn (A:=RA) h lv =
  map (fun k => (planckB h (rT lv k), path_atm (fun i => planckB h (rT lv i)) (rD lv) k,
                 path_tau (rD lv) k)) (seq 0 (length lv)).
Proof.
  destruct lv as [|[t d] lv]; [reflexivity|]. cbn [levs_dn length seq map].
  rewrite tk2b_R.
  assert (E : (planckB h t, lit (a:=RA) 0, lit (a:=RA) 0) =
     (planckB h (rT ((t, d) :: lv) 0), path_atm (fun i => planckB h (rT ((t, d) :: lv) i)) (rD ((t, d) :: lv)) 0,
       path_tau (rD ((t, d) :: lv)) 0)).
  { unfold path_atm, path_tau, rT. cbn. f_equal; [f_equal|]; lra. }
  f_equal; [exact E|]. apply (scan_R h lv 0 _ [(t, d)]); auto.
Qed.

Lemma levs_dn_last (h : R) (lv : list (R * R)) : lv <> [] ->
  last (levs_dn (A:=RA) h lv) (0, 0, 0) =
  (planckB h (rT lv (length lv - 1)), path_atm (fun i => planckB h (rT lv i)) (rD lv) (length lv - 1),
   path_tau (rD lv) (length lv - 1)).
Proof.
  intros H. rewrite levs_dn_R.
  destruct (length lv) as [|n] eqn:E; [destruct lv; [congruence|discriminate]|].
  rewrite seq_S, map_app. cbn [map]. rewrite last_last. simpl. rewrite Nat.sub_0_r. reflexivity.
Qed.

(** ** Bounds on the emission *)

Lemma path_tau_le d j k : (forall i, 0 <= d i) -> (j <= k)%nat -> path_tau d j <= path_tau d k.
Proof.
  intros H Hjk. unfold path_tau. replace k with (j + (k - j))%nat by lia. rewrite rsum_split.
  assert (0 <= rsum (k - j) (fun i => d (S (j + i)))) by (apply rsum_nonneg; intros; apply H). lra.
Qed.

Lemma path_tau_nonneg d k : (forall i, 0 <= d i) -> 0 <= path_tau d k.
Proof. intros. apply rsum_nonneg. intros; auto. Qed.

Lemma layer_emit_bounds bn bf d m M :
  m <= bn <= M -> m <= bf <= M -> m <= layer_emit bn bf d <= M.
Proof.
  intros H1 H2. unfold layer_emit. assert (He := exp_pos (- d)).
  split; apply Rmult_le_reg_r with (1 + exp (- d)); try lra;
    unfold Rdiv; rewrite Rmult_assoc, Rinv_l by lra; nra.
Qed.

Lemma path_weight d k : rsum k (fun i => exp (- path_tau d i) - exp (- path_tau d (S i)))
  = 1 - exp (- path_tau d k).
Proof.
  rewrite (rsum_telescope k (fun i => exp (- path_tau d i))).
  unfold path_tau at 1. simpl. rewrite Ropp_0, exp_0. reflexivity.
Qed.

Lemma path_atm_bounds B d k m M :
  (forall i, (i <= k)%nat -> m <= B i <= M) -> (forall i, 0 <= d i) ->
  m * (1 - exp (- path_tau d k)) <= path_atm B d k <= M * (1 - exp (- path_tau d k)).
Proof.
  intros HB Hd. unfold path_atm. rewrite <- path_weight, <- !rsum_scal.
  assert (Hw : forall i, 0 <= exp (- path_tau d i) - exp (- path_tau d (S i))).
  { intros i. assert (path_tau d i <= path_tau d (S i)) by (apply path_tau_le; auto; lia).
    assert (exp (- path_tau d (S i)) <= exp (- path_tau d i)) by (apply exp_le; lra). lra. }
  split; apply rsum_le; intros i Hi; apply Rmult_le_compat_r; auto;
    apply (layer_emit_bounds (B i) (B (S i)) (d (S i)) m M); apply HB; lia.
Qed.

Lemma path_atm_iso b d k : path_atm (fun _ => b) d k = b * (1 - exp (- path_tau d k)).
Proof.
  unfold path_atm. rewrite <- path_weight, <- rsum_scal. apply rsum_ext. intros i _.
  f_equal. unfold layer_emit. assert (He := exp_pos (- d (S i))). field. lra.
Qed.

(** ** Lifting to the extended reals: no NaN or infinity appears *)

Definition fin2 (p : R * R) : ext * ext := (Fin (fst p), Fin (snd p)).
Definition fin3 (p : R * R * R) : ext * ext * ext := (Fin (fst (fst p)), Fin (snd (fst p)), Fin (snd p)).

Lemma combine_fin (t tl : list R) : combine (map Fin t) (map Fin tl) = map fin2 (combine t tl).
Proof. revert tl; induction t; intros [|d tl]; simpl; auto. f_equal. auto. Qed.

Lemma lay_batm_X (bn bf d t : R) :
  lay_batm (A:=XA) (Fin bn) (Fin bf) (Fin d) (Fin t) = Fin (lay_batm (A:=RA) bn bf d t).
Proof.
  unfold lay_batm, lay_boft. xa. ra. rewrite xdiv_fin; [reflexivity|].
  assert (He := exp_pos (- d)). lra.
Qed.

Lemma dn_step_X h s x : 0 < h -> 0 < fst x ->
  dn_step (A:=XA) (Fin h) (fin3 s) (fin2 x) = fin3 (dn_step (A:=RA) h s x).
Proof.
  intros Hh Hx. destruct s as [[b a] ta], x as [t d]. cbn [fst] in Hx. unfold dn_step, fin2, fin3. cbn [fst snd].
  rewrite tk2b_X, tk2b_R by auto. rewrite lay_batm_X. xa. ra. reflexivity.
Qed.

Lemma scan_X h lv : 0 < h -> (forall x, In x lv -> 0 < fst x) -> forall s,
  scan (A:=XA) (Fin h) (fin3 s) (map fin2 lv) = map fin3 (scan (A:=RA) h s lv).
Proof.
  intros Hh. induction lv as [|x lv IH]; intros H s; [reflexivity|].
  cbn [map scan]. rewrite dn_step_X by (auto; apply H; left; auto). f_equal.
  apply IH. intros y Hy. apply H. right; auto.
Qed.

Lemma levs_dn_X h lv : 0 < h -> (forall x, In x lv -> 0 < fst x) ->
  levs_dn (A:=XA) (Fin h) (map fin2 lv) = map fin3 (levs_dn (A:=RA) h lv).
Proof.
  intros Hh H. destruct lv as [|[t d] lv]; [reflexivity|].
  cbn [map levs_dn]. unfold fin2 at 1. cbn [fst snd].
  rewrite tk2b_X, tk2b_R by (auto; apply (H (t, d)); left; auto).
  f_equal. xa. ra. apply (scan_X h lv Hh) with (s := (planckB h t, 0 / 1, 0 / 1)).
  intros y Hy. apply H. right; auto.
Qed.

Lemma rev_profile_X lv : rev_profile (A:=XA) (map fin2 lv) = map fin2 (rev_profile (A:=RA) lv).
Proof.
  induction lv as [|[t d] [|[t1 d1] r] IH]; auto.
  change (rev_profile (A:=XA) (map fin2 ((t, d) :: (t1, d1) :: r)))
    with (rev_profile (A:=XA) (map fin2 ((t1, d1) :: r)) ++ [(Fin t, Fin d1)]).
  rewrite IH.
  change (rev_profile (A:=RA) ((t, d) :: (t1, d1) :: r)) with (rev_profile (A:=RA) ((t1, d1) :: r) ++ [(t, d1)]).
  rewrite map_app. reflexivity.
Qed.

Lemma In_rev_profile (lv : list (R * R)) x : In x (rev_profile (A:=RA) lv) -> exists y, In y lv /\ fst x = fst y.
Proof.
  induction lv as [|[t d] [|[t1 d1] r] IH]; intros Hx.
  - destruct Hx.
  - destruct Hx as [<-|[]]. exists (t, d). split; [left|]; auto.
  - change (rev_profile (A:=RA) ((t, d) :: (t1, d1) :: r))
      with (rev_profile (A:=RA) ((t1, d1) :: r) ++ [(t, d1)]) in Hx.
    apply in_app_or in Hx. destruct Hx as [Hx|[<-|[]]].
    + destruct (IH Hx) as (y & Hy & E). exists y. split; auto. right; auto.
    + exists (t, d). split; [left|]; auto.
Qed.

(** Mean-radiating radiance in extended arithmetic. *)
Definition mr_ext (atm tau : R) : ext :=
  if Rlt_dec tau 125 then xdiv (Fin atm) (Fin (1 - exp (- tau))) else Fin atm.

Definition lift_out (o : planck_out RA) (mr : ext) : planck_out XA :=
  mkPlanck (A:=XA) (Fin (p_boftotl o)) (map Fin (p_boftatm o)) mr (map Fin (p_tauprof o))
    (Fin (p_hvk o)) (map Fin (p_boft o)) (Fin (p_bakgrnd o)).

Lemma planck_close_X h bg far levs :
  planck_close (A:=XA) (Fin h) (Fin bg) (fin3 far) (map fin3 levs) =
  lift_out (planck_close (A:=RA) h bg far levs) (mr_ext (lev_atm (A:=RA) far) (lev_tau (A:=RA) far)).
Proof.
  destruct far as [[b a] ta]. unfold planck_close, lift_out, mr_ext, lev_atm, lev_tau, fin3, expmax.
  cbn [fst snd]. xa. ra. unfold xltb. unfold Rltb.
  replace (1250 / 10) with 125 by lra.
  destruct (Rlt_dec ta 125); cbn [p_boftotl p_boftatm p_boftmr p_tauprof p_hvk p_boft p_bakgrnd];
    rewrite !map_map; replace (10 / 10) with 1 by lra; reflexivity.
Qed.

Lemma hvk_of_X f : hvk_of (A:=XA) (Fin f) = Fin (hvk_of (A:=RA) f).
Proof. unfold hvk_of, k_planck, k_boltzmann. xa. ra. rewrite xdiv_fin; [reflexivity|lra]. Qed.

Lemma hvk_of_pos f : 0 < f -> 0 < hvk_of (A:=RA) f.
Proof.
  intros H. unfold hvk_of, k_planck, k_boltzmann. ra.
  apply Rdiv_lt_0_compat; [|lra]. apply Rmult_lt_0_compat; lra.
Qed.

Definition fst_fin x := fst (fin2 x).

Lemma planck_X (b : bool) (es f : R) (t tl : list R) :
  0 < f -> (forall x, In x t -> 0 < x) -> length t = length tl -> t <> [] ->
  exists o far,
    planck (A:=RA) b es f t tl = Ok o /\
    planck (A:=XA) b (Fin es) (Fin f) (map Fin t) (map Fin tl) =
      Ok (lift_out o (mr_ext (lev_atm (A:=RA) far) (lev_tau (A:=RA) far))) /\
    far = last (levs_dn (A:=RA) (hvk_of (A:=RA) f)
                 (if b then rev_profile (A:=RA) (combine t tl) else combine t tl)) (0, 0, 0).
Proof.
  intros Hf Ht Hlen Hne.
  assert (Hh := hvk_of_pos f Hf).
  assert (Hin : forall x, In x (combine t tl) -> 0 < fst x).
  { intros [x d] Hx. apply in_combine_l in Hx. auto. }
  assert (Hlast : forall (l : list (R*R*R)) d, last (map fin3 l) (fin3 d) = fin3 (last l d)).
  { intros l d. induction l as [|x l IH]; [reflexivity|]. destruct l; [reflexivity|]. exact IH. }
  assert (Hz : (lit (a:=XA) 0, lit (a:=XA) 0, lit (a:=XA) 0) = fin3 (0 / 1, 0 / 1, 0 / 1)) by reflexivity.
  assert (Hz0 : forall l, l <> [] -> forall d, last l d = @last (R*R*R) l (0,0,0)).
  { intros l. induction l as [|x l IH]; [congruence|]. intros _ d. destruct l; [reflexivity|].
    apply IH. discriminate. }
  destruct (combine t tl) as [|[t0 d0] r] eqn:E.
  { destruct t; [congruence|]. destruct tl; discriminate. }
  set (lv := (t0, d0) :: r) in *.
  destruct b.
  - assert (HinR : forall x, In x (rev_profile (A:=RA) lv) -> 0 < fst x).
    { intros x Hx. destruct (In_rev_profile lv x Hx) as (y & Hy & ->). auto. }
    assert (Hn : levs_dn (A:=RA) (hvk_of (A:=RA) f) (rev_profile (A:=RA) lv) <> []).
    { intros HH. apply (f_equal (@length _)) in HH. rewrite levs_dn_length, rev_profile_length in HH. discriminate. }
    eexists. eexists. split; [|split].
    + rewrite (planck_sat (A:=RA) es f t tl lv t0 d0 r E eq_refl). rewrite Hz0 by auto. reflexivity.
    + rewrite (planck_sat (A:=XA) (Fin es) (Fin f) (map Fin t) (map Fin tl) (map fin2 lv) (Fin t0) (Fin d0) (map fin2 r)).
      2:{ rewrite combine_fin, E. reflexivity. } 2:{ reflexivity. }
      rewrite hvk_of_X, rev_profile_X. rewrite levs_dn_X by auto.
      rewrite Hz, Hlast. rewrite Hz0 by auto.
      assert (H0 : 0 < t0) by (apply (Hin (t0, d0)); left; auto).
      rewrite tk2b_X by auto. rewrite <- map_rev.
      match goal with |- Ok (planck_close _ ?bg _ _) = _ =>
        replace bg with (Fin (es * planckB (hvk_of (A:=RA) f) t0 + (1 / 1 - es) * (0/10))) by reflexivity end.
      rewrite planck_close_X. rewrite tk2b_R. ra. reflexivity.
    + reflexivity.
  - assert (Hn : levs_dn (A:=RA) (hvk_of (A:=RA) f) lv <> []) by discriminate.
    eexists. eexists. split; [|split].
    + rewrite (planck_ground (A:=RA) es f t tl lv E) by discriminate. rewrite Hz0 by auto. reflexivity.
    + rewrite (planck_ground (A:=XA) (Fin es) (Fin f) (map Fin t) (map Fin tl) (map fin2 lv)).
      2:{ rewrite combine_fin, E. reflexivity. } 2:{ discriminate. }
      rewrite hvk_of_X. rewrite levs_dn_X by auto.
      rewrite Hz, Hlast. rewrite Hz0 by auto.
      unfold k_Tcosmicbkg. xa. rewrite tk2b_X by (auto; lra).
      rewrite planck_close_X. rewrite tk2b_R. ra. reflexivity.
    + reflexivity.
Qed.
