(** Claims C142 and C143: errors of temperature are not amplified, and the distance to the Rayleigh-Jeans solution. *)

From Coq Require Import ZArith Reals Lra Lia List Bool.
Import ListNotations.
From Coquelicot Require Import Coquelicot.
From Verif Require Import Arith PyBase Utils RTE Spec RealAux Integral PlanckGen PlanckReal PlanckMaster PropsPlanck PropsMono PropsCondition.
Open Scope R_scope.

(** ** The slope of the Planck function *)

Lemma coth_ge x : 0 <= x -> 2 * (exp x - 1) <= x * (exp x + 1).
Proof.
  intros Hx. set (f := fun x => x * (exp x + 1) - 2 * (exp x - 1)).
  assert (H : f 0 <= f x).
  { apply (incr_by_derive f (fun x => 1 + x * exp x - exp x)); auto.
    - intros y _. unfold f. auto_derive; auto. ring.
    - intros y _. assert (E := exp_ge_1_add (- y)). rewrite exp_Ropp in E. assert (P := exp_pos y).
      assert (Q : (1 - y) * exp y <= 1). { apply Rle_trans with (/ exp y * exp y); [apply Rmult_le_compat_r; lra|]. rewrite Rinv_l; lra. }
      lra. }
  unfold f in H. rewrite exp_0 in H. lra.
Qed.

Lemma sinh_sq x : 0 < x -> x * x * exp x <= (exp x - 1) * (exp x - 1).
Proof.
  intros Hx. assert (S := sinh_ge (x / 2) ltac:(lra)).
  assert (Ee : exp x = exp (x / 2) * exp (x / 2)) by (rewrite <- exp_plus; f_equal; lra).
  assert (Ei : exp (- (x / 2)) * exp (x / 2) = 1) by (rewrite <- exp_plus, Rplus_opp_l; apply exp_0).
  assert (P := exp_pos (x / 2)).
  assert (Q : x * exp (x / 2) <= exp x - 1) by nra.
  replace (x * x * exp x) with ((x * exp (x / 2)) * (x * exp (x / 2))) by (rewrite Ee; ring).
  apply Rmult_le_compat; auto; apply Rmult_le_pos; lra.
Qed.

(** Logarithm of the slope, and the slope of that. *)
Definition lslope (h T : R) : R := ln h - 2 * ln T + h / T - 2 * ln (exp (h / T) - 1).
Definition bend (x : R) : R := x * x * (exp x + 1) / (exp x - 1) - 2 * x.

Lemma quot_pos h T : 0 < h -> 0 < T -> 0 < h / T.
Proof. intros. apply Rdiv_lt_0_compat; auto. Qed.

Lemma slope_derive h T : 0 < h -> 0 < T -> is_derive (planckB h) T (exp (lslope h T)).
Proof.
  intros Hh HT. assert (E := planckB_denom h T Hh HT). unfold planckB.
  auto_derive; [split; lra|].
  unfold lslope. replace (ln h - 2 * ln T + h / T - 2 * ln (exp (h / T) - 1))
    with (ln h + - ln T + - ln T + h / T + - ln (exp (h / T) - 1) + - ln (exp (h / T) - 1)) by ring.
  rewrite !exp_plus, !exp_Ropp, !exp_ln by lra. unfold Rdiv in *. field. lra.
Qed.

Lemma lslope_derive h T : 0 < h -> 0 < T -> is_derive (lslope h) T (bend (h / T) / h).
Proof.
  intros Hh HT. assert (E := planckB_denom h T Hh HT). unfold lslope.
  auto_derive; [repeat split; lra|]. unfold bend. unfold Rdiv in *. field. repeat split; lra.
Qed.

Lemma bend_nonneg x : 0 < x -> 0 <= bend x.
Proof.
  intros Hx. unfold bend. assert (E : 1 < exp x) by (apply exp_gt1; auto). assert (C := coth_ge x ltac:(lra)).
  assert (2 * x <= x * x * (exp x + 1) / (exp x - 1)); [|lra].
  apply Rmult_le_reg_r with (exp x - 1); [lra|].
  replace (x * x * (exp x + 1) / (exp x - 1) * (exp x - 1)) with (x * (x * (exp x + 1))) by (field; lra).
  apply Rle_trans with (x * (2 * (exp x - 1))); [lra|]. apply Rmult_le_compat_l; lra.
Qed.

Lemma bend_incr x y : 0 < x <= y -> bend x <= bend y.
Proof.
  intros [Hx Hxy].
  apply (incr_by_derive bend (fun x => (2 * x * (exp x * exp x - 1) - 2 * (x * x * exp x) - 2 * ((exp x - 1) * (exp x - 1))) / ((exp x - 1) * (exp x - 1)))); auto.
  - intros z Hz. assert (E : 1 < exp z) by (apply exp_gt1; lra). unfold bend. auto_derive; [lra|]. field. lra.
  - intros z Hz. assert (E : 1 < exp z) by (apply exp_gt1; lra).
    assert (C := coth_ge z ltac:(lra)). assert (S := sinh_sq z ltac:(lra)).
    apply Rmult_le_pos; [|left; apply Rinv_0_lt_compat, Rmult_lt_0_compat; lra].
    assert (2 * (exp z - 1) * (exp z - 1) <= z * (exp z + 1) * (exp z - 1)) by (apply Rmult_le_compat_r; lra).
    nra.
Qed.

Lemma inv_le h T1 T2 : 0 < h -> 0 < T1 <= T2 -> h / T2 <= h / T1.
Proof. intros. unfold Rdiv. apply Rmult_le_compat_l; [lra|]. apply Rinv_le_contravar; lra. Qed.

(** The slope grows with temperature, the ratio of the slopes at two temperatures a fixed distance apart falls. *)
Lemma lslope_incr h T1 T2 : 0 < h -> 0 < T1 <= T2 -> lslope h T1 <= lslope h T2.
Proof.
  intros Hh [H1 H2]. apply (incr_by_derive (lslope h) (fun T => bend (h / T) / h)); auto.
  - intros x Hx. apply lslope_derive; lra.
  - intros x Hx. apply Rmult_le_pos; [apply bend_nonneg, quot_pos; lra|left; apply Rinv_0_lt_compat; lra].
Qed.
Lemma lslope_ratio h d T1 T2 : 0 < h -> 0 <= d -> 0 < T1 <= T2 ->
  lslope h (T2 + d) - lslope h T2 <= lslope h (T1 + d) - lslope h T1.
Proof.
  intros Hh Hd [H1 H2].
  assert (H : (fun T => lslope h T - lslope h (T + d)) T1 <= (fun T => lslope h T - lslope h (T + d)) T2); [|cbv beta in H; lra].
  apply (incr_by_derive (fun T => lslope h T - lslope h (T + d)) (fun T => bend (h / T) / h - bend (h / (T + d)) / h)); auto.
  - intros x Hx. apply (is_derive_minus (lslope h) (fun T => lslope h (T + d))); [apply lslope_derive; lra|].
    evar_last; [apply (is_derive_comp (lslope h) (fun T => T + d)); [apply lslope_derive; lra|auto_derive; auto; reflexivity]|].
    unfold scal; simpl; unfold mult; simpl. ring.
  - intros x Hx. assert (bend (h / (x + d)) <= bend (h / x)).
    { apply bend_incr. split; [apply quot_pos; lra|apply inv_le; lra]. }
    unfold Rdiv at 1 3. rewrite <- Rmult_minus_distr_r. apply Rmult_le_pos; [unfold Rdiv in *; lra|left; apply Rinv_0_lt_compat; lra].
Qed.

(** A function with non-negative derivative beyond [m] and non-positive before has its least value at [m]. *)
Lemma least_at (f f' : R -> R) m T : 0 < m -> 0 < T -> (forall x, 0 < x -> is_derive f x (f' x)) ->
  (forall x, 0 < x <= m -> f' x <= 0) -> (forall x, m <= x -> 0 <= f' x) -> f m <= f T.
Proof.
  intros Hm HT Hd H1 H2. destruct (Rle_lt_dec m T).
  - apply (incr_by_derive f f'); auto; intros x Hx; [apply Hd; lra|apply H2; lra].
  - assert (H : (fun x => - f x) T <= (fun x => - f x) m); [|cbv beta in H; lra].
    apply (incr_by_derive (fun x => - f x) (fun x => - f' x)); [|intros x Hx|intros x Hx]; try lra.
    + apply (is_derive_opp f). apply Hd; lra.
    + assert (G := H1 x ltac:(lra)). lra.
Qed.

(** ** Tangents *)
(** Warming by [d] is dominated by an affine function of the radiance that is exact at [T0]. *)
Lemma warm_tangent h d T0 : 0 < h -> 0 <= d -> 0 < T0 ->
  exists c k, 0 <= c /\ 0 <= k /\ c + k * planckB h T0 = planckB h (T0 + d) /\ forall T, 0 < T -> planckB h (T + d) <= c + k * planckB h T.
Proof.
  intros Hh Hd H0. set (k := exp (lslope h (T0 + d) - lslope h T0)). assert (Hk : 0 < k) by apply exp_pos.
  set (c := planckB h (T0 + d) - k * planckB h T0).
  assert (M : forall T, 0 < T -> planckB h (T + d) <= c + k * planckB h T).
  { intros T HT.
    assert (L := least_at (fun T => k * planckB h T - planckB h (T + d)) (fun T => k * exp (lslope h T) - exp (lslope h (T + d))) T0 T H0 HT).
    cbv beta in L. unfold c. enough (k * planckB h T0 - planckB h (T0 + d) <= k * planckB h T - planckB h (T + d)) by lra. apply L; clear L T HT.
    - intros x Hx. apply (is_derive_minus (fun T => k * planckB h T) (fun T => planckB h (T + d))).
      + apply (is_derive_scal (planckB h)). apply slope_derive; lra.
      + evar_last; [apply (is_derive_comp (planckB h) (fun T => T + d)); [apply slope_derive; lra|auto_derive; auto; reflexivity]|].
        unfold scal; simpl; unfold mult; simpl. ring.
    - intros x Hx. unfold k. rewrite <- exp_plus. apply Rle_minus. apply exp_le. assert (R := lslope_ratio h d x T0 Hh Hd Hx). lra.
    - intros x Hx. unfold k. rewrite <- exp_plus. apply Rge_le, Rge_minus, Rle_ge. apply exp_le.
      assert (R := lslope_ratio h d T0 x Hh Hd ltac:(lra)). lra. }
  exists c, k. repeat split; auto; try lra; [|unfold c; ring].
  destruct (Rle_lt_dec 0 c) as [|N]; auto. exfalso.
  set (b := - c / (2 * k)). assert (Hb : 0 < b) by (apply Rdiv_lt_0_compat; lra).
  assert (HT := planckT_pos h b Hh Hb). specialize (M _ HT). rewrite planckB_T in M by auto.
  assert (P := planckB_pos h (planckT h b + d) Hh ltac:(lra)).
  assert (k * b = - c / 2) by (unfold b; field; lra). lra.
Qed.

(** The Planck function lies above its tangents. *)
Lemma planck_tangent h T0 : 0 < h -> 0 < T0 ->
  exists c k, 0 <= c /\ 0 <= k /\ k * T0 - c = planckB h T0 /\ forall T, 0 < T -> k * T - c <= planckB h T.
Proof.
  intros Hh H0. set (k := exp (lslope h T0)). assert (Hk : 0 < k) by apply exp_pos.
  set (c := k * T0 - planckB h T0).
  assert (M : forall T, 0 < T -> k * T - c <= planckB h T).
  { intros T HT. assert (L := least_at (fun T => planckB h T - k * T) (fun T => exp (lslope h T) - k) T0 T H0 HT).
    cbv beta in L. unfold c. enough (planckB h T0 - k * T0 <= planckB h T - k * T) by lra. apply L; clear L T HT.
    - intros x Hx. apply (is_derive_minus (planckB h) (fun T => k * T)); [apply slope_derive; lra|]. auto_derive; auto. ring.
    - intros x Hx. apply Rle_minus. unfold k. apply exp_le, lslope_incr; lra.
    - intros x Hx. apply Rge_le, Rge_minus, Rle_ge. unfold k. apply exp_le, lslope_incr; lra. }
  exists c, k. repeat split; auto; try lra; [|unfold c; ring].
  destruct (Rle_lt_dec 0 c) as [|N]; auto. exfalso.
  set (b := Rmin (- c / 2) (planckB h T0)).
  assert (Hb : 0 < b). { apply Rmin_glb_lt; [lra|]. apply planckB_pos; auto. }
  assert (HT := planckT_pos h b Hh Hb). specialize (M _ HT). rewrite planckB_T in M by auto.
  assert (b <= - c / 2) by apply Rmin_l. assert (0 < k * planckT h b) by (apply Rmult_lt_0_compat; auto). lra.
Qed.

Lemma planck_rj h T : 0 < h -> 0 < T -> T / h - / 2 <= planckB h T.
Proof.
  intros Hh HT. assert (Hx := quot_pos h T Hh HT). unfold planckB. replace (T / h) with (/ (h / T)) by (field; lra).
  set (x := h / T) in *. assert (E : 1 < exp x) by (apply exp_gt1; auto). assert (C := coth_ge x ltac:(lra)).
  assert (/ x <= / (exp x - 1) + / 2); [|lra].
  apply Rmult_le_reg_r with (2 * x * (exp x - 1)); [apply Rmult_lt_0_compat; lra|].
  replace (/ x * (2 * x * (exp x - 1))) with (2 * (exp x - 1)) by (field; lra).
  replace ((/ (exp x - 1) + / 2) * (2 * x * (exp x - 1))) with (x * (exp x + 1)) by (field; lra). lra.
Qed.

(** ** Affine comparison along the path *)
Lemma seen_affine B d bg n c k : seen (fun i => c + k * B i) d (c + k * bg) n = c + k * seen B d bg n.
Proof.
  revert B d. induction n as [|n IH]; intros B d.
  - unfold seen. change (path_atm (fun i => c + k * B i) d 0) with 0. change (path_atm B d 0) with 0. change (path_tau d 0) with 0.
    rewrite Ropp_0, exp_0. ring.
  - rewrite !seen_first. rewrite (IH (fun i => B (S i)) (fun i => d (S i))). unfold layer_emit. assert (E := exp_pos (- d 1%nat)). field. lra.
Qed.

(** [b'] is dominated by [b] warmed by [d]. *)
Definition dominated (h d b b' : R) : Prop := forall c k, 0 <= c -> 0 <= k ->
  (forall T, 0 < T -> planckB h (T + d) <= c + k * planckB h T) -> b' <= c + k * b.

Lemma dominated_bright h d b b' : 0 < h -> 0 <= d -> 0 <= b -> 0 <= b' -> dominated h d b b' ->
  exists tb tb', Xbright (Fin h) (Fin b) = Fin tb /\ Xbright (Fin h) (Fin b') = Fin tb' /\ 0 <= tb /\ tb' <= tb + d.
Proof.
  intros Hh Hd Hb Hb' D.
  assert (K : forall T, 0 < T -> b <= planckB h T -> 0 < b' -> planckT h b' <= T + d).
  { intros T HT HbT Hp. destruct (warm_tangent h d T Hh Hd HT) as (c & k & Hc & Hk & E & M).
    assert (Q := D c k Hc Hk M). assert (b' <= planckB h (T + d)) by (rewrite <- E; assert (k * b <= k * planckB h T) by (apply Rmult_le_compat_l; lra); lra).
    rewrite <- (planckT_B h (T + d)) by lra. apply planckT_le; auto. }
  destruct (Req_dec b' 0) as [->|N'].
  - destruct (Req_dec b 0) as [->|N].
    + exists 0, 0. rewrite bright_X0. repeat split; lra.
    + exists (planckT h b), 0. rewrite bright_X0, bright_X by lra. assert (P := planckT_pos h b Hh ltac:(lra)). repeat split; lra.
  - destruct (Req_dec b 0) as [->|N].
    + exists 0, (planckT h b'). rewrite bright_X0, bright_X by lra. repeat split; try lra.
      apply le_epsilon. intros e He. assert (P := planckB_pos h e Hh He). assert (Q := K e He ltac:(lra) ltac:(lra)). lra.
    + exists (planckT h b), (planckT h b'). rewrite !bright_X by lra. assert (P := planckT_pos h b Hh ltac:(lra)). repeat split; try lra.
      apply K; auto; [rewrite planckB_T; lra|lra].
Qed.

(** ** C142 *)
(** Temperatures of two profiles differ by at most [d] at every level. *)
Definition within (d : R) (t t' : list R) : Prop := length t = length t' /\ forall i, (i < length t)%nat -> Rabs (nth i t 0 - nth i t' 0) <= d.

Lemma within_view d sat t t' i : within d t t' -> (i < length t)%nat -> view_T sat t' i <= view_T sat t i + d.
Proof.
  intros [L H] Hi. unfold view_T. rewrite <- L. destruct sat.
  - specialize (H (length t - 1 - i)%nat ltac:(lia)). assert (Q := Rle_abs (- (nth (length t - 1 - i) t 0 - nth (length t - 1 - i) t' 0))). rewrite Rabs_Ropp in Q. lra.
  - specialize (H i Hi). assert (Q := Rle_abs (- (nth i t 0 - nth i t' 0))). rewrite Rabs_Ropp in Q. lra.
Qed.
Lemma within_sym d t t' : within d t t' -> within d t' t.
Proof. intros [L H]. split; [auto|]. intros i Hi. rewrite Rabs_minus_sym. apply H. lia. Qed.

Lemma seen_dominated sat h d t t' tau bg bg' : 0 < h -> (forall x, In x t -> 0 < x) -> (forall x, In x t' -> 0 < x) -> within d t t' ->
  length t = length tau -> t <> [] -> (forall x, In x tau -> 0 <= x) ->
  (forall c k, 0 <= c -> 0 <= k -> (forall T, 0 < T -> planckB h (T + d) <= c + k * planckB h T) -> bg' <= c + k * bg) ->
  forall c k, 0 <= c -> 0 <= k -> (forall T, 0 < T -> planckB h (T + d) <= c + k * planckB h T) ->
  bg' * exp (- total_tau tau) + total_atm sat h t' tau <= c + k * (bg * exp (- total_tau tau) + total_atm sat h t tau).
Proof.
  intros Hh Ht Ht' W Hl Hne Htau Hbg c k Hc Hk M. assert (L := proj1 W).
  assert (Hn : (0 < length t)%nat) by (destruct t; [congruence|simpl; lia]).
  assert (Hne' : t' <> []) by (intros ->; simpl in L; lia).
  rewrite !total_seen by (auto; congruence). rewrite <- seen_affine, <- L. apply seen_warmer.
  - intros i Hi. assert (P := Ht _ (view_T_In sat t i ltac:(lia))). assert (P' := Ht' _ (view_T_In sat t' i ltac:(lia))).
    apply Rle_trans with (planckB h (view_T sat t i + d)); [|apply M; auto].
    apply planckB_le; auto. apply within_view; auto. lia.
  - apply Hbg; auto.
  - intros i. apply view_D_nonneg; auto.
Qed.

Lemma background_dominated sat es h d t t' : 0 < h -> 0 <= d -> 0 <= es <= 1 -> (forall x, In x t -> 0 < x) -> (forall x, In x t' -> 0 < x) -> within d t t' -> t <> [] ->
  forall c k, 0 <= c -> 0 <= k -> (forall T, 0 < T -> planckB h (T + d) <= c + k * planckB h T) -> background sat es h t' <= c + k * background sat es h t.
Proof.
  intros Hh Hd Hes Ht Ht' W Hne c k Hc Hk M. assert (L := proj1 W).
  assert (Hn : (0 < length t)%nat) by (destruct t; [congruence|simpl; lia]).
  unfold background. destruct sat.
  - assert (P := Ht _ (nth_In t 0 (n:=0%nat) Hn)). assert (P' := Ht' _ (nth_In t' 0 (n:=0%nat) ltac:(lia))).
    assert (Q : planckB h (nth 0 t' 0) <= c + k * planckB h (nth 0 t 0)).
    { apply Rle_trans with (planckB h (nth 0 t 0 + d)); [|apply M; auto]. apply planckB_le; auto.
      assert (V := within_view d false t t' 0 W Hn). exact V. }
    apply Rle_trans with (es * (c + k * planckB h (nth 0 t 0))); [apply Rmult_le_compat_l; lra|]. nra.
  - apply Rle_trans with (planckB h (2.728 + d)); [|apply M; lra]. apply planckB_le; lra.
Qed.

Lemma background_nonneg sat es h t : 0 < h -> 0 <= es -> (forall x, In x t -> 0 < x) -> t <> [] -> 0 <= background sat es h t.
Proof.
  intros Hh Hes Ht Hne. assert (Hn : (0 < length t)%nat) by (destruct t; [congruence|simpl; lia]).
  unfold background. destruct sat.
  - apply Rmult_le_pos; auto. left. apply planckB_pos; auto. apply Ht, nth_In; auto.
  - left. apply planckB_pos; lra.
Qed.

Lemma both_within h d b b' : 0 < h -> 0 <= d -> 0 <= b -> 0 <= b' -> dominated h d b b' -> dominated h d b' b ->
  exists tb tb', Xbright (Fin h) (Fin b) = Fin tb /\ Xbright (Fin h) (Fin b') = Fin tb' /\ Rabs (tb - tb') <= d.
Proof.
  intros Hh Hd Hb Hb' D D'.
  destruct (dominated_bright h d b b' Hh Hd Hb Hb' D) as (x & y & E1 & E2 & _ & E3).
  destruct (dominated_bright h d b' b Hh Hd Hb' Hb D') as (y' & x' & E1' & E2' & _ & E3').
  rewrite E1 in E2'. rewrite E2 in E1'. inversion E2'; inversion E1'; subst.
  exists x', y'. repeat split; auto. apply Rabs_le. lra.
Qed.

(** At unchanged opacities, temperatures that differ by at most [d] kelvin give brightness temperatures and mean radiating
    temperatures that differ by at most [d] kelvin. *)
Theorem C142_temperature (sat : bool) (es f d : R) (t t' tau : list R) :
  0 < f -> 0 <= es <= 1 -> 0 <= d -> (forall x, In x t -> 0 < x) -> (forall x, In x t' -> 0 < x) -> within d t t' ->
  length t = length tau -> t <> [] -> (forall x, In x tau -> 0 <= x) ->
  exists o o' tb tb' tmr tmr', Xplanck sat es f t tau = Ok o /\ Xplanck sat es f t' tau = Ok o' /\
    Xbright (p_hvk o) (p_boftotl o) = Fin tb /\ Xbright (p_hvk o') (p_boftotl o') = Fin tb' /\ Rabs (tb - tb') <= d /\
    (0 < total_tau tau -> Xbright (p_hvk o) (p_boftmr o) = Fin tmr /\ Xbright (p_hvk o') (p_boftmr o') = Fin tmr' /\ Rabs (tmr - tmr') <= d).
Proof.
  intros Hf Hes Hd Ht Ht' W Hl Hne Htau. assert (Hh := spec_hvk_pos f Hf). assert (L := proj1 W). assert (W' := within_sym _ _ _ W).
  assert (Hne' : t' <> []) by (intros ->; destruct t; simpl in L; congruence).
  destruct (planckX_master sat es f t tau Hf Ht Hl Hne) as (o & Ho & Hk & _ & _ & _ & H5 & H6 & _ & H8).
  destruct (planckX_master sat es f t' tau Hf Ht' ltac:(congruence) Hne') as (o' & Ho' & Hk' & _ & _ & _ & H5' & H6' & _ & H8').
  set (h := spec_hvk f) in *.
  assert (BG := background_nonneg sat es h t Hh ltac:(lra) Ht Hne). assert (BG' := background_nonneg sat es h t' Hh ltac:(lra) Ht' Hne').
  assert (ATM := proj1 (radiance_nonneg sat h t tau 0 Hh Ht Htau Hl Hne ltac:(lra))).
  assert (ATM' := proj1 (radiance_nonneg sat h t' tau 0 Hh Ht' Htau ltac:(congruence) Hne' ltac:(lra))).
  assert (TOT := proj2 (radiance_nonneg sat h t tau _ Hh Ht Htau Hl Hne BG)).
  assert (TOT' := proj2 (radiance_nonneg sat h t' tau _ Hh Ht' Htau ltac:(congruence) Hne' BG')).
  assert (DT := seen_dominated sat h d t t' tau _ _ Hh Ht Ht' W Hl Hne Htau (background_dominated sat es h d t t' Hh Hd Hes Ht Ht' W Hne)).
  assert (DT' := seen_dominated sat h d t' t tau _ _ Hh Ht' Ht W' ltac:(congruence) Hne' Htau (background_dominated sat es h d t' t Hh Hd Hes Ht' Ht W' Hne')).
  assert (DA := seen_dominated sat h d t t' tau 0 0 Hh Ht Ht' W Hl Hne Htau ltac:(intros; lra)).
  assert (DA' := seen_dominated sat h d t' t tau 0 0 Hh Ht' Ht W' ltac:(congruence) Hne' Htau ltac:(intros; lra)).
  assert (SA : forall s s', 0 < h -> (forall x, In x s -> 0 < x) -> (forall x, In x s' -> 0 < x) -> within d s s' -> length s = length tau -> s <> [] ->
    0 < total_tau tau -> dominated h d (total_atm sat h s tau / (1 - exp (- total_tau tau))) (total_atm sat h s' tau / (1 - exp (- total_tau tau)))).
  { intros s s' _ Hs Hs' Ws Ls Ns Z c k Hc Hkk M.
    assert (X : 0 < 1 - exp (- total_tau tau)) by (assert (X := exp_neg_lt1 _ Z); lra).
    assert (Q := seen_dominated sat h d s s' tau 0 c Hh Hs Hs' Ws Ls Ns Htau).
    assert (Q1 : c * exp (- total_tau tau) + total_atm sat h s' tau <= c + k * total_atm sat h s tau).
    { unfold seen in Q. assert (Lw := proj1 Ws). assert (Ns' : s' <> []) by (intros ->; destruct s; simpl in Lw; congruence).
      rewrite total_seen, atm_seen by (auto; congruence). rewrite <- (Rmult_0_r k) at 1. rewrite <- (Rplus_0_r c) at 1.
      rewrite <- seen_affine, <- Lw. apply seen_warmer.
      - intros i Hi. assert (Hn : (0 < length s)%nat) by (destruct s; [congruence|simpl; lia]).
        assert (P := Hs _ (view_T_In sat s i ltac:(lia))). assert (P' := Hs' _ (view_T_In sat s' i ltac:(lia))).
        apply Rle_trans with (planckB h (view_T sat s i + d)); [|apply M; auto]. apply planckB_le; auto. apply within_view; auto. lia.
      - lra.
      - intros i. apply view_D_nonneg; auto. }
    apply Rmult_le_reg_r with (1 - exp (- total_tau tau)); auto.
    replace (total_atm sat h s' tau / (1 - exp (- total_tau tau)) * (1 - exp (- total_tau tau))) with (total_atm sat h s' tau) by (field; lra).
    replace ((c + k * (total_atm sat h s tau / (1 - exp (- total_tau tau)))) * (1 - exp (- total_tau tau)))
      with (c * (1 - exp (- total_tau tau)) + k * total_atm sat h s tau) by (field; lra). lra. }
  destruct (Rlt_le_dec (total_tau tau) 125) as [Hlt|Hge].
  - destruct (both_within h d _ _ Hh Hd TOT TOT' DT DT') as (tb & tb' & E1 & E2 & E3).
    destruct (Rle_lt_dec (total_tau tau) 0) as [Z|Z].
    + exists o, o', tb, tb', 0, 0. rewrite Hk, Hk'. destruct (H5 Hlt) as (_ & ->). destruct (H5' Hlt) as (_ & ->).
      repeat split; auto; exfalso; lra.
    + assert (X : 0 < 1 - exp (- total_tau tau)) by (assert (X := exp_neg_lt1 _ Z); lra). assert (I := Rinv_0_lt_compat _ X).
      destruct (both_within h d (total_atm sat h t tau / (1 - exp (- total_tau tau))) (total_atm sat h t' tau / (1 - exp (- total_tau tau))) Hh Hd) as (tm & tm' & F1 & F2 & F3).
      { apply Rmult_le_pos; lra. } { apply Rmult_le_pos; lra. } { apply SA; auto. } { apply SA; auto; congruence. }
      exists o, o', tb, tb', tm, tm'. rewrite Hk, Hk'. destruct (H5 Hlt) as (_ & ->). destruct (H5' Hlt) as (_ & ->).
      rewrite H6, H6' by lra. repeat split; auto.
  - assert (EA : forall s, 0 * exp (- total_tau tau) + total_atm sat h s tau = total_atm sat h s tau) by (intros; ring).
    rewrite !EA in DA, DA'.
    destruct (both_within h d _ _ Hh Hd ATM ATM' DA DA') as (tb & tb' & E1 & E2 & E3).
    exists o, o', tb, tb', tb, tb'. rewrite Hk, Hk'. destruct (H8 Hge) as (_ & -> & ->). destruct (H8' Hge) as (_ & -> & ->).
    repeat split; auto.
Qed.
Example C142_example : exists o o' tb tb', Xplanck true 0.6 89 ex_t ex_tau = Ok o /\ Xplanck true 0.6 89 [282; 249; 221.5] ex_tau = Ok o' /\
  Xbright (p_hvk o) (p_boftotl o) = Fin tb /\ Xbright (p_hvk o') (p_boftotl o') = Fin tb' /\ Rabs (tb - tb') <= 2.
Proof.
  destruct (C142_temperature true 0.6 89 2 ex_t [282; 249; 221.5] ex_tau) as (o & o' & tb & tb' & _ & _ & H1 & H2 & H3 & H4 & H5 & _);
    try lra; auto using ex_len, ex_ne, ex_t_pos, ex_tau_pos.
  { intros x Hx. simpl in Hx. repeat (destruct Hx as [<-|Hx]; [lra|]). destruct Hx. }
  { split; [reflexivity|]. intros i Hi. unfold ex_t in *. do 3 (destruct i as [|i]; [simpl; apply Rabs_le; lra|]). simpl in Hi. lia. }
  exists o, o', tb, tb'. auto.
Qed.

(** ** C143 *)
(** The Rayleigh-Jeans solution: the same weights applied to temperatures instead of radiances. *)
Definition rj_background (sat : bool) (es : R) (t : list R) : R := if sat then es * nth 0 t 0 else 2.728.
Definition rj_solution (sat : bool) (es : R) (t tau : list R) : R :=
  rj_background sat es t * exp (- total_tau tau) + path_atm (view_T sat t) (view_D sat tau) (length t - 1).

Lemma rj_seen sat bg t tau : length t = length tau -> t <> [] ->
  bg * exp (- total_tau tau) + path_atm (view_T sat t) (view_D sat tau) (length t - 1) = seen (view_T sat t) (view_D sat tau) bg (length t - 1).
Proof.
  intros Hl Hne. assert (Hne' : tau <> []) by (destruct tau; [destruct t; simpl in *; congruence|discriminate]).
  unfold seen. rewrite Hl, (total_tau_view sat tau Hne'). lra.
Qed.

(** The brightness temperature is at least the Rayleigh-Jeans solution and exceeds it by at most half of [h nu / k],
    0.024 K per GHz. *)
Theorem C143_rayleigh_jeans (sat : bool) (es f : R) (t tau : list R) :
  0 < f -> 0 <= es <= 1 -> (forall x, In x t -> 0 < x) ->
  length t = length tau -> t <> [] -> (forall x, In x tau -> 0 <= x) -> total_tau tau < 125 ->
  exists o tb, Xplanck sat es f t tau = Ok o /\ Xbright (p_hvk o) (p_boftotl o) = Fin tb /\
    rj_solution sat es t tau <= tb <= rj_solution sat es t tau + spec_hvk f / 2.
Proof.
  intros Hf Hes Ht Hl Hne Htau Hlt. assert (Hh := spec_hvk_pos f Hf).
  destruct (planckX_master sat es f t tau Hf Ht Hl Hne) as (o & Ho & Hk & _ & _ & _ & H5 & _).
  destruct (H5 Hlt) as (_ & R1). set (h := spec_hvk f) in *.
  assert (Hn : (0 < length t)%nat) by (destruct t; [congruence|simpl; lia]).
  assert (BG := background_nonneg sat es h t Hh ltac:(lra) Ht Hne).
  assert (TOT := proj2 (radiance_nonneg sat h t tau _ Hh Ht Htau Hl Hne BG)).
  assert (V := fun i => view_D_nonneg sat tau i Htau).
  assert (VT : forall i, (i <= length t - 1)%nat -> 0 < view_T sat t i) by (intros i Hi; apply Ht, view_T_In; lia).
  rewrite total_seen in R1, TOT by auto. unfold rj_solution. rewrite rj_seen by auto.
  set (n := (length t - 1)%nat) in *. set (d := view_D sat tau) in *. set (bg := background sat es h t) in *. set (bt := rj_background sat es t).
  set (b := seen (fun i => planckB h (view_T sat t i)) d bg n) in *. set (m := seen (view_T sat t) d bt n).
  assert (T0 := Ht _ (nth_In t 0 (n:=0%nat) Hn)).
  assert (Hbt : 0 <= bt). { unfold bt, rj_background. destruct sat; [apply Rmult_le_pos; lra|lra]. }
  assert (Hm : 0 <= m).
  { assert (Q : seen (fun _ => 0) d 0 n <= m) by (apply seen_warmer; auto; intros i Hi; left; apply VT; lia).
    assert (E := seen_affine (fun _ => 0) d 0 n 0 0). rewrite !Rmult_0_l, !Rplus_0_l in E. rewrite E in Q. lra. }
  (* radiances are at most T / h *)
  assert (U : b <= m / h).
  { replace (m / h) with (0 + / h * m) by (field; lra). unfold m. rewrite <- seen_affine. apply seen_warmer; auto.
    - intros i Hi. assert (Q := planckB_le_T h _ Hh (VT i Hi)). unfold Rdiv in Q. lra.
    - unfold bg, bt, background, rj_background. destruct sat.
      + assert (Q := planckB_le_T h _ Hh T0). unfold Rdiv in Q. nra.
      + assert (Q := planckB_le_T h 2.728 Hh ltac:(lra)). unfold Rdiv in Q. lra. }
  assert (Lo : 0 < m -> planckB h m <= b).
  { intros Pm. destruct (planck_tangent h m Hh Pm) as (c & k & Hc & Hkk & E & M). rewrite <- E.
    apply Rle_trans with (- c + k * m); [lra|]. unfold m. rewrite <- seen_affine. apply seen_warmer; auto.
    - intros i Hi. assert (Q := M _ (VT i Hi)). lra.
    - unfold bg, bt, background, rj_background. destruct sat.
      + assert (Q := M _ T0). nra.
      + assert (Q := M 2.728 ltac:(lra)). lra. }
  destruct (Req_dec b 0) as [Z|Z].
  - destruct (Req_dec m 0) as [Zm|Zm].
    + exists o, 0. rewrite Hk, R1, Z, Zm, bright_X0. repeat split; auto; lra.
    + exfalso. assert (Q := Lo ltac:(lra)). assert (P := planckB_pos h m Hh ltac:(lra)). lra.
  - exists o, (planckT h b). rewrite Hk, R1, bright_X by lra. split; [exact Ho|]. split; [reflexivity|].
    assert (P := planckT_pos h b Hh ltac:(lra)). split.
    + destruct (Req_dec m 0) as [Zm|Zm]; [lra|]. rewrite <- (planckT_B h m) by lra.
      apply planckT_le; auto; [apply planckB_pos; lra|apply Lo; lra].
    + assert (Q := planck_rj h _ Hh P). rewrite planckB_T in Q by lra.
      assert (Q2 : planckT h b / h * h <= (m / h + / 2) * h) by (apply Rmult_le_compat_r; lra).
      replace (planckT h b / h * h) with (planckT h b) in Q2 by (field; lra).
      replace ((m / h + / 2) * h) with (m + h / 2) in Q2 by (field; lra). lra.
Qed.
(** Three levels: the solution at 31.4 GHz lies within 0.76 K of the Rayleigh-Jeans value. *)
Example C143_example : exists o tb, Xplanck false 1 31.4 ex_t ex_tau = Ok o /\ Xbright (p_hvk o) (p_boftotl o) = Fin tb /\
  rj_solution false 1 ex_t ex_tau <= tb <= rj_solution false 1 ex_t ex_tau + 0.76.
Proof.
  destruct (C143_rayleigh_jeans false 1 31.4 ex_t ex_tau) as (o & tb & H1 & H2 & H3 & H4);
    try lra; auto using ex_len, ex_ne, ex_t_pos, ex_tau_pos. { rewrite ex_tau_total. lra. }
  exists o, tb. repeat split; auto. unfold spec_hvk in H4. lra.
Qed.
