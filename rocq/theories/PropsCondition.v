(** C137: sensitivity of the brightness temperature to errors of the opacities. *)

From Coq Require Import ZArith Reals Lra Lia List Bool.
From Coquelicot Require Import Coquelicot.
Import ListNotations.
From Verif Require Import Arith PyBase Utils RTE Spec RealAux ExpQ PlanckGen PlanckReal PlanckMaster Integral Machine PropsRound.
Open Scope R_scope.

(** ** The radiance as a sum over temperature steps

    Seen from the antenna, the radiance is that of the first level plus the steps of the Planck function, each weighted
    by the harmonic mean of the transmissions to its two ends. *)

Definition trans (d : nat -> R) (k : nat) : R := exp (- path_tau d k).
Definition hmean (d : nat -> R) (k : nat) : R := 2 / (exp (path_tau d k) + exp (path_tau d (S k))).

Lemma abel B d bg n :
  path_atm B d n + bg * trans d n =
  B O + rsum n (fun k => (B (S k) - B k) * hmean d k) + (bg - B n) * trans d n.
Proof.
  induction n as [|n IH].
  - unfold path_atm, trans, path_tau. simpl. rewrite Ropp_0, exp_0. ring.
  - assert (E : path_atm B d (S n) = path_atm B d n
       + layer_emit (B n) (B (S n)) (d (S n)) * (trans d n - trans d (S n))) by reflexivity.
    rewrite E. cbn [rsum].
    assert (IH' : path_atm B d n + (bg - bg) * trans d n =
       B O + rsum n (fun k => (B (S k) - B k) * hmean d k) - B n * trans d n) by lra.
    assert (Es : path_tau d (S n) = path_tau d n + d (S n)) by reflexivity.
    assert (Hh : hmean d n = trans d (S n) + exp (- d (S n)) / (1 + exp (- d (S n))) * (trans d n - trans d (S n))).
    { unfold hmean, trans. rewrite Es. replace (- (path_tau d n + d (S n))) with (- path_tau d n + - d (S n)) by lra.
      rewrite !exp_plus, !exp_Ropp.
      assert (0 < exp (path_tau d n)) by apply exp_pos. assert (0 < exp (d (S n))) by apply exp_pos.
      field. repeat split; try lra; nra. }
    assert (Hl : layer_emit (B n) (B (S n)) (d (S n)) = B n + (B (S n) - B n) * (exp (- d (S n)) / (1 + exp (- d (S n))))).
    { unfold layer_emit. assert (0 < exp (- d (S n))) by apply exp_pos. field. lra. }
    rewrite Hl, Hh. set (s := exp (- d (S n)) / (1 + exp (- d (S n)))). nra.
Qed.

(** ** Perturbed opacities *)

Section Perturb.
Context (d d' er : nat -> R) (del sig : R) (n : nat).
Context (Hd : forall i, 0 <= d i) (Hd' : forall i, 0 <= d' i) (He : forall i, 0 <= er i) (Hdel : 0 <= del <= 0.1).
Context (Hp : forall i, (1 <= i <= n)%nat -> Rabs (d' i - d i) <= del * d i + er i).
Context (Hs : path_tau er n <= sig).

Lemma tau_perturb k : (k <= n)%nat -> Rabs (path_tau d' k - path_tau d k) <= del * path_tau d k + path_tau er k.
Proof.
  induction k as [|k IH]; intros Hk.
  - unfold path_tau. simpl. rewrite Rminus_0_r, Rabs_R0. lra.
  - change (path_tau d' (S k)) with (path_tau d' k + d' (S k)).
    change (path_tau d (S k)) with (path_tau d k + d (S k)).
    change (path_tau er (S k)) with (path_tau er k + er (S k)).
    assert (H1 := IH ltac:(lia)). assert (H2 := Hp (S k) ltac:(lia)).
    apply Rabs_def2_le in H1. apply Rabs_def2_le in H2. apply Rabs_le. lra.
Qed.

Lemma err_le k : (k <= n)%nat -> 0 <= path_tau er k <= sig.
Proof.
  intros Hk. split; [apply path_tau_nonneg; auto|]. apply Rle_trans with (path_tau er n); auto.
  replace n with (k + (n - k))%nat by lia. generalize (n - k)%nat as q. intros q. induction q as [|q IH]; [rewrite Nat.add_0_r; lra|].
  rewrite Nat.add_succ_r. change (path_tau er (S (k + q))) with (path_tau er (k + q) + er (S (k + q))). assert (Q := He (S (k + q))). lra.
Qed.

Lemma ex_le x : x * exp (- x) <= 0.368.
Proof.
  assert (H := exp_ineq1_le (x - 1)). assert (Hx : x <= exp (x - 1)) by lra.
  assert (E1 : exp (-1) <= 0.368).
  { assert (Q := exp_le_frac (-1) 1 368 1000). replace (IZR (-1) / 1) with (-1) in Q by lra.
    eapply Rle_trans; [apply Q; vm_compute; reflexivity|lra]. }
  assert (Hp' := exp_pos (- x)).
  apply Rle_trans with (exp (x - 1) * exp (- x)); [apply Rmult_le_compat_r; lra|].
  rewrite <- exp_plus. replace (x - 1 + - x) with (-1) by lra. exact E1.
Qed.

(** Growth factors [exp tau] before and after: their difference in units of their product. *)
Lemma grow_perturb k : (k <= n)%nat ->
  Rabs (exp (path_tau d' k) - exp (path_tau d k)) <= (0.41 * del + 1.2 * sig) * (exp (path_tau d k) * exp (path_tau d' k)).
Proof.
  intros Hk. assert (Ht := tau_perturb k Hk). assert (H0 : 0 <= path_tau d k) by (apply path_tau_nonneg; auto).
  assert (H0' : 0 <= path_tau d' k) by (apply path_tau_nonneg; auto). assert (Hsig := err_le k Hk).
  set (t := path_tau d k) in *. set (t' := path_tau d' k) in *. set (sg := path_tau er k) in *. apply Rabs_def2_le in Ht.
  clearbody t t' sg.
  assert (P := exp_pos t). assert (P' := exp_pos t').
  assert (A : forall a b, 0 <= a -> a <= b -> b - a <= del * t + sg -> t <= (a + sg) / 0.9 ->
     exp b - exp a <= (0.41 * del + 1.2 * sig) * (exp a * exp b)).
  { intros a b Ha Hab Hb Hta. assert (Pa := exp_pos a). assert (Pb := exp_pos b).
    assert (G : exp b - exp a <= (b - a) * exp b).
    { assert (G := exp_ineq1_le (a - b)). replace (exp a) with (exp (a - b) * exp b) by (rewrite <- exp_plus; f_equal; lra). nra. }
    assert (G2 := ex_le a). assert (Ea : exp (- a) * exp a = 1) by (rewrite <- exp_plus, Rplus_opp_l; apply exp_0).
    assert (a <= 0.368 * exp a) by nra. assert (1 <= exp a) by (assert (Q := exp_ineq1_le a); lra).
    assert (D1 : del * t <= del * ((a + sg) / 0.9)) by (apply Rmult_le_compat_l; lra).
    assert (D2 : del * a <= del * (0.368 * exp a)) by (apply Rmult_le_compat_l; lra).
    assert (D3 : del * sg <= 0.1 * sg) by (apply Rmult_le_compat_r; lra).
    assert (D4 : sg <= sig * exp a) by (assert (sig * 1 <= sig * exp a) by (apply Rmult_le_compat_l; lra); lra).
    assert (D5 : 0 <= del * exp a) by (apply Rmult_le_pos; lra).
    assert (D6 : b - a <= (0.41 * del + 1.2 * sig) * exp a) by lra.
    apply Rle_trans with (1 := G). rewrite <- Rmult_assoc.
    apply Rmult_le_compat_r; lra. }
  destruct (Rle_lt_dec t t') as [Hle|Hlt].
  - assert (exp t <= exp t') by (apply exp_le; lra).
    rewrite Rabs_pos_eq by lra. apply A; try lra.
  - assert (exp t' <= exp t) by (apply exp_le; lra).
    rewrite Rabs_left1 by lra. replace (- (exp t' - exp t)) with (exp t - exp t') by lra.
    rewrite (Rmult_comm (exp t)). assert (del * t <= 0.1 * t) by (apply Rmult_le_compat_r; lra). apply A; try lra.
Qed.

Lemma trans_perturb k : (k <= n)%nat -> Rabs (trans d' k - trans d k) <= 0.41 * del + 1.2 * sig.
Proof.
  intros Hk. assert (G := grow_perturb k Hk). unfold trans. rewrite !exp_Ropp.
  set (a := exp (path_tau d k)) in *. set (a' := exp (path_tau d' k)) in *.
  assert (0 < a) by apply exp_pos. assert (0 < a') by apply exp_pos.
  replace (/ a' - / a) with ((a - a') / (a * a')) by (field; lra).
  unfold Rdiv. rewrite Rabs_mult, Rabs_minus_sym. assert (0 < a * a') by nra.
  rewrite (Rabs_pos_eq (/ (a * a'))) by (left; apply Rinv_0_lt_compat; auto).
  apply Rmult_le_reg_r with (a * a'); auto. rewrite Rmult_assoc, Rinv_l by lra. lra.
Qed.

Lemma hmean_perturb k : (S k <= n)%nat -> Rabs (hmean d' k - hmean d k) <= 2 * (0.41 * del + 1.2 * sig).
Proof.
  intros Hk. assert (G1 := grow_perturb k ltac:(lia)). assert (G2 := grow_perturb (S k) Hk). unfold hmean.
  assert (HK : 0 <= 0.41 * del + 1.2 * sig) by (assert (Q := err_le k ltac:(lia)); lra).
  set (K := 0.41 * del + 1.2 * sig) in *. clearbody K.
  set (a := exp (path_tau d k)) in *. set (a' := exp (path_tau d' k)) in *.
  set (b := exp (path_tau d (S k))) in *. set (b' := exp (path_tau d' (S k))) in *.
  assert (0 < a) by apply exp_pos. assert (0 < a') by apply exp_pos.
  assert (0 < b) by apply exp_pos. assert (0 < b') by apply exp_pos.
  replace (2 / (a' + b') - 2 / (a + b)) with (2 * ((a - a') + (b - b')) / ((a + b) * (a' + b'))) by (field; lra).
  assert (P : 0 < (a + b) * (a' + b')) by (apply Rmult_lt_0_compat; lra).
  unfold Rdiv. rewrite Rabs_mult. rewrite (Rabs_pos_eq (/ _)) by (left; apply Rinv_0_lt_compat; auto).
  apply Rmult_le_reg_r with ((a + b) * (a' + b')); auto. rewrite Rmult_assoc, Rinv_l, Rmult_1_r by lra.
  apply Rabs_def2_le in G1. apply Rabs_def2_le in G2.
  assert (Q1 : 0 < a * b') by (apply Rmult_lt_0_compat; lra). assert (Q2 : 0 < b * a') by (apply Rmult_lt_0_compat; lra).
  assert (0 <= K * (a * b')) by (apply Rmult_le_pos; lra). assert (0 <= K * (b * a')) by (apply Rmult_le_pos; lra).
  apply Rabs_le. replace (2 * K * ((a + b) * (a' + b'))) with
    (2 * (K * (a * a') + K * (b * b')) + 2 * (K * (a * b')) + 2 * (K * (b * a'))) by ring. lra.
Qed.

(** Radiance. *)
Lemma radiance_perturb B bg :
  Rabs ((path_atm B d' n + bg * trans d' n) - (path_atm B d n + bg * trans d n))
  <= 2 * (0.41 * del + 1.2 * sig) * (rsum n (fun k => Rabs (B (S k) - B k)) + Rabs (bg - B n)).
Proof.
  rewrite !abel. assert (HK : 0 <= 0.41 * del + 1.2 * sig) by (assert (Q := err_le n ltac:(lia)); lra).
  assert (HT := trans_perturb n ltac:(lia)). assert (HH := hmean_perturb).
  set (K := 0.41 * del + 1.2 * sig) in *. clearbody K.
  assert (S : Rabs (rsum n (fun k => (B (S k) - B k) * hmean d' k) - rsum n (fun k => (B (S k) - B k) * hmean d k))
     <= 2 * K * rsum n (fun k => Rabs (B (S k) - B k))).
  { assert (G : forall k, (k <= n)%nat -> Rabs (rsum k (fun k => (B (S k) - B k) * hmean d' k) - rsum k (fun k => (B (S k) - B k) * hmean d k))
     <= 2 * K * rsum k (fun k => Rabs (B (S k) - B k))); [|apply G; auto].
    induction k as [|k IH]; intros Hk; cbn [rsum]; [rewrite Rminus_0_r, Rabs_R0; lra|].
    assert (H1 := IH ltac:(lia)). assert (H2 := HH k Hk).
    replace (_ + _ - (_ + _)) with ((rsum k (fun k => (B (S k) - B k) * hmean d' k) - rsum k (fun k => (B (S k) - B k) * hmean d k))
       + (B (S k) - B k) * (hmean d' k - hmean d k)) by ring.
    eapply Rle_trans; [apply Rabs_triang|]. rewrite Rabs_mult.
    assert (Rabs (B (S k) - B k) * Rabs (hmean d' k - hmean d k) <= Rabs (B (S k) - B k) * (2 * K))
      by (apply Rmult_le_compat_l; [apply Rabs_pos|auto]). lra. }
  match goal with |- Rabs (?b + ?s' + ?x * ?t' - (?b + ?s + ?x * ?t)) <= _ =>
    replace (b + s' + x * t' - (b + s + x * t)) with ((s' - s) + x * (t' - t)) by ring end.
  eapply Rle_trans; [apply Rabs_triang|]. rewrite Rabs_mult.
  assert (Rabs (bg - B n) * Rabs (trans d' n - trans d n) <= Rabs (bg - B n) * K)
    by (apply Rmult_le_compat_l; [apply Rabs_pos|auto]).
  assert (0 <= Rabs (bg - B n) * K) by (apply Rmult_le_pos; [apply Rabs_pos|lra]). lra.
Qed.
End Perturb.

(** ** Radiances and temperatures *)

Lemma sinh_ge y : 0 <= y -> 2 * y <= exp y - exp (- y).
Proof.
  intros Hy. set (f := fun y => exp y - exp (- y) - 2 * y).
  assert (H : f 0 <= f y).
  { apply (incr_by_derive f (fun y => exp y + exp (- y) - 2)); auto.
    - intros x _. unfold f. auto_derive; auto. ring.
    - intros x _. assert (E : exp x * exp (- x) = 1) by (rewrite <- exp_plus, Rplus_opp_r; apply exp_0).
      assert (0 < exp x) by apply exp_pos. assert (0 < exp (- x)) by apply exp_pos.
      assert (0 <= (exp x - 1) * (exp x - 1)) by apply Rle_0_sqr.
      apply Rmult_le_reg_r with (exp x); auto. nra. }
  unfold f in H. rewrite Ropp_0, exp_0 in H. lra.
Qed.

(** The Planck function grows by at most one unit of [1/h] per kelvin. *)
Lemma planckB_lip h T1 T2 : 0 < h -> 0 < T1 <= T2 -> planckB h T2 - planckB h T1 <= (T2 - T1) / h.
Proof.
  intros Hh HT. set (x1 := h / T1). set (x2 := h / T2).
  assert (Hx2 : 0 < x2) by (apply Rdiv_lt_0_compat; lra).
  assert (Hx : x2 <= x1). { unfold x1, x2, Rdiv. apply Rmult_le_compat_l; [lra|]. apply Rinv_le_contravar; lra. }
  set (f := fun x => / (exp x - 1) - / x).
  assert (H : f x2 <= f x1).
  { apply (incr_by_derive f (fun x => / (x * x) - exp x / ((exp x - 1) * (exp x - 1)))); auto.
    - intros x Hxx. assert (1 < exp x) by (apply exp_gt1; lra). unfold f. auto_derive; [lra|]. field. lra.
    - intros x Hxx. assert (E1 : 1 < exp x) by (apply exp_gt1; lra).
      assert (S := sinh_ge (x / 2) ltac:(lra)).
      assert (Ee : exp x = exp (x / 2) * exp (x / 2)) by (rewrite <- exp_plus; f_equal; lra).
      assert (Ei : exp (- (x / 2)) * exp (x / 2) = 1) by (rewrite <- exp_plus, Rplus_opp_l; apply exp_0).
      assert (P := exp_pos (x / 2)).
      assert (Q : x * exp (x / 2) <= exp x - 1) by nra.
      assert (Q2 : x * x * exp x <= (exp x - 1) * (exp x - 1)).
      { replace (x * x * exp x) with ((x * exp (x / 2)) * (x * exp (x / 2))) by (rewrite Ee; ring).
        apply Rmult_le_compat; auto; apply Rmult_le_pos; lra. }
      assert (P1 : 0 < x * x) by (apply Rmult_lt_0_compat; lra).
      assert (P2 : 0 < (exp x - 1) * (exp x - 1)) by (apply Rmult_lt_0_compat; lra).
      assert (exp x / ((exp x - 1) * (exp x - 1)) <= / (x * x)); [|lra].
      apply Rmult_le_reg_r with (x * x); auto. rewrite Rinv_l by lra.
      apply Rmult_le_reg_r with ((exp x - 1) * (exp x - 1)); auto.
      replace (exp x / ((exp x - 1) * (exp x - 1)) * (x * x) * ((exp x - 1) * (exp x - 1))) with (x * x * exp x) by (field; lra).
      lra. }
  unfold f in H. unfold planckB. fold x1 x2.
  replace ((T2 - T1) / h) with (/ x2 - / x1) by (unfold x1, x2; field; lra). lra.
Qed.

Lemma planckB_le_T h T : 0 < h -> 0 < T -> planckB h T <= T / h.
Proof.
  intros. unfold planckB. replace (T / h) with (/ (h / T)) by (field; lra).
  assert (0 < h / T) by (apply Rdiv_lt_0_compat; auto). apply Rinv_le_contravar; auto.
  assert (G := exp_ineq1_le (h / T)). lra.
Qed.

Lemma planckB_lip_abs h T1 T2 : 0 < h -> 0 < T1 -> 0 < T2 -> Rabs (planckB h T2 - planckB h T1) <= Rabs (T2 - T1) / h.
Proof.
  intros Hh H1 H2. destruct (Rle_lt_dec T1 T2).
  - assert (planckB h T1 <= planckB h T2) by (apply planckB_le; auto). rewrite !Rabs_pos_eq by lra. apply planckB_lip; auto.
  - assert (planckB h T2 <= planckB h T1) by (apply planckB_le; auto; lra).
    rewrite (Rabs_left1 (planckB h T2 - planckB h T1)), (Rabs_left1 (T2 - T1)) by lra.
    assert (G := planckB_lip h T2 T1 Hh ltac:(lra)). replace (- (T2 - T1)) with (T1 - T2) by lra. lra.
Qed.

(** Conversely a difference of radiances is one of temperatures, up to [exp (h/T)]. *)
Lemma planckT_lip h Tl T1 T2 : 0 < h -> 0 < Tl -> Tl <= T1 -> Tl <= T2 ->
  Rabs (T2 - T1) <= h * exp (h / Tl) * Rabs (planckB h T2 - planckB h T1).
Proof.
  intros Hh Hl.
  assert (G : forall T1 T2, Tl <= T1 -> T1 <= T2 -> T2 - T1 <= h * exp (h / Tl) * (planckB h T2 - planckB h T1)).
  { clear T1 T2. intros T1 T2 H1 H12. unfold planckB. set (x1 := h / T1). set (x2 := h / T2).
    assert (Hx2 : 0 < x2) by (apply Rdiv_lt_0_compat; lra).
    assert (Hx : x2 <= x1). { unfold x1, x2, Rdiv. apply Rmult_le_compat_l; [lra|]. apply Rinv_le_contravar; lra. }
    assert (Hxl : x1 <= h / Tl). { unfold x1, Rdiv. apply Rmult_le_compat_l; [lra|]. apply Rinv_le_contravar; lra. }
    assert (E1 : 1 < exp x1) by (apply exp_gt1; lra). assert (E2 : 1 < exp x2) by (apply exp_gt1; lra).
    assert (M1 := exp_m1_le x1 ltac:(lra)). assert (M2 := exp_m1_le x2 ltac:(lra)).
    assert (D : exp x2 * (x1 - x2) <= exp x1 - exp x2).
    { assert (Q := exp_ineq1_le (x1 - x2)). replace (exp x1) with (exp (x1 - x2) * exp x2) by (rewrite <- exp_plus; f_equal; lra). nra. }
    assert (L : (x1 - x2) / (x1 * x2) * exp (- x1) <= / (exp x2 - 1) - / (exp x1 - 1)).
    { replace (/ (exp x2 - 1) - / (exp x1 - 1)) with ((exp x1 - exp x2) / ((exp x1 - 1) * (exp x2 - 1))) by (field; lra).
      rewrite exp_Ropp. assert (P1 : 0 < (exp x1 - 1) * (exp x2 - 1)) by (apply Rmult_lt_0_compat; lra).
      assert (P2 : 0 < x1 * x2) by (apply Rmult_lt_0_compat; lra). assert (P3 := exp_pos x1). assert (P4 := exp_pos x2).
      apply Rmult_le_reg_r with ((exp x1 - 1) * (exp x2 - 1)); auto.
      replace ((exp x1 - exp x2) / ((exp x1 - 1) * (exp x2 - 1)) * ((exp x1 - 1) * (exp x2 - 1))) with (exp x1 - exp x2) by (field; lra).
      apply Rle_trans with (2 := D).
      assert (P5 : (exp x1 - 1) * (exp x2 - 1) <= (x1 * exp x1) * (x2 * exp x2)) by (apply Rmult_le_compat; lra).
      apply Rle_trans with ((x1 - x2) / (x1 * x2) * / exp x1 * ((x1 * exp x1) * (x2 * exp x2))).
      - apply Rmult_le_compat_l; auto. apply Rmult_le_pos; [|left; apply Rinv_0_lt_compat; auto].
        apply Rmult_le_pos; [lra|left; apply Rinv_0_lt_compat; auto].
      - right. field. lra. }
    assert (R1 : (x1 - x2) / (x1 * x2) = (T2 - T1) / h) by (unfold x1, x2; field; lra).
    rewrite R1 in L. assert (P := exp_pos x1).
    assert (Ex : exp (- x1) * exp x1 = 1) by (rewrite <- exp_plus, Rplus_opp_l; apply exp_0).
    set (D0 := / (exp x2 - 1) - / (exp x1 - 1)) in *.
    assert (L2 : T2 - T1 <= h * exp x1 * D0).
    { replace (T2 - T1) with (h * exp x1 * ((T2 - T1) / h * exp (- x1))).
      - apply Rmult_le_compat_l; auto. apply Rmult_le_pos; lra.
      - transitivity ((T2 - T1) * (exp (- x1) * exp x1)); [field; lra|]. rewrite Ex. ring. }
    assert (HD : 0 <= D0).
    { assert (/ (exp x1 - 1) <= / (exp x2 - 1)); [|unfold D0; lra]. apply Rinv_le_contravar; [lra|].
      assert (exp x2 <= exp x1) by (apply exp_le; auto). lra. }
    apply Rle_trans with (1 := L2). apply Rmult_le_compat_r; auto. apply Rmult_le_compat_l; [lra|]. apply exp_le; auto. }
  intros H1 H2. destruct (Rle_lt_dec T1 T2).
  - assert (planckB h T1 <= planckB h T2) by (apply planckB_le; lra). rewrite !Rabs_pos_eq by lra. apply G; auto.
  - assert (planckB h T2 <= planckB h T1) by (apply planckB_le; lra).
    rewrite (Rabs_left1 (planckB h T2 - planckB h T1)), (Rabs_left1 (T2 - T1)) by lra.
    assert (Q := G T2 T1 H2 ltac:(lra)). lra.
Qed.

(** ** C137 *)

(** Sum of the temperature steps from level to level. *)
Definition variation (t : list R) : R := rsum (length t - 1) (fun k => Rabs (nth (S k) t 0 - nth k t 0)).

(** Step between the far end of the path and what is behind it: the cosmic background above the top level, or the
    part of the surface emission missing to a black body. *)
Definition far_step (sat : bool) (es : R) (t : list R) : R :=
  if sat then (1 - es) * nth 0 t 0 else Rabs (nth (length t - 1) t 0 - 2.728).

Lemma view_variation sat t : rsum (length t - 1) (fun k => Rabs (view_T sat t (S k) - view_T sat t k)) = variation t.
Proof.
  unfold variation, view_T. destruct sat; [|reflexivity].
  rewrite rsum_rev. apply rsum_ext. intros i Hi. rewrite Rabs_minus_sym. f_equal. f_equal; f_equal; lia.
Qed.

Lemma view_far sat t : t <> [] -> view_T sat t (length t - 1) = if sat then nth 0 t 0 else nth (length t - 1) t 0.
Proof.
  intros H. unfold view_T. destruct sat; [|reflexivity]. f_equal. lia.
Qed.

Lemma path_atm_nonneg B d n : (forall i, 0 <= d i) -> (forall i, (i <= n)%nat -> 0 <= B i) -> 0 <= path_atm B d n.
Proof.
  intros Hd HB. unfold path_atm. apply rsum_nonneg. intros i Hi. apply Rmult_le_pos.
  - unfold layer_emit. assert (P := exp_pos (- d (S i))). assert (0 <= B i) by (apply HB; lia). assert (0 <= B (S i)) by (apply HB; lia).
    apply Rmult_le_pos; [|left; apply Rinv_0_lt_compat; lra]. nra.
  - change (path_tau d (S i)) with (path_tau d i + d (S i)). assert (Hx := Hd (S i)).
    assert (exp (- (path_tau d i + d (S i))) <= exp (- path_tau d i)) by (apply exp_le; lra). lra.
Qed.

Lemma tb_open sat es f t tl Tb : length t = length tl -> t <> [] -> 0 < f -> total_tau tl < 125 -> 0 < Tb ->
  (forall x, In x t -> 0 < x) -> (forall d, In d tl -> 0 <= d) -> 0 <= background sat es (spec_hvk f) t ->
  tb_of (A:=RA) sat es f t tl = Ok Tb ->
  let n := (length t - 1)%nat in
  planckB (spec_hvk f) Tb = path_atm (fun i => planckB (spec_hvk f) (view_T sat t i)) (view_D sat tl) n
     + background sat es (spec_hvk f) t * trans (view_D sat tl) n.
Proof.
  intros Hl Hne Hf Ht HTb HT Hd Hbg H n. assert (Hh : 0 < spec_hvk f) by (unfold spec_hvk; lra).
  destruct (planck_master sat es f t tl Hl Hne) as (o & Ho & O1 & _ & _ & _ & O2 & _).
  destruct (O2 Ht) as (_ & E & _). unfold tb_of in H. rewrite Ho, O1, E in H. injection H as H.
  assert (Hlen : (1 <= length t)%nat) by (destruct t; [congruence|simpl; lia]).
  assert (Htl : tl <> []) by (intros X; subst tl; simpl in *; lia).
  assert (Et : path_tau (view_D sat tl) n = total_tau tl) by (unfold n; rewrite Hl; apply total_tau_view; auto).
  unfold trans. rewrite Et. unfold total_atm in H. fold n in H.
  set (a := path_atm (fun i => planckB (spec_hvk f) (view_T sat t i)) (view_D sat tl) n) in *.
  assert (Ha : 0 <= a).
  { apply path_atm_nonneg; [intros i; apply view_D_nonneg; auto|]. intros i Hi. left. apply planckB_pos; auto.
    unfold view_T, n in *. destruct sat; apply HT, nth_In; lia. }
  assert (Hb : 0 <= background sat es (spec_hvk f) t * exp (- total_tau tl)) by (apply Rmult_le_pos; [auto|left; apply exp_pos]).
  set (b := background sat es (spec_hvk f) t * exp (- total_tau tl)) in *.
  destruct (Req_dec (b + a) 0) as [Z|Z].
  - exfalso. rewrite Z, bright_R0 in H. lra.
  - rewrite <- H, bright_R by lra. rewrite planckB_T by lra. lra.
Qed.

(** C137.  Errors of at most a fraction [del <= 0.1] in every layer opacity, plus absolute errors adding up to [sig], change
    the brightness temperature by at most [(0.82 del + 2.4 sig) exp(h nu/k Tl)] times the total temperature variation
    along the path; [Tl] is any temperature not above the two results, so the exponential is close to 1 for warm scenes. *)
Theorem C137_sensitivity sat es f t tl tl' er del sig Tl Tb Tb' :
  0 < f -> length t = length tl -> length t = length tl' -> length t = length er -> t <> [] ->
  (forall x, In x t -> 0 < x) -> (forall d, In d tl -> 0 <= d) -> (forall d, In d tl' -> 0 <= d) ->
  (forall d, In d er -> 0 <= d) -> 0 <= del <= 0.1 -> total_tau er <= sig ->
  (forall i, (1 <= i < length tl)%nat -> Rabs (nth i tl' 0 - nth i tl 0) <= del * nth i tl 0 + nth i er 0) ->
  total_tau tl < 125 -> total_tau tl' < 125 -> (sat = true -> 0 <= es <= 1) ->
  tb_of (A:=RA) sat es f t tl = Ok Tb -> tb_of (A:=RA) sat es f t tl' = Ok Tb' ->
  0 < Tl -> Tl <= Tb -> Tl <= Tb' ->
  Rabs (Tb' - Tb) <= (0.82 * del + 2.4 * sig) * exp (spec_hvk f / Tl) * (variation t + far_step sat es t).
Proof.
  intros Hf Hl Hl' Hle Hne HT Hd Hd' He Hdel Hsig Hp Ht Ht' Hes E E' HTl H1 H2. set (h := spec_hvk f).
  assert (Hh : 0 < h) by (unfold h, spec_hvk; lra).
  assert (Hlen : (1 <= length t)%nat) by (destruct t; [congruence|simpl; lia]).
  assert (HT0 : 0 < nth 0 t 0) by (apply HT, nth_In; lia).
  assert (Hn : forall i, (i < length t)%nat -> 0 < view_T sat t i).
  { intros i Hi. unfold view_T. destruct sat; apply HT, nth_In; lia. }
  set (B := fun i => planckB h (view_T sat t i)). set (bg := background sat es h t).
  set (d := view_D sat tl). set (d' := view_D sat tl'). set (n := (length t - 1)%nat).
  assert (Hbg : 0 <= bg).
  { unfold bg, background. destruct sat.
    - apply Rmult_le_pos; [apply Hes; auto|]. left. apply planckB_pos; auto.
    - left. apply planckB_pos; lra. }
  assert (R1 : planckB h Tb = path_atm B d n + bg * trans d n) by (apply tb_open; auto; lra).
  assert (R2 : planckB h Tb' = path_atm B d' n + bg * trans d' n) by (apply tb_open; auto; lra).
  assert (RP := radiance_perturb d d' (view_D sat er) del sig n (fun i => view_D_nonneg sat tl i Hd) (fun i => view_D_nonneg sat tl' i Hd')
    (fun i => view_D_nonneg sat er i He) Hdel).
  assert (HP : forall i, (1 <= i <= n)%nat -> Rabs (d' i - d i) <= del * d i + view_D sat er i).
  { intros i Hi. unfold d, d', view_D, n in *. destruct sat; [rewrite <- Hl', <- Hle, Hl|]; apply Hp; lia. }
  assert (Her : er <> []) by (intros X; subst er; simpl in *; lia).
  assert (HS : path_tau (view_D sat er) n <= sig) by (unfold n; rewrite Hle, total_tau_view; auto).
  assert (HK : 0 <= 0.41 * del + 1.2 * sig) by (assert (Q := total_tau_nonneg er He); lra).
  specialize (RP HP HS B bg). rewrite <- R1, <- R2 in RP.
  assert (L := planckT_lip h Tl Tb Tb' Hh HTl H1 H2).
  assert (V : rsum n (fun k => Rabs (B (S k) - B k)) + Rabs (bg - B n) <= (variation t + far_step sat es t) / h).
  { rewrite <- (view_variation sat t). fold n. unfold Rdiv. rewrite Rmult_plus_distr_r. apply Rplus_le_compat.
    - assert (G : forall k, (k <= n)%nat -> rsum k (fun k => Rabs (B (S k) - B k)) <= rsum k (fun k => Rabs (view_T sat t (S k) - view_T sat t k)) * / h).
      { induction k as [|k IH]; intros Hk; cbn [rsum]; [lra|]. rewrite Rmult_plus_distr_r. apply Rplus_le_compat; [apply IH; lia|].
        apply planckB_lip_abs; auto; apply Hn; unfold n in Hk; lia. }
      apply G; auto.
    - unfold B, n. rewrite (view_far sat t Hne). unfold bg, background, far_step. destruct sat.
      + specialize (Hes eq_refl). assert (Pb := planckB_pos h _ Hh HT0). assert (Lb := planckB_le_T h _ Hh HT0).
        rewrite Rabs_left1 by nra. unfold Rdiv in Lb. rewrite Rmult_assoc. 
        replace (- (es * planckB h (nth 0 t 0) - planckB h (nth 0 t 0))) with ((1 - es) * planckB h (nth 0 t 0)) by ring.
        apply Rmult_le_compat_l; lra.
      + rewrite Rabs_minus_sym. apply planckB_lip_abs; auto; [lra|]. apply HT, nth_In; lia. }
  assert (Pe := exp_pos (h / Tl)).
  apply Rle_trans with (1 := L).
  assert (RP2 : Rabs (planckB h Tb' - planckB h Tb) <= 2 * (0.41 * del + 1.2 * sig) * ((variation t + far_step sat es t) / h)).
  { apply Rle_trans with (1 := RP). apply Rmult_le_compat_l; lra. }
  apply Rle_trans with (h * exp (h / Tl) * (2 * (0.41 * del + 1.2 * sig) * ((variation t + far_step sat es t) / h))).
  - apply Rmult_le_compat_l; auto. apply Rmult_le_pos; lra.
  - right. replace (0.82 * del + 2.4 * sig) with (2 * (0.41 * del + 1.2 * sig)) by lra.
    set (V0 := variation t + far_step sat es t). set (k := 0.41 * del + 1.2 * sig). field. lra.
Qed.

(** Relative errors only. *)
Theorem C137_relative sat es f t tl tl' del Tl Tb Tb' :
  0 < f -> length t = length tl -> length t = length tl' -> t <> [] ->
  (forall x, In x t -> 0 < x) -> (forall d, In d tl -> 0 <= d) -> (forall d, In d tl' -> 0 <= d) ->
  0 <= del <= 0.1 -> (forall i, (1 <= i < length tl)%nat -> Rabs (nth i tl' 0 - nth i tl 0) <= del * nth i tl 0) ->
  total_tau tl < 125 -> total_tau tl' < 125 -> (sat = true -> 0 <= es <= 1) ->
  tb_of (A:=RA) sat es f t tl = Ok Tb -> tb_of (A:=RA) sat es f t tl' = Ok Tb' ->
  0 < Tl -> Tl <= Tb -> Tl <= Tb' ->
  Rabs (Tb' - Tb) <= 0.82 * del * exp (spec_hvk f / Tl) * (variation t + far_step sat es t).
Proof.
  intros. replace (0.82 * del) with (0.82 * del + 2.4 * 0) by lra.
  assert (Z : forall l i, nth i (map (fun _ : R => 0) l) 0 = 0) by (induction l; intros [|i]; simpl; auto).
  assert (T0 : forall l, total_tau (map (fun _ : R => 0) l) = 0).
  { intros [|x l]; [reflexivity|]. unfold total_tau. cbn [map List.tl]. induction l; simpl; [auto|lra]. }
  apply (C137_sensitivity sat es f t tl tl' (map (fun _ => 0) t) del 0 Tl Tb Tb'); auto.
  - rewrite map_length; auto.
  - intros d Hd. apply in_map_iff in Hd. destruct Hd as (? & <- & _). lra.
  - rewrite T0. lra.
  - intros i Hi. rewrite Z, Rplus_0_r. auto.
Qed.

(** Where temperature does not increase with height the path variation is the contrast between the ground and the cosmic background. *)
Lemma variation_decreasing t : (forall i, (S i < length t)%nat -> nth (S i) t 0 <= nth i t 0) ->
  variation t = nth 0 t 0 - nth (length t - 1) t 0.
Proof.
  intros H. unfold variation.
  assert (G : forall n, (n <= length t - 1)%nat -> rsum n (fun k => Rabs (nth (S k) t 0 - nth k t 0)) = nth 0 t 0 - nth n t 0).
  { induction n as [|n IH]; intros Hn; cbn [rsum]; [lra|]. rewrite IH by lia. assert (Q := H n ltac:(lia)).
    rewrite Rabs_left1 by lra. lra. }
  apply G. lia.
Qed.

Theorem C137_upward es f t tl tl' del Tl Tb Tb' :
  0 < f -> length t = length tl -> length t = length tl' -> t <> [] ->
  (forall x, In x t -> 2.728 <= x) -> (forall i, (S i < length t)%nat -> nth (S i) t 0 <= nth i t 0) ->
  (forall d, In d tl -> 0 <= d) -> (forall d, In d tl' -> 0 <= d) ->
  0 <= del <= 0.1 -> (forall i, (1 <= i < length tl)%nat -> Rabs (nth i tl' 0 - nth i tl 0) <= del * nth i tl 0) ->
  total_tau tl < 125 -> total_tau tl' < 125 ->
  tb_of (A:=RA) false es f t tl = Ok Tb -> tb_of (A:=RA) false es f t tl' = Ok Tb' ->
  0 < Tl -> Tl <= Tb -> Tl <= Tb' ->
  Rabs (Tb' - Tb) <= 0.82 * del * exp (spec_hvk f / Tl) * (nth 0 t 0 - 2.728).
Proof.
  intros Hf Hl Hl' Hne HT Hdec Hd Hd' Hdel Hp Ht Ht' E E' HTl H1 H2.
  assert (HT2 : 2.728 <= nth (length t - 1) t 0) by (apply HT, nth_In; destruct t; [congruence|simpl; lia]).
  replace (nth 0 t 0 - 2.728) with (variation t + far_step false es t).
  - apply (C137_relative false es f t tl tl' del Tl Tb Tb'); auto; try discriminate.
    intros x Hx. apply HT in Hx. lra.
  - rewrite variation_decreasing by auto. unfold far_step. rewrite Rabs_pos_eq by lra. lra.
Qed.

(** One per cent more absorption, seen from above a black surface: at most 0.57 K. *)
Lemma black_tb_ge f t tl lo hi Tb : 0 < f -> length t = length tl -> t <> [] -> 0 < lo ->
  (forall x, In x t -> lo <= x <= hi) -> (forall d, In d tl -> 0 <= d) -> total_tau tl < 125 ->
  tb_of (A:=RA) true 1 f t tl = Ok Tb -> lo <= Tb.
Proof.
  intros Hf Hl Hne Hlo HT Hd Ht H. assert (Hh : 0 < spec_hvk f) by (unfold spec_hvk; lra).
  destruct (planck_master true 1 f t tl Hl Hne) as (o & Ho & O1 & _ & _ & _ & O2 & _).
  destruct (O2 Ht) as (_ & E & _). unfold tb_of in H. rewrite Ho, O1, E in H. injection H as H.
  assert (BA := total_atm_bounds true (spec_hvk f) t tl lo hi Hh Hlo HT Hd Hl Hne).
  assert (H0 : lo <= nth 0 t 0 <= hi) by (apply HT, nth_In; destruct t; [congruence|simpl; lia]).
  assert (B0 : planckB (spec_hvk f) lo <= planckB (spec_hvk f) (nth 0 t 0)) by (apply planckB_le; lra).
  assert (Pe := exp_pos (- total_tau tl)). assert (P0 := planckB_pos (spec_hvk f) lo Hh Hlo).
  assert (G : planckB (spec_hvk f) lo <= background true 1 (spec_hvk f) t * exp (- total_tau tl) + total_atm true (spec_hvk f) t tl).
  { unfold background. rewrite Rmult_1_l.
    assert (planckB (spec_hvk f) lo * exp (- total_tau tl) <= planckB (spec_hvk f) (nth 0 t 0) * exp (- total_tau tl))
      by (apply Rmult_le_compat_r; lra). lra. }
  set (b := background true 1 (spec_hvk f) t * exp (- total_tau tl) + total_atm true (spec_hvk f) t tl) in G.
  assert (H' : bright (A:=RA) (spec_hvk f) b = Tb) by exact H. clear H. rename H' into H. clearbody b.
  rewrite (bright_R (spec_hvk f) b) in H by lra. rewrite <- H, <- (planckT_B (spec_hvk f) lo) by lra. apply planckT_le; auto.
Qed.

Example C137_example : exists Tb Tb',
  tb_of (A:=RA) true 1 22.235 [288; 260; 220] [0; 0.1; 0.02] = Ok Tb /\
  tb_of (A:=RA) true 1 22.235 [288; 260; 220] [0; 0.101; 0.0202] = Ok Tb' /\ Rabs (Tb' - Tb) <= 0.57.
Proof.
  destruct (planck_master true 1 22.235 [288; 260; 220] [0; 0.1; 0.02]) as (o & Ho & _); [reflexivity|discriminate|].
  destruct (planck_master true 1 22.235 [288; 260; 220] [0; 0.101; 0.0202]) as (o' & Ho' & _); [reflexivity|discriminate|].
  assert (E : tb_of (A:=RA) true 1 22.235 [288; 260; 220] [0; 0.1; 0.02] = Ok (bright (A:=RA) (p_hvk o) (p_boftotl o)))
    by (unfold tb_of; rewrite Ho; reflexivity).
  assert (E' : tb_of (A:=RA) true 1 22.235 [288; 260; 220] [0; 0.101; 0.0202] = Ok (bright (A:=RA) (p_hvk o') (p_boftotl o')))
    by (unfold tb_of; rewrite Ho'; reflexivity).
  assert (HT : forall x, In x [288; 260; 220] -> 220 <= x <= 288) by (intros x [<-|[<-|[<-|[]]]]; lra).
  assert (Hd : forall x, In x [0; 0.1; 0.02] -> 0 <= x) by (intros x [<-|[<-|[<-|[]]]]; lra).
  assert (Hd' : forall x, In x [0; 0.101; 0.0202] -> 0 <= x) by (intros x [<-|[<-|[<-|[]]]]; lra).
  assert (G := black_tb_ge 22.235 [288; 260; 220] [0; 0.1; 0.02] 220 288 _ ltac:(lra) eq_refl ltac:(discriminate) ltac:(lra) HT Hd
     ltac:(unfold total_tau; simpl; lra) E).
  assert (G' := black_tb_ge 22.235 [288; 260; 220] [0; 0.101; 0.0202] 220 288 _ ltac:(lra) eq_refl ltac:(discriminate) ltac:(lra) HT Hd'
     ltac:(unfold total_tau; simpl; lra) E').
  eexists _, _. split; [exact E|]. split; [exact E'|].
  eapply Rle_trans.
  { apply (C137_relative true 1 22.235 [288; 260; 220] [0; 0.1; 0.02] [0; 0.101; 0.0202] 0.01 220 _ _); eauto; try lra; try reflexivity; try discriminate.
    - intros x Hx. apply HT in Hx. lra.
    - intros i Hi. simpl in Hi. destruct i as [|[|[|i]]]; try lia; cbn [nth]; rewrite Rabs_pos_eq; lra.
    - unfold total_tau; simpl; lra.
    - unfold total_tau; simpl; lra. }
  assert (V : variation [288; 260; 220] = 68).
  { rewrite variation_decreasing; [simpl; lra|]. intros i Hi. simpl in Hi. destruct i as [|[|[|i]]]; try lia; cbn [nth]; lra. }
  rewrite V. unfold far_step. cbn [nth]. rewrite Rminus_eq_0, Rmult_0_l, Rplus_0_r.
  assert (Ex : exp (spec_hvk 22.235 / 220) <= 1.01).
  { apply Rle_trans with (exp (0.005)); [apply exp_le; unfold spec_hvk; lra|].
    assert (Q := exp_le_frac 5 1000 101 100). replace (IZR 5 / 1000) with 0.005 in Q by lra.
    eapply Rle_trans; [apply Q; vm_compute; reflexivity|lra]. }
  apply Rle_trans with (0.82 * 0.01 * 1.01 * 68); [|lra]. apply Rmult_le_compat_r; [lra|]. apply Rmult_le_compat_l; lra.
Qed.
