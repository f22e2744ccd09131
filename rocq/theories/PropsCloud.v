(** Claims C20 and C21: integrated cloud density and cloud radiating temperature. *)

From Coq Require Import ZArith Reals Lra Lia List Bool.
Import ListNotations.
From Verif Require Import Arith PyBase Utils RTE Spec RealAux PlanckReal PlanckMaster PropsPlanck Integral.
Open Scope R_scope.

Notation Xdens den ds bases tops :=
  (cloud_integrated_density (A:=XA) (map Fin den) (map Fin ds) (map Z.of_nat bases) (map Z.of_nat tops)).

(** ** C20 *)

(** Path from level [b] to level [e] through the layers [b+1 .. e]. *)
Definition path_between (ds : list R) (b e : nat) : R := rsum (e - b) (fun j => nth (b + 1 + j) ds 0).
(** Trapezoidal column between two levels. *)
Definition column_between (den ds : list R) (b e : nat) : R :=
  rsum (e - b) (fun j => nth (b + 1 + j) ds 0 * ((nth (b + 1 + j) den 0 + nth (b + j) den 0) / 2)).

Lemma cloud_loop_X (den ds : list R) m : forall b s, (b + 1 + m <= length den)%nat -> (b + 1 + m <= length ds)%nat ->
  cloud_loop (A:=XA) (map Fin den) (map Fin ds) (map Z.of_nat (seq (b + 1) m)) (Fin s)
  = Ok (Fin (s + rsum m (fun j => nth (b + 1 + j) ds 0 * ((nth (b + 1 + j) den 0 + nth (b + j) den 0) / 2)))).
Proof.
  induction m; intros b s H1 H2; [simpl; rewrite Rplus_0_r; reflexivity|].
  cbn [seq map cloud_loop bind].
  rewrite (py_get_nat _ (b + 1) NaN) by (rewrite map_length; lia). cbn [bind].
  rewrite (py_get_nat _ (b + 1) NaN) by (rewrite map_length; lia). cbn [bind].
  replace (Z.of_nat (b + 1) - 1)%Z with (Z.of_nat b) by lia.
  rewrite (py_get_nat _ b NaN) by (rewrite map_length; lia). cbn [bind].
  rewrite !nth_map_fin by lia. xa.
  replace (S (b + 1)) with (b + 1 + 1)%nat by lia. rewrite IHm by lia.
  match goal with |- Ok (Fin ?a) = Ok (Fin ?c) => assert (E : a = c); [|rewrite E; reflexivity] end.
  change (S m) with (1 + m)%nat. rewrite rsum_split. cbn [rsum]. rewrite !Nat.add_0_r.
  rewrite (rsum_ext m (fun i => nth (b + 1 + (1 + i)) ds 0 * ((nth (b + 1 + (1 + i)) den 0 + nth (b + (1 + i)) den 0) / 2))
             (fun j => nth (b + 1 + 1 + j) ds 0 * ((nth (b + 1 + 1 + j) den 0 + nth (b + 1 + j) den 0) / 2))).
  - lra.
  - intros i Hi. rewrite !Nat.add_assoc. reflexivity.
Qed.

Lemma clouds_loop_X (den ds : list R) : forall bases tops s, length bases = length tops ->
  (forall e, In e tops -> (e <= length den)%nat /\ (e <= length ds)%nat) ->
  clouds_loop (A:=XA) (map Fin den) (map Fin ds) (combine (map Z.of_nat bases) (map Z.of_nat tops)) (Fin s)
  = Ok (Fin (s + fold_right Rplus 0 (map (fun '(b, e) => column_between den ds b (e - 1)) (combine bases tops)))).
Proof.
  induction bases as [|b bases IH]; intros [|e tops] s Hl Hin; try discriminate.
  - simpl. rewrite Rplus_0_r. reflexivity.
  - cbn [map combine clouds_loop bind fold_right]. destruct (Hin e (or_introl eq_refl)).
    replace (Z.of_nat b + 1)%Z with (Z.of_nat (b + 1)) by lia. rewrite zrange_nat.
    assert (L : cloud_loop (A:=XA) (map Fin den) (map Fin ds) (map Z.of_nat (seq (b + 1) (e - (b + 1)))) (Fin s)
       = Ok (Fin (s + column_between den ds b (e - 1)))).
    { unfold column_between. replace (e - 1 - b)%nat with (e - (b + 1))%nat by lia.
      destruct (Nat.le_gt_cases e b).
      - replace (e - (b + 1))%nat with 0%nat by lia. simpl. rewrite Rplus_0_r. reflexivity.
      - apply cloud_loop_X; lia. }
    rewrite L. cbn [bind]. rewrite IH; [|simpl in Hl; lia|intros; apply Hin; right; auto].
    match goal with |- Ok (Fin ?a) = Ok (Fin ?c) => assert (E : a = c); [|rewrite E; reflexivity] end. lra.
Qed.

(** Exact behaviour, any number of clouds: each cloud contributes 0.1 times the trapezoidal column
    from its base to the level below its top - the uppermost layer of the cloud is left out. *)
Theorem C20_exact (den ds : list R) (bases tops : list nat) :
  length bases = length tops ->
  (forall e, In e tops -> (e <= length den)%nat /\ (e <= length ds)%nat) ->
  Xdens den ds bases tops
  = Ok (Fin (fold_right Rplus 0 (map (fun '(b, e) => column_between den ds b (e - 1)) (combine bases tops)) * 0.1)).
Proof.
  intros Hl Hin. unfold cloud_integrated_density.
  replace (lit (a:=XA) 0.0) with (Fin 0) by (xa; f_equal; lra).
  rewrite clouds_loop_X by auto. cbn [bind]. xa. rewrite Rplus_0_l.
  match goal with |- Ok (Fin ?a) = Ok (Fin ?c) => assert (E : a = c); [|rewrite E; reflexivity] end. lra.
Qed.

(** A cloud of uniform density. *)
Theorem C20_uniform_exact (den ds : list R) (b e : nat) (rho : R) :
  (b < e)%nat -> (e < length den)%nat -> (e < length ds)%nat ->
  (forall i, (b <= i <= e)%nat -> nth i den 0 = rho) ->
  Xdens den ds [b] [e] = Ok (Fin (0.1 * rho * (path_between ds b e - nth e ds 0))).
Proof.
  intros Hb H1 H2 Hu. rewrite C20_exact; [|reflexivity|intros x [<-|[]]; lia].
  match goal with |- Ok (Fin ?a) = Ok (Fin ?c) => assert (E : a = c); [|rewrite E; reflexivity] end.
  cbn [combine map fold_right]. unfold column_between, path_between.
  replace (e - b)%nat with (S (e - 1 - b)) by lia. cbn [rsum].
  replace (b + 1 + (e - 1 - b))%nat with e by lia.
  rewrite (rsum_ext _ _ (fun j => rho * nth (b + 1 + j) ds 0)).
  - rewrite rsum_scal. lra.
  - intros i Hi. rewrite !Hu by lia. lra.
Qed.

(** The claim itself is false for every uniform cloud whose uppermost layer has a nonzero path. *)
Theorem C20_uniform_cloud_refuted (den ds : list R) (b e : nat) (rho : R) :
  (b < e)%nat -> (e < length den)%nat -> (e < length ds)%nat ->
  (forall i, (b <= i <= e)%nat -> nth i den 0 = rho) -> rho <> 0 -> nth e ds 0 <> 0 ->
  Xdens den ds [b] [e] <> Ok (Fin (0.1 * rho * path_between ds b e)).
Proof.
  intros Hb H1 H2 Hu Hr Hd. rewrite (C20_uniform_exact den ds b e rho) by auto. intros E. inversion E as [E1].
  assert (rho * nth e ds 0 = 0) by nra. apply Rmult_integral in H. tauto.
Qed.
Example C20_example : Xdens [0.2; 0.2; 0.2; 0.2] [0; 1; 1; 1] [1%nat] [3%nat] = Ok (Fin (0.1 * 0.2 * 1)) /\
  path_between [0; 1; 1; 1] 1 3 = 2.
Proof.
  split; [|unfold path_between; simpl; lra].
  rewrite (C20_uniform_exact _ _ 1 3 0.2); simpl; try lia.
  - unfold path_between. simpl. do 3 f_equal. lra.
  - intros i Hi. destruct i as [|[|[|[|i]]]]; simpl; auto; lia.
Qed.

(** ** C21 *)

Lemma path_tau_diff d j k : (j <= k)%nat -> path_tau d k = path_tau d j + rsum (k - j) (fun i => d (S (j + i))).
Proof. intros H. unfold path_tau. replace k with (j + (k - j))%nat at 1 by lia. apply rsum_split. Qed.

(** Emission between two points of the path is a weighted average of the radiances in between. *)
Lemma path_atm_between B d j k m M : (j <= k)%nat ->
  (forall i, (j <= i <= k)%nat -> m <= B i <= M) -> (forall i, 0 <= d i) ->
  m * (exp (- path_tau d j) - exp (- path_tau d k)) <= path_atm B d k - path_atm B d j
  <= M * (exp (- path_tau d j) - exp (- path_tau d k)).
Proof.
  intros Hjk HB Hd.
  assert (Ea : path_atm B d k - path_atm B d j =
    rsum (k - j) (fun i => layer_emit (B (j + i)%nat) (B (S (j + i))) (d (S (j + i)))
                   * (exp (- path_tau d (j + i)) - exp (- path_tau d (S (j + i)))))).
  { unfold path_atm. replace k with (j + (k - j))%nat at 1 by lia. rewrite rsum_split. lra. }
  assert (Ew : exp (- path_tau d j) - exp (- path_tau d k) =
    rsum (k - j) (fun i => exp (- path_tau d (j + i)) - exp (- path_tau d (S (j + i))))).
  { symmetry. rewrite (rsum_ext _ _ (fun i => (fun q => exp (- path_tau d (j + q))) i - (fun q => exp (- path_tau d (j + q))) (S i))).
    - rewrite rsum_telescope. rewrite Nat.add_0_r. replace (j + (k - j))%nat with k by lia. reflexivity.
    - intros i Hi. cbn beta. rewrite Nat.add_succ_r. reflexivity. }
  rewrite Ea, Ew, <- !rsum_scal.
  assert (Hw : forall i, 0 <= exp (- path_tau d i) - exp (- path_tau d (S i))).
  { intros i. assert (path_tau d i <= path_tau d (S i)) by (apply path_tau_le; auto).
    assert (exp (- path_tau d (S i)) <= exp (- path_tau d i)) by (apply exp_le; lra). lra. }
  split; apply rsum_le; intros i Hi; apply Rmult_le_compat_r; auto;
    apply (layer_emit_bounds _ _ (d (S (j + i))) m M); apply HB; lia.
Qed.

Lemma nth_map_seq_X (g : nat -> R) n k : (k < n)%nat ->
  py_get (map Fin (map g (seq 0 n))) (Z.of_nat k) = Ok (Fin (g k)).
Proof.
  intros H. rewrite (py_get_nat _ k NaN) by (rewrite !map_length, seq_length; auto).
  rewrite nth_map_fin by (rewrite map_length, seq_length; auto).
  rewrite nth_indep with (d' := g O) by (rewrite map_length, seq_length; auto).
  rewrite map_nth, seq_nth by auto. reflexivity.
Qed.

(** The average itself. *)
Lemma cloud_average (h E a c m M : R) :
  0 < h -> 0 < m -> 0 <= a < c ->
  m * (exp (- a) - exp (- c)) <= E <= M * (exp (- a) - exp (- c)) ->
  m <= E * exp a / (1 - exp (- (c - a))) <= M.
Proof.
  intros Hh Hm Hac HE. set (w := 1 - exp (- (c - a))).
  assert (Hw : 0 < w) by (unfold w; assert (exp (- (c - a)) < 1) by (apply exp_neg_lt1; lra); lra).
  assert (P := exp_pos a).
  assert (Eq : (exp (- a) - exp (- c)) * exp a = w).
  { unfold w. rewrite Rmult_minus_distr_r, <- !exp_plus. replace (- a + a) with 0 by lra. rewrite exp_0.
    f_equal. f_equal. lra. }
  split; apply Rmult_le_reg_r with w; auto; unfold Rdiv; rewrite (Rmult_assoc _ (/ w)), Rinv_l by lra; nra.
Qed.

Lemma tcloud_bounds h lo hi b : 0 < h -> 0 < lo -> planckB h lo <= b <= planckB h hi -> lo <= hi ->
  Xbright (Fin h) (Fin b) = Fin (planckT h b) /\ lo <= planckT h b <= hi.
Proof.
  intros Hh Hlo Hb Hhi. assert (P := planckB_pos h lo Hh Hlo). split; [apply bright_X; lra|].
  split.
  - rewrite <- (planckT_B h lo) by lra. apply planckT_le; lra.
  - rewrite <- (planckT_B h hi) by lra. apply planckT_le; lra.
Qed.

Theorem C21_cloud_tmr_bounds (sat : bool) (es f lo hi : R) (t tau : list R) (b e : nat) :
  0 < f -> 0 < lo -> length t = length tau -> (b <= e < length t)%nat ->
  (forall x, In x t -> 0 < x) -> (forall x, In x tau -> 0 <= x) ->
  (forall i, (b <= i <= e)%nat -> lo <= nth i t 0 <= hi) ->
  (* opacity of the cloud layers, positive and at most 125 *)
  0 < rsum (e - b) (fun j => nth (b + 1 + j) tau 0) <= 125 ->
  exists o tb, Xplanck sat es f t tau = Ok o /\ nth b (p_tauprof o) NaN = Fin tb /\
    (tb <= 125 -> exists tmr,
       cloud_radiating_temperature (A:=XA) (Z.of_nat b) (Z.of_nat e) (p_hvk o) (p_tauprof o) (p_boftatm o)
       = Ok (Some (Fin tmr)) /\ lo <= tmr <= hi) /\
    (125 < tb -> cloud_radiating_temperature (A:=XA) (Z.of_nat b) (Z.of_nat e) (p_hvk o) (p_tauprof o) (p_boftatm o)
       = Ok None).
Proof.
  intros Hf Hlo Hl Hbe Ht Htau Hc Hop. assert (Hpos := spec_hvk_pos f Hf). set (h := spec_hvk f) in *.
  assert (Hne : t <> []) by (intros ->; simpl in *; lia).
  destruct (planckX_master sat es f t tau Hf Ht Hl Hne) as (o & Ho & Hh & _ & H3 & H4 & _).
  fold h in Hh, H4. set (n := length t) in *.
  assert (Hhi : lo <= hi) by (assert (lo <= nth b t 0 <= hi) by (apply Hc; lia); lra).
  assert (HB : forall i, (b <= i <= e)%nat -> planckB h lo <= planckB h (nth i t 0) <= planckB h hi).
  { intros i Hi. assert (Hi' := Hc i Hi). split; apply planckB_le; lra. }
  assert (Hd : forall i, 0 <= view_D sat tau i) by (intros; apply view_D_nonneg; auto).
  exists o, (spec_tau sat tau b). split; [exact Ho|].
  assert (Hg : forall k, (k < n)%nat -> py_get (p_tauprof o) (Z.of_nat k) = Ok (Fin (spec_tau sat tau k))).
  { intros k Hk. rewrite H3. apply nth_map_seq_X; auto. }
  assert (Ha : forall k, (k < n)%nat -> py_get (p_boftatm o) (Z.of_nat k) = Ok (Fin (spec_atm sat h t tau k))).
  { intros k Hk. rewrite H4. apply nth_map_seq_X; auto. }
  split.
  { rewrite H3. rewrite nth_map_fin by (rewrite map_length, seq_length; lia). f_equal.
    rewrite nth_indep with (d' := spec_tau sat tau O) by (rewrite map_length, seq_length; lia).
    rewrite map_nth, seq_nth by lia. reflexivity. }
  unfold cloud_radiating_temperature. rewrite Hg by lia. cbn [bind].
  unfold expmax. xa. replace (1250 / 10) with 125 by lra. unfold xltb.
  split.
  2:{ intros H. rewrite Rltb_true by auto. reflexivity. }
  intros Htb. rewrite Rltb_false by auto. rewrite !Ha, Hg by lia. cbn [bind]. xa.
  replace (10/10) with 1 by lra.
  set (X := rsum (e - b) (fun j => nth (b + 1 + j) tau 0)) in *.
  destruct sat.
  - (* satellite: the far end of the cloud is its base *)
    assert (Et : spec_tau true tau b = spec_tau true tau e + X).
    { unfold spec_tau, X. rewrite <- Hl. fold n.
      rewrite (path_tau_diff _ (n - 1 - e) (n - 1 - b)) by lia. f_equal.
      replace (n - 1 - b - (n - 1 - e))%nat with (e - b)%nat by lia. rewrite rsum_rev. apply rsum_ext.
      intros i Hi. unfold view_D. rewrite <- Hl. fold n. f_equal. lia. }
    assert (Hbt := path_atm_between (fun i => planckB h (view_T true t i)) (view_D true tau) (n - 1 - e) (n - 1 - b)
                     (planckB h lo) (planckB h hi) ltac:(lia)).
    cbn beta in Hbt.
    assert (Hbt' : planckB h lo * (exp (- spec_tau true tau e) - exp (- spec_tau true tau b))
              <= spec_atm true h t tau b - spec_atm true h t tau e
              <= planckB h hi * (exp (- spec_tau true tau e) - exp (- spec_tau true tau b))).
    { unfold spec_tau, spec_atm. rewrite <- Hl. fold n. apply Hbt; auto.
      intros i Hi. unfold view_T. fold n. apply HB. lia. }
    set (a := spec_tau true tau e) in *. set (c := spec_tau true tau b) in *.
    set (E1 := spec_atm true h t tau b) in *. set (E2 := spec_atm true h t tau e) in *.
    assert (Ha0 : 0 <= a) by (apply path_tau_nonneg; auto).
    rewrite Rltb_false by lra.
    assert (Hnz : 1 + - exp (- (a + - c)) <> 0).
    { assert (1 < exp (- (a + - c))) by (apply exp_gt1; lra). lra. }
    rewrite xdiv_fin by auto.
    assert (Eq : (E2 + - E1) * exp c / (1 + - exp (- (a + - c))) = (E1 - E2) * exp a / (1 - exp (- (c - a)))).
    { replace (- (a + - c)) with (c - a) by lra. replace (exp (- (c - a))) with (/ exp (c - a)) by (rewrite <- exp_Ropp; auto).
      replace c with (a + (c - a)) at 1 by lra. rewrite exp_plus.
      assert (1 < exp (c - a)) by (apply exp_gt1; lra). field. split; lra. }
    rewrite Eq, Hh. destruct (tcloud_bounds h lo hi ((E1 - E2) * exp a / (1 - exp (- (c - a))))) as [R1 R2]; auto.
    { apply (cloud_average h); auto. apply planckB_pos; auto. lra. }
    rewrite R1. eexists. split; [reflexivity|exact R2].
  - assert (Et : spec_tau false tau e = spec_tau false tau b + X).
    { unfold spec_tau, X. rewrite (path_tau_diff _ b e) by lia. f_equal. apply rsum_ext.
      intros i Hi. unfold view_D. f_equal. lia. }
    assert (Hbt := path_atm_between (fun i => planckB h (view_T false t i)) (view_D false tau) b e
                     (planckB h lo) (planckB h hi) ltac:(lia) HB Hd).
    cbn beta in Hbt. change (path_atm (fun i => planckB h (view_T false t i)) (view_D false tau) e) with (spec_atm false h t tau e) in Hbt.
    change (path_atm (fun i => planckB h (view_T false t i)) (view_D false tau) b) with (spec_atm false h t tau b) in Hbt.
    change (path_tau (view_D false tau) b) with (spec_tau false tau b) in Hbt.
    change (path_tau (view_D false tau) e) with (spec_tau false tau e) in Hbt.
    set (c := spec_tau false tau e) in *. set (a := spec_tau false tau b) in *.
    set (E1 := spec_atm false h t tau e) in *. set (E2 := spec_atm false h t tau b) in *.
    assert (Ha0 : 0 <= a) by (apply path_tau_nonneg; auto).
    rewrite Rltb_false by lra.
    assert (Hnz : 1 + - exp (- (c + - a)) <> 0).
    { assert (exp (- (c + - a)) < 1) by (apply exp_neg_lt1; lra). lra. }
    rewrite xdiv_fin by auto. rewrite Hh.
    destruct (tcloud_bounds h lo hi ((E1 - E2) * exp a / (1 - exp (- (c - a))))) as [R1 R2]; auto.
    { apply (cloud_average h); auto. apply planckB_pos; auto. lra. }
    replace ((E1 + - E2) * exp a / (1 + - exp (- (c + - a)))) with ((E1 - E2) * exp a / (1 - exp (- (c - a)))) by reflexivity.
    rewrite R1. eexists. split; [reflexivity|exact R2].
Qed.

(** A cloud of zero thickness has no radiating temperature (0/0). *)
Theorem C21_zero_thickness (sat : bool) (es f : R) (t tau : list R) (b : nat) :
  0 < f -> length t = length tau -> (b < length t)%nat ->
  (forall x, In x t -> 0 < x) -> (forall x, In x tau -> 0 <= x) ->
  exists o tb, Xplanck sat es f t tau = Ok o /\ nth b (p_tauprof o) NaN = Fin tb /\
    (tb <= 125 ->
       cloud_radiating_temperature (A:=XA) (Z.of_nat b) (Z.of_nat b) (p_hvk o) (p_tauprof o) (p_boftatm o)
       = Ok (Some NaN)).
Proof.
  intros Hf Hl Hb Ht Htau.
  assert (Hne : t <> []) by (intros ->; simpl in *; lia).
  destruct (planckX_master sat es f t tau Hf Ht Hl Hne) as (o & Ho & Hh & _ & H3 & H4 & _).
  exists o, (spec_tau sat tau b). split; [exact Ho|]. split.
  { rewrite H3. rewrite nth_map_fin by (rewrite map_length, seq_length; lia). f_equal.
    rewrite nth_indep with (d' := spec_tau sat tau O) by (rewrite map_length, seq_length; lia).
    rewrite map_nth, seq_nth by lia. reflexivity. }
  intros Htb. unfold cloud_radiating_temperature. rewrite H3, H4, !nth_map_seq_X by lia. cbn [bind].
  unfold expmax. xa. replace (1250 / 10) with 125 by lra. unfold xltb.
  rewrite Rltb_false by auto. xa. rewrite Rltb_false by lra.
  rewrite !Rplus_opp_r, Rmult_0_l, Ropp_0, exp_0. unfold xdiv.
  destruct (Req_EM_T (10 / 10 + - (1)) 0); [|lra]. unfold xsgn_inf.
  destruct (Rlt_dec 0 0); [lra|]. rewrite Hh. reflexivity.
Qed.

Example C21_example : exists o tmr, Xplanck true 0.9 36.5 [285; 270; 240; 220] [0; 0.2; 0.4; 0.1] = Ok o /\
  cloud_radiating_temperature (A:=XA) 1 2 (p_hvk o) (p_tauprof o) (p_boftatm o) = Ok (Some (Fin tmr)) /\
  240 <= tmr <= 270.
Proof.
  assert (HT : forall x, In x [0; 0.2; 0.4; 0.1] -> 0 <= x).
  { simpl. intros x H. repeat (destruct H as [<-|H]; [lra|]). destruct H. }
  destruct (C21_cloud_tmr_bounds true 0.9 36.5 240 270 [285; 270; 240; 220] [0; 0.2; 0.4; 0.1] 1 2) as (o & tb & H1 & H2 & H3 & _);
    try lra; simpl; auto; try lia.
  - intros x H. repeat (destruct H as [<-|H]; [lra|]). destruct H.
  - intros i Hi. destruct i as [|[|[|i]]]; try lia; lra.
  - lra.
  - destruct (C03_tau_profile true 0.9 36.5 [285; 270; 240; 220] [0; 0.2; 0.4; 0.1]) as (o' & tp & G1 & G2 & G3 & G4 & G5 & _);
      try lra; auto; try discriminate.
    { simpl. intros x H. repeat (destruct H as [<-|H]; [lra|]). destruct H. }
    rewrite H1 in G1. inversion G1; subst o'. rewrite G2 in H2.
    assert (S1 := G5 1%nat ltac:(simpl; lia)). assert (S2 := G5 2%nat ltac:(simpl; lia)). simpl in S1, S2, G4.
    rewrite nth_map_fin in H2 by (simpl in G3; lia). inversion H2; subst tb.
    destruct (H3 ltac:(lra)) as (tmr & R1 & R2). exists o, tmr. auto.
Qed.
