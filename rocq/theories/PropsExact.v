(** C139: accuracy of the layer sums against the radiative transfer integral. *)

From Coq Require Import ZArith Reals Lra Lia List Bool.
From Coquelicot Require Import Coquelicot.
Import ListNotations.
From Verif Require Import Arith PyBase Utils RTE Spec RealAux ExpQ PlanckReal PlanckMaster Integral Machine PropsRound PropsCondition PropsAbsorbed.
Open Scope R_scope.

(** ** Weight of the far end of a layer

    With a source function linear in opacity the far end of a layer of opacity [d] has the weight
    [(1 - exp (-d)) / d - exp (-d)]; the code uses [exp (-d) (1 - exp (-d)) / (1 + exp (-d))]. *)

Definition weight_gap (d : R) : R := (1 - exp (- d)) / d - 2 / (exp d + 1).

Lemma emis_le d : 0 <= d -> 1 - exp (- d) <= d - d * d / 2 + d * d * d / 6.
Proof.
  intros Hd.
  assert (G1 : forall x, 0 <= x -> 1 - x + x * x / 2 >= exp (- x)).
  { intros x Hx. set (f := fun x => 1 - x + x * x / 2 - exp (- x)).
    assert (H : f 0 <= f x).
    { apply (incr_by_derive f (fun x => -1 + x + exp (- x))); auto.
      - intros c _. unfold f. auto_derive; auto. lra.
      - intros c _. assert (Q := exp_ineq1_le (- c)). lra. }
    unfold f in H. rewrite Ropp_0, exp_0 in H. lra. }
  set (f := fun x => x - x * x / 2 + x * x * x / 6 - (1 - exp (- x))).
  assert (H : f 0 <= f d).
  { apply (incr_by_derive f (fun x => 1 - x + x * x / 2 - exp (- x))); auto.
    - intros c _. unfold f. auto_derive; auto. lra.
    - intros c Hc. assert (Q := G1 c ltac:(lra)). lra. }
  unfold f in H. rewrite Ropp_0, exp_0 in H. lra.
Qed.

(** [2 / (e^d + 1) >= 1 - d/2] *)
Lemma tanh_ge d : 0 <= d -> 1 - d / 2 <= 2 / (exp d + 1).
Proof.
  intros Hd. assert (P := exp_pos d).
  assert (G : 0 <= 2 - (1 - d / 2) * (exp d + 1)).
  { set (f := fun x => 2 - (1 - x / 2) * (exp x + 1)).
    assert (H : f 0 <= f d).
    { apply (incr_by_derive f (fun x => / 2 * (exp x + 1) - (1 - x / 2) * exp x)); auto.
      - intros c _. unfold f. auto_derive; auto. lra.
      - intros c Hc. assert (Q := exp_m1_le c ltac:(lra)). assert (Pc := exp_pos c). lra. }
    unfold f in H. rewrite exp_0 in H. lra. }
  apply Rmult_le_reg_r with (exp d + 1); [lra|]. replace (2 / (exp d + 1) * (exp d + 1)) with 2 by (field; lra). lra.
Qed.

Lemma gap_bounds d : 0 < d -> 0 <= weight_gap d <= d * d / 6.
Proof.
  intros Hd. unfold weight_gap. assert (P := exp_pos d). split.
  - assert (S := sinh_ge d ltac:(lra)). rewrite exp_Ropp in *. set (e := exp d) in *. clearbody e.
    assert (G : 2 / (e + 1) <= (1 - / e) / d); [|lra].
    apply Rmult_le_reg_r with (d * (e + 1)); [apply Rmult_lt_0_compat; lra|].
    replace (2 / (e + 1) * (d * (e + 1))) with (2 * d) by (field; lra).
    replace ((1 - / e) / d * (d * (e + 1))) with (e - / e) by (field; lra). lra.
  - assert (E := emis_le d ltac:(lra)). assert (T := tanh_ge d ltac:(lra)).
    assert (G : (1 - exp (- d)) / d <= 1 - d / 2 + d * d / 6); [|lra].
    apply Rmult_le_reg_r with d; auto. unfold Rdiv at 1. rewrite Rmult_assoc, Rinv_l by lra. lra.
Qed.

(** ** The integral along the path *)

(** Source function linear in opacity between the levels. *)
Definition linear_source (b d : nat -> R) (n : nat) (S : R -> R) : Prop :=
  forall k s, (k < n)%nat -> path_tau d k < s < path_tau d (Datatypes.S k) ->
    S s = b k + (b (Datatypes.S k) - b k) * ((s - path_tau d k) / d (Datatypes.S k)).

Lemma layer_integral b0 c t1 t2 :
  is_RInt (fun s => (b0 + c * (s - t1)) * exp (- s)) t1 t2
    ((b0 + c) * exp (- t1) - (b0 + c * (t2 - t1) + c) * exp (- t2)).
Proof.
  set (F := fun s => - (b0 + c * (s - t1) + c) * exp (- s)).
  replace ((b0 + c) * exp (- t1) - (b0 + c * (t2 - t1) + c) * exp (- t2)) with (F t2 - F t1).
  2:{ unfold F. replace (t1 - t1) with 0 by lra. ring. }
  change (F t2 - F t1) with (minus (F t2) (F t1)). apply (is_RInt_derive F).
  - intros x _. unfold F. auto_derive; auto. ring.
  - intros x _. apply (ex_derive_continuous (fun s : R => (b0 + c * (s - t1)) * exp (- s))). auto_derive; auto.
Qed.

Fixpoint gap_sum (b d : nat -> R) (n : nat) : R :=
  match n with
  | O => 0
  | S k => gap_sum b d k + (if Rlt_dec 0 (d (S k)) then (b (S k) - b k) * weight_gap (d (S k)) * exp (- path_tau d k) else 0)
  end.

Lemma path_integral b d n S : (forall i, 0 <= d i) -> linear_source b d n S ->
  is_RInt (fun s => S s * exp (- s)) 0 (path_tau d n) (path_atm b d n + gap_sum b d n).
Proof.
  intros Hd. induction n as [|n IH]; intros HS.
  - unfold path_tau, path_atm. cbn [rsum gap_sum]. replace (0 + 0) with (@zero R_NormedModule) by (unfold zero; simpl; lra).
    apply (@is_RInt_point R_NormedModule).
  - specialize (IH ltac:(intros k s Hk Hs; apply HS; auto; lia)).
    assert (Et : path_tau d (Datatypes.S n) = path_tau d n + d (Datatypes.S n)) by reflexivity.
    assert (Ea : path_atm b d (Datatypes.S n) = path_atm b d n + layer_emit (b n) (b (Datatypes.S n)) (d (Datatypes.S n))
               * (exp (- path_tau d n) - exp (- path_tau d (Datatypes.S n)))) by reflexivity.
    cbn [gap_sum]. destruct (Rlt_dec 0 (d (Datatypes.S n))) as [Hp|Hz].
    + set (t1 := path_tau d n) in *. set (x := d (Datatypes.S n)) in *. set (t2 := path_tau d (Datatypes.S n)) in *.
      set (c := (b (Datatypes.S n) - b n) / x).
      assert (L : is_RInt (fun s => S s * exp (- s)) t1 t2 ((b n + c) * exp (- t1) - (b n + c * (t2 - t1) + c) * exp (- t2))).
      { apply is_RInt_ext with (2 := layer_integral (b n) c t1 t2). intros s Hs.
        rewrite Rmin_left, Rmax_right in Hs by lra. rewrite (HS n s ltac:(lia) Hs). unfold c. fold x t1.
        match goal with |- @eq _ ?a ?b => change (@eq R a b) end. field. lra. }
      assert (Q := is_RInt_Chasles _ _ _ _ _ _ IH L). unfold plus in Q. simpl in Q.
      match goal with |- is_RInt _ _ _ ?v => replace v with (path_atm b d n + gap_sum b d n + ((b n + c) * exp (- t1) - (b n + c * (t2 - t1) + c) * exp (- t2))); [exact Q|] end.
      rewrite Ea. unfold layer_emit, weight_gap, c. rewrite Et. replace (t1 + x - t1) with x by lra.
      replace (- (t1 + x)) with (- t1 + - x) by lra. rewrite exp_plus, (exp_Ropp x).
      assert (Pe := exp_pos x). set (e := exp x) in *. clearbody e. set (e1 := exp (- t1)). clearbody e1. field. repeat split; lra.
    + assert (Z : d (Datatypes.S n) = 0) by (assert (Q := Hd (Datatypes.S n)); lra).
      assert (E2 : path_tau d (Datatypes.S n) = path_tau d n) by (rewrite Et, Z; lra).
      rewrite Ea, E2, Rminus_eq_0, Rmult_0_r, !Rplus_0_r. exact IH.
Qed.

Lemma gap_sum_bound b d n D : (forall i, 0 <= d i) -> (forall i, (1 <= i <= n)%nat -> d i <= D) ->
  Rabs (gap_sum b d n) <= D * D / 6 * rsum n (fun k => Rabs (b (S k) - b k)).
Proof.
  intros Hd HD. induction n as [|n IH]; cbn [gap_sum rsum]; [rewrite Rabs_R0; lra|].
  specialize (IH ltac:(intros i Hi; apply HD; lia)). eapply Rle_trans; [apply Rabs_triang|].
  rewrite Rmult_plus_distr_l. apply Rplus_le_compat; auto.
  assert (HDn := HD (S n) ltac:(lia)). assert (H0 := Hd (S n)). assert (A := Rabs_pos (b (S n) - b n)).
  assert (DD : 0 <= D * D / 6) by nra.
  destruct (Rlt_dec 0 (d (S n))) as [Hp|Hp]; [|rewrite Rabs_R0; apply Rmult_le_pos; auto].
  destruct (gap_bounds (d (S n)) Hp) as [G1 G2]. rewrite Rmult_assoc, Rabs_mult, Rmult_comm.
  assert (Tn := path_tau_nonneg d n Hd). assert (E1 := exp_neg_le1 _ Tn). assert (E0 := exp_pos (- path_tau d n)).
  apply Rmult_le_compat_r; auto. rewrite Rabs_pos_eq by (apply Rmult_le_pos; lra).
  apply Rle_trans with (weight_gap (d (S n)) * 1); [apply Rmult_le_compat_l; lra|].
  assert (d (S n) * d (S n) <= D * D) by (apply Rmult_le_compat; lra). lra.
Qed.

Lemma gap_sum_sign b d n : (forall i, 0 <= d i) -> (forall k, (k < n)%nat -> b (S k) <= b k) -> gap_sum b d n <= 0.
Proof.
  intros Hd HB. induction n as [|n IH]; cbn [gap_sum]; [lra|]. specialize (IH ltac:(intros; apply HB; lia)).
  destruct (Rlt_dec 0 (d (S n))) as [Hp|Hp]; [|lra]. destruct (gap_bounds _ Hp) as [G1 _].
  assert (E0 := exp_pos (- path_tau d n)). assert (B := HB n ltac:(lia)).
  assert (0 <= (b n - b (S n)) * weight_gap (d (S n)) * exp (- path_tau d n)) by (apply Rmult_le_pos; [apply Rmult_le_pos|]; lra). lra.
Qed.

(** ** C139 *)

(** The exact radiance at the antenna of an atmosphere whose Planck function varies linearly with opacity between the levels of the
    profile: emission weighted with the transmission, plus the attenuated background. *)
Definition exact_radiance (sat : bool) (es f : R) (t tl : list R) (S : R -> R) (I : R) : Prop :=
  linear_source (fun k => planckB (spec_hvk f) (view_T sat t k)) (view_D sat tl) (length t - 1) S /\
  I = RInt (fun s => S s * exp (- s)) 0 (total_tau tl) + background sat es (spec_hvk f) t * exp (- total_tau tl).

Lemma exact_ge b d n m : (forall i, 0 <= d i) -> (forall k, (k <= n)%nat -> m <= b k) ->
  m * (1 - exp (- path_tau d n)) <= path_atm b d n + gap_sum b d n.
Proof.
  intros Hd. induction n as [|n IH]; intros HB.
  - unfold path_tau, path_atm. cbn [rsum gap_sum]. rewrite Ropp_0, exp_0. lra.
  - specialize (IH ltac:(intros; apply HB; lia)).
    assert (Et : path_tau d (S n) = path_tau d n + d (S n)) by reflexivity.
    assert (Ea : path_atm b d (S n) = path_atm b d n + layer_emit (b n) (b (S n)) (d (S n))
               * (exp (- path_tau d n) - exp (- path_tau d (S n)))) by reflexivity.
    assert (B0 := HB n ltac:(lia)). assert (B1 := HB (S n) ltac:(lia)). assert (P1 := exp_pos (- path_tau d n)).
    cbn [gap_sum]. rewrite Ea, Et. replace (- (path_tau d n + d (S n))) with (- path_tau d n + - d (S n)) by lra. rewrite exp_plus.
    destruct (Rlt_dec 0 (d (S n))) as [Hp|Hz].
    + set (x := d (S n)) in *. set (e1 := exp (- path_tau d n)) in *. clearbody e1. set (e := exp (- x)).
      assert (He : exp x = / e) by (unfold e; rewrite exp_Ropp, Rinv_inv; reflexivity). assert (Pe : 0 < e) by apply exp_pos.
      (* weights of the two ends *)
      assert (W : layer_emit (b n) (b (S n)) x * (e1 - e1 * e) + (b (S n) - b n) * weight_gap x * e1 =
        e1 * (b n * (1 - (1 - e) / x) + b (S n) * ((1 - e) / x - e))).
      { unfold layer_emit, weight_gap. fold e. rewrite He. clearbody e. field. repeat split; lra. }
      assert (W1 : 0 <= 1 - (1 - e) / x).
      { assert (Q := exp_ineq1_le (- x)). fold e in Q. apply Rmult_le_reg_r with x; auto.
        replace ((1 - (1 - e) / x) * x) with (x - (1 - e)) by (field; lra). lra. }
      assert (W2 : 0 <= (1 - e) / x - e).
      { assert (Q := exp_ineq1_le x). rewrite He in Q. apply Rmult_le_reg_r with (x * / e); [apply Rmult_lt_0_compat; auto; apply Rinv_0_lt_compat; auto|].
        replace (((1 - e) / x - e) * (x * / e)) with (/ e - 1 - x) by (field; lra). lra. }
      assert (M : m * (1 - e) <= b n * (1 - (1 - e) / x) + b (S n) * ((1 - e) / x - e)).
      { replace (m * (1 - e)) with (m * (1 - (1 - e) / x) + m * ((1 - e) / x - e)) by ring.
        apply Rplus_le_compat; apply Rmult_le_compat_r; auto. }
      assert (M1 := Rmult_le_compat_l e1 _ _ ltac:(lra) M).
      replace (m * (1 - e1 * e)) with (m * (1 - e1) + e1 * (m * (1 - e))) by ring. lra.
    + assert (Z : d (S n) = 0) by (assert (Q := Hd (S n)); lra). rewrite Z, Ropp_0, exp_0. lra.
Qed.

Lemma accuracy_aux (sat : bool) es f t tl S D Tl Tb Te :
  0 < f -> length t = length tl -> t <> [] -> (forall x, In x t -> 0 < x) -> (forall d, In d tl -> 0 <= d <= D) -> total_tau tl < 125 ->
  (sat = true -> 0 <= es <= 1) ->
  tb_of (A:=RA) sat es f t tl = Ok Tb -> exact_radiance sat es f t tl S (planckB (spec_hvk f) Te) ->
  0 < Tl -> Tl <= Tb -> Tl <= Te ->
  Rabs (Tb - Te) <= D * D / 6 * exp (spec_hvk f / Tl) * variation t.
Proof.
  intros Hf Hl Hne HT Hd Ht Hes HTb [HS HI] HTl H1 H2. set (h := spec_hvk f) in *.
  assert (Hh : 0 < h) by (unfold h, spec_hvk; lra).
  assert (Hlen : (1 <= length t)%nat) by (destruct t; [congruence|simpl; lia]).
  assert (Hd0 : forall d, In d tl -> 0 <= d) by (intros d Hi; apply Hd in Hi; lra).
  assert (HT0 : 0 < nth 0 t 0) by (apply HT, nth_In; lia).
  assert (Hbg : 0 <= background sat es h t).
  { unfold background. destruct sat.
    - apply Rmult_le_pos; [apply Hes; auto|]. left. apply planckB_pos; auto.
    - left. apply planckB_pos; lra. }
  set (n := (length t - 1)%nat) in *. set (B := fun k => planckB h (view_T sat t k)) in *. set (d := view_D sat tl) in *.
  assert (Htl : tl <> []) by (intros X; subst tl; simpl in *; lia).
  assert (Et : path_tau d n = total_tau tl) by (unfold d, n; rewrite Hl; apply total_tau_view; auto).
  assert (Hdd : forall i, 0 <= d i) by (intros i; apply view_D_nonneg; auto).
  assert (R1 : planckB h Tb = path_atm B d n + background sat es h t * trans d n) by (apply tb_open; auto; lra).
  assert (PI := path_integral B d n S Hdd HS). apply (is_RInt_unique (V:=R_CompleteNormedModule)) in PI. rewrite Et in PI. rewrite PI in HI.
  unfold trans in R1. rewrite Et in R1.
  assert (E : planckB h Tb - planckB h Te = - gap_sum B d n) by (rewrite R1, HI; ring).
  assert (L := planckT_lip h Tl Te Tb Hh HTl H2 H1). rewrite E, Rabs_Ropp in L.
  assert (G : Rabs (gap_sum B d n) <= D * D / 6 * rsum n (fun k => Rabs (B (Datatypes.S k) - B k))).
  { apply gap_sum_bound; auto. intros i Hi. unfold d, view_D, n in *.
    destruct sat; apply Hd, nth_In; lia. }
  assert (Hn : forall i, (i < length t)%nat -> 0 < view_T sat t i).
  { intros i Hi. unfold view_T. destruct sat; apply HT, nth_In; lia. }
  assert (V : rsum n (fun k => Rabs (B (Datatypes.S k) - B k)) <= variation t * / h).
  { rewrite <- (view_variation sat t). fold n.
    assert (GV : forall k, (k <= n)%nat -> rsum k (fun k => Rabs (B (Datatypes.S k) - B k)) <= rsum k (fun k => Rabs (view_T sat t (Datatypes.S k) - view_T sat t k)) * / h).
    { induction k as [|k IH]; intros Hk; cbn [rsum]; [lra|]. rewrite Rmult_plus_distr_r. apply Rplus_le_compat; [apply IH; lia|].
      apply planckB_lip_abs; auto; apply Hn; unfold n in Hk; lia. }
    apply GV; auto. }
  assert (DD : 0 <= D * D / 6) by (assert (0 <= D * D) by apply Rle_0_sqr; lra).
  assert (Pe := exp_pos (h / Tl)).
  apply Rle_trans with (1 := L).
  apply Rle_trans with (h * exp (h / Tl) * (D * D / 6 * (variation t * / h))).
  - apply Rmult_le_compat_l; [apply Rmult_le_pos; lra|]. apply Rle_trans with (1 := G). apply Rmult_le_compat_l; auto.
  - right. field. lra.
Qed.

(** C139.  The reported brightness temperature differs from that of the transfer integral by at most [D^2/6] times the temperature
    variation along the path, [D] being the largest layer opacity (and the factor [exp (h nu / k Tl)] of C137). *)
Theorem C139_accuracy (sat : bool) es f t tl S D Tl :
  0 < f -> length t = length tl -> t <> [] -> (forall x, In x t -> 2.728 <= x <= 400) -> (forall d, In d tl -> 0 <= d <= D) -> total_tau tl < 125 ->
  (if sat then 0 < es <= 1 /\ 0 < Tl /\ forall x, In x t -> Tl <= es * x else Tl = 2.728) ->
  linear_source (fun k => planckB (spec_hvk f) (view_T sat t k)) (view_D sat tl) (length t - 1) S ->
  exists Tb Te, tb_of (A:=RA) sat es f t tl = Ok Tb /\ Tl <= Te /\ exact_radiance sat es f t tl S (planckB (spec_hvk f) Te) /\
    Rabs (Tb - Te) <= D * D / 6 * exp (spec_hvk f / Tl) * variation t.
Proof.
  intros Hf Hl Hne HT Hd Ht HTl HS. set (h := spec_hvk f) in *.
  assert (Hh : 0 < h) by (unfold h, spec_hvk; lra).
  assert (Hlen : (1 <= length t)%nat) by (destruct t; [congruence|simpl; lia]).
  assert (Hd0 : forall d, In d tl -> 0 <= d) by (intros d Hi; apply Hd in Hi; lra).
  assert (HT0 : 2.728 <= nth 0 t 0 <= 400) by (apply HT, nth_In; lia).
  set (n := (length t - 1)%nat) in *. set (B := fun k => planckB h (view_T sat t k)) in *. set (d := view_D sat tl) in *.
  assert (Htl : tl <> []) by (intros X; subst tl; simpl in *; lia).
  assert (Et : path_tau d n = total_tau tl) by (unfold d, n; rewrite Hl; apply total_tau_view; auto).
  assert (Hdd : forall i, 0 <= d i) by (intros i; apply view_D_nonneg; auto).
  assert (PI := path_integral B d n S Hdd HS). apply (is_RInt_unique (V:=R_CompleteNormedModule)) in PI. rewrite Et in PI.
  set (I := RInt (fun s => S s * exp (- s)) 0 (total_tau tl) + background sat es h t * exp (- total_tau tl)).
  assert (Htn := total_tau_nonneg tl Hd0). assert (Pe := exp_pos (- total_tau tl)). assert (Pe1 := exp_neg_le1 _ Htn).
  assert (Hpos : 0 < Tl) by (destruct sat; [destruct HTl as (_ & ? & _); auto|lra]).
  assert (Hin : forall k, (k <= n)%nat -> In (view_T sat t k) t) by (intros k Hk; unfold view_T, n in *; destruct sat; apply nth_In; lia).
  assert (G : planckB h Tl <= I).
  { unfold I. rewrite PI. assert (Bp := planckB_pos h Tl Hh Hpos).
    apply Rle_trans with (planckB h Tl * (1 - exp (- total_tau tl)) + planckB h Tl * exp (- total_tau tl)); [right; ring|].
    apply Rplus_le_compat.
    - rewrite <- Et. apply exact_ge; auto. intros k Hk. apply planckB_le; auto. specialize (Hin k Hk). assert (Q := HT _ Hin). destruct sat.
      + destruct HTl as (He & _ & Hx). specialize (Hx _ Hin). apply Rle_trans with (1 := Hx).
        apply Rle_trans with (1 * view_T true t k); [apply Rmult_le_compat_r; lra|lra].
      + lra.
    - apply Rmult_le_compat_r; [lra|]. unfold background. destruct sat.
      + destruct HTl as (He & _ & Hx). apply Rle_trans with (planckB h (es * nth 0 t 0)).
        * apply planckB_le; auto. apply Hx, nth_In. lia.
        * apply planckB_scale; auto; lra.
      + rewrite HTl. lra. }
  assert (Bp := planckB_pos h Tl Hh Hpos). set (Te := planckT h I).
  assert (ETe : planckB h Te = I) by (apply planckB_T; auto; lra).
  assert (LTe : Tl <= Te) by (unfold Te; rewrite <- (planckT_B h Tl) by auto; apply planckT_le; auto).
  destruct (planck_master sat es f t tl Hl Hne) as (o & Ho & _).
  exists (bright (A:=RA) (p_hvk o) (p_boftotl o)), Te.
  assert (E : tb_of (A:=RA) sat es f t tl = Ok (bright (A:=RA) (p_hvk o) (p_boftotl o))) by (unfold tb_of; rewrite Ho; reflexivity).
  assert (X : exact_radiance sat es f t tl S (planckB (spec_hvk f) Te)) by (split; [exact HS|fold h; rewrite ETe; reflexivity]).
  split; [exact E|]. split; [exact LTe|]. split; [exact X|].
  apply (accuracy_aux sat es f t tl S D Tl); auto.
  - intros x Hx. apply HT in Hx. lra.
  - intros ->. destruct HTl as (He & _). lra.
  - apply (tb_lower sat es f t tl Tl _ Hf Hl Hne HT Hd0 Ht); auto.
Qed.

(** Where temperature falls with height a ground-based radiometer is never reported too cold, and the radiance seen from a satellite
    never too warm. *)
Theorem C139_sign (sat : bool) es f t tl S Tb Te :
  0 < f -> length t = length tl -> t <> [] -> (forall x, In x t -> 0 < x) -> (forall d, In d tl -> 0 <= d) -> total_tau tl < 125 ->
  (sat = true -> 0 <= es <= 1) -> (forall i, (Datatypes.S i < length t)%nat -> nth (Datatypes.S i) t 0 <= nth i t 0) ->
  tb_of (A:=RA) sat es f t tl = Ok Tb -> exact_radiance sat es f t tl S (planckB (spec_hvk f) Te) -> 0 < Tb -> 0 < Te ->
  if sat then Tb <= Te else Te <= Tb.
Proof.
  intros Hf Hl Hne HT Hd Ht Hes Hdec HTb [HS HI] H1 H2. set (h := spec_hvk f) in *.
  assert (Hh : 0 < h) by (unfold h, spec_hvk; lra).
  assert (Hlen : (1 <= length t)%nat) by (destruct t; [congruence|simpl; lia]).
  assert (HT0 : 0 < nth 0 t 0) by (apply HT, nth_In; lia).
  assert (Hbg : 0 <= background sat es h t).
  { unfold background. destruct sat.
    - apply Rmult_le_pos; [apply Hes; auto|]. left. apply planckB_pos; auto.
    - left. apply planckB_pos; lra. }
  set (n := (length t - 1)%nat) in *. set (B := fun k => planckB h (view_T sat t k)) in *. set (d := view_D sat tl) in *.
  assert (Htl : tl <> []) by (intros X; subst tl; simpl in *; lia).
  assert (Et : path_tau d n = total_tau tl) by (unfold d, n; rewrite Hl; apply total_tau_view; auto).
  assert (Hdd : forall i, 0 <= d i) by (intros i; apply view_D_nonneg; auto).
  assert (R1 : planckB h Tb = path_atm B d n + background sat es h t * trans d n) by (apply tb_open; auto; lra).
  assert (PI := path_integral B d n S Hdd HS). apply (is_RInt_unique (V:=R_CompleteNormedModule)) in PI. rewrite Et in PI. rewrite PI in HI.
  unfold trans in R1. rewrite Et in R1.
  assert (Hn : forall i, (i < length t)%nat -> 0 < view_T sat t i).
  { intros i Hi. unfold view_T. destruct sat; apply HT, nth_In; lia. }
  assert (Cmp : forall a b, 0 < a -> 0 < b -> planckB h a <= planckB h b -> a <= b).
  { intros a b Ha Hb Hab. rewrite <- (planckT_B h a), <- (planckT_B h b) by auto. apply planckT_le; auto. apply planckB_pos; auto. }
  destruct sat.
  - apply Cmp; auto. assert (G : gap_sum (fun k => - B k) d n <= 0).
    { apply gap_sum_sign; auto. intros k Hk. apply Ropp_le_contravar. apply planckB_le; auto; [apply Hn; unfold n in Hk; lia|].
      unfold view_T, n in *. replace (length t - 1 - k)%nat with (Datatypes.S (length t - 1 - Datatypes.S k)) by lia. apply Hdec. lia. }
    assert (N : forall m, gap_sum (fun k => - B k) d m = - gap_sum B d m).
    { induction m as [|m IH]; cbn [gap_sum]; [lra|]. rewrite IH. destruct (Rlt_dec 0 (d (Datatypes.S m))); lra. }
    rewrite N in G. lra.
  - apply Cmp; auto. assert (G : gap_sum B d n <= 0); [|lra].
    apply gap_sum_sign; auto. intros k Hk. apply planckB_le; auto; [apply Hn; unfold n in Hk; lia|].
    unfold view_T, n in *. apply Hdec. lia.
Qed.

(** Every profile has such a source function. *)
Lemma source_exists b d n : (forall i, 0 <= d i) -> exists S, linear_source b d n S.
Proof.
  intros Hd. induction n as [|n (S & HS)].
  - exists (fun _ => 0). intros k s Hk. lia.
  - exists (fun s => if Rlt_dec (path_tau d n) s then b n + (b (Datatypes.S n) - b n) * ((s - path_tau d n) / d (Datatypes.S n)) else S s).
    intros k s Hk Hs. destruct (Nat.eq_dec k n) as [->|Hkn].
    + destruct (Rlt_dec (path_tau d n) s); [reflexivity|lra].
    + destruct (Rlt_dec (path_tau d n) s) as [Hlt|Hge]; [|apply HS; auto; lia].
      exfalso. assert (M : path_tau d (Datatypes.S k) <= path_tau d n).
      { clear - Hd Hk Hkn. assert (H : (Datatypes.S k <= n)%nat) by lia. induction H; [lra|].
        change (path_tau d (Datatypes.S m)) with (path_tau d m + d (Datatypes.S m)). assert (Q := Hd (Datatypes.S m)).
        assert (path_tau d (Datatypes.S k) <= path_tau d m); [|lra]. apply IHle; lia. }
      lra.
Qed.

(** Three levels seen from above at 22.235 GHz, 0.1 Np in the lower layer: within 0.12 K of the transfer integral. *)
Example C139_example : exists S Tb Te,
  tb_of (A:=RA) true 1 22.235 [288; 260; 220] [0; 0.1; 0.02] = Ok Tb /\
  exact_radiance true 1 22.235 [288; 260; 220] [0; 0.1; 0.02] S (planckB (spec_hvk 22.235) Te) /\ Rabs (Tb - Te) <= 0.12 /\ Tb <= Te.
Proof.
  assert (Hd : forall x, In x [0; 0.1; 0.02] -> 0 <= x <= 0.1) by (intros x [<-|[<-|[<-|[]]]]; lra).
  destruct (source_exists (fun k => planckB (spec_hvk 22.235) (view_T true [288; 260; 220] k)) (view_D true [0; 0.1; 0.02]) 2) as (S & HS).
  { intros i. apply view_D_nonneg. intros x Hx. apply Hd in Hx. lra. }
  assert (HT : forall x, In x [288; 260; 220] -> 2.728 <= x <= 400) by (intros x [<-|[<-|[<-|[]]]]; lra).
  destruct (C139_accuracy true 1 22.235 [288; 260; 220] [0; 0.1; 0.02] S 0.1 220) as (Tb & Te & H1 & H2 & H3 & H4); auto; try lra; try discriminate.
  - unfold total_tau; simpl; lra.
  - split; [lra|]. split; [lra|]. intros x [<-|[<-|[<-|[]]]]; lra.
  - exists S, Tb, Te. split; [exact H1|]. split; [exact H3|]. split.
    + apply Rle_trans with (1 := H4).
      assert (V : variation [288; 260; 220] = 68).
      { rewrite variation_decreasing; [simpl; lra|]. intros i Hi. simpl in Hi. destruct i as [|[|[|i]]]; try lia; cbn [nth]; lra. }
      rewrite V. assert (Ex : exp (spec_hvk 22.235 / 220) <= 1.01).
      { apply Rle_trans with (exp (0.005)); [apply exp_le; unfold spec_hvk; lra|].
        assert (Q := exp_le_frac 5 1000 101 100). replace (IZR 5 / 1000) with 0.005 in Q by lra.
        eapply Rle_trans; [apply Q; vm_compute; reflexivity|lra]. }
      apply Rle_trans with (0.1 * 0.1 / 6 * 1.01 * 68); [|lra]. apply Rmult_le_compat_r; [lra|]. apply Rmult_le_compat_l; lra.
    + apply (C139_sign true 1 22.235 [288; 260; 220] [0; 0.1; 0.02] S Tb Te); auto; try lra; try discriminate.
      * intros x Hx. apply HT in Hx. lra.
      * intros x Hx. apply Hd in Hx. lra.
      * unfold total_tau; simpl; lra.
      * intros i Hi. simpl in Hi. destruct i as [|[|[|i]]]; try lia; cbn [nth]; lra.
      * assert (Q := tb_lower true 1 22.235 [288; 260; 220] [0; 0.1; 0.02] 220 Tb ltac:(lra) eq_refl ltac:(discriminate) HT).
        assert (220 <= Tb); [|lra]. apply Q; auto.
        -- intros x Hx. apply Hd in Hx. lra.
        -- unfold total_tau; simpl; lra.
        -- split; [lra|]. split; [lra|]. intros x [<-|[<-|[<-|[]]]]; lra.
Qed.
