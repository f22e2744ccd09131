(** C123-C126: the covariance matrices of the spectroscopic parameters shipped with the package. *)

From Coq Require Import ZArith Reals List Bool PeanoNat Lia Lra.
Import ListNotations.
From Verif Require Import Arith PyBase CovData Covariance CovCert CovForm.
Local Open Scope R_scope.

(** ** The shipped matrices *)

Definition each (p : list (list (Z * Z)) -> nat -> bool) : bool := forallb (fun mn => p (fst mn) (snd mn)) shipped.
Lemma each_in : forall p, each p = true -> forall m n, In (m, n) shipped -> p m n = true.
Proof. intros p H m n Hin. unfold each in H. rewrite forallb_forall in H. exact (H _ Hin). Qed.

Definition sized (m : list (list (Z * Z))) (n : nat) : bool := regularb m && Nat.eqb (length m) n.
Lemma shipped_sized : each sized = true.
Proof. vm_cast_no_check (eq_refl true). Qed.

Lemma shipped_regularb : forall m n, In (m, n) shipped -> regularb m = true.
Proof. intros m n H. pose proof (each_in _ shipped_sized m n H) as E. apply andb_prop in E. apply E. Qed.
Lemma shipped_length : forall m n, In (m, n) shipped -> length m = n.
Proof. intros m n H. pose proof (each_in _ shipped_sized m n H) as E. apply andb_prop in E. apply Nat.eqb_eq, E. Qed.

(** Every pair of entries: positive variances, correlations at most 1, and symmetry up to 4e-7. *)
Definition all2 (n : nat) (p : nat -> nat -> bool) : bool := forallb (fun i => forallb (fun j => p i j) (seq 0 n)) (seq 0 n).
Lemma all2_in : forall n p, all2 n p = true -> forall i j, (i < n)%nat -> (j < n)%nat -> p i j = true.
Proof.
  intros n p H i j Li Lj. unfold all2 in H. rewrite forallb_forall in H.
  assert (Hi : In i (seq 0 n)) by (apply in_seq; lia). assert (Hj : In j (seq 0 n)) by (apply in_seq; lia).
  specialize (H _ Hi). rewrite forallb_forall in H. exact (H _ Hj).
Qed.

(** The three matrices agree on the first 105 parameters, which have no covariance with the others. *)
Definition apart (m : list (list (Z * Z))) (n : nat) : bool :=
  let t := scaled m in let t0 := scaled cov_R17_111 in
  all2 n (fun i j => if Nat.ltb i 105 then (if Nat.ltb j 105 then Z.eqb (at_ t i j) (at_ t0 i j) else Z.eqb (at_ t i j) 0)
                     else (if Nat.ltb j 105 then Z.eqb (at_ t i j) 0 else true)).
Lemma shipped_apart : each apart = true.
Proof. vm_cast_no_check (eq_refl true). Qed.

Lemma large_size : forall m n, In (m, n) shipped -> (105 < n)%nat.
Proof. intros m n Hin. destruct Hin as [Q|[Q|[Q|[]]]]; injection Q as _ <-; lia. Qed.

Lemma apart_zero : forall m n i j, In (m, n) shipped -> (i < n)%nat -> (j < n)%nat ->
  (i < 105 <= j \/ j < 105 <= i)%nat -> stored m i j = 0.
Proof.
  intros m n i j Hin Li Lj H. pose proof (each_in _ shipped_apart m n Hin) as E. unfold apart in E. cbv zeta in E.
  pose proof (all2_in _ _ E i j Li Lj) as E'. cbv beta in E'.
  assert (Z0 : at_ (scaled m) i j = 0%Z).
  { destruct (Nat.ltb_spec i 105), (Nat.ltb_spec j 105); try lia; apply Z.eqb_eq; exact E'. }
  apply (f_equal IZR) in Z0. rewrite scaled_at in Z0 by exact (shipped_regularb _ _ Hin). pose proof unit_pos.
  apply Rmult_integral in Z0. destruct Z0; lra.
Qed.

Lemma apart_same : forall m n i j, In (m, n) shipped -> (i < 105)%nat -> (j < 105)%nat -> stored m i j = stored cov_R17_111 i j.
Proof.
  intros m n i j Hin Li Lj. pose proof (each_in _ shipped_apart m n Hin) as E. unfold apart in E. cbv zeta in E.
  pose proof (large_size m n Hin).
  pose proof (all2_in _ _ E i j ltac:(lia) ltac:(lia)) as E'. cbv beta in E'.
  destruct (Nat.ltb_spec i 105); [|lia]. destruct (Nat.ltb_spec j 105); [|lia]. apply Z.eqb_eq in E'.
  apply (f_equal IZR) in E'. rewrite !scaled_at in E' by (first [exact (shipped_regularb _ _ Hin) | apply (shipped_regularb _ 111); left; reflexivity]).
  pose proof unit_pos. apply Rmult_eq_reg_r with unit_; [exact E'|lra].
Qed.

(** One pair of entries: positive variances, correlation at most 1, and symmetry up to 4e-7. *)
Definition pair_ok (t : list (list Z)) (i j : nat) : bool :=
  let c := at_ t i j in
  (0 <? at_ t i i)%Z && ((c =? 0)%Z || (c * c <=? at_ t i i * at_ t j j)%Z)
  && ((c =? at_ t j i)%Z || ((c - at_ t j i) * (c - at_ t j i) * 10 ^ 14 <=? 16 * (at_ t i i * at_ t j j))%Z).

Definition pairs_ok (m : list (list (Z * Z))) (n from : nat) : bool :=
  let t := scaled m in forallb (fun i => forallb (fun j => pair_ok t i j) (seq from (n - from))) (seq from (n - from)).
Lemma oxygen_pairs : pairs_ok cov_R17_111 105 0 = true.
Proof. vm_cast_no_check (eq_refl true). Qed.
Lemma other_pairs : each (fun m n => pairs_ok m n 105) = true.
Proof. vm_cast_no_check (eq_refl true). Qed.

Lemma pairs_in : forall m n from i j, pairs_ok m n from = true -> (from <= i < n)%nat -> (from <= j < n)%nat -> pair_ok (scaled m) i j = true.
Proof.
  intros m n from i j H Li Lj. unfold pairs_ok in H. cbv zeta in H. rewrite forallb_forall in H.
  assert (Hi : In i (seq from (n - from))) by (apply in_seq; lia). assert (Hj : In j (seq from (n - from))) by (apply in_seq; lia).
  specialize (H _ Hi). rewrite forallb_forall in H. exact (H _ Hj).
Qed.

Lemma water_111 : bounded (scaled cov_R17_111) 111 (fun i => Nat.leb 105 i) (-1) 20 [] weight_R17_111 = true.
Proof. vm_cast_no_check (eq_refl true). Qed.
Lemma water_112 : bounded (scaled cov_R17_112) 112 (fun i => Nat.leb 105 i) (-1) 20 [] weight_R17_112 = true.
Proof. vm_cast_no_check (eq_refl true). Qed.
Lemma water_135 : bounded (scaled cov_R19) 135 (fun i => Nat.leb 105 i) (-1) 20 [] weight_R19 = true.
Proof. vm_cast_no_check (eq_refl true). Qed.

Definition in_sy (i : nat) : bool := Nat.eqb i 0 || (Nat.leb 37 i && Nat.ltb i 71).
Definition in_nv (i : nat) : bool := (Nat.leb 1 i && Nat.ltb i 3) || (Nat.leb 71 i && Nat.ltb i 105).

Lemma oxygen_sy : bounded (scaled cov_R17_111) 111 in_sy 1 (2 ^ 20) factor_sy weight_sy = true.
Proof. vm_cast_no_check (eq_refl true). Qed.
Lemma oxygen_nv : bounded (scaled cov_R17_111) 111 in_nv 1 (2 ^ 20) factor_nv weight_nv = true.
Proof. vm_cast_no_check (eq_refl true). Qed.

Definition good_pair (m : list (list (Z * Z))) (i j : nat) : Prop :=
  0 < stored m i i /\ (stored m i j)² <= stored m i i * stored m j j /\
  (stored m i j - stored m j i)² <= (4 / 10 ^ 7)² * (stored m i i * stored m j j).

Lemma pair_ok_good : forall m n i j, In (m, n) shipped -> pair_ok (scaled m) i j = true -> pair_ok (scaled m) j i = true -> good_pair m i j.
Proof.
  intros m n i j Hin H H'. unfold pair_ok in H, H'. cbv zeta in H, H'. apply andb_prop in H'. destruct H' as [H' _].
  apply andb_prop in H'. destruct H' as [J1 _]. apply Z.ltb_lt in J1.
  apply andb_prop in H. destruct H as [H H3]. apply andb_prop in H.
  destruct H as [H1 H2]. apply Z.ltb_lt in H1.
  assert (G2 : (at_ (scaled m) i j * at_ (scaled m) i j <= at_ (scaled m) i i * at_ (scaled m) j j)%Z).
  { apply orb_prop in H2. destruct H2 as [H2|H2]; [apply Z.eqb_eq in H2; rewrite H2; nia|apply Z.leb_le; exact H2]. }
  assert (G3 : ((at_ (scaled m) i j - at_ (scaled m) j i) * (at_ (scaled m) i j - at_ (scaled m) j i) * 10 ^ 14
                <= 16 * (at_ (scaled m) i i * at_ (scaled m) j j))%Z).
  { apply orb_prop in H3. destruct H3 as [H3|H3]; [apply Z.eqb_eq in H3; rewrite H3, Z.sub_diag; nia|apply Z.leb_le; exact H3]. }
  clear H2 H3. rename G2 into H2. rename G3 into H3. apply IZR_lt in H1. apply IZR_le in H2. apply IZR_le in H3.
  rewrite !mult_IZR in H2. rewrite !mult_IZR, minus_IZR in H3.
  assert (Hr := shipped_regularb _ _ Hin). repeat rewrite scaled_at in H2 by exact Hr. repeat rewrite scaled_at in H3 by exact Hr. rewrite scaled_at in H1 by exact Hr.
  pose proof unit_pos as Hu. repeat split.
  - apply Rmult_lt_reg_r with unit_; [exact Hu|]. lra.
  - apply Rmult_le_reg_r with (unit_ * unit_); [nra|]. unfold Rsqr. lra.
  - apply Rmult_le_reg_r with (unit_ * unit_); [nra|].
    assert (E14 : IZR (10 ^ 14) = 10 ^ 14) by (change (10 ^ 14)%Z with (10 ^ Z.of_nat 14)%Z; rewrite <- pow_IZR; reflexivity).
    rewrite E14 in H3. unfold Rsqr. set (T := 10 ^ 14) in *.
    assert (HT : 0 < T) by (apply pow_lt; lra).
    replace (4 / 10 ^ 7 * (4 / 10 ^ 7)) with (16 / T) by (unfold T; field). clearbody T.
    apply Rmult_le_reg_r with T; [exact HT|].
    replace (16 / T * (stored m i i * stored m j j) * (unit_ * unit_) * T)
      with (16 * (stored m i i * unit_ * (stored m j j * unit_))) by (field; lra).
    eapply Rle_trans; [|exact H3]. right. ring.
Qed.

Lemma shipped_pair : forall m n i j, In (m, n) shipped -> (i < n)%nat -> (j < n)%nat -> good_pair m i j.
Proof.
  assert (O : forall i j, (i < 105)%nat -> (j < 105)%nat -> good_pair cov_R17_111 i j).
  { intros i j Li Lj. apply (pair_ok_good _ 111); [left; reflexivity| |]; apply (pairs_in _ _ _ _ _ oxygen_pairs); lia. }
  assert (W : forall m n i j, In (m, n) shipped -> (105 <= i < n)%nat -> (105 <= j < n)%nat -> good_pair m i j).
  { intros m n i j Hin Li Lj. pose proof (each_in _ other_pairs m n Hin) as E. cbv beta in E.
    apply (pair_ok_good _ n); [exact Hin| |]; apply (pairs_in _ _ _ _ _ E); lia. }
  assert (O' : forall m n i j, In (m, n) shipped -> (i < 105)%nat -> (j < 105)%nat -> good_pair m i j).
  { intros m n i j Hin Li Lj. unfold good_pair. rewrite !(apart_same m n) by assumption. apply O; assumption. }
  assert (P : forall m n i, In (m, n) shipped -> (i < n)%nat -> 0 < stored m i i).
  { intros m n i Hin Li. destruct (lt_dec i 105); [apply (O' m n i i); assumption|apply (W m n i i Hin); lia]. }
  intros m n i j Hin Li Lj. destruct (lt_dec i 105) as [Hi|Hi], (lt_dec j 105) as [Hj|Hj].
  - apply (O' m n); assumption.
  - unfold good_pair. rewrite (apart_zero m n i j Hin Li Lj), (apart_zero m n j i Hin Lj Li) by lia.
    pose proof (P m n i Hin Li). pose proof (P m n j Hin Lj). pose proof (Rmult_lt_0_compat _ _ H H0).
    rewrite Rminus_0_r, Rsqr_0. split; [assumption|]. split; [lra|]. apply Rmult_le_pos; [apply Rle_0_sqr|lra].
  - unfold good_pair. rewrite (apart_zero m n i j Hin Li Lj), (apart_zero m n j i Hin Lj Li) by lia.
    pose proof (P m n i Hin Li). pose proof (P m n j Hin Lj). pose proof (Rmult_lt_0_compat _ _ H H0).
    rewrite Rminus_0_r, Rsqr_0. split; [assumption|]. split; [lra|]. apply Rmult_le_pos; [apply Rle_0_sqr|lra].
  - apply (W m n i j Hin); lia.
Qed.

Lemma upto_cut : forall n p f, (p <= n)%nat -> (forall i, (p <= i)%nat -> f i = 0) -> upto n f = upto p f.
Proof.
  induction n; intros p f L H; [replace p with O by lia; reflexivity|].
  destruct (Nat.eq_dec p (S n)) as [->|N]; [reflexivity|]. cbn. rewrite (IHn p f), (H n) by (auto; lia). lra.
Qed.

(** Variances due to the first 105 parameters do not depend on the matrix. *)
Lemma oxygen_spread : forall m n (k : list R), In (m, n) shipped -> only (fun i => (i < 105)%nat) k ->
  spread m k = upto 105 (fun i => upto 105 (fun j => nth i k 0 * stored cov_R17_111 i j * nth j k 0)) /\
  alone m k = upto 105 (fun i => stored cov_R17_111 i i * (nth i k 0)²).
Proof.
  intros m n k Hin O. unfold spread, cross, alone. rewrite (shipped_length _ _ Hin). pose proof (large_size m n Hin).
  assert (Z0 : forall i, (105 <= i)%nat -> nth i k 0 = 0) by (intros i Li; apply O; lia).
  split.
  - rewrite (upto_cut n 105); [|lia|intros i Li; apply upto_0; intros j _; rewrite (Z0 i Li); lra].
    apply upto_ext. intros i Li. rewrite (upto_cut n 105); [|lia|intros j Lj; rewrite (Z0 j Lj); lra].
    apply upto_ext. intros j Lj. rewrite (apart_same m n i j Hin Li Lj). reflexivity.
  - rewrite (upto_cut n 105); [|lia|intros i Li; rewrite (Z0 i Li); unfold Rsqr; lra].
    apply upto_ext. intros i Li. rewrite (apart_same m n i i Hin Li Li). reflexivity.
Qed.

Lemma root_bound : forall c a b, 0 <= a -> 0 <= b -> c² <= a * b -> Rabs c <= sqrt a * sqrt b.
Proof.
  intros c a b Ha Hb H. rewrite <- sqrt_mult by assumption. rewrite <- sqrt_Rsqr_abs. apply sqrt_le_1_alt. exact H.
Qed.

(** Indices outside the arrays do not matter. *)
Lemma alone_nonneg : forall m n k, In (m, n) shipped -> 0 <= alone m k.
Proof.
  intros m n k Hin. unfold alone. rewrite (shipped_length _ _ Hin). apply upto_nonneg. intros i Li.
  apply Rmult_le_pos; [|apply Rle_0_sqr]. apply Rlt_le. apply (shipped_pair m n i i Hin Li Li).
Qed.

Lemma upto_pos : forall n f i, (forall i, (i < n)%nat -> 0 <= f i) -> (i < n)%nat -> 0 < f i -> 0 < upto n f.
Proof.
  induction n; intros f i H L P; [lia|]. cbn. destruct (Nat.eq_dec i n) as [->|N].
  - assert (0 <= upto n f) by (apply upto_nonneg; auto). lra.
  - assert (0 < upto n f) by (apply (IHn f i); auto; lia). specialize (H n (Nat.lt_succ_diag_r n)). lra.
Qed.

Lemma alone_pos : forall m n k i, In (m, n) shipped -> (i < n)%nat -> nth i k 0 <> 0 -> 0 < alone m k.
Proof.
  intros m n k i Hin Li Hk. unfold alone. rewrite (shipped_length _ _ Hin).
  apply upto_pos with i; [|exact Li|].
  - intros j Lj. apply Rmult_le_pos; [|apply Rle_0_sqr]. apply Rlt_le. apply (shipped_pair m n j j Hin Lj Lj).
  - apply Rmult_lt_0_compat; [apply (shipped_pair m n i i Hin Li Li)|]. apply Rsqr_pos_lt. exact Hk.
Qed.

(** ** C123: a Jacobian for which the standard deviation is not a number *)

(** Derivatives 2, 4 and 1 (K per GHz/bar), of alternating sign, with respect to the widths of six oxygen lines: parameters
    14-15, 24-25 and 36-37 of the list in covariance_matrix/__init__.py:10-23. *)
Definition six_widths (n : nat) : list R :=
  map (fun i => IZR (if orb (Nat.eqb i 13) (Nat.eqb i 14) then -2 else if orb (Nat.eqb i 23) (Nat.eqb i 24) then 4
                     else if orb (Nat.eqb i 35) (Nat.eqb i 36) then -1 else 0)%Z) (seq 0 n).
Definition six (i : nat) : Z := if orb (Nat.eqb i 13) (Nat.eqb i 14) then (-2)%Z else if orb (Nat.eqb i 23) (Nat.eqb i 24) then 4%Z
                     else if orb (Nat.eqb i 35) (Nat.eqb i 36) then (-1)%Z else 0%Z.

Definition six_ok (m : list (list (Z * Z))) (n : nat) : bool :=
  let t := scaled m in
  let q := uptoZ n (fun i => if Z.eqb (six i) 0 then 0%Z else uptoZ n (fun j => if Z.eqb (six j) 0 then 0%Z else six i * at_ t i j * six j)%Z) in
  let d := uptoZ n (fun i => at_ t i i * (six i * six i))%Z in
  (q * 10 <=? - d)%Z && (0 <? d)%Z.
Lemma shipped_six : each six_ok = true.
Proof. vm_cast_no_check (eq_refl true). Qed.

Lemma six_spread : forall m n, In (m, n) shipped -> spread m (six_widths n) <= - alone m (six_widths n) / 10 /\ 0 < alone m (six_widths n).
Proof.
  intros m n Hin. pose proof (each_in _ shipped_six m n Hin) as E. unfold six_ok in E. cbv zeta in E. apply andb_prop in E.
  destruct E as [E1 E2]. apply Z.leb_le in E1. apply Z.ltb_lt in E2. apply IZR_le in E1. apply IZR_lt in E2.
  assert (Hr := shipped_regularb _ _ Hin). assert (Hl := shipped_length _ _ Hin). pose proof unit_pos as Hu.
  assert (K : forall i, (i < n)%nat -> nth i (six_widths n) 0 = IZR (six i)).
  { intros i Li. unfold six_widths. rewrite nth_map_seq by exact Li. reflexivity. }
  assert (D : IZR (uptoZ n (fun i => (at_ (scaled m) i i * (six i * six i))%Z)) = unit_ * alone m (six_widths n)).
  { rewrite uptoZ_R. unfold alone. rewrite Hl, <- upto_scal. apply upto_ext. intros i Li. rewrite !mult_IZR, scaled_at, K by assumption.
    unfold Rsqr. lra. }
  assert (Q : IZR (uptoZ n (fun i => if Z.eqb (six i) 0 then 0%Z else uptoZ n (fun j => if Z.eqb (six j) 0 then 0%Z else six i * at_ (scaled m) i j * six j)%Z))
              = unit_ * spread m (six_widths n)).
  { rewrite uptoZ_R. unfold spread, cross. rewrite Hl, <- upto_scal. apply upto_ext. intros i Li. rewrite <- upto_scal.
    destruct (Z.eqb_spec (six i) 0) as [Z0|_].
    - symmetry. apply upto_0. intros j Lj. rewrite K, Z0 by exact Li. cbn. lra.
    - rewrite uptoZ_R. apply upto_ext. intros j Lj. rewrite !K by assumption. destruct (Z.eqb_spec (six j) 0) as [Z0|_].
      + rewrite Z0. cbn. lra.
      + rewrite !mult_IZR, scaled_at by exact Hr. lra. }
  rewrite mult_IZR, opp_IZR, Q, D in E1. rewrite D in E2. cbn [Z.lt] in E2. split.
  - apply Rmult_le_reg_l with (10 * unit_); [lra|]. lra.
  - apply Rmult_lt_reg_l with unit_; [exact Hu|]. lra.
Qed.

(** The claim "the standard deviation is a real number for every Jacobian" is false for each of the three matrices. *)
Theorem C123_refuted : forall m n, In (m, n) shipped ->
  exists k : list R, length k = n /\ spread m k < 0 /\
    sigma_tb (A:=XA) [F k] (as_array m) = Ok [NaN].
Proof.
  intros m n Hin. exists (six_widths n). destruct (six_spread m n Hin) as [H1 H2].
  assert (L : length (six_widths n) = n) by (unfold six_widths; rewrite map_length, seq_length; reflexivity).
  assert (N : spread m (six_widths n) < 0) by lra.
  split; [exact L|]. split; [exact N|].
  change [F (six_widths n)] with (map F [six_widths n]).
  rewrite C123_value; [|apply regularb_regular, (shipped_regularb _ _ Hin)|discriminate|].
  - cbn [map]. destruct (Rle_dec 0 (spread m (six_widths n))); [lra|reflexivity].
  - constructor; [|constructor]. rewrite L. symmetry. apply (shipped_length _ _ Hin).
Qed.

(** The names of the module are these matrices. *)
Example C123_names : R17_111 (A:=XA) = as_array cov_R17_111 /\ R17_112 (A:=XA) = as_array cov_R17_112 /\ R19 (A:=XA) = as_array cov_R19.
Proof. repeat split. Qed.

(** ** C124: groups of parameters for which the variance is sound *)

(** Water-vapour parameters (and, in R19, the widths of four submillimetre oxygen lines): parameters 106 and up. *)
Theorem C124_water : forall m n (k : list R), In (m, n) shipped -> only (fun i => (105 <= i)%nat) k ->
  alone m k / 20 <= spread m k.
Proof.
  intros m n k Hin Hk.
  assert (H : exists w, bounded (scaled m) n (fun i => Nat.leb 105 i) (-1) 20 [] w = true).
  { destruct Hin as [E|[E|[E|[]]]]; injection E as <- <-; eexists; [exact water_111|exact water_112|exact water_135]. }
  destruct H as [w H]. pose proof (shipped_length _ _ Hin) as L. rewrite <- L in H.
  assert (Ho : only (fun i => Nat.leb 105 i = true) k) by (intros i Hi; apply Hk; intros Hc; apply Hi, Nat.leb_le; exact Hc).
  pose proof (bounded_sound m _ (-1) 20 _ _ k (shipped_regularb _ _ Hin) eq_refl H Ho) as B.
  replace (- (IZR (-1) / IZR 20) * alone m k) with (alone m k / 20) in B by (cbn; lra). exact B.
Qed.

(** So the standard deviation is a positive number as soon as one of the derivatives differs from 0. *)
Theorem C124_water_sigma : forall m n (k : list R) i, In (m, n) shipped -> length k = n ->
  only (fun i => (105 <= i)%nat) k -> (i < n)%nat -> nth i k 0 <> 0 ->
  exists s, 0 < s /\ sigma_tb (A:=XA) [F k] (as_array m) = Ok [Fin s] /\ s² = spread m k.
Proof.
  intros m n k i Hin L Hk Li Hi. pose proof (C124_water m n k Hin Hk) as B. pose proof (alone_pos m n k i Hin Li Hi) as P.
  exists (sqrt (spread m k)). split; [apply sqrt_lt_R0; lra|]. split; [|apply Rsqr_sqrt; lra].
  change [F k] with (map F [k]).
  rewrite C123_value; [|apply regularb_regular, (shipped_regularb _ _ Hin)|discriminate|].
  - cbn [map]. destruct (Rle_dec 0 (spread m k)); [reflexivity|lra].
  - constructor; [|constructor]. rewrite L. symmetry. apply (shipped_length _ _ Hin).
Qed.

(** Intensity and line-mixing coefficients of oxygen (parameters 1 and 38-71), and exponent, width of the pseudo-line and
    temperature dependence of the mixing (2, 3 and 72-105): not negative up to one millionth of the uncorrelated variance. *)
Theorem C124_mixing : forall m n (k : list R), In (m, n) shipped ->
  (only (fun i => i = 0 \/ 37 <= i < 71)%nat k -> - (/ 10 ^ 6) * alone m k <= spread m k) /\
  (only (fun i => 1 <= i < 3 \/ 71 <= i < 105)%nat k -> - (/ 10 ^ 6) * alone m k <= spread m k).
Proof.
  intros m n k Hin. pose proof (alone_nonneg m n k Hin) as P.
  assert (I0 : In (cov_R17_111, 111%nat) shipped) by (left; reflexivity).
  assert (Q : - (/ 10 ^ 6) * alone m k <= - (IZR 1 / IZR (2 ^ 20)) * alone m k).
  { apply Rmult_le_compat_r; [exact P|]. cbn. lra. }
  assert (T : forall g l w, bounded (scaled cov_R17_111) 111 g 1 (2 ^ 20) l w = true -> (forall i, g i = true -> (i < 105)%nat) ->
              only (fun i => g i = true) k -> - (/ 10 ^ 6) * alone m k <= spread m k).
  { intros g l w H Hg Hk. rewrite <- (shipped_length _ _ I0) in H.
    pose proof (bounded_sound cov_R17_111 g 1 (2 ^ 20) l w k (shipped_regularb _ _ I0) eq_refl H Hk) as B.
    assert (O : only (fun i => (i < 105)%nat) k) by (intros i Hi; apply Hk; intros E; apply Hi, Hg; exact E).
    destruct (oxygen_spread m n k Hin O) as [E1 E2]. destruct (oxygen_spread _ _ k I0 O) as [E3 E4].
    rewrite E3, <- E1, E4, <- E2 in B. lra. }
  split; intros Hk.
  - apply (T in_sy _ _ oxygen_sy).
    + intros i Hi. unfold in_sy in Hi. destruct (Nat.eqb_spec i 0), (Nat.leb_spec 37 i), (Nat.ltb_spec i 71); cbn in Hi; try discriminate; lia.
    + intros i Hi. apply Hk. intros Hc. apply Hi. unfold in_sy.
      destruct (Nat.eqb_spec i 0), (Nat.leb_spec 37 i), (Nat.ltb_spec i 71); try reflexivity; lia.
  - apply (T in_nv _ _ oxygen_nv).
    + intros i Hi. unfold in_nv in Hi.
      destruct (Nat.leb_spec 1 i), (Nat.ltb_spec i 3), (Nat.leb_spec 71 i), (Nat.ltb_spec i 105); cbn in Hi; try discriminate; lia.
    + intros i Hi. apply Hk. intros Hc. apply Hi. unfold in_nv.
      destruct (Nat.leb_spec 1 i), (Nat.ltb_spec i 3), (Nat.leb_spec 71 i), (Nat.ltb_spec i 105); try reflexivity; lia.
Qed.

(** Sums with one or two terms. *)
Lemma upto_two : forall n f a b, (a < n)%nat -> (b < n)%nat -> a <> b -> (forall i, i <> a -> i <> b -> f i = 0) -> upto n f = f a + f b.
Proof.
  induction n; intros f a b La Lb N H; [lia|]. cbn.
  assert (O1 : forall c, (c < n)%nat -> (forall i, (i < n)%nat -> i <> c -> f i = 0) -> upto n f = f c).
  { clear - f. induction n; intros c L Hc; [lia|]. cbn. destruct (Nat.eq_dec c n) as [->|Nc].
    - rewrite upto_0; [lra|]. intros i Li. apply Hc; lia.
    - rewrite (IHn c) by (try lia; intros; apply Hc; lia). rewrite (Hc n) by lia. lra. }
  destruct (Nat.eq_dec a n) as [->|Na]; [|destruct (Nat.eq_dec b n) as [->|Nb]].
  - rewrite (O1 b) by (try lia; intros; apply H; lia). lra.
  - rewrite (O1 a) by (try lia; intros; apply H; lia). lra.
  - rewrite (IHn f a b) by (auto; lia). rewrite (H n) by lia. lra.
Qed.

(** Any two parameters of any matrix. *)
Theorem C124_pair : forall m n (k : list R) a b, In (m, n) shipped -> (a < n)%nat -> (b < n)%nat ->
  only (fun i => i = a \/ i = b) k -> 0 <= spread m k.
Proof.
  assert (W : forall m n (k : list R) a b, In (m, n) shipped -> (a < n)%nat -> (b < n)%nat -> a <> b ->
    only (fun i => i = a \/ i = b) k -> 0 <= spread m k).
  { intros m n k a b Hin La Lb Nab Hk. unfold spread, cross. rewrite (shipped_length _ _ Hin).
    assert (Z0 : forall i, i <> a -> i <> b -> nth i k 0 = 0) by (intros i Ha Hb; apply Hk; intros [E|E]; auto).
    rewrite (upto_two n _ a b La Lb Nab).
    - rewrite !(upto_two n _ a b La Lb Nab) by (intros i Ha Hb; rewrite (Z0 i Ha Hb); lra).
      destruct (shipped_pair m n a b Hin La Lb) as (Pa & Cab & _). destruct (shipped_pair m n b a Hin Lb La) as (Pb & Cba & _).
      pose proof (root_bound _ _ _ (Rlt_le _ _ Pa) (Rlt_le _ _ Pb) Cab) as R1.
      pose proof (root_bound _ _ _ (Rlt_le _ _ Pb) (Rlt_le _ _ Pa) Cba) as R2.
      set (x := nth a k 0) in *. set (y := nth b k 0) in *. set (u := sqrt (stored m a a)) in *. set (v := sqrt (stored m b b)) in *.
      replace (stored m a a) with (u * u) by (apply sqrt_sqrt; lra). replace (stored m b b) with (v * v) by (apply sqrt_sqrt; lra).
      assert (S : forall c, Rabs c <= u * v -> - (u * Rabs x * (v * Rabs y)) <= x * c * y).
      { intros c Hc. pose proof (Rle_abs (- (x * c * y))) as Q. rewrite Rabs_Ropp, !Rabs_mult in Q.
        assert (Rabs c * (Rabs x * Rabs y) <= u * v * (Rabs x * Rabs y)).
        { apply Rmult_le_compat_r; [|exact Hc]. apply Rmult_le_pos; apply Rabs_pos. } lra. }
      pose proof (S _ R1) as S1. rewrite (Rmult_comm v u) in R2. pose proof (S _ R2) as S2.
      assert (0 <= (u * Rabs x - v * Rabs y)²) by apply Rle_0_sqr. unfold Rsqr in H.
      assert (Rabs x * Rabs x = x * x) by (rewrite <- Rabs_mult; apply Rabs_pos_eq; apply Rle_0_sqr).
      assert (Rabs y * Rabs y = y * y) by (rewrite <- Rabs_mult; apply Rabs_pos_eq; apply Rle_0_sqr).
      assert (u * Rabs x * (u * Rabs x) = x * (u * u) * x) by (replace (x * (u * u) * x) with (u * u * (x * x)) by lra; rewrite <- H0; lra).
      assert (v * Rabs y * (v * Rabs y) = y * (v * v) * y) by (replace (y * (v * v) * y) with (v * v * (y * y)) by lra; rewrite <- H1; lra).
      assert (y * stored m b a * x = x * stored m b a * y) by lra. lra.
    - intros i Ha Hb. apply upto_0. intros j Lj. rewrite (Z0 i Ha Hb). lra. }
  intros m n k a b Hin La Lb Hk. destruct (Nat.eq_dec a b) as [<-|N]; [|exact (W m n k a b Hin La Lb N Hk)].
  assert (exists c, (c < n)%nat /\ c <> a) as (c & Lc & Nc).
  { assert (2 < n)%nat by (destruct Hin as [E|[E|[E|[]]]]; injection E as _ <-; lia).
    destruct (Nat.eq_dec a 0) as [->|]; [exists 1%nat|exists 0%nat]; lia. }
  apply (W m n k a c Hin La Lc ltac:(congruence)). intros i Hi. apply Hk. intros [E|E]; apply Hi; left; exact E.
Qed.

(** ** C125: bounds and symmetry for every Jacobian *)

Lemma cross_bound : forall m n c (f : nat -> nat -> R) (a b : list R), In (m, n) shipped -> 0 <= c ->
  (forall i j, (i < n)%nat -> (j < n)%nat -> (f i j)² <= c² * (stored m i i * stored m j j)) ->
  Rabs (upto n (fun i => upto n (fun j => nth i a 0 * f i j * nth j b 0))) <= c * (aligned m a * aligned m b).
Proof.
  intros m n c f a b Hin Hc H. unfold aligned. rewrite (shipped_length _ _ Hin). rewrite <- upto_prod.
  eapply Rle_trans; [apply upto_abs|]. rewrite <- upto_scal. apply upto_le. intros i Li.
  eapply Rle_trans; [apply upto_abs|]. rewrite <- upto_scal. apply upto_le. intros j Lj.
  destruct (shipped_pair m n i j Hin Li Lj) as (Pi & _). destruct (shipped_pair m n j i Hin Lj Li) as (Pj & _).
  assert (Hf : Rabs (f i j) <= c * (sqrt (stored m i i) * sqrt (stored m j j))).
  { rewrite <- sqrt_mult by lra. rewrite <- (sqrt_Rsqr c Hc), <- sqrt_mult_alt by apply Rle_0_sqr.
    rewrite <- sqrt_Rsqr_abs. apply sqrt_le_1_alt. apply H; assumption. }
  rewrite !Rabs_mult.
  assert (Rabs (f i j) * (Rabs (nth i a 0) * Rabs (nth j b 0)) <= c * (sqrt (stored m i i) * sqrt (stored m j j)) * (Rabs (nth i a 0) * Rabs (nth j b 0))).
  { apply Rmult_le_compat_r; [|exact Hf]. apply Rmult_le_pos; apply Rabs_pos. }
  lra.
Qed.

(** No covariance exceeds the product of the deviations of fully aligned parameters. *)
Theorem C125_bound : forall m n (a b : list R), In (m, n) shipped -> Rabs (cross m a b) <= aligned m a * aligned m b.
Proof.
  intros m n a b Hin. unfold cross. rewrite (shipped_length _ _ Hin), <- (Rmult_1_l (aligned m a * aligned m b)).
  apply (cross_bound m n 1 (stored m) a b Hin); [lra|]. intros i j Li Lj. unfold Rsqr at 2.
  destruct (shipped_pair m n i j Hin Li Lj) as (_ & Q & _). lra.
Qed.

(** The covariances of two channels in the two orders agree to 4e-7 of that product. *)
Theorem C125_symmetric : forall m n (a b : list R), In (m, n) shipped ->
  Rabs (cross m a b - cross m b a) <= 4 / 10 ^ 7 * (aligned m a * aligned m b).
Proof.
  intros m n a b Hin.
  pose proof (cross_bound m n (4 / 10 ^ 7) (fun i j => stored m i j - stored m j i) a b Hin) as H.
  replace (cross m a b - cross m b a) with (upto n (fun i => upto n (fun j => nth i a 0 * (stored m i j - stored m j i) * nth j b 0))).
  - apply H; [lra|]. intros i j Li Lj. apply (shipped_pair m n i j Hin Li Lj).
  - unfold cross. rewrite (shipped_length _ _ Hin). rewrite (upto_swap n n (fun i j => nth i b 0 * stored m i j * nth j a 0)).
    unfold Rminus. replace (- upto n (fun j => upto n (fun i => nth i b 0 * stored m i j * nth j a 0)))
      with (-1 * upto n (fun j => upto n (fun i => nth i b 0 * stored m i j * nth j a 0))) by lra.
    rewrite <- upto_scal, <- upto_plus. apply upto_ext. intros i Li. rewrite <- upto_scal, <- upto_plus. apply upto_ext. intros j Lj. lra.
Qed.

(** Exact symmetry does not hold: the covariance of the mixing coefficients 40 and 43 depends on their order. *)
Theorem C125_exact_symmetry_refuted : forall m n, In (m, n) shipped -> exists i j, (i < j < n)%nat /\ stored m i j <> stored m j i.
Proof.
  intros m n Hin. exists 39%nat, 42%nat.
  assert (E : (n <=? 42)%nat || (at_ (scaled m) 39 42 =? at_ (scaled m) 42 39)%Z = false).
  { destruct Hin as [E|[E|[E|[]]]]; injection E as <- <-; vm_compute; reflexivity. }
  apply orb_false_elim in E. destruct E as [E1 E2]. apply Nat.leb_gt in E1. apply Z.eqb_neq in E2. split; [lia|].
  intros H. apply E2. apply eq_IZR. rewrite !scaled_at by exact (shipped_regularb _ _ Hin). rewrite H. reflexivity.
Qed.

(** ** C126: oxygen and water vapour are independent, and the oxygen part is the same in the three matrices *)

(** The part of a Jacobian that concerns the first 105 parameters (oxygen), and the rest. *)
Definition oxygen_part (k : list R) : list R := firstn 105 k.
Definition other_part (k : list R) : list R := repeat 0 105 ++ skipn 105 k.

Lemma oxygen_nth : forall k i, nth i (oxygen_part k) 0 = if Nat.ltb i 105 then nth i k 0 else 0.
Proof.
  intros k i. unfold oxygen_part. destruct (Nat.ltb_spec i 105) as [L|L].
  - rewrite <- (firstn_skipn 105 k) at 2. destruct (lt_dec i (length (firstn 105 k))) as [L'|L'].
    + rewrite app_nth1 by exact L'. reflexivity.
    + rewrite !nth_overflow; [reflexivity| |lia]. rewrite app_length, skipn_length. rewrite firstn_length in *. lia.
  - apply nth_overflow. rewrite firstn_length. lia.
Qed.
Lemma other_nth : forall k i, nth i (other_part k) 0 = if Nat.ltb i 105 then 0 else nth i k 0.
Proof.
  intros k i. unfold other_part. destruct (Nat.ltb_spec i 105) as [L|L].
  - rewrite app_nth1 by (rewrite repeat_length; exact L). apply nth_repeat.
  - rewrite app_nth2 by (rewrite repeat_length; exact L). rewrite repeat_length.
    destruct (le_dec 105 (length k)) as [G|G].
    + rewrite <- (firstn_skipn 105 k) at 2. rewrite app_nth2 by (rewrite firstn_length; lia). rewrite firstn_length, Nat.min_l by lia. reflexivity.
    + rewrite !nth_overflow; [reflexivity|lia|rewrite skipn_length; lia].
Qed.

(** The variance is the sum of the variances due to the two groups. *)
Theorem C126_split : forall m n (k : list R), In (m, n) shipped ->
  spread m k = spread m (oxygen_part k) + spread m (other_part k).
Proof.
  intros m n k Hin. unfold spread, cross. rewrite (shipped_length _ _ Hin). rewrite <- upto_plus. apply upto_ext. intros i Li.
  rewrite <- upto_plus. apply upto_ext. intros j Lj. rewrite !oxygen_nth, !other_nth.
  destruct (Nat.ltb_spec i 105), (Nat.ltb_spec j 105); try lra;
    rewrite (apart_zero m n i j Hin Li Lj) by lia; lra.
Qed.

(** The part due to oxygen does not depend on the matrix. *)
Theorem C126_oxygen : forall m n m' n' (k : list R), In (m, n) shipped -> In (m', n') shipped ->
  spread m (oxygen_part k) = spread m' (oxygen_part k).
Proof.
  intros m n m' n' k H H'.
  assert (O : only (fun i => (i < 105)%nat) (oxygen_part k)).
  { intros i Hi. rewrite oxygen_nth. destruct (Nat.ltb_spec i 105); [lia|reflexivity]. }
  destruct (oxygen_spread m n _ H O) as [-> _]. destruct (oxygen_spread m' n' _ H' O) as [-> _]. reflexivity.
Qed.

(** Consequence: the standard deviations from R17_111 and R17_112 of a Jacobian without water-vapour columns agree. *)
Theorem C126_sigma : forall m n m' n' (k k' : list R), In (m, n) shipped -> In (m', n') shipped -> length k = n -> length k' = n' ->
  oxygen_part k = oxygen_part k' -> only (fun i => (i < 105)%nat) k -> only (fun i => (i < 105)%nat) k' ->
  sigma_tb (A:=XA) [F k] (as_array m) = sigma_tb (A:=XA) [F k'] (as_array m').
Proof.
  intros m n m' n' k k' H H' L L' E O O'.
  assert (S : forall m n (k : list R), In (m, n) shipped -> only (fun i => (i < 105)%nat) k -> spread m k = spread m (oxygen_part k)).
  { clear. intros m n k Hin O. rewrite (C126_split m n k Hin). replace (spread m (other_part k)) with 0; [lra|]. symmetry.
    unfold spread, cross. apply upto_0. intros i _. apply upto_0. intros j _. rewrite (other_nth k i).
    destruct (Nat.ltb_spec i 105); [lra|]. rewrite (O i) by lia. lra. }
  change [F k] with (map F [k]). change [F k'] with (map F [k']).
  rewrite !C123_value; try discriminate; try (eapply regularb_regular, shipped_regularb; eassumption);
    try (constructor; [|constructor]; erewrite shipped_length by eassumption; assumption).
  cbn [map]. rewrite (S m n k H O), (S m' n' k' H' O'), E, (C126_oxygen m n m' n' k' H H'). reflexivity.
Qed.

(** ** Cases *)

(** Three derivatives with respect to water-vapour parameters of R17_112: continuum coefficients and width at 22 GHz. *)
Definition water_row : list R := repeat 0 105 ++ [1; -2; 3; 0; 0; 0; 0].

Example C124_example : In (cov_R17_112, 112%nat) shipped /\ length water_row = 112%nat /\ only (fun i => (105 <= i)%nat) water_row /\
  exists s, 0 < s /\ sigma_tb (A:=XA) [F water_row] (as_array cov_R17_112) = Ok [Fin s] /\ s² = spread cov_R17_112 water_row.
Proof.
  assert (Hin : In (cov_R17_112, 112%nat) shipped) by (right; left; reflexivity).
  assert (L : length water_row = 112%nat) by reflexivity.
  assert (O : only (fun i => (105 <= i)%nat) water_row).
  { intros i Hi. unfold water_row. rewrite app_nth1 by (rewrite repeat_length; lia). apply nth_repeat. }
  split; [exact Hin|]. split; [exact L|]. split; [exact O|].
  apply (C124_water_sigma cov_R17_112 112 water_row 106 Hin L O); [lia|]. cbn. lra.
Qed.

(** The mixing coefficients and the temperature dependences of a few lines. *)
Definition sparse_row (l : list (nat * R)) (n : nat) : list R :=
  map (fun i => match find (fun p => Nat.eqb (fst p) i) l with Some p => snd p | None => 0 end) (seq 0 n).

Lemma sparse_only : forall l n (P : nat -> Prop), Forall (fun p => P (fst p)) l -> only P (sparse_row l n).
Proof.
  intros l n P H i Hi. destruct (lt_dec i n) as [L|L].
  - unfold sparse_row. rewrite nth_map_seq by exact L. destruct (find _ l) as [[j x]|] eqn:E; [|reflexivity].
    apply find_some in E. destruct E as [E1 E2]. apply Nat.eqb_eq in E2. cbn in E2. subst.
    rewrite Forall_forall in H. exfalso. apply Hi. exact (H _ E1).
  - apply nth_overflow. unfold sparse_row. rewrite map_length, seq_length. lia.
Qed.

Definition mixing_row : list R := sparse_row [(0%nat, 1); (38%nat, 2); (40%nat, -3); (70%nat, 1)] 135.
Definition slope_row : list R := sparse_row [(1%nat, 1); (2%nat, 1); (71%nat, -3); (104%nat, 1)] 135.

Example C124_mixing_example :
  - (/ 10 ^ 6) * alone cov_R19 mixing_row <= spread cov_R19 mixing_row /\
  - (/ 10 ^ 6) * alone cov_R19 slope_row <= spread cov_R19 slope_row.
Proof.
  assert (Hin : In (cov_R19, 135%nat) shipped) by (right; right; left; reflexivity).
  split.
  - destruct (C124_mixing cov_R19 135 mixing_row Hin) as [H _]. apply H. apply sparse_only. repeat constructor; cbn [fst]; lia.
  - destruct (C124_mixing cov_R19 135 slope_row Hin) as [_ H]. apply H. apply sparse_only. repeat constructor; cbn [fst]; lia.
Qed.

Example C124_pair_example : 0 <= spread cov_R17_111 (sparse_row [(34%nat, 5); (36%nat, -5)] 111).
Proof.
  apply (C124_pair cov_R17_111 111 _ 34 36); [left; reflexivity|lia|lia|]. apply sparse_only. repeat constructor; cbn; lia.
Qed.

Example C125_example : Rabs (cross cov_R17_111 (six_widths 111) (sparse_row [(42%nat, 1)] 111))
    <= aligned cov_R17_111 (six_widths 111) * aligned cov_R17_111 (sparse_row [(42%nat, 1)] 111) /\ 0 < alone cov_R17_111 (six_widths 111).
Proof.
  split; [apply (C125_bound cov_R17_111 111); left; reflexivity|].
  apply (six_spread cov_R17_111 111). left. reflexivity.
Qed.

Example C126_example : sigma_tb (A:=XA) [F (six_widths 111)] (as_array cov_R17_111) = sigma_tb (A:=XA) [F (six_widths 112)] (as_array cov_R17_112).
Proof.
  assert (O : forall n, only (fun i => (i < 105)%nat) (six_widths n)).
  { intros n i Hi. destruct (lt_dec i n) as [L|L].
    - unfold six_widths. rewrite nth_map_seq by exact L.
      destruct (Nat.eqb_spec i 13), (Nat.eqb_spec i 14), (Nat.eqb_spec i 23), (Nat.eqb_spec i 24), (Nat.eqb_spec i 35), (Nat.eqb_spec i 36); try lia; reflexivity.
    - apply nth_overflow. unfold six_widths. rewrite map_length, seq_length. lia. }
  apply (C126_sigma _ 111 _ 112); [left; reflexivity|right; left; reflexivity|reflexivity|reflexivity|reflexivity|apply O|apply O].
Qed.
