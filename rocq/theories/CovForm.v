(** C123: what the documented computation of standard deviations returns, with a method to bound variances from below.
    The theorems about the matrices of the package are in PropsCov.v. *)

From Coq Require Import ZArith Reals List Bool PeanoNat Lia Lra.
Import ListNotations.
From Verif Require Import Arith PyBase CovData Covariance.
Local Open Scope R_scope.

(** ** Specification *)

Fixpoint upto (n : nat) (f : nat -> R) : R := match n with O => 0 | S m => upto m f + f m end.

(** The number stored in row [i] and column [j]. *)
Definition stored (m : list (list (Z * Z))) (i j : nat) : R :=
  let p := nth j (nth i m []) (0, 0)%Z in IZR (fst p) / IZR (2 ^ snd p).

(** Covariance of two quantities whose derivatives with respect to the parameters are [a] and [b]. *)
Definition cross (m : list (list (Z * Z))) (a b : list R) : R :=
  upto (length m) (fun i => upto (length m) (fun j => nth i a 0 * stored m i j * nth j b 0)).

(** Variance of one quantity. *)
Definition spread (m : list (list (Z * Z))) (k : list R) : R := cross m k k.

(** Variance if the parameters were uncorrelated. *)
Definition alone (m : list (list (Z * Z))) (k : list R) : R :=
  upto (length m) (fun i => stored m i i * (nth i k 0)²).

(** Standard deviation if all parameters acted in the same direction. *)
Definition aligned (m : list (list (Z * Z))) (k : list R) : R :=
  upto (length m) (fun i => sqrt (stored m i i) * Rabs (nth i k 0)).

Definition square (m : list (list (Z * Z))) : Prop := Forall (fun r => length r = length m) m.

(** The matrices of the package with their sizes. *)
Definition shipped : list (list (list (Z * Z)) * nat) := [(cov_R17_111, 111); (cov_R17_112, 112); (cov_R19, 135)]%nat.

Definition only (p : nat -> Prop) (k : list R) : Prop := forall i, ~ p i -> nth i k 0 = 0.

(** ** Sums *)

Lemma upto_ext : forall n f g, (forall i, (i < n)%nat -> f i = g i) -> upto n f = upto n g.
Proof. induction n; intros f g H; cbn; [reflexivity|]. rewrite (IHn f g), (H n); auto. Qed.
Lemma upto_le : forall n f g, (forall i, (i < n)%nat -> f i <= g i) -> upto n f <= upto n g.
Proof. induction n; intros f g H; cbn; [lra|]. apply Rplus_le_compat; auto. Qed.
Lemma upto_plus : forall n f g, upto n (fun i => f i + g i) = upto n f + upto n g.
Proof. induction n; intros; cbn; [lra|]. rewrite IHn. lra. Qed.
Lemma upto_scal : forall n c f, upto n (fun i => c * f i) = c * upto n f.
Proof. induction n; intros; cbn; [lra|]. rewrite IHn. lra. Qed.
Lemma upto_scal_r : forall n c f, upto n (fun i => f i * c) = upto n f * c.
Proof. induction n; intros; cbn; [lra|]. rewrite IHn. lra. Qed.
Lemma upto_0 : forall n f, (forall i, (i < n)%nat -> f i = 0) -> upto n f = 0.
Proof. induction n; intros f H; cbn; [reflexivity|]. rewrite IHn, (H n); auto. lra. Qed.
Lemma upto_nonneg : forall n f, (forall i, (i < n)%nat -> 0 <= f i) -> 0 <= upto n f.
Proof. induction n; intros f H; cbn; [lra|]. apply Rplus_le_le_0_compat; auto. Qed.
Lemma upto_swap : forall n m f, upto n (fun i => upto m (fun j => f i j)) = upto m (fun j => upto n (fun i => f i j)).
Proof.
  induction n; intros m f; cbn; [symmetry; apply upto_0; auto|].
  rewrite IHn, <- upto_plus. reflexivity.
Qed.
Lemma upto_abs : forall n f, Rabs (upto n f) <= upto n (fun i => Rabs (f i)).
Proof.
  induction n; intros f; cbn; [rewrite Rabs_R0; lra|].
  eapply Rle_trans; [apply Rabs_triang|]. apply Rplus_le_compat_r, IHn.
Qed.
Lemma upto_prod : forall n m f g, upto n (fun i => upto m (fun j => f i * g j)) = upto n f * upto m g.
Proof. intros. rewrite <- upto_scal_r. apply upto_ext. intros. apply upto_scal. Qed.
Lemma upto_S_l : forall n f, upto (S n) f = f O + upto n (fun i => f (S i)).
Proof. induction n; intros f; cbn in *; [lra|]. rewrite IHn. cbn. lra. Qed.

(** ** What the documented computation returns *)

Notation F := (@map R (car XA) Fin).

Lemma dot_fin : forall (x y : list R), length x = length y ->
  dot (A:=XA) (F x) (F y) = Fin (upto (length x) (fun i => nth i x 0 * nth i y 0)).
Proof.
  induction x as [|a x IH]; intros [|b y] L; try discriminate.
  - cbn. unfold litR. f_equal. lra.
  - cbn [length]. rewrite upto_S_l. cbn [map dot length nth]. rewrite IH by (cbn in L; lia). reflexivity.
Qed.

Lemma nth_map_seq : forall {T} (f : nat -> T) n i d, (i < n)%nat -> nth i (map f (seq 0 n)) d = f i.
Proof.
  intros T f n i d L. rewrite (nth_indep _ d (f O)) by (rewrite map_length, seq_length; exact L).
  rewrite map_nth, seq_nth by exact L. reflexivity.
Qed.

Lemma litR_stored : forall m i j, (0 <= snd (nth j (nth i m []) (0, 0)%Z))%Z ->
  litR (Dec (fst (nth j (nth i m []) (0, 0)%Z)) (Z.to_pos (2 ^ snd (nth j (nth i m []) (0, 0)%Z)))) = stored m i j.
Proof.
  intros m i j H. unfold litR, stored. cbv zeta. rewrite Z2Pos.id; [reflexivity|]. apply Z.pow_pos_nonneg; lia.
Qed.

(** Exponents are not negative and the matrix is square. *)
Definition regular (m : list (list (Z * Z))) : Prop :=
  square m /\ m <> [] /\ Forall (Forall (fun p => (0 <= snd p)%Z)) m.

Lemma regular_exp : forall m i j, regular m -> (0 <= snd (nth j (nth i m []) (0, 0)%Z))%Z.
Proof.
  intros m i j (_ & _ & H). destruct (lt_dec i (length m)) as [L|L].
  - rewrite Forall_forall in H. specialize (H _ (nth_In m [] L)).
    destruct (lt_dec j (length (nth i m []))) as [L'|L'].
    + rewrite Forall_forall in H. exact (H _ (nth_In _ (0, 0)%Z L')).
    + rewrite (nth_overflow (nth i m [])) by lia. cbn. lia.
  - rewrite (nth_overflow m) by lia. destruct j; cbn; lia.
Qed.

Lemma nth_map_d : forall {T U} (f : T -> U) l i d d', (i < length l)%nat -> nth i (map f l) d' = f (nth i l d).
Proof.
  intros T U f l i d d' L. rewrite (nth_indep _ d' (f d)) by (rewrite map_length; exact L). apply map_nth.
Qed.

Lemma array_col : forall m j, regular m -> (j < length m)%nat ->
  map (fun r => nth j r (Fin (litR (Dec 0 1)))) (as_array (A:=XA) m)
  = F (map (fun i => stored m i j) (seq 0 (length m))).
Proof.
  intros m j Hr Lj. unfold as_array. rewrite !map_map.
  apply nth_ext with (d := NaN) (d' := NaN); [rewrite !map_length, seq_length; reflexivity|].
  intros i Li. rewrite map_length in Li.
  rewrite (nth_map_d _ m i []) by exact Li.
  rewrite (nth_map_d _ (seq 0 (length m)) i O) by (rewrite seq_length; exact Li).
  rewrite seq_nth by exact Li. cbn [Nat.add].
  assert (LL : length (nth i m []) = length m).
  { destruct Hr as [Hs _]. unfold square in Hs. rewrite Forall_forall in Hs. apply Hs, nth_In. exact Li. }
  rewrite (nth_map_d _ (nth i m []) j (0, 0)%Z) by lia.
  cbn [lit XA]. f_equal. apply litR_stored. apply regular_exp. exact Hr.
Qed.

Lemma hd_length : forall (m : list (list (Z * Z))), regular m -> length (hd [] (as_array (A:=XA) m)) = length m.
Proof.
  intros m (Hs & Hn & _). destruct m as [|r m]; [congruence|]. cbn [as_array map hd]. rewrite map_length.
  unfold square in Hs. rewrite Forall_forall in Hs. apply Hs. left. reflexivity.
Qed.

Lemma row_times : forall m k, regular m -> length k = length m ->
  map (dot (A:=XA) (F k)) (transpose (as_array (A:=XA) m))
  = F (map (fun j => upto (length m) (fun i => nth i k 0 * stored m i j)) (seq 0 (length m))).
Proof.
  intros m k Hr Lk. unfold transpose. rewrite hd_length by exact Hr. rewrite !map_map. apply map_ext_in.
  intros j Hj. apply in_seq in Hj. cbn [lit XA]. rewrite array_col by (auto; lia).
  rewrite dot_fin by (rewrite map_length, seq_length; exact Lk). f_equal. rewrite Lk. apply upto_ext. intros i Li.
  rewrite nth_map_seq by exact Li. reflexivity.
Qed.

Lemma forallb_Forall : forall {T} (p : T -> bool) l, forallb p l = true <-> Forall (fun x => p x = true) l.
Proof. intros. rewrite forallb_forall, Forall_forall. tauto. Qed.

Lemma matmul_shape : forall (kp : list (list R)) m, regular m -> Forall (fun k => length k = length m) kp ->
  matmul (A:=XA) (map F kp) (as_array m)
  = Ok (map F (map (fun k => map (fun j => upto (length m) (fun i => nth i k 0 * stored m i j)) (seq 0 (length m))) kp)).
Proof.
  intros kp m Hr Hk. unfold matmul.
  replace (forallb _ _) with true; cycle 1.
  { symmetry. apply forallb_forall. intros r Hin. apply in_map_iff in Hin. destruct Hin as (k & <- & Hin).
    rewrite Forall_forall in Hk. unfold as_array. rewrite !map_length, (Hk _ Hin). apply Nat.eqb_refl. }
  f_equal. rewrite !map_map. apply map_ext_in. intros k Hin. apply row_times; [exact Hr|].
  rewrite Forall_forall in Hk. exact (Hk _ Hin).
Qed.

(** The covariance matrix of the brightness temperatures. *)
Theorem C123_covtb : forall (m : list (list (Z * Z))) (kp : list (list R)),
  regular m -> kp <> [] -> Forall (fun k => length k = length m) kp ->
  covtb (A:=XA) (map F kp) (as_array m) = Ok (map (fun a => map (fun b => Fin (cross m a b)) kp) kp).
Proof.
  intros m kp Hr Hn Hk. unfold covtb. rewrite matmul_shape by assumption. cbn [bind]. unfold matmul.
  assert (Hhd : length (hd [] (map F kp)) = length m).
  { destruct kp as [|k kp]; [congruence|]. cbn. rewrite map_length. inversion Hk. assumption. }
  assert (Hpos : (0 < length m)%nat) by (destruct Hr as (_ & Hne & _); destruct m; [congruence|cbn; lia]).
  replace (forallb _ _) with true; cycle 1.
  { symmetry. apply forallb_forall. intros r Hin. rewrite map_map in Hin. apply in_map_iff in Hin. destruct Hin as (k & <- & Hin).
    unfold transpose. rewrite !map_length, !seq_length, Hhd. apply Nat.eqb_refl. }
  f_equal. rewrite !map_map. apply map_ext_in. intros a Ha.
  assert (E : transpose (transpose (A:=XA) (map F kp)) = map F kp).
  { unfold transpose at 1.
    assert (W : length (hd [] (transpose (A:=XA) (map F kp))) = length kp).
    { unfold transpose. rewrite Hhd. destruct (length m); [lia|]. cbn. rewrite !map_length. reflexivity. }
    rewrite W. apply nth_ext with (d := []) (d' := []); [rewrite !map_length, seq_length; reflexivity|].
    intros q Lq. rewrite map_length, seq_length in Lq. rewrite nth_map_seq by exact Lq.
    rewrite (nth_map_d _ kp q []) by exact Lq.
    assert (Lk : length (nth q kp []) = length m) by (rewrite Forall_forall in Hk; apply Hk, nth_In; exact Lq).
    unfold transpose. rewrite Hhd, map_map.
    apply nth_ext with (d := NaN) (d' := NaN); [rewrite !map_length, seq_length; lia|].
    intros j Lj. rewrite map_length, seq_length in Lj. rewrite nth_map_seq by exact Lj.
    rewrite map_map, (nth_map_d _ kp q []) by exact Lq.
    apply nth_indep. rewrite map_length. lia. }
  rewrite E, map_map. apply map_ext_in. intros b Hb.
  assert (Lb : length b = length m) by (rewrite Forall_forall in Hk; apply Hk; exact Hb).
  rewrite dot_fin by (rewrite map_length, seq_length; lia). f_equal. rewrite map_length, seq_length.
  unfold cross. rewrite upto_swap. apply upto_ext. intros j Lj. rewrite nth_map_seq by exact Lj.
  rewrite <- upto_scal_r. apply upto_ext. intros. lra.
Qed.

(** One standard deviation per row of the Jacobian: the root of the variance, NaN where the variance is negative. *)
Theorem C123_value : forall (m : list (list (Z * Z))) (kp : list (list R)),
  regular m -> kp <> [] -> Forall (fun k => length k = length m) kp ->
  sigma_tb (A:=XA) (map F kp) (as_array m)
  = Ok (map (fun k => if Rle_dec 0 (spread m k) then Fin (sqrt (spread m k)) else NaN) kp).
Proof.
  intros m kp Hr Hn Hk. unfold sigma_tb. rewrite C123_covtb by assumption. cbn [bind]. f_equal.
  unfold diag. rewrite map_length, map_map.
  apply nth_ext with (d := NaN) (d' := NaN); [rewrite !map_length, seq_length; reflexivity|].
  intros q Lq. rewrite map_length, seq_length in Lq. rewrite nth_map_seq by exact Lq.
  rewrite (nth_map_d _ kp q []) by exact Lq.
  rewrite (nth_map_d _ kp q []) by exact Lq.
  rewrite (nth_map_d _ kp q []) by exact Lq. reflexivity.
Qed.

(** A row of the wrong length is refused. *)
Theorem C123_shape : forall {A : Arith} (m : list (list (Z * Z))) (kp : list (list (car A))),
  Exists (fun k => length k <> length m) kp -> sigma_tb kp (as_array m) = Err ValueError.
Proof.
  intros A m kp H. unfold sigma_tb, covtb, matmul at 1.
  replace (forallb _ kp) with false; [reflexivity|]. symmetry. apply not_true_is_false. intros E.
  rewrite forallb_forall in E. apply Exists_exists in H. destruct H as (k & Hin & Hl). apply Hl.
  specialize (E _ Hin). apply Nat.eqb_eq in E. unfold as_array in E. rewrite map_length in E. exact E.
Qed.

(** ** Lower bounds for quadratic forms *)

(** A form whose diagonal outweighs the rest of every row (with weights [w]) is not negative. *)
Lemma dominant_form : forall n (a : nat -> nat -> R) (d w x : nat -> R) (g : nat -> bool),
  (forall i j, a i j = a j i) -> (forall i, g i = false -> x i = 0) ->
  (forall i, (i < n)%nat -> g i = true -> 0 < w i /\
     upto n (fun j => if g j && negb (Nat.eqb i j) then Rabs (a i j) * w j else 0) <= d i * w i) ->
  0 <= upto n (fun i => upto n (fun j => if Nat.eqb i j then 0 else a i j * x i * x j)) + upto n (fun i => d i * (x i)²).
Proof.
  intros n a d w x g Hs Hx Hd.
  set (b := fun i j => if g i && g j && negb (Nat.eqb i j) then Rabs (a i j) else 0).
  assert (Bs : forall i j, b i j = b j i).
  { intros i j. unfold b. rewrite (Hs i j), (Nat.eqb_sym i j), (andb_comm (g i)). reflexivity. }
  set (y := fun i => (x i)² / w i).
  assert (T : forall i j, (i < n)%nat -> (j < n)%nat ->
            - / 2 * (b i j * w j * y i) + - / 2 * (b i j * w i * y j) <= (if Nat.eqb i j then 0 else a i j * x i * x j)).
  { intros i j Li Lj. unfold b. destruct (Nat.eqb i j) eqn:Eij; cbn [negb]; rewrite ?andb_false_r, ?andb_true_r; [lra|].
    destruct (g i) eqn:Gi; destruct (g j) eqn:Gj; cbn [andb];
      try (rewrite ?(Hx i Gi), ?(Hx j Gj); lra).
    destruct (Hd i Li Gi) as [Wi _]. destruct (Hd j Lj Gj) as [Wj _].
    assert (Hb : Rabs (x i) * Rabs (x j) <= / 2 * (w j * y i + w i * y j)).
    { unfold y. rewrite (Rsqr_abs (x i)), (Rsqr_abs (x j)). set (u := Rabs (x i)). set (v := Rabs (x j)).
      assert (0 <= (w j * u - w i * v)² / (w i * w j)).
      { apply Rmult_le_pos; [apply Rle_0_sqr|]. apply Rlt_le, Rinv_0_lt_compat, Rmult_lt_0_compat; assumption. }
      replace ((w j * u - w i * v)² / (w i * w j)) with (w j * (u² / w i) + w i * (v² / w j) - 2 * (u * v)) in H
        by (unfold Rsqr; field; lra). lra. }
    assert (Ha : - (Rabs (a i j) * (Rabs (x i) * Rabs (x j))) <= a i j * x i * x j).
    { rewrite <- !Rabs_mult, <- Rmult_assoc. pose proof (Rle_abs (- (a i j * x i * x j))). rewrite Rabs_Ropp in H. lra. }
    pose proof (Rmult_le_compat_l _ _ _ (Rabs_pos (a i j)) Hb). lra. }
  assert (S1 : upto n (fun i => upto n (fun j => b i j * w j * y i)) <= upto n (fun i => d i * (x i)²)).
  { apply upto_le. intros i Li. rewrite upto_scal_r. unfold y. destruct (g i) eqn:Gi.
    - destruct (Hd i Li Gi) as [Wi Hi].
      replace (d i * (x i)²) with ((d i * w i) * ((x i)² / w i)) by (field; lra).
      apply Rmult_le_compat_r.
      { apply Rmult_le_pos; [apply Rle_0_sqr|]. apply Rlt_le, Rinv_0_lt_compat, Wi. }
      eapply Rle_trans; [|exact Hi]. right. apply upto_ext. intros j Lj. unfold b. rewrite Gi. cbn [andb].
      destruct (g j && negb (Nat.eqb i j)); lra.
    - rewrite (Hx i Gi). unfold Rsqr. lra. }
  assert (S2 : upto n (fun i => upto n (fun j => b i j * w i * y j)) <= upto n (fun i => d i * (x i)²)).
  { rewrite upto_swap. eapply Rle_trans; [|exact S1]. right. apply upto_ext. intros i Li. apply upto_ext. intros j Lj.
    rewrite (Bs j i). reflexivity. }
  assert (S3 : - / 2 * upto n (fun i => upto n (fun j => b i j * w j * y i)) + - / 2 * upto n (fun i => upto n (fun j => b i j * w i * y j))
          <= upto n (fun i => upto n (fun j => if Nat.eqb i j then 0 else a i j * x i * x j))).
  { rewrite <- !upto_scal, <- upto_plus. apply upto_le. intros i Li. rewrite <- !upto_scal, <- upto_plus. apply upto_le.
    intros j Lj. apply T; assumption. }
  lra.
Qed.

Fixpoint dotZ (a b : list Z) : Z := match a, b with x :: a', y :: b' => (x * y + dotZ a' b')%Z | _, _ => 0%Z end.

Lemma dotZ_step : forall a b, dotZ a b = (hd 0 a * hd 0 b + dotZ (tl a) (tl b))%Z.
Proof. intros [|x a] [|y b]; cbn; try lia. destruct a; cbn; lia. Qed.

(** Sums of squares. *)
Lemma gram_nonneg : forall q n (l : nat -> list Z) (x : nat -> R), (forall i, (length (l i) <= q)%nat) ->
  0 <= upto n (fun i => upto n (fun j => IZR (dotZ (l i) (l j)) * x i * x j)).
Proof.
  induction q; intros n l x H.
  - rewrite upto_0; [lra|]. intros i _. apply upto_0. intros j _. specialize (H i). destruct (l i); cbn in *; [lra|lia].
  - specialize (IHq n (fun i => tl (l i)) x). cbv beta in IHq.
    assert (H' : forall i, (length (tl (l i)) <= q)%nat) by (intros i; specialize (H i); destruct (l i); cbn in *; lia).
    specialize (IHq H').
    replace (upto n (fun i => upto n (fun j => IZR (dotZ (l i) (l j)) * x i * x j)))
      with ((upto n (fun i => IZR (hd 0%Z (l i)) * x i))² + upto n (fun i => upto n (fun j => IZR (dotZ (tl (l i)) (tl (l j))) * x i * x j))).
    { pose proof (Rle_0_sqr (upto n (fun i => IZR (hd 0%Z (l i)) * x i))). lra. }
    unfold Rsqr. rewrite <- upto_prod, <- upto_plus. apply upto_ext. intros i _. rewrite <- upto_plus. apply upto_ext. intros j _.
    rewrite (dotZ_step (l i)), plus_IZR, mult_IZR. lra.
Qed.

(** ** Checks on the stored numbers, in integers *)

Fixpoint uptoZ (n : nat) (f : nat -> Z) : Z := match n with O => 0%Z | S m => (uptoZ m f + f m)%Z end.
Lemma uptoZ_R : forall n f, IZR (uptoZ n f) = upto n (fun i => IZR (f i)).
Proof. induction n; intros; cbn; [reflexivity|]. rewrite plus_IZR, IHn. reflexivity. Qed.

Definition scaled (m : list (list (Z * Z))) : list (list Z) := map (map (fun p => (fst p * 2 ^ (160 - snd p))%Z)) m.
Definition at_ (t : list (list Z)) (i j : nat) : Z := nth j (nth i t []) 0%Z.
Definition unit_ : R := IZR (2 ^ 160).
Lemma unit_pos : 0 < unit_.
Proof. unfold unit_. apply IZR_lt. reflexivity. Qed.

Definition regularb (m : list (list (Z * Z))) : bool :=
  forallb (fun r => Nat.eqb (length r) (length m)) m && negb (Nat.eqb (length m) 0) &&
  forallb (forallb (fun p => (0 <=? snd p)%Z && (snd p <=? 160)%Z)) m.

Lemma regularb_regular : forall m, regularb m = true -> regular m.
Proof.
  intros m H. unfold regularb in H. apply andb_prop in H. destruct H as [H H3]. apply andb_prop in H. destruct H as [H1 H2].
  split; [|split].
  - apply Forall_forall. intros r Hr. rewrite forallb_forall in H1. apply Nat.eqb_eq. exact (H1 _ Hr).
  - intros ->. discriminate.
  - apply Forall_forall. intros r Hr. apply Forall_forall. intros p Hp. rewrite forallb_forall in H3. specialize (H3 _ Hr).
    rewrite forallb_forall in H3. specialize (H3 _ Hp). apply andb_prop in H3. destruct H3 as [H3 _]. apply Z.leb_le. exact H3.
Qed.

Lemma scaled_at : forall m i j, regularb m = true -> IZR (at_ (scaled m) i j) = stored m i j * unit_.
Proof.
  intros m i j H. assert (Hr := regularb_regular m H). unfold regularb in H. apply andb_prop in H. destruct H as [_ H3].
  unfold at_, scaled, stored. cbv zeta.
  destruct (lt_dec i (length m)) as [L|L].
  - rewrite (nth_map_d _ m i []) by exact L.
    destruct (lt_dec j (length (nth i m []))) as [L'|L'].
    + rewrite (nth_map_d _ (nth i m []) j (0, 0)%Z) by exact L'.
      rewrite forallb_forall in H3. specialize (H3 _ (nth_In m [] L)). rewrite forallb_forall in H3.
      specialize (H3 _ (nth_In _ (0, 0)%Z L')). apply andb_prop in H3. destruct H3 as [Ha Hb].
      apply Z.leb_le in Ha. apply Z.leb_le in Hb. destruct (nth j (nth i m []) (0, 0)%Z) as [v e]. cbn [fst snd] in *.
      unfold unit_. replace (2 ^ 160)%Z with (2 ^ e * 2 ^ (160 - e))%Z by (rewrite <- Z.pow_add_r by lia; f_equal; lia).
      rewrite !mult_IZR. field. apply IZR_neq. apply Z.pow_nonzero; lia.
    + rewrite !(nth_overflow (nth i m [])) by lia. rewrite nth_overflow by (rewrite map_length; lia). cbn. lra.
  - rewrite (nth_overflow m) by lia. rewrite (nth_overflow (map _ m)) by (rewrite map_length; lia). destruct j; cbn; lra.
Qed.

Definition two81 : Z := Eval compute in (2 ^ 81)%Z.
Lemma two81_pos : 0 < IZR two81.
Proof. apply IZR_lt. reflexivity. Qed.
Global Opaque two81.

(** [bounded t n g num den l w]: the form of [t] restricted to the parameters of [g], plus num/den times its diagonal, is a
    sum of squares (rows [l], scaled by 2^40) and a form with a dominant diagonal (weights [w]). *)
Definition bounded (t : list (list Z)) (n : nat) (g : nat -> bool) (num den : Z) (l : list (list Z)) (w : list Z) : bool :=
  let off := fun i j => (den * (at_ t i j + at_ t j i - two81 * dotZ (nth i l []) (nth j l [])))%Z in
  forallb (fun i => if g i then
    ((0 <? nth i w 0)%Z &&
     (uptoZ n (fun j => if g j && negb (Nat.eqb i j) then (Z.abs (off i j) * nth j w 0)%Z else 0%Z)
        <=? (off i i + 2 * num * at_ t i i) * nth i w 0)%Z)
    else true) (seq 0 n).

Lemma bounded_sound : forall m g num den l w (k : list R), regularb m = true -> (0 < den)%Z ->
  bounded (scaled m) (length m) g num den l w = true -> only (fun i => g i = true) k ->
  - (IZR num / IZR den) * alone m k <= spread m k.
Proof.
  intros m g num den l w k Hr Hden Hb Hk. pose proof unit_pos as Hu. apply IZR_lt in Hden. cbn [Z.lt] in Hden.
  set (n := length m) in *. set (x := fun i => nth i k 0).
  set (off := fun i j => IZR den * (IZR (at_ (scaled m) i j) + IZR (at_ (scaled m) j i) - IZR two81 * IZR (dotZ (nth i l []) (nth j l [])))).
  assert (D : 0 <= upto n (fun i => upto n (fun j => if Nat.eqb i j then 0 else off i j * x i * x j))
                   + upto n (fun i => (off i i + 2 * IZR num * IZR (at_ (scaled m) i i)) * (x i)²)).
  { apply dominant_form with (w := fun i => IZR (nth i w 0%Z)) (g := g).
    - intros i j. unfold off. replace (dotZ (nth j l []) (nth i l [])) with (dotZ (nth i l []) (nth j l [])); [lra|].
      generalize (nth i l []) (nth j l []). induction l0 as [|a l0 IH]; intros [|b l1]; cbn; auto. rewrite IH. lia.
    - intros i Hi. apply Hk. intros E. rewrite E in Hi. discriminate.
    - intros i Li Hi. unfold bounded in Hb. cbv zeta in Hb. rewrite forallb_forall in Hb.
      specialize (Hb i). rewrite in_seq in Hb. specialize (Hb (conj (Nat.le_0_l _) Li)). rewrite Hi in Hb.
      apply andb_prop in Hb. destruct Hb as [H1 H2]. apply Z.ltb_lt in H1. apply Z.leb_le in H2.
      split; [apply IZR_lt; exact H1|]. apply IZR_le in H2. rewrite uptoZ_R, mult_IZR, plus_IZR, !mult_IZR in H2.
      rewrite !minus_IZR, !plus_IZR, !mult_IZR in H2. unfold off.
      eapply Rle_trans; [|exact H2]. right. apply upto_ext. intros j Lj. destruct (g j && negb (Nat.eqb i j)); [|reflexivity].
      rewrite mult_IZR, abs_IZR, mult_IZR, minus_IZR, plus_IZR, mult_IZR. reflexivity. }
  assert (G := gram_nonneg (fold_right (fun r a => max (length r) a) O l) n (fun i => nth i l []) x).
  assert (Hlen : forall i, (length (nth i l []) <= fold_right (fun r a => max (length r) a) 0 l)%nat).
  { clear. induction l as [|r l IH]; intros [|i]; cbn; try lia. specialize (IH i). lia. }
  specialize (G Hlen). cbv beta in G.
  assert (E : upto n (fun i => upto n (fun j => if Nat.eqb i j then 0 else off i j * x i * x j)) + upto n (fun i => off i i * (x i)²)
              = upto n (fun i => upto n (fun j => off i j * x i * x j))).
  { rewrite <- upto_plus. apply upto_ext. intros i Li.
    assert (forall p f, upto p (fun j => if Nat.eqb i j then 0 else f j) + (if Nat.ltb i p then f i else 0) = upto p f).
    { clear. induction p; intros f; cbn [upto]; [cbn; lra|]. rewrite <- (IHp f). destruct (Nat.eqb i p) eqn:Ei.
      - apply Nat.eqb_eq in Ei. subst. rewrite Nat.ltb_irrefl. replace (p <? S p)%nat with true by (symmetry; apply Nat.ltb_lt; lia). lra.
      - apply Nat.eqb_neq in Ei. replace (i <? S p)%nat with (i <? p)%nat; [lra|].
        destruct (Nat.ltb_spec i p), (Nat.ltb_spec i (S p)); lia || reflexivity. }
    specialize (H n (fun j => off i j * x i * x j)). replace (i <? n)%nat with true in H by (symmetry; apply Nat.ltb_lt; exact Li).
    rewrite <- H. unfold Rsqr. lra. }
  assert (E2 : upto n (fun i => (off i i + 2 * IZR num * IZR (at_ (scaled m) i i)) * (x i)²)
             = upto n (fun i => off i i * (x i)²) + 2 * IZR num * unit_ * alone m k).
  { unfold alone. fold n. rewrite <- upto_scal, <- upto_plus. apply upto_ext. intros i Li. rewrite scaled_at by exact Hr. fold (x i). lra. }
  assert (E3 : upto n (fun i => upto n (fun j => off i j * x i * x j))
             = 2 * IZR den * unit_ * spread m k - IZR two81 * IZR den * upto n (fun i => upto n (fun j => IZR (dotZ (nth i l []) (nth j l [])) * x i * x j))).
  { unfold spread, cross. fold n.
    transitivity (IZR den * unit_ * upto n (fun i => upto n (fun j => nth i k 0 * stored m i j * nth j k 0))
                + IZR den * unit_ * upto n (fun j => upto n (fun i => nth i k 0 * stored m i j * nth j k 0))
                - IZR two81 * IZR den * upto n (fun i => upto n (fun j => IZR (dotZ (nth i l []) (nth j l [])) * x i * x j))).
    - unfold Rminus. rewrite Ropp_mult_distr_l. rewrite <- !upto_scal, <- !upto_plus. apply upto_ext. intros i Li.
      rewrite <- !upto_scal, <- !upto_plus. apply upto_ext. intros j Lj. unfold off. rewrite !scaled_at by exact Hr. unfold x. lra.
    - rewrite (upto_swap n n (fun j i => nth i k 0 * stored m i j * nth j k 0)). lra. }
  assert (Fi : 0 <= IZR den * spread m k + IZR num * alone m k).
  { apply Rmult_le_reg_l with (2 * unit_); [lra|]. rewrite Rmult_0_r.
    assert (0 <= IZR two81 * IZR den * upto n (fun i => upto n (fun j => IZR (dotZ (nth i l []) (nth j l [])) * x i * x j))).
    { apply Rmult_le_pos; [|exact G]. pose proof two81_pos. apply Rlt_le, Rmult_lt_0_compat; lra. }
    lra. }
  apply Rmult_le_reg_l with (IZR den); [exact Hden|].
  replace (IZR den * (- (IZR num / IZR den) * alone m k)) with (- IZR num * alone m k) by (field; lra). lra.
Qed.
