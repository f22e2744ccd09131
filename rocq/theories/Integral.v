(** Lemmas on the exponential integration (claims C15-C19). *)

From Coq Require Import ZArith Reals Lra Lia List Bool.
From Coquelicot Require Import Coquelicot.
Import ListNotations.
From Verif Require Import Arith PyBase Utils RTE Spec RealAux.
Open Scope R_scope.

(** ** Monotonicity from the derivative *)
Lemma incr_by_derive (f f' : R -> R) a b : a <= b ->
  (forall c, a <= c <= b -> is_derive f c (f' c)) -> (forall c, a <= c <= b -> 0 <= f' c) -> f a <= f b.
Proof.
  intros [Hab|<-] Hd Hp; [|lra].
  destruct (MVT_cor2 f f' a b Hab) as (c & Hc & Hr).
  - intros c Hc. apply is_derive_Reals, Hd; auto.
  - assert (0 <= f' c) by (apply Hp; lra). nra.
Qed.
Lemma incr_by_derive_strict (f f' : R -> R) a b : a < b ->
  (forall c, a <= c <= b -> is_derive f c (f' c)) -> (forall c, a < c < b -> 0 < f' c) -> f a < f b.
Proof.
  intros Hab Hd Hp. destruct (MVT_cor2 f f' a b Hab) as (c & Hc & Hr).
  - intros c Hc. apply is_derive_Reals, Hd; auto.
  - assert (0 < f' c) by (apply Hp; lra). nra.
Qed.

(** [ln t >= 2 (t-1)/(t+1)] for [t >= 1]. *)
Lemma ln_ge_two t : 1 <= t -> 2 * (t - 1) / (t + 1) <= ln t.
Proof.
  intros Ht.
  assert (H : ln 1 - 2 * (1 - 1) / (1 + 1) <= ln t - 2 * (t - 1) / (t + 1)).
  { apply (incr_by_derive (fun t => ln t - 2 * (t - 1) / (t + 1))
             (fun t => (t - 1) * (t - 1) / (t * ((t + 1) * (t + 1)))) 1 t); auto.
    - intros c Hc. auto_derive; [repeat split; lra|]. field. lra.
    - intros c Hc. apply Rmult_le_pos; [nra|]. left. apply Rinv_0_lt_compat.
      apply Rmult_lt_0_compat; [lra|]. apply Rmult_lt_0_compat; lra. }
  rewrite ln_1 in H. unfold Rdiv at 1 in H. lra.
Qed.

(** ** The logarithmic mean *)
Definition logmean (a b : R) : R := (b - a) / ln (b / a).

Lemma logmean_sym a b : 0 < a -> 0 < b -> a <> b -> logmean a b = logmean b a.
Proof.
  intros Ha Hb Hab. unfold logmean. replace (b / a) with (/ (a / b)) by (field; lra).
  assert (Hp : 0 < a / b) by (apply Rdiv_lt_0_compat; auto).
  rewrite ln_Rinv by auto.
  assert (ln (a / b) <> 0).
  { rewrite <- ln_1. intros E. apply ln_inv in E; [|auto|lra]. apply Hab.
    apply Rmult_eq_reg_r with (/ b); [|apply Rinv_neq_0_compat; lra]. rewrite Rinv_r by lra. exact E. }
  field. auto.
Qed.

Lemma logmean_lt a b : 0 < a < b -> a <= logmean a b <= b /\ logmean a b <= (a + b) / 2.
Proof.
  intros H. set (t := b / a). assert (Hb : b = t * a) by (unfold t; field; lra).
  assert (Ht : 1 < t).
  { unfold t. apply Rmult_lt_reg_r with a; [lra|]. unfold Rdiv. rewrite Rmult_assoc, Rinv_l; lra. }
  assert (Hl := ln_gt0 t Ht). unfold logmean. fold t. rewrite Hb.
  assert (L1 := ln_le_sub1 t ltac:(lra)). assert (L2 := ln_ge_1_sub_inv t ltac:(lra)).
  assert (L3 := ln_ge_two t ltac:(lra)).
  assert (HD : forall x, 0 < x -> (forall y, x <= y * ln t -> x / ln t <= y) /\ (forall y, y * ln t <= x -> y <= x / ln t)).
  { intros x Hx. split; intros y Hy; (apply Rmult_le_reg_r with (ln t); [auto|]); unfold Rdiv;
      rewrite Rmult_assoc, Rinv_l by lra; lra. }
  assert (Hx : 0 < t * a - a) by nra.
  destruct (HD _ Hx) as [HD1 HD2]. split; [split|].
  - apply HD2. nra.
  - apply HD1. replace (t * a - a) with (t * a * (1 - / t)) by (field; lra).
    apply Rmult_le_compat_l; nra.
  - apply HD1. replace (t * a - a) with ((a + t * a) / 2 * (2 * (t - 1) / (t + 1))) by (field; lra).
    apply Rmult_le_compat_l; nra.
Qed.

Lemma logmean_bounds a b : 0 < a -> 0 < b -> a <> b ->
  Rmin a b <= logmean a b <= Rmax a b /\ logmean a b <= (a + b) / 2.
Proof.
  intros Ha Hb Hab. destruct (Rlt_dec a b).
  - rewrite Rmin_left, Rmax_right by lra. apply logmean_lt; lra.
  - rewrite Rmin_right, Rmax_left by lra. rewrite logmean_sym by auto.
    destruct (logmean_lt b a); lra.
Qed.

(** ** One layer *)
Definition layR (zf : bool) (a b : R) : R :=
  if Rlt_dec (Rabs (b - a)) 1e-9 then b
  else if Req_EM_T a 0 then (if zf then (a + b) / 2 else 0)
  else if Req_EM_T b 0 then (if zf then (a + b) / 2 else 0)
  else logmean a b.

Lemma lit_1e9 : IZR 1 / IZR 1000000000 = 1e-9. Proof. lra. Qed.

Lemma exp_layer_X zf a b : 0 <= a -> 0 <= b ->
  exp_layer (A:=XA) zf (Fin a) (Fin b) = Fin (layR zf a b).
Proof.
  intros Ha Hb. unfold exp_layer. xa. unfold xltb, xeqb.
  replace (b + - a) with (b - a) by lra. unfold Rltb. rewrite lit_1e9.
  unfold layR. destruct (Rlt_dec (Rabs (b - a)) 1e-9) as [H|H]; [reflexivity|].
  unfold Reqb. replace (0 / 10) with 0 by lra.
  destruct (Req_EM_T a 0) as [Ea|Ea]; [cbn [orb]; destruct zf; cbn [negb]; f_equal; lra|].
  cbn [orb]. destruct (Req_EM_T b 0) as [Eb|Eb]; [destruct zf; cbn [negb]; f_equal; lra|].
  assert (Hab : a <> b).
  { intros ->. apply H. rewrite Rminus_diag_eq, Rabs_R0 by reflexivity. lra. }
  rewrite xdiv_fin by lra. rewrite xln_fin by (apply Rdiv_lt_0_compat; lra).
  apply xdiv_fin. rewrite <- ln_1. intros E. apply ln_inv in E; [|apply Rdiv_lt_0_compat; lra|lra].
  apply Hab. apply Rmult_eq_reg_r with (/ a); [|apply Rinv_neq_0_compat; lra].
  rewrite Rinv_r by lra. symmetry. exact E.
Qed.

Lemma layR_bounds zf a b : 0 <= a -> 0 <= b ->
  Rmin a b <= layR zf a b <= Rmax a b.
Proof.
  intros Ha Hb. assert (M1 := Rmin_l a b). assert (M2 := Rmin_r a b). assert (M3 := Rmax_l a b). assert (M4 := Rmax_r a b).
  unfold layR. destruct (Rlt_dec (Rabs (b - a)) 1e-9); [lra|].
  destruct (Req_EM_T a 0) as [Ea|Ea]; [destruct zf; lra|].
  destruct (Req_EM_T b 0) as [Eb|Eb]; [destruct zf; lra|].
  apply logmean_bounds; try lra. intros ->. apply n. rewrite Rminus_diag_eq, Rabs_R0 by reflexivity. lra.
Qed.
Lemma layR_nonneg zf a b : 0 <= a -> 0 <= b -> 0 <= layR zf a b.
Proof.
  intros Ha Hb. destruct (layR_bounds zf a b Ha Hb) as [H _].
  assert (0 <= Rmin a b) by (apply Rmin_glb; auto). lra.
Qed.
Lemma layR_trapezoid zf a b : 0 <= a -> 0 <= b -> layR zf a b <= (a + b) / 2 + 0.5e-9.
Proof.
  intros Ha Hb. unfold layR. destruct (Rlt_dec (Rabs (b - a)) 1e-9) as [H|H].
  { apply Rabs_def2 in H. lra. }
  destruct (Req_EM_T a 0) as [Ea|Ea]; [destruct zf; lra|].
  destruct (Req_EM_T b 0) as [Eb|Eb]; [destruct zf; lra|].
  destruct (logmean_bounds a b); try lra. intros ->. apply H. rewrite Rminus_diag_eq, Rabs_R0 by reflexivity. lra.
Qed.
Lemma layR_trapezoid_far zf a b : 0 <= a -> 0 <= b -> 1e-9 <= Rabs (b - a) -> layR zf a b <= (a + b) / 2.
Proof.
  intros Ha Hb Hf. unfold layR. destruct (Rlt_dec (Rabs (b - a)) 1e-9) as [H|H]; [lra|].
  destruct (Req_EM_T a 0) as [Ea|Ea]; [destruct zf; lra|].
  destruct (Req_EM_T b 0) as [Eb|Eb]; [destruct zf; lra|].
  destruct (logmean_bounds a b); try lra. intros ->. apply H. rewrite Rminus_diag_eq, Rabs_R0 by reflexivity. lra.
Qed.

(** ** Lists and indices *)
Lemma py_get_nat {T} (l : list T) (k : nat) (d : T) : (k < length l)%nat ->
  py_get l (Z.of_nat k) = Ok (nth k l d).
Proof.
  intros H. unfold py_get, py_pos.
  destruct (Z.leb_spec 0 (Z.of_nat k)); [|lia]. destruct (Z.ltb_spec (Z.of_nat k) (Z.of_nat (length l))); [|lia].
  cbn [andb]. rewrite Nat2Z.id. rewrite (nth_error_nth' l d H). reflexivity.
Qed.
Lemma py_get_m1 {T} (l : list T) (d : T) : l <> [] ->
  py_get l (-1) = Ok (nth (length l - 1) l d).
Proof.
  intros H. assert (Hn : (0 < length l)%nat) by (destruct l; [congruence|simpl; lia]).
  unfold py_get, py_pos. destruct (Z.leb_spec 0 (-1)); [lia|]. cbn [andb].
  destruct (Z.leb_spec (- Z.of_nat (length l)) (-1)); [|lia]. cbn [andb Z.ltb Z.compare].
  replace (Z.to_nat (Z.of_nat (length l) + -1)) with (length l - 1)%nat by lia.
  rewrite (nth_error_nth' l d) by lia. reflexivity.
Qed.
Lemma py_set_nat {T} (l : list T) (k : nat) (v : T) : (k < length l)%nat ->
  py_set l (Z.of_nat k) v = Ok (upd l k v).
Proof.
  intros H. unfold py_set, py_pos.
  destruct (Z.leb_spec 0 (Z.of_nat k)); [|lia]. destruct (Z.ltb_spec (Z.of_nat k) (Z.of_nat (length l))); [|lia].
  cbn [andb]. rewrite Nat2Z.id. reflexivity.
Qed.
Lemma upd_length {T} (l : list T) k v : length (upd l k v) = length l.
Proof. revert k. induction l; intros [|k]; simpl; auto. Qed.
Lemma upd_nth_eq {T} (l : list T) k v d : (k < length l)%nat -> nth k (upd l k v) d = v.
Proof. revert k. induction l; intros [|k] H; simpl in *; try lia; auto. apply IHl. lia. Qed.
Lemma upd_nth_ne {T} (l : list T) k i v d : i <> k -> nth i (upd l k v) d = nth i l d.
Proof. revert k i. induction l; intros [|k] [|i] H; simpl in *; auto; try congruence. Qed.
Lemma upd_map {T U} (f : T -> U) l k v : map f (upd l k v) = upd (map f l) k (f v).
Proof. revert k. induction l; intros [|k]; simpl; auto. f_equal; auto. Qed.
Lemma zrange_nat b e : zrange (Z.of_nat b) (Z.of_nat e) = map Z.of_nat (seq b (e - b)).
Proof.
  unfold zrange. replace (Z.to_nat (Z.of_nat e - Z.of_nat b)) with (e - b)%nat by lia.
  generalize (e - b)%nat as m. clear. intros m. revert b. induction m; intros b; [reflexivity|].
  cbn [seq map]. f_equal; [lia|]. rewrite <- IHm. rewrite <- seq_shift, map_map.
  apply map_ext. intros. lia.
Qed.
Lemma nth_map_fin (l : list R) k : (k < length l)%nat -> nth k (map Fin l) NaN = Fin (nth k l 0).
Proof. intros H. rewrite nth_indep with (d' := Fin 0) by (rewrite map_length; auto). apply map_nth. Qed.

(** Sample at the lower end of layer [i]; layer 0 pairs the last and the first sample. *)
Definition prevx (x : list R) (i : nat) : R := nth (if i =? 0 then length x - 1 else i - 1)%nat x 0.
Definition layV (zf : bool) (x ds : list R) (i : nat) : R := layR zf (prevx x i) (nth i x 0) * nth i ds 0.
Definition layer_ok (x : list R) (i : nat) : Prop := 0 <= prevx x i /\ 0 <= nth i x 0.

Lemma py_get_prev (x : list R) i : (i < length x)%nat ->
  py_get (map Fin x) (Z.of_nat i - 1) = Ok (Fin (prevx x i)).
Proof.
  intros H. unfold prevx. destruct i as [|i].
  - change (Z.of_nat 0 - 1)%Z with (-1)%Z. rewrite (py_get_m1 _ NaN).
    + cbn [Nat.eqb]. rewrite map_length, nth_map_fin by lia. reflexivity.
    + destruct x; [simpl in H; lia|discriminate].
  - replace (Z.of_nat (S i) - 1)%Z with (Z.of_nat i) by lia.
    rewrite (py_get_nat _ i NaN) by (rewrite map_length; lia). cbn [Nat.eqb].
    rewrite Nat.sub_succ, Nat.sub_0_r. rewrite nth_map_fin by lia. reflexivity.
Qed.

Lemma exp_step zf (x ds xds : list R) i rest s : (i < length x)%nat -> (i < length ds)%nat ->
  length xds = length ds -> layer_ok x i ->
  exp_loop (A:=XA) zf (map Fin x) (map Fin ds) (Z.of_nat i :: rest) (Fin s) (map Fin xds)
  = exp_loop (A:=XA) zf (map Fin x) (map Fin ds) rest (Fin (s + layV zf x ds i)) (map Fin (upd xds i (layV zf x ds i))).
Proof.
  intros Hx Hd Hl [H1 H2]. cbn [exp_loop bind]. rewrite py_get_prev by auto. cbn [bind].
  rewrite (py_get_nat _ i NaN) by (rewrite map_length; auto). cbn [bind]. rewrite nth_map_fin by auto.
  xa. unfold xltb. replace (0 / 10) with 0 by lra. rewrite !Rltb_false by auto. cbn [orb].
  rewrite (py_get_nat _ i NaN) by (rewrite map_length; auto). cbn [bind]. rewrite nth_map_fin by auto.
  rewrite exp_layer_X by auto. rewrite py_set_nat by (rewrite map_length; lia). cbn [bind].
  xa. fold (layV zf x ds i). rewrite upd_map. reflexivity.
Qed.

Lemma exp_stop zf (x ds xds : list R) i rest s : (i < length x)%nat ->
  (prevx x i < 0 \/ nth i x 0 < 0) ->
  exp_loop (A:=XA) zf (map Fin x) (map Fin ds) (Z.of_nat i :: rest) (Fin s) (map Fin xds)
  = Ok (false, Fin s, map Fin xds).
Proof.
  intros Hx Hn. cbn [exp_loop bind]. rewrite py_get_prev by auto. cbn [bind].
  rewrite (py_get_nat _ i NaN) by (rewrite map_length; auto). cbn [bind]. rewrite nth_map_fin by auto.
  xa. unfold xltb. replace (0 / 10) with 0 by lra.
  replace (Rltb (prevx x i) 0 || Rltb (nth i x 0) 0) with true; [reflexivity|].
  destruct Hn as [H|H]; rewrite (Rltb_true _ _ H); auto using orb_true_r.
Qed.

(** The layers [b .. b+m-1] are processed; what follows sees their sum and values. *)
Lemma exp_run zf (x ds : list R) rest m : forall b s xds,
  (b + m <= length x)%nat -> (b + m <= length ds)%nat -> length xds = length ds ->
  (forall i, (b <= i < b + m)%nat -> layer_ok x i) ->
  exists out, length out = length ds /\
    (forall i, nth i out 0 = if ((b <=? i) && (i <? b + m))%nat then layV zf x ds i else nth i xds 0) /\
    exp_loop (A:=XA) zf (map Fin x) (map Fin ds) (map Z.of_nat (seq b m) ++ rest) (Fin s) (map Fin xds)
    = exp_loop (A:=XA) zf (map Fin x) (map Fin ds) rest
        (Fin (s + rsum m (fun j => layV zf x ds (b + j)))) (map Fin out).
Proof.
  induction m; intros b s xds Hx Hd Hl Hok.
  - exists xds. split; auto. split.
    + intros i. destruct (Nat.leb_spec b i); auto. destruct (Nat.ltb_spec i (b + 0)); auto. lia.
    + cbn [seq map app rsum]. rewrite Rplus_0_r. reflexivity.
  - cbn [seq map app]. rewrite exp_step by (auto; try lia; apply Hok; lia).
    destruct (IHm (S b) (s + layV zf x ds b) (upd xds b (layV zf x ds b))) as (out & Ho & Hn & He);
      [lia|lia|rewrite upd_length; auto|intros; apply Hok; lia|].
    exists out. split; auto. split.
    + intros i. rewrite Hn. destruct (Nat.leb_spec (S b) i), (Nat.leb_spec b i); try lia; cbn [andb].
      * replace (S b + m)%nat with (b + S m)%nat by lia. destruct (Nat.ltb_spec i (b + S m)); auto.
        rewrite upd_nth_ne by lia. reflexivity.
      * assert (i = b) by lia. subst i. rewrite upd_nth_eq by lia. destruct (Nat.ltb_spec b (b + S m)); auto; lia.
      * apply upd_nth_ne. lia.
    + rewrite He. f_equal. f_equal.
      assert (E : rsum (S m) (fun j => layV zf x ds (b + j)) =
                  layV zf x ds b + rsum m (fun j => layV zf x ds (S b + j))).
      { change (S m) with (1 + m)%nat. rewrite rsum_split. cbn [rsum]. rewrite Nat.add_0_r.
        rewrite Rplus_0_l. f_equal. apply rsum_ext. intros. f_equal. lia. }
      rewrite E. lra.
Qed.

Lemma map_zero_X (ds : list R) : map (fun _ : car XA => lit (a:=XA) 0) (map Fin ds) = map Fin (map (fun _ => 0) ds).
Proof. rewrite !map_map. apply map_ext. intros _. xa. f_equal. lra. Qed.
Lemma nth_zeros (ds : list R) i : nth i (map (fun _ => 0) ds) 0 = 0.
Proof. revert i. induction ds; intros [|i]; simpl; auto. Qed.

(** Complete integration. *)
Lemma exp_complete zf (x ds : list R) b factor :
  (length ds <= length x)%nat -> (b <= length ds)%nat ->
  (forall i, (b <= i < length ds)%nat -> layer_ok x i) ->
  exists out, length out = length ds /\
    (forall i, nth i out 0 = if ((b <=? i) && (i <? length ds))%nat then layV zf x ds i else 0) /\
    exponential_integration (A:=XA) zf (map Fin x) (map Fin ds) (Z.of_nat b) (Z.of_nat (length ds)) (Fin factor)
    = Ok (Fin (factor * rsum (length ds - b) (fun j => layV zf x ds (b + j))), map Fin out).
Proof.
  intros Hx Hb Hok. unfold exponential_integration. rewrite map_zero_X, zrange_nat.
  destruct (exp_run zf x ds [] (length ds - b) b 0 (map (fun _ => 0) ds)) as (out & Ho & Hn & He);
    [lia|lia|rewrite map_length; auto|intros; apply Hok; lia|].
  exists out. split; auto. split.
  - intros i. rewrite Hn, nth_zeros. replace (b + (length ds - b))%nat with (length ds) by lia. reflexivity.
  - replace (lit (a:=XA) 0.0) with (Fin 0) by (xa; f_equal; lra).
    rewrite app_nil_r in He. rewrite He. cbn [exp_loop bind]. rewrite map_length, Ho, Z.eqb_refl.
    xa. rewrite Rplus_0_l, Rmult_comm. reflexivity.
Qed.

(** Aborted integration: the first offending layer is [k]. *)
Lemma exp_abort zf (x ds : list R) b k e factor :
  (e <= length x)%nat -> (e <= length ds)%nat -> (b <= k < e)%nat ->
  (forall i, (b <= i < k)%nat -> layer_ok x i) -> (prevx x k < 0 \/ nth k x 0 < 0) ->
  exists out, length out = length ds /\
    (forall i, nth i out 0 = if ((b <=? i) && (i <? k))%nat then layV zf x ds i else 0) /\
    exponential_integration (A:=XA) zf (map Fin x) (map Fin ds) (Z.of_nat b) (Z.of_nat e) (Fin factor)
    = Ok (Fin (rsum (k - b) (fun j => layV zf x ds (b + j))), map Fin out).
Proof.
  intros Hx Hd Hk Hok Hneg. unfold exponential_integration. rewrite map_zero_X, zrange_nat.
  replace (e - b)%nat with ((k - b) + S (e - k - 1))%nat by lia. rewrite seq_app, map_app.
  replace (b + (k - b))%nat with k by lia. cbn [seq map].
  destruct (exp_run zf x ds (Z.of_nat k :: map Z.of_nat (seq (S k) (e - k - 1))) (k - b) b 0 (map (fun _ => 0) ds))
    as (out & Ho & Hn & He);
    [lia|lia|rewrite map_length; auto|intros; apply Hok; lia|].
  exists out. split; auto. split.
  - intros i. rewrite Hn, nth_zeros. replace (b + (k - b))%nat with k by lia. reflexivity.
  - replace (lit (a:=XA) 0.0) with (Fin 0) by (xa; f_equal; lra).
    rewrite He, exp_stop by (auto; lia). cbn [bind]. rewrite Rplus_0_l. reflexivity.
Qed.
