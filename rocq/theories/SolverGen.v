(** Generic facts about the solver model: which runs succeed, and what each output row depends on.
    Everything here holds for every [Arith], hence also for binary64. *)

From Coq Require Import ZArith String List Bool Lia.
Import ListNotations.
From Verif Require Import Arith PyBase Utils RTE Absorption Clear Spectrum ListAux.
Local Open Scope nat_scope.

(** ** The exception monad *)

Lemma bind_Ok {T U} (m : result T) (k : T -> result U) y :
  bind m k = Ok y -> exists x, m = Ok x /\ k x = Ok y.
Proof. destruct m; simpl; intros H; [eauto|discriminate]. Qed.

Lemma bind_Err {T U} (m : result T) (k : T -> result U) e : m = Err e -> bind m k = Err e.
Proof. intros ->. reflexivity. Qed.

Lemma mapM_ok_iff {T U} (f : T -> result U) l :
  (exists r, mapM f l = Ok r) <-> (forall x, In x l -> exists y, f x = Ok y).
Proof.
  induction l as [|a l IH]; simpl.
  - split; [intros _ x []|eauto].
  - split.
    + intros [r H]. apply bind_Ok in H. destruct H as (y & Hy & H). apply bind_Ok in H.
      destruct H as (ys & Hys & H). intros x [<-|Hx]; [eauto|]. apply IH; eauto.
    + intros H. destruct (H a (or_introl eq_refl)) as [y Hy].
      destruct (proj2 IH) as [ys Hys]; [intros; apply H; auto|].
      rewrite Hy. simpl. rewrite Hys. simpl. eauto.
Qed.

Lemma mapM_cons_inv {T U} (f : T -> result U) a l r :
  mapM f (a :: l) = Ok r -> exists y ys, r = y :: ys /\ f a = Ok y /\ mapM f l = Ok ys.
Proof.
  simpl. intros H. apply bind_Ok in H. destruct H as (y & Hy & H). apply bind_Ok in H.
  destruct H as (ys & Hys & H). inversion H; subst. eauto 6.
Qed.

Lemma mapM_length {T U} (f : T -> result U) l : forall r, mapM f l = Ok r -> length r = length l.
Proof.
  induction l as [|a l IH]; intros r H.
  - inversion H. reflexivity.
  - apply mapM_cons_inv in H. destruct H as (y & ys & -> & _ & H). simpl. f_equal. auto.
Qed.

Lemma mapM_nth {T U} (f : T -> result U) l : forall r i d d',
  mapM f l = Ok r -> i < length l -> f (nth i l d) = Ok (nth i r d').
Proof.
  induction l as [|a l IH]; intros r i d d' H Hi; [simpl in Hi; lia|].
  apply mapM_cons_inv in H. destruct H as (y & ys & -> & Hy & H).
  destruct i; [exact Hy|]. simpl. apply IH; auto. simpl in Hi. lia.
Qed.

Lemma mapM_ext_in {T U} (f g : T -> result U) l :
  (forall x, In x l -> f x = g x) -> mapM f l = mapM g l.
Proof.
  induction l as [|a l IH]; intros H; [reflexivity|]. simpl. rewrite H by (left; auto).
  destruct (g a); simpl; [|reflexivity]. rewrite IH; auto. intros; apply H; right; auto.
Qed.

Lemma mapM_Forall2 {T U} (f : T -> result U) l : forall r,
  mapM f l = Ok r <-> Forall2 (fun x y => f x = Ok y) l r.
Proof.
  induction l as [|a l IH]; intros r; split; intros H.
  - inversion H. constructor.
  - inversion H. reflexivity.
  - apply mapM_cons_inv in H. destruct H as (y & ys & -> & Hy & H). constructor; auto. apply IH; auto.
  - inversion H as [|? y ? ys Hy Hys]; subst. simpl. rewrite Hy. simpl.
    apply IH in Hys. rewrite Hys. reflexivity.
Qed.

(** First failure of [mapM]. *)
Lemma mapM_err {T U} (f : T -> result U) l e x :
  In x l -> f x = Err e -> (forall y, In y l -> (exists z, f y = Ok z) \/ f y = Err e) -> mapM f l = Err e.
Proof.
  induction l as [|a l IH]; [intros []|]. intros Hin Hx Hall. simpl.
  destruct (Hall a (or_introl eq_refl)) as [[z Hz]|Ha].
  - rewrite Hz. simpl. destruct Hin as [->|Hin]; [congruence|].
    rewrite IH; auto. intros; apply Hall; right; auto.
  - rewrite Ha. reflexivity.
Qed.

(** ** Indexing *)
Lemma py_get_ok {T} (l : list T) (k : nat) (d : T) : k < length l -> py_get l (Z.of_nat k) = Ok (nth k l d).
Proof.
  intros H. unfold py_get, py_pos.
  replace ((0 <=? Z.of_nat k)%Z && (Z.of_nat k <? Z.of_nat (length l))%Z) with true.
  2:{ symmetry. apply andb_true_intro. split; [apply Z.leb_le; lia|apply Z.ltb_lt; lia]. }
  rewrite Nat2Z.id. rewrite (nth_error_nth' l d H). reflexivity.
Qed.

Lemma py_get_inrange {T} (l : list T) (i : Z) :
  (- Z.of_nat (length l) <= i < Z.of_nat (length l))%Z -> exists x, py_get l i = Ok x.
Proof.
  intros H. unfold py_get, py_pos.
  assert (HE : forall k, k < length l -> exists x, match nth_error l k with Some x => Ok x | None => Err IndexError end = Ok x).
  { intros k Hk. destruct (nth_error l k) eqn:E; [eauto|]. apply nth_error_None in E. lia. }
  destruct ((0 <=? i)%Z && (i <? Z.of_nat (length l))%Z) eqn:E1.
  - apply HE. apply andb_prop in E1. destruct E1 as [E1 E2]. apply Z.leb_le in E1. apply Z.ltb_lt in E2. lia.
  - destruct ((- Z.of_nat (length l) <=? i)%Z && (i <? 0)%Z) eqn:E2.
    + apply HE. apply andb_prop in E2. destruct E2 as [E2 E3]. apply Z.leb_le in E2. apply Z.ltb_lt in E3. lia.
    + exfalso. apply andb_false_iff in E1. apply andb_false_iff in E2.
      destruct E1 as [E1|E1]; destruct E2 as [E2|E2];
        rewrite ?Z.leb_gt, ?Z.ltb_ge in *; lia.
Qed.

Lemma py_set_ok {T} (l : list T) (k : nat) (v : T) : k < length l -> py_set l (Z.of_nat k) v = Ok (upd l k v).
Proof.
  intros H. unfold py_set, py_pos.
  replace ((0 <=? Z.of_nat k)%Z && (Z.of_nat k <? Z.of_nat (length l))%Z) with true.
  2:{ symmetry. apply andb_true_intro. split; [apply Z.leb_le; lia|apply Z.ltb_lt; lia]. }
  rewrite Nat2Z.id. reflexivity.
Qed.

Lemma length_upd {T} (l : list T) : forall k v, length (upd l k v) = length l.
Proof. induction l; intros [|k] v; simpl; auto. Qed.

Lemma zrange_of_nat b e : zrange (Z.of_nat b) (Z.of_nat e) = map Z.of_nat (seq b (e - b)).
Proof.
  unfold zrange. replace (Z.to_nat (Z.of_nat e - Z.of_nat b)) with (e - b) by lia.
  apply list_eq_nth with (d := 0%Z).
  - rewrite !map_length, !seq_length. reflexivity.
  - intros i Hi. rewrite map_length, seq_length in Hi.
    rewrite (nth_map_d _ _ _ 0) by (rewrite seq_length; auto).
    rewrite (nth_map_d _ _ _ 0) by (rewrite seq_length; auto).
    rewrite !seq_nth by auto. lia.
Qed.

Lemma nth_concat {T} (L : list (list T)) n : (forall l, In l L -> length l = n) ->
  forall k j d, k < length L -> j < n -> nth (k * n + j) (concat L) d = nth j (nth k L []) d.
Proof.
  induction L as [|l L IH]; intros H k j d Hk Hj; [simpl in Hk; lia|].
  simpl. assert (Hl : length l = n) by (apply H; left; auto). destruct k.
  - simpl. rewrite app_nth1 by lia. reflexivity.
  - simpl. rewrite app_nth2 by lia. replace (n + k * n + j - length l) with (k * n + j) by lia.
    apply IH; auto. intros; apply H; right; auto. simpl in Hk. lia.
Qed.

Lemma length_concat {T} (L : list (list T)) n : (forall l, In l L -> length l = n) -> length (concat L) = length L * n.
Proof.
  induction L as [|l L IH]; intros H; [reflexivity|]. simpl. rewrite app_length, IH.
  - rewrite (H l) by (left; auto). reflexivity.
  - intros; apply H; right; auto.
Qed.

Section Gen.
Context {A : Arith}.
Notation num := (car A).

(** ** Heap *)
Lemma hget_alloc_old (h : heap A) v a : a < length h -> hget (fst (halloc h v)) a = hget h a.
Proof. intros H. unfold hget, halloc. simpl. apply app_nth1; auto. Qed.
Lemma hget_app_old (h : heap A) v a : a < length h -> hget (h ++ [v]) a = hget h a.
Proof. intros H. unfold hget. apply app_nth1; auto. Qed.
Lemma hget_alloc_new (h : heap A) v : hget (fst (halloc h v)) (snd (halloc h v)) = v.
Proof. unfold hget, halloc. simpl. rewrite app_nth2, Nat.sub_diag by lia. reflexivity. Qed.
Lemma hget_valid (h : heap A) a : hget h a <> [] -> a < length h.
Proof. intros H. destruct (Nat.lt_ge_cases a (length h)); auto. exfalso. apply H. apply nth_overflow; auto. Qed.
Lemma nth_upd_eq {T} (l : list T) : forall k v d, k < length l -> nth k (upd l k v) d = v.
Proof. induction l; intros [|k] v d H; simpl in *; try lia; auto. apply IHl. lia. Qed.
Lemma nth_upd_ne {T} (l : list T) : forall k i v d, i <> k -> nth i (upd l k v) d = nth i l d.
Proof. induction l; intros [|k] [|i] v d H; simpl; auto; try lia. Qed.
Lemma hget_set_eq (h : heap A) a v : a < length h -> hget (hset h a v) a = v.
Proof. intros. apply nth_upd_eq; auto. Qed.
Lemma hget_set_ne (h : heap A) a b v : b <> a -> hget (hset h a v) b = hget h b.
Proof. intros. apply nth_upd_ne; auto. Qed.

(** ** Integration never fails on arrays of the right length *)
Lemma exp_loop_ok zf (x ds : list num) is : forall s xds,
  (forall i, In i is -> exists k, i = Z.of_nat k /\ k < length x /\ k < length ds) ->
  length xds = length ds ->
  exists c s' out, exp_loop zf x ds is s xds = Ok (c, s', out) /\ length out = length ds.
Proof.
  induction is as [|i is IH]; intros s xds H Hl; [simpl; eauto 6|].
  destruct (H i (or_introl eq_refl)) as (k & -> & Hx & Hd). simpl.
  destruct (py_get_inrange x (Z.of_nat k - 1)) as [xp Exp]; [lia|]. rewrite Exp. simpl.
  destruct (py_get_inrange x (Z.of_nat k)) as [xi Exi]; [lia|]. rewrite Exi. simpl.
  destruct (orb _ _); [eauto 6|].
  destruct (py_get_inrange ds (Z.of_nat k)) as [d Ed]; [lia|]. rewrite Ed. simpl.
  rewrite py_set_ok by lia. simpl. apply IH; [intros; apply H; right; auto|]. rewrite length_upd; auto.
Qed.

Lemma exp_int_ok zf (x ds : list num) b factor : b <= length ds -> length ds <= length x ->
  exists s out, exponential_integration zf x ds (Z.of_nat b) (Z.of_nat (length ds)) factor = Ok (s, out) /\ length out = length ds.
Proof.
  intros Hb Hx. unfold exponential_integration. rewrite zrange_of_nat.
  destruct (exp_loop_ok zf x ds (map Z.of_nat (seq b (length ds - b))) (lit 0.0) (map (fun _ => lit 0) ds))
    as (c & s & out & E & Ho).
  - intros i Hi. apply in_map_iff in Hi. destruct Hi as (k & <- & Hk). apply in_seq in Hk. exists k. lia.
  - apply map_length.
  - rewrite E. simpl. destruct c; [|eauto]. rewrite Ho. rewrite Z.eqb_refl. eauto.
Qed.

Lemma exp_int_length zf (x ds : list num) b e factor s out :
  exponential_integration zf x ds b e factor = Ok (s, out) -> length out = length ds.
Proof.
  unfold exponential_integration. intros H. apply bind_Ok in H. destruct H as (((c & s') & o) & E & H).
  assert (L : forall is s0 xds c s' o, exp_loop zf x ds is s0 xds = Ok (c, s', o) -> length o = length xds).
  { clear. induction is as [|i is IH]; simpl; intros s0 xds c s' o H; [inversion H; auto|].
    apply bind_Ok in H. destruct H as (? & _ & H). apply bind_Ok in H. destruct H as (? & _ & H).
    destruct (orb _ _); [inversion H; auto|]. apply bind_Ok in H. destruct H as (? & _ & H).
    apply bind_Ok in H. destruct H as (xds' & Hs & H). apply IH in H.
    unfold py_set in Hs. destruct (py_pos _ _); [|discriminate]. inversion Hs; subst.
    rewrite H. apply length_upd. }
  apply L in E. rewrite map_length in E.
  destruct c; [destruct (_ =? _)%Z|]; inversion H; subst; auto.
Qed.

(** ** Lengths *)
Lemma diffs_length (l : list num) : length (diffs l) = length l - 1.
Proof.
  induction l as [|x [|y l] IH]; auto. cbn [diffs length]. cbn [diffs length] in IH. rewrite IH. lia.
Qed.

Lemma ray_loop_length c zn : forall s, length (ray_loop (A:=A) c s zn) = length zn.
Proof.
  induction zn as [|[z n] zn IH]; intros s; [reflexivity|]. cbn [ray_loop].
  destruct (ray_step _ _ _ _) as [[d s']|]; [simpl; f_equal; apply IH|]. apply map_length.
Qed.

Lemma vapor_length (t rh e rho : list num) : vapor t rh false = Ok (e, rho) -> length t = length rh ->
  length e = length t /\ length rho = length t.
Proof.
  unfold vapor. intros H Hl. inversion H. rewrite !map_length, combine_length. lia.
Qed.

Lemma refr_length (p t e : list num) : length p = length t -> length t = length e ->
  let '(d, w, n) := refractivity p t e in length d = length t /\ length w = length t /\ length n = length t.
Proof. intros H1 H2. unfold refractivity. rewrite !map_length, !combine_length. lia. Qed.

Lemma planck_up_length hvk (l : list (num * num)) : length (planck_up hvk l) = length l.
Proof.
  induction l as [|[t d] l IH]; [reflexivity|]. simpl. destruct l as [|[t1 d1] l]; [reflexivity|].
  destruct (planck_up hvk ((t1, d1) :: l)) as [|[[b a] tau] up] eqn:E; [simpl in IH; discriminate|].
  simpl in *. lia.
Qed.

Lemma planck_dn_length hvk (l : list (num * num)) : forall b a tau, length (planck_dn hvk b a tau l) = length l.
Proof. induction l as [|[t d] l IH]; intros; simpl; auto. Qed.

Lemma planck_ok sat es frq (t tl : list num) : length t = length tl -> t <> [] ->
  exists o, planck sat es frq t tl = Ok o /\ length (p_boftatm o) = length t /\ length (p_tauprof o) = length t.
Proof.
  intros Hl Hn. unfold planck. destruct t as [|t0 t]; [congruence|]. destruct tl as [|d0 tl]; [discriminate|].
  cbn [combine]. destruct sat.
  - eexists. split; [reflexivity|].
    set (L := planck_up _ _). assert (HL : length L = S (length t)).
    { unfold L. rewrite planck_up_length. simpl. rewrite combine_length. simpl in Hl. lia. }
    clearbody L. unfold planck_close. destruct (ltb _ _); cbn [p_boftatm p_tauprof]; rewrite !map_length; simpl; auto.
  - eexists. split; [reflexivity|].
    set (L := planck_dn _ _ _ _ _). assert (HL : length L = length t).
    { unfold L. rewrite planck_dn_length. rewrite combine_length. simpl in Hl. lia. }
    clearbody L. unfold planck_close. destruct (ltb _ _); cbn [p_boftatm p_tauprof]; rewrite !map_length; simpl; auto.
Qed.

Lemma add4_length (a b c d : list num) n : length a = n -> length b = n -> length c = n -> length d = n -> length (add4 a b c d) = n.
Proof.
  revert b c d n. induction a as [|x a IH]; intros [|y b] [|u c] [|v d] n; simpl; intros; try lia.
  rewrite (IH b c d (length a)); lia.
Qed.

(** ** Well-formed solver objects *)

(** Arrays of one length, one emissivity per frequency, output arrays of the allocated shape. *)
Record wf (h : heap A) (o : tbobj A) : Prop := mkWf {
  wf_nl : o_nl o <> 0;
  wf_z : length (hget h (o_z o)) = o_nl o;
  wf_p : length (hget h (o_p o)) = o_nl o;
  wf_tk : length (hget h (o_tk o)) = o_nl o;
  wf_rh : length (hget h (o_rh o)) = o_nl o;
  wf_o3n : forall a, o_o3n o = Some a -> length (hget h a) = o_nl o;
  wf_es : length (o_frq o) <= length (hget h (o_es o));
  wf_dens : forall a b, o_dens o = Some (a, b) -> length (hget h a) = o_nl o /\ length (hget h b) = o_nl o;
  wf_levels : forall b t, o_levels o = Some (b, t) -> b <> [] /\ length b = length t /\
                (forall x, In x b -> (0 <= x < Z.of_nat (o_nl o))%Z) /\ (forall x, In x t -> (0 <= x < Z.of_nat (o_nl o))%Z);
  wf_cells : length (o_cells o) = length (o_angles o);
  wf_rows : forall cs, In cs (o_cells o) -> length cs = length (o_frq o);
  wf_cell : forall cs c, In cs (o_cells o) -> In c cs -> length (c_ptauliq c) = o_nl o /\ length (c_ptauice c) = o_nl o;
  wf_sliq : length (o_sliq o) = length (o_angles o);
  wf_sice : length (o_sice o) = length (o_angles o)
}.

(** A cloudy object on which [init_cloudy] was called. *)
Definition cloud_ready (o : tbobj A) : Prop :=
  o_cloudy o = true -> (exists a b, o_dens o = Some (a, b)) /\ (exists b t, o_levels o = Some (b, t)).

End Gen.
