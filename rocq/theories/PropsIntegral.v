(** Claims C15-C19: exponential integration along the path. *)

From Coq Require Import ZArith Reals Lra Lia List Bool.
From Coquelicot Require Import Coquelicot.
Import ListNotations.
From Verif Require Import Arith PyBase Utils RTE Spec RealAux Integral.
Open Scope R_scope.

Notation Xinteg zf x ds b e factor :=
  (exponential_integration (A:=XA) zf (map Fin x) (map Fin ds) (Z.of_nat b) (Z.of_nat e) (Fin factor)).

(** Sum of a list of reals. *)
Definition total (l : list R) : R := fold_right Rplus 0 l.

Lemma rsum_nth (l : list R) : rsum (length l) (fun i => nth i l 0) = total l.
Proof.
  induction l as [|a l IH]; [reflexivity|]. cbn [length total fold_right]. change (S (length l)) with (1 + length l)%nat.
  rewrite rsum_split. cbn [rsum]. rewrite Rplus_0_l. f_equal. exact IH.
Qed.
Lemma nonneg_nth (x : list R) i : (forall y, In y x -> 0 <= y) -> 0 <= nth i x 0.
Proof.
  intros H. destruct (Nat.lt_ge_cases i (length x)); [apply H, nth_In; auto|]. rewrite nth_overflow by auto. lra.
Qed.
Lemma nonneg_ok x i : (forall y, In y x -> 0 <= y) -> layer_ok x i.
Proof. intros H. split; apply nonneg_nth; auto. Qed.
Lemma rsum_from (f : nat -> R) b n : (b <= n)%nat ->
  rsum (n - b) (fun j => f (b + j)%nat) = rsum n (fun i => if (b <=? i)%nat then f i else 0).
Proof.
  intros H. replace n with (b + (n - b))%nat at 2 by lia. rewrite rsum_split.
  rewrite (rsum_zero b); [|intros i Hi; destruct (Nat.leb_spec b i); auto; lia].
  rewrite Rplus_0_l. apply rsum_ext. intros i Hi. destruct (Nat.leb_spec b (b + i)); auto; lia.
Qed.
Lemma out_ext (l l' : list R) : length l = length l' -> (forall i, nth i l 0 = nth i l' 0) -> l = l'.
Proof. intros H1 H2. apply nth_ext with (d := 0) (d' := 0); auto. Qed.

Lemma nth_scal c (l : list R) i : nth i (map (Rmult c) l) 0 = c * nth i l 0.
Proof. revert i. induction l; intros [|i]; simpl; auto; ring. Qed.

Lemma nth_map_seq (f : nat -> R) n i : (i < n)%nat -> nth i (map f (seq 0 n)) 0 = f i.
Proof.
  intros H. rewrite nth_indep with (d' := f O) by (rewrite map_length, seq_length; auto).
  rewrite map_nth, seq_nth by auto. reflexivity.
Qed.

Definition ex_x : list R := [3; 2; 0; 1].
Definition ex_ds : list R := [0; 0.5; 1; 2].
Lemma ex_x_pos y : In y ex_x -> 0 <= y.
Proof. unfold ex_x. simpl. intros H. repeat (destruct H as [<-|H]; [lra|]). destruct H. Qed.
Lemma ex_ds_pos y : In y ex_ds -> 0 <= y.
Proof. unfold ex_ds. simpl. intros H. repeat (destruct H as [<-|H]; [lra|]). destruct H. Qed.

(** ** C15 *)
Theorem C15_layer_bounds (zf : bool) (x ds : list R) (b : nat) (factor : R) :
  (1 <= b <= length ds)%nat -> (length ds <= length x)%nat ->
  (forall y, In y x -> 0 <= y) -> (forall d, In d ds -> 0 <= d) ->
  exists s out, Xinteg zf x ds b (length ds) factor = Ok (Fin s, map Fin out) /\ length out = length ds /\
    (forall i, (i < b)%nat -> nth i out 0 = 0) /\
    forall i, (b <= i < length ds)%nat ->
      let lo := nth (i - 1) x 0 in let hi := nth i x 0 in let v := nth i out 0 in let d := nth i ds 0 in
      Rmin lo hi * d <= v <= Rmax lo hi * d /\ 0 <= v /\
      v <= ((lo + hi) / 2 + 0.5e-9) * d /\
      (1e-9 <= Rabs (hi - lo) -> v <= (lo + hi) / 2 * d).
Proof.
  intros Hb Hl Hx Hd.
  destruct (exp_complete zf x ds b factor Hl ltac:(lia)) as (out & Ho & Hn & He).
  { intros. apply nonneg_ok; auto. }
  eexists. exists out. split; [exact He|]. split; [exact Ho|]. split.
  - intros i Hi. rewrite Hn. destruct (Nat.leb_spec b i); auto; lia.
  - intros i Hi lo hi v d. assert (Hv : v = layR zf lo hi * d).
    { unfold v. rewrite Hn. destruct (Nat.leb_spec b i); [|lia]. destruct (Nat.ltb_spec i (length ds)); [|lia].
      cbn [andb]. unfold layV, prevx. destruct (Nat.eqb_spec i 0); [lia|]. reflexivity. }
    assert (H1 : 0 <= lo) by (apply nonneg_nth; auto). assert (H2 : 0 <= hi) by (apply nonneg_nth; auto).
    assert (H3 : 0 <= d) by (apply nonneg_nth; auto).
    assert (B1 := layR_bounds zf lo hi H1 H2). assert (B2 := layR_nonneg zf lo hi H1 H2).
    assert (B3 := layR_trapezoid zf lo hi H1 H2). assert (B4 := layR_trapezoid_far zf lo hi H1 H2).
    rewrite Hv. split; [split; apply Rmult_le_compat_r; lra|]. split; [apply Rmult_le_pos; auto|].
    split; [apply Rmult_le_compat_r; auto|]. intros H. apply Rmult_le_compat_r; auto.
Qed.
Example C15_example : exists s out, Xinteg true ex_x ex_ds 1 4 1 = Ok (Fin s, map Fin out) /\
  1 <= nth 1 out 0 <= 1.5 /\ nth 1 out 0 <= 1.25.
Proof.
  destruct (C15_layer_bounds true ex_x ex_ds 1 1) as (s & out & H1 & _ & _ & H2); try (simpl; lia);
    auto using ex_x_pos, ex_ds_pos.
  exists s, out. split; [exact H1|]. specialize (H2 1%nat ltac:(simpl; lia)). simpl in H2.
  rewrite Rmin_right, Rmax_left in H2 by lra. destruct H2 as ((A & B) & _ & _ & D).
  split; [lra|]. rewrite Rabs_left in D by lra. specialize (D ltac:(lra)). lra.
Qed.

(** ** C16 *)
Theorem C16_sum_of_layers (zf : bool) (x ds : list R) (b : nat) (factor : R) :
  (b <= length ds)%nat -> (length ds <= length x)%nat -> (forall y, In y x -> 0 <= y) ->
  exists out, Xinteg zf x ds b (length ds) factor = Ok (Fin (factor * total out), map Fin out) /\
    length out = length ds.
Proof.
  intros Hb Hl Hx. destruct (exp_complete zf x ds b factor Hl Hb) as (out & Ho & Hn & He).
  { intros. apply nonneg_ok; auto. }
  exists out. split; auto. rewrite He. do 4 f_equal. rewrite (rsum_from (layV zf x ds)) by auto.
  rewrite <- rsum_nth, Ho. apply rsum_ext. intros i Hi. rewrite Hn.
  destruct (Nat.leb_spec b i); auto. destruct (Nat.ltb_spec i (length ds)); auto; lia.
Qed.

Theorem C16_additive (zf : bool) (x ds : list R) (b m : nat) (factor : R) :
  (b <= m <= length ds)%nat -> (length ds <= length x)%nat -> (forall y, In y x -> 0 <= y) -> (1 <= b)%nat ->
  exists s1 s2 o1 o2 o,
    Xinteg zf x (firstn m ds) b m factor = Ok (Fin s1, o1) /\
    Xinteg zf x ds m (length ds) factor = Ok (Fin s2, o2) /\
    Xinteg zf x ds b (length ds) factor = Ok (Fin (s1 + s2), o).
Proof.
  intros Hb Hl Hx Hb1.
  assert (Hm : length (firstn m ds) = m) by (rewrite firstn_length; lia).
  destruct (exp_complete zf x (firstn m ds) b factor ltac:(lia) ltac:(lia)) as (o1 & _ & _ & H1).
  { intros. apply nonneg_ok; auto. }
  destruct (exp_complete zf x ds m factor ltac:(lia) ltac:(lia)) as (o2 & _ & _ & H2).
  { intros. apply nonneg_ok; auto. }
  destruct (exp_complete zf x ds b factor ltac:(lia) ltac:(lia)) as (o & _ & _ & H3).
  { intros. apply nonneg_ok; auto. }
  rewrite Hm in H1. do 2 eexists. exists (map Fin o1), (map Fin o2), (map Fin o). split; [exact H1|]. split; [exact H2|].
  rewrite H3.
  match goal with |- Ok (Fin ?a, _) = Ok (Fin ?b, _) => assert (E : a = b); [|rewrite E; reflexivity] end.
  replace (length ds - b)%nat with ((m - b) + (length ds - m))%nat by lia. rewrite rsum_split, Rmult_plus_distr_l.
  f_equal; f_equal; apply rsum_ext; intros i Hi.
  - unfold layV. f_equal. symmetry. rewrite <- (firstn_skipn m ds) at 2. rewrite app_nth1; auto. rewrite Hm; lia.
  - f_equal. lia.
Qed.

Theorem C16_linear_in_path (zf : bool) (x ds : list R) (b : nat) (factor c : R) :
  (b <= length ds)%nat -> (length ds <= length x)%nat -> (forall y, In y x -> 0 <= y) ->
  exists s out, Xinteg zf x ds b (length ds) factor = Ok (Fin s, map Fin out) /\
    Xinteg zf x (map (Rmult c) ds) b (length ds) factor = Ok (Fin (c * s), map Fin (map (Rmult c) out)).
Proof.
  intros Hb Hl Hx. destruct (exp_complete zf x ds b factor Hl Hb) as (o1 & L1 & N1 & H1).
  { intros. apply nonneg_ok; auto. }
  destruct (exp_complete zf x (map (Rmult c) ds) b factor) as (o2 & L2 & N2 & H2).
  1,2: rewrite map_length; auto.
  { intros. apply nonneg_ok; auto. }
  rewrite map_length in H2, L2, N2.
  assert (HV : forall i, layV zf x (map (Rmult c) ds) i = c * layV zf x ds i).
  { intros i. unfold layV. rewrite nth_scal. ring. }
  eexists. eexists. split; [exact H1|]. rewrite H2. f_equal. f_equal.
  - f_equal. rewrite (rsum_ext _ _ (fun j => c * layV zf x ds (b + j))) by (intros; apply HV).
    rewrite rsum_scal. ring.
  - f_equal. apply out_ext; [rewrite map_length; congruence|]. intros i.
    rewrite N2, nth_scal, N1. destruct (_ && _); [apply HV|ring].
Qed.

(** The path array must have exactly as many elements as the upper index. *)
Theorem C16_length_error (zf : bool) (x ds : list R) (b e : nat) (factor : R) :
  (b <= e < length ds)%nat -> (e <= length x)%nat -> (forall y, In y x -> 0 <= y) ->
  Xinteg zf x ds b e factor = Err ValueError.
Proof.
  intros He Hx Hp. unfold exponential_integration. rewrite map_zero_X, zrange_nat.
  destruct (exp_run zf x ds [] (e - b) b 0 (map (fun _ => 0) ds)) as (out & Ho & Hn & Hr);
    [lia|lia|rewrite map_length; auto|intros; apply nonneg_ok; auto|].
  replace (lit (a:=XA) 0.0) with (Fin 0) by (xa; f_equal; lra).
  rewrite app_nil_r in Hr. rewrite Hr. cbn [exp_loop bind]. rewrite map_length, Ho.
  destruct (Z.eqb_spec (Z.of_nat (length ds)) (Z.of_nat e)); [lia|reflexivity].
Qed.
Example C16_example : exists s1 s2 o1 o2 o,
  Xinteg true ex_x [0; 0.5] 1 2 0.1 = Ok (Fin s1, o1) /\
  Xinteg true ex_x ex_ds 2 4 0.1 = Ok (Fin s2, o2) /\
  Xinteg true ex_x ex_ds 1 4 0.1 = Ok (Fin (s1 + s2), o).
Proof.
  apply (C16_additive true ex_x ex_ds 1 2 0.1); simpl; try lia. apply ex_x_pos.
Qed.

(** ** C17 *)
Lemma is_RInt_expo (a k z0 z1 : R) : k <> 0 ->
  is_RInt (fun z => a * exp (k * z)) z0 z1 ((a * exp (k * z1) - a * exp (k * z0)) / k).
Proof.
  intros Hk. replace ((a * exp (k * z1) - a * exp (k * z0)) / k)
    with (minus ((fun z => a * exp (k * z) / k) z1) ((fun z => a * exp (k * z) / k) z0)).
  2:{ unfold minus, plus, opp; cbn. field; auto. }
  apply (is_RInt_derive (fun z => a * exp (k * z) / k)).
  - intros z _. auto_derive; auto. field; auto.
  - intros z _. apply (ex_derive_continuous (fun z => a * exp (k * z))). auto_derive; auto.
Qed.

Theorem C17_exact_for_exponentials (zf : bool) (a k : R) (z : list R) (factor : R) :
  0 < a -> k <> 0 -> z <> [] ->
  let q := fun z => a * exp (k * z) in
  let n := length z in
  (forall i, (1 <= i < n)%nat -> 1e-9 <= Rabs (q (nth i z 0) - q (nth (i - 1) z 0))) ->
  let ds := map (fun i => match i with O => 0 | S j => nth i z 0 - nth j z 0 end) (seq 0 n) in
  exists v out, Xinteg zf (map q z) ds 1 n factor = Ok (Fin (factor * v), out) /\
    is_RInt q (nth 0 z 0) (nth (n - 1) z 0) v.
Proof.
  intros Ha Hk Hne q n Hstep ds.
  assert (Hn : (1 <= n)%nat) by (unfold n; destruct z; [congruence|simpl; lia]).
  assert (Hds : length ds = n) by (unfold ds; rewrite map_length, seq_length; auto).
  assert (Hq : forall y, 0 < q y) by (intros; unfold q; apply Rmult_lt_0_compat; auto; apply exp_pos).
  assert (Hnth : forall i, (i < n)%nat -> nth i (map q z) 0 = q (nth i z 0)).
  { intros i Hi. rewrite nth_indep with (d' := q 0) by (rewrite map_length; auto). apply map_nth. }
  destruct (exp_complete zf (map q z) ds 1 factor) as (out & _ & _ & He).
  { rewrite map_length, Hds; auto. }
  { lia. }
  { intros i Hi. apply nonneg_ok. intros y Hy. apply in_map_iff in Hy. destruct Hy as (w & <- & _). left. apply Hq. }
  rewrite Hds in He. eexists. eexists. split; [exact He|].
  assert (HV : forall i, (1 <= i < n)%nat -> layV zf (map q z) ds i = (q (nth i z 0) - q (nth (i - 1) z 0)) / k).
  { intros i Hi. unfold layV, prevx. destruct (Nat.eqb_spec i 0); [lia|]. rewrite !Hnth by lia.
    assert (Hd : nth i ds 0 = nth i z 0 - nth (i - 1) z 0).
    { unfold ds. rewrite nth_map_seq by lia. destruct i; [lia|]. rewrite Nat.sub_succ, Nat.sub_0_r. reflexivity. }
    rewrite Hd. specialize (Hstep i Hi). set (u := nth (i - 1) z 0) in *. set (w := nth i z 0) in *.
    unfold layR. destruct (Rlt_dec _ _); [lra|]. assert (P1 := Hq u). assert (P2 := Hq w).
    destruct (Req_EM_T (q u) 0); [lra|]. destruct (Req_EM_T (q w) 0); [lra|]. unfold logmean.
    assert (Hln : ln (q w / q u) = k * (w - u)).
    { unfold q. replace (a * exp (k * w) / (a * exp (k * u))) with (exp (k * (w - u))); [apply ln_exp|].
      replace (k * (w - u)) with (k * w + - (k * u)) by ring. rewrite exp_plus, exp_Ropp.
      assert (E := exp_pos (k * u)). field. split; lra. }
    rewrite Hln. assert (Hwu : w - u <> 0).
    { intros E. assert (Ewu : w = u) by lra. rewrite Ewu, Rminus_diag_eq, Rabs_R0 in Hstep by reflexivity. lra. }
    field. auto. }
  rewrite (rsum_ext _ _ (fun j => (fun m => q (nth m z 0) / k) (S j) - (fun m => q (nth m z 0) / k) j)).
  2:{ intros j Hj. rewrite HV by lia. cbn beta. replace (1 + j - 1)%nat with j by lia. cbn [Nat.add]. field; auto. }
  assert (T := rsum_telescope (n - 1) (fun m => - (q (nth m z 0) / k))). cbn beta in T.
  rewrite (rsum_ext _ _ (fun i => - (q (nth i z 0) / k) - - (q (nth (S i) z 0) / k))) by (intros; ring).
  rewrite T. replace (- (q (nth 0 z 0) / k) - - (q (nth (n - 1) z 0) / k))
    with ((q (nth (n - 1) z 0) - q (nth 0 z 0)) / k) by (field; auto).
  apply (is_RInt_expo a k); auto.
Qed.

(** Refinement: two grids with the same end points give the same integral. *)
Theorem C17_grid_independent (zf : bool) (a k : R) (z z' : list R) (factor : R) :
  0 < a -> k <> 0 -> z <> [] -> z' <> [] ->
  let q := fun z => a * exp (k * z) in
  let fine l := forall i, (1 <= i < length l)%nat -> 1e-9 <= Rabs (q (nth i l 0) - q (nth (i - 1) l 0)) in
  let path l := map (fun i => match i with O => 0 | S j => nth i l 0 - nth j l 0 end) (seq 0 (length l)) in
  fine z -> fine z' -> nth 0 z 0 = nth 0 z' 0 -> nth (length z - 1) z 0 = nth (length z' - 1) z' 0 ->
  exists v out out', Xinteg zf (map q z) (path z) 1 (length z) factor = Ok (v, out) /\
    Xinteg zf (map q z') (path z') 1 (length z') factor = Ok (v, out').
Proof.
  intros Ha Hk H1 H2 q fine path F1 F2 E1 E2.
  destruct (C17_exact_for_exponentials zf a k z factor Ha Hk H1 F1) as (v & o & A1 & B1).
  destruct (C17_exact_for_exponentials zf a k z' factor Ha Hk H2 F2) as (v' & o' & A2 & B2).
  fold q in B1, B2. rewrite <- E1, <- E2 in B2.
  assert (v = v').
  { assert (U1 := is_RInt_unique (V:=R_CompleteNormedModule) _ _ _ _ B1).
    assert (U2 := is_RInt_unique (V:=R_CompleteNormedModule) _ _ _ _ B2). exact (eq_trans (eq_sym U1) U2). }
  subst v'. eexists. exists o, o'. split; [exact A1|exact A2].
Qed.
Example C17_example : exists v out, Xinteg true (map (fun z => 10 * exp (-(1/2) * z)) [0; 1; 3]) [0; 1 - 0; 3 - 1] 1 3 0.1
  = Ok (Fin (0.1 * v), out) /\ is_RInt (fun z => 10 * exp (-(1/2) * z)) 0 3 v.
Proof.
  apply (C17_exact_for_exponentials true 10 (-(1/2)) [0; 1; 3] 0.1); try lra; [discriminate|].
  assert (K : forall u w, u + 1 <= w -> 0 <= w <= 3 -> 1e-9 <= Rabs (10 * exp (-(1/2) * w) - 10 * exp (-(1/2) * u))).
  { intros u w Hu Hw. replace (-(1/2) * u) with (-(1/2) * w + (w - u) / 2) by lra. rewrite exp_plus.
    assert (E1 := exp_ge_1_add ((w - u) / 2)). assert (E2 : exp (-(3/2)) <= exp (-(1/2) * w)) by (apply exp_le; lra).
    assert (E3 : / 16 <= exp (-(3/2))).
    { rewrite exp_Ropp. apply Rinv_le_contravar; [apply exp_pos|].
      replace (3/2) with (1 + 1/2) by lra. rewrite exp_plus. assert (E := exp_le_3).
      assert (E4 : exp (1/2) <= exp 1) by (apply exp_le; lra). assert (P := exp_pos (1/2)). nra. }
    rewrite Rabs_left; nra. }
  intros i Hi. simpl in Hi. assert (C : (i = 1 \/ i = 2)%nat) by lia.
  destruct C as [-> | ->]; cbn [nth Nat.sub]; apply K; lra.
Qed.

(** ** C18 *)

(** What an aborted integration returns: the layers before the offending one, and their plain,
    unscaled sum. *)
Theorem C18_abort (zf : bool) (x ds : list R) (b k e : nat) (factor : R) :
  (1 <= b <= k)%nat -> (k < e)%nat -> (e <= length x)%nat -> (e <= length ds)%nat ->
  (forall i, (b - 1 <= i < k)%nat -> 0 <= nth i x 0) -> nth k x 0 < 0 ->
  exists out, Xinteg zf x ds b e factor = Ok (Fin (total out), map Fin out) /\
    length out = length ds /\
    (forall i, ((i < b) \/ (k <= i))%nat -> nth i out 0 = 0) /\
    (* the values of the processed layers do not depend on what follows: they are those of the
       integration of the profile cut just below the offending sample *)
    (exists s cut, Xinteg zf (firstn k x) (firstn k ds) b k factor = Ok (s, map Fin cut) /\
       forall i, (i < k)%nat -> nth i out 0 = nth i cut 0).
Proof.
  intros Hb Hk Hx Hd Hp Hneg.
  assert (Hok : forall i, (b <= i < k)%nat -> layer_ok x i).
  { intros i Hi. split; [unfold prevx; destruct (Nat.eqb_spec i 0); [lia|]|]; apply Hp; lia. }
  destruct (exp_abort zf x ds b k e factor Hx Hd ltac:(lia) Hok ltac:(auto)) as (out & Ho & Hn & He).
  assert (Lx : length (firstn k x) = k) by (rewrite firstn_length; lia).
  assert (Ld : length (firstn k ds) = k) by (rewrite firstn_length; lia).
  assert (Nx : forall i, (i < k)%nat -> nth i (firstn k x) 0 = nth i x 0).
  { intros i Hi. rewrite <- (firstn_skipn k x) at 2. rewrite app_nth1; auto. lia. }
  assert (Nd : forall i, (i < k)%nat -> nth i (firstn k ds) 0 = nth i ds 0).
  { intros i Hi. rewrite <- (firstn_skipn k ds) at 2. rewrite app_nth1; auto. lia. }
  assert (Npx : forall i, (1 <= i < k)%nat -> prevx (firstn k x) i = prevx x i).
  { intros i Hi. unfold prevx. destruct (Nat.eqb_spec i 0); [lia|]. apply Nx. lia. }
  destruct (exp_complete zf (firstn k x) (firstn k ds) b factor) as (cut & Hc & Hcn & Hce).
  { lia. } { lia. }
  { intros i Hi. rewrite Ld in Hi. destruct (Hok i Hi). split; [rewrite Npx by lia|rewrite Nx by lia]; auto. }
  rewrite Ld in Hce, Hcn. exists out. split.
  - rewrite He. do 3 f_equal. rewrite <- rsum_nth, Ho. rewrite (rsum_from (layV zf x ds)) by lia.
    replace (length ds) with (k + (length ds - k))%nat by lia. rewrite (rsum_split k).
    rewrite (rsum_zero (length ds - k)).
    2:{ intros i Hi. rewrite Hn. destruct (Nat.ltb_spec (k + i) k); [lia|]. rewrite andb_false_r. auto. }
    rewrite Rplus_0_r. apply rsum_ext. intros i Hi. rewrite Hn. destruct (Nat.ltb_spec i k); [|lia].
    rewrite andb_true_r. reflexivity.
  - split; [exact Ho|]. split.
    + intros i Hi. rewrite Hn. destruct (Nat.leb_spec b i), (Nat.ltb_spec i k); auto; lia.
    + eexists. exists cut. split; [exact Hce|]. intros i Hi. rewrite Hn, Hcn.
      destruct (Nat.leb_spec b i), (Nat.ltb_spec i k); auto. cbn [andb]. unfold layV.
      rewrite Npx, Nx, Nd by lia. reflexivity.
Qed.

(** The claim as stated (scaled sum) is false: with factor 0.1 the aborted integral is not scaled. *)
Theorem C18_scaled_sum_refuted : exists (x ds : list R) (factor : R) (out : list R) (s : R),
  Xinteg true x ds 1 3 factor = Ok (Fin s, map Fin out) /\
  (forall i, (i < 2)%nat -> 0 <= nth i x 0) /\ nth 2 x 0 < 0 /\ s <> factor * total out.
Proof.
  destruct (C18_abort true [1; 1; -1] [0; 1; 1] 1 2 3 0.1) as (out & H1 & H2 & H3 & s & cut & H4 & H5);
    simpl; try lia; try lra.
  { intros i Hi. destruct i as [|[|i]]; simpl; try lra; lia. }
  exists [1; 1; -1], [0; 1; 1], 0.1, out, (total out). split; [exact H1|].
  split; [intros i Hi; destruct i as [|[|i]]; simpl; try lra; lia|]. split; [simpl; lra|].
  assert (H6 : nth 1 out 0 = 1).
  { rewrite H5 by lia. destruct (exp_complete true [1; 1] [0; 1] 1 0.1) as (o & _ & Hn & He); simpl; try lia.
    { intros i Hi. apply nonneg_ok. simpl. intros y [<-|[<-|[]]]; lra. }
    assert (E := eq_trans (eq_sym H4) He). inversion E as [[E1 E2]].
    assert (cut = o).
    { clear - E2. revert o E2. induction cut; intros [|y o] E; simpl in E; try discriminate; auto.
      inversion E; subst. f_equal; auto. }
    subst o. rewrite Hn. cbn [Nat.leb Nat.ltb andb length]. unfold layV, prevx, layR. simpl.
    rewrite Rminus_diag_eq, Rabs_R0 by reflexivity. destruct (Rlt_dec 0 1e-9); lra. }
  assert (T : total out = 1).
  { destruct out as [|o0 [|o1 [|o2 [|? ?]]]]; simpl in H2; try lia.
    assert (nth 0 [o0; o1; o2] 0 = 0) by (apply H3; lia). assert (nth 2 [o0; o1; o2] 0 = 0) by (apply H3; lia).
    simpl in *. subst. unfold total. simpl. lra. }
  rewrite T. lra.
Qed.
Example C18_example : exists out, Xinteg false [2; 1; -1; 5] [0; 1; 1; 1] 1 4 0.1 = Ok (Fin (total out), map Fin out) /\
  nth 3 out 0 = 0.
Proof.
  destruct (C18_abort false [2; 1; -1; 5] [0; 1; 1; 1] 1 2 4 0.1) as (out & H1 & _ & H2 & _);
    simpl; try lia; try lra.
  { intros i Hi. destruct i as [|[|i]]; simpl; try lra; lia. }
  exists out. split; [exact H1|apply H2; lia].
Qed.

(** ** C19 *)
Theorem C19_wraparound_layer_ignored (zf : bool) (x ds : list R) (factor : R) :
  (1 <= length ds)%nat -> (length ds <= length x)%nat -> (forall y, In y x -> 0 <= y) -> nth 0 ds 0 = 0 ->
  exists s out, Xinteg zf x ds 0 (length ds) factor = Ok (Fin s, out) /\
    Xinteg zf x ds 1 (length ds) factor = Ok (Fin s, out).
Proof.
  intros Hn Hl Hx H0.
  destruct (exp_complete zf x ds 0 factor ltac:(lia) ltac:(lia)) as (o0 & L0 & N0 & E0).
  { intros; apply nonneg_ok; auto. }
  destruct (exp_complete zf x ds 1 factor ltac:(lia) ltac:(lia)) as (o1 & L1 & N1 & E1).
  { intros; apply nonneg_ok; auto. }
  assert (Hz : layV zf x ds 0 = 0) by (unfold layV; rewrite H0; ring).
  assert (Es : rsum (length ds - 1) (fun j => layV zf x ds (1 + j)) = rsum (length ds - 0) (fun j => layV zf x ds (0 + j))).
  { rewrite (rsum_from (layV zf x ds) 1) by lia. rewrite Nat.sub_0_r. apply rsum_ext.
    intros [|i] Hi; cbn [Nat.leb Nat.add]; auto. }
  assert (Eo : o1 = o0).
  { apply out_ext; [congruence|]. intros i. rewrite N0, N1. destruct i; cbn [Nat.leb andb]; auto.
    rewrite Hz. destruct (0 <? length ds)%nat; auto. }
  eexists. eexists. split; [exact E0|]. rewrite E1, Es, Eo. reflexivity.
Qed.
Example C19_example : exists s out, Xinteg true ex_x ex_ds 0 4 0.1 = Ok (Fin s, out) /\
  Xinteg true ex_x ex_ds 1 4 0.1 = Ok (Fin s, out).
Proof. apply (C19_wraparound_layer_ignored true ex_x ex_ds 0.1); simpl; try lia; auto using ex_x_pos. Qed.
