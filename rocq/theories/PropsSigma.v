(** Claim C149: the standard deviations of the uncertainty tutorial, and the steps of its Jacobian beside the variances of the covariance matrices. *)

From Coq Require Import ZArith Reals Lra Lia List Bool String PeanoNat.
Import ListNotations.
From Verif Require Import Arith PyBase Utils Absorption Clear Spectrum LineData FinTransfer RealAux ListAux Uncertainty CovData Covariance CovForm PropsCov Tutorial PropsTutorial.
Local Open Scope string_scope.
Local Open Scope R_scope.

Notation psR := (@parameters RA R18_lines R17_lines).
Notation psX := (@parameters XA R18_lines R17_lines).
Notation tX := (@table0 XA R18_lines R17_lines).

(** ** The steps over the extended numbers *)

Lemma lines_units k (uX : list (car XA)) (uR : list R) : uX = map Fin uR -> List.length uR = 34%nat ->
  map p_unit (map (fun i => @mkPar XA k (Some i) (@PropsTutorial.at_ XA uX i) (@PropsTutorial.at_ XA uX i)) (seq 0 34))
  = map Fin (map p_unit (map (fun i => @mkPar RA k (Some i) (@PropsTutorial.at_ RA uR i) (@PropsTutorial.at_ RA uR i)) (seq 0 34))).
Proof.
  intros -> L. rewrite !map_map. apply map_ext_in. intros i I. apply in_seq in I. cbn [p_unit]. unfold PropsTutorial.at_.
  exact (map_nth Fin uR (litR (Dec 0 1)) i).
Qed.

Lemma units_fin : Forall2 D (map (@p_unit XA) psX) (map (@p_unit RA) psR).
Proof.
  unfold parameters. rewrite !s0_value, !cf_value, !cs_value. rewrite !map_app.
  assert (L : forall k uX uR, uX = map Fin uR -> List.length uR = 34%nat ->
    Forall2 D (map p_unit (map (fun i => @mkPar XA k (Some i) (@PropsTutorial.at_ XA uX i) (@PropsTutorial.at_ XA uX i)) (seq 0 34)))
      (map p_unit (map (fun i => @mkPar RA k (Some i) (@PropsTutorial.at_ RA uR i) (@PropsTutorial.at_ RA uR i)) (seq 0 34)))).
  { intros k uX uR E N. rewrite (lines_units k uX uR E N). apply D_list. }
  repeat apply Forall2_app; try (apply L; reflexivity).
  - cbn [map p_unit]. repeat constructor; dfin; ra; lra.
  - cbn [map p_unit]. unfold k_light. repeat constructor; dfin; cbn [powi]; ra; lra.
Qed.

(** ** Specification of the tutorial's result *)

(** Derivatives of channel [j]: difference of the responses over the steps [w]. *)
Definition row (y0 : list R) (ys : list (list R)) (w : list R) (j : nat) : list R :=
  map (fun '(y, u) => (nth j y 0 - nth j y0 0) / u) (combine ys w).

(** The root of the variance, NaN if the stored matrix gives a negative variance. *)
Definition root (m : list (list (Z * Z))) (k : list R) : ext := if Rle_dec 0 (spread m k) then Fin (sqrt (spread m k)) else NaN.

Lemma quot_fin exec t y0 : forall l ys w, Forall2 D (map p_unit l) w -> Forall (fun u => 0 < u) w ->
  Forall2 (fun q y => exec (changed q t) = Ok (map Fin y)) l ys ->
  exists cols, @quotients XA exec t (map Fin y0) l = Ok cols /\
    map snd cols = map (fun '(y, u) => map Fin (map (fun '(a, b) => (a - b) / u) (combine y y0))) (combine ys w).
Proof.
  induction l as [|q l IH]; intros ys w U P H.
  - inversion H. subst. exists []. split; reflexivity.
  - destruct w as [|u w]; [inversion U|]. destruct ys as [|y ys]; [inversion H|]. cbn [map] in U.
    assert (U1 : D (p_unit q) u) by (inversion U; assumption). assert (U2 : Forall2 D (map p_unit l) w) by (inversion U; assumption).
    assert (H1 : exec (changed q t) = Ok (map Fin y)) by (inversion H; assumption). assert (H2 : Forall2 (fun q y => exec (changed q t) = Ok (map Fin y)) l ys) by (inversion H; assumption). inversion P as [|? ? P1 P2]. subst.
    destruct (IH _ _ U2 P2 H2) as (cols & E & M). cbn [quotients]. rewrite H1. cbn [bind].
    exists ((title q, map (fun '(a, b) => div (a := XA) (sub (a := XA) a b) (p_unit q)) (combine (map Fin y) (map Fin y0))) :: cols). split.
    + etransitivity; [exact (f_equal (fun r => bind r _) E)|]. reflexivity.
    + cbn [map combine snd]. rewrite M. apply (f_equal (fun c => c :: _)). unfold D in U1. clear - U1 P1. revert y0. induction y as [|a y IHy]; intros [|b y0]; try reflexivity.
      cbn [map combine]. rewrite IHy. apply (f_equal (fun c => c :: _)). rewrite U1. cbn. destruct (Req_EM_T u 0); [lra|reflexivity].
Qed.

Lemma values_fin (cols : list (string * list (car XA))) (cs : list (list R)) n : cols <> [] -> map snd cols = map (map Fin) cs -> Forall (fun c => List.length c = n) cs ->
  values cols = map (map Fin) (map (fun j => map (fun c => nth j c 0) cs) (seq 0 n)).
Proof.
  intros N E L. unfold values. assert (Hn : List.length (snd (hd ("", []) cols)) = n).
  { destruct cols as [|c cols]; [congruence|]. destruct cs as [|c' cs]; [discriminate|]. cbn [map] in E. injection E as E _. cbn [hd]. etransitivity; [exact (f_equal (@List.length _) E)|]. rewrite map_length. inversion L. assumption. }
  rewrite Hn, map_map. apply map_ext_in. intros j I. apply in_seq in I. transitivity (map (fun c => nth j c (Fin (litR (Dec 0 1)))) (map snd cols)); [rewrite map_map; reflexivity|].
  rewrite E, !map_map. apply map_ext_in. intros c Ic. rewrite Forall_forall in L. specialize (L c Ic).
  transitivity (nth j (map Fin c) (Fin 0)); [apply nth_indep; rewrite map_length; lia|]. apply (map_nth Fin).
Qed.

Lemma same_length {X Y} (P : X -> Y -> Prop) l m : Forall2 P l m -> List.length l = List.length m.
Proof. induction 1; cbn; congruence. Qed.

(** ** The standard deviations *)

Theorem C149_sigma exec y0 ys n : (0 < n)%nat ->
  exec tX = Ok (map Fin y0) -> List.length y0 = n ->
  Forall2 (fun q y => exec (changed q tX) = Ok (map Fin y)) psX ys -> Forall (fun y => List.length y = n) ys ->
  sigmas (A := XA) exec
  = Ok (map (fun j => root cov_R17_111 (firstn 111 (row y0 ys (map p_unit psR) j))) (seq 0 n),
        map (fun j => root cov_R17_112 (row y0 ys (map p_unit psR) j)) (seq 0 n)).
Proof.
  intros Hn H0 L0 H L. set (w := map (@p_unit RA) psR).
  assert (P : Forall (fun u => 0 < u) w) by (apply Forall_map; exact C148_units).
  destruct (quot_fin exec tX y0 psX ys w units_fin P H) as (cols & E & M).
  assert (J : jacobian exec = Ok cols) by (rewrite C148_quotients, H0; exact E).
  destruct (C148_columns exec cols J) as (_ & _ & N112 & W111).
  assert (Lp : List.length w = 112%nat) by (unfold w; rewrite map_length, <- (map_length (@title RA)); exact ps_length).
  assert (Ly : List.length ys = 112%nat) by (rewrite <- (same_length _ _ _ H), <- (map_length (@title XA)); exact ps_length).
  set (cs := map (fun '(y, u) => map (fun '(a, b) => (a - b) / u) (combine y y0)) (combine ys w)).
  assert (M' : map snd cols = map (map Fin) cs) by (rewrite M; unfold cs; rewrite map_map; apply map_ext; intros (y, u); reflexivity).
  assert (Lc : Forall (fun c => List.length c = n) cs).
  { unfold cs. apply Forall_map. apply Forall_forall. intros (y, u) I. apply in_combine_l in I. rewrite Forall_forall in L. specialize (L y I). rewrite map_length, combine_length. lia. }
  assert (HR : forall j, (j < n)%nat -> map (fun c => nth j c 0) cs = row y0 ys w j).
  { intros j Hj. unfold cs, row. rewrite map_map. apply map_ext_in. intros (y, u) I. apply in_combine_l in I. rewrite Forall_forall in L. specialize (L y I).
    rewrite (nth_map_d _ _ j (0, 0)) by (rewrite combine_length; lia). rewrite combine_nth by lia. reflexivity. }
  assert (V : values cols = map (map Fin) (map (row y0 ys w) (seq 0 n))).
  { rewrite (values_fin cols cs n); [|intros ->; discriminate|exact M'|exact Lc]. f_equal. apply map_ext_in. intros j I. apply in_seq in I. apply HR. lia. }
  assert (V1 : values (firstn 111 cols) = map (map Fin) (map (fun j => firstn 111 (row y0 ys w j)) (seq 0 n))).
  { rewrite (values_fin (firstn 111 cols) (firstn 111 cs) n); [|intros Z; apply (f_equal (@List.length _)) in Z; rewrite firstn_length in Z; cbn [List.length] in Z; lia
      |rewrite <- !firstn_map, M'; reflexivity|apply Forall_forall; intros c I; rewrite Forall_forall in Lc; apply Lc; rewrite <- (firstn_skipn 111 cs); apply in_or_app; left; exact I].
    f_equal. apply map_ext_in. intros j I. apply in_seq in I. rewrite <- HR by lia. symmetry. apply firstn_map. }
  assert (LR : forall j, List.length (row y0 ys w j) = 112%nat) by (intros j; unfold row; rewrite map_length, combine_length, Ly; exact (f_equal (Nat.min 112) Lp)).
  assert (NE : forall (f : nat -> list R), map f (seq 0 n) <> []) by (intros f Z; apply (f_equal (@List.length _)) in Z; rewrite map_length, seq_length in Z; cbn in Z; lia).
  assert (S1 : sigma_tb (A := XA) (map (map Fin) (map (fun j => firstn 111 (row y0 ys w j)) (seq 0 n))) (as_array cov_R17_111)
             = Ok (map (fun j => root cov_R17_111 (firstn 111 (row y0 ys w j))) (seq 0 n))).
  { assert (I : In (cov_R17_111, 111%nat) shipped) by (left; reflexivity).
    etransitivity; [apply (C123_value cov_R17_111); [apply regularb_regular, (shipped_regularb _ _ I)|apply NE|]|rewrite map_map; reflexivity].
    apply Forall_map, Forall_forall. intros j _. rewrite firstn_length, LR, (shipped_length _ _ I). reflexivity. }
  assert (S2 : sigma_tb (A := XA) (map (map Fin) (map (row y0 ys w) (seq 0 n))) (as_array cov_R17_112)
             = Ok (map (fun j => root cov_R17_112 (row y0 ys w j)) (seq 0 n))).
  { assert (I : In (cov_R17_112, 112%nat) shipped) by (right; left; reflexivity).
    etransitivity; [apply (C123_value cov_R17_112); [apply regularb_regular, (shipped_regularb _ _ I)|apply NE|]|rewrite map_map; reflexivity].
    apply Forall_map, Forall_forall. intros j _. rewrite LR, (shipped_length _ _ I). reflexivity. }
  unfold sigmas. rewrite J. cbn [bind]. rewrite W111. unfold R17_111, R17_112.
  etransitivity; [exact (f_equal (fun v => bind (sigma_tb v (as_array cov_R17_111)) _) V1)|]. cbv beta. rewrite S1. cbn [bind].
  etransitivity; [exact (f_equal (fun v => bind (sigma_tb v (as_array cov_R17_112)) _) V)|]. cbv beta. rewrite S2. reflexivity.
Qed.

(** ** Steps and variances *)

(** The steps of the tutorial as decimal numbers in the units of the matrices; those of the two continuum factors (positions 105 and 106) stand apart. *)
Definition width_steps : list dec := [
  Dec 5 100; Dec 138964 10000000; Dec 138964 10000000; Dec 138964 10000000; Dec 138964 10000000; Dec 138964 10000000; Dec 138964 10000000;
  Dec 138964 10000000; Dec 138964 10000000; Dec 138964 10000000; Dec 138964 10000000; Dec 138964 10000000; Dec 138964 10000000; Dec 138964 10000000;
  Dec 138964 10000000; Dec 138964 10000000; Dec 138964 10000000; Dec 138964 10000000; Dec 138964 10000000; Dec 138964 10000000; Dec 138964 10000000;
  Dec 1131274 100000000; Dec 1131274 100000000; Dec 1453087 100000000; Dec 1453087 100000000; Dec 1789881 100000000; Dec 1789881 100000000;
  Dec 2116733 100000000; Dec 2134575 100000000; Dec 2476584 100000000; Dec 2476584 100000000; Dec 2839177 100000000; Dec 2839177 100000000;
  Dec 3203582 100000000].
Definition mixing_steps : list dec := [
  Dec 1 100; Dec 404133 100000000; Dec 502581 100000000; Dec 786035 100000000; Dec 820458 100000000; Dec 935381 100000000; Dec 809901 100000000;
  Dec 78214 10000000; Dec 544132 100000000; Dec 460658 100000000; Dec 225117 100000000; Dec 209907 100000000; Dec 39399 10000000;
  Dec 484963 100000000; Dec 799499 100000000; Dec 878031 100000000; Dec 1202685 100000000; Dec 1261821 100000000; Dec 1577055 100000000;
  Dec 1615187 100000000; Dec 1907464 100000000; Dec 1926978 100000000; Dec 218633 10000000; Dec 2188287 100000000; Dec 2416567 100000000;
  Dec 2401716 100000000; Dec 2604178 100000000; Dec 2575469 100000000; Dec 2762271 100000000; Dec 2720018 100000000; Dec 2897909 100000000;
  Dec 2843003 100000000; Dec 3019027 100000000; Dec 2951218 100000000].
Definition slope_steps : list dec := [
  Dec 288243 100000000; Dec 4655306 100000000; Dec 3914166 100000000; Dec 6110402 100000000; Dec 494057 10000000; Dec 5728709 100000000;
  Dec 6444876 100000000; Dec 7279906 100000000; Dec 6385863 100000000; Dec 7007177 100000000; Dec 5963384 100000000; Dec 6373721 100000000;
  Dec 11789158 100000000; Dec 12307213 100000000; Dec 10151855 100000000; Dec 10427449 100000000; Dec 8328802 100000000; Dec 8486523 100000000;
  Dec 10130857 100000000; Dec 10244286 100000000; Dec 15750036 100000000; Dec 15814743 100000000; Dec 24421784 100000000; Dec 24343211 100000000;
  Dec 3084326 10000000; Dec 30576201 100000000; Dec 34568212 100000000; Dec 34107696 100000000; Dec 36123446 100000000; Dec 35507902 100000000;
  Dec 37305309 100000000; Dec 36544166 100000000; Dec 38490936 100000000; Dec 37583782 100000000].
Definition oxygen_steps : list dec := ([Dec 1 1; Dec 5 100; Dec 5 100] ++ width_steps ++ mixing_steps ++ slope_steps)%list.
Definition vapour_steps : list dec := [Dec 39 1000; Dec (43 * 299792458) (10 ^ 26); Dec 8 10; Dec 14 10000; Dec 6 10].

(** The step of parameter [i]. *)
Definition step (i : nat) : R := nth i (map (@p_unit RA) psR) 0.

Lemma lines_steps k (us : list R) : List.length us = 34%nat ->
  map p_unit (map (fun i => @mkPar RA k (Some i) (@PropsTutorial.at_ RA us i) (@PropsTutorial.at_ RA us i)) (seq 0 34)) = us.
Proof.
  intros L. rewrite map_map. cbn [p_unit]. unfold PropsTutorial.at_. apply nth_ext with (d := 0) (d' := 0); [rewrite map_length, seq_length; symmetry; exact L|].
  intros i Li. rewrite map_length, seq_length in Li. rewrite nth_map_seq_d by exact Li. apply nth_indep. change (car RA) with R. lia.
Qed.

Definition cf_step : R := 5.96e-10 * sqrt (0.098 * 0.098 + 0.03 * 0.03).
Definition cs_step : R := 1.42e-8 * sqrt (0.17 * 0.17 + 0.06 * 0.06).

Lemma steps_list : map (@p_unit RA) psR = (map litR oxygen_steps ++ [cf_step; cs_step] ++ map litR vapour_steps)%list.
Proof.
  unfold parameters, oxygen_steps, vapour_steps. rewrite !s0_value, !cf_value, !cs_value, !map_app.
  rewrite !lines_steps by reflexivity. rewrite <- !app_assoc. repeat apply (f_equal2 (@app _)); try reflexivity.
  - cbn [map p_unit]. ra. repeat apply (f_equal2 cons); try lra. reflexivity.
  - cbn [map p_unit app powi]. ra. unfold cf_step, cs_step, k_light. repeat apply (f_equal2 cons); try reflexivity; ra.
    1,2: apply (f_equal2 Rmult); [lra|apply (f_equal sqrt); lra].
    change (Z.pos (10 ^ 26)) with 100000000000000000000000000%Z. change (43 * 299792458)%Z with 12891075694%Z. lra.
Qed.

(** Two numbers whose squares differ by at most 1/5000 of the second: [v] is a variance, [u] a step. *)
Definition close (v u : R) : Prop := Rabs (v - u²) <= / 5000 * u².

(** The same on stored numbers. *)
Definition closeb (p : Z * Z) (d : dec) : bool :=
  let '(a, e) := p in let '(Dec n b) := d in
  (0 <=? e)%Z && (5000 * Z.abs (a * (Z.pos b * Z.pos b) - n * n * 2 ^ e) <=? n * n * 2 ^ e)%Z.

Lemma closeb_close p d : closeb p d = true -> close (IZR (fst p) / IZR (2 ^ snd p)) (litR d).
Proof.
  destruct p as (a, e), d as [n b]. unfold closeb, close. intros H. apply andb_prop in H. destruct H as [E H]. apply Z.leb_le in E, H. apply IZR_le in H.
  cbn [fst snd litR]. set (B := IZR (Z.pos b)). assert (B0 : 0 < B) by (apply IZR_lt; reflexivity).
  assert (P0 : 0 < IZR (2 ^ e)) by (apply IZR_lt, Z.pow_pos_nonneg; lia). set (P := IZR (2 ^ e)) in *.
  rewrite mult_IZR, abs_IZR, minus_IZR, !mult_IZR in H. fold B P in H.
  replace (IZR a / P - (IZR n / B)²) with ((IZR a * (B * B) - IZR n * IZR n * P) / (P * (B * B))) by (unfold Rsqr; field; lra).
  replace (/ 5000 * (IZR n / B)²) with ((IZR n * IZR n * P / 5000) / (P * (B * B))) by (unfold Rsqr; field; lra).
  assert (Q : 0 < P * (B * B)) by (apply Rmult_lt_0_compat; [|apply Rmult_lt_0_compat]; assumption).
  unfold Rdiv at 1. rewrite Rabs_mult, (Rabs_pos_eq (/ _)) by (apply Rlt_le, Rinv_0_lt_compat; exact Q). apply Rmult_le_compat_r; [apply Rlt_le, Rinv_0_lt_compat; exact Q|]. lra.
Qed.

(** Positions of the widths of lines 0, 20, 22, 24, 26, 27, 28, 30, 32, of the two continuum coefficients, of the width and the shift of the 22 GHz line. *)
Definition apart : list nat := [3; 23; 25; 27; 29; 30; 31; 33; 35; 105; 106; 107; 110]%nat.
Definition is_apart (i : nat) : bool := existsb (Nat.eqb i) apart.
Definition steps : list dec := (oxygen_steps ++ [Dec 0 1; Dec 0 1] ++ vapour_steps)%list.

Lemma step_dec i : (i < 112)%nat -> i <> 105%nat -> i <> 106%nat -> step i = litR (nth i steps (Dec 0 1)).
Proof.
  intros L N1 N2. unfold step. rewrite steps_list. unfold steps. destruct (lt_dec i 105) as [H|H].
  - rewrite !app_nth1 by (rewrite ?map_length; exact H). rewrite (nth_map_d _ _ i (Dec 0 1)) by exact H. reflexivity.
  - rewrite !(app_nth2 _ _ _ (n := i)) by (rewrite ?map_length; change (List.length oxygen_steps) with 105%nat; lia). rewrite map_length. change (List.length oxygen_steps) with 105%nat.
    rewrite !app_nth2 by (cbn [List.length]; lia). cbn [List.length]. rewrite (nth_map_d _ _ _ (Dec 0 1)) by (change (List.length vapour_steps) with 5%nat; lia). reflexivity.
Qed.

Definition agreeb (m : list (list (Z * Z))) (n : nat) : bool :=
  forallb (fun i => is_apart i || closeb (nth i (nth i m []) (0, 0)%Z) (nth i steps (Dec 0 1))) (seq 0 n).
Definition shiftb (m : list (list (Z * Z))) : bool :=
  forallb (fun i => closeb (nth i (nth i m []) (0, 0)%Z) (nth (S i) steps (Dec 0 1))) (seq 3 33).

Lemma agree_111 : agreeb cov_R17_111 111 = true. Proof. vm_cast_no_check (eq_refl true). Qed.
Lemma agree_112 : agreeb cov_R17_112 112 = true. Proof. vm_cast_no_check (eq_refl true). Qed.
Lemma shift_111 : shiftb cov_R17_111 = true. Proof. vm_cast_no_check (eq_refl true). Qed.
Lemma shift_112 : shiftb cov_R17_112 = true. Proof. vm_cast_no_check (eq_refl true). Qed.

(** Apart from these, the step of every parameter is its standard deviation in both matrices (to 1e-4): same order, same units. *)
Theorem C149_steps m n i : In (m, n) [(cov_R17_111, 111%nat); (cov_R17_112, 112%nat)] -> (i < n)%nat -> ~ In i apart -> close (stored m i i) (step i).
Proof.
  intros I L N. assert (A : agreeb m n = true) by (destruct I as [E|[E|[]]]; injection E as <- <-; [exact agree_111|exact agree_112]).
  assert (Ln : (n <= 112)%nat) by (destruct I as [E|[E|[]]]; injection E as <- <-; lia).
  unfold agreeb in A. rewrite forallb_forall in A. specialize (A i). rewrite in_seq in A. specialize (A ltac:(lia)). apply orb_prop in A. destruct A as [A|A].
  - exfalso. apply N. apply existsb_exists in A. destruct A as (j & J & E). apply Nat.eqb_eq in E. subst j. exact J.
  - rewrite step_dec; [exact (closeb_close _ _ A)|lia|..]; intros ->; apply N; cbn; tauto.
Qed.

(** The widths: the matrices hold at every line the step that the tutorial gives to the next line. *)
Theorem C149_widths m i : In m [cov_R17_111; cov_R17_112] -> (i < 33)%nat -> close (stored m (3 + i) (3 + i)) (step (4 + i)).
Proof.
  intros I L. assert (A : shiftb m = true) by (destruct I as [<-|[<-|[]]]; [exact shift_111|exact shift_112]).
  unfold shiftb in A. rewrite forallb_forall in A. specialize (A (3 + i)%nat). rewrite in_seq in A. specialize (A ltac:(lia)).
  rewrite step_dec by lia. exact (closeb_close _ _ A).
Qed.

(** Not every parameter is perturbed by its standard deviation: the width of the 118 GHz line by 3.6 of them, the width of line 20 by 1.2, that of line 22 by 0.8,
    the shift of the 22 GHz line by less than 0.14 in the first matrix, its width by 2.3 in the second, the continuum coefficients by 0.9 and 0.8. *)
Theorem C149_steps_refuted :
  3.5 * sqrt (stored cov_R17_111 3 3) < step 3 /\ 1.2 * sqrt (stored cov_R17_111 23 23) < step 23 /\ step 25 < 0.8 * sqrt (stored cov_R17_111 25 25) /\
  step 110 < 0.14 * sqrt (stored cov_R17_111 110 110) /\ 2.3 * sqrt (stored cov_R17_112 107 107) < step 107 /\
  step 105 < 0.91 * sqrt (stored cov_R17_111 105 105) /\ step 106 < 0.8 * sqrt (stored cov_R17_111 106 106).
Proof.
  assert (Up : forall a v u, 0 < a -> 0 <= v -> 0 < u -> v < (u / a)² -> a * sqrt v < u).
  { intros a v u A V U H0. assert (H : sqrt v < sqrt ((u / a)²)) by (apply sqrt_lt_1_alt; split; assumption). rewrite sqrt_Rsqr in H by (apply Rlt_le, Rdiv_lt_0_compat; assumption).
    apply (Rmult_lt_compat_l a) in H; [|exact A]. replace (a * (u / a)) with u in H by (field; lra). exact H. }
  assert (Dn : forall a v u, 0 < a -> 0 <= u -> (u / a)² < v -> u < a * sqrt v).
  { intros a v u A U H0. assert (H : sqrt ((u / a)²) < sqrt v) by (apply sqrt_lt_1_alt; split; [apply Rle_0_sqr|exact H0]). rewrite sqrt_Rsqr in H by (unfold Rdiv; apply Rmult_le_pos; [exact U|apply Rlt_le, Rinv_0_lt_compat; exact A]).
    apply (Rmult_lt_compat_l a) in H; [|exact A]. replace (a * (u / a)) with u in H by (field; lra). exact H. }
  assert (E5 : step 105 = cf_step) by (unfold step; rewrite steps_list; reflexivity).
  assert (E6 : step 106 = cs_step) by (unfold step; rewrite steps_list; reflexivity).
  rewrite E5, E6, (step_dec 3), (step_dec 23), (step_dec 25), (step_dec 110), (step_dec 107) by lia.
  assert (V : forall m i p, nth i (nth i m []) (0, 0)%Z = p -> stored m i i = IZR (fst p) / IZR (2 ^ snd p)) by (intros m i p <-; reflexivity).
  assert (Q : forall a x b, 0 <= x -> 0 < b -> (a * sqrt x / b)² = a * a * x / (b * b)).
  { intros a x b X B. replace ((a * sqrt x / b)²) with (a * a * (sqrt x * sqrt x) / (b * b)) by (unfold Rsqr; field; lra). rewrite sqrt_sqrt by exact X. reflexivity. }
  rewrite (V cov_R17_111 3%nat (6635203, 35)%Z eq_refl), (V cov_R17_111 23%nat (1099323, 33)%Z eq_refl), (V cov_R17_111 25%nat (14509863, 36)%Z eq_refl),
    (V cov_R17_111 110%nat (8296133499200617, 66)%Z eq_refl), (V cov_R17_112 107%nat (5022956433231763, 64)%Z eq_refl),
    (V cov_R17_111 105%nat (190388171656469, 115)%Z eq_refl), (V cov_R17_111 106%nat (6834360740046467, 109)%Z eq_refl).
  cbn [fst snd].
  repeat match goal with |- context [IZR (2 ^ ?e)%Z] => let v := eval vm_compute in (2 ^ e)%Z in change (2 ^ e)%Z with v end.
  repeat match goal with |- context [litR (nth ?i steps ?d)] => let v := eval vm_compute in (nth i steps d) in change (nth i steps d) with v end.
  unfold litR. repeat split.
  1,2,5: apply Up; unfold Rsqr; lra.
  1,2: apply Dn; unfold Rsqr; lra.
  all: apply Dn; [lra|unfold cf_step, cs_step; apply Rmult_le_pos; [lra|apply sqrt_pos]|unfold cf_step, cs_step; rewrite Q; lra].
Qed.

(** A case: a response that reads the exponent of the self continuum; the two tables of standard deviations have one entry each. *)
Definition exponent (t : list (string * pcon XA)) : R := match assoc "con_Xs" t with Some (CFloat (Fin x)) => x | _ => 0 end.
Example C149_example : exists s1 s2, sigmas (A := XA) (fun t => Ok [Fin (exponent t)]) = Ok ([s1], [s2]).
Proof.
  rewrite (C149_sigma (fun t => Ok [Fin (exponent t)]) [exponent tX] (map (fun q => [exponent (changed q tX)]) psX) 1).
  - eexists. eexists. reflexivity.
  - lia.
  - reflexivity.
  - reflexivity.
  - induction psX as [|q l IH]; constructor; [reflexivity|exact IH].
  - apply Forall_map, Forall_forall. intros q _. reflexivity.
Qed.
