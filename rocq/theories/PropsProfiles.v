(** Claims C72, C73, C98 and C99: the built-in atmospheres. *)

From Coq Require Import ZArith Reals Lra Lia String List Bool.
Import ListNotations.
From Verif Require Import Arith PyBase Utils Spec ListAux RealAux RTE Absorption Clear Spectrum SolverGen SolverRun Registry PropsObject PropsWeighting PropsO3 PropsLiq ProfileData Profiles.

(** ** C72 *)

(** Specification: a profile is given by the rows of its table; the columns are altitude, pressure, density, temperature and the seven gases. *)
Definition of_rows {A : Arith} (rows : list (list dec)) : list (car A) * list (car A) * list (car A) * list (car A) * list (list (car A)) :=
  let col k := map (fun r => lit (nth k r 0%dec)) rows in
  (col 0%nat, col 1%nat, col 2%nat, col 3%nat, map (fun r => map lit (firstn 7 (skipn 4 r))) rows).
Definition atmospheres : list (string * list (list dec)) :=
  [("Tropical", dat_tropical); ("Midlatitude Summer", dat_midlatitude_summer); ("Midlatitude Winter", dat_midlatitude_winter);
   ("Subarctic Summer", dat_subarctic_summer); ("Subarctic Winter", dat_subarctic_winter); ("US Standard", dat_us_standard)]%string.

Lemma py_get_lit {A : Arith} (r : list dec) k : (k < length r)%nat -> py_get (map (lit (a:=A)) r) (Z.of_nat k) = Ok (lit (nth k r 0%dec)).
Proof.
  intros Hk. unfold py_get, py_pos. rewrite map_length.
  assert (E : ((0 <=? Z.of_nat k) && (Z.of_nat k <? Z.of_nat (length r)))%Z%bool = true) by (apply andb_true_intro; split; [apply Z.leb_le|apply Z.ltb_lt]; lia).
  rewrite E, Nat2Z.id. rewrite (nth_error_nth' (map lit r) (lit 0%dec)) by (rewrite map_length; lia). rewrite (map_nth (lit (a:=A))). reflexivity.
Qed.
Lemma column_rows {A : Arith} (rows : list (list dec)) k n : Forall (fun r => length r = n) rows -> (k < n)%nat ->
  column (A:=A) (loadtxt rows) (Z.of_nat k) = Ok (map (fun r => lit (nth k r 0%dec)) rows).
Proof.
  intros F Hk. unfold column, loadtxt. induction F as [|r rows Hr F IH]; [reflexivity|]. cbn [map mapM].
  rewrite py_get_lit by lia. cbn [bind]. rewrite IH. reflexivity.
Qed.

Lemma stack_rows {A : Arith} (rows : list (list dec)) : Forall (fun r => length r = 11%nat) rows ->
  let col k := map (fun r => lit (a:=A) (nth k r 0%dec)) rows in
  column_stack [col 4%nat; col 5%nat; col 6%nat; col 7%nat; col 8%nat; col 9%nat; col 10%nat] (length rows) = map (fun r => map lit (firstn 7 (skipn 4 r))) rows.
Proof.
  intros F. cbv zeta. induction F as [|r rows Hr F IH]; [reflexivity|]. cbn [length column_stack map hd tl]. rewrite IH. f_equal.
  do 11 (destruct r as [|? r]; [discriminate|]). destruct r; [|discriminate]. reflexivity.
Qed.

Lemma all_wide : Forall (fun a => Forall (fun r => length r = 11%nat) (snd a)) atmospheres.
Proof.
  assert (E : forallb (fun a => forallb (fun r => Nat.eqb (length r) 11) (snd a)) atmospheres = true) by (vm_compute; reflexivity).
  rewrite Forall_forall. intros a Ha. rewrite forallb_forall in E. specialize (E a Ha). rewrite Forall_forall. intros r Hr. rewrite forallb_forall in E.
  apply Nat.eqb_eq, E, Hr.
Qed.

Lemma gl_of_rows {A : Arith} atm rows : gl_table (A:=A) atm = Ok (loadtxt rows) -> Forall (fun r => length r = 11%nat) rows -> gl_atm (A:=A) atm = Ok (of_rows rows).
Proof.
  intros E F. unfold gl_atm. rewrite E. cbn [bind].
  assert (C : forall k, (k < 11)%nat -> column (A:=A) (loadtxt rows) (Z.of_nat k) = Ok (map (fun r => lit (nth k r 0%dec)) rows)) by (intros; eapply column_rows; eauto).
  rewrite (C 0%nat ltac:(lia) : column _ 0 = _), (C 1%nat ltac:(lia) : column _ 1 = _), (C 3%nat ltac:(lia) : column _ 3 = _), (C 2%nat ltac:(lia) : column _ 2 = _),
    (C 4%nat ltac:(lia) : column _ 4 = _), (C 5%nat ltac:(lia) : column _ 5 = _), (C 6%nat ltac:(lia) : column _ 6 = _), (C 7%nat ltac:(lia) : column _ 7 = _),
    (C 8%nat ltac:(lia) : column _ 8 = _), (C 9%nat ltac:(lia) : column _ 9 = _), (C 10%nat ltac:(lia) : column _ 10 = _). cbn [bind].
  unfold of_rows. rewrite map_length. rewrite (stack_rows rows F). reflexivity.
Qed.

Theorem C72_selection (A : Arith) (k : nat) : (k < 6)%nat ->
  nth_error atm_profiles k = Some (Z.of_nat k, fst (nth k atmospheres ("", [])%string)) /\
  gl_atm (A:=A) (Z.of_nat k) = Ok (of_rows (snd (nth k atmospheres ("", [])%string))).
Proof.
  intros Hk. assert (W : Forall (fun r => length r = 11%nat) (snd (nth k atmospheres ("", [])%string))) by (apply (proj1 (Forall_nth _ _) all_wide k); cbn; lia).
  split; [do 6 (destruct k as [|k]; [reflexivity|]); lia|]. apply gl_of_rows; [|exact W].
  do 6 (destruct k as [|k]; [reflexivity|]). lia.
Qed.
Theorem C72_others_raise (A : Arith) (atm : Z) : (atm < 0 \/ 6 <= atm)%Z -> gl_atm (A:=A) atm = Err UnboundLocalError.
Proof.
  intros H. unfold gl_atm, gl_table. repeat match goal with |- context [Z.eqb ?a ?b] => destruct (Z.eqb_spec a b); [lia|] end. reflexivity.
Qed.
Example C72_example : (5 < 6)%nat /\ nth_error atm_profiles 5 = Some (5%Z, "US Standard"%string). Proof. split; [lia|reflexivity]. Qed.

(** ** C99: the numbers of the documentation start at 1 *)

(** The table in the description of the argument. *)
Definition documented : list (Z * string) :=
  [(1, "Tropical"); (2, "Midlatitude Summer"); (3, "Midlatitude Winter"); (4, "Subarctic Summer"); (5, "Subarctic Winter"); (6, "US Standard")]%Z%string.
Theorem C99_documented_refuted (A : Arith) (k : nat) name : nth_error documented k = Some (Z.of_nat k + 1, name)%Z ->
  ((k < 5)%nat -> gl_atm (A:=A) (Z.of_nat k + 1) = Ok (of_rows (snd (nth (S k) atmospheres ("", [])%string)))) /\
  (k = 5%nat -> gl_atm (A:=A) (Z.of_nat k + 1) = Err UnboundLocalError) /\
  fst (nth k atmospheres ("", [])%string) = name /\ name <> fst (nth (S k) atmospheres ("", [])%string).
Proof.
  intros H. split; [|split; [|split]].
  - intros Hk. replace (Z.of_nat k + 1)%Z with (Z.of_nat (S k)) by lia. apply C72_selection. lia.
  - intros ->. apply C72_others_raise. right. reflexivity.
  - do 6 (destruct k as [|k]; [injection H; auto|]). destruct k; discriminate.
  - do 6 (destruct k as [|k]; [injection H as <-; discriminate|]). destruct k; discriminate.
Qed.
Example C99_example : nth_error documented 0 = Some (1%Z, "Tropical"%string). Proof. reflexivity. Qed.

(** ** C73 *)

Lemma py_pos_wrap n k : (- Z.of_nat n <= k < 0)%Z -> py_pos n k = py_pos n (k + Z.of_nat n).
Proof.
  intros H. unfold py_pos. destruct (Z.leb_spec 0 k); [lia|]. destruct (Z.leb_spec (- Z.of_nat n) k); [|lia]. destruct (Z.ltb_spec k 0); [|lia].
  destruct (Z.leb_spec 0 (k + Z.of_nat n)); [|lia]. destruct (Z.ltb_spec (k + Z.of_nat n) (Z.of_nat n)); [|lia]. cbn [andb]. do 2 f_equal. lia.
Qed.
Lemma py_pos_out n k : (k < - Z.of_nat n \/ Z.of_nat n <= k)%Z -> py_pos n k = None.
Proof.
  intros H. unfold py_pos. destruct (Z.leb_spec 0 k), (Z.ltb_spec k (Z.of_nat n)), (Z.leb_spec (- Z.of_nat n) k), (Z.ltb_spec k 0); cbn [andb]; try reflexivity; lia.
Qed.
Lemma column_wrap {A : Arith} (rows : list (list dec)) n k : Forall (fun r => length r = n) rows -> (- Z.of_nat n <= k < 0)%Z ->
  column (A:=A) (loadtxt rows) k = column (loadtxt rows) (k + Z.of_nat n).
Proof.
  intros F H. unfold column, loadtxt. induction F as [|r rows Hr F IH]; [reflexivity|]. cbn [map mapM]. rewrite IH.
  assert (E : py_get (map (lit (a:=A)) r) k = py_get (map lit r) (k + Z.of_nat n)); [|rewrite E; reflexivity].
  unfold py_get. rewrite map_length, Hr, py_pos_wrap by auto. reflexivity.
Qed.
Lemma column_out {A : Arith} (rows : list (list dec)) n k : Forall (fun r => length r = n) rows -> rows <> [] -> (k < - Z.of_nat n \/ Z.of_nat n <= k)%Z ->
  column (A:=A) (loadtxt rows) k = Err IndexError.
Proof.
  intros F Hne H. destruct rows as [|r rows]; [congruence|]. apply Forall_inv in F. unfold column, loadtxt. cbn [map mapM]. unfold py_get at 1. rewrite map_length, F, py_pos_out by auto. reflexivity.
Qed.
Lemma rows_width n rows : forallb (fun r : list dec => Nat.eqb (length r) n) rows = true -> Forall (fun r => length r = n) rows.
Proof. intros E. rewrite Forall_forall. intros r Hr. rewrite forallb_forall in E. apply Nat.eqb_eq, E, Hr. Qed.
Lemma minor_wide : Forall (fun r => length r = 21%nat) dat_gas_minor. Proof. apply rows_width. vm_compute. reflexivity. Qed.
Lemma trace_wide : Forall (fun r => length r = 16%nat) dat_gas_trace. Proof. apply rows_width. vm_compute. reflexivity. Qed.

(** The gases of the two tables, and identifiers far off. *)
Theorem C73_minor (A : Arith) (g : Z) : (7 <= g <= 27)%Z -> gl_atm_minor (A:=A) g = Ok (map (fun r => lit (nth (Z.to_nat (g - 7)) r 0%dec)) dat_gas_minor).
Proof. intros H. unfold gl_atm_minor. rewrite <- (column_rows dat_gas_minor _ 21 minor_wide) by lia. f_equal. lia. Qed.
Theorem C73_trace (A : Arith) (g : Z) : (28 <= g <= 43)%Z -> gl_atm_trace (A:=A) g = Ok (map (fun r => lit (nth (Z.to_nat (g - 28)) r 0%dec)) dat_gas_trace).
Proof. intros H. unfold gl_atm_trace. rewrite <- (column_rows dat_gas_trace _ 16 trace_wide) by lia. f_equal. lia. Qed.
Theorem C73_raises (A : Arith) (g : Z) : ((g < -14 \/ 27 < g) -> gl_atm_minor (A:=A) g = Err IndexError)%Z /\ ((g < 12 \/ 43 < g) -> gl_atm_trace (A:=A) g = Err IndexError)%Z.
Proof.
  split; intros H; [apply (column_out dat_gas_minor 21 _ minor_wide)|apply (column_out dat_gas_trace 16 _ trace_wide)]; try discriminate; cbn; lia.
Qed.
(** A gas of another table does not raise: the profile of an unrelated gas is returned. *)
Theorem C73_wrap_refuted (A : Arith) (g : Z) :
  ((-14 <= g < 7) -> gl_atm_minor (A:=A) g = gl_atm_minor (g + 21) /\ exists x, gl_atm_minor (A:=A) g = Ok x)%Z /\
  ((12 <= g < 28) -> gl_atm_trace (A:=A) g = gl_atm_trace (g + 16) /\ exists x, gl_atm_trace (A:=A) g = Ok x)%Z.
Proof.
  split; intros H.
  - assert (E : gl_atm_minor (A:=A) g = gl_atm_minor (g + 21)) by (unfold gl_atm_minor; rewrite (column_wrap dat_gas_minor 21 _ minor_wide) by lia; f_equal; lia).
    split; [exact E|]. rewrite E, C73_minor by lia. eauto.
  - assert (E : gl_atm_trace (A:=A) g = gl_atm_trace (g + 16)) by (unfold gl_atm_trace; rewrite (column_wrap dat_gas_trace 16 _ trace_wide) by lia; f_equal; lia).
    split; [exact E|]. rewrite E, C73_trace by lia. eauto.
Qed.
(** Water vapour (0) asked of the minor gases is nitrogen (21); phosphine (27) asked of the trace gases is HNO4 (43). *)
Example C73_example (A : Arith) : assoc "H2O" gas_names = Some 0%Z /\ assoc "N2" gas_names = Some 21%Z /\ gl_atm_minor (A:=A) 0 = gl_atm_minor 21 /\
  assoc "PH3" gas_names = Some 27%Z /\ assoc "HNO4" gas_names = Some 43%Z /\ gl_atm_trace (A:=A) 27 = gl_atm_trace 43.
Proof. split; [reflexivity|]. split; [reflexivity|]. split; [apply (C73_wrap_refuted A 0); lia|]. split; [reflexivity|]. split; [reflexivity|apply (C73_wrap_refuted A 27); lia]. Qed.

(** ** C98: the built-in atmospheres are physical profiles *)

Open Scope R_scope.
Definition dec_lt (a b : dec) : bool := negb (dec_le b a).
Lemma dec_lt_R a b : dec_lt a b = true -> litR a < litR b.
Proof.
  destruct a as [n p], b as [n' p']. unfold dec_lt, dec_le. cbn. rewrite negb_true_iff. intros H%Z.leb_gt%IZR_lt. rewrite !mult_IZR in H.
  assert (A : 0 < IZR (Zpos p)) by (apply (IZR_lt 0); lia). assert (B : 0 < IZR (Zpos p')) by (apply (IZR_lt 0); lia).
  apply (Rmult_lt_reg_r (IZR (Zpos p) * IZR (Zpos p'))); [apply Rmult_lt_0_compat; auto|].
  replace (IZR n / IZR (Zpos p) * (IZR (Zpos p) * IZR (Zpos p'))) with (IZR n * IZR (Zpos p')) by (field; lra).
  replace (IZR n' / IZR (Zpos p') * (IZR (Zpos p) * IZR (Zpos p'))) with (IZR n' * IZR (Zpos p)) by (field; lra). exact H.
Qed.
Definition dec_mul (a b : dec) : dec := match a, b with Dec n p, Dec n' p' => Dec (n * n') (p * p') end.
Lemma dec_mul_R a b : litR (dec_mul a b) = litR a * litR b.
Proof.
  destruct a as [n p], b as [n' p']. cbn. rewrite Pos2Z.inj_mul, !mult_IZR. field. split; apply not_0_IZR; lia.
Qed.

Definition at_ (r : list dec) (k : nat) : dec := nth k r 0%dec.
Definition row_ok (r : list dec) : bool :=
  dec_lt 0%dec (at_ r 1) && dec_lt 0%dec (at_ r 2) && dec_lt 160%dec (at_ r 3) && dec_lt (at_ r 3) 381%dec &&
  forallb (dec_lt 0%dec) (firstn 7 (skipn 4 r)) &&
  dec_le (dec_mul 0.98%dec (at_ r 1)) (dec_mul (Dec 1380649 (10^25)) (dec_mul (at_ r 2) (at_ r 3))) &&
  dec_le (dec_mul (Dec 1380649 (10^25)) (dec_mul (at_ r 2) (at_ r 3))) (dec_mul 1.02%dec (at_ r 1)).
Definition pair_ok (r r' : list dec) : bool := dec_lt (at_ r 0) (at_ r' 0) && dec_lt (at_ r' 1) (at_ r 1) && dec_lt (at_ r' 2) (at_ r 2).
Fixpoint pairs_ok (l : list (list dec)) : bool := match l with r :: ((r' :: _) as rest) => pair_ok r r' && pairs_ok rest | _ => true end.
Lemma pairs_ok_nth l i : pairs_ok l = true -> (S i < length l)%nat -> pair_ok (nth i l []) (nth (S i) l []) = true.
Proof.
  revert i. induction l as [|r l IH]; [cbn; lia|]. intros i H Hi. destruct l as [|r' l]; [cbn in Hi; lia|]. cbn [pairs_ok] in H. apply andb_true_iff in H. destruct H as [H1 H2].
  destruct i as [|i]; [exact H1|]. apply IH; [exact H2|cbn in *; lia].
Qed.
Definition table_ok (l : list (list dec)) : bool :=
  Nat.eqb (length l) 50 && forallb row_ok l && pairs_ok l && dec_le (at_ (nth 0 l []) 0) 0%dec && dec_le 0%dec (at_ (nth 0 l []) 0) &&
  dec_le (at_ (nth 49 l []) 0) 120%dec && dec_le 120%dec (at_ (nth 49 l []) 0).
Lemma tables_ok : forallb (fun a => table_ok (snd a)) atmospheres = true.
Proof. vm_compute. reflexivity. Qed.

(** Specification: what makes arrays a physical atmosphere.  [c] is the Boltzmann constant in hPa cm3 / K. *)
Record physical (a p d t : list R) (g : list (list R)) : Prop := {
  ph_len : length a = 50%nat /\ length p = 50%nat /\ length d = 50%nat /\ length t = 50%nat /\ length g = 50%nat;
  ph_ends : nth 0 a 0 = 0 /\ nth 49 a 0 = 120;
  ph_up : forall i, (S i < 50)%nat -> nth i a 0 < nth (S i) a 0;
  ph_down : forall i, (S i < 50)%nat -> nth (S i) p 0 < nth i p 0 /\ nth (S i) d 0 < nth i d 0;
  ph_pos : forall i, (i < 50)%nat -> 0 < nth i p 0 /\ 0 < nth i d 0 /\ 160 < nth i t 0 < 381;
  ph_gas : forall i j, (i < 50)%nat -> (j < 7)%nat -> 0 < nth j (nth i g []) 0;
  ph_ideal : forall i, (i < 50)%nat ->
    98 / 100 * nth i p 0 <= 1380649 / IZR (10 ^ 25) * (nth i d 0 * nth i t 0) <= 102 / 100 * nth i p 0 }.

Lemma col_nth (rows : list (list dec)) k i : (i < length rows)%nat -> nth i (map (fun r => litR (nth k r 0%dec)) rows) 0 = litR (at_ (nth i rows []) k).
Proof. intros Hi. rewrite (nth_indep _ 0 (litR (nth k [] 0%dec))) by (rewrite map_length; auto). apply (map_nth (fun r => litR (nth k r 0%dec))). Qed.

Theorem C98_physical (k : nat) a p d t g : (k < 6)%nat -> gl_atm (A:=RA) (Z.of_nat k) = Ok (a, p, d, t, g) -> physical a p d t g.
Proof.
  intros Hk H. rewrite (proj2 (C72_selection RA k Hk)) in H. apply ok_inj in H.
  set (rows := snd (nth k atmospheres ("", [])%string)) in *.
  assert (T : table_ok rows = true).
  { assert (Q := tables_ok). rewrite forallb_forall in Q. apply (Q (nth k atmospheres ("", [])%string)). apply nth_In. exact Hk. }
  assert (Wd : Forall (fun r => length r = 11%nat) rows) by (apply (proj1 (Forall_nth _ _) all_wide k); exact Hk).
  clearbody rows. unfold of_rows in H. change (@lit RA) with litR in H. change (car RA) with R in H.
  assert (Ea : map (fun r => litR (nth 0 r 0%dec)) rows = a) by congruence.
  assert (Ep : map (fun r => litR (nth 1 r 0%dec)) rows = p) by congruence.
  assert (Ed : map (fun r => litR (nth 2 r 0%dec)) rows = d) by congruence.
  assert (Et : map (fun r => litR (nth 3 r 0%dec)) rows = t) by congruence.
  assert (Eg : map (fun r => map litR (firstn 7 (skipn 4 r))) rows = g) by congruence. clear H.
  unfold table_ok in T. rewrite !andb_true_iff in T. destruct T as [[[[[[TL TR] TP] T1] T2] T3] T4]. apply Nat.eqb_eq in TL.
  rewrite forallb_forall in TR.
  assert (Row : forall i, (i < 50)%nat -> row_ok (nth i rows []) = true) by (intros i Hi; apply TR, nth_In; lia). 
  apply dec_le_R in T1, T2, T3, T4.
  assert (L0 : litR 0%dec = 0) by (cbn; lra). assert (L120 : litR 120%dec = 120) by (cbn; lra). rewrite L0 in T1, T2. rewrite L120 in T3, T4.
  split.
  - subst. rewrite !map_length. auto.
  - subst. rewrite !col_nth by lia. split; lra.
  - intros i Hi. subst a. rewrite !col_nth by lia. assert (Q := pairs_ok_nth _ i TP ltac:(lia)). unfold pair_ok in Q. rewrite !andb_true_iff in Q. apply dec_lt_R, Q.
  - intros i Hi. subst p d. rewrite !col_nth by lia. assert (Q := pairs_ok_nth _ i TP ltac:(lia)). unfold pair_ok in Q. rewrite !andb_true_iff in Q. split; apply dec_lt_R, Q.
  - intros i Hi. subst p d t. rewrite !col_nth by lia. assert (Q := Row i Hi). unfold row_ok in Q. rewrite !andb_true_iff in Q.
    destruct Q as [[[[[[Q1 Q2] Q3] Q4] _] _] _]. apply dec_lt_R in Q1, Q2, Q3, Q4. rewrite L0 in Q1, Q2. 
    replace (litR 160%dec) with 160 in Q3 by (cbn; lra). replace (litR 381%dec) with 381 in Q4 by (cbn; lra). auto.
  - intros i j Hi Hj. subst g. assert (Q := Row i Hi). unfold row_ok in Q. rewrite !andb_true_iff in Q. destruct Q as [[[_ Q] _] _].
    rewrite (nth_indep _ [] (map litR (firstn 7 (skipn 4 [])))) by (rewrite map_length; lia). rewrite (map_nth (fun r => map litR (firstn 7 (skipn 4 r)))).
    assert (W : length (firstn 7 (skipn 4 (nth i rows []))) = 7%nat).
    { rewrite firstn_length, skipn_length, (proj1 (Forall_nth _ _) Wd i [] ltac:(lia)). reflexivity. }
    rewrite (nth_indep _ 0 (litR 0%dec)) by (rewrite map_length; lia). rewrite (map_nth litR). rewrite forallb_forall in Q. rewrite <- L0 at 1. apply dec_lt_R, Q, nth_In. lia.
  - intros i Hi. subst p d t. rewrite !col_nth by lia. assert (Q := Row i Hi). unfold row_ok in Q. rewrite !andb_true_iff in Q. destruct Q as [[_ Q1] Q2]. apply dec_le_R in Q1, Q2.
    rewrite !dec_mul_R in Q1, Q2. 
    set (B := 1380649 / IZR (10 ^ 25) * _). assert (EB : litR (Dec 1380649 (10 ^ 25)) * (litR (at_ (nth i rows []) 2) * litR (at_ (nth i rows []) 3)) = B) by reflexivity.
    rewrite EB in Q1, Q2. clearbody B. change (litR 0.98%dec) with (98 / 100) in Q1. change (litR 1.02%dec) with (102 / 100) in Q2. split; assumption.
Qed.

Example C98_example : exists a p d t g, gl_atm (A:=RA) 0 = Ok (a, p, d, t, g) /\ physical a p d t g.
Proof.
  destruct (gl_atm (A:=RA) 0) as [[[[[a p] d] t] g]|e] eqn:E; [|rewrite (proj2 (C72_selection RA 0 ltac:(lia)) : gl_atm 0 = _) in E; discriminate].
  exists a, p, d, t, g. split; [reflexivity|]. exact (C98_physical 0 a p d t g ltac:(lia) E).
Qed.

(** The solver takes the heights of every built-in atmosphere as they are. *)
Theorem C98_accepted (k : nat) a p d t g (h : heap XA) z pp tt rh frq angles o3n amu ray sat cl : (k < 6)%nat -> gl_atm (A:=RA) (Z.of_nat k) = Ok (a, p, d, t, g) ->
  hget h z = map Fin a -> exists o, let c := tb_init (A:=XA) h z pp tt rh frq angles o3n amu "" ray sat cl in
    snd c = Ok o /\ o_z o = z /\ hget (fst c) z = map Fin a.
Proof.
  intros Hk E Hz. destruct (C98_physical k _ _ _ _ _ Hk E) as [(La & _) (E0 & _) Up _ _ _ _].
  destruct (C44_exact h z pp tt rh frq angles o3n amu ray sat cl a Hz) as [Q _]; [intros ->; discriminate|].
  destruct Q as (o & Ho & Hoz & _ & _ & _ & Hh); [intros i Hi; apply Rlt_not_eq, Up; lia|].
  exists o. split; [exact Ho|]. split; [exact Hoz|]. rewrite Hh. f_equal. rewrite <- (map_id a) at 2. apply map_ext. intros x. rewrite E0. lra.
Qed.
