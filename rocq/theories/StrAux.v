(** Lemmas on Python text: runs of digits, stripping, slices. *)

From Coq Require Import ZArith Lia List Bool Ascii String.
Import ListNotations.
From Verif Require Import Arith PyBase PyStr.
Local Open Scope Z_scope.

Definition digits (s : str) : Prop := Forall (fun c => is_digit c = true) s.
(** The number written by a run of digits. *)
Definition dval (s : str) : Z := fold_left (fun a c => 10 * a + digit c) s 0.
(** The character of a digit. *)
Definition dchar (d : Z) : ascii := ascii_of_N (Z.to_N (48 + d)).

Lemma dchar_cases (P : Z -> Prop) : P 0 -> P 1 -> P 2 -> P 3 -> P 4 -> P 5 -> P 6 -> P 7 -> P 8 -> P 9 -> forall d, 0 <= d <= 9 -> P d.
Proof.
  intros. assert (E : d = 0 \/ d = 1 \/ d = 2 \/ d = 3 \/ d = 4 \/ d = 5 \/ d = 6 \/ d = 7 \/ d = 8 \/ d = 9) by lia.
  repeat destruct E as [E|E]; subst; auto.
Qed.
Lemma dchar_digit d : 0 <= d <= 9 -> is_digit (dchar d) = true /\ digit (dchar d) = d.
Proof. revert d. apply dchar_cases; vm_compute; auto. Qed.

Lemma digit_facts c : is_digit c = true -> is_space c = false /\ chr_eqb c "-" = false /\ chr_eqb c "+" = false /\ chr_eqb c "." = false /\ chr_eqb c "#" = false /\ 0 <= digit c <= 9.
Proof.
  intros H. unfold is_digit in H. apply andb_true_iff in H. destruct H as [H1%Z.leb_le H2%Z.leb_le].
  assert (N : forall x, code x < 48 \/ 57 < code x -> chr_eqb c x = false) by (intros x Hx; unfold chr_eqb; destruct (Ascii.eqb_spec c x) as [->|_]; [lia|reflexivity]).
  split; [unfold is_space; apply orb_false_iff; split; apply andb_false_iff; right; apply Z.leb_gt; lia|].
  repeat split; try (apply N; vm_compute; auto; fail); unfold digit; lia.
Qed.

Lemma digits_val_fold acc s : digits s -> digits_val acc s = Some (fold_left (fun a c => 10 * a + digit c) s acc).
Proof. intros H. revert acc. induction H as [|c s Hc H IH]; intros acc; [reflexivity|]. cbn. rewrite Hc. apply IH. Qed.
Lemma dval_app s t : dval (s ++ t) = dval s * 10 ^ Z.of_nat (List.length t) + dval t.
Proof.
  unfold dval. rewrite fold_left_app. generalize (fold_left (fun a c => 10 * a + digit c) s 0). intros a.
  assert (G : forall b u, fold_left (fun a c => 10 * a + digit c) u b = b * 10 ^ Z.of_nat (List.length u) + fold_left (fun a c => 10 * a + digit c) u 0).
  { intros b u. revert b. induction u as [|c u IH]; intros b; [cbn [fold_left List.length]; change (Z.of_nat 0) with 0; rewrite Z.pow_0_r; lia|]. cbn [fold_left List.length]. rewrite IH, (IH (10 * 0 + digit c)).
    rewrite Nat2Z.inj_succ, Z.pow_succ_r by lia. lia. }
  apply G.
Qed.
Lemma dval_nn s : digits s -> 0 <= dval s.
Proof.
  intros H. induction s as [|c s IH] using rev_ind; [cbn; lia|]. apply Forall_app in H. destruct H as [H1 H2]. rewrite dval_app. cbn [List.length].
  apply Forall_inv in H2. destruct (digit_facts c H2) as (_ & _ & _ & _ & _ & D). specialize (IH H1). change (dval [c]) with (10 * 0 + digit c). change (Z.of_nat 1) with 1. rewrite Z.pow_1_r. lia.
Qed.
Lemma dval_lt s : digits s -> dval s < 10 ^ Z.of_nat (List.length s).
Proof.
  intros H. induction s as [|c s IH] using rev_ind; [cbn; lia|]. apply Forall_app in H. destruct H as [H1 H2]. rewrite dval_app, app_length. cbn [List.length].
  apply Forall_inv in H2. destruct (digit_facts c H2) as (_ & _ & _ & _ & _ & D). specialize (IH H1). change (dval [c]) with (10 * 0 + digit c).
  rewrite Nat2Z.inj_add, Z.pow_add_r by lia. change (Z.of_nat 1) with 1. rewrite Z.pow_1_r. lia.
Qed.

(** ** strip *)

Lemma lstrip_head c s : is_space c = false -> lstrip (c :: s) = c :: s.
Proof. intros H. cbn. rewrite H. reflexivity. Qed.
Lemma strip_solid s : Forall (fun c => is_space c = false) s -> strip s = s.
Proof.
  intros H. unfold strip. assert (L : forall u, Forall (fun c => is_space c = false) u -> lstrip u = u) by (intros [|c u] Hu; [reflexivity|apply lstrip_head; apply (Forall_inv Hu)]).
  rewrite (L s H), (L (rev s)) by (apply Forall_rev; exact H). apply rev_involutive.
Qed.
Lemma strip_pad k s : strip (repeat " "%char k ++ s) = strip s.
Proof. unfold strip. assert (E : lstrip (repeat " "%char k ++ s) = lstrip s) by (induction k; auto). rewrite E. reflexivity. Qed.
Lemma digits_solid s : digits s -> Forall (fun c => is_space c = false) s.
Proof. apply Forall_impl. intros c Hc. apply digit_facts, Hc. Qed.

Lemma signed_digits c s : is_digit c = true -> signed (c :: s) = (1, c :: s).
Proof. intros H. destruct (digit_facts c H) as (_ & E1 & E2 & _). unfold signed. rewrite E1, E2. reflexivity. Qed.

Lemma py_int_digits k s : digits s -> s <> [] -> py_int (repeat " "%char k ++ s) = Ok (dval s).
Proof.
  intros H Hne. unfold py_int. rewrite strip_pad, strip_solid by (apply digits_solid, H). destruct s as [|c s]; [congruence|].
  rewrite signed_digits by (apply (Forall_inv H)). rewrite digits_val_fold by exact H. rewrite Z.mul_1_l. reflexivity.
Qed.
Lemma py_int_digits0 s : digits s -> s <> [] -> py_int s = Ok (dval s).
Proof. exact (py_int_digits 0 s). Qed.
Lemma py_int_neg s : digits s -> s <> [] -> py_int ("-"%char :: s) = Ok (- dval s).
Proof.
  intros H Hne. unfold py_int. rewrite strip_solid by (constructor; [reflexivity|apply digits_solid, H]). cbn [signed]. change (chr_eqb "-" "-") with true. cbv iota.
  destruct s as [|c s]; [congruence|]. rewrite digits_val_fold by exact H. fold (dval (c :: s)). reflexivity.
Qed.

(** ** slices *)

Lemma py_slice_in {T} (l : list T) (a b : nat) : (b <= List.length l)%nat -> py_slice l (Z.of_nat a) (Z.of_nat b) = firstn (b - a) (skipn a l).
Proof.
  intros H. unfold py_slice, slice, slice_bound. destruct (Z.ltb_spec (Z.of_nat a) 0); [lia|]. destruct (Z.ltb_spec (Z.of_nat b) 0); [lia|].
  rewrite (Z.min_l (Z.of_nat b)), Nat2Z.id by lia. destruct (Nat.leb_spec a (List.length l)) as [L|L]; [rewrite Z.min_l, Nat2Z.id by lia; reflexivity|].
  rewrite Z.min_r, Nat2Z.id by lia. replace (b - List.length l)%nat with 0%nat by lia. replace (b - a)%nat with 0%nat by lia. reflexivity.
Qed.
Lemma py_slice_app {T} (l m r : list T) : py_slice (l ++ m ++ r) (Z.of_nat (List.length l)) (Z.of_nat (List.length l + List.length m)) = m.
Proof.
  rewrite py_slice_in by (rewrite !app_length; lia). rewrite skipn_app, skipn_all, Nat.sub_diag. cbn [skipn app].
  replace (List.length l + List.length m - List.length l)%nat with (List.length m) by lia. rewrite firstn_app, firstn_all, Nat.sub_diag. cbn [firstn]. apply app_nil_r.
Qed.

Lemma str_eqb_spec a b : str_eqb a b = true <-> a = b.
Proof.
  revert b. induction a as [|x a IH]; intros [|y b]; cbn; try (split; congruence). rewrite andb_true_iff, IH. unfold chr_eqb. rewrite Ascii.eqb_eq.
  split; [intros [-> ->]; reflexivity|intros [= -> ->]; auto].
Qed.

(** ** split *)

Lemma split_word acc w s : Forall (fun c => is_space c = false) w -> split_from acc (w ++ s) = split_from (rev w ++ acc) s.
Proof.
  intros H. revert acc. induction H as [|c w Hc H IH]; intros acc; [reflexivity|]. cbn [app split_from]. rewrite Hc, IH. cbn [rev]. rewrite <- app_assoc. reflexivity.
Qed.
Lemma split_cons w s : Forall (fun c => is_space c = false) w -> w <> [] -> split (w ++ " "%char :: s) = w :: split s.
Proof.
  intros H Hne. unfold split. rewrite split_word by exact H. rewrite app_nil_r. cbn [split_from]. change (is_space " ") with true. cbv iota.
  destruct (rev w) eqn:E; [apply (f_equal (@rev _)) in E; rewrite rev_involutive in E; cbn in E; congruence|]. rewrite <- E, rev_involutive. reflexivity.
Qed.
Lemma split_last w : Forall (fun c => is_space c = false) w -> w <> [] -> split w = [w].
Proof.
  intros H Hne. unfold split. rewrite <- (app_nil_r w) at 1. rewrite split_word by exact H. rewrite app_nil_r. cbn [split_from].
  destruct (rev w) eqn:E; [apply (f_equal (@rev _)) in E; rewrite rev_involutive in E; cbn in E; congruence|]. rewrite <- E, rev_involutive. reflexivity.
Qed.

(** ** Fixed-width numbers *)

Definition pad2 (z : Z) : str := [dchar (z / 10 mod 10); dchar (z mod 10)].
Definition pad4 (z : Z) : str := [dchar (z / 1000 mod 10); dchar (z / 100 mod 10); dchar (z / 10 mod 10); dchar (z mod 10)].
(** right-justified in four columns *)
Definition just4 (z : Z) : str :=
  (if z <? 10 then repeat " "%char 3 ++ [dchar z]
   else if z <? 100 then repeat " "%char 2 ++ [dchar (z / 10); dchar (z mod 10)]
   else if z <? 1000 then repeat " "%char 1 ++ [dchar (z / 100); dchar (z / 10 mod 10); dchar (z mod 10)]
   else repeat " "%char 0 ++ [dchar (z / 1000); dchar (z / 100 mod 10); dchar (z / 10 mod 10); dchar (z mod 10)]).

Lemma mod10 z : 0 <= z mod 10 <= 9.
Proof. assert (H := Z.mod_pos_bound z 10 ltac:(lia)). lia. Qed.
Lemma digits_dchars l : Forall (fun d => 0 <= d <= 9) l -> digits (map dchar l).
Proof. intros H. induction H as [|d l Hd H IH]; [constructor|]. constructor; [apply dchar_digit, Hd|exact IH]. Qed.
Lemma dval_dchars l : Forall (fun d => 0 <= d <= 9) l -> dval (map dchar l) = fold_left (fun a d => 10 * a + d) l 0.
Proof.
  intros H. unfold dval. generalize 0. induction H as [|d l Hd H IH]; intros a; [reflexivity|]. cbn [map fold_left]. rewrite (proj2 (dchar_digit d Hd)). apply IH.
Qed.
Lemma pad2_digits z : digits (pad2 z). Proof. apply (digits_dchars [z / 10 mod 10; z mod 10]). repeat constructor; apply mod10. Qed.
Lemma pad4_digits z : digits (pad4 z). Proof. apply (digits_dchars [z / 1000 mod 10; z / 100 mod 10; z / 10 mod 10; z mod 10]). repeat constructor; apply mod10. Qed.
Lemma pad2_val z : 0 <= z <= 99 -> dval (pad2 z) = z.
Proof.
  intros H. change (pad2 z) with (map dchar [z / 10 mod 10; z mod 10]). rewrite dval_dchars by (repeat constructor; apply mod10). cbn [fold_left].
  Z.to_euclidean_division_equations; lia.
Qed.
Lemma pad4_val z : 0 <= z <= 9999 -> dval (pad4 z) = z.
Proof.
  intros H. change (pad4 z) with (map dchar [z / 1000 mod 10; z / 100 mod 10; z / 10 mod 10; z mod 10]). rewrite dval_dchars by (repeat constructor; apply mod10). cbn [fold_left].
  Z.to_euclidean_division_equations; lia.
Qed.
Lemma just4_int z : 0 <= z <= 9999 -> py_int (just4 z) = Ok z /\ List.length (just4 z) = 4%nat.
Proof.
  intros H. unfold just4.
  assert (G : forall k l v, Forall (fun d => 0 <= d <= 9) l -> l <> [] -> fold_left (fun a d => 10 * a + d) l 0 = v -> py_int (repeat " "%char k ++ map dchar l) = Ok v).
  { intros k l v F Hne <-. rewrite py_int_digits; [rewrite dval_dchars by exact F; reflexivity|apply digits_dchars, F|destruct l; [congruence|discriminate]]. }
  destruct (Z.ltb_spec z 10); [|destruct (Z.ltb_spec z 100); [|destruct (Z.ltb_spec z 1000)]]; (split; [|reflexivity]).
  - apply (G 3%nat [z]); [repeat constructor; lia|discriminate|cbn [fold_left]; lia].
  - apply (G 2%nat [z / 10; z mod 10]); [repeat constructor; try apply mod10; Z.to_euclidean_division_equations; lia|discriminate|cbn [fold_left]; Z.to_euclidean_division_equations; lia].
  - apply (G 1%nat [z / 100; z / 10 mod 10; z mod 10]); [repeat constructor; try apply mod10; Z.to_euclidean_division_equations; lia|discriminate|cbn [fold_left]; Z.to_euclidean_division_equations; lia].
  - apply (G 0%nat [z / 1000; z / 100 mod 10; z / 10 mod 10; z mod 10]); [repeat constructor; try apply mod10; Z.to_euclidean_division_equations; lia|discriminate|cbn [fold_left]; Z.to_euclidean_division_equations; lia].
Qed.
