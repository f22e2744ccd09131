(** C140: splitting a sounding at a level, and levels inside isothermal layers. *)

From Coq Require Import ZArith Reals Lra Lia List Bool.
Import ListNotations.
From Verif Require Import Arith PyBase Utils RTE Spec RealAux PlanckReal PlanckMaster Integral Machine PropsRound.
Open Scope R_scope.

Lemma path_tau_split d m n : path_tau d (m + n) = path_tau d m + path_tau (fun i => d (m + i)%nat) n.
Proof. unfold path_tau. rewrite rsum_split. f_equal. apply rsum_ext. intros i _. f_equal. lia. Qed.

Lemma path_atm_split B d m n :
  path_atm B d (m + n) = path_atm B d m + exp (- path_tau d m) * path_atm (fun i => B (m + i)%nat) (fun i => d (m + i)%nat) n.
Proof.
  unfold path_atm. rewrite rsum_split. f_equal. rewrite <- rsum_scal. apply rsum_ext. intros i _.
  rewrite path_tau_split. replace (S (m + i)) with (m + S i)%nat by lia. rewrite path_tau_split.
  rewrite !Ropp_plus_distr, !exp_plus. ring.
Qed.

Lemma path_tau_ext d d' n : (forall i, (1 <= i <= n)%nat -> d i = d' i) -> path_tau d n = path_tau d' n.
Proof. intros H. apply rsum_ext. intros i Hi. apply H. lia. Qed.

Lemma path_atm_ext B B' d d' n : (forall i, (i <= n)%nat -> B i = B' i) -> (forall i, (1 <= i <= n)%nat -> d i = d' i) ->
  path_atm B d n = path_atm B' d' n.
Proof.
  intros HB Hd. apply rsum_ext. intros i Hi. rewrite (HB i), (HB (S i)), (Hd (S i)) by lia.
  rewrite (path_tau_ext d d' i), (path_tau_ext d d' (S i)); auto; intros; apply Hd; lia.
Qed.

Lemma total_tau_stack l1 a x l2 : total_tau (l1 ++ a :: l2) = total_tau (l1 ++ [a]) + total_tau (x :: l2).
Proof.
  unfold total_tau. destruct l1 as [|y l1]; simpl; [lra|]. induction l1 as [|z l1 IH]; simpl; [lra|]. rewrite IH. simpl. lra.
Qed.

(** Emission of a sounding split at the level of temperature [T], seen from below and from above. *)
Lemma stack_ground h t1 T t2 l1 a x l2 : length t1 = length l1 -> length t2 = length l2 ->
  total_atm false h (t1 ++ T :: t2) (l1 ++ a :: l2) =
  total_atm false h (t1 ++ [T]) (l1 ++ [a]) + exp (- total_tau (l1 ++ [a])) * total_atm false h (T :: t2) (x :: l2).
Proof.
  intros H1 H2. unfold total_atm. rewrite !app_length. simpl. replace (length t1 + S (length t2) - 1)%nat with (length t1 + length t2)%nat by lia.
  replace (length t1 + 1 - 1)%nat with (length t1) by lia. replace (length t2 - 0)%nat with (length t2) by lia.
  rewrite path_atm_split. f_equal; [|f_equal].
  - apply path_atm_ext; intros i Hi; unfold view_T, view_D.
    + f_equal. replace (t1 ++ T :: t2) with ((t1 ++ [T]) ++ t2) by (rewrite <- app_assoc; reflexivity). apply app_nth1. rewrite app_length. simpl. lia.
    + replace (l1 ++ a :: l2) with ((l1 ++ [a]) ++ l2) by (rewrite <- app_assoc; reflexivity). apply app_nth1. rewrite app_length. simpl. lia.
  - f_equal. f_equal. rewrite <- (total_tau_view false) by (destruct l1; discriminate). rewrite app_length. simpl.
    replace (length l1 + 1 - 1)%nat with (length t1) by lia. apply path_tau_ext. intros i Hi. unfold view_D.
    replace (l1 ++ a :: l2) with ((l1 ++ [a]) ++ l2) by (rewrite <- app_assoc; reflexivity). apply app_nth1. rewrite app_length. simpl. lia.
  - apply path_atm_ext; intros i Hi; unfold view_T, view_D.
    + rewrite app_nth2 by lia. replace (length t1 + i - length t1)%nat with i by lia. reflexivity.
    + rewrite app_nth2 by lia. destruct i; [lia|]. replace (length t1 + S i - length l1)%nat with (S i) by lia. reflexivity.
Qed.

Lemma stack_sat h t1 T t2 l1 a x l2 : length t1 = length l1 -> length t2 = length l2 ->
  total_atm true h (t1 ++ T :: t2) (l1 ++ a :: l2) =
  total_atm true h (T :: t2) (x :: l2) + exp (- total_tau (x :: l2)) * total_atm true h (t1 ++ [T]) (l1 ++ [a]).
Proof.
  intros H1 H2. unfold total_atm. rewrite !app_length. simpl. replace (length t1 + S (length t2) - 1)%nat with (length t2 + length t1)%nat by lia.
  replace (length t1 + 1 - 1)%nat with (length t1) by lia. replace (length t2 - 0)%nat with (length t2) by lia.
  assert (D1 : forall i, (1 <= i <= length t2)%nat -> view_D true (l1 ++ a :: l2) i = view_D true (x :: l2) i).
  { intros i Hi. unfold view_D. rewrite app_length. cbn [length]. rewrite app_nth2 by lia.
    replace (length l1 + S (length l2) - i - length l1)%nat with (S (length l2 - i)) by lia.
    replace (S (length l2) - i)%nat with (S (length l2 - i)) by lia. reflexivity. }
  rewrite path_atm_split. f_equal; [|f_equal].
  - apply path_atm_ext; auto. intros i Hi; unfold view_T. f_equal. rewrite app_length. cbn [length]. rewrite app_nth2 by lia.
    replace (length t1 + S (length t2) - 1 - i - length t1)%nat with (length t2 - i)%nat by lia. reflexivity.
  - f_equal. f_equal. rewrite <- (total_tau_view true) by discriminate. simpl length. replace (S (length l2) - 1)%nat with (length t2) by lia.
    apply path_tau_ext. auto.
  - apply path_atm_ext; intros i Hi; unfold view_T, view_D.
    + f_equal. rewrite !app_length. simpl.
      replace (t1 ++ T :: t2) with ((t1 ++ [T]) ++ t2) by (rewrite <- app_assoc; reflexivity). rewrite app_nth1 by (rewrite app_length; simpl; lia). f_equal. lia.
    + rewrite !app_length. simpl.
      replace (l1 ++ a :: l2) with ((l1 ++ [a]) ++ l2) by (rewrite <- app_assoc; reflexivity). rewrite app_nth1 by (rewrite app_length; simpl; lia). f_equal. lia.
Qed.

Lemma len_app (a b c d : list R) : length a = length b -> length c = length d -> length (a ++ c) = length (b ++ d).
Proof. intros. rewrite !app_length. lia. Qed.

Ltac lens := match goal with |- length (?a ++ ?c) = length (?b ++ ?d) => apply (len_app a b c d); [assumption|simpl; auto] end.

(** ** C140 *)

(** The radiance at the ground is the emission of the layers below a level plus, attenuated by them, the radiance a radiometer at that
    level would receive; all numbers as returned by [planck] for the two parts. *)
Theorem C140_ground es f t1 T t2 l1 a x l2 : length t1 = length l1 -> length t2 = length l2 ->
  (forall d, In d (l1 ++ a :: l2) -> 0 <= d) -> total_tau (l1 ++ a :: l2) < 125 ->
  exists o low up,
    planck (A:=RA) false es f (t1 ++ T :: t2) (l1 ++ a :: l2) = Ok o /\
    planck (A:=RA) false es f (t1 ++ [T]) (l1 ++ [a]) = Ok low /\
    planck (A:=RA) false es f (T :: t2) (x :: l2) = Ok up /\
    p_boftotl o = (p_boftotl low - p_bakgrnd low) + exp (- total_tau (l1 ++ [a])) * p_boftotl up.
Proof.
  intros H1 H2 Hd Ht.
  destruct (planck_master false es f (t1 ++ T :: t2) (l1 ++ a :: l2)) as (o & Ho & _ & _ & _ & _ & O & _);
    [lens|destruct t1; discriminate|].
  destruct (planck_master false es f (t1 ++ [T]) (l1 ++ [a])) as (p & Hp & _ & _ & _ & _ & P & _);
    [lens|destruct t1; discriminate|].
  destruct (planck_master false es f (T :: t2) (x :: l2)) as (q & Hq & _ & _ & _ & _ & Q & _); [exact (f_equal S H2)|discriminate|].
  exists o, p, q. split; [exact Ho|]. split; [exact Hp|]. split; [exact Hq|].
  assert (E := total_tau_stack l1 a x l2).
  assert (N1 : 0 <= total_tau (l1 ++ [a])).
  { apply total_tau_nonneg. intros d Hi. apply Hd. apply in_app_iff in Hi. apply in_app_iff. destruct Hi as [Hi|[Hi|[]]]; [auto|right; left; auto]. }
  assert (N2 : 0 <= total_tau (x :: l2)).
  { assert (N := total_tau_nonneg (0 :: l2)). apply N. intros d [<-|Hi]; [lra|]. apply Hd. apply in_app_iff. right. right. auto. }
  destruct (O Ht) as (_ & Eo & _). destruct (P ltac:(lra)) as (Eb & Ep & _). destruct (Q ltac:(lra)) as (_ & Eq & _).
  set (h := spec_hvk f) in *. assert (S := stack_ground h t1 T t2 l1 a x l2 H1 H2).
  rewrite Eo, Ep, Eb, Eq. unfold background.
  assert (X : exp (- total_tau (l1 ++ a :: l2)) = exp (- total_tau (l1 ++ [a])) * exp (- total_tau (x :: l2)))
    by (rewrite E, Ropp_plus_distr; apply exp_plus).
  etransitivity; [apply f_equal2; [rewrite X; reflexivity|exact S]|]. simpl. ring.
Qed.

(** Seen from a satellite: the emission of the layers above a level plus, attenuated by them, what a satellite at that level would see. *)
Theorem C140_satellite es f t1 T t2 l1 a x l2 : length t1 = length l1 -> length t2 = length l2 ->
  (forall d, In d (l1 ++ a :: l2) -> 0 <= d) -> total_tau (l1 ++ a :: l2) < 125 ->
  exists o low up,
    planck (A:=RA) true es f (t1 ++ T :: t2) (l1 ++ a :: l2) = Ok o /\
    planck (A:=RA) true es f (t1 ++ [T]) (l1 ++ [a]) = Ok low /\
    planck (A:=RA) true es f (T :: t2) (x :: l2) = Ok up /\
    p_boftotl o = (p_boftotl up - p_bakgrnd up) + exp (- total_tau (x :: l2)) * p_boftotl low.
Proof.
  intros H1 H2 Hd Ht.
  destruct (planck_master true es f (t1 ++ T :: t2) (l1 ++ a :: l2)) as (o & Ho & _ & _ & _ & _ & O & _);
    [lens|destruct t1; discriminate|].
  destruct (planck_master true es f (t1 ++ [T]) (l1 ++ [a])) as (p & Hp & _ & _ & _ & _ & P & _);
    [lens|destruct t1; discriminate|].
  destruct (planck_master true es f (T :: t2) (x :: l2)) as (q & Hq & _ & _ & _ & _ & Q & _); [exact (f_equal S H2)|discriminate|].
  exists o, p, q. split; [exact Ho|]. split; [exact Hp|]. split; [exact Hq|].
  assert (E := total_tau_stack l1 a x l2).
  assert (N1 : 0 <= total_tau (l1 ++ [a])).
  { apply total_tau_nonneg. intros d Hi. apply Hd. apply in_app_iff in Hi. apply in_app_iff. destruct Hi as [Hi|[Hi|[]]]; [auto|right; left; auto]. }
  assert (N2 : 0 <= total_tau (x :: l2)).
  { assert (N := total_tau_nonneg (0 :: l2)). apply N. intros d [<-|Hi]; [lra|]. apply Hd. apply in_app_iff. right. right. auto. }
  destruct (O Ht) as (_ & Eo & _). destruct (P ltac:(lra)) as (_ & Ep & _). destruct (Q ltac:(lra)) as (Eb & Eq & _).
  set (h := spec_hvk f) in *. assert (S := stack_sat h t1 T t2 l1 a x l2 H1 H2).
  rewrite Eo, Ep, Eb, Eq.
  assert (X : exp (- total_tau (l1 ++ a :: l2)) = exp (- total_tau (l1 ++ [a])) * exp (- total_tau (x :: l2)))
    by (rewrite E, Ropp_plus_distr; apply exp_plus).
  assert (B : background true es h (t1 ++ T :: t2) = background true es h (t1 ++ [T])) by (unfold background; destruct t1; reflexivity).
  etransitivity; [apply f_equal2; [rewrite X, B; reflexivity|exact S]|]. simpl. ring.
Qed.

Lemma iso3 sat h T x d1 d2 : total_atm sat h [T; T; T] [x; d1; d2] = total_atm sat h [T; T] [x; d1 + d2].
Proof.
  assert (A := total_atm_iso sat h T 3 [x; d1; d2] eq_refl ltac:(lia)). assert (B := total_atm_iso sat h T 2 [x; d1 + d2] eq_refl ltac:(lia)).
  cbn [repeat] in A, B. rewrite A, B.
  unfold total_tau. simpl. do 4 f_equal. lra.
Qed.

Lemma merge_atm sat h t1 T t2 l1 a d1 d2 l2 : length t1 = length l1 -> length t2 = length l2 ->
  total_atm sat h (t1 ++ T :: T :: T :: t2) (l1 ++ a :: d1 :: d2 :: l2) = total_atm sat h (t1 ++ T :: T :: t2) (l1 ++ a :: (d1 + d2) :: l2).
Proof.
  intros H1 H2.
  assert (Tt : total_tau (0 :: d1 :: d2 :: l2) = total_tau (0 :: d1 + d2 :: l2)) by (unfold total_tau; simpl; lra).
  assert (T2 : total_tau [0; d1; d2] = total_tau [0; d1 + d2]) by (unfold total_tau; simpl; lra).
  assert (M : total_atm sat h (T :: T :: T :: t2) (0 :: d1 :: d2 :: l2) = total_atm sat h (T :: T :: t2) (0 :: d1 + d2 :: l2)).
  { destruct sat.
    - assert (A := stack_sat h [T; T] T t2 [0; d1] d2 0 l2 eq_refl H2). assert (B := stack_sat h [T] T t2 [0] (d1 + d2) 0 l2 eq_refl H2).
      simpl in A, B. rewrite A, B. f_equal. f_equal. apply iso3.
    - assert (A := stack_ground h [T; T] T t2 [0; d1] d2 0 l2 eq_refl H2). assert (B := stack_ground h [T] T t2 [0] (d1 + d2) 0 l2 eq_refl H2).
      cbn [app] in A, B. rewrite A, B, T2. f_equal. apply iso3. }
  destruct sat.
  - rewrite (stack_sat h t1 T (T :: T :: t2) l1 a 0 (d1 :: d2 :: l2)), (stack_sat h t1 T (T :: t2) l1 a 0 (d1 + d2 :: l2)) by (simpl; auto).
    rewrite M, Tt. reflexivity.
  - rewrite (stack_ground h t1 T (T :: T :: t2) l1 a 0 (d1 :: d2 :: l2)), (stack_ground h t1 T (T :: t2) l1 a 0 (d1 + d2 :: l2)) by (simpl; auto).
    rewrite M. reflexivity.
Qed.

(** A level inserted in an isothermal layer changes nothing, whichever way its opacity is divided: radiances and brightness temperature
    are those of the undivided layer. *)
Theorem C140_merge (sat : bool) es f t1 T t2 l1 a d1 d2 l2 : length t1 = length l1 -> length t2 = length l2 ->
  total_tau (l1 ++ a :: d1 :: d2 :: l2) < 125 ->
  tb_of (A:=RA) sat es f (t1 ++ T :: T :: T :: t2) (l1 ++ a :: d1 :: d2 :: l2) = tb_of (A:=RA) sat es f (t1 ++ T :: T :: t2) (l1 ++ a :: (d1 + d2) :: l2).
Proof.
  intros H1 H2 Ht.
  destruct (planck_master sat es f (t1 ++ T :: T :: T :: t2) (l1 ++ a :: d1 :: d2 :: l2)) as (o & Ho & O1 & _ & _ & _ & O & _);
    [lens|destruct t1; discriminate|].
  destruct (planck_master sat es f (t1 ++ T :: T :: t2) (l1 ++ a :: (d1 + d2) :: l2)) as (p & Hp & P1 & _ & _ & _ & P & _);
    [lens|destruct t1; discriminate|].
  assert (E : total_tau (l1 ++ a :: (d1 + d2) :: l2) = total_tau (l1 ++ a :: d1 :: d2 :: l2)).
  { rewrite (total_tau_stack l1 a 0 (d1 + d2 :: l2)), (total_tau_stack l1 a 0 (d1 :: d2 :: l2)). f_equal. unfold total_tau. simpl. lra. }
  destruct (O Ht) as (_ & Eo & _). destruct (P ltac:(lra)) as (_ & Ep & _).
  unfold tb_of. rewrite Ho, Hp, O1, P1, Eo, Ep, E. do 2 f_equal.
  assert (M := merge_atm sat (spec_hvk f) t1 T t2 l1 a d1 d2 l2 H1 H2).
  assert (B : background sat es (spec_hvk f) (t1 ++ T :: T :: T :: t2) = background sat es (spec_hvk f) (t1 ++ T :: T :: t2))
    by (unfold background; destruct sat; [destruct t1; reflexivity|reflexivity]).
  apply f_equal2; [rewrite B; reflexivity|exact M].
Qed.

Example C140_ground_case : exists o low up,
  planck (A:=RA) false 1 22.235 [288; 260; 220] [0; 0.1; 0.02] = Ok o /\
  planck (A:=RA) false 1 22.235 [288; 260] [0; 0.1] = Ok low /\ planck (A:=RA) false 1 22.235 [260; 220] [0; 0.02] = Ok up /\
  p_boftotl o = (p_boftotl low - p_bakgrnd low) + exp (- (0.1)) * p_boftotl up.
Proof.
  destruct (C140_ground 1 22.235 [288] 260 [220] [0] 0.1 0 [0.02]) as (o & p & q & H); [reflexivity|reflexivity| |unfold total_tau; simpl; lra|].
  { intros d [<-|[<-|[<-|[]]]]; lra. }
  exists o, p, q. unfold total_tau in H. simpl in H. rewrite Rplus_0_r in H. exact H.
Qed.

Example C140_satellite_case : exists o low up,
  planck (A:=RA) true 0.9 22.235 [288; 260; 220] [0; 0.1; 0.02] = Ok o /\
  planck (A:=RA) true 0.9 22.235 [288; 260] [0; 0.1] = Ok low /\ planck (A:=RA) true 0.9 22.235 [260; 220] [0; 0.02] = Ok up /\
  p_boftotl o = (p_boftotl up - p_bakgrnd up) + exp (- (0.02)) * p_boftotl low.
Proof.
  destruct (C140_satellite 0.9 22.235 [288] 260 [220] [0] 0.1 0 [0.02]) as (o & p & q & H); [reflexivity|reflexivity| |unfold total_tau; simpl; lra|].
  { intros d [<-|[<-|[<-|[]]]]; lra. }
  exists o, p, q. unfold total_tau in H. simpl in H. rewrite Rplus_0_r in H. exact H.
Qed.

Example C140_merge_case : tb_of (A:=RA) true 0.9 22.235 [288; 217; 217; 217; 230] [0; 0.1; 0.02; 0.03; 0.01]
  = tb_of (A:=RA) true 0.9 22.235 [288; 217; 217; 230] [0; 0.1; 0.02 + 0.03; 0.01].
Proof. apply (C140_merge true 0.9 22.235 [288] 217 [230] [0] 0.1 0.02 0.03 [0.01]); [reflexivity|reflexivity|unfold total_tau; simpl; lra]. Qed.
