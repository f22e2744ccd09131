(** Facts about [planck] that hold for every arithmetic (hence also for binary64). *)

From Coq Require Import ZArith List Bool Lia.
Import ListNotations.
From Verif Require Import Arith PyBase Utils RTE.
Local Open Scope arith_scope.

Section Gen.
Context {A : Arith}.
Notation num := (car A).
Implicit Types (hvk : num) (lv : list (num * num)) (t tl : list num).

(** One step of the ground loop. *)
Definition dn_step hvk (s : lev A) (x : num * num) : lev A :=
  let '(b, a, tau) := s in
  let b' := tk2b_mod hvk (fst x) in
  (b', a + lay_batm b b' (snd x) tau, tau + snd x).

(** The ground loop as a scan. *)
Fixpoint scan hvk (s : lev A) lv : list (lev A) :=
  match lv with [] => [] | x :: r => let s' := dn_step hvk s x in s' :: scan hvk s' r end.

Lemma planck_dn_scan hvk lv : forall b a tau,
  planck_dn hvk b a tau lv = scan hvk (b, a, tau) lv.
Proof.
  induction lv as [|[t d] lv IH]; intros; simpl; auto. rewrite IH. reflexivity.
Qed.

Lemma last_cons {T} (x : T) l d : last (x :: l) d = last l x.
Proof.
  revert x d; induction l as [|y l IH]; intros x d; [reflexivity|].
  change (last (x :: y :: l) d) with (last (y :: l) d). rewrite !IH. reflexivity.
Qed.

Lemma scan_app hvk l1 l2 : forall s,
  scan hvk s (l1 ++ l2) = scan hvk s l1 ++ scan hvk (last (scan hvk s l1) s) l2.
Proof.
  induction l1 as [|x l1 IH]; intros s; [reflexivity|].
  cbn [app scan]. rewrite IH. cbn [app]. f_equal. f_equal. f_equal.
  symmetry. apply last_cons.
Qed.

Lemma scan_length hvk lv : forall s, length (scan hvk s lv) = length lv.
Proof. induction lv; intros; simpl; auto. Qed.

(** All levels seen from the ground: level 0 is the antenna. *)
Definition levs_dn hvk lv : list (lev A) :=
  match lv with
  | [] => []
  | (t0, _) :: rest => let s := (tk2b_mod hvk t0, #0, #0) in s :: scan hvk s rest
  end.

Lemma levs_dn_snoc hvk lv x :
  lv <> [] ->
  levs_dn hvk (lv ++ [x]) = levs_dn hvk lv ++ [dn_step hvk (last (levs_dn hvk lv) (#0,#0,#0)) x].
Proof.
  destruct lv as [|[t0 d0] lv]; [congruence|]. intros _. cbn [app levs_dn].
  rewrite scan_app. cbn [app scan]. f_equal. f_equal. f_equal. f_equal.
  generalize (tk2b_mod hvk t0, lit (a:=A) 0, lit (a:=A) 0) as s; intros s.
  rewrite last_cons. reflexivity.
Qed.

(** The vertically reversed atmosphere: layer [i] of the reversed profile is layer [n-i]. The first
    opacity (never read) is set to 0. *)
Fixpoint rev_profile lv : list (num * num) :=
  match lv with
  | [] => []
  | (t, _) :: rest =>
      match rest with
      | [] => [(t, #0)]
      | (_, d) :: _ => rev_profile rest ++ [(t, d)]
      end
  end.

Lemma rev_profile_nil lv : rev_profile lv = [] -> lv = [].
Proof.
  destruct lv as [|[t d] [|[t1 d1] r]]; simpl; auto; try discriminate.
  intros H. exfalso. destruct r as [|[? ?] ?]; [discriminate|].
  apply app_eq_nil in H. destruct H; discriminate.
Qed.

Lemma hd_rev_last {T} (l : list T) d : hd d (rev l) = last l d.
Proof.
  induction l as [|x l IH] using rev_ind; [reflexivity|].
  rewrite rev_app_distr, last_last. reflexivity.
Qed.

Lemma planck_up_rev hvk lv : planck_up hvk lv = rev (levs_dn hvk (rev_profile lv)).
Proof.
  induction lv as [|[t d] lv IH]; [reflexivity|].
  destruct lv as [|[t1 d1] r]; [reflexivity|].
  change (rev_profile ((t, d) :: (t1, d1) :: r)) with (rev_profile ((t1, d1) :: r) ++ [(t, d1)]).
  assert (Hne : rev_profile ((t1, d1) :: r) <> []) by (intros H; apply rev_profile_nil in H; discriminate).
  rewrite levs_dn_snoc by exact Hne. rewrite rev_app_distr.
  change (planck_up hvk ((t, d) :: (t1, d1) :: r)) with
    (match planck_up hvk ((t1, d1) :: r) with
     | (b1, atm1, tau1) :: _ =>
        (tk2b_mod hvk t, atm1 + lay_batm b1 (tk2b_mod hvk t) d1 tau1, tau1 + d1)
        :: planck_up hvk ((t1, d1) :: r)
     | _ => [(tk2b_mod hvk t, #0, #0)] end).
  set (U := planck_up hvk ((t1, d1) :: r)) in *.
  set (L := levs_dn hvk (rev_profile ((t1, d1) :: r))) in *.
  rewrite <- (hd_rev_last L (#0,#0,#0)). rewrite <- IH.
  destruct U as [|[[b1 a1] ta1] U'] eqn:EU.
  - exfalso. assert (HL : rev L = []) by (rewrite <- IH; reflexivity).
    apply (f_equal (@length _)) in HL. rewrite rev_length in HL.
    unfold L in HL. destruct (rev_profile ((t1, d1) :: r)) as [|[? ?] ?]; [congruence|]; discriminate.
  - cbn [rev app hd]. reflexivity.
Qed.

(** [planck] on the ground, through [levs_dn]. *)
Lemma planck_ground es frq t tl lv :
  combine t tl = lv -> lv <> [] ->
  planck false es frq t tl =
    Ok (planck_close (hvk_of frq) (tk2b_mod (hvk_of frq) k_Tcosmicbkg)
          (last (levs_dn (hvk_of frq) lv) (#0,#0,#0)) (levs_dn (hvk_of frq) lv)).
Proof.
  intros E H. unfold planck. rewrite E. destruct lv as [|[t0 d0] r]; [congruence|].
  rewrite planck_dn_scan. cbn [levs_dn]. f_equal. f_equal.
  generalize (tk2b_mod (hvk_of frq) t0, lit (a:=A) 0, lit (a:=A) 0) as s. intros s.
  rewrite !last_cons. reflexivity.
Qed.

Lemma planck_sat es frq t tl lv (t0 d0 : num) r :
  combine t tl = lv -> lv = (t0, d0) :: r ->
  planck true es frq t tl =
    Ok (planck_close (hvk_of frq)
          (es * tk2b_mod (hvk_of frq) t0 + (#1 - es) * #0.0)
          (last (levs_dn (hvk_of frq) (rev_profile lv)) (#0,#0,#0))
          (rev (levs_dn (hvk_of frq) (rev_profile lv)))).
Proof.
  intros E H. unfold planck. rewrite E. rewrite H.
  rewrite planck_up_rev. rewrite hd_rev_last. reflexivity.
Qed.

(** An empty profile is refused. *)
Lemma planck_empty b es frq t tl : combine t tl = [] -> planck b es frq t tl = Err IndexError.
Proof. intros E. unfold planck. rewrite E. reflexivity. Qed.

(** [rev_profile] in terms of the two arrays. *)
Lemma rev_profile_combine : forall t tl, length t = length tl -> t <> [] ->
  rev_profile (combine t tl) = combine (rev t) (#0 :: rev (List.tl tl)).
Proof.
  assert (Hcomb : forall (l1 : list num) (l2 : list num) x y, length l1 = length l2 ->
            combine (l1 ++ [x]) (l2 ++ [y]) = combine l1 l2 ++ [(x, y)]).
  { induction l1; intros [|b l2] x y H; simpl in *; try discriminate; auto. f_equal; auto. }
  induction t as [|x t IH]; intros tl H Hne; [congruence|].
  destruct tl as [|d tl]; [discriminate|].
  destruct t as [|x1 t].
  - destruct tl; [|discriminate]. reflexivity.
  - destruct tl as [|d1 tl]; [discriminate|].
    change (rev_profile (combine (x :: x1 :: t) (d :: d1 :: tl)))
      with (rev_profile (combine (x1 :: t) (d1 :: tl)) ++ [(x, d1)]).
    rewrite IH; [|simpl in *; lia | discriminate].
    cbn [List.tl]. change (rev (x :: x1 :: t)) with (rev (x1 :: t) ++ [x]).
    change (rev (d1 :: tl)) with (rev tl ++ [d1]).
    rewrite app_comm_cons. rewrite Hcomb; [reflexivity|].
    rewrite rev_length. simpl in *. rewrite rev_length. lia.
Qed.

Lemma rev_profile_length lv : length (rev_profile lv) = length lv.
Proof.
  induction lv as [|[t d] [|[t1 d1] r] IH]; auto.
  change (rev_profile ((t, d) :: (t1, d1) :: r)) with (rev_profile ((t1, d1) :: r) ++ [(t, d1)]).
  rewrite app_length, IH. simpl. lia.
Qed.

Lemma levs_dn_length hvk lv : length (levs_dn hvk lv) = length lv.
Proof. destruct lv as [|[? ?] ?]; simpl; auto. rewrite scan_length. reflexivity. Qed.

End Gen.
