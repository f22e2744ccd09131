(** From the reals with infinities and NaN back to the ideal reals: [D x r] says that the extended number [x] is finite and equals
    the ideal result [r].  Every operation keeps this relation inside its domain, so that a computation over [XA] that never leaves
    the domains gives exactly the finite number computed over [RA]. *)

From Coq Require Import ZArith Reals Lra Lia String List Bool.
Import ListNotations.
From Verif Require Import Arith PyBase RealAux.
Open Scope R_scope.

Definition D (x : car XA) (r : car RA) : Prop := x = Fin r.

Lemma D_fin (r : R) : D (Fin r) r. Proof. reflexivity. Qed.
Lemma D_lit d : D (lit (a:=XA) d) (lit (a:=RA) d). Proof. reflexivity. Qed.
Lemma D_pi : D (pif (a:=XA)) (pif (a:=RA)). Proof. reflexivity. Qed.
Lemma D_add x y r s : D x r -> D y s -> D (add (a:=XA) x y) (add (a:=RA) r s). Proof. unfold D. intros -> ->. reflexivity. Qed.
Lemma D_sub x y r s : D x r -> D y s -> D (sub (a:=XA) x y) (sub (a:=RA) r s). Proof. unfold D. intros -> ->. reflexivity. Qed.
Lemma D_mul x y r s : D x r -> D y s -> D (mul (a:=XA) x y) (mul (a:=RA) r s). Proof. unfold D. intros -> ->. reflexivity. Qed.
Lemma D_opp x r : D x r -> D (opp (a:=XA) x) (opp (a:=RA) r). Proof. unfold D. intros ->. reflexivity. Qed.
Lemma D_abs x r : D x r -> D (absv (a:=XA) x) (absv (a:=RA) r). Proof. unfold D. intros ->. reflexivity. Qed.
Lemma D_exp x r : D x r -> D (expf (a:=XA) x) (expf (a:=RA) r). Proof. unfold D. intros ->. reflexivity. Qed.
Lemma D_div x y r s : D x r -> D y s -> (s : R) <> 0 -> D (div (a:=XA) x y) (div (a:=RA) r s).
Proof. unfold D. intros -> -> H. cbn. destruct (Req_EM_T s 0); [contradiction|reflexivity]. Qed.
Lemma D_ln x r : D x r -> 0 < (r : R) -> D (lnf (a:=XA) x) (lnf (a:=RA) r).
Proof. unfold D. intros -> H. cbn. destruct (Rlt_dec 0 r); [reflexivity|contradiction]. Qed.
Lemma D_log10 x r : D x r -> 0 < (r : R) -> D (log10f (a:=XA) x) (log10f (a:=RA) r).
Proof. unfold D. intros -> H. cbn. unfold xlog10, xln. destruct (Rlt_dec 0 r); [reflexivity|contradiction]. Qed.
Lemma D_sqrt x r : D x r -> 0 <= (r : R) -> D (sqrtf (a:=XA) x) (sqrtf (a:=RA) r).
Proof. unfold D. intros -> H. cbn. destruct (Rle_dec 0 r); [reflexivity|contradiction]. Qed.
Lemma D_pow x y r s : D x r -> D y s -> 0 < (r : R) -> D (powf (a:=XA) x y) (powf (a:=RA) r s).
Proof. unfold D. intros -> -> H. cbn. unfold Rpowf. destruct (Rlt_dec 0 r); [reflexivity|contradiction]. Qed.
Lemma D_powi x r n : D x r -> D (powi (A:=XA) x n) (powi (A:=RA) r n).
Proof. intros H. induction n as [|n IH]; [reflexivity|]. destruct n as [|n]; [exact H|]. apply D_mul; [exact H|exact IH]. Qed.

Lemma D_ltb x y r s : D x r -> D y s -> ltb (a:=XA) x y = ltb (a:=RA) r s. Proof. unfold D. intros -> ->. reflexivity. Qed.
Lemma D_eqb x y r s : D x r -> D y s -> eqb (a:=XA) x y = eqb (a:=RA) r s. Proof. unfold D. intros -> ->. reflexivity. Qed.
Lemma D_leb x y r s : D x r -> D y s -> leb (a:=XA) x y = leb (a:=RA) r s.
Proof.
  unfold D. intros -> ->. change (orb (Rltb r s) (Reqb r s) = Rleb r s). unfold Rltb, Reqb, Rleb.
  destruct (Rlt_dec r s), (Req_EM_T r s), (Rle_dec r s); cbn; auto; lra.
Qed.

Lemma D_if (b c : bool) x y r s : b = c -> D x r -> D y s -> D (if b then x else y) (if c then r else s).
Proof. intros ->. destruct c; auto. Qed.
Lemma D_maxv x y r s : D x r -> D y s -> D (maxv (A:=XA) x y) (maxv (A:=RA) r s).
Proof. intros H1 H2. unfold maxv. apply D_if; [apply D_ltb|..]; auto. Qed.

Lemma D_sum (l : list (car XA)) (m : list (car RA)) a b : D a b -> Forall2 D l m -> D (sum_from (A:=XA) a l) (sum_from (A:=RA) b m).
Proof. intros H H2. revert a b H. induction H2 as [|x r l m Hx H2 IH]; intros a b H; [exact H|]. apply IH, D_add; auto. Qed.

Lemma D_map {X Y} (P : X -> Y -> Prop) (f : X -> car XA) (g : Y -> car RA) l m :
  Forall2 P l m -> (forall x y, P x y -> D (f x) (g y)) -> Forall2 D (map f l) (map g m).
Proof. intros H Hf. induction H; constructor; auto. Qed.

Lemma D_list (l : list R) : Forall2 D (map Fin l) l.
Proof. induction l; constructor; auto. reflexivity. Qed.
Lemma D_list_inv (l : list (car XA)) (m : list (car RA)) : Forall2 D l m -> l = map Fin m.
Proof. induction 1 as [|x r l m H _ IH]; [reflexivity|]. cbn. rewrite <- IH. f_equal. exact H. Qed.

(** Syntax-directed application; the side conditions (non-zero divisors, positive bases and logarithms) are left. *)
Ltac dstep :=
  lazymatch goal with
  | |- D (lit _) _ => apply D_lit
  | |- D pif _ => apply D_pi
  | |- D (add _ _) _ => apply D_add
  | |- D (sub _ _) _ => apply D_sub
  | |- D (mul _ _) _ => apply D_mul
  | |- D (div _ _) _ => apply D_div
  | |- D (opp _) _ => apply D_opp
  | |- D (absv _) _ => apply D_abs
  | |- D (expf _) _ => apply D_exp
  | |- D (lnf _) _ => apply D_ln
  | |- D (log10f _) _ => apply D_log10
  | |- D (sqrtf _) _ => apply D_sqrt
  | |- D (powf _ _) _ => apply D_pow
  | |- D (powi _ _) _ => apply D_powi
  | |- D (maxv _ _) _ => apply D_maxv
  | |- D (if _ then _ else _) _ => apply D_if
  | |- ltb _ _ = _ => apply D_ltb
  | |- leb _ _ = _ => apply D_leb
  | |- eqb _ _ = _ => apply D_eqb
  | |- ?b = ?b => reflexivity
  end.
Ltac dfin := repeat (first [assumption | dstep]).
