(** Claims C155 and C156: integrated cloud density of mixtures of cloud water, of several clouds and of divided clouds.

    Code: pyrtlib/rt_equation.py:343-366 (cloud_integrated_density). *)

From Coq Require Import ZArith Reals Lra Lia List Bool.
Import ListNotations.
From Verif Require Import Arith PyBase Utils RTE Spec RealAux PlanckReal PlanckMaster PropsPlanck Integral PropsCloud.
Open Scope R_scope.

(** ** C155: linear in the density, additive over the clouds *)

(** [c] times the densities [x] plus [d] times the densities [y]. *)
Definition mixture (c d : R) (x y : list R) : list R := map (fun '(u, v) => c * u + d * v) (combine x y).

Lemma mixture_nth c d : forall x y i, length x = length y -> nth i (mixture c d x y) 0 = c * nth i x 0 + d * nth i y 0.
Proof.
  induction x as [|u x IH]; intros [|v y] i H; try discriminate; [destruct i; simpl; lra|].
  destruct i; [reflexivity|]. cbn [mixture map combine nth]. apply (IH y i). now injection H.
Qed.

Lemma column_mixture c d x y ds b e : length x = length y ->
  column_between (mixture c d x y) ds b e = c * column_between x ds b e + d * column_between y ds b e.
Proof.
  intros H. unfold column_between. induction (e - b)%nat as [|n IH]; cbn [rsum]; [lra|].
  rewrite IH, !mixture_nth by exact H. lra.
Qed.

(** Every mixture of two distributions of cloud water, any number of clouds: both columns are numbers and that of the mixture is the mixture of the columns. *)
Theorem C155_linear (x y ds : list R) (bases tops : list nat) (c d : R) : length x = length y -> length bases = length tops ->
  (forall e, In e tops -> (e <= length x)%nat /\ (e <= length ds)%nat) ->
  exists s s', Xdens x ds bases tops = Ok (Fin s) /\ Xdens y ds bases tops = Ok (Fin s') /\ Xdens (mixture c d x y) ds bases tops = Ok (Fin (c * s + d * s')).
Proof.
  intros H L T. eexists. eexists. split; [apply C20_exact; assumption|]. split; [apply C20_exact; [exact L|rewrite <- H; exact T]|].
  rewrite C20_exact; [|exact L|intros e He; destruct (T e He); unfold mixture; rewrite map_length, combine_length, <- H, Nat.min_id; lia].
  apply f_equal, f_equal. generalize (combine bases tops) as l. clear L T.
  induction l as [|[b e] l IH]; cbn [map fold_right]; [lra|]. rewrite column_mixture by exact H. lra.
Qed.

(** The clouds of two lists together: the columns add up, also when clouds overlap. *)
Theorem C155_additive (x ds : list R) (b1 t1 b2 t2 : list nat) : length b1 = length t1 -> length b2 = length t2 ->
  (forall e, In e (t1 ++ t2) -> (e <= length x)%nat /\ (e <= length ds)%nat) ->
  exists s s', Xdens x ds b1 t1 = Ok (Fin s) /\ Xdens x ds b2 t2 = Ok (Fin s') /\ Xdens x ds (b1 ++ b2) (t1 ++ t2) = Ok (Fin (s + s')).
Proof.
  intros L1 L2 T. eexists. eexists. split; [apply C20_exact; [exact L1|intros; apply T, in_or_app; auto]|]. split; [apply C20_exact; [exact L2|intros; apply T, in_or_app; auto]|].
  rewrite C20_exact; [|rewrite !app_length; lia|exact T]. apply f_equal, f_equal. clear T. revert t1 L1.
  induction b1 as [|b b1 IH]; intros [|t t1] L1; try discriminate; cbn [app combine map fold_right]; [lra|].
  injection L1 as L1. specialize (IH t1 L1). lra.
Qed.

Example C155_example : Xdens (mixture 2 3 [0.1; 0.2; 0.4] [0.5; 0.1; 0.3]) [0; 1; 2] [0%nat] [2%nat] = Ok (Fin (2 * 0.015 + 3 * 0.03)).
Proof.
  rewrite C20_exact; [|reflexivity|intros e [<-|[]]; simpl; lia]. apply f_equal, f_equal. unfold column_between, mixture. simpl. lra.
Qed.

(** ** C156: a cloud described as two clouds *)

Lemma column_join x ds b m e : (b <= m)%nat -> (m <= e)%nat -> column_between x ds b e = column_between x ds b m + column_between x ds m e.
Proof.
  intros H1 H2. unfold column_between. replace (e - b)%nat with ((m - b) + (e - m))%nat by lia. rewrite rsum_split. f_equal.
  apply rsum_ext. intros i Hi. replace (b + 1 + (m - b + i))%nat with (m + 1 + i)%nat by lia. replace (b + (m - b + i))%nat with (m + i)%nat by lia. reflexivity.
Qed.

(** A cloud from level [b] to level [e] described as one from [b] to [m] and one from [m] to [e]: the water of the layer below [m] is lost. *)
Theorem C156_divided_exact (x ds : list R) (b m e : nat) : (b < m < e)%nat -> (e <= length x)%nat -> (e <= length ds)%nat ->
  exists s, Xdens x ds [b] [e] = Ok (Fin s) /\ Xdens x ds [b; m] [m; e] = Ok (Fin (s - 0.1 * (nth m ds 0 * ((nth m x 0 + nth (m - 1) x 0) / 2)))).
Proof.
  intros H1 H2 H3. eexists. split; [apply C20_exact; [reflexivity|intros t [<-|[]]; lia]|].
  rewrite C20_exact; [|reflexivity|intros t [<-|[<-|[]]]; lia]. apply f_equal, f_equal. cbn [combine map fold_right].
  rewrite (column_join x ds b m (e - 1)) by lia. rewrite (column_join x ds b (m - 1) m) by lia.
  assert (LAY : column_between x ds (m - 1) m = nth m ds 0 * ((nth m x 0 + nth (m - 1) x 0) / 2)).
  { unfold column_between. replace (m - (m - 1))%nat with 1%nat by lia. cbn [rsum]. rewrite !Nat.add_0_r. replace (m - 1 + 1)%nat with m by lia. lra. }
  rewrite LAY. lra.
Qed.

(** The claim itself is false for every cloud with water at the level of the division. *)
Theorem C156_divided_cloud_refuted (x ds : list R) (b m e : nat) : (b < m < e)%nat -> (e <= length x)%nat -> (e <= length ds)%nat ->
  0 < nth m x 0 -> 0 <= nth (m - 1) x 0 -> 0 < nth m ds 0 -> Xdens x ds [b; m] [m; e] <> Xdens x ds [b] [e].
Proof.
  intros H1 H2 H3 X X' D. destruct (C156_divided_exact x ds b m e H1 H2 H3) as (s & -> & ->). intros E. injection E as E.
  assert (0 < nth m ds 0 * ((nth m x 0 + nth (m - 1) x 0) / 2)) by (apply Rmult_lt_0_compat; lra). lra.
Qed.

Example C156_example : Xdens [0.2; 0.2; 0.2; 0.2; 0.2] [0; 1; 1; 1; 1] [0%nat] [4%nat] = Ok (Fin 0.06) /\ Xdens [0.2; 0.2; 0.2; 0.2; 0.2] [0; 1; 1; 1; 1] [0%nat; 2%nat] [2%nat; 4%nat] = Ok (Fin 0.04).
Proof.
  split; (rewrite C20_exact; [|reflexivity|cbn [In length]; intros t T; lia]); apply f_equal, f_equal; unfold column_between; simpl; lra.
Qed.
