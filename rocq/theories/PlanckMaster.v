(** [planck] over the reals equals the specification, both viewing modes, every profile length. *)

From Coq Require Import ZArith Reals Lra Lia List Bool.
Import ListNotations.
From Verif Require Import Arith PyBase Utils RTE Spec RealAux PlanckGen PlanckReal.
Open Scope R_scope.

Lemma hvk_of_R f : hvk_of (A:=RA) f = spec_hvk f.
Proof. unfold hvk_of, spec_hvk, k_planck, k_boltzmann. ra. unfold Rdiv. lra. Qed.

Lemma path_tau_ext d d' k : (forall i, (1 <= i <= k)%nat -> d i = d' i) -> path_tau d k = path_tau d' k.
Proof. intros H. apply rsum_ext. intros i Hi. apply H. lia. Qed.

Lemma path_atm_ext B B' d d' k : (forall i, (1 <= i <= k)%nat -> d i = d' i) ->
  (forall i, (i <= k)%nat -> B i = B' i) -> path_atm B d k = path_atm B' d' k.
Proof.
  intros Hd HB. apply rsum_ext. intros i Hi.
  rewrite (HB i), (HB (S i)), (Hd (S i)) by lia.
  rewrite (path_tau_ext d d' i), (path_tau_ext d d' (S i)); auto; intros; apply Hd; lia.
Qed.

Lemma nth_combine_fst (t tl : list R) i : length t = length tl -> rT (combine t tl) i = nth i t 0.
Proof. intros H. unfold rT. change (0, 0) with (@pair R R 0 0). rewrite combine_nth by auto. reflexivity. Qed.
Lemma nth_combine_snd (t tl : list R) i : length t = length tl -> rD (combine t tl) i = nth i tl 0.
Proof. intros H. unfold rD. rewrite combine_nth by auto. reflexivity. Qed.

(** The observer-ordered profile of both branches. *)
Definition viewed (sat : bool) (t tl : list R) : list (R * R) :=
  if sat then rev_profile (A:=RA) (combine t tl) else combine t tl.

Lemma viewed_T sat t tl i : length t = length tl -> t <> [] -> (i < length t)%nat ->
  rT (viewed sat t tl) i = view_T sat t i.
Proof.
  intros Hl Hne Hi. unfold viewed, view_T. destruct sat.
  - rewrite (rev_profile_combine (A:=RA)) by auto. change (car RA) with R.
    rewrite nth_combine_fst.
    + rewrite rev_nth by auto. f_equal. lia.
    + cbn [length]. rewrite !rev_length. destruct tl as [|d0 tl]; [destruct t; simpl in *; congruence|exact Hl].
  - apply nth_combine_fst; auto.
Qed.

Lemma viewed_D sat t tl i : length t = length tl -> t <> [] -> (1 <= i < length t)%nat ->
  rD (viewed sat t tl) i = view_D sat tl i.
Proof.
  intros Hl Hne Hi. unfold viewed, view_D. destruct sat.
  - rewrite (rev_profile_combine (A:=RA)) by auto. change (car RA) with R.
    rewrite nth_combine_snd.
    + destruct i as [|i]; [lia|]. cbn [nth]. destruct tl as [|d0 tl]; [simpl in *; lia|].
      cbn [List.tl]. simpl in Hl.
      rewrite rev_nth by lia.
      replace (length (d0 :: tl) - S i)%nat with (S (length tl - S i))%nat by (simpl; lia).
      reflexivity.
    + cbn [length]. rewrite !rev_length. destruct tl as [|d0 tl]; [destruct t; simpl in *; congruence|exact Hl].
  - apply nth_combine_snd; auto.
Qed.

Lemma viewed_length sat t tl : length t = length tl -> length (viewed sat t tl) = length t.
Proof.
  intros H. unfold viewed. destruct sat; [etransitivity; [apply (rev_profile_length (A:=RA))|]|];
    rewrite combine_length; lia.
Qed.

Lemma viewed_tau sat t tl k : length t = length tl -> t <> [] -> (k < length t)%nat ->
  path_tau (rD (viewed sat t tl)) k = path_tau (view_D sat tl) k.
Proof. intros. apply path_tau_ext. intros i Hi. apply viewed_D; auto; lia. Qed.

Lemma viewed_atm sat h t tl k : length t = length tl -> t <> [] -> (k < length t)%nat ->
  path_atm (fun i => planckB h (rT (viewed sat t tl) i)) (rD (viewed sat t tl)) k =
  path_atm (fun i => planckB h (view_T sat t i)) (view_D sat tl) k.
Proof.
  intros. apply path_atm_ext.
  - intros i Hi. apply viewed_D; auto; lia.
  - intros i Hi. rewrite viewed_T; auto; lia.
Qed.

Lemma rsum_list (l : list R) : rsum (length l) (fun i => nth i l 0) = fold_right Rplus 0 l.
Proof.
  induction l as [|x l IH]; [reflexivity|]. cbn [length]. change (S (length l)) with (1 + length l)%nat.
  rewrite rsum_split. simpl. rewrite IH. lra.
Qed.

Lemma total_tau_view sat tl : tl <> [] -> path_tau (view_D sat tl) (length tl - 1) = total_tau tl.
Proof.
  intros Hne. destruct tl as [|d0 tl]; [congruence|]. unfold total_tau, path_tau, view_D. cbn [List.tl length].
  rewrite Nat.sub_succ, Nat.sub_0_r. rewrite <- rsum_list. destruct sat.
  - rewrite rsum_rev. apply rsum_ext. intros i Hi.
    replace (S (length tl) - S (length tl - 1 - i))%nat with (S i) by lia. reflexivity.
  - apply rsum_ext. intros i Hi. reflexivity.
Qed.

Lemma rev_map_seq {T} (f : nat -> T) n : rev (map f (seq 0 n)) = map (fun k => f (n - 1 - k)%nat) (seq 0 n).
Proof.
  induction n; [reflexivity|]. rewrite seq_S at 1. rewrite map_app, rev_app_distr. cbn [map rev app].
  rewrite IHn. cbn [seq map]. rewrite Nat.sub_0_r. simpl. rewrite Nat.sub_0_r. f_equal.
  rewrite <- seq_shift, map_map. apply map_ext_in. intros k Hk. apply in_seq in Hk. f_equal. lia.
Qed.

Lemma last_map_seq {T} (f : nat -> T) n d : (0 < n)%nat -> last (map f (seq 0 n)) d = f (n - 1)%nat.
Proof.
  intros H. destruct n as [|n]; [lia|]. rewrite seq_S, map_app. cbn [map]. rewrite last_last.
  f_equal. lia.
Qed.

Lemma planck_master (sat : bool) (es f : R) (t tl : list R) :
  length t = length tl -> t <> [] ->
  let h := spec_hvk f in
  let tau := total_tau tl in
  let atm := total_atm sat h t tl in
  let bg := background sat es h t in
  exists o, planck (A:=RA) sat es f t tl = Ok o /\
    p_hvk o = h /\
    p_boft o = map (planckB h) t /\
    p_tauprof o = map (spec_tau sat tl) (seq 0 (length t)) /\
    p_boftatm o = map (spec_atm sat h t tl) (seq 0 (length t)) /\
    (tau < 125 ->
       p_bakgrnd o = bg * exp (- tau) /\ p_boftotl o = bg * exp (- tau) + atm /\
       p_boftmr o = atm / (1 - exp (- tau))) /\
    (125 <= tau -> p_bakgrnd o = 0 /\ p_boftotl o = atm /\ p_boftmr o = atm).
Proof.
  intros Hl Hne h tau atm bg.
  assert (Hn : (0 < length t)%nat) by (destruct t; [congruence|simpl; lia]).
  set (lv := viewed sat t tl).
  assert (Hlen : length lv = length t) by (apply viewed_length; auto).
  assert (Hlv : lv <> []) by (intros H; rewrite H in Hlen; simpl in Hlen; lia).
  set (L := levs_dn (A:=RA) h lv).
  assert (HL : L = map (fun k => (planckB h (view_T sat t k),
                 path_atm (fun i => planckB h (view_T sat t i)) (view_D sat tl) k,
                 path_tau (view_D sat tl) k)) (seq 0 (length t))).
  { unfold L. rewrite levs_dn_R, Hlen. apply map_ext_in. intros k Hk. apply in_seq in Hk.
    unfold lv. rewrite viewed_T, viewed_atm, viewed_tau by (auto; lia). reflexivity. }
  assert (Hfar : forall d, last L d = (planckB h (view_T sat t (length t - 1)), atm, tau)).
  { intros d. rewrite HL. rewrite last_map_seq by auto. f_equal.
    rewrite Hl. apply total_tau_view. destruct tl; [simpl in *; lia|discriminate]. }
  assert (Hplanck : planck (A:=RA) sat es f t tl =
     Ok (planck_close (A:=RA) h bg (planckB h (view_T sat t (length t - 1)), atm, tau)
           (if sat then rev L else L))).
  { unfold bg, background, L, lv, viewed. destruct sat.
    - destruct (combine t tl) as [|[t0 d0] r] eqn:E.
      { destruct t; [congruence|]. destruct tl; discriminate. }
      rewrite (planck_sat (A:=RA) es f t tl ((t0, d0) :: r) t0 d0 r E eq_refl).
      rewrite hvk_of_R. change (spec_hvk f) with h.
      assert (Ht0 : t0 = nth 0 t 0) by (destruct t, tl; simpl in E; inversion E; auto).
      rewrite tk2b_R.
      unfold L, lv, viewed in Hfar. rewrite E in Hfar. rewrite Hfar.
      f_equal. f_equal. rewrite <- Ht0. ra. lra.
    - rewrite (planck_ground (A:=RA) es f t tl (combine t tl) eq_refl) by exact Hlv.
      rewrite hvk_of_R. change (spec_hvk f) with h. unfold L, lv, viewed in Hfar. rewrite Hfar.
      rewrite tk2b_R. reflexivity. }
  eexists. split; [exact Hplanck|].
  assert (Hboft : map (lev_boft (A:=RA)) (if sat then rev L else L) = map (planckB h) t).
  { assert (Ht : t = map (fun k => nth k t 0) (seq 0 (length t))).
    { clear. induction t as [|x t IH]; [reflexivity|]. cbn [length seq map nth]. f_equal.
      rewrite <- seq_shift, map_map. exact IH. }
    transitivity (map (planckB h) (map (fun k => nth k t 0) (seq 0 (length t)))); [|f_equal; auto].
    rewrite map_map. destruct sat; rewrite HL; [rewrite rev_map_seq|]; rewrite map_map;
      apply map_ext_in; intros k Hk; apply in_seq in Hk; unfold lev_boft, view_T; cbn [fst snd]; auto.
    f_equal. f_equal. lia. }
  assert (Hatm : map (lev_atm (A:=RA)) (if sat then rev L else L) = map (spec_atm sat h t tl) (seq 0 (length t))).
  { destruct sat; rewrite HL; [rewrite rev_map_seq|]; rewrite map_map; apply map_ext; intros k; reflexivity. }
  assert (Htau : map (lev_tau (A:=RA)) (if sat then rev L else L) = map (spec_tau sat tl) (seq 0 (length t))).
  { destruct sat; rewrite HL; [rewrite rev_map_seq|]; rewrite map_map; apply map_ext; intros k;
      unfold spec_tau, lev_tau; cbn [fst snd]; [rewrite Hl|]; reflexivity. }
  unfold planck_close.
  change (lev_atm (A:=RA) (planckB h (view_T sat t (length t - 1)), atm, tau)) with atm.
  change (lev_tau (A:=RA) (planckB h (view_T sat t (length t - 1)), atm, tau)) with tau.
  unfold expmax. ra. replace (1250 / 10) with 125 by lra. unfold Rltb.
  destruct (Rlt_dec tau 125) as [Hlt|Hge];
    cbn [p_boftotl p_boftatm p_boftmr p_tauprof p_hvk p_boft p_bakgrnd];
    (split; [reflexivity|]); (split; [exact Hboft|]); (split; [exact Htau|]); (split; [exact Hatm|]).
  - split; intros Hc; [|lra]. repeat split. f_equal. lra.
  - split; intros Hc; [lra|]. repeat split. lra.
Qed.

Lemma far_R sat f t tl : length t = length tl -> t <> [] ->
  last (levs_dn (A:=RA) (hvk_of (A:=RA) f) (viewed sat t tl)) (0, 0, 0) =
  (planckB (spec_hvk f) (view_T sat t (length t - 1)), total_atm sat (spec_hvk f) t tl, total_tau tl).
Proof.
  intros Hl Hne. rewrite hvk_of_R.
  assert (Hn : (0 < length t)%nat) by (destruct t; [congruence|simpl; lia]).
  assert (Hlen := viewed_length sat t tl Hl).
  rewrite levs_dn_last by (intros H; rewrite H in Hlen; simpl in Hlen; lia).
  rewrite Hlen. rewrite viewed_T, viewed_atm, viewed_tau by (auto; lia). f_equal.
  rewrite Hl. apply total_tau_view. destruct tl; [simpl in *; lia|discriminate].
Qed.

(** The same over the extended reals: every output is finite, except the mean radiating radiance of a
    perfectly transparent atmosphere (see [mr_ext]). *)
Lemma planckX_master (sat : bool) (es f : R) (t tl : list R) :
  0 < f -> (forall x, In x t -> 0 < x) -> length t = length tl -> t <> [] ->
  let h := spec_hvk f in
  let tau := total_tau tl in
  let atm := total_atm sat h t tl in
  let bg := background sat es h t in
  exists o, planck (A:=XA) sat (Fin es) (Fin f) (map Fin t) (map Fin tl) = Ok o /\
    p_hvk o = Fin h /\
    p_boft o = map Fin (map (planckB h) t) /\
    p_tauprof o = map Fin (map (spec_tau sat tl) (seq 0 (length t))) /\
    p_boftatm o = map Fin (map (spec_atm sat h t tl) (seq 0 (length t))) /\
    (tau < 125 ->
       p_bakgrnd o = Fin (bg * exp (- tau)) /\ p_boftotl o = Fin (bg * exp (- tau) + atm)) /\
    (tau < 125 -> tau <> 0 -> p_boftmr o = Fin (atm / (1 - exp (- tau)))) /\
    (tau = 0 -> atm = 0 -> p_boftmr o = NaN) /\
    (125 <= tau -> p_bakgrnd o = Fin 0 /\ p_boftotl o = Fin atm /\ p_boftmr o = Fin atm).
Proof.
  intros Hf Ht Hl Hne h tau atm bg.
  destruct (planck_X sat es f t tl Hf Ht Hl Hne) as (o & far & Ho & Hx & Hfar).
  destruct (planck_master sat es f t tl Hl Hne) as (o' & Ho' & H1 & H2 & H3 & H4 & H5 & H6).
  rewrite Ho in Ho'. inversion Ho'; subst o'. clear Ho'.
  assert (Hfar' := eq_trans Hfar (far_R sat f t tl Hl Hne)). clear Hfar.
  rewrite Hfar' in Hx. unfold lev_atm, lev_tau in Hx. cbn [fst snd] in Hx.
  eexists. split; [exact Hx|].
  unfold lift_out. cbn [p_boftotl p_boftatm p_boftmr p_tauprof p_hvk p_boft p_bakgrnd].
  rewrite H1, H2, H3, H4. fold h tau in H5, H6 |- *. fold atm bg in H5, H6 |- *. repeat (split; [reflexivity|]).
  unfold mr_ext. split; [|split; [|split]].
  - intros Hlt. destruct (H5 Hlt) as (-> & -> & _). auto.
  - intros Hlt H0. destruct (Rlt_dec tau 125); [|contradiction]. apply xdiv_fin.
    intros E. assert (E1 : exp (- tau) = exp 0) by (rewrite exp_0; lra).
    apply exp_inv in E1. lra.
  - intros E0 Ea. fold atm. rewrite E0, Ea. destruct (Rlt_dec 0 125); [|lra].
    rewrite Ropp_0, exp_0. unfold xdiv. destruct (Req_EM_T (1 - 1) 0); [|lra].
    unfold xsgn_inf. destruct (Rlt_dec 0 0); [lra|]. destruct (Rlt_dec 0 0); [lra|reflexivity].
  - intros Hge. destruct (H6 Hge) as (-> & -> & _). repeat split.
    destruct (Rlt_dec tau 125); [lra|reflexivity].
Qed.

(** Bounds. *)
Lemma total_tau_nonneg tl : (forall x, In x tl -> 0 <= x) -> 0 <= total_tau tl.
Proof.
  intros H. unfold total_tau. destruct tl as [|d tl]; simpl; [lra|].
  assert (H' : forall x, In x tl -> 0 <= x) by (intros; apply H; right; auto). clear H.
  induction tl as [|x tl IH]; simpl; [lra|].
  assert (0 <= x) by (apply H'; left; auto).
  assert (0 <= fold_right Rplus 0 tl) by (apply IH; intros; apply H'; right; auto). lra.
Qed.

Lemma view_D_nonneg sat tl i : (forall x, In x tl -> 0 <= x) -> 0 <= view_D sat tl i.
Proof.
  intros H. unfold view_D. destruct sat.
  - destruct (Nat.lt_ge_cases (length tl - i) (length tl)); [apply H, nth_In; auto|].
    rewrite nth_overflow by lia. lra.
  - destruct (Nat.lt_ge_cases i (length tl)); [apply H, nth_In; auto|].
    rewrite nth_overflow by lia. lra.
Qed.

Lemma view_T_In sat t i : (i < length t)%nat -> In (view_T sat t i) t.
Proof. intros H. unfold view_T. destruct sat; apply nth_In; lia. Qed.

Lemma total_atm_bounds sat h t tl lo hi : 0 < h -> 0 < lo ->
  (forall x, In x t -> lo <= x <= hi) -> (forall x, In x tl -> 0 <= x) ->
  length t = length tl -> t <> [] ->
  planckB h lo * (1 - exp (- total_tau tl)) <= total_atm sat h t tl
    <= planckB h hi * (1 - exp (- total_tau tl)).
Proof.
  intros Hh Hlo Ht Htl Hl Hne. unfold total_atm.
  assert (Htl' : tl <> []) by (destruct tl; [destruct t; simpl in *; congruence|discriminate]).
  rewrite <- (total_tau_view sat tl Htl'). rewrite <- Hl.
  assert (Hn : (0 < length t)%nat) by (destruct t; [congruence|simpl; lia]).
  apply path_atm_bounds.
  - intros i Hi. assert (Hin := view_T_In sat t i ltac:(lia)). destruct (Ht _ Hin) as [Ha Hb].
    split; apply planckB_le; auto; lra.
  - intros i. apply view_D_nonneg; auto.
Qed.

Lemma nth_repeat_R (T : R) n i : (i < n)%nat -> nth i (repeat T n) 0 = T.
Proof. revert i; induction n; intros i H; [lia|]. destruct i; simpl; auto. apply IHn. lia. Qed.

Lemma total_atm_iso sat h T n tl : length tl = n -> (0 < n)%nat ->
  total_atm sat h (repeat T n) tl = planckB h T * (1 - exp (- total_tau tl)).
Proof.
  intros Hl Hn. unfold total_atm. rewrite repeat_length.
  assert (Htl' : tl <> []) by (destruct tl; [simpl in *; lia|discriminate]).
  rewrite <- (total_tau_view sat tl Htl'), Hl, <- path_atm_iso.
  apply path_atm_ext; auto. intros i Hi. f_equal. unfold view_T.
  rewrite repeat_length. destruct sat; apply nth_repeat_R; lia.
Qed.
