(** Claims C127 and C128: how the brightness temperature answers to warmer levels and to more absorption. *)

From Coq Require Import ZArith Reals Lra Lia List Bool.
Import ListNotations.
From Verif Require Import Arith PyBase Utils RTE Spec RealAux PlanckGen PlanckReal PlanckMaster PropsPlanck.
Open Scope R_scope.

(** ** Sums along the path *)

(** Radiance at the observer: emission of [n] layers plus the attenuated background [bg]. *)
Definition seen (B d : nat -> R) (bg : R) (n : nat) : R := path_atm B d n + bg * exp (- path_tau d n).

Lemma path_tau_first d n : path_tau d (S n) = d 1%nat + path_tau (fun i => d (S i)) n.
Proof.
  unfold path_tau. change (S n) with (1 + n)%nat. rewrite rsum_split. cbn [rsum Nat.add]. lra.
Qed.

Lemma weight_first d i : exp (- path_tau d (S i)) = exp (- d 1%nat) * exp (- path_tau (fun i => d (S i)) i).
Proof. rewrite path_tau_first, <- exp_plus. f_equal. lra. Qed.

Lemma seen_first B d bg n : seen B d bg (S n) =
  layer_emit (B 0%nat) (B 1%nat) (d 1%nat) * (1 - exp (- d 1%nat)) +
  exp (- d 1%nat) * seen (fun i => B (S i)) (fun i => d (S i)) bg n.
Proof.
  unfold seen. rewrite weight_first. unfold path_atm at 1. change (S n) with (1 + n)%nat. rewrite rsum_split.
  cbn [rsum]. change (path_tau d 0) with 0. rewrite (path_tau_first d 0). change (path_tau (fun i => d (S i)) 0) with 0.
  rewrite Ropp_0, exp_0, Rplus_0_r.
  replace (rsum n _) with (exp (- d 1%nat) * path_atm (fun i => B (S i)) (fun i => d (S i)) n); [ring|].
  unfold path_atm. rewrite <- rsum_scal. apply rsum_ext. intros i Hi. cbn [Nat.add].
  rewrite !weight_first. ring.
Qed.

(** More absorption in a layer that is colder on the far side and has nothing warmer behind it. *)
Lemma layer_more bn bf bg x x' : 0 < x' <= x -> x <= 1 -> bf <= bn -> bg <= bf ->
  (bn + bf * x) / (1 + x) * (1 - x) + x * bg <= (bn + bf * x') / (1 + x') * (1 - x') + x' * bg.
Proof.
  intros Hx H1 Hf Hg.
  assert (E : forall y, 0 < y -> (bn + bf * y) / (1 + y) * (1 - y) + y * bg = bn + (bf - bn) * (2 * y / (1 + y)) + y * (bg - bf)).
  { intros y Hy. field. lra. }
  rewrite !E by lra.
  assert (Q : 2 * x' / (1 + x') <= 2 * x / (1 + x)).
  { apply Rmult_le_reg_r with ((1 + x') * (1 + x)); [nra|]. field_simplify; nra. }
  nra.
Qed.

Lemma seen_bound B d bg n M : (forall i, (i <= n)%nat -> B i <= M) -> bg <= M -> (forall i, 0 <= d i) -> seen B d bg n <= M.
Proof.
  revert B d. induction n as [|n IH]; intros B d HB Hg Hd.
  - unfold seen. change (path_atm B d 0) with 0. change (path_tau d 0) with 0. rewrite Ropp_0, exp_0. lra.
  - rewrite seen_first. assert (I := IH (fun i => B (S i)) (fun i => d (S i)) ltac:(intros; cbv beta; apply HB; lia) Hg (fun i => Hd (S i))).
    assert (E1 := exp_pos (- d 1%nat)). assert (E2 := exp_neg_le1 _ (Hd 1%nat)).
    assert (L : layer_emit (B 0%nat) (B 1%nat) (d 1%nat) <= M).
    { unfold layer_emit. assert (H0 := HB 0%nat ltac:(lia)). assert (H1 := HB 1%nat ltac:(lia)).
      apply Rmult_le_reg_r with (1 + exp (- d 1%nat)); [lra|]. unfold Rdiv. rewrite Rmult_assoc, Rinv_l by lra. nra. }
    nra.
Qed.

Lemma seen_neg B d bg n : seen (fun i => - B i) d (- bg) n = - seen B d bg n.
Proof.
  unfold seen, path_atm. rewrite Ropp_plus_distr.
  replace (- rsum n (fun i => layer_emit (B i) (B (S i)) (d (S i)) * (exp (- path_tau d i) - exp (- path_tau d (S i)))))
    with (rsum n (fun i => layer_emit (- B i) (- B (S i)) (d (S i)) * (exp (- path_tau d i) - exp (- path_tau d (S i))))); [ring|].
  match goal with |- _ = - ?r => replace (- r) with (-1 * r) by ring end. rewrite <- rsum_scal.
  apply rsum_ext. intros i _. unfold layer_emit. assert (E := exp_pos (- d (S i))). field. lra.
Qed.

(** Radiances that fall away from the observer: more absorption, more radiance. *)
Lemma seen_more B d d' bg n : (forall i, (i < n)%nat -> B (S i) <= B i) -> bg <= B n ->
  (forall i, 0 <= d i) -> (forall i, d i <= d' i) -> seen B d bg n <= seen B d' bg n.
Proof.
  revert B d d'. induction n as [|n IH]; intros B d d' HB Hg Hd Hdd.
  - unfold seen. change (path_atm B d 0) with 0. change (path_atm B d' 0) with 0.
    change (path_tau d 0) with 0. change (path_tau d' 0) with 0. lra.
  - rewrite !seen_first.
    assert (I := IH (fun i => B (S i)) (fun i => d (S i)) (fun i => d' (S i))
                   ltac:(intros i Hi; apply (HB (S i)); lia) Hg (fun i => Hd (S i)) (fun i => Hdd (S i))).
    assert (Hlow : forall i, (i <= n)%nat -> B (S i) <= B 1%nat).
    { intros i Hi. induction i as [|i IHi]; [lra|]. assert (H := HB (S i) ltac:(lia)). specialize (IHi ltac:(lia)). lra. }
    assert (U := seen_bound (fun i => B (S i)) (fun i => d (S i)) bg n (B 1%nat) Hlow
                  ltac:(specialize (Hlow n ltac:(lia)); lra) (fun i => Hd (S i))).
    set (s := seen (fun i => B (S i)) (fun i => d (S i)) bg n) in *.
    set (s' := seen (fun i => B (S i)) (fun i => d' (S i)) bg n) in *.
    assert (E1 := exp_pos (- d' 1%nat)). assert (E2 := exp_neg_le1 _ (Hd 1%nat)).
    assert (E3 : exp (- d' 1%nat) <= exp (- d 1%nat)) by (apply exp_le; specialize (Hdd 1%nat); lra).
    assert (K := layer_more (B 0%nat) (B 1%nat) s (exp (- d 1%nat)) (exp (- d' 1%nat)) ltac:(lra) ltac:(lra) (HB 0%nat ltac:(lia)) U).
    unfold layer_emit. nra.
Qed.

(** Warmer levels: more radiance. *)
Lemma seen_warmer B B' d bg bg' n : (forall i, (i <= n)%nat -> B i <= B' i) -> bg <= bg' -> (forall i, 0 <= d i) ->
  seen B d bg n <= seen B' d bg' n.
Proof.
  revert B B' d. induction n as [|n IH]; intros B B' d HB Hg Hd.
  - unfold seen. change (path_atm B d 0) with 0. change (path_atm B' d 0) with 0. change (path_tau d 0) with 0. rewrite Ropp_0, exp_0. lra.
  - rewrite !seen_first. assert (I := IH (fun i => B (S i)) (fun i => B' (S i)) (fun i => d (S i)) ltac:(intros; cbv beta; apply HB; lia) Hg (fun i => Hd (S i))).
    assert (E1 := exp_pos (- d 1%nat)). assert (E2 := exp_neg_le1 _ (Hd 1%nat)).
    assert (L : layer_emit (B 0%nat) (B 1%nat) (d 1%nat) <= layer_emit (B' 0%nat) (B' 1%nat) (d 1%nat)).
    { unfold layer_emit. assert (H0 := HB 0%nat ltac:(lia)). assert (H1 := HB 1%nat ltac:(lia)).
      apply Rmult_le_compat_r; [left; apply Rinv_0_lt_compat; lra|nra]. }
    nra.
Qed.

(** ** From radiances to temperatures *)
Lemma bright_mono h b b' : 0 < h -> 0 <= b <= b' -> exists tb tb', Xbright (Fin h) (Fin b) = Fin tb /\ Xbright (Fin h) (Fin b') = Fin tb' /\ 0 <= tb <= tb'.
Proof.
  intros Hh [H0 Hb]. destruct (Req_dec b 0) as [->|N].
  - destruct (Req_dec b' 0) as [->|N'].
    + exists 0, 0. rewrite bright_X0. repeat split; lra.
    + exists 0, (planckT h b'). rewrite bright_X0, bright_X by lra. assert (P := planckT_pos h b' Hh ltac:(lra)). repeat split; lra.
  - exists (planckT h b), (planckT h b'). rewrite !bright_X by lra.
    assert (P := planckT_pos h b Hh ltac:(lra)). assert (Q := planckT_le h b b' Hh ltac:(lra) Hb). repeat split; lra.
Qed.

Lemma total_seen sat h t tau bg : length t = length tau -> t <> [] ->
  bg * exp (- total_tau tau) + total_atm sat h t tau =
  seen (fun i => planckB h (view_T sat t i)) (view_D sat tau) bg (length t - 1).
Proof.
  intros Hl Hne. assert (Hne' : tau <> []) by (destruct tau; [destruct t; simpl in *; congruence|discriminate]).
  unfold seen, total_atm. rewrite Hl, (total_tau_view sat tau Hne'). lra.
Qed.

Lemma radiance_nonneg sat h t tau bg : 0 < h -> (forall x, In x t -> 0 < x) -> (forall x, In x tau -> 0 <= x) ->
  length t = length tau -> t <> [] -> 0 <= bg -> 0 <= total_atm sat h t tau /\ 0 <= bg * exp (- total_tau tau) + total_atm sat h t tau.
Proof.
  intros Hh Ht Htau Hl Hne Hbg.
  assert (Hn : (0 < length t)%nat) by (destruct t; [congruence|simpl; lia]).
  assert (A : 0 <= total_atm sat h t tau).
  { unfold total_atm, path_atm. apply rsum_nonneg. intros i Hi.
    assert (P1 := planckB_pos h _ Hh (Ht _ (view_T_In sat t i ltac:(lia)))).
    assert (P2 := planckB_pos h _ Hh (Ht _ (view_T_In sat t (S i) ltac:(lia)))).
    assert (D := view_D_nonneg sat tau (S i) Htau). assert (E := exp_pos (- view_D sat tau (S i))).
    apply Rmult_le_pos.
    - unfold layer_emit. apply Rmult_le_pos; [nra|left; apply Rinv_0_lt_compat; lra].
    - cbn [path_tau rsum]. unfold path_tau. cbn [rsum].
      assert (exp (- (rsum i (fun i0 => view_D sat tau (S i0)) + view_D sat tau (S i))) <= exp (- rsum i (fun i0 => view_D sat tau (S i0))))
        by (apply exp_le; lra). lra. }
  split; [exact A|]. assert (E := exp_pos (- total_tau tau)). assert (0 <= bg * exp (- total_tau tau)) by (apply Rmult_le_pos; lra). lra.
Qed.

Lemma atm_seen sat h t tau : length t = length tau -> t <> [] ->
  total_atm sat h t tau = seen (fun i => planckB h (view_T sat t i)) (view_D sat tau) 0 (length t - 1).
Proof. intros. rewrite <- total_seen by auto. lra. Qed.

(** ** C127 *)
(** Level by level at least as warm. *)
Definition at_least (t' t : list R) : Prop := length t' = length t /\ forall i, (i < length t)%nat -> nth i t 0 <= nth i t' 0.

Lemma at_least_view sat t' t i : at_least t' t -> (i < length t)%nat -> view_T sat t i <= view_T sat t' i.
Proof. intros [L H] Hi. unfold view_T. rewrite L. destruct sat; apply H; lia. Qed.

Theorem C127_warming (sat : bool) (es f : R) (t t' tau : list R) :
  0 < f -> 0 <= es -> (forall x, In x t -> 0 < x) -> at_least t' t -> length t = length tau -> t <> [] ->
  (forall x, In x tau -> 0 <= x) ->
  exists o o' tb tb' tmr tmr', Xplanck sat es f t tau = Ok o /\ Xplanck sat es f t' tau = Ok o' /\
    Xbright (p_hvk o) (p_boftotl o) = Fin tb /\ Xbright (p_hvk o') (p_boftotl o') = Fin tb' /\ 0 <= tb <= tb' /\
    (0 < total_tau tau -> Xbright (p_hvk o) (p_boftmr o) = Fin tmr /\ Xbright (p_hvk o') (p_boftmr o') = Fin tmr' /\ tmr <= tmr').
Proof.
  intros Hf Hes Ht HT Hl Hne Htau. assert (Hh := spec_hvk_pos f Hf).
  destruct HT as [L HT].
  assert (Hn : (0 < length t)%nat) by (destruct t; [congruence|simpl; lia]).
  assert (Hne' : t' <> []) by (intros ->; simpl in L; lia).
  assert (Ht' : forall x, In x t' -> 0 < x).
  { intros x Hx. destruct (In_nth _ _ 0 Hx) as (i & Hi & <-). assert (H := HT i ltac:(lia)).
    assert (P := Ht _ (nth_In t 0 (n:=i) ltac:(lia))). lra. }
  destruct (planckX_master sat es f t tau Hf Ht Hl Hne) as (o & Ho & Hk & _ & _ & _ & H5 & H6 & _ & H8).
  destruct (planckX_master sat es f t' tau Hf Ht' ltac:(congruence) Hne') as (o' & Ho' & Hk' & _ & _ & _ & H5' & H6' & _ & H8').
  set (h := spec_hvk f) in *.
  assert (Q : forall i, (i <= length t - 1)%nat -> planckB h (view_T sat t i) <= planckB h (view_T sat t' i)).
  { intros i Hi. apply planckB_le; [exact Hh|apply Ht, view_T_In; lia|].
    apply at_least_view; [split; auto|lia]. }
  assert (BG : 0 <= background sat es h t <= background sat es h t').
  { unfold background. destruct sat.
    - assert (P := planckB_pos h (nth 0 t 0) Hh (Ht _ (nth_In t 0 (n:=0%nat) Hn))).
      assert (P' := planckB_le h (nth 0 t 0) (nth 0 t' 0) Hh (Ht _ (nth_In t 0 (n:=0%nat) Hn)) (HT 0%nat Hn)). split; nra.
    - assert (P := planckB_pos h 2.728 Hh ltac:(lra)). lra. }
  assert (V := fun i => view_D_nonneg sat tau i Htau).
  assert (ATM : 0 <= total_atm sat h t tau <= total_atm sat h t' tau).
  { split; [apply (radiance_nonneg sat h t tau 0); auto; lra|].
    rewrite !atm_seen by (auto; congruence). rewrite L. apply seen_warmer; auto. lra. }
  assert (TOT : 0 <= background sat es h t * exp (- total_tau tau) + total_atm sat h t tau <= background sat es h t' * exp (- total_tau tau) + total_atm sat h t' tau).
  { split; [apply (radiance_nonneg sat h t tau); auto; lra|].
    rewrite !total_seen by (auto; congruence). rewrite L. apply seen_warmer; auto. lra. }
  destruct (Rlt_le_dec (total_tau tau) 125) as [Hlt|Hge].
  - destruct (bright_mono h _ _ Hh TOT) as (tb & tb' & E1 & E2 & E3).
    destruct (Rle_lt_dec (total_tau tau) 0) as [Z|Z].
    + exists o, o', tb, tb', 0, 0. rewrite Hk, Hk'. destruct (H5 Hlt) as (_ & ->). destruct (H5' Hlt) as (_ & ->).
      repeat split; auto; try lra; exfalso; lra.
    + assert (W : 0 < 1 - exp (- total_tau tau)) by (assert (X := exp_neg_lt1 _ Z); lra).
      assert (M : 0 <= total_atm sat h t tau / (1 - exp (- total_tau tau)) <= total_atm sat h t' tau / (1 - exp (- total_tau tau))).
      { unfold Rdiv. assert (I := Rinv_0_lt_compat _ W). split; [apply Rmult_le_pos; lra|apply Rmult_le_compat_r; lra]. }
      destruct (bright_mono h _ _ Hh M) as (tm & tm' & F1 & F2 & F3).
      exists o, o', tb, tb', tm, tm'. rewrite Hk, Hk'. destruct (H5 Hlt) as (_ & ->). destruct (H5' Hlt) as (_ & ->).
      rewrite H6, H6' by lra. repeat split; auto; lra.
  - destruct (bright_mono h _ _ Hh ATM) as (tb & tb' & E1 & E2 & E3).
    exists o, o', tb, tb', tb, tb'. rewrite Hk, Hk'. destruct (H8 Hge) as (_ & -> & ->). destruct (H8' Hge) as (_ & -> & ->).
    repeat split; auto; lra.
Qed.
Example C127_example : exists o o' tb tb', Xplanck true 0.9 89 ex_t ex_tau = Ok o /\ Xplanck true 0.9 89 [280; 255; 220] ex_tau = Ok o' /\
  Xbright (p_hvk o) (p_boftotl o) = Fin tb /\ Xbright (p_hvk o') (p_boftotl o') = Fin tb' /\ tb <= tb'.
Proof.
  destruct (C127_warming true 0.9 89 ex_t [280; 255; 220] ex_tau) as (o & o' & tb & tb' & _ & _ & H1 & H2 & H3 & H4 & H5 & _);
    try lra; auto using ex_len, ex_ne, ex_t_pos, ex_tau_pos.
  { split; [reflexivity|]. intros i Hi. unfold ex_t. do 3 (destruct i as [|i]; [simpl; lra|]). simpl in Hi. lia. }
  exists o, o', tb, tb'. repeat split; auto; lra.
Qed.

(** One warmer level with an absorbing layer next to it is seen: the result is strictly warmer. *)
Lemma atm_strict B B' d n k : (forall i, (i <= n)%nat -> B i <= B' i) -> (forall i, 0 <= d i) -> (k <= n)%nat -> B k < B' k ->
  ((k < n)%nat /\ 0 < d (S k) \/ (0 < k)%nat /\ 0 < d k) -> path_atm B d n < path_atm B' d n.
Proof.
  intros HB Hd Hk Hlt Hside.
  assert (W : forall i, 0 <= exp (- path_tau d i) - exp (- path_tau d (S i)) /\ (0 < d (S i) -> 0 < exp (- path_tau d i) - exp (- path_tau d (S i)))).
  { intros i. assert (E : path_tau d (S i) = path_tau d i + d (S i)) by reflexivity. rewrite E. split.
    - assert (exp (- (path_tau d i + d (S i))) <= exp (- path_tau d i)) by (apply exp_le; specialize (Hd (S i)); lra). lra.
    - intros P. assert (exp (- (path_tau d i + d (S i))) < exp (- path_tau d i)) by (apply exp_increasing; lra). lra. }
  assert (LE : forall i, (i < n)%nat -> layer_emit (B i) (B (S i)) (d (S i)) <= layer_emit (B' i) (B' (S i)) (d (S i))).
  { intros i Hi. assert (H0 := HB i ltac:(lia)). assert (H1 := HB (S i) ltac:(lia)). assert (E := exp_pos (- d (S i))).
    unfold layer_emit. apply Rmult_le_compat_r; [left; apply Rinv_0_lt_compat; lra|nra]. }
  assert (S1 : exists i, (i < n)%nat /\ layer_emit (B i) (B (S i)) (d (S i)) < layer_emit (B' i) (B' (S i)) (d (S i)) /\ 0 < d (S i)).
  { destruct Hside as [[H1 H2]|[H1 H2]].
    - exists k. split; [exact H1|]. split; [|exact H2]. assert (H3 := HB (S k) ltac:(lia)). assert (E := exp_pos (- d (S k))).
      unfold layer_emit. apply Rmult_lt_compat_r; [apply Rinv_0_lt_compat; lra|nra].
    - destruct k as [|k]; [lia|]. exists k. split; [lia|]. split; [|exact H2]. assert (H3 := HB k ltac:(lia)). assert (E := exp_pos (- d (S k))).
      unfold layer_emit. apply Rmult_lt_compat_r; [apply Rinv_0_lt_compat; lra|nra]. }
  destruct S1 as (i & Hi & Hl & Hp). unfold path_atm.
  replace n with (i + S (n - S i))%nat by lia. rewrite !rsum_split. change (S (n - S i)) with (1 + (n - S i))%nat. rewrite !rsum_split. cbn [rsum].
  rewrite !Nat.add_0_r, !Rplus_0_l.
  match goal with |- ?a1 + (?b1 + ?c1) < ?a2 + (?b2 + ?c2) =>
    assert (a1 <= a2); [|assert (b1 < b2); [|assert (c1 <= c2); [|lra]]] end.
  - apply rsum_le. intros j Hj. apply Rmult_le_compat_r; [apply W|apply LE; lia].
  - apply Rmult_lt_compat_r; [apply W; exact Hp|exact Hl].
  - apply rsum_le. intros j Hj. apply Rmult_le_compat_r; [apply W|apply LE; lia].
Qed.

Theorem C127_strict (sat : bool) (es f : R) (t t' tau : list R) (k : nat) :
  0 < f -> 0 <= es -> (forall x, In x t -> 0 < x) -> at_least t' t -> length t = length tau -> t <> [] ->
  (forall x, In x tau -> 0 <= x) ->
  (k < length t)%nat -> nth k t 0 < nth k t' 0 ->
  (* an absorbing layer above or below level k *)
  ((S k < length t)%nat /\ 0 < nth (S k) tau 0 \/ (0 < k)%nat /\ 0 < nth k tau 0) ->
  exists o o' tb tb', Xplanck sat es f t tau = Ok o /\ Xplanck sat es f t' tau = Ok o' /\
    Xbright (p_hvk o) (p_boftotl o) = Fin tb /\ Xbright (p_hvk o') (p_boftotl o') = Fin tb' /\ tb < tb'.
Proof.
  intros Hf Hes Ht HT Hl Hne Htau Hk Hlt Hside. assert (Hh := spec_hvk_pos f Hf).
  destruct HT as [L HT].
  assert (Hn : (0 < length t)%nat) by lia.
  assert (Hne' : t' <> []) by (intros ->; simpl in L; lia).
  assert (Ht' : forall x, In x t' -> 0 < x).
  { intros x Hx. destruct (In_nth _ _ 0 Hx) as (i & Hi & <-). assert (H := HT i ltac:(lia)).
    assert (P := Ht _ (nth_In t 0 (n:=i) ltac:(lia))). lra. }
  destruct (planckX_master sat es f t tau Hf Ht Hl Hne) as (o & Ho & Ek & _ & _ & _ & H5 & _ & _ & H8).
  destruct (planckX_master sat es f t' tau Hf Ht' ltac:(congruence) Hne') as (o' & Ho' & Ek' & _ & _ & _ & H5' & _ & _ & H8').
  set (h := spec_hvk f) in *.
  assert (BG : 0 <= background sat es h t <= background sat es h t').
  { unfold background. destruct sat.
    - assert (P := planckB_pos h (nth 0 t 0) Hh (Ht _ (nth_In t 0 (n:=0%nat) Hn))).
      assert (P' := planckB_le h (nth 0 t 0) (nth 0 t' 0) Hh (Ht _ (nth_In t 0 (n:=0%nat) Hn)) (HT 0%nat Hn)). split; nra.
    - assert (P := planckB_pos h 2.728 Hh ltac:(lra)). lra. }
  assert (V := fun i => view_D_nonneg sat tau i Htau).
  assert (Ltau : (length tau = length t)%nat) by congruence.
  assert (ATM : 0 <= total_atm sat h t tau < total_atm sat h t' tau).
  { split; [apply (radiance_nonneg sat h t tau 0); auto; lra|].
    unfold total_atm. rewrite L. apply atm_strict with (k := if sat then (length t - 1 - k)%nat else k).
    - intros i Hi. apply planckB_le; [exact Hh|apply Ht, view_T_In; lia|]. apply at_least_view; [split; auto|lia].
    - exact V.
    - destruct sat; lia.
    - unfold view_T. rewrite L. destruct sat.
      + replace (length t - 1 - (length t - 1 - k))%nat with k by lia. apply planckB_incr; auto. apply Ht, nth_In; lia.
      + apply planckB_incr; auto. apply Ht, nth_In; lia.
    - unfold view_D. rewrite Ltau. destruct sat.
      + destruct Hside as [[H1 H2]|[H1 H2]].
        * right. split; [lia|]. replace (length t - (length t - 1 - k))%nat with (S k) by lia. exact H2.
        * left. split; [lia|]. replace (length t - S (length t - 1 - k))%nat with k by lia. exact H2.
      + destruct Hside as [[H1 H2]|[H1 H2]]; [left|right]; split; auto; lia. }
  assert (E := exp_pos (- total_tau tau)).
  destruct (Rlt_le_dec (total_tau tau) 125) as [Hs|Hge].
  - destruct (H5 Hs) as (_ & R1). destruct (H5' Hs) as (_ & R2).
    assert (TOT : 0 <= background sat es h t * exp (- total_tau tau) + total_atm sat h t tau < background sat es h t' * exp (- total_tau tau) + total_atm sat h t' tau).
    { split; [apply (radiance_nonneg sat h t tau); auto; lra|nra]. }
    set (b := background sat es h t * exp (- total_tau tau) + total_atm sat h t tau) in *.
    set (b' := background sat es h t' * exp (- total_tau tau) + total_atm sat h t' tau) in *.
    destruct (Req_dec b 0) as [Z|Z].
    + exists o, o', 0, (planckT h b'). rewrite Ek, Ek', R1, R2, Z, bright_X0, bright_X by lra.
      repeat split; auto. apply planckT_pos; lra.
    + exists o, o', (planckT h b), (planckT h b'). rewrite Ek, Ek', R1, R2, !bright_X by lra.
      repeat split; auto. apply planckT_incr; lra.
  - destruct (H8 Hge) as (_ & R1 & _). destruct (H8' Hge) as (_ & R2 & _).
    set (b := total_atm sat h t tau) in *. set (b' := total_atm sat h t' tau) in *.
    destruct (Req_dec b 0) as [Z|Z].
    + exists o, o', 0, (planckT h b'). rewrite Ek, Ek', R1, R2, Z, bright_X0, bright_X by lra.
      repeat split; auto. apply planckT_pos; lra.
    + exists o, o', (planckT h b), (planckT h b'). rewrite Ek, Ek', R1, R2, !bright_X by lra.
      repeat split; auto. apply planckT_incr; lra.
Qed.
Example C127_strict_example : exists o o' tb tb', Xplanck false 1 89 ex_t ex_tau = Ok o /\ Xplanck false 1 89 [280; 255; 220] ex_tau = Ok o' /\
  Xbright (p_hvk o) (p_boftotl o) = Fin tb /\ Xbright (p_hvk o') (p_boftotl o') = Fin tb' /\ tb < tb'.
Proof.
  apply (C127_strict false 1 89 ex_t [280; 255; 220] ex_tau 1); try lra; auto using ex_len, ex_ne, ex_t_pos, ex_tau_pos.
  { split; [reflexivity|]. intros i Hi. unfold ex_t. do 3 (destruct i as [|i]; [simpl; lra|]). simpl in Hi. lia. }
  { simpl. lia. }
  { simpl. lra. }
  { right. split; [lia|]. simpl. lra. }
Qed.

(** ** C128 *)
(** Every layer at least as opaque. *)
Definition more_opaque (tau' tau : list R) : Prop := length tau' = length tau /\ forall i, (i < length tau)%nat -> nth i tau 0 <= nth i tau' 0.
(** Temperature does not increase with height. *)
Definition cooling_upwards (t : list R) : Prop := forall i, (S i < length t)%nat -> nth (S i) t 0 <= nth i t 0.

Lemma more_opaque_view sat tau' tau i : more_opaque tau' tau -> view_D sat tau i <= view_D sat tau' i.
Proof.
  intros [L H]. unfold view_D. rewrite L. set (j := if sat then (length tau - i)%nat else i).
  replace (if sat then nth (length tau - i) tau 0 else nth i tau 0) with (nth j tau 0) by (unfold j; destruct sat; reflexivity).
  replace (if sat then nth (length tau - i) tau' 0 else nth i tau' 0) with (nth j tau' 0) by (unfold j; destruct sat; reflexivity).
  destruct (Nat.lt_ge_cases j (length tau)) as [Hj|Hj]; [auto|]. rewrite !nth_overflow by lia. lra.
Qed.

Lemma more_opaque_nonneg tau' tau : more_opaque tau' tau -> (forall x, In x tau -> 0 <= x) -> forall x, In x tau' -> 0 <= x.
Proof.
  intros [L H] P x Hx. destruct (In_nth _ _ 0 Hx) as (i & Hi & <-). assert (Q := H i ltac:(lia)).
  assert (Q' := P _ (nth_In tau 0 (n:=i) ltac:(lia))). lra.
Qed.

Theorem C128_ground (es es' f : R) (t tau tau' : list R) :
  0 < f -> (forall x, In x t -> 2.728 <= x) -> cooling_upwards t -> length t = length tau -> t <> [] ->
  (forall x, In x tau -> 0 <= x) -> more_opaque tau' tau -> (total_tau tau < 125 -> total_tau tau' < 125) ->
  exists o o' tb tb', Xplanck false es f t tau = Ok o /\ Xplanck false es' f t tau' = Ok o' /\
    Xbright (p_hvk o) (p_boftotl o) = Fin tb /\ Xbright (p_hvk o') (p_boftotl o') = Fin tb' /\ 0 < tb <= tb'.
Proof.
  intros Hf Ht Hc Hl Hne Htau Hm Hcut. assert (Hh := spec_hvk_pos f Hf).
  assert (Hn : (0 < length t)%nat) by (destruct t; [congruence|simpl; lia]).
  assert (Htp : forall x, In x t -> 0 < x) by (intros x Hx; specialize (Ht x Hx); lra).
  assert (Htau' := more_opaque_nonneg _ _ Hm Htau).
  assert (L' : length t = length tau') by (destruct Hm; congruence).
  destruct (planckX_master false es f t tau Hf Htp Hl Hne) as (o & Ho & Ek & _ & _ & _ & H5 & _ & _ & H8).
  destruct (planckX_master false es' f t tau' Hf Htp L' Hne) as (o' & Ho' & Ek' & _ & _ & _ & H5' & _ & _ & H8').
  set (h := spec_hvk f) in *.
  assert (V := fun i => view_D_nonneg false tau i Htau).
  assert (D := fun i => more_opaque_view false tau' tau i Hm).
  assert (Step : forall i, (i < length t - 1)%nat -> planckB h (view_T false t (S i)) <= planckB h (view_T false t i)).
  { intros i Hi. apply planckB_le; [exact Hh|apply Htp, view_T_In; lia|]. unfold view_T. apply Hc. lia. }
  assert (Top : 2.728 <= view_T false t (length t - 1)) by (apply Ht, view_T_In; lia).
  assert (P0 := planckB_pos h 2.728 Hh ltac:(lra)).
  assert (Mono : forall bg, bg <= planckB h 2.728 -> bg * exp (- total_tau tau) + total_atm false h t tau <= bg * exp (- total_tau tau') + total_atm false h t tau').
  { intros bg Hbg. rewrite !total_seen by auto. apply seen_more; auto.
    assert (planckB h 2.728 <= planckB h (view_T false t (length t - 1))) by (apply planckB_le; lra). lra. }
  assert (Pos : forall bg, 0 <= bg -> 0 <= bg * exp (- total_tau tau) + total_atm false h t tau) by (intros; apply radiance_nonneg; auto).
  destruct (Rlt_le_dec (total_tau tau) 125) as [Hs|Hge].
  - destruct (H5 Hs) as (_ & R1). destruct (H5' (Hcut Hs)) as (_ & R2). unfold background in R1, R2.
    assert (M := Mono (planckB h 2.728) ltac:(lra)).
    assert (Q := proj1 (radiance_nonneg false h t tau 0 Hh Htp Htau Hl Hne ltac:(lra))).
    assert (E := exp_pos (- total_tau tau)).
    assert (Q' : 0 < planckB h 2.728 * exp (- total_tau tau)) by (apply Rmult_lt_0_compat; lra).
    eexists o, o', (planckT h _), (planckT h _). rewrite Ek, Ek', R1, R2, !bright_X by lra.
    split; [exact Ho|]. split; [exact Ho'|]. split; [reflexivity|]. split; [reflexivity|].
    split; [apply planckT_pos; lra|apply planckT_le; lra].
  - assert (Hge' : 125 <= total_tau tau').
    { assert (total_tau tau <= total_tau tau'); [|lra].
      assert (N : tau <> []) by (destruct tau; [simpl in Hl; lia|discriminate]).
      assert (N' : tau' <> []) by (destruct tau'; [simpl in L'; lia|discriminate]).
      rewrite <- (total_tau_view false tau N), <- (total_tau_view false tau' N'). destruct Hm as [-> _].
      unfold path_tau. apply rsum_le. intros i _. apply D. }
    destruct (H8 Hge) as (_ & R1 & _). destruct (H8' Hge') as (_ & R2 & _).
    assert (M := Mono 0 ltac:(lra)). rewrite !Rmult_0_l, !Rplus_0_l in M.
    assert (Q : 0 < total_atm false h t tau).
    { assert (X := proj1 (total_atm_bounds false h t tau 2.728 (nth 0 t 0) Hh ltac:(lra)
         ltac:(intros x Hx; split; [auto|]; destruct (In_nth _ _ 0 Hx) as (i & Hi & <-); clear - Hc Hi; induction i as [|i IH]; [lra|assert (Y := Hc i Hi); specialize (IH ltac:(lia)); lra]) Htau Hl Hne)).
      assert (E := exp_neg_lt1 (total_tau tau) ltac:(lra)). assert (0 < planckB h 2.728 * (1 - exp (- total_tau tau))) by (apply Rmult_lt_0_compat; lra). lra. }
    eexists o, o', (planckT h _), (planckT h _). rewrite Ek, Ek', R1, R2, !bright_X by lra.
    split; [exact Ho|]. split; [exact Ho'|]. split; [reflexivity|]. split; [reflexivity|].
    split; [apply planckT_pos; lra|apply planckT_le; lra].
Qed.

Theorem C128_satellite (f : R) (t tau tau' : list R) :
  0 < f -> (forall x, In x t -> 0 < x) -> cooling_upwards t -> length t = length tau -> t <> [] ->
  (forall x, In x tau -> 0 <= x) -> more_opaque tau' tau -> total_tau tau < 125 ->
  exists o o' tb tb', Xplanck true 1 f t tau = Ok o /\ Xplanck true 1 f t tau' = Ok o' /\
    Xbright (p_hvk o) (p_boftotl o) = Fin tb /\ Xbright (p_hvk o') (p_boftotl o') = Fin tb' /\ 0 <= tb' <= tb.
Proof.
  intros Hf Htp Hc Hl Hne Htau Hm Hs. assert (Hh := spec_hvk_pos f Hf).
  assert (Hn : (0 < length t)%nat) by (destruct t; [congruence|simpl; lia]).
  assert (Htau' := more_opaque_nonneg _ _ Hm Htau).
  assert (L' : length t = length tau') by (destruct Hm; congruence).
  destruct (planckX_master true 1 f t tau Hf Htp Hl Hne) as (o & Ho & Ek & _ & _ & _ & H5 & _ & _ & _).
  destruct (planckX_master true 1 f t tau' Hf Htp L' Hne) as (o' & Ho' & Ek' & _ & _ & _ & H5' & _ & _ & H8').
  set (h := spec_hvk f) in *.
  assert (V := fun i => view_D_nonneg true tau i Htau).
  assert (D := fun i => more_opaque_view true tau' tau i Hm).
  assert (P0 := planckB_pos h (nth 0 t 0) Hh (Htp _ (nth_In t 0 (n:=0%nat) Hn))).
  set (bg := background true 1 h t) in *. assert (Ebg : bg = planckB h (nth 0 t 0)) by (unfold bg, background; lra).
  assert (Mono : bg * exp (- total_tau tau') + total_atm true h t tau' <= bg * exp (- total_tau tau) + total_atm true h t tau).
  { rewrite !total_seen by auto. apply Ropp_le_cancel. rewrite <- !seen_neg. apply seen_more; auto.
    - intros i Hi. apply Ropp_le_contravar. apply planckB_le; [exact Hh|apply Htp, view_T_In; lia|].
      unfold view_T. replace (length t - 1 - i)%nat with (S (length t - 1 - S i)) by lia. apply Hc. lia.
    - unfold view_T. rewrite Nat.sub_diag. lra. }
  assert (Pos := radiance_nonneg true h t tau' bg Hh Htp Htau' L' Hne ltac:(lra)).
  assert (E := exp_pos (- total_tau tau')).
  destruct (H5 Hs) as (_ & R1).
  destruct (Rlt_le_dec (total_tau tau') 125) as [Hs'|Hge].
  - destruct (H5' Hs') as (_ & R2). destruct (bright_mono h _ _ Hh (conj (proj2 Pos) Mono)) as (a & b & A & B & C).
    exists o, o', b, a. rewrite Ek, Ek', R1, R2. auto.
  - destruct (H8' Hge) as (_ & R2 & _).
    assert (C : 0 <= total_atm true h t tau' <= bg * exp (- total_tau tau) + total_atm true h t tau) by (split; [apply Pos|]; nra).
    destruct (bright_mono h _ _ Hh C) as (a & b & A & B & Q). exists o, o', b, a. rewrite Ek, Ek', R1, R2. auto.
Qed.
Lemma ex_cooling : cooling_upwards ex_t.
Proof. intros i Hi. unfold ex_t in *. do 2 (destruct i as [|i]; [simpl; lra|]). simpl in Hi. lia. Qed.
Lemma ex_more : more_opaque [0; 0.9; 0.1] ex_tau.
Proof. split; [reflexivity|]. intros i Hi. unfold ex_tau in *. do 3 (destruct i as [|i]; [simpl; lra|]). simpl in Hi. lia. Qed.
Example C128_example : (exists o o' tb tb', Xplanck false 1 31.4 ex_t ex_tau = Ok o /\ Xplanck false 1 31.4 ex_t [0; 0.9; 0.1] = Ok o' /\
    Xbright (p_hvk o) (p_boftotl o) = Fin tb /\ Xbright (p_hvk o') (p_boftotl o') = Fin tb' /\ 0 < tb <= tb') /\
  (exists o o' tb tb', Xplanck true 1 31.4 ex_t ex_tau = Ok o /\ Xplanck true 1 31.4 ex_t [0; 0.9; 0.1] = Ok o' /\
    Xbright (p_hvk o) (p_boftotl o) = Fin tb /\ Xbright (p_hvk o') (p_boftotl o') = Fin tb' /\ 0 <= tb' <= tb).
Proof.
  split.
  - apply C128_ground; try lra; auto using ex_len, ex_ne, ex_tau_pos, ex_cooling, ex_more.
    + intros x Hx. unfold ex_t in Hx. simpl in Hx. repeat (destruct Hx as [<-|Hx]; [lra|]). destruct Hx.
    + intros _. unfold total_tau. simpl. lra.
  - apply C128_satellite; try lra; auto using ex_len, ex_ne, ex_tau_pos, ex_cooling, ex_more, ex_t_pos. rewrite ex_tau_total. lra.
Qed.

(** Under a temperature inversion the claim fails, at every frequency: an absorbing cold layer next to the ground hides a warm one. *)
Theorem C128_inversion_refuted (f : R) : 0 < f ->
  exists o o' tb tb', Xplanck false 1 f [150; 300; 300] [0; 0; 20] = Ok o /\ Xplanck false 1 f [150; 300; 300] [0; 20; 20] = Ok o' /\
    Xbright (p_hvk o) (p_boftotl o) = Fin tb /\ Xbright (p_hvk o') (p_boftotl o') = Fin tb' /\ tb' < tb.
Proof.
  intros Hf. assert (Hh := spec_hvk_pos f Hf).
  assert (Hp : forall x, In x [150; 300; 300] -> 0 < x) by (intros x Hx; simpl in Hx; repeat (destruct Hx as [<-|Hx]; [lra|]); destruct Hx).
  destruct (planckX_master false 1 f [150; 300; 300] [0; 0; 20] Hf Hp eq_refl ltac:(discriminate)) as (o & Ho & Ek & _ & _ & _ & H5 & _).
  destruct (planckX_master false 1 f [150; 300; 300] [0; 20; 20] Hf Hp eq_refl ltac:(discriminate)) as (o' & Ho' & Ek' & _ & _ & _ & H5' & _).
  set (h := spec_hvk f) in *.
  destruct H5 as [_ H5]; [unfold total_tau; simpl; lra|]. destruct H5' as [_ H5']; [unfold total_tau; simpl; lra|].
  rewrite total_seen in H5 by (auto; discriminate). rewrite total_seen in H5' by (auto; discriminate).
  cbn [length Nat.sub] in H5, H5'. rewrite !seen_first in H5, H5'. unfold background in H5, H5'.
  unfold seen, view_T, view_D in H5, H5'. cbn [nth] in H5, H5'.
  change (path_atm _ _ 0) with 0 in H5. change (path_atm _ _ 0) with 0 in H5'. change (path_tau _ 0) with 0 in H5. change (path_tau _ 0) with 0 in H5'.
  rewrite ?Ropp_0, ?exp_0 in H5, H5'. unfold layer_emit in H5, H5'. rewrite ?Ropp_0, ?exp_0 in H5, H5'.
  assert (Y : planckB h 300 = / (exp (h / 300) - 1) /\ planckB h 150 = / (exp (h / 300) * exp (h / 300) - 1)).
  { unfold planckB. split; [reflexivity|]. rewrite <- exp_plus. do 3 f_equal. lra. }
  assert (Y1 : 1 < exp (h / 300)) by (apply exp_gt1, Rdiv_lt_0_compat; lra).
  assert (R : 2 * planckB h 150 < planckB h 300).
  { destruct Y as [-> ->]. set (y := exp (h / 300)) in *.
    replace (/ (y - 1)) with ((y + 1) * / (y * y - 1)) by (field; split; nra).
    assert (0 < / (y * y - 1)) by (apply Rinv_0_lt_compat; nra). nra. }
  assert (P1 := planckB_pos h 150 Hh ltac:(lra)). assert (P2 := planckB_pos h 2.728 Hh ltac:(lra)).
  assert (P3 : planckB h 2.728 < planckB h 300) by (apply planckB_incr; lra).
  assert (X : 0 < exp (- (20)) < 1 / 20).
  { split; [apply exp_pos|]. assert (E := exp_ge_1_add 20). rewrite exp_Ropp. apply Rmult_lt_reg_r with (exp 20); [lra|]. rewrite Rinv_l by lra. lra. }
  set (b := planckB h 150) in *. set (B := planckB h 300) in *. set (c := planckB h 2.728) in *. set (x := exp (- (20))) in *. clearbody b B c x.
  clear Y Y1.
  match type of H5 with _ = Fin ?v => assert (V1 : v = B * (1 - x) + x * c) by (rewrite ?Ropp_0, ?exp_0; field; repeat split; lra); rewrite V1 in H5 end.
  match type of H5' with _ = Fin ?v => assert (V2 : v = (b + B * x) * ((1 - x) / (1 + x)) + x * (B * (1 - x) + x * c)) by (field; repeat split; lra); rewrite V2 in H5' end.
  assert (Q : 0 < (1 - x) / (1 + x) <= 1).
  { split; [apply Rdiv_lt_0_compat; lra|]. apply Rmult_le_reg_r with (1 + x); [lra|]. unfold Rdiv. rewrite Rmult_assoc, Rinv_l by lra. lra. }
  set (q := (1 - x) / (1 + x)) in *. clearbody q.
  assert (G0 : 0 < b + B * x) by nra.
  assert (G1 : 0 < (b + B * x) * q <= b + B * x) by (split; [apply Rmult_lt_0_compat; lra|nra]).
  assert (G5 : 0 < x * c < x * B) by (split; [apply Rmult_lt_0_compat; lra|apply Rmult_lt_compat_l; lra]).
  assert (G6 : 0 <= B * (1 - x) + x * c <= B) by (split; nra).
  assert (G2 : 0 <= x * (B * (1 - x) + x * c) <= x * B) by (split; [apply Rmult_le_pos; lra|apply Rmult_le_compat_l; lra]).
  assert (G3 : x * B < B / 20) by nra.
  eexists o, o', (planckT h _), (planckT h _). rewrite Ek, Ek', H5, H5', !bright_X by lra.
  split; [exact Ho|]. split; [exact Ho'|]. split; [reflexivity|]. split; [reflexivity|]. apply planckT_incr; lra.
Qed.
