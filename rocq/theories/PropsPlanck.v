(** Claims C01-C14: Planck radiances and the radiative transfer sum. *)

From Coq Require Import ZArith Reals Lra Lia List Bool.
Import ListNotations.
From Verif Require Import Arith PyBase Utils RTE Spec RealAux PlanckGen PlanckReal PlanckMaster.
Open Scope R_scope.

Notation Xplanck sat es f t tau :=
  (planck (A:=XA) sat (Fin es) (Fin f) (map Fin t) (map Fin tau)).
Notation Xbright := (bright (A:=XA)).

(** A small profile used in the examples. *)
Definition ex_t : list R := [280; 250; 220].
Definition ex_tau : list R := [0; 0.5; 0.1].
Lemma ex_t_pos x : In x ex_t -> 0 < x.
Proof. unfold ex_t. simpl. intros H. repeat (destruct H as [<-|H]; [lra|]). destruct H. Qed.
Lemma ex_t_bd x : In x ex_t -> 2 <= x <= 300.
Proof. unfold ex_t. simpl. intros H. repeat (destruct H as [<-|H]; [lra|]). destruct H. Qed.
Lemma ex_tau_pos x : In x ex_tau -> 0 <= x.
Proof. unfold ex_tau. simpl. intros H. repeat (destruct H as [<-|H]; [lra|]). destruct H. Qed.
Lemma ex_tau_total : total_tau ex_tau = 0.6.
Proof. unfold total_tau, ex_tau. simpl. lra. Qed.
Lemma ex_len : length ex_t = length ex_tau. Proof. reflexivity. Qed.
Lemma ex_ne : ex_t <> []. Proof. discriminate. Qed.

Lemma spec_hvk_pos f : 0 < f -> 0 < spec_hvk f.
Proof. intros. rewrite <- hvk_of_R. apply hvk_of_pos; auto. Qed.

(** ** C01 *)
Theorem C01_planck_inversion (h : R) : 0 < h ->
  (forall T, 0 < T -> Xbright (Fin h) (tk2b_mod (A:=XA) (Fin h) (Fin T)) = Fin T) /\
  (forall B, 0 < B -> tk2b_mod (A:=XA) (Fin h) (Xbright (Fin h) (Fin B)) = Fin B).
Proof.
  intros Hh. split.
  - intros T HT. rewrite tk2b_X by auto. rewrite bright_X by (auto; apply planckB_pos; auto).
    f_equal. apply planckT_B; auto.
  - intros B HB. rewrite bright_X by auto. rewrite tk2b_X by (auto; apply planckT_pos; auto).
    f_equal. apply planckB_T; auto.
Qed.
Example C01_example : Xbright (Fin (spec_hvk 22.24)) (tk2b_mod (A:=XA) (Fin (spec_hvk 22.24)) (Fin 288)) = Fin 288.
Proof. apply C01_planck_inversion; [apply spec_hvk_pos|]; lra. Qed.

(** ** C02 *)
Theorem C02_monotone (h : R) : 0 < h ->
  (forall T1 T2, 0 < T1 -> T1 < T2 -> exists b1 b2,
     tk2b_mod (A:=XA) (Fin h) (Fin T1) = Fin b1 /\ tk2b_mod (A:=XA) (Fin h) (Fin T2) = Fin b2 /\
     0 < b1 < b2) /\
  (forall B1 B2, 0 < B1 -> B1 < B2 -> exists T1 T2,
     Xbright (Fin h) (Fin B1) = Fin T1 /\ Xbright (Fin h) (Fin B2) = Fin T2 /\ 0 < T1 < T2) /\
  Xbright (Fin h) (Fin 0) = Fin 0.
Proof.
  intros Hh. split; [|split].
  - intros T1 T2 H1 H12. exists (planckB h T1), (planckB h T2).
    rewrite !tk2b_X by lra. repeat split; auto. apply planckB_pos; auto. apply planckB_incr; auto.
  - intros B1 B2 H1 H12. exists (planckT h B1), (planckT h B2).
    rewrite !bright_X by lra. repeat split; auto. apply planckT_pos; auto. apply planckT_incr; auto.
  - apply bright_X0.
Qed.
Example C02_example : exists b1 b2,
  tk2b_mod (A:=XA) (Fin (spec_hvk 183.31)) (Fin 250) = Fin b1 /\
  tk2b_mod (A:=XA) (Fin (spec_hvk 183.31)) (Fin 288.5) = Fin b2 /\ 0 < b1 < b2.
Proof. apply C02_monotone; [apply spec_hvk_pos|..]; lra. Qed.

(** ** C03 *)
Lemma spec_tau_antenna sat tl : tl <> [] ->
  spec_tau sat tl (if sat then length tl - 1 else 0) = 0.
Proof.
  intros H. unfold spec_tau. destruct sat; [|reflexivity]. rewrite Nat.sub_diag. reflexivity.
Qed.
Lemma spec_tau_far sat tl : tl <> [] ->
  spec_tau sat tl (if sat then 0 else length tl - 1) = total_tau tl.
Proof.
  intros H. unfold spec_tau. rewrite <- (total_tau_view sat tl H). destruct sat; auto. rewrite Nat.sub_0_r. auto.
Qed.

Theorem C03_tau_profile (sat : bool) (es f : R) (t tau : list R) :
  0 < f -> (forall x, In x t -> 0 < x) -> length t = length tau -> t <> [] ->
  (forall x, In x tau -> 0 <= x) ->
  exists o tp, Xplanck sat es f t tau = Ok o /\ p_tauprof o = map Fin tp /\ length tp = length t /\
    (* 0 at the antenna *)
    nth (if sat then length t - 1 else 0) tp 0 = 0 /\
    (* never decreasing away from it, by exactly the opacity of the layer in between *)
    (forall k, (S k < length t)%nat ->
       if sat then nth k tp 0 = nth (S k) tp 0 + nth (S k) tau 0
       else nth (S k) tp 0 = nth k tp 0 + nth (S k) tau 0) /\
    (* far end: sum of all layers, the same in both modes *)
    nth (if sat then 0 else length t - 1) tp 0 = fold_right Rplus 0 (List.tl tau).
Proof.
  intros Hf Ht Hl Hne Htau.
  assert (Hn : (0 < length t)%nat) by (destruct t; [congruence|simpl; lia]).
  assert (Hne' : tau <> []) by (destruct tau; [simpl in *; lia|discriminate]).
  destruct (planckX_master sat es f t tau Hf Ht Hl Hne) as (o & Ho & _ & _ & H3 & _).
  exists o, (map (spec_tau sat tau) (seq 0 (length t))).
  assert (Hnth : forall k, (k < length t)%nat ->
            nth k (map (spec_tau sat tau) (seq 0 (length t))) 0 = spec_tau sat tau k).
  { intros k Hk. rewrite nth_indep with (d' := spec_tau sat tau 0) by (rewrite map_length, seq_length; auto).
    rewrite map_nth, seq_nth by auto. reflexivity. }
  split; [exact Ho|]. split; [exact H3|]. split; [rewrite map_length, seq_length; auto|].
  split; [|split].
  - rewrite Hnth by (destruct sat; lia). rewrite Hl. apply spec_tau_antenna; auto.
  - intros k Hk. destruct sat; rewrite !Hnth by lia; unfold spec_tau; rewrite <- ?Hl.
    + replace (length t - 1 - k)%nat with (S (length t - 1 - S k)) by lia.
      change (path_tau (view_D true tau) (S (length t - 1 - S k))) with
        (path_tau (view_D true tau) (length t - 1 - S k) + view_D true tau (S (length t - 1 - S k))).
      f_equal. unfold view_D. f_equal. lia.
    + reflexivity.
  - rewrite Hnth by (destruct sat; lia). rewrite Hl. apply spec_tau_far; auto.
Qed.
Example C03_example : exists o tp, Xplanck true 1 22.24 ex_t ex_tau = Ok o /\ p_tauprof o = map Fin tp /\
  nth 0 tp 0 = 0.6.
Proof.
  destruct (C03_tau_profile true 1 22.24 ex_t ex_tau ltac:(lra) ex_t_pos ex_len ex_ne ex_tau_pos)
    as (o & tp & H & H1 & _ & _ & _ & H2).
  exists o, tp. repeat split; auto. rewrite H2. simpl. lra.
Qed.

(** ** C04 *)
Lemma In_repeat_eq (T : R) n x : In x (repeat T n) -> x = T.
Proof. intros H. apply repeat_spec in H. auto. Qed.

Theorem C04_isothermal_ground (es f T : R) (n : nat) (tau : list R) :
  0 < f -> 0 < T -> (0 < n)%nat -> length tau = n -> (forall x, In x tau -> 0 <= x) ->
  0 < total_tau tau < 125 ->
  let h := spec_hvk f in let a := total_tau tau in
  exists o, Xplanck false es f (repeat T n) tau = Ok o /\
    Xbright (p_hvk o) (p_boftmr o) = Fin T /\
    p_boftotl o = Fin (planckB h T * (1 - exp (- a)) + planckB h 2.728 * exp (- a)).
Proof.
  intros Hf HT Hn Hl Htau Ha h a.
  destruct (planckX_master false es f (repeat T n) tau Hf) as (o & Ho & Hh & _ & _ & _ & H5 & H6 & _).
  { intros x Hx. apply In_repeat_eq in Hx. lra. }
  { rewrite repeat_length; auto. }
  { destruct n; [lia|discriminate]. }
  exists o. split; [exact Ho|].
  assert (Hpos := spec_hvk_pos f Hf).
  destruct (H5 ltac:(lra)) as (_ & H5').
  rewrite H5', H6 by lra. rewrite Hh. rewrite (total_atm_iso false _ T n tau Hl Hn).
  fold h a. unfold background.
  assert (He := exp_neg_lt1 a ltac:(unfold a; lra)).
  split.
  - replace (planckB h T * (1 - exp (- a)) / (1 - exp (- a))) with (planckB h T) by (field; lra).
    rewrite bright_X by (auto; apply planckB_pos; auto). f_equal. apply planckT_B; auto.
  - f_equal. lra.
Qed.
Example C04_example : exists o, Xplanck false 1 31.4 (repeat 260 3) ex_tau = Ok o /\
  Xbright (p_hvk o) (p_boftmr o) = Fin 260.
Proof.
  destruct (C04_isothermal_ground 1 31.4 260 3 ex_tau) as (o & H1 & H2 & _); try lra; try lia; auto.
  - apply ex_tau_pos.
  - rewrite ex_tau_total; lra.
  - exists o; auto.
Qed.

(** ** C05 *)
Theorem C05_isothermal_satellite (f T : R) (n : nat) (tau : list R) :
  0 < f -> 0 < T -> (0 < n)%nat -> length tau = n -> (forall x, In x tau -> 0 <= x) ->
  total_tau tau < 125 ->
  exists o, Xplanck true 1 f (repeat T n) tau = Ok o /\ Xbright (p_hvk o) (p_boftotl o) = Fin T.
Proof.
  intros Hf HT Hn Hl Htau Ha.
  destruct (planckX_master true 1 f (repeat T n) tau Hf) as (o & Ho & Hh & _ & _ & _ & H5 & _).
  { intros x Hx. apply In_repeat_eq in Hx. lra. }
  { rewrite repeat_length; auto. }
  { destruct n; [lia|discriminate]. }
  exists o. split; [exact Ho|]. assert (Hpos := spec_hvk_pos f Hf).
  destruct (H5 Ha) as (_ & ->). rewrite Hh, (total_atm_iso true _ T n tau Hl Hn). unfold background.
  rewrite nth_repeat_R by lia.
  match goal with |- Xbright _ (Fin ?x) = _ => replace x with (planckB (spec_hvk f) T) by lra end.
  rewrite bright_X by (auto; apply planckB_pos; auto). f_equal. apply planckT_B; auto.
Qed.
Example C05_example : exists o, Xplanck true 1 89 (repeat 271.5 3) ex_tau = Ok o /\
  Xbright (p_hvk o) (p_boftotl o) = Fin 271.5.
Proof.
  apply C05_isothermal_satellite; try lra; try lia; auto. apply ex_tau_pos. rewrite ex_tau_total; lra.
Qed.

(** ** C06 *)
Theorem C06_ground_bounds (es f lo hi : R) (t tau : list R) :
  0 < f -> 0 < lo -> length t = length tau -> t <> [] ->
  (forall x, In x t -> lo <= x <= hi) -> lo <= 2.728 <= hi -> (forall x, In x tau -> 0 <= x) ->
  exists o tb, Xplanck false es f t tau = Ok o /\ Xbright (p_hvk o) (p_boftotl o) = Fin tb /\
    tb <= hi /\ (total_tau tau < 125 -> lo <= tb).
Proof.
  intros Hf Hlo Hl Hne Ht Hc Htau. assert (Hpos := spec_hvk_pos f Hf). set (h := spec_hvk f) in *.
  destruct (planckX_master false es f t tau Hf) as (o & Ho & Hh & _ & _ & _ & H5 & _ & _ & H8); auto.
  { intros x Hx. destruct (Ht x Hx). lra. }
  fold h in Hh, H5, H8. destruct (total_atm_bounds false h t tau lo hi) as [B1 B2]; auto.
  assert (H0 := total_tau_nonneg tau Htau).
  assert (E1 := exp_neg_le1 _ H0). assert (E2 := exp_pos (- total_tau tau)).
  assert (P1 := planckB_pos h lo Hpos Hlo).
  assert (P2 : planckB h lo <= planckB h 2.728 <= planckB h hi) by (split; apply planckB_le; lra).
  destruct (Rlt_le_dec (total_tau tau) 125) as [Hlt|Hge].
  - destruct (H5 Hlt) as (_ & Hb). unfold background in Hb.
    set (b := planckB h 2.728 * exp (- total_tau tau) + total_atm false h t tau) in *.
    assert (Hb1 : planckB h lo <= b) by (unfold b; nra).
    assert (Hb2 : b <= planckB h hi) by (unfold b; nra).
    exists o, (planckT h b). rewrite Hb, Hh. split; [exact Ho|]. split; [apply bright_X; lra|].
    split; [|intros _].
    + rewrite <- (planckT_B h hi) by lra. apply planckT_le; lra.
    + rewrite <- (planckT_B h lo) by lra. apply planckT_le; lra.
  - destruct (H8 Hge) as (_ & Hb & _).
    set (b := total_atm false h t tau) in *.
    assert (E3 := exp_neg_lt1 (total_tau tau) ltac:(lra)).
    assert (Hb1 : 0 < b) by nra.
    assert (Hb2 : b <= planckB h hi) by nra.
    exists o, (planckT h b). rewrite Hb, Hh. split; [exact Ho|]. split; [apply bright_X; lra|].
    split; [|lra]. rewrite <- (planckT_B h hi) by lra. apply planckT_le; lra.
Qed.
Example C06_example : exists o tb, Xplanck false 1 22.24 ex_t ex_tau = Ok o /\
  Xbright (p_hvk o) (p_boftotl o) = Fin tb /\ 2 <= tb <= 300.
Proof.
  destruct (C06_ground_bounds 1 22.24 2 300 ex_t ex_tau) as (o & tb & H1 & H2 & H3 & H4);
    try lra; auto using ex_len, ex_ne, ex_t_bd, ex_tau_pos.
  exists o, tb. repeat split; auto. apply H4. rewrite ex_tau_total. lra.
Qed.

(** ** C07 *)
Theorem C07_satellite_bounds (es f lo hi : R) (t tau : list R) :
  0 < f -> 0 < lo -> 0 <= es <= 1 -> length t = length tau -> t <> [] ->
  (forall x, In x t -> lo <= x <= hi) -> (forall x, In x tau -> 0 <= x) ->
  exists o tb, Xplanck true es f t tau = Ok o /\ Xbright (p_hvk o) (p_boftotl o) = Fin tb /\
    0 <= tb <= hi /\ (es = 1 -> total_tau tau < 125 -> lo <= tb).
Proof.
  intros Hf Hlo Hes Hl Hne Ht Htau. assert (Hpos := spec_hvk_pos f Hf). set (h := spec_hvk f) in *.
  destruct (planckX_master true es f t tau Hf) as (o & Ho & Hh & _ & _ & _ & H5 & _ & _ & H8); auto.
  { intros x Hx. destruct (Ht x Hx). lra. }
  fold h in Hh, H5, H8. destruct (total_atm_bounds true h t tau lo hi) as [B1 B2]; auto.
  assert (H0 := total_tau_nonneg tau Htau).
  assert (E1 := exp_neg_le1 _ H0). assert (E2 := exp_pos (- total_tau tau)).
  assert (P1 := planckB_pos h lo Hpos Hlo).
  assert (Hs : lo <= nth 0 t 0 <= hi).
  { apply Ht, nth_In. destruct t; [congruence|simpl; lia]. }
  assert (P2 : planckB h lo <= planckB h (nth 0 t 0) <= planckB h hi) by (split; apply planckB_le; lra).
  assert (Key : forall b, 0 <= b <= planckB h hi -> p_boftotl o = Fin b ->
            exists tb, Xbright (p_hvk o) (p_boftotl o) = Fin tb /\ 0 <= tb <= hi /\ (planckB h lo <= b -> lo <= tb)).
  { intros b [[Hb1|Hb1] Hb2] ->; rewrite Hh.
    - exists (planckT h b). split; [apply bright_X; auto|]. split; [split|].
      + left. apply planckT_pos; auto.
      + rewrite <- (planckT_B h hi) by lra. apply planckT_le; lra.
      + intros Hb. rewrite <- (planckT_B h lo) by lra. apply planckT_le; lra.
    - exists 0. rewrite <- Hb1. split; [apply bright_X0|]. split; lra. }
  destruct (Rlt_le_dec (total_tau tau) 125) as [Hlt|Hge].
  - destruct (H5 Hlt) as (_ & Hb). unfold background in Hb.
    set (b := es * planckB h (nth 0 t 0) * exp (- total_tau tau) + total_atm true h t tau) in *.
    assert (Hq : 0 <= es * planckB h (nth 0 t 0) <= planckB h hi) by (split; nra).
    destruct (Key b) as (tb & Htb & Hr & Hlow).
    { unfold b. split; [|nra].
      assert (0 <= es * planckB h (nth 0 t 0) * exp (- total_tau tau)) by (apply Rmult_le_pos; lra). nra. }
    { exact Hb. }
    exists o, tb. repeat split; auto; try lra.
    intros -> _. apply Hlow. unfold b. nra.
  - destruct (H8 Hge) as (_ & Hb & _).
    destruct (Key (total_atm true h t tau)) as (tb & Htb & Hr & _); [split; nra|exact Hb|].
    exists o, tb. repeat split; auto; lra.
Qed.
Example C07_example : exists o tb, Xplanck true 0.6 183.31 ex_t ex_tau = Ok o /\
  Xbright (p_hvk o) (p_boftotl o) = Fin tb /\ 0 <= tb <= 300.
Proof.
  destruct (C07_satellite_bounds 0.6 183.31 2 300 ex_t ex_tau) as (o & tb & H1 & H2 & H3 & _);
    try lra; auto using ex_len, ex_ne, ex_t_bd, ex_tau_pos.
  exists o, tb. auto.
Qed.

(** ** C08 *)
Theorem C08_tmr_bounds (sat : bool) (es f lo hi : R) (t tau : list R) :
  0 < f -> 0 < lo -> length t = length tau -> t <> [] ->
  (forall x, In x t -> lo <= x <= hi) -> (forall x, In x tau -> 0 <= x) ->
  0 < total_tau tau < 125 ->
  exists o tmr, Xplanck sat es f t tau = Ok o /\ Xbright (p_hvk o) (p_boftmr o) = Fin tmr /\ lo <= tmr <= hi.
Proof.
  intros Hf Hlo Hl Hne Ht Htau Ha. assert (Hpos := spec_hvk_pos f Hf). set (h := spec_hvk f) in *.
  destruct (planckX_master sat es f t tau Hf) as (o & Ho & Hh & _ & _ & _ & _ & H6 & _ & _); auto.
  { intros x Hx. destruct (Ht x Hx). lra. }
  fold h in Hh, H6. destruct (total_atm_bounds sat h t tau lo hi) as [B1 B2]; auto.
  assert (E1 := exp_neg_lt1 (total_tau tau) ltac:(lra)). assert (E2 := exp_pos (- total_tau tau)).
  assert (P1 := planckB_pos h lo Hpos Hlo).
  set (w := 1 - exp (- total_tau tau)) in *. set (b := total_atm sat h t tau / w) in *.
  assert (Hw : 0 < w) by (unfold w; lra).
  assert (Hb : planckB h lo <= b <= planckB h hi).
  { unfold b. split; apply Rmult_le_reg_r with w; auto; unfold Rdiv; rewrite Rmult_assoc, Rinv_l by lra; lra. }
  assert (Hhi : lo <= hi).
  { destruct t as [|x t]; [congruence|]. destruct (Ht x (or_introl eq_refl)). lra. }
  exists o, (planckT h b). rewrite H6 by lra. rewrite Hh. split; [exact Ho|]. split; [apply bright_X; lra|].
  split.
  - rewrite <- (planckT_B h lo) by lra. apply planckT_le; lra.
  - rewrite <- (planckT_B h hi) by lra. apply planckT_le; lra.
Qed.
Example C08_example : exists o tmr, Xplanck true 0.6 183.31 ex_t ex_tau = Ok o /\
  Xbright (p_hvk o) (p_boftmr o) = Fin tmr /\ 2 <= tmr <= 300.
Proof.
  apply C08_tmr_bounds; try lra; auto using ex_len, ex_ne, ex_t_bd, ex_tau_pos.
  rewrite ex_tau_total. lra.
Qed.

(** ** C09, for every arithmetic (hence bit for bit in binary64) *)
Theorem C09_reversal (A : Arith) (es es' f x : car A) (t tau : list (car A)) :
  length t = length tau -> t <> [] ->
  exists o o', planck (A:=A) true es f t tau = Ok o /\
    planck (A:=A) false es' f (rev t) (x :: rev (List.tl tau)) = Ok o' /\
    p_boftatm o = rev (p_boftatm o') /\ p_tauprof o = rev (p_tauprof o') /\
    p_boft o = rev (p_boft o') /\ p_boftmr o = p_boftmr o' /\ p_hvk o = p_hvk o'.
Proof.
  intros Hl Hne.
  destruct (combine t tau) as [|[t0 d0] r] eqn:E.
  { destruct t; [congruence|]. destruct tau; discriminate. }
  set (lv := rev_profile (combine t tau)).
  assert (Hlv : combine (rev t) (x :: rev (List.tl tau)) =
          match lv with [] => [] | (a, _) :: r => (a, x) :: r end).
  { unfold lv. rewrite rev_profile_combine by auto. destruct (rev t); reflexivity. }
  assert (Hd : levs_dn (hvk_of f) (combine (rev t) (x :: rev (List.tl tau))) = levs_dn (hvk_of f) lv).
  { rewrite Hlv. destruct lv as [|[? ?] ?]; reflexivity. }
  assert (Hc : combine (rev t) (x :: rev (List.tl tau)) <> []).
  { rewrite Hlv. assert (Hn : lv <> []).
    { intros H. apply rev_profile_nil in H. rewrite E in H. discriminate. }
    destruct lv as [|[? ?] ?]; [congruence|discriminate]. }
  eexists. eexists. split; [|split].
  - apply (planck_sat es f t tau (combine t tau) t0 d0 r eq_refl E).
  - apply (planck_ground es' f (rev t) (x :: rev (List.tl tau)) _ eq_refl Hc).
  - rewrite Hd. fold lv. set (L := levs_dn (hvk_of f) lv).
    unfold planck_close. destruct (ltb _ _);
      cbn [p_boftotl p_boftatm p_boftmr p_tauprof p_hvk p_boft p_bakgrnd]; rewrite <- !map_rev; auto 7.
Qed.
Example C09_example : exists o o',
  planck (A:=RA) true 1 22.24 ex_t ex_tau = Ok o /\
  planck (A:=RA) false 1 22.24 (rev ex_t) [0; 0.1; 0.5] = Ok o' /\
  p_boftatm o = rev (p_boftatm o').
Proof.
  destruct (C09_reversal RA 1 1 22.24 0 ex_t ex_tau ex_len ex_ne) as (o & o' & H1 & H2 & H3 & _).
  exists o, o'. auto.
Qed.

(** ** C10 *)
Theorem C10_ground_ignores_emissivity (A : Arith) (es es' f : car A) (t tau : list (car A)) :
  planck false es f t tau = planck false es' f t tau.
Proof. reflexivity. Qed.

Theorem C10_satellite_affine (es1 es2 w f : R) (t tau : list R) :
  0 < f -> (forall x, In x t -> 0 < x) -> length t = length tau -> t <> [] ->
  exists o1 o2 o b1 b2,
    Xplanck true es1 f t tau = Ok o1 /\ Xplanck true es2 f t tau = Ok o2 /\
    Xplanck true (w * es1 + (1 - w) * es2) f t tau = Ok o /\
    p_boftotl o1 = Fin b1 /\ p_boftotl o2 = Fin b2 /\
    p_boftotl o = Fin (w * b1 + (1 - w) * b2) /\
    (es1 <= es2 -> b1 <= b2) /\
    (* strictly increasing unless the atmosphere is opaque *)
    (es1 < es2 -> total_tau tau < 125 -> b1 < b2) /\
    (* the mean radiating temperature and the emission profile do not depend on it *)
    p_boftmr o1 = p_boftmr o2 /\ p_boftatm o1 = p_boftatm o2.
Proof.
  intros Hf Ht Hl Hne. assert (Hpos := spec_hvk_pos f Hf).
  assert (H := fun es => planckX_master true es f t tau Hf Ht Hl Hne). cbn zeta in H.
  destruct (H es1) as (o1 & Ho1 & _ & _ & _ & A1 & B1 & _ & _ & D1).
  destruct (H es2) as (o2 & Ho2 & _ & _ & _ & A2 & B2 & _ & _ & D2).
  destruct (H (w * es1 + (1 - w) * es2)) as (o & Ho & _ & _ & _ & A3 & B3 & _ & _ & D3).
  exists o1, o2, o.
  assert (Hmr : p_boftmr o1 = p_boftmr o2).
  { destruct (planck_X true es1 f t tau Hf Ht Hl Hne) as (q1 & f1 & _ & Q1 & F1).
    destruct (planck_X true es2 f t tau Hf Ht Hl Hne) as (q2 & f2 & _ & Q2 & F2).
    rewrite Ho1 in Q1. rewrite Ho2 in Q2. inversion Q1. inversion Q2. subst o1 o2.
    cbn [p_boftmr lift_out]. rewrite F1, F2. reflexivity. }
  assert (Ps : 0 < planckB (spec_hvk f) (nth 0 t 0)).
  { apply planckB_pos; auto. apply Ht, nth_In. destruct t; [congruence|simpl; lia]. }
  unfold background in *. assert (E := exp_pos (- total_tau tau)).
  set (q := planckB (spec_hvk f) (nth 0 t 0)) in *. set (x := exp (- total_tau tau)) in *.
  assert (0 < q * x) by (apply Rmult_lt_0_compat; auto).
  destruct (Rlt_le_dec (total_tau tau) 125) as [Hlt|Hge].
  - destruct (B1 Hlt) as (_ & ->). destruct (B2 Hlt) as (_ & ->). destruct (B3 Hlt) as (_ & ->).
    eexists. eexists. do 5 (split; [first [exact Ho1|exact Ho2|exact Ho|reflexivity]|]).
    split; [f_equal; ring|].
    split; [intros; apply Rplus_le_compat_r; nra|].
    split; [intros; apply Rplus_lt_compat_r; nra|].
    split; [exact Hmr|congruence].
  - destruct (D1 Hge) as (_ & -> & _). destruct (D2 Hge) as (_ & -> & _). destruct (D3 Hge) as (_ & -> & _).
    eexists. eexists. do 5 (split; [first [exact Ho1|exact Ho2|exact Ho|reflexivity]|]).
    split; [f_equal; ring|]. split; [lra|]. split; [lra|]. split; [exact Hmr|congruence].
Qed.
Example C10_example : exists o1 o2 b1 b2,
  Xplanck true 0.5 22.24 ex_t ex_tau = Ok o1 /\ Xplanck true 0.9 22.24 ex_t ex_tau = Ok o2 /\
  p_boftotl o1 = Fin b1 /\ p_boftotl o2 = Fin b2 /\ b1 < b2.
Proof.
  destruct (C10_satellite_affine 0.5 0.9 0.3 22.24 ex_t ex_tau ltac:(lra) ex_t_pos ex_len ex_ne)
    as (o1 & o2 & o & b1 & b2 & H1 & H2 & _ & H3 & H4 & _ & _ & H5 & _).
  exists o1, o2, b1, b2. repeat split; auto. apply H5; [lra|]. rewrite ex_tau_total. lra.
Qed.

(** ** C11: the documented law is false; the reflected term is always missing *)

(** Documented background at the top: surface emission plus reflected downwelling, attenuated. *)
Definition documented_background (es bs down tau : R) : R := (es * bs + (1 - es) * down) * exp (- tau).

Theorem C11_reflected_downwelling_refuted (es f : R) (t tau : list R) :
  0 < f -> (forall x, In x t -> 0 < x) -> length t = length tau -> t <> [] ->
  (forall x, In x tau -> 0 <= x) -> es < 1 -> total_tau tau < 125 ->
  exists osat ognd b down,
    Xplanck true es f t tau = Ok osat /\ Xplanck false es f t tau = Ok ognd /\
    p_bakgrnd osat = Fin b /\ p_boftotl ognd = Fin down /\ 0 < down /\
    b = es * planckB (spec_hvk f) (nth 0 t 0) * exp (- total_tau tau) /\
    b < documented_background es (planckB (spec_hvk f) (nth 0 t 0)) down (total_tau tau).
Proof.
  intros Hf Ht Hl Hne Htau Hes Ha. assert (Hpos := spec_hvk_pos f Hf).
  destruct (planckX_master true es f t tau Hf Ht Hl Hne) as (o1 & Ho1 & _ & _ & _ & _ & B1 & _).
  destruct (planckX_master false es f t tau Hf Ht Hl Hne) as (o2 & Ho2 & _ & _ & _ & _ & B2 & _).
  destruct (B1 Ha) as (B1' & _). destruct (B2 Ha) as (_ & B2').
  exists o1, o2. eexists. eexists. split; [exact Ho1|]. split; [exact Ho2|].
  split; [exact B1'|]. split; [exact B2'|]. unfold background, documented_background.
  assert (E := exp_pos (- total_tau tau)).
  assert (P := planckB_pos (spec_hvk f) 2.728 Hpos ltac:(lra)).
  assert (Hatm : 0 <= total_atm false (spec_hvk f) t tau).
  { unfold total_atm. apply Rle_trans with (0 * (1 - exp (- path_tau (view_D false tau) (length t - 1)))); [lra|].
    apply path_atm_bounds with (M := fold_right (fun x m => Rmax (planckB (spec_hvk f) x) m) 0 t).
    - intros i Hi. assert (Hn : (0 < length t)%nat) by (destruct t; [congruence|simpl; lia]).
      assert (Hin := view_T_In false t i ltac:(lia)). split.
      + left. apply planckB_pos; auto.
      + generalize dependent (view_T false t i). intros z Hin. clear - Hin. induction t as [|y t IH]; [destruct Hin|]. simpl. destruct Hin as [->|Hin]; [apply Rmax_l|].
        eapply Rle_trans; [apply IH; exact Hin|apply Rmax_r].
    - intros i. apply view_D_nonneg; auto. }
  set (x := exp (- total_tau tau)) in *. set (q := planckB (spec_hvk f) 2.728) in *.
  assert (0 < q * x) by (apply Rmult_lt_0_compat; auto).
  split; [lra|]. split; [reflexivity|].
  apply Rmult_lt_compat_r; auto. assert (0 < (1 - es) * (q * x + total_atm false (spec_hvk f) t tau)).
  { apply Rmult_lt_0_compat; lra. } lra.
Qed.
Example C11_example : exists b down,
  b < documented_background 0.5 (planckB (spec_hvk 22.24) 280) down 0.6 /\ 0 < down /\
  exists osat, Xplanck true 0.5 22.24 ex_t ex_tau = Ok osat /\ p_bakgrnd osat = Fin b.
Proof.
  destruct (C11_reflected_downwelling_refuted 0.5 22.24 ex_t ex_tau) as (o1 & o2 & b & d & H1 & _ & H2 & _ & H3 & _ & H4);
    try lra; auto using ex_t_pos, ex_len, ex_ne, ex_tau_pos.
  { rewrite ex_tau_total. lra. }
  exists b, d. rewrite ex_tau_total in H4. split; [exact H4|]. split; [exact H3|]. exists o1. auto.
Qed.

(** ** C13 *)
Theorem C13_opaque_cutoff (sat : bool) (es f : R) (t tau : list R) :
  0 < f -> (forall x, In x t -> 0 < x) -> length t = length tau -> t <> [] -> 0 <= es ->
  exists o atm b, Xplanck sat es f t tau = Ok o /\
    nth (if sat then 0 else length t - 1) (p_boftatm o) NaN = Fin atm /\ p_boftotl o = Fin b /\
    (total_tau tau < 125 ->
       b = atm + background sat es (spec_hvk f) t * exp (- total_tau tau) /\
       p_bakgrnd o = Fin (background sat es (spec_hvk f) t * exp (- total_tau tau))) /\
    (125 <= total_tau tau ->
       b = atm /\ p_bakgrnd o = Fin 0 /\
       Rabs (b - (atm + background sat es (spec_hvk f) t * exp (- total_tau tau)))
         <= background sat es (spec_hvk f) t * exp (- 125)).
Proof.
  intros Hf Ht Hl Hne Hes. assert (Hpos := spec_hvk_pos f Hf).
  assert (Hn : (0 < length t)%nat) by (destruct t; [congruence|simpl; lia]).
  destruct (planckX_master sat es f t tau Hf Ht Hl Hne) as (o & Ho & _ & _ & _ & HA & B1 & _ & _ & D1).
  exists o, (total_atm sat (spec_hvk f) t tau).
  assert (Hatm : nth (if sat then 0 else length t - 1) (p_boftatm o) NaN
                 = Fin (total_atm sat (spec_hvk f) t tau)).
  { rewrite HA. rewrite map_map. set (k := if sat then 0%nat else (length t - 1)%nat).
    rewrite nth_indep with (d' := (fun x => Fin (spec_atm sat (spec_hvk f) t tau x)) 0%nat).
    2:{ rewrite map_length, seq_length. unfold k. destruct sat; lia. }
    rewrite (map_nth (fun x => Fin (spec_atm sat (spec_hvk f) t tau x))).
    rewrite seq_nth by (unfold k; destruct sat; lia). f_equal.
    unfold spec_atm, total_atm, k. destruct sat; simpl; f_equal; lia. }
  assert (Hbg : 0 <= background sat es (spec_hvk f) t).
  { unfold background. destruct sat.
    - apply Rmult_le_pos; auto. left. apply planckB_pos; auto. apply Ht, nth_In; auto.
    - left. apply planckB_pos; lra. }
  destruct (Rlt_le_dec (total_tau tau) 125) as [Hlt|Hge].
  - destruct (B1 Hlt) as (Hb & Hb2). eexists. split; [exact Ho|]. split; [exact Hatm|]. split; [exact Hb2|].
    split; [|lra]. intros _. split; [lra|exact Hb].
  - destruct (D1 Hge) as (Hb & Hb2 & _). eexists. split; [exact Ho|]. split; [exact Hatm|]. split; [exact Hb2|].
    split; [lra|]. intros _. split; [reflexivity|]. split; [exact Hb|].
    set (a := total_atm sat (spec_hvk f) t tau). set (g := background sat es (spec_hvk f) t) in *.
    replace (a - (a + g * exp (- total_tau tau))) with (- (g * exp (- total_tau tau))) by lra.
    rewrite Rabs_Ropp, Rabs_right.
    + apply Rmult_le_compat_l; auto. apply exp_le. lra.
    + apply Rle_ge, Rmult_le_pos; auto. left. apply exp_pos.
Qed.
Example C13_example : exists o atm, Xplanck false 1 57.3 ex_t [0; 100; 60] = Ok o /\
  nth 2 (p_boftatm o) NaN = Fin atm /\ p_boftotl o = Fin atm.
Proof.
  destruct (C13_opaque_cutoff false 1 57.3 ex_t [0; 100; 60]) as (o & a & b & H1 & H2 & H3 & _ & H4);
    try lra; auto using ex_t_pos, ex_ne.
  assert (E : total_tau [0; 100; 60] = 160) by (unfold total_tau; simpl; lra).
  rewrite E in H4. destruct (H4 ltac:(lra)) as (-> & _). exists o, a. auto.
Qed.

(** ** C14 *)
Lemma total_tau_zero n : total_tau (repeat 0 n) = 0.
Proof.
  unfold total_tau. destruct n; [reflexivity|]. simpl. induction n; simpl; lra.
Qed.
Lemma total_atm_zero sat h t n : total_atm sat h t (repeat 0 n) = 0.
Proof.
  unfold total_atm, path_atm. apply rsum_zero. intros i _.
  assert (Hz : forall j, path_tau (view_D sat (repeat 0 n)) j = 0).
  { intros j. apply rsum_zero. intros k _. unfold view_D.
    destruct sat; apply nth_repeat. }
  rewrite !Hz. lra.
Qed.

Theorem C14_transparent (sat : bool) (f : R) (t : list R) :
  0 < f -> (forall x, In x t -> 0 < x) -> t <> [] ->
  exists o, Xplanck sat 1 f t (repeat 0 (length t)) = Ok o /\
    Xbright (p_hvk o) (p_boftotl o) = Fin (if sat then nth 0 t 0 else 2.728) /\
    p_boftmr o = NaN /\ Xbright (p_hvk o) (p_boftmr o) = NaN.
Proof.
  intros Hf Ht Hne. assert (Hpos := spec_hvk_pos f Hf).
  destruct (planckX_master sat 1 f t (repeat 0 (length t)) Hf Ht) as (o & Ho & Hh & _ & _ & _ & B1 & _ & C1 & _); auto.
  { rewrite repeat_length; auto. }
  rewrite total_tau_zero, total_atm_zero in *. exists o. split; [exact Ho|].
  destruct (B1 ltac:(lra)) as (_ & ->). rewrite C1, Hh by auto.
  rewrite Ropp_0, exp_0, Rmult_1_r, Rplus_0_r. unfold background.
  assert (H0 : 0 < nth 0 t 0) by (apply Ht, nth_In; destruct t; [congruence|simpl; lia]).
  split; [|split; auto].
  destruct sat; rewrite ?Rmult_1_l.
  - rewrite bright_X by (auto; apply planckB_pos; auto). rewrite planckT_B; auto.
  - rewrite bright_X by (auto; apply planckB_pos; auto; lra). rewrite planckT_B; auto; lra.
Qed.
Example C14_example : exists o, Xplanck false 1 22.24 ex_t [0; 0; 0] = Ok o /\
  Xbright (p_hvk o) (p_boftotl o) = Fin 2.728 /\ p_boftmr o = NaN.
Proof.
  destruct (C14_transparent false 22.24 ex_t ltac:(lra) ex_t_pos ex_ne) as (o & H1 & H2 & H3 & _).
  exists o. auto.
Qed.

(** ** C84: the complete outcome of the radiative transfer sum, both geometries. *)
Theorem C84_discretised_transfer (sat : bool) (es f : R) (t tl : list R) :
  0 < f -> (forall x, In x t -> 0 < x) -> length t = length tl -> t <> [] ->
  let h := spec_hvk f in
  let tau := total_tau tl in
  let atm := total_atm sat h t tl in
  let bg := background sat es h t in
  exists o, planck (A:=XA) sat (Fin es) (Fin f) (map Fin t) (map Fin tl) = Ok o /\
    p_hvk o = Fin h /\
    p_boft o = map Fin (map (planckB h) t) /\
    p_tauprof o = map Fin (map (spec_tau sat tl) (seq 0 (length t))) /\
    p_boftatm o = map Fin (map (spec_atm sat h t tl) (seq 0 (length t))) /\
    (tau < 125 ->
       p_bakgrnd o = Fin (bg * exp (- tau)) /\ p_boftotl o = Fin (bg * exp (- tau) + atm)) /\
    (tau < 125 -> tau <> 0 -> p_boftmr o = Fin (atm / (1 - exp (- tau)))) /\
    (tau = 0 -> atm = 0 -> p_boftmr o = NaN) /\
    (125 <= tau -> p_bakgrnd o = Fin 0 /\ p_boftotl o = Fin atm /\ p_boftmr o = Fin atm).
Proof. exact (planckX_master sat es f t tl). Qed.
Example C84_example : exists o, planck (A:=XA) true (Fin 0.9) (Fin 22.235) (map Fin [290; 280; 250]) (map Fin [0; 0.1; 0.05]) = Ok o /\
  p_boftotl o = Fin (background true 0.9 (spec_hvk 22.235) [290; 280; 250] * exp (- total_tau [0; 0.1; 0.05])
                     + total_atm true (spec_hvk 22.235) [290; 280; 250] [0; 0.1; 0.05]).
Proof.
  destruct (C84_discretised_transfer true 0.9 22.235 [290; 280; 250] [0; 0.1; 0.05]) as (o & H & _ & _ & _ & _ & Hb & _); auto; try lra; try discriminate.
  - simpl. intros x [<-|[<-|[<-|[]]]]; lra.
  - exists o. split; [exact H|]. apply Hb. unfold total_tau. simpl. lra.
Qed.
