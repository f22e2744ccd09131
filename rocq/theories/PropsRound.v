(** C136: rounding errors of the radiative transfer solution. *)

From Coq Require Import ZArith Reals Lra Lia List Bool.
Import ListNotations.
From Verif Require Import Arith PyBase Utils RTE Spec RealAux PlanckGen PlanckReal PlanckMaster Machine RoundPlanck
  MachineDouble.
Open Scope R_scope.

(** The brightness temperature reported for a profile: [planck] followed by [bright]
    (tb_spectrum.py:363-378), in any arithmetic. *)
Definition tb_of {A : Arith} (sat : bool) (es f : car A) (t tl : list (car A)) : result (car A) :=
  match planck sat es f t tl with
  | Ok o => Ok (bright (p_hvk o) (p_boftotl o))
  | Err e => Err e
  end.

Lemma hvk_range f : 1 <= f <= 200 -> 0.0479 <= spec_hvk f <= 9.6.
Proof. intros H. unfold spec_hvk. lra. Qed.

Lemma exp4_le : exp 4 <= 81.
Proof.
  replace 4 with (1 + 1 + 1 + 1) by lra. rewrite !exp_plus. assert (H := exp_le_3). assert (H0 := exp_pos 1).
  assert (exp 1 * exp 1 <= 9) by nra. assert (exp 1 * exp 1 * exp 1 <= 27) by nra. nra.
Qed.

(** Radiances at 400 K and 2.728 K differ by a bounded factor. *)
Lemma planck_ratio h : 0.0479 <= h <= 9.6 -> planckB h 400 <= 11900 * planckB h 2.728.
Proof.
  intros Hh. assert (P0 := planckB_pos h 2.728 ltac:(lra) ltac:(lra)).
  set (x := h / 2.728). assert (Hx : 0 < x <= 4) by (unfold x; lra).
  assert (H1 : planckB h 400 <= 400 / h).
  { unfold planckB. replace (400 / h) with (/ (h / 400)) by (field; lra). apply Rinv_le_contravar; [lra|].
    assert (H := exp_ineq1_le (h / 400)). lra. }
  assert (H2 : / (x * 81) <= planckB h 2.728).
  { unfold planckB. fold x. assert (1 < exp x) by (apply exp_gt1; lra). apply Rinv_le_contravar; [lra|].
    assert (G := exp_m1_le x ltac:(lra)). assert (exp x <= exp 4) by (apply exp_le; lra). assert (G4 := exp4_le). nra. }
  apply Rle_trans with (400 / h); auto. apply Rle_trans with (11900 * / (x * 81)); [|lra].
  unfold x. replace (11900 * / (h / 2.728 * 81)) with (11900 * 2.728 / 81 * / h) by (field; lra).
  unfold Rdiv. apply Rmult_le_compat_r; [left; apply Rinv_0_lt_compat; lra|lra].
Qed.

Section Main.
Context (m : machine) (Hm : machine_ok m).
Notation v := (vof m).
Notation NR := (near (vof m)).
Notation AP := (apx (vof m)).

Let Hv : 0 <= v := v_nonneg m Hm.

Lemma v_lt : v <= 1.8e-15.
Proof. assert (H := v_tiny m Hm). simpl in H. lra. Qed.

Lemma tau_of_viewed sat t tl' : length t = length tl' -> t <> [] ->
  fold_right Rplus 0 (map snd (tl (viewed sat t tl'))) = total_tau tl'.
Proof.
  intros Hl Hne.
  assert (Htl : tl' <> []) by (intros E; subst; destruct t; simpl in *; congruence).
  rewrite <- (total_tau_view sat tl' Htl).
  assert (Hk : (length t - 1 < length t)%nat) by (destruct t; [congruence|simpl; lia]).
  rewrite <- Hl. rewrite <- (viewed_tau sat t tl' (length t - 1) Hl Hne Hk).
  rewrite <- (viewed_length sat t tl' Hl). set (lv := viewed sat t tl').
  assert (Hlv : lv <> []). { intros E. assert (H := viewed_length sat t tl' Hl). fold lv in H. rewrite E in H. destruct t; simpl in *; congruence. }
  destruct lv as [|x lv]; [congruence|]. cbn [tl length]. rewrite Nat.sub_succ, Nat.sub_0_r. unfold path_tau.
  rewrite <- (rsum_list (map snd lv)), map_length. apply rsum_ext. intros i Hi. unfold rD. cbn [nth].
  rewrite (nth_indep (map snd lv) 0 (snd (0, 0))) by (rewrite map_length; auto). rewrite map_nth. reflexivity.
Qed.

Lemma rev_profile_MA lv : rev_profile (A:=MA m) lv = rev_profile (A:=RA) lv.
Proof.
  induction lv as [|[t d] lv IH]; [reflexivity|]. destruct lv as [|[t1 d1] r].
  - cbn [rev_profile]. ma. ra. cbn [litR]. replace (0 / 1) with 0 by lra. rewrite (rnd_0 m Hm). reflexivity.
  - change (rev_profile (A:=MA m) ((t, d) :: (t1, d1) :: r))
      with (rev_profile (A:=MA m) ((t1, d1) :: r) ++ [(t, d1)]).
    rewrite IH. reflexivity.
Qed.

Lemma viewed_In_T sat t tl' x : In x (viewed sat t tl') -> In (fst x) t.
Proof.
  intros H. unfold viewed in H. destruct sat.
  - apply In_rev_profile in H. destruct H as ([a b] & Hy & E). destruct x as [xa xb]. cbn [fst] in *. subst xa.
    apply in_combine_l in Hy. exact Hy.
  - destruct x as [a b]. apply in_combine_l in H. exact H.
Qed.

Lemma viewed_In_D sat t tl' x : length t = length tl' -> t <> [] -> (forall d, In d tl' -> 0 <= d) ->
  In x (tl (viewed sat t tl')) -> 0 <= snd x.
Proof.
  intros Hl Hne Hd H. assert (HL := viewed_length sat t tl' Hl).
  apply (In_nth _ _ (0, 0)) in H. destruct H as (i & Hi & <-).
  assert (E : forall l : list (R * R), nth i (tl l) (0, 0) = nth (S i) l (0, 0)) by (intros [|? ?]; [destruct i|]; reflexivity).
  rewrite E. assert (Hi' : (S i < length t)%nat).
  { rewrite <- HL. destruct (viewed sat t tl'); simpl in *; lia. }
  change (snd (nth (S i) (viewed sat t tl') (0, 0))) with (rD (viewed sat t tl') (S i)).
  rewrite viewed_D by (auto; lia). apply view_D_nonneg; auto.
Qed.

(** The total radiance of the machine run against the exact one. *)
Lemma total_close sat es f t tl' c n L :
  let h := spec_hvk f in
  let h' := hvk_of (A:=MA m) f in
  let M := planckB h 400 in
  0 < f -> length t = length tl' -> t <> [] ->
  (forall d, In d tl' -> 0 <= d) -> total_tau tl' <= L ->
  0 <= c -> n * v <= 1e-6 -> INR (length t) - 1 <= n ->
  (forall T T', (In T t \/ T = 2.728) -> 0 < T' -> NR 1 T' T ->
     NR c (tk2b_mod (A:=MA m) h' T') (planckB h T) /\ 0 < tk2b_mod (A:=MA m) h' T' /\ 0 < planckB h T <= M) ->
  total_tau tl' <= 124 \/ 126 <= total_tau tl' ->
  (sat = true -> 0 <= es) -> (forall x, In x t -> 0 < x) ->
  exists o o', planck (A:=RA) sat es f t tl' = Ok o /\ planck (A:=MA m) sat es f t tl' = Ok o' /\
    p_hvk o = h /\ p_hvk o' = h' /\
    (p_boftotl o = if Rlt_dec (total_tau tl') 125
                   then background sat es h t * exp (- total_tau tl') + total_atm sat h t tl'
                   else total_atm sat h t tl') /\
    AP (c + 2 * n * L + 11 + n) (n * M * v) (p_boftotl o') (p_boftotl o) /\ 0 <= p_boftotl o'.
Proof.
  intros h h' M Hf Hl Hne Hd HL Hc Hnv Hn HB Htau Hes Hpos.
  assert (Hlen := viewed_length sat t tl' Hl).
  assert (Hlv : viewed sat t tl' <> []) by (intros E; rewrite E in Hlen; destruct t; simpl in *; congruence).
  assert (Hn1 : 1 <= INR (length t)).
  { change 1 with (INR 1). apply le_INR. destruct t; [congruence|simpl; lia]. }
  assert (Hn0 : 0 <= n) by lra.
  assert (Htn := total_tau_nonneg tl' Hd).
  assert (Hn2 : INR (length (viewed sat t tl')) - 1 <= n) by (rewrite Hlen; lra).
  assert (Hs2 : fold_right Rplus 0 (map snd (tl (viewed sat t tl'))) <= L) by (rewrite tau_of_viewed; auto).
  assert (FC : lev_close m c n L M (length t - 1)
            (last (levs_dn (A:=MA m) h' (viewed sat t tl')) (0, 0, 0))
            (last (levs_dn (A:=RA) h (viewed sat t tl')) (0, 0, 0))).
  { rewrite <- Hlen. apply far_close; auto; try lra.
    - intros x Hx. apply (viewed_In_D sat t tl'); auto.
    - intros x Hx. assert (Hin := viewed_In_T _ _ _ _ Hx). apply HB; auto. apply near_refl; auto; try lra.
      left; auto.
    }
  assert (FR := far_R sat f t tl' Hl Hne). rewrite hvk_of_R in FR. fold h in FR. rewrite FR in FC.
  destruct (last (levs_dn (A:=MA m) h' (viewed sat t tl')) (0, 0, 0)) as [[bl' a'] t'] eqn:EF.
  destruct FC as (_ & _ & _ & Nt & _ & Ht' & Aa & Ha & Ha').
  set (tau := total_tau tl') in *. set (atm := total_atm sat h t tl') in *.
  assert (Hk : INR (length t - 1) <= n).
  { rewrite minus_INR by (destruct t; [congruence|simpl; lia]). simpl. lra. }
  assert (Hk0 := pos_INR (length t - 1)).
  assert (HM : 0 <= M).
  { destruct (HB 2.728 2.728) as (_ & _ & P); auto; try lra. apply near_refl; auto; lra. }
  assert (HMv : 0 <= M * v) by (apply Rmult_le_pos; auto).
  assert (NT : NR n t' tau) by (apply near_mono with (INR (length t - 1)); auto).
  assert (HnL : 0 <= n * L) by (apply Rmult_le_pos; lra).
  assert (AA : AP (c + 2 * n * L + 10 + n) (n * M * v) a' atm).
  { eapply apx_mono; [exact Hv| | | | |exact Aa]; try lra.
    - rewrite !Rmult_assoc. apply Rmult_le_compat_r; auto.
    - assert (0 <= INR (length t - 1) * M * v) by (rewrite Rmult_assoc; apply Rmult_le_pos; auto). lra. }
  assert (Hs0 : 0 <= n * M * v) by (rewrite Rmult_assoc; apply Rmult_le_pos; auto).
  (* the machine run *)
  set (bg := background sat es h t).
  assert (L0 : lit (a:=MA m) 0 = 0).
  { ma. cbn [litR]. replace (0 / 1) with 0 by lra. apply rnd_0; auto. }
  assert (HP : exists bg' levs, planck (A:=MA m) sat es f t tl' = Ok (planck_close (A:=MA m) h' bg' (bl', a', t') levs)
             /\ NR (c + 2) bg' bg /\ 0 <= bg /\ 0 <= bg').
  { unfold bg, background, viewed in *. destruct sat.
    - destruct (combine t tl') as [|[t0 d0] r] eqn:E.
      { destruct t; [congruence|]. destruct tl'; discriminate. }
      assert (Ht0 : t0 = nth 0 t 0) by (destruct t, tl'; simpl in E; inversion E; auto).
      assert (Hin : In t0 t) by (rewrite Ht0; apply nth_In; destruct t; [congruence|simpl; lia]).
      destruct (HB t0 t0) as (N1 & P1 & P2); auto. { apply near_refl; auto; try lra. left; auto. }
      specialize (Hes eq_refl).
      eexists _, _. split; [|split; [|split]].
      + rewrite (planck_sat (A:=MA m) es f t tl' ((t0, d0) :: r) t0 d0 r E eq_refl).
        fold h'. rewrite rev_profile_MA.
        match goal with |- Ok (planck_close _ _ ?far _) = _ => assert (F : far = (bl', a', t')) end.
        { rewrite L0. exact EF. }
        rewrite F. reflexivity.
      + rewrite <- Ht0. ma. cbn [litR]. replace (0 / 10) with 0 by lra. rewrite (rnd_0 m Hm), Rmult_0_r, (rnd_0 m Hm), Rplus_0_r.
        replace (c + 2) with (1 + (1 + (0 + c))) by ring. apply near_rnd; auto.
        { apply rnd_nonneg; auto. apply Rmult_le_pos; lra. }
        apply op_mul; auto; try lra. apply near_refl; auto; lra.
      + rewrite <- Ht0. apply Rmult_le_pos; lra.
      + ma. cbn [litR]. replace (0 / 10) with 0 by lra. rewrite (rnd_0 m Hm), Rmult_0_r, (rnd_0 m Hm), Rplus_0_r.
        apply rnd_nonneg; auto. apply rnd_nonneg; auto. apply Rmult_le_pos; lra.
    - destruct (HB 2.728 (k_Tcosmicbkg (A:=MA m))) as (N1 & P1 & P2); auto.
      { unfold k_Tcosmicbkg. ma. apply rnd_pos; auto. cbn [litR]. lra. }
      { unfold k_Tcosmicbkg. ma. cbn [litR]. apply rnd_near; auto; lra. }
      eexists _, _. split; [|split; [|split]].
      + rewrite (planck_ground (A:=MA m) es f t tl' (combine t tl') eq_refl Hlv). fold h'.
        match goal with |- Ok (planck_close _ _ ?far _) = _ => assert (F : far = (bl', a', t')) end.
        { rewrite L0. exact EF. }
        rewrite F. reflexivity.
      + apply near_mono with c; auto; lra.
      + lra.
      + lra. }
  destruct HP as (bg' & levs & HP & Nbg & Pbg & Pbg').
  destruct (planck_master sat es f t tl' Hl Hne) as (o & Ho & O1 & _ & _ & _ & O2 & O3).
  fold h tau atm bg in O1, O2, O3.
  exists o. eexists. split; [exact Ho|]. split; [exact HP|]. split; [exact O1|].
  (* both runs take the same branch *)
  assert (Hdiff := near_diff v Hv n t' tau Hn0 ltac:(lra) Htn NT). apply Rabs_def2_le in Hdiff.
  assert (Hvs := v_lt).
  assert (H125 : Rabs (m_rnd m 125 - 125) <= 0.1).
  { assert (Q := near_diff v Hv 1 (m_rnd m 125) 125 ltac:(lra) ltac:(lra) ltac:(lra) (rnd_near m Hm 125 ltac:(lra))).
    lra. }
  apply Rabs_def2_le in H125.
  assert (Hcmp : Rltb t' (m_rnd m (1250 / 10)) = if Rlt_dec tau 125 then true else false).
  { replace (1250 / 10) with 125 by lra. unfold Rltb.
    assert (Hbig : 2 * (n * v) * tau <= 2e-6 * tau) by (apply Rmult_le_compat_r; lra).
    destruct (Rlt_dec tau 125), (Rlt_dec t' (m_rnd m 125)); auto; exfalso; destruct Htau; lra. }
  unfold planck_close, lev_atm, lev_tau, expmax. cbn [fst snd]. ma. cbn [litR]. rewrite Hcmp.
  destruct (Rlt_dec tau 125) as [Hlt|Hge]; cbn [p_boftotl p_hvk]; (split; [reflexivity|]).
  - destruct (O2 Hlt) as (_ & -> & _). split; [reflexivity|].
    assert (Ne : NR (1 + 2 * n * L) (m_exp m (- t')) (exp (- tau))).
    { apply near_trans with (exp (- t')); auto. { apply exp_near; auto. } apply near_exp; auto; lra. }
    assert (Pe := exp_pos (- tau)). assert (Pe' := mexp_pos m Hm (- t')).
    assert (N1 : NR (1 + ((c + 2) + (1 + 2 * n * L))) (m_rnd m (bg' * m_exp m (- t'))) (bg * exp (- tau))).
    { apply op_mul; auto; lra. }
    assert (Pb : 0 <= bg' * m_exp m (- t')) by (apply Rmult_le_pos; lra). assert (Pr := rnd_nonneg m Hm _ Pb).
    assert (Pb2 : 0 <= bg * exp (- tau)) by (apply Rmult_le_pos; lra).
    split; [|apply rnd_nonneg; auto; lra].
    replace (c + 2 * n * L + 11 + n) with (1 + (c + 2 * n * L + 10 + n)) by ring.
    replace (n * M * v) with (0 + n * M * v) by ring.
    apply apx_rnd; auto. { lra. } apply apx_add; auto.
    eapply apx_mono; [exact Hv| | | | |apply near_apx; exact N1]; try lra.
  - destruct (O3 ltac:(lra)) as (_ & -> & _). split; [reflexivity|]. split; auto.
    eapply apx_mono; [exact Hv| | | | |exact AA]; try lra.
Qed.

End Main.

(** C136.  Run with any arithmetic whose operations, exp and log have relative error at most [u <= 2^-50],
    [planck] and [bright] give a brightness temperature within [2.2e8 u] (relative) of the exact solution, hence
    within 1e-4 K: frequencies of 1 to 200 GHz, up to 1000 levels of 2.728 to 400 K, total opacity up to 700 Np
    (not within 1 of 125, where the code drops the background).  For a satellite the exact brightness
    temperature must not be below that of the cosmic background. *)
Theorem C136_rounding (m : machine) : machine_ok m ->
  forall sat es f t tl Tb,
  1 <= f <= 200 -> length t = length tl -> t <> [] -> (length t <= 1000)%nat ->
  (forall x, In x t -> 2.728 <= x <= 400) -> (forall d, In d tl -> 0 <= d) ->
  total_tau tl <= 124 \/ 126 <= total_tau tl <= 700 ->
  tb_of (A:=RA) sat es f t tl = Ok Tb ->
  (sat = true -> 0 <= es <= 1 /\ 2.728 <= Tb) ->
  exists Tb', tb_of (A:=MA m) sat es f t tl = Ok Tb' /\
    0 < Tb <= 400 /\ Rabs (Tb' - Tb) <= 2.2e8 * m_u m * Tb /\ Rabs (Tb' - Tb) <= 1e-4.
Proof.
  intros Hm sat es f t tl Tb Hf Hl Hne Hlen HT Hd Htau HTb Hsat.
  set (h := spec_hvk f). assert (Hh := hvk_range f Hf). fold h in Hh.
  assert (Hv := v_nonneg m Hm). assert (Hvs := v_lt m Hm).
  destruct (hvk_near m Hm f ltac:(lra)) as (NH & PH' & PH). fold h in NH, PH. set (h' := hvk_of (A:=MA m) f) in *.
  set (xlo := h / 400). set (xhi := h / 2.728).
  assert (Hxlo : 0 < xlo) by (unfold xlo; lra).
  assert (Hil : / xlo <= 8400).
  { unfold xlo. replace (/ (h / 400)) with (400 * / h) by (field; lra).
    assert (/ h <= / 0.0479) by (apply Rinv_le_contravar; lra). lra. }
  assert (Hil0 : 0 < / xlo) by (apply Rinv_0_lt_compat; auto).
  assert (Hxhi : 0 < xhi <= 3.52) by (unfold xhi; lra).
  set (c := cB xlo xhi).
  assert (Hcx : 0 <= (1 + 16 * xhi) * (1 + / xlo) <= 57.4 * 8401).
  { split; [apply Rmult_le_pos; lra|]. apply Rmult_le_compat; lra. }
  assert (Hc : 0 <= c <= 2e6) by (unfold c, cB; lra).
  set (M := planckB h 400). set (b0 := planckB h 2.728).
  assert (Hb0 : 0 < b0) by (apply planckB_pos; lra).
  assert (HM : 0 < M) by (apply planckB_pos; lra).
  assert (Hr := planck_ratio h Hh). fold M b0 in Hr.
  assert (HB : forall T T', (In T t \/ T = 2.728) -> 0 < T' -> near (vof m) 1 T' T ->
     near (vof m) c (tk2b_mod (A:=MA m) h' T') (planckB h T) /\ 0 < tk2b_mod (A:=MA m) h' T' /\ 0 < planckB h T <= M).
  { intros T T' HTT PT' NT'. assert (HTr : 2.728 <= T <= 400).
    { destruct HTT as [Hi| ->]; [apply HT; auto|lra]. }
    destruct (tk2b_near m Hm h' h T' T xlo xhi) as [N1 P1]; auto; try lra.
    - unfold xlo, xhi, Rdiv. split; apply Rmult_le_compat_l; try lra; apply Rinv_le_contravar; lra.
    - replace (2 * ((1 + 16 * xhi) * vof m) * (1 + / xlo)) with (2 * vof m * ((1 + 16 * xhi) * (1 + / xlo))) by ring.
      apply Rle_trans with (2 * vof m * (57.4 * 8401)); [apply Rmult_le_compat_l; lra|lra].
    - split; auto. split; auto. split; [apply planckB_pos; lra|apply planckB_le; lra]. }
  assert (Hn : INR (length t) - 1 <= 1000).
  { apply le_INR in Hlen. rewrite (INR_IZR_INZ 1000) in Hlen. simpl in Hlen. lra. }
  destruct (total_close m Hm sat es f t tl c 1000 700) as (o & o' & Ho & Ho' & E1 & E2 & E3 & AT & PT); auto; try lra.
  { intros Hs. apply Hsat in Hs. lra. }
  { intros x Hx. apply HT in Hx. lra. }
  fold h M in E1, E3, AT. unfold tb_of in *. rewrite Ho in HTb. rewrite Ho', E2. injection HTb as ETb.
  rewrite E1 in ETb.
  (* bounds of the exact radiance *)
  assert (Htn := total_tau_nonneg tl Hd).
  assert (BA := total_atm_bounds sat h t tl 2.728 400 ltac:(lra) ltac:(lra) HT Hd Hl Hne). fold M b0 in BA.
  set (atm := total_atm sat h t tl) in *. set (tau := total_tau tl) in *. set (b := p_boftotl o) in *.
  assert (Pe := exp_pos (- tau)). assert (Pe1 := exp_neg_le1 tau Htn).
  assert (Hatm : 0 <= atm) by (assert (0 <= b0 * (1 - exp (- tau))) by (apply Rmult_le_pos; lra); lra).
  assert (HT0 : 2.728 <= nth 0 t 0 <= 400) by (apply HT, nth_In; destruct t; [congruence|simpl; lia]).
  assert (HB0 : b0 <= planckB h (nth 0 t 0) <= M) by (split; apply planckB_le; lra).
  assert (Hbg : (sat = false /\ background sat es h t = b0) \/ (sat = true /\ 0 <= background sat es h t <= M)).
  { unfold background. destruct sat; [right|left]; split; auto. destruct (Hsat eq_refl) as [He _]. split; nra. }
  assert (HbM : b <= M).
  { rewrite E3. destruct (Rlt_dec tau 125).
    - assert (background sat es h t <= M) by (destruct Hbg as [[_ ->]|[_ ?]]; [unfold b0, M; apply planckB_le|]; lra). nra.
    - nra. }
  assert (Hb : b0 / 2 <= b).
  { destruct Hbg as [[Es Eb]|[Es Hg]].
    - rewrite E3, Eb. destruct (Rlt_dec tau 125); [nra|].
      assert (exp (- tau) <= exp (- 1)) by (apply exp_le; lra).
      assert (1 + 1 <= exp 1) by apply exp_ineq1_le.
      assert (exp (-1) * exp 1 = 1) by (rewrite <- exp_plus; replace (-1 + 1) with 0 by lra; apply exp_0).
      assert (exp (-1) <= / 2) by (assert (0 < exp (-1)) by apply exp_pos; nra).
      nra.
    - destruct (Hsat Es) as [_ HTl].
      assert (Hbn : 0 <= b).
      { rewrite E3. destruct (Rlt_dec tau 125); [|lra].
        assert (0 <= background sat es h t * exp (- tau)) by (apply Rmult_le_pos; lra). lra. }
      destruct Hbn as [Hbn|Hbn].
      + rewrite (bright_R h b) in ETb by lra.
        assert (G : b0 <= planckB h Tb) by (apply planckB_le; lra). rewrite <- ETb in G.
        rewrite planckB_T in G by lra. lra.
      + rewrite <- Hbn in ETb. rewrite bright_R0 in ETb. lra. }
  assert (Hbp : 0 < b) by lra.
  rewrite (bright_R h b) in ETb by lra.
  (* relative error of the radiance *)
  assert (NB : near (vof m) (c + 2 * 1000 * 700 + 11 + 1000 + 2 * 2.4e7) (p_boftotl o') b).
  { apply apx_near with (1000 * M * vof m); auto; try lra.
    - apply Rmult_le_pos; lra.
    - assert (1000 * M * vof m <= 2.4e7 * b * vof m) by (apply Rmult_le_compat_r; lra). lra. }
  assert (Hx : xlo <= ln (1 + / b)).
  { assert (/ M <= / b) by (apply Rinv_le_contravar; lra).
    assert (HiM : / M = exp xlo - 1) by (unfold M, planckB; fold xlo; apply Rinv_inv).
    rewrite <- (ln_exp xlo). apply ln_le; [apply exp_pos|lra]. }
  assert (Hcv : (1 + (c + 2 * 1000 * 700 + 11 + 1000 + 2 * 2.4e7)) * vof m <= 5.2e7 * vof m)
    by (apply Rmult_le_compat_r; lra).
  assert (Hxv : 2 * / xlo * vof m <= 2 * 8400 * vof m) by (apply Rmult_le_compat_r; lra).
  destruct (bright_near m Hm (c + 2 * 1000 * 700 + 11 + 1000 + 2 * 2.4e7) h' h (p_boftotl o') b xlo)
    as [NT PT']; auto; try lra.
  rewrite ETb in NT. eexists. split; [reflexivity|].
  assert (HTp : 0 < Tb) by (rewrite <- ETb; apply planckT_pos; lra).
  assert (HTM : Tb <= 400).
  { rewrite <- ETb. rewrite <- (planckT_B h 400) by lra. apply planckT_le; [lra|lra|exact HbM]. }
  set (C := c + 2 * 1000 * 700 + 11 + 1000 + 2 * 2.4e7 + 9 + 4 * / xlo) in *.
  assert (HC : 0 <= C <= 5.2e7) by (unfold C; lra).
  assert (HCv : C * vof m <= 5.2e7 * vof m) by (apply Rmult_le_compat_r; lra).
  assert (D := near_diff (vof m) Hv C _ Tb (proj1 HC) ltac:(lra) ltac:(lra) NT).
  assert (Hvu := v_u m Hm). assert (Hu := ok_u m Hm). simpl in Hu.
  assert (D2 : 2 * (C * vof m) * Tb <= 2.2e8 * m_u m * Tb) by (apply Rmult_le_compat_r; lra).
  assert (D3 : 2.2e8 * m_u m * Tb <= 2.2e8 * m_u m * 400) by (apply Rmult_le_compat_l; lra).
  assert (D4 := Rle_trans _ _ _ D D2). split; [exact (conj HTp HTM)|]. split; [exact D4|].
  apply Rle_trans with (1 := D4). lra.
Qed.

(** For 53-bit significands with rounding to nearest (Python's float without overflow and underflow, library
    functions correctly rounded) the error is below 2e-5 K. *)
Theorem C136_double : forall sat es f t tl Tb,
  1 <= f <= 200 -> length t = length tl -> t <> [] -> (length t <= 1000)%nat ->
  (forall x, In x t -> 2.728 <= x <= 400) -> (forall d, In d tl -> 0 <= d) ->
  total_tau tl <= 124 \/ 126 <= total_tau tl <= 700 ->
  tb_of (A:=RA) sat es f t tl = Ok Tb ->
  (sat = true -> 0 <= es <= 1 /\ 2.728 <= Tb) ->
  exists Tb', tb_of (A:=MA double53) sat es f t tl = Ok Tb' /\ Rabs (Tb' - Tb) <= 2e-5.
Proof.
  intros sat es f t tl Tb H1 H2 H3 H4 H5 H6 H7 H8 H9.
  destruct (C136_rounding double53 double53_ok sat es f t tl Tb) as (Tb' & E & HT & D & _); auto.
  exists Tb'. split; auto. cbn [m_u double53] in D.
  assert (2.2e8 * / 2 ^ 52 * Tb <= 2.2e8 * / 2 ^ 52 * 400) by (apply Rmult_le_compat_l; simpl; lra).
  simpl in *. lra.
Qed.

(** A three-level sounding seen from the ground. *)
Example C136_example : exists Tb Tb',
  tb_of (A:=RA) false 0 22.235 [288; 260; 220] [0; 0.1; 0.02] = Ok Tb /\
  tb_of (A:=MA double53) false 0 22.235 [288; 260; 220] [0; 0.1; 0.02] = Ok Tb' /\ Rabs (Tb' - Tb) <= 2e-5.
Proof.
  destruct (planck_master false 0 22.235 [288; 260; 220] [0; 0.1; 0.02]) as (o & Ho & _); [reflexivity|discriminate|].
  assert (E : tb_of (A:=RA) false 0 22.235 [288; 260; 220] [0; 0.1; 0.02] = Ok (bright (A:=RA) (p_hvk o) (p_boftotl o)))
    by (unfold tb_of; rewrite Ho; reflexivity).
  destruct (C136_double false 0 22.235 [288; 260; 220] [0; 0.1; 0.02] (bright (A:=RA) (p_hvk o) (p_boftotl o))) as (Tb' & E' & D);
    try lra; try reflexivity; try discriminate; try exact E.
  - simpl. lia.
  - intros x [<-|[<-|[<-|[]]]]; lra.
  - intros x [<-|[<-|[<-|[]]]]; lra.
  - left. unfold total_tau. simpl. lra.
  - eexists _, _. split; [exact E|]. split; [exact E'|exact D].
Qed.
