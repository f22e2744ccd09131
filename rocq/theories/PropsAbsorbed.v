(** C138: rounding errors from the absorption profiles to the brightness temperature. *)

From Coq Require Import ZArith Reals Lra Lia List Bool.
From Coquelicot Require Import Coquelicot.
Import ListNotations.
From Verif Require Import Arith PyBase Utils RTE Spectrum Spec ListAux RealAux PlanckReal PlanckMaster Integral Machine RoundPlanck MachineDouble
  PropsRound PropsCondition PropsRow.
Open Scope R_scope.


(** ** The layer opacities in any arithmetic *)

Section Gen.
Context {A : Arith}.

Definition lay_at (zf : bool) (x ds : list (car A)) (i : nat) : car A :=
  mul (exp_layer zf (nth (i - 1) x (lit (Dec 0 1))) (nth i x (lit (Dec 0 1)))) (nth i ds (lit (Dec 0 1))).
Definition lay_list (zf : bool) (x ds : list (car A)) : list (car A) :=
  map (fun i => if (i =? 0)%nat then lit (Dec 0 1) else lay_at zf x ds i) (seq 0 (length x)).

Lemma loop_layers zf x ds m : forall k s xds, (1 <= k)%nat -> (k + m = length x)%nat -> length ds = length x -> length xds = length x ->
  (forall v, In v x -> ltb v (lit (Dec 0 10)) = false) ->
  exists s' out, exp_loop zf x ds (map Z.of_nat (seq k m)) s xds = Ok (true, s', out) /\ length out = length x /\
    forall i, nth i out (lit (Dec 0 1)) = if ((k <=? i) && (i <? length x))%nat then lay_at zf x ds i else nth i xds (lit (Dec 0 1)).
Proof.
  induction m as [|m IH]; intros k s xds Hk Hkm Hds Hxds Hx.
  - exists s, xds. split; [reflexivity|]. split; auto. intros i.
    destruct (Nat.leb_spec k i), (Nat.ltb_spec i (length x)); cbn [andb]; auto; lia.
  - cbn [seq map exp_loop].
    replace (Z.of_nat k - 1)%Z with (Z.of_nat (k - 1)) by lia.
    rewrite (py_get_nat x (k - 1) (lit (Dec 0 1))), (py_get_nat x k (lit (Dec 0 1))) by lia. cbn [bind].
    rewrite !Hx by (apply nth_In; lia). cbn [orb].
    rewrite (py_get_nat ds k (lit (Dec 0 1))) by lia. cbn [bind]. rewrite py_set_nat by lia. cbn [bind].
    match goal with |- exists _ _, exp_loop _ _ _ _ ?s1 ?xds1 = _ /\ _ => destruct (IH (S k) s1 xds1) as (s' & out & E & L & N) end;
      auto; try lia. { rewrite upd_length. exact Hxds. }
    exists s', out. split; [exact E|]. split; auto. intros i. rewrite N.
    destruct (Nat.leb_spec (S k) i), (Nat.ltb_spec i (length x)), (Nat.leb_spec k i); cbn [andb]; try lia; auto.
    all: first [rewrite upd_nth_ne by lia; reflexivity | assert (i = k) by lia; subst i; rewrite upd_nth_eq by lia; reflexivity].
Qed.

Lemma integ_gen zf x ds c : length ds = length x -> x <> [] ->
  (forall v, In v x -> ltb v (lit (Dec 0 10)) = false) ->
  exists s, exponential_integration zf x ds 1 (Z.of_nat (length x)) c = Ok (s, lay_list zf x ds).
Proof.
  intros Hds Hne Hx. assert (Hn : (1 <= length x)%nat) by (destruct x; [congruence|simpl; lia]).
  unfold exponential_integration. change 1%Z with (Z.of_nat 1). rewrite zrange_nat.
  destruct (loop_layers zf x ds (length x - 1) 1 (lit (Dec 0 10)) (map (fun _ => lit (Dec 0 1)) ds)) as (s & out & E & L & N);
    auto; try lia. { rewrite map_length; auto. }
  rewrite E. cbn [bind]. rewrite L, Z.eqb_refl. eexists. f_equal. f_equal.
  apply (nth_ext _ _ (lit (Dec 0 1)) (lit (Dec 0 1))).
  { unfold lay_list. rewrite map_length, seq_length. auto. }
  intros i Hi. rewrite N. unfold lay_list.
  rewrite (nth_map_d _ _ _ 0%nat) by (rewrite seq_length; lia). rewrite seq_nth by lia. cbn [Nat.add].
  destruct i as [|i].
  - cbn [Nat.leb andb Nat.eqb]. destruct ds as [|d0 ds]; [simpl in Hds; lia|]. reflexivity.
  - cbn [Nat.leb andb Nat.eqb]. replace (S i <? length x)%nat with true by (symmetry; apply Nat.ltb_lt; lia). reflexivity.
Qed.

Lemma add4_nth (a b c d : list (car A)) z i : length b = length a -> length c = length a -> length d = length a -> (i < length a)%nat ->
  nth i (add4 a b c d) z = add (add (add (nth i a z) (nth i b z)) (nth i c z)) (nth i d z).
Proof.
  revert b c d i. induction a as [|x a IH]; intros [|y b] [|u c] [|w d] i Hb Hc Hd Hi; simpl in *; try lia.
  destruct i as [|i]; [reflexivity|]. apply IH; lia.
Qed.
Lemma add4_length (a b c d : list (car A)) : length b = length a -> length c = length a -> length d = length a ->
  length (add4 a b c d) = length a.
Proof.
  revert b c d. induction a as [|x a IH]; intros [|y b] [|u c] [|w d] Hb Hc Hd; simpl in *; try lia. rewrite IH; lia.
Qed.

(** One cell of the result table from the absorption profiles on: integration of the four absorption profiles along the path, sum
    of the opacities, radiative transfer and inversion (tb_spectrum.py:330-378).  Simplification: without clouds the code keeps
    zero arrays instead of integrating zero profiles, which gives the same numbers. *)
Definition tb_absorbed (sat : bool) (es f : car A) (t aw ad ai al ds : list (car A)) : result (car A) :=
  let nl := Z.of_nat (length t) in
  do w <- exponential_integration true aw ds 1 nl (lit (Dec 1 1));
  do d <- exponential_integration true ad ds 1 nl (lit (Dec 1 1));
  do i <- exponential_integration false ai ds 1 nl (lit (Dec 1 1));
  do l <- exponential_integration false al ds 1 nl (lit (Dec 1 1));
  tb_of sat es f t (add4 (snd w) (snd d) (snd i) (snd l)).

Lemma tb_absorbed_eq sat es f t aw ad ai al ds : t <> [] ->
  length aw = length t -> length ad = length t -> length ai = length t -> length al = length t -> length ds = length t ->
  (forall v, In v aw \/ In v ad \/ In v ai \/ In v al -> ltb v (lit (Dec 0 10)) = false) ->
  tb_absorbed sat es f t aw ad ai al ds =
  tb_of sat es f t (add4 (lay_list true aw ds) (lay_list true ad ds) (lay_list false ai ds) (lay_list false al ds)).
Proof.
  intros Hne Lw Ld Li Ll Ls Hv. unfold tb_absorbed.
  assert (N : forall x : list (car A), length x = length t -> x <> []) by (intros x E Z; subst x; destruct t; simpl in *; congruence).
  destruct (integ_gen true aw ds (lit (Dec 1 1))) as (s1 & E1); auto; try congruence.
  destruct (integ_gen true ad ds (lit (Dec 1 1))) as (s2 & E2); auto; try congruence.
  destruct (integ_gen false ai ds (lit (Dec 1 1))) as (s3 & E3); auto; try congruence.
  destruct (integ_gen false al ds (lit (Dec 1 1))) as (s4 & E4); auto; try congruence.
  rewrite Lw in E1. rewrite Ld in E2. rewrite Li in E3. rewrite Ll in E4.
  rewrite E1, E2, E3, E4. reflexivity.
Qed.
End Gen.

(** ** Exact layers *)

Lemma exp_layer_RA zf (a b : R) : 0 <= a -> 0 <= b -> exp_layer (A:=RA) zf a b = layR zf a b.
Proof.
  intros Ha Hb. unfold exp_layer. ra. unfold Rltb, Reqb. rewrite lit_1e9. replace (0 / 10) with 0 by lra.
  unfold layR. destruct (Rlt_dec (Rabs (b - a)) 1e-9) as [H|H]; [reflexivity|].
  destruct (Req_EM_T a 0) as [Ea|Ea]; [cbn [orb]; destruct zf; cbn [negb]; lra|].
  cbn [orb]. destruct (Req_EM_T b 0) as [Eb|Eb]; [destruct zf; cbn [negb]; lra|]. reflexivity.
Qed.

(** ** Machine layers *)

Section Mach.
Context (m : machine) (Hm : machine_ok m).
Notation v := (vof m).
Notation NR := (near (vof m)).
Notation rnd := (m_rnd m).
Let Hv : 0 <= v := v_nonneg m Hm.

Lemma sign_kept u x' x : 0 <= u < 1 -> Rabs (x' - x) <= u * Rabs x -> 0 <= x * x'.
Proof.
  intros Hu H. apply Rabs_def2_le in H. destruct (Rle_lt_dec 0 x).
  - rewrite (Rabs_pos_eq x) in H by auto. assert (0 <= x') by nra. nra.
  - rewrite (Rabs_left x) in H by auto. assert (x' <= 0) by nra. nra.
Qed.

Lemma ln_near_big X r' r : 0 < X -> 1 < r -> / X <= ln r -> 0 < r' -> NR 1 r' r -> X * v <= / 2 ->
  NR (2 * X) (ln r') (ln r) /\ 0 < ln r'.
Proof.
  intros HX Hr Hl Hr' [N1 N2] Hs. rewrite Rmult_1_l in N1, N2. set (l := ln r) in *.
  assert (Hlp : 0 < l) by (assert (0 < / X) by (apply Rinv_0_lt_compat; auto); lra).
  assert (L1 : ln r' <= l + v).
  { assert (Q : ln r' <= ln (exp v * r)) by (apply ln_le; auto). rewrite ln_mult, ln_exp in Q by (try apply exp_pos; lra). unfold l. lra. }
  assert (L2 : l <= v + ln r').
  { assert (Q : ln r <= ln (exp v * r')) by (apply ln_le; auto; lra). rewrite ln_mult, ln_exp in Q by (try apply exp_pos; lra). unfold l. lra. }
  assert (XX : 1 <= X * l). { apply Rmult_le_reg_l with (/ X); [apply Rinv_0_lt_compat; auto|]. rewrite <- Rmult_assoc, Rinv_l by lra. lra. }
  set (y := X * v) in *. assert (Hy : 0 <= y) by (apply Rmult_le_pos; lra).
  assert (Vy : v <= y * l). { assert (Q : v * 1 <= v * (X * l)) by (apply Rmult_le_compat_l; auto). unfold y. lra. }
  assert (yl : y * l <= / 2 * l) by (apply Rmult_le_compat_r; lra).
  split; [|lra]. unfold near. replace (2 * X * v) with (2 * y) by (unfold y; ring).
  assert (E := exp_ineq1_le (2 * y)). assert (P := exp_pos (2 * y)). split.
  - assert (Q : (1 - y) * l <= ln r') by lra.
    apply Rle_trans with ((1 + 2 * y) * ((1 - y) * l)).
    + assert (0 <= (1 - 2 * y) * (y * l)) by (apply Rmult_le_pos; [lra|apply Rmult_le_pos; lra]).
      replace ((1 + 2 * y) * ((1 - y) * l)) with (l + (1 - 2 * y) * (y * l)) by ring. lra.
    + apply Rmult_le_compat; try lra.
  - apply Rle_trans with ((1 + y) * l); [lra|]. apply Rmult_le_compat_r; lra.
Qed.

(** The formula of a layer whose ends differ by nearly 1e-9 or more. *)
Lemma formula_near (zf : bool) X (a b : R) : 0 <= a <= X -> 0 <= b <= X -> 0.9e-9 <= Rabs (b - a) -> 1.2e9 * X * v <= / 2 ->
  let F := if Req_EM_T a 0 then (if zf then (a + b) / 2 else 0)
           else if Req_EM_T b 0 then (if zf then (a + b) / 2 else 0) else logmean a b in
  let F' := if (Reqb a 0 || Reqb b 0)%bool then (if negb zf then 0 else rnd (rnd (b + a) * rnd (5 / 10)))
            else rnd (rnd (b - a) / m_ln m (rnd (b / a))) in
  NR (2.4e9 * X + 4) F' F /\ 0 <= F' /\ Rmin a b <= F <= Rmax a b.
Proof.
  intros Ha Hb Hd HX F F'.
  assert (HX0 : 0 < X).
  { unfold Rabs in Hd. destruct (Rcase_abs (b - a)) in Hd; lra. }
  assert (C4 : 4 <= 2.4e9 * X + 4) by lra.
  assert (M1 := Rmin_l a b). assert (M2 := Rmin_r a b). assert (M3 := Rmax_l a b). assert (M4 := Rmax_r a b).
  assert (M5 : 0 <= Rmin a b) by (apply Rmin_glb; lra).
  assert (Zc : a = 0 \/ b = 0 -> NR (2.4e9 * X + 4) (if negb zf then 0 else rnd (rnd (b + a) * rnd (5 / 10))) (if zf then (a + b) / 2 else 0)
      /\ 0 <= (if negb zf then 0 else rnd (rnd (b + a) * rnd (5 / 10))) /\ Rmin a b <= (if zf then (a + b) / 2 else 0) <= Rmax a b).
  { intros Hz. destruct zf; cbn [negb].
    - assert (N : NR (1 + (1 + 1)) (rnd (rnd (b + a) * rnd (5 / 10))) ((b + a) * (5 / 10))).
      { apply op_mul; auto; try lra; try (apply rnd_nonneg; auto; lra); apply rnd_near; auto; lra. }
      assert (P : 0 <= rnd (rnd (b + a) * rnd (5 / 10))).
      { apply rnd_nonneg; auto. apply Rmult_le_pos; apply rnd_nonneg; auto; lra. }
      replace ((b + a) * (5 / 10)) with ((a + b) / 2) in N by lra. split; [|split; [auto|lra]].
      apply near_mono with (1 + (1 + 1)); auto; lra.
    - split; [apply near_refl; auto; lra|]. split; [lra|].
      destruct Hz as [-> | ->]; [rewrite Rmin_left by lra|rewrite Rmin_right by lra]; lra. }
  unfold F, F', Reqb. destruct (Req_EM_T a 0) as [Ea|Ea]; [cbn [orb]; apply Zc; auto|].
  cbn [orb]. destruct (Req_EM_T b 0) as [Eb|Eb]; [apply Zc; auto|]. clear Zc F F'.
  assert (Hab : a <> b) by (intros ->; rewrite Rminus_eq_0, Rabs_R0 in Hd; lra).
  assert (Pa : 0 < a) by lra. assert (Pb : 0 < b) by lra.
  destruct (logmean_bounds a b Pa Pb Hab) as [LB _].
  (* the two orders *)
  set (r := b / a). assert (Hr : 0 < r) by (apply Rdiv_lt_0_compat; auto).
  assert (Hr' : 0 < rnd r) by (apply rnd_pos; auto).
  assert (NRr : NR 1 (rnd r) r) by (apply rnd_near; auto; lra).
  assert (Hi : 1.2e9 * X * v = (1.2e9 * X) * v) by ring.
  assert (ND : near v 1 (Rabs (rnd (b - a))) (Rabs (b - a)) /\ (b - a) * rnd (b - a) >= 0).
  { assert (Q := ok_rnd m Hm (b - a)). assert (Us := u_small m Hm). assert (Hu : 0 <= m_u m < 1) by lra. split.
    - apply rel_near; auto. { apply Rabs_pos. } eapply Rle_trans; [|exact Q]. apply Rabs_triang_inv2.
    - apply Rle_ge. apply (sign_kept (m_u m)); auto. }
  assert (LN : NR (2.4e9 * X) (Rabs (ln (rnd r))) (Rabs (ln r)) /\ 0 < Rabs (ln (rnd r)) /\ (b - a) * ln (rnd r) > 0 /\ 0 < Rabs (ln r)).
  { destruct (Rlt_dec a b) as [Hlt|Hge].
    - assert (R1 : 1 < r). { unfold r. apply Rmult_lt_reg_r with a; auto. unfold Rdiv. rewrite Rmult_assoc, Rinv_l; lra. }
      assert (Lr : / (1.2e9 * X) <= ln r).
      { assert (Q := ln_le_sub1 (/ r)). assert (0 < / r) by (apply Rinv_0_lt_compat; lra). specialize (Q H). rewrite ln_Rinv in Q by auto.
        rewrite Rabs_pos_eq in Hd by lra.
        assert (E : / r = 1 - (b - a) / b) by (unfold r; field; lra).
        assert (G : / (1.2e9 * X) <= (b - a) / b); [|lra].
        apply Rle_trans with (0.9e-9 * / X).
        - rewrite Rinv_mult. apply Rmult_le_compat_r; [left; apply Rinv_0_lt_compat; auto|lra].
        - unfold Rdiv. apply Rmult_le_compat; try lra. { left; apply Rinv_0_lt_compat; auto. } apply Rinv_le_contravar; lra. }
      destruct (ln_near_big (1.2e9 * X) (rnd r) r) as [N P]; auto; try lra.
      replace (2 * (1.2e9 * X)) with (2.4e9 * X) in N by lra.
      assert (0 < ln r) by (rewrite <- ln_1; apply ln_increasing; lra).
      rewrite !Rabs_pos_eq by lra. split; [exact N|]. split; [lra|]. split; [|lra]. apply Rmult_lt_0_compat; lra.
    - assert (Hlt : b < a) by lra.
      assert (Ri : 1 < / r). { unfold r. replace (/ (b / a)) with (a / b) by (field; lra). apply Rmult_lt_reg_r with b; auto. unfold Rdiv. rewrite Rmult_assoc, Rinv_l; lra. }
      assert (Lr : / (1.2e9 * X) <= ln (/ r)).
      { assert (Q := ln_le_sub1 r Hr). rewrite ln_Rinv by auto.
        rewrite Rabs_left1 in Hd by lra.
        assert (E : r = 1 - (a - b) / a) by (unfold r; field; lra).
        assert (G : / (1.2e9 * X) <= (a - b) / a); [|lra].
        apply Rle_trans with (0.9e-9 * / X).
        - rewrite Rinv_mult. apply Rmult_le_compat_r; [left; apply Rinv_0_lt_compat; auto|lra].
        - unfold Rdiv. apply Rmult_le_compat; try lra. { left; apply Rinv_0_lt_compat; auto. } apply Rinv_le_contravar; lra. }
      destruct (ln_near_big (1.2e9 * X) (/ rnd r) (/ r)) as [N P]; auto; try lra.
      { apply Rinv_0_lt_compat; auto. }
      { apply near_inv; auto. }
      assert (L0 : 0 < ln (/ r)) by (rewrite <- ln_1; apply ln_increasing; lra).
      replace (2 * (1.2e9 * X)) with (2.4e9 * X) in N by lra. rewrite !ln_Rinv in * by auto.
      rewrite !Rabs_left1 by lra. split; [exact N|]. split; [lra|]. split; [|lra].
      assert (0 < (a - b) * - ln (rnd r)) by (apply Rmult_lt_0_compat; lra). lra. }
  destruct LN as (NL & PL & SL & PLe). destruct ND as (NDD & SD).
  set (l' := m_ln m (rnd r)).
  assert (NL2 : NR (1 + 2.4e9 * X) (Rabs l') (Rabs (ln r)) /\ 0 < Rabs l' /\ (b - a) * l' > 0).
  { assert (Q := ok_ln m Hm (rnd r) Hr'). fold l' in Q. assert (Us := u_small m Hm). assert (Hu : 0 <= m_u m < 1) by lra.
    assert (N0 : NR 1 (Rabs l') (Rabs (ln (rnd r)))).
    { apply rel_near; auto. { apply Rabs_pos. } eapply Rle_trans; [|exact Q]. apply Rabs_triang_inv2. }
    split; [apply near_trans with (Rabs (ln (rnd r))); auto|]. split; [apply (near_pos v 1 _ (Rabs (ln (rnd r)))); auto|].
    assert (S0 := sign_kept (m_u m) _ _ Hu Q). assert (PL' : 0 < Rabs l') by (apply (near_pos v 1 _ (Rabs (ln (rnd r)))); auto).
    set (ll := ln (rnd r)) in *. set (D := b - a) in *. clearbody ll l' D. clear - S0 PL' SL.
    assert (l' <> 0) by (intros Z; rewrite Z, Rabs_R0 in PL'; lra).
    destruct (Rlt_dec 0 D); [assert (0 < ll) by nra; assert (0 < l') by nra; nra|].
    assert (D < 0) by nra. assert (ll < 0) by nra. assert (l' < 0) by nra. nra. }
  destruct NL2 as (NL2 & PL2 & SL2).
  assert (Q1 : logmean a b = Rabs (b - a) / Rabs (ln r)).
  { unfold logmean. fold r. assert (Sg : 0 < (b - a) * ln r).
    { destruct (Rlt_dec a b).
      - assert (1 < r). { unfold r. apply Rmult_lt_reg_r with a; auto. unfold Rdiv. rewrite Rmult_assoc, Rinv_l; lra. }
        assert (0 < ln r) by (rewrite <- ln_1; apply ln_increasing; lra). apply Rmult_lt_0_compat; lra.
      - assert (r < 1). { unfold r. apply Rmult_lt_reg_r with a; auto. unfold Rdiv. rewrite Rmult_assoc, Rinv_l; lra. }
        assert (ln r < 0) by (rewrite <- ln_1; apply ln_increasing; lra).
        assert (0 < (a - b) * - ln r) by (apply Rmult_lt_0_compat; lra). lra. }
    unfold Rabs. destruct (Rcase_abs (b - a)), (Rcase_abs (ln r)); try reflexivity.
    - field. lra.
    - exfalso. nra.
    - exfalso. nra. }
  assert (Q2 : rnd (b - a) / l' = Rabs (rnd (b - a)) / Rabs l').
  { unfold Rabs. destruct (Rcase_abs (rnd (b - a))), (Rcase_abs l'); try reflexivity.
    - field. lra.
    - exfalso. destruct (Rlt_dec 0 (b - a)); nra.
    - assert (0 <= rnd (b - a)) by lra. destruct (Req_dec (rnd (b - a)) 0) as [Z|Z]; [rewrite Z; unfold Rdiv; lra|].
      exfalso. destruct (Rlt_dec 0 (b - a)); nra. }
  rewrite Q1, Q2.
  assert (P1 : 0 <= Rabs (b - a) / Rabs (ln r)) by (apply Rmult_le_pos; [apply Rabs_pos|left; apply Rinv_0_lt_compat; auto]).
  assert (P2 : 0 <= rnd (Rabs (rnd (b - a)) / Rabs l')).
  { apply rnd_nonneg; auto. apply Rmult_le_pos; [apply Rabs_pos|left; apply Rinv_0_lt_compat; auto]. }
  assert (N : NR (1 + (1 + (1 + 2.4e9 * X))) (rnd (Rabs (rnd (b - a)) / Rabs l')) (Rabs (b - a) / Rabs (ln r))).
  { apply op_div; auto; apply Rabs_pos. }
  split; [apply (near_mono v Hv) with (4 := N); auto; lra|]. split; [auto|rewrite <- Q1; lra].
Qed.

(** One layer, in absolute terms. *)
Lemma layer_close (zf : bool) X (a b : R) : 0 <= a <= X -> 0 <= b <= X -> 0 <= X <= 50 ->
  0 <= exp_layer (A:=MA m) zf a b /\
  Rabs (exp_layer (A:=MA m) zf a b - layR zf a b) <= 2 * ((2.4e9 * X + 4) * v) * layR zf a b + 1.01e-9.
Proof.
  intros Ha Hb HX. assert (Hvs := v_lt m Hm). assert (LB := layR_bounds zf a b (proj1 Ha) (proj1 Hb)).
  assert (LN := layR_nonneg zf a b (proj1 Ha) (proj1 Hb)).
  assert (XV : 0 <= X * v <= 50 * v) by (split; [apply Rmult_le_pos; lra|apply Rmult_le_compat_r; lra]).
  set (cv := (2.4e9 * X + 4) * v). assert (Hcv : 0 <= cv <= 1e-3) by (unfold cv; lra).
  assert (Hcl : 0 <= cv * layR zf a b) by (apply Rmult_le_pos; lra).
  assert (MM : Rabs (b - a) = Rmax a b - Rmin a b).
  { unfold Rmax, Rmin. destruct (Rle_dec a b); [rewrite Rabs_pos_eq|rewrite Rabs_left1]; lra. }
  assert (Hab : Rmin a b <= b <= Rmax a b) by (split; [apply Rmin_r|apply Rmax_r]).
  unfold exp_layer. ma. cbn [litR]. rewrite lit_1e9. replace (0 / 10) with 0 by lra. rewrite (rnd_0 m Hm).
  assert (RD : (1 - m_u m) * Rabs (b - a) <= Rabs (rnd (b - a)) <= (1 + m_u m) * Rabs (b - a)).
  { assert (Q := ok_rnd m Hm (b - a)). assert (Q1 := Rabs_triang_inv (rnd (b - a)) (b - a)). assert (Q2 := Rabs_triang_inv (b - a) (rnd (b - a))).
    rewrite (Rabs_minus_sym (b - a) (rnd (b - a))) in Q2. lra. }
  assert (R9 : (1 - m_u m) * 1e-9 <= rnd 1e-9 <= (1 + m_u m) * 1e-9).
  { assert (Q := ok_rnd m Hm 1e-9). rewrite (Rabs_pos_eq 1e-9) in Q by lra. apply Rabs_def2_le in Q. lra. }
  assert (Us := u_small m Hm). assert (Hu : 0 <= m_u m <= 1e-4) by (simpl in Us; lra). clear Us.
  set (D := Rabs (b - a)) in *. set (D' := Rabs (rnd (b - a))) in *. set (q := rnd 1e-9) in *.
  assert (HD : 0 <= D) by apply Rabs_pos.
  assert (UD : 0 <= m_u m * D <= 1e-4 * D) by (split; [apply Rmult_le_pos; lra|apply Rmult_le_compat_r; lra]).
  assert (E1 : D < 1e-9 -> layR zf a b = b) by (intros H; unfold layR; fold D; destruct (Rlt_dec D 1e-9); [reflexivity|lra]).
  assert (E2 : ~ D < 1e-9 -> layR zf a b = if Req_EM_T a 0 then (if zf then (a + b) / 2 else 0)
           else if Req_EM_T b 0 then (if zf then (a + b) / 2 else 0) else logmean a b)
    by (intros H; unfold layR; fold D; destruct (Rlt_dec D 1e-9); [lra|reflexivity]).
  set (E := layR zf a b) in *. clearbody E.
  unfold Rltb. destruct (Rlt_dec D' q) as [Hlt|Hge].
  - split; [lra|]. destruct (Rlt_dec D 1e-9) as [H1|H1].
    + rewrite (E1 H1) in *. rewrite Rminus_eq_0, Rabs_R0. lra.
    + assert (D <= 1.001e-9) by lra. apply Rabs_le. lra.
  - assert (HD2 : 0.9e-9 <= D) by lra.
    destruct (formula_near zf X a b Ha Hb HD2 ltac:(lra)) as (N & P & FB). 
    match goal with |- 0 <= ?x /\ _ => change x with
      (if (Reqb a 0 || Reqb b 0)%bool then (if negb zf then 0 else rnd (rnd (b + a) * rnd (5 / 10)))
            else rnd (rnd (b - a) / m_ln m (rnd (b / a)))) end.
    set (F' := if (Reqb a 0 || Reqb b 0)%bool then _ else _) in *.
    set (F := if Req_EM_T a 0 then _ else _) in *.
    assert (M0 : 0 <= Rmin a b) by (apply Rmin_glb; lra).
    assert (DF := near_diff v Hv (2.4e9 * X + 4) F' F ltac:(lra) ltac:(fold cv; lra) ltac:(lra) N). fold cv in DF.
    split; [exact P|]. apply Rabs_def2_le in DF.
    destruct (Rlt_dec D 1e-9) as [H1|H1].
    + rewrite (E1 H1) in *. assert (CF : cv * F <= cv * (b + 1e-9)) by (apply Rmult_le_compat_l; lra).
      assert (cv * 1e-9 <= 1e-3 * 1e-9) by (apply Rmult_le_compat_r; lra). apply Rabs_le. lra.
    + assert (E2' : E = F) by exact (E2 H1). rewrite E2' in *. apply Rabs_le. lra.
Qed.

(** Opacity of a layer and sum over the constituents. *)
Lemma opacity_close (zf : bool) X (a b d : R) : 0 <= a <= X -> 0 <= b <= X -> 0 <= X <= 50 -> 0 <= d ->
  let V' := rnd (exp_layer (A:=MA m) zf a b * d) in
  let V := layR zf a b * d in
  0 <= V' /\ 0 <= V /\ Rabs (V' - V) <= (4.8e9 * X + 11) * v * V + 1.02e-9 * d.
Proof.
  intros Ha Hb HX Hd. destruct (layer_close zf X a b Ha Hb HX) as [P C]. assert (Hvs := v_lt m Hm).
  assert (LN := layR_nonneg zf a b (proj1 Ha) (proj1 Hb)).
  set (e' := exp_layer (A:=MA m) zf a b) in *. set (e := layR zf a b) in *. intros V' V.
  assert (XV : 0 <= X * v <= 50 * v) by (split; [apply Rmult_le_pos; lra|apply Rmult_le_compat_r; lra]).
  assert (Hed : 0 <= e' * d) by (apply Rmult_le_pos; auto).
  assert (N := rnd_near m Hm (e' * d) Hed).
  assert (D := near_diff v Hv 1 _ _ ltac:(lra) ltac:(lra) Hed N). fold V' in D.
  split; [apply rnd_nonneg; auto|]. split; [apply Rmult_le_pos; auto|].
  set (cv := (2.4e9 * X + 4) * v) in *. assert (Hcv : 0 <= cv <= 1e-3) by (unfold cv; lra).
  assert (C2 : Rabs (e' * d - V) <= (2 * cv * e + 1.01e-9) * d).
  { unfold V. replace (e' * d - e * d) with ((e' - e) * d) by ring. rewrite Rabs_mult, (Rabs_pos_eq d) by auto. apply Rmult_le_compat_r; auto. }
  apply Rabs_def2_le in D. apply Rabs_def2_le in C2.
  assert (Vn : 0 <= V) by (apply Rmult_le_pos; auto). assert (EV : cv * e * d = cv * V) by (unfold V; ring).
  assert (CV : cv * V <= 1e-3 * V) by (apply Rmult_le_compat_r; lra).
  assert (B : e' * d <= 1.01 * V + 1.01e-9 * d) by lra.
  assert (Bv : v * (e' * d) <= v * (1.01 * V + 1.01e-9 * d)) by (apply Rmult_le_compat_l; lra).
  assert (vd : v * d <= 1e-3 * d) by (apply Rmult_le_compat_r; lra).
  assert (vV : 0 <= v * V) by (apply Rmult_le_pos; lra).
  assert (cvV : cv * V = 2.4e9 * (X * v) * V + 4 * (v * V)) by (unfold cv; ring).
  replace ((4.8e9 * X + 11) * v * V) with (2 * (cv * V) + 3 * (v * V)) by (rewrite cvV; lra).
  apply Rabs_le. lra.
Qed.

Lemma sum_close D e w' d' i' l' w d i l : 0 <= D <= 1e-3 -> 0 <= e ->
  0 <= w' -> 0 <= d' -> 0 <= i' -> 0 <= l' -> 0 <= w -> 0 <= d -> 0 <= i -> 0 <= l ->
  Rabs (w' - w) <= D * w + e -> Rabs (d' - d) <= D * d + e -> Rabs (i' - i) <= D * i + e -> Rabs (l' - l) <= D * l + e ->
  let S' := rnd (rnd (rnd (w' + d') + i') + l') in
  let S := w + d + i + l in
  0 <= S' /\ Rabs (S' - S) <= (D + 7 * v) * S + 4.1 * e.
Proof.
  intros HD He Pw Pd Pi Pl Qw Qd Qi Ql Cw Cd Ci Cl S' S. assert (Hvs := v_lt m Hm).
  assert (P1 : 0 <= rnd (w' + d')) by (apply rnd_nonneg; auto; lra).
  assert (P2 : 0 <= rnd (rnd (w' + d') + i')) by (apply rnd_nonneg; auto; lra).
  assert (N1 : NR 1 (rnd (w' + d')) (w' + d')) by (apply rnd_near; auto; lra).
  assert (N2 : NR (1 + 1) (rnd (rnd (w' + d') + i')) (w' + d' + i')).
  { apply op_add; auto. apply near_refl; auto; lra. }
  assert (N3 : NR (1 + (1 + 1)) S' (w' + d' + i' + l')).
  { apply op_add; auto. apply near_refl; auto; lra. }
  assert (DD := near_diff v Hv (1 + (1 + 1)) S' (w' + d' + i' + l') ltac:(lra) ltac:(lra) ltac:(lra) N3).
  split; [apply rnd_nonneg; auto; lra|].
  apply Rabs_def2_le in Cw. apply Rabs_def2_le in Cd. apply Rabs_def2_le in Ci. apply Rabs_def2_le in Cl. apply Rabs_def2_le in DD.
  set (T := w' + d' + i' + l') in *.
  assert (HS : 0 <= S) by (unfold S; lra). assert (DS : D * w + D * d + D * i + D * l = D * S) by (unfold S; ring).
  assert (B : - (D * S + 4 * e) <= T - S <= D * S + 4 * e) by (unfold T, S in *; lra).
  assert (DS1 : D * S <= 1e-3 * S) by (apply Rmult_le_compat_r; lra).
  assert (vT : v * T <= v * (1.01 * S + 4 * e)) by (apply Rmult_le_compat_l; lra).
  assert (ve : v * e <= 1e-3 * e) by (apply Rmult_le_compat_r; lra).
  assert (vS : 0 <= v * S) by (apply Rmult_le_pos; lra).
  apply Rabs_le. lra.
Qed.
End Mach.

(** ** Lower bound of the brightness temperature *)

(** The Planck function is convex through the origin. *)
Lemma planckB_scale h e T : 0 < h -> 0 < e <= 1 -> 0 < T -> planckB h (e * T) <= e * planckB h T.
Proof.
  intros Hh He HT. unfold planckB. set (x := h / T). assert (Hx : 0 < x) by (apply Rdiv_lt_0_compat; auto).
  replace (h / (e * T)) with (x / e) by (unfold x; field; lra).
  assert (G : (exp x - 1) / e <= exp (x / e) - 1).
  { set (k := / e). assert (Hk : 1 <= k) by (unfold k; rewrite <- Rinv_1; apply Rinv_le_contravar; lra).
    replace ((exp x - 1) / e) with (k * (exp x - 1)) by (unfold k, Rdiv; ring). replace (x / e) with (k * x) by (unfold k, Rdiv; ring).
    (* weighted mean of exp 0 and exp (k x) *)
    set (f := fun k => exp (k * x) - 1 - k * (exp x - 1)).
    assert (H : f 1 <= f k).
    { apply (incr_by_derive f (fun k => x * exp (k * x) - (exp x - 1))); auto.
      - intros c _. unfold f. auto_derive; auto. ring.
      - intros c Hc. assert (exp x <= exp (c * x)) by (apply exp_le; nra).
        assert (M := exp_m1_le x ltac:(lra)). nra. }
    unfold f in H. rewrite Rmult_1_l in H. lra. }
  assert (E1 : 1 < exp x) by (apply exp_gt1; auto).
  assert (P : 0 < (exp x - 1) / e) by (apply Rdiv_lt_0_compat; lra).
  apply Rle_trans with (/ ((exp x - 1) / e)); [apply Rinv_le_contravar; auto|]. right. field. lra.
Qed.

Lemma tb_lower (sat : bool) es f t tl Tl Tb : 0 < f -> length t = length tl -> t <> [] ->
  (forall x, In x t -> 2.728 <= x <= 400) -> (forall d, In d tl -> 0 <= d) -> total_tau tl < 125 ->
  (if sat then 0 < es <= 1 /\ 0 < Tl /\ forall x, In x t -> Tl <= es * x else Tl = 2.728) ->
  tb_of (A:=RA) sat es f t tl = Ok Tb -> Tl <= Tb.
Proof.
  intros Hf Hl Hne HT Hd Ht HTl H. assert (Hh : 0 < spec_hvk f) by (unfold spec_hvk; lra).
  destruct (planck_master sat es f t tl Hl Hne) as (o & Ho & O1 & _ & _ & _ & O2 & _).
  destruct (O2 Ht) as (_ & E & _). unfold tb_of in H. rewrite Ho, O1, E in H. injection H as H.
  assert (Htn := total_tau_nonneg tl Hd). assert (Pe := exp_pos (- total_tau tl)). assert (Pe1 := exp_neg_le1 _ Htn).
  set (b := background sat es (spec_hvk f) t * exp (- total_tau tl) + total_atm sat (spec_hvk f) t tl).
  assert (H' : bright (A:=RA) (spec_hvk f) b = Tb) by exact H. clear H.
  assert (H0 : 2.728 <= nth 0 t 0 <= 400) by (apply HT, nth_In; destruct t; [congruence|simpl; lia]).
  assert (G : 0 < Tl /\ planckB (spec_hvk f) Tl <= b).
  { destruct sat.
    - destruct HTl as (He & HTl & HTx). split; auto.
      assert (HT' : forall x, In x t -> Tl / es <= x <= 400).
      { intros x Hx. split; [|apply HT; auto]. apply Rmult_le_reg_r with es; [lra|]. unfold Rdiv. rewrite Rmult_assoc, Rinv_l by lra.
        assert (Q := HTx x Hx). lra. }
      assert (Pl : 0 < Tl / es) by (apply Rdiv_lt_0_compat; lra).
      assert (BA := total_atm_bounds true (spec_hvk f) t tl (Tl / es) 400 Hh Pl HT' Hd Hl Hne).
      assert (B0 : planckB (spec_hvk f) (Tl / es) <= planckB (spec_hvk f) (nth 0 t 0)).
      { apply planckB_le; auto. apply HT', nth_In. destruct t; [congruence|simpl; lia]. }
      assert (SC := planckB_scale (spec_hvk f) es (Tl / es) Hh He Pl). replace (es * (Tl / es)) with Tl in SC by (field; lra).
      assert (PB := planckB_pos (spec_hvk f) (Tl / es) Hh Pl).
      apply Rle_trans with (1 := SC). unfold b, background. set (B := planckB (spec_hvk f) (Tl / es)) in *. set (e := exp (- total_tau tl)) in *.
      set (B0' := planckB (spec_hvk f) (nth 0 t 0)) in *. clearbody B B0' e.
      assert (es * B * e <= es * B0' * e) by (apply Rmult_le_compat_r; [lra|]; apply Rmult_le_compat_l; lra).
      assert (es * B * (1 - e) <= B * (1 - e)) by (apply Rmult_le_compat_r; [lra|]; nra). lra.
    - subst Tl. split; [lra|].
      assert (BA := total_atm_bounds false (spec_hvk f) t tl 2.728 400 Hh ltac:(lra) HT Hd Hl Hne). unfold b, background. lra. }
  destruct G as [G0 G]. assert (P := planckB_pos _ _ Hh G0). clearbody b. rewrite (bright_R (spec_hvk f) b) in H' by lra.
  rewrite <- H', <- (planckT_B (spec_hvk f) Tl) by lra. apply planckT_le; auto.
Qed.

(** ** C138 *)

Lemma lay_list_length {A : Arith} zf (x ds : list (car A)) : length (lay_list zf x ds) = length x.
Proof. unfold lay_list. rewrite map_length, seq_length. reflexivity. Qed.

Lemma lay_list_nth {A : Arith} zf (x ds : list (car A)) z i : (i < length x)%nat ->
  nth i (lay_list zf x ds) z = if (i =? 0)%nat then lit (Dec 0 1) else lay_at zf x ds i.
Proof.
  intros Hi. unfold lay_list. rewrite (nth_map_d _ _ _ 0%nat) by (rewrite seq_length; lia). rewrite seq_nth by lia. reflexivity.
Qed.

Section Final.
Context (m : machine) (Hm : machine_ok m).

Lemma opacities_RA aw ad ai al ds : length ad = length aw -> length ai = length aw -> length al = length aw -> length ds = length aw ->
  (forall x, In x aw \/ In x ad \/ In x ai \/ In x al -> 0 <= x) ->
  add4 (A:=RA) (lay_list (A:=RA) true aw ds) (lay_list (A:=RA) true ad ds) (lay_list (A:=RA) false ai ds) (lay_list (A:=RA) false al ds) = opacities aw ad ai al ds.
Proof.
  intros L1 L2 L3 L4 Hx.
  assert (Len : length (add4 (A:=RA) (lay_list (A:=RA) true aw ds) (lay_list (A:=RA) true ad ds) (lay_list (A:=RA) false ai ds) (lay_list (A:=RA) false al ds)) = length aw).
  { rewrite add4_length; rewrite !lay_list_length; auto. }
  apply (@nth_ext R _ _ 0 0). { etransitivity; [exact Len|]. unfold opacities. rewrite map_length, seq_length. reflexivity. }
  intros i Hi0. assert (Hi : (i < length aw)%nat) by (rewrite <- Len; exact Hi0). etransitivity; [apply (add4_nth (A:=RA)); rewrite !lay_list_length; auto|].
  unfold opacities. rewrite (nth_map_d _ _ _ 0%nat) by (rewrite seq_length; lia). rewrite seq_nth by lia. cbn [Nat.add].
  etransitivity; [apply (f_equal2 Rplus); [apply (f_equal2 Rplus); [apply (f_equal2 Rplus)|]|]; apply (lay_list_nth (A:=RA)); first [exact Hi|exact (eq_ind_r (fun n => (i < n)%nat) Hi L1)|exact (eq_ind_r (fun n => (i < n)%nat) Hi L2)|exact (eq_ind_r (fun n => (i < n)%nat) Hi L3)]|].
  destruct i as [|i]; [cbn [Nat.eqb layer_int]; ra; cbn [litR]; lra|]. cbn [Nat.eqb].
  assert (G : forall zf x, length x = length aw -> (forall y, In y x -> 0 <= y) -> lay_at (A:=RA) zf x ds (S i) = layer_int zf x ds (S i)).
  { intros zf x Lx Px. unfold lay_at. rewrite layer_layV. unfold layV, prevx. cbn [Nat.eqb]. ra. cbn [litR]. replace (0 / 1) with 0 by lra.
    rewrite exp_layer_RA; [reflexivity| |]; apply Px, nth_In; lia. }
  rewrite !G; auto.
Qed.

Definition tlM aw ad ai al ds : list R :=
  add4 (A:=MA m) (lay_list (A:=MA m) true aw ds) (lay_list (A:=MA m) true ad ds) (lay_list (A:=MA m) false ai ds) (lay_list (A:=MA m) false al ds).

Lemma opacities_MA aw ad ai al ds X : length ad = length aw -> length ai = length aw -> length al = length aw -> length ds = length aw ->
  (forall x, In x aw \/ In x ad \/ In x ai \/ In x al -> 0 <= x <= X) -> 0 <= X <= 50 -> (forall d, In d ds -> 0 <= d) ->
  length (tlM aw ad ai al ds) = length aw /\
  forall i, (i < length aw)%nat -> 0 <= nth i (tlM aw ad ai al ds) 0 /\
    Rabs (nth i (tlM aw ad ai al ds) 0 - nth i (opacities aw ad ai al ds) 0)
    <= (4.8e9 * X + 18) * vof m * nth i (opacities aw ad ai al ds) 0 + 4.2e-9 * nth i ds 0.
Proof.
  intros L1 L2 L3 L4 Hx HX Hd. assert (Hv := v_nonneg m Hm). assert (Hvs := v_lt m Hm).
  split. { unfold tlM. etransitivity; [apply (add4_length (A:=MA m)); rewrite !lay_list_length; auto|apply (lay_list_length (A:=MA m))]. }
  intros i Hi.
  assert (E : nth i (tlM aw ad ai al ds) 0 =
     m_rnd m (m_rnd m (m_rnd m (nth i (lay_list (A:=MA m) true aw ds) 0 + nth i (lay_list (A:=MA m) true ad ds) 0)
        + nth i (lay_list (A:=MA m) false ai ds) 0) + nth i (lay_list (A:=MA m) false al ds) 0)).
  { unfold tlM. etransitivity; [apply (add4_nth (A:=MA m)); rewrite !lay_list_length; auto|]. reflexivity. }
  assert (EO : nth i (opacities aw ad ai al ds) 0 = layer_int true aw ds i + layer_int true ad ds i + layer_int false ai ds i + layer_int false al ds i).
  { unfold opacities. rewrite (nth_map_d _ _ _ 0%nat) by (rewrite seq_length; lia). rewrite seq_nth by lia. reflexivity. }
  assert (XV : 0 <= X * vof m <= 50 * vof m) by (split; [apply Rmult_le_pos; lra|apply Rmult_le_compat_r; lra]).
  assert (Hdi : 0 <= nth i ds 0) by (apply Hd, nth_In; lia).
  assert (G : forall (zf : bool) x, length x = length aw -> (forall y, In y x -> 0 <= y <= X) ->
     0 <= nth i (lay_list (A:=MA m) zf x ds) 0 /\ 0 <= layer_int zf x ds i /\
     Rabs (nth i (lay_list (A:=MA m) zf x ds) 0 - layer_int zf x ds i) <= (4.8e9 * X + 11) * vof m * layer_int zf x ds i + 1.02e-9 * nth i ds 0).
  { intros zf x Lx Px. assert (EN := lay_list_nth (A:=MA m) zf x ds 0 i (eq_ind_r (fun n => (i < n)%nat) Hi Lx)).
    destruct i as [|i].
    - cbn [Nat.eqb] in EN. assert (Z : nth 0 (lay_list (A:=MA m) zf x ds) 0 = 0).
      { etransitivity; [exact EN|]. ma. cbn [litR]. replace (0 / 1) with 0 by lra. apply rnd_0; auto. }
      rewrite Z. cbn [layer_int]. rewrite Rminus_eq_0, Rabs_R0. lra.
    - cbn [Nat.eqb] in EN. rewrite layer_layV. unfold layV, prevx. cbn [Nat.eqb].
      assert (EN2 : nth (S i) (lay_list (A:=MA m) zf x ds) 0 = m_rnd m (exp_layer (A:=MA m) zf (nth (S i - 1) x 0) (nth (S i) x 0) * nth (S i) ds 0)).
      { etransitivity; [exact EN|]. unfold lay_at. ma. cbn [litR]. replace (0 / 1) with 0 by lra. rewrite (rnd_0 m Hm). reflexivity. }
      rewrite EN2. apply opacity_close; auto; apply Px, nth_In; lia. }
  destruct (G true aw) as (W1 & W2 & W3); auto. destruct (G true ad) as (D1 & D2 & D3); auto.
  destruct (G false ai) as (I1 & I2 & I3); auto. destruct (G false al) as (K1 & K2 & K3); auto.
  rewrite E, EO.
  destruct (sum_close m Hm ((4.8e9 * X + 11) * vof m) (1.02e-9 * nth i ds 0) _ _ _ _ _ _ _ _ ltac:(lra) ltac:(lra) W1 D1 I1 K1 W2 D2 I2 K2 W3 D3 I3 K3) as [Q1 Q2].
  split; [exact Q1|]. apply Rle_trans with (1 := Q2).
  replace ((4.8e9 * X + 11) * vof m + 7 * vof m) with ((4.8e9 * X + 18) * vof m) by lra. lra.
Qed.
End Final.

Lemma total_tau_nth l : total_tau l = rsum (length l - 1) (fun i => nth (S i) l 0).
Proof.
  destruct l as [|x l]; [reflexivity|]. unfold total_tau. cbn [tl length]. rewrite Nat.sub_succ, Nat.sub_0_r.
  symmetry. apply rsum_list.
Qed.

(** C138.  From the absorption profiles (Np/km, at most [X]) along a path of length [total_tau ds] (km): the brightness temperature
    computed with rounding errors of at most [u] per operation differs from the exact one by the error of the transfer solution
    (C136), plus the effect of the opacity errors: a relative part that grows with the largest absorption because the code divides
    by the logarithm of a ratio that may be as close to 1 as [1e-9 / X], and an absolute part of 1e-9 Np/km where rounding flips
    the comparison with 1e-9. *)
Theorem C138_absorbed (m : machine) : machine_ok m ->
  forall (sat : bool) es f t aw ad ai al ds X Tl Tb,
  1 <= f <= 200 -> t <> [] -> (length t <= 1000)%nat ->
  length aw = length t -> length ad = length t -> length ai = length t -> length al = length t -> length ds = length t ->
  (forall x, In x t -> 2.728 <= x <= 400) ->
  (forall x, In x aw \/ In x ad \/ In x ai \/ In x al -> 0 <= x <= X) -> 0 <= X <= 50 ->
  (forall d, In d ds -> 0 <= d) -> total_tau ds <= 1e6 -> total_tau (opacities aw ad ai al ds) <= 123 ->
  (if sat then 0 < es <= 1 /\ 2.728 <= Tl /\ forall x, In x t -> Tl <= es * x else Tl = 2.728) ->
  tb_absorbed (A:=RA) sat es f t aw ad ai al ds = Ok Tb ->
  exists Tb', tb_absorbed (A:=MA m) sat es f t aw ad ai al ds = Ok Tb' /\
    Rabs (Tb' - Tb) <= 8.8e10 * m_u m
      + ((8e9 * X + 30) * m_u m + 1.1e-8 * total_tau ds) * exp (spec_hvk f / Tl) * (variation t + far_step sat es t).
Proof.
  intros Hm sat es f t aw ad ai al ds X Tl Tb Hf Hne Hlen Lw Ld Li Ll Ls HT Hx HX Hd Hp Htau HTl HTb.
  assert (Hv := v_nonneg m Hm). assert (Hvs := v_lt m Hm). assert (Hvu := v_u m Hm).
  set (tR := opacities aw ad ai al ds) in *. set (tM := tlM m aw ad ai al ds).
  assert (Hx0 : forall x, In x aw \/ In x ad \/ In x ai \/ In x al -> 0 <= x) by (intros x Hi; apply Hx in Hi; lra).
  assert (Lad := eq_trans Ld (eq_sym Lw)). assert (Lai := eq_trans Li (eq_sym Lw)). assert (Lal := eq_trans Ll (eq_sym Lw)).
  assert (Lds := eq_trans Ls (eq_sym Lw)).
  assert (ER : tb_of (A:=RA) sat es f t tR = Ok Tb).
  { rewrite <- HTb. symmetry. etransitivity.
    - apply (tb_absorbed_eq (A:=RA)); auto. intros x Hi. ra. cbn [litR]. unfold Rltb. apply Hx0 in Hi. destruct (Rlt_dec x (0 / 10)); [lra|reflexivity].
    - apply (f_equal (tb_of (A:=RA) sat es f t)). apply opacities_RA; auto. }
  assert (EM : tb_absorbed (A:=MA m) sat es f t aw ad ai al ds = tb_of (A:=MA m) sat es f t tM).
  { apply (tb_absorbed_eq (A:=MA m)); auto. intros x Hi. ma. cbn [litR]. replace (0 / 10) with 0 by lra. rewrite (rnd_0 m Hm).
    unfold Rltb. apply Hx0 in Hi. destruct (Rlt_dec x 0); [lra|reflexivity]. }
  destruct (opacities_MA m Hm aw ad ai al ds X) as [LM CM]; auto; try congruence. fold tM tR in LM, CM.
  assert (LR : length tR = length aw) by (unfold tR, opacities; rewrite map_length, seq_length; reflexivity).
  set (del := (4.8e9 * X + 18) * vof m) in *.
  assert (XV : 0 <= X * vof m <= 50 * vof m) by (split; [apply Rmult_le_pos; lra|apply Rmult_le_compat_r; lra]).
  assert (Hdel : 0 <= del <= 1e-3) by (unfold del; lra).
  assert (PM : forall d, In d tM -> 0 <= d).
  { intros d Hi. apply (In_nth _ _ 0) in Hi. destruct Hi as (i & Hi & <-). apply CM. lia. }
  assert (PR : forall d, In d tR -> 0 <= d).
  { intros d Hi. apply (In_nth _ _ 0) in Hi. destruct Hi as (i & Hi & <-).
    unfold tR, opacities. rewrite (nth_map_d _ _ _ 0%nat) by (rewrite seq_length; lia). rewrite seq_nth by lia. cbn [Nat.add].
    assert (G : forall zf x, length x = length aw -> (forall y, In y x -> 0 <= y) -> 0 <= layer_int zf x ds i).
    { intros zf x Lx Px. destruct i as [|i]; [cbn; lra|]. rewrite layer_layV. unfold layV, prevx. cbn [Nat.eqb].
      apply Rmult_le_pos; [|apply Hd, nth_In; lia]. apply layR_nonneg; apply Px, nth_In; lia. }
    assert (G1 := G true aw eq_refl ltac:(auto)). assert (G2 := G true ad ltac:(congruence) ltac:(auto)).
    assert (G3 := G false ai ltac:(congruence) ltac:(auto)). assert (G4 := G false al ltac:(congruence) ltac:(auto 6)). lra. }
  set (er := map (fun d => 4.2e-9 * d) ds).
  assert (Ler : length er = length t) by (unfold er; rewrite map_length; auto).
  assert (Ner : forall i, nth i er 0 = 4.2e-9 * nth i ds 0).
  { intros i. unfold er. destruct (Nat.lt_ge_cases i (length ds)).
    - rewrite (nth_map_d _ _ _ 0) by auto. reflexivity.
    - rewrite !nth_overflow by (rewrite ?map_length; auto). lra. }
  assert (Ter : total_tau er = 4.2e-9 * total_tau ds).
  { rewrite !total_tau_nth. rewrite Ler, Ls, <- rsum_scal. apply rsum_ext. intros i _. apply Ner. }
  assert (TM : total_tau tM <= 124).
  { assert (Q : total_tau tM <= (1 + del) * total_tau tR + total_tau er).
    { rewrite (total_tau_nth tM), (total_tau_nth tR), (total_tau_nth er). rewrite LM, LR, Ler, <- Lw, <- rsum_scal, <- rsum_add.
      apply rsum_le. intros i Hi. destruct (CM (S i) ltac:(lia)) as [_ C]. apply Rabs_def2_le in C. rewrite Ner. lra. }
    assert (0 <= total_tau tR) by (apply total_tau_nonneg; auto).
    assert (del * total_tau tR <= 1e-3 * 123) by (apply Rmult_le_compat; lra). lra. }
  (* the exact solution for the machine's opacities *)
  destruct (planck_master sat es f t tM) as (o & Ho & _); [congruence|auto|].
  set (Tc := bright (A:=RA) (p_hvk o) (p_boftotl o)).
  assert (EC : tb_of (A:=RA) sat es f t tM = Ok Tc) by (unfold tb_of; rewrite Ho; reflexivity).
  assert (HTl' : if sat then 0 < es <= 1 /\ 0 < Tl /\ forall x, In x t -> Tl <= es * x else Tl = 2.728).
  { destruct sat; [|auto]. destruct HTl as (? & ? & ?). repeat split; auto; lra. }
  assert (B1 : Tl <= Tb) by (apply (tb_lower sat es f t tR Tl Tb); auto; try lra; congruence).
  assert (B2 : Tl <= Tc) by (apply (tb_lower sat es f t tM Tl Tc); auto; try lra; congruence).
  assert (Tl0 : 2.728 <= Tl) by (destruct sat; [apply HTl|lra]).
  assert (S := C137_sensitivity sat es f t tR tM er del (total_tau er) Tl Tb Tc).
  destruct (C136_rounding m Hm sat es f t tM Tc) as (Tb' & EB & HTc & D1 & _); auto; try lra; try congruence.
  { intros Es. subst sat. split; [destruct HTl as (? & ? & ?); lra|lra]. }
  exists Tb'. split; [rewrite EM; exact EB|].
  assert (D2 : Rabs (Tc - Tb) <= (0.82 * del + 2.4 * total_tau er) * exp (spec_hvk f / Tl) * (variation t + far_step sat es t)).
  { apply S; auto; try lra; try congruence.
    - intros x Hi. apply HT in Hi. lra.
    - intros d Hi. unfold er in Hi. apply in_map_iff in Hi. destruct Hi as (y & <- & Hy). apply Hd in Hy. lra.
    - intros i Hi. rewrite Ner. apply CM. lia.
    - intros Es. subst sat. destruct HTl as (? & ? & ?). lra. }
  assert (VF : 0 <= variation t + far_step sat es t).
  { assert (0 <= variation t) by (apply rsum_nonneg; intros; apply Rabs_pos). assert (0 <= far_step sat es t); [|lra].
    unfold far_step. destruct sat; [|apply Rabs_pos]. destruct HTl as (? & ? & ?). apply Rmult_le_pos; [lra|].
    assert (2.728 <= nth 0 t 0 <= 400) by (apply HT, nth_In; destruct t; [congruence|simpl; lia]). lra. }
  assert (K : 0.82 * del + 2.4 * total_tau er <= (8e9 * X + 30) * m_u m + 1.1e-8 * total_tau ds).
  { rewrite Ter. assert (0 <= total_tau ds) by (apply total_tau_nonneg; auto).
    assert (D : del <= (4.8e9 * X + 18) * (2 * m_u m)) by (apply Rmult_le_compat_l; lra).
    assert (Hu := proj1 (ok_u m Hm)). assert (0 <= X * m_u m) by (apply Rmult_le_pos; lra). lra. }
  assert (Pe := exp_pos (spec_hvk f / Tl)).
  assert (D3 : Rabs (Tb' - Tc) <= 8.8e10 * m_u m).
  { apply Rle_trans with (1 := D1). assert (Hu := proj1 (ok_u m Hm)). assert (m_u m * Tc <= m_u m * 400) by (apply Rmult_le_compat_l; lra). lra. }
  replace (Tb' - Tb) with ((Tb' - Tc) + (Tc - Tb)) by ring. eapply Rle_trans; [apply Rabs_triang|]. apply Rplus_le_compat; auto.
  apply Rle_trans with (1 := D2). apply Rmult_le_compat_r; auto. apply Rmult_le_compat_r; lra.
Qed.

(** Python's floats, a three-level clear sounding seen by a satellite over a surface of emissivity 0.9. *)
Example C138_example : exists Tb Tb',
  tb_absorbed (A:=RA) true 0.9 22.235 [288; 260; 220] [0.02; 0.01; 0] [0.004; 0.003; 0.001] [0; 0; 0] [0; 0; 0] [0; 5; 5] = Ok Tb /\
  tb_absorbed (A:=MA double53) true 0.9 22.235 [288; 260; 220] [0.02; 0.01; 0] [0.004; 0.003; 0.001] [0; 0; 0] [0; 0; 0] [0; 5; 5] = Ok Tb' /\
  Rabs (Tb' - Tb) <= 5e-5.
Proof.
  set (t := [288; 260; 220]). set (aw := [0.02; 0.01; 0]). set (ad := [0.004; 0.003; 0.001]). set (z := [0; 0; 0]). set (ds := [0; 5; 5]).
  assert (Hx : forall x, In x aw \/ In x ad \/ In x z \/ In x z -> 0 <= x <= 0.02).
  { unfold aw, ad, z. intros x H. simpl in H. repeat (destruct H as [H|H]; [try subst x; try lra|]); try contradiction; try lra.
    all: repeat (destruct H as [H|H]; [try subst x; try lra|]); try contradiction; lra. }
  assert (HT : forall x, In x t -> 220 <= x <= 288) by (intros x [<-|[<-|[<-|[]]]]; lra).
  assert (Hd : forall x, In x ds -> 0 <= x) by (intros x [<-|[<-|[<-|[]]]]; lra).
  assert (Hds : total_tau ds = 10) by (unfold total_tau, ds; simpl; lra).
  assert (Hop : total_tau (opacities aw ad z z ds) <= 123).
  { unfold total_tau, opacities, aw, ad, z, ds. cbn [length seq map tl fold_right layer_int nth].
    assert (G : forall gas a b, 0 <= a <= 0.02 -> 0 <= b <= 0.02 -> 0 <= layer_mean gas a b <= 0.02).
    { intros gas a b Ha Hb. change (layer_mean gas a b) with (layR gas a b). assert (Q := layR_bounds gas a b (proj1 Ha) (proj1 Hb)).
      assert (0 <= Rmin a b) by (apply Rmin_glb; lra). assert (Rmax a b <= 0.02) by (apply Rmax_lub; lra). lra. }
    assert (G1 := G true 0.02 0.01 ltac:(lra) ltac:(lra)). assert (G2 := G true 0.01 0 ltac:(lra) ltac:(lra)).
    assert (G3 := G true 0.004 0.003 ltac:(lra) ltac:(lra)). assert (G4 := G true 0.003 0.001 ltac:(lra) ltac:(lra)).
    assert (G5 := G false 0 0 ltac:(lra) ltac:(lra)). lra. }
  assert (E : exists Tb, tb_absorbed (A:=RA) true 0.9 22.235 t aw ad z z ds = Ok Tb).
  { destruct (planck_master true 0.9 22.235 t (opacities aw ad z z ds)) as (o & Ho & _); [reflexivity|discriminate|].
    exists (bright (A:=RA) (p_hvk o) (p_boftotl o)). etransitivity.
    - apply (tb_absorbed_eq (A:=RA)); try reflexivity; try discriminate.
      intros x Hi. ra. cbn [litR]. unfold Rltb. apply Hx in Hi. destruct (Rlt_dec x (0 / 10)); [lra|reflexivity].
    - etransitivity; [apply (f_equal (tb_of (A:=RA) true 0.9 22.235 t)); apply opacities_RA; try reflexivity|].
      + intros x Hi. apply Hx in Hi. lra.
      + unfold tb_of. rewrite Ho. reflexivity. }
  destruct E as (Tb & E).
  destruct (C138_absorbed double53 double53_ok true 0.9 22.235 t aw ad z z ds 0.02 198 Tb) as (Tb' & E' & D);
    try reflexivity; try discriminate; auto; try lra.
  - simpl. lia.
  - intros x Hi. apply HT in Hi. lra.
  - split; [lra|]. split; [lra|]. intros x Hi. apply HT in Hi. lra.
  - exists Tb, Tb'. split; [exact E|]. split; [exact E'|]. apply Rle_trans with (1 := D). rewrite Hds. cbn [m_u double53].
    assert (V : variation t = 68).
    { rewrite variation_decreasing; [simpl; lra|]. intros i Hi. simpl in Hi. destruct i as [|[|[|i]]]; try lia; cbn [nth t]; lra. }
    rewrite V. unfold far_step. cbn [nth t].
    assert (Ex : exp (spec_hvk 22.235 / 198) <= 2).
    { apply Rle_trans with (exp (/ 2)); [apply exp_le; unfold spec_hvk; lra|]. assert (Q := exp_m1_2 (/ 2) ltac:(lra) ltac:(lra)). lra. }
    assert (Pe := exp_pos (spec_hvk 22.235 / 198)).
    set (e := exp (spec_hvk 22.235 / 198)) in *. clearbody e.
    set (u := / 2 ^ 52). assert (Hu : 0 <= u <= 2.3e-16) by (unfold u; simpl; lra). clearbody u. nra.
Qed.
