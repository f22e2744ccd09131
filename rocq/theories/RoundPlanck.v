(** Rounding errors of [tk2b_mod], [planck] and [bright]: the same model run with machine arithmetic against
    the model over the ideal reals. *)

From Coq Require Import ZArith Reals Lra Lia List Bool.
Import ListNotations.
From Verif Require Import Arith PyBase Utils RTE Spec RealAux PlanckGen PlanckReal PlanckMaster Machine.
Open Scope R_scope.

Ltac ma := cbn [car lit add sub mul div opp absv expf lnf log10f sqrtf sinf cosf tanf asinf atan2f
                powf pif ltb leb eqb trunc MA] in *.

Lemma sum_snd_nonneg (lv : list (R * R)) : (forall x, In x lv -> 0 <= snd x) -> 0 <= fold_right Rplus 0 (map snd lv).
Proof.
  induction lv as [|x lv IH]; intros H; cbn [map fold_right]; [lra|].
  assert (H1 := H x (or_introl eq_refl)). assert (H2 := IH (fun y Hy => H y (or_intror Hy))). lra.
Qed.

Section Round.
Context (m : machine) (Hm : machine_ok m).
Notation v := (vof m).
Notation rnd := (m_rnd m).
Notation NR := (near (vof m)).
Notation AP := (apx (vof m)).

Let Hv : 0 <= v := v_nonneg m Hm.

Lemma lit1 : rnd (litR 1.0%dec) = 1.
Proof. cbn [litR]. replace (10 / 10) with 1 by lra. apply ok_one; auto. Qed.

Lemma lit_near (d : dec) : 0 <= litR d -> NR 1 (rnd (litR d)) (litR d).
Proof. apply rnd_near; auto. Qed.

(** Counting lemmas: one operation between approximated non-negative operands. *)
Lemma op_mul c d x' x y' y : 0 <= x -> 0 <= x' -> 0 <= y -> 0 <= y' ->
  NR c x' x -> NR d y' y -> NR (1 + (c + d)) (rnd (x' * y')) (x * y).
Proof. intros. apply near_rnd; auto. { apply Rmult_le_pos; auto. } apply near_mul; auto. Qed.

Lemma op_div c d x' x y' y : 0 <= x -> 0 <= x' -> 0 < y -> 0 < y' ->
  NR c x' x -> NR d y' y -> NR (1 + (c + d)) (rnd (x' / y')) (x / y).
Proof.
  intros. apply near_rnd; auto. { apply Rmult_le_pos; [auto|left; apply Rinv_0_lt_compat; auto]. }
  apply near_div; auto.
Qed.

Lemma op_add c x' x y' y : 0 <= x' -> 0 <= y' ->
  NR c x' x -> NR c y' y -> NR (1 + c) (rnd (x' + y')) (x + y).
Proof. intros. apply near_rnd; auto. { lra. } apply near_add; auto. Qed.

Lemma hvk_near f : 0 < f -> NR 6 (hvk_of (A:=MA m) f) (spec_hvk f) /\ 0 < hvk_of (A:=MA m) f /\ 0 < spec_hvk f.
Proof.
  intros Hf. rewrite <- hvk_of_R. unfold hvk_of, k_planck, k_boltzmann. ra. ma. cbn [litR].
  match goal with |- context [f * ?a * ?b / ?c] => set (A := a); set (B := b); set (C := c) end.
  assert (HA : 0 < A) by (unfold A; lra). assert (HB : 0 < B) by (unfold B; lra). assert (HC : 0 < C) by (unfold C; lra).
  clearbody A B C. assert (Q1 : 0 < f * A) by (apply Rmult_lt_0_compat; auto).
  assert (Q2 : 0 < f * A * B) by (apply Rmult_lt_0_compat; auto).
  assert (PA := rnd_pos m Hm A HA). assert (PB := rnd_pos m Hm B HB). assert (PC := rnd_pos m Hm C HC).
  assert (P1 : 0 < f * rnd A) by (apply Rmult_lt_0_compat; auto). assert (P2 := rnd_pos m Hm _ P1).
  assert (P3 : 0 < rnd (f * rnd A) * rnd B) by (apply Rmult_lt_0_compat; auto). assert (P4 := rnd_pos m Hm _ P3).
  assert (P5 : 0 < rnd (rnd (f * rnd A) * rnd B) / rnd C) by (apply Rdiv_lt_0_compat; auto).
  split; [|split; [apply rnd_pos; auto|apply Rdiv_lt_0_compat; auto]].
  assert (N1 : NR (1 + (0 + 1)) (rnd (f * rnd A)) (f * A)).
  { apply op_mul; try lra. { apply near_refl; auto; lra. } apply rnd_near; auto; lra. }
  assert (N2 : NR (1 + ((1 + (0 + 1)) + 1)) (rnd (rnd (f * rnd A) * rnd B)) (f * A * B)).
  { apply op_mul; auto; try lra. apply rnd_near; auto; lra. }
  replace 6 with (1 + ((1 + ((1 + (0 + 1)) + 1)) + 1)) by lra.
  apply op_div; auto; try lra. apply rnd_near; auto; lra.
Qed.

(** [exp x - 1] keeps a relative accuracy as long as [x] is not too small. *)
Lemma near_m1 c e' x : 0 <= c -> 0 < x -> 2 * (c * v) * (1 + / x) <= / 2 -> NR c e' (exp x) ->
  NR (4 * c * (1 + / x)) (e' - 1) (exp x - 1) /\ 0 < e' - 1.
Proof.
  intros Hc Hx Hz [H1 H2]. set (y := c * v) in *. assert (Hy : 0 <= y) by (apply Rmult_le_pos; auto).
  set (e := exp x) in *. assert (Hex : x <= e - 1) by (assert (H := exp_ineq1_le x); unfold e; lra).
  assert (Hi : 0 < / x) by (apply Rinv_0_lt_compat; auto).
  assert (Hee : e <= (1 + / x) * (e - 1)).
  { assert (1 <= / x * (e - 1)).
    { apply Rle_trans with (/ x * x); [rewrite Rinv_l by lra; lra|]. apply Rmult_le_compat_l; lra. } lra. }
  set (z := 2 * y * (1 + / x)) in *.
  assert (Hy2 : y <= / 2) by (unfold z in Hz; nra).
  assert (He := exp_m1_2 y Hy Hy2).
  assert (Hz0 : 0 <= z) by (unfold z; apply Rmult_le_pos; nra).
  assert (Hye : 2 * y * e <= z * (e - 1)).
  { unfold z. rewrite (Rmult_assoc (2 * y) (1 + / x)). apply Rmult_le_compat_l; lra. }
  assert (U : e' - 1 <= (1 + z) * (e - 1)).
  { assert ((exp y - 1) * e <= 2 * y * e) by (apply Rmult_le_compat_r; lra). lra. }
  assert (Lo : (1 - z) * (e - 1) <= e' - 1).
  { assert (1 + - y <= exp (- y)) by apply exp_ineq1_le.
    assert (E : exp (- y) * exp y = 1) by (rewrite <- exp_plus, Rplus_opp_l; apply exp_0).
    assert (Hp : 0 < exp (- y)) by apply exp_pos.
    assert (exp (- y) * e <= e').
    { apply Rle_trans with (exp (- y) * (exp y * e')); [apply Rmult_le_compat_l; lra|].
      rewrite <- Rmult_assoc, E. lra. }
    assert ((1 + - y) * e <= exp (- y) * e) by (apply Rmult_le_compat_r; lra).
    assert (0 <= y * e) by (apply Rmult_le_pos; lra). lra. }
  assert (Pos : 0 < e' - 1) by (assert (0 < (1 - z) * (e - 1)) by (apply Rmult_lt_0_compat; lra); lra).
  split; auto. unfold near. replace (4 * c * (1 + / x) * v) with (2 * z) by (unfold z, y; ring).
  assert (G1 : 1 + 2 * z <= exp (2 * z)) by apply exp_ineq1_le.
  assert (G2 : 1 <= (1 - z) * exp (2 * z)) by nra.
  split; [|nra].
  apply Rle_trans with ((1 - z) * exp (2 * z) * (e - 1)); [nra|].
  rewrite (Rmult_comm (1 - z)), Rmult_assoc. apply Rmult_le_compat_l; [left; apply exp_pos|auto].
Qed.

(** Relative error of the modified Planck function, with [x = h/T] in [xlo, xhi]; in units of [v]. *)
Definition cB (xlo xhi : R) : R := 2 + 4 * (1 + 16 * xhi) * (1 + / xlo).

Lemma tk2b_near h' h T' T xlo xhi : 0 < h -> 0 < h' -> 0 < T -> 0 < T' -> NR 6 h' h -> NR 1 T' T ->
  0 < xlo -> xlo <= h / T <= xhi -> 8 * v <= / 2 -> 2 * ((1 + 16 * xhi) * v) * (1 + / xlo) <= / 2 ->
  NR (cB xlo xhi) (tk2b_mod (A:=MA m) h' T') (planckB h T) /\ 0 < tk2b_mod (A:=MA m) h' T'.
Proof.
  intros Hh Hh' HT HT' NH NT Hxl Hx Hs1 Hs2. unfold tk2b_mod. ma. rewrite lit1.
  set (x := h / T) in *. set (x' := rnd (h' / T')).
  assert (N1 : NR 8 x' x).
  { replace 8 with (1 + (6 + 1)) by lra. apply op_div; auto; lra. }
  assert (Hx0 : 0 < x) by lra. assert (Hxh : 0 <= xhi) by lra.
  assert (N2 : NR (1 + 16 * xhi) (m_exp m x') (exp x)).
  { apply near_trans with (exp x'); auto. { apply exp_near; auto. }
    replace (16 * xhi) with (2 * 8 * xhi) by ring. apply near_exp; auto; lra. }
  assert (Hi : 0 < / x) by (apply Rinv_0_lt_compat; auto).
  assert (Hi2 : / x <= / xlo) by (apply Rinv_le_contravar; lra).
  assert (Hc : 0 <= 1 + 16 * xhi) by lra.
  assert (Hcv : 0 <= (1 + 16 * xhi) * v) by (apply Rmult_le_pos; auto).
  destruct (near_m1 (1 + 16 * xhi) (m_exp m x') x Hc Hx0) as [N3 P3]; auto.
  { eapply Rle_trans; [|exact Hs2]. apply Rmult_le_compat_l; lra. }
  assert (P4 := rnd_pos m Hm _ P3).
  assert (D : 0 < exp x - 1) by (assert (1 < exp x) by (apply exp_gt1; auto); lra).
  split.
  - unfold planckB. fold x. replace (/ (exp x - 1)) with (1 / (exp x - 1)) by (field; lra).
    apply near_mono with (1 + (0 + (1 + 4 * (1 + 16 * xhi) * (1 + / x)))); auto.
    + unfold cB. assert (4 * (1 + 16 * xhi) * (1 + / x) <= 4 * (1 + 16 * xhi) * (1 + / xlo)).
      { apply Rmult_le_compat_l; lra. } lra.
    + left. apply Rdiv_lt_0_compat; lra.
    + apply rnd_nonneg; auto. left. apply Rdiv_lt_0_compat; lra.
    + apply op_div; auto; try lra. { apply near_refl; auto; lra. }
      apply near_rnd; auto. lra.
  - apply rnd_pos; auto. apply Rdiv_lt_0_compat; lra.
Qed.

(** ** One layer *)

Lemma lay_boft_near c bn' bn bf' bf d : 0 <= c -> 0 <= d ->
  0 < bn -> 0 < bn' -> 0 < bf -> 0 < bf' -> NR c bn' bn -> NR c bf' bf ->
  NR (c + 6) (lay_boft (A:=MA m) bn' bf' d) (layer_emit bn bf d) /\ 0 < lay_boft (A:=MA m) bn' bf' d.
Proof.
  intros Hc Hd ? ? ? ? Nn Nf. unfold lay_boft, layer_emit. ma. rewrite lit1.
  set (e := exp (- d)). set (e' := m_exp m (- d)).
  assert (He : 0 < e) by apply exp_pos. assert (He' : 0 < e') by (apply mexp_pos; auto).
  assert (Ne : NR 1 e' e) by (apply exp_near; auto).
  assert (P1 : 0 < bf' * e') by (apply Rmult_lt_0_compat; auto). assert (P2 := rnd_pos m Hm _ P1).
  assert (P3 : 0 < bn' + rnd (bf' * e')) by lra. assert (P4 := rnd_pos m Hm _ P3).
  assert (P5 : 0 < 1 + e') by lra. assert (P6 := rnd_pos m Hm _ P5).
  assert (P0 : 0 < bf * e) by (apply Rmult_lt_0_compat; auto).
  assert (N1 : NR (c + 2) (rnd (bf' * e')) (bf * e)).
  { replace (c + 2) with (1 + (c + 1)) by ring. apply op_mul; auto; lra. }
  assert (N2 : NR (c + 3) (rnd (bn' + rnd (bf' * e'))) (bn + bf * e)).
  { replace (c + 3) with (1 + (c + 2)) by ring. apply op_add; auto; try lra.
    apply near_mono with c; auto; lra. }
  assert (N3 : NR 2 (rnd (1 + e')) (1 + e)).
  { replace 2 with (1 + 1) by ring. apply op_add; auto; try lra. apply near_refl; auto; lra. }
  split.
  - replace (c + 6) with (1 + ((c + 3) + 2)) by ring. apply op_div; auto; try lra.
  - apply rnd_pos; auto. apply Rdiv_lt_0_compat; auto.
Qed.

Lemma lay_batm_apx c n L M bn' bn bf' bf d tau' tau : 0 <= c -> 0 <= n -> n * v <= / 2 -> 0 <= d ->
  0 < bn <= M -> 0 < bn' -> 0 < bf <= M -> 0 < bf' -> NR c bn' bn -> NR c bf' bf ->
  0 <= tau <= L -> NR n tau' tau ->
  AP (c + 2 * n * L + 10) (M * v) (lay_batm (A:=MA m) bn' bf' d tau') (lay_batm (A:=RA) bn bf d tau)
  /\ 0 <= lay_batm (A:=MA m) bn' bf' d tau' /\ 0 <= lay_batm (A:=RA) bn bf d tau.
Proof.
  intros Hc Hn Hnv Hd [Hbn HbnM] Hbn' [Hbf HbfM] Hbf' Nn Nf [Ht HtL] Nt.
  assert (ER : lay_batm (A:=RA) bn bf d tau = layer_emit bn bf d * exp (- tau) * (1 - exp (- d))).
  { unfold lay_batm, lay_boft, layer_emit. ra. replace (10/10) with 1 by lra. reflexivity. }
  rewrite ER. unfold lay_batm.
  destruct (lay_boft_near c bn' bn bf' bf d) as [N1 P1]; auto.
  assert (HB := layer_emit_bounds bn bf d 0 M ltac:(lra) ltac:(lra)).
  set (b := layer_emit bn bf d) in *. set (b' := lay_boft (A:=MA m) bn' bf' d) in *. ma. rewrite lit1.
  assert (N2 : NR (1 + 2 * n * L) (m_exp m (- tau')) (exp (- tau))).
  { apply near_trans with (exp (- tau')); auto. { apply exp_near; auto. }
    apply near_exp; auto. }
  assert (PE := mexp_pos m Hm (- tau')). assert (Pe := exp_pos (- tau)).
  assert (N3 : NR (1 + ((c + 6) + (1 + 2 * n * L))) (rnd (b' * m_exp m (- tau'))) (b * exp (- tau))).
  { apply op_mul; auto; lra. }
  assert (HnL : 0 <= n * L) by (apply Rmult_le_pos; lra).
  (* the factor 1 - exp (- d) *)
  assert (E1 := ok_exp1 m Hm (- d) ltac:(lra)). assert (E2 := ok_exp m Hm (- d)). apply Rabs_def2_le in E2.
  assert (E3 := exp_neg_le1 d Hd). assert (E4 := exp_pos (- d)).
  assert (Hvu := v_u m Hm). assert (Hu := u_small m Hm).
  assert (A1 : AP 1 v (rnd (1 - m_exp m (- d))) (1 - exp (- d))).
  { replace 1 with (1 + 0) at 1 by ring. apply apx_rnd; auto. { lra. }
    unfold apx. rewrite Rmult_0_l, exp_0. assert (m_u m * exp (- d) <= v) by nra. lra. }
  assert (PD : 0 <= rnd (1 - m_exp m (- d))) by (apply rnd_nonneg; auto; lra).
  assert (PX : 0 <= rnd (b' * m_exp m (- tau'))).
  { apply rnd_nonneg; auto. apply Rmult_le_pos; lra. }
  assert (Px : 0 <= b * exp (- tau)) by (apply Rmult_le_pos; lra).
  assert (A2 := apx_mul v (1 + ((c + 6) + (1 + 2 * n * L))) 1 v _ _ _ (1 - exp (- d)) Px PX PD Hv
                  ltac:(lra) ltac:(lra) ltac:(lra) N3 A1).
  assert (PP : 0 <= rnd (b' * m_exp m (- tau')) * rnd (1 - m_exp m (- d))) by (apply Rmult_le_pos; auto).
  assert (A3 := apx_rnd m Hm _ _ _ _ PP A2).
  assert (Hexp1 := exp_neg_le1 tau Ht).
  assert (Pr : 0 <= b * exp (- tau) * (1 - exp (- d))) by (apply Rmult_le_pos; lra).
  assert (Hs0 : 0 <= b * exp (- tau) * v) by (apply Rmult_le_pos; lra).
  split; [|split; [apply rnd_nonneg; auto|auto]].
  eapply apx_mono; [exact Hv| | | | |exact A3].
  - lra.
  - apply Rmult_le_compat_r; auto. apply Rle_trans with (b * 1); [apply Rmult_le_compat_l; lra|lra].
  - lra.
  - apply rnd_nonneg; auto.
Qed.

(** ** The loop *)

(** The state of the loop after [k] layers: radiance of the level, emission so far, opacity so far. *)
Definition lev_close (c n L M : R) (k : nat) (s' s : R * R * R) : Prop :=
  let '(b', a', t') := s' in let '(b, a, t) := s in
  NR c b' b /\ 0 < b <= M /\ 0 < b' /\
  NR (INR k) t' t /\ 0 <= t <= L /\ 0 <= t' /\
  AP (c + 2 * n * L + 10 + INR k) (INR k * M * v) a' a /\ 0 <= a /\ 0 <= a'.

Lemma step_close c n L M k s' s T d h' h : 0 <= c -> INR k <= n -> n * v <= / 2 -> 0 <= d ->
  lev_close c n L M k s' s ->
  (NR c (tk2b_mod (A:=MA m) h' T) (planckB h T) /\ 0 < tk2b_mod (A:=MA m) h' T /\ 0 < planckB h T <= M) ->
  snd s + d <= L ->
  lev_close c n L M (S k) (dn_step (A:=MA m) h' s' (T, d)) (dn_step (A:=RA) h s (T, d)).
Proof.
  intros Hc Hk Hnv Hd Hs (NB & PB' & PB) HL.
  destruct s' as [[b' a'] t'], s as [[b a] t]. cbn [snd] in HL.
  destruct Hs as (Nb & Hb & Hb' & Nt & Ht & Ht' & Aa & Ha & Ha').
  unfold dn_step, lev_close. cbn [fst snd]. rewrite tk2b_R.
  assert (Hk0 : 0 <= INR k) by apply pos_INR.
  destruct (lay_batm_apx c n L M b' b (tk2b_mod (A:=MA m) h' T) (planckB h T) d t' t) as (Al & Pl' & Pl); auto; try lra.
  { apply near_mono with (INR k); auto; lra. }
  ma. ra. set (l' := lay_batm (A:=MA m) _ _ _ _) in *. set (l := lay_batm (A:=RA) _ _ _ _) in *.
  rewrite S_INR. assert (HM : 0 <= M * v) by (apply Rmult_le_pos; lra).
  assert (HkM : 0 <= INR k * (M * v)) by (apply Rmult_le_pos; auto).
  assert (Pt : 0 <= t' + d) by lra. assert (Pa : 0 <= a' + l') by lra.
  assert (N1 : NR (INR k + 1) (rnd (t' + d)) (t + d)).
  { replace (INR k + 1) with (1 + INR k) by ring. apply near_rnd; auto.
    apply near_add; auto. apply near_refl; auto. }
  assert (A1 : AP (c + 2 * n * L + 10 + (INR k + 1)) ((INR k + 1) * M * v) (rnd (a' + l')) (a + l)).
  { replace (c + 2 * n * L + 10 + (INR k + 1)) with (1 + (c + 2 * n * L + 10 + INR k)) by ring.
    replace ((INR k + 1) * M * v) with (INR k * M * v + M * v) by ring.
    apply apx_rnd; auto. apply apx_add; auto. eapply apx_mono; [exact Hv| | | | |exact Al]; try lra. }
  assert (Q1 := rnd_nonneg m Hm _ Pt). assert (Q2 := rnd_nonneg m Hm _ Pa).
  split; [exact NB|]. split; [exact PB|]. split; [exact PB'|]. split; [exact N1|].
  split; [lra|]. split; [exact Q1|]. split; [exact A1|]. split; [lra|exact Q2].
Qed.

Lemma scan_close c n L M h' h lv : 0 <= c -> n * v <= / 2 ->
  (forall x, In x lv -> 0 <= snd x /\
     NR c (tk2b_mod (A:=MA m) h' (fst x)) (planckB h (fst x)) /\ 0 < tk2b_mod (A:=MA m) h' (fst x) /\
     0 < planckB h (fst x) <= M) ->
  forall k s' s, INR k + INR (length lv) <= n -> lev_close c n L M k s' s ->
  snd s + fold_right Rplus 0 (map snd lv) <= L ->
  lev_close c n L M (k + length lv) (last (scan (A:=MA m) h' s' lv) s') (last (scan (A:=RA) h s lv) s).
Proof.
  intros Hc Hnv. induction lv as [|[T d] lv IH]; intros Hlv k s' s Hk Hs HL.
  { cbn [scan last length]. rewrite Nat.add_0_r. exact Hs. }
  cbn [scan]. rewrite !last_cons. cbn [length] in *. rewrite S_INR in Hk.
  destruct (Hlv (T, d) (or_introl eq_refl)) as (Hd & HB). cbn [fst snd] in Hd, HB.
  cbn [map fold_right snd] in HL.
  assert (HS : 0 <= fold_right Rplus 0 (map snd lv)).
  { apply sum_snd_nonneg. intros x Hx; apply (Hlv x); right; auto. }
  assert (Hn0 : 0 <= INR (length lv)) by apply pos_INR.
  replace (k + S (length lv))%nat with (S k + length lv)%nat by lia.
  apply IH.
  - intros x Hx. apply Hlv. right; auto.
  - rewrite S_INR. lra.
  - apply step_close; auto; lra.
  - destruct s as [[b a] t]. unfold dn_step. cbn [snd fst] in *. ra. lra.
Qed.

(** The far end of a profile in observer order. *)
Lemma far_close c n L M h' h lv : 0 <= c -> n * v <= / 2 -> lv <> [] -> 0 <= L ->
  (forall x, In x (tl lv) -> 0 <= snd x) ->
  (forall x, In x lv ->
     NR c (tk2b_mod (A:=MA m) h' (fst x)) (planckB h (fst x)) /\ 0 < tk2b_mod (A:=MA m) h' (fst x) /\
     0 < planckB h (fst x) <= M) ->
  INR (length lv) - 1 <= n ->
  fold_right Rplus 0 (map snd (tl lv)) <= L ->
  lev_close c n L M (length lv - 1) (last (levs_dn (A:=MA m) h' lv) (0, 0, 0))
    (last (levs_dn (A:=RA) h lv) (0, 0, 0)).
Proof.
  intros Hc Hnv Hne HL0 Hd HB Hn HL. destruct lv as [|[T d] lv]; [congruence|]. cbn [tl length] in *.
  rewrite S_INR in Hn. assert (Hn' : INR (length lv) <= n) by lra. cbn [levs_dn]. rewrite !last_cons.
  replace (S (length lv) - 1)%nat with (0 + length lv)%nat by lia.
  apply scan_close; auto.
  - intros x Hx. split; auto. apply HB. right; auto.
  - change (INR 0) with 0. rewrite Rplus_0_l. exact Hn'.
  - destruct (HB (T, d) (or_introl eq_refl)) as (N & P' & P). cbn [fst] in N, P', P.
    unfold lev_close. rewrite tk2b_R. ma. ra. rewrite !(rnd_0 m Hm) || idtac. cbn [litR].
    replace (0 / 1) with 0 by lra. rewrite (rnd_0 m Hm). simpl INR.
    assert (Z : 0 * M * v = 0) by ring.
    repeat split; try lra; try (apply N).
  - cbn [snd]. ra. cbn [litR]. lra.
Qed.

(** ** Back to a brightness temperature *)

Lemma near_ln1p c w' w : 0 <= c -> 0 < w -> 0 < w' -> NR c w' w -> NR c (ln (1 + w')) (ln (1 + w)).
Proof.
  intros Hc. assert (Hk := expc_ge1 v Hv c Hc). set (k := exp (c * v)) in *.
  assert (B : forall a, 0 < a -> ln (1 + k * a) <= k * ln (1 + a)).
  { intros a Ha. assert (Hka : 0 < k * a) by nra.
    assert (H1 := ln_le_sub1 ((1 + k * a) / (1 + a))). assert (Hd : 0 < (1 + k * a) / (1 + a)) by (apply Rdiv_lt_0_compat; lra).
    specialize (H1 Hd). unfold Rdiv in H1 at 1. rewrite ln_mult, ln_Rinv in H1; try lra.
    2:{ apply Rinv_0_lt_compat; lra. }
    assert (H2 := ln_ge_1_sub_inv (1 + a) ltac:(lra)).
    replace ((1 + k * a) / (1 + a) - 1) with ((k - 1) * (1 - / (1 + a))) in H1 by (field; lra).
    assert ((k - 1) * (1 - / (1 + a)) <= (k - 1) * ln (1 + a)) by (apply Rmult_le_compat_l; lra). lra. }
  intros Hw Hw' [H1 H2]. fold k in H1, H2. unfold near. fold k. split.
  - eapply Rle_trans; [|apply B; auto]. apply ln_le; lra.
  - eapply Rle_trans; [|apply B; auto]. apply ln_le; lra.
Qed.

(** [xlo] is a lower bound of [h/Tb]. *)
Lemma bright_near c h' h b' b xlo : 0 <= c -> 0 < h -> 0 < h' -> 0 < b -> NR 6 h' h -> NR c b' b ->
  0 < xlo -> xlo <= ln (1 + / b) -> (1 + c) * v <= / 2 -> 2 * / xlo * v <= / 2 ->
  NR (c + 9 + 4 * / xlo) (bright (A:=MA m) h' b') (planckT h b) /\ 0 < bright (A:=MA m) h' b'.
Proof.
  intros Hc Hh Hh' Hb NH NB Hxl Hx Hs1 Hs2. assert (Hb' := near_pos v c b' b Hb NB).
  unfold bright. ma. rewrite lit1. cbn [litR]. replace (0 / 1) with 0 by lra. rewrite (rnd_0 m Hm).
  rewrite Reqb_false by lra. cbn [negb].
  assert (P1 : 0 < 1 / b') by (apply Rdiv_lt_0_compat; lra). assert (P2 := rnd_pos m Hm _ P1).
  set (w' := rnd (1 / b')) in *. set (w := / b) in *. assert (Hw : 0 < w) by (apply Rinv_0_lt_compat; auto).
  assert (N1 : NR (1 + c) w' w).
  { unfold w. replace (/ b) with (1 / b) by (field; lra). replace (1 + c) with (1 + (0 + c)) by ring.
    apply op_div; auto; try lra. apply near_refl; auto; lra. }
  assert (N2 := near_ln1p (1 + c) w' w ltac:(lra) Hw P2 N1).
  set (Y := 1 + w') in *. set (y' := rnd Y). assert (PY : 1 < Y) by (unfold Y; lra).
  assert (LY : 0 < ln Y) by (apply ln_gt0; auto).
  assert (Hy' : 0 < y') by (apply rnd_pos; auto; lra).
  (* ln y' against ln Y *)
  assert (D : Rabs (ln y' - ln Y) <= v).
  { assert (Ny : NR 1 y' Y) by (apply rnd_near; auto; lra). destruct Ny as [Q1 Q2]. rewrite Rmult_1_l in *.
    assert (ln Y <= v + ln y').
    { rewrite <- (ln_exp v), <- ln_mult by (auto; apply exp_pos). apply ln_le; lra. }
    assert (ln y' <= v + ln Y).
    { rewrite <- (ln_exp v), <- (ln_mult (exp v) Y) by (try lra; apply exp_pos). apply ln_le; lra. }
    apply Rabs_le. lra. }
  apply Rabs_def2_le in D.
  assert (HlY : ln (1 + w) <= 2 * ln Y).
  { destruct N2 as [Q _]. eapply Rle_trans; [exact Q|]. apply Rmult_le_compat_r; [lra|].
    assert (E := exp_m1_2 ((1 + c) * v) ltac:(apply Rmult_le_pos; lra) Hs1). lra. }
  assert (Hi : 0 < / xlo) by (apply Rinv_0_lt_compat; auto).
  assert (A1 : AP 0 v (ln y') (ln Y)) by (unfold apx; rewrite Rmult_0_l, exp_0; lra).
  assert (N3 : NR (0 + 2 * (2 * / xlo)) (ln y') (ln Y)).
  { apply apx_near with v; auto; try lra.
    assert (xlo * / xlo = 1) by (apply Rinv_r; lra).
    assert (1 <= 2 * / xlo * ln Y) by nra.
    replace (2 * / xlo * v * ln Y) with (2 * / xlo * ln Y * v) by ring.
    rewrite <- (Rmult_1_l v) at 1. apply Rmult_le_compat_r; auto. }
  assert (Ly' : 0 < ln y') by (apply (near_pos v _ _ _ LY N3)).
  assert (N4 : NR 1 (m_ln m y') (ln y')).
  { apply rel_near; auto; [lra|]. assert (Q := ok_ln m Hm y' Hy'). rewrite (Rabs_pos_eq (ln y')) in Q by lra. exact Q. }
  assert (N5 := near_trans v _ _ _ _ _ (near_trans v _ _ _ _ _ N4 N3) N2).
  assert (Pl : 0 < ln (1 + w)) by lra.
  assert (Pl' : 0 < m_ln m y') by (apply (near_pos v _ _ _ Ly' N4)).
  split.
  - unfold planckT. fold w.
    replace (c + 9 + 4 * / xlo) with (1 + (6 + (1 + (0 + 2 * (2 * / xlo)) + (1 + c)))) by ring.
    apply op_div; auto; lra.
  - apply rnd_pos; auto. apply Rdiv_lt_0_compat; auto.
Qed.

End Round.
