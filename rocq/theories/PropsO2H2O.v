(** Claims C55 (oxygen) and C57 (water vapour): sign of the absorption, over the reals. *)

From Coq Require Import ZArith Reals Lra Lia Psatz String List Bool.
Import ListNotations.
From Verif Require Import Arith PyBase Utils Absorption Clear Spec RealAux SolverGen PropsAbsN2 PropsLiq PropsClear.
Local Open Scope string_scope.
Open Scope R_scope.

(** ** C55 *)

(** Vapour pressure (hPa) recovered by the code from the density: never more than the 10 e it started from. *)
Lemma pv_range ek vx : 0 < vx -> 0 <= ek ->
  let t := 300 / vx in let rho := ek * 10 / (831451 / 10000000 / (1801528 / 100000) * t) in
  (0 <= rho * t / (21668 / 100) <= 10 * ek) /\ (0 <= rho * t / 217 <= 10 * ek) /\ (0 <= 4615228 / 1000000000 * rho * t <= 10 * ek).
Proof.
  intros Hv He t rho. assert (Ht : 0 < t) by (apply div_pos; lra).
  assert (E : rho * t = 10 * ek * (1801528 * 100 / 831451)) by (unfold rho; field; lra).
  replace (4615228 / 1000000000 * rho * t) with (4615228 / 1000000000 * (rho * t)) by ring. rewrite E. lra.
Qed.

Lemma o2_env_vals m (ll : o2_ll RA) pd vx ek : 0 < vx -> 0 <= pd -> 0 <= ek -> 0 <= o_wb300 ll ->
  let q := o2_env_of (A:=RA) m ll pd vx ek in
  q_th q = vx /\ 0 <= q_presda q /\ 0 <= q_den q /\ 0 <= q_dfnr q.
Proof.
  intros Hv Hp He Hw q.
  assert (Hth : q_th q = vx).
  { unfold q, o2_env_of. cbn [q_th]. ra. replace (3000 / 10) with 300 by lra. field. lra. }
  destruct (pv_range ek vx Hv He) as (R1 & R2 & R3). cbv zeta in *.
  set (t := 300 / vx) in *. assert (Ht : 0 < t) by (apply div_pos; lra).
  assert (D : exists pv b th, 0 <= pv <= 10 * ek /\ 0 < b /\ 0 < th /\ q_presda q = (pd + ek) * 10 - pv /\
      (q_den q = 0.001 * (q_presda q * b + 1.2 * pv * th) \/ q_den q = 0.001 * (q_presda q * b + 1.1 * pv * th) \/
       q_den q = 0.001 * (q_presda q + 1.1 * pv) * th)).
  { unfold q, o2_env_of. cbn [q_presda q_den]. ra.
    replace (1 / 100 * (8314510 / 1000000) / (1801528 / 100000)) with (831451 / 10000000 / (1801528 / 100000)) by field.
    replace (3000 / 10) with 300 by lra. fold t. replace (100 / 10) with 10 by lra.
    match goal with |- context [_ - (if ?a then ?x else if ?b then ?y else ?z)] => set (pv := if a then x else if b then y else z) end.
    exists pv.
    assert (Hpv : 0 <= pv <= 10 * ek).
    { unfold pv. destruct (str_in m ["R22"; "R22SD"; "R23"; "R23SD"; "R24"]); [exact R3|].
      destruct (str_in m ["R03"; "R16"; "R17"; "R18"; "R98"]); [replace (2170 / 10) with 217 by lra; exact R2|exact R1]. }
    clearbody pv. assert (Hth2 : 0 < 300 / t) by (apply div_pos; lra).
    destruct (String.eqb m "R98"); [exists 1, (300 / t); repeat split; try lra; right; right; lra|].
    destruct (String.eqb m "R03").
    - exists (Rpowf (300 / t) (9 / 10)), (300 / t). rewrite Rpowf_pos by auto. split; [lra|]. split; [apply Rpower_pos|]. split; [lra|]. split; [reflexivity|]. right; left; lra.
    - exists (Rpowf (300 / t) (o_x ll)), (300 / t). rewrite Rpowf_pos by auto. split; [lra|]. split; [apply Rpower_pos|]. split; [lra|]. split; [reflexivity|].
      destruct (str_in m ["R03"; "R16"; "R98"]); [right; left|left]; lra. }
  destruct D as (pv & b & th & Hpv & Hb & Hth' & Ep & Ed).
  assert (Hda : 0 <= q_presda q) by (rewrite Ep; lra).
  assert (Hden : 0 <= q_den q).
  { assert (0 <= q_presda q * b) by (apply Rmult_le_pos; lra). assert (0 <= pv * th) by (apply Rmult_le_pos; lra).
    assert (0 <= q_presda q * th) by (apply Rmult_le_pos; lra). destruct Ed as [->|[->| ->]]; lra. }
  repeat split; auto. unfold q, o2_env_of. cbn [q_dfnr]. apply Rmult_le_pos; auto.
Qed.

Lemma o2_cont_nonneg m (q : o2_env RA) f : 0 < q_th q -> 0 <= q_presda q -> 0 <= q_dfnr q -> f <> 0 -> 0 <= o2_cont (A:=RA) m q f.
Proof.
  intros Ht Hp Hd Hf. unfold o2_cont. rewrite !powi3. set (th := q_th q) in *. set (pd := q_presda q) in *. set (w := q_dfnr q) in *. clearbody th pd w.
  assert (F2 : 0 < f * f) by nra. assert (W2 := sq_nonneg w).
  assert (X : forall k, 0 <= k -> 0 <= k * f * f * w / (th * (f * f + w * w))).
  { intros k Hk. apply div_nonneg; [|apply Rmult_lt_0_compat; lra]. replace (k * f * f * w) with (k * (f * f) * w) by ring.
    apply Rmult_le_pos; auto. apply Rmult_le_pos; lra. }
  assert (T3 : 0 < th * th * th) by (repeat apply Rmult_lt_0_compat; auto).
  destruct (str_in m ["R03"; "R98"]); ra.
  - apply Rmult_le_pos; [apply X; lra|]. apply div_nonneg; [|lra]. apply Rmult_le_pos; [|lra]. apply Rmult_le_pos; lra.
  - apply Rmult_le_pos; [apply X; lra|]. apply Rmult_le_pos; [|lra]. apply Rmult_le_pos; lra.
Qed.

Lemma maxv0 (x : R) : 0 <= maxv (A:=RA) x (lit (Dec 0 10)).
Proof. unfold maxv. ra. destruct (Rltb_spec x (0 / 10)) as [L|L]; lra. Qed.

Lemma o2_abs_nonneg m (q : o2_env RA) s f : m <> "R98"%string -> 0 <= o2_abs (A:=RA) m q s f.
Proof.
  intros H. unfold o2_abs. replace (String.eqb m "R98") with false by (symmetry; apply String.eqb_neq; auto). cbn [negb]. cbv zeta.
  destruct (str_in m ["R20"; "R20SD"; "R22"; "R22SD"]); [|apply maxv0].
  match goal with |- context [mul _ (maxv ?x ?z)] => assert (M := maxv0 x); change (maxv (A:=RA) x z) with (maxv (A:=RA) x (lit (Dec 0 10))) end.
  match goal with |- context [mul _ ?x] => set (a := x) in * end. clearbody a. ra. nra.
Qed.

Lemma npkm_sign f x : 0 < f -> 0 <= npkm f x -> 0 <= x.
Proof.
  intros Hf H. unfold npkm in H. assert (D := db2np_pos). rewrite db2np_val in D.
  destruct (Rle_lt_dec 0 x) as [L|L]; auto. exfalso.
  assert (0 < 0.182 * f * (ln 10 / 10)) by (apply Rmult_lt_0_compat; lra). nra.
Qed.

(** Every oxygen model except R98 gives non-negative line and continuum parts, for every line list with a
    non-negative non-resonant width. *)
Theorem C55_o2_nonnegative m (ll : o2_ll RA) pd vx ek f n c : m <> "R98"%string -> 0 < vx -> 0 <= pd -> 0 <= ek -> 0 <= o_wb300 ll -> 0 < f ->
  o2_absorption (A:=RA) m ll pd vx ek f = (n, c) -> 0 <= n /\ 0 <= c.
Proof.
  intros Hm Hv Hp He Hw Hf H. destruct (C53_o2_units m ll pd vx ek f n c ltac:(lra) H) as [H1 H2]. cbv zeta in *.
  destruct (o2_env_vals m ll pd vx ek Hv Hp He Hw) as (E1 & E2 & E3 & E4). split; apply (npkm_sign f); auto.
  - rewrite H1. apply o2_abs_nonneg; auto.
  - rewrite H2. destruct (str_in m _); [lra|]. apply o2_cont_nonneg; auto; [rewrite E1; auto|lra].
Qed.
