(** Claim C54 (nitrogen), over the reals. *)

From Coq Require Import ZArith Reals Lra Lia Psatz String List Bool.
Import ListNotations.
From Verif Require Import Arith PyBase Utils Absorption Clear Spec RealAux.
Local Open Scope string_scope.
Open Scope R_scope.

Ltac strin := unfold str_in; cbn [existsb String.eqb Ascii.eqb Bool.eqb orb negb andb].

(** evaluate the powers of ten in decimal literals so that [field] sees integers *)
Ltac dec := repeat match goal with |- context [Z.pow_pos ?a ?b] => let v := eval compute in (Z.pow_pos a b) in change (Z.pow_pos a b) with v end.

Lemma powi2 (x : R) : powi (A:=RA) x 2 = x * x.
Proof. cbn. ra. ring. Qed.
Lemma powi3 (x : R) : powi (A:=RA) x 3 = x * x * x.
Proof. cbn. ra. ring. Qed.
Lemma Rpower_pos x y : 0 < Rpower x y.
Proof. apply exp_pos. Qed.
Lemma div_pos a b : 0 < a -> 0 < b -> 0 < a / b.
Proof. intros. apply Rmult_lt_0_compat; auto. apply Rinv_0_lt_compat; auto. Qed.
Lemma div_nonneg a b : 0 <= a -> 0 < b -> 0 <= a / b.
Proof. intros. apply Rmult_le_pos; auto. left. apply Rinv_0_lt_compat; auto. Qed.

Lemma sq_nonneg x : 0 <= x * x.
Proof. exact (Rle_0_sqr x). Qed.

(** ** C54 *)

Definition n2_models : list string := ["R16"; "R17"; "R18"; "R19"; "R19SD"; "R20"; "R20SD"; "R21SD"; "R22"; "R22SD"; "R23"; "R23SD"; "R24"; "R03"; "MWL24"; "R98"].

(** Unknown names, and only those, are rejected. *)
Theorem C54_names (A : Arith) m (t p f : car A) :
  (In m n2_models -> exists v, n2_absorption (A:=A) m t p f = Ok v) /\
  (~ In m n2_models -> n2_absorption (A:=A) m t p f = Err ValueError).
Proof.
  split; intros H.
  - repeat (destruct H as [<-|H]; [eexists; reflexivity|]). destruct H.
  - assert (E : forall s, In s n2_models -> String.eqb m s = false).
    { intros s Hs. apply String.eqb_neq. intros ->. contradiction. }
    unfold n2_absorption, n2_params, str_in, existsb. rewrite !E by (simpl; auto 20). reflexivity.
Qed.

(** Shape shared by all models: strength times square of pressure times a factor depending on t and f. *)
Definition n2_coef (m : string) : R * R * R :=   (* l, exponent, n *)
  if String.eqb m "R98" then (6.4e-14, 3.55, 1)
  else if String.eqb m "R03" then (6.5e-14, 3.6, 1.29)
  else if str_in m ["R16"; "R17"; "R18"; "R19"; "R19SD"] then (6.5e-14, 3.6, 1.34)
  else (9.95e-14, 3.22, 1).

Definition n2_fdep (m : string) (f : R) : R := if String.eqb m "R98" then 1 else 0.5 + 0.5 / (1 + (f / 450) * (f / 450)).

(** mwl24 pieces *)
Definition mwl_m0 (f : R) := 1.4359 - 0.0005385 * f + 1.6182e-7 * (f * f) + 1.8845e-10 * (f * f * f).
Definition mwl_aa (f : R) := 0.07988 - 0.0005165 * f + 1.131e-6 * (f * f) - 5.738e-10 * (f * f * f).
Definition mwl_pot (t : R) := exp (108 / (0.6950354549 * t)) - (1 + 108 / (0.6950354549 * t)).
Definition mwl_spec (f : R) := 1.754e-18 * 0.5 *
  (1 + 1.033 * (1 + 0.1510 / (1 + ((f - 358) / 127) * ((f - 358) / 127))) / (1 + ((f - 44) / 568) * ((f - 44) / 568))
   + 0.1420 * exp (- ((f / 92 - 1) * (f / 92 - 1)))).

Lemma n2_std m t p f : In m n2_models -> m <> "MWL24"%string -> 0 < t ->
  n2_absorption (A:=RA) m t p f = Ok (let '(l, x, n) := n2_coef m in n * (l * n2_fdep m f * p * p * f * f * Rpower (300 / t) x)).
Proof.
  intros Hm Hn Ht. assert (Hp : 0 < 300 / t) by (apply div_pos; lra).
  repeat (destruct Hm as [<-|Hm]; [try congruence; unfold n2_absorption, n2_params, n2_coef, n2_fdep; strin; cbn [bind]; f_equal;
     rewrite ?powi2; ra; replace (3000 / 10) with 300 by lra; rewrite Rpowf_pos by auto; 
     repeat (f_equal; try lra) |]). destruct Hm.
Qed.

Lemma n2_mwl t p f : 0 < t ->
  n2_absorption (A:=RA) "MWL24" t p f =
  Ok (0.84 * (mwl_spec f * Rpower (300 / t) (mwl_m0 f + mwl_aa f * ln (300 / t)) * (mwl_pot t / mwl_pot 300)
              * ((p * 0.7500616827) * (p * 0.7500616827)) * (f * f) * 1.0e5)).
Proof.
  intros Ht. assert (Hp : 0 < 300 / t) by (apply div_pos; lra).
  unfold n2_absorption, n2_params. strin. cbn [bind]. f_equal. unfold n2_absorption_mwl24, poly4. rewrite !powi2, !powi3. ra.
  replace (3000 / 10) with 300 by lra. rewrite Rpowf_pos by auto.
  unfold mwl_spec, mwl_pot.
  match goal with |- context [Rpower (300 / t) ?a] => replace a with (mwl_m0 f + mwl_aa f * ln (300 / t)) end.
  2:{ unfold mwl_m0, mwl_aa. generalize (ln (300 / t)). intros x. lra. }
  repeat (f_equal; try lra).
Qed.

Lemma exp_gt_1_add x : 0 < x -> 1 + x < exp x.
Proof. intros H. apply exp_ineq1. lra. Qed.

Lemma pot_pos t : 0 < t -> 0 < mwl_pot t.
Proof. intros Ht. unfold mwl_pot. assert (0 < 108 / (0.6950354549 * t)) by (apply div_pos; lra). assert (H1 := exp_gt_1_add _ H). lra. Qed.

(** x - ln-free monotonicity of exp x - 1 - x for x > 0 *)
Lemma expm1_mono x y : 0 < x -> x < y -> exp x - (1 + x) < exp y - (1 + y).
Proof.
  intros Hx Hxy. assert (E : exp y = exp x * exp (y - x)) by (rewrite <- exp_plus; f_equal; lra).
  assert (H1 : 1 + (y - x) < exp (y - x)) by (apply exp_gt_1_add; lra). assert (H2 := exp_gt_1_add x Hx). rewrite E. nra.
Qed.

Lemma pot_decreasing t1 t2 : 0 < t1 -> t1 < t2 -> mwl_pot t2 < mwl_pot t1.
Proof.
  intros H1 H2. unfold mwl_pot. apply expm1_mono; [apply div_pos; lra|].
  apply Rmult_lt_compat_l; [lra|]. apply Rinv_lt_contravar; nra.
Qed.

Lemma spec_pos f : 0 < mwl_spec f.
Proof.
  unfold mwl_spec. set (u := (f - 358) / 127). set (v := (f - 44) / 568). set (w := f / 92 - 1).
  assert (0 < exp (- (w * w))) by apply exp_pos.
  assert (0 <= u * u) by nra. assert (0 <= v * v) by nra.
  assert (0 < 0.1510 / (1 + u * u)) by (apply div_pos; lra).
  assert (0 < 1.033 * (1 + 0.1510 / (1 + u * u)) / (1 + v * v)) by (apply div_pos; lra).
  lra.
Qed.

(** Non-negative for every known model, temperature above 0 K, pressure and frequency (of any sign). *)
Theorem C54_nonnegative m t p f v : 0 < t -> n2_absorption (A:=RA) m t p f = Ok v -> 0 <= v.
Proof.
  intros Ht H. destruct (in_dec String.string_dec m n2_models) as [Hm|Hm].
  2:{ rewrite (proj2 (C54_names RA m t p f) Hm) in H. discriminate. }
  destruct (String.string_dec m "MWL24") as [->|Hn].
  - rewrite n2_mwl in H by auto. injection H as <-.
    assert (0 < mwl_pot t / mwl_pot 300) by (apply div_pos; apply pot_pos; lra).
    assert (S := spec_pos f). assert (P := Rpower_pos (300 / t) (mwl_m0 f + mwl_aa f * ln (300 / t))).
    assert (0 <= p * 0.7500616827 * (p * 0.7500616827)) by nra. assert (0 <= f * f) by nra.
    set (q := mwl_pot t / mwl_pot 300) in *. clearbody q. set (pp := p * 0.7500616827 * (p * 0.7500616827)) in *. clearbody pp.
    set (ff := f * f) in *. clearbody ff. apply Rmult_le_pos; [lra|]. repeat (apply Rmult_le_pos; [|lra]). lra.
  - rewrite n2_std in H by auto. injection H as <-.
    assert (F : 0 < n2_fdep m f).
    { unfold n2_fdep. destruct (String.eqb m "R98"); [lra|]. assert (0 <= f / 450 * (f / 450)) by nra. 
      assert (0 < 0.5 / (1 + f / 450 * (f / 450))) by (apply div_pos; lra). lra. }
    unfold n2_coef. destruct (String.eqb m "R98"); [|destruct (String.eqb m "R03"); [|destruct (str_in m _)]].
    all: match goal with |- context [Rpower ?a ?b] => assert (P := Rpower_pos a b); generalize dependent (Rpower a b) end; intros r P.
    all: assert (0 <= p * p) by nra; assert (0 <= f * f) by nra; assert (0 < n2_fdep m f * r) by nra.
    all: match goal with |- 0 <= ?n * (?l * _ * _ * _ * _ * _ * _) => replace (n * (l * n2_fdep m f * p * p * f * f * r)) with (n * l * ((p * p) * (f * f) * (n2_fdep m f * r))) by ring end.
    all: set (pp := p * p) in *; clearbody pp; set (ff := f * f) in *; clearbody ff; set (g := n2_fdep m f * r) in *; clearbody g; apply Rmult_le_pos; [lra|]; repeat apply Rmult_le_pos; lra.
Qed.

(** Proportional to the square of the pressure. *)
Theorem C54_pressure_squared m t p k f v : 0 < t -> n2_absorption (A:=RA) m t p f = Ok v ->
  n2_absorption (A:=RA) m t (k * p) f = Ok (k * k * v).
Proof.
  intros Ht H. destruct (in_dec String.string_dec m n2_models) as [Hm|Hm].
  2:{ rewrite (proj2 (C54_names RA m t p f) Hm) in H. discriminate. }
  destruct (String.string_dec m "MWL24") as [->|Hn].
  - rewrite n2_mwl in * by auto. injection H as <-. f_equal. ring.
  - rewrite n2_std in * by auto. injection H as <-. f_equal. destruct (n2_coef m) as [[l x] n]. ring.
Qed.

Lemma mwl_aa_bounds f : 0 <= f <= 1000 -> 0 <= mwl_aa f <= 0.13.
Proof.
  intros Hf. unfold mwl_aa. split.
  - assert (0 <= (f - 294) * (f - 294) * (1383 - f)) by (apply Rmult_le_pos; [apply sq_nonneg|lra]). nra.
  - assert (0 <= (f - 1020) * (f - 1020) * (f + 69)) by (apply Rmult_le_pos; [apply sq_nonneg|lra]). nra.
Qed.
Lemma mwl_m0_bound f : 0 <= f -> 1 <= mwl_m0 f.
Proof. intros Hf. unfold mwl_m0. assert (0 <= f * f * f) by (apply Rmult_le_pos; nra). nra. Qed.

(** Falls with temperature.  The mwl24 fit has a temperature exponent that itself depends on temperature; there the
    claim is for 0 - 1000 GHz and 1 - 400 K. *)
Theorem C54_falls_with_temperature m t1 t2 p f v1 v2 : 0 < t1 -> t1 < t2 -> p <> 0 -> f <> 0 ->
  (m = "MWL24"%string -> 0 <= f <= 1000 /\ t2 <= 400) ->
  n2_absorption (A:=RA) m t1 p f = Ok v1 -> n2_absorption (A:=RA) m t2 p f = Ok v2 -> v2 < v1.
Proof.
  intros H1 H12 Hp Hf HM E1 E2. destruct (in_dec String.string_dec m n2_models) as [Hm|Hm].
  2:{ rewrite (proj2 (C54_names RA m t1 p f) Hm) in E1. discriminate. }
  assert (Q1 : 0 < 300 / t1) by (apply div_pos; lra). assert (Q2 : 0 < 300 / t2) by (apply div_pos; lra).
  assert (Q : 300 / t2 < 300 / t1) by (apply Rmult_lt_compat_l; [lra|]; apply Rinv_lt_contravar; nra).
  assert (0 < p * p) by nra. assert (0 < f * f) by nra.
  destruct (String.string_dec m "MWL24") as [->|Hn].
  - destruct (HM eq_refl) as [Hf2 Ht2]. rewrite n2_mwl in E1, E2 by lra. injection E1 as <-. injection E2 as <-.
    assert (S := spec_pos f). assert (P := pot_decreasing t1 t2 H1 H12).
    assert (0 < mwl_pot 300) by (apply pot_pos; lra). assert (0 < mwl_pot t2) by (apply pot_pos; lra).
    assert (P' : mwl_pot t2 / mwl_pot 300 < mwl_pot t1 / mwl_pot 300) by (apply Rmult_lt_compat_r; auto; apply Rinv_0_lt_compat; auto).
    assert (P'' : 0 < mwl_pot t2 / mwl_pot 300) by (apply div_pos; auto).
    set (x1 := ln (300 / t1)). set (x2 := ln (300 / t2)).
    assert (X : x2 < x1) by (apply ln_increasing; auto).
    assert (X2 : - (1 / 2) <= x2).
    { unfold x2. assert (L := ln_ge_1_sub_inv (300 / t2) Q2). replace (/ (300 / t2)) with (t2 / 300) in L by (field; lra). lra. }
    assert (R : Rpower (300 / t2) (mwl_m0 f + mwl_aa f * x2) < Rpower (300 / t1) (mwl_m0 f + mwl_aa f * x1)).
    { unfold Rpower. fold x1 x2. apply exp_increasing. assert (A := mwl_aa_bounds f Hf2). assert (B := mwl_m0_bound f (proj1 Hf2)).
      assert (0 < (mwl_m0 f + mwl_aa f * (x1 + x2)) * (x1 - x2)) by (apply Rmult_lt_0_compat; nra). nra. }
    assert (R2 := Rpower_pos (300 / t2) (mwl_m0 f + mwl_aa f * x2)).
    assert (PP : Rpower (300 / t2) (mwl_m0 f + mwl_aa f * x2) * (mwl_pot t2 / mwl_pot 300) < Rpower (300 / t1) (mwl_m0 f + mwl_aa f * x1) * (mwl_pot t1 / mwl_pot 300)).
    { apply Rmult_gt_0_lt_compat; lra. }
    set (K := 0.84 * 1.0e5 * (mwl_spec f * ((p * 0.7500616827) * (p * 0.7500616827)) * (f * f))).
    assert (0 < K).
    { unfold K. apply Rmult_lt_0_compat; [lra|]. apply Rmult_lt_0_compat; [|lra]. apply Rmult_lt_0_compat; [lra|]. nra. }
    apply Rminus_gt_0_lt. match goal with |- 0 < ?e => replace e with (K * (Rpower (300 / t1) (mwl_m0 f + mwl_aa f * x1) * (mwl_pot t1 / mwl_pot 300)
       - Rpower (300 / t2) (mwl_m0 f + mwl_aa f * x2) * (mwl_pot t2 / mwl_pot 300))) by (unfold K; ring) end.
    apply Rmult_lt_0_compat; lra.
  - rewrite n2_std in E1, E2 by (auto; lra). injection E1 as <-. injection E2 as <-.
    assert (F : 0 < n2_fdep m f).
    { unfold n2_fdep. destruct (String.eqb m "R98"); [lra|]. assert (0 <= f / 450 * (f / 450)) by nra. 
      assert (0 < 0.5 / (1 + f / 450 * (f / 450))) by (apply div_pos; lra). lra. }
    assert (C : let '(l, x, n) := n2_coef m in 0 < l /\ 0 < x /\ 0 < n).
    { unfold n2_coef. destruct (String.eqb m "R98"); [lra|destruct (String.eqb m "R03"); [lra|destruct (str_in m _); lra]]. }
    destruct (n2_coef m) as [[l x] n]. destruct C as (C1 & C2 & C3).
    assert (R : Rpower (300 / t2) x < Rpower (300 / t1) x).
    { unfold Rpower. apply exp_increasing. apply Rmult_lt_compat_l; auto. apply ln_increasing; auto. }
    apply Rminus_gt_0_lt. match goal with |- 0 < ?e => replace e with (n * l * (n2_fdep m f * (p * p) * (f * f)) * (Rpower (300 / t1) x - Rpower (300 / t2) x)) by ring end.
    apply Rmult_lt_0_compat; [|lra]. apply Rmult_lt_0_compat; [nra|]. apply Rmult_lt_0_compat; auto. apply Rmult_lt_0_compat; auto.
Qed.

Example C54_example : exists v1 v2, n2_absorption (A:=RA) "MWL24" 250 900 100 = Ok v1 /\ n2_absorption (A:=RA) "MWL24" 290 900 100 = Ok v2 /\ 0 <= v2 < v1 /\
  n2_absorption (A:=RA) "R21" 250 900 100 = Err ValueError.
Proof.
  destruct (proj1 (C54_names RA "MWL24" 250 900 100) ltac:(simpl; auto 20)) as [v1 E1].
  destruct (proj1 (C54_names RA "MWL24" 290 900 100) ltac:(simpl; auto 20)) as [v2 E2]. exists v1, v2.
  split; [exact E1|]. split; [exact E2|]. split; [|reflexivity].
  split; [refine (C54_nonnegative _ _ _ _ _ _ E2); lra|].
  apply (C54_falls_with_temperature "MWL24" 250 290 900 100 v1 v2); auto; lra.
Qed.
